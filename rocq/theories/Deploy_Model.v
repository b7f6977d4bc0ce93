(** Deploying actors on a node of the cluster (coerce/src/remote/system/actor.rs:115-241,
    handler.rs:134-168, net/server/session/mod.rs:590-619). *)
From Verif Require Export Locate_Model.

(** system/actor.rs:17-25, those a deployment may end with. [NodeErr] is left out: no node sends an
    error for a deployment, and the ids of requests are fresh. *)
Inductive perr := PRecipe | PExists | PNotSupported | PUnavailable.

(** Where a deployment is: the request travels; the target looks the id up (lookup [q] of the
    registries); it creates the actor; the actor starts; the result travels back; the target
    failed and only logs that (session/mod.rs:614-617); a frame was lost; the caller was answered. *)
Inductive phase :=
| Sent | Looking (q : nat) | Creating | Starting | Replied | Refused | Dropped | Answered.
Record pcall := PCall {
  p_from : N; p_to : N; p_id : string; p_type : string; p_recipe : option bytes; p_phase : phase
}.

(** What happens to deployment [k]: its actor is made on a node; it did, or did not, start; its factory
    gave none; the deployment failed on its target; the caller gets a reference or an error. *)
Inductive pevent :=
| PMade (k : nat) (n : N) (id : string)
| PUp (k : nat)
| PDied (k : nat)
| PNoActor (k : nat)
| PFailed (k : nat) (e : perr)
| PRef (k : nat) (n : N) (id : string)
| PErr (k : nat) (e : perr).

Record psys := PSys { ps_world : world; ps_calls : gmap nat pcall; ps_next : nat; ps_log : list pevent }.
Definition new_psys : psys := PSys new_world ∅ 0 [].

Section deploy.
Variable rhash : N -> string -> string -> option Z -> N.
Variable khash : string -> N.
Variable search : list N -> N -> nat.
(** The handlers of each node (config/mod.rs:85-89) and the recipes they decode
    ([Recipe::read_from_bytes], user code). *)
Variable handlers : N -> string -> option (bytes -> bool).

(** [PDeploy]: a call of [deploy_actor], with the id it uses (115-134; [recipe] is the result of
    [write_to_bytes]); [PArrive]: the target receives it ([fresh]: a new id); [PLose]: a frame of
    the deployment is lost; [PChecked]: the lookup was answered; [PCreate]: the handler is called
    ([ok]: the factory gives an actor, user code); [PStart]: the [started] hook of the actor ended, or
    panicked; [PReply]: the result arrives; [PWorld]: anything else that happens. *)
Inductive pop :=
| PDeploy (from : N) (id ty : string) (recipe : option bytes) (to : N)
| PArrive (k : nat) (fresh : string)
| PLose (k : nat)
| PChecked (k : nat)
| PCreate (k : nat) (ok : bool)
| PStart (k : nat) (ok : bool)
| PReply (k : nat)
| PWorld (o : lop).

Definition tell (s : psys) (l : list pevent) : psys := PSys (ps_world s) (ps_calls s) (ps_next s) (ps_log s ++ l).
Definition with_phase (c : pcall) (p : phase) : pcall :=
  PCall (p_from c) (p_to c) (p_id c) (p_type c) (p_recipe c) p.
Definition put (s : psys) (k : nat) (c : pcall) : psys :=
  PSys (ps_world s) (<[k := c]> (ps_calls s)) (ps_next s) (ps_log s).

(** The end of [handle_create_actor] with an error: the caller on the same node gets it
    (actor.rs:136-147), the session of another node logs it (session/mod.rs:614-617). *)
Definition pfail (s : psys) (k : nat) (c : pcall) (e : perr) : psys :=
  if decide (p_from c = p_to c) then tell (put s k (with_phase c Answered)) [PFailed k e; PErr k e]
  else tell (put s k (with_phase c Refused)) [PFailed k e].
(** And with the address (actor.rs:141-143, 168-178; session/mod.rs:613). *)
Definition psucceed (s : psys) (k : nat) (c : pcall) : psys :=
  if decide (p_from c = p_to c) then tell (put s k (with_phase c Answered)) [PUp k; PRef k (p_to c) (p_id c)]
  else tell (put s k (with_phase c Replied)) [PUp k].

(** actor.rs:190-195: the lookup begins at the target *)
Definition plook (s : psys) (k : nat) (c : pcall) : option psys :=
  w ← lstep rhash khash search (ps_world s) (LLook (p_to c) (p_id c));
  Some (PSys w (<[k := with_phase c (Looking (w_next (ps_world s)))]> (ps_calls s)) (ps_next s) (ps_log s)).

(** The answer of a lookup. *)
Definition answer_of (q : nat) (l : list levent) : option (option N) :=
  head (omap (fun e => match e with LAnswer q' _ _ r _ => if (q =? q')%nat then Some r else None | _ => None end) l).

Definition pstep (s : psys) (o : pop) : option psys :=
  match o with
  | PDeploy from id ty recipe to =>
      let k := ps_next s in
      let s1 := PSys (ps_world s) (ps_calls s) (S k) (ps_log s) in
      let c := PCall from to id ty recipe Sent in
      match recipe with
      | None => Some (tell (put s1 k (with_phase c Answered)) [PErr k PRecipe])
      | Some _ => if decide (from = to) then plook s1 k c else Some (put s1 k c)
      end
  | PArrive k fresh =>
      c ← ps_calls s !! k;
      match p_phase c with
      | Sent =>
          if String.eqb (p_id c) "" then Some (put s k (PCall (p_from c) (p_to c) fresh (p_type c) (p_recipe c) Creating))
          else plook s k c
      | _ => None
      end
  | PLose k =>
      c ← ps_calls s !! k;
      match p_phase c with
      | Sent | Replied => Some (put s k (with_phase c Dropped))
      | _ => None
      end
  | PChecked k =>
      c ← ps_calls s !! k;
      match p_phase c with
      | Looking q =>
          match answer_of q (w_log (ps_world s)) with
          | Some (Some _) => Some (pfail s k c PExists)
          | Some None => Some (put s k (with_phase c Creating))
          | None => None
          end
      | _ => None
      end
  | PCreate k ok =>
      c ← ps_calls s !! k;
      match p_phase c with
      | Creating =>
          match handlers (p_to c) (p_type c) with
          | None => Some (pfail s k c PNotSupported)
          | Some decodes =>
              if decodes (default [] (p_recipe c)) then
                if ok then
                  w ← lstep rhash khash search (ps_world s) (LCreate (p_to c) (p_id c));
                  Some (PSys w (<[k := with_phase c Starting]> (ps_calls s)) (ps_next s)
                          (ps_log s ++ [PMade k (p_to c) (p_id c)]))
                else Some (pfail (tell s [PNoActor k]) k c PUnavailable)
              else Some (pfail s k c PUnavailable)
          end
      | _ => None
      end
  | PStart k ok =>
      c ← ps_calls s !! k;
      match p_phase c with
      | Starting => Some (if ok then psucceed s k c else pfail (tell s [PDied k]) k c PUnavailable)
      | _ => None
      end
  | PReply k =>
      c ← ps_calls s !! k;
      match p_phase c with
      | Replied => Some (tell (put s k (with_phase c Answered)) [PRef k (p_to c) (p_id c)])
      | _ => None
      end
  | PWorld o => w ← lstep rhash khash search (ps_world s) o; Some (PSys w (ps_calls s) (ps_next s) (ps_log s))
  end.

Fixpoint prun (s : psys) (l : list pop) : option psys :=
  match l with
  | [] => Some s
  | o :: l' => s' ← pstep s o; prun s' l'
  end.
End deploy.
