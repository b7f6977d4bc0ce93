(** What is expected of a shard host. *)
From Verif Require Import Host_Model.
Local Open Scope N_scope.

Section spec.
Context {R : Type}.
Implicit Types (h : host R) (l : list (hmsg R)) (eff : list (heffect R)).

Definition msg_shard (m : hmsg R) : N :=
  match m with
  | MRequest s _ | MAllocated s _ | MReady s _ | MReallocating s | MStop s _ | MStopped s => s
  end.
Definition about (s : N) (m : hmsg R) : bool := msg_shard m =? s.

Definition arrived (s : N) l : list R :=
  omap (fun m => match m with MRequest s' r => if s' =? s then Some r else None | _ => None end) l.
(** Requests handed to the shard, local or remote, in order. *)
Definition handed (s : N) eff : list R :=
  omap (fun e => match e with
                 | HForward s' _ r => if s' =? s then Some r else None
                 | HRemote s' _ r => if s' =? s then Some r else None
                 | _ => None end) eff.
Definition lost (s : N) eff : list R :=
  omap (fun e => match e with HLost s' r => if s' =? s then Some r else None | _ => None end) eff.

Definition starting h (s : N) : Prop := exists a buf req, sh_hosted h !! s = Some (HStarting a buf req).
(** Requests kept for the shard: for its start and for its allocation. *)
Definition buffered h (s : N) : list R :=
  match sh_hosted h !! s with Some (HStarting _ buf _) => buf | _ => [] end.
Definition pending h (s : N) : list R := default [] (sh_pending h !! s).
Definition kept h (s : N) : list R := buffered h s ++ pending h s.

(** The start of [s] is not disturbed by this message: it is not a request to stop [s], does
    not move [s] away while it starts, and a shard reports that it is ready, or that it has
    stopped, only if it was starting resp. was not. *)
Definition calm (s : N) h (m : hmsg R) : Prop :=
  match m with
  | MStop s' _ => s' <> s
  | MStopped s' => s' = s -> ~ starting h s
  | MAllocated s' n => s' = s -> n <> sh_node h -> ~ starting h s
  | MReady s' _ => s' = s -> starting h s
  | _ => True
  end.
Fixpoint calm_run (s : N) h l : Prop :=
  match l with
  | [] => True
  | m :: l' => calm s h m /\ calm_run s (hstep h m).1 l'
  end.

End spec.
