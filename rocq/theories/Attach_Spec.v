(** What the user of an attached stream expects, over the observable trace. *)
From Verif Require Import Actor_Model Actor_Spec Attach_Model.

Section spec.
  Context {Msg Res R : Type}.

  (** What stream [k] gave, up to its end, and whether it has ended. *)
  Fixpoint given (k : nat) (ops : list (wop Msg R)) : list (sitem R) * bool :=
    match ops with
    | [] => ([], false)
    | WArrive j x :: ops' => if decide (j = k) then (x :: (given k ops').1, (given k ops').2) else given k ops'
    | WEnd j :: ops' => if decide (j = k) then ([], true) else given k ops'
    | _ :: ops' => given k ops'
    end.

  (** What the actor is to be sent: the elements that can be converted, in order, up to the end
      of the stream or its first error, and then a request to stop. *)
  Fixpoint expected (conv : R -> option Msg) (l : list (sitem R)) (ended : bool) : list (request Msg) :=
    match l with
    | [] => if ended then [RStop false] else []
    | SErr :: _ => [RStop false]
    | SOk x :: l' =>
        match conv x with
        | Some m => RUser m false :: expected conv l' ended
        | None => expected conv l' ended
        end
    end.

  (** Whether the stream comes to an end, by itself or with an error. *)
  Definition finished (g : list (sitem R) * bool) : bool :=
    g.2 || existsb (fun x => match x with SErr => true | _ => false end) g.1.

  (** What the task of stream [k] called, in order. *)
  Definition calls (k : nat) (tr : list (tagged Msg Res)) : list (request Msg) :=
    omap (fun x => match x with
                   | (Some j, EAccepted _ r) | (Some j, ERefused r) => if decide (j = k) then Some r else None
                   | _ => None
                   end) tr.
  (** Its calls that were accepted, with their numbers. *)
  Definition calls_accepted (k : nat) (tr : list (tagged Msg Res)) : list (nat * request Msg) :=
    omap (fun x => match x with
                   | (Some j, EAccepted i r) => if decide (j = k) then Some (i, r) else None
                   | _ => None
                   end) tr.
  (** What the actor handled of stream [k], in the order of handling. *)
  Definition stream_handled (k : nat) (tr : list (tagged Msg Res)) : list (request Msg) :=
    omap (fun i => snd <$> list_find (fun x => x.1 = i) (calls_accepted k tr) ≫= fun y => Some y.2) (handled (map snd tr)).

  (** Requests by which somebody stops the actor. *)
  Definition is_stop (r : request Msg) : bool := match r with RStop _ => true | _ => false end.
  Definition no_stop (ops : list (wop Msg R)) : Prop := forall a, WSend (RStop a) ∉ ops.

  (** Steps that the task of stream [k] makes. *)
  Definition pulls (k : nat) (ops : list (wop Msg R)) : nat :=
    length (List.filter (fun o => match o with WPull j => Nat.eqb j k | _ => false end) ops).
End spec.
