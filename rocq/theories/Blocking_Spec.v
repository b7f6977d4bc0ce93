(** What the callers of the blocking api expect, over the observable trace. *)
From Verif Require Import Actor_Model Actor_Spec Blocking_Model.

Section spec.
  Context {St Msg Res : Type}.

  (** [res] is what was answered to request [i], which asked [a]. *)
  Definition is_answer (a : ask Msg) (i : nat) (res : result Res) (tr : list (event Msg Res)) : Prop :=
    match a, res with
    | AMsg _, Value r => EReply i r ∈ tr
    | AStatus, StatusIs s => EStatusReply i s ∈ tr
    | AStop, IsStopped => EStopAnswered i ∈ tr
    | AMsg _, ChannelClosed | AStatus, ChannelClosed | AStop, InvalidRef => EDiscarded i ∈ tr
    | _, _ => False
    end.

  (** What call [a] returned: the answer to a request of its own, or an error as it was refused. *)
  Definition returned (a : ask Msg) (res : result Res) (tr : list (event Msg Res)) : Prop :=
    (res = InvalidRef /\ ERefused (to_request a) ∈ tr) \/
    exists i, EAccepted i (to_request a) ∈ tr /\ is_answer a i res tr.

  (** The numbers under which a thread's calls were accepted. *)
  Definition numbers (th : thread Msg Res) : list nat := omap snd (th_made th).

  (** All calls that a thread has made have returned. *)
  Definition idle (th : thread Msg Res) : Prop := length (th_results th) = length (th_made th).

  (** The same programs with other styles of calls. *)
  Definition restyle (f : style -> style) (x : place * list (style * ask Msg)) : place * list (style * ask Msg) :=
    (x.1, map (fun y => (f y.1, y.2)) x.2).
End spec.
