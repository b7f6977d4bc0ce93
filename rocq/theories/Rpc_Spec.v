(** What is expected of requests between nodes. *)
From Verif Require Import Rpc_Model.

Section spec.
Variable parse : bytes -> option N.

(** What a frame says: the id of the request it answers and the answer. *)
Definition says (s : side) (frame : bytes) : option (N * response) :=
  match s with
  | ClientSide =>
      match read_client_event frame with
      | Done (CResult r) => id ← parse (cr_message_id r); Some (id, ROk (cr_result r))
      | Done (CErr e) =>
          id ← parse (ce_message_id e);
          match ce_error e with
          | Some p => match err_of_proto p with Done err => Some (id, RErr err) | _ => None end
          | None => None
          end
      | Done (CPong p) => id ← parse (po_message_id p); Some (id, ROk (write_msg pong_codec (PongEvent (po_message_id p) [])))
      | _ => None
      end
  | SessionSide =>
      match read_session_event frame with
      | Done (SResult r) => id ← parse (cr_message_id r); Some (id, ROk (cr_result r))
      | Done (SErr e) =>
          id ← parse (ce_message_id e);
          match ce_error e with
          | Some p => match err_of_proto p with Done err => Some (id, RErr err) | _ => None end
          | None => None
          end
      | _ => None
      end
  end.
(** Whether a frame is meant as an answer. *)
Definition meant (s : side) (frame : bytes) : bool :=
  match s with
  | ClientSide => match read_client_event frame with Done (CResult _) | Done (CErr _) | Done (CPong _) => true | _ => false end
  | SessionSide => match read_session_event frame with Done (SResult _) | Done (SErr _) => true | _ => false end
  end.
Definition readable (s : side) (frame : bytes) : bool :=
  match s with
  | ClientSide => match read_client_event frame with Panicked => false | _ => true end
  | SessionSide => match read_session_event frame with Panicked => false | _ => true end
  end.
(** Sound: it can be read, and if it is meant as an answer it is one. *)
Definition sound (o : top) : bool :=
  match o with
  | TFrame _ s frame => readable s frame && (negb (meant s frame) || match says s frame with Some _ => true | None => false end)
  | _ => true
  end.
(** The answer that an arrival gives. *)
Definition gives (o : top) : option (N * response) :=
  match o with TFrame _ s frame => says s frame | TLocal id r => Some (id, r) | TPush _ => None end.

(** The end of a request, given what follows it: the first answer with its id, unless another
    request takes the id. *)
Fixpoint fate (id : N) (l : list top) : option rend :=
  match l with
  | [] => None
  | TPush id' :: l' => if (id' =? id)%N then Some ChannelClosed else fate id l'
  | o :: l' =>
      match gives o with
      | Some (id', r) => if (id' =? id)%N then Some (Answered r) else fate id l'
      | None => fate id l'
      end
  end.
Definition is_push (o : top) : bool := match o with TPush _ => true | _ => false end.
(** The number of the next requester. *)
Definition pushes (l : list top) : nat := length (List.filter is_push l).
End spec.

(** ** Residue *)
(** No call waits. *)
Definition settled (s : rsys) : Prop := forall id p, s_calls s !! id <> Some (Waiting p).
(** Steps without an error at the other side, a timeout, or a message that cannot be encoded. *)
Definition clean (o : sop) : Prop :=
  match o with QErr _ | QTimeout _ => False | QSend _ _ encodes => encodes = true | _ => True end.
