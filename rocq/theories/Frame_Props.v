(** Property C67: a connection carries what was written. *)
From Verif Require Import Wire_Proofs Frame_Model Frame_Spec Frame_Proofs.
Local Open Scope N_scope.

#[global] Instance accepted_dec {E} (write : E -> option bytes) e : Decision (accepted write e) :=
  match decide (is_Some (wire_bytes write e)) with
  | left H => left (proj2 (accepted_iff write e) H)
  | right H => right (fun H' => H (proj1 (accepted_iff write e) H'))
  end.

(** Requests, from a client to a session: whatever is written, however the network cuts the
    bytes, and wherever it stops ([tail] never arrives): the session handles exactly the
    accepted events whose bytes arrived completely, in the order of the writes, and is not
    brought down. If everything arrives, all of them are handled and the loop ends normally. *)
Theorem C67_session_gets_written :
  forall es pieces tail e, Forall session_event_ok es ->
  concat pieces ++ tail = wire write_session_event es ->
  exists got fin, received read_session_event pieces e = (got, fin) /\
    arrived write_session_event (filter (accepted write_session_event) es) (concat pieces) got /\ fin <> Crashed /\
    (tail = [] -> got = filter (accepted write_session_event) es /\ (e = Eof -> fin = Closed)).
Proof.
  intros es pieces tail e Hok Ht. rewrite wire_accepted with (H := accepted_dec write_session_event) in Ht.
  refine (carried write_session_event read_session_event session_event_ok session_event_roundtrip _ _ _ _ _ _ Ht).
  - apply Forall_forall. intros x Hx. apply elem_of_list_filter in Hx as [_ Hx]. by eapply Forall_forall in Hok.
  - apply Forall_forall. intros x Hx. by apply elem_of_list_filter in Hx as [? _].
Qed.

(** Answers, from a session to a client. *)
Theorem C67_client_gets_written :
  forall es pieces tail e, Forall client_event_ok es ->
  concat pieces ++ tail = wire write_client_event es ->
  exists got fin, received read_client_event pieces e = (got, fin) /\
    arrived write_client_event (filter (accepted write_client_event) es) (concat pieces) got /\ fin <> Crashed /\
    (tail = [] -> got = filter (accepted write_client_event) es /\ (e = Eof -> fin = Closed)).
Proof.
  intros es pieces tail e Hok Ht. rewrite wire_accepted with (H := accepted_dec write_client_event) in Ht.
  refine (carried write_client_event read_client_event client_event_ok client_event_roundtrip _ _ _ _ _ _ Ht).
  - apply Forall_forall. intros x Hx. apply elem_of_list_filter in Hx as [_ Hx]. by eapply Forall_forall in Hok.
  - apply Forall_forall. intros x Hx. by apply elem_of_list_filter in Hx as [? _].
Qed.

(** Whatever the bytes are, what is handled does not depend on the pieces they arrive in. *)
Theorem C67_pieces :
  forall E (read : bytes -> outcome E) pieces pieces' e, concat pieces = concat pieces' ->
  received read pieces e = received read pieces' e.
Proof.
  intros E read ps ps' e Heq. unfold received.
  rewrite (read_frames_pieces ps Head [] e), (read_frames_pieces ps' Head [] e) by done. by rewrite Heq.
Qed.

(** Whatever the bytes are, the frames that are read are those that the bytes consist of. *)
Theorem C67_frames :
  forall pieces e, is_bytes (concat pieces) ->
  exists rest, concat pieces = concat (omap frame (read_frames Head [] pieces e).1) ++ rest /\
    Forall (fun f => N.of_nat (length f) <= 8388608) (read_frames Head [] pieces e).1.
Proof.
  intros pieces e Hb. destruct (frames_found pieces e Hb) as (rest & H1 & H2). exists rest. split; [done|].
  eapply Forall_impl; [exact H2|]. intros f [x Hx]. by apply frame_inv in Hx as [? _].
Qed.

(** Whatever the bytes are, a reader never keeps more than 8 MiB of them. *)
Theorem C67_bounded :
  forall pieces b, kept Head [] pieces = Some b -> N.of_nat (length b) < 8388608.
Proof. intros pieces b. by apply kept_bound. Qed.

(** Three pings in four pieces, one of which ends inside a length; the last ping is cut. *)
Definition ping (id : N) : session_event := SPing (PingEvent [id] [] 7 false).
Definition ex_bytes : bytes := wire write_session_event [ping 49; ping 50; ping 51].
Definition ex_pieces : list bytes :=
  [take 2 ex_bytes; take 10 (drop 2 ex_bytes); take 3 (drop 12 ex_bytes); take 12 (drop 15 ex_bytes)].
Example C67_example :
  Forall session_event_ok [ping 49; ping 50; ping 51] /\
  concat ex_pieces ++ drop 27 ex_bytes = wire write_session_event [ping 49; ping 50; ping 51] /\
  received read_session_event ex_pieces Eof = ([ping 49; ping 50], StreamLost) /\
  received read_session_event [ex_bytes] Eof = ([ping 49; ping 50; ping 51], Closed) /\
  kept Head [] ex_pieces = Some [4; 10; 1].
Proof.
  split; [|vm_compute; repeat split; reflexivity].
  repeat constructor; repeat split; unfold is_bytes; repeat constructor; vm_compute; done.
Qed.

Print Assumptions C67_session_gets_written.
Print Assumptions C67_client_gets_written.
Print Assumptions C67_pieces.
Print Assumptions C67_frames.
Print Assumptions C67_bounded.
