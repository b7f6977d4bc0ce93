(** Theorems about incoming connections: C39, C40. *)
From Verif Require Import Wire_Proofs Session_Model Session_Spec Session_Proofs.
Open Scope string_scope.
Open Scope list_scope.
Open Scope Z_scope.

(** A token is one byte, its timestamp: signed below 100. *)
Definition verify1 (b : bytes) : option Z := match b with [x] => if (x <? 100)%N then Some (Z.of_N x) else None | _ => None end.
Definition crashes1 (e : session_event) : bool := match e with SHandshake _ => true | _ => false end.
Definition hello (x : N) : bytes := from_option id [] (write_session_event (SIdentify (IdentifyEvent 1 [] [x]))).
Definition ping : bytes := from_option id [] (write_session_event (SPing (PingEvent [] [] 7 false))).
Definition srun1 (a : auth) (l : list vop) : option server := vrun verify1 1000 1000 crashes1 a new_server l.

Section props.
Variable verify : bytes -> option Z.
Variables max_ttl max_date : Z.
Variable crashes : session_event -> bool.
Notation vstep := (vstep verify max_ttl max_date crashes).
Notation vrun := (vrun verify max_ttl max_date crashes).
Notation validate := (validate_session_token verify max_ttl max_date).

(** ** C39: authentication *)
(** Whatever arrives on a connection has an effect only if the first frame, before any effect of
    the connection, carried a token signed with the key that had not expired. *)
Theorem C39_authenticated ttl l s x :
  vrun (JwtAuth ttl) new_server l = Some s -> x ∈ v_effects s ->
  exists l1 now f l2 e ts, l = l1 ++ VFirst (eff_conn x) now (Some f) :: l2 /\
    read_session_event f = Done (SIdentify e) /\ verify (ie_token e) = Some ts /\
    (forall d, ttl = Some d -> now <= ts + d) /\
    forall s1, vrun (JwtAuth ttl) new_server l1 = Some s1 -> untouched s1 (eff_conn x).
Proof.
  intros Hr Hx. destruct (touched_run _ _ _ _ _ _ _ Hr) as (_ & _ & J). destruct (J _ Hx) as (l1 & now & f & l2 & Hl & (e & He & ts & Ht & Hd) & Hu).
  exists l1, now, f, l2, e, ts. split_and!; try done. by intros d ->.
Qed.
(** A connection whose first frame carries no such token (or that ends before it) never has an
    effect. *)
Theorem C39_refused a l1 now f l2 c s :
  vrun a new_server (l1 ++ VFirst c now f :: l2) = Some s ->
  (forall b, f = Some b -> ~ good_frame verify a now b) -> untouched s c.
Proof.
  rewrite vrun_app. destruct (vrun a new_server l1) as [s1|] eqn:E1; [|done]. cbn [mbind option_bind Session_Model.vrun].
  destruct (vstep a s1 (VFirst c now f)) as [s2|] eqn:E2; [|done]. cbn [mbind option_bind].
  intros Hr Hbad. pose proof (vinv_run _ _ _ _ _ _ _ E1) as HI. destruct (touched_run _ _ _ _ _ _ _ E1) as (J & _).
  pose proof (vinv_step verify max_ttl max_date crashes a _ _ _ HI E2) as HI2.
  assert (Hs : vchange verify max_ttl max_date crashes a s1 (VFirst c now f) s2) by (by apply vstep_change).
  assert (ended (v_conns s2 !! c) /\ untouched s2 c) as [He Hu].
  { inversion Hs as [| | | | |c' now' f' Hc Hv|c' now' f' Hc Hv Hp|c' now' f' Hc Hv| | | |]; subst.
    - apply validate_good in Hv as (b & -> & Hg). by destruct (Hbad b).
    - destruct (close_fields s1 c) as (E3 & _ & _ & _ & x & E4 & Hx). split.
      + rewrite E4. unfold set_conn. rewrite lookup_insert. destruct Hx as [-> | ->]; [by left|by right].
      + intros y. rewrite E3. apply J. by rewrite Hc.
    - split.
      + cbn [v_conns]. unfold set_conn. rewrite lookup_fmap, lookup_insert. by right.
      + intros y. cbn [v_effects]. apply J. by rewrite Hc. }
  by apply (ended_run _ _ _ _ _ _ _ _ _ HI2 Hr He Hu).
Qed.
(** A frame written by a client with a token that was signed and has not expired, up to and
    including the last moment, opens the session: its later events are handled. Partial: when the
    lifetime and the expiry are within what the library can represent. *)
Theorem C39_accepted_partial ttl s c now e ts f :
  v_conns s !! c = Some Starting ->
  session_event_ok (SIdentify e) -> write_session_event (SIdentify e) = Some f -> frame_fits f ->
  verify (ie_token e) = Some ts ->
  (forall d, ttl = Some d -> d <= max_ttl /\ ts + d <= max_date /\ now <= ts + d) ->
  exists s', vstep (JwtAuth ttl) s (VFirst c now (Some f)) = Some s' /\ v_conns s' !! c = Some Open /\
    forall f2 e2, read_session_event f2 = Done e2 ->
      exists s'', vstep (JwtAuth ttl) s' (VFrame c f2) = Some s'' /\ v_effects s'' = v_effects s' ++ [EEvent c e2].
Proof.
  intros Hc Hok Hw Hf Hv Ht. pose proof (session_event_roundtrip _ _ Hok Hw Hf) as Hread.
  assert (E : validate (JwtAuth ttl) now (Some f) = Done true).
  { unfold validate_session_token. rewrite Hread. unfold validate_token. rewrite Hv. destruct ttl as [d|]; [|done].
    destruct (Ht _ eq_refl) as (H1 & H2 & H3). unfold is_token_still_valid.
    rewrite (proj2 (Z.ltb_ge _ _) H1), (proj2 (Z.ltb_ge _ _) H2). by rewrite (proj2 (Z.leb_le _ _) H3). }
  eexists. split; [cbn [Session_Model.vstep]; by rewrite Hc, E|]. cbn [v_conns v_effects]. unfold set_conn. rewrite lookup_insert. split; [done|].
  intros f2 e2 He2. cbn [Session_Model.vstep v_conns]. rewrite lookup_insert, He2. eexists. split; [done|]. done.
Qed.
(** One moment later it is refused. *)
Theorem C39_expired d s c now e ts f :
  v_conns s !! c = Some Starting -> read_session_event f = Done (SIdentify e) -> verify (ie_token e) = Some ts ->
  d <= max_ttl -> ts + d <= max_date -> ts + d < now ->
  vstep (JwtAuth (Some d)) s (VFirst c now (Some f)) = Some (close_session s c).
Proof.
  intros Hc He Hv H1 H2 H3. cbn [Session_Model.vstep]. rewrite Hc. unfold validate_session_token. rewrite He. unfold validate_token. rewrite Hv.
  unfold is_token_still_valid. rewrite (proj2 (Z.ltb_ge _ _) H1), (proj2 (Z.ltb_ge _ _) H2). by rewrite (proj2 (Z.leb_gt _ _) H3).
Qed.
(** With a lifetime that the library cannot represent (a [Duration::MAX] that stands for "no
    expiry"), no token is accepted: the first client with a signed token brings the server down. *)
Theorem C39_lifetime_refuted d s c now e ts f :
  v_conns s !! c = Some Starting -> read_session_event f = Done (SIdentify e) -> verify (ie_token e) = Some ts ->
  max_ttl < d ->
  exists s', vstep (JwtAuth (Some d)) s (VFirst c now (Some f)) = Some s' /\ v_conns s' !! c = Some Gone /\ v_store s' = SDead.
Proof.
  intros Hc He Hv H1. cbn [Session_Model.vstep]. rewrite Hc. unfold validate_session_token. rewrite He. unfold validate_token. rewrite Hv.
  unfold is_token_still_valid. rewrite (proj2 (Z.ltb_lt _ _) H1). eexists. split; [done|]. cbn [v_conns v_store]. unfold set_conn.
  by rewrite lookup_fmap, lookup_insert.
Qed.

(** ** C40: clients do not affect each other *)
(** Partial: a session that is open stays open, whatever other connections do, and whatever the
    server does. *)
Theorem C40_open_partial a l s l' s' c :
  vrun a new_server l = Some s -> v_conns s !! c = Some Open ->
  vrun a s l' = Some s' -> (forall o, o ∈ l' -> ends c o = false) -> v_conns s' !! c = Some Open.
Proof.
  intros Hr Hc Hr' Hl. eapply open_run; [by eapply vinv_run|done| |done]. apply forallb_forall. intros o Ho.
  apply negb_true_iff, Hl. by apply elem_of_list_In.
Qed.
(** A client that fails authentication, or that disconnects before its first frame: from then on no
    other client is ever accepted, and sessions that close never end. *)
Theorem C40_rejected_refuted a l s c now f s1 l' s' :
  vrun a new_server l = Some s -> v_conns s !! c = Some Starting ->
  validate a now f = Done false -> vstep a s (VFirst c now f) = Some s1 -> vrun a s1 l' = Some s' ->
  (forall c', v_conns s' !! c' = Some Open -> v_conns s !! c' = Some Open) /\
  (forall c', v_conns s' !! c' = Some Gone -> v_conns s !! c' = Some Gone).
Proof.
  intros Hr Hc Hv H1 Hr'. pose proof (vinv_run _ _ _ _ _ _ _ Hr) as HI. pose proof (vinv_step verify max_ttl max_date crashes a _ (VFirst c now f) _ HI H1) as HI1.
  pose proof HI as (I1 & _ & _ & I4 & _). pose proof (I1 _ Hc) as Hst. pose proof (I4 _ Hst) as [Hlw _].
  cbn [Session_Model.vstep] in H1. rewrite Hc, Hv in H1. injection H1 as <-. unfold close_session in *. rewrite Hst in *.
  destruct (stuck_run verify max_ttl max_date crashes a c l' _ s' HI1) with (3 := Hr') as (_ & H2 & H3).
  - by split.
  - right. cbn [v_conns]. unfold set_conn. apply lookup_insert.
  - cbn [v_conns] in *. unfold set_conn in *. split; intros c' Hx.
    + apply H2 in Hx. apply lookup_insert_Some in Hx as [[_ ?]|[_ ?]]; done.
    + apply H3 in Hx. apply lookup_insert_Some in Hx as [[_ ?]|[_ ?]]; done.
Qed.
(** As long as a client that connected sends nothing, no other client is accepted. *)
Theorem C40_silent_refuted a l s c l' s' :
  vrun a new_server l = Some s -> v_conns s !! c = Some Starting ->
  vrun a s l' = Some s' -> (forall o, o ∈ l' -> is_first c o = false) ->
  (forall c', v_conns s' !! c' = Some Open -> v_conns s !! c' = Some Open) /\
  (forall c', v_conns s' !! c' = Some Gone -> v_conns s !! c' = Some Gone).
Proof.
  intros Hr Hc Hr' Hl. pose proof (vinv_run _ _ _ _ _ _ _ Hr) as HI.
  pose proof HI as (I1 & _ & _ & I4 & _). pose proof (I1 _ Hc) as Hst. pose proof (I4 _ Hst) as [Hlw _].
  destruct (stuck_run verify max_ttl max_date crashes a c l' _ s' HI) with (3 := Hr') as (_ & H2 & H3); [by split| |done].
  left. apply forallb_forall. intros o Ho. apply negb_true_iff, Hl. by apply elem_of_list_In.
Qed.
(** A first frame that cannot be parsed: no client is accepted any more. *)
Theorem C40_malformed_refuted a l s c now f s1 l' s' :
  vrun a new_server l = Some s -> v_conns s !! c = Some Starting ->
  read_session_event f = Panicked -> vstep a s (VFirst c now (Some f)) = Some s1 -> vrun a s1 l' = Some s' ->
  forall c', v_conns s' !! c' = Some Open -> v_conns s !! c' = Some Open.
Proof.
  intros Hr Hc Hv H1 Hr' c' Hx. pose proof (vinv_run _ _ _ _ _ _ _ Hr) as HI. pose proof (vinv_step verify max_ttl max_date crashes a _ (VFirst c now (Some f)) _ HI H1) as HI1.
  cbn [Session_Model.vstep] in H1. rewrite Hc in H1. unfold validate_session_token in H1. rewrite Hv in H1. injection H1 as <-.
  destruct (dead_run _ _ _ _ _ _ _ _ HI1 eq_refl Hr') as [_ H2]. apply H2 in Hx. cbn [v_conns] in Hx. unfold set_conn in Hx.
  rewrite lookup_fmap in Hx. apply fmap_Some in Hx as (x & [[_ <-]|[_ Hy]]%lookup_insert_Some & Hz); [done|]. by destruct x.
Qed.
(** Partial: while every first frame is good, every client that connected can be accepted: the
    server needs only its own steps and the first frames of these clients. *)
Theorem C40_admitted_partial a (first : N -> Z * bytes) l s :
  (forall c, validate a (fst (first c)) (Some (snd (first c))) = Done true) ->
  vrun a new_server l = Some s -> (forall c now f, VFirst c now f ∈ l -> validate a now f = Done true) ->
  exists l' s', vrun a s l' = Some s' /\
    (forall o, o ∈ l' -> o = VAccept \/ o = VStore \/ exists c, o = VFirst c (fst (first c)) (Some (snd (first c)))) /\
    forall c, (exists x, v_conns s !! c = Some x /\ (x = Backlog \/ x = Accepted \/ x = Starting)) -> v_conns s' !! c = Some Open.
Proof.
  intros Hg Hr Hl. destruct (all_open _ _ _ crashes a first Hg l s Hr) as (l' & s' & Hr' & Hq & Ho).
  - apply Forall_forall. intros o Ho. destruct o; try done. simpl. by apply (Hl c now frame).
  - exists l', s'. split_and!; [done| |].
    + rewrite Forall_forall in Hq. intros o Hoo. apply Hq in Hoo. destruct o; try done; [by left|by right; left|]. right; right. exists c. exact Hoo.
    + intros c (x & Hx & Hy). apply Ho. unfold pending. rewrite Hx. by destruct Hy as [-> |[-> | ->]].
Qed.
End props.

(** ** Examples *)
Definition enter (c : N) (now : Z) (f : bytes) : list vop := [VConnect c; VAccept; VStore; VFirst c now (Some f)].
(** Two clients; the second just in time. *)
Example C39_case :
  match srun1 (JwtAuth (Some 10)) (enter 1 20 (hello 30) ++ enter 2 60 (hello 50) ++ [VFrame 2%N ping]) with
  | Some s => v_effects s = [EIdentity 1; EIdentity 2; EEvent 2 (SPing (PingEvent [] [] 7 false))]
  | None => False
  end.
Proof. vm_compute. done. Qed.
(** Expired, and not signed. *)
Example C39_case_bad : ~ good_frame verify1 (JwtAuth (Some 10)) 61 (hello 50) /\ ~ good_frame verify1 (JwtAuth None) 0 (hello 100) /\
  match srun1 (JwtAuth (Some 10)) (enter 2 61 (hello 50)) with Some s => v_effects s = [] | None => False end.
Proof.
  split_and!; [..|vm_compute; done].
  - intros (e & He & ts & Ht & Hd). vm_compute in He. injection He as <-. vm_compute in Ht. injection Ht as <-. lia.
  - intros (e & He & ts & Ht & Hd). vm_compute in He. injection He as <-. by vm_compute in Ht.
Qed.
Example C39_case_written : session_event_ok (SIdentify (IdentifyEvent 1 [] [50%N])) /\ write_session_event (SIdentify (IdentifyEvent 1 [] [50%N])) = Some (hello 50) /\ frame_fits (hello 50).
Proof.
  split_and!; [|done|].
  - repeat split; unfold is_bytes; repeat constructor; vm_compute; done.
  - vm_compute. done.
Qed.
(** One client is open, one fails, one comes later: the second blocks the third. *)
Example C40_case_rejected :
  match srun1 (JwtAuth (Some 10)) (enter 1 20 (hello 30) ++ enter 2 61 (hello 50) ++ [VConnect 3%N; VClose 1%N]) with
  | Some s => v_conns s !! 1%N = Some Stopping /\ v_conns s !! 2%N = Some Stopping /\ v_conns s !! 3%N = Some Backlog /\
      vstep verify1 1000 1000 crashes1 (JwtAuth (Some 10)) s VAccept = None /\ vstep verify1 1000 1000 crashes1 (JwtAuth (Some 10)) s VStore = None
  | None => False
  end.
Proof. vm_compute. done. Qed.
(** The client is refused even without authentication: it disconnects before its first frame. *)
Example C40_case_early :
  match srun1 NoAuth [VConnect 2%N; VAccept; VStore; VFirst 2%N 0 None; VConnect 3%N] with
  | Some s => vstep verify1 1000 1000 crashes1 NoAuth s VAccept = None
  | None => False
  end.
Proof. vm_compute. done. Qed.
Example C40_case_malformed :
  read_session_event [ev_ping; 10%N] = Panicked /\
  match srun1 NoAuth ([VConnect 2%N; VAccept; VStore; VFirst 2%N 0 (Some [ev_ping; 10%N])] ++ [VConnect 3%N; VAccept]) with
  | Some s => v_conns s !! 3%N = Some Gone /\ v_store s = SDead
  | None => False
  end.
Proof. vm_compute. done. Qed.
Example C40_case_polite :
  match srun1 NoAuth [VConnect 1%N; VConnect 2%N; VAccept; VConnect 3%N] with
  | Some s => v_conns s !! 1%N = Some Accepted /\ v_conns s !! 2%N = Some Backlog /\ v_conns s !! 3%N = Some Backlog
  | None => False
  end /\ validate_session_token verify1 1000 1000 NoAuth 0 (Some (hello 1)) = Done true.
Proof. vm_compute. done. Qed.

Print Assumptions C39_authenticated.
Print Assumptions C39_refused.
Print Assumptions C39_accepted_partial.
Print Assumptions C39_expired.
Print Assumptions C39_lifetime_refuted.
Print Assumptions C40_open_partial.
Print Assumptions C40_rejected_refuted.
Print Assumptions C40_silent_refuted.
Print Assumptions C40_malformed_refuted.
Print Assumptions C40_admitted_partial.
