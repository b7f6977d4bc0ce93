(** C106: proofs. *)
From Verif Require Import Client_Model Client_Proofs ClientAsk_Spec.

Lemma told_id_app a b : told_id (a ++ b) = told_id a ++ told_id b.
Proof. apply omap_app. Qed.
Lemma told_hs_app a b : told_hs (a ++ b) = told_hs a ++ told_hs b.
Proof. apply omap_app. Qed.
Lemma told_id_ids (l : list nat) x : told_id ((fun i => OIdentity i x) <$> l) = l.
Proof. induction l as [|i l IH]; cbn; [done|]. by f_equal. Qed.
Lemma told_hs_ids (l : list nat) x : told_hs ((fun i => OIdentity i x) <$> l) = [].
Proof. by induction l. Qed.
Lemma told_hs_done (l : list nat) : told_hs (OHandshakeDone <$> l) = l.
Proof. induction l as [|i l IH]; cbn; [done|]. by f_equal. Qed.
Lemma told_id_done (l : list nat) : told_id (OHandshakeDone <$> l) = [].
Proof. by induction l. Qed.

Section proofs.
Context {M : Type}.
Variable frame_ok : M -> bool.
Variable len : M -> N.
Implicit Types (l : list (cop M)) (c : client M) (o : cop M).
Notation cstep := (cstep frame_ok len).
Notation crun := (crun frame_ok len).

Lemma asked_id_app l1 l2 : asked_id (l1 ++ l2) = asked_id l1 ++ asked_id l2.
Proof. apply omap_app. Qed.
Lemma asked_hs_app l1 l2 : asked_hs (l1 ++ l2) = asked_hs l1 ++ asked_hs l2.
Proof. apply omap_app. Qed.

(** Steps that concern no request. *)
Definition quietly c c' : Prop :=
  c_identify c' = c_identify c /\ c_acks c' = c_acks c /\
  (forall n hs, c_state c' = CConnected n hs -> c_state c = CConnected n hs) /\
  exists es, c_out c' = c_out c ++ es /\ told_id es = [] /\ told_hs es = [].
Lemma quietly_same c c' : c_identify c' = c_identify c -> c_acks c' = c_acks c -> c_state c' = c_state c -> c_out c' = c_out c -> quietly c c'.
Proof. intros H1 H2 H3 H4. split; [done|]. split; [done|]. split; [by rewrite H3|]. exists []. by rewrite app_nil_r. Qed.
Lemma quietly_trans c1 c2 c3 : quietly c1 c2 -> quietly c2 c3 -> quietly c1 c3.
Proof.
  intros (A1 & A2 & AS & e1 & A3 & A4 & A5) (B1 & B2 & BS & e2 & B3 & B4 & B5). split; [congruence|]. split; [congruence|].
  split; [by eauto|].
  exists (e1 ++ e2). rewrite B3, A3, told_id_app, told_hs_app, A4, A5, B4, B5. by rewrite app_assoc.
Qed.
Lemma state_disconnected c n : ~ connected (disconnected c) n.
Proof.
  intros [hs H]. unfold disconnected in H. destruct (c_state c) as [k|k h|] eqn:E; [destruct (10 <? S k)%nat|..]; cbn in H; congruence.
Qed.
Lemma quietly_disconnected c : quietly c (disconnected c).
Proof.
  assert (Hs : forall n hs, c_state (disconnected c) = CConnected n hs -> c_state c = CConnected n hs).
  { intros n hs H. exfalso. apply (state_disconnected c n). by exists hs. }
  split; [|split; [|split; [exact Hs|]]]; unfold disconnected; (destruct (c_state c) as [n|n hs|]; [destruct (10 <? S n)%nat|..]); try done.
  { by eexists [_]. }
  all: exists []; by rewrite app_nil_r.
Qed.
Lemma quietly_write c m link : quietly c (write frame_ok len c m link).
Proof.
  unfold write. destruct (c_state c) as [n|n hs|]; [by apply quietly_same| |].
  - destruct (frame_ok m && link); [by apply quietly_same|]. eapply quietly_trans; [|apply quietly_disconnected]. by apply quietly_same.
  - eapply quietly_trans; [|apply quietly_disconnected]. by apply quietly_same.
Qed.
Lemma quietly_ping c m link : quietly c (ping_tick frame_ok len c m link).
Proof.
  unfold ping_tick. destruct (c_state c) as [n|n hs|]; [| by apply quietly_write|];
    (split; [done|]; split; [done|]; split; [done|]; eexists; split; [done|]); by destruct (c_node c).
Qed.
Lemma quietly_flush c link : quietly c (flush_buffered frame_ok len c link).
Proof. unfold flush_buffered. destruct (flush _ _ _ _). by apply quietly_same. Qed.

(** The state of the connection after a step. *)
Lemma state_flush c link : c_state (flush_buffered frame_ok len c link) = c_state c.
Proof. unfold flush_buffered. by destruct (flush _ _ _ _). Qed.

(** What a step does to the requests. *)
Inductive did c o c' : Prop :=
| DQuiet : quietly c c' -> asked_id [o] = [] -> asked_hs [o] = [] -> did c o c'
| DWaits i : o = AIdentify i -> (forall n, ~ connected c n) -> c_identify c' = c_identify c ++ [i] -> c_acks c' = c_acks c ->
    c_out c' = c_out c -> c_state c' = c_state c -> did c o c'
| DKnown i n hs : o = AIdentify i -> c_state c = CConnected n hs -> c_state c' = c_state c -> c_identify c' = c_identify c ->
    c_acks c' = c_acks c -> c_out c' = c_out c ++ [OIdentity i (Some n)] -> did c o c'
| DConnected n link : o = AConnect (Identified n link) -> c_state c' = CConnected n HNone -> c_identify c' = [] ->
    c_acks c' = c_acks c -> c_out c' = c_out c ++ OConnected n :: ((fun i => OIdentity i (Some n)) <$> rev (c_identify c)) -> did c o c'
| DFailed r : o = AConnect r -> (forall n link, r <> Identified n link) -> (forall n, ~ connected c' n) -> c_identify c' = [] ->
    c_acks c' = c_acks c -> (exists es, c_out c' = (c_out c ++ ((fun i => OIdentity i None) <$> rev (c_identify c))) ++ es /\
      told_id es = [] /\ told_hs es = []) -> did c o c'
| DIgnored i link : o = AHandshake i link -> (forall n, ~ connected c n) -> c' = c -> did c o c'
| DPanic i n : o = AHandshake i false -> c_state c = CConnected n HNone -> c_state c' = c_state c -> quietly c c' -> did c o c'
| DPending i link n hs hs' : o = AHandshake i link -> c_state c = CConnected n hs -> c_state c' = CConnected n hs' ->
    (hs = HNone /\ link = true /\ hs' = HPending \/ hs = HPending /\ hs' = HPending) ->
    c_identify c' = c_identify c -> c_acks c' = c_acks c ++ [i] -> c_out c' = c_out c -> did c o c'
| DDone i link n : o = AHandshake i link -> c_state c = CConnected n HAcknowledged -> c_state c' = c_state c ->
    c_identify c' = c_identify c -> c_acks c' = c_acks c -> c_out c' = c_out c ++ [OHandshakeDone i] -> did c o c'
| DAck n hs : o = AAck -> c_state c = CConnected n hs -> c_state c' = CConnected n HAcknowledged ->
    c_identify c' = c_identify c -> c_acks c' = [] -> c_out c' = c_out c ++ (OHandshakeDone <$> rev (c_acks c)) -> did c o c'.

Lemma not_connected c : match c_state c with CConnected _ _ => False | _ => True end -> forall n, ~ connected c n.
Proof. intros H n [hs E]. by rewrite E in H. Qed.

Lemma step_did c o c' : cstep c o = Some c' -> did c o c'.
Proof.
  unfold Client_Model.cstep. destruct (c_life c) eqn:El; try done. destruct o as [r| | |m link|m link|i link| |i|].
  - destruct (c_scheduled c) as [|k]; [done|]. intros [= <-]. unfold connect. cbn [with_scheduled c_state].
    destruct (c_state c) as [k0|n0 hs0|] eqn:Es.
    2: { apply DQuiet; [by apply quietly_same|done|done]. }
    all: unfold attempt; destruct r as [| | | |n link].
    all: lazymatch goal with
      | |- did _ (AConnect (Identified _ _)) _ =>
          eapply (DConnected _ _ _ n link); [done|by rewrite state_flush| | |];
            unfold flush_buffered; destruct (flush _ _ _ _); cbn; [done|done|]; by rewrite <- app_assoc
      | |- did _ (AConnect ClosedEarly) _ => apply DQuiet; [by apply quietly_same|done|done]
      | |- did _ (AConnect ?r) (disconnected ?d) =>
          destruct (quietly_disconnected d) as (Q1 & Q2 & _ & es & Q3 & Q4 & Q5); cbn in Q1, Q2, Q3;
            apply (DFailed _ _ _ r); [done|done|apply state_disconnected|done|done|]; by exists es
      end.
  - destruct (c_readers c) as [|k]; [done|]. intros [= <-]. apply DQuiet; [|done|done].
    eapply quietly_trans; [|apply quietly_disconnected]. by apply quietly_same.
  - destruct (c_readers c) as [|k]; [done|]. intros [= <-]. apply DQuiet; [by apply quietly_same|done|done].
  - intros [= <-]. apply DQuiet; [apply quietly_write|done|done].
  - intros [= <-]. apply DQuiet; [apply quietly_ping|done|done].
  - intros [= <-]. unfold begin_handshake. destruct (c_state c) as [k|n hs|] eqn:Es.
    1, 3: eapply DIgnored; [done| |done]; apply not_connected; by rewrite Es.
    destruct hs; [destruct link| |].
    + eapply (DPending _ _ _ i true n HNone HPending); try done. by left.
    + eapply (DPanic _ _ _ i n); [done|done|done|]. by apply quietly_same.
    + eapply (DPending _ _ _ i link n HPending HPending); try done. by right.
    + eapply (DDone _ _ _ i link n); done.
  - intros [= <-]. unfold acknowledge. destruct (c_state c) as [k|n hs|] eqn:Es.
    1, 3: apply DQuiet; [by apply quietly_same|done|done]. by eapply (DAck _ _ _ n hs).
  - intros [= <-]. unfold identify. destruct (c_state c) as [k|n hs|] eqn:Es.
    1, 3: eapply (DWaits _ _ _ i); try done; apply not_connected; by rewrite Es.
    by eapply (DKnown _ _ _ i n hs).
  - intros [= <-]. apply DQuiet; [by apply quietly_same|done|done].
Qed.

(** Every request for the identity is answered or waits; none waits while the client is connected. *)
Lemma identity_count l c : crun new_client l = Some c ->
  asked_id l ≡ₚ told_id (c_out c) ++ c_identify c /\ (forall n, connected c n -> c_identify c = []).
Proof.
  revert c. induction l as [|o l IH] using rev_ind; intros c H.
  { injection H as <-. split; [done|]. by intros n [hs [=]]. }
  apply crun_snoc in H as (c1 & H & Ho). destruct (IH c1 H) as [IH1 IH2]. clear IH. rewrite asked_id_app.
  pose proof (step_did _ _ _ Ho) as D. destruct D as [Q E1 E2|i -> Hn Ei Ea Eo Es|i n hs -> Es Es' Ei Ea Eo|n link -> Es Ei Ea Eo|
    r -> Hr Hn Ei Ea (es & Eo & T1 & T2)|i link -> Hn ->|i n -> Es Es' Q|i link n hs hs' -> Es Es' Hh Ei Ea Eo|i link n -> Es Es' Ei Ea Eo|
    n hs -> Es Es' Ei Ea Eo].
  2-10: cbn [asked_id omap list_omap]; rewrite ?app_nil_r.
  - destruct Q as (Q1 & Q2 & QS & es & Q3 & Q4 & Q5). rewrite E1, app_nil_r, Q1, Q3, told_id_app, Q4, app_nil_r. split; [done|].
    intros n [hs Hc]. apply (IH2 n). exists hs. by apply QS.
  - rewrite Ei, Eo, IH1, app_assoc. split; [done|]. intros n [hs Hc]. exfalso. apply (Hn n). exists hs. by rewrite <- Es.
  - rewrite Eo, Ei, told_id_app, IH1. split; [|intros k [h Hc]; apply (IH2 n); by exists hs].
    rewrite (IH2 n) by (by exists hs). by rewrite !app_nil_r.
  - split; [|done]. rewrite Ei, Eo, app_nil_r, told_id_app, IH1. f_equiv. cbn [told_id omap list_omap].
    fold (told_id ((fun i => OIdentity i (Some n)) <$> rev (c_identify c1))). rewrite told_id_ids. apply Permutation_rev.
  - split; [|done]. rewrite Ei, Eo, app_nil_r, !told_id_app, T1, app_nil_r, IH1, told_id_ids. f_equiv. apply Permutation_rev.
  - done.
  - destruct Q as (Q1 & Q2 & QS & es & Q3 & Q4 & Q5). rewrite Q1, Q3, told_id_app, Q4, app_nil_r. split; [done|].
    intros k [hs Hc]. apply (IH2 k). exists hs. by apply QS.
  - rewrite Ei, Eo. split; [done|]. intros k [h Hc]. apply (IH2 n). by exists hs.
  - rewrite Ei, Eo, told_id_app. cbn. rewrite app_nil_r. split; [done|]. intros k [h Hc]. apply (IH2 n). by eexists.
  - rewrite Ei, Eo, told_id_app, told_id_done, app_nil_r. split; [done|]. intros k [h Hc]. apply (IH2 n). by exists hs.
Qed.

(** Every request for a handshake is answered, waits, or was turned away. *)
Lemma handshake_count l c : crun new_client l = Some c ->
  exists away, asked_hs l ≡ₚ told_hs (c_out c) ++ c_acks c ++ away.
Proof.
  revert c. induction l as [|o l IH] using rev_ind; intros c H.
  { injection H as <-. by exists []. }
  apply crun_snoc in H as (c1 & H & Ho). destruct (IH c1 H) as [away IH1]. clear IH. rewrite asked_hs_app.
  pose proof (step_did _ _ _ Ho) as D. destruct D as [Q E1 E2|i -> Hn Ei Ea Eo Es|i n hs -> Es Es' Ei Ea Eo|n link -> Es Ei Ea Eo|
    r -> Hr Hn Ei Ea (es & Eo & T1 & T2)|i link -> Hn ->|i n -> Es Es' Q|i link n hs hs' -> Es Es' Hh Ei Ea Eo|i link n -> Es Es' Ei Ea Eo|
    n hs -> Es Es' Ei Ea Eo].
  2-10: cbn [asked_hs omap list_omap]; rewrite ?app_nil_r.
  - destruct Q as (Q1 & Q2 & QS & es & Q3 & Q4 & Q5). exists away.
    by rewrite E2, app_nil_r, Q2, Q3, told_hs_app, Q5, app_nil_r.
  - exists away. by rewrite Ea, Eo.
  - exists away. rewrite Ea, Eo, told_hs_app. cbn. by rewrite app_nil_r.
  - exists away. rewrite Ea, Eo, told_hs_app. cbn [told_hs omap list_omap].
    fold (told_hs ((fun i => OIdentity i (Some n)) <$> rev (c_identify c1))). by rewrite told_hs_ids, app_nil_r.
  - exists away. by rewrite Ea, Eo, !told_hs_app, told_hs_ids, T2, !app_nil_r.
  - exists (away ++ [i]). by rewrite IH1, !app_assoc.
  - destruct Q as (Q1 & Q2 & QS & es & Q3 & Q4 & Q5). exists (away ++ [i]). by rewrite Q2, Q3, told_hs_app, Q5, app_nil_r, IH1, !app_assoc.
  - exists away. rewrite Ea, Eo, IH1, <- !app_assoc. do 2 f_equiv. apply Permutation_app_comm.
  - exists away. rewrite Ea, Eo, told_hs_app, IH1, <- !app_assoc. f_equiv. cbn. rewrite app_assoc. symmetry. apply Permutation_cons_append.
  - exists away. rewrite Ea, Eo, told_hs_app, told_hs_done, IH1, <- !app_assoc. f_equiv. cbn. f_equiv. apply Permutation_rev.
Qed.

(** The connection a client has, and what was done on it. *)
Definition on_connection l c : Prop :=
  forall n hs, c_state c = CConnected n hs -> exists b, connected_since frame_ok len l n b /\
    (own_acks frame_ok len l -> (hs <> HNone -> exists j, AHandshake j true ∈ b) /\ (hs = HAcknowledged -> AAck ∈ b)).

Lemma since_snoc l o c n b : crun new_client (l ++ [o]) = Some c -> connected c n ->
  connected_since frame_ok len l n b -> connected_since frame_ok len (l ++ [o]) n (b ++ [o]).
Proof.
  intros Hr Hc (a & link & -> & Hp). exists a, link. split; [by rewrite <- app_assoc|]. intros p q Hq.
  destruct q as [|x q _] using rev_ind.
  - rewrite app_nil_r in Hq. subst p. exists c. split; [|done]. by rewrite <- app_assoc in Hr.
  - rewrite app_assoc in Hq. apply app_inj_tail in Hq as [-> ->]. by apply (Hp p q).
Qed.
Lemma own_prefix l o : own_acks frame_ok len (l ++ [o]) -> own_acks frame_ok len l.
Proof. intros H l1 l2 c n -> Hr. apply (H l1 (l2 ++ [o]) c n); [by rewrite <- app_assoc|done]. Qed.

Lemma on_connection_run l c : crun new_client l = Some c -> on_connection l c.
Proof.
  revert c. induction l as [|o l IH] using rev_ind; intros c Hrun.
  { injection Hrun as <-. by intros n hs [=]. }
  pose proof Hrun as H. apply crun_snoc in H as (c1 & H & Ho). specialize (IH c1 H). intros n hs Hs.
  assert (Hc : connected c n) by (by exists hs).
  (* the connection was there before *)
  assert (Hold : forall hs1, c_state c1 = CConnected n hs1 ->
    (own_acks frame_ok len (l ++ [o]) -> (hs <> HNone -> hs1 <> HNone \/ exists j, o = AHandshake j true) /\
      (hs = HAcknowledged -> hs1 = HAcknowledged \/ o = AAck)) ->
    exists b, connected_since frame_ok len (l ++ [o]) n b /\
      (own_acks frame_ok len (l ++ [o]) -> (hs <> HNone -> exists j, AHandshake j true ∈ b) /\ (hs = HAcknowledged -> AAck ∈ b))).
  { intros hs1 Hs1 Hh. destruct (IH n hs1 Hs1) as (b & Hb & Hw). exists (b ++ [o]). split; [by eapply since_snoc|].
    intros Hown. destruct (Hh Hown) as [A1 A2]. destruct (Hw (own_prefix _ _ Hown)) as [B1 B2]. split; intros Hx.
    - destruct (A1 Hx) as [Hy|[j ->]]; [destruct (B1 Hy) as [j Hj]; exists j|exists j]; set_solver.
    - destruct (A2 Hx) as [Hy| ->]; [specialize (B2 Hy)|]; set_solver. }
  pose proof (step_did _ _ _ Ho) as D. destruct D as [Q E1 E2|i -> Hn Ei Ea Eo Es|i k h -> Es Es' Ei Ea Eo|k link -> Es Ei Ea Eo|
    r -> Hr Hn Ei Ea (es & Eo & T1 & T2)|i link -> Hn ->|i k -> Es Es' Q|i link k h h' -> Es Es' Hh Ei Ea Eo|i link k -> Es Es' Ei Ea Eo|
    k h -> Es Es' Ei Ea Eo].
  - destruct Q as (_ & _ & QS & _). apply (Hold hs); [by apply QS|]. intros _. split; by left.
  - exfalso. apply (Hn n). exists hs. by rewrite <- Es.
  - apply (Hold hs); [by rewrite <- Es'|]. intros _. split; by left.
  - rewrite Es in Hs. injection Hs as -> <-. exists []. split; [|intros _; split; [by intros []|done]].
    exists l, link. split; [done|]. intros p q Hq. symmetry in Hq. apply app_eq_nil in Hq as [-> ->]. by exists c.
  - by destruct (Hn n).
  - by destruct (Hn n).
  - apply (Hold hs); [by rewrite <- Es'|]. intros _. split; by left.
  - rewrite Es' in Hs. injection Hs as -> ->. apply (Hold h); [done|]. intros _. destruct Hh as [(-> & -> & ->)|(-> & ->)].
    + split; [intros _; right; by eexists|done].
    + split; [by left|done].
  - apply (Hold hs); [by rewrite <- Es'|]. intros _. split; by left.
  - rewrite Es' in Hs. injection Hs as -> <-. apply (Hold h); [done|]. intros Hown. split; [|by right].
    intros _. left. intros ->. by apply (Hown l [] c1 n).
Qed.
End proofs.
