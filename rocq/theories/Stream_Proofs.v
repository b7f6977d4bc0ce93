(** Proofs about publish and subscribe. *)
From Verif Require Import Stream_Model Stream_Spec.
#[local] Arguments capacity : simpl never.
#[local] Arguments Nat.ltb : simpl never.

Section proofs.
Variable M : Type.
Variable tname : N -> bytes.
Variable mtype : N -> N.
Variable decode : N -> bytes -> outcome M.
Variable member : M -> option (bool * N).
Notation mstep := (mstep M tname mtype decode member).
Notation mrun := (mrun M tname mtype decode member).
Notation pub_on := (pub_on M tname mtype decode).
Notation pubs := (pubs M tname mtype decode).
Notation med := (med M).
Notation m_subs := (m_subs M). Notation m_chans := (m_chans M). Notation m_topics := (m_topics M). Notation m_alive := (m_alive M).
Notation m_nodes := (m_nodes M). Notation m_seen := (m_seen M). Notation m_self := (m_self M).
Implicit Types (m : med) (i t : N) (key : bytes).

Lemma mrun_app m l1 l2 : mrun m (l1 ++ l2) = m' ← mrun m l1; mrun m' l2.
Proof. revert m. induction l1 as [|o l1 IH]; intros m; [done|]. simpl. destruct (mstep m o); simpl; [apply IH|done]. Qed.

Lemma broadcast_subs m c x : m_subs (broadcast M m c x) = m_subs m.
Proof. unfold broadcast. by destruct (m_chans m !! c). Qed.

(** ** What a subscription gets *)
(** [L0]: sent on the channel before the subscription; [P]: published since. *)
Definition follows i t key (L0 P : list M) m : Prop :=
  exists s L, m_subs m !! i = Some s /\ sb_chan M s = (tname t, key) /\ m_topics m !! tname t = Some t /\
    m_chans m !! (tname t, key) = Some L /\ (L0 ++ sb_got M s) `prefix_of` L /\
    (exists rest, L0 ++ P = L ++ rest /\ (m_alive m = true -> rest = [])) /\
    (sb_live M s = true -> sb_next M s = length L0 + length (sb_got M s)).

(** Steps that leave channels and subscriptions alone. *)
Lemma follows_same i t key L0 P m m' : follows i t key L0 P m -> m_subs m' = m_subs m -> m_topics m' = m_topics m -> m_chans m' = m_chans m ->
  (m_alive m' = true -> m_alive m = true) -> follows i t key L0 (P ++ []) m'.
Proof.
  intros (s & L & H1 & H2 & H3 & H4 & H5 & (rest & H6 & H7) & H8) E1 E2 E3 E4. exists s, L. rewrite E1, E2, E3, app_nil_r. split_and!; try done.
  exists rest. auto.
Qed.
Lemma follows_crash i t key L0 P P' m : follows i t key L0 P m -> follows i t key L0 (P ++ P') (crash M m).
Proof.
  intros (s & L & H1 & H2 & H3 & H4 & H5 & (rest & H6 & H7) & H8). exists s, L. split_and!; try done.
  exists (rest ++ P'). split; [|done]. by rewrite !app_assoc, H6, <- app_assoc.
Qed.
Lemma follows_broadcast i t key L0 P m c x : m_alive m = true -> follows i t key L0 P m ->
  follows i t key L0 (P ++ if decide (c = (tname t, key)) then [x] else []) (broadcast M m c x).
Proof.
  intros Ha (s & L & H1 & H2 & H3 & H4 & H5 & (rest & H6 & H7) & H8). rewrite (H7 Ha), app_nil_r in H6. unfold broadcast.
  destruct (decide (c = (tname t, key))) as [->|Hne].
  - rewrite H4. exists s, (L ++ [x]). cbn. rewrite lookup_insert. split_and!; try done.
    + by apply prefix_app_r.
    + exists []. rewrite app_nil_r. split; [|done]. by rewrite app_assoc, H6.
  - rewrite app_nil_r. destruct (m_chans m !! c) as [l|] eqn:E.
    + exists s, L. cbn. rewrite lookup_insert_ne by done. split_and!; try done. exists []. by rewrite app_nil_r.
    + exists s, L. split_and!; try done. exists []. by rewrite app_nil_r.
Qed.
(** A change of another subscription, or of the state of this one. *)
Lemma follows_set i t key L0 P m j s' : follows i t key L0 P m ->
  (j = i -> forall s, m_subs m !! i = Some s -> sb_chan M s' = sb_chan M s /\ sb_got M s' = sb_got M s /\ (sb_live M s' = true -> sb_live M s = true /\ sb_next M s' = sb_next M s)) ->
  follows i t key L0 (P ++ []) (set_sub M m j s').
Proof.
  intros (s & L & H1 & H2 & H3 & H4 & H5 & H6 & H8) Hj. rewrite app_nil_r. unfold follows, set_sub; cbn [Stream_Model.m_subs Stream_Model.m_topics Stream_Model.m_chans Stream_Model.m_alive].
  destruct (decide (j = i)) as [->|].
  - destruct (Hj eq_refl _ H1) as (E1 & E2 & E3). exists s', L. rewrite lookup_insert, E2. split_and!; try done; [congruence|]. intros Hl. destruct (E3 Hl) as [? ->]. auto.
  - exists s, L. rewrite lookup_insert_ne by done. split_and!; done.
Qed.
Lemma follows_step i t key L0 P m o m' : follows i t key L0 P m -> mstep m o = Some m' -> follows i t key L0 (P ++ pub_on t key o) m'.
Proof.
  intros HF H. destruct o as [j t' k|t' k x r|n k b|j|j|j|]; cbn [Stream_Model.mstep Stream_Spec.pub_on] in *.
  - destruct (m_alive m) eqn:Ha; [|done]. destruct (m_subs m !! j) eqn:Ej; [done|]. injection H as <-.
    assert (Hji : j <> i) by (intros ->; destruct HF as (s & L & H1 & _); congruence).
    destruct HF as (s & L & H1 & H2 & H3 & H4 & H5 & (rest & H6 & H7) & H8). rewrite app_nil_r. unfold subscribe, receiver.
    assert (HT : forall t0, tname t0 <> tname t \/ True) by auto.
    destruct (m_topics m !! tname t') as [t0|] eqn:Et; cbn [from_option].
    + destruct (t0 =? t')%N; [|exists s, L; split_and!; eauto].
      destruct (m_chans m !! (tname t', k)) as [l|] eqn:Ec; exists s, L; cbn; rewrite !lookup_insert_ne by congruence; split_and!; eauto.
    + destruct (m_chans m !! (tname t', k)) as [l|] eqn:Ec; rewrite ?Ec; exists s, L; cbn.
      * rewrite Ec. cbn. rewrite !lookup_insert_ne by congruence. split_and!; eauto.
      * rewrite Ec. cbn. rewrite !lookup_insert_ne by congruence. split_and!; eauto.
  - destruct (m_alive m) eqn:Ha; [|done]. injection H as <-. unfold emit. destruct (m_topics m !! tname t') as [t0|] eqn:Et.
    + destruct (mtype t0 =? mtype t')%N; [|by apply follows_crash].
      replace (if bool_decide (tname t' = tname t ∧ k = key) then [x] else []) with (if decide ((tname t', k) = (tname t, key)) then [x] else []).
      { by apply follows_broadcast. }
      destruct (decide _) as [E|E], (bool_decide_reflect (tname t' = tname t ∧ k = key)) as [E'|E']; try done; [injection E as ? ?; tauto|destruct E; destruct E'; congruence].
    + rewrite bool_decide_eq_false_2; [by eapply follows_same|]. intros [E _]. destruct HF as (s & L & _ & _ & H3 & _). congruence.
  - destruct (m_alive m) eqn:Ha; [|done]. injection H as <-. unfold emit_raw. destruct (m_topics m !! n) as [t0|] eqn:Et.
    + case_bool_decide as E.
      * destruct E as [-> ->]. assert (t0 = t) as -> by (destruct HF as (s & L & _ & _ & H3 & _); congruence).
        destruct (decode (mtype t) b) as [x| |]; [|by eapply follows_same|by apply follows_crash].
        pose proof (follows_broadcast i t key L0 P m (tname t, key) x Ha HF) as HB. by rewrite decide_True in HB.
      * destruct (decode (mtype t0) b) as [x| |]; [|by eapply follows_same|by apply follows_crash].
        pose proof (follows_broadcast i t key L0 P m (n, k) x Ha HF) as HB. rewrite decide_False in HB; [done|]. intros [= -> ->]. tauto.
    + rewrite bool_decide_eq_false_2; [by eapply follows_same|]. intros [-> _]. destruct HF as (s & L & _ & _ & H3 & _). congruence.
  - unfold recv in H. destruct (m_subs m !! j) as [[c n g lv up]|] eqn:Ej; [|done]. destruct lv; [|done].
    destruct (m_chans m !! c) as [l|] eqn:Ec; [|done]. cbn [mbind option_bind] in H.
    destruct (capacity <? length l - n).
    { injection H as <-. apply follows_set; [done|]. intros -> s Hs. rewrite Ej in Hs. injection Hs as <-. done. }
    destruct (l !! n) as [x|] eqn:Ex.
    + injection H as <-. destruct up; [|apply follows_set; [done|]; intros -> s Hs; rewrite Ej in Hs; by injection Hs as <-].
      destruct (decide (j = i)) as [->|]; [|by apply follows_set].
      destruct HF as (s & L & H1 & H2 & H3 & H4 & H5 & H6 & H8). rewrite Ej in H1. injection H1 as <-. cbn in *. subst c. rewrite Ec in H4. injection H4 as ->.
      rewrite app_nil_r. exists (Sub (tname t, key) (S n) (g ++ [x]) true true), L. unfold set_sub; cbn. rewrite lookup_insert. split_and!; try done.
      * destruct H5 as [k Hk]. rewrite (H8 eq_refl) in Ex. rewrite Hk, <- app_length, lookup_app_r, Nat.sub_diag in Ex by done.
        destruct k as [|y k]; [done|]. injection Ex as ->. rewrite Hk. exists k. by rewrite <- !app_assoc.
      * intros _. rewrite (H8 eq_refl), app_length. simpl. lia.
    + destruct (m_alive m) eqn:Ha; [done|]. injection H as <-. apply follows_set; [done|]. intros -> s Hs. rewrite Ej in Hs. by injection Hs as <-.
  - destruct (m_subs m !! j) as [[c n g [] up]|] eqn:Ej; try done. injection H as <-. apply follows_set; [done|]. intros -> s Hs. rewrite Ej in Hs. by injection Hs as <-.
  - destruct (m_subs m !! j) as [[c n g lv []]|] eqn:Ej; try done. injection H as <-. apply follows_set; [done|]. intros -> s Hs. rewrite Ej in Hs. by injection Hs as <-.
  - destruct (m_alive m) eqn:Ha; [|done]. destruct (m_subs m !! 0%N) as [s|]; [|done]. cbn [mbind option_bind] in H. destruct (sb_got M s !! m_seen m); [|done]. injection H as <-.
    by eapply follows_same.
Qed.
Lemma follows_run i t key L0 l : forall P m m', follows i t key L0 P m -> mrun m l = Some m' -> follows i t key L0 (P ++ pubs t key l) m'.
Proof.
  induction l as [|o l IH]; intros P m m' HF Hr; simpl in *; [injection Hr as <-; by rewrite app_nil_r|].
  destruct (mstep m o) as [m1|] eqn:E; simpl in Hr; [|done]. rewrite app_assoc. eapply IH; [|done]. by eapply follows_step.
Qed.
(** Channels belong to topics. *)
Definition minv m : Prop := (forall n k l, m_chans m !! (n, k) = Some l -> exists t, m_topics m !! n = Some t) /\
  (forall i s, m_subs m !! i = Some s -> exists l, m_chans m !! sb_chan M s = Some l).
Lemma follows_subscribe m i t key m' : m_subs m !! i = None -> mstep m (MSubscribe M i t key) = Some m' -> m_subs m' !! i <> None ->
  exists L0, follows i t key L0 [] m' /\ m_alive m' = true /\ live M m' i = true /\ got M m' i = [].
Proof.
  intros Hi H Hn. cbn [Stream_Model.mstep] in H. destruct (m_alive m) eqn:Ha; [|done]. rewrite Hi in H. injection H as <-. unfold subscribe, receiver in *.
  destruct (m_topics m !! tname t) as [t0|] eqn:Et; cbn [from_option] in *.
  - destruct (t0 =? t)%N eqn:E0; [|congruence]. apply N.eqb_eq in E0 as ->. destruct (m_chans m !! (tname t, key)) as [l|] eqn:Ec.
    + exists l. unfold live, got, follows, set_sub; cbn. rewrite !lookup_insert. cbn. split_and!; try done. exists (Sub (tname t, key) (length l) [] true true), l. cbn. rewrite ?app_nil_r. split_and!; try done.
      * exists []. by rewrite app_nil_r.
    + exists []. unfold live, got, follows, set_sub; cbn. rewrite !lookup_insert. cbn. split_and!; try done. exists (Sub (tname t, key) 0 [] true true), []. cbn. split_and!; try done.
      exists []. done.
  - cbn [Stream_Model.m_chans] in *. destruct (m_chans m !! (tname t, key)) as [l|] eqn:Ec.
    + exists l. unfold live, got, follows, set_sub; cbn. rewrite !lookup_insert. cbn. split_and!; try done. exists (Sub (tname t, key) (length l) [] true true), l. cbn. rewrite ?app_nil_r. split_and!; try done.
      * exists []. by rewrite app_nil_r.
    + exists []. unfold live, got, follows, set_sub; cbn. rewrite !lookup_insert. cbn. split_and!; try done. exists (Sub (tname t, key) 0 [] true true), []. cbn. split_and!; try done.
      exists []. done.
Qed.
Lemma follows_new self : follows 0%N system_topic [] [] [] (new_med M tname self).
Proof.
  eexists _, []. unfold new_med; cbn. rewrite !lookup_singleton. split_and!; try done. exists []. done.
Qed.

Lemma follows_got i t key L0 P m : follows i t key L0 P m -> got M m i `prefix_of` P.
Proof.
  intros (s & L & H1 & _ & _ & _ & [k H5] & (rest & H6 & _) & _). unfold got. rewrite H1. cbn. rewrite H5, <- !app_assoc in H6. apply app_inv_head in H6. rewrite H6. by apply prefix_app_r.
Qed.
(** Nothing left to take. *)
Lemma follows_all i t key L0 P m : follows i t key L0 P m -> m_alive m = true -> live M m i = true -> mstep m (MRecv M i) = None -> got M m i = P.
Proof.
  intros (s & L & H1 & H2 & H3 & H4 & H5 & (rest & H6 & H7) & H8) Ha Hl Hn. unfold live, got in *. rewrite H1 in *. cbn in *. unfold recv in Hn. rewrite H1 in Hn.
  destruct s as [c n g lv up]. cbn in *. subst c lv. rewrite H4 in Hn. cbn in Hn. destruct (capacity <? length L - n); [done|].
  destruct (L !! n) as [x|] eqn:Ex; [done|]. apply lookup_ge_None in Ex. rewrite (H8 eq_refl) in Ex. destruct H5 as [k Hk].
  rewrite Hk, !app_length in Ex. destruct k; [|simpl in Ex; lia]. rewrite app_nil_r in Hk. rewrite (H7 Ha), app_nil_r, Hk in H6. by apply app_inv_head in H6.
Qed.
Lemma follows_next i t key L0 P m : follows i t key L0 P m -> m_alive m = true -> live M m i = true -> (forall s, m_subs m !! i = Some s -> sb_up M s = true) ->
  length (got M m i) < length P -> length P <= length (got M m i) + capacity ->
  exists m' x, mstep m (MRecv M i) = Some m' /\ P !! length (got M m i) = Some x /\ got M m' i = got M m i ++ [x] /\ live M m' i = true.
Proof.
  intros (s & L & H1 & H2 & H3 & H4 & H5 & (rest & H6 & H7) & H8) Ha Hl Hu Hlt Hle. specialize (Hu _ H1). unfold live, got in *. rewrite H1 in *. cbn in *. unfold recv. rewrite H1.
  destruct s as [c n g lv up]. cbn in *. subst c lv up. rewrite H4. cbn. rewrite (H7 Ha), app_nil_r in H6. specialize (H8 eq_refl). subst n.
  rewrite (proj2 (Nat.ltb_ge _ _)) by (rewrite <- H6, app_length; lia).
  destruct (lookup_lt_is_Some_2 P (length g) Hlt) as [x Hx]. rewrite <- H6, lookup_app_r by lia. replace (length L0 + length g - length L0) with (length g) by lia. rewrite Hx.
  eexists _, x. split_and!; [done|done|..]; unfold set_sub; cbn; by rewrite lookup_insert.
Qed.
(** Too far behind, or over: nothing more is delivered. *)
Definition over i m (P : list M) : Prop := live M m i = false \/ length (got M m i) + capacity < length P.
Lemma dead_got i m o m' : live M m i = false -> m_subs m !! i <> None -> mstep m o = Some m' -> live M m' i = false /\ got M m' i = got M m i.
Proof.
  unfold live, got. intros Hl Hs H. destruct (m_subs m !! i) as [s|] eqn:Es; [|done]. cbn in Hl.
  assert (HSET : forall j s', j <> i -> m_subs (set_sub M m j s') !! i = Some s) by (intros; unfold set_sub; cbn; by rewrite lookup_insert_ne).
  assert (HSAME : forall m1, m_subs m1 = m_subs m -> from_option (sb_live M) false (m_subs m1 !! i) = false /\ from_option (sb_got M) [] (m_subs m1 !! i) = sb_got M s) by (intros m1 ->; by rewrite Es).
  assert (HBR : forall c x, m_subs (broadcast M m c x) = m_subs m) by (intros c x; unfold broadcast; by destruct (m_chans m !! c)).
  destruct o as [j t' k|t' k x r|n k b|j|j|j|]; cbn [Stream_Model.mstep] in *.
  - destruct (m_alive m); [|done]. destruct (m_subs m !! j) eqn:Ej; [done|]. injection H as <-. assert (j <> i) by congruence.
    unfold subscribe, receiver. destruct (m_topics m !! tname t') as [t0|]; cbn [from_option].
    + destruct (t0 =? t')%N; [|by apply HSAME]. destruct (m_chans m !! (tname t', k)); cbn; rewrite lookup_insert_ne by done; by rewrite Es.
    + cbn. destruct (m_chans m !! (tname t', k)); cbn; rewrite lookup_insert_ne by done; by rewrite Es.
  - destruct (m_alive m); [|done]. injection H as <-. apply HSAME. unfold emit. destruct (m_topics m !! tname t'); [|done]. destruct (mtype n =? mtype t')%N; [apply HBR|done].
  - destruct (m_alive m); [|done]. injection H as <-. apply HSAME. unfold emit_raw. destruct (m_topics m !! n); [|done]. destruct (decode (mtype n0) b); [apply HBR|done|done].
  - unfold recv in H. destruct (m_subs m !! j) as [[c n g lv up]|] eqn:Ej; [|done]. destruct lv; [|done].
    assert (j <> i) by (intros ->; rewrite Es in Ej; by injection Ej as ->).
    destruct (m_chans m !! c) as [l|]; [|done]. cbn [mbind option_bind] in H. destruct (capacity <? length l - n); [injection H as <-; by rewrite HSET|].
    destruct (l !! n); [injection H as <-; by rewrite HSET|]. destruct (m_alive m); [done|]. injection H as <-; by rewrite HSET.
  - destruct (m_subs m !! j) as [[c n g [] up]|] eqn:Ej; try done. assert (j <> i) by (intros ->; rewrite Es in Ej; by injection Ej as ->). injection H as <-. by rewrite HSET.
  - destruct (m_subs m !! j) as [[c n g lv []]|] eqn:Ej; try done. injection H as <-. destruct (decide (j = i)) as [->|]; [|by rewrite HSET].
    rewrite Es in Ej. injection Ej as ->. unfold set_sub; cbn in *. by rewrite lookup_insert.
  - destruct (m_alive m); [|done]. destruct (m_subs m !! 0%N) as [s0|]; [|done]. cbn [mbind option_bind] in H. destruct (sb_got M s0 !! m_seen m); [|done]. injection H as <-. by apply HSAME.
Qed.
Lemma alive_back m o m' : mstep m o = Some m' -> m_alive m' = true -> m_alive m = true.
Proof.
  destruct o as [j t' k|t' k x r|n k b|j|j|j|]; cbn [Stream_Model.mstep]; intros H Ha; try (destruct (m_alive m) eqn:E; done).
  - unfold recv in H. destruct (m_subs m !! j) as [[c n g [] up]|]; try done. destruct (m_chans m !! c); [|done]. cbn in H. destruct (capacity <? length l - n); [by injection H as <-|].
    destruct (l !! n); [by injection H as <-|]. destruct (m_alive m) eqn:E; [done|]. injection H as <-. cbn in Ha. congruence.
  - destruct (m_subs m !! j) as [[c n g [] up]|]; try done. by injection H as <-.
  - destruct (m_subs m !! j) as [[c n g lv []]|]; try done. by injection H as <-.
Qed.
(** A step of a subscription that is neither over nor behind. *)
Lemma sub_step i t key L0 P m o m' : follows i t key L0 P m -> mstep m o = Some m' ->
  got M m' i = got M m i \/ (o = MRecv M i /\ live M m i = true /\ exists x, got M m' i = got M m i ++ [x]).
Proof.
  intros HF H. destruct (live M m i) eqn:Hl; [|left; eapply dead_got; [done| |done]; destruct HF as (s & L & H1 & _); congruence].
  destruct HF as (s & L & Es & _). unfold live, got in *. rewrite Es in *. cbn in Hl.
  assert (HSET : forall j s', j <> i -> m_subs (set_sub M m j s') !! i = Some s) by (intros; unfold set_sub; cbn; by rewrite lookup_insert_ne).
  assert (HSAME : forall m1, m_subs m1 = m_subs m -> from_option (sb_got M) [] (m_subs m1 !! i) = sb_got M s) by (intros m1 ->; by rewrite Es).
  assert (HBR : forall c x, m_subs (broadcast M m c x) = m_subs m) by (intros c x; unfold broadcast; by destruct (m_chans m !! c)).
  destruct o as [j t' k|t' k x r|n k b|j|j|j|]; cbn [Stream_Model.mstep] in *.
  - left. destruct (m_alive m); [|done]. destruct (m_subs m !! j) eqn:Ej; [done|]. injection H as <-. assert (j <> i) by congruence.
    unfold subscribe, receiver. destruct (m_topics m !! tname t') as [t0|]; cbn [from_option].
    + destruct (t0 =? t')%N; [|by apply HSAME]. destruct (m_chans m !! (tname t', k)); cbn; rewrite lookup_insert_ne by done; by rewrite Es.
    + cbn. destruct (m_chans m !! (tname t', k)); cbn; rewrite lookup_insert_ne by done; by rewrite Es.
  - left. destruct (m_alive m); [|done]. injection H as <-. apply HSAME. unfold emit. destruct (m_topics m !! tname t'); [|done]. destruct (mtype n =? mtype t')%N; [apply HBR|done].
  - left. destruct (m_alive m); [|done]. injection H as <-. apply HSAME. unfold emit_raw. destruct (m_topics m !! n); [|done]. destruct (decode (mtype n0) b); [apply HBR|done|done].
  - unfold recv in H. destruct (m_subs m !! j) as [[c n g lv up]|] eqn:Ej; [|done]. destruct lv; [|done].
    destruct (m_chans m !! c) as [l|]; [|done]. cbn [mbind option_bind] in H.
    destruct (decide (j = i)) as [->|Hne].
    + rewrite Es in Ej. injection Ej as ->. cbn. destruct (capacity <? length l - n); [injection H as <-; left; unfold set_sub; cbn; by rewrite lookup_insert|].
      destruct (l !! n) as [x|]; [|destruct (m_alive m); [done|]; injection H as <-; left; unfold set_sub; cbn; by rewrite lookup_insert].
      injection H as <-. destruct up; [right; split_and!; [done|done|]; exists x|left]; unfold set_sub; cbn; by rewrite lookup_insert.
    + left. destruct (capacity <? length l - n); [injection H as <-; by rewrite HSET|].
      destruct (l !! n); [injection H as <-; by rewrite HSET|]. destruct (m_alive m); [done|]. injection H as <-; by rewrite HSET.
  - left. destruct (m_subs m !! j) as [[c n g [] up]|] eqn:Ej; try done. injection H as <-. destruct (decide (j = i)) as [->|]; [|by rewrite HSET].
    rewrite Es in Ej. injection Ej as ->. unfold set_sub; cbn in *. by rewrite lookup_insert.
  - left. destruct (m_subs m !! j) as [[c n g lv []]|] eqn:Ej; try done. injection H as <-. destruct (decide (j = i)) as [->|]; [|by rewrite HSET].
    rewrite Es in Ej. injection Ej as ->. unfold set_sub; cbn in *. by rewrite lookup_insert.
  - left. destruct (m_alive m); [|done]. destruct (m_subs m !! 0%N) as [s0|]; [|done]. cbn [mbind option_bind] in H. destruct (sb_got M s0 !! m_seen m); [|done]. injection H as <-. by apply HSAME.
Qed.
(** [lost]: over, or the channel already dropped what comes next. *)
Definition lost i m : Prop := live M m i = false \/
  exists s L, m_subs m !! i = Some s /\ m_chans m !! sb_chan M s = Some L /\ capacity < length L - sb_next M s.
Lemma chans_grow m o m' c L : mstep m o = Some m' -> m_chans m !! c = Some L -> exists L', m_chans m' !! c = Some (L ++ L').
Proof.
  intros H HL. assert (HSAME : forall m1, m_chans m1 = m_chans m -> exists L', m_chans m1 !! c = Some (L ++ L')) by (intros m1 ->; exists []; by rewrite app_nil_r).
  assert (HBR : forall c' x, exists L', m_chans (broadcast M m c' x) !! c = Some (L ++ L')).
  { intros c' x. unfold broadcast. destruct (m_chans m !! c') as [l|] eqn:E; [|by apply HSAME]. cbn. destruct (decide (c' = c)) as [->|].
    - rewrite lookup_insert. rewrite HL in E. injection E as <-. eauto.
    - rewrite lookup_insert_ne by done. exists []. by rewrite app_nil_r. }
  destruct o as [j t' k|t' k x r|n k b|j|j|j|]; cbn [Stream_Model.mstep] in *.
  - destruct (m_alive m); [|done]. destruct (m_subs m !! j) eqn:Ej; [done|]. injection H as <-.
    unfold subscribe, receiver. destruct (m_topics m !! tname t') as [t0|]; cbn [from_option].
    + destruct (t0 =? t')%N; [|by apply HSAME]. destruct (m_chans m !! (tname t', k)) eqn:E; [by apply HSAME|]. cbn. rewrite lookup_insert_ne by congruence. exists []. by rewrite app_nil_r.
    + cbn. destruct (m_chans m !! (tname t', k)) eqn:E; [by apply HSAME|]. cbn. rewrite lookup_insert_ne by congruence. exists []. by rewrite app_nil_r.
  - destruct (m_alive m); [|done]. injection H as <-. unfold emit. destruct (m_topics m !! tname t'); [|by apply HSAME]. destruct (mtype n =? mtype t')%N; [apply HBR|by apply HSAME].
  - destruct (m_alive m); [|done]. injection H as <-. unfold emit_raw. destruct (m_topics m !! n); [|by apply HSAME]. destruct (decode (mtype n0) b); [apply HBR|by apply HSAME..].
  - unfold recv in H. destruct (m_subs m !! j) as [[cc n g [] up]|]; try done. destruct (m_chans m !! cc) as [l|]; [|done]. cbn in H. destruct (capacity <? length l - n); [injection H as <-; by apply HSAME|].
    destruct (l !! n); [injection H as <-; by apply HSAME|]. destruct (m_alive m); [done|]. injection H as <-. by apply HSAME.
  - destruct (m_subs m !! j) as [[cc n g [] up]|]; try done. injection H as <-. by apply HSAME.
  - destruct (m_subs m !! j) as [[cc n g lv []]|]; try done. injection H as <-. by apply HSAME.
  - destruct (m_alive m); [|done]. destruct (m_subs m !! 0%N) as [s0|]; [|done]. cbn [mbind option_bind] in H. destruct (sb_got M s0 !! m_seen m); [|done]. injection H as <-. by apply HSAME.
Qed.
Lemma lost_step i m o m' : m_subs m !! i <> None -> lost i m -> mstep m o = Some m' -> lost i m' /\ got M m' i = got M m i /\ m_subs m' !! i <> None.
Proof.
  intros Hs [Hd|(s & L & H1 & H2 & H3)] H.
  - destruct (dead_got _ _ _ _ Hd Hs H) as [E1 E2]. split_and!; [by left|done|].
    unfold live in E1. intros E. destruct o; cbn [Stream_Model.mstep] in H; try (destruct (m_alive m); [|done]).
    + destruct (m_subs m !! i0) eqn:Ej; [done|]. injection H as <-. revert E. unfold subscribe, receiver. destruct (m_topics m !! tname t) as [t0|]; cbn [from_option].
      * destruct (t0 =? t)%N; [|done]. assert (i0 <> i) by congruence. destruct (m_chans m !! (tname t, key)); cbn; by rewrite lookup_insert_ne.
      * cbn. assert (i0 <> i) by congruence. destruct (m_chans m !! (tname t, key)); cbn; by rewrite lookup_insert_ne.
    + injection H as <-. revert E. unfold emit. destruct (m_topics m !! tname t); [|done]. destruct (mtype n =? mtype t)%N; [|done]. by rewrite broadcast_subs.
    + injection H as <-. revert E. unfold emit_raw. destruct (m_topics m !! name); [|done]. destruct (decode _ _); try done. by rewrite broadcast_subs.
    + unfold recv in H. destruct (m_subs m !! i0) as [[cc n g [] up]|]; try done. destruct (m_chans m !! cc) as [l|]; [|done]. cbn in H.
      assert (HSET : forall s', m_subs (set_sub M m i0 s') !! i <> None). { intros s'. unfold set_sub; cbn. destruct (decide (i0 = i)) as [->|]; [by rewrite lookup_insert|by rewrite lookup_insert_ne]. }
      destruct (capacity <? length l - n); [injection H as <-; by apply HSET in E|]. destruct (l !! n); [injection H as <-; by apply HSET in E|]. destruct (m_alive m); [done|]. injection H as <-; by apply HSET in E.
    + destruct (m_subs m !! i0) as [[cc n g [] up]|]; try done. injection H as <-. revert E. unfold set_sub; cbn. destruct (decide (i0 = i)) as [->|]; [by rewrite lookup_insert|by rewrite lookup_insert_ne].
    + destruct (m_subs m !! i0) as [[cc n g lv []]|]; try done. injection H as <-. revert E. unfold set_sub; cbn. destruct (decide (i0 = i)) as [->|]; [by rewrite lookup_insert|by rewrite lookup_insert_ne].
    + destruct (m_subs m !! 0%N) as [s0|]; [|done]. cbn [mbind option_bind] in H. destruct (sb_got M s0 !! m_seen m); [|done]. by injection H as <-.
  - destruct (chans_grow _ _ _ _ _ H H2) as [L' HL'].
    assert (HK : forall s', m_subs m' !! i = Some s' -> sb_chan M s' = sb_chan M s -> sb_got M s' = sb_got M s -> (sb_live M s' = false \/ sb_next M s' = sb_next M s) ->
       lost i m' /\ got M m' i = got M m i /\ m_subs m' !! i <> None).
    { intros s' E1 E2 E3 E4. unfold got. rewrite E1, H1. split_and!; [|done|done]. destruct E4 as [E4|E4]; [left; unfold live; by rewrite E1|].
      right. exists s', (L ++ L'). rewrite E2, E4. split_and!; [done|done|]. rewrite app_length. lia. }
    destruct o as [j t' k|t' k x r|n k b|j|j|j|]; cbn [Stream_Model.mstep] in H.
    + destruct (m_alive m); [|done]. destruct (m_subs m !! j) eqn:Ej; [done|]. injection H as <-. assert (j <> i) by congruence. apply (HK s); auto.
      unfold subscribe, receiver. destruct (m_topics m !! tname t') as [t0|]; cbn [from_option].
      * destruct (t0 =? t')%N; [|done]. destruct (m_chans m !! (tname t', k)); cbn; by rewrite lookup_insert_ne.
      * cbn. destruct (m_chans m !! (tname t', k)); cbn; by rewrite lookup_insert_ne.
    + destruct (m_alive m); [|done]. injection H as <-. apply (HK s); auto. unfold emit. destruct (m_topics m !! tname t'); [|done]. destruct (mtype n =? mtype t')%N; [|done]. by rewrite broadcast_subs.
    + destruct (m_alive m); [|done]. injection H as <-. apply (HK s); auto. unfold emit_raw. destruct (m_topics m !! n); [|done]. destruct (decode _ _); try done. by rewrite broadcast_subs.
    + unfold recv in H. destruct (m_subs m !! j) as [[cc n g [] up]|] eqn:Ej; try done. destruct (m_chans m !! cc) as [l|] eqn:Ec; [|done]. cbn in H. destruct (decide (j = i)) as [->|Hne].
      * rewrite H1 in Ej. injection Ej as ->. cbn in *. rewrite H2 in Ec. injection Ec as <-. rewrite (proj2 (Nat.ltb_lt _ _) H3) in H. injection H as <-.
        eapply HK; [unfold set_sub; cbn; by rewrite lookup_insert|done|done|by left].
      * assert (HSET : forall s', m_subs (set_sub M m j s') !! i = Some s) by (intros; unfold set_sub; cbn; by rewrite lookup_insert_ne).
        apply (HK s); auto. destruct (capacity <? length l - n); [injection H as <-; by rewrite HSET|]. destruct (l !! n); [injection H as <-; by rewrite HSET|]. destruct (m_alive m); [done|]. injection H as <-; by rewrite HSET.
    + destruct (m_subs m !! j) as [[cc n g [] up]|] eqn:Ej; try done. injection H as <-. destruct (decide (j = i)) as [->|].
      * rewrite H1 in Ej. injection Ej as ->. eapply HK; [unfold set_sub; cbn; by rewrite lookup_insert|done|done|by left].
      * apply (HK s); auto. unfold set_sub; cbn; by rewrite lookup_insert_ne.
    + destruct (m_subs m !! j) as [[cc n g lv []]|] eqn:Ej; try done. injection H as <-. destruct (decide (j = i)) as [->|].
      * rewrite H1 in Ej. injection Ej as ->. eapply HK; [unfold set_sub; cbn; by rewrite lookup_insert|done|done|by right].
      * apply (HK s); auto. unfold set_sub; cbn; by rewrite lookup_insert_ne.
    + destruct (m_alive m); [|done]. destruct (m_subs m !! 0%N) as [s0|]; [|done]. cbn [mbind option_bind] in H. destruct (sb_got M s0 !! m_seen m); [|done]. injection H as <-. apply (HK s); auto.
Qed.
Lemma lost_run i l : forall m m', m_subs m !! i <> None -> lost i m -> mrun m l = Some m' -> got M m' i = got M m i.
Proof.
  induction l as [|o l IH]; intros m m' Hs Hl Hr; simpl in Hr; [by injection Hr as <-|]. destruct (mstep m o) as [m1|] eqn:E; simpl in Hr; [|done].
  destruct (lost_step _ _ _ _ Hs Hl E) as (H1 & H2 & H3). rewrite <- H2. eapply IH; done.
Qed.
Lemma behind_lost i t key L0 P m : follows i t key L0 P m -> m_alive m = true -> length (got M m i) + capacity < length P -> lost i m.
Proof.
  intros (s & L & H1 & H2 & H3 & H4 & H5 & (rest & H6 & H7) & H8) Ha Hlt. unfold lost, live, got in *. rewrite H1 in *. cbn in *.
  destruct (sb_live M s) eqn:El; [right|by left]. exists s, L. rewrite H2. split_and!; [done|done|]. rewrite (H8 eq_refl). rewrite (H7 Ha), app_nil_r in H6. rewrite <- H6, app_length. lia.
Qed.
(** Never too far behind: the subscription stays. *)
Lemma keeps_step i t key L0 P m o m' : follows i t key L0 P m -> mstep m o = Some m' -> ends_sub M i o = false ->
  live M m i = true -> (forall s, m_subs m !! i = Some s -> sb_up M s = true) -> m_alive m = true \/ length (got M m i) < length P -> m_alive m' = true ->
  length P <= length (got M m i) + capacity ->
  live M m' i = true /\ (forall s, m_subs m' !! i = Some s -> sb_up M s = true).
Proof.
  intros HF H He Hl Hu _ Ha Hle. pose proof (alive_back _ _ _ H Ha) as Ha0. unfold live in *. pose proof HF as (s & L & H1 & H2 & H3 & H4 & H5 & (rest & H6 & H7) & H8).
  unfold got in *. rewrite H1 in *. cbn in *. specialize (Hu _ eq_refl).
  assert (HK : m_subs m' !! i = Some s -> from_option (sb_live M) false (m_subs m' !! i) = true ∧ (∀ s0, m_subs m' !! i = Some s0 → sb_up M s0 = true)).
  { intros ->. split; [done|]. by intros s0 [= <-]. }
  destruct o as [j t' k|t' k x r|n k b|j|j|j|]; cbn [Stream_Model.mstep] in H; rewrite ?Ha0 in H.
  - destruct (m_subs m !! j) eqn:Ej; [done|]. injection H as <-. apply HK. assert (j <> i) by congruence.
    unfold subscribe, receiver. destruct (m_topics m !! tname t') as [t0|]; cbn [from_option].
    + destruct (t0 =? t')%N; [|done]. destruct (m_chans m !! (tname t', k)); cbn; by rewrite lookup_insert_ne.
    + cbn. destruct (m_chans m !! (tname t', k)); cbn; by rewrite lookup_insert_ne.
  - injection H as <-. apply HK. unfold emit. destruct (m_topics m !! tname t'); [|done]. destruct (mtype n =? mtype t')%N; [|done]. by rewrite broadcast_subs.
  - injection H as <-. apply HK. unfold emit_raw. destruct (m_topics m !! n); [|done]. destruct (decode _ _); try done. by rewrite broadcast_subs.
  - unfold recv in H. destruct (m_subs m !! j) as [[cc n g [] up]|] eqn:Ej; try done. destruct (m_chans m !! cc) as [l|] eqn:Ec; [|done]. cbn in H. rewrite Ha0 in H. destruct (decide (j = i)) as [->|Hne].
    + rewrite H1 in Ej. injection Ej as ->. cbn in *. subst cc up. rewrite H4 in Ec. injection Ec as <-. rewrite (H7 Ha0), app_nil_r in H6.
      rewrite (proj2 (Nat.ltb_ge _ _)) in H by (rewrite (H8 eq_refl), <- H6, app_length; lia).
      destruct (L !! n); [|done]. injection H as <-. unfold set_sub; cbn. rewrite lookup_insert. split; [done|]. by intros s0 [= <-].
    + assert (HSET : forall s', m_subs (set_sub M m j s') !! i = Some s) by (intros; unfold set_sub; cbn; by rewrite lookup_insert_ne).
      apply HK. destruct (capacity <? length l - n); [injection H as <-; by rewrite HSET|]. destruct (l !! n); [injection H as <-; by rewrite HSET|done].
  - simpl in He. apply N.eqb_neq in He. destruct (m_subs m !! j) as [[cc n g [] up]|] eqn:Ej; try done. injection H as <-. apply HK. unfold set_sub; cbn; by rewrite lookup_insert_ne.
  - simpl in He. apply N.eqb_neq in He. destruct (m_subs m !! j) as [[cc n g lv []]|] eqn:Ej; try done. injection H as <-. apply HK. unfold set_sub; cbn; by rewrite lookup_insert_ne.
  - destruct (m_subs m !! 0%N) as [s0|]; [|done]. cbn [mbind option_bind] in H. destruct (sb_got M s0 !! m_seen m); [|done]. injection H as <-. by apply HK.
Qed.
Lemma alive_run_back l : forall m m', mrun m l = Some m' -> m_alive m' = true -> m_alive m = true.
Proof.
  induction l as [|o l IH]; intros m m' Hr Ha; simpl in Hr; [by injection Hr as <-|]. destruct (mstep m o) as [m1|] eqn:E; simpl in Hr; [|done].
  eapply alive_back; [done|]. by eapply IH.
Qed.
Lemma keeps_run i t key L0 l : forall P m m', follows i t key L0 P m -> mrun m l = Some m' -> m_alive m' = true ->
  live M m i = true -> (forall s, m_subs m !! i = Some s -> sb_up M s = true) -> (forall o, o ∈ l -> ends_sub M i o = false) ->
  (forall l1 l2 m1, l = l1 ++ l2 -> mrun m l1 = Some m1 -> length (P ++ pubs t key l1) <= length (got M m1 i) + capacity) ->
  live M m' i = true.
Proof.
  induction l as [|o l IH]; intros P m m' HF Hr Ha Hl Hu Ho Hle; simpl in Hr; [by injection Hr as <-|]. destruct (mstep m o) as [m1|] eqn:E; simpl in Hr; [|done].
  assert (Ha1 : m_alive m1 = true) by (by eapply alive_run_back). pose proof (alive_back _ _ _ E Ha1) as Ha0.
  destruct (keeps_step i t key L0 P m o m1) as [Hl1 Hu1]; try done; [apply Ho; by left|by left| |].
  { specialize (Hle [] (o :: l) m eq_refl eq_refl). simpl in Hle. by rewrite app_nil_r in Hle. }
  eapply (IH (P ++ pub_on t key o)); [by eapply follows_step|done|done|done|done| |].
  - intros o' Ho'. apply Ho. by right.
  - intros l1 l2 m2 -> Hr2. rewrite <- app_assoc. apply (Hle (o :: l1) l2); [done|]. simpl. by rewrite E.
Qed.

(** ** Membership *)
Definition sysnodes (self : N) (l : list M) (s : gset N) : Prop := forall n, n ∈ s <-> n <> self /\ known M member l n.
Lemma known_snoc l x n : known M member (l ++ [x]) n <-> match member x with Some (b, n') => if (n' =? n)%N then b = true else known M member l n | None => known M member l n end.
Proof.
  unfold known. rewrite omap_app. cbn. destruct (member x) as [[b n']|]; cbn; [|by rewrite app_nil_r].
  destruct (n' =? n)%N; cbn; [|by rewrite app_nil_r]. rewrite last_snoc. split; congruence.
Qed.
Definition seen_ok m : Prop := exists s, m_subs m !! 0%N = Some s /\ m_seen m <= length (sb_got M s) /\ sysnodes (m_self m) (take (m_seen m) (sb_got M s)) (m_nodes m).
Lemma seen_step m o m' L0 P : follows 0%N system_topic [] L0 P m -> seen_ok m -> mstep m o = Some m' -> seen_ok m' /\ m_self m' = m_self m.
Proof.
  intros HF (s & H1 & H2 & H3) H.
  assert (HK : forall s', m_subs m' !! 0%N = Some s' -> sb_got M s `prefix_of` sb_got M s' -> m_seen m' = m_seen m -> m_nodes m' = m_nodes m -> m_self m' = m_self m -> seen_ok m' /\ m_self m' = m_self m).
  { intros s' E1 [k E2] E3 E4 E5. split; [|done]. exists s'. rewrite E3, E4, E5, E2. split_and!; [done|rewrite app_length; lia|]. by rewrite take_app_le. }
  destruct o as [j t' k|t' k x r|n k b|j|j|j|]; cbn [Stream_Model.mstep] in H.
  - destruct (m_alive m); [|done]. destruct (m_subs m !! j) eqn:Ej; [done|]. injection H as <-. assert (j <> 0%N) by congruence.
    unfold subscribe, receiver in *. destruct (m_topics m !! tname t') as [t0|]; cbn [from_option] in *.
    + destruct (t0 =? t')%N; [|by apply (HK s)]. destruct (m_chans m !! (tname t', k)); apply (HK s); try done; cbn; by rewrite lookup_insert_ne.
    + cbn in *. destruct (m_chans m !! (tname t', k)); apply (HK s); try done; cbn; by rewrite lookup_insert_ne.
  - destruct (m_alive m); [|done]. injection H as <-. unfold emit, broadcast in *. destruct (m_topics m !! tname t'); [|by apply (HK s)]. destruct (mtype n =? mtype t')%N; [|by apply (HK s)]. destruct (m_chans m !! _); by apply (HK s).
  - destruct (m_alive m); [|done]. injection H as <-. unfold emit_raw, broadcast in *. destruct (m_topics m !! n); [|by apply (HK s)]. destruct (decode _ _); try by apply (HK s). destruct (m_chans m !! _); by apply (HK s).
  - unfold recv in H. destruct (m_subs m !! j) as [[cc n g [] up]|] eqn:Ej; try done. destruct (m_chans m !! cc) as [l|]; [|done]. cbn [mbind option_bind] in H.
    assert (HSET : forall s', sb_got M (Sub cc n g true up) `prefix_of` sb_got M s' -> m' = set_sub M m j s' -> seen_ok m' ∧ m_self m' = m_self m).
    { intros s' Hp ->. destruct (decide (j = 0%N)) as [->|].
      - rewrite H1 in Ej. injection Ej as ->. eapply (HK s'); try done. unfold set_sub; cbn. by rewrite lookup_insert.
      - apply (HK s); try done. unfold set_sub; cbn. by rewrite lookup_insert_ne. }
    destruct (capacity <? length l - n); [injection H as <-; (eapply HSET; [|done]); done|]. destruct (l !! n).
    + injection H as <-. destruct up; (eapply HSET; [|done]); cbn; [by apply prefix_app_r|done].
    + destruct (m_alive m); [done|]. injection H as <-. (eapply HSET; [|done]). done.
  - destruct (m_subs m !! j) as [[cc n g [] up]|] eqn:Ej; try done. injection H as <-. destruct (decide (j = 0%N)) as [->|].
    + rewrite H1 in Ej. injection Ej as ->. eapply HK; [unfold set_sub; cbn; by rewrite lookup_insert|done..].
    + apply (HK s); try done. unfold set_sub; cbn. by rewrite lookup_insert_ne.
  - destruct (m_subs m !! j) as [[cc n g lv []]|] eqn:Ej; try done. injection H as <-. destruct (decide (j = 0%N)) as [->|].
    + rewrite H1 in Ej. injection Ej as ->. eapply HK; [unfold set_sub; cbn; by rewrite lookup_insert|done..].
    + apply (HK s); try done. unfold set_sub; cbn. by rewrite lookup_insert_ne.
  - destruct (m_alive m); [|done]. rewrite H1 in H. cbn [mbind option_bind] in H. destruct (sb_got M s !! m_seen m) as [x|] eqn:Ex; [|done]. injection H as <-. split; [|done].
    exists s. unfold on_event; cbn [Stream_Model.m_subs Stream_Model.m_seen Stream_Model.m_nodes Stream_Model.m_self]. split_and!; [done|by apply lookup_lt_Some in Ex|].
    intros n. rewrite (take_S_r _ _ _ Ex), known_snoc. specialize (H3 n). destruct (member x) as [[[] n']|]; [| |done].
    + destruct (n' =? m_self m)%N eqn:E1; destruct (n' =? n)%N eqn:E2; rewrite ?N.eqb_eq, ?N.eqb_neq in *; subst.
      * rewrite H3. split; intros [? ?]; done.
      * done.
      * rewrite elem_of_union, elem_of_singleton. split; [done|]. by left.
      * rewrite elem_of_union, elem_of_singleton, H3. split; [intros [->|?]; done|by right].
    + rewrite elem_of_difference, elem_of_singleton, H3. destruct (n' =? n)%N eqn:E2; rewrite ?N.eqb_eq, ?N.eqb_neq in *; subst.
      * split; [intros [_ ?]; done|intros [_ ?]; done].
      * split; [intros [? _]; done|intros ?; split; [done|congruence]].
Qed.
Lemma seen_run l : forall P m m', follows 0%N system_topic [] [] P m -> seen_ok m -> mrun m l = Some m' -> seen_ok m' /\ m_self m' = m_self m.
Proof.
  induction l as [|o l IH]; intros P m m' HF HS Hr; simpl in Hr; [by injection Hr as <-|]. destruct (mstep m o) as [m1|] eqn:E; simpl in Hr; [|done].
  destruct (seen_step _ _ _ _ _ HF HS E) as [HS1 E1]. destruct (IH _ _ _ (follows_step _ _ _ _ _ _ _ _ HF E) HS1 Hr) as [HS2 E2]. split; [done|congruence].
Qed.
Lemma seen_new self : seen_ok (new_med M tname self).
Proof. eexists. unfold new_med; cbn. rewrite lookup_singleton. split_and!; [done|done|]. intros n. cbn. split; [by intros ?%not_elem_of_empty|by intros [_ ?]]. Qed.
End proofs.
