(** When shutdown returns, and when it never does. *)
From Verif Require Import Shutdown_Model Shutdown_Spec Shutdown_Proofs.

(** ** Deadlock *)

(** The scheduler waits for an actor that waits for the scheduler. *)
Definition deadlocked (y : sys) : Prop := exists l r a,
  y_sched y = GStopping l /\ r ∈ l /\ r < y_next y /\ y_actors y !! r = Some a /\
  (a_phase a = AAsks \/ a_phase a = AHookAsks \/ a_phase a = AWaits).

Lemma deadlock_step y o : deadlocked y -> deadlocked (ystep y o).1 /\ YReturned ∉ (ystep y o).2.
Proof.
  intros (l & r & a & Hs & Hl & Hn & Ha & Hp).
  assert (Hnr : forallb (has_ended y) l = false).
  { apply not_true_iff_false. intros Hf. rewrite forallb_forall in Hf.
    assert (has_ended y r = true) as He by (apply Hf; by apply elem_of_list_In).
    unfold has_ended in He. rewrite Ha in He. apply bool_decide_eq_true in He. rewrite He in Hp. naive_solver. }
  assert (Hnil : YReturned ∉ []) by (by intros ?%elem_of_nil).
  assert (Hself : deadlocked y) by (exists l, r, a; done).
  assert (Hw : forall k b y', k <> r -> y_actors y' = <[k := b]> (y_actors y) -> y_sched y' = y_sched y -> y_next y' = y_next y -> deadlocked y').
  { intros k b y' Hk E1 E2 E3. exists l, r, a. rewrite E1, E2, E3, lookup_insert_ne by done. done. }
  assert (Hd : forall k b m, y_actors y !! k = Some b -> deadlocked (with_actor y k (deliver b m))).
  { intros k b m Hk. destruct (decide (k = r)) as [->|Hne]; [|by eapply (Hw k)].
    exists l, r, (deliver b m). cbn [with_actor y_actors y_sched y_next]. rewrite lookup_insert.
    split_and!; try done. assert (b = a) as -> by congruence. unfold deliver. case_bool_decide; done. }
  destruct o as [id t asks|k|k x|k| | |k|]; cbn [ystep].
  - split; [|by intros ?%elem_of_list_singleton]. exists l, r, a. cbn. split_and!; try done; [lia|].
    rewrite lookup_insert_ne by lia. done.
  - destruct (y_actors y !! k) as [b|]; [|done]. destruct (_ && _); [|done]. split; [|done]. exists l, r, a. done.
  - destruct (y_actors y !! k) as [b|] eqn:Hk; [|done]. split; [by apply Hd|done].
  - destruct (y_actors y !! k) as [b|] eqn:Hk; [|done]. split; [by apply Hd|done].
  - split; [|done]. exists l, r, a. done.
  - destruct (y_term y); [|done]. destruct (sched_done y); [done|]. split; [|done]. exists l, r, a. done.
  - destruct (decide (k = r)) as [->|Hne].
    + rewrite Ha. unfold actor_step. by destruct Hp as [->|[->| ->]].
    + destruct (y_actors y !! k) as [b|] eqn:Hk; [|done]. unfold actor_step.
      repeat case_match; cbn [fst snd]; (split; [|first [done|by intros ?%elem_of_list_singleton]]); try done; by eapply (Hw k).
  - unfold sched_step. rewrite Hs, Hnr. done.
Qed.

Lemma run_from_cons y o ops :
  yrun_from y (o :: ops) = let '(y', tr) := yrun_from (ystep y o).1 ops in (y', (ystep y o).2 ++ tr).
Proof.
  unfold yrun_from. cbn [run]. destruct (ystep y o) as [y1 ev]. cbn [fst snd]. destruct (run ystep y1 ops) as [y2 evs]. done.
Qed.
Lemma yrun_app ops ops' :
  yrun (ops ++ ops') = let '(y', tr) := yrun_from (yrun ops).1 ops' in (y', (yrun ops).2 ++ tr).
Proof.
  unfold yrun, yrun_from. rewrite run_app. destruct (run ystep sys_init ops) as [y evs]. cbn [fst snd].
  destruct (run ystep y ops') as [y' evs']. by rewrite concat_app.
Qed.

Lemma deadlock_run ops y : deadlocked y -> YReturned ∉ (yrun_from y ops).2.
Proof.
  revert y. induction ops as [|o ops IH]; intros y Hd; [by intros ?%elem_of_nil|].
  rewrite run_from_cons. destruct (deadlock_step y o Hd) as [Hd' Hn].
  specialize (IH _ Hd'). destruct (yrun_from _ ops) as [y' tr]. cbn [snd] in *.
  by intros [H|H]%elem_of_app.
Qed.
Lemma deadlock_forever ops ops' : deadlocked (yrun ops).1 -> YReturned ∉ (yrun ops).2 -> YReturned ∉ (yrun (ops ++ ops')).2.
Proof.
  intros Hd Hn. rewrite yrun_app. pose proof (deadlock_run ops' _ Hd) as H.
  destruct (yrun_from _ ops') as [y' tr]. cbn [snd] in *. by intros [?|?]%elem_of_app.
Qed.

(** ** Calm runs *)
Record P (y : sys) : Prop := {
  p_next : forall r a, y_actors y !! r = Some a -> r < y_next y;
  p_act : forall r a, y_actors y !! r = Some a ->
    a_asks a = false /\ MUser RAsk ∉ a_mail a /\ a_phase a <> AAsks /\ a_phase a <> AHookAsks;
  p_get : forall r, GGet r ∉ y_mail y;
  p_term : shutdown_asked y -> y_term y = true;
  p_dereg : y_term y = true -> forall r a, y_actors y !! r = Some a -> a_phase a <> ADereg;
  p_wait : forall r a, y_actors y !! r = Some a -> a_phase a = AWaits ->
    y_sched y = GLoop /\ exists q1 id q2, y_mail y = q1 ++ GDereg id r :: q2 /\ GStop ∉ q1;
  p_stop : forall l r a, y_sched y = GStopping l -> r ∈ l -> y_actors y !! r = Some a -> a_phase a = ALoop -> MStop ∈ a_mail a;
  p_reg : forall id r, GReg id r ∈ y_mail y -> r < y_next y;
  p_map : forall id r, y_map y !! id = Some r -> r < y_next y;
  p_list : forall l r, y_sched y = GStopping l -> r ∈ l -> r < y_next y;
}.

Lemma P_init : P sys_init.
Proof.
  split; cbn; intros; try done.
  - by apply not_elem_of_nil.
  - by destruct H as [?%elem_of_nil|?].
  - by apply elem_of_nil in H.
Qed.

Lemma step_term y o : y_term (ystep y o).1 = y_term y \/ (o = OFlag /\ y_term (ystep y o).1 = true).
Proof.
  destruct o as [id t asks|k|k x|k| | |k|]; cbn [ystep]; auto; left;
    unfold actor_step, sched_step, answer, post, with_actor; repeat case_match; simplify_eq; done.
Qed.
Lemma P_step y o : P y -> asks_nothing o ->
  (o = OFlag -> forall r a, y_actors y !! r = Some a -> a_phase a <> ADereg) -> P (ystep y o).1.
Proof.
  intros HP Hask Hflag. destruct HP as [H1 H2 H3 H4 H5 H6 H7 H8 H9 H10].
  assert (Hback : forall r a', y_actors (ystep y o).1 !! r = Some a' ->
    (exists a, y_actors y !! r = Some a /\ actor_change y o (ystep y o).1 (ystep y o).2 r a a') \/
    (r = y_next y /\ y_next (ystep y o).1 = S (y_next y) /\ a_phase a' = ALoop /\ a_mail a' = [] /\ a_asks a' = false /\
     y_sched (ystep y o).1 = y_sched y)).
  { intros r a' Ha'. destruct (y_actors y !! r) as [a|] eqn:Ha.
    - left. destruct (step_actors y o r a Ha (H1 _ _ Ha)) as (a2 & E & Hc). exists a. split; [done|]. congruence.
    - right. destruct (created_actor y o r a' Ha' Ha) as (? & ? & ? & ? & ? & asks & -> & <-). done. }
  pose proof (step_next y o) as Hn. pose proof (step_rest y o) as Hr. pose proof (step_term y o) as Ht.
  assert (Hfl : o = OFlag -> forall r a', y_actors (ystep y o).1 !! r = Some a' -> a_phase a' <> ADereg).
  { intros -> r a' Ha'. by apply (Hflag eq_refl r). }
  destruct (ystep y o) as [y' ev] eqn:Eo. cbn [fst snd] in *. clear Eo.
  assert (Hact : forall r a, y_actors y' !! r = Some a ->
    a_asks a = false /\ MUser RAsk ∉ a_mail a /\ a_phase a <> AAsks /\ a_phase a <> AHookAsks).
  { intros r a' Ha'. destruct (Hback _ _ Ha') as [(a & Ha & Hc)|(-> & _ & -> & -> & -> & _)].
    2: { split_and!; try done. by intros ?%elem_of_nil. }
    destruct (H2 _ _ Ha) as (A1 & A2 & A3 & A4). destruct (change_id _ _ _ _ _ _ _ Hc) as (_ & _ & ->).
    split; [done|].
    inversion Hc as [ |? m Hm|? x q Hq Hm|? m q Hq Hm|? q Hq Hm|? Hq|? Hq Hk|? Hq He|? p0 Hq Hq'|? Hq Hm|? Hq|? Hq|? He]; subst;
      cbn [set_phase set_mail a_phase a_mail]; try done; try congruence.
    - unfold deliver. case_bool_decide; [done|]. cbn. split; [|done].
      intros [?|E%elem_of_list_singleton]%elem_of_app; [done|]. destruct Hm as [->|(x & -> & ->)]; [done|]. simpl in Hask. congruence.
    - rewrite Hm in A2. split; [|done]. intros ?. apply A2. by right.
    - rewrite Hm in A2. split; [|done]. intros ?. apply A2. by right.
    - rewrite Hm in A2. destruct A2. by left.
    - by destruct Hq' as [[-> _]| ->].
    - split; [by apply not_elem_of_nil|done].
    - split; [by apply not_elem_of_nil|done]. }
  assert (Hmono : y_term y = true -> y_term y' = true) by (destruct Ht as [->|[_ ->]]; done).
  assert (Hterm : shutdown_asked y' -> y_term y' = true).
  { intros Hs. apply Hmono. unfold shutdown_asked in *.
    destruct Hr as [y' ev Em Ep Es Hn1 Hn2|y' r0 a0 Ha0 Ht0 Hs0 Em Ep Es|y' r0 a0 Ha0 Hp0 Hs0 Em Ep Es|y' r0 Hk0 Hs0 Em Ep Es|y' Ht0 Hs0 Em Ep Es|y' id0 r0 q0 Hs0 Eq Em Ep Es|y' ev id0 r0 q0 Hs0 Eq Em Ep Es Hw0 Hn1 Hn2|y' ev r0 q0 Hs0 Eq Em Ep Es Hn1 Hn2|y' l0 q0 Hs0 Eq Hl0 Em Ep Es Hst|y' l0 ev Hs0 Hall Em Ep Es Hn1]; rewrite Em, Es in Hs; rewrite ?elem_of_app, ?elem_of_list_singleton in Hs; auto.
    - apply H4. destruct Hs as [[?|?]|?]; auto; done.
    - apply H4. destruct Hs as [[?|?]|?]; auto; done.
    - apply H4. destruct Hs as [[?|?]|?]; auto; done.
    - apply H4. destruct Hs as [?|?]; [|done]. left. rewrite Eq. by right.
    - apply H4. destruct Hs as [?|?]; [|done]. left. rewrite Eq. by right.
    - apply H4. destruct Hs as [?|?]; [|done]. left. rewrite Eq. by right.
    - apply H4. left. rewrite Eq. by left.
    - apply H4. right. by rewrite Hs0. }
  assert (Hwaits : forall r a, y_actors y' !! r = Some a -> a_phase a = AWaits ->
    (exists a0, y_actors y !! r = Some a0 /\ a_phase a0 = AWaits) \/
    (exists id, y_mail y' = y_mail y ++ [GDereg id r] /\ y_sched y' = y_sched y /\ y_term y = false)).
  { intros r a' Ha' Hp. destruct (Hback _ _ Ha') as [(a & Ha & Hc)|(_ & _ & Hp' & _)]; [|congruence].
    inversion Hc as [ |? m Hm|? x q Hq Hm|? m q Hq Hm|? q Hq Hm|? Hq|? Hq Hk|? Hq He|? p0 Hq Hq'|? Hq Hm|? Hq|? Hq|? He]; subst;
      cbn [set_phase set_mail a_phase a_mail] in Hp; try congruence; eauto.
    - left. exists a. split; [done|]. revert Hp. unfold deliver. by case_bool_decide.
    - destruct Hq' as [[-> _]| ->]; congruence.
    - right. exists (a_id a). destruct Hm as [Hm1 Hm2]. split_and!; [done|done|].
      destruct (y_term y) eqn:E; [|done]. by destruct (H5 eq_refl _ _ Ha). }
  split.
  - intros r a' Ha'. destruct (Hback _ _ Ha') as [(a & Ha & Hc)|(-> & -> & _)]; [|lia]. apply H1 in Ha. lia.
  - done.
  - intros r Hg.
    destruct Hr as [y' ev Em Ep Es Hn1 Hn2|y' r0 a0 Ha0 Ht0 Hs0 Em Ep Es|y' r0 a0 Ha0 Hp0 Hs0 Em Ep Es|y' r0 Hk0 Hs0 Em Ep Es|y' Ht0 Hs0 Em Ep Es|y' id0 r0 q0 Hs0 Eq Em Ep Es|y' ev id0 r0 q0 Hs0 Eq Em Ep Es Hw0 Hn1 Hn2|y' ev r0 q0 Hs0 Eq Em Ep Es Hn1 Hn2|y' l0 q0 Hs0 Eq Hl0 Em Ep Es Hst|y' l0 ev Hs0 Hall Em Ep Es Hn1]; rewrite Em in Hg; rewrite ?elem_of_app, ?elem_of_list_singleton in Hg;
      try (by apply (H3 r)); try (apply (H3 r); rewrite Eq; by right).
    + by destruct Hg as [?%H3|?].
    + by destruct Hg as [?%H3|?].
    + destruct Hg as [?%H3|?]; [done|]. destruct Hk0 as (a0 & Ha0 & Hk0). destruct (H2 _ _ Ha0) as (? & ? & _).
      destruct Hk0; [congruence|done].
    + by destruct Hg as [?%H3|?].
    + by apply elem_of_nil in Hg.
  - done.
  - intros Htm r a' Ha' Hp. destruct Ht as [Ht|[-> _]]; [|by apply (Hfl eq_refl r a')].
    destruct (Hback _ _ Ha') as [(a & Ha & Hc)|(_ & _ & Hp' & _)]; [|congruence].
    rewrite Ht in Htm. pose proof (H5 Htm _ _ Ha) as Hd.
    inversion Hc as [ |? m Hm|? x q Hq Hm|? m q Hq Hm|? q Hq Hm|? Hq|? Hq Hk|? Hq He|? p0 Hq Hq'|? Hq Hm|? Hq|? Hq|? He]; subst;
      cbn [set_phase set_mail a_phase a_mail] in Hp; try congruence.
    + revert Hp. unfold deliver. case_bool_decide; by cbn.
    + destruct Hq' as [(-> & _ & ?)| ->]; congruence.
  - intros r a' Ha' Hp. destruct (Hwaits _ _ Ha' Hp) as [(a & Ha & Hpa)|(id & Em & Es & Etm)].
    + destruct (H6 _ _ Ha Hpa) as (Hs & q1 & id & q2 & Eq1 & Hq1).
      clear Hback Hwaits.
      assert (Hkeep : forall q, y_mail y' = y_mail y ++ q -> y_sched y' = y_sched y ->
        y_sched y' = GLoop /\ exists q1 id q2, y_mail y' = q1 ++ GDereg id r :: q2 /\ GStop ∉ q1).
      { intros q E1 E2. rewrite E2. split; [done|]. exists q1, id, (q2 ++ q). split; [|done]. by rewrite E1, Eq1, <-app_assoc. }
      assert (Hpop : forall m q, y_mail y = m :: q -> y_mail y' = q -> y_sched y' = GLoop -> (forall id, m <> GDereg id r) ->
        y_sched y' = GLoop /\ exists q1 id q2, y_mail y' = q1 ++ GDereg id r :: q2 /\ GStop ∉ q1).
      { intros m q E1 E2 E3 Hne. split; [done|]. rewrite E1 in Eq1. destruct q1 as [|m1 q1]; simpl in Eq1.
        - injection Eq1 as -> _. by destruct (Hne id).
        - injection Eq1 as _ ->. exists q1, id, q2. split; [done|]. intros ?. apply Hq1. by right. }
      destruct Hr as [y' ev Em Ep Es Hn1 Hn2|y' r0 a0 Ha0 Ht0 Hs0 Em Ep Es|y' r0 a0 Ha0 Hp0 Hs0 Em Ep Es|y' r0 Hk0 Hs0 Em Ep Es|y' Ht0 Hs0 Em Ep Es|y' id0 r0 q0 Hs0 Eq Em Ep Es|y' ev id0 r0 q0 Hs0 Eq Em Ep Es Hw0 Hn1 Hn2|y' ev r0 q0 Hs0 Eq Em Ep Es Hn1 Hn2|y' l0 q0 Hs0 Eq Hl0 Em Ep Es Hst|y' l0 ev Hs0 Hall Em Ep Es Hn1]; try (by apply (Hkeep []); rewrite ?app_nil_r); try (by eapply Hkeep).
      * by apply (Hpop _ _ Eq).
      * apply (Hpop _ _ Eq); try done. intros i [= -> ->]. by apply (Hw0 _ Ha').
      * by apply (Hpop _ _ Eq).
      * exfalso. rewrite Eq in Eq1. destruct q1 as [|m1 q1]; simplify_eq/=. apply Hq1. by left.
      * congruence.
    + assert (~ shutdown_asked y) as Hns. { intros ?%H4. congruence. }
      split. { rewrite Es. destruct (y_sched y) eqn:E; [done| |]; destruct Hns; right; by rewrite E. }
      exists (y_mail y), id, []. split; [done|]. intros ?. apply Hns. by left.
  - intros l r a' Hs Hl Ha' Hp.
    destruct (Hback _ _ Ha') as [(a & Ha & Hc)|(-> & Hn' & _ & _ & _ & Es)].
    + assert (y_sched y = GStopping l -> MStop ∈ a_mail a') as Hold.
      { intros Hs1.
        inversion Hc as [ |? m Hm|? x q Hq Hm|? m q Hq Hm|? q Hq Hm|? Hq|? Hq Hk|? Hq He|? p0 Hq Hq'|? Hq Hm|? Hq|? Hq|? He]; subst;
          cbn [set_phase set_mail a_phase a_mail] in Hp |- *; try congruence.
        - by eapply H7.
        - revert Hp. unfold deliver. case_bool_decide as Hb; [congruence|]. cbn. intros Hp.
          apply elem_of_app. left. by eapply H7.
        - pose proof (H7 _ _ _ Hs1 Hl Ha Hq) as Hin. rewrite Hm in Hin. by apply elem_of_cons in Hin as [?|?].
        - by destruct (H2 _ _ Ha) as (_ & _ & ? & _).
        - destruct Hq' as [(-> & _)| ->]; congruence. }
      destruct Hr as [y' ev Em Ep Es Hn1 Hn2|y' r0 a0 Ha0 Ht0 Hs0 Em Ep Es|y' r0 a0 Ha0 Hp0 Hs0 Em Ep Es|y' r0 Hk0 Hs0 Em Ep Es|y' Ht0 Hs0 Em Ep Es|y' id0 r0 q0 Hs0 Eq Em Ep Es|y' ev id0 r0 q0 Hs0 Eq Em Ep Es Hw0 Hn1 Hn2|y' ev r0 q0 Hs0 Eq Em Ep Es Hn1 Hn2|y' l0 q0 Hs0 Eq Hl0 Em Ep Es Hst|y' l0 ev Hs0 Hall Em Ep Es Hn1]; try (by apply Hold; congruence); try congruence.
      assert (l0 = l) as -> by congruence. by apply (Hst r).
    + exfalso. rewrite Es in Hs. pose proof (H10 _ _ Hs Hl). lia.
  - intros id r Hg.
    destruct Hr as [y' ev Em Ep Es Hn1 Hn2|y' r0 a0 Ha0 Ht0 Hs0 Em Ep Es|y' r0 a0 Ha0 Hp0 Hs0 Em Ep Es|y' r0 Hk0 Hs0 Em Ep Es|y' Ht0 Hs0 Em Ep Es|y' id0 r0 q0 Hs0 Eq Em Ep Es|y' ev id0 r0 q0 Hs0 Eq Em Ep Es Hw0 Hn1 Hn2|y' ev r0 q0 Hs0 Eq Em Ep Es Hn1 Hn2|y' l0 q0 Hs0 Eq Hl0 Em Ep Es Hst|y' l0 ev Hs0 Hall Em Ep Es Hn1]; rewrite Em in Hg; rewrite ?elem_of_app, ?elem_of_list_singleton in Hg;
      try (apply H8 in Hg; lia); try (destruct Hg as [Hg|Hg]; [apply H8 in Hg; lia|]; try done);
      try (assert (GReg id r ∈ y_mail y) as Hg' by (rewrite Eq; by right); apply H8 in Hg'; lia).
    + injection Hg as -> ->. apply H1 in Ha0. lia.
    + by apply elem_of_nil in Hg.
  - intros id r Hg. destruct Hr as [y' ev Em Ep Es Hn1 Hn2|y' r0 a0 Ha0 Ht0 Hs0 Em Ep Es|y' r0 a0 Ha0 Hp0 Hs0 Em Ep Es|y' r0 Hk0 Hs0 Em Ep Es|y' Ht0 Hs0 Em Ep Es|y' id0 r0 q0 Hs0 Eq Em Ep Es|y' ev id0 r0 q0 Hs0 Eq Em Ep Es Hw0 Hn1 Hn2|y' ev r0 q0 Hs0 Eq Em Ep Es Hn1 Hn2|y' l0 q0 Hs0 Eq Hl0 Em Ep Es Hst|y' l0 ev Hs0 Hall Em Ep Es Hn1]; rewrite Ep in Hg; try (apply H9 in Hg; lia).
    + destruct (decide (id0 = id)) as [->|Hne].
      * rewrite lookup_insert in Hg. injection Hg as <-.
        assert (GReg id r0 ∈ y_mail y) as Hg' by (rewrite Eq; by left). apply H8 in Hg'. lia.
      * rewrite lookup_insert_ne in Hg by done. apply H9 in Hg. lia.
    + apply lookup_delete_Some in Hg as [_ Hg]. apply H9 in Hg. lia.
  - intros l r Hs Hl. destruct Hr as [y' ev Em Ep Es Hn1 Hn2|y' r0 a0 Ha0 Ht0 Hs0 Em Ep Es|y' r0 a0 Ha0 Hp0 Hs0 Em Ep Es|y' r0 Hk0 Hs0 Em Ep Es|y' Ht0 Hs0 Em Ep Es|y' id0 r0 q0 Hs0 Eq Em Ep Es|y' ev id0 r0 q0 Hs0 Eq Em Ep Es Hw0 Hn1 Hn2|y' ev r0 q0 Hs0 Eq Em Ep Es Hn1 Hn2|y' l0 q0 Hs0 Eq Hl0 Em Ep Es Hst|y' l0 ev Hs0 Hall Em Ep Es Hn1]; rewrite Es in Hs; try done; try (pose proof (H10 _ _ Hs Hl); lia).
    injection Hs as <-. subst l0. apply elem_of_list_fmap in Hl as ([i1 r1] & -> & Hl).
    apply elem_of_map_to_list in Hl. apply H9 in Hl. simpl. lia.
Qed.

Lemma calm_prefix ops ops' : calm (ops ++ ops') -> calm ops.
Proof.
  intros [H1 H2]. split.
  - intros o Ho. apply H1, elem_of_app. by left.
  - intros pre post E. apply (H2 pre (post ++ ops')). by rewrite E, <-app_assoc.
Qed.
Lemma P_run ops : calm ops -> P (yrun ops).1.
Proof.
  induction ops as [|o ops IH] using rev_ind; intros Hc; [exact P_init|].
  pose proof (IH (calm_prefix _ _ Hc)) as HP. destruct Hc as [H1 H2].
  rewrite yrun_snoc. destruct (yrun ops) as [y tr] eqn:E. cbn [fst] in HP.
  pose proof (P_step y o HP) as HS. destruct (ystep y o) as [y' ev]. cbn [fst] in *.
  apply HS.
  - apply H1, elem_of_app. right. by left.
  - intros -> r a Ha. apply (H2 ops [] eq_refl r). by rewrite E.
Qed.
Lemma P_internal y o : P y -> internal o -> P (ystep y o).1.
Proof. intros HP Hi. apply P_step; [done|by destruct o|by destruct o]. Qed.

(** ** Nothing gets stuck *)
Lemma progress y : P y -> shutdown_asked y -> sched_done y = false -> exists o, effective y o.
Proof.
  intros [H1 H2 H3 H4 H5 H6 H7 H8 H9 H10] Hs Hd. unfold effective.
  assert (Hneq : forall y' (ev : list yevent), y_mail y' <> y_mail y \/ y_sched y' <> y_sched y -> (y', ev) <> (y, [])).
  { intros y' ev Hne [= -> ->]. by destruct Hne. }
  destruct (y_sched y) as [|l|] eqn:Es.
  - exists OSched. split; [done|]. cbn [ystep]. unfold sched_step. rewrite Es.
    destruct Hs as [Hs|?]; [|done]. destruct (y_mail y) as [|m q] eqn:Em; [by apply elem_of_nil in Hs|].
    assert (forall (x : gmsg) l, l <> x :: l) as Hl. { intros x l E. apply (f_equal length) in E. simpl in E. lia. }
    destruct m as [id r|id r|r|].
    + apply Hneq. left. apply Hl.
    + destruct (answer _ r) as [y' ev] eqn:E. apply answer_rest in E as (E & _). apply Hneq. left. rewrite E. apply Hl.
    + destruct (answer _ r) as [y' ev] eqn:E. apply answer_rest in E as (E & _). apply Hneq. left. rewrite E. apply Hl.
    + apply Hneq. left. apply Hl.
  - destruct (forallb (has_ended y) l) eqn:Ef.
    + exists OSched. split; [done|]. cbn [ystep]. unfold sched_step. rewrite Es, Ef. by apply Hneq; right.
    + assert (exists r, r ∈ l /\ has_ended y r = false) as (r & Hr & He).
      { clear -Ef. induction l as [|x l IH]; [done|]. simpl in Ef. destruct (has_ended y x) eqn:E.
        - destruct (IH Ef) as (r & Hr & He). exists r. split; [by right|done].
        - exists x. split; [by left|done]. }
      unfold has_ended in He. destruct (y_actors y !! r) as [a|] eqn:Ha; [|done]. apply bool_decide_eq_false in He.
      assert (Hact : forall a' (ev : list yevent), a_mail a' <> a_mail a \/ a_phase a' <> a_phase a -> (with_actor y r a', ev) <> (y, [])).
      { intros a' ev Hne [= E _]. assert (y_actors y !! r = Some a') as Ha2.
        { rewrite <-E at 1. cbn. by rewrite lookup_insert. }
        rewrite Ha in Ha2. injection Ha2 as ->. by destruct Hne. }
      exists (OActor r). split; [done|]. cbn [ystep]. rewrite Ha. unfold actor_step.
      destruct (H2 _ _ Ha) as (A1 & A2 & A3 & A4).
      assert (forall (x : amsg) l, l <> x :: l) as Hl. { intros x l0 E. apply (f_equal length) in E. simpl in E. lia. }
      assert (y_term y = true) as Ht. { apply H4. right. by rewrite Es. }
      destruct (a_phase a) eqn:Ep; try done.
      * pose proof (H7 _ _ _ eq_refl Hr Ha Ep) as Hm. destruct (a_mail a) as [|[[| | |]|] q] eqn:Em.
        -- by apply elem_of_nil in Hm.
        -- apply Hact. left. cbn. apply Hl.
        -- apply Hact. right. cbn. congruence.
        -- apply Hact. right. cbn. congruence.
        -- destruct A2. by left.
        -- apply Hact. right. cbn. congruence.
      * rewrite A1. cbn [andb]. apply Hact. right. cbn. congruence.
      * apply Hact. right. cbn. by destruct (_ && _).
      * by destruct (H5 Ht _ _ Ha).
      * by destruct (H6 _ _ Ha Ep) as [? _].
  - unfold sched_done in Hd. by rewrite Es in Hd.
Qed.

(** ** How many steps it may take *)
Definition phase_weight (n : nat) (p : aphase) : nat :=
  match p with
  | AEnded => 0 | AEnding => 1 | AWaits => 2 | ADereg => n + 5 | ACheck => n + 6
  | AHook | AHookAsks => n + 7 | ALoop | AAsks => n + 8
  end.
Definition weight (n : nat) (a : actor) : nat := length (a_mail a) + phase_weight n (a_phase a).
Definition at_ (n : nat) (m : gmap nat actor) (r : nat) : nat := match m !! r with Some a => weight n a | None => 0 end.
Definition total (n : nat) (m : gmap nat actor) : nat := sum_list_with (at_ n m) (seq 0 n).
Definition bound (y : sys) : nat :=
  total (y_next y) (y_actors y) + (y_next y + 2) * length (y_mail y) +
  match y_sched y with GLoop => 2 | GStopping _ => 1 | GDone => 0 end.

Lemma sum_le {A} (f g : A -> nat) k l : (forall x, g x <= f x + k) -> sum_list_with g l <= sum_list_with f l + length l * k.
Proof. intros H. induction l as [|x l IH]; simpl; [lia|]. specialize (H x). lia. Qed.
Lemma total_le n m m' k : (forall r, at_ n m' r <= at_ n m r + k) -> total n m' <= total n m + n * k.
Proof. intros H. unfold total. pose proof (sum_le _ _ k (seq 0 n) H) as H1. by rewrite seq_length in H1. Qed.
Lemma sum_one (f g : nat -> nat) r l : NoDup l -> r ∈ l -> (forall x, x <> r -> g x = f x) ->
  sum_list_with g l + f r = sum_list_with f l + g r.
Proof.
  intros Hnd Hr Hne. induction l as [|x l IH]; [by apply elem_of_nil in Hr|]. apply NoDup_cons in Hnd as [Hx Hnd].
  simpl. apply elem_of_cons in Hr as [->|Hr].
  - assert (sum_list_with g l = sum_list_with f l) as ->; [|lia].
    clear IH Hnd. induction l as [|z l IH]; [done|]. simpl. apply not_elem_of_cons in Hx as [? ?].
    rewrite (Hne z) by done. by rewrite IH.
  - specialize (IH Hnd Hr). assert (x <> r) by (intros ->; done). rewrite (Hne x) by done. lia.
Qed.
Lemma total_insert n m r a a' : r < n -> m !! r = Some a -> total n (<[r := a']> m) + weight n a = total n m + weight n a'.
Proof.
  intros Hr Ha. unfold total.
  pose proof (sum_one (at_ n m) (at_ n (<[r := a']> m)) r (seq 0 n)) as H.
  assert (at_ n m r = weight n a) as E1 by (unfold at_; by rewrite Ha).
  assert (at_ n (<[r := a']> m) r = weight n a') as E2 by (unfold at_; by rewrite lookup_insert).
  rewrite E1, E2 in H. apply H.
  - apply NoDup_seq.
  - apply elem_of_seq. lia.
  - intros x Hx. unfold at_. by rewrite lookup_insert_ne.
Qed.

Lemma actor_step_bound y r a : P y -> y_actors y !! r = Some a -> actor_step y r a <> (y, []) ->
  bound (actor_step y r a).1 < bound y.
Proof.
  intros [H1 H2 H3 H4 H5 H6 H7 H8 H9 H10] Ha Hne. pose proof (H1 _ _ Ha) as Hr.
  destruct (H2 _ _ Ha) as (A1 & A2 & A3 & A4).
  assert (Hw : forall a', weight (y_next y) a' < weight (y_next y) a -> bound (with_actor y r a') < bound y).
  { intros a' Hlt. unfold bound. cbn [with_actor y_next y_actors y_mail y_sched].
    pose proof (total_insert (y_next y) (y_actors y) r a a' Hr Ha). lia. }
  unfold actor_step in *. destruct (a_phase a) eqn:Ep; try done.
  - destruct (a_mail a) as [|[[| | |]|] q] eqn:Em; [done| | | | |].
    + apply Hw. unfold weight. cbn. rewrite Em, Ep. simpl. lia.
    + apply Hw. unfold weight. cbn. rewrite Em, Ep. simpl. lia.
    + apply Hw. unfold weight. cbn. rewrite Em, Ep. simpl. lia.
    + destruct A2. by left.
    + apply Hw. unfold weight. cbn. rewrite Em, Ep. simpl. lia.
  - rewrite A1. cbn [andb fst]. apply Hw. unfold weight. cbn. rewrite Ep. simpl. lia.
  - cbn [fst]. apply Hw. unfold weight. cbn. rewrite Ep. destruct (_ && _); simpl; lia.
  - destruct (sched_done y); cbn [fst].
    + apply Hw. unfold weight. cbn. rewrite Ep. simpl. lia.
    + unfold bound. cbn [post with_actor y_next y_actors y_mail y_sched].
      pose proof (total_insert (y_next y) (y_actors y) r a (set_phase a AWaits) Hr Ha) as Ht.
      unfold weight in Ht. cbn in Ht. rewrite Ep in Ht. cbn in Ht. rewrite app_length. simpl. lia.
  - cbn [fst]. apply Hw. unfold weight. cbn. rewrite Ep. simpl. lia.
Qed.

Lemma answer_total y k y' ev : P y -> answer y k = (y', ev) -> y_next y' = y_next y /\ total (y_next y) (y_actors y') <= total (y_next y) (y_actors y).
Proof.
  intros [H1 _ _ _ _ _ _ _ _ _]. unfold answer. destruct (y_actors y !! k) as [b|] eqn:Hk.
  - destruct (answered b) as [b' h] eqn:Eb. intros [= <- _]. cbn [with_actor y_next y_actors]. split; [done|].
    pose proof (total_insert (y_next y) (y_actors y) k b b' (H1 _ _ Hk) Hk) as Ht.
    assert (weight (y_next y) b' <= weight (y_next y) b); [|lia].
    unfold answered in Eb. unfold weight. destruct (a_phase b) eqn:Ep; simplify_eq; cbn; rewrite ?Ep; simpl; lia.
  - intros [= <- _]. done.
Qed.
Lemma sched_step_bound y : P y -> sched_step y <> (y, []) -> bound (sched_step y).1 < bound y.
Proof.
  intros HP Hne. unfold sched_step in *. destruct (y_sched y) as [|l|] eqn:Es; [| |done].
  - destruct (y_mail y) as [|m q] eqn:Em; [done|].
    assert (Hans : forall mp k, bound (answer (Sys (y_actors y) (y_next y) q mp GLoop (y_term y)) k).1 < bound y).
    { intros mp k. destruct (answer _ k) as [y' ev] eqn:E. cbn [fst].
      assert (y_next y' = y_next y /\ total (y_next y) (y_actors y') <= total (y_next y) (y_actors y)) as [En Ht].
      { revert E. destruct HP as [H1 _ _ _ _ _ _ _ _ _]. unfold answer. cbn [y_actors y_next]. destruct (y_actors y !! k) as [b|] eqn:Hk.
        - destruct (answered b) as [b' h] eqn:Eb. intros [= <- _]. cbn [with_actor y_next y_actors]. split; [done|].
          pose proof (total_insert (y_next y) (y_actors y) k b b' (H1 _ _ Hk) Hk) as Ht.
          assert (weight (y_next y) b' <= weight (y_next y) b); [|lia].
          unfold answered in Eb. unfold weight. destruct (a_phase b) eqn:Ep; simplify_eq; cbn; rewrite ?Ep; simpl; lia.
        - intros [= <- _]. done. }
      apply answer_rest in E as (E1 & _ & E2 & _). cbn [y_mail y_sched] in E1, E2.
      unfold bound. rewrite En, E1, E2, Em, Es. simpl. lia. }
    destruct m as [id r|id r|r|].
    + unfold bound. cbn [fst y_next y_actors y_mail y_sched]. rewrite Em, Es. simpl. lia.
    + apply Hans.
    + apply Hans.
    + unfold bound. cbn [fst y_next y_actors y_mail y_sched]. rewrite Em, Es. simpl.
      set (l := map snd (map_to_list (y_map y))).
      pose proof (total_le (y_next y) (y_actors y) (map_imap (fun r a => Some (stop_in l r a)) (y_actors y)) 1) as Ht.
      assert (total (y_next y) (map_imap (fun r a => Some (stop_in l r a)) (y_actors y)) <= total (y_next y) (y_actors y) + y_next y * 1); [|lia].
      apply Ht. intros r. unfold at_. rewrite map_lookup_imap. destruct (y_actors y !! r) as [a|]; cbn [mbind option_bind]; [|lia].
      unfold stop_in, deliver, weight. case_bool_decide; [|lia]. case_bool_decide; [lia|]. cbn. rewrite app_length. simpl. lia.
  - destruct (forallb _ l); [|done]. unfold bound. cbn [fst y_next y_actors y_mail y_sched]. rewrite Es. simpl.
    pose proof (total_le (y_next y) (y_actors y) (unanswered <$> y_actors y) 0) as Ht.
    assert (total (y_next y) (unanswered <$> y_actors y) <= total (y_next y) (y_actors y) + y_next y * 0); [|lia].
    apply Ht. intros r. unfold at_. rewrite lookup_fmap. destruct (y_actors y !! r) as [a|]; cbn [fmap option_fmap option_map]; [|lia].
    unfold unanswered, weight. destruct (a_phase a) eqn:Ep; cbn; rewrite ?Ep; simpl; lia.
Qed.

Lemma effective_bound y ops : P y -> effective_run y ops -> length ops <= bound y.
Proof.
  revert y. induction ops as [|o ops IH]; intros y HP; simpl; [lia|]. intros [[Hi He] Hr].
  apply IH in Hr; [|by apply P_internal]. enough (bound (ystep y o).1 < bound y) by lia.
  destruct o as [| | | | | |r|]; try done; cbn [ystep] in *.
  - destruct (y_actors y !! r) as [a|] eqn:Ha; [|done]. by apply actor_step_bound.
  - by apply sched_step_bound.
Qed.

(** Shutting down is never undone. *)
Lemma asked_internal y o : shutdown_asked y -> internal o -> shutdown_asked (ystep y o).1.
Proof.
  unfold shutdown_asked. intros Hs _. pose proof (step_rest y o) as Hr.
  destruct (ystep y o) as [y1 ev1]. cbn [fst snd] in *.
  destruct Hr as [y' ev Em Ep Es Hn1 Hn2|y' r0 a0 Ha0 Ht0 Hs0 Em Ep Es|y' r0 a0 Ha0 Hp0 Hs0 Em Ep Es|y' r0 Hk0 Hs0 Em Ep Es|y' Ht0 Hs0 Em Ep Es|y' id0 r0 q0 Hs0 Eq Em Ep Es|y' ev id0 r0 q0 Hs0 Eq Em Ep Es Hw0 Hn1 Hn2|y' ev r0 q0 Hs0 Eq Em Ep Es Hn1 Hn2|y' l0 q0 Hs0 Eq Hl0 Em Ep Es Hst|y' l0 ev Hs0 Hall Em Ep Es Hn1]; rewrite Em, Es; rewrite ?elem_of_app; auto.
  - destruct Hs; auto.
  - destruct Hs; auto.
  - destruct Hs; auto.
  - destruct Hs; auto.
  - destruct Hs as [Hs|?]; [|auto]. rewrite Eq in Hs. apply elem_of_cons in Hs as [?|?]; [done|auto].
  - destruct Hs as [Hs|?]; [|auto]. rewrite Eq in Hs. apply elem_of_cons in Hs as [?|?]; [done|auto].
  - destruct Hs as [Hs|?]; [|auto]. rewrite Eq in Hs. apply elem_of_cons in Hs as [?|?]; [done|auto].
Qed.

(** A run that does all it can returns. *)
Lemma returns y ops : P y -> shutdown_asked y -> effective_run y ops ->
  (forall o, ~ effective (yrun_from y ops).1 o) -> sched_done (yrun_from y ops).1 = true.
Proof.
  revert y. induction ops as [|o ops IH]; intros y HP Hs He Hstuck.
  - unfold yrun_from in *. simpl in *. destruct (sched_done y) eqn:Hd; [done|].
    destruct (progress y HP Hs Hd) as [o Ho]. by destruct (Hstuck o).
  - destruct He as [[Hi Ho] He]. rewrite run_from_cons in *.
    specialize (IH (ystep y o).1 (P_internal _ _ HP Hi) (asked_internal _ _ Hs Hi) He).
    destruct (yrun_from (ystep y o).1 ops) as [y' tr]. by apply IH.
Qed.

Lemma other_sched y o : o <> OSched -> y_sched (ystep y o).1 = y_sched y.
Proof.
  intros Hne. destruct o as [id t asks|k|k x|k| | |k|]; cbn [ystep]; try done;
    unfold actor_step, post, with_actor; repeat case_match; done.
Qed.

Lemma done_returned ops : sched_done (yrun ops).1 = true -> YReturned ∈ (yrun ops).2.
Proof.
  induction ops as [|o ops IH] using rev_ind; [done|]. rewrite yrun_snoc. destruct (yrun ops) as [y tr]. cbn [fst snd] in *.
  destruct (sched_done y) eqn:Hd.
  - intros _. destruct (ystep y o) as [y' ev]. cbn. apply elem_of_app. left. by apply IH.
  - clear IH. intros Hx. assert (o = OSched) as ->.
    { destruct o; try done; exfalso; revert Hd Hx; unfold sched_done;
        match goal with |- context [ystep y ?o] => pose proof (other_sched y o) as Ho; destruct (ystep y o) as [y' ev] end;
        cbn [fst] in *; rewrite Ho by done; congruence. }
    revert Hd Hx. cbn [ystep]. unfold sched_step. destruct (y_sched y) as [|l|] eqn:Es.
    + intros _ Hx. exfalso. revert Hx. unfold sched_done, answer. repeat case_match; simplify_eq/=; congruence.
    + intros _. destruct (forallb _ l); [|unfold sched_done; cbn; by rewrite Es]. cbn. intros _.
      rewrite !elem_of_app, elem_of_list_singleton. auto.
    + unfold sched_done. by rewrite Es.
Qed.
