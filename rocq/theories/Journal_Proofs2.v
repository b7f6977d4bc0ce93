(** Consequences of the exact characterisation, deletion of old messages, sequence ids. *)
From Verif Require Import Journal_Model Journal_Spec Journal_Proofs.
Local Open Scope Z_scope.

(** Number of starts of [pid] since its last acknowledged snapshot. *)
Definition starts_since_snapshot (pid : string) (h : list event) : nat :=
  fold_left (fun n e => if decide (e.1.1 = pid) then
                          match e.1.2, e.2 with
                          | JStart, _ => S n
                          | JSnapshot _ _ _, JOk => O
                          | _, _ => n
                          end
                        else n) h O.

Definition actual_matches (a : actual) (x : expected) (n : nat) : Prop :=
  a_snapshot a = x_snapshot x /\ a_lost a ++ a_kept a = x_after x /\
  (a_snapshot a = None -> a_lost a = []) /\
  (length (a_lost a) <= if a_fresh a then n else S n)%nat.

Lemma actual_expected pid h :
  actual_matches (does_recover pid h) (must_recover pid h) (starts_since_snapshot pid h).
Proof.
  unfold does_recover, must_recover, starts_since_snapshot.
  assert (forall a x n, actual_matches a x n ->
    actual_matches (fold_left (actual_step pid) h a) (fold_left (expected_step pid) h x)
      (fold_left (fun n e => if decide (e.1.1 = pid) then
                          match e.1.2, e.2 with
                          | JStart, _ => S n
                          | JSnapshot _ _ _, JOk => O
                          | _, _ => n
                          end
                        else n) h n)) as Hgen.
  { induction h as [|[[p o] r] h IH]; intros a x n Hm; simpl; [done|].
    apply IH. clear IH. destruct a as [sn lo ke fr], x as [xs xa].
    destruct Hm as (H1 & H2 & H3 & H4). simpl in *. subst.
    unfold actual_step, expected_step. simpl.
    destruct (decide (p = pid)); [|by split_and!].
    destruct o; simpl.
    - split_and!; simpl; try done. destruct fr; lia.
    - destruct r; try by split_and!. destruct xs as [xs|]; [destruct ke as [|k ke]; [destruct fr|]|];
        split_and!; simpl; try done; rewrite ?app_nil_r, ?app_length; simpl; try lia;
        try (by rewrite (assoc_L (++))).
      all: try done.
      all: try (destruct fr; lia).
      all: try (by rewrite <-(assoc_L (++))).
    - destruct r; try by split_and!. split_and!; simpl; try done. by rewrite (assoc_L (++)).
    - destruct r; try by split_and!.
    - destruct r; try by split_and!.
    - destruct r; try by split_and!. destruct b; [|by split_and!].
      split_and!; simpl; try done. lia. }
  apply Hgen. split_and!; done.
Qed.

Lemma combine_in_fst {A B} (l1 : list A) (l2 : list B) p : In p (combine l1 l2) -> In p.1 l1.
Proof. destruct p. apply in_combine_l. Qed.

Lemma no_snapshot_expected pid (h : list event) :
  (forall e, In e h -> e.1.1 = pid -> forall s b f, e.1.2 <> JSnapshot s b f) ->
  x_snapshot (must_recover pid h) = None.
Proof.
  unfold must_recover. intros H.
  assert (forall x, x_snapshot x = None -> x_snapshot (fold_left (expected_step pid) h x) = None) as Hg.
  { induction h as [|[[p o] r] h IH]; intros x Hx; simpl; [done|].
    apply IH; [intros e He; apply H; by right|].
    unfold expected_step. simpl. destruct (decide (p = pid)); [|done].
    pose proof (H ((p, o), r) (or_introl eq_refl) e) as Hns. simpl in Hns.
    destruct o; try done; destruct r; try done.
    + exfalso. by eapply Hns.
    + by destruct b. }
  by apply Hg.
Qed.

Section mem.
  Context (conf : string -> jtypes).
  Hypothesis Hconf : forall pid, unambiguous_types (conf pid).

  Notation hist h := (history mem_storage conf mem_init h).
  Notation start h pid := (start_after mem_storage conf mem_init h pid).

  Lemma replay_without_snapshots h pid :
    no_snapshot pid h ->
    recovered (start h pid) = Some (None, x_after (must_recover pid (hist h))).
  Proof.
    intros Hn. rewrite (mem_recovers_actual conf Hconf).
    destruct (actual_expected pid (hist h)) as (H1 & H2 & H3 & _).
    assert (Hx : x_snapshot (must_recover pid (hist h)) = None).
    { apply no_snapshot_expected. intros e He Hp. apply (Hn e.1); [|done].
      unfold history in He. by apply combine_in_fst in He. }
    rewrite Hx in H1. rewrite H1, <-H2, (H3 H1). done.
  Qed.

  Lemma replay_with_snapshots h pid :
    exists lost ms,
      recovered (start h pid) = Some (x_snapshot (must_recover pid (hist h)), ms) /\
      x_after (must_recover pid (hist h)) = lost ++ ms /\
      (length lost <= S (starts_since_snapshot pid (hist h)))%nat.
  Proof.
    rewrite (mem_recovers_actual conf Hconf).
    destruct (actual_expected pid (hist h)) as (H1 & H2 & H3 & H4).
    do 2 eexists. split; [by rewrite H1|]. split; [by rewrite <-H2|].
    destruct (a_fresh _); lia.
  Qed.

  Lemma seqs_nondecreasing h pid :
    StronglySorted (fun a b => e_seq a <= e_seq b)
      (msgs_of (js_store (jrun mem_storage conf mem_init h).1 !! pid)).
  Proof. by destruct (inv_history conf Hconf h pid) as (H & _). Qed.

  (** ** Deleting old messages is unobservable *)

  Definition sim (pid : string) (s1 s2 : jsys (St := mem_store)) : Prop :=
    js_journals s1 = js_journals s2 /\
    (forall p, p <> pid -> js_store s1 !! p = js_store s2 !! p) /\
    match js_store s1 !! pid, js_store s2 !! pid with
    | None, None => True
    | Some a1, Some a2 =>
        aj_snapshots a1 = aj_snapshots a2 /\
        exists old, aj_messages a2 = old ++ aj_messages a1 /\
          (old <> [] -> exists es, last (aj_snapshots a2) = Some es /\ 1 <= e_seq es /\
             Forall (fun e => e_seq e < e_seq es) old /\
             forall j s0, js_journals s2 !! pid = Some j -> j_snap j = Some s0 -> s0 = e_seq es)
    | _, _ => False
    end.

  Lemma sim_load pid s1 s2 p :
    sim pid s1 s2 ->
    load_journal mem_storage conf p (js_store s1) = load_journal mem_storage conf p (js_store s2).
  Proof.
    intros (_ & Hne & Hp). destruct (decide (p = pid)) as [->|H].
    - unfold load_journal, recover_snapshot, recover_messages. simpl.
      unfold mem_read_latest_snapshot, mem_read_latest_messages.
      destruct (js_store s1 !! pid) as [a1|], (js_store s2 !! pid) as [a2|]; try done.
      destruct Hp as (Hs & old & Hm & Hold). rewrite Hs.
      destruct (decide (old = [])) as [->|Hn]; [by rewrite Hm|].
      destruct (Hold Hn) as (es & Hl & H1 & H2 & _). rewrite Hl. simpl.
      destruct (e_seq es =? 0) eqn:E; [lia|].
      rewrite Hm, suffix_from_skip; [done|]. eapply Forall_impl; [exact H2|]. simpl. intros; lia.
    - unfold load_journal, recover_snapshot, recover_messages. simpl.
      unfold mem_read_latest_snapshot, mem_read_latest_messages. by rewrite Hne.
  Qed.

  (** The handle of a running actor whose journal has a snapshot knows its id. *)
  Lemma inv_snap_handle pid a o j es :
    inv conf pid a o (Some j) -> last (snaps_of o) = Some es -> j_snap j = Some (e_seq es).
  Proof.
    intros (_ & _ & H) Hl. destruct (a_snapshot a) as [m|].
    - destruct H as (es' & old & lost & kept & Hl' & H).
      assert (es = es') as -> by congruence.
      destruct H as (_ & _ & _ & _ & _ & _ & _ & _ & _ & Hj). by destruct (Hj j eq_refl) as (_ & ? & _).
    - destruct H as (H & _). rewrite H in Hl. done.
  Qed.

  Lemma inv_last_bound pid a o j :
    inv conf pid a o (Some j) -> Forall (fun e => e_seq e <= j_last j) (msgs_of o) /\ 0 <= j_last j.
  Proof.
    intros (_ & _ & H). destruct (a_snapshot a) as [m|].
    - destruct H as (es' & old & lost & kept & Hl' & _ & _ & Hs & _ & _ & _ & _ & _ & _ & Hj).
      destruct (Hj j eq_refl) as (? & ? & Hc). split; [done|].
      destruct (a_kept a); [destruct (a_fresh a)|]; lia.
    - destruct H as (_ & _ & _ & Hj). destruct (Hj j eq_refl) as (? & ? & _). done.
  Qed.

  Lemma sim_write pid p s1 s2 j' st1' st2' add :
    sim pid s1 s2 ->
    (forall q, q <> p -> st1' !! q = js_store s1 !! q) ->
    (forall q, q <> p -> st2' !! q = js_store s2 !! q) ->
    st1' !! p = Some (AJ (snaps_of (js_store s1 !! p)) (msgs_of (js_store s1 !! p) ++ add)) ->
    st2' !! p = Some (AJ (snaps_of (js_store s2 !! p)) (msgs_of (js_store s2 !! p) ++ add)) ->
    (forall j, js_journals s2 !! p = Some j -> j_snap j' = j_snap j) ->
    is_Some (js_journals s2 !! p) ->
    sim pid (JSys st1' (<[p := j']> (js_journals s1))) (JSys st2' (<[p := j']> (js_journals s2))).
  Proof.
    intros (Hj & Hne & Hp) F1 F2 W1 W2 Hsn [j Hjp]. unfold sim. simpl. rewrite Hj. split; [done|].
    destruct (decide (p = pid)) as [->|Hpp].
    - split; [intros q Hq; rewrite F1, F2 by done; by apply Hne|].
      rewrite W1, W2. destruct (js_store s1 !! pid) as [a1|], (js_store s2 !! pid) as [a2|]; try done.
      + destruct Hp as (Hs & old & Hm & Hold). unfold snaps_of, msgs_of. simpl. split; [done|].
        exists old. split; [by rewrite Hm, (assoc_L (++))|]. intros Hn.
        destruct (Hold Hn) as (es & Hl & H1 & H2 & H3). exists es. split_and!; try done.
        intros j0 s0. rewrite lookup_insert. intros [= <-] Hs0. apply (H3 j); [done|].
        by rewrite <-(Hsn j).
      + unfold snaps_of, msgs_of. simpl. split; [done|]. exists []. done.
    - split.
      + intros q Hq. destruct (decide (q = p)) as [->|Hqp].
        * rewrite W1, W2. by rewrite (Hne p Hpp).
        * rewrite F1, F2 by done. by apply Hne.
      + rewrite F1, F2 by done.
        destruct (js_store s1 !! pid) as [a1|], (js_store s2 !! pid) as [a2|]; try done.
        destruct Hp as (Hs & old & Hm & Hold). split; [done|]. exists old. split; [done|].
        intros Hn. destruct (Hold Hn) as (es & Hl & H1 & H2 & H3). exists es. split_and!; try done.
        intros j0 s0. rewrite lookup_insert_ne by done. apply H3.
  Qed.

  Lemma sim_same_store pid s1 s2 m1 :
    sim pid s1 s2 ->
    (forall j s0, m1 !! pid = Some j -> j_snap j = Some s0 -> 
       forall es, last (snaps_of (js_store s2 !! pid)) = Some es -> s0 = e_seq es) ->
    sim pid (JSys (js_store s1) m1) (JSys (js_store s2) m1).
  Proof.
    intros (Hj & Hne & Hp) H. unfold sim. simpl. split; [done|]. split; [done|].
    destruct (js_store s1 !! pid) as [a1|], (js_store s2 !! pid) as [a2|]; try done.
    destruct Hp as (Hs & old & Hm & Hold). split; [done|]. exists old. split; [done|].
    intros Hn. destruct (Hold Hn) as (es & Hl & H1 & H2 & H3). exists es. split_and!; try done.
    intros j s0 Hj0 Hs0. by eapply H.
  Qed.

  Lemma jnl_step_none s p o : o <> JStart -> js_journals s !! p = None ->
    jstep mem_storage conf s (p, o) = (s, JPanic).
  Proof. intros Ho Hn. unfold jstep. destruct o; try done; by rewrite Hn. Qed.

  Lemma mem_frames (st : mem_store) p q : q <> p ->
    (forall e, mem_write_message p e st !! q = st !! q) /\
    (forall e, mem_write_batch p e st !! q = st !! q) /\
    (forall e, mem_write_snapshot p e st !! q = st !! q) /\
    (forall z, mem_delete_to p z st !! q = st !! q) /\
    mem_delete_all p st !! q = st !! q.
  Proof.
    intros Hne. unfold mem_write_message, mem_write_batch, mem_write_snapshot, mem_delete_to, mem_delete_all.
    split_and!; intros; try (destruct (st !! p)); by simplify_map_eq.
  Qed.

  Lemma sim_step pid s1 s2 p o a :
    sim pid s1 s2 ->
    (forall q, inv conf q (a q) (js_store s2 !! q) (js_journals s2 !! q)) ->
    (jstep mem_storage conf s1 (p, o)).2 = (jstep mem_storage conf s2 (p, o)).2 /\
    sim pid (jstep mem_storage conf s1 (p, o)).1 (jstep mem_storage conf s2 (p, o)).1.
  Proof.
    intros Hsim Hinv. pose proof Hsim as (Hj & Hne & Hp).
    assert (o = JStart \/ o <> JStart) as [->|Ho] by (destruct o; auto).
    { unfold jstep. rewrite (sim_load pid s1 s2 p Hsim), Hj.
      destruct (inv_start conf Hconf p (a p) _ _ (js_store s2) eq_refl (Hinv p)) as (j & Hl & Hi).
      rewrite Hl. simpl. split; [done|].
      apply sim_same_store; [done|]. intros j0 s0 Hj0 Hs0 es Hes.
      destruct (decide (p = pid)) as [->|Hpp].
      - rewrite lookup_insert in Hj0. injection Hj0 as <-.
        assert (j_snap j = Some (e_seq es)) by by eapply inv_snap_handle. congruence.
      - rewrite lookup_insert_ne in Hj0 by done. specialize (Hinv pid). rewrite Hj0 in Hinv.
        assert (j_snap j0 = Some (e_seq es)) by by eapply inv_snap_handle. congruence. }
    destruct (js_journals s2 !! p) as [j|] eqn:Ej.
    2:{ rewrite !jnl_step_none by (try done; by rewrite Hj). done. }
    assert (Hsnapj : forall j0 s0, js_journals s2 !! pid = Some j0 -> j_snap j0 = Some s0 ->
              forall es, last (snaps_of (js_store s2 !! pid)) = Some es -> s0 = e_seq es).
    { intros j0 s0 Hj0 Hs0 es Hes. specialize (Hinv pid). rewrite Hj0 in Hinv.
      assert (j_snap j0 = Some (e_seq es)) by by eapply inv_snap_handle. congruence. }
    assert (Hkeepj : sim pid (JSys (js_store s1) (<[p:=j]> (js_journals s1))) (JSys (js_store s2) (<[p:=j]> (js_journals s2)))).
    { rewrite Hj, insert_id by done. apply sim_same_store; done. }
    assert (Hdel : sim pid (JSys (js_store s1) (delete p (js_journals s1))) (JSys (js_store s2) (delete p (js_journals s2)))).
    { rewrite Hj. apply sim_same_store; [done|]. intros j0 s0 Hj0.
      apply lookup_delete_Some in Hj0 as [_ Hj0]. by apply Hsnapj. }
    unfold jstep. rewrite Hj, Ej. rewrite Hj in Hkeepj, Hdel.
    destruct o; try done.
    - unfold persist_message. destruct (reg_types _ !! m) as [ty|]; [|done].
      destruct fail; [done|]. split; [done|]. simpl. rewrite <-Hj at 1.
      eapply (sim_write pid p s1 s2 _ _ _ [Entry (j_last j) ty b]); [done| | | | | |by eauto].
      + intros q Hq. by apply mem_frames.
      + intros q Hq. by apply mem_frames.
      + apply mem_write_message_lookup.
      + apply mem_write_message_lookup.
      + intros j0. rewrite Ej. by intros [= <-].
    - unfold persist_batch. destruct (batch_types _ _ _) as [[|e es]|]; [done| |done].
      destruct fail; [done|]. split; [done|]. cbn [fst]. rewrite <-Hj at 1.
      eapply (sim_write pid p s1 s2 _ _ _ (batch_entries (j_last j) (e :: es))); [done| | | | | |by eauto].
      + intros q Hq. by apply mem_frames.
      + intros q Hq. by apply mem_frames.
      + apply mem_write_batch_lookup.
      + apply mem_write_batch_lookup.
      + intros j0. rewrite Ej. by intros [= <-].
    - unfold persist_snapshot. destruct (reg_types _ !! s) as [ty|]; [|done].
      destruct fail; [done|]. split; [done|]. cbn [fst].
      unfold sim. cbn [js_store js_journals s_write_snapshot mem_storage]. split; [done|].
      destruct (decide (p = pid)) as [->|Hpp].
      + split. { intros q Hq. destruct (mem_frames (js_store s1) pid q Hq) as (_ & _ & -> & _).
                 destruct (mem_frames (js_store s2) pid q Hq) as (_ & _ & -> & _). by apply Hne. }
        rewrite !mem_write_snapshot_lookup.
        destruct (js_store s1 !! pid) as [a1|] eqn:E1, (js_store s2 !! pid) as [a2|] eqn:E2; try done.
        * destruct Hp as (Hs & old & Hm & Hold). unfold snaps_of, msgs_of. simpl.
          split; [by rewrite Hs|]. exists old. split; [done|]. intros Hn.
          specialize (Hinv pid). rewrite Ej, E2 in Hinv. apply inv_last_bound in Hinv as [Hb H0].
          eexists. split; [by rewrite last_snoc|]. simpl. split; [lia|]. split.
          -- unfold msgs_of in Hb. simpl in Hb. rewrite Hm in Hb. apply Forall_app in Hb as [Hb _].
             eapply Forall_impl; [exact Hb|]. simpl. intros; lia.
          -- intros j0 s0. rewrite lookup_insert. intros [= <-]. simpl. by intros [= <-].
        * unfold snaps_of, msgs_of. simpl. split; [done|]. by exists [].
      + split.
        { intros q Hq. destruct (decide (q = p)) as [->|Hqp].
          - rewrite !mem_write_snapshot_lookup. by rewrite Hne.
          - destruct (mem_frames (js_store s1) p q Hqp) as (_ & _ & -> & _).
            destruct (mem_frames (js_store s2) p q Hqp) as (_ & _ & -> & _). by apply Hne. }
        destruct (mem_frames (js_store s1) p pid) as (_ & _ & -> & _); [done|].
        destruct (mem_frames (js_store s2) p pid) as (_ & _ & -> & _); [done|].
        destruct (js_store s1 !! pid) as [a1|], (js_store s2 !! pid) as [a2|]; try done.
        destruct Hp as (Hs & old & Hm & Hold). split; [done|]. exists old. split; [done|].
        intros Hn. destruct (Hold Hn) as (es & Hl & H1 & H2 & H3). exists es. split_and!; try done.
        intros j0 s0. rewrite lookup_insert_ne by done. apply H3.
    - unfold clear_old_messages. destruct (j_snap j) as [s0|] eqn:Es; [|done].
      destruct fail; [done|]. split; [done|]. cbn [fst].
      unfold sim. cbn [js_store js_journals s_delete_to mem_storage]. split; [done|].
      rewrite (insert_id _ _ _ Ej).
      destruct (decide (p = pid)) as [->|Hpp].
      + split. { intros q Hq. destruct (mem_frames (js_store s1) pid q Hq) as (_ & _ & _ & -> & _).
                 destruct (mem_frames (js_store s2) pid q Hq) as (_ & _ & _ & -> & _). by apply Hne. }
        unfold mem_delete_to.
        destruct (js_store s1 !! pid) as [a1|] eqn:E1, (js_store s2 !! pid) as [a2|] eqn:E2; try done.
        2:{ by rewrite E1, E2. }
        rewrite !lookup_insert. simpl.
        destruct Hp as (Hs & old & Hm & Hold). split; [done|]. exists []. split; [|done]. simpl.
        destruct (decide (old = [])) as [->|Hn]; [by rewrite Hm|].
        destruct (Hold Hn) as (es & Hl & H1 & H2 & H3).
        assert (s0 = e_seq es) as -> by (by apply (H3 j)).
        rewrite Hm.
        assert (Hold2 : Forall (fun e => (e_seq es <=? e_seq e) = false) old).
        { eapply Forall_impl; [exact H2|]. simpl. intros; lia. }
        rewrite (suffix_from_skip _ old) by done.
        destruct (aj_messages a1) as [|m ms] eqn:Em1.
        * simpl. rewrite app_nil_r. destruct (last old) as [e|] eqn:El; [|done].
          by destruct (e_seq e <? e_seq es).
        * rewrite last_app_cons. done.
      + split.
        { intros q Hq. destruct (decide (q = p)) as [->|Hqp].
          - unfold mem_delete_to. rewrite !(Hne p Hpp). 
            destruct (js_store s2 !! p) eqn:E2; [by rewrite !lookup_insert|].
            by rewrite (Hne p Hpp).
          - destruct (mem_frames (js_store s1) p q Hqp) as (_ & _ & _ & -> & _).
            destruct (mem_frames (js_store s2) p q Hqp) as (_ & _ & _ & -> & _). by apply Hne. }
        destruct (mem_frames (js_store s1) p pid) as (_ & _ & _ & -> & _); [done|].
        destruct (mem_frames (js_store s2) p pid) as (_ & _ & _ & -> & _); [done|].
        done.
    - unfold journal_clear. destruct fail; [done|]. split; [done|]. cbn [fst].
      unfold sim. cbn [js_store js_journals s_delete_all mem_storage]. split; [done|].
      rewrite (insert_id _ _ _ Ej). unfold mem_delete_all.
      destruct (decide (p = pid)) as [->|Hpp].
      + rewrite !lookup_delete. split; [|done]. intros q Hq. rewrite !lookup_delete_ne by done. by apply Hne.
      + split.
        * intros q Hq. destruct (decide (q = p)) as [->|Hqp]; [by rewrite !lookup_delete|].
          rewrite !lookup_delete_ne by done. by apply Hne.
        * rewrite !lookup_delete_ne by done. done.
  Qed.

  Lemma inv_all_step s a x :
    (forall q, inv conf q (a q) (js_store s !! q) (js_journals s !! q)) ->
    let r := jstep mem_storage conf s x in
    forall q, inv conf q (actual_step q (a q) (x, r.2)) (js_store r.1 !! q) (js_journals r.1 !! q).
  Proof.
    intros H. cbn zeta. intros q. destruct x as [p o].
    destruct (decide (q = p)) as [->|Hne].
    - by apply inv_step.
    - by apply inv_step_other.
  Qed.

  Lemma sim_run pid s1 s2 h a :
    sim pid s1 s2 ->
    (forall q, inv conf q (a q) (js_store s2 !! q) (js_journals s2 !! q)) ->
    (jrun mem_storage conf s1 h).2 = (jrun mem_storage conf s2 h).2.
  Proof.
    unfold jrun. revert s1 s2 a. induction h as [|[p o] h IH]; intros s1 s2 a Hs Hi; [done|].
    cbn [run]. destruct (sim_step pid s1 s2 p o a Hs Hi) as [He Hs'].
    pose proof (inv_all_step s2 a (p, o) Hi) as Hi'. cbn zeta in Hi'.
    destruct (jstep mem_storage conf s1 (p, o)) as [s1' r1].
    destruct (jstep mem_storage conf s2 (p, o)) as [s2' r2].
    cbn [fst snd] in *. subst r2.
    specialize (IH s1' s2' _ Hs' Hi').
    destruct (run _ s1' h), (run _ s2' h). cbn [fst snd] in *. by subst.
  Qed.

  Lemma clear_old_sim pid s f a :
    (forall q, inv conf q (a q) (js_store s !! q) (js_journals s !! q)) ->
    sim pid (jstep mem_storage conf s (pid, JClearOld f)).1 s
    \/ js_journals s !! pid = None.
  Proof.
    intros Hinv. destruct (js_journals s !! pid) as [j|] eqn:Ej; [|by right]. left.
    unfold jstep. rewrite Ej.
    assert (Hrefl : sim pid (JSys (js_store s) (<[pid:=j]> (js_journals s))) s).
    { rewrite insert_id by done. unfold sim. simpl. split; [done|]. split; [done|].
      destruct (js_store s !! pid); [|done]. split; [done|]. exists []. done. }
    unfold clear_old_messages. destruct (j_snap j) as [s0|] eqn:Es; [|done].
    destruct f; [done|]. cbn [fst]. rewrite insert_id by done.
    unfold sim. cbn [js_store js_journals s_delete_to mem_storage]. split; [done|].
    split. { intros q Hq. by apply mem_frames. }
    pose proof (Hinv pid) as Hi. rewrite Ej in Hi. destruct Hi as (Hsort & Hpos & H).
    destruct (mem_delete_to_spec pid s0 (js_store s) Hsort) as [Em Esn].
    unfold mem_delete_to in *. destruct (js_store s !! pid) as [aj|] eqn:E; [|by rewrite E].
    rewrite lookup_insert in *. simpl. split; [done|].
    unfold msgs_of, snaps_of in Em, Esn. simpl in Em, Esn. unfold msgs_of, snaps_of in *. simpl in *.
    destruct (a_snapshot (a pid)) as [m|].
    - destruct H as (es & old & lost & kept & Hl & Hh & Hb & Hs & Hm & Hold & Hlost & Hpl & Hkept & Hpk & Hj).
      destruct (Hj j eq_refl) as (Ha & Hsn & Hlast). rewrite Es in Hsn. injection Hsn as ->.
      exists old. rewrite Em, Hm. rewrite suffix_from_skip, suffix_from_all; [| |].
      2:{ apply Forall_app. split; [eapply Forall_impl; [exact Hlost|]|eapply Forall_impl; [exact Hkept|]]; simpl; intros; lia. }
      2:{ eapply Forall_impl; [exact Hold|]. simpl. intros; lia. }
      split; [done|]. intros _. exists es. split_and!; try done.
      intros j0 s1. rewrite Ej. by intros [= <-] ?; congruence.
    - destruct H as (Hsn & Hlost & Hp & Hj).
      destruct (Hj j eq_refl) as (H1 & H2 & H3). destruct (H3 s0 Es) as [H4 H5].
      exists []. rewrite Em, suffix_from_all; [done|]. eapply Forall_impl; [exact H5|]. simpl. intros; lia.
  Qed.

  Lemma clear_old_unobservable h1 h2 pid f :
    (jrun mem_storage conf (jrun mem_storage conf mem_init (h1 ++ [(pid, JClearOld f)])).1 h2).2 =
    (jrun mem_storage conf (jrun mem_storage conf mem_init h1).1 h2).2.
  Proof.
    unfold jrun at 2 4. rewrite run_app.
    pose proof (inv_history conf Hconf h1) as Hi. cbn zeta in Hi. unfold jrun in Hi.
    destruct (run (jstep mem_storage conf) mem_init h1) as [s rs] eqn:E. cbn [fst] in *.
    cbn [run]. 
    destruct (clear_old_sim pid s f _ Hi) as [Hs|Hn].
    - destruct (jstep mem_storage conf s (pid, JClearOld f)) as [s' r]. cbn [fst] in *.
      exact (sim_run pid s' s h2 (fun q => does_recover q (history mem_storage conf mem_init h1)) Hs Hi).
    - rewrite jnl_step_none by done. done.
  Qed.
End mem.

(** ** Strictly increasing sequence ids within one incarnation *)

Section strict.
  Context (conf : string -> jtypes).

  (** The operations of [pid] in a history. *)
  Definition ops_of (pid : string) (h : list (string * jop)) : list jop :=
    omap (fun x => if decide (x.1 = pid) then Some x.2 else None) h.

  (** Neither a restart nor a batch. *)
  Definition plain_op (o : jop) : Prop :=
    match o with JStart | JBatch _ _ => False | _ => True end.

  Definition strict (l : list entry) : Prop := StronglySorted (fun a b => e_seq a < e_seq b) l.

  Definition sinv (o : option actor_journal) (oj : option journal) : Prop :=
    strict (msgs_of o) /\ forall j, oj = Some j -> Forall (fun e => e_seq e < j_last j) (msgs_of o).

  Lemma strict_suffix p l : strict l -> strict (suffix_from p l) /\
    forall P : entry -> Prop, Forall P l -> Forall P (suffix_from p l).
  Proof.
    unfold strict. induction l as [|e l IH]; simpl; intros H; [done|].
    destruct (p e); [done|]. apply StronglySorted_inv in H as [H _].
    destruct (IH H) as [H1 H2]. split; [done|]. intros P HP. apply Forall_cons in HP as [_ HP]. by apply H2.
  Qed.

  Lemma strict_snoc l e : strict l -> Forall (fun x => e_seq x < e_seq e) l -> strict (l ++ [e]).
  Proof.
    unfold strict. induction 1 as [|a l Hs IH Ha]; simpl; intros HF; [repeat constructor|].
    apply Forall_cons in HF as [H1 H2]. constructor; [by apply IH|].
    apply Forall_app. split; [done|]. by repeat constructor.
  Qed.

  Lemma sinv_step s p o pid :
    (p = pid -> plain_op o) ->
    sinv (js_store s !! pid) (js_journals s !! pid) ->
    let r := jstep mem_storage conf s (p, o) in
    sinv (js_store r.1 !! pid) (js_journals r.1 !! pid).
  Proof.
    intros Ho H. cbn zeta. destruct (decide (p = pid)) as [->|Hne].
    2:{ destruct (jstep_frame conf s p o pid) as [-> ->]; done. }
    specialize (Ho eq_refl).
    destruct (js_journals s !! pid) as [j|] eqn:Ej.
    2:{ rewrite jnl_step_none; [|by intros ->|done]. cbn [fst]. by rewrite Ej. }
    destruct H as [Hs Hb]. specialize (Hb j eq_refl).
    unfold jstep. rewrite Ej. destruct o; try done.
    - unfold persist_message. destruct (reg_types _ !! m) as [ty|]; cbn [fst js_store js_journals].
      2:{ rewrite lookup_delete. by split. }
      destruct fail; cbn [fst js_store js_journals]; rewrite lookup_insert; [split; [done|]; by intros ? [= <-]|].
      cbn [s_write_message mem_storage]. rewrite mem_write_message_lookup. unfold sinv. rewrite msgs_of_Some.
      split; [by apply strict_snoc|]. intros j0 [= <-]. simpl. apply Forall_app. split.
      + eapply Forall_impl; [exact Hb|]. simpl. intros; lia.
      + repeat constructor. simpl. lia.
    - unfold persist_snapshot. destruct (reg_types _ !! s0) as [ty|]; cbn [fst js_store js_journals].
      2:{ rewrite lookup_delete. by split. }
      destruct fail; cbn [fst js_store js_journals]; rewrite lookup_insert; [split; [done|]; by intros ? [= <-]|].
      cbn [s_write_snapshot mem_storage]. rewrite mem_write_snapshot_lookup. unfold sinv. rewrite msgs_of_Some.
      split; [done|]. intros j0 [= <-]. simpl. eapply Forall_impl; [exact Hb|]. simpl. intros; lia.
    - unfold clear_old_messages. destruct (j_snap j) as [z|], fail; cbn [fst js_store js_journals]; rewrite lookup_insert;
        try (split; [done|]; by intros ? [= <-]).
      cbn [s_delete_to mem_storage]. unfold sinv, mem_delete_to.
      destruct (js_store s !! pid) as [aj|] eqn:E; [|rewrite E; split; [done|]; by intros ? [= <-]].
      rewrite lookup_insert, msgs_of_Some. unfold msgs_of in *. simpl in *.
      destruct (strict_suffix (fun e => z <=? e_seq e) (aj_messages aj) Hs) as [H1 H2].
      destruct (last (aj_messages aj)) as [e|]; [destruct (e_seq e <? z)|].
      + split; [constructor|]. intros ? _. constructor.
      + split; [done|]. intros ? [= <-]. by apply H2.
      + split; [done|]. intros ? [= <-]. by apply H2.
    - unfold journal_clear. destruct fail; cbn [fst js_store js_journals]; rewrite lookup_insert;
        [split; [done|]; by intros ? [= <-]|].
      cbn [s_delete_all mem_storage]. unfold mem_delete_all. rewrite lookup_delete.
      unfold sinv, msgs_of. simpl. split; [constructor|]. intros ? _. constructor.
  Qed.

  Lemma sinv_run s h pid :
    Forall plain_op (ops_of pid h) ->
    sinv (js_store s !! pid) (js_journals s !! pid) ->
    let r := jrun mem_storage conf s h in
    sinv (js_store r.1 !! pid) (js_journals r.1 !! pid).
  Proof.
    unfold jrun. revert s. induction h as [|[p o] h IH]; intros s Ho H; [done|]. cbn zeta in *. cbn [run].
    pose proof (sinv_step s p o pid) as Hst. cbn zeta in Hst.
    destruct (jstep mem_storage conf s (p, o)) as [s1 r1]. cbn [fst] in *.
    specialize (IH s1). destruct (run _ s1 h) as [s2 rs]. cbn [fst] in *. apply IH.
    - unfold ops_of in Ho. simpl in Ho. destruct (decide (p = pid)); [by apply Forall_cons in Ho as [_ ?]|done].
    - apply Hst; [|done]. intros ->. unfold ops_of in Ho. simpl in Ho. rewrite decide_True in Ho by done.
      by apply Forall_cons in Ho as [? _].
  Qed.

  Lemma ops_of_cons_split pid h o ops :
    ops_of pid h = o :: ops ->
    exists h1 h2, h = h1 ++ (pid, o) :: h2 /\ ops_of pid h1 = [] /\ ops_of pid h2 = ops.
  Proof.
    induction h as [|[p o'] h IH]; unfold ops_of; simpl; [done|].
    destruct (decide (p = pid)) as [->|Hne]; intros H.
    - injection H as -> H. by exists [], h.
    - destruct (IH H) as (h1 & h2 & -> & H1 & H2). exists ((p, o') :: h1), h2.
      split; [done|]. split; [|done]. unfold ops_of. simpl. by rewrite decide_False.
  Qed.

  Lemma jrun_frame s h pid :
    ops_of pid h = [] ->
    js_store (jrun mem_storage conf s h).1 !! pid = js_store s !! pid /\
    js_journals (jrun mem_storage conf s h).1 !! pid = js_journals s !! pid.
  Proof.
    unfold jrun. revert s. induction h as [|[p o] h IH]; intros s Ho; [done|]. cbn [run].
    unfold ops_of in Ho. simpl in Ho. destruct (decide (p = pid)) as [->|Hne]; [done|].
    destruct (jstep_frame conf s p o pid) as [H1 H2]; [done|].
    destruct (jstep mem_storage conf s (p, o)) as [s1 r1]. cbn [fst] in *.
    destruct (IH s1 Ho) as [H3 H4]. destruct (run _ s1 h) as [s2 rs]. cbn [fst] in *.
    by rewrite H3, H4, H1, H2.
  Qed.

  Lemma seqs_increasing h pid ops :
    ops_of pid h = JStart :: ops -> Forall plain_op ops ->
    StronglySorted (fun a b => e_seq a < e_seq b)
      (msgs_of (js_store (jrun mem_storage conf mem_init h).1 !! pid)).
  Proof.
    intros Ho Hp. destruct (ops_of_cons_split _ _ _ _ Ho) as (h1 & h2 & -> & Hh1 & Hh2).
    unfold jrun. rewrite run_app.
    destruct (jrun_frame mem_init h1 pid Hh1) as [H1 H2]. unfold jrun in H1, H2.
    destruct (run (jstep mem_storage conf) mem_init h1) as [s rs]. cbn [fst] in *.
    change (js_store mem_init) with (∅ : mem_store) in H1. rewrite lookup_empty in H1. cbn [run].
    assert (Hs : jstep mem_storage conf s (pid, JStart) =
                 (JSys (js_store s) (<[pid := journal_new]> (js_journals s)), JRecovered None None)).
    { unfold jstep, load_journal, recover_snapshot, recover_messages. simpl.
      unfold mem_read_latest_snapshot. rewrite H1. simpl.
      unfold mem_read_latest_messages. by rewrite H1. }
    rewrite Hs.
    pose proof (sinv_run (JSys (js_store s) (<[pid := journal_new]> (js_journals s))) h2 pid) as Hr.
    unfold jrun in Hr. cbn zeta in Hr.
    destruct (run (jstep mem_storage conf) _ h2) as [s2 r2] eqn:E2. cbn [fst] in *.
    apply Hr; [by rewrite Hh2|]. simpl. rewrite H1, lookup_insert.
    unfold sinv, msgs_of. simpl. split; [constructor|]. intros ? _. constructor.
  Qed.
End strict.
