From Verif Require Import Persist_Model Persist_Spec.

Lemma first_fail_S k outs : first_fail k outs -> first_fail (S k) (true :: outs).
Proof. intros [H1 H2]. split; simpl; [lia|]. by constructor. Qed.
Lemma first_fail_0 outs : first_fail 0 outs.
Proof. split; simpl; [lia|]. rewrite take_0. constructor. Qed.

Section persist.
  Context {St : Type} (S : storage St) (conf : string -> jtypes).

  Lemma write_fail s pid op :
    is_write op -> (jstep S conf s (pid, op false)).2 = JOk ->
    jstep S conf s (pid, op true) = (s, JErr).
  Proof.
    destruct s as [st js]. destruct 1; unfold jstep; simpl;
      (destruct (js !! pid) as [j|] eqn:Ej; [|done]).
    - unfold persist_message. destruct (reg_types _ !! m); [|done]. simpl. by rewrite insert_id.
    - unfold persist_batch. destruct (batch_types conf pid l) as [[|]|] eqn:Eb; [| |done].
      + unfold batch_types in Eb. apply mapM_Some in Eb. by apply Forall2_nil_inv_r in Eb.
      + simpl. by rewrite insert_id.
    - unfold persist_snapshot. destruct (reg_types _ !! s); [|done]. simpl. by rewrite insert_id.
  Qed.

  Definition shift_limit (a : nat) (l : option nat) : option nat :=
    match l with Some n => Some (n - (a - 1))%nat | None => None end.

  Lemma persist_loop_spec policy pid op a outs s :
    is_write op -> (jstep S conf s (pid, op false)).2 = JOk ->
    (1 <= a)%nat -> within a (attempt_limit policy) ->
    exists r stop n w,
      persist_loop S conf policy pid op a outs s =
        (r, stop, n, (if w : bool then (jstep S conf s (pid, op false)).1 else s)) /\
      (a - 1 <= n)%nat /\
      let n' := (n - (a - 1))%nat in
      let lim := shift_limit a (attempt_limit policy) in
      ((exists k, first_fail k outs /\ outs !! k = Some false /\ within (k + 1) lim /\
         r = PROk /\ stop = false /\ n' = (k + 1)%nat /\ w = true)
       \/ (exists l, lim = Some l /\ first_fail l outs /\ r = (give_up policy).1 /\
            stop = (give_up policy).2 /\ n' = l /\ w = false)
       \/ (first_fail (length outs) outs /\ within (length outs + 1) lim /\ r = PRRetrying /\ stop = false /\
            n' = length outs /\ w = false)).
  Proof.
    intros Hop Hok. revert a. induction outs as [|f outs IH]; intros a Ha Hlim; cbn [persist_loop length].
    - exists PRRetrying, false, (a - 1)%nat, false. split; [done|]. split; [lia|].
      right. right. split_and!; try done; [apply first_fail_0| |].
      + destruct (attempt_limit policy); unfold within, shift_limit in *; cbn [length] in *; [lia|done].
      + lia.
    - destruct f.
      + rewrite (write_fail s pid op Hop Hok).
        assert (Hstep : within (Datatypes.S a) (attempt_limit policy) ->
          exists r stop n w,
      persist_loop S conf policy pid op (Datatypes.S a) outs s =
        (r, stop, n, (if w : bool then (jstep S conf s (pid, op false)).1 else s)) /\
      (a - 1 <= n)%nat /\
      let n' := (n - (a - 1))%nat in
      let lim := shift_limit a (attempt_limit policy) in
      ((exists k, first_fail k (true :: outs) /\ (true :: outs) !! k = Some false /\ within (k + 1) lim /\
         r = PROk /\ stop = false /\ n' = (k + 1)%nat /\ w = true)
       \/ (exists l, lim = Some l /\ first_fail l (true :: outs) /\ r = (give_up policy).1 /\
            stop = (give_up policy).2 /\ n' = l /\ w = false)
       \/ (first_fail (length (true :: outs)) (true :: outs) /\ within (length (true :: outs) + 1) lim /\ r = PRRetrying /\ stop = false /\
            n' = length (true :: outs) /\ w = false))).
        { intros Hl. destruct (IH (Datatypes.S a)) as (r & stop & n & w & E & Hn & H); [lia|done|].
          exists r, stop, n, w. split; [done|]. split; [lia|]. cbn zeta in *.
          destruct H as [(k & H1 & H2 & H3 & -> & -> & H4 & ->)|[(l & H1 & H2 & -> & -> & H4 & ->)|(H1 & H2 & -> & -> & H4 & ->)]].
          - left. exists (Datatypes.S k). split_and!; try done; [by apply first_fail_S| |lia].
            destruct (attempt_limit policy); unfold within, shift_limit in *; cbn [length] in *; [lia|done].
          - right. left. exists (Datatypes.S l). split_and!; try done; [|by apply first_fail_S|lia].
            destruct (attempt_limit policy) as [m|]; unfold shift_limit in *; [|done]. injection H1 as <-. unfold within in *. f_equal. lia.
          - right. right. split_and!; try done; [by apply (first_fail_S (length outs))| |cbn [length]; lia].
            destruct (attempt_limit policy); unfold within, shift_limit in *; cbn [length] in *; [lia|done]. }
        destruct policy as [[|m]| | |].
        * cbn [should_retry]. by apply Hstep.
        * cbn [should_retry]. destruct (m <=? a)%nat eqn:E; cbn [negb].
          -- apply Nat.leb_le in E. cbn [within attempt_limit] in Hlim.
             exists PRErr, true, a, false. split; [done|]. split; [lia|]. right. left.
             exists 1%nat. split_and!; try done; unfold shift_limit, attempt_limit in *; [f_equal; lia|apply first_fail_S, first_fail_0|lia].
          -- apply Nat.leb_gt in E. apply Hstep. cbn [within attempt_limit] in *. lia.
        * exists PRErr, false, a, false. cbn in Hlim. split; [done|]. split; [lia|]. right. left.
          exists 1%nat. split_and!; try done; unfold shift_limit, attempt_limit in *; [f_equal; lia|apply first_fail_S, first_fail_0|lia].
        * exists PRStopping, true, a, false. cbn in Hlim. split; [done|]. split; [lia|]. right. left.
          exists 1%nat. split_and!; try done; unfold shift_limit, attempt_limit in *; [f_equal; lia|apply first_fail_S, first_fail_0|lia].
        * exists PRPanic, false, a, false. cbn in Hlim. split; [done|]. split; [lia|]. right. left.
          exists 1%nat. split_and!; try done; unfold shift_limit, attempt_limit in *; [f_equal; lia|apply first_fail_S, first_fail_0|lia].
      + destruct (jstep S conf s (pid, op false)) as [s' out] eqn:E. simpl in Hok. subst out.
        exists PROk, false, a, true. split; [done|]. split; [lia|]. left. exists 0%nat.
        split_and!; try done; [apply first_fail_0| |lia].
        destruct (attempt_limit policy); unfold within, shift_limit in *; cbn [length] in *; [lia|done].
  Qed.

  Lemma persist_call_spec policy pid op outs s :
    is_write op -> (jstep S conf s (pid, op false)).2 = JOk ->
    exists r stop n written,
      persist_call S conf policy pid op outs s =
        (r, stop, n, if written : bool then (jstep S conf s (pid, op false)).1 else s) /\
      persist_expected policy outs r stop n written.
  Proof.
    intros Hop Hok.
    destruct (persist_loop_spec policy pid op 1 outs s Hop Hok) as (r & stop & n & w & E & _ & H); [lia| |].
    { destruct policy as [[]| | |]; simpl; lia. }
    exists r, stop, n, w. split; [exact E|].
    assert (Hs : shift_limit 1 (attempt_limit policy) = attempt_limit policy).
    { unfold shift_limit. destruct (attempt_limit policy); [|done]. f_equal. lia. }
    cbn zeta in H. rewrite Hs in H. replace (n - (1 - 1))%nat with n in H by lia.
    destruct H as [(k & H1 & H2 & H3 & -> & -> & H4 & ->)|[(l & H1 & H2 & -> & -> & H4 & ->)|(H1 & H2 & -> & -> & H4 & ->)]].
    - rewrite H4. replace (k + 1)%nat with (Datatypes.S k) in * by lia. by constructor.
    - subst n. by constructor.
    - subst n. constructor; [done|]. by replace (Datatypes.S (length outs)) with (length outs + 1)%nat by lia.
  Qed.
End persist.

(** ** Start-up *)
Section startup.
  Context (decodes : payload -> bool) (stops : N -> bool).

  Lemma handle_all_handles mb : Forall (fun e => is_handle e = true) (handle_all stops mb).
  Proof. induction mb as [|m mb IH]; simpl; constructor; [done|]. destruct (stops m); [constructor|done]. Qed.

  Lemma recover_journal_errors policy a loads :
    Forall (eq ELoadError) (recover_journal policy a loads).1.
  Proof.
    revert a. induction loads as [|[j|] loads IH]; intros a; simpl; [constructor|constructor|].
    destruct policy as [r| |]; [|by repeat constructor|by repeat constructor].
    destruct (should_retry a r); [|by repeat constructor].
    specialize (IH (S a)). destruct (recover_journal (RRetry r) (S a) loads). simpl in *. by constructor.
  Qed.

  Lemma recover_journal_first policy a loads j :
    (1 <= a)%nat -> within a (recovery_limit policy) ->
    (recover_journal policy a loads).2 = Some (inr j) ->
    exists k, Forall (eq None) (take k loads) /\ loads !! k = Some (Some j) /\
      within (a + k) (recovery_limit policy).
  Proof.
    revert a. induction loads as [|[j'|] loads IH]; intros a Ha Hl; simpl; [done| |].
    - intros [= <-]. exists 0%nat. split_and!; [by rewrite take_0|done|by rewrite Nat.add_0_r].
    - destruct policy as [r| |]; [|done|done].
      destruct (should_retry a r) eqn:E; [|done].
      specialize (IH (S a)). destruct (recover_journal (RRetry r) (S a) loads) as [t res]. simpl in *.
      intros ->. destruct IH as (k & H1 & H2 & H3); [lia| |done|].
      { destruct r; simpl in *; [done|]. apply negb_true_iff, Nat.leb_gt in E. lia. }
      exists (S k). split_and!; [simpl; by constructor|done|]. by rewrite Nat.add_succ_r.
  Qed.

  Lemma recover_journal_bound policy a loads l :
    (1 <= a)%nat -> recovery_limit policy = Some l -> (a <= l)%nat ->
    (a + length (recover_journal policy a loads).1 <= l + 1)%nat.
  Proof.
    revert a. induction loads as [|[j'|] loads IH]; intros a Ha El Hl; simpl; [lia|lia|].
    destruct policy as [r| |]; simpl; [|lia|lia].
    destruct (should_retry a r) eqn:E; [|simpl; lia].
    specialize (IH (S a)). destruct (recover_journal (RRetry r) (S a) loads) as [t res]. simpl in *.
    destruct r; [done|]. simpl in E. apply negb_true_iff, Nat.leb_gt in E.
    assert (S a + length t <= l + 1)%nat; [|lia]. apply IH; [lia|done|]. simpl in El. injection El as <-. lia.
  Qed.

  Lemma replay_messages_spec l :
    (forall e, In e (replay_messages decodes l).1 -> is_handle e = false /\ is_post e = false /\ e <> ELoadError) /\
    ((replay_messages decodes l).2 = true -> replayed (replay_messages decodes l).1 = l /\
       Forall (fun p => decodes p = true) l) /\
    ((replay_messages decodes l).2 = false -> exists l1 p l2, l = l1 ++ p :: l2 /\ decodes p = false /\
       replayed (replay_messages decodes l).1 = l1).
  Proof.
    induction l as [|p l IH]; simpl; [done|].
    destruct (decodes p) eqn:Ep.
    - destruct (replay_messages decodes l) as [t ok]. simpl in *. destruct IH as (H1 & H2 & H3). split_and!.
      + intros e [<-|He]; [done|auto].
      + intros ->. destruct H2 as [H2 H2']; [done|]. unfold replayed in *. simpl. split; [by rewrite H2|by constructor].
      + intros ->. destruct H3 as (l1 & q & l2 & -> & H4 & H5); [done|].
        exists (p :: l1), q, l2. split_and!; try done. unfold replayed in *. simpl. by rewrite H5.
    - simpl. split_and!; try done.
      + intros e [<-|[]]. done.
      + intros _. by exists [], p, l.
  Qed.

  Lemma replay_spec j :
    (forall e, In e (replay decodes j).1 -> is_handle e = false /\ is_post e = false /\ e <> ELoadError) /\
    ((replay decodes j).2 = true -> replayed (replay decodes j).1 = contents j) /\
    ((replay decodes j).2 = false -> exists l1 p l2, contents j = l1 ++ p :: l2 /\ decodes p = false /\
       replayed (replay decodes j).1 = l1).
  Proof.
    unfold replay, contents. destruct (replay_messages_spec (default [] j.2)) as (H1 & H2 & H3).
    destruct j.1 as [p|]; simpl.
    - destruct (decodes p) eqn:Ep; simpl.
      + destruct (replay_messages decodes (default [] j.2)) as [t ok]. simpl in *. split_and!.
        * intros e [<-|He]; [done|auto].
        * intros ->. destruct H2 as [H2 _]; [done|]. unfold replayed in *. simpl. by rewrite H2.
        * intros ->. destruct H3 as (l1 & q & l2 & H4 & H5 & H6); [done|].
          exists (p :: l1), q, l2. rewrite H4. split_and!; try done. unfold replayed in *. simpl. by rewrite H6.
      + split_and!; try done.
        * intros e [<-|[]]. done.
        * intros _. by exists [], p, (default [] j.2).
    - split_and!; try done. intros H. by apply H2.
  Qed.

  Lemma replayed_app t1 t2 : replayed (t1 ++ t2) = replayed t1 ++ replayed t2.
  Proof. unfold replayed. apply omap_app. Qed.

  Lemma replayed_errors t : Forall (eq ELoadError) t -> replayed t = [].
  Proof. unfold replayed. induction 1 as [|e t <- _ IH]; simpl; done. Qed.

  Lemma app_cons_split {A} (P : A -> Prop) (l1 l2 pre post : list A) x :
    l1 ++ l2 = pre ++ x :: post -> P x -> (forall y, In y l1 -> ~ P y) ->
    exists pre', pre = l1 ++ pre' /\ l2 = pre' ++ x :: post.
  Proof.
    revert pre. induction l1 as [|y l1 IH]; simpl; intros pre H Hx Hn; [by exists pre|].
    destruct pre as [|z pre]; simpl in H.
    - injection H as -> H. exfalso. apply (Hn x); auto.
    - injection H as -> H. destruct (IH pre H Hx) as (pre' & -> & ->); [auto|]. by exists pre'.
  Qed.

  Lemma startup_order policy loads mb pre m post :
    startup decodes stops policy loads mb = pre ++ EHandle m :: post ->
    exists j pre1 pre2, first_load policy loads j /\
      pre = pre1 ++ EPostRecovery :: pre2 /\ replayed pre1 = contents j /\
      Forall (fun e => is_handle e = false /\ is_post e = false) pre1 /\
      Forall (fun e => is_handle e = true) pre2.
  Proof.
    unfold startup. intros H.
    pose proof (recover_journal_errors policy 1 loads) as Herr.
    pose proof (recover_journal_first policy 1 loads) as Hfirst.
    destruct (recover_journal policy 1 loads) as [t1 res]. simpl in *.
    pose (P := fun e => is_handle e = true).
    destruct pre as [|e pre]; [done|]. simpl in H. injection H as <- H.
    apply (app_cons_split P) in H as (pre' & -> & H); [| done |].
    2:{ intros y Hy. rewrite List.Forall_forall in Herr. by rewrite <-(Herr y Hy). }
    destruct res as [[[|]|j]|].
    - destruct pre' as [|? [|]]; done.
    - destruct pre' as [|? [|? [|]]]; done.
    - pose proof (replay_spec j) as (R1 & R2 & _). destruct (replay decodes j) as [t2 ok]. simpl in *.
      apply (app_cons_split P) in H as (pre2 & -> & H); [|done|].
      2:{ intros y Hy. destruct (R1 y Hy) as [R _]. unfold P. by rewrite R. }
      destruct ok.
      2:{ destruct pre2 as [|? [|]]; done. }
      destruct pre2 as [|e2 pre2]; [done|]. simpl in H. injection H as <- H.
      exists j, (EPreRecovery :: t1 ++ t2), pre2. split_and!.
      + destruct (Hfirst j) as (k & K1 & K2 & K3); try done. { destruct policy as [[]| |]; simpl; lia. }
        exists k. done.
      + simpl. by rewrite <-!(assoc_L (++)).
      + change (replayed (EPreRecovery :: t1 ++ t2)) with (replayed (t1 ++ t2)).
        rewrite replayed_app, replayed_errors by done. by apply R2.
      + constructor; [done|]. apply Forall_app. split.
        * eapply Forall_impl; [exact Herr|]. by intros ? <-.
        * apply List.Forall_forall. intros y Hy. by destruct (R1 y Hy) as (? & ? & _).
      + assert (Hh := handle_all_handles mb).
        assert (Forall (fun e => is_handle e = true \/ e = EStopped) (handle_all stops mb ++ [EStopped])) as Hall.
        { apply Forall_app. split; [|repeat constructor; by right].
          eapply Forall_impl; [exact Hh|]. auto. }
        clear Hh.
        assert (forall l, l ++ [EStopped] = pre2 ++ EHandle m :: post -> Forall (fun e => is_handle e = true) l ->
                 Forall (fun e => is_handle e = true) pre2) as Hgen.
        { intros l. clear. revert pre2. induction l as [|x l IH]; intros [|y pre2] Hl HF; simpl in *.
          - constructor.
          - injection Hl as _ Hl. by destruct pre2.
          - constructor.
          - injection Hl as -> Hl. apply Forall_cons in HF as [HF1 HF2]. constructor; [done|]. by apply IH. }
        eapply Hgen; [exact H|]. apply handle_all_handles.
    - by destruct pre'.
  Qed.

  Lemma Forall_filter_nil {A} (f : A -> bool) l : (forall x, In x l -> f x = false) -> List.filter f l = [].
  Proof. induction l as [|x l IH]; simpl; intros H; [done|]. rewrite (H x) by auto. apply IH. auto. Qed.

  Lemma handle_all_no_error mb : forall e, In e (handle_all stops mb) -> is_handle e = true.
  Proof. intros e He. assert (H := handle_all_handles mb). rewrite List.Forall_forall in H. auto. Qed.

  Lemma startup_attempts policy loads mb l :
    recovery_limit policy = Some l -> (load_errors (startup decodes stops policy loads mb) <= l)%nat.
  Proof.
    intros Hl. unfold startup, load_errors.
    pose proof (recover_journal_bound policy 1 loads l) as Hb.
    destruct (recover_journal policy 1 loads) as [t1 res]. simpl in *.
    rewrite List.filter_app, app_length.
    assert (Hrest : forall t, (forall e, In e t -> e <> ELoadError) ->
       List.filter (fun e => match e with ELoadError => true | _ => false end) t = []).
    { intros t Ht. apply Forall_filter_nil. intros x Hx. specialize (Ht x Hx). by destruct x. }
    match goal with |- (_ + length (List.filter _ ?X) <= _)%nat => rewrite (Hrest X) end.
    - assert (length (List.filter (fun e => match e with ELoadError => true | _ => false end) t1) <= length t1)%nat.
      { clear. induction t1 as [|x t IH]; simpl; [lia|]. destruct x; simpl; lia. }
      assert (1 <= l)%nat. { destruct policy as [[]| |]; simpl in Hl; try injection Hl as <-; try done; lia. }
      simpl. specialize (Hb ltac:(lia) Hl ltac:(lia)). lia.
    - intros e He. destruct res as [[[|]|j]|]; simpl in He; try tauto.
      + destruct He as [<-|[]]; done.
      + destruct He as [<-|[<-|[]]]; done.
      + pose proof (replay_spec j) as (R1 & _ & _). destruct (replay decodes j) as [t2 ok]. simpl in *.
        rewrite in_app_iff in He. destruct He as [He|He]; [by apply R1 in He as (_ & _ & ?)|].
        destruct ok; simpl in He.
        * destruct He as [<-|He]; [done|]. rewrite in_app_iff in He. destruct He as [He|[<-|[]]]; [|done].
          apply handle_all_no_error in He. by intros ->.
        * destruct He as [<-|[]]; done.
  Qed.

  Lemma startup_gives_up policy loads mb :
    (forall j, first_load policy loads j -> Forall (fun p => decodes p = true) (contents j) -> False) ->
    Forall (fun e => is_handle e = false /\ is_post e = false) (startup decodes stops policy loads mb).
  Proof.
    intros Hno. unfold startup.
    pose proof (recover_journal_errors policy 1 loads) as Herr.
    pose proof (recover_journal_first policy 1 loads) as Hfirst.
    destruct (recover_journal policy 1 loads) as [t1 res]. simpl in *.
    constructor; [done|]. apply Forall_app. split.
    { eapply Forall_impl; [exact Herr|]. by intros ? <-. }
    destruct res as [[[|]|j]|]; try by repeat constructor.
    assert (Hf : first_load policy loads j).
    { destruct (Hfirst j) as (k & K1 & K2 & K3); try done. { destruct policy as [[]| |]; simpl; lia. } by exists k. }
    pose proof (replay_spec j) as (R1 & _ & _).
    assert (Hok : (replay decodes j).2 = true -> Forall (fun p => decodes p = true) (contents j)).
    { unfold replay, contents. destruct (replay_messages_spec (default [] j.2)) as (_ & M & _).
      destruct j.1 as [p|]; simpl.
      - destruct (decodes p) eqn:Ep; [|done]. destruct (replay_messages decodes (default [] j.2)). simpl in *.
        intros ->. constructor; [done|]. by apply M.
      - intros H. by apply M. }
    destruct (replay decodes j) as [t2 ok]. simpl in *. destruct ok; [exfalso; eauto|].
    apply Forall_app. split; [|by repeat constructor].
    apply List.Forall_forall. intros y Hy. by destruct (R1 y Hy) as (? & ? & _).
  Qed.

  Lemma startup_stops policy loads mb :
    (forall j, first_load policy loads j -> Forall (fun p => decodes p = true) (contents j) -> False) ->
    (exists l, recovery_limit policy = Some l /\ (l <= length loads)%nat) \/ (exists j, In (Some j) loads) ->
    policy <> RPanicPolicy ->
    last (startup decodes stops policy loads mb) = Some EStopped.
  Proof.
    intros Hno Hend Hpol. unfold startup.
    pose proof (recover_journal_first policy 1 loads) as Hfirst.
    assert (Hres : (recover_journal policy 1 loads).2 = Some (inl false) \/ exists j, (recover_journal policy 1 loads).2 = Some (inr j)).
    { assert (forall a, (1 <= a)%nat ->
         (exists l, recovery_limit policy = Some l /\ (l < a + length loads)%nat) \/ (exists j, In (Some j) loads) ->
         within a (recovery_limit policy) ->
         (recover_journal policy a loads).2 = Some (inl false) \/ exists j, (recover_journal policy a loads).2 = Some (inr j)) as Hg.
      { clear Hno Hend Hfirst. induction loads as [|[j|] loads IH]; intros a Ha He Hw; simpl.
        - destruct He as [(l & El & ?)|(j & [])]. rewrite El in Hw. simpl in *. lia.
        - right. eauto.
        - destruct policy as [r| |]; simpl; [|by left|done].
          destruct (should_retry a r) eqn:E; [|by left].
          specialize (IH (S a)). destruct (recover_journal (RRetry r) (S a) loads) as [t res]. simpl in *.
          apply IH; [lia| |].
          + destruct He as [(l & El & ?)|(j & [?|?])]; [left; exists l; split; [done|lia]|done|right; eauto].
          + destruct r; simpl in *; [done|]. apply negb_true_iff, Nat.leb_gt in E. lia. }
      apply Hg; [lia| |destruct policy as [[]| |]; simpl; lia].
      destruct Hend as [(l & ? & ?)|?]; [left; exists l; split; [done|lia]|by right]. }
    destruct (recover_journal policy 1 loads) as [t1 res]. simpl in *.
    rewrite app_comm_cons.
    destruct Hres as [->|[j ->]].
    - by rewrite last_app_cons.
    - destruct (replay decodes j) as [t2 ok]. destruct ok.
      + rewrite (assoc_L (++)), app_comm_cons, !(assoc_L (++)). by rewrite last_snoc.
      + rewrite (assoc_L (++)). by rewrite last_snoc.
  Qed.
End startup.
