(** What a start finds in redis behind a retrying writer. *)
From Verif Require Import ShardWire_Model Redis_Model Redis_Spec Redis_Proofs Redis_Proofs2.
From Verif Require Import Journal_Model Journal_Spec Journal_Proofs Durable_Model Durable_Spec.
From Verif Require Import Durable_Proofs Durable_Proofs2 Durable_Proofs3.
Local Open Scope Z_scope.

Lemma erange_app b l1 l2 : erange b None (l1 ++ l2) = erange b None l1 ++ erange b None l2.
Proof. unfold erange. induction l1 as [|e l1 IH]; simpl; [done|]. destruct (_ && _); simpl; by rewrite IH. Qed.
Lemma erange_all b l : (forall e, e ∈ l -> b <= e_seq e) -> erange b None l = l.
Proof.
  unfold erange. induction l as [|e l IH]; intros H; simpl; [done|].
  assert (b <=? e_seq e = true) as -> by (apply Z.leb_le, H; left). simpl. f_equal. apply IH. intros x Hx. apply H. by right.
Qed.
Lemma erange_none b l : (forall e, e ∈ l -> e_seq e < b) -> erange b None l = [].
Proof.
  unfold erange. induction l as [|e l IH]; intros H; simpl; [done|].
  assert (b <=? e_seq e = false) as -> by (apply Z.leb_gt, H; left). simpl. apply IH. intros x Hx. apply H. by right.
Qed.

Section redis.
  Context (key : string -> string -> string).
  Hypothesis Hkey : keys_distinct key.
  Context (conf : string -> jtypes).
  Hypothesis Hconf : forall pid, unambiguous_types (conf pid).
  Hypothesis Hids : forall pid, good_identifiers (conf pid).
  Context (pid : string).

  Notation S := (redis_storage key).
  Notation mh := (reg_handlers (jt_messages (conf pid))).
  Notation sh := (reg_handlers (jt_snapshots (conf pid))).
  Notation state := (dsys (St := redis_store)).
  Notation held := (held key pid).
  Notation inv := (inv key conf).
  Notation exact := (exact key conf pid).
  Notation prog t := (progress_of pid t).

  Lemma exact_run l s t : drun S conf (durable_init ∅) l = (s, t) -> good_trace t /\ persevering pid t ->
    inv s t /\ exists A SN J a, exact s t A SN J a.
  Proof using Hkey Hconf Hids.
    apply (drun_inv S conf (fun s t => inv s t /\ exists A SN J a, exact s t A SN J a) (fun t => good_trace t /\ persevering pid t)).
    - intros t1 t2 [H1 H2]. split; [by eapply good_trace_pre|by eapply persevering_pre].
    - split; [apply (inv_init key Hkey conf Hconf Hids)|]. eexists _, _, _, _. apply (exact_init key Hkey conf Hconf Hids).
    - intros s0 t0 o s1 ev [H1 (A & SN & J & a & H2)] E [Hg Hp]. split; [by eapply (inv_step key Hkey conf Hconf Hids)|].
      destruct (exact_step key Hkey conf Hconf Hids pid _ _ _ _ _ _ _ _ _ H1 H2 E Hp) as (X & Y & J' & a' & Hx & _). eauto.
  Qed.

  (** An incarnation that is still loading has not moved. *)
  Lemma loading_step s t o s' ev i p j sn :
    inv s t -> dstep S conf s o = (s', ev) -> (i < d_next s)%N ->
    (exists call, d_incs s' !! i = Some (Inc p j (Some sn) call)) ->
    exists call, d_incs s !! i = Some (Inc p j (Some sn) call).
  Proof using Hkey Hconf Hids.
    destruct s as [st incs fl n]. intros [_ _ Hi] E Hlt [call Hx]. simpl in *.
    destruct o as [q|i'|i' c|k|i' ok|i']; simpl in E.
    - destruct (recover_snapshot _ _ _ _ _). injection E as <- <-. simpl in Hx. rewrite lookup_insert_ne in Hx by lia. eauto.
    - destruct (incs !! i') as [[q j0 [snap|] call0]|] eqn:Ei; [|injection E as <- <-; eauto..].
      destruct (recover_messages _ _ _ _ _). injection E as <- <-. simpl in Hx.
      apply lookup_insert_Some in Hx as [[_ Hx]|[_ Hx]]; [done|eauto].
    - destruct (incs !! i') as [[q j0 [snap|] [call0|]]|] eqn:Ei; try (injection E as <- <-; eauto; fail).
      destruct (call_write _ _ _ _) as [[w|]|]; injection E as <- <-; simpl in Hx; [|eauto|].
      + apply lookup_insert_Some in Hx as [[_ Hx]|[_ Hx]]; [done|eauto].
      + apply lookup_delete_Some in Hx as [_ Hx]. eauto.
    - destruct (fl !! k) as [[q w]|]; injection E as <- <-; eauto.
    - destruct (incs !! i') as [[q j0 l [[k c]|]]|] eqn:Ei; [|injection E as <- <-; eauto..].
      destruct (Hi _ _ Ei) as (_ & _ & _ & Hl & _). simpl in Hl. subst l.
      destruct ok; [destruct (fl !! k)|]; injection E as <- <-; simpl in Hx; [eauto|..];
        apply lookup_insert_Some in Hx as [[_ Hx]|[_ Hx]]; [done|eauto|done|eauto].
    - destruct (incs !! i') as [x0|]; injection E as <- <-; [|eauto]. simpl in Hx.
      apply lookup_delete_Some in Hx as [_ Hx]. eauto.
  Qed.

  Lemma next_step s o s' ev : dstep S conf s o = (s', ev) -> (d_next s <= d_next s')%N.
  Proof using.
    clear. destruct s as [st incs fl n]. intros E. destruct o as [q|i'|i' c|k|i' ok|i']; simpl in E.
    - destruct (recover_snapshot _ _ _ _ _). injection E as <- <-. simpl. lia.
    - destruct (incs !! i') as [[q j0 [snap|] call0]|]; [|injection E as <- <-; done..].
      destruct (recover_messages _ _ _ _ _). by injection E as <- <-.
    - destruct (incs !! i') as [[q j0 [snap|] [call0|]]|]; try (injection E as <- <-; done).
      destruct (call_write _ _ _ _) as [[w|]|]; injection E as <- <-; simpl; lia.
    - destruct (fl !! k) as [[q w]|]; injection E as <- <-; done.
    - destruct (incs !! i') as [[q j0 l [[k c]|]]|]; [|injection E as <- <-; done..].
      destruct ok; [destruct (fl !! k)|]; injection E as <- <-; done.
    - destruct (incs !! i') as [x0|]; injection E as <- <-; done.
  Qed.

  Lemma exact_run_from s0 t0 A SN J a b i j sn l s t :
    inv s0 t0 -> exact s0 t0 A SN J a -> ahead b J (prog t0) -> (i < d_next s0)%N ->
    drun S conf s0 l = (s, t) -> good_trace (t0 ++ t) -> persevering pid (t0 ++ t) ->
    exists X SN' J' a', inv s (t0 ++ t) /\ exact s (t0 ++ t) (A ++ X) SN' J' a' /\ ahead b J' (prog (t0 ++ t)) /\
      pays mh X (acked pid t) /\ (forall e, e ∈ X -> b <= e_seq e) /\
      ((exists call, d_incs s !! i = Some (Inc pid j (Some sn) call)) -> exists call, d_incs s0 !! i = Some (Inc pid j (Some sn) call)).
  Proof using Hkey Hconf Hids.
    revert s0 t0 A SN J a t. induction l as [|o l IH]; intros s0 t0 A SN J a t Hinv Hex Ha Hi; cbn [drun].
    - intros [= <- <-] Hg Hp. rewrite !app_nil_r. exists [], SN, J, a. rewrite app_nil_r. split_and!; try done; [constructor|].
      intros e He. by apply elem_of_nil in He.
    - destruct (dstep S conf s0 o) as [s1 t1] eqn:E. destruct (drun S conf s1 l) as [s2 t2] eqn:Er. intros [= <- <-].
      rewrite (assoc_L app). intros Hg Hp.
      pose proof (inv_step key Hkey conf Hconf Hids _ _ _ _ _ Hinv E (good_trace_pre _ _ Hg)) as Hinv1.
      destruct (exact_step key Hkey conf Hconf Hids pid _ _ _ _ _ _ _ _ _ Hinv Hex E (persevering_pre _ _ _ Hp))
        as (X & Y & J1 & a1 & Hex1 & Hpay & Hb). destruct (Hb b Ha) as [Ha1 Hge].
      destruct (IH s1 (t0 ++ t1) _ _ _ _ t2 Hinv1 Hex1 Ha1) as (X' & SN' & J' & a' & H1 & H2 & H3 & H4 & H5 & H6); try done.
      { pose proof (next_step _ _ _ _ E). lia. }
      exists (X ++ X'), SN', J', a'. rewrite (assoc_L app A X X'). split_and!; try done.
      + rewrite acked_app. by apply Forall2_app.
      + intros e He. apply elem_of_app in He as [He|He]; auto.
      + intros Hl. eapply (loading_step _ _ _ _ _ _ _ _ _ Hinv E Hi); eauto.
  Qed.

  Lemma prog_start t1 i t2 : prog (t1 ++ VStart i pid :: t2) = prog (t1 ++ t2).
  Proof using. by rewrite !progress_app. Qed.

  Lemma prog_start_app t1 i t2 : prog ((t1 ++ [VStart i pid]) ++ t2) = prog (t1 ++ t2).
  Proof using. by rewrite !progress_app. Qed.

  Theorem recovered_exact l s t1 i t2 snap ms t3 :
    drun S conf (durable_init ∅) l = (s, t1 ++ VStart i pid :: t2 ++ VRecovered i pid snap ms :: t3) ->
    good_trace (t1 ++ t2) -> persevering pid (t1 ++ t2) ->
    exists x, (x = p_expected (prog t1) \/
               exists m b, p_open (prog t1) = Some (CSnapshot m b) /\ x = Expected (Some (m, b)) []) /\
      snap = x_snapshot x /\
      (ms = x_after x ++ acked pid t2 \/
       exists c, p_open (prog (t1 ++ t2)) = Some c /\ ms = x_after x ++ acked pid t2 ++ messages_in c).
  Proof using Hkey Hconf Hids.
    intros Hrun Hg Hp.
    assert (Hg' : good_trace (t1 ++ VStart i pid :: t2)).
    { destruct Hg as [Hg1 Hg2]. apply Forall_app in Hg1 as [? ?]. rewrite total_app in Hg2.
      split; [apply Forall_app; split; [done|by constructor]|]. rewrite total_app. simpl. lia. }
    assert (Hp' : persevering pid (t1 ++ VStart i pid :: t2)) by (unfold persevering; by rewrite prog_start).
    apply drun_split in Hrun as (l1 & o1 & l2 & s1 & s2 & -> & H1 & H2 & H3); [|done].
    apply drun_split in H3 as (l3 & o2 & l4 & s3 & s4 & -> & H4 & H5 & _); [|done].
    destruct (exact_run _ _ _ H1) as [Hinv1 (A & SN & J & a & Hex)].
    { split; [by eapply good_trace_pre|by eapply persevering_pre]. }
    (* the start *)
    assert (Hst : exists b A1 A2 x j, A = A1 ++ A2 /\ pays mh A2 (x_after x) /\ (forall e, e ∈ A1 -> e_seq e < b) /\
      (forall e, e ∈ A2 -> b <= e_seq e) /\ ahead b J (prog t1) /\ j_last j = b /\
      d_incs s2 !! i = Some (Inc pid j (Some (x_snapshot x)) None) /\ (i < d_next s2)%N /\
      (x = p_expected (prog t1) \/ exists m b, p_open (prog t1) = Some (CSnapshot m b) /\ x = Expected (Some (m, b)) [])).
    { destruct s1 as [st incs fl n]. destruct o1 as [q|i'|i' c|k|i' ok|i']; simpl in H2.
      2:{ destruct (incs !! i') as [[q j0 [sn|] call0]|]; [|done..]. by destruct (recover_messages _ _ _ _ _). }
      2:{ destruct (incs !! i') as [[q j0 [sn|] [call0|]]|]; try done. by destruct (call_write _ _ _ _) as [[w|]|]. }
      2:{ by destruct (fl !! k) as [[? ?]|]. }
      2:{ destruct (incs !! i') as [[q j0 sn [[k c]|]]|]; try done. by destruct ok; [destruct (fl !! k)|]. }
      2:{ by destruct (incs !! i'). }
      destruct (recover_snapshot S conf q journal_new st) as [j sn] eqn:Er. injection H2 as <- <- ->. simpl.
      rewrite lookup_insert.
      pose proof (seq_base_le key Hkey conf Hconf Hids pid _ _ _ _ _ _ Hex) as Hbase.
      assert (Hold : forall es, held st es SN -> exists b A1 A2 x j', A = A1 ++ A2 /\ pays mh A2 (x_after x) /\
        (forall e, e ∈ A1 -> e_seq e < b) /\ (forall e, e ∈ A2 -> b <= e_seq e) /\ ahead b J (prog t1) /\ j_last j' = b /\
        Some (Inc pid j (Some sn) None) = Some (Inc pid j' (Some (x_snapshot x)) None) /\ (n < n + 1)%N /\
        (x = p_expected (prog t1) \/ exists m b, p_open (prog t1) = Some (CSnapshot m b) /\ x = Expected (Some (m, b)) [])).
      { intros es Hh. destruct (x_split _ _ _ _ _ _ _ _ _ Hex) as (A1 & A2 & HA & Hpay & Hlt & Hge).
        exists (seq_base (last SN)), A1, A2, (p_expected (prog t1)), j.
        rewrite (held_recover_snapshot key Hkey conf Hconf Hids _ _ _ _ _ Hh) in Er.
        pose proof (x_snap _ _ _ _ _ _ _ _ _ Hex) as Hsn.
        split_and!; try done; [left; lia| | |lia|by left].
        - destruct (last SN) as [e|]; injection Er as <- _; done.
        - destruct (last SN) as [e|].
          + destruct Hsn as ([m b] & -> & Hm & Hb). simpl in *. rewrite Hm, Hb in Er. by injection Er as _ <-.
          + rewrite Hsn. by injection Er as _ <-. }
      pose proof (x_held _ _ _ _ _ _ _ _ _ Hex) as Hh. destruct a; [|by apply (Hold _ Hh)].
      destruct Hh as (c & w & Ho & Hw & Hh). simpl in Hh.
      destruct (rising_open key Hkey conf Hconf Hids pid _ _ _ _ _ _ _ _ Hex Ho Hw) as (F & _ & _).
      pose proof (wf_snap _ _ _ _ _ F) as Hs.
      destruct c as [m x|lb|m x| |]; try (rewrite Hs, app_nil_r in Hh; by apply (Hold _ Hh)).
      destruct Hs as (e & Hs & He & Ht & Hb). rewrite Hs in Hh.
      rewrite (held_recover_snapshot key Hkey conf Hconf Hids _ _ _ _ _ Hh), last_snoc, Ht in Er. injection Er as <- <-.
      exists (j_last J + 1), A, [], (Expected (Some (m, x)) []), (Journal (e_seq e) (Some (e_seq e))). rewrite app_nil_r. simpl.
      split_and!; try done; [constructor| | | | |lia|].
      - intros e' He'. destruct (x_low _ _ _ _ _ _ _ _ _ Hex e' He') as (_ & ? & _). lia.
      - intros e' He'. by apply elem_of_nil in He'.
      - right. split; [done|]. eauto.
      - by rewrite Hb.
      - right. eauto. }
    destruct Hst as (b & A1 & A2 & x & j & HA & Hpay & Hlt & Hge & Hah & Hj & Hinc & Hin & Hx).
    destruct (exact_step key Hkey conf Hconf Hids pid _ _ _ _ _ _ _ _ _ Hinv1 Hex H2) as (X0 & Y0 & J0 & a0 & Hex0 & Hpay0 & Hb0).
    { eapply (persevering_pre _ _ t2). by rewrite <- (assoc_L app). }
    assert (Hinv2 : inv s2 (t1 ++ [VStart i pid])).
    { eapply (inv_step key Hkey conf Hconf Hids); [exact Hinv1|exact H2|]. apply (good_trace_pre _ t2). by rewrite <- (assoc_L app). }
    destruct (Hb0 b Hah) as [Hah0 _].
    assert (X0 = []) as ->. { unfold acked in Hpay0. simpl in Hpay0. by apply Forall2_nil_inv_r in Hpay0. }
    rewrite app_nil_r in Hex0.
    apply recovered_load in H5 as (j' & call & j1 & r & -> & Hl & Hr & ->).
    destruct (exact_run_from s2 (t1 ++ [VStart i pid]) A (SN ++ Y0) J0 a0 b i j' snap l3 s3 t2 Hinv2 Hex0 Hah0 Hin H4)
      as (X & SN' & J' & a' & Hinv3 & Hex3 & Hah3 & HpayX & HgeX & Hload).
    { by rewrite <- (assoc_L app). } { by rewrite <- (assoc_L app). }
    destruct Hload as [call' Hload]; [eauto|]. rewrite Hinc in Hload. injection Hload as <- <- <-.
    rewrite prog_start_app in Hah3.
    exists x. split; [done|]. split; [done|].
    assert (Hread : forall es ss Z mz, held (d_store s3) es ss -> es = (A ++ X) ++ Z -> pays mh Z mz -> (forall e, e ∈ Z -> b <= e_seq e) ->
      default [] r = x_after x ++ acked pid t2 ++ mz).
    { intros es ss Z mz Hh -> HZ HgeZ.
      edestruct (held_recover_messages key Hkey conf Hconf Hids pid (d_store s3) ((A ++ X) ++ Z) ss j (x_after x ++ acked pid t2 ++ mz)) as (o' & Eo & Ho);
        [exact Hh| |rewrite Eo in Hr; by injection Hr as _ <-].
      rewrite Hj, HA, !erange_app, (erange_none b A1), (erange_all b A2), (erange_all b X), (erange_all b Z) by done.
      simpl. rewrite <- (assoc_L app). apply Forall2_app; [done|]. by apply Forall2_app. }
    pose proof (x_held _ _ _ _ _ _ _ _ _ Hex3) as Hh. destruct a'.
    - destruct Hh as (c & w & Ho & Hw & Hh).
      destruct (rising_open key Hkey conf Hconf Hids pid _ _ _ _ _ _ _ _ Hex3 Ho Hw) as (F & _ & _).
      rewrite prog_start_app in Ho. right. exists c. split; [done|].
      eapply Hread; [exact Hh|done|apply F|]. intros e He. destruct (wf_low _ _ _ _ _ F e He) as [Hlow _].
      destruct Hah3 as [?|(-> & m & y & Hop)]; [lia|]. rewrite Ho in Hop. injection Hop as ->.
      pose proof (wf_pays _ _ _ _ _ F) as Hpy. simpl in Hpy. apply Forall2_nil_inv_r in Hpy. rewrite Hpy in He. by apply elem_of_nil in He.
    - left. rewrite <- (app_nil_r (acked pid t2)). eapply Hread; [exact Hh|by rewrite app_nil_r|constructor|].
      intros e He. by apply elem_of_nil in He.
  Qed.
End redis.
