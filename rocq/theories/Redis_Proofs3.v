(** Redis journal: replay for whole histories, range reads. *)
From Verif Require Import Journal_Model Journal_Spec Journal_Proofs Journal_Proofs3.
From Verif Require Import ShardWire_Model ShardWire_Proofs Redis_Model Redis_Spec Redis_Proofs Redis_Proofs2.
Local Open Scope Z_scope.

Section redis.
  Context (key : string -> string -> string) (Hkey : keys_distinct key).
  Context (conf : string -> jtypes).
  Context (Hconf : forall pid, unambiguous_types (conf pid)) (Hids : forall pid, good_identifiers (conf pid)).

  Notation RS := (redis_storage key).

  Lemma rinv_other s pid p o os B :
    p <> pid ->
    rinv key conf pid os (js_store s) (js_journals s !! pid) B -> 0 <= entries_of o ->
    let r := jstep RS conf s (p, o) in
    rinv key conf pid (order_step pid os ((p, o), r.2)) (js_store r.1) (js_journals r.1 !! pid) (B + entries_of o).
  Proof using Hkey Hconf Hids.
    intros Hne (HB & es & ss & G & He & Hs & F) Hw. cbn zeta.
    destruct (agree_frame RS (rview key) conf (redis_isolated key Hkey) s p o pid Hne) as [Hv ->].
    destruct (jstep RS conf s (p, o)) as [s1 r1]. cbn [fst snd] in *.
    unfold rview in Hv. injection Hv as Hv1 Hv2.
    unfold order_step, expected_step. cbn [fst snd]. rewrite !decide_False by done.
    split; [lia|]. exists es, ss, G. rewrite Hv1, Hv2. split; [done|]. split; [done|].
    eapply (facts_weaken key Hkey conf Hconf Hids _ _ _ B); [lia|]. by destruct os.
  Qed.

  Lemma entries_of_pos o : 0 <= entries_of o.
  Proof using. destruct o; simpl; lia. Qed.
  Lemma total_entries_pos h : 0 <= total_entries h.
  Proof using. induction h as [|x h IH]; simpl; [lia|]. pose proof (entries_of_pos x.2). lia. Qed.

  Lemma rinv_run h s pid os B :
    rinv key conf pid os (js_store s) (js_journals s !! pid) B ->
    (forall x, In x h -> good_call x.2) -> B + total_entries h < 4611686018427387904 ->
    let r := jrun RS conf s h in
    tidy pid (o_expected os) (combine h r.2) ->
    rinv key conf pid (fold_left (order_step pid) (combine h r.2) os) (js_store r.1) (js_journals r.1 !! pid)
      (B + total_entries h).
  Proof using Hkey Hconf Hids.
    revert s os B. induction h as [|[p o] h IH]; intros s os B H Hg HB; cbn zeta.
    - intros _. unfold jrun. simpl. by rewrite Z.add_0_r.
    - unfold jrun. cbn [run total_entries fst snd] in *.
      pose proof (entries_of_pos o) as Ho. pose proof (total_entries_pos h) as Hh.
      destruct (jstep RS conf s (p, o)) as [s1 r1] eqn:E1.
      specialize (IH s1 (order_step pid os ((p, o), r1)) (B + entries_of o)). unfold jrun in IH.
      destruct (run (jstep RS conf) s1 h) as [s2 rs] eqn:E2. cbn [fst snd combine fold_left tidy] in *.
      intros [Ht1 Ht2]. rewrite Z.add_assoc. apply IH.
      + destruct (decide (p = pid)) as [->|Hne].
        * pose proof (rinv_step key Hkey conf Hconf Hids s pid o os B H) as Hs. rewrite E1 in Hs. cbn [fst snd] in Hs.
          apply Hs; [apply (Hg (pid, o)); by left|lia|].
          destruct o; try done. destruct r1 as [| | |[]|]; try done. by apply Ht1.
        * pose proof (rinv_other s pid p o os B Hne H Ho) as Hs. rewrite E1 in Hs. exact Hs.
      + intros x Hx. apply Hg. by right.
      + lia.
      + assert (E : o_expected (order_step pid os ((p, o), r1)) = expected_step pid (o_expected os) ((p, o), r1)).
        { unfold order_step. destruct (decide _); [|done]. cbn [fst snd]. destruct o, r1 as [| | |[]|]; done. }
        by rewrite E.
  Qed.

  Lemma rinv_init pid : rinv key conf pid (Order expected_init true true) ∅ None 0.
  Proof using Hkey Hconf Hids.
    split; [lia|]. exists [], [], []. unfold zget. rewrite !lookup_empty. simpl.
    split; [apply holds_nil|]. split; [apply holds_nil|]. split; simpl; try done.
    - intros e [H|H]; by apply elem_of_nil in H.
    - constructor.
    - intros e. split; [intros H; by apply elem_of_nil in H|intros [H _]; by apply elem_of_nil in H].
    - constructor.
  Qed.

  Lemma order_expected pid h os :
    o_expected (fold_left (order_step pid) h os) = fold_left (expected_step pid) h (o_expected os).
  Proof using.
    revert os. induction h as [|e h IH]; intros os; simpl; [done|]. rewrite IH. f_equal.
    destruct e as [[p o] r]. unfold order_step. destruct (decide _); [|done]. cbn [fst snd]. destruct o, r as [| | |[]|]; done.
  Qed.

  (** The messages a start replays, in terms of the entries since the snapshot. *)
  Lemma redis_replay h pid :
    good_calls h -> tidy_history pid (history RS conf redis_init h) ->
    let x := must_recover pid (history RS conf redis_init h) in
    exists G read, let pay := fun e => (default 0%N (reg_handlers (jt_messages (conf pid)) !! e_type e), e_bytes e) in
      recovered (start_after RS conf redis_init h pid) = Some (x_snapshot x, map pay read) /\
      x_after x = map pay G /\ (forall e, e ∈ read <-> e ∈ G) /\ NoDup read /\
      StronglySorted (fun a b => e_seq a <= e_seq b) read /\
      (orderly pid (history RS conf redis_init h) = true -> StronglySorted (fun a b => e_seq a < e_seq b) G).
  Proof using Hkey Hconf Hids.
    intros [Hg HB] Ht. cbn zeta.
    pose proof (rinv_run h redis_init pid (Order expected_init true true) 0) as H.
    cbn [js_store js_journals redis_init] in H. rewrite lookup_empty in H.
    specialize (H (rinv_init pid) Hg). cbn zeta in H.
    destruct H as (HB' & es & ss & G & He & Hs & F); [lia|exact Ht|].
    destruct (rinv_load key Hkey conf Hconf Hids pid _ _ _ _ _ _ _ HB' He Hs F) as (Hin & j & Hl & _).
    exists G, (erange (base (last ss)) None es). 
    assert (Ex : o_expected (fold_left (order_step pid) (combine h (jrun RS conf redis_init h).2) (Order expected_init true true))
       = must_recover pid (history RS conf redis_init h)).
    { rewrite order_expected. done. }
    rewrite Ex in Hl. split_and!.
    - unfold start_after, jstep. change (JSys ∅ ∅) with redis_init in Hl. unfold redis_init in *. rewrite Hl. simpl.
      f_equal. f_equal. by destruct (map _ (erange _ _ _)).
    - rewrite <- Ex. eapply pays_payload; try done. apply F.
    - exact Hin.
    - apply lfilter_NoDup. apply He.
    - apply ele_sorted_seq, lfilter_sorted. apply He.
    - intros Ho. apply F. exact Ho.
  Qed.

  Lemma strict_same (a b : list entry) :
    StronglySorted (fun a b => e_seq a <= e_seq b) a -> NoDup a ->
    StronglySorted (fun a b => e_seq a < e_seq b) b -> (forall e, e ∈ a <-> e ∈ b) -> a = b.
  Proof using.
    intros Ha Hd. revert b. induction Ha as [|x a Ha IH Hx]; intros b Hb Hin.
    - destruct b as [|y b]; [done|]. exfalso. eapply elem_of_nil. apply Hin. left.
    - destruct b as [|y b]; [exfalso; eapply elem_of_nil; apply Hin; left|].
      apply StronglySorted_inv in Hb as [Hb Hy]. apply NoDup_cons in Hd as [Hxa Hd].
      rewrite Forall_forall in Hx, Hy.
      assert (x = y) as <-.
      { assert (H1 : x ∈ y :: b) by (apply Hin; left). assert (H2 : y ∈ x :: a) by (apply Hin; left).
        apply elem_of_cons in H1 as [->|H1]; [done|]. apply elem_of_cons in H2 as [->|H2]; [done|].
        specialize (Hx y H2). specialize (Hy x H1). simpl in *. lia. }
      f_equal. apply IH; [done|done|]. intros e. split; intros He.
      + assert (H1 : e ∈ x :: b) by (apply Hin; by right). apply elem_of_cons in H1 as [->|H1]; done.
      + assert (H1 : e ∈ x :: a) by (apply Hin; by right). apply elem_of_cons in H1 as [->|H1]; [|done].
        specialize (Hy x He). simpl in Hy. lia.
  Qed.

  Lemma redis_replay_set h pid :
    good_calls h -> tidy_history pid (history RS conf redis_init h) ->
    let x := must_recover pid (history RS conf redis_init h) in
    exists ms, recovered (start_after RS conf redis_init h pid) = Some (x_snapshot x, ms) /\
      (forall m, m ∈ ms <-> m ∈ x_after x).
  Proof using Hkey Hconf Hids.
    intros Hg Ht. destruct (redis_replay h pid Hg Ht) as (G & rd & H1 & H2 & H3 & _). cbn zeta in *.
    eexists. split; [exact H1|]. intros m. rewrite H2. rewrite !elem_of_list_fmap.
    split; intros (e & ? & ?); exists e; (split; [done|]); by apply H3.
  Qed.

  Lemma redis_replay_distinct h pid :
    good_calls h -> tidy_history pid (history RS conf redis_init h) ->
    let x := must_recover pid (history RS conf redis_init h) in
    NoDup (x_after x) ->
    exists ms, recovered (start_after RS conf redis_init h pid) = Some (x_snapshot x, ms) /\
      Permutation ms (x_after x).
  Proof using Hkey Hconf Hids.
    intros Hg Ht x Hd. destruct (redis_replay h pid Hg Ht) as (G & rd & H1 & H2 & H3 & H4 & _). cbn zeta in *.
    eexists. split; [exact H1|]. subst x. rewrite H2 in *. apply Permutation_map.
    apply NoDup_Permutation; [done|by eapply NoDup_fmap_1|done].
  Qed.

  Lemma redis_replay_exact h pid :
    good_calls h -> tidy_history pid (history RS conf redis_init h) ->
    orderly pid (history RS conf redis_init h) = true ->
    let x := must_recover pid (history RS conf redis_init h) in
    recovered (start_after RS conf redis_init h pid) = Some (x_snapshot x, x_after x).
  Proof using Hkey Hconf Hids.
    intros Hg Ht Ho. destruct (redis_replay h pid Hg Ht) as (G & rd & H1 & H2 & H3 & H4 & H5 & H6). cbn zeta in *.
    rewrite H1, H2. do 3 f_equal. apply strict_same; auto.
  Qed.
End redis.

(** ** Range reads *)

(** [es] are the entries stored for [pid]: written by successful calls, in redis order. *)
Lemma redis_read_messages_spec key pid from to st es :
  holds (zget (jkey key pid) st) es ->
  exists r, redis_read_messages key pid from to st = Some r /\
    (forall e, e ∈ r <-> e ∈ es /\ from <= e_seq e <= to) /\ NoDup r /\
    StronglySorted (fun a b => e_seq a <= e_seq b) r.
Proof.
  intros H. unfold redis_read_messages. rewrite (holds_range _ _ _ _ H).
  eexists. split; [done|]. split_and!.
  - intros e. unfold erange. rewrite in_lfilter. split; intros [? ?]; (split; [done|]); lia.
  - apply lfilter_NoDup, H.
  - apply ele_sorted_seq, lfilter_sorted, H.
Qed.

Lemma redis_range_reads key (Hkey : keys_distinct key) conf
    (Hconf : forall pid, unambiguous_types (conf pid)) (Hids : forall pid, good_identifiers (conf pid)) h pid :
  good_calls h -> tidy_history pid (history (redis_storage key) conf redis_init h) ->
  let st := js_store (jrun (redis_storage key) conf redis_init h).1 in
  exists all, redis_read_latest_messages key pid 0 st = Some all /\
    StronglySorted (fun a b => e_seq a <= e_seq b) all /\
    (forall from to, redis_read_messages key pid from to st = Some (in_range from to all)) /\
    (forall seq, redis_read_message key pid seq st = head (in_range seq seq all)).
Proof.
  intros [Hg HB] Ht. cbn zeta.
  pose proof (rinv_run key Hkey conf Hconf Hids h redis_init pid (Order expected_init true true) 0) as H.
  cbn [js_store js_journals redis_init] in H. rewrite lookup_empty in H.
  specialize (H (rinv_init key Hkey conf Hconf Hids pid) Hg). cbn zeta in H.
  destruct H as (HB' & es & ss & G & He & Hs & F); [lia|exact Ht|].
  exists es. unfold redis_read_latest_messages, redis_read_messages, redis_read_message.
  split_and!.
  - rewrite (holds_range _ _ _ _ He). f_equal. unfold erange. apply filter_all.
    intros e Hx. apply elem_of_list_In in Hx.
    pose proof (f_bounds _ _ _ _ _ _ _ _ F e (or_introl Hx)). lia.
  - apply ele_sorted_seq, He.
  - intros from to. by rewrite (holds_range _ _ _ _ He).
  - intros seq. pose proof (holds_range _ _ seq (Some seq) He) as Hr.
    change (erange seq (Some seq) es) with (in_range seq seq es) in Hr.
    set (z := zrange _ _ _) in *. clearbody z. destruct z as [|b z]; unfold read_entries in Hr; simpl in Hr.
    + injection Hr as <-. done.
    + destruct (read_entry b); [|done]. destruct (all_some read_entry z); [|done]. injection Hr as <-. done.
Qed.
