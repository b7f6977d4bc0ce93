(** Proofs about the journal over the in-memory storage. *)
From Verif Require Import Journal_Model Journal_Spec.
Local Open Scope Z_scope.

(** ** Registration *)

Lemma reg_types_acc r (acc : gmap N string) m i :
  fold_left (fun a (x : N * string) => <[x.1 := x.2]> a) r acc !! m = Some i ->
  In (m, i) r \/ acc !! m = Some i.
Proof.
  revert acc. induction r as [|[m' i'] r IH]; intros acc H; simpl in *; [by right|].
  apply IH in H as [H|H]; [by left; right|].
  destruct (decide (m' = m)) as [->|Hne].
  - rewrite lookup_insert in H. injection H as ->. left. by left.
  - rewrite lookup_insert_ne in H by done. by right.
Qed.

Lemma reg_types_in r m i : reg_types r !! m = Some i -> In (m, i) r.
Proof.
  intros H. destruct (reg_types_acc r ∅ m i H) as [|H']; [done|].
  by rewrite lookup_empty in H'.
Qed.

Lemma reg_handlers_acc r (acc : gmap string N) i :
  (exists m, In (m, i) r) \/ (exists m, acc !! i = Some m) ->
  exists m, fold_left (fun a (x : N * string) => <[x.2 := x.1]> a) r acc !! i = Some m
            /\ (In (m, i) r \/ acc !! i = Some m).
Proof.
  revert acc. induction r as [|[m' i'] r IH]; intros acc H; simpl in *.
  - destruct H as [[m []]|[m H]]. eauto.
  - destruct (decide (i' = i)) as [->|Hne].
    + destruct (IH (<[i := m']> acc)) as (m & H1 & H2).
      { right. exists m'. by rewrite lookup_insert. }
      exists m. split; [done|]. destruct H2 as [H2|H2]; [by left; right|].
      rewrite lookup_insert in H2. injection H2 as ->. left. by left.
    + destruct (IH (<[i' := m']> acc)) as (m & H1 & H2).
      { destruct H as [[m [H|H]]|[m H]].
        - injection H as <- <-. done.
        - eauto.
        - right. exists m. by rewrite lookup_insert_ne. }
      exists m. split; [done|]. destruct H2 as [H2|H2]; [by left; right|].
      rewrite lookup_insert_ne in H2 by done. by right.
Qed.

Lemma reg_handler_of_type r m i :
  unambiguous r -> reg_types r !! m = Some i -> reg_handlers r !! i = Some m.
Proof.
  intros Hu H. apply reg_types_in in H.
  destruct (reg_handlers_acc r ∅ i) as (m' & H1 & H2); [eauto|].
  unfold reg_handlers. rewrite H1. f_equal.
  destruct H2 as [H2|H2]; [|by rewrite lookup_empty in H2].
  by eapply Hu.
Qed.

(** ** List lemmas *)

Lemma suffix_from_skip p l1 l2 :
  Forall (fun e => p e = false) l1 -> suffix_from p (l1 ++ l2) = suffix_from p l2.
Proof. induction 1 as [|e l1 He _ IH]; simpl; [done|]. by rewrite He. Qed.

Lemma suffix_from_all p l : Forall (fun e => p e = true) l -> suffix_from p l = l.
Proof. destruct 1 as [|e l He]; simpl; [done|]. by rewrite He. Qed.

Lemma suffix_from_none p l : Forall (fun e => p e = false) l -> suffix_from p l = [].
Proof. induction 1 as [|e l He _ IH]; simpl; [done|]. by rewrite He. Qed.

(** The stored entries [l] hold the messages [ms], with their recovery handlers. *)
Definition pays (h : gmap string N) (l : list entry) (ms : list msg) : Prop :=
  Forall2 (fun e m => h !! e_type e = Some m.1 /\ e_bytes e = m.2) l ms.

Lemma recover_loop_pays h z l ms :
  pays h l ms ->
  recover_loop h z l = (match last l with Some e => e_seq e | None => z end, ms).
Proof.
  intros H. revert z. induction H as [|e [m b] l ms [H1 H2] Hl IH]; intros z; [done|].
  cbn [recover_loop]. rewrite IH, H1. simpl in *. f_equal; [|by rewrite H2].
  destruct l as [|e' l]; [done|]. simpl.
  destruct (last (e' :: l)) eqn:E; [done|]. by apply last_None in E.
Qed.

Lemma batch_entries_pays h z es ms :
  Forall2 (fun (x : string * bytes) (m : msg) => h !! x.1 = Some m.1 /\ x.2 = m.2) es ms ->
  pays h (batch_entries z es) ms.
Proof.
  intros H. revert z. induction H as [|[ty b] m es ms Hx _ IH]; intros z; simpl; [constructor|].
  constructor; [done|]. apply IH.
Qed.

Lemma batch_entries_bounds z es :
  Forall (fun e => z < e_seq e <= z + Z.of_nat (length es)) (batch_entries z es).
Proof.
  revert z. induction es as [|[ty b] es IH]; intros z; simpl; constructor; simpl.
  - lia.
  - eapply Forall_impl; [apply IH|]. simpl. intros. lia.
Qed.

Definition seq_sorted (l : list entry) : Prop := StronglySorted (fun a b => e_seq a <= e_seq b) l.

Lemma seq_sorted_app l1 l2 :
  seq_sorted l1 -> seq_sorted l2 ->
  (forall a b, a ∈ l1 -> b ∈ l2 -> e_seq a <= e_seq b) -> seq_sorted (l1 ++ l2).
Proof.
  unfold seq_sorted. intros H1 H2 H. induction H1 as [|a l1 Hs IH Ha]; simpl; [done|].
  constructor.
  - apply IH. intros a' b Ha' Hb. apply H; [by right|done].
  - apply Forall_app. split; [done|]. apply Forall_forall. intros b Hb. apply H; [by left|done].
Qed.

Lemma seq_sorted_app_inv l1 l2 :
  seq_sorted (l1 ++ l2) -> seq_sorted l1 /\ seq_sorted l2.
Proof.
  unfold seq_sorted. induction l1 as [|a l1 IH]; simpl; intros H.
  - split; [constructor|done].
  - apply StronglySorted_inv in H as [H Ha]. apply Forall_app in Ha as [Ha _].
    destruct (IH H) as [? ?]. split; [by constructor|done].
Qed.

Lemma batch_entries_sorted z es : seq_sorted (batch_entries z es).
Proof.
  revert z. induction es as [|[ty b] es IH]; intros z; simpl; constructor; [apply IH|].
  eapply Forall_impl; [apply batch_entries_bounds|]. simpl. intros. lia.
Qed.

(** ** The invariant *)

Section mem.
  Context (conf : string -> jtypes).
  Hypothesis Hconf : forall pid, unambiguous_types (conf pid).

  Notation mh pid := (reg_handlers (jt_messages (conf pid))).
  Notation sh pid := (reg_handlers (jt_snapshots (conf pid))).

  Definition snaps_of (o : option actor_journal) := default [] (aj_snapshots <$> o).
  Definition msgs_of (o : option actor_journal) := default [] (aj_messages <$> o).

  Lemma msgs_of_Some a b : msgs_of (Some (AJ a b)) = b.
  Proof. done. Qed.
  Lemma snaps_of_Some a b : snaps_of (Some (AJ a b)) = a.
  Proof. done. Qed.

  Definition inv (pid : string) (a : actual) (o : option actor_journal) (oj : option journal) : Prop :=
    seq_sorted (msgs_of o) /\ Forall (fun e => 0 <= e_seq e) (msgs_of o) /\
    match a_snapshot a with
    | None =>
        snaps_of o = [] /\ a_lost a = [] /\ pays (mh pid) (msgs_of o) (a_kept a) /\
        forall j, oj = Some j ->
          0 <= j_last j /\ Forall (fun e => e_seq e <= j_last j) (msgs_of o) /\
          forall s0, j_snap j = Some s0 -> s0 <= j_last j /\ Forall (fun e => s0 <= e_seq e) (msgs_of o)
    | Some m => exists es old lost kept,
        last (snaps_of o) = Some es /\ sh pid !! e_type es = Some m.1 /\ e_bytes es = m.2 /\
        1 <= e_seq es /\ msgs_of o = old ++ lost ++ kept /\
        Forall (fun e => e_seq e < e_seq es) old /\
        Forall (fun e => e_seq e = e_seq es) lost /\ pays (mh pid) lost (a_lost a) /\
        Forall (fun e => e_seq es < e_seq e) kept /\ pays (mh pid) kept (a_kept a) /\
        forall j, oj = Some j ->
          Forall (fun e => e_seq e <= j_last j) (msgs_of o) /\
          j_snap j = Some (e_seq es) /\
          match a_kept a with
          | [] => j_last j = if a_fresh a then e_seq es else e_seq es + 1
          | _ => e_seq es + 1 <= j_last j
          end
    end.

  Lemma sorted_last_max (l : list entry) e : seq_sorted l -> last l = Some e -> Forall (fun x => e_seq x <= e_seq e) l.
  Proof.
    intros Hs Hl. apply last_Some in Hl as [l' ->].
    unfold seq_sorted in Hs. induction l' as [|a l' IH]; simpl in *.
    - repeat constructor. lia.
    - apply StronglySorted_inv in Hs as [Hs Ha]. constructor; [|by apply IH].
      rewrite Forall_app, Forall_singleton in Ha. tauto.
  Qed.

  Lemma last_app_cons {A} (l1 : list A) x l2 : last (l1 ++ x :: l2) = last (x :: l2).
  Proof. by rewrite last_app_cons. Qed.

  (** What a start returns and the handle it creates. *)
  Lemma inv_start pid a o oj (st : mem_store) :
    st !! pid = o -> inv pid a o oj ->
    exists j, load_journal mem_storage conf pid st =
              (j, JRecovered (a_snapshot a) (match a_kept a with [] => None | k => Some k end)) /\
              inv pid (Actual (a_snapshot a) (a_lost a) (a_kept a) true) o (Some j).
  Proof.
    intros Hst (Hsort & Hpos & H).
    unfold load_journal, recover_snapshot, recover_messages. simpl.
    unfold mem_read_latest_snapshot, mem_read_latest_messages. rewrite Hst.
    destruct (a_snapshot a) as [m|] eqn:Ea.
    - destruct H as (es & old & lost & kept & Hl & Hh & Hb & Hs & Hm & Hold & Hlost & Hpl & Hkept & Hpk & Hj).
      destruct o as [aj|]; [|by simpl in Hl]. unfold snaps_of in Hl. simpl in *.
      rewrite Hl. simpl.
      destruct (e_seq es =? 0) eqn:E0; [lia|].
      unfold msgs_of in *. simpl in *.
      rewrite Hm, (app_assoc old), suffix_from_skip, suffix_from_all.
      2:{ eapply Forall_impl; [exact Hkept|]. simpl. intros; lia. }
      2:{ apply Forall_app. split; [eapply Forall_impl; [exact Hold|]|eapply Forall_impl; [exact Hlost|]]; simpl; intros; lia. }
      rewrite (recover_loop_pays _ _ _ _ Hpk), Hh, Hb. eexists. split; [by destruct m; destruct (a_kept a)|].
      unfold inv, msgs_of, snaps_of. simpl. rewrite Hm in *. split_and!; [done..|].
      exists es, old, lost, kept. split_and!; try done. intros j [= <-]. simpl.
      apply seq_sorted_app_inv in Hsort as Hs2. destruct Hs2 as [_ Hs2].
      apply seq_sorted_app_inv in Hs2 as [_ Hs2].
      destruct (last kept) as [e|] eqn:El.
      + pose proof (sorted_last_max _ _ Hs2 El) as Hmax.
        assert (Hein : e ∈ kept) by (apply last_Some in El as [l' ->]; set_solver).
        assert (He : e_seq es < e_seq e).
        { rewrite Forall_forall in Hkept. by apply Hkept. }
        split_and!; [|done|].
        * apply Forall_app. split; [eapply Forall_impl; [exact Hold|]; simpl; intros; lia|].
          apply Forall_app. split; [eapply Forall_impl; [exact Hlost|]; simpl; intros; lia|done].
        * destruct (a_kept a) as [|k ks]; [|lia].
          apply Forall2_nil_inv_r in Hpk as ->. done.
      + apply last_None in El as ->. apply Forall2_nil_inv_l in Hpk as ->.
        split_and!; [|done|done].
        apply Forall_app. split; [eapply Forall_impl; [exact Hold|]; simpl; intros; lia|].
        apply Forall_app. split; [eapply Forall_impl; [exact Hlost|]; simpl; intros; lia|done].
    - destruct H as (Hsn & Hlost & Hp & Hj). destruct o as [aj|].
      + unfold snaps_of, msgs_of in *. simpl in *. rewrite Hsn. simpl.
        rewrite (recover_loop_pays _ _ _ _ Hp). eexists. split; [by destruct (a_kept a)|].
        unfold inv, snaps_of, msgs_of. simpl. split_and!; try done. intros j [= <-]. simpl.
        destruct (last (aj_messages aj)) as [e|] eqn:El.
        * pose proof (sorted_last_max _ _ Hsort El) as Hmax.
          assert (e ∈ aj_messages aj) as Hein by (apply last_Some in El as [l' ->]; set_solver).
          rewrite Forall_forall in Hpos. pose proof (Hpos _ Hein). split_and!; done.
        * apply last_None in El as ->. split_and!; [done|constructor|done].
      + unfold msgs_of in *. simpl in *. apply Forall2_nil_inv_l in Hp as Hk. rewrite Hk.
        eexists. split; [done|]. unfold inv, snaps_of, msgs_of. simpl.
        split_and!; try done; [by constructor|]. intros j [= <-]. simpl. split_and!; [lia|constructor|done].
  Qed.

  Lemma pays_app h l1 l2 m1 m2 : pays h l1 m1 -> pays h l2 m2 -> pays h (l1 ++ l2) (m1 ++ m2).
  Proof. apply Forall2_app. Qed.

  (** Appending entries behind everything written so far. *)
  Lemma inv_append pid a o j es ms ol :
    inv pid a o (Some j) -> pays (mh pid) es ms -> seq_sorted es ->
    Forall (fun e => j_last j <= e_seq e) es ->
    ol = Some (AJ (snaps_of o) (msgs_of o ++ es)) ->
    (a_snapshot a <> None -> a_kept a = [] -> a_fresh a = true -> Forall (fun e => j_last j < e_seq e) es) ->
    forall j', Forall (fun e => e_seq e <= j_last j') es -> j_last j < j_last j' -> j_snap j' = j_snap j ->
    (ms <> []) ->
    forall fr, inv pid (Actual (a_snapshot a) (a_lost a) (a_kept a ++ ms) fr) ol (Some j').
  Proof.
    intros (Hsort & Hpos & H) Hp Hss Hge -> Hgt j' Hle' Hlt Hsnap Hne fr.
    assert (Hall : Forall (fun e => e_seq e <= j_last j) (msgs_of o) /\ 0 <= j_last j).
    { destruct (a_snapshot a) as [m|].
      - destruct H as (se & old & lost & kept & Hl & Hh & Hb & Hs & Hm & Hold & Hlost & Hpl & Hkept & Hpk & Hj).
        destruct (Hj j eq_refl) as (Ha & Hb' & Hc). split; [done|].
        destruct (a_kept a); [destruct (a_fresh a)|]; lia.
      - destruct H as (_ & _ & _ & H). specialize (H j eq_refl). tauto. }
    destruct Hall as [Hall Hj0].
    unfold inv. cbn [a_snapshot a_lost a_kept a_fresh]. rewrite ?msgs_of_Some, ?snaps_of_Some.
    split_and!.
    - apply seq_sorted_app; [done|done|]. intros x y Hx Hy. rewrite Forall_forall in Hall, Hge.
      specialize (Hall _ Hx). specialize (Hge _ Hy). lia.
    - apply Forall_app. split; [done|]. eapply Forall_impl; [exact Hge|]. simpl. intros; lia.
    - destruct (a_snapshot a) as [m|] eqn:Ea.
      + destruct H as (se & old & lost & kept & Hl & Hh & Hb & Hs & Hm & Hold & Hlost & Hpl & Hkept & Hpk & Hj).
        exists se, old, lost, (kept ++ es).
        destruct (Hj j eq_refl) as (Ha & Hb' & Hc).
        assert (Hgt' : Forall (fun e => e_seq se < e_seq e) es).
        { destruct (a_kept a) as [|k ks] eqn:Ek.
          - destruct (a_fresh a) eqn:Ef.
            + eapply Forall_impl; [by apply Hgt|]. simpl. intros; lia.
            + eapply Forall_impl; [exact Hge|]. simpl. intros; lia.
          - eapply Forall_impl; [exact Hge|]. simpl. intros; lia. }
        unfold msgs_of, snaps_of in *. simpl. split_and!; try done.
        * rewrite Hm. by rewrite <-!(assoc_L (++)).
        * apply Forall_app. done.
        * by apply pays_app.
        * intros j0 [= <-]. split_and!.
          -- apply Forall_app. split; [|done]. eapply Forall_impl; [exact Hall|]. simpl. intros; lia.
          -- congruence.
          -- destruct (a_kept a ++ ms) eqn:E; [by apply app_eq_nil in E as [? ?]|].
             destruct (a_kept a) as [|k ks]; [destruct (a_fresh a)|]; lia.
      + destruct H as (Hsn & Hlost & Hpm & Hj). unfold msgs_of, snaps_of in *. simpl.
        split_and!; try done; [by apply pays_app|].
        intros j0 [= <-]. destruct (Hj j eq_refl) as (? & Ha & Hs0). split_and!; [lia| |].
        * apply Forall_app. split; [|done]. eapply Forall_impl; [exact Hall|]. simpl. intros; lia.
        * intros s0 Hs. rewrite Hsnap in Hs. destruct (Hs0 _ Hs) as [H1 H2]. split; [lia|].
          apply Forall_app. split; [done|]. eapply Forall_impl; [exact Hge|]. simpl. intros; lia.
  Qed.

  Lemma mem_write_message_lookup pid e (st : mem_store) :
    mem_write_message pid e st !! pid = Some (AJ (snaps_of (st !! pid)) (msgs_of (st !! pid) ++ [e])).
  Proof. unfold mem_write_message. destruct (st !! pid); by rewrite lookup_insert. Qed.

  Lemma mem_write_batch_lookup pid e (st : mem_store) :
    mem_write_batch pid e st !! pid = Some (AJ (snaps_of (st !! pid)) (msgs_of (st !! pid) ++ e)).
  Proof. unfold mem_write_batch. destruct (st !! pid); by rewrite lookup_insert. Qed.

  Lemma mem_write_snapshot_lookup pid e (st : mem_store) :
    mem_write_snapshot pid e st !! pid = Some (AJ (snaps_of (st !! pid) ++ [e]) (msgs_of (st !! pid))).
  Proof. unfold mem_write_snapshot. destruct (st !! pid); by rewrite lookup_insert. Qed.

  Lemma mem_delete_to_spec pid to (st : mem_store) :
    seq_sorted (msgs_of (st !! pid)) ->
    msgs_of (mem_delete_to pid to st !! pid) =
      suffix_from (fun e => to <=? e_seq e) (msgs_of (st !! pid)) /\
    snaps_of (mem_delete_to pid to st !! pid) = snaps_of (st !! pid).
  Proof using.
    clear Hconf conf.
    unfold mem_delete_to. destruct (st !! pid) as [aj|] eqn:E; intros Hs.
    - rewrite lookup_insert. unfold msgs_of, snaps_of in *. simpl in *. split; [|done].
      destruct (last (aj_messages aj)) as [e|] eqn:El; [|done].
      destruct (e_seq e <? to) eqn:Et; [|done].
      symmetry. apply suffix_from_none.
      eapply Forall_impl; [by apply sorted_last_max|]. simpl. intros; lia.
    - rewrite E. done.
  Qed.

  (** Operations touch only the journal of their own actor. *)
  Lemma jstep_frame s pid o pid' :
    pid' <> pid ->
    js_store (jstep mem_storage conf s (pid, o)).1 !! pid' = js_store s !! pid' /\
    js_journals (jstep mem_storage conf s (pid, o)).1 !! pid' = js_journals s !! pid'.
  Proof.
    intros Hne. unfold jstep.
    destruct o; simpl.
    { destruct (load_journal mem_storage conf pid (js_store s)); simpl. by simplify_map_eq. }
    all: destruct (js_journals s !! pid) as [j|] eqn:Ej; [|done].
    - unfold persist_message. destruct (reg_types _ !! m); simpl; [|by simplify_map_eq].
      destruct fail; simpl; simplify_map_eq; [done|].
      unfold mem_write_message. by destruct (js_store s !! pid); simplify_map_eq.
    - unfold persist_batch. destruct (batch_types _ _ _) as [[|e es]|]; simpl; [by simplify_map_eq| |by simplify_map_eq].
      destruct fail; simpl; simplify_map_eq; [done|].
      unfold mem_write_batch. by destruct (js_store s !! pid); simplify_map_eq.
    - unfold persist_snapshot. destruct (reg_types _ !! s0); simpl; [|by simplify_map_eq].
      destruct fail; simpl; simplify_map_eq; [done|].
      unfold mem_write_snapshot. by destruct (js_store s !! pid); simplify_map_eq.
    - unfold clear_old_messages. destruct (j_snap j), fail; simpl; simplify_map_eq; try done.
      unfold mem_delete_to. by destruct (js_store s !! pid); simplify_map_eq.
    - unfold journal_clear. destruct fail; simpl; simplify_map_eq; try done.
      unfold mem_delete_all. by simplify_map_eq.
  Qed.

  Lemma inv_drop_handle pid a o oj : inv pid a o oj -> inv pid a o None.
  Proof.
    intros (Hsort & Hpos & H). unfold inv. split_and!; try done.
    destruct (a_snapshot a) as [m|].
    - destruct H as (se & old & lost & kept & Hl & Hh & Hb & Hs & Hm & Hold & Hlost & Hpl & Hkept & Hpk & Hj).
      exists se, old, lost, kept. split_and!; try done.
    - destruct H as (H1 & H2 & H3 & H4). split_and!; try done.
  Qed.

  Lemma inv_other pid a o o' oj :
    snaps_of o' = snaps_of o -> msgs_of o' = msgs_of o -> inv pid a o oj -> inv pid a o' oj.
  Proof. intros E1 E2. unfold inv. by rewrite E1, E2. Qed.

  Lemma batch_types_pays pid l es :
    batch_types conf pid l = Some es ->
    Forall2 (fun (x : string * bytes) (m : msg) => mh pid !! x.1 = Some m.1 /\ x.2 = m.2) es l.
  Proof.
    unfold batch_types. intros H. apply mapM_Some in H. apply Forall2_flip.
    eapply Forall2_impl; [exact H|]. intros [m b] [ty b'] Hx. simpl in *.
    destruct (reg_types (jt_messages (conf pid)) !! m) eqn:E; [|done]. injection Hx as <- <-.
    split; [|done]. eapply reg_handler_of_type; [apply Hconf|done].
  Qed.

  (** The invariant is preserved by every step of the actor itself. *)
  Lemma inv_step s pid o a :
    inv pid a (js_store s !! pid) (js_journals s !! pid) ->
    let r := jstep mem_storage conf s (pid, o) in
    inv pid (actual_step pid a ((pid, o), r.2)) (js_store r.1 !! pid) (js_journals r.1 !! pid).
  Proof.
    intros H. cbn zeta.
    assert (Hnone : js_journals s !! pid = None -> forall o0, o0 <> JStart ->
       inv pid (actual_step pid a ((pid, o0), (jstep mem_storage conf s (pid, o0)).2))
         (js_store (jstep mem_storage conf s (pid, o0)).1 !! pid)
         (js_journals (jstep mem_storage conf s (pid, o0)).1 !! pid)).
    { intros Hn o0 Ho. assert (E : jstep mem_storage conf s (pid, o0) = (s, JPanic)).
      { unfold jstep. destruct o0; try done; rewrite Hn; done. }
      rewrite E. unfold actual_step. simpl. destruct a. rewrite decide_True by done.
      destruct o0; try done. }
    destruct o.
    - (* start *)
      destruct (inv_start pid a _ _ (js_store s) eq_refl H) as (j & Hl & Hi).
      cbv beta iota delta [jstep]. rewrite Hl. simpl. rewrite lookup_insert.
      unfold actual_step. destruct a as [sn lo ke fr]. rewrite decide_True by done. done.
    - destruct (js_journals s !! pid) as [j|] eqn:Ej; [|by apply Hnone].
      unfold jstep. rewrite Ej. unfold persist_message.
      destruct (reg_types (jt_messages (conf pid)) !! m) as [ty|] eqn:Et.
      2:{ simpl. rewrite lookup_delete. unfold actual_step. destruct a. rewrite decide_True by done. simpl.
          by eapply inv_drop_handle. }
      destruct fail; simpl.
      { rewrite lookup_insert. unfold actual_step. destruct a. rewrite decide_True by done. done. }
      rewrite lookup_insert, mem_write_message_lookup.
      assert (Hty : mh pid !! ty = Some m) by (eapply reg_handler_of_type; [apply Hconf|done]).
      assert (Hpay : pays (mh pid) [Entry (j_last j) ty b] [(m, b)]) by (repeat constructor; done).
      destruct a as [sn lo ke fr]. unfold actual_step. rewrite decide_True by done.
      cbn [fst snd].
      assert (Happ : ~ (sn <> None /\ ke = [] /\ fr = true) ->
        inv pid (Actual sn lo (ke ++ [(m, b)]) false)
          (Some (AJ (snaps_of (js_store s !! pid)) (msgs_of (js_store s !! pid) ++ [Entry (j_last j) ty b])))
          (Some (Journal (j_last j + 1) (j_snap j)))).
      { intros Hn. eapply (inv_append pid (Actual sn lo ke fr) _ j [Entry (j_last j) ty b] [(m, b)]);
          [exact H|done|repeat constructor|repeat constructor; simpl; lia|done| | |simpl; lia|done|done].
        - simpl. intros ? ? ?. exfalso. by apply Hn.
        - repeat constructor. simpl. lia. }
      destruct sn as [m0|]; [|apply Happ; intros (? & _); done].
      destruct ke as [|k ks]; [|apply Happ; intros (_ & ? & _); done].
      destruct fr; [|apply Happ; intros (_ & _ & ?); done].
      (* the first persist behind a snapshot *)
      destruct H as (Hsort & Hpos & es & old & lost & kept & Hl & Hh & Hb & Hs & Hm & Hold & Hlost & Hpl & Hkept & Hpk & Hj).
      simpl in Hpk. apply Forall2_nil_inv_r in Hpk as ->. rewrite app_nil_r in Hm.
      destruct (Hj j eq_refl) as (Ha & Hsn & Hlast). simpl in Hlast. 
      unfold inv. cbn [a_snapshot a_lost a_kept a_fresh].
      rewrite ?msgs_of_Some, ?snaps_of_Some. split_and!.
      + apply seq_sorted_app; [done|repeat constructor|]. intros x y Hx Hy.
        apply elem_of_list_singleton in Hy as ->. simpl. rewrite Forall_forall in Ha. by apply Ha.
      + apply Forall_app. split; [done|]. repeat constructor. simpl. lia.
      + exists es, old, (lost ++ [Entry (j_last j) ty b]), [].
        rewrite ?msgs_of_Some, ?snaps_of_Some.
        split_and!; try done.
        * rewrite Hm, app_nil_r. by rewrite (assoc_L (++)).
        * apply Forall_app. split; [done|]. repeat constructor. done.
        * by apply pays_app.
        * constructor.
        * intros j0 [= <-]. simpl. split_and!; [|done|lia].
          apply Forall_app. split; [|repeat constructor; simpl; lia].
          eapply Forall_impl; [exact Ha|]. simpl. intros; lia.
    - destruct (js_journals s !! pid) as [j|] eqn:Ej; [|by apply Hnone].
      unfold jstep. rewrite Ej. unfold persist_batch.
      destruct (batch_types conf pid l) as [es|] eqn:Et.
      2:{ simpl. rewrite lookup_delete. unfold actual_step. destruct a. rewrite decide_True by done. simpl.
          by eapply inv_drop_handle. }
      pose proof (batch_types_pays _ _ _ Et) as Hp.
      destruct es as [|e es].
      { apply Forall2_nil_inv_l in Hp as ->. simpl. rewrite lookup_insert.
        unfold actual_step. destruct a. rewrite decide_True by done. simpl. by rewrite app_nil_r. }
      destruct fail; cbn [fst snd js_store js_journals].
      { rewrite lookup_insert. unfold actual_step. destruct a. rewrite decide_True by done. done. }
      cbn [s_write_batch mem_storage]. rewrite lookup_insert, mem_write_batch_lookup.
      destruct a as [sn lo ke fr]. unfold actual_step. rewrite decide_True by done.
      cbn [fst snd].
      pose proof (batch_entries_bounds (j_last j) (e :: es)) as Hbd.
      eapply (inv_append pid (Actual sn lo ke fr) _ j _ l);
        [exact H|by apply batch_entries_pays|apply batch_entries_sorted| |done| | |simpl; lia|done|].
      + eapply Forall_impl; [exact Hbd|]. simpl. intros; lia.
      + intros _ _ _. eapply Forall_impl; [exact Hbd|]. simpl. intros; lia.
      + eapply Forall_impl; [exact Hbd|]. simpl. intros; lia.
      + intros ->. by apply Forall2_nil_inv_r in Hp.
    - destruct (js_journals s !! pid) as [j|] eqn:Ej; [|by apply Hnone].
      unfold jstep. rewrite Ej. unfold persist_snapshot.
      destruct (reg_types (jt_snapshots (conf pid)) !! s0) as [ty|] eqn:Et.
      2:{ simpl. rewrite lookup_delete. unfold actual_step. destruct a. rewrite decide_True by done. simpl.
          by eapply inv_drop_handle. }
      destruct fail; simpl.
      { rewrite lookup_insert. unfold actual_step. destruct a. rewrite decide_True by done. done. }
      rewrite lookup_insert, mem_write_snapshot_lookup.
      assert (Hty : sh pid !! ty = Some s0) by (eapply reg_handler_of_type; [apply Hconf|done]).
      destruct a as [sn lo ke fr]. unfold actual_step. rewrite decide_True by done. cbn [fst snd].
      destruct H as (Hsort & Hpos & H). unfold inv. cbn [a_snapshot a_lost a_kept a_fresh].
      rewrite ?msgs_of_Some, ?snaps_of_Some. split_and!; [done|done|].
      assert (Hall : Forall (fun e => e_seq e <= j_last j) (msgs_of (js_store s !! pid)) /\ 0 <= j_last j).
      { simpl in H. destruct sn as [m|].
        - destruct H as (se & old & lost & kept & Hl & Hh & Hb & Hs & Hm & Hold & Hlost & Hpl & Hkept & Hpk & Hj).
          destruct (Hj j eq_refl) as (Ha & Hb' & Hc). split; [done|].
          destruct ke; [destruct fr|]; lia.
        - destruct H as (_ & _ & _ & H). specialize (H j eq_refl). tauto. }
      destruct Hall as [Hall Hj0].
      exists (Entry (j_last j + 1) ty b), (msgs_of (js_store s !! pid)), [], [].
      rewrite ?msgs_of_Some, ?snaps_of_Some.
      split_and!; try done.
      + by rewrite last_snoc.
      + simpl; lia.
      + by rewrite app_nil_r.
      + eapply Forall_impl; [exact Hall|]. simpl. intros; lia.
      + constructor.
      + constructor.
      + intros j0 [= <-]. simpl. split_and!; [|done|done].
        eapply Forall_impl; [exact Hall|]. simpl. intros; lia.
    - destruct (js_journals s !! pid) as [j|] eqn:Ej; [|by apply Hnone].
      unfold jstep. rewrite Ej. unfold clear_old_messages.
      assert (Hsame : inv pid (actual_step pid a (pid, JClearOld fail, JBool false)) (js_store s !! pid) (Some j)).
      { unfold actual_step. destruct a. rewrite decide_True by done. done. }
      destruct (j_snap j) as [s0|] eqn:Es; cbn [fst snd js_store js_journals].
      2:{ by rewrite lookup_insert. }
      destruct fail; cbn [fst snd js_store js_journals]; [by rewrite lookup_insert|].
      rewrite lookup_insert. cbn [s_delete_to mem_storage].
      replace (actual_step pid a (pid, JClearOld false, JBool true)) with a
        by (unfold actual_step; destruct a; by rewrite decide_True).
      destruct H as (Hsort & Hpos & H).
      destruct (mem_delete_to_spec pid s0 (js_store s) Hsort) as [Em Esn].
      destruct (a_snapshot a) as [m|] eqn:Ea.
      + destruct H as (es & old & lost & kept & Hl & Hh & Hb & Hs & Hm & Hold & Hlost & Hpl & Hkept & Hpk & Hj).
        destruct (Hj j eq_refl) as (Ha & Hsn & Hlast). rewrite Es in Hsn. injection Hsn as ->.
        assert (Em' : msgs_of (mem_delete_to pid (e_seq es) (js_store s) !! pid) = lost ++ kept).
        { rewrite Em, Hm, suffix_from_skip, suffix_from_all; [done| |].
          - apply Forall_app. split; [eapply Forall_impl; [exact Hlost|]|eapply Forall_impl; [exact Hkept|]]; simpl; intros; lia.
          - eapply Forall_impl; [exact Hold|]. simpl. intros; lia. }
        unfold inv. rewrite Em', Ea. rewrite Hm in Hsort, Hpos, Ha.
        apply seq_sorted_app_inv in Hsort as [_ Hsort].
        apply Forall_app in Hpos as [_ Hpos]. apply Forall_app in Ha as [_ Ha].
        split_and!; [done|done|].
        exists es, [], lost, kept. rewrite Esn. split_and!; try done.
        intros j0 [= <-]. split_and!; done.
      + destruct H as (Hsn & Hlost & Hp & Hj).
        destruct (Hj j eq_refl) as (H1 & H2 & H3). destruct (H3 s0 Es) as [H4 H5].
        assert (Em' : msgs_of (mem_delete_to pid s0 (js_store s) !! pid) = msgs_of (js_store s !! pid)).
        { rewrite Em, suffix_from_all; [done|]. eapply Forall_impl; [exact H5|]. simpl. intros; lia. }
        eapply inv_other; [exact Esn|exact Em'|]. unfold inv. rewrite Ea. split_and!; try done.
    - destruct (js_journals s !! pid) as [j|] eqn:Ej; [|by apply Hnone].
      unfold jstep. rewrite Ej. unfold journal_clear.
      destruct fail; cbn [fst snd js_store js_journals].
      { rewrite lookup_insert. unfold actual_step. destruct a. rewrite decide_True by done. done. }
      rewrite lookup_insert. cbn [s_delete_all mem_storage]. unfold mem_delete_all. rewrite lookup_delete.
      destruct a as [sn lo ke fr]. unfold actual_step. rewrite decide_True by done. cbn [fst snd].
      destruct H as (Hsort & Hpos & H). unfold inv, msgs_of, snaps_of. simpl in *.
      split; [constructor|]. split; [constructor|]. split; [done|]. split; [done|]. split; [constructor|].
      intros j0 [= <-].
      assert (0 <= j_last j /\ forall s0, j_snap j = Some s0 -> s0 <= j_last j) as [H0 Hsn].
      { destruct sn as [m|].
        - destruct H as (se & old & lost & kept & Hl & Hh & Hb & Hs & Hm & Hold & Hlost & Hpl & Hkept & Hpk & Hj).
          destruct (Hj j eq_refl) as (Ha & Hb' & Hc). split.
          + destruct ke; [destruct fr|]; lia.
          + intros s1 Hs1. assert (s1 = e_seq se) as -> by congruence. destruct ke; [destruct fr|]; lia.
        - destruct H as (_ & _ & _ & H). destruct (H j eq_refl) as (? & _ & H'). split; [done|].
          intros s1 Hs1. by destruct (H' s1 Hs1). }
      split_and!; [done|constructor|]. intros s1 Hs1. split; [by apply Hsn|constructor].
  Qed.

  Lemma inv_step_other s pid o a pid' :
    pid' <> pid ->
    inv pid' a (js_store s !! pid') (js_journals s !! pid') ->
    let r := jstep mem_storage conf s (pid, o) in
    inv pid' (actual_step pid' a ((pid, o), r.2)) (js_store r.1 !! pid') (js_journals r.1 !! pid').
  Proof.
    intros Hne H. cbn zeta. destruct (jstep_frame s pid o pid' Hne) as [-> ->].
    unfold actual_step. destruct a. simpl. by rewrite decide_False by done.
  Qed.

  Lemma inv_run s h a pid :
    (forall p, p = pid -> inv p a (js_store s !! p) (js_journals s !! p)) ->
    let r := jrun mem_storage conf s h in
    inv pid (fold_left (actual_step pid) (combine h r.2) a) (js_store r.1 !! pid) (js_journals r.1 !! pid).
  Proof.
    revert s a. induction h as [|[p o] h IH]; intros s a H; cbn zeta.
    - unfold jrun. simpl. by apply H.
    - unfold jrun. cbn [run].
      destruct (jstep mem_storage conf s (p, o)) as [s1 r1] eqn:E1.
      specialize (IH s1 (actual_step pid a ((p, o), r1))). unfold jrun in IH.
      destruct (run (jstep mem_storage conf) s1 h) as [s2 rs] eqn:E2.
      cbn [fst snd combine fold_left] in *. apply IH. intros p' ->.
      pose proof (inv_step s p o a) as Hs1. pose proof (inv_step_other s p o a pid) as Hs2.
      rewrite E1 in Hs1, Hs2. cbn zeta in Hs1, Hs2. cbn [fst snd] in Hs1, Hs2.
      destruct (decide (pid = p)) as [->|Hne]; [|apply Hs2]; auto.
  Qed.

  Lemma inv_init pid : inv pid actual_init None None.
  Proof.
    unfold inv, msgs_of, snaps_of. simpl. split_and!; try constructor; try done; try constructor.
  Qed.

  Lemma inv_history h pid :
    let r := jrun mem_storage conf mem_init h in
    inv pid (does_recover pid (history mem_storage conf mem_init h))
      (js_store r.1 !! pid) (js_journals r.1 !! pid).
  Proof.
    cbn zeta. apply (inv_run mem_init h actual_init pid). intros p ->. simpl.
    rewrite !lookup_empty. apply inv_init.
  Qed.

  (** Exactly what a start recovers, for every history. *)
  Lemma mem_recovers_actual h pid :
    let a := does_recover pid (history mem_storage conf mem_init h) in
    recovered (start_after mem_storage conf mem_init h pid) = Some (a_snapshot a, a_kept a).
  Proof.
    cbn zeta. pose proof (inv_history h pid) as H. cbn zeta in H.
    unfold start_after.
    destruct (jrun mem_storage conf mem_init h) as [s rs] eqn:E. simpl in *.
    destruct (inv_start pid _ _ _ (js_store s) eq_refl H) as (j & Hl & _).
    rewrite Hl. simpl.
    by destruct (a_kept (does_recover pid (history mem_storage conf mem_init h))).
  Qed.
End mem.
