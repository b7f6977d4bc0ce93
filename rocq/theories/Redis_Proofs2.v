(** Redis journal: keys, isolation, the replay invariant. *)
From Verif Require Import Journal_Model Journal_Spec Journal_Proofs Journal_Proofs3.
From Verif Require Import ShardWire_Model ShardWire_Proofs Redis_Model Redis_Spec Redis_Proofs.
From Coq Require Import Ascii.
Local Open Scope Z_scope.

(** ** Keys *)

Definition keys_distinct (key : string -> string -> string) : Prop :=
  forall p p' t t', t = "journal"%string \/ t = "snapshot"%string ->
    t' = "journal"%string \/ t' = "snapshot"%string ->
    key p t = key p' t' -> p = p' /\ t = t'.

Lemma las_app a b : list_ascii_of_string (a +:+ b) = list_ascii_of_string a ++ list_ascii_of_string b.
Proof. induction a as [|c a IH]; [done|]. change (String c a +:+ b) with (String c (a +:+ b)). cbn [list_ascii_of_string]. by rewrite IH. Qed.

Lemma las_inj a b : list_ascii_of_string a = list_ascii_of_string b -> a = b.
Proof.
  intros H. rewrite <- (string_of_list_ascii_of_string a), <- (string_of_list_ascii_of_string b).
  by rewrite H.
Qed.

Lemma tail_types l l' t t' :
  t = "journal"%string \/ t = "snapshot"%string -> t' = "journal"%string \/ t' = "snapshot"%string ->
  l ++ list_ascii_of_string t = l' ++ list_ascii_of_string t' -> l = l' /\ t = t'.
Proof.
  intros Ht Ht' H.
  assert (t = t') as <-.
  { apply (f_equal last) in H. rewrite !last_app in H.
    destruct Ht as [->| ->], Ht' as [->| ->]; simpl in H; congruence. }
  split; [|done]. by apply app_inv_tail in H.
Qed.

Lemma plain_key_distinct prefix : keys_distinct (plain_key prefix).
Proof.
  intros p p' t t' Ht Ht' H. unfold plain_key in H.
  apply (f_equal list_ascii_of_string) in H. rewrite !las_app in H.
  rewrite !(assoc_L app) in H. apply tail_types in H as [H ->]; [|done|done].
  split; [|done]. apply app_inv_tail in H. apply app_inv_head in H. by apply las_inj.
Qed.

Lemma clustered_key_distinct prefix : keys_distinct (clustered_key prefix).
Proof.
  intros p p' t t' Ht Ht' H. unfold clustered_key in H.
  apply (f_equal list_ascii_of_string) in H. rewrite !las_app in H.
  rewrite !(assoc_L app) in H. apply tail_types in H as [H ->]; [|done|done].
  split; [|done]. rewrite <- !(assoc_L app) in H. apply app_inv_head in H.
  apply app_inj_1 in H as [H _]; [by apply las_inj|].
  apply (f_equal length) in H. rewrite !app_length in H. lia.
Qed.

Lemma redis_key_distinct b prefix : keys_distinct (redis_key b prefix).
Proof. destruct b; [apply clustered_key_distinct|apply plain_key_distinct]. Qed.

Section redis.
  Context (key : string -> string -> string).
  Hypothesis Hkey : keys_distinct key.

  Lemma js_ne p q : jkey key p <> skey key q.
  Proof using Hkey. intros H. apply Hkey in H as [_ H]; [done|by left|by right]. Qed.
  Lemma jj_ne p q : p <> q -> jkey key p <> jkey key q.
  Proof using Hkey. intros Hne H. apply Hkey in H as [H _]; [done|by left|by left]. Qed.
  Lemma ss_ne p q : p <> q -> skey key p <> skey key q.
  Proof using Hkey. intros Hne H. apply Hkey in H as [H _]; [done|by right|by right]. Qed.

  Lemma zget_insert k z (st : redis_store) : zget k (<[k := z]> st) = z.
  Proof using. unfold zget. by rewrite lookup_insert. Qed.
  Lemma zget_insert_ne k k' z (st : redis_store) : k <> k' -> zget k' (<[k := z]> st) = zget k' st.
  Proof using. intros. unfold zget. by rewrite lookup_insert_ne. Qed.
  Lemma zget_delete k (st : redis_store) : zget k (delete k st) = [].
  Proof using. unfold zget. by rewrite lookup_delete. Qed.
  Lemma zget_delete_ne k k' (st : redis_store) : k <> k' -> zget k' (delete k st) = zget k' st.
  Proof using. intros. unfold zget. by rewrite lookup_delete_ne. Qed.

  Definition rview (p : string) (st : redis_store) : zset * zset :=
    (zget (jkey key p) st, zget (skey key p) st).

  Lemma redis_isolated : isolated (redis_storage key) rview.
  Proof using Hkey.
    assert (Hjs := js_ne). assert (Hjj := jj_ne). assert (Hss := ss_ne).
    assert (Hsj : forall p q, skey key p <> jkey key q) by (intros p q H; by eapply Hjs).
    split; simpl; unfold rview, redis_write_snapshot, redis_write_message, redis_write, redis_write_batch,
      redis_delete_to, redis_delete_all, redis_read_latest_snapshot, redis_read_latest_messages; intros.
    all: try (injection H as H1 H2).
    all: repeat first [rewrite zget_insert | rewrite zget_delete
                      | rewrite zget_insert_ne by auto | rewrite zget_delete_ne by auto].
    all: try congruence. by rewrite H2.
  Qed.

  (** ** The invariant *)

  Context (conf : string -> jtypes).
  Hypothesis Hconf : forall pid, unambiguous_types (conf pid).
  Hypothesis Hids : forall pid, good_identifiers (conf pid).

  Notation mh pid := (reg_handlers (jt_messages (conf pid))).
  Notation sh pid := (reg_handlers (jt_snapshots (conf pid))).

  Definition base (o : option entry) : Z := match o with Some e => e_seq e | None => 0 end.

  (** [es] and [ss] are the stored messages and snapshots, [G] the acknowledged messages
      since the latest snapshot in the order of their acknowledgement, [B] the number of
      entries written so far. *)
  Record facts (pid : string) (os : order_state) (oj : option journal) (B : Z)
      (es ss G : list entry) : Prop := {
    f_bounds : forall e, e ∈ es \/ e ∈ ss -> 0 <= e_seq e <= B;
    f_snap : match last ss with
             | None => x_snapshot (o_expected os) = None
             | Some s => exists m, x_snapshot (o_expected os) = Some m /\
                           sh pid !! e_type s = Some m.1 /\ e_bytes s = m.2
             end;
    f_after : pays (mh pid) G (x_after (o_expected os));
    f_in : forall e, e ∈ G <-> e ∈ es /\ base (last ss) <= e_seq e;
    f_handle : forall j, oj = Some j ->
      base (last ss) <= j_last j <= B /\ (forall e, e ∈ es \/ e ∈ ss -> e_seq e <= j_last j);
    f_sorted : o_ok os = true -> StronglySorted (fun a b => e_seq a < e_seq b) G;
    f_late : o_late os = false -> forall j, oj = Some j -> forall e, e ∈ G -> e_seq e < j_last j
  }.

  Definition rinv (pid : string) (os : order_state) (st : redis_store) (oj : option journal) (B : Z) : Prop :=
    0 <= B /\ exists es ss G,
      holds (zget (jkey key pid) st) es /\ holds (zget (skey key pid) st) ss /\ facts pid os oj B es ss G.

  Lemma base_bound pid os oj B es ss G : 0 <= B -> facts pid os oj B es ss G -> 0 <= base (last ss) <= B.
  Proof using key Hkey conf Hconf Hids.
    intros HB F. unfold base. destruct (last ss) as [s|] eqn:E; [|lia].
    apply F. right. by apply last_Some_elem_of.
  Qed.

  Lemma pays_payload h l ms : pays h l ms -> ms = map (fun e => (default 0%N (h !! e_type e), e_bytes e)) l.
  Proof using key Hkey conf Hconf Hids.
    induction 1 as [|e [m b] l ms [H1 H2] Hl IH]; simpl in *; [done|]. by rewrite H1, H2, <- IH.
  Qed.

  Lemma payload_pays h l : (forall e, e ∈ l -> is_Some (h !! e_type e)) ->
    pays h l (map (fun e => (default 0%N (h !! e_type e), e_bytes e)) l).
  Proof using key Hkey conf Hconf Hids.
    induction l as [|e l IH]; intros H; [constructor|]. constructor.
    - destruct (H e) as [m Hm]; [left|]. simpl. by rewrite Hm.
    - apply IH. intros e' He'. apply H. by right.
  Qed.

  Lemma pays_handled h l ms e : pays h l ms -> e ∈ l -> is_Some (h !! e_type e).
  Proof using key Hkey conf Hconf Hids.
    intros H He. apply elem_of_list_lookup in He as [i Hi].
    destruct (Forall2_lookup_l _ _ _ _ _ H Hi) as (m & _ & Hm & _). eauto.
  Qed.

  (** What a start reads. *)
  Lemma rinv_load pid os oj B st es ss G :
    0 <= B -> holds (zget (jkey key pid) st) es -> holds (zget (skey key pid) st) ss ->
    facts pid os oj B es ss G ->
    let read := erange (base (last ss)) None es in
    let ms := map (fun e => (default 0%N (mh pid !! e_type e), e_bytes e)) read in
    (forall e, e ∈ read <-> e ∈ G) /\
    exists j,
      load_journal (redis_storage key) conf pid st =
        (j, JRecovered (x_snapshot (o_expected os)) (match ms with [] => None | _ => Some ms end)) /\
      base (last ss) <= j_last j <= B /\ (forall e, e ∈ es \/ e ∈ ss -> e_seq e <= j_last j).
  Proof using key Hkey conf Hconf Hids.
    intros HB He Hs F. cbn zeta.
    assert (Hin : forall e, e ∈ erange (base (last ss)) None es <-> e ∈ G).
    { intros e. unfold erange. rewrite in_lfilter, (f_in _ _ _ _ _ _ _ F). rewrite andb_true_r. 
      split; intros [? ?]; (split; [done|]); lia. }
    split; [done|].
    pose proof (base_bound _ _ _ _ _ _ _ HB F) as Hbase.
    assert (Hp : pays (mh pid) (erange (base (last ss)) None es)
        (map (fun e => (default 0%N (mh pid !! e_type e), e_bytes e)) (erange (base (last ss)) None es))).
    { apply payload_pays. intros e Hx. apply Hin in Hx. eapply pays_handled; [apply F|done]. }
    unfold load_journal.
    assert (Hsn : exists j1, recover_snapshot (redis_storage key) conf pid journal_new st =
        (j1, x_snapshot (o_expected os)) /\ j_last j1 = base (last ss)).
    { unfold recover_snapshot. cbn [s_read_latest_snapshot redis_storage].
      unfold redis_read_latest_snapshot. rewrite (holds_last _ _ Hs).
      pose proof (f_snap _ _ _ _ _ _ _ F) as Hsnap.
      destruct (last ss) as [s|]; [|by eexists; split; [by rewrite Hsnap|]].
      destruct Hsnap as ([m b] & E1 & E2 & E3). simpl in *. eexists. split; [by rewrite E1, E2, E3|done]. }
    destruct Hsn as (j1 & -> & Hj1).
    unfold recover_messages. cbn [s_read_latest_messages redis_storage].
    unfold redis_read_latest_messages. rewrite (holds_range _ _ _ _ He), Hj1.
    rewrite (recover_loop_pays _ _ _ _ Hp). 
    eexists. split; [reflexivity|]. cbn [j_last].
    set (rd := erange (base (last ss)) None es) in *.
    assert (Hsort : StronglySorted ele rd) by (apply lfilter_sorted; apply He).
    assert (Hmem : forall e, e ∈ es -> base (last ss) <= e_seq e -> e ∈ rd).
    { intros e H1 H2. apply Hin. apply F. by split. }
    assert (Hss : forall e, e ∈ ss -> e_seq e <= base (last ss)).
    { intros e Hx. unfold base. destruct (last ss) as [s|] eqn:E.
      - eapply last_is_max; [apply Hs|exact E|done].
      - apply last_None in E. subst. by apply elem_of_nil in Hx. }
    destruct (last rd) as [e|] eqn:El.
    - assert (Her : e ∈ rd) by (by apply last_Some_elem_of).
      assert (Her' := Her). unfold rd, erange in Her'. apply in_lfilter in Her' as [Hee Hb].
      assert (He2 : e_seq e <= B) by (apply F; by left).
      split; [lia|]. intros x [Hx|Hx]; [|specialize (Hss x Hx); lia].
      destruct (Z.le_gt_cases (base (last ss)) (e_seq x)) as [Hc|Hc]; [|lia].
      eapply last_is_max; [exact Hsort|exact El|]. auto.
    - apply last_None in El. split; [lia|]. intros x [Hx|Hx]; [|auto].
      destruct (Z.le_gt_cases (base (last ss)) (e_seq x)) as [Hc|Hc]; [|lia].
      specialize (Hmem x Hx Hc). rewrite El in Hmem. by apply elem_of_nil in Hmem.
  Qed.

  (** ** Steps *)

  Lemma good_msg_id pid m ty : reg_types (jt_messages (conf pid)) !! m = Some ty -> good_identifier ty.
  Proof using key Hkey conf Hconf Hids. intros H. apply reg_types_in in H. eapply Hids. left. exact H. Qed.
  Lemma good_snap_id pid m ty : reg_types (jt_snapshots (conf pid)) !! m = Some ty -> good_identifier ty.
  Proof using key Hkey conf Hconf Hids. intros H. apply reg_types_in in H. eapply Hids. right. exact H. Qed.

  (** Writing messages [add] with sequence ids from [j_last] on. *)
  Lemma facts_write pid os os' j j' B B' es es' ss G add ms :
    0 <= B -> facts pid os (Some j) B es ss G ->
    pays (mh pid) add ms ->
    (forall e, e ∈ add -> j_last j <= e_seq e <= j_last j') ->
    j_last j <= j_last j' <= B' -> B <= B' ->
    (forall e, e ∈ es' <-> e ∈ add \/ e ∈ es) ->
    x_snapshot (o_expected os') = x_snapshot (o_expected os) ->
    x_after (o_expected os') = x_after (o_expected os) ++ ms ->
    (o_ok os' = true -> StronglySorted (fun a b => e_seq a < e_seq b) (G ++ add)) ->
    (o_late os' = false -> forall e, e ∈ G ++ add -> e_seq e < j_last j') ->
    facts pid os' (Some j') B' es' ss (G ++ add).
  Proof using key Hkey conf Hconf Hids.
    intros HB F Hadd Hseq Hj HBB Hes Hx1 Hx2 Hok Hlate.
    destruct (f_handle _ _ _ _ _ _ _ F j eq_refl) as [Hb Hall].
    pose proof (base_bound _ _ _ _ _ _ _ HB F) as Hbase.
    split.
    - intros e [He|He].
      + apply Hes in He as [He|He]; [specialize (Hseq e He); lia|].
        pose proof (f_bounds _ _ _ _ _ _ _ F e (or_introl He)). lia.
      + pose proof (f_bounds _ _ _ _ _ _ _ F e (or_intror He)). lia.
    - rewrite Hx1. apply F.
    - rewrite Hx2. apply pays_app; [apply F|done].
    - intros e. rewrite elem_of_app, (f_in _ _ _ _ _ _ _ F), Hes. split.
      + intros [[? ?]|He]; [auto|]. specialize (Hseq e He). split; [auto|lia].
      + intros [[He|He] ?]; auto.
    - intros j0 [= <-]. split; [lia|]. intros e [He|He].
      + apply Hes in He as [He|He]; [specialize (Hseq e He); lia|]. specialize (Hall e (or_introl He)). lia.
      + specialize (Hall e (or_intror He)). lia.
    - done.
    - intros Hl j0 [= <-]. by apply Hlate.
  Qed.

  Lemma facts_weaken pid os oj B B' es ss G :
    B <= B' -> facts pid os oj B es ss G -> facts pid os oj B' es ss G.
  Proof using key Hkey conf Hconf Hids.
    intros H F. split; try apply F.
    - intros e He. pose proof (f_bounds _ _ _ _ _ _ _ F e He). lia.
    - intros j Hj. destruct (f_handle _ _ _ _ _ _ _ F j Hj) as [? ?]. split; [lia|done].
  Qed.

  (** The order state changes only in its flag [o_late], upwards. *)
  Lemma facts_late pid x ok late oj B es ss G :
    facts pid (Order x ok late) oj B es ss G -> facts pid (Order x ok true) oj B es ss G.
  Proof using key Hkey conf Hconf Hids. intros F. destruct F as [F1 F2 F3 F4 F5 F6 F7]. by split. Qed.

  Lemma facts_drop pid os oj B es ss G :
    facts pid os oj B es ss G -> facts pid os None B es ss G.
  Proof using key Hkey conf Hconf Hids. intros F. destruct F as [F1 F2 F3 F4 F5 F6 F7]. by split. Qed.

  Lemma pays_nil_inv h l : pays h l [] -> l = [].
  Proof using key Hkey conf Hconf Hids. intros H. by inversion H. Qed.

  Lemma strict_snoc' (l : list entry) e :
    StronglySorted (fun a b => e_seq a < e_seq b) l -> (forall x, x ∈ l -> e_seq x < e_seq e) ->
    StronglySorted (fun a b => e_seq a < e_seq b) (l ++ [e]).
  Proof using key Hkey conf Hconf Hids.
    induction 1 as [|y l Hs IH Hy]; intros H; simpl; [by constructor; constructor|].
    constructor; [apply IH; intros; apply H; by right|].
    apply Forall_app. split; [done|]. constructor; [apply H; left|constructor].
  Qed.

  Lemma strict_app (l1 l2 : list entry) :
    StronglySorted (fun a b => e_seq a < e_seq b) l1 -> StronglySorted (fun a b => e_seq a < e_seq b) l2 ->
    (forall x y, x ∈ l1 -> y ∈ l2 -> e_seq x < e_seq y) ->
    StronglySorted (fun a b => e_seq a < e_seq b) (l1 ++ l2).
  Proof using key Hkey conf Hconf Hids.
    induction 1 as [|y l Hs IH Hy]; intros H2 H; simpl; [done|].
    constructor; [apply IH; [done|]; intros; apply H; [by right|done]|].
    apply Forall_app. split; [done|]. apply Forall_forall. intros x Hx. apply H; [left|done].
  Qed.

  Lemma batch_entries_strict z l : StronglySorted (fun a b => e_seq a < e_seq b) (batch_entries z l).
  Proof using key Hkey conf Hconf Hids.
    revert z. induction l as [|[ty b] l IH]; intros z; simpl; constructor; [apply IH|].
    eapply Forall_impl; [apply batch_entries_bounds|]. simpl. intros. lia.
  Qed.

  Lemma batch_good pid l es :
    batch_types conf pid l = Some es -> (forall m b, In (m, b) l -> good_payload b) ->
    forall z e, e ∈ batch_entries z es -> good_identifier (e_type e) /\ good_payload (e_bytes e).
  Proof using key Hkey conf Hconf Hids.
    unfold batch_types. intros H Hl. apply mapM_Some in H.
    induction H as [|[m b] [ty b'] l es Hx Hrest IH]; intros z e He; simpl in He.
    - by apply elem_of_nil in He.
    - simpl in Hx. destruct (reg_types _ !! m) as [ty0|] eqn:E; [|done]. injection Hx as -> ->.
      apply elem_of_cons in He as [->|He]; simpl.
      + split; [by eapply good_msg_id|]. eapply Hl. left. reflexivity.
      + eapply IH; [|done]. intros m' b0 Hin. eapply Hl. right. exact Hin.
  Qed.

  Lemma batch_types_length pid l es : batch_types conf pid l = Some es -> length es = length l.
  Proof using key Hkey conf Hconf Hids. unfold batch_types. intros H. apply mapM_Some in H. symmetry. by eapply Forall2_length. Qed.

  Lemma rinv_step s pid o os B :
    rinv pid os (js_store s) (js_journals s !! pid) B ->
    good_call o -> B + entries_of o < 4611686018427387904 ->
    let r := jstep (redis_storage key) conf s (pid, o) in
    match o, r.2 with JClearOld _, JBool true => x_after (o_expected os) = [] | _, _ => True end ->
    rinv pid (order_step pid os ((pid, o), r.2)) (js_store r.1) (js_journals r.1 !! pid) (B + entries_of o).
  Proof using key Hkey conf Hconf Hids.
    intros (HB & es & ss & G & He & Hs & F) Hgood HBw. cbn zeta.
    pose proof (js_ne pid pid) as Hjs.
    destruct os as [x ok late].
    destruct o as [|m b fail|l fail|m b fail|fail|fail].
    - (* start *)
      intros _. destruct (rinv_load pid _ _ _ _ _ _ _ HB He Hs F) as (Hin & j & Hl & Hj1 & Hj2).
      cbv beta iota delta [jstep]. rewrite Hl. simpl. rewrite lookup_insert.
      unfold order_step, expected_step. simpl. rewrite !decide_True by done. simpl.
      split; [lia|]. exists es, ss, G. split; [done|]. split; [done|]. rewrite Z.add_0_r.
      destruct F as [F1 F2 F3 F4 F5 F6 F7]. split; try done. intros j0 [= <-]. done.
    - intros _. unfold jstep. destruct (js_journals s !! pid) as [j|] eqn:Ej.
      2:{ simpl. unfold order_step, expected_step. simpl. rewrite !decide_True by done. simpl.
          rewrite Ej. split; [lia|]. exists es, ss, G. split; [done|]. split; [done|].
          eapply facts_weaken; [|done]. lia. }
      unfold persist_message. destruct (reg_types (jt_messages (conf pid)) !! m) as [ty|] eqn:Et.
      2:{ simpl. rewrite lookup_delete. unfold order_step, expected_step. simpl. rewrite !decide_True by done. simpl.
          split; [lia|]. exists es, ss, G. split; [done|]. split; [done|].
          eapply facts_weaken; [|eapply facts_drop; done]. lia. }
      destruct fail.
      { simpl. rewrite lookup_insert. unfold order_step, expected_step. simpl. rewrite !decide_True by done. simpl.
        split; [lia|]. exists es, ss, G. split; [done|]. split; [done|]. eapply facts_weaken; [|done]. lia. }
      simpl. rewrite lookup_insert. unfold order_step, expected_step. simpl. rewrite !decide_True by done. simpl.
      destruct (f_handle _ _ _ _ _ _ _ F j eq_refl) as [Hb Hall].
      pose proof (base_bound _ _ _ _ _ _ _ HB F) as Hbase. simpl in HBw.
      set (e := Entry (j_last j) ty b).
      assert (Hste : storable e).
      { split; [simpl; lia|]. split; [by eapply good_msg_id|done]. }
      split; [lia|]. exists (eadd e es), ss, (G ++ [e]).
      unfold redis_write_message, redis_write. rewrite zget_insert, zget_insert_ne by done.
      split; [by apply (holds_add _ _ e)|]. split; [done|].
      eapply (facts_write _ _ _ _ _ _ _ _ _ _ _ _ [(m, b)] HB F); simpl.
      + constructor; [|constructor]. simpl. split; [|done]. eapply reg_handler_of_type; [apply Hconf|done].
      + intros y Hy. apply elem_of_list_singleton in Hy as ->. simpl. lia.
      + lia.
      + lia.
      + intros y. rewrite in_eadd, elem_of_list_singleton. done.
      + done.
      + done.
      + intros Hk. assert (HG := f_after _ _ _ _ _ _ _ F). simpl in HG.
        destruct (x_after x) as [|m0 ms0] eqn:Ex.
        { apply pays_nil_inv in HG as ->. by constructor; constructor. }
        apply andb_true_iff in Hk as [Hk1 Hk2]. apply negb_true_iff in Hk2.
        apply strict_snoc'; [by apply F|]. intros y Hy. simpl.
        eapply (f_late _ _ _ _ _ _ _ F); done.
      + intros _ y Hy. apply elem_of_app in Hy as [Hy|Hy].
        * apply (f_in _ _ _ _ _ _ _ F) in Hy as [Hy _]. specialize (Hall y (or_introl Hy)). lia.
        * apply elem_of_list_singleton in Hy as ->. simpl. lia.
    - intros _. unfold jstep. destruct (js_journals s !! pid) as [j|] eqn:Ej.
      2:{ simpl. unfold order_step, expected_step. simpl. rewrite !decide_True by done. simpl.
          rewrite Ej. split; [lia|]. exists es, ss, G. split; [done|]. split; [done|].
          eapply facts_weaken; [|done]. lia. }
      unfold persist_batch. destruct (batch_types conf pid l) as [[|p0 bes]|] eqn:Et.
      3:{ simpl. rewrite lookup_delete. unfold order_step, expected_step. simpl. rewrite !decide_True by done. simpl.
          split; [lia|]. exists es, ss, G. split; [done|]. split; [done|].
          eapply facts_weaken; [|eapply facts_drop; done]. lia. }
      { assert (l = []) as -> by (apply batch_types_length in Et; destruct l; done).
        simpl. rewrite lookup_insert. unfold order_step, expected_step. simpl. rewrite !decide_True by done. simpl.
        split; [lia|]. exists es, ss, G. split; [done|]. split; [done|]. rewrite app_nil_r. destruct x as [x1 x2]. simpl.
        eapply facts_weaken; [|eapply facts_late; done]. lia. }
      destruct fail.
      { simpl. rewrite lookup_insert. unfold order_step, expected_step. simpl. rewrite !decide_True by done. simpl.
        split; [lia|]. exists es, ss, G. split; [done|]. split; [done|]. eapply facts_weaken; [|done]. lia. }
      cbn [fst snd js_store js_journals]. rewrite lookup_insert.
      unfold order_step, expected_step. cbn [fst snd o_expected o_ok o_late]. rewrite !decide_True by done.
      destruct (f_handle _ _ _ _ _ _ _ F j eq_refl) as [Hb Hall].
      pose proof (base_bound _ _ _ _ _ _ _ HB F) as Hbase.
      cbn [entries_of] in *. pose proof (batch_types_length _ _ _ Et) as Hlen.
      set (es0 := p0 :: bes) in *.
      pose proof (batch_entries_bounds (j_last j) es0) as Hbd. rewrite Forall_forall in Hbd.
      assert (Hst : Forall storable (batch_entries (j_last j) es0)).
      { apply Forall_forall. intros y Hy. specialize (Hbd y Hy). cbn beta in Hbd.
        destruct (batch_good _ _ _ Et Hgood _ _ Hy). split; [lia|]. by split. }
      destruct (holds_adds _ _ _ He Hst) as (es' & He' & Hes').
      split; [lia|]. exists es', ss, (G ++ batch_entries (j_last j) es0).
      cbn [s_write_batch redis_storage]. unfold redis_write_batch.
      rewrite zget_insert, zget_insert_ne by done.
      split; [done|]. split; [done|].
      eapply (facts_write _ _ _ _ _ _ _ _ _ _ _ _ l HB F); cbn [o_expected o_ok o_late x_snapshot x_after j_last].
      + apply batch_entries_pays. by apply batch_types_pays.
      + intros y Hy. specialize (Hbd y Hy). cbn beta in Hbd. lia.
      + lia.
      + lia.
      + done.
      + done.
      + done.
      + intros ->. apply strict_app; [by apply F|apply batch_entries_strict|].
        intros y z Hy Hz. apply (f_in _ _ _ _ _ _ _ F) in Hy as [Hy _]. specialize (Hall y (or_introl Hy)).
        specialize (Hbd z Hz). cbn beta in Hbd. lia.
      + done.
    - intros _. unfold jstep. destruct (js_journals s !! pid) as [j|] eqn:Ej.
      2:{ simpl. unfold order_step, expected_step. simpl. rewrite !decide_True by done. simpl.
          rewrite Ej. split; [lia|]. exists es, ss, G. split; [done|]. split; [done|].
          eapply facts_weaken; [|done]. lia. }
      unfold persist_snapshot. destruct (reg_types (jt_snapshots (conf pid)) !! m) as [ty|] eqn:Et.
      2:{ simpl. rewrite lookup_delete. unfold order_step, expected_step. simpl. rewrite !decide_True by done. simpl.
          split; [lia|]. exists es, ss, G. split; [done|]. split; [done|].
          eapply facts_weaken; [|eapply facts_drop; done]. lia. }
      destruct fail.
      { simpl. rewrite lookup_insert. unfold order_step, expected_step. simpl. rewrite !decide_True by done. simpl.
        split; [lia|]. exists es, ss, G. split; [done|]. split; [done|]. eapply facts_weaken; [|done]. lia. }
      cbn [fst snd js_store js_journals]. rewrite lookup_insert.
      unfold order_step, expected_step. cbn [fst snd o_expected o_ok o_late]. rewrite !decide_True by done.
      destruct (f_handle _ _ _ _ _ _ _ F j eq_refl) as [Hb Hall].
      pose proof (base_bound _ _ _ _ _ _ _ HB F) as Hbase. cbn [entries_of] in *.
      set (e := Entry (j_last j + 1) ty b).
      assert (Hste : storable e).
      { split; [simpl; lia|]. split; [by eapply good_snap_id|done]. }
      split; [lia|]. exists es, (eadd e ss), [].
      cbn [s_write_snapshot redis_storage]. unfold redis_write_snapshot, redis_write.
      rewrite zget_insert, zget_insert_ne by (intros E; by apply Hjs).
      split; [done|]. pose proof (holds_add _ _ e Hs Hste) as Hs'. split; [done|].
      assert (Hlast : last (eadd e ss) = Some e).
      { destruct (last (eadd e ss)) as [y|] eqn:El.
        - assert (Hy : y ∈ eadd e ss) by (by apply last_Some_elem_of).
          apply in_eadd in Hy as [->|Hy]; [done|].
          assert (e_seq e <= e_seq y).
          { eapply last_is_max; [apply Hs'|done|]. apply in_eadd. by left. }
          specialize (Hall y (or_intror Hy)). simpl in *. lia.
        - apply last_None in El. assert (Hy : e ∈ eadd e ss) by (apply in_eadd; by left).
          rewrite El in Hy. by apply elem_of_nil in Hy. }
      split; cbn [o_expected o_ok o_late x_snapshot x_after].
      + intros y [Hy|Hy].
        * pose proof (f_bounds _ _ _ _ _ _ _ F y (or_introl Hy)). lia.
        * apply in_eadd in Hy as [->|Hy]; [simpl; lia|].
          pose proof (f_bounds _ _ _ _ _ _ _ F y (or_intror Hy)). lia.
      + rewrite Hlast. exists (m, b). split; [done|]. split; [|done].
        eapply reg_handler_of_type; [apply Hconf|done].
      + constructor.
      + rewrite Hlast. intros y. split; [intros Hy; by apply elem_of_nil in Hy|].
        intros [Hy Hy2]. specialize (Hall y (or_introl Hy)). simpl in *. lia.
      + rewrite Hlast. intros j0 [= <-]. simpl. split; [lia|]. intros y [Hy|Hy].
        * specialize (Hall y (or_introl Hy)). lia.
        * apply in_eadd in Hy as [->|Hy]; [simpl; lia|]. specialize (Hall y (or_intror Hy)). lia.
      + constructor.
      + done.
    - unfold jstep. destruct (js_journals s !! pid) as [j|] eqn:Ej.
      2:{ intros _. simpl. unfold order_step, expected_step. simpl. rewrite !decide_True by done. simpl.
          rewrite Ej. split; [lia|]. exists es, ss, G. split; [done|]. split; [done|].
          eapply facts_weaken; [|done]. lia. }
      unfold clear_old_messages. destruct (j_snap j) as [z|]; [destruct fail|].
      1,3: intros _; simpl; rewrite lookup_insert; unfold order_step, expected_step; simpl; rewrite !decide_True by done; simpl;
        split; [lia|]; exists es, ss, G; split; [done|]; split; [done|]; eapply facts_weaken; [|done]; lia.
      cbn [fst snd js_store js_journals o_expected]. rewrite lookup_insert. intros Hx.
      unfold order_step, expected_step. cbn [fst snd o_expected o_ok o_late]. rewrite !decide_True by done.
      cbn [s_delete_to redis_storage]. unfold redis_delete_to. cbn [entries_of]. rewrite Z.add_0_r.
      split; [lia|].
      assert (G = []) as ->.
      { eapply pays_nil_inv. rewrite <- Hx. apply (f_after _ _ _ _ _ _ _ F). }
      exists (List.filter (fun e => negb ((0 <=? e_seq e) && (e_seq e <=? z))) es), ss, [].
      rewrite zget_insert, zget_insert_ne by done.
      split; [by apply holds_remrange|]. split; [done|].
      destruct F as [F1 F2 F3 F4 F5 F6 F7]. split; try done.
      + intros y [Hy|Hy]; [|auto]. apply in_lfilter in Hy as [Hy _]. auto.
      + intros y. split; [intros Hy; by apply elem_of_nil in Hy|]. intros [Hy Hy2].
        apply in_lfilter in Hy as [Hy _]. apply F4. auto.
      + intros j0 Hj0. destruct (F5 j0 Hj0) as [? Hall]. split; [done|]. intros y [Hy|Hy]; [|auto].
        apply in_lfilter in Hy as [Hy _]. auto.
    - intros _. unfold jstep. destruct (js_journals s !! pid) as [j|] eqn:Ej.
      2:{ simpl. unfold order_step, expected_step. simpl. rewrite !decide_True by done. simpl.
          rewrite Ej. split; [lia|]. exists es, ss, G. split; [done|]. split; [done|].
          eapply facts_weaken; [|done]. lia. }
      unfold journal_clear. destruct fail.
      { simpl. rewrite lookup_insert. unfold order_step, expected_step. simpl. rewrite !decide_True by done. simpl.
        split; [lia|]. exists es, ss, G. split; [done|]. split; [done|]. eapply facts_weaken; [|done]. lia. }
      cbn [fst snd js_store js_journals]. rewrite lookup_insert.
      unfold order_step, expected_step. cbn [fst snd o_expected o_ok o_late]. rewrite !decide_True by done.
      destruct (f_handle _ _ _ _ _ _ _ F j eq_refl) as [Hb Hall].
      pose proof (base_bound _ _ _ _ _ _ _ HB F) as Hbase. cbn [entries_of] in *. rewrite Z.add_0_r.
      split; [lia|]. exists [], [], [].
      cbn [s_delete_all redis_storage]. unfold redis_delete_all.
      rewrite zget_delete, zget_delete_ne, zget_delete by (intros E; by apply Hjs).
      split; [apply holds_nil|]. split; [apply holds_nil|].
      split; try done; simpl.
      + intros e [H|H]; by apply elem_of_nil in H.
      + constructor.
      + intros e. split; [intros H; by apply elem_of_nil in H|intros [H _]; by apply elem_of_nil in H].
      + intros j0 [= <-]. split; [lia|]. intros e [H|H]; by apply elem_of_nil in H.
      + constructor.
  Qed.
End redis.
