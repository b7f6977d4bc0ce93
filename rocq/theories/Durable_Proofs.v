(** Persistent actors with lost, late and unanswered calls: runs, and what redis holds. *)
From Verif Require Import ShardWire_Model Redis_Model Redis_Spec Redis_Proofs Redis_Proofs2.
From Verif Require Import Journal_Model Journal_Spec Journal_Proofs Durable_Model Durable_Spec.
Local Open Scope Z_scope.

#[global] Instance devent_eq_dec : EqDecision devent.
Proof. solve_decision. Defined.

(** ** Runs *)

Section runs.
  Context {St : Type} (S : storage St) (conf : string -> jtypes).
  Notation dstep := (dstep S conf). Notation drun := (drun S conf).

  Lemma drun_app s l1 l2 :
    drun s (l1 ++ l2) = let '(s1, t1) := drun s l1 in let '(s2, t2) := drun s1 l2 in (s2, t1 ++ t2).
  Proof using.
    revert s. induction l1 as [|o l1 IH]; intros s; cbn [app Durable_Model.drun].
    - by destruct (drun s l2).
    - destruct (dstep s o) as [s1 t1]. rewrite IH. destruct (drun s1 l1) as [s2 t2].
      destruct (drun s2 l2) as [s3 t3]. by rewrite (assoc_L app).
  Qed.

  Lemma drun_snoc s l o :
    drun s (l ++ [o]) = let '(s1, t1) := drun s l in let '(s2, t2) := dstep s1 o in (s2, t1 ++ t2).
  Proof using.
    rewrite drun_app. destruct (drun s l) as [s1 t1]. cbn [Durable_Model.drun].
    destruct (dstep s1 o) as [s2 t2]. by rewrite app_nil_r.
  Qed.

  (** An invariant of state and trace holds at every point of a run whose whole trace is fine. *)
  Lemma drun_inv (I : dsys -> list devent -> Prop) (ok : list devent -> Prop) s0 :
    (forall t t', ok (t ++ t') -> ok t) ->
    I s0 [] ->
    (forall s t o s' ev, I s t -> dstep s o = (s', ev) -> ok (t ++ ev) -> I s' (t ++ ev)) ->
    forall l s t, drun s0 l = (s, t) -> ok t -> I s t.
  Proof using.
    intros Hpre H0 Hstep l. induction l as [|o l IH] using rev_ind; intros s t.
    - intros [= <- <-] _. done.
    - rewrite drun_snoc. destruct (drun s0 l) as [s1 t1]. destruct (dstep s1 o) as [s2 t2] eqn:E.
      intros [= <- <-] Hok. eapply Hstep; [|exact E|done]. apply IH; [done|]. eauto.
  Qed.

  (** Events that come alone. *)
  Definition solo (e : devent) : Prop :=
    match e with VStart _ _ | VRecovered _ _ _ _ => True | _ => False end.

  Lemma solo_alone s o s' ev e : dstep s o = (s', ev) -> solo e -> e ∈ ev -> ev = [e].
  Proof using.
    destruct s as [st incs fl n]. intros E He Hin. destruct o; simpl in E.
    - destruct (recover_snapshot _ _ _ _ _). injection E as <- <-. by apply elem_of_list_singleton in Hin as ->.
    - destruct (incs !! i) as [[pid j [snap|] call]|]; [|injection E as <- <-; by apply elem_of_nil in Hin..].
      destruct (recover_messages _ _ _ _ _). injection E as <- <-. by apply elem_of_list_singleton in Hin as ->.
    - destruct (incs !! i) as [[pid j [snap|] [call|]]|]; try (injection E as <- <-; by apply elem_of_nil in Hin).
      destruct (call_write _ _ _ _) as [[w|]|]; injection E as <- <-;
        repeat first [apply elem_of_cons in Hin as [->|Hin]; [done|] | by apply elem_of_nil in Hin].
    - destruct (fl !! k) as [[pid w]|]; injection E as <- <-; by apply elem_of_nil in Hin.
    - destruct (incs !! i) as [[pid j l [[k c]|]]|]; [|injection E as <- <-; by apply elem_of_nil in Hin..].
      destruct ok; [destruct (fl !! k)|]; injection E as <- <-;
        repeat first [apply elem_of_cons in Hin as [->|Hin]; [done|] | by apply elem_of_nil in Hin].
    - destruct (incs !! i); injection E as <- <-;
        repeat first [apply elem_of_cons in Hin as [->|Hin]; [done|] | by apply elem_of_nil in Hin].
  Qed.

  Lemma drun_split s l s' t1 e t2 :
    drun s l = (s', t1 ++ e :: t2) -> solo e ->
    exists l1 o l2 s1 s2, l = l1 ++ o :: l2 /\ drun s l1 = (s1, t1) /\ dstep s1 o = (s2, [e]) /\
      drun s2 l2 = (s', t2).
  Proof using.
    revert s t1. induction l as [|o l IH]; intros s t1; cbn [Durable_Model.drun].
    - intros [= _ H]. by destruct t1.
    - destruct (dstep s o) as [s1 ev] eqn:E. destruct (drun s1 l) as [s2 t] eqn:Er. intros [= <- H] He.
      destruct (decide (e ∈ ev)) as [Hin|Hin].
      { destruct (decide (e ∈ t1)) as [Hin1|Hin1].
        - (* an earlier copy *)
          pose proof (solo_alone _ _ _ _ _ E He Hin) as ->. destruct t1 as [|e1 t1]; [by apply elem_of_nil in Hin1|].
          injection H as <- H. subst t. destruct (IH _ _ Er He) as (l1 & o' & l2 & s3 & s4 & -> & H1 & H2 & H3).
          exists (o :: l1), o', l2, s3, s4. split; [done|]. cbn [Durable_Model.drun]. rewrite E, H1. done.
        - pose proof (solo_alone _ _ _ _ _ E He Hin) as ->. destruct t1 as [|e1 t1].
          + injection H as H. subst t. exists [], o, l, s, s1. done.
          + injection H as -> H. exfalso. apply Hin1. left. }
      assert (exists t1', t1 = ev ++ t1' /\ t = t1' ++ e :: t2) as (t1' & -> & ->).
      { clear -H Hin. revert t1 H. induction ev as [|x ev IH]; intros t1 H; simpl in H; [by exists t1|].
        destruct t1 as [|y t1]; simpl in H.
        - injection H as -> _. exfalso. apply Hin. left.
        - injection H as -> H. destruct (IH ltac:(by intros ?; apply Hin; right) t1 H) as (t1' & -> & ->). by exists t1'. }
      destruct (IH _ _ Er He) as (l1 & o' & l2 & s3 & s4 & -> & H1 & H2 & H3).
      exists (o :: l1), o', l2, s3, s4. split; [done|]. cbn [Durable_Model.drun]. rewrite E, H1. done.
  Qed.
End runs.

(** ** Traces *)

Lemma acked_app pid t1 t2 : acked pid (t1 ++ t2) = acked pid t1 ++ acked pid t2.
Proof. unfold acked. by rewrite map_app, concat_app. Qed.
Lemma tried_app pid t1 t2 : tried pid (t1 ++ t2) = tried pid t1 ++ tried pid t2.
Proof. unfold tried. by rewrite map_app, concat_app. Qed.
Lemma snapped_app pid t1 t2 : snapped pid (t1 ++ t2) = snapped pid t1 ++ snapped pid t2.
Proof. unfold snapped. by rewrite map_app, concat_app. Qed.

Lemma weight_nonneg e : 0 <= weight e.
Proof. destruct e; simpl; try lia. destruct c; lia. Qed.
Lemma total_nonneg t : 0 <= total_weight t.
Proof. induction t as [|e t IH]; simpl; [lia|]. pose proof (weight_nonneg e). lia. Qed.
Lemma total_app t1 t2 : total_weight (t1 ++ t2) = total_weight t1 + total_weight t2.
Proof. induction t1 as [|e t1 IH]; simpl; [lia|]. rewrite IH. lia. Qed.

Lemma good_trace_pre t1 t2 : good_trace (t1 ++ t2) -> good_trace t1.
Proof.
  intros [H1 H2]. apply Forall_app in H1 as [H1 _]. split; [done|].
  rewrite total_app in H2. pose proof (total_nonneg t2). lia.
Qed.

Lemma plain_pre pid t1 t2 : plain pid (t1 ++ t2) -> plain pid t1.
Proof. intros H. by apply Forall_app in H as [H _]. Qed.

Definition cweight (c : dcall) : Z := match c with CBatch l => Z.of_nat (length l) | _ => 1 end.

(** ** What redis holds *)

Section redis.
  Context (key : string -> string -> string).
  Hypothesis Hkey : keys_distinct key.
  Context (conf : string -> jtypes).
  Hypothesis Hconf : forall pid, unambiguous_types (conf pid).
  Hypothesis Hids : forall pid, good_identifiers (conf pid).

  Notation S := (redis_storage key).
  Notation mh pid := (reg_handlers (jt_messages (conf pid))).
  Notation sh pid := (reg_handlers (jt_snapshots (conf pid))).
  Notation state := (dsys (St := redis_store)).

  (** An entry that comes from a call of the trace. *)
  Definition from_call (h : gmap string N) (called : list msg) (B : Z) (e : entry) : Prop :=
    storable e /\ e_seq e <= B /\ exists m, h !! e_type e = Some m /\ (m, e_bytes e) ∈ called.
  Definition okm (pid : string) (t : list devent) : entry -> Prop :=
    from_call (mh pid) (tried pid t) (total_weight t).
  Definition oks (pid : string) (t : list devent) : entry -> Prop :=
    from_call (sh pid) (snapped pid t) (total_weight t).

  Definition okw (pid : string) (t : list devent) (w : dwrite) : Prop :=
    match w with
    | WMessage e => okm pid t e
    | WBatch es => Forall (okm pid t) es
    | WSnapshot e => oks pid t e
    | WDeleteTo _ | WDeleteAll => True
    end.

  Definition held (pid : string) (st : redis_store) (es ss : list entry) : Prop :=
    holds (zget (jkey key pid) st) es /\ holds (zget (skey key pid) st) ss.

  Record inv (s : state) (t : list devent) : Prop := {
    v_held : forall pid, exists es ss, held pid (d_store s) es ss /\ Forall (okm pid t) es /\ Forall (oks pid t) ss;
    v_flight : forall k p w, d_flight s !! k = Some (p, w) -> okw p t w /\ (k < d_next s)%N;
    v_incs : forall i x, d_incs s !! i = Some x -> (i < d_next s)%N /\ 0 <= j_last (i_journal x) /\
      match i_call x with
      | Some (k, c) => (k < d_next s)%N /\ i_loading x = None /\ j_last (i_journal x) + cweight c <= total_weight t
      | None => j_last (i_journal x) <= total_weight t
      end;
  }.

  Lemma from_call_mono h l1 l2 B B' e : from_call h l1 B e -> B <= B' -> from_call h (l1 ++ l2) B' e.
  Proof using Hkey Hconf Hids.
    intros (H1 & H2 & m & H3 & H4) HB. split; [done|]. split; [lia|]. exists m. split; [done|].
    apply elem_of_app. by left.
  Qed.
  Lemma okm_mono pid t ev e : okm pid t e -> okm pid (t ++ ev) e.
  Proof using Hkey Hconf Hids. unfold okm. rewrite tried_app, total_app. pose proof (total_nonneg ev). intros H'. eapply from_call_mono; [done|lia]. Qed.
  Lemma oks_mono pid t ev e : oks pid t e -> oks pid (t ++ ev) e.
  Proof using Hkey Hconf Hids. unfold oks. rewrite snapped_app, total_app. pose proof (total_nonneg ev). intros H'. eapply from_call_mono; [done|lia]. Qed.
  Lemma okw_mono pid t ev w : okw pid t w -> okw pid (t ++ ev) w.
  Proof using Hkey Hconf Hids.
    destruct w; simpl; try done; [apply okm_mono| |apply oks_mono].
    intros H. eapply Forall_impl; [exact H|]. intros e. apply okm_mono.
  Qed.

  Lemma okm_storable pid t es : Forall (okm pid t) es -> Forall storable es.
  Proof using Hkey Hconf Hids. intros H. eapply Forall_impl; [exact H|]. by intros e [? _]. Qed.

  (** The entries of a write come from its call. *)
  Lemma call_write_ok pid t i c j w :
    good_trace (t ++ [VCall i pid c]) -> 0 <= j_last j <= total_weight t ->
    call_write conf pid c j = Some (Some w) -> okw pid (t ++ [VCall i pid c]) w.
  Proof using Hkey Hconf Hids.
    intros [Hg Hw] Hj. rewrite total_app in Hw. cbn [total_weight] in Hw.
    apply Forall_app in Hg as [_ Hg]. apply Forall_cons in Hg as [Hg _]. pose proof (total_nonneg t) as Ht.
    destruct c as [m b|l|m b| |]; simpl in *.
    - destruct (reg_types _ !! m) as [ty|] eqn:E; [|done]. intros [= <-]. simpl. unfold okm.
      rewrite tried_app, total_app. split; [|split].
      + split; [simpl; lia|]. split; [|done]. simpl. apply reg_types_in in E. eapply Hids; eauto.
      + simpl. lia.
      + exists m. split; [apply reg_handler_of_type; [apply Hconf|done]|].
        apply elem_of_app. right. unfold tried. simpl. rewrite decide_True by done. simpl. left.
    - destruct (batch_types conf pid l) as [es|] eqn:E; [|done].
      assert (es <> [] -> Some (Some (WBatch (batch_entries (j_last j) es))) = Some (Some w) ->
        okw pid (t ++ [VCall i pid (CBatch l)]) w) as H'.
      2:{ destruct es; [done|]. apply H'. done. }
      intros _ [= <-]. cbn [okw]. apply Forall_forall. intros e He.
      assert (length es = length l) as Hlen by (eapply batch_types_length; eauto).
      pose proof (batch_entries_bounds (j_last j) es) as Hb. rewrite Forall_forall in Hb. specialize (Hb e He).
      assert (exists m, reg_types (jt_messages (conf pid)) !! m = Some (e_type e) /\ (m, e_bytes e) ∈ l) as (m & Hm1 & Hm2).
      { clear -E He. unfold batch_types in E. revert es E He. generalize (j_last j) as z.
        induction l as [|[m b] l IH]; intros z es E He.
        - simpl in E. injection E as <-. by apply elem_of_nil in He.
        - simpl in E. destruct (reg_types (jt_messages (conf pid)) !! m) as [ty|] eqn:Em; [|done].
          simpl in E. destruct (mapM _ l) as [es'|] eqn:El; [|done]. simpl in E. injection E as <-.
          simpl in He. apply elem_of_cons in He as [->|He].
          + exists m. split; [done|]. simpl. left.
          + destruct (IH _ _ eq_refl He) as (m' & ? & ?). exists m'. split; [done|]. by right. }
      unfold okm. rewrite tried_app, total_app. split; [|split].
      + split; [|split].
        * rewrite Hlen in Hb. lia.
        * apply reg_types_in in Hm1. eapply Hids; eauto.
        * eapply Hg; eauto.
      + cbn [total_weight weight]. lia.
      + exists m. split; [apply reg_handler_of_type; [apply Hconf|done]|].
        apply elem_of_app. right. unfold tried. simpl. rewrite decide_True by done. by rewrite app_nil_r.
    - destruct (reg_types _ !! m) as [ty|] eqn:E; [|done]. intros [= <-]. simpl. unfold oks.
      rewrite snapped_app, total_app. split; [|split].
      + split; [simpl; lia|]. split; [|done]. simpl. apply reg_types_in in E. eapply Hids; eauto.
      + simpl. lia.
      + exists m. split; [apply reg_handler_of_type; [apply Hconf|done]|].
        apply elem_of_app. right. unfold snapped. simpl. rewrite decide_True by done. simpl. left.
    - destruct (j_snap j); [intros [= <-]|]; done.
    - by intros [= <-].
  Qed.

  (** What a write does to the sorted sets. *)
  Lemma held_write pid t w st es ss :
    held pid st es ss -> okw pid t w ->
    exists es' ss', held pid (apply_write S pid w st) es' ss' /\
      match w with
      | WMessage e => (forall x, x ∈ es' <-> x = e \/ x ∈ es) /\ ss' = ss
      | WBatch l => (forall x, x ∈ es' <-> x ∈ l \/ x ∈ es) /\ ss' = ss
      | WSnapshot e => es' = es /\ (forall x, x ∈ ss' <-> x = e \/ x ∈ ss)
      | WDeleteTo _ => (forall x, x ∈ es' -> x ∈ es) /\ ss' = ss
      | WDeleteAll => es' = [] /\ ss' = []
      end.
  Proof using Hkey Hconf Hids.
    intros [H1 H2] Hw. destruct w as [e|l|e|to|]; unfold held, apply_write; simpl in *.
    - exists (eadd e es), ss. unfold redis_write_message, redis_write. rewrite zget_insert.
      rewrite zget_insert_ne by (by apply js_ne). split; [split; [|done]|].
      + apply holds_add; [done|]. apply Hw.
      + split; [|done]. intros x. apply in_eadd.
    - unfold redis_write_batch. rewrite zget_insert. rewrite zget_insert_ne by (by apply js_ne).
      destruct (holds_adds _ es l H1) as (es' & He & Hin); [by eapply okm_storable|]. by exists es', ss.
    - exists es, (eadd e ss). unfold redis_write_snapshot, redis_write. rewrite zget_insert.
      rewrite zget_insert_ne by (intros H; by eapply (js_ne key Hkey)). split; [split; [done|]|].
      + apply holds_add; [done|]. apply Hw.
      + split; [done|]. intros x. apply in_eadd.
    - unfold redis_delete_to. rewrite zget_insert. rewrite zget_insert_ne by (by apply js_ne).
      eexists _, ss. split; [split; [by apply holds_remrange|done]|]. split; [|done].
      intros x Hx. by apply in_lfilter in Hx as [? _].
    - exists [], []. unfold redis_delete_all. rewrite zget_delete.
      rewrite zget_delete_ne by (intros H; by eapply (js_ne key Hkey)). rewrite zget_delete.
      split; [|done]. split; apply holds_nil.
  Qed.

  Lemma held_write_other pid pid' w st es ss :
    pid <> pid' -> held pid st es ss -> held pid (apply_write S pid' w st) es ss.
  Proof using Hkey Hconf Hids.
    intros Hne [H1 H2].
    assert (Hjs := js_ne key Hkey). assert (Hjj := jj_ne key Hkey). assert (Hss := ss_ne key Hkey).
    assert (Hsj : forall p q, skey key p <> jkey key q) by (intros p q H; by eapply Hjs).
    destruct w; unfold held, apply_write; simpl;
      unfold redis_write_message, redis_write_snapshot, redis_write, redis_write_batch, redis_delete_to, redis_delete_all;
      rewrite ?zget_insert_ne, ?zget_delete_ne by auto; done.
  Qed.

  (** What a start reads. *)
  Lemma held_recover_snapshot pid st es ss j : held pid st es ss ->
    recover_snapshot S conf pid j st =
      match last ss with
      | Some e => (Journal (e_seq e) (Some (e_seq e)),
                   match sh pid !! e_type e with Some m => Some (m, e_bytes e) | None => None end)
      | None => (j, None)
      end.
  Proof using Hkey Hconf Hids.
    intros [_ H2]. unfold recover_snapshot. simpl. unfold redis_read_latest_snapshot.
    rewrite (holds_last _ _ H2). by destruct (last ss).
  Qed.

  Lemma held_recover_messages pid st es ss j ms :
    held pid st es ss -> pays (mh pid) (erange (j_last j) None es) ms ->
    exists o, recover_messages S conf pid j st =
      (Journal (match last (erange (j_last j) None es) with Some e => e_seq e | None => j_last j end) (j_snap j), o)
      /\ default [] o = ms.
  Proof using Hkey Hconf Hids.
    intros [H1 _] Hp. unfold recover_messages. simpl. unfold redis_read_latest_messages.
    rewrite (holds_range _ _ _ _ H1), (recover_loop_pays _ _ _ _ Hp).
    eexists. split; [reflexivity|]. by destruct ms.
  Qed.

  Lemma in_erange x from es : x ∈ erange from None es <-> x ∈ es /\ from <= e_seq x.
  Proof using Hkey Hconf Hids. unfold erange. rewrite in_lfilter. rewrite andb_true_r. rewrite Z.leb_le. done. Qed.

  (** The messages of entries that come from calls. *)
  Definition payload_of (h : gmap string N) (e : entry) : msg := (default 0%N (h !! e_type e), e_bytes e).

  Lemma okm_pays pid t es : Forall (okm pid t) es -> pays (mh pid) es (map (payload_of (mh pid)) es).
  Proof using Hkey Hconf Hids.
    induction 1 as [|e es (_ & _ & m & H1 & _) Hs IH]; [constructor|]. constructor; [|done].
    unfold payload_of. simpl. by rewrite H1.
  Qed.
  Lemma okm_payload pid t e : okm pid t e -> payload_of (mh pid) e ∈ tried pid t.
  Proof using Hkey Hconf Hids. intros (_ & _ & m & H1 & H2). unfold payload_of. by rewrite H1. Qed.

  Lemma okm_erange pid t es from : Forall (okm pid t) es -> Forall (okm pid t) (erange from None es).
  Proof using Hkey Hconf Hids. rewrite !Forall_forall. intros H x Hx. apply in_erange in Hx as [Hx _]. auto. Qed.

  Lemma inv_init : inv (durable_init (∅ : redis_store)) [].
  Proof using Hkey Hconf Hids.
    split; simpl.
    - intros pid. exists [], []. split; [|split; constructor]. split; unfold zget; rewrite lookup_empty; apply holds_nil.
    - intros k p w H. by rewrite lookup_empty in H.
    - intros i x H. by rewrite lookup_empty in H.
  Qed.

  Lemma cweight_nonneg c : 0 <= cweight c.
  Proof using Hkey Hconf Hids. destruct c; simpl; lia. Qed.

  Lemma inv_step s t o s' ev :
    inv s t -> dstep S conf s o = (s', ev) -> good_trace (t ++ ev) -> inv s' (t ++ ev).
  Proof using Hkey Hconf Hids.
    destruct s as [st incs fl n]. intros [Hh Hf Hi] E Hg. simpl in Hh, Hf, Hi.
    assert (Hheld : forall pid, exists es ss, held pid st es ss /\ Forall (okm pid (t ++ ev)) es /\ Forall (oks pid (t ++ ev)) ss).
    { intros pid. destruct (Hh pid) as (es & ss & H1 & H2 & H3). exists es, ss. split; [done|].
      split; (eapply Forall_impl; [eassumption|]); intros e; [apply okm_mono|apply oks_mono]. }
    assert (Hflight : forall k p w, fl !! k = Some (p, w) -> okw p (t ++ ev) w /\ (k < n)%N).
    { intros k p w Hk. destruct (Hf _ _ _ Hk). split; [by apply okw_mono|done]. }
    assert (Hincs : forall i x, incs !! i = Some x -> (i < n)%N /\ 0 <= j_last (i_journal x) /\
      match i_call x with
      | Some (k, c) => (k < n)%N /\ i_loading x = None /\ j_last (i_journal x) + cweight c <= total_weight (t ++ ev)
      | None => j_last (i_journal x) <= total_weight (t ++ ev)
      end).
    { intros i x Hx. destruct (Hi _ _ Hx) as (H1 & H2 & H3). split; [done|]. split; [done|].
      rewrite total_app. pose proof (total_nonneg ev). destruct (i_call x) as [[k c]|]; [|lia].
      destruct H3 as (? & ? & ?). split_and!; [done|done|lia]. }
    destruct o as [pid|i|i c|k|i ok|i]; simpl in E.
    - destruct (recover_snapshot S conf pid journal_new st) as [j snap] eqn:Er. injection E as <- <-.
      split; simpl; [done| |].
      + intros k p w Hk. destruct (Hflight _ _ _ Hk). split; [done|lia].
      + intros i x Hx. destruct (decide (i = n)) as [->|Hne].
        * rewrite lookup_insert in Hx. injection Hx as <-. simpl. split; [lia|].
          destruct (Hheld pid) as (es & ss & H1 & _ & H3).
          rewrite (held_recover_snapshot _ _ _ _ _ H1) in Er. destruct (last ss) as [e|] eqn:El.
          -- injection Er as <- _. simpl. rewrite Forall_forall in H3.
             destruct (H3 e) as (H4 & H5 & _); [by apply last_Some_elem_of|]. destruct H4 as [? _]. lia.
          -- injection Er as <- _. simpl. pose proof (total_nonneg (t ++ [VStart n pid])). lia.
        * rewrite lookup_insert_ne in Hx by done. destruct (Hincs _ _ Hx) as (H1 & H2 & H3).
          split; [lia|]. split; [done|]. destruct (i_call x) as [[k c]|]; [|done]. destruct H3 as [? ?]. split; [lia|done].
    - destruct (incs !! i) as [[pid j [snap|] call]|] eqn:Ei; [|injection E as <- <-; by split..].
      destruct (recover_messages S conf pid j st) as [j' ms] eqn:Er. injection E as <- <-.
      split; simpl; [done|done|]. intros i' x Hx. destruct (decide (i' = i)) as [->|Hne].
      + rewrite lookup_insert in Hx. injection Hx as <-. cbn [i_journal i_call].
        destruct (Hincs _ _ Ei) as (H1 & H2 & H3). cbn [i_journal i_call i_loading] in H2, H3. split; [done|].
        destruct call as [[k c]|]; [by destruct H3 as (_ & ? & _)|].
        destruct (Hheld pid) as (es & ss & Hes & He & _).
        edestruct (held_recover_messages pid st es ss j) as (o & Eo & _);
          [exact Hes|eapply okm_pays, okm_erange, He|]. rewrite Eo in Er. injection Er as <- _. cbn [j_last].
        destruct (last (erange (j_last j) None es)) as [e|] eqn:El; [|done].
        apply last_Some_elem_of, in_erange in El as [El1 El2]. split; [lia|].
        rewrite Forall_forall in He. apply (He e El1).
      + rewrite lookup_insert_ne in Hx by done. by apply Hincs.
    - destruct (incs !! i) as [[pid j [snap|] [call|]]|] eqn:Ei; try (injection E as <- <-; by split).
      destruct (Hi _ _ Ei) as (Hn & H0 & Hj). cbn [i_journal i_call] in H0, Hj.
      destruct (call_write conf pid c j) as [[w|]|] eqn:Ew; injection E as <- <-.
      + split; simpl; [done| |].
        * intros k p w' Hk. destruct (decide (k = n)) as [->|Hne].
          -- rewrite lookup_insert in Hk. injection Hk as <- <-. split; [|lia]. apply (call_write_ok pid t i c j w); [done|lia|done].
          -- rewrite lookup_insert_ne in Hk by done. destruct (Hflight _ _ _ Hk). split; [done|lia].
        * intros i' x Hx. destruct (decide (i' = i)) as [->|Hne].
          -- rewrite lookup_insert in Hx. injection Hx as <-. cbn [i_journal i_call i_loading].
             split_and!; [lia|lia|lia|done|]. rewrite total_app. cbn [total_weight].
             assert (weight (VCall i pid c) = cweight c) as -> by (by destruct c). lia.
          -- rewrite lookup_insert_ne in Hx by done. destruct (Hincs _ _ Hx) as (H1 & H2 & H3).
             split; [lia|]. split; [done|]. destruct (i_call x) as [[k c']|]; [|done]. destruct H3 as [? ?]. split; [lia|done].
      + by split.
      + split; simpl; [done|done|]. intros i' x Hx. apply lookup_delete_Some in Hx as [_ Hx]. by apply Hincs.
    - destruct (fl !! k) as [[pid w]|] eqn:Ek; injection E as <- <-; [|by split]. split; simpl.
      + intros p. destruct (Hheld p) as (es & ss & H1 & H2 & H3). destruct (decide (p = pid)) as [->|Hne].
        * destruct (Hflight _ _ _ Ek) as [Hw _].
          destruct (held_write pid (t ++ []) w st es ss H1 Hw) as (es' & ss' & H4 & H5).
          exists es', ss'. split; [done|]. rewrite Forall_forall in H2, H3. rewrite !Forall_forall.
          destruct w as [e|l|e|to|]; simpl in Hw.
          -- destruct H5 as [H5 ->]. split; [|done]. intros x Hx. apply H5 in Hx as [->|Hx]; auto.
          -- destruct H5 as [H5 ->]. split; [|done]. rewrite Forall_forall in Hw. intros x Hx. apply H5 in Hx as [Hx|Hx]; auto.
          -- destruct H5 as [-> H5]. split; [done|]. intros x Hx. apply H5 in Hx as [->|Hx]; auto.
          -- destruct H5 as [H5 ->]. split; [|done]. auto.
          -- destruct H5 as [-> ->]. split; intros x Hx; by apply elem_of_nil in Hx.
        * exists es, ss. split; [by apply held_write_other|done].
      + intros k' p w' Hk. apply lookup_delete_Some in Hk as [_ Hk]. by apply Hflight in Hk.
      + done.
    - destruct (incs !! i) as [[pid j l [[k c]|]]|] eqn:Ei; [|injection E as <- <-; by split..].
      destruct (Hi _ _ Ei) as (Hn & H0 & H1 & H2 & H3). cbn [i_journal i_call i_loading] in H0, H1, H2, H3.
      pose proof (cweight_nonneg c) as Hc.
      assert (Hstep : forall j', 0 <= j_last j' <= total_weight t -> ev = [VAnswer i pid c ok] ->
        inv (DSys st (<[i := Inc pid j' l None]> incs) fl n) (t ++ ev)).
      { intros j' Hj' ->. split; simpl; [done|done|]. intros i' x Hx. destruct (decide (i' = i)) as [->|Hne].
        - rewrite lookup_insert in Hx. injection Hx as <-. cbn [i_journal i_call].
          rewrite total_app. simpl. split_and!; [done|lia|lia].
        - rewrite lookup_insert_ne in Hx by done. by apply Hincs. }
      destruct ok; [destruct (fl !! k)|]; injection E as <- <-; [by split|..].
      + apply Hstep; [|done]. destruct c; simpl in *; lia.
      + apply Hstep; [lia|done].
    - destruct (incs !! i) as [x|] eqn:Ei; injection E as <- <-; [|by split].
      split; simpl; [done|done|]. intros i' x' Hx. apply lookup_delete_Some in Hx as [_ Hx]. by apply Hincs.
  Qed.

  Lemma inv_run l s t : drun S conf (durable_init ∅) l = (s, t) -> good_trace t -> inv s t.
  Proof using Hkey Hconf Hids.
    apply (drun_inv S conf inv good_trace); [apply good_trace_pre|apply inv_init|apply inv_step].
  Qed.

  (** Nothing is made up: what a start recovers some incarnation tried to store. *)
  Lemma recovered_tried l s t1 i pid snap ms t2 :
    drun S conf (durable_init ∅) l = (s, t1 ++ VRecovered i pid snap ms :: t2) ->
    good_trace (t1 ++ VRecovered i pid snap ms :: t2) ->
    forall m, m ∈ ms -> m ∈ tried pid t1.
  Proof using Hkey Hconf Hids.
    intros Hrun Hg m Hm.
    apply drun_split in Hrun as (l1 & o & l2 & s1 & s2 & -> & H1 & H2 & H3); [|done].
    apply good_trace_pre in Hg. apply inv_run in H1 as [Hh _ _]; [|done].
    destruct s1 as [st incs fl n]. simpl in Hh.
    destruct o as [p|i'|i' c|k|i' ok|i']; simpl in H2.
    - by destruct (recover_snapshot _ _ _ _ _).
    - destruct (incs !! i') as [[p j [sn|] call]|] eqn:Ei; [|done..].
      destruct (recover_messages S conf p j st) as [j' o] eqn:Er. injection H2 as <- <- <- <- <-.
      destruct (Hh p) as (es & ss & Hes & He & _).
      pose proof (okm_erange _ _ _ (j_last j) He) as He'.
      edestruct (held_recover_messages p st es ss j) as (o' & Eo & Ho); [exact Hes|eapply okm_pays, He'|].
      rewrite Eo in Er. injection Er as _ <-. rewrite Ho in Hm.
      apply elem_of_list_fmap in Hm as (e & -> & Hin). rewrite Forall_forall in He'. apply okm_payload; auto.
    - destruct (incs !! i') as [[p j [sn|] [call|]]|]; try done.
      destruct (call_write _ _ _ _) as [[w|]|]; done.
    - by destruct (fl !! k) as [[? ?]|].
    - destruct (incs !! i') as [[p j sn [[k c]|]]|]; try done. destruct ok; [destruct (fl !! k)|]; done.
    - by destruct (incs !! i').
  Qed.
End redis.
