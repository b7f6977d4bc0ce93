(** Isolation by persistence id; range reads of the in-memory store. *)
From Verif Require Import Journal_Model Journal_Spec Journal_Proofs.
Local Open Scope Z_scope.

(** ** A storage whose calls for one id depend on and change only the view of that id *)
Record isolated {St V} (S : storage St) (view : string -> St -> V) : Prop := {
  iso_ws : forall p e s1 s2, view p s1 = view p s2 ->
    view p (s_write_snapshot S p e s1) = view p (s_write_snapshot S p e s2);
  iso_wm : forall p e s1 s2, view p s1 = view p s2 ->
    view p (s_write_message S p e s1) = view p (s_write_message S p e s2);
  iso_wb : forall p e s1 s2, view p s1 = view p s2 ->
    view p (s_write_batch S p e s1) = view p (s_write_batch S p e s2);
  iso_dt : forall p e s1 s2, view p s1 = view p s2 ->
    view p (s_delete_to S p e s1) = view p (s_delete_to S p e s2);
  iso_da : forall p s1 s2, view p s1 = view p s2 ->
    view p (s_delete_all S p s1) = view p (s_delete_all S p s2);
  iso_rs : forall p s1 s2, view p s1 = view p s2 ->
    s_read_latest_snapshot S p s1 = s_read_latest_snapshot S p s2;
  iso_rm : forall p z s1 s2, view p s1 = view p s2 ->
    s_read_latest_messages S p z s1 = s_read_latest_messages S p z s2;
  iso_f_ws : forall p q e s, p <> q -> view q (s_write_snapshot S p e s) = view q s;
  iso_f_wm : forall p q e s, p <> q -> view q (s_write_message S p e s) = view q s;
  iso_f_wb : forall p q e s, p <> q -> view q (s_write_batch S p e s) = view q s;
  iso_f_dt : forall p q e s, p <> q -> view q (s_delete_to S p e s) = view q s;
  iso_f_da : forall p q s, p <> q -> view q (s_delete_all S p s) = view q s;
}.

Section iso.
  Context {St V} (S : storage St) (view : string -> St -> V) (conf : string -> jtypes).
  Hypothesis HS : isolated S view.

  Definition agree (pid : string) (s1 s2 : jsys (St := St)) : Prop :=
    view pid (js_store s1) = view pid (js_store s2) /\ js_journals s1 !! pid = js_journals s2 !! pid.

  Lemma agree_frame s p o pid : p <> pid -> agree pid (jstep S conf s (p, o)).1 s.
  Proof.
    intros Hne. unfold agree, jstep.
    destruct o; cbn [fst].
    { destruct (load_journal S conf p (js_store s)); simpl. by rewrite lookup_insert_ne. }
    all: destruct (js_journals s !! p) as [j|] eqn:Ej; [|done].
    - unfold persist_message. destruct (reg_types _ !! m); [destruct fail|]; simpl;
        rewrite ?lookup_insert_ne, ?lookup_delete_ne by done; try done. split; [|done]. by apply HS.
    - unfold persist_batch. destruct (batch_types _ _ _) as [[|e es]|]; [|destruct fail|]; simpl;
        rewrite ?lookup_insert_ne, ?lookup_delete_ne by done; try done. split; [|done]. by apply HS.
    - unfold persist_snapshot. destruct (reg_types _ !! s0); [destruct fail|]; simpl;
        rewrite ?lookup_insert_ne, ?lookup_delete_ne by done; try done. split; [|done]. by apply HS.
    - unfold clear_old_messages. destruct (j_snap j), fail; simpl; rewrite ?lookup_insert_ne by done; try done.
      split; [|done]. by apply HS.
    - unfold journal_clear. destruct fail; simpl; rewrite ?lookup_insert_ne by done; try done.
      split; [|done]. by apply HS.
  Qed.

  Lemma agree_step s1 s2 o pid :
    agree pid s1 s2 ->
    (jstep S conf s1 (pid, o)).2 = (jstep S conf s2 (pid, o)).2 /\
    agree pid (jstep S conf s1 (pid, o)).1 (jstep S conf s2 (pid, o)).1.
  Proof.
    intros [Hv Hj]. unfold jstep.
    assert (Hl : load_journal S conf pid (js_store s1) = load_journal S conf pid (js_store s2)).
    { unfold load_journal, recover_snapshot, recover_messages.
      rewrite (iso_rs S view HS pid (js_store s1) (js_store s2) Hv).
      destruct (s_read_latest_snapshot S pid (js_store s2)); simpl;
        by rewrite (iso_rm S view HS pid _ (js_store s1) (js_store s2) Hv). }
    unfold agree. destruct o; rewrite ?Hl, ?Hj.
    { destruct (load_journal S conf pid (js_store s2)). simpl. by rewrite !lookup_insert. }
    all: destruct (js_journals s2 !! pid) as [j|] eqn:Ej; [|simpl; by rewrite ?Hj, ?Ej].
    - unfold persist_message. destruct (reg_types _ !! m); [destruct fail|]; simpl;
        rewrite ?lookup_insert, ?lookup_delete; try done. split; [done|]. split; [|done]. by apply HS.
    - unfold persist_batch. destruct (batch_types _ _ _) as [[|e es]|]; [|destruct fail|]; simpl;
        rewrite ?lookup_insert, ?lookup_delete; try done. split; [done|]. split; [|done]. by apply HS.
    - unfold persist_snapshot. destruct (reg_types _ !! s); [destruct fail|]; simpl;
        rewrite ?lookup_insert, ?lookup_delete; try done. split; [done|]. split; [|done]. by apply HS.
    - unfold clear_old_messages. destruct (j_snap j), fail; simpl; rewrite ?lookup_insert; try done.
      split; [done|]. split; [|done]. by apply HS.
    - unfold journal_clear. destruct fail; simpl; rewrite ?lookup_insert; try done.
      split; [done|]. split; [|done]. by apply HS.
  Qed.

  Lemma agree_trans pid a b c : agree pid a b -> agree pid b c -> agree pid a c.
  Proof. intros [H1 H2] [H3 H4]. split; congruence. Qed.

  Lemma isolated_run pid h s1 s2 :
    agree pid s1 s2 ->
    answers_of pid (combine h (jrun S conf s1 h).2) = (jrun S conf s2 (calls_of pid h)).2.
  Proof.
    unfold jrun, answers_of, calls_of. revert s1 s2.
    induction h as [|[p o] h IH]; intros s1 s2 Ha; [done|].
    cbn [run]. rewrite filter_cons. cbn [fst]. destruct (decide (p = pid)) as [->|Hne].
    - cbn [run]. destruct (agree_step s1 s2 o pid Ha) as [E Ha'].
      destruct (jstep S conf s1 (pid, o)) as [s1' r1], (jstep S conf s2 (pid, o)) as [s2' r2].
      cbn [fst snd] in *. subst. specialize (IH s1' s2' Ha').
      destruct (run _ s1' h), (run _ s2' _). cbn [fst snd combine omap list_omap] in *.
      rewrite decide_True by done. by rewrite <-IH.
    - pose proof (agree_frame s1 p o pid Hne) as Hf.
      destruct (jstep S conf s1 (p, o)) as [s1' r1]. cbn [fst snd] in *.
      specialize (IH s1' s2 (agree_trans _ _ _ _ Hf Ha)).
      destruct (run _ s1' h). cbn [fst snd combine omap list_omap] in *. by rewrite decide_False.
  Qed.

  Lemma isolated_history pid h s :
    answers_of pid (history S conf s h) = (jrun S conf s (calls_of pid h)).2.
  Proof. by apply isolated_run. Qed.
End iso.

Lemma mem_isolated : isolated mem_storage (fun p (st : mem_store) => st !! p).
Proof.
  split; simpl; unfold mem_write_snapshot, mem_write_message, mem_write_batch, mem_delete_to, mem_delete_all,
    mem_read_latest_snapshot, mem_read_latest_messages; intros.
  all: try (rewrite H; destruct (s2 !! p) eqn:?; rewrite ?lookup_insert, ?lookup_delete; congruence).
  all: try (destruct (s !! p); by rewrite ?lookup_insert_ne, ?lookup_delete_ne by done).
  all: by rewrite !lookup_delete.
Qed.

(** ** Range reads *)

Lemma find_spec (l : list entry) seq :
  match List.find (fun e => e_seq e =? seq) l with
  | Some e => In e l /\ e_seq e = seq
  | None => forall e, In e l -> e_seq e <> seq
  end.
Proof.
  destruct (List.find _ l) as [e|] eqn:E.
  - apply find_some in E as [? ?]. split; [done|]. lia.
  - intros e He. apply (find_none _ _ E) in He. lia.
Qed.

Lemma mem_read_message_spec pid seq st :
  match mem_read_message pid seq st with
  | Some e => In e (messages_of pid st) /\ e_seq e = seq
  | None => forall e, In e (messages_of pid st) -> e_seq e <> seq
  end.
Proof. unfold mem_read_message, messages_of. destruct (st !! pid); [apply find_spec|by intros ? []]. Qed.

Lemma mem_read_message_unique pid seq st e :
  NoDup (map e_seq (messages_of pid st)) ->
  In e (messages_of pid st) -> e_seq e = seq -> mem_read_message pid seq st = Some e.
Proof.
  intros Hn He Hs. pose proof (mem_read_message_spec pid seq st) as H.
  destruct (mem_read_message pid seq st) as [e'|]; [|exfalso; by eapply H].
  destruct H as [H1 H2]. f_equal.
  revert Hn He H1. generalize (messages_of pid st) as l. intros l. subst seq.
  induction l as [|x l IH]; simpl; [done|]. rewrite NoDup_cons. intros [Hx Hn] [->|He] [->|H1]; try done.
  - exfalso. apply Hx. rewrite <-H2. apply elem_of_list_In, in_map. done.
  - exfalso. apply Hx. rewrite H2. apply elem_of_list_In, in_map. done.
  - by apply IH.
Qed.

Lemma filter_all {A} (f : A -> bool) l : (forall x, In x l -> f x = true) -> List.filter f l = l.
Proof. induction l as [|x l IH]; simpl; intros H; [done|]. rewrite H by auto. f_equal. auto. Qed.
Lemma filter_none {A} (f : A -> bool) l : (forall x, In x l -> f x = false) -> List.filter f l = [].
Proof. induction l as [|x l IH]; simpl; intros H; [done|]. rewrite H by auto. auto. Qed.

Lemma sorted_suffix from to l :
  seq_sorted l -> (forall e, In e l -> e_seq e <= to) ->
  suffix_from (fun e => from <? e_seq e) l = in_range (from + 1) to l.
Proof.
  intros Hs Hto. induction Hs as [|e l Hs IH He]; [done|]. cbn [suffix_from].
  destruct (from <? e_seq e) eqn:E.
  - symmetry. unfold in_range. apply (filter_all _ (e :: l)). intros x Hx.
    assert (e_seq e <= e_seq x). { destruct Hx as [->|Hx]; [lia|]. rewrite List.Forall_forall in He. auto. }
    specialize (Hto x Hx). apply andb_true_iff. lia.
  - rewrite IH by (intros; apply Hto; by right). unfold in_range at 2. simpl.
    destruct (from + 1 <=? e_seq e) eqn:E2; [lia|done].
Qed.

Lemma sorted_prefix from l :
  seq_sorted l -> (forall e, In e l -> from <= e_seq e) ->
  (exists e, In e l /\ from < e_seq e) ->
  default [] (prefix_to (fun e => from <? e_seq e) l) = in_range from from l.
Proof.
  intros Hs Hlo Hex.
  assert (prefix_to (fun e => from <? e_seq e) l = Some (in_range from from l)) as ->; [|done].
  induction Hs as [|e l Hs IH He]; [by destruct Hex as (? & [] & _)|]. cbn [prefix_to].
  assert (from <= e_seq e) by (apply Hlo; by left).
  destruct (from <? e_seq e) eqn:E.
  - f_equal. symmetry. apply (filter_none _ (e :: l)). intros x Hx.
    assert (e_seq e <= e_seq x). { destruct Hx as [->|Hx]; [lia|]. rewrite List.Forall_forall in He. auto. }
    apply andb_false_iff. lia.
  - rewrite IH; [| |].
    + unfold in_range. simpl. destruct ((from <=? e_seq e) && (e_seq e <=? from)) eqn:E2; [done|].
      apply andb_false_iff in E2. lia.
    + intros; apply Hlo; by right.
    + destruct Hex as (x & [->|Hx] & Hlt); [lia|]. by exists x.
Qed.

Lemma head_sorted (l : list entry) e : seq_sorted l -> head l = Some e -> forall x, In x l -> e_seq e <= e_seq x.
Proof.
  intros Hs Hh x Hx. destruct l as [|y l]; [done|]. injection Hh as ->.
  destruct Hx as [->|Hx]; [lia|]. apply StronglySorted_inv in Hs as [_ He].
  rewrite List.Forall_forall in He. auto.
Qed.

Lemma mem_read_messages_spec pid from to st :
  seq_sorted (messages_of pid st) ->
  match head (messages_of pid st), last (messages_of pid st) with
  | Some first, Some final =>
      mem_read_messages pid from to st =
        if e_seq final <=? to then
          PVal (Some (in_range (if from <=? e_seq first then from else from + 1) to (messages_of pid st)))
        else if from <=? e_seq first then
          PVal (Some (if from <? e_seq final then in_range from from (messages_of pid st) else []))
        else PPanic
  | _, _ => mem_read_messages pid from to st = PVal None
  end.
Proof.
  unfold mem_read_messages, messages_of. destruct (st !! pid) as [j|]; [|done].
  generalize (aj_messages j) as l. intros l Hs.
  destruct (head l) as [first|] eqn:Eh; [|done]. destruct (last l) as [final|] eqn:El; [|done].
  assert (Hlast : forall e, In e l -> e_seq e <= e_seq final).
  { intros e He. pose proof (sorted_last_max l final Hs El) as HF.
    rewrite List.Forall_forall in HF. auto. }
  pose proof (head_sorted l first Hs Eh) as Hfirst.
  destruct (e_seq final <=? to) eqn:Et.
  - destruct (from <=? e_seq first) eqn:Ef.
    + do 2 f_equal. symmetry. apply filter_all. intros x Hx. specialize (Hlast x Hx). specialize (Hfirst x Hx).
      apply andb_true_iff. lia.
    + do 2 f_equal. apply sorted_suffix; [done|]. intros e He. specialize (Hlast e He). lia.
  - destruct (from <=? e_seq first) eqn:Ef; [|done].
    do 2 f_equal. destruct (from <? e_seq final) eqn:Efl.
    + apply sorted_prefix; [done| |].
      * intros e He. specialize (Hfirst e He). lia.
      * exists final. split; [|lia]. apply last_Some in El as [l' ->]. apply in_app_iff. right. by left.
    + assert (Hnone : forall l, (forall e, In e l -> e_seq e <= from) -> prefix_to (fun e => from <? e_seq e) l = None).
      { clear. induction l as [|x l IH]; simpl; intros H; [done|].
        assert (e_seq x <= from) by auto. destruct (from <? e_seq x) eqn:E; [lia|]. by rewrite IH by auto. }
      rewrite Hnone; [done|]. intros e He. specialize (Hlast e He). lia.
Qed.
