(** One writer that retries: redis holds exactly what was acknowledged, in order. *)
From Verif Require Import ShardWire_Model Redis_Model Redis_Spec Redis_Proofs Redis_Proofs2.
From Verif Require Import Journal_Model Journal_Spec Journal_Proofs Durable_Model Durable_Spec Durable_Proofs Durable_Proofs2.
Local Open Scope Z_scope.

Definition rising (l : list entry) : Prop := StronglySorted (fun a b => e_seq a < e_seq b) l.

Lemma rising_nil : rising [].
Proof. constructor. Qed.

Lemma rising_app l1 l2 : rising l1 -> rising l2 -> (forall x y, x ∈ l1 -> y ∈ l2 -> e_seq x < e_seq y) -> rising (l1 ++ l2).
Proof.
  unfold rising. induction 1 as [|y l Hs IH Hy]; intros H2 H; simpl; [done|].
  constructor; [apply IH; [done|]; intros; apply H; [by right|done]|].
  apply Forall_app. split; [done|]. apply Forall_forall. intros x Hx. apply H; [left|done].
Qed.

Lemma rising_sorted l : rising l -> StronglySorted ele l /\ NoDup l.
Proof.
  induction 1 as [|y l Hs [IH1 IH2] Hy]; [split; constructor|]. rewrite Forall_forall in Hy. split; constructor; try done.
  - apply Forall_forall. intros x Hx. unfold ele, zle, pair_of. simpl. specialize (Hy x Hx). simpl in Hy.
    destruct (e_seq y <? e_seq x) eqn:E; [done|lia].
  - intros Hin. specialize (Hy y Hin). simpl in Hy. lia.
Qed.

Lemma sorted_pairs l : StronglySorted ele l -> StronglySorted (fun a b => zle a b = true) (map pair_of l).
Proof.
  induction 1 as [|y l Hs IH Hy]; simpl; constructor; [done|]. apply Forall_fmap. eapply Forall_impl; [exact Hy|]. done.
Qed.

(** A sorted set is determined by its elements. *)
Lemma holds_set z es l :
  holds z es -> rising l -> Forall storable l -> (forall x, x ∈ es <-> x ∈ l) -> holds z l.
Proof.
  intros (-> & H1 & H2 & H3) Hr Hl Hin. destruct (rising_sorted l Hr) as [Hs Hd].
  assert (map pair_of es = map pair_of l) as ->; [|done].
  assert (es ≡ₚ l) as Hp by (apply NoDup_Permutation; done).
  assert (AntiSymm (=) (fun a b : Z * bytes => zle a b = true)) by (intros a b; apply zle_antisym).
  eapply (StronglySorted_unique _ _ _ (sorted_pairs _ H1) (sorted_pairs _ Hs)).
  by apply Permutation_map.
Qed.

Definition snaps_of_write (w : dwrite) : list entry := match w with WSnapshot e => [e] | _ => [] end.

Lemma progress_app pid t1 t2 : progress_of pid (t1 ++ t2) = fold_left (progress_step pid) t2 (progress_of pid t1).
Proof. unfold progress_of. apply fold_left_app. Qed.

Lemma rules_step pid q e : p_rules (progress_step pid q e) = true -> p_rules q = true.
Proof.
  destruct e as [| |i p c|i p c [|]|]; simpl; try done; destruct (decide (p = pid)); simpl; try done.
  rewrite !andb_true_iff. tauto.
Qed.

Lemma persevering_pre pid t1 t2 : persevering pid (t1 ++ t2) -> persevering pid t1.
Proof.
  unfold persevering. rewrite progress_app. generalize (progress_of pid t1) as q.
  induction t2 as [|e t2 IH]; intros q H; simpl in H; [done|]. apply IH in H. by apply rules_step in H.
Qed.

Section redis.
  Context (key : string -> string -> string).
  Hypothesis Hkey : keys_distinct key.
  Context (conf : string -> jtypes).
  Hypothesis Hconf : forall pid, unambiguous_types (conf pid).
  Hypothesis Hids : forall pid, good_identifiers (conf pid).
  Context (pid : string).

  Notation S := (redis_storage key).
  Notation mh := (reg_handlers (jt_messages (conf pid))).
  Notation sh := (reg_handlers (jt_snapshots (conf pid))).
  Notation state := (dsys (St := redis_store)).
  Notation held := (held key pid).
  Notation inv := (inv key conf).
  Notation write_of c J := (call_write conf pid c J).
  Notation prog t := (progress_of pid t).

  (** ** The write of an open call *)

  Record write_facts (c : dcall) (J : journal) (w : dwrite) : Prop := {
    wf_adds : adds w \/ exists e, w = WSnapshot e;
    wf_pays : pays mh (entries_of_write w) (messages_in c);
    wf_rising : rising (entries_of_write w);
    wf_low : forall e, e ∈ entries_of_write w -> j_last J <= e_seq e /\ (is_single c = false -> j_last J < e_seq e);
    wf_high : forall e, e ∈ entries_of_write w -> e_seq e <= j_last (call_done c J) /\
                (is_batch c = false -> e_seq e < j_last (call_done c J));
    wf_snap : match c with
              | CSnapshot m b => exists e, snaps_of_write w = [e] /\ e_seq e = j_last J + 1 /\ sh !! e_type e = Some m /\ e_bytes e = b
              | _ => snaps_of_write w = []
              end;
  }.

  Lemma write_facts_of c J w : write_of c J = Some (Some w) -> is_clear c = false -> write_facts c J w.
  Proof using Hkey Hconf Hids.
    intros E Hc. destruct c as [m b|l|m b| |]; simpl in E; [| | |done..].
    - destruct (reg_types _ !! m) as [ty|] eqn:Et; [|done]. injection E as <-. split; simpl.
      + by left.
      + constructor; [|constructor]. simpl. split; [|done]. by apply reg_handler_of_type; [apply Hconf|].
      + repeat constructor.
      + intros e He. apply elem_of_list_singleton in He as ->. simpl. split; [lia|done].
      + intros e He. apply elem_of_list_singleton in He as ->. simpl. split; [lia|]. intros. lia.
      + done.
    - destruct (batch_types conf pid l) as [es|] eqn:Eb; [|done].
      assert (Some (Some (WBatch (batch_entries (j_last J) es))) = Some (Some w)) as E'.
      { destruct es; [done|exact E]. } clear E. injection E' as <-. split; simpl.
      + by left.
      + apply batch_entries_pays. unfold batch_types in Eb. apply mapM_Some in Eb.
        apply Forall2_flip. eapply Forall2_impl; [exact Eb|]. intros [m b] [ty b']. simpl.
        destruct (reg_types _ !! m) as [ty'|] eqn:Et; [|done]. intros [= -> ->]. split; [|done].
        by apply reg_handler_of_type; [apply Hconf|].
      + by apply (batch_entries_strict key Hkey conf Hconf Hids).
      + intros e He. pose proof (batch_entries_bounds (j_last J) es) as Hb. rewrite Forall_forall in Hb. specialize (Hb e He). lia.
      + intros e He. pose proof (batch_entries_bounds (j_last J) es) as Hb. rewrite Forall_forall in Hb. specialize (Hb e He).
        rewrite (batch_types_length key Hkey conf Hconf Hids _ _ _ Eb) in Hb. split; [lia|done].
      + done.
    - destruct (reg_types _ !! m) as [ty|] eqn:Et; [|done]. injection E as <-. split; simpl.
      + right. by eexists.
      + constructor.
      + constructor.
      + intros e He. by apply elem_of_nil in He.
      + intros e He. by apply elem_of_nil in He.
      + eexists. split; [reflexivity|]. simpl. split; [done|]. split; [|done]. by apply reg_handler_of_type; [apply Hconf|].
  Qed.

  (** Performing a write, the first time and again. *)
  Lemma held_new w t st es ss :
    held st es ss -> okw conf pid t w -> adds w \/ (exists e, w = WSnapshot e) ->
    rising (es ++ entries_of_write w) -> rising (ss ++ snaps_of_write w) ->
    held (apply_write S pid w st) (es ++ entries_of_write w) (ss ++ snaps_of_write w).
  Proof using Hkey Hconf Hids.
    intros Hh Hw Ha Hr1 Hr2.
    destruct (held_write key Hkey conf Hconf Hids pid t w st es ss Hh Hw) as (es' & ss' & [H1 H2] & H3).
    destruct Hh as [(_ & _ & _ & Hs1) (_ & _ & _ & Hs2)].
    split.
    - refine (holds_set _ _ _ H1 Hr1 _ _).
      + apply Forall_app. split; [done|]. destruct w; simpl in *; try constructor; try done; [apply Hw|by eapply okm_storable].
      + intros x. rewrite elem_of_app. destruct w; simpl in *.
        * destruct H3 as [H3 _]. rewrite H3, elem_of_list_singleton. tauto.
        * destruct H3 as [H3 _]. rewrite H3. tauto.
        * destruct H3 as [-> _]. rewrite elem_of_nil. tauto.
        * destruct Ha as [|[? ?]]; done.
        * destruct Ha as [|[? ?]]; done.
    - refine (holds_set _ _ _ H2 Hr2 _ _).
      + apply Forall_app. split; [done|]. destruct w; simpl in *; try constructor; try done; apply Hw.
      + intros x. rewrite elem_of_app. destruct w; simpl in *.
        * destruct H3 as [_ ->]. rewrite elem_of_nil. tauto.
        * destruct H3 as [_ ->]. rewrite elem_of_nil. tauto.
        * destruct H3 as [_ H3]. rewrite H3, elem_of_list_singleton. tauto.
        * destruct Ha as [|[? ?]]; done.
        * destruct Ha as [|[? ?]]; done.
  Qed.

  Lemma held_again w t st es ss :
    held st es ss -> okw conf pid t w -> adds w \/ (exists e, w = WSnapshot e) ->
    rising es -> rising ss -> (forall e, e ∈ entries_of_write w -> e ∈ es) -> (forall e, e ∈ snaps_of_write w -> e ∈ ss) ->
    held (apply_write S pid w st) es ss.
  Proof using Hkey Hconf Hids.
    intros Hh Hw Ha Hr1 Hr2 Hin1 Hin2.
    destruct (held_write key Hkey conf Hconf Hids pid t w st es ss Hh Hw) as (es' & ss' & [H1 H2] & H3).
    destruct Hh as [(_ & _ & _ & Hs1) (_ & _ & _ & Hs2)].
    split.
    - refine (holds_set _ _ _ H1 Hr1 Hs1 _). intros x. destruct w; simpl in *.
      + destruct H3 as [H3 _]. rewrite H3. split; [|tauto]. intros [->|]; [|done]. apply Hin1. left.
      + destruct H3 as [H3 _]. rewrite H3. split; [|tauto]. intros [|]; [|done]. by apply Hin1.
      + by destruct H3 as [-> _].
      + destruct Ha as [|[? ?]]; done.
      + destruct Ha as [|[? ?]]; done.
    - refine (holds_set _ _ _ H2 Hr2 Hs2 _). intros x. destruct w; simpl in *.
      + by destruct H3 as [_ ->].
      + by destruct H3 as [_ ->].
      + destruct H3 as [_ H3]. rewrite H3. split; [|tauto]. intros [->|]; [|done]. apply Hin2. left.
      + destruct Ha as [|[? ?]]; done.
      + destruct Ha as [|[? ?]]; done.
  Qed.

  (** ** The invariant

      [A], [SN]: the acknowledged messages and snapshots; [J]: the journal of the writer;
      [a]: the write of the open call was performed. *)
  Definition seq_base (o : option entry) : Z := match o with Some e => e_seq e | None => 0 end.

  Record exact (s : state) (t : list devent) (A SN : list entry) (J : journal) (a : bool) : Prop := {
    x_rising : rising A /\ rising SN;
    x_open : match p_open (prog t) with
             | Some c => is_clear c = false /\ write_of c J <> Some None /\
                         (is_single c = true -> p_batch (prog t) = false) /\ p_writer (prog t) <> None
             | None => a = false
             end;
    x_held : if a then exists c w, p_open (prog t) = Some c /\ write_of c J = Some (Some w) /\
                         held (d_store s) (A ++ entries_of_write w) (SN ++ snaps_of_write w)
             else held (d_store s) A SN;
    x_last : 0 <= j_last J;
    x_low : forall e, e ∈ A -> 0 <= e_seq e /\ e_seq e <= j_last J /\ (p_batch (prog t) = false -> e_seq e < j_last J);
    x_low_snap : forall e, e ∈ SN -> 0 <= e_seq e <= j_last J;
    x_split : exists A1 A2, A = A1 ++ A2 /\ pays mh A2 (x_after (p_expected (prog t))) /\
                (forall e, e ∈ A1 -> e_seq e < seq_base (last SN)) /\
                (forall e, e ∈ A2 -> seq_base (last SN) <= e_seq e);
    x_snap : match last SN with
             | Some e => exists m, x_snapshot (p_expected (prog t)) = Some m /\ sh !! e_type e = Some m.1 /\ e_bytes e = m.2
             | None => x_snapshot (p_expected (prog t)) = None
             end;
    x_flight : forall k w, d_flight s !! k = Some (pid, w) ->
      (exists c, p_open (prog t) = Some c /\ write_of c J = Some (Some w)) \/
      ((adds w \/ exists e, w = WSnapshot e) /\
       (forall e, e ∈ entries_of_write w -> e ∈ A) /\ (forall e, e ∈ snaps_of_write w -> e ∈ SN));
    x_incs : forall i x, d_incs s !! i = Some x -> i_pid x = pid ->
      match p_writer (prog t) with
      | None => i_journal x = journal_new /\ i_call x = None
      | Some i0 =>
          if decide (i = i0) then
            i_journal x = J /\ i_loading x = None /\
            match i_call x with
            | Some (k, c) => p_open (prog t) = Some c /\
                match d_flight s !! k with
                | Some (p, w) => p = pid /\ write_of c J = Some (Some w)
                | None => a = true
                end
            | None => True
            end
          else i_call x = None
      end;
    x_writer : match p_writer (prog t) with
               | None => A = [] /\ SN = [] /\ J = journal_new /\ p_open (prog t) = None /\ p_batch (prog t) = false
               | Some i => (i < d_next s)%N /\ (forall x, d_incs s !! i = Some x -> i_pid x = pid)
               end;
  }.

  Lemma exact_init : exact (durable_init ∅) [] [] [] journal_new false.
  Proof using Hkey Hconf Hids.
    split; simpl; try done.
    - split; constructor.
    - split; unfold zget; rewrite lookup_empty; apply holds_nil.
    - intros e He. by apply elem_of_nil in He.
    - intros e He. by apply elem_of_nil in He.
    - exists [], []. split; [done|]. split; [constructor|]. split; intros e He; by apply elem_of_nil in He.
  Qed.

  (** A start with base [b]: later messages are not below it. *)
  Definition ahead (b : Z) (J : journal) (q : progress) : Prop :=
    b <= j_last J \/ (b = j_last J + 1 /\ exists m x, p_open q = Some (CSnapshot m x)).

  Lemma exact_frame s s' t t' A SN J a :
    exact s t A SN J a -> prog t' = prog t ->
    (forall es ss, held (d_store s) es ss -> held (d_store s') es ss) ->
    (forall k w, d_flight s' !! k = Some (pid, w) -> d_flight s !! k = Some (pid, w)) ->
    (forall i x, d_incs s' !! i = Some x -> i_pid x = pid ->
      (exists x0, d_incs s !! i = Some x0 /\ i_pid x0 = pid /\ i_journal x = i_journal x0 /\
         (i_loading x = i_loading x0 \/ i_loading x = None) /\
         (i_call x = None \/ i_call x = i_call x0 /\ forall k c, i_call x = Some (k, c) -> d_flight s' !! k = d_flight s !! k)) \/
      (i_call x = None /\ p_writer (prog t) <> Some i /\ (p_writer (prog t) = None -> i_journal x = journal_new))) ->
    (forall i x, p_writer (prog t) = Some i -> d_incs s' !! i = Some x -> i_pid x = pid) ->
    (d_next s <= d_next s')%N -> exact s' t' A SN J a.
  Proof using Hkey Hconf Hids.
    intros [H1 H2 H3 H4 H5 H6 H7 H8 H9 H10 H11] Ht Hh Hf Hi Hw Hn. split; rewrite ?Ht; try done.
    - destruct a; [|by apply Hh]. destruct H3 as (c & w & ? & ? & ?). exists c, w. auto.
    - intros k w Hk. apply H9 with k. by apply Hf.
    - intros i x Hx Hp. destruct (Hi i x Hx Hp) as [(x0 & Hx0 & Hp0 & Hj & Hl & Hc)|(Hc & Hne & Hj)].
      + specialize (H10 i x0 Hx0 Hp0). destruct (p_writer (prog t)) as [i0|].
        * destruct (decide (i = i0)).
          -- destruct H10 as (Hj0 & Hl0 & Hc0). rewrite Hj, Hj0. split; [done|]. split; [by destruct Hl; congruence|].
             destruct Hc as [->|[Hc Hfl]]; [done|]. rewrite Hc in Hfl |- *. destruct (i_call x0) as [[k c]|]; [|done].
             by rewrite (Hfl k c eq_refl).
          -- destruct Hc as [->|[-> _]]; done.
        * destruct H10 as [Hj0 Hc0]. rewrite Hj, Hj0. split; [done|]. destruct Hc as [->|[-> _]]; done.
      + destruct (p_writer (prog t)) as [i0|].
        * rewrite decide_False by congruence. done.
        * split; [by apply Hj|done].
    - destruct (p_writer (prog t)) as [i0|]; [|done]. destruct H11. split; [lia|]. intros x. by apply Hw.
  Qed.

  Lemma seq_base_le s t A SN J a : exact s t A SN J a -> 0 <= seq_base (last SN) <= j_last J.
  Proof using Hkey Hconf Hids.
    intros H. unfold seq_base. destruct (last SN) as [e|] eqn:E; [|pose proof (x_last _ _ _ _ _ _ H); lia].
    apply (x_low_snap _ _ _ _ _ _ H). by apply last_Some_elem_of.
  Qed.

  Lemma rising_open s t A SN J a c w :
    exact s t A SN J a -> p_open (prog t) = Some c -> write_of c J = Some (Some w) ->
    write_facts c J w /\ rising (A ++ entries_of_write w) /\ rising (SN ++ snaps_of_write w).
  Proof using Hkey Hconf Hids.
    intros H Ho Hw. pose proof (x_open _ _ _ _ _ _ H) as Hop. rewrite Ho in Hop. destruct Hop as (Hcl & _ & Hsb & _).
    pose proof (write_facts_of c J w Hw Hcl) as F. split; [done|].
    destruct (x_rising _ _ _ _ _ _ H) as [Hr1 Hr2]. split; apply rising_app; try done.
    - apply F.
    - intros x y Hx Hy. destruct (x_low _ _ _ _ _ _ H x Hx) as (_ & Hx1 & Hx2).
      destruct (wf_low _ _ _ F y Hy) as [Hy1 Hy2]. destruct (is_single c); [|specialize (Hy2 eq_refl); lia].
      specialize (Hx2 (Hsb eq_refl)). lia.
    - destruct w; simpl; repeat constructor.
    - intros x y Hx Hy. pose proof (x_low_snap _ _ _ _ _ _ H x Hx) as Hx1. pose proof (wf_snap _ _ _ F) as Hs.
      destruct c; try (rewrite Hs in Hy; by apply elem_of_nil in Hy).
      destruct Hs as (e & Hs & He & _). rewrite Hs in Hy. apply elem_of_list_singleton in Hy as ->. lia.
  Qed.

  #[local] Instance dwrite_eq_dec : EqDecision dwrite.
  Proof. solve_decision. Defined.

  (** The write of [pid] numbered [k] is performed. *)
  Lemma exact_apply st incs fl n t A SN J a k w :
    inv (DSys st incs fl n) t -> exact (DSys st incs fl n) t A SN J a -> fl !! k = Some (pid, w) ->
    exists a', exact (DSys (apply_write S pid w st) incs (delete k fl) n) t A SN J a'.
  Proof using Hkey Hconf Hids.
    intros [_ Hf _] H Ek. destruct (Hf _ _ _ Ek) as [Hw _]. simpl in Hw.
    assert (Hfl : forall k' w', delete k fl !! k' = Some (pid, w') -> fl !! k' = Some (pid, w')).
    { intros k' w' Hk. by apply lookup_delete_Some in Hk as [_ Hk]. }
    destruct (p_open (prog t)) as [c|] eqn:Ho; [destruct (decide (write_of c J = Some (Some w))) as [Hwc|Hwc]|].
    - (* the open call *)
      destruct (rising_open _ _ _ _ _ _ _ _ H Ho Hwc) as (F & Hr1 & Hr2).
      exists true. destruct H as [H1 H2 H3 H4 H5 H6 H7 H8 H9 H10 H11]. split; try done; simpl in *.
      + rewrite Ho in H2 |- *. done.
      + exists c, w. split; [done|]. split; [done|]. destruct a.
        * destruct H3 as (c' & w' & Ho' & Hw' & H3). rewrite Ho in Ho'. injection Ho' as <-. rewrite Hwc in Hw'. injection Hw' as <-.
          eapply held_again; eauto; [apply F|..]; intros e He; apply elem_of_app; by right.
        * eapply held_new; eauto. apply F.
      + intros k' w' Hk. apply H9 with k'. auto.
      + intros i x Hx Hp. specialize (H10 i x Hx Hp). destruct (p_writer (prog t)) as [i0|]; [|done].
        destruct (decide (i = i0)); [|done]. destruct H10 as (? & ? & H10). split; [done|]. split; [done|].
        destruct (i_call x) as [[k' c']|]; [|done]. destruct H10 as [Hc' H10]. split; [done|].
        destruct (decide (k' = k)) as [->|Hk']; [by rewrite lookup_delete|]. rewrite lookup_delete_ne by done.
        destruct (fl !! k') as [[p' w']|]; done.
    - (* an older write *)
      assert (Hr : exists es ss, held st es ss /\ rising es /\ rising ss /\ (forall e, e ∈ A -> e ∈ es) /\ (forall e, e ∈ SN -> e ∈ ss) /\
        (held (apply_write S pid w st) es ss -> exact (DSys (apply_write S pid w st) incs (delete k fl) n) t A SN J a)).
      { pose proof H as [H1 H2 H3 H4 H5 H6 H7 H8 H9 H10 H11]. simpl in *.
        assert (Hrest : (if a then exists c0 w0, p_open (prog t) = Some c0 /\ write_of c0 J = Some (Some w0) /\
                         held (apply_write S pid w st) (A ++ entries_of_write w0) (SN ++ snaps_of_write w0)
                       else held (apply_write S pid w st) A SN) ->
          exact (DSys (apply_write S pid w st) incs (delete k fl) n) t A SN J a).
        { intros Hh. split; try done; simpl.
          - intros k' w' Hk. apply H9 with k'. auto.
          - intros i x Hx Hp. specialize (H10 i x Hx Hp). destruct (p_writer (prog t)) as [i0|]; [|done].
            destruct (decide (i = i0)); [|done]. destruct H10 as (? & ? & H10). split; [done|]. split; [done|].
            destruct (i_call x) as [[k' c']|]; [|done]. destruct H10 as [Hc' H10]. split; [done|].
            destruct (decide (k' = k)) as [->|Hk'].
            + exfalso. rewrite Ek in H10. destruct H10 as [_ H10]. rewrite Ho in Hc'. injection Hc' as <-. done.
            + by rewrite lookup_delete_ne. }
        destruct a.
        - destruct H3 as (c' & w' & Ho' & Hw' & H3).
          destruct (rising_open _ _ _ _ _ _ _ _ H Ho' Hw') as (_ & Hr1 & Hr2).
          eexists _, _. split; [exact H3|]. split; [done|]. split; [done|].
          split; [intros e He; apply elem_of_app; by left|]. split; [intros e He; apply elem_of_app; by left|].
          intros Hh. apply Hrest. by exists c', w'.
        - exists A, SN. split; [done|]. destruct H1 as [Hr1 Hr2]. split; [done|]. split; [done|]. split; [done|]. split; [done|]. exact Hrest. }
      destruct Hr as (es & ss & Hh & Hr1 & Hr2 & Hin1 & Hin2 & Hex). exists a. apply Hex.
      destruct (x_flight _ _ _ _ _ _ H k w Ek) as [(c' & Ho' & Hw')|(Hadd & He & Hs)].
      + rewrite Ho in Ho'. injection Ho' as <-. done.
      + eapply held_again; eauto.
    - (* no open call *)
      pose proof (x_open _ _ _ _ _ _ H) as Ha. rewrite Ho in Ha. subst a. exists false.
      destruct (x_flight _ _ _ _ _ _ H k w Ek) as [(c' & Ho' & Hw')|(Hadd & He & Hs)]; [by rewrite Ho in Ho'|].
      destruct H as [H1 H2 H3 H4 H5 H6 H7 H8 H9 H10 H11]. split; try done; simpl in *.
      + destruct H1. eapply held_again; eauto.
      + intros k' w' Hk. apply H9 with k'. auto.
      + intros i x Hx Hp. specialize (H10 i x Hx Hp). destruct (p_writer (prog t)) as [i0|]; [|done].
        destruct (decide (i = i0)); [|done]. destruct H10 as (? & ? & H10). split; [done|]. split; [done|].
        destruct (i_call x) as [[k' c']|]; [|done]. destruct H10 as [Hc' H10]. by rewrite Ho in Hc'.
  Qed.

  (** An acknowledgement. *)
  Lemma exact_ack st incs fl n t A SN J a i j l k c :
    exact (DSys st incs fl n) t A SN J a -> incs !! i = Some (Inc pid j l (Some (k, c))) -> fl !! k = None ->
    exists w, write_of c J = Some (Some w) /\ write_facts c J w /\ j = J /\ l = None /\ p_open (prog t) = Some c /\
      exact (DSys st (<[i := Inc pid (call_done c j) l None]> incs) fl n) (t ++ [VAnswer i pid c true])
        (A ++ entries_of_write w) (SN ++ snaps_of_write w) (call_done c J) false.
  Proof using Hkey Hconf Hids.
    intros H Ei Ek. pose proof (seq_base_le _ _ _ _ _ _ H) as Hbase.
    pose proof (x_incs _ _ _ _ _ _ H i _ Ei eq_refl) as Hin. cbn [i_call i_journal i_loading] in Hin.
    destruct (p_writer (prog t)) as [i0|] eqn:Ewr; [|by destruct Hin].
    destruct (decide (i = i0)) as [<-|]; [|done]. destruct Hin as (-> & -> & Ho & Ha). simpl in Ha. rewrite Ek in Ha. subst a.
    destruct (x_held _ _ _ _ _ _ H) as (c' & w & Ho' & Hw & Hh). rewrite Ho in Ho'. injection Ho' as <-.
    destruct (rising_open _ _ _ _ _ _ _ _ H Ho Hw) as (F & Hr1 & Hr2).
    exists w. split; [done|]. split; [done|]. split; [done|]. split; [done|]. split; [done|].
    assert (Hp : prog (t ++ [VAnswer i pid c true]) =
      Progress (after_call c (p_expected (prog t))) None (Some i) (is_batch c) (p_rules (prog t))).
    { rewrite progress_app. simpl. rewrite decide_True by done. by rewrite Ewr. }
    assert (HJ : j_last J <= j_last (call_done c J)).
    { destruct c; simpl; lia. }
    assert (HJ' : is_batch c = false -> is_clear c = false -> j_last (call_done c J) = j_last J + 1).
    { destruct c; simpl; done. }
    pose proof (x_open _ _ _ _ _ _ H) as Hop. rewrite Ho in Hop. destruct Hop as (Hcl & _ & _ & _).
    destruct H as [H1 H2 H3 H4 H5 H6 H7 H8 H9 H10 H11]. split; rewrite ?Hp; simpl; try done.
    - lia.
    - intros e He. apply elem_of_app in He as [He|He].
      + destruct (H5 e He) as (? & ? & _). split; [done|]. split; [lia|]. intros Hb. rewrite (HJ' Hb Hcl). lia.
      + destruct (wf_low _ _ _ F e He) as [? _]. destruct (wf_high _ _ _ F e He) as [? ?]. split; [lia|]. done.
    - intros e He. apply elem_of_app in He as [He|He]; [specialize (H6 e He); lia|].
      pose proof (wf_snap _ _ _ F) as Hs. destruct c; try (rewrite Hs in He; by apply elem_of_nil in He).
      destruct Hs as (e' & Hs & He' & _). rewrite Hs in He. apply elem_of_list_singleton in He as ->. simpl. lia.
    - destruct H7 as (A1 & A2 & -> & Hpay & Hlt & Hge). pose proof (wf_snap _ _ _ F) as Hs. pose proof (wf_pays _ _ _ F) as Hwp.
      assert (Hmsg : snaps_of_write w = [] -> after_call c (p_expected (prog t)) =
          Expected (x_snapshot (p_expected (prog t))) (x_after (p_expected (prog t)) ++ messages_in c) ->
        exists B1 B2, (A1 ++ A2) ++ entries_of_write w = B1 ++ B2 /\ pays mh B2 (x_after (after_call c (p_expected (prog t)))) /\
          (forall e, e ∈ B1 -> e_seq e < seq_base (last (SN ++ snaps_of_write w))) /\
          (forall e, e ∈ B2 -> seq_base (last (SN ++ snaps_of_write w)) <= e_seq e)).
      { intros Hs' ->. rewrite Hs', app_nil_r. exists A1, (A2 ++ entries_of_write w). split; [by rewrite (assoc_L app)|].
        split; [by apply Forall2_app|]. split; [done|]. intros e He. apply elem_of_app in He as [He|He]; [by apply Hge|].
        destruct (wf_low _ _ _ F e He) as [? _]. lia. }
      destruct c as [m b|l|m b| |]; try done; [by apply Hmsg|by apply Hmsg|].
      destruct Hs as (e & Hs & He & _). rewrite Hs. simpl in Hwp. apply Forall2_nil_inv_r in Hwp. rewrite Hwp, app_nil_r.
      exists (A1 ++ A2), []. rewrite app_nil_r. split; [done|]. split; [constructor|].
      rewrite last_snoc. simpl. split; [|intros e' He'; by apply elem_of_nil in He'].
      intros e' He'. destruct (H5 e' He') as (_ & ? & _). lia.
    - pose proof (wf_snap _ _ _ F) as Hs. destruct c as [m b|l|m b| |]; try done; try (rewrite Hs, app_nil_r; exact H8).
      destruct Hs as (e & Hs & He & Ht & Hb). rewrite Hs, last_snoc. simpl. exists (m, b). done.
    - intros k' w' Hk. right. destruct (H9 _ _ Hk) as [(c' & Ho' & Hw')|(Hadd & He & Hsn)].
      + rewrite Ho in Ho'. injection Ho' as <-. rewrite Hw in Hw'. injection Hw' as <-. split; [apply F|].
        split; intros e He; apply elem_of_app; by right.
      + split; [done|]. split; intros e Hin; apply elem_of_app; left; auto.
    - intros i' x Hx Hpid. apply lookup_insert_Some in Hx as [[<- <-]|[Hne Hx]].
      + rewrite decide_True by done. done.
      + rewrite decide_False by done. specialize (H10 i' x Hx Hpid). rewrite Ewr in H10. by rewrite decide_False in H10.
    - rewrite Ewr in H11. destruct H11 as [? H11]. split; [done|]. intros x. rewrite lookup_insert. by intros [= <-].
  Qed.

  (** The rules at a call. *)
  Lemma rules_call t i c ev :
    persevering pid (t ++ VCall i pid c :: ev) ->
    (p_open (prog t) = None \/ p_open (prog t) = Some c) /\ (p_writer (prog t) = None \/ p_writer (prog t) = Some i) /\
    (is_single c = true -> p_batch (prog t) = false) /\ is_clear c = false.
  Proof using Hkey Hconf Hids.
    intros H. replace (t ++ VCall i pid c :: ev) with ((t ++ [VCall i pid c]) ++ ev) in H by (by rewrite <- (assoc_L app)).
    apply persevering_pre in H. unfold persevering in H. rewrite progress_app in H. simpl in H. rewrite decide_True in H by done.
    simpl in H. rewrite !andb_true_iff, !bool_decide_eq_true, !negb_true_iff in H.
    destruct H as ((((_ & H1) & H2) & H3) & H4). split; [done|]. split; [done|]. split; [|done].
    intros Hs. by rewrite Hs in H3.
  Qed.

  Lemma prog_call t i c :
    exists r, prog (t ++ [VCall i pid c]) = Progress (p_expected (prog t)) (Some c) (Some i) (p_batch (prog t)) r.
  Proof using Hkey Hconf Hids. rewrite progress_app. simpl. rewrite decide_True by done. eauto. Qed.

  (** A call of an incarnation of [pid]. *)
  Lemma exact_call st incs fl n t A SN J a i c j s' ev :
    inv (DSys st incs fl n) t -> exact (DSys st incs fl n) t A SN J a ->
    incs !! i = Some (Inc pid j None None) ->
    dstep S conf (DSys st incs fl n) (DCall i c) = (s', ev) -> persevering pid (t ++ ev) ->
    exact s' (t ++ ev) A SN J a /\ acked pid ev = [] /\
    (p_open (prog (t ++ ev)) = p_open (prog t) \/ p_open (prog t) = None).
  Proof using Hkey Hconf Hids.
    intros Hinv H Ei E Hper. simpl in E. rewrite Ei in E.
    assert (exists ev', ev = VCall i pid c :: ev') as [ev' ->].
    { destruct (call_write conf pid c j) as [[w|]|]; injection E as _ <-; eauto. }
    destruct (rules_call _ _ _ _ Hper) as (Ho & Hwr & Hsb & Hcl). clear Hper.
    assert (Hi : i_journal (Inc pid j None None) = J /\
      (forall i' x, incs !! i' = Some x -> i_pid x = pid -> i' <> i -> i_call x = None)).
    { pose proof (x_incs _ _ _ _ _ _ H) as Hx. pose proof (x_writer _ _ _ _ _ _ H) as Hw. simpl in Hx. split.
      - specialize (Hx i _ Ei eq_refl). destruct Hwr as [Hwr|Hwr]; rewrite Hwr in Hx, Hw.
        + destruct Hx as [Hx _], Hw as (_ & _ & Hw & _). by rewrite Hx, Hw.
        + rewrite decide_True in Hx by done. by destruct Hx.
      - intros i' x Hi' Hp Hne. specialize (Hx i' x Hi' Hp). destruct Hwr as [Hwr|Hwr]; rewrite Hwr in Hx.
        + by destruct Hx.
        + by rewrite decide_False in Hx. }
    destruct Hi as [Hj Hoth]. simpl in Hj. subst j.
    assert (Hn : (i < n)%N) by (by destruct (v_incs _ _ _ _ Hinv _ _ Ei)).
    assert (Hkn : forall i' x k c', incs !! i' = Some x -> i_call x = Some (k, c') -> k <> n).
    { intros i' x k c' Hx Hc'. destruct (v_incs _ _ _ _ Hinv _ _ Hx) as (_ & _ & Hk). rewrite Hc' in Hk. simpl in Hk. lia. }
    destruct (prog_call t i c) as [r Hp].
    assert (Hsame : forall c0, p_open (prog t) = Some c0 -> c0 = c) by (intros c0 Hc0; destruct Ho; congruence).
    destruct (call_write conf pid c J) as [[w|]|] eqn:Ew; injection E as <- <-.
    - split; [|split; [done|rewrite Hp; simpl; destruct Ho as [->| ->]; auto]].
      destruct H as [H1 H2 H3 H4 H5 H6 H7 H8 H9 H10 H11]. split; rewrite ?Hp; simpl in *; try done.
      + split_and!; [done|by rewrite Ew|done|done].
      + destruct a; [|done]. destruct H3 as (c0 & w0 & Hc0 & Hw0 & H3). exists c0, w0. by rewrite (Hsame c0 Hc0) in *.
      + intros k w'. destruct (decide (k = n)) as [->|Hne].
        * rewrite lookup_insert. intros [= <-]. left. by exists c.
        * rewrite lookup_insert_ne by done. intros Hk. destruct (H9 _ _ Hk) as [(c0 & Hc0 & Hw0)|?]; [|by right].
          left. exists c0. rewrite (Hsame c0 Hc0) in *. done.
      + intros i' x Hx Hpid. apply lookup_insert_Some in Hx as [[<- <-]|[Hne Hx]].
        * rewrite decide_True by done. simpl. split; [done|]. split; [done|]. split; [done|]. by rewrite lookup_insert.
        * rewrite decide_False by done. eauto.
      + split; [lia|]. intros x. rewrite lookup_insert. by intros [= <-].
    - (* an empty batch *)
      assert (c = CBatch []) as ->.
      { destruct c as [m b|l|m b| |]; simpl in Ew; try done.
        - by destruct (reg_types _ !! m).
        - destruct (batch_types conf pid l) as [[|? ?]|] eqn:Eb; [|done..].
          apply (batch_types_length key Hkey conf Hconf Hids) in Eb. by destruct l.
        - by destruct (reg_types _ !! m). }
      assert (p_open (prog t) = None) as Hnone.
      { destruct (p_open (prog t)) as [c0|] eqn:Eo; [|done]. pose proof (x_open _ _ _ _ _ _ H) as Hx. rewrite Eo in Hx.
        destruct Hx as (_ & Hx & _). by rewrite (Hsame c0 eq_refl) in Hx. }
      assert (Hp2 : prog (t ++ [VCall i pid (CBatch []); VAnswer i pid (CBatch []) (empty_answer (CBatch []))]) =
        Progress (p_expected (prog t)) None (Some i) true r).
      { change [VCall i pid (CBatch []); VAnswer i pid (CBatch []) (empty_answer (CBatch []))] with
          ([VCall i pid (CBatch [])] ++ [VAnswer i pid (CBatch []) true]).
        rewrite (assoc_L app), progress_app, Hp. simpl. rewrite decide_True by done. simpl. f_equal.
        destruct (p_expected (prog t)) as [xs xa]. simpl. by rewrite app_nil_r. }
      split; [|split].
      + destruct H as [H1 H2 H3 H4 H5 H6 H7 H8 H9 H10 H11]. split; rewrite ?Hp2; simpl in *; try done.
        * by rewrite Hnone in H2.
        * destruct a; [|done]. destruct H3 as (c0 & w0 & Hc0 & _). by rewrite Hnone in Hc0.
        * intros e He. destruct (H5 e He) as (? & ? & _). done.
        * intros k w Hk. destruct (H9 _ _ Hk) as [(c0 & Hc0 & _)|?]; [by rewrite Hnone in Hc0|by right].
        * intros i' x Hx Hpid. destruct (decide (i' = i)) as [->|Hne].
          -- rewrite Ei in Hx. injection Hx as <-. done.
          -- eauto.
        * split; [done|]. intros x. rewrite Ei. by intros [= <-].
      + unfold acked. simpl. by rewrite decide_True by done.
      + by right.
    - (* a panic *)
      assert (Hp2 : prog (t ++ [VCall i pid c; VGone i pid]) = prog (t ++ [VCall i pid c])).
      { change [VCall i pid c; VGone i pid] with ([VCall i pid c] ++ [VGone i pid]). by rewrite (assoc_L app), progress_app. }
      split; [|split; [done|rewrite Hp2, Hp; simpl; destruct Ho as [->| ->]; auto]].
      destruct H as [H1 H2 H3 H4 H5 H6 H7 H8 H9 H10 H11]. split; rewrite ?Hp2, ?Hp; simpl in *; try done.
      + split_and!; [done|by rewrite Ew|done|done].
      + destruct a; [|done]. destruct H3 as (c0 & w0 & Hc0 & Hw0 & H3). exists c0, w0. by rewrite (Hsame c0 Hc0) in *.
      + intros k w' Hk. destruct (H9 _ _ Hk) as [(c0 & Hc0 & Hw0)|?]; [|by right].
        left. exists c0. rewrite (Hsame c0 Hc0) in *. done.
      + intros i' x Hx Hpid. apply lookup_delete_Some in Hx as [Hne Hx]. rewrite decide_False by done. eauto.
      + split; [done|]. intros x. by rewrite lookup_delete.
  Qed.

  Lemma prog_other t e :
    match e with VCall _ p _ | VAnswer _ p _ true => p <> pid | _ => True end -> prog (t ++ [e]) = prog t.
  Proof using Hkey Hconf Hids.
    rewrite progress_app. destruct e as [| |i p c|i p c [|]|]; simpl; try done; intros; by rewrite decide_False.
  Qed.

  Lemma ahead_same b J t t' : p_open (prog t') = p_open (prog t) \/ p_open (prog t) = None -> ahead b J (prog t) -> ahead b J (prog t').
  Proof using Hkey Hconf Hids.
    intros Ho [H|(H & m & x & Hx)]; [by left|]. right. split; [done|]. exists m, x. destruct Ho as [->|Ho]; [done|]. by rewrite Ho in Hx.
  Qed.

  Lemma exact_step s t A SN J a o s' ev :
    inv s t -> exact s t A SN J a -> dstep S conf s o = (s', ev) -> persevering pid (t ++ ev) ->
    exists X Y J' a', exact s' (t ++ ev) (A ++ X) (SN ++ Y) J' a' /\ pays mh X (acked pid ev) /\
      forall b, ahead b J (prog t) -> ahead b J' (prog (t ++ ev)) /\ forall e, e ∈ X -> b <= e_seq e.
  Proof using Hkey Hconf Hids.
    intros Hinv H E Hper.
    assert (Hstay : forall a', exact s' (t ++ ev) A SN J a' -> acked pid ev = [] ->
      p_open (prog (t ++ ev)) = p_open (prog t) \/ p_open (prog t) = None ->
      exists X Y J' a', exact s' (t ++ ev) (A ++ X) (SN ++ Y) J' a' /\ pays mh X (acked pid ev) /\
        forall b, ahead b J (prog t) -> ahead b J' (prog (t ++ ev)) /\ forall e, e ∈ X -> b <= e_seq e).
    { intros a' Hx Hack Ho. exists [], [], J, a'. rewrite !app_nil_r, Hack. split; [done|]. split; [constructor|].
      intros b Hb. split; [by eapply ahead_same|]. intros e He. by apply elem_of_nil in He. }
    assert (Hquiet : ev = [] -> (forall a', exact s' t A SN J a' -> exact s' (t ++ ev) A SN J a') /\ acked pid ev = [] /\
      (p_open (prog (t ++ ev)) = p_open (prog t) \/ p_open (prog t) = None)).
    { intros ->. rewrite !app_nil_r. split; [done|]. split; [done|]. by left. }
    destruct s as [st incs fl n].
    assert (Hcalls : forall i x k c, incs !! i = Some x -> i_pid x = pid -> i_call x = Some (k, c) ->
      (k < n)%N /\ forall p w, fl !! k = Some (p, w) -> p = pid).
    { intros i x k c Hx Hp Hc. split.
      - destruct (v_incs _ _ _ _ Hinv _ _ Hx) as (_ & _ & Hk). rewrite Hc in Hk. simpl in Hk. by destruct Hk.
      - intros p w Hk. pose proof (x_incs _ _ _ _ _ _ H i x Hx Hp) as Hi. rewrite Hc in Hi. simpl in Hi.
        destruct (p_writer (prog t)) as [i0|]; [|by destruct Hi]. destruct (decide (i = i0)); [|done].
        destruct Hi as (_ & _ & _ & Hi). rewrite Hk in Hi. by destruct Hi. }
    destruct o as [p|i|i c|k|i ok|i].
    - (* start *)
      simpl in E. destruct (recover_snapshot S conf p journal_new st) as [j snap] eqn:Er. injection E as <- <-.
      assert (Hpr : prog (t ++ [VStart n p]) = prog t) by (by apply prog_other).
      apply (Hstay a); [|done|by left; rewrite Hpr]. eapply exact_frame; [exact H|done|done|done| | |simpl; lia].
      + simpl. intros i x Hx Hp. apply lookup_insert_Some in Hx as [[<- <-]|[_ Hx]].
        * simpl in Hp. subst p. right. split; [done|]. pose proof (x_writer _ _ _ _ _ _ H) as Hw. split.
          -- intros Hwn. rewrite Hwn in Hw. simpl in Hw. lia.
          -- intros Hwn. rewrite Hwn in Hw. destruct Hw as (-> & -> & -> & Ho & _).
             pose proof (x_open _ _ _ _ _ _ H) as Ha. rewrite Ho in Ha. subst a.
             pose proof (x_held _ _ _ _ _ _ H) as Hh. simpl in Hh.
             rewrite (held_recover_snapshot key Hkey conf Hconf Hids _ _ _ _ _ Hh) in Er. simpl in Er. by injection Er as <- _.
        * left. exists x. split_and!; auto.
      + simpl. intros i x Hw Hx. pose proof (x_writer _ _ _ _ _ _ H) as Hwr. rewrite Hw in Hwr. simpl in Hwr. destruct Hwr as [Hn Hwr].
        apply lookup_insert_Some in Hx as [[<- <-]|[_ Hx]]; [lia|]. auto.
    - (* load *)
      simpl in E. destruct (incs !! i) as [[p j [snap|] call]|] eqn:Ei;
        [|injection E as <- <-; destruct (Hquiet eq_refl) as (Hq1 & Hq2 & Hq3); apply (Hstay a); auto..].
      destruct (recover_messages S conf p j st) as [j' ms] eqn:Er. injection E as <- <-.
      assert (Hpr : prog (t ++ [VRecovered i p snap (default [] ms)]) = prog t) by (by apply prog_other).
      apply (Hstay a); [|done|by left; rewrite Hpr]. eapply exact_frame; [exact H|done|done|done| | |simpl; lia].
      + simpl. intros i' x Hx Hp. apply lookup_insert_Some in Hx as [[<- <-]|[_ Hx]].
        * simpl in Hp. subst p. right. pose proof (x_incs _ _ _ _ _ _ H i _ Ei eq_refl) as Hi. simpl in Hi.
          pose proof (x_writer _ _ _ _ _ _ H) as Hw.
          destruct (p_writer (prog t)) as [i0|].
          -- destruct (decide (i = i0)); [by destruct Hi as (_ & ? & _)|]. simpl. split; [done|]. split; [congruence|done].
          -- destruct Hi as [-> ->]. split; [done|]. split; [done|]. intros _. destruct Hw as (-> & -> & -> & Ho & _).
             pose proof (x_open _ _ _ _ _ _ H) as Ha. rewrite Ho in Ha. subst a.
             pose proof (x_held _ _ _ _ _ _ H) as Hh. simpl in Hh.
             edestruct (held_recover_messages key Hkey conf Hconf Hids pid st [] [] journal_new []) as (o & Eo & _);
               [exact Hh|constructor|]. rewrite Eo in Er. by injection Er as <- _.
        * left. exists x. split_and!; auto.
      + simpl. intros i' x Hw Hx. pose proof (x_writer _ _ _ _ _ _ H) as Hwr. rewrite Hw in Hwr. simpl in Hwr. destruct Hwr as [Hn Hwr].
        apply lookup_insert_Some in Hx as [[<- <-]|[_ Hx]]; [|by auto]. exact (Hwr _ Ei).
    - (* call *)
      pose proof E as E0. simpl in E. destruct (incs !! i) as [[p j [snap|] [call|]]|] eqn:Ei;
        try (injection E as <- <-; destruct (Hquiet eq_refl) as (Hq1 & Hq2 & Hq3); apply (Hstay a); auto; fail).
      destruct (decide (p = pid)) as [->|Hne].
      { destruct (exact_call _ _ _ _ _ _ _ _ _ _ _ _ _ _ Hinv H Ei E0 Hper) as (Hx & Hack & Ho). by apply (Hstay a). }
      assert (Hother : forall b, prog (t ++ [VCall i p c; VAnswer i p c b]) = prog t).
      { intros b. change [VCall i p c; VAnswer i p c b] with ([VCall i p c] ++ [VAnswer i p c b]). rewrite (assoc_L app).
        rewrite prog_other by (by destruct b). by apply prog_other. }
      assert (Hgone : prog (t ++ [VCall i p c; VGone i p]) = prog t).
      { change [VCall i p c; VGone i p] with ([VCall i p c] ++ [VGone i p]). rewrite (assoc_L app).
        rewrite prog_other by done. by apply prog_other. }
      assert (Hcall : prog (t ++ [VCall i p c]) = prog t) by (by apply prog_other).
      destruct (call_write conf p c j) as [[w|]|]; injection E as <- <-.
      + apply (Hstay a); [|done|by left; rewrite Hcall]. eapply exact_frame; [exact H|done|done| | | |simpl; lia]; simpl.
        * intros k w' Hk. apply lookup_insert_Some in Hk as [[_ Hk]|[_ Hk]]; [congruence|done].
        * intros i' x Hx Hp. apply lookup_insert_Some in Hx as [[<- <-]|[_ Hx]]; [done|].
          left. exists x. split_and!; auto. right. split; [done|]. intros k c' Hc. rewrite lookup_insert_ne; [done|].
          destruct (Hcalls _ _ _ _ Hx Hp Hc). lia.
        * intros i' x Hw Hx. pose proof (x_writer _ _ _ _ _ _ H) as Hwr. rewrite Hw in Hwr. simpl in Hwr. destruct Hwr as [Hn Hwr].
          apply lookup_insert_Some in Hx as [[<- <-]|[_ Hx]]; [|by auto]. exact (Hwr _ Ei).
      + apply (Hstay a); [|unfold acked; simpl; destruct (empty_answer c); [by rewrite decide_False|done]|left; by rewrite Hother].
        eapply exact_frame; [exact H|by rewrite Hother|done|done| | |simpl; lia]; simpl.
        * intros i' x Hx Hp. left. exists x. split_and!; auto.
        * intros i' x Hw Hx. pose proof (x_writer _ _ _ _ _ _ H) as Hwr. rewrite Hw in Hwr. simpl in Hwr. destruct Hwr. auto.
      + apply (Hstay a); [|done|left; by rewrite Hgone]. eapply exact_frame; [exact H|done|done|done| | |simpl; lia]; simpl.
        * intros i' x Hx Hp. apply lookup_delete_Some in Hx as [_ Hx]. left. exists x. split_and!; auto.
        * intros i' x Hw Hx. apply lookup_delete_Some in Hx as [_ Hx]. pose proof (x_writer _ _ _ _ _ _ H) as Hwr. rewrite Hw in Hwr. simpl in Hwr. destruct Hwr. auto.
    - (* the storage performs a write *)
      simpl in E. destruct (fl !! k) as [[p w]|] eqn:Ek; injection E as <- <-; destruct (Hquiet eq_refl) as (Hq1 & Hq2 & Hq3); [|by apply (Hstay a); auto].
      destruct (decide (p = pid)) as [->|Hne].
      { destruct (exact_apply _ _ _ _ _ _ _ _ _ _ _ Hinv H Ek) as [a' Hx]. apply (Hstay a'); auto. }
      apply (Hstay a); [|done|done]. apply Hq1. eapply exact_frame; [exact H|done| | | | |simpl; lia]; simpl.
      + intros es ss Hh. apply (held_write_other key Hkey conf Hconf Hids); [congruence|done].
      + intros k' w' Hk. by apply lookup_delete_Some in Hk as [_ Hk].
      + intros i x Hx Hp. left. exists x. split_and!; auto. right. split; [done|]. intros k' c Hc.
        destruct (Hcalls _ _ _ _ Hx Hp Hc) as [_ Hk]. rewrite lookup_delete_ne; [done|]. intros <-. by apply Hk in Ek.
      + intros i x Hw Hx. pose proof (x_writer _ _ _ _ _ _ H) as Hwr. rewrite Hw in Hwr. simpl in Hwr. destruct Hwr. auto.
    - (* answers *)
      simpl in E. destruct (incs !! i) as [[p j l [[k c]|]]|] eqn:Ei;
        [|injection E as <- <-; destruct (Hquiet eq_refl) as (Hq1 & Hq2 & Hq3); apply (Hstay a); auto..].
      assert (Hframe : forall j' ok', ev = [VAnswer i p c ok'] -> p <> pid \/ (ok' = false /\ j' = j) ->
        prog (t ++ [VAnswer i p c ok']) = prog t /\
        exact (DSys st (<[i := Inc p j' l None]> incs) fl n) (t ++ [VAnswer i p c ok']) A SN J a).
      { intros j' ok' Hev Hcase. assert (Hpr : prog (t ++ [VAnswer i p c ok']) = prog t).
        { apply prog_other. destruct Hcase as [|[-> _]]; [by destruct ok'|done]. }
        split; [done|]. eapply exact_frame; [exact H|done|done|done| | |simpl; lia]; simpl.
        - intros i' x Hx Hp. apply lookup_insert_Some in Hx as [[<- <-]|[_ Hx]].
          + simpl in Hp. destruct Hcase as [|[_ ->]]; [done|]. left. eexists. split; [exact Ei|]. split_and!; auto.
          + left. exists x. split_and!; auto.
        - intros i' x Hw Hx. pose proof (x_writer _ _ _ _ _ _ H) as Hwr. rewrite Hw in Hwr. simpl in Hwr. destruct Hwr as [_ Hwr].
          apply lookup_insert_Some in Hx as [[<- <-]|[_ Hx]]; [|by auto]. exact (Hwr _ Ei). }
      destruct ok; [destruct (fl !! k) eqn:Ek|].
      + injection E as <- <-. destruct (Hquiet eq_refl) as (Hq1 & Hq2 & Hq3). apply (Hstay a); auto.
      + destruct (decide (p = pid)) as [->|Hne].
        * injection E as <- <-. destruct (exact_ack _ _ _ _ _ _ _ _ _ _ _ _ _ _ H Ei Ek) as (w & Hw & F & -> & -> & Ho & Hx).
          exists (entries_of_write w), (snaps_of_write w), (call_done c J), false. split; [done|]. split.
          { unfold acked. simpl. rewrite decide_True, app_nil_r by done. apply F. }
          intros b [Hb|(-> & m & x & Hop)].
          -- split.
             ++ left. assert (j_last J <= j_last (call_done c J)) by (destruct c; simpl; lia). lia.
             ++ intros e He. destruct (wf_low _ _ _ F e He). lia.
          -- rewrite Ho in Hop. injection Hop as ->. split; [left; simpl; lia|].
             intros e He. pose proof (wf_pays _ _ _ F) as Hpy. simpl in Hpy. apply Forall2_nil_inv_r in Hpy.
             rewrite Hpy in He. by apply elem_of_nil in He.
        * injection E as <- <-. destruct (Hframe (call_done c j) true eq_refl (or_introl Hne)) as [Hpr Hx].
          apply (Hstay a); [done|unfold acked; simpl; by rewrite decide_False|by left; rewrite Hpr].
      + injection E as <- <-. destruct (Hframe j false eq_refl (or_intror (conj eq_refl eq_refl))) as [Hpr Hx].
        apply (Hstay a); [done|done|by left; rewrite Hpr].
    - (* crash *)
      simpl in E. destruct (incs !! i) as [x0|] eqn:Ei; injection E as <- <-;
        [|destruct (Hquiet eq_refl) as (Hq1 & Hq2 & Hq3); by apply (Hstay a); auto].
      assert (Hpr : prog (t ++ [VGone i (i_pid x0)]) = prog t) by (by apply prog_other).
      apply (Hstay a); [|done|by left; rewrite Hpr]. eapply exact_frame; [exact H|done|done|done| | |simpl; lia]; simpl.
      + intros i' x Hx Hp. apply lookup_delete_Some in Hx as [_ Hx]. left. exists x. split_and!; auto.
      + intros i' x Hw Hx. apply lookup_delete_Some in Hx as [_ Hx]. pose proof (x_writer _ _ _ _ _ _ H) as Hwr. rewrite Hw in Hwr. simpl in Hwr. destruct Hwr. auto.
  Qed.
End redis.
