(** Overlapping incarnations over the in-memory storage. *)
From Verif Require Import Journal_Model Journal_Spec Journal_Proofs Durable_Model Durable_Spec.
From Verif Require Import Durable_Proofs Durable_Proofs2 Durable_Proofs3.
Local Open Scope Z_scope.

Section idle.
  Context {St : Type} (S : storage St) (conf : string -> jtypes).

  (** Nothing is on its way. *)
  Definition idle (s : dsys (St := St)) : Prop :=
    d_flight s = ∅ /\ forall i x, d_incs s !! i = Some x -> i_call x = None.

  (** A call that is performed and answered at once. *)
  Lemma prompt_call s i c : idle s ->
    drun S conf s (expand s (PCall i c)) =
    match d_incs s !! i with
    | Some (Inc pid j None _) =>
        match call_write conf pid c j with
        | None => (DSys (d_store s) (delete i (d_incs s)) ∅ (d_next s), [VCall i pid c; VGone i pid])
        | Some None => (s, [VCall i pid c; VAnswer i pid c (empty_answer c)])
        | Some (Some w) =>
            (DSys (apply_write S pid w (d_store s)) (<[i := Inc pid (call_done c j) None None]> (d_incs s)) ∅ (d_next s + 1),
             [VCall i pid c; VAnswer i pid c true])
        end
    | _ => (s, [])
    end.
  Proof using.
    destruct s as [st incs fl n]. intros [Hf Hi]. cbn [d_flight d_incs] in Hf, Hi. subst fl. simpl.
    destruct (incs !! i) as [[pid j [sn|] call]|] eqn:Ei; simpl.
    - rewrite lookup_empty. simpl. specialize (Hi _ _ Ei). simpl in Hi. subst call. by rewrite Ei.
    - specialize (Hi _ _ Ei). simpl in Hi. subst call. destruct (call_write conf pid c j) as [[w|]|]; simpl.
      + rewrite lookup_insert. simpl. rewrite lookup_insert. rewrite delete_insert by apply lookup_empty.
        rewrite lookup_empty. simpl. by rewrite insert_insert.
      + rewrite lookup_empty. simpl. by rewrite Ei.
      + rewrite lookup_empty. simpl. by rewrite lookup_delete.
    - rewrite lookup_empty. simpl. by rewrite Ei.
  Qed.

  Lemma idle_step s p s' ev : idle s -> drun S conf s (expand s p) = (s', ev) -> idle s'.
  Proof using.
    intros Hid. destruct p as [pid|i|i c|i].
    - destruct s as [st incs fl n], Hid as [Hf Hi]. simpl. destruct (recover_snapshot _ _ _ _ _). intros [= <- _].
      split; [done|]. simpl. intros i x Hx. apply lookup_insert_Some in Hx as [[<- <-]|[_ Hx]]; [done|eauto].
    - destruct s as [st incs fl n], Hid as [Hf Hi]. simpl. simpl in Hi. destruct (incs !! i) as [[pid j [sn|] call]|] eqn:Ei; [|by intros [= <- _]..].
      destruct (recover_messages _ _ _ _ _). intros [= <- _]. split; [done|]. simpl.
      intros i' x Hx. apply lookup_insert_Some in Hx as [[<- <-]|[_ Hx]]; [exact (Hi _ _ Ei)|eauto].
    - rewrite prompt_call by done. pose proof Hid as [Hf Hi].
      destruct (d_incs s !! i) as [[pid j [sn|] call]|]; [by intros [= <- _]| |by intros [= <- _]].
      destruct (call_write conf pid c j) as [[w|]|]; intros [= <- _]; [|done|]; (split; [done|]); simpl; intros i' x Hx.
      + apply lookup_insert_Some in Hx as [[<- <-]|[_ Hx]]; [done|eauto].
      + apply lookup_delete_Some in Hx as [_ Hx]. eauto.
    - destruct s as [st incs fl n], Hid as [Hf Hi]. simpl. simpl in Hi. destruct (incs !! i) eqn:Ei; intros [= <- _]; [|done].
      split; [done|]. simpl. intros i' x Hx. apply lookup_delete_Some in Hx as [_ Hx]. eauto.
  Qed.
End idle.

Section mem.
  Context (conf : string -> jtypes).
  Hypothesis Hconf : forall pid, unambiguous_types (conf pid).
  Context (pid : string).
  Notation mh := (reg_handlers (jt_messages (conf pid))).
  Notation state := (dsys (St := mem_store)).

  Record mem_keeps (s : state) (t : list devent) : Prop := {
    mk_idle : idle s;
    mk_snaps : snaps_of (d_store s !! pid) = [];
    mk_pays : pays mh (msgs_of (d_store s !! pid)) (acked pid t);
    mk_start : forall i x sn, d_incs s !! i = Some x -> i_pid x = pid -> i_loading x = Some sn ->
      sn = None /\ j_last (i_journal x) = 0;
  }.

  Lemma write_pays c j w : call_write conf pid c j = Some (Some w) -> adds w -> pays mh (entries_of_write w) (messages_in c).
  Proof using Hconf.
    destruct c as [m b|l|m b| |]; simpl.
    - destruct (reg_types _ !! m) as [ty|] eqn:Et; [|done]. intros [= <-] _. constructor; [|constructor]. simpl. split; [|done].
      by apply reg_handler_of_type; [apply Hconf|].
    - destruct (batch_types conf pid l) as [es|] eqn:Eb; [|done]. intros E.
      assert (Some (Some (WBatch (batch_entries (j_last j) es))) = Some (Some w)) as E'.
      { destruct es; [done|exact E]. } clear E. injection E' as <-. intros _. simpl.
      apply batch_entries_pays. unfold batch_types in Eb. apply mapM_Some in Eb.
      apply Forall2_flip. eapply Forall2_impl; [exact Eb|]. intros [m b] [ty b']. simpl.
      destruct (reg_types _ !! m) as [ty'|] eqn:Et; [|done]. intros [= -> ->]. split; [|done].
      by apply reg_handler_of_type; [apply Hconf|].
    - destruct (reg_types _ !! m) as [ty|]; [|done]. by intros [= <-].
    - destruct (j_snap j); [|done]. by intros [= <-].
    - by intros [= <-].
  Qed.

  Lemma mem_write_adds w (st : mem_store) : adds w -> snaps_of (st !! pid) = [] ->
    snaps_of (apply_write mem_storage pid w st !! pid) = [] /\
    msgs_of (apply_write mem_storage pid w st !! pid) = msgs_of (st !! pid) ++ entries_of_write w.
  Proof using.
    destruct w as [e|es|e|to|]; simpl; try done; intros _; unfold mem_write_message, mem_write_batch;
      destruct (st !! pid) as [[ss ms]|]; rewrite lookup_insert; done.
  Qed.

  Lemma mem_write_other q w (st : mem_store) : q <> pid -> apply_write mem_storage q w st !! pid = st !! pid.
  Proof using.
    intros Hne. destruct w as [e|es|e|to|]; simpl;
      unfold mem_write_message, mem_write_batch, mem_write_snapshot, mem_delete_to, mem_delete_all;
      try (destruct (st !! q) as [[ss ms]|]; try done; by rewrite lookup_insert_ne). by rewrite lookup_delete_ne.
  Qed.

  Lemma mem_step s t p s' ev :
    mem_keeps s t -> drun mem_storage conf s (expand s p) = (s', ev) -> plain pid (t ++ ev) ->
    mem_keeps s' (t ++ ev) /\ forall i snap ms, VRecovered i pid snap ms ∈ ev -> ev = [VRecovered i pid snap ms] /\ snap = None /\ ms = acked pid t.
  Proof using Hconf.
    intros Hk E Hp. pose proof (idle_step _ _ _ _ _ _ (mk_idle _ _ Hk) E) as Hid'. destruct Hk as [Hid Hs Hpay Hst].
    assert (Hsame : forall incs n, s' = DSys (d_store s) incs (d_flight s) n -> acked pid ev = [] ->
      (forall i x sn, incs !! i = Some x -> i_pid x = pid -> i_loading x = Some sn -> sn = None /\ j_last (i_journal x) = 0) ->
      mem_keeps s' (t ++ ev)).
    { intros incs n -> Ha Hi. split; try done. by rewrite acked_app, Ha, app_nil_r. }
    destruct p as [q|i|i c|i].
    - destruct s as [st incs fl n]. simpl in *. destruct (recover_snapshot mem_storage conf q journal_new st) as [j sn] eqn:Er.
      injection E as <- <-. split.
      + eapply Hsame; [done|done|]. intros i x sn' Hx. apply lookup_insert_Some in Hx as [[<- <-]|[_ Hx]]; [|eauto].
        simpl. intros -> [= <-]. unfold recover_snapshot in Er. simpl in Er. unfold mem_read_latest_snapshot in Er.
        unfold snaps_of in Hs. destruct (st !! pid) as [[ss ms]|]; simpl in Hs; [subst ss|]; simpl in Er; by injection Er as <- <-.
      + intros i' sn' ms Hin. by apply elem_of_list_singleton in Hin.
    - destruct s as [st incs fl n]. simpl in *. destruct (incs !! i) as [[q j [sn|] call]|] eqn:Ei.
      2,3: injection E as <- <-; split; [by eapply Hsame|intros i' sn' ms Hin; by apply elem_of_nil in Hin].
      destruct (recover_messages mem_storage conf q j st) as [j' r] eqn:Er. injection E as <- <-. split.
      + eapply Hsame; [done|done|]. intros i' x sn' Hx. apply lookup_insert_Some in Hx as [[<- <-]|[_ Hx]]; [done|eauto].
      + intros i' sn' ms Hin. apply elem_of_list_singleton in Hin. injection Hin as -> <- -> ->. split; [done|].
        destruct (Hst _ _ _ Ei eq_refl eq_refl) as [-> Hj]. simpl in Hj. split; [done|].
        unfold recover_messages in Er. simpl in Er. unfold mem_read_latest_messages in Er. rewrite Hj in Er.
        destruct (st !! pid) as [[ss ms]|] eqn:Ep; simpl in Hpay, Er.
        * rewrite (recover_loop_pays _ _ _ _ Hpay) in Er. injection Er as _ <-. by destruct (acked pid t).
        * injection Er as _ <-. unfold msgs_of in Hpay. simpl in Hpay. by apply Forall2_nil_inv_l in Hpay as ->.
    - rewrite prompt_call in E by done.
      assert (Hnone : (s', ev) = (s, []) -> mem_keeps s' (t ++ ev) /\ forall i snap ms, VRecovered i pid snap ms ∈ ev ->
        ev = [VRecovered i pid snap ms] /\ snap = None /\ ms = acked pid t).
      { intros [= -> ->]. split; [|intros ??? Hin; by apply elem_of_nil in Hin]. rewrite app_nil_r. done. }
      destruct (d_incs s !! i) as [[q j [sn|] call]|] eqn:Ei; [by apply Hnone| |by apply Hnone].
      assert (Hnrec : forall e, ev = [VCall i q c; e] -> match e with VRecovered _ _ _ _ => False | _ => True end ->
        forall i snap ms, VRecovered i pid snap ms ∈ ev -> ev = [VRecovered i pid snap ms] /\ snap = None /\ ms = acked pid t).
      { intros e -> He i' sn' ms Hin. apply elem_of_cons in Hin as [|Hin]; [done|]. apply elem_of_list_singleton in Hin. by subst e. }
      destruct (call_write conf q c j) as [[w|]|] eqn:Ew; injection E as <- <-.
      + split; [|by eapply Hnrec]. destruct (decide (q = pid)) as [->|Hne].
        * assert (adds w) as Hadd.
          { apply Forall_app in Hp as [_ Hp]. apply Forall_cons in Hp as [Hp _]. destruct c; simpl in *; try done.
            - destruct (reg_types _ !! m); [|done]. by injection Ew as <-.
            - destruct (batch_types _ _ _) as [[|??]|]; [done| |done]. by injection Ew as <-. }
          destruct (mem_write_adds w (d_store s) Hadd Hs) as [Hs' Hm'].
          split; simpl; try done.
          -- rewrite Hm', acked_app. apply Forall2_app; [done|]. unfold acked. simpl. rewrite decide_True, app_nil_r by done. by eapply write_pays.
          -- intros i' x sn' Hx. apply lookup_insert_Some in Hx as [[<- <-]|[_ Hx]]; [done|eauto].
        * split; simpl; try done.
          -- by rewrite mem_write_other.
          -- rewrite mem_write_other by done. rewrite acked_app. unfold acked at 2. simpl. rewrite decide_False, app_nil_r by done. done.
          -- intros i' x sn' Hx. apply lookup_insert_Some in Hx as [[<- <-]|[_ Hx]]; [done|eauto].
      + split; [|by eapply Hnrec]. split; try done. rewrite acked_app.
        assert (acked pid [VCall i q c; VAnswer i q c (empty_answer c)] = []) as ->; [|by rewrite app_nil_r].
        unfold acked. simpl. destruct c; simpl in *; try done.
        destruct (decide (q = pid)); [|done]. destruct l; [done|]. exfalso. unfold batch_types in Ew. simpl in Ew.
        destruct (reg_types _ !! _); simpl in Ew; [|done]. destruct (mapM _ l); done.
      + split; [|by eapply Hnrec]. destruct Hid as [Hf _]. eapply Hsame; [by rewrite Hf|done|].
        intros i' x sn' Hx. apply lookup_delete_Some in Hx as [_ Hx]. eauto.
    - destruct s as [st incs fl n]. simpl in *. destruct (incs !! i) as [x0|] eqn:Ei; injection E as <- <-.
      + split; [|intros i' sn' ms Hin; by apply elem_of_list_singleton in Hin].
        eapply Hsame; [done|done|]. intros i' x sn' Hx. apply lookup_delete_Some in Hx as [_ Hx]. eauto.
      + split; [by eapply Hsame|]. intros i' sn' ms Hin. by apply elem_of_nil in Hin.
  Qed.

  Lemma mem_run l s t0 s' t1 i snap ms t2 :
    mem_keeps s t0 -> prun mem_storage conf s l = (s', t1 ++ VRecovered i pid snap ms :: t2) -> plain pid (t0 ++ t1) ->
    snap = None /\ ms = acked pid (t0 ++ t1).
  Proof using Hconf.
    revert s t0 t1. induction l as [|p l IH]; intros s t0 t1 Hk; cbn [prun].
    - intros [= _ H]. by destruct t1.
    - destruct (drun mem_storage conf s (expand s p)) as [s1 ev] eqn:E. destruct (prun mem_storage conf s1 l) as [s2 t] eqn:Er.
      intros [= <- H] Hp.
      assert (Hcase : (exists r, ev = t1 ++ VRecovered i pid snap ms :: r) \/
                      (exists t1', t1 = ev ++ t1' /\ t = t1' ++ VRecovered i pid snap ms :: t2)).
      { apply app_eq_app in H as (r & [[-> H]|[-> ->]]); [|by right; exists r].
        destruct r as [|e r]; [right; exists []; rewrite !app_nil_r; simpl in H; by subst|].
        injection H as <- _. left. by exists r. }
      destruct Hcase as [[r Hev]|(t1' & -> & ->)].
      + assert (Hpl : plain pid (t0 ++ ev)).
        { rewrite Hev, (assoc_L app). apply Forall_app. split; [done|].
          destruct p as [q|i'|i' c|i'].
          - destruct s as [st incs fl n]. simpl in E. destruct (recover_snapshot _ _ _ _ _). injection E as _ <-. by destruct t1 as [|? [|? ?]].
          - destruct s as [st incs fl n]. simpl in E. destruct (incs !! i') as [[q j [sn|] call]|]; [|injection E as _ <-; by destruct t1..].
            destruct (recover_messages _ _ _ _ _). injection E as _ <-. destruct t1 as [|? [|? ?]]; [|done..]. injection Hev as _ _ _ _ <-. by repeat constructor.
          - rewrite prompt_call in E by apply Hk. destruct (d_incs s !! i') as [[q j [sn|] call]|]; [injection E as _ <-; by destruct t1| |injection E as _ <-; by destruct t1].
            destruct (call_write conf q c j) as [[w|]|]; injection E as _ <-; by destruct t1 as [|? [|? [|? ?]]].
          - destruct s as [st incs fl n]. simpl in E. destruct (incs !! i'); injection E as _ <-; by destruct t1 as [|? [|? ?]]. }
        destruct (mem_step _ _ _ _ _ Hk E Hpl) as [_ Hrec].
        destruct (Hrec i snap ms) as (Hev' & -> & ->); [rewrite Hev; apply elem_of_app; right; left|].
        rewrite Hev' in Hev. destruct t1 as [|? [|? ?]]; [|done..]. by rewrite app_nil_r.
      + rewrite (assoc_L app) in Hp |- *. refine (IH s1 (t0 ++ ev) t1' _ Er Hp).
        eapply mem_step; [done|exact E|]. by eapply plain_pre.
  Qed.

  Lemma mem_keeps_init : mem_keeps (durable_init ∅) [].
  Proof using.
    split; simpl.
    - split; [done|]. intros i x H. simpl in H. by rewrite lookup_empty in H.
    - by rewrite lookup_empty.
    - rewrite lookup_empty. constructor.
    - intros i x sn H. by rewrite lookup_empty in H.
  Qed.

  Theorem mem_recovered_exact l s t1 i snap ms t2 :
    prun mem_storage conf (durable_init ∅) l = (s, t1 ++ VRecovered i pid snap ms :: t2) -> plain pid t1 ->
    snap = None /\ ms = acked pid t1.
  Proof using Hconf. intros H Hp. exact (mem_run _ _ [] _ _ _ _ _ _ mem_keeps_init H Hp). Qed.
End mem.
