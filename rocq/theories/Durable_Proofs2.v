(** Acknowledged messages stay in redis, whatever the other incarnations do. *)
From Verif Require Import ShardWire_Model Redis_Model Redis_Spec Redis_Proofs Redis_Proofs2.
From Verif Require Import Journal_Model Journal_Spec Journal_Proofs Durable_Model Durable_Spec Durable_Proofs.
Local Open Scope Z_scope.

Lemma holds_inj z es es' : holds z es -> holds z es' -> es = es'.
Proof.
  intros (-> & _ & _ & Hs) (Hz & _ & _ & Hs'). revert es' Hz Hs'.
  induction Hs as [|x es Hx Hs IH]; intros [|y es'] Hz Hs'; try done.
  injection Hz as _ Hm Hz. apply Forall_cons in Hs' as [Hy Hs']. f_equal; [by apply member_inj|by apply IH].
Qed.

Section redis.
  Context (key : string -> string -> string).
  Hypothesis Hkey : keys_distinct key.
  Context (conf : string -> jtypes).
  Hypothesis Hconf : forall pid, unambiguous_types (conf pid).
  Hypothesis Hids : forall pid, good_identifiers (conf pid).

  Notation S := (redis_storage key).
  Notation mh pid := (reg_handlers (jt_messages (conf pid))).
  Notation sh pid := (reg_handlers (jt_snapshots (conf pid))).
  Notation state := (dsys (St := redis_store)).
  Notation held := (held key).
  Notation inv := (inv key conf).

  (** ** Recovered snapshots *)

  Definition snap_inv (s : state) (t : list devent) : Prop :=
    forall i x m, d_incs s !! i = Some x -> i_loading x = Some (Some m) -> m ∈ snapped (i_pid x) t.

  Lemma snap_inv_step s t o s' ev :
    inv s t -> snap_inv s t -> dstep S conf s o = (s', ev) -> snap_inv s' (t ++ ev).
  Proof using Hkey Hconf Hids.
    destruct s as [st incs fl n]. intros [Hh _ _] Hs E. unfold snap_inv in *. simpl in Hh, Hs.
    assert (Hmono : forall i x m, incs !! i = Some x -> i_loading x = Some (Some m) -> m ∈ snapped (i_pid x) (t ++ ev)).
    { intros i x m Hx Hm. rewrite snapped_app. apply elem_of_app. left. eauto. }
    destruct o as [pid|i|i c|k|i ok|i]; simpl in E.
    - destruct (recover_snapshot S conf pid journal_new st) as [j snap] eqn:Er. injection E as <- <-. simpl.
      intros i x m Hx Hm. apply lookup_insert_Some in Hx as [[<- <-]|[_ Hx]]; [|eauto].
      simpl in *. injection Hm as ->.
      destruct (Hh pid) as (es & ss & H1 & _ & H3).
      rewrite (held_recover_snapshot key Hkey conf Hconf Hids _ _ _ _ _ H1) in Er.
      destruct (last ss) as [e|] eqn:El; [|done]. injection Er as _ Hm.
      rewrite Forall_forall in H3. destruct (H3 e) as (_ & _ & m' & Hm1 & Hm2); [by apply last_Some_elem_of|].
      rewrite Hm1 in Hm. injection Hm as <-. rewrite snapped_app. apply elem_of_app. by left.
    - destruct (incs !! i) as [[pid j [snap|] call]|] eqn:Ei; [|injection E as <- <-; eauto..].
      destruct (recover_messages S conf pid j st) as [j' ms]. injection E as <- <-. simpl.
      intros i' x m Hx Hm. apply lookup_insert_Some in Hx as [[<- <-]|[_ Hx]]; [done|eauto].
    - destruct (incs !! i) as [[pid j [snap|] [call|]]|] eqn:Ei; try (injection E as <- <-; eauto).
      destruct (call_write conf pid c j) as [[w|]|]; injection E as <- <-; simpl; [|eauto|].
      + intros i' x m Hx Hm. apply lookup_insert_Some in Hx as [[<- <-]|[_ Hx]]; [done|eauto].
      + intros i' x m Hx Hm. apply lookup_delete_Some in Hx as [_ Hx]. eauto.
    - destruct (fl !! k) as [[pid w]|]; injection E as <- <-; eauto.
    - destruct (incs !! i) as [[pid j l [[k c]|]]|] eqn:Ei; [|injection E as <- <-; eauto..].
      destruct ok; [destruct (fl !! k)|]; injection E as <- <-; simpl; [eauto|..];
        intros i' x m Hx Hm; apply lookup_insert_Some in Hx as [[<- <-]|[_ Hx]]; [|eauto| |eauto]; simpl in *;
        exact (Hmono _ _ _ Ei Hm).
    - destruct (incs !! i) as [x|] eqn:Ei; injection E as <- <-; [|eauto].
      simpl. intros i' x' m Hx Hm. apply lookup_delete_Some in Hx as [_ Hx]. eauto.
  Qed.

  Lemma snap_inv_run l s t : drun S conf (durable_init ∅) l = (s, t) -> good_trace t -> inv s t /\ snap_inv s t.
  Proof using Hkey Hconf Hids.
    apply (drun_inv S conf (fun s t => inv s t /\ snap_inv s t) good_trace); [apply good_trace_pre| |].
    - split; [apply (inv_init key Hkey conf Hconf Hids)|]. intros i x m H. simpl in H. by rewrite lookup_empty in H.
    - intros s0 t0 o s1 ev [H1 H2] E Hg. split; [by eapply (inv_step key Hkey conf Hconf Hids)|by eapply snap_inv_step].
  Qed.

  (** A recovery event comes from reading the messages. *)
  Lemma recovered_load s o s' i pid snap ms :
    dstep S conf s o = (s', [VRecovered i pid snap ms]) ->
    exists j call j' r, o = DLoad i /\ d_incs s !! i = Some (Inc pid j (Some snap) call) /\
      recover_messages S conf pid j (d_store s) = (j', r) /\ ms = default [] r.
  Proof using.
    destruct s as [st incs fl n]. intros E. destruct o as [p|i'|i' c|k|i' ok|i']; simpl in E.
    - by destruct (recover_snapshot _ _ _ _ _).
    - destruct (incs !! i') as [[p j [sn|] call]|] eqn:Ei; [|done..].
      destruct (recover_messages S conf p j st) as [j' r] eqn:Er. injection E as <- <- <- <- <-.
      by exists j, call, j', r.
    - destruct (incs !! i') as [[p j [sn|] [call|]]|]; try done.
      destruct (call_write _ _ _ _) as [[w|]|]; done.
    - by destruct (fl !! k) as [[? ?]|].
    - destruct (incs !! i') as [[p j sn [[k c]|]]|]; try done. destruct ok; [destruct (fl !! k)|]; done.
    - by destruct (incs !! i').
  Qed.

  Lemma recovered_snapped l s t1 i pid m ms t2 :
    drun S conf (durable_init ∅) l = (s, t1 ++ VRecovered i pid (Some m) ms :: t2) ->
    good_trace (t1 ++ VRecovered i pid (Some m) ms :: t2) -> m ∈ snapped pid t1.
  Proof using Hkey Hconf Hids.
    intros Hrun Hg. apply drun_split in Hrun as (l1 & o & l2 & s1 & s2 & -> & H1 & H2 & H3); [|done].
    apply good_trace_pre in Hg. apply snap_inv_run in H1 as [_ Hs]; [|done].
    apply recovered_load in H2 as (j & call & j' & r & -> & Hi & _). exact (Hs _ _ _ Hi eq_refl).
  Qed.

  (** ** Acknowledged messages *)

  Section one.
    Context (pid : string).

    Definition entries_of_write (w : dwrite) : list entry :=
      match w with WMessage e => [e] | WBatch es => es | _ => [] end.
    Definition adds (w : dwrite) : Prop :=
      match w with WMessage _ | WBatch _ => True | _ => False end.
    Definition covered (c : dcall) (es : list entry) : Prop :=
      forall m, m ∈ messages_in c -> exists e, e ∈ es /\ payload_of (mh pid) e = m.

    Record keeps (s : state) (t : list devent) (es : list entry) : Prop := {
      k_held : held pid (d_store s) es [];
      k_acked : forall m, m ∈ acked pid t -> exists e, e ∈ es /\ payload_of (mh pid) e = m;
      k_flight : forall k w, d_flight s !! k = Some (pid, w) -> adds w;
      k_calls : forall i x k c, d_incs s !! i = Some x -> i_pid x = pid -> i_call x = Some (k, c) ->
        match d_flight s !! k with
        | Some (p, w) => p = pid /\ covered c (entries_of_write w)
        | None => covered c es
        end;
      k_start : forall i x sn, d_incs s !! i = Some x -> i_pid x = pid -> i_loading x = Some sn ->
        sn = None /\ j_last (i_journal x) = 0;
    }.

    Lemma covered_mono c es es' : covered c es -> (forall e, e ∈ es -> e ∈ es') -> covered c es'.
    Proof using. intros H Hs m Hm. destruct (H m Hm) as (e & ? & ?). eauto. Qed.

    Lemma call_write_covers c j w : call_write conf pid c j = Some (Some w) -> covered c (entries_of_write w).
    Proof using Hconf.
      destruct c as [m b|l|m b| |]; simpl; unfold covered; simpl.
      - destruct (reg_types _ !! m) as [ty|] eqn:E; [|done]. intros [= <-] m' Hm. simpl.
        apply elem_of_list_singleton in Hm as ->. eexists. split; [left|]. unfold payload_of. simpl.
        by rewrite (reg_handler_of_type _ _ _ (proj1 (Hconf pid)) E).
      - destruct (batch_types conf pid l) as [es|] eqn:E; [|done].
        assert (Some (Some (WBatch (batch_entries (j_last j) es))) = Some (Some w) ->
          forall m, m ∈ l -> exists e, e ∈ entries_of_write w /\ payload_of (mh pid) e = m) as H'.
        2:{ destruct es; [done|]. apply H'. }
        intros [= <-]. simpl. revert es E. generalize (j_last j) as z. unfold batch_types.
        induction l as [|[m b] l IH]; intros z es E m' Hm; [by apply elem_of_nil in Hm|].
        simpl in E. destruct (reg_types (jt_messages (conf pid)) !! m) as [ty|] eqn:Em; [|done].
        simpl in E. destruct (mapM _ l) as [es'|] eqn:El; [|done]. simpl in E. injection E as <-. simpl.
        apply elem_of_cons in Hm as [->|Hm].
        + eexists. split; [left|]. unfold payload_of. simpl.
          by rewrite (reg_handler_of_type _ _ _ (proj1 (Hconf pid)) Em).
        + destruct (IH (z + 1) _ eq_refl m' Hm) as (e & He & Hp). exists e. split; [by right|done].
      - intros _ m' Hm. by apply elem_of_nil in Hm.
      - intros _ m' Hm. by apply elem_of_nil in Hm.
      - intros _ m' Hm. by apply elem_of_nil in Hm.
    Qed.

    Lemma keeps_step s t es o s' ev :
      inv s t -> keeps s t es -> dstep S conf s o = (s', ev) -> plain pid (t ++ ev) ->
      exists es', keeps s' (t ++ ev) es'.
    Proof using Hkey Hconf Hids.
      destruct s as [st incs fl n]. intros [_ Hf Hi] [Hh Ha Hfl Hc Hst] E Hp. simpl in *.
      assert (Hnew : ev = [] \/ acked pid ev = [] -> forall m, m ∈ acked pid (t ++ ev) -> exists e, e ∈ es /\ payload_of (mh pid) e = m).
      { intros [->|H] m Hm; [rewrite app_nil_r in Hm; auto|]. rewrite acked_app, H, app_nil_r in Hm. auto. }
      destruct o as [p|i|i c|k|i ok|i]; simpl in E.
      - destruct (recover_snapshot S conf p journal_new st) as [j snap] eqn:Er. injection E as <- <-.
        exists es. split; simpl; [done|by apply Hnew; right|done| |].
        + intros i x k c Hx. apply lookup_insert_Some in Hx as [[<- <-]|[_ Hx]]; [done|]. by apply (Hc i).
        + intros i x sn Hx. apply lookup_insert_Some in Hx as [[<- <-]|[_ Hx]]; [|by apply (Hst i)].
          simpl. intros -> [= <-]. rewrite (held_recover_snapshot key Hkey conf Hconf Hids _ _ _ _ _ Hh) in Er.
          simpl in Er. by injection Er as <- <-.
      - destruct (incs !! i) as [[p j [snap|] call]|] eqn:Ei; [|injection E as <- <-; exists es; split; simpl; auto..].
        destruct (recover_messages S conf p j st) as [j' ms]. injection E as <- <-.
        exists es. split; simpl; [done|by apply Hnew; right|done| |].
        + intros i' x k c Hx. apply lookup_insert_Some in Hx as [[<- <-]|[_ Hx]]; [|by apply (Hc i')].
          simpl. intros -> Hcall. exact (Hc _ _ _ _ Ei eq_refl Hcall).
        + intros i' x sn Hx. apply lookup_insert_Some in Hx as [[<- <-]|[_ Hx]]; [done|]. by apply (Hst i').
      - destruct (incs !! i) as [[p j [snap|] [call|]]|] eqn:Ei;
          try (injection E as <- <-; exists es; split; simpl; auto; fail).
        destruct (call_write conf p c j) as [[w|]|] eqn:Ew; injection E as <- <-.
        + exists es. split; simpl; [done|by apply Hnew; right| | |].
          * intros k w'. destruct (decide (k = n)) as [->|Hne].
            -- rewrite lookup_insert. intros [= -> ->]. apply Forall_app in Hp as [_ Hp].
               apply Forall_cons in Hp as [Hp _]. destruct c; simpl in *; try done.
               ++ destruct (reg_types _ !! m); [|done]. by injection Ew as <-.
               ++ destruct (batch_types _ _ _) as [[|??]|]; [done| |done]. by injection Ew as <-.
            -- rewrite lookup_insert_ne by done. apply Hfl.
          * intros i' x k c' Hx. apply lookup_insert_Some in Hx as [[<- <-]|[_ Hx]].
            -- simpl. intros -> [= <- <-]. rewrite lookup_insert. split; [done|]. by eapply call_write_covers.
            -- intros Hpid Hcall. destruct (Hi _ _ Hx) as (_ & _ & Hk). rewrite Hcall in Hk.
               rewrite lookup_insert_ne by lia. by apply (Hc _ _ _ _ Hx).
          * intros i' x sn Hx. apply lookup_insert_Some in Hx as [[<- <-]|[_ Hx]]; [done|]. by apply (Hst i').
        + assert (acked pid [VCall i p c; VAnswer i p c (empty_answer c)] = []) as Hnil.
          { unfold acked. simpl. destruct c; simpl in *; try done.
            destruct (decide (p = pid)); [|done]. destruct l; [done|]. exfalso. unfold batch_types in Ew. simpl in Ew.
              destruct (reg_types _ !! p0.1); simpl in Ew; [|done]. destruct (mapM _ l); done.
            }
          exists es. split; simpl; [done|by apply Hnew; right|done|done|done].
        + exists es. split; simpl; [done|by apply Hnew; right|done| |].
          * intros i' x k c' Hx. apply lookup_delete_Some in Hx as [_ Hx]. by apply (Hc i').
          * intros i' x sn Hx. apply lookup_delete_Some in Hx as [_ Hx]. by apply (Hst i').
      - destruct (fl !! k) as [[p w]|] eqn:Ek; injection E as <- <-; [|exists es; split; simpl; auto].
        destruct (decide (p = pid)) as [->|Hne].
        + destruct (Hf _ _ _ Ek) as [Hw _].
          destruct (held_write key Hkey conf Hconf Hids pid t w st es [] Hh Hw) as (es' & ss' & H4 & H5).
          assert (ss' = [] /\ (forall e, e ∈ es -> e ∈ es') /\ (forall e, e ∈ entries_of_write w -> e ∈ es')) as (-> & Hsub & Hin).
          { specialize (Hfl _ _ Ek). destruct w; try done; destruct H5 as [H5 ->]; simpl.
            - split; [done|]. split; intros x Hx; apply H5; [by right|]. apply elem_of_list_singleton in Hx as ->. by left.
            - split; [done|]. split; intros x Hx; apply H5; auto. }
          exists es'. split; simpl; [done| | | |done].
          * intros m Hm. destruct (Hnew (or_introl eq_refl) m Hm) as (e & ? & ?). eauto.
          * intros k' w' Hk. apply lookup_delete_Some in Hk as [_ Hk]. eauto.
          * intros i x k' c Hx Hpid Hcall. specialize (Hc _ _ _ _ Hx Hpid Hcall).
            destruct (decide (k' = k)) as [->|Hk].
            -- rewrite lookup_delete. rewrite Ek in Hc. destruct Hc as [_ Hc]. eapply covered_mono; eauto.
            -- rewrite lookup_delete_ne by done. destruct (fl !! k') as [[p' w']|]; [done|]. eapply covered_mono; eauto.
        + exists es. split; simpl; [by apply (held_write_other key Hkey conf Hconf Hids)|by apply Hnew; left| | |done].
          * intros k' w' Hk. apply lookup_delete_Some in Hk as [_ Hk]. eauto.
          * intros i x k' c Hx Hpid Hcall. specialize (Hc _ _ _ _ Hx Hpid Hcall).
            destruct (decide (k' = k)) as [->|Hk].
            -- rewrite Ek in Hc. by destruct Hc.
            -- by rewrite lookup_delete_ne.
      - destruct (incs !! i) as [[p j l [[k c]|]]|] eqn:Ei; [|injection E as <- <-; exists es; split; simpl; auto..].
        destruct ok; [destruct (fl !! k) eqn:Ek|]; injection E as <- <-; [exists es; split; simpl; auto|..].
        + exists es. split; simpl; [done| |done| |].
          * intros m Hm. rewrite acked_app in Hm. apply elem_of_app in Hm as [Hm|Hm]; [auto|].
            unfold acked in Hm. simpl in Hm. rewrite app_nil_r in Hm. destruct (decide (p = pid)) as [->|]; [|by apply elem_of_nil in Hm].
            specialize (Hc _ _ _ _ Ei eq_refl eq_refl). rewrite Ek in Hc. by apply Hc.
          * intros i' x k' c' Hx. apply lookup_insert_Some in Hx as [[<- <-]|[_ Hx]]; [done|by apply (Hc i')].
          * intros i' x sn Hx. apply lookup_insert_Some in Hx as [[<- <-]|[_ Hx]]; [|by apply (Hst i')].
            simpl. intros Hpid ->. destruct (Hi _ _ Ei) as (_ & _ & _ & ? & _). done.
        + exists es. split; simpl; [done|by apply Hnew; right|done| |].
          * intros i' x k' c' Hx. apply lookup_insert_Some in Hx as [[<- <-]|[_ Hx]]; [done|by apply (Hc i')].
          * intros i' x sn Hx. apply lookup_insert_Some in Hx as [[<- <-]|[_ Hx]]; [|by apply (Hst i')].
            simpl. intros Hpid ->. destruct (Hi _ _ Ei) as (_ & _ & _ & ? & _). done.
      - destruct (incs !! i) as [x|] eqn:Ei; injection E as <- <-; [|exists es; split; simpl; auto].
        exists es. split; simpl; [done|by apply Hnew; right|done| |].
        + intros i' x' k' c' Hx. apply lookup_delete_Some in Hx as [_ Hx]. by apply (Hc i').
        + intros i' x' sn Hx. apply lookup_delete_Some in Hx as [_ Hx]. by apply (Hst i').
    Qed.

    Lemma keeps_run l s t : drun S conf (durable_init ∅) l = (s, t) -> good_trace t /\ plain pid t ->
      inv s t /\ exists es, keeps s t es.
    Proof using Hkey Hconf Hids.
      apply (drun_inv S conf (fun s t => inv s t /\ exists es, keeps s t es) (fun t => good_trace t /\ plain pid t)).
      - intros t1 t2 [H1 H2]. split; [by eapply good_trace_pre|by eapply plain_pre].
      - split; [apply (inv_init key Hkey conf Hconf Hids)|]. exists []. split; simpl.
        + split; unfold zget; rewrite lookup_empty; apply holds_nil.
        + intros m Hm. by apply elem_of_nil in Hm.
        + intros k w H. by rewrite lookup_empty in H.
        + intros i x k c H. by rewrite lookup_empty in H.
        + intros i x sn H. by rewrite lookup_empty in H.
      - intros s0 t0 o s1 ev [H1 [es H2]] E [Hg Hp]. split; [by eapply (inv_step key Hkey conf Hconf Hids)|by eapply keeps_step].
    Qed.

    Lemma recovered_all l s t1 i snap ms t2 :
      drun S conf (durable_init ∅) l = (s, t1 ++ VRecovered i pid snap ms :: t2) ->
      good_trace t1 -> plain pid t1 ->
      snap = None /\ (forall m, m ∈ acked pid t1 -> m ∈ ms).
    Proof using Hkey Hconf Hids.
      intros Hrun Hg Hp. apply drun_split in Hrun as (l1 & o & l2 & s1 & s2 & -> & H1 & H2 & H3); [|done].
      apply keeps_run in H1 as [[Hh _ _] [es Hk]]; [|done].
      apply recovered_load in H2 as (j & call & j' & r & -> & Hi & Hr & ->).
      destruct (k_start _ _ _ Hk _ _ _ Hi eq_refl eq_refl) as [-> Hj]. simpl in Hj. split; [done|].
      intros m Hm. destruct (k_acked _ _ _ Hk m Hm) as (e & He & <-).
      destruct (Hh pid) as (es' & ss' & Hes & Hok & _).
      assert (es' = es) as ->.
      { eapply holds_inj; [apply Hes|apply (k_held _ _ _ Hk)]. }
      pose proof (okm_erange key Hkey conf Hconf Hids _ _ _ (j_last j) Hok) as He'.
      edestruct (held_recover_messages key Hkey conf Hconf Hids pid (d_store s1) es ss' j) as (o' & Eo & Ho);
        [exact Hes|eapply okm_pays, He'; done|].
      rewrite Eo in Hr. injection Hr as _ <-. rewrite Ho. apply elem_of_list_fmap. exists e. split; [done|].
      apply (in_erange key Hkey conf Hconf Hids). split; [done|]. rewrite Hj. rewrite Forall_forall in Hok. apply (Hok e He).
    Qed.
  End one.
End redis.
