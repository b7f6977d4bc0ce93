(** Proofs about the blocking api: answers, returns, styles, panics and creation. *)
From Verif Require Import Actor_Model Actor_Spec Actor_Proofs Actor_Proofs2 Actor_Proofs3 ActorSys_Model Blocking_Model Blocking_Spec Blocking_Proofs.
Local Open Scope nat_scope.

Section proofs.
  Context {St Msg Res : Type}.
  Context (started : St -> St * effect) (handler : St -> Msg -> St * Res * effect) (tracked : bool).
  Notation arun := (arun started handler tracked).
  Notation astep := (astep started handler tracked).
  Notation brun := (brun started handler tracked).
  Notation bstep := (bstep started handler tracked).
  Notation bsys := (bsys St Msg Res).
  Notation thread := (thread Msg Res).
  Notation progs_t := (gmap nat (place * list (style * ask Msg))).

  Theorem own_answer u (progs : progs_t) ops t th p res :
    b_threads (brun u progs ops) !! t = Some th -> th_results th !! p = Some res ->
    exists pl prog st a, progs !! t = Some (pl, prog) /\ prog !! p = Some (st, a) /\ returned a res (b_trace (brun u progs ops)).
  Proof using.
    intros Ht Hp. pose proof (binv2_run started handler tracked u progs ops t) as H. rewrite Ht in H.
    destruct (progs !! t) as [[pl prog]|]; [|done]. destruct H as [_ (dn & E1 & E2) _ I4 I5 _]. simpl in E1.
    destruct (I4 p res Hp) as (a & o & Ho & Hm).
    assert (Hd : exists st, dn !! p = Some (st, a)).
    { apply (f_equal (fun l => l !! p)) in E2. rewrite !list_lookup_fmap, Ho in E2. simpl in E2.
      destruct (dn !! p) as [[st a']|]; simpl in E2; simplify_eq. by exists st. }
    destruct Hd as [st Hd]. exists pl, prog, st, a. split; [done|]. split; [rewrite E1; by apply lookup_app_l_Some|].
    destruct o as [i|].
    - right. exists i. split; [|done]. apply accepted_event, I5. by eapply elem_of_list_lookup_2.
    - by left.
  Qed.

  Theorem own_value u (progs : progs_t) ops t th p r :
    b_threads (brun u progs ops) !! t = Some th -> th_results th !! p = Some (Value r) ->
    let tr := b_trace (brun u progs ops) in
    exists pl prog st m i, progs !! t = Some (pl, prog) /\ prog !! p = Some (st, AMsg m) /\
      (i, RUser m true) ∈ accepted tr /\ (i, r) ∈ answers handler (started u).1 (take (length (handled tr)) (accepted tr)).
  Proof using.
    intros Ht Hp tr. destruct (own_answer u progs ops t th p _ Ht Hp) as (pl & prog & st & a & H1 & H2 & H3).
    destruct H3 as [[? _]|(i & Ha & Hans)]; [done|]. destruct a as [m| |]; try done. exists pl, prog, st, m, i.
    split; [done|]. split; [done|]. split; [by apply accepted_event|].
    destruct (brun_actor started handler tracked u progs ops) as [aops Ea].
    pose proof (binv_run started handler tracked u aops) as (_ & _ & _ & _ & _ & _ & _ & B8). rewrite Ea in B8. cbn [fst snd] in B8.
    unfold tr. rewrite <- B8. unfold replies. apply elem_of_list_omap. exists (EReply i r). done.
  Qed.

  Theorem in_order u (progs : progs_t) ops t th :
    b_threads (brun u progs ops) !! t = Some th -> StronglySorted lt (numbers th).
  Proof using.
    intros Ht. pose proof (binv2_run started handler tracked u progs ops t) as H. rewrite Ht in H.
    destruct (progs !! t) as [x|]; [|done]. apply H.
  Qed.

  (** ** Every call returns *)

  Lemma settles u aops n : length (accepted (arun u aops).2) + 3 < n ->
    let a := (arun u (aops ++ repeat OTick n)).1 in a_queue a = [] /\ (a_phase a = PRunning \/ a_phase a = PDone).
  Proof using.
    intros Hn a. unfold a. clear a.
    assert (Hq : a_phase (ticks started handler tracked n (arun u aops).1) = PDone \/
      (a_phase (ticks started handler tracked n (arun u aops).1) = PRunning /\ a_queue (ticks started handler tracked n (arun u aops).1) = [])).
    { pose proof (queue_le started handler tracked u aops) as Hle.
      assert (Hrun : forall b k, a_phase b = PRunning -> length (a_queue b) + 3 <= k ->
        a_phase (ticks started handler tracked k b) = PDone \/ (a_phase (ticks started handler tracked k b) = PRunning /\ a_queue (ticks started handler tracked k b) = [])).
      { intros b k Hb Hk. replace k with ((k - 3) + 3) by lia. rewrite ticks_add.
        destruct (ticks_running started handler tracked (k - 3) b Hb) as [(E1 & E2 & _)|Hp]; [lia| |].
        - destruct (ticks_running started handler tracked 3 _ E1) as [(F1 & F2 & _)|Hp]; [rewrite E2; simpl; lia|by right|].
          exfalso. clear -E1 E2 Hp. cbn [ticks] in Hp. unfold tick at 3 in Hp. rewrite E1, E2 in Hp. cbn [fst] in Hp.
          unfold tick at 2 in Hp. rewrite E1, E2 in Hp. cbn [fst] in Hp. unfold tick in Hp. rewrite E1, E2 in Hp. cbn [fst] in Hp. rewrite E1 in Hp. done.
        - left. apply ticks_past; [done|lia]. }
      destruct (a_phase (arun u aops).1) eqn:Ep.
      - destruct n as [|n]; [lia|]. cbn [ticks]. destruct (tick_new started handler tracked _ Ep) as [[H1 H2]|Hp].
        + apply Hrun; [done|rewrite H1; lia].
        + left. apply ticks_past; [done|lia].
      - apply Hrun; [done|lia].
      - left. apply ticks_past; [by rewrite Ep|lia].
      - left. apply ticks_past; [by rewrite Ep|lia].
      - left. apply ticks_past; [by rewrite Ep|lia].
      - left. apply ticks_past; [by rewrite Ep|lia]. }
    pose proof (binv_run started handler tracked u (aops ++ repeat OTick n)) as (_ & _ & _ & _ & B5 & _).
    rewrite (arun_ticks started handler tracked) in *. destruct Hq as [H|[H1 H2]]; [|by auto]. split; [by apply B5|by right].
  Qed.

  Lemma running_not_stopped u aops : a_phase (arun u aops).1 = PRunning -> a_on_stopped (arun u aops).1 = [].
  Proof using.
    intros Hr. cut ((a_phase (arun u aops).1 = PRunning \/ a_phase (arun u aops).1 = PNew) -> a_on_stopped (arun u aops).1 = []); [auto|]. clear Hr.
    apply (arun_ind started handler tracked u (fun a tr => (a_phase a = PRunning \/ a_phase a = PNew) -> a_on_stopped a = [])); [done|].
    intros a tr o IH. destruct o as [r|]; simpl.
    - unfold send. destruct (a_phase a) eqn:Ep; simpl; rewrite ?Ep; intuition done.
    - unfold tick. destruct (a_phase a) eqn:Ep; simpl; try (intuition done).
      + unfold run_started. destruct (started (a_user a)) as [u' []]; simpl; intuition done.
      + destruct (a_queue a) as [|[i r] q]; [simpl; intuition done|]. unfold run_message.
        destruct r as [m ans| |ans|id w|id]; simpl; try (intuition done).
        destruct (handler (a_user a) m) as [[u' res] []]; simpl; intuition done.
      + rewrite Ep. exact IH.
  Qed.

  (** When the actor has had time for what it accepted, all calls return. *)
  Theorem all_return u (progs : progs_t) ops n t th :
    length (accepted (b_trace (brun u progs ops))) + 3 < n ->
    b_threads (brun u progs ops) !! t = Some th -> th_panicked th = false -> ~ idle th ->
    exists th', b_threads (brun u progs (ops ++ repeat BTick n ++ [BThread t])) !! t = Some th' /\
      idle th' /\ th_made th' = th_made th.
  Proof using.
    intros Hn Ht Hp Hi. destruct (brun_actor started handler tracked u progs ops) as [aops Ea].
    destruct (brun_ticks started handler tracked u progs ops aops n Ea) as [Ea2 Eth].
    pose proof (binv2_run started handler tracked u progs (ops ++ repeat BTick n) t) as Hinv.
    rewrite app_assoc, brun_snoc. rewrite Eth, Ht in Hinv. cbn [Blocking_Model.bstep]. rewrite Eth, Ht.
    pose proof (settles u aops n) as Hset. rewrite Ea in Hset. rewrite Ea2 in Hset. cbn [fst snd] in Hset. specialize (Hset Hn).
    destruct (progs !! t) as [x|]; [|done]. destruct Hinv as [_ _ I3 _ I5 _]. destruct I3 as [?|(l & a & i & El & Hl)]; [done|].
    unfold thread_step. rewrite Hp. destruct (Nat.ltb_spec (length (th_results th)) (length (th_made th))) as [Hlt|Hge].
    2:{ exfalso. rewrite El, app_length in Hge. simpl in Hge. lia. }
    rewrite El, last_snoc.
    destruct (result_in a i (b_trace (brun u progs (ops ++ repeat BTick n)))) as [r|] eqn:Er.
    - eexists. cbn [b_threads]. rewrite lookup_insert. split; [done|]. unfold idle. cbn. rewrite !app_length. simpl. split; [lia|done].
    - exfalso. apply result_in_none in Er.
      pose proof (outcomes started handler tracked u (aops ++ repeat OTick n)) as (_ & _ & Hout). rewrite Ea2 in Hout. cbn [fst snd] in Hout.
      specialize (Hout i (to_request a)). unfold Actor_Proofs2.total, Actor_Proofs2.pend in Hout.
 rewrite Er in Hout. destruct Hset as [Hq Hph]. rewrite Hq in Hout.
      assert (Hon : a_on_stopped (b_actor (brun u progs (ops ++ repeat BTick n))) = []).
      { destruct Hph as [Hph|Hph].
        - pose proof (running_not_stopped u (aops ++ repeat OTick n)) as H. rewrite Ea2 in H. by apply H.
        - pose proof (closing_on_stopped started handler tracked u (aops ++ repeat OTick n)) as H. rewrite Ea2 in H. apply H. by right. }
      rewrite Hon in Hout. unfold Actor_Proofs2.occ in Hout. simpl in Hout.
      assert (0 = 1); [|done]. apply Hout; [|by destruct a]. apply I5. rewrite El. apply elem_of_app. right. by left.
  Qed.

  (** ** Styles *)

  Definition same_thread (f : style -> style) (th1 th2 : thread) : Prop :=
    th_place th1 = th_place th2 /\ th_made th1 = th_made th2 /\ th_results th1 = th_results th2 /\ th_panicked th1 = th_panicked th2 /\
    th_todo th2 = map (fun y => (f y.1, y.2)) (th_todo th1).

  Theorem same_style u f (progs : progs_t) ops : (forall t x, progs !! t = Some x -> x.1 <> InTask) ->
    let s1 := brun u progs ops in let s2 := brun u (restyle f <$> progs) ops in
    b_actor s1 = b_actor s2 /\ b_trace s1 = b_trace s2 /\
    forall t, option_Forall2 (same_thread f) (b_threads s1 !! t) (b_threads s2 !! t).
  Proof using.
    intros Hpl s1 s2. unfold s1, s2. clear s1 s2. induction ops as [|o ops IH] using rev_ind.
    { unfold brun. simpl. split; [done|]. split; [done|]. intros t. unfold start_threads. rewrite !lookup_fmap.
      destruct (progs !! t) as [x|]; simpl; constructor. by destruct x. }
    pose proof (binv2_run started handler tracked u progs ops) as Hb. rewrite !brun_snoc. revert IH Hb.
    generalize (brun u progs ops) (brun u (restyle f <$> progs) ops). intros s1 s2 (Ha & Htr & Hth) Hb.
    destruct o as [|t]; cbn [Blocking_Model.bstep].
    - rewrite Ha, Htr. by destruct (tick started handler tracked (b_actor s2)) as [a ev].
    - pose proof (Hth t) as Ht. specialize (Hb t).
      destruct (b_threads s1 !! t) as [th1|] eqn:E1, (b_threads s2 !! t) as [th2|] eqn:E2; inversion Ht as [? ? Hsame|]; subst; [|done].
      destruct (progs !! t) as [x|] eqn:Ex; [|done]. destruct Hb as [Hplace _ _ _ _ _]. specialize (Hpl t x Ex).
      destruct Hsame as (F1 & F2 & F3 & F4 & F5).
      assert (Hins : forall y1 y2, same_thread f y1 y2 -> forall t', option_Forall2 (same_thread f) (<[t:=y1]> (b_threads s1) !! t') (<[t:=y2]> (b_threads s2) !! t')).
      { intros y1 y2 Hy t'. destruct (decide (t = t')) as [<-|Hn]; [rewrite !lookup_insert; by constructor|rewrite !lookup_insert_ne by done; apply Hth]. }
      unfold thread_step. rewrite <- F4. destruct (th_panicked th1); [done|]. rewrite <- F2, <- F3, <- Htr.
      destruct (_ <? _).
      + destruct (last (th_made th1)) as [[a [i|]]|]; [|done..]. destruct (result_in a i (b_trace s1)) as [r|]; [|done].
        cbn [b_actor b_trace b_threads]. split; [done|]. split; [done|]. apply Hins. split_and!; cbn; congruence.
      + rewrite F5. destruct (th_todo th1) as [|[st a] todo] eqn:Etd; [done|]. cbn [map]. unfold make_call. rewrite <- Ha, <- Htr. cbn [fst snd].
        destruct (send (to_request a) (b_actor s1)) as [ac ev]. cbn [b_actor b_trace b_threads]. split; [done|]. split; [done|]. apply Hins.
        assert (Hm : must_not_block (th_place th1) = false) by (rewrite Hplace; by destruct (x.1)).
        assert (Hb1 : forall st', match st' with Block => must_not_block (th_place th1) | Await => false end = false) by (by intros []).
        rewrite <- F1, F2, F3. rewrite !Hb1. unfold same_thread. destruct (a_phase (b_actor s1)); cbn; split_and!; congruence.
  Qed.

  (** ** A blocking call in async code *)

  Theorem panics_after u (progs : progs_t) ops t th a todo :
    b_threads (brun u progs ops) !! t = Some th -> th_place th = InTask -> th_panicked th = false -> idle th ->
    th_todo th = (Block, a) :: todo -> a_phase (b_actor (brun u progs ops)) <> PDone ->
    let s := brun u progs (ops ++ [BThread t]) in let i := a_next (b_actor (brun u progs ops)) in
    b_trace s = b_trace (brun u progs ops) ++ [EAccepted i (to_request a)] /\
    forall ops', exists th', b_threads (brun u progs (ops ++ [BThread t] ++ ops')) !! t = Some th' /\
      th_panicked th' = true /\ th_made th' = th_made th ++ [(a, Some i)] /\ th_results th' = th_results th.
  Proof using.
    intros Ht Hpl Hp Hid Htd Hph s i.
    assert (Hs : b_trace s = b_trace (brun u progs ops) ++ [EAccepted i (to_request a)] /\
      b_threads s !! t = Some (Thread InTask todo (th_made th ++ [(a, Some i)]) (th_results th) true)).
    { unfold s. rewrite brun_snoc. cbn [Blocking_Model.bstep]. rewrite Ht. unfold thread_step. rewrite Hp, Hid, Nat.ltb_irrefl, Htd.
      unfold make_call. rewrite Hpl. unfold send. fold i. destruct (a_phase (b_actor (brun u progs ops))); try done; cbn; by rewrite lookup_insert. }
    destruct Hs as [Hs1 Hs2]. split; [done|]. intros ops'. exists (Thread InTask todo (th_made th ++ [(a, Some i)]) (th_results th) true).
    split; [|done]. rewrite app_assoc. induction ops' as [|o ops' IH] using rev_ind; [by rewrite app_nil_r|].
    rewrite app_assoc, brun_snoc. destruct o as [|t']; cbn [Blocking_Model.bstep].
    - by destruct (tick started handler tracked _).
    - destruct (decide (t' = t)) as [->|Hn].
      + rewrite IH. unfold thread_step. cbn [th_panicked]. done.
      + destruct (b_threads _ !! t') as [th'|] eqn:E'; [|done]. unfold thread_step. destruct (th_panicked th'); [done|].
        destruct (_ <? _).
        * destruct (last (th_made th')) as [[a' [i'|]]|]; [|done..]. destruct (result_in a' i' _); [|done]. cbn. by rewrite lookup_insert_ne.
        * destruct (th_todo th') as [|[st a'] todo']; [done|]. unfold make_call. destruct (send (to_request a') _). cbn. by rewrite lookup_insert_ne.
  Qed.
End proofs.

(** ** Creation *)

Definition processed (n : nat) (s : registry) : registry := fold_left (fun s o => (gstep s o).1) (repeat GOProcess n) s.

Lemma processed_mail n (s : registry) m : g_mail s = m -> length m = n ->
  g_mail (processed n s) = [] /\ g_actors (processed n s) = g_actors s /\ g_next (processed n s) = g_next s /\
  g_map (processed n s) = fold_left (fun mp x => (g_handle x mp).1) m (g_map s).
Proof.
  revert s m. induction n as [|n IH]; intros s m Hm Hl.
  - destruct m; [|done]. unfold processed. simpl. by rewrite Hm.
  - destruct m as [|x m]; [done|]. unfold processed. simpl. rewrite Hm. destruct (g_handle x (g_map s)) as [mp ev] eqn:E. cbn [fst].
    specialize (IH (Registry (g_actors s) (g_next s) m mp) m eq_refl ltac:(simpl in Hl; lia)). unfold processed in IH. destruct IH as (I1 & I2 & I3 & I4).
    rewrite I1, I2, I3, I4. simpl. done.
Qed.

Theorem create_registered p id (s : registry) : cannot_spawn p = false ->
  let s' := (create_blocking p true id s).1 in
  g_map (processed (length (g_mail s')) s') !! id = Some (g_next s) /\
  g_actors (processed (length (g_mail s')) s') !! g_next s = Some (TActor id true true).
Proof.
  intros Hp s'. 
  assert (Hs : s' = Registry (<[g_next s := TActor id true true]> (<[g_next s := TActor id true false]> (g_actors s))) (S (g_next s)) (g_mail s ++ [GReg id (g_next s)]) (g_map s)).
  { unfold s', create_blocking. rewrite Hp. cbn [gstep fst g_actors g_next g_mail g_map]. by rewrite lookup_insert. }
  destruct (processed_mail (length (g_mail s')) s' (g_mail s') eq_refl eq_refl) as (_ & -> & _ & ->).
  rewrite Hs. cbn [g_actors g_mail g_map]. split; [|by rewrite lookup_insert].
  rewrite fold_left_app. cbn. by rewrite lookup_insert.
Qed.
