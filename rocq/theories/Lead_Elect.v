(** Proofs about leader election in time: agreement in a calm period. *)
From Verif Require Import Nodes_Model Nodes_Spec Nodes_Proofs Heart_Model Heart_Spec Heart_Proofs Lead_Model Lead_Spec Lead_Proofs Lead_World Lead_Calm.
Local Open Scope Z_scope.
Local Arguments Heart_Model.hstep : simpl never.

Section elect.
Variable min_date max_date max_duration : Z.
Variable cf : hconfig.
Variable rhash : N -> string -> string -> option Z -> N.
Variable search : list N -> N -> nat.
Variable ping_timeout : Z.
Variable skew : N -> Z.
Notation hstep := (hstep min_date max_date max_duration cf (C := unit) rhash search).
Notation lstep := (lstep min_date max_date max_duration cf rhash search ping_timeout skew).
Notation lrun := (lrun min_date max_date max_duration cf rhash search ping_timeout skew).
Notation clock := (clock skew).
Notation wgood := (wgood skew).
Notation fits := (fits max_date max_duration cf skew).
Notation hears := (hears skew).
Notation unhealthy := (Z.of_N (cf_unhealthy cf)).
Notation terminated := (Z.of_N (cf_terminated cf)).
Implicit Types (h : heart unit) (w : world).

(** *** Leadership and heartbeats *)
Lemma elected i h ho h' s : keyed (h_store h) -> hstep i h ho = Some h' -> is_Some (beats ho) -> h_beaten h = true ->
  oldest_healthy min_date (viewed h h') s -> small (s_id s) ->
  current_leader h' = Some (s_id s) /\ (current_leader h = Some (s_id s) -> h_sent h' = h_sent h).
Proof using.
  clear. intros Hk Hs Hb Hl Ho Hsm.
  destruct (step_events _ _ _ _ _ _ _ _ _ _ Hk Hs) as [(P & L & _ & _ & _ & HH)|(n & e & P & L & _ & _ & _ & _ & Hne & (s' & Ho' & Hid) & _)].
  - split; [unfold current_leader; rewrite L; by apply HH|]. intros _. unfold published in P. by rewrite app_nil_r in P.
  - assert (s_id s' = s_id s) as E.
    { destruct Ho as (H1 & H2 & H3), Ho' as (W1 & W2 & W3). eapply (first_antisym min_date); [by apply W3|by apply H3]. }
    split; [|intros ?; congruence]. unfold current_leader. rewrite L, <- Hid, E. by apply small_leader.
Qed.

Section calm.
Variable t0 lat han int_ : Z.
Variable V : gset N.
Hypothesis Hlat : 0 <= lat.
Hypothesis Hhan : 0 <= han.
Hypothesis Hint : 0 < int_.
Hypothesis Hfit : int_ + lat + han < unhealthy.
Hypothesis Hterm : unhealthy <= terminated.
Hypothesis Htime : lat < ping_timeout.
Notation timely := (timely t0 lat han int_).
Notation pinged := (pinged skew t0 lat int_ V).

(** A heartbeat of a running node finds exactly the running nodes healthy. *)
Lemma tick_view w i o h ho h' x : pinged w -> wgood w -> timely w -> i ∈ V -> l_hearts w !! i = Some h ->
  hears w i o ho -> is_Some (beats ho) -> hstep i h ho = Some h' -> t0 + lat + unhealthy <= l_now w ->
  viewed h h' x -> s_status x = Healthy <-> s_id x ∈ V.
Proof.
  intros Hp Hw Ht Hi Hh Hho Hb Hs Hnow [Hx1 Hx2]. pose proof (wg_heart _ _ Hw _ _ Hh) as Hg.
  (* the node that is reported gone is not running *)
  assert (Hgone : forall j, j ∈ V -> h_pings (before_tick h ho) !! j = h_pings h !! j).
  { intros j Hj. destruct ho as [|n|n| |]; try done. simpl. rewrite lookup_delete_ne; [done|]. intros ->.
    destruct o as [d|a r|a|a k or|a k|m|m|m|a k|a k|a or mi|a or mi]; try done; simpl in Hho.
    - destruct Hho as (_ & r & _ & ?). done.
    - destruct Hho as (_ & t & rest & Hm & Hho). unfold handles in Hho.
      assert (Hin : t ∈ mail w i) by (rewrite Hm; by left).
      destruct (t_what t) eqn:Ew; [done|]. injection Hho as -> _ _ _.
      pose proof (tm_mail _ _ _ _ _ Ht i t) as Hat. rewrite (pg_live _ _ _ _ _ _ Hp) in Hat. specialize (Hat Hi Hin).
      destruct (pg_notes _ _ _ _ _ _ Hp i t Hi Hin Hj) as (l & rec & Hwh & _); [lia|]. congruence.
    - destruct Hho as [_ ?]. done. }
  assert (Hdead : forall j l rec, j ∉ V -> h_pings (before_tick h ho) !! j = Some (POk l rec) -> rec <= t0 + lat + skew i).
  { intros j l rec Hj. assert (Hpp : h_pings (before_tick h ho) !! j = Some (POk l rec) -> h_pings h !! j = Some (POk l rec)).
    { destruct ho as [|n|n| |]; try done. simpl. by intros [_ ?]%lookup_delete_Some. }
    intros Hj'%Hpp. by eapply pg_dead_pings. }
  destruct (hstep_cases _ _ _ _ _ _ _ _ _ _ Hs) as [(ord & c & mid & Hc & Htk)|(Hn & _)]; [|destruct Hb; congruence].
  assert (Hclk : c = fun _ => clock w i).
  { assert (Hok : opok (l_started w) (clock w i) ho) by (by eapply hears_ok). destruct ho; try done; simpl in *; injection Hc as <-; by destruct Hok. }
  subst c.
  assert (Hb1 : is_Some (record (h_store (before_tick h ho)) (s_id x))) by by apply before_tick_ids.
  destruct Hb1 as [s Hrs]. pose proof (before_good rhash search _ _ _ ho Hg) as Hg'.
  destruct (tick_record _ _ _ _ _ _ _ _ _ _ _ _ _ _ (hg_keyed _ _ _ Hg') Htk Hrs) as (s' & Hj & Hr').
  rewrite Hx2 in Hr'. injection Hr' as <-.
  assert (Hid : s_id s = s_id x) by exact (hg_keyed _ _ _ Hg' _ _ Hrs).
  unfold judge in Hj. rewrite Hid in Hj. destruct (N.eqb_spec (s_id x) i) as [Ei|Ei].
  { injection Hj as <-. simpl. unfold s_id in *. simpl in *. by rewrite Ei. }
  split.
  - intros Hh'. destruct (decide (s_id x ∈ V)) as [?|Hx]; [done|exfalso]. specialize (Hdead (s_id x)).
    unfold update_node, node_status in Hj. destruct (h_pings (before_tick h ho) !! s_id x) as [[l rec| | |]|].
    + specialize (Hdead l rec Hx eq_refl).
      unfold Lead_Model.clock in Hj. repeat case_match; cbn in Hj; try done; injection Hj as <-; try done.
      repeat match goal with H : (_ <=? _) = false |- _ => apply Z.leb_gt in H end. lia.
    + repeat case_match; cbn in Hj; try done; injection Hj as <-; done.
    + cbn in Hj. by injection Hj as <-.
    + cbn in Hj. injection Hj as <-. simpl in Hh'. by destruct (s_status s).
    + cbn in Hj. injection Hj as <-. simpl in Hh'. by destruct (s_status s).
  - intros Hx. destruct (fresh_ping cf rhash search skew t0 lat han int_ V Hlat Hhan w i (s_id x) Hp Hw Ht Hi Hx)
      as (h1 & l & rec & Hh1 & Hpi & Hl & Hrec); [congruence|lia|].
    assert (h1 = h) as -> by congruence. rewrite (Hgone _ Hx), Hpi in Hj.
    pose proof (hg_ping _ _ _ Hg _ _ _ Hpi) as Hle. unfold update_node, node_status, Lead_Model.clock in *.
    destruct (Z.ltb_spec (l_now w + skew i - rec) 0); [lia|].
    destruct (Z.leb_spec terminated (l_now w + skew i - rec)); [lia|].
    destruct (Z.leb_spec unhealthy (l_now w + skew i - rec)); [lia|].
    destruct (N.ltb_spec (cf_unhealthy cf) l); [lia|]. cbn in Hj. by injection Hj as <-.
Qed.

(** So it chooses the oldest of them. *)
Lemma oldest_view w i o h ho h' n : pinged w -> wgood w -> timely w -> acquainted w -> i ∈ V -> l_hearts w !! i = Some h ->
  hears w i o ho -> is_Some (beats ho) -> hstep i h ho = Some h' -> t0 + lat + unhealthy <= l_now w ->
  oldest_live min_date w n -> exists s, oldest_healthy min_date (viewed h h') s /\ s_id s = n.
Proof.
  intros Hp Hw Ht Hq Hi Hh Hho Hb Hs Hnow [Hn Ho]. pose proof (pg_live _ _ _ _ _ _ Hp) as HV.
  pose proof (wg_heart _ _ Hw _ _ Hh) as Hg.
  assert (Hok : opok (l_started w) (clock w i) ho) by (by eapply hears_ok).
  pose proof (hgood_step _ _ _ _ _ _ _ _ _ _ _ _ Hg Hok Hs) as Hg'.
  rewrite HV in *.
  assert (Hk : is_Some (record (h_store h) n)).
  { eapply (Hq i n h); rewrite ?HV; done. }
  destruct (known_step _ _ _ _ _ _ _ _ _ _ _ _ n Hg Hok Hs Hk) as [s Hr'].
  assert (Hid : s_id s = n) by exact (hg_keyed _ _ _ Hg' _ _ Hr').
  exists s. split; [|done].
  assert (Hv : viewed h h' s) by (unfold viewed; by rewrite Hid).
  split_and!; [done| |].
  - apply (tick_view w i o h ho h' s Hp Hw Ht Hi Hh Hho Hb Hs Hnow Hv). by rewrite Hid.
  - intros x Hx Hxh. assert (HxV : s_id x ∈ V) by (by apply (tick_view w i o h ho h' x Hp Hw Ht Hi Hh Hho Hb Hs Hnow Hx)).
    destruct Hx as [_ Hxr]. pose proof (hg_node _ _ _ Hg' _ _ Hxr) as Hxs. pose proof (hg_node _ _ _ Hg' _ _ Hr') as Hns.
    specialize (Ho _ _ _ Hns HxV Hxs). unfold comes_first. by rewrite Hid.
Qed.

(** *** The period *)
Record settled w : Prop := {
  sd_pinged : pinged w;
  sd_good : wgood w;
  sd_known : acquainted w;
  sd_small : forall i, i ∈ V -> small i;
  sd_leader : forall i n t, i ∈ V -> l_ticked w !! i = Some t -> t0 + lat + unhealthy <= t ->
    oldest_live min_date w n -> leader_of w i = Some n
}.

Lemma calm_same w o w' : calm w o -> lstep w o = Some w' -> l_started w' = l_started w /\ l_live w' = l_live w.
Proof using.
  intros Hc Hs. destruct o; try done; simpl in Hs; repeat (case_match || simplify_option_eq); done.
Qed.

Lemma settled_step w o w' : settled w -> timely w -> calm w o -> lstep w o = Some w' ->
  (forall i, i ∈ V -> fits w' i) -> settled w' /\
  forall i t, i ∈ V -> l_ticked w !! i = Some t -> t0 + lat + unhealthy <= t ->
    (exists n, oldest_live min_date w n) -> announced w' i = announced w i.
Proof.
  intros [Hp Hw Hq Hsm Hld] Ht Hc Hs Hf. destruct (calm_same _ _ _ Hc Hs) as [Est Eli].
  assert (Hp' : pinged w') by (by eapply pinged_step).
  assert (Hw' : wgood w') by (by eapply wgood_step).
  assert (Eol : forall n, oldest_live min_date w' n <-> oldest_live min_date w n).
  { intros n. unfold oldest_live. by rewrite Est, Eli. }
  pose proof (pg_live _ _ _ _ _ _ Hp) as HV.
  assert (Hq' : acquainted w').
  { intros i j h' Hi Hj Hh'. rewrite Eli in *.
    destruct (heart_step _ _ _ _ _ _ _ _ _ _ _ i Hs) as [(_ & Hh & _)|[(h & ho & Hh & Hho & _ & Hh1 & _)|(r & -> & _)]].
    - rewrite Hh in Hh'. exact (Hq i j h' Hi Hj Hh').
    - rewrite Hh1 in Hh'. refine (known_step _ _ _ _ _ _ _ _ i h ho h' j (wg_heart _ _ Hw _ _ Hh) _ Hh' (Hq i j h Hi Hj Hh)).
      by eapply hears_ok.
    - done. }
  assert (Hkey : forall i, i ∈ V ->
    (l_ticked w' !! i = l_ticked w !! i /\ leader_of w' i = leader_of w i /\ announced w' i = announced w i) \/
    (l_ticked w' !! i = Some (l_now w) /\
      (t0 + lat + unhealthy <= l_now w -> forall n, oldest_live min_date w n -> leader_of w' i = Some n /\
         (leader_of w i = Some n -> announced w' i = announced w i)))).
  { intros i Hi. destruct (heart_step _ _ _ _ _ _ _ _ _ _ _ i Hs) as [(_ & Hh & Htk)|[(h & ho & Hh & Hho & _ & Hh1 & Htk)|(r & -> & _)]]; [|..|done].
    { left. unfold leader_of, announced. by rewrite Hh. }
    destruct (pg_hearts _ _ _ _ _ _ Hp' i Hi) as [h' Hh']. rewrite Hh' in Hh1. symmetry in Hh1.
    destruct (beats ho) as [c|] eqn:Eb.
    - right. split; [done|]. intros Hnow n Hn.
      destruct (oldest_view w i o h ho h' n Hp Hw Ht Hq Hi Hh Hho) as (s & Hos & Hsid); [by rewrite Eb|done..|].
      assert (Hbt : h_beaten h = true).
      { apply (wg_beaten _ _ Hw _ _ Hh). destruct (tm_ticks _ _ _ _ _ Ht i) as (t & -> & _); [by rewrite HV|lia|by eexists]. }
      destruct (elected i h ho h' s (hg_keyed _ _ _ (wg_heart _ _ Hw _ _ Hh)) Hh1) as [E1 E2]; [by rewrite Eb|done|done| |].
      + apply Hsm. rewrite Hsid. destruct Hn as [Hn _]. by rewrite HV in Hn.
      + unfold leader_of, announced. rewrite Hh, Hh'. simpl. rewrite <- Hsid. split; [done|]. exact E2.
    - left. destruct (hstep_cases _ _ _ _ _ _ _ _ _ _ Hh1) as [(? & ? & ? & ? & _)|(_ & E1 & _ & _ & _ & E2 & _)]; [congruence|].
      unfold leader_of, announced. rewrite Hh, Hh'. simpl. unfold current_leader. by rewrite E1, E2. }
  split.
  - split; try done. intros i n t Hi Htk Hle Hn%Eol. destruct (Hkey i Hi) as [(E1 & E2 & _)|(E1 & E2)].
    + rewrite E2. eapply Hld; [done| |done|done]. by rewrite <- E1.
    + assert (t = l_now w) as -> by congruence. by eapply E2.
  - intros i t Hi Htk Hle [n Hn]. destruct (Hkey i Hi) as [(_ & _ & E)|(E1 & E2)]; [done|].
    pose proof (wg_ticked _ _ Hw _ _ Htk) as [_ Htn]. eapply E2; [lia|done|]. by eapply Hld.
Qed.
Lemma settled_start w : wgood w -> l_now w = t0 -> l_live w = V -> (forall i, i ∈ V -> is_Some (l_hearts w !! i)) ->
  acquainted w -> (forall i, i ∈ V -> small i) -> settled w.
Proof.
  intros Hw Hn HV Hh Hq Hsm. split; try done; [by apply pinged_start|].
  intros i n t Hi Htk Hle _. destruct (wg_ticked _ _ Hw _ _ Htk). lia.
Qed.

Lemma fits_period P Q w l w' i : period lstep P Q w l w' -> fits w' i -> fits w i.
Proof.
  revert w. induction l as [|o l IH]; intros w [_ H] Hf; [by subst w'|]. destruct H as (_ & w1 & Hs & H).
  eapply fits_back; [done|]. by eapply IH.
Qed.
Lemma settled_period w l w' : settled w -> period lstep timely calm w l w' -> (forall i, i ∈ V -> fits w' i) ->
  settled w' /\ timely w' /\ l_live w' = l_live w /\ l_started w' = l_started w /\
  forall i t, i ∈ V -> l_ticked w !! i = Some t -> t0 + lat + unhealthy <= t ->
    (exists n, oldest_live min_date w n) -> announced w' i = announced w i.
Proof.
  revert w. induction l as [|o l IH]; intros w Hd [Ht H] Hf; [by subst w'|]. destruct H as (Hc & w1 & Hs & H).
  destruct (settled_step w o w1 Hd Ht Hc Hs) as [Hd1 Ha1].
  { intros i Hi. eapply fits_period; [done|]. auto. }
  destruct (calm_same _ _ _ Hc Hs) as [Est Eli].
  destruct (IH w1 Hd1 H Hf) as (? & ? & E1 & E2 & Ha). split_and!; [done|done|congruence|congruence|].
  intros i t Hi Htk Hle Hn. rewrite <- (Ha1 i t) by done.
  assert (Hn1 : exists n, oldest_live min_date w1 n) by (unfold oldest_live in *; by rewrite Est, Eli).
  destruct (heart_step _ _ _ _ _ _ _ _ _ _ _ i Hs) as [(_ & _ & Htk1)|[(h & ho & _ & _ & _ & _ & Htk1)|(r & -> & _)]]; [..|done].
  - eapply (Ha i t); try done. by rewrite Htk1.
  - destruct (beats ho).
    + eapply (Ha i (l_now w)); try done. destruct (wg_ticked _ _ (sd_good _ Hd) _ _ Htk). lia.
    + eapply (Ha i t); try done. by rewrite Htk1.
Qed.
End calm.
End elect.
