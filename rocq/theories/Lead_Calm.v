(** Proofs about leader election in time: a calm period. *)
From Verif Require Import Nodes_Model Nodes_Spec Nodes_Proofs Heart_Model Heart_Spec Heart_Proofs Lead_Model Lead_Spec Lead_Proofs Lead_World.
Local Open Scope Z_scope.
Local Arguments Heart_Model.hstep : simpl never.

Section calm.
Variable min_date max_date max_duration : Z.
Variable cf : hconfig.
Variable rhash : N -> string -> string -> option Z -> N.
Variable search : list N -> N -> nat.
Variable ping_timeout : Z.
Variable skew : N -> Z.
Notation hstep := (hstep min_date max_date max_duration cf (C := unit) rhash search).
Notation lstep := (lstep min_date max_date max_duration cf rhash search ping_timeout skew).
Notation clock := (clock skew).
Notation wgood := (wgood skew).
Notation fits := (fits max_date max_duration cf skew).
Notation unhealthy := (Z.of_N (cf_unhealthy cf)).
Notation terminated := (Z.of_N (cf_terminated cf)).
Implicit Types (h : heart unit) (w : world).

Variable t0 lat han int_ : Z.
Variable V : gset N.
Hypothesis Hlat : 0 <= lat.
Hypothesis Hhan : 0 <= han.
Hypothesis Hint : 0 < int_.
Hypothesis Hfit : int_ + lat + han < unhealthy.
Hypothesis Hterm : unhealthy <= terminated.
Hypothesis Htime : lat < ping_timeout.
Notation timely := (timely t0 lat han int_).

(** *** Pings *)
Record pinged w : Prop := {
  pg_live : l_live w = V;
  pg_hearts : forall i, i ∈ V -> is_Some (l_hearts w !! i);
  pg_notes : forall i t, i ∈ V -> t ∈ mail w i -> t_about t ∈ V -> t0 < t_at t ->
    exists l rec, t_what t = Some (POk l rec) /\ Z.of_N l <= lat;
  pg_calls : forall k r, k ∈ l_calls w -> k_src k ∈ V -> k_dst k ∈ V -> k_state k = Done r -> t0 < r ->
    r <= k_start k + lat /\
    ((exists t, t ∈ mail w (k_src k) /\ t_at t = r /\ t_about t = k_dst k) \/
     (exists h l rec, l_hearts w !! k_src k = Some h /\ h_pings h !! k_dst k = Some (POk l rec) /\
        Z.of_N l <= lat /\ r + skew (k_src k) <= rec));
  pg_before : forall n k, l_calls w !! n = Some k -> k_src k ∈ V -> k_dst k ∈ V -> k_src k <> k_dst k ->
    t0 + int_ <= k_start k ->
    exists m k', (m < n)%nat /\ l_calls w !! m = Some k' /\ k_src k' = k_src k /\ k_dst k' = k_dst k /\
      k_start k - int_ <= k_start k';
  pg_dead_notes : forall i t l rec, i ∈ V -> t ∈ mail w i -> t_about t ∉ V -> t_what t = Some (POk l rec) -> t_at t <= t0 + lat;
  pg_dead_pings : forall i h j l rec, i ∈ V -> j ∉ V -> l_hearts w !! i = Some h -> h_pings h !! j = Some (POk l rec) ->
    rec <= t0 + lat + skew i;
  pg_dead_calls : forall k, k ∈ l_calls w -> k_state k = Answered -> k_dst k ∉ V -> k_start k <= t0
}.

(** A message that is added. *)
Lemma pinged_tell w i t : pinged w -> i ∈ V -> t_at t = l_now w ->
  (t_about t ∈ V -> exists l rec, t_what t = Some (POk l rec) /\ Z.of_N l <= lat) ->
  (t_about t ∉ V -> forall l rec, t_what t = Some (POk l rec) -> t_at t <= t0 + lat) ->
  pinged (tell w i t).
Proof.
  intros [H1 H2 H3 H4 H5 H6 H7 H8] Hi Hat Ha Hd. unfold tell. split; try done.
  - intros j t' Hj. rewrite mail_set. case_decide; subst; [|by apply H3].
    intros [Ht|Ht%elem_of_list_singleton]%elem_of_app; [by eapply H3|]. subst t'. auto.
  - intros k r Hk Hs Hdst Hst Hr. destruct (H4 k r Hk Hs Hdst Hst Hr) as [Hle [(t' & Ht' & Hb)|Hb]]; (split; [done|]).
    + left. exists t'. split; [|done]. rewrite mail_set. case_decide; subst; [|done]. apply elem_of_app. by left.
    + by right.
  - intros j t' l rec Hj. rewrite mail_set. case_decide; subst; [|by eapply H6].
    intros [Ht|Ht%elem_of_list_singleton]%elem_of_app; [by eapply H6|]. subst t'. eauto.
Qed.

(** A ping that changes its state. *)
Lemma pinged_set_call w n k s : pinged w -> l_calls w !! n = Some k ->
  (forall r, s = Done r -> k_src k ∈ V -> k_dst k ∈ V -> t0 < r -> r <= k_start k + lat /\
     exists t, t ∈ mail w (k_src k) /\ t_at t = r /\ t_about t = k_dst k) ->
  (s = Answered -> k_dst k ∈ V) ->
  pinged (set_call w n (set_state k s)).
Proof.
  intros [H1 H2 H3 H4 H5 H6 H7 H8] Hk Hs Hsa.
  assert (Hlen : (n < length (l_calls w))%nat) by by eapply lookup_lt_Some. split; try done.
  - simpl. intros k' r [m Hm]%elem_of_list_lookup. apply list_lookup_insert_Some in Hm as [(-> & <- & _)|[_ Hm]].
    + simpl. intros Hsrc Hdst -> Hr. destruct (Hs r eq_refl Hsrc Hdst Hr) as [? ?]. split; [done|by left].
    + apply H4. by eapply elem_of_list_lookup_2.
  - simpl. intros m k' Hm Hsrc Hdst Hne Hst.
    assert (Hb : exists m' k2, (m' < m)%nat /\ l_calls w !! m' = Some k2 /\ k_src k2 = k_src k' /\ k_dst k2 = k_dst k' /\
      k_start k' - int_ <= k_start k2).
    { apply list_lookup_insert_Some in Hm as [(-> & <- & _)|[_ Hm]]; [exact (H5 _ _ Hk Hsrc Hdst Hne Hst)|exact (H5 _ _ Hm Hsrc Hdst Hne Hst)]. }
    destruct Hb as (m' & k2 & Hlt & Hk2 & ? & ? & ?).
    destruct (decide (n = m')) as [->|Hne'].
    + rewrite Hk2 in Hk. injection Hk as ->. exists m', (set_state k s). rewrite list_lookup_insert by done. by split_and!.
    + exists m', k2. rewrite list_lookup_insert_ne by done. by split_and!.
  - simpl. intros k' [m Hm]%elem_of_list_lookup. apply list_lookup_insert_Some in Hm as [(-> & <- & _)|[_ Hm]].
    + simpl. intros Hst Hd. by destruct Hd; apply Hsa.
    + apply H8. by eapply elem_of_list_lookup_2.
Qed.

(** A heartbeat that does something; [rest]: what is left in its mailbox. *)
Lemma pinged_heart w i h ho h' rest : pinged w -> wgood w -> i ∈ V -> l_hearts w !! i = Some h -> hstep i h ho = Some h' ->
  ((rest = mail w i /\ forall j, h_pings h' !! j = h_pings h !! j) \/
   (exists t ord mid, mail w i = t :: rest /\ ho = handles skew w i t ord mid)) ->
  pinged (set_heart (set_mail w i rest) i (Some h')).
Proof.
  intros [H1 H2 H3 H4 H5 H6 H7 H8] Hw Hi Hh Hs Hc.
  assert (Hsub : forall t, t ∈ rest -> t ∈ mail w i).
  { destruct Hc as [[-> _]|(t & ord & mid & -> & _)]; [done|]. intros t' ?. by right. }
  assert (Hmail : forall j, mail (set_heart (set_mail w i rest) i (Some h')) j = if decide (i = j) then rest else mail w j).
  { intros j. rewrite <- mail_set. done. }
  split; try done.
  - intros j Hj. rewrite hearts_set. case_decide; [by eexists|]. auto.
  - intros j t Hj. rewrite Hmail. case_decide; subst; [|by apply H3]. intros Ht%Hsub. by eapply H3.
  - intros k r Hk Hsrc Hdst Hst Hr. simpl in Hk. destruct (H4 k r Hk Hsrc Hdst Hst Hr) as [Hle Hb]. split; [done|].
    rewrite Hmail, hearts_set. case_decide as Hd; [|done]. rewrite <- Hd in *. clear Hd Hsrc.
    destruct Hc as [[-> Hp]|(t & ord & mid & Hm & ->)].
    { destruct Hb as [Hb|(h1 & l & rec & Hh1 & Hp1 & Hl)]; [by left|]. right. exists h', l, rec. rewrite Hp. naive_solver. }
    assert (Ht : t ∈ mail w i) by (rewrite Hm; by left). destruct (wg_mail _ _ Hw _ _ Ht) as [Hta Htr].
    assert (Hnew : t_about t = k_dst k -> t0 < t_at t -> r <= t_at t ->
      exists h0 l rec, Some h' = Some h0 /\ h_pings h0 !! k_dst k = Some (POk l rec) /\ Z.of_N l <= lat /\ r + skew i <= rec).
    { intros Hab Hgt Hrt. destruct (H3 i t Hi Ht) as (l & rec & Hwh & Hl); [by rewrite Hab|done|].
      exists h', l, rec. split; [done|]. rewrite (pings_step _ _ _ _ _ _ _ _ _ _ _ Hs). unfold handles. rewrite Hwh, Hab, decide_True by done.
      split_and!; try done. rewrite (Htr _ _ Hwh). lia. }
    destruct Hb as [(t' & Ht' & Hat & Hab)|(h1 & l & rec & Hh1 & Hp1 & Hl & Hrec)].
    + rewrite Hm in Ht'. apply elem_of_cons in Ht' as [->|Ht']; [|left; by exists t'].
      right. apply Hnew; [done|by rewrite Hat|by rewrite Hat].
    + assert (h1 = h) as -> by congruence. pose proof (wg_heart_mail _ _ Hw _ _ _ _ _ _ Hh Hp1 Ht) as Hmt.
      destruct (decide (t_about t = k_dst k)) as [Hab|Hab].
      * right. apply Hnew; [done|lia|lia].
      * right. exists h', l, rec. split; [done|]. rewrite (pings_step _ _ _ _ _ _ _ _ _ _ _ Hs). unfold handles.
        destruct (t_what t); rewrite decide_False by done; done.
  - intros j t l rec Hj. rewrite Hmail. case_decide; subst; [|by eapply H6]. intros Ht%Hsub. by eapply H6.
  - intros j h1 n l rec Hj Hn. rewrite hearts_set. case_decide; subst; [|by eapply H7]. intros [= <-].
    destruct Hc as [[-> Hp]|(t & ord & mid & Hm & ->)]; [rewrite Hp; by eapply H7|].
    rewrite (pings_step _ _ _ _ _ _ _ _ _ _ _ Hs). unfold handles.
    assert (Ht : t ∈ mail w j) by (rewrite Hm; by left). destruct (wg_mail _ _ Hw _ _ Ht) as [Hta Htr].
    destruct (t_what t) as [p|] eqn:Ew; case_decide as Hd; try (by eapply H7); [|done].
    intros [= ->]. rewrite (Htr _ _ eq_refl). rewrite <- Hd in Hn. pose proof (H6 _ _ _ _ Hi Ht Hn Ew). lia.
Qed.

Lemma pinged_start w : wgood w -> l_now w = t0 -> l_live w = V -> (forall i, i ∈ V -> is_Some (l_hearts w !! i)) -> pinged w.
Proof.
  intros Hw Hn HV Hh. split; try done.
  - intros i t _ Ht _ Hlt. destruct (wg_mail _ _ Hw _ _ Ht). lia.
  - intros k r Hk _ _ Hst Hlt. destruct (wg_calls _ _ Hw _ Hk) as [_ Hc]. specialize (Hc _ Hst). lia.
  - intros n k Hk%elem_of_list_lookup_2 _ _ _ Hlt. destruct (wg_calls _ _ Hw _ Hk). lia.
  - intros i t l rec _ Ht _ _. destruct (wg_mail _ _ Hw _ _ Ht). lia.
  - intros i h j l rec _ _ Hi Hp. pose proof (hg_ping _ _ _ (wg_heart _ _ Hw _ _ Hi) _ _ _ Hp).
    unfold Lead_Model.clock in *. lia.
  - intros k Hk _ _. destruct (wg_calls _ _ Hw _ Hk). lia.
Qed.

Lemma pinged_step w o w' : pinged w -> wgood w -> timely w -> calm w o -> lstep w o = Some w' ->
  (forall i, i ∈ V -> fits w' i) -> pinged w'.
Proof.
  intros Hp Hw Ht Hc Hs Hf. pose proof Hp as [H1 H2 H3 H4 H5 H6 H7 H8].
  assert (HB : forall i, i ∈ V -> l_live w' = V -> is_Some (l_hearts w' !! i)).
  { intros i Hi Hl. eapply (beating_step _ _ _ _ _ _ _ _ w); [done|exact Hs|by apply Hf|by auto|by rewrite Hl]. }
  destruct o as [d|i r|i|i j ord|i j|n|n|n|i j|i j|i ord mid|i ord mid]; try done.
  - apply (inj Some) in Hs; subst w'. by split.
  - simpl in Hs. case_decide as Hl; [|done]. destruct (l_hearts w !! i) as [h|] eqn:Eh; [|done]. simpl in Hs.
    destruct (l_started w !! j) as [r|] eqn:Er; [|done]. simpl in Hs. apply (inj Some) in Hs; subst w'. rewrite H1 in Hl.
    destruct (hstep i h (HRegistry (DAdd ord r))) as [h'|] eqn:E; [|done].
    pose proof (pinged_heart w i h _ h' (mail w i) Hp Hw Hl Eh E) as HP.
    assert (HP' : pinged (set_heart (set_mail w i (mail w i)) i (Some h'))).
    { apply HP. left. split; [done|]. intros k. exact (pings_step _ _ _ _ _ _ _ _ _ _ _ E). }
    clear HP. destruct HP' as [P1 P2 P3 P4 P5 P6 P7 P8].
    assert (Hm : forall j, mail (set_heart (set_mail w i (mail w i)) i (Some h')) j = mail (set_heart w i (Some h')) j).
    { intros k. change (mail (set_mail w i (mail w i)) k = mail w k). rewrite mail_set. by case_decide; subst. }
    split; try done. intros k r'. rewrite <- Hm. apply P4.
  - simpl in Hs. case_decide as Hl; [|done]. apply (inj Some) in Hs; subst w'. split; try done.
    + simpl. intros k r [Hk|Hk%elem_of_list_singleton]%elem_of_app; [by apply H4|]. by subst k.
    + simpl. intros n k Hk Hsrc Hdst Hne Hst. apply lookup_app_Some in Hk as [Hk|[Hlen Hk]].
      * destruct (H5 _ _ Hk Hsrc Hdst Hne Hst) as (m & k' & ? & Hm & ?). exists m, k'. split; [done|].
        split; [|done]. by apply lookup_app_l_Some.
      * apply list_lookup_singleton_Some in Hk as [Hn <-]. simpl in *.
        destruct (tm_pings _ _ _ _ _ Ht i j) as (k & Hk & Hks & Hkd & Hkt); [by rewrite H1|by rewrite H1|done|done|].
        apply elem_of_list_lookup in Hk as [m Hm]. exists m, k. split_and!; try done.
        -- apply lookup_lt_Some in Hm. lia.
        -- by apply lookup_app_l_Some.
    + simpl. intros k [Hk|Hk%elem_of_list_singleton]%elem_of_app; [by apply H8|]. by subst k.
  - simpl in Hs. destruct (l_calls w !! n) as [k|] eqn:Ek; [|done]. simpl in Hs. destruct (k_state k) eqn:Es; try done.
    case_decide as Hd; [|done]. apply (inj Some) in Hs; subst w'. apply pinged_set_call; try done.
    intros _. by rewrite <- H1.
  - simpl in Hs. destruct (l_calls w !! n) as [k|] eqn:Ek; [|done]. simpl in Hs. destruct (k_state k) eqn:Es; try done.
    case_decide as Hd; [|done]. apply (inj Some) in Hs; subst w'.
    assert (Hin : k ∈ l_calls w) by by eapply elem_of_list_lookup_2.
    pose proof (tm_calls _ _ _ _ _ Ht k Hin Hd) as Hl. rewrite Es in Hl. rewrite H1 in Hd.
    destruct (wg_calls _ _ Hw _ Hin) as [Hst _].
    set (t := Note (l_now w) (k_dst k) (Some (POk (Z.to_N (l_now w - k_start k)) (clock w (k_src k))))).
    assert (Hpt : pinged (tell w (k_src k) t)).
    { apply pinged_tell; try done; simpl.
      - intros _. eexists _, _. split; [done|]. rewrite Z2N.id by lia. lia.
      - intros Hdead l rec _. pose proof (H8 k Hin Es Hdead). lia. }
    apply (pinged_set_call (tell w (k_src k) t) n k (Done (l_now w)) Hpt Ek).
    + intros r [= <-] _ _ _. split; [done|]. exists t. split; [|done]. unfold tell. rewrite mail_set, decide_True by done.
      apply elem_of_app. right. by apply elem_of_list_singleton.
    + done.
  - simpl in Hs. destruct (l_calls w !! n) as [k|] eqn:Ek; [|done]. simpl in Hs.
    assert (Hin : k ∈ l_calls w) by by eapply elem_of_list_lookup_2.
    set (t := Note (l_now w) (k_dst k) (Some PTimeout)) in *.
    assert (Hgoal : k_src k ∈ V -> k_dst k ∉ V -> pinged (set_call (tell w (k_src k) t) n (set_state k (Done (l_now w))))).
    { intros Hsrc Hdst. assert (Hpt : pinged (tell w (k_src k) t)) by (apply pinged_tell; done).
      apply (pinged_set_call (tell w (k_src k) t) n k (Done (l_now w)) Hpt Ek); [|done]. intros r _ _ Hd. by destruct Hdst. }
    destruct (k_state k) eqn:Es; try done; (case_decide as Hd; [|done]); destruct Hd as [Hd Hti]; apply (inj Some) in Hs; subst w';
      pose proof (tm_calls _ _ _ _ _ Ht k Hin Hd) as Hl; rewrite Es in Hl; rewrite H1 in *.
    + apply Hgoal; [done|]. intros Hdst. specialize (Hl Hdst). lia.
    + lia.
  - simpl in Hs. case_decide as Hl; [|done]. apply (inj Some) in Hs; subst w'. simpl in Hc. rewrite H1 in *. by apply pinged_tell.
  - simpl in Hs. case_decide as Hl; [|done]. destruct Hl as [Hl Hl']. apply (inj Some) in Hs; subst w'. rewrite H1 in *.
    by apply pinged_tell.
  - apply deliver_inv in Hs as (h & t & rest & Hl & Hh & Hm & Hw'). rewrite H1 in Hl.
    destruct (hstep i h (handles skew w i t ord mid)) as [h'|] eqn:E.
    + assert (HP : pinged (set_heart (set_mail w i rest) i (Some h'))).
      { eapply (pinged_heart w i h _ h' rest Hp Hw Hl Hh E). right. by exists t, ord, mid. }
      simpl in Hw'. destruct (t_what t); subst w'; [done|]. destruct HP as [P1 P2 P3 P4 P5 P6 P7 P8]. by split.
    + exfalso. destruct (HB i Hl) as [h1 Hh1]; [by simpl in Hw'; destruct (t_what t); subst w'|].
      simpl in Hw'. destruct (t_what t); subst w'; simpl in Hh1; by rewrite lookup_partial_alter in Hh1.
  - simpl in Hs. case_decide as Hl; [|done]. destruct (l_hearts w !! i) as [h|] eqn:Eh; [|done]. simpl in Hs.
    apply (inj Some) in Hs; subst w'. rewrite H1 in Hl.
    destruct (hstep i h (HTick ord (fun _ => clock w i) (learns w mid))) as [h'|] eqn:E.
    + pose proof (pinged_heart w i h _ h' (mail w i) Hp Hw Hl Eh E) as HP.
      assert (HP' : pinged (set_heart (set_mail w i (mail w i)) i (Some h'))).
      { apply HP. left. split; [done|]. intros k. exact (pings_step _ _ _ _ _ _ _ _ _ _ _ E). }
      clear HP. destruct HP' as [P1 P2 P3 P4 P5 P6 P7 P8].
      assert (Hm : forall j, mail (set_heart (set_mail w i (mail w i)) i (Some h')) j = mail (did_tick (set_heart w i (Some h')) i) j).
      { intros k. change (mail (set_mail w i (mail w i)) k = mail w k). rewrite mail_set. by case_decide; subst. }
      split; try done. intros k r'. rewrite <- Hm. apply P4.
    + exfalso. destruct (HB i Hl) as [h1 Hh1]; [done|]. simpl in Hh1. by rewrite lookup_partial_alter in Hh1.
Qed.

(** *** Fresh results *)
Lemma fresh_ping w i j : pinged w -> wgood w -> timely w -> i ∈ V -> j ∈ V -> i <> j -> t0 + int_ + lat + han < l_now w ->
  exists h l rec, l_hearts w !! i = Some h /\ h_pings h !! j = Some (POk l rec) /\ Z.of_N l <= lat /\
    l_now w + skew i - (int_ + lat + han) <= rec.
Proof.
  intros [H1 H2 H3 H4 H5 H6 H7 H8] Hw Ht Hi Hj Hne Hnow.
  set (mine k := k_src k = i /\ k_dst k = j /\ t0 < k_start k).
  set (seen k := exists h l rec, l_hearts w !! i = Some h /\ h_pings h !! j = Some (POk l rec) /\ Z.of_N l <= lat /\
    k_start k + skew i <= rec).
  (* a ping whose result is not known yet is young *)
  assert (Hyoung : forall k, k ∈ l_calls w -> mine k -> seen k \/ l_now w <= k_start k + lat + han).
  { intros k Hk (Hs & Hd & Hgt).
    pose proof (tm_calls _ _ _ _ _ Ht k Hk) as Hl. rewrite H1, Hs, Hd in Hl. specialize (Hl Hi).
    destruct (k_state k) as [| |r] eqn:Es.
    - right. specialize (Hl Hj). lia.
    - right. lia.
    - destruct (wg_calls _ _ Hw _ Hk) as [_ Hr]. specialize (Hr _ Es).
      destruct (H4 k r Hk) as [Hle [(t & Htm & Hat & Hab)|(h & l & rec & Hh & Hp & Hl' & Hrec)]]; rewrite ?Hs, ?Hd; try done; [lia|..].
      + right. rewrite Hs in Htm. pose proof (tm_mail _ _ _ _ _ Ht i t) as Hm. rewrite H1 in Hm. specialize (Hm Hi Htm). lia.
      + left. rewrite Hs in *. rewrite Hd in *. exists h, l, rec. split_and!; try done. lia. }
  (* among the pings that are young, the first one *)
  assert (Hfirst : forall n k, l_calls w !! n = Some k -> mine k -> l_now w - (int_ + lat + han) <= k_start k ->
    exists k', seen k' /\ l_now w - (int_ + lat + han) <= k_start k').
  { intros n. induction n as [n IH] using lt_wf_ind. intros k Hk Hm Hge.
    assert (Hkin : k ∈ l_calls w) by by eapply elem_of_list_lookup_2.
    destruct (Hyoung k Hkin Hm) as [?|Hy]; [by exists k|]. destruct Hm as (Hs & Hd & Hgt).
    destruct (H5 n k Hk) as (m & k' & Hlt & Hk' & Hs' & Hd' & Hst'); rewrite ?Hs, ?Hd; try done; [lia|].
    apply (IH m Hlt k' Hk'); [|lia]. split_and!; [congruence|congruence|lia]. }
  destruct (tm_pings _ _ _ _ _ Ht i j) as (k & Hk & Hks & Hkd & Hkt); [by rewrite H1|by rewrite H1|done|lia|].
  apply elem_of_list_lookup in Hk as [n Hn].
  destruct (Hfirst n k Hn) as (k' & (h & l & rec & ? & ? & ? & ?) & ?); [split_and!; [done|done|lia]|lia|].
  exists h, l, rec. split_and!; try done. lia.
Qed.
End calm.
