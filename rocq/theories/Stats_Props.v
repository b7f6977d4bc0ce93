(** Property C68: the sharding statistics. *)
From Verif Require Import Entity_Model Coord_Spec Coord_Proofs Host_Proofs Stats_Model Stats_Spec Stats_Proofs.
Local Open Scope N_scope.

Notation at_ shard_of self leader nodes l := (wrun shard_of (world_init self leader nodes) l).

(** An answer describes the coordinator at one moment of the call, and each listed shard at a
    moment after it: the numbers are right; a listed shard was allocated to that node, ran there,
    and had exactly these entities; no shard and no entity is listed twice; an allocated shard is
    missing only if it is allocated to the node that was asked and did not run there. *)
Theorem C68_report_partial shard_of self leader nodes l r :
  w_query (at_ shard_of self leader nodes l) = QDone (Some r) ->
  exists l0, l0 `prefix_of` l /\
    let c := w_coord (at_ shard_of self leader nodes l0) in
    counts_right c r /\
    (forall x, x ∈ cl_shards r -> c_shards c !! ls_shard x = Some (ls_node x) /\
       exists t, between l0 t l /\ shard_runs (at_ shard_of self leader nodes t) (ls_node x) (ls_shard x) /\
         forall id, id ∈ ls_entities x <-> has_entity (at_ shard_of self leader nodes t) (ls_node x) (ls_shard x) id) /\
    NoDup (map ls_shard (cl_shards r)) /\ NoDup (concat (map ls_entities (cl_shards r))) /\
    (forall s n, c_shards c !! s = Some n -> lists r s n \/
       (n = self /\ exists t, between l0 t l /\ ~ shard_runs (at_ shard_of self leader nodes t) self s)).
Proof.
  intros H. pose proof (stage_run shard_of (world_init self leader nodes) l eq_refl) as S. rewrite H in S.
  destruct S as (l0 & ord & sord & refs & reports & Hl & -> & [K1 K2 K3] & HF). exists l0. split; [done|]. intros c.
  set (w0 := world_init self leader nodes) in *.
  assert (Hrep : forall rep, rep ∈ reports -> exists r t eord a m, r ∈ refs /\ between l0 t l /\
            ref_shard r = sr_shard rep /\ ref_node self r = sr_node rep /\
            w_shards (wrun shard_of w0 t) !! (sr_node rep, sr_shard rep) = Some (a, m) /\ sr_entities rep = map fst (arrange eord m)).
  { intros rep Hin. apply elem_of_list_lookup in Hin as [i Hi]. destruct (Forall2_lookup_r _ _ _ _ _ HF Hi) as (r & Hr & t & eord & s & n & m & Hb & Hf & ->).
    destruct (find_shard_spec _ _ _ _ _ Hf) as (E1 & E2 & a & E3). rewrite wrun_self in E2. exists r, t, eord, a, m.
    split_and!; try done. apply elem_of_list_lookup. by exists i. }
  assert (Hshards : map ls_shard (map listed_of reports) = map ref_shard refs).
  { clear - HF. induction HF as [|r rep refs reports Hr HF IH]; [done|]. simpl. rewrite IH. f_equal.
    destruct Hr as (t & eord & s & n & m & _ & Hf & ->). by destruct (find_shard_spec _ _ _ _ _ Hf) as (-> & _). }
  assert (Hnd : NoDup (map ls_shard (map listed_of reports))).
  { rewrite Hshards. eapply sublist_NoDup; [exact K1|]. apply (arrange_NoDup sord). }
  split_and!.
  - apply counts_right_of. apply (wrun_coord shard_of l0 w0). apply coord_init_wf.
  - intros x (rep & -> & Hin)%elem_of_list_fmap. destruct (Hrep rep Hin) as (r & t & eord & a & m & Hr & Hb & E1 & E2 & E3 & E4).
    destruct (K2 r Hr) as [Hd _]. apply elem_of_arrange in Hd. change (w_self w0) with self in Hd. rewrite E1, E2 in Hd. split; [exact Hd|].
    exists t. split; [done|]. split; [by eexists|]. simpl. intros id. rewrite E4. split.
    + intros ([id' y] & -> & Hy)%elem_of_list_fmap. apply elem_of_arrange in Hy. exists a, m. split; [done|]. by eexists.
    + intros (a' & m' & Hm & y & Hy). rewrite E3 in Hm. injection Hm as <- <-. apply elem_of_list_fmap. exists (id, y). split; [done|].
      by apply elem_of_arrange.
  - exact Hnd.
  - (* entities *)
    assert (Hpl : forall t, placed shard_of (wrun shard_of w0 t)) by (intros t; apply placed_run, placed_init).
    simpl. clear HF. revert Hnd Hrep. clear - Hpl. intros Hnd Hrep. rewrite map_map in *. simpl in *.
    assert (Hat : forall rep id, rep ∈ reports -> id ∈ sr_entities rep -> shard_of id = sr_shard rep).
    { intros rep id Hin Hid. destruct (Hrep rep Hin) as (r & t & eord & a & m & _ & _ & _ & _ & E3 & E4). rewrite E4 in Hid.
      apply elem_of_list_fmap in Hid as ([id' y] & -> & Hy). apply elem_of_arrange in Hy. eapply (proj1 (Hpl t)); [exact E3|]. by eexists. }
    assert (Hone : forall rep, rep ∈ reports -> NoDup (sr_entities rep)).
    { intros rep Hin. destruct (Hrep rep Hin) as (r & t & eord & a & m & _ & _ & _ & _ & E3 & ->). apply (arrange_NoDup eord m). }
    clear Hrep. induction reports as [|rep reports IH]; [constructor|]. simpl in *. apply NoDup_cons in Hnd as [Hni Hnd].
    apply NoDup_app. split_and!.
    + apply Hone. constructor.
    + intros id Hid Hin. apply elem_of_concat in Hin as (ids & Hids & Hin). apply elem_of_list_fmap in Hin as (rep' & -> & Hin).
      apply Hni. rewrite <- (Hat rep id) by (done || constructor). rewrite (Hat rep' id) by (done || by constructor).
      apply elem_of_list_fmap. by exists rep'.
    + apply IH; [done| |]; intros rep' **; [apply Hat|apply Hone]; try done; by constructor.
  - intros s n Hs. destruct (K3 s n) as [(r & Hr & E)|(-> & ?)].
    + simpl. by apply elem_of_arrange.
    + left. destruct (K2 r Hr) as [Hd _]. simpl in Hd. apply elem_of_arrange in Hd.
      apply elem_of_list_lookup in Hr as [i Hi]. destruct (Forall2_lookup_l _ _ _ _ _ HF Hi) as (rep & Hrp & t & eord & s' & n' & m & _ & Hf & ->).
      destruct (find_shard_spec _ _ _ _ _ Hf) as (E1 & E2 & _). rewrite wrun_self in E2. rewrite E in *.
      change (w_self (world_init self leader nodes)) with self in *.
      exists (listed_of (shard_report_of s' n' m eord)). split; [|split].
      * apply elem_of_list_fmap. eexists. split; [done|]. apply elem_of_list_lookup. by exists i.
      * exact E1.
      * simpl. rewrite E2. fold c in Hd. rewrite Hs in Hd. by injection Hd.
    + right. done.
Qed.
Print Assumptions C68_report_partial.

(** While a shard actor runs through the whole call, all entities it knew when the coordinator
    answered are listed. *)
Theorem C68_entities_kept_partial shard_of self leader nodes l r :
  w_query (at_ shard_of self leader nodes l) = QDone (Some r) ->
  exists l0, l0 `prefix_of` l /\
    forall x a id, x ∈ cl_shards r ->
      shard_actor (at_ shard_of self leader nodes l0) (ls_node x) (ls_shard x) = Some a ->
      shard_actor (at_ shard_of self leader nodes l) (ls_node x) (ls_shard x) = Some a ->
      has_entity (at_ shard_of self leader nodes l0) (ls_node x) (ls_shard x) id -> id ∈ ls_entities x.
Proof.
  intros H. destruct (C68_report_partial shard_of self leader nodes l r H) as (l0 & Hl & _ & Hx & _). exists l0. split; [done|].
  intros x a id Hin H0 H1 Hid. destruct (Hx x Hin) as (_ & t & [[k1 ->] [k2 ->]] & _ & He). apply He.
  rewrite <- app_assoc, wrun_app in H1. rewrite wrun_app.
  assert (Hn : forall y b m, w_shards (at_ shard_of self leader nodes l0) !! y = Some (b, m) -> b < w_next (at_ shard_of self leader nodes l0)).
  { apply numbers_run. intros *. simpl. by rewrite lookup_empty. }
  destruct (same_actor shard_of _ k1 k2 _ _ _ Hn H0 H1) as (m & Hm & Hk). exists a, m. split; [done|]. by apply Hk.
Qed.
Print Assumptions C68_entities_kept_partial.

(** When nothing else happens and every allocated shard runs, the call does not fail, and its
    answer is exact. *)
Theorem C68_exact_partial shard_of self leader nodes l0 l :
  let w := at_ shard_of self leader nodes l0 in
  w_query w = QNone -> settled w -> Forall (fun o => asking o = true) l ->
  w_query (wrun shard_of w l) <> QPanicked /\ w_query (wrun shard_of w l) <> QDone None /\
  forall r, w_query (wrun shard_of w l) = QDone (Some r) ->
    (forall s n, lists r s n <-> c_shards (w_coord w) !! s = Some n) /\
    (forall x id, x ∈ cl_shards r -> id ∈ ls_entities x <-> has_entity w (ls_node x) (ls_shard x) id) /\
    cl_total_shards r = N.of_nat (length (cl_shards r)) /\ counts_right (w_coord w) r.
Proof.
  intros w Hq Hset Hask. pose proof (stage_run shard_of w l Hq) as S.
  assert (Hsame : forall t, t `prefix_of` l -> w_coord (wrun shard_of w t) = w_coord w /\ w_shards (wrun shard_of w t) = w_shards w).
  { intros t [k ->]. apply asking_run. by apply Forall_app in Hask as [? _]. }
  assert (Hfail : forall o, o ∈ l -> failure o = false).
  { intros o Ho. rewrite Forall_forall in Hask. apply elem_of_list_In in Ho. 
    assert (asking o = true) as Ha by (apply Hask; by apply elem_of_list_In). destruct o as [| | | | | | |[] []|[] ? ?| |? [] ?]; done. }
  assert (Hself : forall t, w_self (wrun shard_of w t) = w_self w) by (intros t; apply wrun_self).
  assert (Hfind : forall l1 ord sord refs r t, l1 `prefix_of` l -> looked shard_of w l1 l (cr_shards (coord_report_of (w_coord (wrun shard_of w l1)) ord sord)) refs ->
            r ∈ refs -> between l1 t l -> find_shard (wrun shard_of w t) r <> None).
  { intros l1 ord sord refs r t Hl [K1 K2 K3] Hr [_ Ht]. destruct (K2 r Hr) as [Hd Hm]. simpl in Hd. apply elem_of_arrange in Hd.
    destruct (Hsame l1 Hl) as [Hc _]. rewrite Hc in Hd. apply Hset in Hd. destruct (Hsame t Ht) as [_ Hs]. unfold find_shard. rewrite Hself, Hs.
    destruct r as [s a|s n]; simpl in *.
    - destruct Hm as (t' & [_ Ht'] & Ha). unfold shard_actor in Ha. destruct (Hsame t' Ht') as [_ Hs']. rewrite Hs' in Ha.
      destruct (w_shards w !! (w_self w, s)) as [[b m]|]; [|done]. simpl in Ha. injection Ha as ->. by rewrite N.eqb_refl.
    - destruct Hd as [[b m] Hd]. by rewrite Hd. }
  split_and!.
  - intros E. rewrite E in S. destruct S as [(o & Ho & Hf)|(l1 & ord & sord & refs & r & t & Hl & Hlk & Hr & Hb & Hf)].
    + apply Hfail in Ho. congruence.
    + by eapply Hfind.
  - intros E. rewrite E in S. destruct S as (kn & up & Ho & Hf). rewrite Forall_forall in Hask.
    pose proof (Hask _ Ho) as Ha. by destruct kn, up.
  - intros r E. rewrite E in S. destruct S as (l1 & ord & sord & refs & reports & Hl & -> & Hlk & HF).
    destruct (Hsame l1 Hl) as [Hc _]. rewrite Hc in *. pose proof Hlk as [K1 K2 K3].
    assert (Hcw : cwf (w_coord w)) by (apply wrun_coord, coord_init_wf).
    assert (Hrep : forall rep, rep ∈ reports -> exists r eord a m, r ∈ refs /\ ref_shard r = sr_shard rep /\ ref_node (w_self w) r = sr_node rep /\
              w_shards w !! (sr_node rep, sr_shard rep) = Some (a, m) /\ sr_entities rep = map fst (arrange eord m)).
    { intros rep Hin. apply elem_of_list_lookup in Hin as [i Hi].
      destruct (Forall2_lookup_r _ _ _ _ _ HF Hi) as (r & Hr & t & eord & s & n & m & [_ Ht] & Hf & ->).
      destruct (find_shard_spec _ _ _ _ _ Hf) as (E1 & E2 & a & E3). rewrite Hself in E2. destruct (Hsame t Ht) as [_ Hs]. rewrite Hs in E3.
      exists r, eord, a, m. split_and!; try done. apply elem_of_list_lookup. by exists i. }
    assert (Hall : forall s n, c_shards (w_coord w) !! s = Some n -> exists r, r ∈ refs /\ ref_shard r = s).
    { intros s n Hs. destruct (K3 s n) as [?|(-> & t & [_ Ht] & Hn)]; [simpl; by apply elem_of_arrange|done|]. exfalso. apply Hn.
      unfold shard_runs. destruct (Hsame t Ht) as [_ ->]. by apply Hset. }
    assert (Hlen : length reports = length refs) by (symmetry; by eapply Forall2_length).
    assert (Hlists : forall s n, c_shards (w_coord w) !! s = Some n -> lists (cluster_stats_of (coord_report_of (w_coord w) ord sord) reports) s n).
    { intros s n Hs. destruct (Hall s n Hs) as (r & Hr & E1). destruct (K2 r Hr) as [Hd _]. simpl in Hd. apply elem_of_arrange in Hd.
      apply elem_of_list_lookup in Hr as [i Hi]. destruct (Forall2_lookup_l _ _ _ _ _ HF Hi) as (rep & Hrp & t & eord & s' & n' & m & _ & Hf & ->).
      destruct (find_shard_spec _ _ _ _ _ Hf) as (E2 & E3 & _). rewrite Hself in E3.
      exists (listed_of (shard_report_of s' n' m eord)). split; [|split; simpl; [congruence|]].
      - apply elem_of_list_fmap. eexists. split; [done|]. apply elem_of_list_lookup. by exists i.
      - rewrite E1, Hs in Hd. by injection Hd as ->. }
    split_and!.
    + intros s n. split; [|apply Hlists]. intros (x & Hx & <- & <-). apply elem_of_list_fmap in Hx as (rep & -> & Hin).
      destruct (Hrep rep Hin) as (r & eord & a & m & Hr & E1 & E2 & _). destruct (K2 r Hr) as [Hd _]. apply elem_of_arrange in Hd.
      simpl. rewrite <- E1, <- E2. exact Hd.
    + intros x id Hx. apply elem_of_list_fmap in Hx as (rep & -> & Hin). destruct (Hrep rep Hin) as (r & eord & a & m & _ & _ & _ & E3 & E4).
      simpl. rewrite E4. split.
      * intros ([id' y] & -> & Hy)%elem_of_list_fmap. apply elem_of_arrange in Hy. exists a, m. split; [done|]. by eexists.
      * intros (a' & m' & Hm & y & Hy). rewrite E3 in Hm. injection Hm as <- <-. apply elem_of_list_fmap. exists (id, y). split; [done|].
        by apply elem_of_arrange.
    + simpl. rewrite map_length, Hlen. f_equal. rewrite <- (map_length ref_shard refs).
      assert (Hp : map ref_shard refs ≡ₚ (arrange sord (c_shards (w_coord w))).*1).
      { apply NoDup_Permutation; [eapply sublist_NoDup; [exact K1|apply arrange_NoDup]|apply arrange_NoDup|]. intros s. split.
        - intros (r & -> & Hr)%elem_of_list_fmap. destruct (K2 r Hr) as [Hd _]. apply elem_of_list_fmap.
          by exists (ref_shard r, ref_node (w_self w) r).
        - intros ([s' n] & -> & Hin)%elem_of_list_fmap. apply elem_of_arrange in Hin. destruct (Hall _ _ Hin) as (r & Hr & <-).
          apply elem_of_list_fmap. by exists r. }
      rewrite Hp, fmap_length, (arrange_perm sord (c_shards (w_coord w))). done.
    + by apply counts_right_of.
Qed.
Print Assumptions C68_exact_partial.

(** A call that gets no answer met an error, or a shard that is allocated to a node but does not
    run there (any more) when it is asked. *)
Theorem C68_panic_partial shard_of self leader nodes l :
  w_query (at_ shard_of self leader nodes l) = QPanicked ->
  (exists o, o ∈ l /\ failure o = true) \/
  exists l0 s n, l0 `prefix_of` l /\ c_shards (w_coord (at_ shard_of self leader nodes l0)) !! s = Some n /\
    exists t, between l0 t l /\
      (~ shard_runs (at_ shard_of self leader nodes t) n s \/
       exists t1, between l0 t1 l /\ shard_actor (at_ shard_of self leader nodes t1) n s <> shard_actor (at_ shard_of self leader nodes t) n s).
Proof.
  intros H. pose proof (stage_run shard_of (world_init self leader nodes) l eq_refl) as S. rewrite H in S.
  destruct S as [?|(l0 & ord & sord & refs & r & t & Hl & [K1 K2 K3] & Hr & Hb & Hf)]; [by left|right].
  destruct (K2 r Hr) as [Hd Hm]. simpl in Hd. apply elem_of_arrange in Hd. exists l0, (ref_shard r), (ref_node self r).
  split; [done|]. split; [exact Hd|]. exists t. split; [done|]. unfold find_shard in Hf. rewrite wrun_self in Hf. unfold shard_runs, shard_actor in *.
  destruct r as [s a|s n]; simpl in *.
  - destruct (w_shards (at_ shard_of self leader nodes t) !! (self, s)) as [[b m]|] eqn:E; [|left; by intros [? ?]].
    right. destruct Hm as (t1 & Hb1 & Ha). exists t1. split; [done|]. rewrite Ha. simpl. intros [= ->]. by rewrite N.eqb_refl in Hf.
  - left. destruct (w_shards (at_ shard_of self leader nodes t) !! (n, s)) as [[b m]|]; [done|]. by intros [? ?].
Qed.
Print Assumptions C68_panic_partial.

(** [null] is the answer only for a type that is not attached, or a host that is gone. *)
Theorem C68_null_partial shard_of self leader nodes l :
  w_query (at_ shard_of self leader nodes l) = QDone None -> exists known up, WAsk known up ∈ l /\ known && up = false.
Proof. intros H. pose proof (stage_run shard_of (world_init self leader nodes) l eq_refl) as S. by rewrite H in S. Qed.
Print Assumptions C68_null_partial.

(** A shard that runs was started on its node, and neither has it stopped nor has the node crashed
    since. *)
Lemma runs_since shard_of self leader nodes l n s : shard_runs (at_ shard_of self leader nodes l) n s ->
  exists a b, l = a ++ WShardStarted n s :: b /\ WCrash n ∉ b /\ WShardStopped n s ∉ b.
Proof.
  induction l as [|o l IH] using rev_ind; intros H; [by destruct H|].
  assert (E : at_ shard_of self leader nodes (l ++ [o]) = wstep shard_of (at_ shard_of self leader nodes l) o) by (unfold at_, wrun; by rewrite fold_left_app).
  rewrite E in H. clear E. set (w := at_ shard_of self leader nodes l) in *.
  assert (K : o <> WCrash n -> o <> WShardStopped n s -> shard_runs w n s ->
    exists a b, l ++ [o] = a ++ WShardStarted n s :: b /\ WCrash n ∉ b /\ WShardStopped n s ∉ b).
  { intros H1 H2 Hw. destruct (IH Hw) as (a & b & -> & Hb1 & Hb2). exists a, (b ++ [o]). rewrite <- app_assoc. split; [done|].
    split; apply not_elem_of_app; (split; [done|]); intros ?%elem_of_list_singleton; congruence. }
  assert (Ins : forall n' s' v, is_Some (w_shards w !! (n', s')) -> is_Some (<[(n', s') := v]> (w_shards w) !! (n, s)) -> shard_runs w n s).
  { intros n' s' v Hw [y Hy]. apply lookup_insert_Some in Hy as [[[= <- <-] _]|[_ Hy]]; [exact Hw|by exists y]. }
  destruct o as [c|n' s'|n' s'|n'|n' id recipe known persisted|n' id ok|e|known up|ok ord sord| |i ok eord]; cbn [wstep] in H.
  - destruct (cstep _ c) as [[]|]; by apply K.
  - destruct (w_shards w !! (n', s')) eqn:Ew; [by apply K|]. destruct H as [y Hy]. cbn in Hy.
    apply lookup_insert_Some in Hy as [[[= -> ->] _]|[_ Hy]].
    + exists l, []. split; [done|]. split; apply not_elem_of_nil.
    + apply K; [done|done|by exists y].
  - destruct H as [y Hy]. cbn in Hy. apply lookup_delete_Some in Hy as [Hne Hy]. apply K; [done| |by exists y]. congruence.
  - destruct H as [y Hy]. cbn in Hy. apply map_filter_lookup_Some in Hy as [Hy Hne]. cbn in Hne. apply K; [congruence|done|by exists y].
  - destruct (w_shards w !! (n', shard_of id)) as [[a m]|] eqn:Ew; [|by apply K].
    destruct (on_entity_request m _) as [m' eff]. apply K; [done|done|]. by eapply (Ins n' (shard_of id)); [rewrite Ew|exact H].
  - destruct (w_shards w !! (n', shard_of id)) as [[a m]|] eqn:Ew; [|by apply K].
    destruct ok; [|by apply K]. apply K; [done|done|]. by eapply (Ins n' (shard_of id)); [rewrite Ew|exact H].
  - by apply K.
  - destruct (w_query w); by apply K.
  - destruct (w_query w); by apply K.
  - destruct (w_query w) as [| |cr [|[]] refs| | |]; by apply K.
  - destruct (w_query w) as [| | |cr slots| |]; try by apply K. destruct (slots !! i) as [[r []]|]; by apply K.
Qed.
(** A shard that is listed was allocated to its node when the coordinator answered, and ran there
    then or later: started on the node, and not stopped and the node not crashed since. *)
Theorem C68_running shard_of self leader nodes l r x :
  w_query (at_ shard_of self leader nodes l) = QDone (Some r) -> x ∈ cl_shards r ->
  exists l0 t a b, between l0 t l /\ c_shards (w_coord (at_ shard_of self leader nodes l0)) !! ls_shard x = Some (ls_node x) /\
    t = a ++ WShardStarted (ls_node x) (ls_shard x) :: b /\ WCrash (ls_node x) ∉ b /\ WShardStopped (ls_node x) (ls_shard x) ∉ b.
Proof.
  intros H Hx. destruct (C68_report_partial _ _ _ _ _ _ H) as (l0 & _ & _ & HR & _). destruct (HR x Hx) as (Hc & t & Ht & Hruns & _).
  destruct (runs_since _ _ _ _ _ _ _ Hruns) as (a & b & E & H1 & H2). by exists l0, t, a, b.
Qed.
Print Assumptions C68_running.

(** Whatever has happened, once the coordinator has answered, the call ends after at most as many
    further answers as it still waits for: two for each shard to be looked up, one for each
    shard that was asked. *)
Theorem C68_progress_partial shard_of self leader nodes l :
  let w := at_ shard_of self leader nodes l in
  open_query (w_query w) -> w_query w <> QCoordinator ->
  exists l', (length l' <= steps_left (w_query w))%nat /\ Forall (fun o => asking o = true) l' /\
    ~ open_query (w_query (wrun shard_of w l')).
Proof. intros w Ho Hc. apply call_ends; [by apply live_run|done|done]. Qed.
Print Assumptions C68_progress_partial.

(** The total for one node is the number of shards its host knows of, if every shard that
    reports ready is expected. *)
Theorem C68_host_total_partial {R} (n : N) (l : list (hmsg R)) sord rord :
  expected_ready (host_init n) l ->
  (node_stats (hrun (host_init n) l).1 sord rord).1.1 = size (known_shards (hrun (host_init n) l).1).
Proof.
  intros H. rewrite <- apart_size; [done|]. apply run_apart; [|done]. intros s. simpl. by rewrite lookup_empty; intros [? ?].
Qed.
Print Assumptions C68_host_total_partial.

(** * What is wrong *)

(** A shard allocated to the asked node that has not started is counted but not listed. *)
Theorem C68_missing_refuted :
  match w_query (at_ (fun id => id mod 4) 5 5 [(5, true)]
          [WCoord (COAllocate 1 false true []); WAsk true true; WCoordAnswers true [] []; WLookup]) with
  | QDone (Some r) => cl_total_shards r = 1 /\ cl_shards r = []
  | _ => False
  end.
Proof. vm_compute. done. Qed.
Print Assumptions C68_missing_refuted.

(** One shard of another node that has not started, and there is no answer, whatever the
    other shards say. *)
Theorem C68_no_answer_refuted :
  w_query (at_ (fun id => id mod 4) 5 5 [(5, true); (6, true)]
    [WCoord (COAllocate 1 false true [5]); WShardStarted 5 1; WCoord (COAllocate 2 false true [6]); WAsk true true;
     WCoordAnswers true [] []; WLookup; WLookup; WShardAnswers 0 true []; WShardAnswers 1 true []]) = QPanicked.
Proof. vm_compute. done. Qed.
Print Assumptions C68_no_answer_refuted.

(** Entities whose actors have stopped are listed and counted. *)
Theorem C68_stopped_refuted :
  let w := at_ (fun id => id mod 4) 5 5 [(5, true)]
    [WCoord (COAllocate 1 false true []); WShardStarted 5 1; WRequest 5 9 (Some 70) true true; WCreated 5 9 true; WEntityStopped 1;
     WAsk true true; WCoordAnswers true [] []; WLookup; WShardAnswers 0 true []] in
  match w_query w with
  | QDone (Some r) => elements (w_live w) = [] /\ cl_total_entities r = 1 /\ map ls_entities (cl_shards r) = [[9]]
  | _ => False
  end.
Proof. vm_compute. done. Qed.
Print Assumptions C68_stopped_refuted.

(** The statistics of one node never name a shard. *)
Theorem C68_node_lists_refuted {R} (h : host R) sord rord : (node_stats h sord rord).1.2 = [] /\ (node_stats h sord rord).2 = [].
Proof. done. Qed.
Print Assumptions C68_node_lists_refuted.

(** A shard that has been moved away while it started counts twice. *)
Theorem C68_host_twice_refuted :
  let h := (hrun (R := N) (host_init 5) [MAllocated 7 5; MAllocated 7 6; MReady 7 0]).1 in
  (node_stats h [] []).1.1 = 2%nat /\ elements (known_shards h) = [7].
Proof. vm_compute. done. Qed.
Print Assumptions C68_host_twice_refuted.

(** * Cases *)

(** Two nodes, three shards, entities on both; while the call is under way an entity is added, a
    node comes and a shard is allocated. *)
Definition ex_before : list wop :=
  [WCoord (COAllocate 1 false true [5]); WShardStarted 5 1; WCoord (COAllocate 2 false true [6]); WShardStarted 6 2;
   WCoord (COAllocate 3 false true [6]); WShardStarted 5 3; WShardStarted 6 3;
   WRequest 5 9 (Some 70) true true; WCreated 5 9 true; WRequest 6 2 (Some 70) true true; WRequest 6 6 (Some 71) true true;
   WRequest 6 10 None true true].
Definition ex_ask : list wop :=
  [WAsk true true; WCoordAnswers true [5; 6] [1; 2; 3]; WLookup; WLookup; WLookup;
   WShardAnswers 1 true []; WShardAnswers 0 true []; WShardAnswers 2 true []].
Definition ex_during : list wop :=
  [WAsk true true; WCoordAnswers true [5; 6] [1; 2; 3]; WRequest 5 13 (Some 70) true true; WLookup; WLookup; WCoord (CONodeAdded 8);
   WLookup; WShardAnswers 1 true []; WRequest 6 14 (Some 70) true false; WCoord (COAllocate 0 false true [8]);
   WShardAnswers 0 true [13; 9]; WShardAnswers 2 true []].
Notation ex_at l := (at_ (fun id => id mod 4) 5 5 [(5, true); (6, true)] l).

Example C68_case_during :
  match w_query (ex_at (ex_before ++ ex_during)) with
  | QDone (Some r) =>
      cl_total_shards r = 3 /\ cl_total_nodes r = 2 /\ cl_available r = 2 /\ cl_total_entities r = 4 /\
      map (fun x => (ls_shard x, ls_node x, ls_count x)) (cl_shards r) = [(1, 5, 2); (2, 6, 2); (3, 6, 0)] /\
      map ls_entities (cl_shards r) = [[13; 9]; [2; 6]; []]
  | _ => False
  end.
Proof. vm_compute. done. Qed.
Example C68_case_exact :
  w_query (ex_at ex_before) = QNone /\ settled (ex_at ex_before) /\ Forall (fun o => asking o = true) ex_ask /\
  match w_query (wrun (fun id => id mod 4) (ex_at ex_before) ex_ask) with QDone (Some r) => cl_total_entities r = 3 | _ => False end.
Proof.
  split_and!; [done| |by repeat constructor|vm_compute; done].
  intros s n H. assert (Hin : (s, n) ∈ map_to_list (c_shards (w_coord (ex_at ex_before)))) by (by apply elem_of_map_to_list).
  revert Hin. clear H. assert (E : map_to_list (c_shards (w_coord (ex_at ex_before))) = [(1, 5); (3, 6); (2, 6)]) by (vm_compute; reflexivity).
  rewrite E. unfold shard_runs. intros [Hin|[Hin|[Hin|[]%elem_of_nil]%elem_of_cons]%elem_of_cons]%elem_of_cons; injection Hin as -> ->; vm_compute; by eexists.
Qed.
(** The same actors throughout; entity 9 was there before. *)
Example C68_case_kept :
  shard_actor (ex_at (ex_before ++ take 2 ex_during)) 5 1 = Some 0 /\ shard_actor (ex_at (ex_before ++ ex_during)) 5 1 = Some 0 /\
  has_entity (ex_at (ex_before ++ take 2 ex_during)) 5 1 9.
Proof. split_and!; [by vm_compute..|]. unfold has_entity. do 2 eexists. split; [vm_compute; reflexivity|]. vm_compute. by eexists. Qed.
(** In the middle: a lookup has been made, two are to come. *)
Example C68_case_progress :
  let w := ex_at (ex_before ++ take 4 ex_during) in open_query (w_query w) /\ w_query w <> QCoordinator /\ steps_left (w_query w) = 5%nat.
Proof. vm_compute. done. Qed.
Example C68_case_host :
  let l := [MAllocated 7 5; MAllocated 8 6; MReady 7 0; MRequest 7 1; MAllocated 9 5; MStop 9 (0, 6); MAllocated 9 6] in
  expected_ready (host_init 5) l /\ (node_stats (hrun (host_init 5) l).1 [] []).1.1 = 3%nat.
Proof. split; [|vm_compute; done]. cbn [expected_ready]. split_and!; try done. Qed.
