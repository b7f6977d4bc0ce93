(** Properties C42 to C45, C47 and C51: the shard coordinator. *)
From Verif Require Import Coord_Model Coord_Spec Coord_Proofs.
Local Open Scope string_scope.
Local Open Scope list_scope.
Local Open Scope N_scope.

(** * C42 *)

(** No history makes the coordinator panic, and its tables always agree: a shard has at most
    one owner, the owner is a known node and lists the shard, and nobody else does. *)
Theorem C42_consistent self nodes ops :
  exists c eff, crun (coord_init self nodes) ops = Some (c, eff) /\ consistent c.
Proof.
  destruct (crun_wf ops _ (coord_init_wf self nodes)) as (c & eff & H & [Hc _] & _). eauto.
Qed.
Print Assumptions C42_consistent.

(** In particular two nodes never list the same shard. *)
Theorem C42_one_owner self nodes ops c eff s n n' :
  crun (coord_init self nodes) ops = Some (c, eff) -> s ∈ holds c n -> s ∈ holds c n' -> n = n' /\ c_shards c !! s = Some n.
Proof.
  intros E H H'. destruct (crun_wf ops _ (coord_init_wf self nodes)) as (c1 & e1 & E1 & [Hc _] & _).
  rewrite E in E1. injection E1 as <- <-. unfold holds in *.
  destruct (c_hosts c !! n) as [h|] eqn:Hn; [|set_solver]. destruct (c_hosts c !! n') as [h'|] eqn:Hn'; [|set_solver].
  assert (E1 : c_shards c !! s = Some n) by (apply Hc; eauto). assert (E2 : c_shards c !! s = Some n') by (apply Hc; eauto).
  split; [congruence|done].
Qed.
Print Assumptions C42_one_owner.

(** The statistics add up. *)
Theorem C42_stats self nodes ops c eff ord sord :
  crun (coord_init self nodes) ops = Some (c, eff) ->
  let '(total, shards, per_node) := stats c ord sord in
  total = length shards /\ total = sum_list (map (fun x => x.1.2) per_node) /\
  (forall s n, (s, n) ∈ shards <-> c_shards c !! s = Some n).
Proof.
  intros E. destruct (crun_wf ops _ (coord_init_wf self nodes)) as (c1 & e1 & E1 & [Hc _] & _).
  rewrite E in E1. injection E1 as <- <-. simpl. split_and!.
  - rewrite (arrange_perm sord (c_shards c)). done.
  - rewrite (consistent_total c Hc). unfold total_held. rewrite map_map. simpl.
    change (map ?f ?l) with (f <$> l). by rewrite (arrange_perm ord (c_hosts c)).
  - intros s n. apply elem_of_arrange.
Qed.
Print Assumptions C42_stats.

Definition ex_ops : list cop :=
  [COAllocate 1 false true []; COAllocate 2 false true []; COAllocate 3 false true []; CONodeAdded 9;
   CORebalanceAll [] []; COAllocate 1 true true []; COAllocate 4 false false []; CONodeUnavailable 9 [] [];
   CONodeAdded 9; CORebalanceShards [2; 2; 77] []].
Example C42_case :
  match crun (coord_init 5 [(5, true); (6, true); (7, false)]) ex_ops with
  | Some (c, eff) => map (fun s => bool_decide (is_Some (c_shards c !! s))) [1; 2; 3; 4] = [true; false; false; false] /\ length (stops eff) = 3%nat
  | None => False
  end.
Proof. vm_compute. done. Qed.

(** * C43 *)

(** An unallocated shard goes to a ready node with the fewest shards; that node is told first,
    then all other ready nodes once each. Holds in every reachable state and for every
    iteration order. *)
Theorem C43_allocates c s ord : consistent c -> c_shards c !! s = None -> (exists n, ready c n) ->
  exists n rest c', on_allocate ord true c s false = (c', [CPersist s; CTell s n (n :: rest); CAnswer (Allocated s n)]) /\
    c_shards c' !! s = Some n /\ s ∈ holds c' n /\
    ready c n /\ (forall n', ready c n' -> (size (holds c n) <= size (holds c n'))%nat) /\
    NoDup (n :: rest) /\ (forall n', n' ∈ n :: rest <-> ready c n') /\
    (forall s', s' <> s -> c_shards c' !! s' = c_shards c !! s').
Proof.
  intros Hc Hs [m Hm]. destruct (allocate_vacant ord c s Hs) as [[_ H]|(n & h & rest & Hn & Hr & Hmin & Hnd & Hall & E)].
  - exfalso. apply ready_iff in Hm as (h & Hh & Hr). specialize (H _ _ Hh). congruence.
  - assert (Hnot : s ∉ h_shards h).
    { intros Hin. assert (c_shards c !! s = Some n) by (apply Hc; eauto). congruence. }
    exists n, rest. eexists. split_and!.
    + unfold on_allocate. rewrite Hs, E. rewrite decide_False by done. reflexivity.
    + simpl. apply lookup_insert.
    + unfold holds. simpl. rewrite lookup_insert. simpl. set_solver.
    + apply ready_iff. eauto.
    + intros n' (h' & Hh' & Hr')%ready_iff. unfold holds. rewrite Hn, Hh'. by eapply Hmin.
    + done.
    + intros n'. rewrite Hall, ready_iff. done.
    + intros s' Hne. simpl. by rewrite lookup_insert_ne.
Qed.
Print Assumptions C43_allocates.

(** An allocated shard stays where it is and its owner is reported; nothing else happens. *)
Theorem C43_already_allocated c s n ord p rb : c_shards c !! s = Some n ->
  on_allocate ord p c s rb = (c, [CAnswer (AlreadyAllocated s n)]).
Proof. intros H. unfold on_allocate. by rewrite H. Qed.
Print Assumptions C43_already_allocated.

(** Without a ready node, or if the request cannot be persisted, nothing is allocated. *)
Theorem C43_no_ready_node c s ord : c_shards c !! s = None -> (forall n, ~ ready c n) ->
  on_allocate ord true c s false = (c, [CPersist s; CAnswer NotAllocated]).
Proof. intros Hs Hn. unfold on_allocate. rewrite Hs, (allocate_not_ready ord c s Hs Hn). done. Qed.
Print Assumptions C43_no_ready_node.
Theorem C43_persist_failure c s ord : c_shards c !! s = None ->
  on_allocate ord false c s false = (c, [CAnswer PersistFailed]).
Proof. intros Hs. unfold on_allocate. by rewrite Hs. Qed.
Print Assumptions C43_persist_failure.

(** Consistency, the hypothesis above, holds in every reachable state (C42); a case in which
    the order of the table decides between equally loaded nodes: *)
Example C43_case :
  (on_allocate [6; 5; 8] true (coord_init 5 [(6, true); (7, false); (8, true)]) 1 false).2 =
    [CPersist 1; CTell 1 6 [6; 5; 8]; CAnswer (Allocated 1 6)] /\
  (on_allocate [5] true (on_allocate [5] true (coord_init 5 [(6, true); (7, false)]) 1 false).1 2 false).2 =
    [CPersist 2; CTell 2 6 [6; 5]; CAnswer (Allocated 2 6)].
Proof. vm_compute. done. Qed.

(** * C44 *)

(** When a node becomes unavailable its shards move to ready nodes if there are any, no other
    shard moves. *)
Theorem C44_failover c n h ord sord : consistent c -> c_hosts c !! n = Some h ->
  let c' := (node_unavailable ord sord c n).1 in
  (forall s, c_shards c !! s = Some n -> (exists m, m <> n /\ ready c m) -> exists m, c_shards c' !! s = Some m /\ m <> n /\ ready c m) /\
  (forall s, c_shards c !! s <> Some n -> c_shards c' !! s = c_shards c !! s) /\
  consistent c' /\ holds c' n = ∅ /\ status c' n = Some SUnavailable.
Proof.
  intros Hc Hn. destruct (node_unavailable_spec ord sord c n h Hc Hn) as (I0 & I1 & I2 & I3 & I4 & I5 & _).
  split_and!; [exact I5|exact I4|exact I0|..].
  - unfold holds. by rewrite I2.
  - unfold status. by rewrite I2.
Qed.
Print Assumptions C44_failover.

(** Until the node comes back it is given no shard, whatever happens. *)
Theorem C44_nothing_until_back self nodes ops1 n ord sord ops2 c eff :
  Forall (fun o => adds n o = false) ops2 ->
  crun (coord_init self nodes) (ops1 ++ CONodeUnavailable n ord sord :: ops2) = Some (c, eff) ->
  is_Some (c_hosts c !! n) -> holds c n = ∅ /\ forall s, c_shards c !! s <> Some n.
Proof.
  intros Ha E Hex.
  destruct (crun_wf ops1 _ (coord_init_wf self nodes)) as (c1 & e1 & E1 & Hc1 & _).
  destruct (cstep_wf c1 (CONodeUnavailable n ord sord) Hc1) as (c2 & e2 & E2 & Hc2 & _).
  assert (Hrun : exists e3, crun c2 ops2 = Some (c, e3)).
  { destruct (crun_wf ops2 c2 Hc2) as (c3 & e3 & E3 & _). exists e3. rewrite E3. f_equal. f_equal.
    assert (Happ : forall l1 l2 (d : coord), crun d (l1 ++ l2) = match crun d l1 with None => None | Some (d1, f1) => match crun d1 l2 with None => None | Some (d2, f2) => Some (d2, f1 ++ f2) end end).
    { induction l1 as [|o l1 IH]; intros l2 d; simpl; [by destruct (crun d l2) as [[? ?]|]|].
      destruct (cstep d o) as [[d1 f1]|]; [|done]. rewrite IH. destruct (crun d1 l1) as [[d2 f2]|]; [|done].
      destruct (crun d2 l2) as [[d3 f3]|]; [by rewrite app_assoc|done]. }
    rewrite Happ, E1 in E. cbn [crun] in E. rewrite E2, E3 in E. by injection E. }
  destruct Hrun as [e3 E3].
  destruct (crun_wf ops2 c2 Hc2) as (c3 & e3' & E3' & [Hc _] & _). rewrite E3 in E3'. injection E3' as <- <-.
  destruct (c_hosts c1 !! n) as [h|] eqn:Hn.
  - assert (Hu : c_hosts c2 !! n = Some (CHost SUnavailable ∅)).
    { simpl in E2. injection E2 as E2. destruct Hc1 as [Hc1 _].
      destruct (node_unavailable_spec ord sord c1 n h Hc1 Hn) as (_ & _ & H & _). by rewrite E2 in H. }
    pose proof (unavailable_run ops2 c2 n c e3 Hc2 Hu Ha E3) as Hfin.
    split; [unfold holds; by rewrite Hfin|]. intros s Hs. apply Hc in Hs as (h' & Hh' & Hin). rewrite Hfin in Hh'.
    injection Hh' as <-. simpl in Hin. set_solver.
  - (* the node is not known: it can only have become known by coming back *)
    exfalso. simpl in E2. injection E2 as E2. unfold node_unavailable in E2. rewrite Hn in E2. injection E2 as <- <-.
    assert (Hnone : forall ops d d' f, cwf d -> c_hosts d !! n = None -> Forall (fun o => adds n o = false) ops -> crun d ops = Some (d', f) -> c_hosts d' !! n = None).
    { clear. induction ops as [|o ops IH]; intros d d' f Hd Hn Ha; simpl; [by intros [= <- _]|].
      apply Forall_cons in Ha as [Ho Ha]. destruct (cstep_wf d o Hd) as (d1 & f1 & E & Hd1 & _). rewrite E.
      destruct (crun d1 ops) as [[d2 f2]|] eqn:E2; [|done]. intros [= <- _]. eapply IH; [exact Hd1| |exact Ha|exact E2].
      destruct Hd as [Hd _].
      assert (Hall : forall ord s, c_hosts (allocate_shard ord d s).1.1 !! n = None).
      { intros ord s. destruct (allocate_frame ord d s) as (_ & F & _). specialize (F n). unfold status in F. rewrite Hn in F.
        by destruct (c_hosts (allocate_shard ord d s).1.1 !! n). }
      destruct o as [s rb p ord|ord sord|l ord|m ord sord|m|s ord]; simpl in *.
      - unfold on_allocate in E. specialize (Hall ord s). destruct (c_shards d !! s); [by injection E as <- _|].
        destruct (allocate_shard ord d s) as [[e ?] ?]. simpl in *. destruct rb; [by injection E as <- _|]. destruct p; by injection E as <- _.
      - unfold rebalance_all in E. destruct (shards_to_rebalance ord sord d) as [l|]; [|done].
        destruct (rebalance_shards_spec ord l d Hd) as (c1 & e & E' & _ & _ & _ & I3 & _). rewrite E in E'. injection E' as -> _. by rewrite I3, Hn.
      - destruct (rebalance_shards_spec ord l d Hd) as (c1 & e & E' & _ & _ & _ & I3 & _). rewrite E in E'. injection E' as -> _. by rewrite I3, Hn.
      - injection E as E. destruct (c_hosts d !! m) as [h|] eqn:Hm; [|unfold node_unavailable in E; rewrite Hm in E; by injection E as <- _].
        destruct (decide (m = n)) as [->|Hne]; [congruence|].
        destruct (node_unavailable_spec ord sord d m h Hd Hm) as (_ & _ & _ & I3 & _). rewrite E in I3. simpl in I3.
        specialize (I3 n (not_eq_sym Hne)). unfold status in I3. rewrite Hn in I3. by destruct (c_hosts d1 !! n).
      - apply N.eqb_neq in Ho. injection E as E. unfold node_discovered in E. destruct (c_hosts d !! m) as [h|].
        + destruct (is_ready h); injection E as <- _; [done|]. simpl. by rewrite lookup_insert_ne.
        + injection E as <- _. simpl. by rewrite lookup_insert_ne.
      - specialize (Hall ord s). destruct (allocate_shard ord d s) as [[e ?] ?]. simpl in *. by injection E as <- _. }
    rewrite (Hnone ops2 _ _ _ Hc1 Hn Ha E3) in Hex. by destruct Hex.
Qed.
Print Assumptions C44_nothing_until_back.

Example C44_case :
  let c := coord_init 5 [(6, true)] in
  match crun c [COAllocate 1 false true [5]; COAllocate 2 false true [5]; COAllocate 3 false true [6]; CONodeUnavailable 6 [] [2; 3]] with
  | Some (c', eff) => map (fun s => c_shards c' !! s) [1; 2; 3] = [Some 5; Some 5; Some 5] /\
                      tells eff = [(1, 5, [5; 6]); (2, 6, [6; 5]); (3, 6, [6; 5]); (2, 5, [5]); (3, 5, [5])]
  | None => False
  end.
Proof. vm_compute. done. Qed.

(** * C45 *)

(** A full rebalance takes from each node exactly what it has above the fair share, and
    requests each of these shards to be stopped once; all other shards stay. *)
Theorem C45_only_excess c ord sord : cwf c ->
  exists c' eff, rebalance_all ord sord c = Some (c', eff) /\
    (forall n h, c_hosts c !! n = Some h ->
       exists h', c_hosts c' !! n = Some h' /\ h_status h' = h_status h /\ h_shards h' ⊆ h_shards h /\
                  size (h_shards h') = Nat.min (size (h_shards h)) (fair_share c)) /\
    (forall s, c_shards c' !! s = None \/ c_shards c' !! s = c_shards c !! s) /\
    (forall s n, (s, n) ∈ stops eff <-> c_shards c !! s = Some n /\ c_shards c' !! s = None) /\
    NoDup (stops eff) /\ tells eff = [] /\ consistent c'.
Proof.
  intros Hc. destruct (rebalance_all_spec ord sord c Hc) as (l & c' & eff & _ & E & _ & H). exists c', eff. done.
Qed.
Print Assumptions C45_only_excess.

(** If all nodes have the same number of shards, nothing happens. *)
Theorem C45_balanced_partial c ord sord k : cwf c ->
  (forall n h, c_hosts c !! n = Some h -> size (h_shards h) = k) ->
  rebalance_all ord sord c = Some (c, []).
Proof.
  intros Hwf Hk. assert (Hc := cw_consistent c Hwf).
  assert (Hfair : fair_share c = k).
  { unfold fair_share. rewrite (consistent_total c Hc). unfold total_held.
    assert (E : sum_list (map (fun x => size (h_shards x.2)) (map_to_list (c_hosts c))) = (k * size (c_hosts c))%nat).
    { change (size (c_hosts c)) with (length (map_to_list (c_hosts c))). assert (HF : Forall (fun x => size (h_shards x.2) = k) (map_to_list (c_hosts c))).
      { apply Forall_forall. intros [n h] Hx%elem_of_map_to_list. by eapply Hk. }
      induction HF as [|x l Hx _ IH]; simpl; [lia|]. rewrite IH, Hx. lia. }
    rewrite E. apply Nat.div_mul. intros Hz%map_size_empty_inv. destruct (cw_self c Hwf) as [h Hh]. rewrite Hz, lookup_empty in Hh. done. }
  destruct (rebalance_all_spec ord sord c Hwf) as (l & c' & eff & El & E & _).
  assert (l = []) as ->.
  { unfold shards_to_rebalance in El. destruct (size (c_hosts c)) eqn:Es; [done|]. injection El as <-.
    unfold fair_share in Hfair. rewrite Es in Hfair. simpl in Hfair. rewrite Hfair.
    assert (HF : Forall (fun x => size (h_shards x.2) = k) (arrange ord (c_hosts c))).
    { apply Forall_forall. intros [m h] Hx%elem_of_arrange. by eapply Hk. }
    induction HF as [|x L Hx _ IH]; simpl; [done|]. rewrite Hx, Nat.sub_diag. simpl. done. }
  unfold rebalance_all in *. rewrite El in *. simpl in *. done.
Qed.
Print Assumptions C45_balanced_partial.

(** But counts that differ by one, which is the best possible, are not left alone: with three
    shards on two nodes every full rebalance moves a shard; *)
Definition ex_uneven_ops : list cop := [COAllocate 1 false true []; COAllocate 2 false true []; COAllocate 3 false true []].
Definition ex_uneven : coord :=
  match crun (coord_init 5 [(6, true)]) ex_uneven_ops with Some (c, _) => c | None => coord_init 5 [] end.
Theorem C45_balanced_refuted : exists ops c eff, crun (coord_init 5 [(6, true)]) ops = Some (c, eff) /\ balanced c /\
  forall ord sord, exists c' eff', rebalance_all ord sord c = Some (c', eff') /\ stops eff' <> [].
Proof.
  destruct (crun_wf ex_uneven_ops _ (coord_init_wf 5 [(6, true)])) as (c & eff & E & Hwf & _).
  assert (Ec : c = ex_uneven) by (unfold ex_uneven; by rewrite E).
  exists ex_uneven_ops, c, eff. split; [exact E|]. rewrite Ec in *. split.
  - intros n n' (h & Hh & _)%ready_iff (h' & Hh' & _)%ready_iff. unfold holds. rewrite Hh, Hh'.
    apply elem_of_map_to_list in Hh. apply elem_of_map_to_list in Hh'. vm_compute in Hh, Hh'.
    repeat (apply elem_of_cons in Hh as [Hh|Hh]; [injection Hh as -> ->|]); try (by apply elem_of_nil in Hh);
    repeat (apply elem_of_cons in Hh' as [Hh'|Hh']; [injection Hh' as -> ->|]); try (by apply elem_of_nil in Hh'); vm_compute; lia.
  - intros ord sord.
    destruct (rebalance_all_spec ord sord _ Hwf) as (l & c' & eff' & _ & E' & _ & H1 & H2 & H3 & _ & _ & H4).
    exists c', eff'. split; [exact E'|]. intros Hst.
    assert (Hh : (fun h => size (h_shards h)) <$> c_hosts ex_uneven !! 5 = Some 2%nat) by (vm_compute; reflexivity).
    destruct (c_hosts ex_uneven !! 5) as [h|] eqn:E5; [|done]. injection Hh as Hh.
    destruct (H1 5 h E5) as (h' & Hh' & _ & Hsub & Hsize).
    assert (Hf : fair_share ex_uneven = 1%nat) by (vm_compute; reflexivity). rewrite Hh, Hf in Hsize. simpl in Hsize.
    assert (Hsub2 : h_shards h ⊆ h_shards h').
    { intros s Hin. assert (Hs : c_shards ex_uneven !! s = Some 5) by (apply (cw_consistent _ Hwf); eauto).
      destruct (c_shards c' !! s) as [n|] eqn:En.
      - destruct (H2 s) as [Hx|Hx]; [congruence|]. assert (n = 5) as -> by congruence.
        apply H4 in En as (h2 & Hh2 & Hin2). congruence.
      - assert (Hx : (s, 5) ∈ stops eff') by (by apply H3). rewrite Hst in Hx. by apply elem_of_nil in Hx. }
    apply subseteq_size in Hsub2. lia.
Qed.
Print Assumptions C45_balanced_refuted.

(** and nodes that are not available count for the fair share: two ready nodes with two
    shards each lose a shard each as long as a third one is away. *)
Definition ex_away_ops : list cop :=
  [COAllocate 1 false true []; COAllocate 2 false true []; COAllocate 3 false true []; COAllocate 4 false true []].
Definition ex_away : coord :=
  match crun (coord_init 5 [(6, true); (7, false)]) ex_away_ops with Some (c, _) => c | None => coord_init 5 [] end.
Theorem C45_unavailable_counts_refuted : exists ops c eff, crun (coord_init 5 [(6, true); (7, false)]) ops = Some (c, eff) /\
  (forall n, ready c n -> size (holds c n) = 2%nat) /\
  exists c' eff', rebalance_all [] [] c = Some (c', eff') /\ length (stops eff') = 2%nat.
Proof.
  destruct (crun_wf ex_away_ops _ (coord_init_wf 5 [(6, true); (7, false)])) as (c & eff & E & Hwf & _).
  assert (Ec : c = ex_away) by (unfold ex_away; by rewrite E).
  exists ex_away_ops, c, eff. split; [exact E|]. rewrite Ec. split.
  - intros n (h & Hh & Hr)%ready_iff. unfold holds. rewrite Hh. apply elem_of_map_to_list in Hh.
    assert (HF : Forall (fun x => is_ready x.2 = true -> size (h_shards x.2) = 2%nat) (map_to_list (c_hosts ex_away))).
    { vm_compute. repeat constructor; discriminate. }
    rewrite Forall_forall in HF. exact (HF _ Hh Hr).
  - assert (Hr : match rebalance_all [] [] ex_away with Some (_, e) => length (stops e) = 2%nat | None => False end) by (vm_compute; reflexivity).
    destruct (rebalance_all [] [] ex_away) as [[c' eff']|]; [|done]. by exists c', eff'.
Qed.
Print Assumptions C45_unavailable_counts_refuted.

(** * C47 *)

(** After a restart every shard that was allocated is allocated again, if reallocations are
    only requested for shards that were allocated before. *)
Theorem C47_allocated_again_partial self nodes ops c eff self' nodes' ords :
  Forall (fun o => is_recover o = false) ops -> honest_rebalancing (coord_init self nodes) ops ->
  crun (coord_init self nodes) ops = Some (c, eff) ->
  let c' := recover self' nodes' (persisted_shards eff) ords in
  consistent c' /\ forall s n, c_shards c !! s = Some n -> exists n', c_shards c' !! s = Some n'.
Proof.
  intros Hr Hh E. destruct (recover_spec self' nodes' (persisted_shards eff) ords) as [H1 H2]. split; [exact H1|].
  intros s n Hs. apply H2. eapply persisted_run; [exact Hr|exact Hh|exact E|by rewrite Hs].
Qed.
Print Assumptions C47_allocated_again_partial.

(** But the owners are not persisted: after a failover the shard returns to another node. *)
Theorem C47_owner_refuted : exists ops c eff, crun (coord_init 5 [(6, true)]) ops = Some (c, eff) /\
  c_shards c !! 1 = Some 6 /\ c_shards (recover 5 [(6, true)] (persisted_shards eff) (fun _ => [])) !! 1 = Some 5.
Proof.
  exists [COAllocate 1 false true []; CORebalanceShards [1] []; COAllocate 1 true true [6]].
  assert (H : match crun (coord_init 5 [(6, true)]) [COAllocate 1 false true []; CORebalanceShards [1] []; COAllocate 1 true true [6]] with
              | Some (c, eff) => c_shards c !! 1 = Some 6 /\ c_shards (recover 5 [(6, true)] (persisted_shards eff) (fun _ => [])) !! 1 = Some 5
              | None => False end) by (vm_compute; done).
  destruct (crun _ _) as [[c eff]|]; [|done]. by exists c, eff.
Qed.
Print Assumptions C47_owner_refuted.

Example C47_case :
  match crun (coord_init 5 [(6, true)]) [COAllocate 1 false true []; COAllocate 8 false true []; CORebalanceShards [1] []; COAllocate 1 true true []] with
  | Some (c, eff) => persisted_shards eff = [1; 8] /\ map (fun s => c_shards (recover 6 [] [1; 8] (fun _ => [])) !! s) [1; 8; 9] = [Some 6; Some 6; None]
  | None => False
  end.
Proof. vm_compute. done. Qed.

(** * C51 *)

(** The shard of an entity depends only on its id and the configured number of shards: any two
    nodes with the same configuration agree, whatever they were asked before, and the shard is
    below the number of shards (which is a 32 bit number). *)
Theorem C51_same_shard hash max_shards ids1 ids2 i j id :
  ids1 !! i = Some id -> ids2 !! j = Some id -> 0 < max_shards < 2 ^ 32 ->
  exists s, allocator_run hash max_shards ids1 !! i = Some (Some s) /\ allocator_run hash max_shards ids2 !! j = Some (Some s) /\
            s = hash id mod max_shards /\ s < max_shards.
Proof.
  intros Hi Hj Hm.
  assert (H : forall ids k, ids !! k = Some id -> allocator_run hash max_shards ids !! k = Some (Some (hash id mod max_shards))).
  { unfold allocator_run. induction ids as [|x ids IH]; intros k Hk; [done|]. simpl.
    destruct (run (default_allocate hash) max_shards ids) as [s l] eqn:E. simpl.
    destruct k as [|k]; simpl in *.
    - injection Hk as ->. destruct (N.eqb_spec max_shards 0); [lia|]. do 2 f_equal. apply N.mod_small.
      pose proof (N.mod_lt (hash id) max_shards ltac:(lia)). lia.
    - by apply IH. }
  exists (hash id mod max_shards). split_and!; [by apply H|by apply H|done|]. apply N.mod_lt. lia.
Qed.
Print Assumptions C51_same_shard.

(** The number of shards must not be zero. *)
Theorem C51_zero_shards hash id : (default_allocate hash 0 id).2 = None.
Proof. done. Qed.
Print Assumptions C51_zero_shards.

Example C51_case : allocator_run (fun id => N.of_nat (String.length id) * 77) 100 ["abc"; "x"; "abc"] = [Some 31; Some 77; Some 31].
Proof. vm_compute. done. Qed.
