(** Proofs about runs of the singleton managers, and about the proxy. *)
From Verif Require Import Singleton_Model Singleton_Spec Singleton_Manager Singleton_Sys.
Local Open Scope N_scope.

Lemma new_sys_lookup (nl : list N) n x : y_nodes (new_sys nl) !! n = Some x <-> n ∈ nl /\ x = new_node n.
Proof.
  unfold new_sys. cbn [y_nodes]. induction nl as [|m l IH]; simpl.
  - rewrite lookup_empty. split; [done|]. by intros [?%elem_of_nil _].
  - rewrite lookup_insert_Some, IH, elem_of_cons. split.
    + intros [[-> <-]|[? [? ->]]]; auto.
    + intros [[->|H] ->]; [by left|]. destruct (decide (m = n)) as [->|]; [by left|by right].
Qed.

Section runs.
Variable includes : N -> bool.
Variable nl : list N.
Hypothesis Hincl : forall n, n ∈ nl -> includes n = true.
Let ns : gset N := list_to_set nl.

Lemma ns_spec n : n ∈ nl <-> n ∈ ns.
Proof using. unfold ns. by rewrite elem_of_list_to_set. Qed.
Lemma ns_incl n : n ∈ ns -> includes n = true.
Proof using Hincl. rewrite <-ns_spec. apply Hincl. Qed.

Lemma new_sys_inv : inv ns (new_sys nl).
Proof using Hincl.
  assert (forall n, mst (new_sys nl) n = SIdle \/ mst (new_sys nl) n = SJoining None) as Hm.
  { intros n. unfold mst, state_of. destruct (y_nodes (new_sys nl) !! n) as [x|] eqn:E; [|by left].
    apply new_sys_lookup in E as [_ ->]. by right. }
  split.
  - intros n. rewrite <-ns_spec. split.
    + intros [x [? _]%new_sys_lookup]. done.
    + intros H. exists (new_node n). by apply new_sys_lookup.
  - intros n x [H ->]%new_sys_lookup. split; try done. by apply ns_spec.
  - intros n p H. destruct (Hm n); congruence.
  - intros n a p H. destruct (Hm n); congruence.
  - intros n m [?%elem_of_nil|?%elem_of_nil]; done.
  - intros w x _ _ _. unfold pend. cbn [y_net new_sys]. destruct (Hm x) as [-> | ->], (Hm w) as [-> | ->]; vm_compute; lia.
  - intros w x _ _ _ _. unfold pend. cbn [y_net new_sys]. destruct (Hm x) as [-> | ->], (Hm w) as [-> | ->]; done.
  - intros n x [_ ->]%new_sys_lookup. simpl. split; lia.
Qed.

Lemma new_sys_xinv : xinv ns (new_sys nl).
Proof using Hincl.
  split.
  - intros n x [_ ->]%new_sys_lookup. done.
  - intros w z Hw Hz Hwz H _. unfold perm, mst, state_of, runs_singleton in H.
    apply ns_spec in Hw. rewrite (proj2 (new_sys_lookup nl w _) (conj Hw eq_refl)) in H. cbn in H.
    destruct H as [H|[H|[[a H]|(x & [= <-] & H)]]]; simpl in H; try done. unfold cnt in H. simpl in H. lia.
Qed.

Lemma run_inv y l y' :
  inv ns y -> always includes (steady nl) y l -> srun includes y l = Some y' -> inv ns y'.
Proof using Hincl.
  revert y. induction l as [|o l IH]; intros y HI Ha H; simpl in *; [congruence|].
  destruct Ha as [Ho Ha]. destruct (sstep includes y o) as [y1|] eqn:E; simpl in H; [|done].
  apply (IH y1); try done. by apply (sstep_inv includes ns ns_incl nl y o y1 HI ns_spec).
Qed.

Lemma run_xinv y l y' :
  inv ns y -> xinv ns y -> always includes (fun y o => steady nl y o /\ patient y o) y l ->
  srun includes y l = Some y' -> inv ns y' /\ xinv ns y'.
Proof using Hincl.
  revert y. induction l as [|o l IH]; intros y HI HX Ha H; simpl in *; [by simplify_eq|].
  destruct Ha as [[Ho Hp] Ha]. destruct (sstep includes y o) as [y1|] eqn:E; simpl in H; [|done].
  apply (IH y1); try done.
  - by apply (sstep_inv includes ns ns_incl nl y o y1 HI ns_spec).
  - by apply (sstep_xinv includes ns ns_incl nl y o y1 HI HX ns_spec).
Qed.

Lemma at_most_one l y a b :
  always includes (fun y o => steady nl y o /\ patient y o) (new_sys nl) l ->
  srun includes (new_sys nl) l = Some y ->
  runs_singleton y a -> runs_singleton y b -> a = b.
Proof using Hincl.
  intros Ha H R1 R2. destruct (run_xinv _ _ _ new_sys_inv new_sys_xinv Ha H) as [HI HX].
  destruct (decide (a = b)) as [|Hab]; [done|]. exfalso.
  assert (forall k, runs_singleton y k -> k ∈ ns) as Hin.
  { intros k (x & Hx & _). apply (i_dom _ _ HI). eauto. }
  apply (x_excl _ _ HX a b); auto; right; right; right; done.
Qed.

(** ** The handover *)

(** [w] waits for [x], which will never answer. *)
Record blocked (y : ssys) (w x : N) : Prop := Blocked {
  b_start : starting (mst y w) = true;
  b_req : cnt (is_req w x) (y_net y) = 0%nat;
  b_ack : cnt (is_ack w x) (y_net y) = 0%nat;
  b_got : got (mst y w) x = 0%nat;
  b_join : mst y x <> SJoining (Some w)
}.

Lemma blocked_tasks y w x u :
  inv ns y -> blocked y w x -> x ∈ ns -> w <> x -> y_nodes y !! w = Some u ->
  n_tasks u = 0%nat /\ n_results u = [].
Proof using Hincl.
  intros HI HB Hx Hwx Hu. destruct (i_start _ _ HI w u Hu) as [S1 S2].
  destruct (decide (1 <= n_tasks u + length (n_results u))%nat) as [H|H].
  - specialize (S2 H). pose proof (b_got _ _ _ HB) as Hg. rewrite (mst_lookup _ _ _ Hu), S2 in Hg.
    cbn [got] in Hg. rewrite decide_True in Hg by set_solver. done.
  - split; [lia|]. apply nil_length_inv. lia.
Qed.

Lemma blocked_handles y n i y' u g' eff net0 rs px w x :
  inv ns y -> handles includes ns y n i y' u g' eff net0 rs px -> w ∈ ns -> x ∈ ns -> w <> x ->
  blocked y w x -> blocked y' w x.
Proof using Hincl.
  intros HI HH Hw Hx Hwx HB. pose proof HH as [Hl Hs Hi Hc Hsub Hr Hy].
  pose proof HB as [B1 B2 B3 B4 B5].
  destruct (mstep_trans includes ns ns_incl n (n_mgr u) i g' eff) as (Wg' & r & a & c & Ht & [E1 E2 E3 E4 E5]); try done.
  { by apply (i_wf _ _ HI). }
  { intros p Hp. apply (i_join _ _ HI n p). by rewrite (mst_lookup _ _ _ Hl). }
  pose proof (mst_lookup _ _ _ Hl) as Hmn.
  assert (mst y' n = g_state g') as Hmn'.
  { subst y'. unfold mst, state_of. cbn [y_nodes]. by rewrite lookup_insert. }
  assert (forall k, k <> n -> mst y' k = mst y k) as Hmk.
  { intros k Hk. subst y'. unfold mst, state_of. cbn [y_nodes]. by rewrite lookup_insert_ne. }
  assert (forall P, cnt P (y_net y') = (cnt P net0 + cnt P (packets eff))%nat) as Hnet.
  { intros P. subst y'. cbn [y_net]. by rewrite cnt_app. }
  pose proof (Hc (is_req w x)) as C1. pose proof (Hc (is_ack w x)) as C2.
  rewrite B2 in C1. rewrite B3 in C2. unfold reqs_to, acks_to in *.
  remember (match i with IMsg m => if is_req w x (n, m) then 1%nat else 0%nat | _ => 0%nat end) as c1 eqn:Ec1.
  remember (match i with IMsg m => if is_ack w x (n, m) then 1%nat else 0%nat | _ => 0%nat end) as c2 eqn:Ec2.
  destruct (decide (n = w)) as [->|Hnw].
  - assert (forall b, i <> IResult (Some b)) as Hnr.
    { intros b Hb. destruct (blocked_tasks y w x u HI HB Hx Hwx Hl) as [_ HR0].
      destruct Hr as [[_ Hr]|(r' & _ & Hr)]; [by apply (Hr (Some b))|]. rewrite HR0 in Hr. done. }
    rewrite Hmn in *.
    assert (r = false /\ exists A A', g_state (n_mgr u) = SStarting A /\ g_state g' = SStarting A' /\
      (A' = A \/ exists m, i = IMsg (QAck m) /\ A' = {[m]} ∪ A)) as (-> & A & A' & HA & HA' & HAA).
    { destruct (g_state (n_mgr u)) as [| |A| |] eqn:Eu; try done.
      inversion Ht; subst; try done; try (by destruct (Hnr a0)); (split; [done|]); exists A; eauto 10. }
    rewrite HA in B4. cbn [got] in B4. destruct (decide (x ∈ A)) as [|HxA]; [done|].
    split; rewrite ?Hmn', ?Hnet, ?(Hmk x) by done; try done.
    + by rewrite HA'.
    + rewrite E1. lia.
    + rewrite E4 by done. lia.
    + rewrite HA'. cbn [got]. apply decide_False. destruct HAA as [->|(m & -> & ->)]; [done|].
      cbn [is_ack] in Ec2. rewrite N.eqb_refl in Ec2. cbn [andb] in Ec2.
      destruct (N.eqb_spec m x) as [->|]; [lia|]. set_solver.
  - pose proof (Hmk w ltac:(done)) as Hmw. split; rewrite ?Hmw, ?Hnet; try done.
    + rewrite E2 by done. lia.
    + destruct (decide (n = x)) as [->|Hnx].
      * rewrite E3. destruct a as [m|]; [|lia]. destruct (N.eqb_spec m w) as [->|]; [|lia]. exfalso.
        rewrite Hmn in *. inversion Ht; subst; try congruence.
        -- destruct (g_state (n_mgr u)) as [[]| | | |]; simplify_eq; done.
        -- cbn [is_req] in C1. rewrite !N.eqb_refl in C1. simpl in C1. lia.
      * rewrite E4 by done. lia.
    + destruct (decide (n = x)) as [->|Hnx]; [|by rewrite Hmk by done].
      rewrite Hmn', Hmn in *. intros Hj. inversion Ht; subst; try congruence.
      * assert (m = w) as -> by congruence. cbn [is_req] in C1. rewrite !N.eqb_refl in C1. simpl in C1. lia.
Qed.

Lemma blocked_step y o y' w x :
  inv ns y -> steady nl y o -> sstep includes y o = Some y' -> w ∈ ns -> x ∈ ns -> w <> x ->
  blocked y w x -> blocked y' w x /\ (runs_singleton y' w -> runs_singleton y w).
Proof using Hincl.
  intros HI Hst H Hw Hx Hwx HB.
  destruct (sstep_cases includes ns ns_incl nl y o y' HI ns_spec Hst H) as [(n & i & u & g' & eff & net0 & rs & px & HH & _)|(A1 & A2 & A3 & A4)].
  - split; [by eapply blocked_handles|]. destruct HH as [Hl _ _ _ _ _ ->].
    intros (v & Hv & Hne). cbn [y_nodes] in Hv. apply lookup_insert_Some in Hv as [[-> <-]|[_ Hv]].
    + by exists u.
    + by exists v.
  - assert (forall n, mst y' n = mst y n) as Hmst.
    { intros n. unfold mst, state_of. specialize (A1 n). destruct (y_nodes y' !! n), (y_nodes y !! n); simpl in *; try done.
      injection A1 as ->. done. }
    split.
    + destruct HB as [B1 B2 B3 B4 B5]. split; rewrite ?Hmst; try done.
      * specialize (A2 (is_req w x)). lia.
      * specialize (A2 (is_ack w x)). lia.
    + intros (v & Hv & Hne). destruct (A4 w v Hv) as (u & Hu & _ & HL).
      destruct (blocked_tasks y w x u HI HB Hx Hwx Hu) as [Ht _].
      destruct (HL Hne) as [?|?]; [by exists u|lia].
Qed.

Lemma handover_never l y x a w l' y' :
  always includes (steady nl) (new_sys nl) l -> srun includes (new_sys nl) l = Some y ->
  state_of y x = Some (SStopping a w) ->
  always includes (steady nl) y l' -> srun includes y l' = Some y' ->
  (exists A, state_of y' w = Some (SStarting A) /\ x ∉ A) /\
  (forall u, y_nodes y' !! w = Some u -> n_tasks u = 0%nat /\ n_results u = []) /\
  (runs_singleton y' w -> runs_singleton y w).
Proof using Hincl.
  intros Ha H Hx Ha' H'. pose proof (run_inv _ _ _ new_sys_inv Ha H) as HI. clear Ha H.
  assert (mst y x = SStopping a w) as Hmx by (unfold mst; by rewrite Hx).
  destruct (i_stop _ _ HI x a w Hmx) as [Hw Hwx].
  assert (x ∈ ns) as Hxn.
  { apply (i_dom _ _ HI). unfold state_of in Hx. destruct (y_nodes y !! x); eauto; done. }
  assert (blocked y w x) as HB.
  { pose proof (i_pend _ _ HI w x Hw Hxn Hwx) as Hp. pose proof (i_pend0 _ _ HI w x Hw Hxn Hwx) as Hp0.
    unfold pend in *. rewrite Hmx in Hp, Hp0. cbn [held] in *. rewrite N.eqb_refl in *.
    split; [|lia..|by rewrite Hmx].
    destruct (starting (mst y w)); [done|]. specialize (Hp0 eq_refl). lia. }
  clear Hx Hmx. revert y HI HB Ha' H'. induction l' as [|o l' IH]; intros y HI HB Ha' H'; simpl in *.
  - injection H' as <-. split_and!; try done.
    + pose proof (b_start _ _ _ HB) as Hs. pose proof (b_got _ _ _ HB) as Hg. unfold mst in *.
      destruct (state_of y w) as [[| |A| |]|]; try done. exists A. split; [done|].
      cbn in Hg. by destruct (decide (x ∈ A)).
    + intros u Hu. by apply (blocked_tasks y w x u).
  - destruct Ha' as [Ho Ha']. destruct (sstep includes y o) as [y1|] eqn:E; simpl in H'; [|done].
    destruct (blocked_step y o y1 w x HI Ho E Hw Hxn Hwx HB) as [HB1 HR].
    assert (inv ns y1) as HI1 by (by apply (sstep_inv includes ns ns_incl nl y o y1 HI ns_spec)).
    destruct (IH y1 HI1 HB1 Ha' H') as (? & ? & ?). split_and!; auto.
Qed.
End runs.
