(** C56: everyone is told where the singleton runs: proofs. *)
From Verif Require Import Singleton_Model Singleton_Spec Singleton_Told.
Local Open Scope N_scope.

Section everyone.
Variable includes : N -> bool.
Implicit Types (g : manager) (y : ssys) (x z : snode).

Lemma notify_all g q m : m ∈ g_managers g -> FSend m q ∈ notify_managers g q.
Proof. intros H. unfold notify_managers. apply elem_of_list_fmap. exists m. split; [done|]. by apply elem_of_elements. Qed.

(** A manager that runs the singleton tells each manager it gets to know. *)
Lemma mstep_tells g i g' eff a m : mstep includes g i = (g', eff) -> g_state g' = SRunning a -> m ∈ g_managers g' ->
  FSend m (QStarted (g_node g)) ∈ eff \/ exists b, g_state g = SRunning b /\ m ∈ g_managers g.
Proof.
  destruct i as [leader nodes|leader|n|n|[n|n|n|n]|r|]; cbn [mstep]; intros H Hs Hm.
  - unfold on_member_up in H. destruct (leader =? g_node g).
    + unfold begin_starting in H. injection H as <- <-. discriminate Hs.
    + injection H as <- <-. discriminate Hs.
  - destruct (is_joining (g_state g)); [injection H as <- <-; right; by exists a|].
    unfold on_leader_changed in H. destruct (_ && _).
    + unfold begin_starting in H. injection H as <- <-. discriminate Hs.
    + injection H as <- <-. right. by exists a.
  - unfold on_node_added in H. destruct (_ && _); [|injection H as <- <-; right; by exists a].
    case_decide; [injection H as <- <-; right; by exists a|]. injection H as <- <-. cbn in Hs, Hm. rewrite Hs.
    apply elem_of_union in Hm as [Hm|Hm].
    + apply elem_of_singleton in Hm as ->. left. by apply elem_of_list_singleton.
    + right. by exists a.
  - unfold on_node_removed in H. destruct (g_state g) as [p| |acked|b|b w] eqn:Es; injection H as <- <-; cbn in Hs; try discriminate Hs.
    1, 2, 4: rewrite Es in Hs; discriminate Hs.
    right. exists b. split; [done|]. cbn in Hm. set_solver.
  - unfold on_request_lease in H. destruct (is_running (g_state g)) eqn:Er.
    + unfold begin_stopping in H. destruct (g_state g) as [p| |acked|b|b w] eqn:Es; try discriminate Er; cbn in H; injection H as <- <-; first [discriminate Hs|congruence].
    + unfold grant_lease in H. destruct (g_state g) as [p| |acked|b|b w] eqn:Es; try discriminate Er; injection H as <- <-; cbn in Hs; congruence.
  - unfold on_lease_ack in H. destruct (g_state g) as [p| |acked|b|b w] eqn:Es; injection H as <- <-; cbn in Hs; try congruence.
    right. exists b. split; [done|]. exact Hm.
  - injection H as <- <-. right. by exists a.
  - injection H as <- <-. right. by exists a.
  - unfold on_start_result in H. destruct r as [b|]; injection H as <- <-; [|right; by exists a].
    left. apply elem_of_list_further. apply notify_all. exact Hm.
  - unfold on_child_stopped in H. destruct (g_state g) as [p| |acked|b|b w] eqn:Es; try (injection H as <- <-; congruence).
    + injection H as <- <-. right. by exists b.
    + unfold grant_lease in H. rewrite Es in H. injection H as <- <-. discriminate Hs.
Qed.

(** Whoever a running node knows has been told, or is about to be. *)
Definition told_or_soon y : Prop := forall n x a m z,
  y_nodes y !! n = Some x -> g_state (n_mgr x) = SRunning a -> m ∈ g_managers (n_mgr x) -> y_nodes y !! m = Some z ->
  (m, QStarted n) ∈ y_net y \/ Some (RRemote n) ∈ n_proxy z.

Lemma in_delete {A} (l : list A) k p q : l !! k = Some q -> p ∈ l -> p = q \/ p ∈ delete k l.
Proof.
  intros Hk Hp. apply elem_of_list_lookup in Hp as [j Hj]. destruct (lt_eq_lt_dec j k) as [[Hl| ->]|Hl].
  - right. apply elem_of_list_lookup. exists j. by rewrite lookup_delete_lt.
  - left. congruence.
  - right. apply elem_of_list_lookup. exists (j - 1)%nat. rewrite lookup_delete_ge by lia. by replace (S (j - 1)) with j by lia.
Qed.

(** A node handles an input; the packets that are gone were words it told its proxy. *)
Lemma soon_handle y n x0 x i x' out net : told_or_soon y -> y_nodes y !! n = Some x0 -> g_node (n_mgr x0) = n ->
  n_mgr x = n_mgr x0 -> n_proxy x = n_proxy x0 ->
  (forall p, p ∈ y_net y -> p ∈ net \/ (exists q, p = (n, q) /\ i = IMsg q)) ->
  handle includes x i = (x', out) -> told_or_soon (SSys (<[n := x']> (y_nodes y)) (net ++ out) (y_next y)).
Proof.
  intros J Hx Hn Em Ep En H. unfold handle in H. destruct (mstep includes (n_mgr x) i) as [g' eff] eqn:E.
  injection H as <- <-. rewrite Em in E.
  (* what was told or about to be is told or about to be *)
  assert (Hold : forall k m z, <[n := SNode g' (n_tasks x + creates eff) (n_results x) (n_live x) (n_proxy x ++ proxied eff)]> (y_nodes y) !! m = Some z ->
    (forall z0, y_nodes y !! m = Some z0 -> (m, QStarted k) ∈ y_net y \/ Some (RRemote k) ∈ n_proxy z0) ->
    (m, QStarted k) ∈ net ++ packets eff \/ Some (RRemote k) ∈ n_proxy z).
  { intros k m z Hz Ho. destruct (decide (n = m)) as [<-|Hne].
    - rewrite lookup_insert in Hz. injection Hz as <-. cbn. destruct (Ho _ Hx) as [Hp|Hp].
      + destruct (En _ Hp) as [Hnet|(q & [= <-] & ->)]; [left; apply elem_of_app; by left|].
        right. apply elem_of_app. right. cbn [mstep] in E. injection E as <- <-. by apply elem_of_list_singleton.
      + right. apply elem_of_app. left. by rewrite Ep.
    - rewrite lookup_insert_ne in Hz by done. destruct (Ho _ Hz) as [Hp|Hp]; [|by right].
      destruct (En _ Hp) as [Hnet|(q & [= Hq _] & _)]; [|done]. left. apply elem_of_app. by left. }
  intros k w a m z Hw Hs Hm Hz. cbn in Hw, Hz |- *. destruct (decide (n = k)) as [<-|Hne].
  - rewrite lookup_insert in Hw. injection Hw as <-. cbn in Hs, Hm.
    destruct (mstep_tells _ _ _ _ _ _ E Hs Hm) as [Ht|(b & Hb & Hmb)].
    + left. apply elem_of_app. right. apply in_packets. by rewrite Hn in Ht.
    + apply Hold; [done|]. intros z0 Hz0. by eapply J.
  - rewrite lookup_insert_ne in Hw by done. apply Hold; [done|]. intros z0 Hz0. by eapply J.
Qed.

Lemma soon_other y n x x' next : told_or_soon y -> y_nodes y !! n = Some x -> n_mgr x' = n_mgr x -> n_proxy x' = n_proxy x ->
  told_or_soon (SSys (<[n := x']> (y_nodes y)) (y_net y) next).
Proof.
  intros J Hx Em Ep.
  assert (Hat : forall k z, <[n := x']> (y_nodes y) !! k = Some z -> exists z0, y_nodes y !! k = Some z0 /\ n_mgr z = n_mgr z0 /\ n_proxy z = n_proxy z0).
  { intros k z Hz. destruct (decide (n = k)) as [<-|Hne].
    - rewrite lookup_insert in Hz. injection Hz as <-. by exists x.
    - rewrite lookup_insert_ne in Hz by done. by exists z. }
  intros k w a m z Hw Hs Hm Hz. cbn in Hw, Hz |- *. apply Hat in Hw as (w0 & Hw & E1 & _). apply Hat in Hz as (z0 & Hz & _ & E2).
  rewrite E1 in Hs, Hm. rewrite E2. by eapply J.
Qed.

Definition loses (o : sop) : bool := match o with YLose _ => true | _ => false end.

Lemma soon_run ns l y : srun includes (new_sys ns) l = Some y -> Forall (fun o => loses o = false) l -> told_or_soon y.
Proof.
  revert y. induction l as [|o l IH] using rev_ind; intros y Hrun Hl.
  { injection Hrun as <-. intros n x a m z Hx Hs. exfalso.
    cbn in Hx. apply elem_of_list_to_map_2 in Hx. apply elem_of_list_fmap in Hx as (k & [= -> ->] & _). discriminate Hs. }
  apply srun_snoc in Hrun as (y1 & Hrun & Ho). apply Forall_app in Hl as [Hl Hlo].
  specialize (IH y1 Hrun Hl). apply tinv_run in Hrun as T. pose proof (tv_node _ _ _ _ T) as Hnode.
  destruct o as [n i|k|k|n ok|n k|n a]; cbn [sstep] in Ho.
  - destruct (y_nodes y1 !! n) as [x|] eqn:Hx; cbn [mbind option_bind] in Ho; [|done]. destruct (is_event i) eqn:Ei; [|done].
    destruct (handle includes x i) as [x' out] eqn:Hh. injection Ho as <-.
    eapply soon_handle; [done|exact Hx|by apply Hnode|done|done| |exact Hh]. intros p Hp. by left.
  - destruct (y_net y1 !! k) as [[n m]|] eqn:Hk; cbn [mbind option_bind] in Ho; [|done].
    cbn [fst snd] in Ho. destruct (y_nodes y1 !! n) as [x|] eqn:Hx.
    + destruct (handle includes x (IMsg m)) as [x' out] eqn:Hh. injection Ho as <-.
      eapply soon_handle; [done|exact Hx|by apply Hnode|done|done| |exact Hh]. intros p Hp.
      destruct (in_delete _ _ p _ Hk Hp) as [->|Hd]; [right; by exists m|by left].
    + injection Ho as <-. intros q w a r z Hw Hs Hm Hz. cbn in Hw, Hz |- *.
      destruct (IH q w a r z Hw Hs Hm Hz) as [Hp|Hp]; [|by right]. destruct (in_delete _ _ _ _ Hk Hp) as [[= -> _]|Hd]; [congruence|by left].
  - by inversion Hlo.
  - destruct (y_nodes y1 !! n) as [x|] eqn:Hx; cbn [mbind option_bind] in Ho; [|done]. destruct (n_tasks x) as [|t]; [done|].
    injection Ho as <-. destruct ok; by eapply soon_other.
  - destruct (y_nodes y1 !! n) as [x|] eqn:Hx; cbn [mbind option_bind] in Ho; [|done].
    destruct (n_results x !! k) as [r|] eqn:Hr; cbn [mbind option_bind] in Ho; [|done].
    destruct (handle _ _ _) as [x' out] eqn:Hh in Ho. injection Ho as <-.
    eapply soon_handle; [done|exact Hx|by apply Hnode| | | |exact Hh]; [done|done|]. intros p Hp. by left.
  - destruct (y_nodes y1 !! n) as [x|] eqn:Hx; cbn [mbind option_bind] in Ho; [|done]. case_decide; [|done]. injection Ho as <-.
    by eapply soon_other.
Qed.
End everyone.
