(** Proofs about restricted singletons. *)
From Verif Require Import Selector_Model Nodes_Model Selector_Spec Singleton_Spec Singleton_Manager.
Local Open Scope N_scope.

Lemma selected_carries node_of sel n : selected node_of sel n = true <-> carries node_of sel n.
Proof.
  unfold selected, carries. destruct sel as [|k v]; simpl; [done|].
  rewrite bool_decide_eq_true. by rewrite elem_of_map_to_list.
Qed.

Section selector.
Variable includes : N -> bool.
Implicit Types (g : manager) (x : snode) (y : ssys).

(** Whom a manager writes to. *)
Lemma notify_manager_elem g n msg m q : FSend m q ∈ notify_manager g n msg -> m ∈ g_managers g.
Proof. unfold notify_manager. case_decide; [|by intros ?%elem_of_nil]. intros H0%elem_of_list_singleton. by injection H0 as -> ->. Qed.
Lemma notify_managers_elem g msg m q : FSend m q ∈ notify_managers g msg -> m ∈ g_managers g.
Proof. unfold notify_managers. intros (n & E & H)%elem_of_list_fmap. injection E as -> ->. by apply elem_of_elements in H. Qed.
Lemma request_lease_elem g m q : FSend m q ∈ request_lease g -> m ∈ g_managers g.
Proof.
  unfold request_lease. case_decide; [|apply notify_managers_elem]. unfold on_all_managers_acknowledged. by intros ?%elem_of_list_singleton.
Qed.
Lemma acknowledged_elem (b : bool) m q : FSend m q ∉ (if b then on_all_managers_acknowledged else []).
Proof. destruct b; [|apply not_elem_of_nil]. by intros ?%elem_of_list_singleton. Qed.
Lemma grant_elem g n g' eff m q : grant_lease g n = (g', eff) -> FSend m q ∈ eff -> m ∈ g_managers g.
Proof.
  unfold grant_lease. destruct (g_state g); intros [= <- <-]; try apply notify_manager_elem. by intros ?%elem_of_nil.
Qed.

Lemma sends_known g i g' eff m q : mstep includes g i = (g', eff) -> FSend m q ∈ eff -> m ∈ g_managers g' \/ m ∈ g_managers g.
Proof.
  destruct i as [leader nodes|leader|n|n|msg|r|]; cbn [mstep].
  - unfold on_member_up. set (g1 := add_managers includes g nodes).
    assert (forall m q, FSend m q ∈ match g_state g with SJoining (Some n) => notify_manager g1 n (QAck (g_node g)) | _ => [] end -> m ∈ g_managers g1) as H1.
    { intros m' q'. destruct (g_state g) as [[p|]| | | |]; try (by intros ?%elem_of_nil). apply notify_manager_elem. }
    destruct (leader =? g_node g); intros [= <- <-]; intros H; left.
    + apply elem_of_app in H as [H|H]; [by apply H1 in H|]. by apply request_lease_elem in H.
    + by apply H1 in H.
  - destruct (is_joining _); [intros [= <- <-] ?%elem_of_nil; done|]. unfold on_leader_changed.
    destruct (_ && _); [|intros [= <- <-] ?%elem_of_nil; done]. intros [= <- <-] H. left. by apply request_lease_elem in H.
  - unfold on_node_added. destruct (_ && _); [|intros [= <- <-] ?%elem_of_nil; done]. case_decide; [intros [= <- <-] ?%elem_of_nil; done|].
    intros [= <- <-] H1. left. simpl. destruct (g_state g); try (by apply elem_of_nil in H1); apply elem_of_list_singleton in H1; injection H1 as -> ->; set_solver.
  - unfold on_node_removed. destruct (g_state g); intros [= <- <-] H; try (by apply elem_of_nil in H).
    case_decide; [by apply elem_of_list_singleton in H|by apply elem_of_nil in H].
  - destruct msg as [n|n|n|n].
    + unfold on_request_lease. destruct (is_running _).
      * unfold begin_stopping. destruct (get_actor _); intros [= <- <-] H; [|by apply elem_of_nil in H].
        apply elem_of_cons in H as [H|H]; [done|]. right. by apply notify_managers_elem in H.
      * intros E H. right. by apply (grant_elem _ _ _ _ _ _ E) in H.
    + unfold on_lease_ack. destruct (g_state g); intros [= <- <-] H; try (by apply elem_of_nil in H).
      case_decide; [by apply elem_of_list_singleton in H|by apply elem_of_nil in H].
    + intros [= <- <-] H%elem_of_list_singleton. done.
    + intros [= <- <-] H%elem_of_list_singleton. done.
  - destruct r; intros [= <- <-] H; [|by apply elem_of_nil in H]. apply elem_of_cons in H as [H|H]; [done|]. right. by apply notify_managers_elem in H.
  - unfold on_child_stopped. destruct (g_state g); try (intros [= <- <-] ?%elem_of_nil; done).
    destruct (grant_lease g _) as [g1 eff1] eqn:E. intros [= <- <-] H. right. by apply (grant_elem _ _ _ _ _ _ E) in H.
Qed.

Lemma known_included n l m : m ∈ known n includes l -> m <> n /\ includes m = true.
Proof.
  induction l as [|i l IH] using rev_ind; [intros H; by apply elem_of_empty in H|]. rewrite known_snoc. destruct i as [a nodes|a|a|a|msg|r|]; cbn [learn]; try done.
  - intros [H|H]%elem_of_union; [by apply IH|]. apply elem_of_list_to_set, elem_of_list_In, filter_In in H as [_ H].
    apply andb_true_iff in H as [H1 H2]. by apply negb_true_iff, N.eqb_neq in H1.
  - destruct (_ && _) eqn:E; [|done]. apply andb_true_iff in E as [H1 H2]. apply negb_true_iff, N.eqb_neq in H1.
    intros [->%elem_of_singleton|H]%elem_of_union; [done|by apply IH].
  - intros [H _]%elem_of_difference. by apply IH.
Qed.
Lemma known_announced n l1 i l2 m : announces m i -> (forall a, IRemoved a ∈ l2 -> a <> m) -> m <> n -> includes m = true -> m ∈ known n includes (l1 ++ i :: l2).
Proof.
  intros Ha Hr Hn Hi. induction l2 as [|j l IH] using rev_ind.
  - rewrite known_snoc. assert (negb (m =? n) && includes m = true) as Hb by (rewrite Hi, andb_true_r; by apply negb_true_iff, N.eqb_neq).
    destruct i as [a nodes|a|a|a|msg|r|]; simpl in Ha |- *; try done.
    + apply elem_of_union. right. apply elem_of_list_to_set, elem_of_list_In, filter_In. split; [by apply elem_of_list_In|done].
    + subst a. rewrite Hb. set_solver.
  - assert (m ∈ known n includes (l1 ++ i :: l)) as IH' by (apply IH; intros a H; apply Hr; apply elem_of_app; by left).
    rewrite app_comm_cons, app_assoc, known_snoc. destruct j as [a nodes|a|a|a|msg|r|]; cbn [learn]; try done.
    + apply elem_of_union. by left.
    + destruct (_ && _); [apply elem_of_union; by right|done].
    + apply elem_of_difference. split; [done|]. intros ->%elem_of_singleton. apply (Hr a); [apply elem_of_app; right; by left|done].
Qed.
Lemma run_sends n l g effs eff m q : mrun includes n l = (g, effs) -> eff ∈ effs -> FSend m q ∈ eff -> m <> n /\ includes m = true.
Proof.
  revert g effs. induction l as [|i l IH] using rev_ind; intros g effs E Hin Hs; [injection E as <- <-; by apply elem_of_nil in Hin|].
  pose proof (mrun_managers includes n _ _ _ E) as Hk'.
  apply mrun_snoc in E as (g0 & effs0 & eff0 & E0 & E1 & ->). apply elem_of_app in Hin as [Hin|Hin]; [by apply (IH g0 effs0)|].
  apply elem_of_list_singleton in Hin as ->. pose proof (mrun_managers includes n _ _ _ E0) as Hk.
  destruct (sends_known _ _ _ _ _ _ E1 Hs) as [H|H]; [rewrite Hk' in H|rewrite Hk in H]; by apply known_included in H.
Qed.

(** Who runs the singleton was told that it leads. *)
Definition busy x : Prop :=
  (match g_state (n_mgr x) with SStarting _ | SRunning _ | SStopping _ _ => True | _ => False end) \/ n_tasks x <> 0%nat \/ n_results x <> [] \/ n_live x <> [].
Lemma mstep_busy g i g' eff : mstep includes g i = (g', eff) ->
  (match g_state g' with SStarting _ | SRunning _ | SStopping _ _ => True | _ => False end) \/ creates eff <> 0%nat ->
  (match g_state g with SStarting _ | SRunning _ | SStopping _ _ => True | _ => False end) \/ names_leader (g_node g) i \/ exists r, i = IResult r.
Proof.
  intros E. destruct i as [leader nodes|leader|n|n|msg|r|]; cbn [mstep names_leader] in *; try (by intros _; right; right; eexists).
  - unfold on_member_up in E. destruct (N.eqb_spec leader (g_node g)) as [->|Hne]; [by auto|].
    injection E as <- <-. simpl. intros [[]|H]. exfalso. apply H. destruct (g_state g) as [[p|]| | | |]; try done. apply creates_notify.
  - destruct (is_joining _); [injection E as <- <-; intros [H|H]; [by left|done]|]. unfold on_leader_changed in E.
    destruct (N.eqb_spec leader (g_node g)) as [->|Hne]; [by auto|]. simpl in E. injection E as <- <-. intros [H|H]; [by left|done].
  - unfold on_node_added in E. destruct (_ && _); [|injection E as <- <-; intros [H|H]; [by left|done]].
    case_decide; injection E as <- <-; (intros [H'|H']; [by left|]); [done|]. destruct (g_state g); by auto.
  - unfold on_node_removed in E. destruct (g_state g) eqn:Es; try (by auto); injection E as <- <-; simpl; rewrite Es; intros [H|H]; done.
  - destruct msg as [n|n|n|n].
    + unfold on_request_lease in E. destruct (g_state g) as [p| |A|a|a w] eqn:Es; simpl in E; try (by auto).
      * unfold grant_lease in E. rewrite Es in E. injection E as <- <-. intros [H|H]; simpl in *; done.
      * unfold grant_lease in E. rewrite Es in E. injection E as <- <-. rewrite Es, creates_notify. intros [H|H]; done.
    + unfold on_lease_ack in E. destruct (g_state g) eqn:Es; try (by auto); injection E as <- <-; rewrite Es; intros [H|H]; done.
    + injection E as <- <-. intros [H|H]; [by left|done].
    + injection E as <- <-. intros [H|H]; [by left|done].
  - unfold on_child_stopped in E. destruct (g_state g) eqn:Es; try (by auto); injection E as <- <-; rewrite Es; intros [H|H]; done.
Qed.
Lemma handle_busy x i : busy (handle includes x i).1 -> busy x \/ names_leader (g_node (n_mgr x)) i \/ exists r, i = IResult r.
Proof.
  unfold handle. destruct (mstep includes (n_mgr x) i) as [g eff] eqn:E. unfold busy. simpl. intros [H|[H|H]].
  - destruct (mstep_busy _ _ _ _ E (or_introl H)) as [?|?]; auto.
  - destruct (decide (n_tasks x = 0%nat)) as [H0|H0]; [|by auto]. destruct (mstep_busy _ _ _ _ E) as [?|?]; [right; lia|auto..].
  - auto.
Qed.
Lemma handle_node x i : g_node (n_mgr (handle includes x i).1) = g_node (n_mgr x).
Proof. unfold handle. destruct (mstep includes (n_mgr x) i) as [g eff] eqn:E. simpl. by eapply mstep_node. Qed.

Definition led (l : list sop) y : Prop := forall n x, y_nodes y !! n = Some x ->
  g_node (n_mgr x) = n /\ (busy x -> exists i, YEvent n i ∈ l /\ names_leader n i).
Lemma led_insert l l' y n x x' (net : list (N * smsg)) k : led l y -> (forall o, o ∈ l -> o ∈ l') -> y_nodes y !! n = Some x ->
  g_node (n_mgr x') = n -> (busy x' -> busy x \/ exists i, YEvent n i ∈ l' /\ names_leader n i) -> led l' (SSys (<[n := x']> (y_nodes y)) net k).
Proof.
  intros Hl Hs Ex Hg Hb n' x0. simpl. destruct (decide (n = n')) as [<-|Hne].
  - rewrite lookup_insert. intros [= <-]. split; [done|]. intros H. destruct (Hb H) as [H'|H']; [|done].
    destruct (proj2 (Hl n x Ex) H') as (i & Hi & Hn). exists i. auto.
  - rewrite lookup_insert_ne by done. intros E. destruct (Hl n' x0 E) as [H1 H2]. split; [done|]. intros H. destruct (H2 H) as (i & Hi & Hn). exists i. auto.
Qed.
Lemma led_step l y o y' : led l y -> sstep includes y o = Some y' -> led (l ++ [o]) y'.
Proof.
  intros Hl E. assert (Hs : forall q, q ∈ l -> q ∈ l ++ [o]) by (intros q Hq; apply elem_of_app; by left).
  assert (Hsame : forall net k, led (l ++ [o]) (SSys (y_nodes y) net k)).
  { intros net k n x Ex. destruct (Hl n x Ex) as [H1 H2]. split; [done|]. intros H. destruct (H2 H) as (i & Hi & Hn). exists i. auto. }
  destruct o as [n i|k|k|n ok|n k|n a]; cbn [sstep] in E.
  - destruct (y_nodes y !! n) as [x|] eqn:Ex; [|done]. cbn [mbind option_bind] in E. destruct (is_event i) eqn:Ei; [|done].
    destruct (handle includes x i) as [x' out] eqn:Eh. injection E as <-. pose proof (handle_node x i) as Hg. pose proof (handle_busy x i) as Hb. rewrite Eh in Hg, Hb. simpl in Hg, Hb.
    destruct (Hl n x Ex) as [Hn _]. apply (led_insert l _ y n x); [done|done|done|congruence|].
    intros H. destruct (Hb H) as [H'|[H'|[r ->]]]; [by left| |done]. right. exists i. rewrite Hn in H'. split; [|done]. apply elem_of_app. right. by left.
  - destruct (y_net y !! k) as [[n msg]|] eqn:Ek; [|done]. cbn [mbind option_bind fst snd] in E. destruct (y_nodes y !! n) as [x|] eqn:Ex; [|injection E as <-; apply Hsame].
    destruct (handle includes x (IMsg msg)) as [x' out] eqn:Eh. injection E as <-. pose proof (handle_node x (IMsg msg)) as Hg. pose proof (handle_busy x (IMsg msg)) as Hb. rewrite Eh in Hg, Hb. simpl in Hg, Hb.
    destruct (Hl n x Ex) as [Hn _]. apply (led_insert l _ y n x); [done|done|done|congruence|].
    intros H. destruct (Hb H) as [H'|[H'|[r H']]]; [by left|done|done].
  - destruct (y_net y !! k); [|done]. injection E as <-. apply Hsame.
  - destruct (y_nodes y !! n) as [x|] eqn:Ex; [|done]. cbn [mbind option_bind] in E. destruct (Hl n x Ex) as [Hn _]. destruct (n_tasks x) as [|t] eqn:Et; [done|].
    assert (busy x) by (right; left; by rewrite Et). destruct ok; injection E as <-; apply (led_insert l _ y n x); auto.
  - destruct (y_nodes y !! n) as [x|] eqn:Ex; [|done]. cbn [mbind option_bind] in E. destruct (Hl n x Ex) as [Hn _].
    destruct (n_results x !! k) as [r|] eqn:Er; [|done]. assert (busy x) by (right; right; left; by intros H; rewrite H in Er).
    cbn [mbind option_bind] in E. set (x0 := SNode _ _ _ _ _) in E. pose proof (handle_node x0 (IResult r)) as Hg. destruct (handle includes x0 (IResult r)) as [x' out]. injection E as <-. simpl in Hg.
    apply (led_insert l _ y n x); auto. congruence.
  - destruct (y_nodes y !! n) as [x|] eqn:Ex; [|done]. cbn [mbind option_bind] in E. destruct (Hl n x Ex) as [Hn _]. case_decide as Ha; [|done]. injection E as <-.
    apply (led_insert l _ y n x); auto. intros _. left. right. right. right. intros H. rewrite H in Ha. by apply elem_of_nil in Ha.
Qed.
Lemma led_run l0 l y y' : led l0 y -> srun includes y l = Some y' -> led (l0 ++ l) y'.
Proof.
  revert l0 y. induction l as [|o l IH]; intros l0 y Hl E; [injection E as <-; by rewrite app_nil_r|]. simpl in E.
  destruct (sstep includes y o) as [y1|] eqn:Es; [|done]. simpl in E. change (o :: l) with ([o] ++ l). rewrite app_assoc.
  apply (IH _ y1); [by apply (led_step l0 y)|done].
Qed.
Lemma new_sys_lookup nl n x : y_nodes (new_sys nl) !! n = Some x -> x = new_node n.
Proof. simpl. intros (m & E & _)%elem_of_list_to_map_2%elem_of_list_fmap. by injection E as -> ->. Qed.
Lemma led_new nl : led [] (new_sys nl).
Proof. intros n x ->%new_sys_lookup. split; [done|]. unfold busy. simpl. intros [[]|[H|[H|H]]]; done. Qed.

(** With a selected node around, others never start. *)
Section around.
Variable p : N.
Hypothesis Hp : includes p = true.
Definition calm x : Prop :=
  n_tasks x = 0%nat /\ n_results x = [] /\ n_live x = [] /\ (is_joining (g_state (n_mgr x)) = true \/ p ∈ g_managers (n_mgr x)) /\
  match g_state (n_mgr x) with SStarting A => A = ∅ | SJoining _ | SIdle => True | _ => False end.
Definition apart y : Prop :=
  (forall n x, y_nodes y !! n = Some x -> g_node (n_mgr x) = n /\ (forall m, m ∈ g_managers (n_mgr x) -> includes m = true) /\ (includes n = false -> calm x)) /\
  forall q, q ∈ y_net y -> includes q.1 = true.

Lemma mstep_included g i g' eff : mstep includes g i = (g', eff) -> (forall m, m ∈ g_managers g -> includes m = true) -> forall m, m ∈ g_managers g' -> includes m = true.
Proof.
  intros E Hg m. rewrite (mstep_managers includes _ _ _ _ E). destruct i as [a nodes|a|a|a|msg|r|]; cbn [learn]; try apply Hg.
  - intros [H|H]%elem_of_union; [by apply Hg|]. apply elem_of_list_to_set, elem_of_list_In, filter_In in H as [_ H]. by apply andb_true_iff in H as [_ H].
  - destruct (_ && _) eqn:Ea; [|apply Hg]. apply andb_true_iff in Ea as [_ Ea]. intros [->%elem_of_singleton|H]%elem_of_union; [done|by apply Hg].
  - intros [H _]%elem_of_difference. by apply Hg.
Qed.
Lemma handle_out x i x' out : handle includes x i = (x', out) -> (forall m, m ∈ g_managers (n_mgr x) -> includes m = true) ->
  (forall m, m ∈ g_managers (n_mgr x') -> includes m = true) /\ forall q, q ∈ out -> includes q.1 = true.
Proof.
  unfold handle. destruct (mstep includes (n_mgr x) i) as [g eff] eqn:E. intros [= <- <-] Hg. simpl. pose proof (mstep_included _ _ _ _ E Hg) as Hg'. split; [done|].
  intros [m msg] H. apply elem_of_list_omap in H as (e & He & Eq). destruct e; try done. injection Eq as -> ->. simpl.
  destruct (sends_known _ _ _ _ _ _ E He) as [H|H]; auto.
Qed.
Lemma nonempty_size (A : gset N) m : m ∈ A -> size A <> 0%nat.
Proof. intros H H0. apply size_empty_inv in H0. set_solver. Qed.

Lemma request_creates g : p ∈ g_managers g -> creates (request_lease g) = 0%nat.
Proof. intros H. unfold request_lease. rewrite decide_False by (by apply (nonempty_size _ p)). apply creates_notify_all. Qed.
Lemma event_calm x i x' out : handle includes x i = (x', out) -> is_event i = true -> g_node (n_mgr x) <> p ->
  match i with IMemberUp _ nodes => p ∈ nodes | IRemoved a => a <> p | _ => True end -> calm x -> calm x'.
Proof.
  unfold handle, calm. destruct (mstep includes (n_mgr x) i) as [g eff] eqn:E. intros [= <- <-] Hev Hn Hi (H1 & H2 & H3 & H4 & H5). simpl. rewrite H1, H2, H3. simpl.
  pose proof (mstep_managers includes _ _ _ _ E) as Hm.
  assert (Hk : p ∈ g_managers (n_mgr x) -> p ∈ g_managers g).
  { intros H. rewrite Hm. destruct i as [a nodes|a|a|a|msg|r|]; cbn [learn]; try done.
    - apply elem_of_union. by left.
    - destruct (_ && _); [apply elem_of_union; by right|done].
    - apply elem_of_difference. split; [done|]. by intros ?%elem_of_singleton. }
  enough (creates eff = 0%nat /\ (is_joining (g_state g) = true \/ p ∈ g_managers g) /\ match g_state g with SStarting A => A = ∅ | SJoining _ | SIdle => True | _ => False end) by tauto.
  destruct i as [a nodes|a|a|a|msg|r|]; try done; cbn [mstep] in E.
  - assert (Hin : p ∈ g_managers (add_managers includes (n_mgr x) nodes)).
    { simpl. apply elem_of_union. right. apply elem_of_list_to_set, elem_of_list_In, filter_In. split; [by apply elem_of_list_In|].
      rewrite Hp, andb_true_r. apply negb_true_iff, N.eqb_neq. congruence. }
    unfold on_member_up in E. set (g1 := add_managers includes (n_mgr x) nodes) in *. destruct (a =? g_node (n_mgr x)).
    + injection E as <- <-. rewrite creates_app, request_creates by done. split_and!; [|by right|done].
      destruct (g_state (n_mgr x)) as [[q|]| | | |]; try done. rewrite creates_notify. done.
    + injection E as <- <-. split_and!; [|by right|done]. destruct (g_state (n_mgr x)) as [[q|]| | | |]; try done. by rewrite creates_notify.
  - destruct (is_joining (g_state (n_mgr x))) eqn:Ej; [injection E as <- <-; rewrite Ej; auto|]. unfold on_leader_changed in E.
    destruct H4 as [H4|H4]; [done|]. destruct (_ && _); injection E as <- <-; [|auto]. rewrite request_creates by done. simpl. auto.
  - unfold on_node_added in E. destruct (_ && _); [|injection E as <- <-; auto]. case_decide; injection E as <- <-; [auto|]. simpl in *.
    split_and!; [by destruct (g_state (n_mgr x))| |done]. destruct H4 as [H4|H4]; auto.
  - unfold on_node_removed in E. destruct (g_state (n_mgr x)) as [q| |A|b|b w] eqn:Es; try done; injection E as <- <-.
    + simpl in *. rewrite Es. auto.
    + simpl in *. rewrite Es. split_and!; [done| |done]. destruct H4 as [H4|H4]; [done|]. right. by apply Hk.
    + subst A. destruct H4 as [H4|H4]; [done|]. specialize (Hk H4). simpl in Hk |- *. split_and!; [|by right|set_solver].
      rewrite decide_False; [done|]. pose proof (nonempty_size _ _ Hk) as Hz. intros Hs. apply Hz. rewrite <-Hs. change (size ((∅ : gset N) ∖ {[a]}) = 0%nat). assert ((∅ : gset N) ∖ {[a]} = ∅) as -> by set_solver. apply size_empty.
Qed.

Lemma apart_insert y n x' (net : list (N * smsg)) k : apart y -> (forall q, q ∈ net -> includes q.1 = true) -> g_node (n_mgr x') = n ->
  (forall m, m ∈ g_managers (n_mgr x') -> includes m = true) -> (includes n = false -> calm x') -> apart (SSys (<[n := x']> (y_nodes y)) net k).
Proof.
  intros [H1 H2] Hnet Hg Hm Hc. split; [|done]. intros n' x0. simpl. destruct (decide (n = n')) as [<-|Hne]; [rewrite lookup_insert; by intros [= <-]|].
  rewrite lookup_insert_ne by done. apply H1.
Qed.
Lemma apart_step y o y' : always_member p [o] -> apart y -> sstep includes y o = Some y' -> apart y'.
Proof.
  intros Ho [H1 H2] E.
  assert (Hnp : forall n, includes n = false -> n <> p) by (intros n Hn ->; congruence).
  assert (Hdel : forall k q, q ∈ delete k (y_net y) -> includes q.1 = true).
  { intros k q Hq. apply H2. apply elem_of_list_lookup in Hq as (j & Hj). destruct (decide (j < k)%nat).
    - rewrite lookup_delete_lt in Hj by done. by eapply elem_of_list_lookup_2.
    - rewrite lookup_delete_ge in Hj by lia. by eapply elem_of_list_lookup_2. }
  destruct o as [n i|k|k|n ok|n k|n a]; cbn [sstep] in E.
  - destruct (y_nodes y !! n) as [x|] eqn:Ex; [|done]. cbn [mbind option_bind] in E. destruct (is_event i) eqn:Ei; [|done].
    destruct (handle includes x i) as [x' out] eqn:Eh. injection E as <-. destruct (H1 n x Ex) as (Hn & Hm & Hc).
    pose proof (handle_node x i) as Hg. rewrite Eh in Hg. simpl in Hg. destruct (handle_out _ _ _ _ Eh Hm) as [Hm' Ho'].
    apply apart_insert; [done| |congruence|done|].
    + intros q [Hq|Hq]%elem_of_app; auto.
    + intros Hf. apply (event_calm _ _ _ _ Eh Ei); [|apply (Ho n i); by left|by apply Hc]. rewrite Hn. by apply Hnp.
  - destruct (y_net y !! k) as [[n msg]|] eqn:Ek; [|done]. cbn [mbind option_bind fst snd] in E.
    assert (includes n = true) as Hin by (apply (H2 (n, msg)); by eapply elem_of_list_lookup_2).
    destruct (y_nodes y !! n) as [x|] eqn:Ex; [|injection E as <-; split; [done|apply Hdel]].
    destruct (handle includes x (IMsg msg)) as [x' out] eqn:Eh. injection E as <-. destruct (H1 n x Ex) as (Hn & Hm & Hc).
    pose proof (handle_node x (IMsg msg)) as Hg. rewrite Eh in Hg. simpl in Hg. destruct (handle_out _ _ _ _ Eh Hm) as [Hm' Ho'].
    apply apart_insert; [done| |congruence|done|congruence]. intros q [Hq|Hq]%elem_of_app; [by apply (Hdel k)|auto].
  - destruct (y_net y !! k); [|done]. injection E as <-. split; [done|apply Hdel].
  - destruct (y_nodes y !! n) as [x|] eqn:Ex; [|done]. cbn [mbind option_bind] in E. destruct (H1 n x Ex) as (Hn & Hm & Hc). destruct (n_tasks x) as [|t] eqn:Et; [done|].
    assert (includes n = false -> False) as Hno by (intros Hf; destruct (Hc Hf) as [Hz _]; congruence).
    destruct ok; injection E as <-; (apply apart_insert; [done|done|done|done|intros Hf; by destruct (Hno Hf)]).
  - destruct (y_nodes y !! n) as [x|] eqn:Ex; [|done]. cbn [mbind option_bind] in E. destruct (H1 n x Ex) as (Hn & Hm & Hc).
    destruct (n_results x !! k) as [r|] eqn:Er; [|done]. cbn [mbind option_bind] in E.
    assert (includes n = false -> False) as Hno by (intros Hf; destruct (Hc Hf) as (_ & Hz & _); by rewrite Hz in Er).
    set (x0 := SNode _ _ _ _ _) in E. pose proof (handle_node x0 (IResult r)) as Hg. destruct (handle includes x0 (IResult r)) as [x' out] eqn:Eh. injection E as <-. simpl in Hg.
    destruct (handle_out _ _ _ _ Eh Hm) as [Hm' Ho']. apply apart_insert; [done| |congruence|done|intros Hf; by destruct (Hno Hf)]. intros q [Hq|Hq]%elem_of_app; auto.
  - destruct (y_nodes y !! n) as [x|] eqn:Ex; [|done]. cbn [mbind option_bind] in E. destruct (H1 n x Ex) as (Hn & Hm & Hc). case_decide as Ha; [|done]. injection E as <-.
    apply apart_insert; [done|done|done|done|]. intros Hf. destruct (Hc Hf) as (_ & _ & Hz & _). rewrite Hz in Ha. by apply elem_of_nil in Ha.
Qed.
Lemma apart_run y l y' : always_member p l -> apart y -> srun includes y l = Some y' -> apart y'.
Proof.
  revert y. induction l as [|o l IH]; intros y Ha Hy E; [by injection E as <-|]. simpl in E.
  destruct (sstep includes y o) as [y1|] eqn:Es; [|done]. simpl in E. apply (IH y1); [intros n i Hi; apply (Ha n i); by right| |done].
  apply (apart_step y o); [|done|done]. intros n i Hi%elem_of_list_singleton. apply (Ha n i). rewrite Hi. by left.
Qed.
Lemma apart_new nl : apart (new_sys nl).
Proof.
  split; [|intros q Hq; by apply elem_of_nil in Hq]. intros n x ->%new_sys_lookup. split; [done|]. split; [intros m Hm; by apply elem_of_empty in Hm|]. intros _. repeat split. by left.
Qed.
End around.
End selector.
