(** Proofs about a cluster of singleton managers. *)
From Verif Require Import Singleton_Model Singleton_Spec Singleton_Manager.
Local Open Scope N_scope.

(** ** Counting packets *)
Definition cnt (P : N * smsg -> bool) (l : list (N * smsg)) : nat := length (List.filter P l).
Definition is_req (w x : N) (p : N * smsg) : bool :=
  match p with (n, QRequest m) => (n =? x) && (m =? w) | _ => false end.
Definition is_ack (w x : N) (p : N * smsg) : bool :=
  match p with (n, QAck m) => (n =? w) && (m =? x) | _ => false end.
Lemma cnt_app P l1 l2 : cnt P (l1 ++ l2) = (cnt P l1 + cnt P l2)%nat.
Proof. unfold cnt. by rewrite List.filter_app, app_length. Qed.
Lemma cnt_delete P l k p : l !! k = Some p -> cnt P l = ((if P p then 1 else 0) + cnt P (delete k l))%nat.
Proof.
  revert k. induction l as [|q l IH]; intros [|k]; simpl; try done.
  - intros [= ->]. unfold cnt. simpl. by destruct (P p).
  - intros H. specialize (IH _ H). unfold cnt in *. simpl. destruct (P q); simpl; lia.
Qed.

(** ** The steps of a manager in a steady cluster *)
Section trans.
Variable includes : N -> bool.
Variable ns : gset N.
Hypothesis Hincl : forall n, n ∈ ns -> includes n = true.

(** What a manager step does to its state ([s] to [s']) and what it sends: lease requests to
    all others, an acknowledgement, the creation of the actor. *)
Inductive trans (n : N) : sstate -> sinput -> sstate -> bool -> option N -> nat -> Prop :=
| TQuiet s i : (forall m, i <> IMsg (QAck m) \/ forall A, s <> SStarting A) ->
    (forall m, i <> IMsg (QRequest m)) -> (forall a, i <> IResult (Some a)) ->
    (forall a b, i <> IMemberUp a b) -> trans n s i s false None 0
| TBegin s i a c : (exists b, i = IMemberUp n b) \/ i = ILeader n ->
    is_running s = false -> (forall m, i <> IMsg m) -> (forall r, i <> IResult r) ->
    a = match s with SJoining p => p | _ => None end ->
    c = (if decide (ns = {[n]}) then 1 else 0)%nat ->
    trans n s i (SStarting ∅) true a c
| TUp p i : (exists a b, i = IMemberUp a b /\ a <> n) -> (forall m, i <> IMsg m) -> (forall r, i <> IResult r) -> trans n (SJoining p) i SIdle false p 0
| TPend p m : trans n (SJoining p) (IMsg (QRequest m)) (SJoining (Some m)) false None 0
| TGrant s m : is_running s = false -> is_joining s = false -> trans n s (IMsg (QRequest m)) s false (Some m) 0
| TRefuse A m : trans n (SStarting A) (IMsg (QRequest m)) (SStarting A) false None 0
| TStop a m : trans n (SRunning a) (IMsg (QRequest m)) (SStopping a m) false None 0
| TAck A m c : c = (if decide ({[m]} ∪ A = ns ∖ {[n]}) then 1 else 0)%nat ->
    trans n (SStarting A) (IMsg (QAck m)) (SStarting ({[m]} ∪ A)) false None c
| TRun A a : trans n (SStarting A) (IResult (Some a)) (SRunning a) false None 0.

(** A manager that knows what it should. *)
Record wf (n : N) (g : manager) : Prop := Wf {
  wf_node : g_node g = n;
  wf_in : n ∈ ns;
  wf_sub : g_managers g ⊆ ns ∖ {[n]};
  wf_all : is_joining (g_state g) = false -> g_managers g = ns ∖ {[n]};
  wf_acked : forall A, g_state g = SStarting A -> A ⊆ ns ∖ {[n]}
}.

(** The input is one of a steady cluster. *)
Definition steady_in (n : N) (g : manager) (i : sinput) : Prop :=
  match i with
  | IMemberUp _ nodes => is_joining (g_state g) = true /\ forall m, m ∈ nodes <-> m ∈ ns
  | IAdded m => m ∈ ns
  | IRemoved _ | IChildStopped => False
  | IMsg (QRequest m) | IMsg (QAck m) => m ∈ ns /\ m <> n
  | IResult (Some _) => exists A, g_state g = SStarting A
  | _ => True
  end.

Definition reqs_to (eff : list seffect) (n x : N) : nat := cnt (is_req n x) (packets eff).
Definition acks_to (eff : list seffect) (w n : N) : nat := cnt (is_ack w n) (packets eff).

Lemma packets_app e1 e2 : packets (e1 ++ e2) = packets e1 ++ packets e2.
Proof. apply omap_app. Qed.
Lemma packets_all g m : packets (notify_managers g m) = (fun n => (n, m)) <$> elements (g_managers g).
Proof.
  unfold packets, notify_managers. induction (elements (g_managers g)) as [|k l IH]; [done|].
  cbn. f_equal. exact IH.
Qed.

Lemma cnt_none P (l : list (N * smsg)) : (forall p, p ∈ l -> P p = false) -> cnt P l = 0%nat.
Proof.
  induction l as [|p l IH]; intros H; [done|]. unfold cnt in *. simpl.
  rewrite (H p) by (by left). apply IH. intros q Hq. apply H. by right.
Qed.
Lemma cnt_le_elem P (l : list (N * smsg)) : (1 <= cnt P l)%nat <-> exists p, p ∈ l /\ P p = true.
Proof.
  induction l as [|p l IH]; unfold cnt in *; simpl.
  - split; [lia|]. by intros (? & ?%elem_of_nil & _).
  - destruct (P p) eqn:E; simpl.
    + split; [|lia]. intros _. exists p. split; [by left|done].
    + rewrite IH. split; intros (q & Hq & Hp); exists q; (split; [|done]); [by right|].
      apply elem_of_cons in Hq as [->|Hq]; [congruence|done].
Qed.
Lemma cnt_reqs_all (l : list N) n x : NoDup l ->
  cnt (is_req n x) ((fun k => (k, QRequest n)) <$> l) = if decide (x ∈ l) then 1%nat else 0%nat.
Proof.
  induction l as [|k l IH]; intros Hn; [done|]. apply NoDup_cons in Hn as [Hk Hn].
  specialize (IH Hn). unfold cnt in *. cbn [fmap list_fmap List.filter is_req].
  destruct (N.eqb_spec k x) as [->|Hx]; rewrite ?N.eqb_refl; cbn [andb length].
  - rewrite IH. rewrite (decide_False (P := x ∈ l)) by done. rewrite decide_True by (by left). done.
  - rewrite IH. destruct (decide (x ∈ l)) as [H|H].
    + rewrite decide_True by (by right). done.
    + rewrite decide_False; [done|]. intros [->|?]%elem_of_cons; done.
Qed.

(** A well-behaved step: the state moves by [trans], and the packets are those it says. *)
Record effs_ok (n : N) (eff : list seffect) (r : bool) (a : option N) (c : nat) : Prop := Effs {
  eo_req : forall x, reqs_to eff n x = if r then (if decide (x ∈ ns ∖ {[n]}) then 1 else 0)%nat else 0%nat;
  eo_req' : forall w x, w <> n -> reqs_to eff w x = 0%nat;
  eo_ack : forall w, acks_to eff w n = match a with Some m => if (m =? w)%N then 1%nat else 0%nat | None => 0%nat end;
  eo_ack' : forall w x, x <> n -> acks_to eff w x = 0%nat;
  eo_c : creates eff = c
}.

Lemma effs_nil n : effs_ok n [] false None 0.
Proof. by split. Qed.
Lemma effs_quiet n eff :
  (forall p, p ∈ packets eff -> exists m, p.2 = QStarted m \/ p.2 = QStopped m) ->
  creates eff = 0%nat -> effs_ok n eff false None 0.
Proof.
  intros H Hc. split; try done; intros; apply cnt_none; intros [k m] Hp; destruct (H _ Hp) as [? [E|E]]; simpl in E; subst m; done.
Qed.
Lemma effs_ack g n m : g_node g = n -> m ∈ g_managers g ->
  effs_ok n (notify_manager g m (QAck (g_node g))) false (Some m) 0.
Proof.
  intros E Hm. unfold notify_manager. rewrite decide_True by done.
  unfold reqs_to, acks_to. split; try done.
  - intros w. unfold acks_to, cnt. simpl. rewrite E, N.eqb_refl, andb_true_r. by destruct (m =? w).
  - intros w x Hx. unfold acks_to, cnt. simpl. rewrite E. destruct (N.eqb_spec n x); [done|]. by rewrite andb_false_r.
Qed.
Lemma effs_begin g n : g_node g = n -> n ∈ ns -> g_managers g = ns ∖ {[n]} ->
  effs_ok n (request_lease g) true None (if decide (ns = {[n]}) then 1 else 0).
Proof.
  intros E Hin Hm. unfold request_lease. case_decide as Hs.
  - apply size_empty_inv in Hs. rewrite Hm in Hs.
    assert (ns = {[n]}) as Hns.
    { apply leibniz_equiv. intros x. rewrite elem_of_singleton. split; [|by intros ->].
      intros Hx. destruct (decide (x = n)) as [|Hxn]; [done|]. exfalso.
      apply (not_elem_of_empty (C := gset N) x). rewrite <-Hs. set_solver. }
    rewrite decide_True by done.
    split; try done. intros x. rewrite decide_False by set_solver. done.
  - assert (ns <> {[n]}) as Hne.
    { intros Hne. apply Hs. rewrite Hm, Hne, difference_diag_L. apply size_empty. }
    rewrite decide_False by done.
    split; try (intros; unfold reqs_to, acks_to; rewrite packets_all, E).
    + rewrite cnt_reqs_all by apply NoDup_elements.
      destruct (decide (x ∈ ns ∖ {[n]})) as [H|H].
      * rewrite decide_True; [done|]. apply elem_of_elements. by rewrite Hm.
      * rewrite decide_False; [done|]. rewrite elem_of_elements. by rewrite Hm.
    + apply cnt_none. intros p (k & -> & Hk)%elem_of_list_fmap. simpl.
      destruct (N.eqb_spec n w); [done|]. by rewrite andb_false_r.
    + apply cnt_none. intros p (k & -> & Hk)%elem_of_list_fmap. done.
    + apply cnt_none. intros p (k & -> & Hk)%elem_of_list_fmap. done.
    + apply creates_notify_all.
Qed.
Lemma effs_app n e1 e2 r a c1 c2 :
  effs_ok n e1 false a c1 -> effs_ok n e2 r None c2 -> effs_ok n (e1 ++ e2) r a (c1 + c2).
Proof.
  intros [A1 A2 A3 A4 A5] [B1 B2 B3 B4 B5]. split; intros;
    unfold reqs_to, acks_to in *; rewrite ?packets_app, ?cnt_app, ?creates_app.
  - rewrite A1, B1. by destruct r.
  - rewrite A2, B2 by done. done.
  - rewrite A3, B3. destruct a; [|done]. destruct (_ =? _); done.
  - rewrite A4, B4 by done. done.
  - by rewrite A5, B5.
Qed.

Lemma mstep_trans n g i g' eff :
  wf n g -> steady_in n g i -> mstep includes g i = (g', eff) ->
  (forall p, g_state g = SJoining (Some p) -> p ∈ ns /\ p <> n) ->
  wf n g' /\ exists r a c, trans n (g_state g) i (g_state g') r a c /\ effs_ok n eff r a c.
Proof.
  intros Wg Hi H Hp. pose proof Wg as [W1 W2 W3 W4 W5].
  pose proof (mstep_managers _ _ _ _ _ H) as Hm. rewrite W1 in Hm.
  pose proof (mstep_node _ _ _ _ _ H) as Hn. rewrite W1 in Hn.
  destruct i as [leader nodes|leader|m|m|[m|m|m|m]|r|]; simpl in H, Hi, Hm.
  - destruct Hi as [Hj Hnodes].
    assert (g_managers g' = ns ∖ {[n]}) as Hm'.
    { rewrite Hm. apply leibniz_equiv. intros x. rewrite elem_of_union, elem_of_list_to_set, elem_of_difference, elem_of_singleton.
      rewrite elem_of_list_In, List.filter_In, <-elem_of_list_In. split.
      - intros [Hx|[Hx1 Hx2]]; [set_solver|]. apply andb_true_iff in Hx2 as [Hx2 _].
        apply negb_true_iff, N.eqb_neq in Hx2. split; [by apply Hnodes|done].
      - intros [Hx1 Hx2]. right. split; [by apply Hnodes|]. apply andb_true_iff. split; [|by apply Hincl].
        by apply negb_true_iff, N.eqb_neq. }
    destruct (g_state g) as [p| | | |] eqn:Eg; try done. clear Hj.
    unfold on_member_up in H. rewrite Eg in H.
    set (g1 := add_managers includes g nodes) in H.
    assert (g_managers g1 = ns ∖ {[n]}) as Hg1.
    { subst g1. rewrite <-Hm'. simpl. rewrite Hm, W1. done. }
    set (e1 := match p with Some n0 => notify_manager g1 n0 (QAck (g_node g)) | None => [] end).
    assert (effs_ok n e1 false p 0) as He1.
    { subst e1. destruct p as [p|]; [|apply effs_nil]. replace (g_node g) with (g_node g1) by done.
      apply effs_ack; [done|]. rewrite Hg1. destruct (Hp p); [done|]. set_solver. }
    destruct (leader =? g_node g) eqn:El.
    + unfold begin_starting in H. injection H as <- <-. split.
      * split; [done..| |done|].
        -- by rewrite Hm'.
        -- cbn [g_state set_state]. intros A [= <-]. apply empty_subseteq.
      * exists true, p, (if decide (ns = {[n]}) then 1 else 0)%nat. split.
        -- rewrite ?Eg. apply TBegin; try done. left. apply N.eqb_eq in El. rewrite El, W1. eauto.
        -- apply (effs_app _ _ _ true p 0); [done|]. by apply effs_begin.
    + injection H as <- <-. split; [split; try done; by rewrite Hm'|]. exists false, p, 0%nat. split; [|done].
      rewrite ?Eg. apply TUp; try done. apply N.eqb_neq in El. rewrite W1 in El. eauto.
  - assert (forall A, g_state g = SStarting A -> A ⊆ ns ∖ {[n]}) by done.
    destruct (is_joining (g_state g)) eqn:Ej.
    { injection H as <- <-. split; [exact Wg|]. exists false, None, 0%nat. split; [|apply effs_nil].
      apply TQuiet; [left|..]; done. }
    unfold on_leader_changed in H. destruct (leader =? g_node g) eqn:El; cbn [andb] in H;
      [destruct (is_running (g_state g)) eqn:Er; cbn [negb] in H|].
    + injection H as <- <-. split; [exact Wg|]. exists false, None, 0%nat. split; [|apply effs_nil].
      apply TQuiet; [left|..]; done.
    + unfold begin_starting in H. injection H as <- <-. split.
      * split; [done|done|exact W3| |].
        -- intros _. simpl. auto.
        -- cbn [g_state set_state]. intros A [= <-]. apply empty_subseteq.
      * eexists true, None, _. split; [|apply effs_begin; auto].
        apply TBegin; try done; [|by destruct (g_state g)].
        right. apply N.eqb_eq in El. by rewrite El, W1.
    + injection H as <- <-. split; [exact Wg|]. exists false, None, 0%nat. split; [|apply effs_nil].
      apply TQuiet; [left|..]; done.
  - unfold on_node_added in H. rewrite W1 in H. destruct (negb (m =? n) && includes m) eqn:Em.
    + apply andb_true_iff in Em as [Em _]. apply negb_true_iff, N.eqb_neq in Em.
      case_decide as Hd.
      * injection H as <- <-. split; [exact Wg|]. exists false, None, 0%nat. split; [|apply effs_nil].
        apply TQuiet; [left|..]; done.
      * destruct (is_joining (g_state g)) eqn:Ej.
        -- destruct (g_state g) as [p| | | |] eqn:Eg; try done. injection H as <- <-. split.
           ++ split; try done; simpl; try rewrite Eg; try done. set_solver.
           ++ exists false, None, 0%nat. split; [|apply effs_nil]. simpl. rewrite Eg. apply TQuiet; [left|..]; done.
        -- exfalso. apply Hd. rewrite (W4 eq_refl). set_solver.
    + injection H as <- <-. split; [exact Wg|]. exists false, None, 0%nat. split; [|apply effs_nil].
      apply TQuiet; [left|..]; done.
  - done.
  - unfold on_request_lease, begin_stopping, grant_lease in H. destruct (g_state g) as [p| |A|a|a w] eqn:Eg; simpl in H;
      injection H as <- <-; simpl in *; rewrite ?Eg in *.
    + split; [by split|]. exists false, None, 0%nat. split; [apply TPend|apply effs_nil].
    + split; [exact Wg|]. exists false, (Some m), 0%nat. split; [by apply TGrant|].
      apply effs_ack; [done|]. rewrite W4 by done. set_solver.
    + split; [exact Wg|]. exists false, None, 0%nat. split; [apply TRefuse|apply effs_nil].
    + split; [split; try done; simpl; auto|]. exists false, None, 0%nat. split; [apply TStop|].
      apply effs_quiet; [|unfold creates; simpl; apply creates_notify_all].
      change (packets (FStop a :: ?l)) with (packets l). rewrite packets_all.
      intros q (k & -> & _)%elem_of_list_fmap. eauto.
    + split; [exact Wg|]. exists false, (Some m), 0%nat. split; [by apply TGrant|].
      apply effs_ack; [done|]. rewrite W4 by done. set_solver.
  - unfold on_lease_ack in H. destruct (g_state g) as [p| |A|a|a w] eqn:Eg.
    3: { injection H as <- <-. split.
         - split; try done. intros A' [= <-]. specialize (W5 A eq_refl). set_solver.
         - exists false, None, (if decide ({[m]} ∪ A = ns ∖ {[n]}) then 1 else 0)%nat.
           split; [by apply TAck|]. specialize (W4 eq_refl). specialize (W5 A eq_refl). rewrite W4.
           destruct (decide (size ({[m]} ∪ A) = size (ns ∖ {[n]}))) as [Hs|Hs].
           + rewrite decide_True; [by split|].
             apply subset_size_eq; [set_solver|lia].
           + rewrite decide_False by congruence. apply effs_nil. }
    all: injection H as <- <-; split; [exact Wg|]; exists false, None, 0%nat;
      (split; [|apply effs_nil]); rewrite ?Eg; apply TQuiet; [right| | |]; done.
  - injection H as <- <-. split; [exact Wg|]. exists false, None, 0%nat. split; [|by apply effs_quiet; [intros ? ?%elem_of_nil|]].
    apply TQuiet; [left|..]; done.
  - injection H as <- <-. split; [exact Wg|]. exists false, None, 0%nat. split; [|by apply effs_quiet; [intros ? ?%elem_of_nil|]].
    apply TQuiet; [left|..]; done.
  - unfold on_start_result in H. destruct r as [a|]; injection H as <- <-.
    + destruct Hi as [A HA]. rewrite HA in W4. split; [split; try done; simpl; auto|].
      exists false, None, 0%nat. split; [rewrite HA; apply TRun|].
      apply effs_quiet; [|unfold creates; simpl; apply creates_notify_all].
      change (packets (FProxyStarted (RLocal a) :: ?l)) with (packets l). rewrite packets_all.
      intros q (k & -> & _)%elem_of_list_fmap. eauto.
    + split; [exact Wg|]. exists false, None, 0%nat. split; [|apply effs_nil].
      apply TQuiet; [left|..]; done.
  - done.
Qed.
(** ** The invariant of a steady cluster *)
Definition mst (y : ssys) (n : N) : sstate := default SIdle (state_of y n).
Definition starting (s : sstate) : bool := match s with SStarting _ => true | _ => false end.
Definition held (s : sstate) (w : N) : nat :=
  match s with SJoining (Some m) | SStopping _ m => if (m =? w)%N then 1%nat else 0%nat | _ => 0%nat end.
Definition got (s : sstate) (x : N) : nat :=
  match s with SStarting A => if decide (x ∈ A) then 1%nat else 0%nat | _ => 0%nat end.
(** What is left of the lease request of [w] to [x]: the request, the promise to grant it
    later, the acknowledgement on its way, or received. *)
Definition pend (y : ssys) (w x : N) : nat :=
  (cnt (is_req w x) (y_net y) + cnt (is_ack w x) (y_net y) + held (mst y x) w + got (mst y w) x)%nat.

Record inv (y : ssys) : Prop := Inv {
  i_dom : forall n, is_Some (y_nodes y !! n) <-> n ∈ ns;
  i_wf : forall n x, y_nodes y !! n = Some x -> wf n (n_mgr x);
  i_join : forall n p, mst y n = SJoining (Some p) -> p ∈ ns /\ p <> n;
  i_stop : forall n a p, mst y n = SStopping a p -> p ∈ ns /\ p <> n;
  i_net : forall n m, (n, QRequest m) ∈ y_net y \/ (n, QAck m) ∈ y_net y -> n ∈ ns /\ m ∈ ns /\ m <> n;
  i_pend : forall w x, w ∈ ns -> x ∈ ns -> w <> x -> (pend y w x <= 1)%nat;
  i_pend0 : forall w x, w ∈ ns -> x ∈ ns -> w <> x -> starting (mst y w) = false -> pend y w x = 0%nat;
  i_start : forall n x, y_nodes y !! n = Some x ->
    (n_tasks x + length (n_results x) <= 1)%nat /\
    ((1 <= n_tasks x + length (n_results x))%nat -> g_state (n_mgr x) = SStarting (ns ∖ {[n]}))
}.

Lemma mst_lookup y n x : y_nodes y !! n = Some x -> mst y n = g_state (n_mgr x).
Proof. intros H. unfold mst, state_of. by rewrite H. Qed.

(** One node handles an input that consumes one packet, one result or none. *)
Record handles (y : ssys) (n : N) (i : sinput) (y' : ssys) (x : snode) (g' : manager) (eff : list seffect)
  (net0 : list (N * smsg)) (rs : list (option N)) (px : list (option sref)) : Prop := Handles {
  h_look : y_nodes y !! n = Some x;
  h_step : mstep includes (n_mgr x) i = (g', eff);
  h_in : steady_in n (n_mgr x) i;
  h_cons : forall P, cnt P (y_net y) = (match i with IMsg m => if P (n, m) then 1 else 0 | _ => 0 end + cnt P net0)%nat;
  h_sub : forall p, p ∈ net0 -> p ∈ y_net y;
  h_res : (rs = n_results x /\ forall r, i <> IResult r) \/
          (exists r, i = IResult r /\ length (n_results x) = S (length rs));
  h_y : y' = SSys (<[n := SNode g' (n_tasks x + creates eff) rs (n_live x) px]> (y_nodes y)) (net0 ++ packets eff) (y_next y)
}.

Lemma pend_le y n i y' x g' eff net0 rs px w z :
  inv y -> handles y n i y' x g' eff net0 rs px -> w <> z -> w ∈ ns -> z ∈ ns -> w <> n ->
  (pend y' w z <= pend y w z)%nat /\ mst y' w = mst y w.
Proof.
  intros HI [Hl Hs Hi Hc Hsub Hr ->] Hwz Hw Hz Hwn.
  destruct (mstep_trans n (n_mgr x) i g' eff) as (Wg' & r & a & c & Ht & [E1 E2 E3 E4 E5]); try done.
  { by apply (i_wf _ HI). }
  { intros p Hp. apply (i_join _ HI n p). by rewrite (mst_lookup _ _ _ Hl). }
  set (y' := SSys _ _ _).
  assert (mst y' w = mst y w) as Hmw.
  { unfold mst, state_of, y'. cbn [y_nodes]. by rewrite lookup_insert_ne by done. }
  split; [|done]. unfold pend. rewrite Hmw. cbn [y_net]. unfold y' at 1 2. cbn [y_net].
  rewrite !cnt_app. rewrite (Hc (is_req w z)), (Hc (is_ack w z)).
  unfold reqs_to, acks_to in *. rewrite (E2 w z Hwn).
  destruct (decide (z = n)) as [->|Hzn].
  - rewrite (E3 w).
    assert (mst y' n = g_state g') as ->.
    { unfold mst, state_of, y'. cbn [y_nodes]. by rewrite lookup_insert. }
    rewrite (mst_lookup _ _ _ Hl).
    assert (cnt (is_req w n) net0 + cnt (is_ack w n) net0 + (match a with Some m => if (m =? w)%N then 1%nat else 0%nat | None => 0%nat end) + held (g_state g') w <=
            (match i with IMsg m => if is_req w n (n, m) then 1 else 0 | _ => 0 end) + cnt (is_req w n) net0 + cnt (is_ack w n) net0 + held (g_state (n_mgr x)) w)%nat; [|destruct i; lia].
    inversion Ht; subst; cbn [held is_req]; rewrite ?N.eqb_refl; cbn [andb]; try lia;
      repeat (case_match; simplify_eq/=; try lia).
  - rewrite (E4 w z Hzn).
    assert (mst y' z = mst y z) as ->.
    { unfold mst, state_of, y'. cbn [y_nodes]. by rewrite lookup_insert_ne by done. }
    lia.
Qed.

Lemma pend_self y n i y' x g' eff net0 rs px z :
  inv y -> handles y n i y' x g' eff net0 rs px -> n <> z -> n ∈ ns -> z ∈ ns ->
  (pend y' n z <= 1)%nat /\ (starting (mst y' n) = false -> pend y' n z = 0%nat).
Proof.
  intros HI [Hl Hs Hi Hc Hsub Hr ->] Hwz Hw Hz.
  destruct (mstep_trans n (n_mgr x) i g' eff) as (Wg' & r & a & c & Ht & [E1 E2 E3 E4 E5]); try done.
  { by apply (i_wf _ HI). }
  { intros p Hp. apply (i_join _ HI n p). by rewrite (mst_lookup _ _ _ Hl). }
  pose proof (i_pend _ HI n z Hw Hz Hwz) as Hp1. pose proof (i_pend0 _ HI n z Hw Hz Hwz) as Hp0.
  pose proof (i_start _ HI n x Hl) as [_ Hst].
  set (y' := SSys _ _ _).
  assert (mst y' z = mst y z) as Hmz.
  { unfold mst, state_of, y'. cbn [y_nodes]. by rewrite lookup_insert_ne by done. }
  assert (mst y' n = g_state g') as Hmn.
  { unfold mst, state_of, y'. cbn [y_nodes]. by rewrite lookup_insert. }
  unfold pend in *. rewrite Hmz, Hmn. unfold y'. cbn [y_net].
  rewrite !cnt_app. rewrite (mst_lookup _ _ _ Hl) in *.
  unfold reqs_to, acks_to in *. rewrite (E1 z), (E4 n z) by done.
  assert (match i with IMsg m => if is_req n z (n, m) then 1%nat else 0%nat | _ => 0%nat end = 0%nat) as Hreq0.
  { destruct i as [| | | |[]| |]; try done. simpl. destruct (N.eqb_spec n z); done. }
  rewrite (Hc (is_req n z)), (Hc (is_ack n z)), Hreq0 in Hp1, Hp0.
  remember (match i with IMsg m => if is_ack n z (n, m) then 1%nat else 0%nat | _ => 0%nat end) as ca eqn:Eca.
  inversion Ht; subst a r c; try subst s; try subst i; cbn [held starting] in *;
    repeat match goal with
      | H : SStarting _ = g_state _ |- _ => rewrite <-H in *; clear H
      | H : SRunning _ = g_state _ |- _ => rewrite <-H in *; clear H
      | H : SJoining _ = g_state _ |- _ => rewrite <-H in *; clear H
      | H : SStopping _ _ = g_state _ |- _ => rewrite <-H in *; clear H
      | H : SIdle = g_state _ |- _ => rewrite <-H in *; clear H
      end; cbn [starting] in *.
  - split; [lia|]. intros Hq1. specialize (Hp0 Hq1). lia.
  - assert (starting (g_state (n_mgr x)) = false) as Hns by (by destruct (g_state (n_mgr x))).
    specialize (Hp0 Hns). split; [|done]. cbn [got]. rewrite (decide_False (P := z ∈ ∅)) by set_solver.
    destruct (decide (z ∈ ns ∖ {[n]})); lia.
  - specialize (Hp0 eq_refl). cbn [got] in *. lia.
  - specialize (Hp0 eq_refl). cbn [got] in *. lia.
  - match goal with H : _ = g_state g' |- _ => rewrite H in * end.
    split; [lia|]. intros Hq1. specialize (Hp0 Hq1). lia.
  - split; [lia|done].
  - specialize (Hp0 eq_refl). cbn [got] in *. lia.
  - split; [|done]. cbn [got is_ack] in *. rewrite N.eqb_refl in Eca. cbn [andb] in Eca.
    destruct (N.eqb_spec m z) as [->|Hmz'].
    + destruct (decide (z ∈ A)), (decide (z ∈ {[z]} ∪ A)); lia.
    + destruct (decide (z ∈ A)) as [Hz1|Hz1].
      * destruct (decide (z ∈ {[m]} ∪ A)); lia.
      * rewrite decide_False by set_solver. lia.
  - destruct Hr as [[_ Hr]|(r' & Er & Hr)]; [by destruct (Hr (Some a0))|].
    assert (A = ns ∖ {[n]}) as ->.
    { assert (SStarting A = SStarting (ns ∖ {[n]})) as Ha by (apply Hst; lia). by injection Ha. }
    cbn [got] in *. rewrite decide_True in Hp1 by set_solver. lia.
Qed.

Lemma handles_inv y n i y' x g' eff net0 rs px :
  inv y -> handles y n i y' x g' eff net0 rs px -> inv y'.
Proof.
  intros HI HH. pose proof HH as [Hl Hs Hi Hc Hsub Hr Hy].
  destruct (mstep_trans n (n_mgr x) i g' eff) as (Wg' & r & a & c & Ht & [E1 E2 E3 E4 E5]); try done.
  { by apply (i_wf _ HI). }
  { intros p Hp. apply (i_join _ HI n p). by rewrite (mst_lookup _ _ _ Hl). }
  assert (n ∈ ns) as Hn by (apply (i_dom _ HI); eauto).
  assert (forall m, i = IMsg (QRequest m) \/ i = IMsg (QAck m) -> m ∈ ns /\ m <> n) as Him.
  { intros m [->| ->]; done. }
  split.
  - intros k. rewrite <-(i_dom _ HI). subst y'. cbn [y_nodes]. rewrite lookup_insert_is_Some'.
    split; [|by right]. intros [<-|?]; eauto.
  - intros k u. subst y'. cbn [y_nodes]. intros [[-> <-]|[Hk Hu]]%lookup_insert_Some; [done|].
    by apply (i_wf _ HI).
  - intros k p. subst y'. unfold mst, state_of. cbn [y_nodes].
    destruct (decide (k = n)) as [->|Hk].
    + rewrite lookup_insert. cbn. intros Hp.
      assert (forall q, g_state (n_mgr x) = SJoining (Some q) -> q ∈ ns /\ q <> n) as Hj.
      { intros q Hq. apply (i_join _ HI n q). by rewrite (mst_lookup _ _ _ Hl). }
      inversion Ht; subst; try congruence.
      * apply Hj. congruence.
      * apply Him. left. congruence.
      * rewrite Hp in *. apply Hj. congruence.
    + rewrite lookup_insert_ne by done. apply (i_join _ HI k p).
  - intros k b p. subst y'. unfold mst, state_of. cbn [y_nodes].
    destruct (decide (k = n)) as [->|Hk].
    + rewrite lookup_insert. cbn. intros Hp.
      assert (forall b q, g_state (n_mgr x) = SStopping b q -> q ∈ ns /\ q <> n) as Hj.
      { intros b' q Hq. apply (i_stop _ HI n b' q). by rewrite (mst_lookup _ _ _ Hl). }
      inversion Ht; subst; try congruence.
      * apply (Hj b). congruence.
      * rewrite Hp in *. apply (Hj b). congruence.
      * apply Him. left. congruence.
    + rewrite lookup_insert_ne by done. apply (i_stop _ HI k b p).
  - intros k m Hk. subst y'. cbn [y_net] in Hk. rewrite !elem_of_app in Hk.
    assert (((k, QRequest m) ∈ net0 \/ (k, QAck m) ∈ net0) \/ ((k, QRequest m) ∈ packets eff \/ (k, QAck m) ∈ packets eff)) as [[H|H]|[H|H]] by tauto.
    + apply (i_net _ HI). left. by apply Hsub.
    + apply (i_net _ HI). right. by apply Hsub.
    + assert (1 <= reqs_to eff m k)%nat as H1.
      { apply cnt_le_elem. exists (k, QRequest m). split; [done|]. simpl. by rewrite !N.eqb_refl. }
      destruct (decide (m = n)) as [->|Hmn]; [|rewrite E2 in H1 by done; lia].
      rewrite E1 in H1. destruct r; [|lia]. case_decide; [|lia]. set_solver.
    + assert (1 <= acks_to eff k m)%nat as H1.
      { apply cnt_le_elem. exists (k, QAck m). split; [done|]. simpl. by rewrite !N.eqb_refl. }
      destruct (decide (m = n)) as [->|Hmn]; [|rewrite E4 in H1 by done; lia].
      rewrite E3 in H1. destruct a as [q|]; [|lia]. destruct (N.eqb_spec q k) as [->|]; [|lia].
      assert (k ∈ ns /\ k <> n) as [? ?]; [|done].
      assert (forall q, g_state (n_mgr x) = SJoining (Some q) -> q ∈ ns /\ q <> n) as Hj.
      { intros q Hq. apply (i_join _ HI n q). by rewrite (mst_lookup _ _ _ Hl). }
      inversion Ht; subst.
      * destruct (g_state (n_mgr x)) as [[]| | | |] eqn:Eg; try done. simplify_eq. by apply Hj.
      * apply Hj. congruence.
      * apply Him. by left.
  - intros w z Hw Hz Hwz. destruct (decide (w = n)) as [->|Hwn].
    + by destruct (pend_self _ _ _ _ _ _ _ _ _ _ z HI HH).
    + destruct (pend_le _ _ _ _ _ _ _ _ _ _ w z HI HH) as [H1 _]; try done.
      pose proof (i_pend _ HI w z Hw Hz Hwz). lia.
  - intros w z Hw Hz Hwz. destruct (decide (w = n)) as [->|Hwn].
    + by destruct (pend_self _ _ _ _ _ _ _ _ _ _ z HI HH).
    + destruct (pend_le _ _ _ _ _ _ _ _ _ _ w z HI HH) as [H1 H2]; try done.
      rewrite H2. intros H3. pose proof (i_pend0 _ HI w z Hw Hz Hwz H3). lia.
  - intros k u. subst y'. cbn [y_nodes]. intros [[-> <-]|[Hk Hu]]%lookup_insert_Some;
      [|by apply (i_start _ HI)]. cbn [n_tasks n_results n_mgr].
    destruct (i_start _ HI k x Hl) as [S1 S2].
    assert (starting (g_state (n_mgr x)) = false -> n_tasks x = 0%nat /\ length (n_results x) = 0%nat) as S0.
    { intros H. destruct (decide (1 <= n_tasks x + length (n_results x))%nat) as [H1|]; [|lia].
      rewrite (S2 H1) in H. done. }
    assert (length rs <= length (n_results x))%nat as Hlen.
    { destruct Hr as [[-> _]|(? & _ & ->)]; lia. }
    rewrite E5. inversion Ht; subst.
    + match goal with H : _ = g_state g' |- _ => rewrite <-H in * end. split; [lia|]. intros Hq1. apply S2. lia.
    + assert (starting (g_state (n_mgr x)) = false) as Hstf by (by destruct (g_state (n_mgr x))).
      destruct (S0 Hstf) as [-> HR]. destruct (decide (ns = {[k]})) as [Hns|Hns]; [|split; lia].
      split; [lia|]. intros _. f_equal. rewrite Hns. by rewrite difference_diag_L.
    + match goal with H : _ = g_state (n_mgr x) |- _ => rewrite <-H in * end.
      destruct (S0 eq_refl) as [-> HR]. split; lia.
    + match goal with H : _ = g_state (n_mgr x) |- _ => rewrite <-H in * end.
      destruct (S0 eq_refl) as [-> HR]. split; lia.
    + match goal with H : _ = g_state g' |- _ => rewrite <-H in * end. split; [lia|]. intros Hq1. apply S2. lia.
    + match goal with H : _ = g_state (n_mgr x) |- _ => rewrite <-H in * end. split; [lia|]. intros Hq1. apply S2. lia.
    + match goal with H : _ = g_state (n_mgr x) |- _ => rewrite <-H in * end.
      destruct (S0 eq_refl) as [-> HR]. split; lia.
    + match goal with H : _ = g_state (n_mgr x) |- _ => rewrite <-H in * end.
      assert (n_tasks x = 0%nat /\ length (n_results x) = 0%nat) as [-> HR].
      { destruct (decide (1 <= n_tasks x + length (n_results x))%nat) as [H1|]; [|lia].
        exfalso. specialize (S2 H1). injection S2 as ->.
        destruct (Him m) as [Hm1 Hm2]; [by right|].
        pose proof (i_pend _ HI k m Hn Hm1 ltac:(done)) as Hp. unfold pend in Hp.
        rewrite (Hc (is_ack k m)) in Hp. rewrite (mst_lookup _ _ _ Hl) in Hp.
        match goal with H : SStarting _ = g_state (n_mgr x) |- _ => rewrite <-H in Hp end.
        cbn [got is_ack] in Hp. rewrite !N.eqb_refl in Hp. cbn [andb] in Hp.
        rewrite decide_True in Hp by set_solver. lia. }
      case_decide as Hd; [|split; lia]. split; [lia|]. intros _. by rewrite Hd.
    + destruct Hr as [[_ Hr]|(r' & Er & Hr)]; [by destruct (Hr (Some a0))|].
      split; lia.
Qed.

Lemma inv_same y y' :
  inv y ->
  (forall n, n_mgr <$> y_nodes y' !! n = n_mgr <$> y_nodes y !! n) ->
  (forall P, (cnt P (y_net y') <= cnt P (y_net y))%nat) ->
  (forall p, p ∈ y_net y' -> p ∈ y_net y) ->
  (forall n x', y_nodes y' !! n = Some x' -> exists x, y_nodes y !! n = Some x /\
     (n_tasks x' + length (n_results x') = n_tasks x + length (n_results x))%nat) ->
  inv y'.
Proof.
  intros HI Hm Hc Hsub Hn.
  assert (forall n, mst y' n = mst y n) as Hmst.
  { intros n. unfold mst, state_of. specialize (Hm n). destruct (y_nodes y' !! n), (y_nodes y !! n); simpl in *; try done.
    injection Hm as ->. done. }
  assert (forall w x, (pend y' w x <= pend y w x)%nat) as Hp.
  { intros w x. unfold pend. rewrite !Hmst. pose proof (Hc (is_req w x)). pose proof (Hc (is_ack w x)). lia. }
  split.
  - intros n. rewrite <-(i_dom _ HI). specialize (Hm n).
    destruct (y_nodes y' !! n), (y_nodes y !! n); simpl in *; try done; split; intros [? ?]; eauto; done.
  - intros n x Hx. specialize (Hm n). rewrite Hx in Hm. destruct (y_nodes y !! n) as [u|] eqn:E; [|done].
    injection Hm as ->. by apply (i_wf _ HI).
  - intros n p. rewrite Hmst. apply (i_join _ HI).
  - intros n a p. rewrite Hmst. apply (i_stop _ HI).
  - intros n m [H|H]; apply (i_net _ HI); [left|right]; by apply Hsub.
  - intros w x Hw Hx Hwx. pose proof (i_pend _ HI w x Hw Hx Hwx). specialize (Hp w x). lia.
  - intros w x Hw Hx Hwx. rewrite Hmst. intros Hs. pose proof (i_pend0 _ HI w x Hw Hx Hwx Hs). specialize (Hp w x). lia.
  - intros n x' Hx'. destruct (Hn n x' Hx') as (x & Hx & E). pose proof (i_start _ HI n x Hx) as [S1 S2].
    specialize (Hm n). rewrite Hx', Hx in Hm. injection Hm as ->. rewrite E. by split.
Qed.

Lemma delete_sub {A} (l : list A) k p : p ∈ delete k l -> p ∈ l.
Proof.
  revert k. induction l as [|x l IH]; intros [|k]; simpl; try done.
  - intros H. by right.
  - rewrite !elem_of_cons. intros [->|H]; [by left|right; eauto].
Qed.
Lemma cnt_delete_le P l k : (cnt P (delete k l) <= cnt P l)%nat.
Proof.
  revert k. induction l as [|x l IH]; intros [|k]; unfold cnt in *; simpl; try lia.
  - destruct (P x); simpl; lia.
  - specialize (IH k). destruct (P x); simpl; lia.
Qed.

(** The steps that a node handles, in the form above; the others keep every manager. *)
Lemma sstep_cases (nl : list N) y o y' :
  inv y -> (forall n, n ∈ nl <-> n ∈ ns) -> steady nl y o -> sstep includes y o = Some y' ->
  (exists n i x g' eff net0 rs px, handles y n i y' x g' eff net0 rs px /\
     (patient y o -> forall m a w, i = IMsg (QRequest m) -> g_state (n_mgr x) = SStopping a w -> n_live x = [])) \/
  ((forall n, n_mgr <$> y_nodes y' !! n = n_mgr <$> y_nodes y !! n) /\
   (forall P, (cnt P (y_net y') <= cnt P (y_net y))%nat) /\
   (forall p, p ∈ y_net y' -> p ∈ y_net y) /\
   (forall n x', y_nodes y' !! n = Some x' -> exists x, y_nodes y !! n = Some x /\
     (n_tasks x' + length (n_results x') = n_tasks x + length (n_results x))%nat /\
     (n_live x' <> [] -> n_live x <> [] \/ (1 <= n_tasks x)%nat))).
Proof.
  intros HI Hnl Hst H. destruct o as [n i|k|k|n ok|n k|n a]; simpl in H.
  - destruct (y_nodes y !! n) as [x|] eqn:El; simpl in H; [|done].
    destruct (is_event i) eqn:Ei; [|done]. unfold handle in H.
    destruct (mstep includes (n_mgr x) i) as [g' eff] eqn:Em. injection H as <-. left.
    exists n, i, x, g', eff, (y_net y), (n_results x), (n_proxy x ++ proxied eff). split.
    + split; try done.
      * destruct i as [leader nodes|leader|m|m| | |]; simpl in *; try done.
        -- destruct Hst as [[p Hp] Hnodes]. unfold state_of in Hp. rewrite El in Hp. simpl in Hp.
           injection Hp as Hp. rewrite Hp. split; [done|]. intros m. by rewrite Hnodes.
        -- by apply Hnl.
      * intros P. by destruct i.
      * left. split; [done|]. intros r ->. done.
    + intros _ m a w -> _. done.
  - destruct (y_net y !! k) as [[n m]|] eqn:Ek; simpl in H; [|done].
    destruct (y_nodes y !! n) as [x|] eqn:El.
    + unfold handle in H. destruct (mstep includes (n_mgr x) (IMsg m)) as [g' eff] eqn:Em.
      injection H as <-. left.
      exists n, (IMsg m), x, g', eff, (delete k (y_net y)), (n_results x), (n_proxy x ++ proxied eff). split.
      * split; try done.
        -- assert ((n, m) ∈ y_net y) as Hin by (by eapply elem_of_list_lookup_2).
           destruct m as [m|m|m|m]; simpl; try done;
             destruct (i_net _ HI n m) as (? & ? & ?); auto.
        -- intros P. by apply cnt_delete.
        -- intros p. apply delete_sub.
        -- by left.
      * intros Hpat m' a w [= ->] Hs. by apply (Hpat n m' x a w).
    + injection H as <-. right. cbn [y_nodes y_net]. split_and!; try done.
      * intros P. apply cnt_delete_le.
      * intros p. apply delete_sub.
      * intros n0 x' Hx'. exists x'. split_and!; [done|done|by left].
  - destruct (y_net y !! k) as [p|] eqn:Ek; simpl in H; [|done]. injection H as <-.
    right. cbn [y_nodes y_net]. split_and!; try done.
    + intros P. apply cnt_delete_le.
    + intros q. apply delete_sub.
    + intros n0 x' Hx'. exists x'. split_and!; [done|done|by left].
  - destruct (y_nodes y !! n) as [x|] eqn:El; simpl in H; [|done].
    destruct (n_tasks x) as [|t] eqn:Et; [done|]. injection H as <-. right.
    destruct ok; cbn [y_nodes y_net]; (split_and!; [|done|done|]).
    all: try (intros n0; destruct (decide (n0 = n)) as [->|]; [rewrite lookup_insert, El; done|by rewrite lookup_insert_ne]).
    all: intros n0 x' [[<- <-]|[? ?]]%lookup_insert_Some; [|exists x'; split_and!; [done|done|by left]].
    all: exists x; cbn [n_tasks n_results n_live]; rewrite app_length, Et; simpl; split_and!; [done|lia|].
    + intros _. right. lia.
    + by left.
  - destruct (y_nodes y !! n) as [x|] eqn:El; simpl in H; [|done].
    destruct (n_results x !! k) as [r|] eqn:Er; simpl in H; [|done]. unfold handle in H. cbn [n_mgr] in H.
    destruct (mstep includes (n_mgr x) (IResult r)) as [g' eff] eqn:Em. injection H as <-. left.
    exists n, (IResult r), x, g', eff, (y_net y), (delete k (n_results x)), (n_proxy x ++ proxied eff). split.
    + split; try done.
      * destruct r as [a|]; simpl; [|done]. eexists. apply (i_start _ HI n x El).
        apply lookup_lt_Some in Er. lia.
      * right. exists r. split; [done|]. rewrite length_delete by eauto. apply lookup_lt_Some in Er. lia.
    + done.
  - destruct (y_nodes y !! n) as [x|] eqn:El; simpl in H; [|done].
    case_decide as Ha; [|done]. injection H as <-. right. cbn [y_nodes y_net]. split_and!; try done.
    + intros n0; destruct (decide (n0 = n)) as [->|]; [rewrite lookup_insert, El; done|by rewrite lookup_insert_ne].
    + intros n0 x' [[<- <-]|[? ?]]%lookup_insert_Some; [|exists x'; split_and!; [done|done|by left]].
      exists x. split_and!; [done|done|]. intros _. left. intros E. rewrite E in Ha. by apply elem_of_nil in Ha.
Qed.

Lemma sstep_inv (nl : list N) y o y' :
  inv y -> (forall n, n ∈ nl <-> n ∈ ns) -> steady nl y o -> sstep includes y o = Some y' -> inv y'.
Proof.
  intros HI Hnl Hst H. destruct (sstep_cases nl y o y' HI Hnl Hst H) as [(n & i & x & g' & eff & net0 & rs & px & HH & _)|(A1 & A2 & A3 & A4)].
  - by apply (handles_inv _ _ _ _ _ _ _ _ _ _ HI HH).
  - apply (inv_same y); try done. intros n x' Hx'. destruct (A4 n x' Hx') as (x & ? & ? & _). eauto.
Qed.

(** ** Exclusion *)
Definition perm (y : ssys) (w z : N) : Prop :=
  (1 <= cnt (is_ack w z) (y_net y))%nat \/ got (mst y w) z = 1%nat \/
  (exists a, mst y w = SRunning a) \/ runs_singleton y w.
Record xinv (y : ssys) : Prop := XInv {
  x_live : forall n x, y_nodes y !! n = Some x ->
    (is_joining (g_state (n_mgr x)) = true \/ g_state (n_mgr x) = SIdle) -> n_live x = [];
  x_excl : forall w z, w ∈ ns -> z ∈ ns -> w <> z -> perm y w z -> perm y z w -> False
}.

Lemma xinv_handles y n i y' x g' eff net0 rs px :
  inv y -> xinv y -> handles y n i y' x g' eff net0 rs px ->
  (forall m a w, i = IMsg (QRequest m) -> g_state (n_mgr x) = SStopping a w -> n_live x = []) ->
  xinv y'.
Proof.
  intros HI HX HH Hpat. pose proof HH as [Hl Hs Hi Hc Hsub Hr Hy].
  destruct (mstep_trans n (n_mgr x) i g' eff) as (Wg' & r & a & c & Ht & [E1 E2 E3 E4 E5]); try done.
  { by apply (i_wf _ HI). }
  { intros p Hp. apply (i_join _ HI n p). by rewrite (mst_lookup _ _ _ Hl). }
  assert (n ∈ ns) as Hn by (apply (i_dom _ HI); eauto).
  pose proof (mst_lookup _ _ _ Hl) as Hmn.
  assert (mst y' n = g_state g') as Hmn'.
  { subst y'. unfold mst, state_of. cbn [y_nodes]. by rewrite lookup_insert. }
  assert (forall w, w <> n -> mst y' w = mst y w) as Hmw.
  { intros w Hw. subst y'. unfold mst, state_of. cbn [y_nodes]. by rewrite lookup_insert_ne. }
  assert (forall w, runs_singleton y' w <-> runs_singleton y w) as Hlive.
  { intros w. unfold runs_singleton. subst y'. cbn [y_nodes]. destruct (decide (w = n)) as [->|Hw].
    - rewrite lookup_insert, Hl. split; intros (u & [= <-] & Hu); eauto.
    - by rewrite lookup_insert_ne. }
  assert (forall w z, cnt (is_ack w z) (y_net y') = (cnt (is_ack w z) net0 + cnt (is_ack w z) (packets eff))%nat) as Hnet'.
  { intros w z. subst y'. cbn [y_net]. by rewrite cnt_app. }
  assert (forall w z, (cnt (is_ack w z) net0 <= cnt (is_ack w z) (y_net y))%nat) as Hle.
  { intros w z. rewrite (Hc (is_ack w z)). lia. }
  unfold reqs_to, acks_to in *.
  (* the node itself gains nothing *)
  assert (forall z, z ∈ ns -> z <> n -> perm y' n z -> perm y n z) as Hself.
  { intros z Hz Hzn. unfold perm. rewrite Hmn', Hmn, Hlive, Hnet', (E4 n z Hzn). 
    intros [H|[H|[H|H]]]; [left|..|by auto].
    - specialize (Hle n z). lia.
    - inversion Ht; subst a r c; try subst i; try (rewrite H in *; simplify_eq; tauto);
        repeat match goal with
          | K : _ = g_state g' |- _ => rewrite <-K in *
          end; cbn [got] in H; try done; try tauto.
      destruct (decide (z = m)) as [->|Hzm].
      + left. rewrite (Hc (is_ack n m)). cbn [is_ack]. rewrite !N.eqb_refl. simpl. lia.
      + right. left. cbn [got]. destruct (decide (z ∈ {[m]} ∪ A)) as [Hin|]; [|done].
        apply elem_of_union in Hin as [Hin%elem_of_singleton|Hin]; [done|].
        rewrite decide_True by done. done.
    - destruct H as [a' Ha']. inversion Ht; subst a r c; try subst i; try congruence.
      + right. right. left. exists a'. congruence.
      + match goal with K : _ = false |- _ => idtac end. right. right. left. exists a'. congruence.
      + right. left. cbn [got]. destruct Hr as [[_ Hr]|(r' & Er & Hr)]; [by destruct (Hr (Some a0))|].
        assert (SStarting A = SStarting (ns ∖ {[n]})) as Ha.
        { destruct (i_start _ HI n x Hl) as [_ S2]. rewrite <-S2 by lia. done. }
        injection Ha as ->. rewrite decide_True by set_solver. done. }
  (* a node that grants a lease has no claim on the other one *)
  assert (forall w, a = Some w -> w ∈ ns -> w <> n -> ~ perm y n w) as Hgrant.
  { intros w -> Hw Hwn. 
    assert (starting (g_state (n_mgr x)) = false /\ (forall b, g_state (n_mgr x) <> SRunning b) /\ n_live x = []) as (G1 & G2 & G3).
    { pose proof (x_live _ HX n x Hl) as HL. inversion Ht; subst; try congruence.
      - destruct (g_state (n_mgr x)) eqn:Eg; simplify_eq. split_and!; try done. apply HL. by left.
      - match goal with K : _ = g_state (n_mgr x) |- _ => rewrite <-K in * end.
        split_and!; try done. apply HL. by left.
      - destruct (g_state (n_mgr x)) as [| | | |b v] eqn:Eg; try done.
        + split_and!; try done. apply HL. by right.
        + split_and!; try done. by apply (Hpat w b v). }
    unfold perm. rewrite Hmn.
    pose proof (i_pend0 _ HI n w Hn Hw ltac:(done)) as Hp. rewrite Hmn in Hp. specialize (Hp G1). unfold pend in Hp.
    intros [H|[H|[[b H]|(u & Hu & H)]]].
    - lia.
    - destruct (g_state (n_mgr x)); done.
    - by destruct (G2 b).
    - congruence. }
  split.
  - intros k u. subst y'. cbn [y_nodes]. intros [[-> <-]|[Hk Hu]]%lookup_insert_Some; [|by apply (x_live _ HX k u)].
    cbn [n_mgr n_live]. intros Hj. pose proof (x_live _ HX k x Hl) as HL.
    apply HL. clear Hmn Hmn'. inversion Ht; subst; try (by left);
      repeat match goal with
      | K : _ = g_state g' |- _ => rewrite <-K in Hj
      | K : _ = g_state (n_mgr x) |- _ => rewrite <-K
      end; try (by destruct Hj as [?|?]); try done; auto.
  - assert (forall w z, w ∈ ns -> z ∈ ns -> w <> z -> perm y' w z -> perm y w z \/ (z = n /\ a = Some w)) as Hgain.
    { intros w z Hw Hz Hwz Hp. destruct (decide (w = n)) as [->|Hwn].
      - left. by apply Hself.
      - unfold perm in Hp. rewrite (Hmw w Hwn), Hlive, Hnet' in Hp. unfold perm.
        destruct (decide (z = n)) as [->|Hzn].
        + destruct Hp as [Hp|Hp]; [|tauto]. rewrite E3 in Hp. specialize (Hle w n). destruct a as [m|].
          * destruct (N.eqb_spec m w) as [->|]; [by right|]. left. left. lia.
          * left. left. lia.
        + destruct Hp as [Hp|Hp]; [|tauto]. rewrite (E4 w z Hzn) in Hp. specialize (Hle w z). left. left. lia. }
    intros w z Hw Hz Hwz P1 P2.
    destruct (Hgain w z Hw Hz Hwz P1) as [Q1|[-> Ha]].
    + destruct (Hgain z w Hz Hw ltac:(done) P2) as [Q2|[-> Ha]].
      * by apply (x_excl _ HX w z).
      * apply (Hgrant z Ha Hz ltac:(done)). by apply Hself.
    + apply (Hgrant w Ha Hw Hwz). apply Hself; done.
Qed.

Lemma sstep_xinv (nl : list N) y o y' :
  inv y -> xinv y -> (forall n, n ∈ nl <-> n ∈ ns) -> steady nl y o -> patient y o ->
  sstep includes y o = Some y' -> xinv y'.
Proof.
  intros HI HX Hnl Hst Hpat H.
  destruct (sstep_cases nl y o y' HI Hnl Hst H) as [(n & i & x & g' & eff & net0 & rs & px & HH & Hp)|(A1 & A2 & A3 & A4)].
  - eapply xinv_handles; eauto.
  - assert (forall n, mst y' n = mst y n) as Hmst.
    { intros n. unfold mst, state_of. specialize (A1 n). destruct (y_nodes y' !! n), (y_nodes y !! n); simpl in *; try done.
      injection A1 as ->. done. }
    assert (forall n x', y_nodes y' !! n = Some x' -> exists x, y_nodes y !! n = Some x /\ n_mgr x' = n_mgr x /\
       (n_live x' <> [] -> n_live x <> [] \/ g_state (n_mgr x) = SStarting (ns ∖ {[n]}))) as Hlive.
    { intros n x' Hx'. destruct (A4 n x' Hx') as (x & Hx & _ & HL). exists x. split; [done|].
      specialize (A1 n). rewrite Hx, Hx' in A1. injection A1 as E. split; [done|].
      intros Hne. destruct (HL Hne) as [?|Ht]; [by left|right].
      destruct (i_start _ HI n x Hx) as [_ S2]. apply S2. lia. }
    split.
    + intros n x' Hx' Hj. destruct (Hlive n x' Hx') as (x & Hx & E & HL). rewrite E in Hj.
      destruct (n_live x') eqn:El; [done|]. exfalso. destruct HL as [Hne|Hst']; [done|..].
      * apply Hne. by apply (x_live _ HX n x).
      * rewrite Hst' in Hj. by destruct Hj.
    + assert (forall w z, z ∈ ns -> w <> z -> perm y' w z -> perm y w z) as Hgain.
      { intros w z Hz Hwz. unfold perm. rewrite Hmst. intros [Hp|[Hp|[Hp|(x' & Hx' & Hp)]]]; auto.
        - left. specialize (A2 (is_ack w z)). lia.
        - destruct (Hlive w x' Hx') as (x & Hx & E & HL). destruct (HL Hp) as [Hne|Hst'].
          + right. right. right. by exists x.
          + right. left. rewrite (mst_lookup _ _ _ Hx), Hst'. cbn [got]. rewrite decide_True by set_solver. done. }
      intros w z Hw Hz Hwz P1 P2. apply (x_excl _ HX w z); auto.
Qed.

End trans.
