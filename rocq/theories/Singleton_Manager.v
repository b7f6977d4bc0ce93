(** Proofs about one singleton manager. *)
From Verif Require Import Singleton_Model Singleton_Spec.
Local Open Scope N_scope.

Lemma subset_size_eq (A B : gset N) : A ⊆ B -> (size B <= size A)%nat -> A = B.
Proof.
  intros Hs Hl. apply leibniz_equiv.
  assert (size B = (size A + size (B ∖ A))%nat) as E.
  { rewrite <-size_union_alt. f_equal. set_solver. }
  assert (B ∖ A ≡ ∅) as Hd by (apply size_empty_inv; lia).
  intros x. split; [apply Hs|]. intros Hx. destruct (decide (x ∈ A)); [done|]. set_solver.
Qed.

Section manager.
Variable includes : N -> bool.
Implicit Types (g : manager).
Notation mstep := (mstep includes).
Notation mrun := (mrun includes).

Lemma mrun_snoc n l i g effs :
  mrun n (l ++ [i]) = (g, effs) ->
  exists g0 effs0 eff, mrun n l = (g0, effs0) /\ mstep g0 i = (g, eff) /\ effs = effs0 ++ [eff].
Proof.
  unfold Singleton_Model.mrun. rewrite run_app.
  destruct (run mstep (new_manager n) l) as [g0 effs0] eqn:E. cbn [run].
  destruct (mstep g0 i) as [g1 eff] eqn:E1. intros [= <- <-]. by eauto 10.
Qed.

Lemma mrun_length n l g effs : mrun n l = (g, effs) -> length effs = length l.
Proof.
  intros E. pose proof (run_length mstep (new_manager n) l) as H.
  unfold Singleton_Model.mrun in E. rewrite E in H. exact H.
Qed.

Lemma zip_snoc {A B} (l : list A) (k : list B) a b :
  length k = length l -> zip (l ++ [a]) (k ++ [b]) = zip l k ++ [(a, b)].
Proof.
  revert k. induction l as [|x l IH]; intros [|y k]; simpl; try done.
  intros [= H]. by rewrite IH.
Qed.

Lemma mstep_node g i g' eff : mstep g i = (g', eff) -> g_node g' = g_node g.
Proof.
  unfold Singleton_Model.mstep, on_member_up, on_leader_changed, begin_starting, on_node_added,
    on_node_removed, on_request_lease, begin_stopping, grant_lease, on_lease_ack, on_start_result,
    on_child_stopped, grant_lease.
  intros H. repeat case_match; simplify_eq/=; done.
Qed.

Lemma known_snoc n l i : known n includes (l ++ [i]) = learn n includes (known n includes l) i.
Proof. unfold known. by rewrite fold_left_app. Qed.

Lemma mstep_managers g i g' eff :
  mstep g i = (g', eff) -> g_managers g' = learn (g_node g) includes (g_managers g) i.
Proof.
  unfold Singleton_Model.mstep, on_member_up, on_leader_changed, begin_starting, on_node_added,
    on_node_removed, on_request_lease, begin_stopping, grant_lease, on_lease_ack, on_start_result,
    on_child_stopped, grant_lease, learn.
  intros H. repeat case_match; simplify_eq/=; try done. set_solver.
Qed.

Lemma mrun_node n l g effs : mrun n l = (g, effs) -> g_node g = n.
Proof.
  revert g effs. induction l as [|i l IH] using rev_ind; intros g effs H.
  - unfold Singleton_Model.mrun in H. simpl in H. by simplify_eq.
  - apply mrun_snoc in H as (g0 & effs0 & eff & H0 & H1 & ->).
    rewrite (mstep_node _ _ _ _ H1). eauto.
Qed.

Lemma mrun_managers n l g effs : mrun n l = (g, effs) -> g_managers g = known n includes l.
Proof.
  revert g effs. induction l as [|i l IH] using rev_ind; intros g effs H.
  - unfold Singleton_Model.mrun in H. simpl in H. by simplify_eq.
  - apply mrun_snoc in H as (g0 & effs0 & eff & H0 & H1 & ->).
    rewrite (mstep_managers _ _ _ _ H1), known_snoc, (mrun_node _ _ _ _ H0), (IH _ _ H0). done.
Qed.

Lemma since_snoc tr e : since (tr ++ [e]) = if begins e then [e] else since tr ++ [e].
Proof. unfold since. by rewrite fold_left_app. Qed.

Lemma acked_snoc tr e :
  acked_since (tr ++ [e]) = if begins e then ∅ else ack_in (acked_since tr) e.
Proof.
  unfold acked_since. rewrite since_snoc. destruct (begins e) eqn:E.
  - simpl. unfold ack_in. unfold begins in E. repeat case_match; simplify_eq; done.
  - by rewrite fold_left_app.
Qed.

Lemma starts_snoc tr e :
  starts_since (tr ++ [e]) = ((if begins e then 0 else starts_since tr) + creates e.2)%nat.
Proof.
  unfold starts_since. rewrite since_snoc. destruct (begins e); simpl; [lia|].
  rewrite !fmap_app, sum_list_with_app. simpl. lia.
Qed.

Lemma begins_begin g eff0 i :
  (exists a b, i = IMemberUp a b) \/ (exists a, i = ILeader a) ->
  begins (i, eff0 ++ request_lease g) = true.
Proof.
  intros Hi.
  assert (existsb (fun f => match f with FSend _ (QRequest _) | FCreate => true | _ => false end)
            (eff0 ++ request_lease g) = true) as E.
  { rewrite existsb_app. apply orb_true_iff. right. unfold request_lease.
    case_decide as Hs; [done|]. unfold notify_managers.
    destruct (elements (g_managers g)) as [|m ms] eqn:Em; [|done].
    exfalso. apply Hs. unfold size, set_size. simpl. by rewrite Em. }
  unfold begins. simpl. by destruct Hi as [(? & ? & ->)|(? & ->)].
Qed.

Lemma no_begin_acks g n k : 
  existsb (fun f => match f with FSend _ (QRequest _) | FCreate => true | _ => false end)
    (notify_manager g n (QAck k)) = false.
Proof. unfold notify_manager. by case_decide. Qed.

Lemma step_starting g i g' eff A' :
  mstep g i = (g', eff) -> g_state g' = SStarting A' ->
  (begins (i, eff) = true /\ A' = ∅) \/
  (begins (i, eff) = false /\ exists A, g_state g = SStarting A /\ A' = ack_in A (i, eff)).
Proof.
  intros H HA. destruct i as [leader nodes|leader|n|n|[n|n|n|n]|r|]; simpl in H.
  - unfold on_member_up in H. destruct (leader =? g_node g).
    + unfold begin_starting in H. injection H as <- <-. left. split.
      * apply begins_begin. eauto.
      * simpl in HA. congruence.
    + injection H as <- <-. done.
  - unfold on_leader_changed, begin_starting in H. destruct (is_joining (g_state g)).
    + injection H as <- <-. right. split; [done|]. eauto.
    + destruct ((leader =? g_node g) && negb (is_running (g_state g))).
      * injection H as <- <-. left. split; [|simpl in HA; congruence].
        apply (begins_begin g []). eauto.
      * injection H as <- <-. right. split; [done|]. eauto.
  - right. split; [done|]. exists A'.
    assert (g_state g' = g_state g) as Eg.
    { unfold on_node_added in H. destruct (_ && _); [|by injection H as <- _].
      case_decide; by injection H as <- _. }
    split; [congruence|done].
  - right. split; [done|]. unfold on_node_removed in H. simpl.
    destruct (g_state g) as [| |acked| |] eqn:Eg; injection H as <- <-; simpl in HA; try congruence.
    exists acked. split; [done|]. by injection HA as <-.
  - right. split; [done|]. exists A'. unfold on_request_lease, begin_stopping, grant_lease in H. simpl.
    destruct (g_state g) as [| |acked| |] eqn:Eg; injection H as <- <-; simpl in HA; try congruence.
    split; [congruence|done].
  - right. split; [done|]. unfold on_lease_ack in H. simpl.
    destruct (g_state g) as [| |acked| |] eqn:Eg; injection H as <- <-; simpl in HA; try congruence.
    exists acked. split; [done|]. by injection HA as <-.
  - right. split; [done|]. simplify_eq. eauto.
  - right. split; [done|]. simplify_eq. eauto.
  - right. split; [done|]. unfold on_start_result in H. destruct r; simplify_eq; eauto.
  - right. split; [done|]. unfold on_child_stopped, grant_lease in H. exists A'. simpl.
    destruct (g_state g) as [| |acked| |] eqn:Eg; injection H as <- <-; simpl in HA; try congruence.
    split; [congruence|done].
Qed.

Lemma acked_inv n l g effs A :
  mrun n l = (g, effs) -> g_state g = SStarting A -> A = acked_since (zip l effs).
Proof.
  revert g effs A. induction l as [|i l IH] using rev_ind; intros g effs A H HA.
  - unfold Singleton_Model.mrun in H. simpl in H. by simplify_eq.
  - apply mrun_snoc in H as (g0 & effs0 & eff & H0 & H1 & ->).
    rewrite (zip_snoc _ _ _ _ (mrun_length _ _ _ _ H0)), acked_snoc.
    destruct (step_starting _ _ _ _ _ H1 HA) as [[-> ->]|(-> & A0 & HA0 & ->)]; [done|].
    by rewrite <-(IH _ _ _ H0 HA0).
Qed.

Lemma creates_app (e1 e2 : list seffect) : creates (e1 ++ e2) = (creates e1 + creates e2)%nat.
Proof. unfold creates. rewrite List.filter_app, app_length. done. Qed.
Lemma creates_notify_all g m : creates (notify_managers g m) = 0%nat.
Proof. unfold creates, notify_managers. induction (elements (g_managers g)); simpl; done. Qed.
Lemma creates_notify g n m : creates (notify_manager g n m) = 0%nat.
Proof. unfold notify_manager. by case_decide. Qed.
Lemma starts_creates eff : starts eff <-> (1 <= creates eff)%nat.
Proof.
  unfold starts, creates. split.
  - intros [k Hk]%elem_of_list_In%In_nth_error. apply nth_error_split in Hk as (l1 & l2 & -> & _).
    rewrite List.filter_app, app_length. simpl. lia.
  - induction eff as [|e eff IH]; simpl; [lia|].
    destruct e; simpl; intros Hl; try (apply elem_of_cons; right; apply IH; lia).
    apply elem_of_cons. by left.
Qed.

(** When the manager starts the singleton, it is starting and as many managers as it knows
    have acknowledged; and it does so once per step. *)
Lemma step_creates g i g' eff :
  mstep g i = (g', eff) ->
  creates eff = 0%nat \/
  (creates eff = 1%nat /\ exists A, g_state g' = SStarting A /\ size A = size (g_managers g') /\
   (begins (i, eff) = true \/ (exists A0, g_state g = SStarting A0) /\ ((exists n, i = IMsg (QAck n)) \/ (exists n, i = IRemoved n)))).
Proof.
  assert (forall g, creates (request_lease g) = 0%nat \/ creates (request_lease g) = 1%nat /\ size (g_managers g) = 0%nat) as Hrl.
  { intros k. unfold request_lease. case_decide; [by right|left; apply creates_notify_all]. }
  intros H. destruct i as [leader nodes|leader|n|n|[n|n|n|n]|r|]; simpl in H.
  - unfold on_member_up in H. 
    set (k := match g_state g with SJoining (Some n) => _ | _ => _ end) in H.
    assert (creates k = 0%nat) as Hk.
    { subst k. destruct (g_state g) as [[m|]| | | |]; try done. apply creates_notify. }
    destruct (leader =? g_node g).
    + unfold begin_starting in H. injection H as <- <-. rewrite creates_app, Hk. simpl.
      destruct (Hrl (set_state (add_managers includes g nodes) SIdle)) as [?|[? ?]]; [by left|right].
      split; [done|]. exists ∅. rewrite size_empty. split_and!; try done. left.
      apply begins_begin. eauto.
    + injection H as <- <-. by left.
  - unfold on_leader_changed, begin_starting in H. repeat case_match; simplify_eq; try (by left).
    destruct (Hrl g) as [?|[? ?]]; [by left|right].
    split; [done|]. exists ∅. rewrite size_empty. split_and!; try done. left.
    apply (begins_begin g []). eauto.
  - left. unfold on_node_added in H. repeat case_match; simplify_eq; done.
  - unfold on_node_removed in H. destruct (g_state g) eqn:Eg; try (simplify_eq; by left).
    case_decide; simplify_eq; [right|by left]. split; [done|]. eexists. split; [done|].
    split; [done|]. right. eauto.
  - left. unfold on_request_lease, begin_stopping, grant_lease in H.
    repeat case_match; simplify_eq; try done; try apply creates_notify.
    unfold creates. simpl. apply creates_notify_all.
  - unfold on_lease_ack in H. destruct (g_state g) eqn:Eg; try (simplify_eq; by left).
    case_decide; simplify_eq; [right|by left]. split; [done|]. eexists. split; [done|].
    split; [done|]. right. eauto.
  - simplify_eq. by left.
  - simplify_eq. by left.
  - left. unfold on_start_result in H. destruct r; simplify_eq; [|done].
    unfold creates. simpl. apply creates_notify_all.
  - left. unfold on_child_stopped, grant_lease in H.
    repeat case_match; simplify_eq; try done; apply creates_notify.
Qed.

Lemma counted n l i g effs eff :
  mrun n (l ++ [i]) = (g, effs ++ [eff]) -> starts eff ->
  size (acked_since (zip (l ++ [i]) (effs ++ [eff]))) = size (known n includes (l ++ [i])).
Proof.
  intros H Hs. pose proof (mrun_managers _ _ _ _ H) as Hm.
  pose proof H as H'. apply mrun_snoc in H as (g0 & effs0 & eff0 & H0 & H1 & E).
  apply app_inj_tail in E as [-> ->].
  apply step_creates in H1 as [H1|(_ & A & HA & HAs & _)].
  - apply starts_creates in Hs. lia.
  - rewrite <-(acked_inv _ _ _ _ _ H' HA). rewrite HAs. by rewrite Hm.
Qed.

Lemma acks_known_snoc n l i : acks_known n includes (l ++ [i]) -> acks_known n includes l.
Proof. intros H l1 m l2 ->. apply (H l1 m (l2 ++ [i])). by rewrite <-app_assoc. Qed.

Lemma acked_known n l g effs A :
  mrun n l = (g, effs) -> acks_known n includes l -> g_state g = SStarting A ->
  A ⊆ g_managers g.
Proof.
  revert g effs A. induction l as [|i l IH] using rev_ind; intros g effs A H Hk HA.
  - unfold Singleton_Model.mrun in H. simpl in H. simplify_eq.
  - apply mrun_snoc in H as (g0 & effs0 & eff & H0 & H1 & ->).
    destruct (step_starting _ _ _ _ _ H1 HA) as [[_ ->]|(_ & A0 & HA0 & ->)]; [set_solver|].
    specialize (IH _ _ _ H0 (acks_known_snoc _ _ _ Hk) HA0).
    rewrite (mstep_managers _ _ _ _ H1).
    assert (forall m, i = IMsg (QAck m) -> m ∈ g_managers g0) as Hin.
    { intros m ->. rewrite (mrun_managers _ _ _ _ H0). by apply (Hk l m []). }
    unfold ack_in, learn. cbn [fst].
    destruct i as [leader nodes|leader|m|m|[m|m|m|m]|r|]; try set_solver.
    case_match; set_solver.
Qed.

Lemma all_acked n l i g effs eff :
  mrun n (l ++ [i]) = (g, effs ++ [eff]) -> acks_known n includes (l ++ [i]) -> starts eff ->
  acked_since (zip (l ++ [i]) (effs ++ [eff])) = known n includes (l ++ [i]).
Proof.
  intros H Hk Hs. pose proof (counted _ _ _ _ _ _ H Hs) as Hc.
  pose proof H as H'. apply mrun_snoc in H as (g0 & effs0 & eff0 & H0 & H1 & E).
  apply app_inj_tail in E as [-> ->].
  apply step_creates in H1 as [H1|(_ & A & HA & HAs & _)].
  { apply starts_creates in Hs. lia. }
  rewrite <-(acked_inv _ _ _ _ _ H' HA) in *. rewrite <-(mrun_managers _ _ _ _ H') in *.
  apply subset_size_eq; [|lia].
  apply (acked_known _ _ _ _ _ H' Hk HA).
Qed.

Lemma acks_of_snoc tr e :
  acks_of (tr ++ [e]) = acks_of tr ++ match e.1 with IMsg (QAck n) => [n] | _ => [] end.
Proof. unfold acks_of. rewrite omap_app. simpl. by destruct e as [[| | | |[]| |] ?]. Qed.

Lemma ack_in_set tr : forall s m,
  (forall e n, e ∈ tr -> e.1 <> IRemoved n) ->
  m ∈ fold_left ack_in tr s <-> m ∈ s \/ m ∈ acks_of tr.
Proof.
  induction tr as [|e tr IH]; intros s m Hq; simpl.
  - rewrite elem_of_nil. tauto.
  - rewrite IH by (intros e' n' He'; apply Hq; by right).
    assert (forall n, e.1 <> IRemoved n) as Hr by (intros n; apply Hq; by left).
    unfold acks_of. simpl. unfold ack_in.
    destruct e as [[| | | |[]| |] ?]; cbn [fst] in *; rewrite ?elem_of_cons; try set_solver.
Qed.

Lemma once n l g effs :
  mrun n l = (g, effs) -> acks_known n includes l -> quiet_since (zip l effs) ->
  (starts_since (zip l effs) <= 1)%nat /\
  forall A, g_state g = SStarting A -> size A <> size (g_managers g) -> starts_since (zip l effs) = 0%nat.
Proof.
  revert g effs. induction l as [|i l IH] using rev_ind; intros g effs H Hk Hq.
  { unfold Singleton_Model.mrun in H. simpl in H. simplify_eq. split; [by vm_compute; lia|done]. }
  pose proof H as H'. apply mrun_snoc in H as (g0 & effs0 & eff & H0 & H1 & ->).
  rewrite (zip_snoc _ _ _ _ (mrun_length _ _ _ _ H0)) in *.
  rewrite starts_snoc. cbn [snd]. destruct Hq as [Hn Hq]. rewrite since_snoc in Hn, Hq.
  pose proof (step_creates _ _ _ _ H1) as Hc.
  destruct (begins (i, eff)) eqn:Eb.
  { split; [destruct Hc as [Hc|[Hc _]]; lia|].
    intros A HA Hs. destruct Hc as [Hc|(Hc & A' & HA' & Hs' & _)]; [lia|]. congruence. }
  rewrite acks_of_snoc in Hn.
  assert (quiet_since (zip l effs0)) as Hq0.
  { split; [by apply NoDup_app in Hn as (? & _)|]. intros e m He. apply Hq, elem_of_app. by left. }
  destruct (IH _ _ H0 (acks_known_snoc _ _ _ Hk) Hq0) as [IH1 IH2].
  destruct Hc as [Hc|(Hc & A' & HA' & Hs' & [?|[(A0 & HA0) Hi]])]; [|congruence|].
  - split; [lia|]. intros A HA Hs.
    destruct (step_starting _ _ _ _ _ H1 HA) as [[? _]|(_ & A0 & HA0 & HAe)]; [congruence|].
    rewrite (IH2 _ HA0); [lia|]. intros He. 
    (* the acknowledgements already equal the managers *)
    pose proof (acked_known _ _ _ _ _ H0 (acks_known_snoc _ _ _ Hk) HA0) as Hsub.
    assert (A0 = g_managers g0) as -> by (apply subset_size_eq; [done|lia]).
    pose proof (mstep_managers _ _ _ _ H1) as Hm.
    assert (Hin : (i, eff) ∈ since (zip l effs0) ++ [(i, eff)]) by (apply elem_of_app; right; by left).
    apply Hs. rewrite Hm, HAe. unfold ack_in, learn. cbn [fst].
    destruct i as [leader nodes|leader|m|m|[m|m|m|m]|r|]; try done.
    + (* MemberUp without taking up leadership *)
      simpl in H1. unfold on_member_up in H1. destruct (leader =? g_node g0) eqn:El.
      * unfold begin_starting in H1. injection H1 as <- <-.
        rewrite begins_begin in Eb; [done|eauto].
      * injection H1 as <- <-. done.
    + by destruct (Hq _ m Hin).
    + f_equal. assert (m ∈ g_managers g0); [|set_solver].
      rewrite (mrun_managers _ _ _ _ H0). by apply (Hk l m []).
  - assert (Hin : (i, eff) ∈ since (zip l effs0) ++ [(i, eff)]) by (apply elem_of_app; right; by left).
    destruct Hi as [[m ->]|[m ->]]; [|by destruct (Hq _ m Hin)].
    assert (starts_since (zip l effs0) = 0%nat); [|split; [lia|congruence]].
    apply (IH2 _ HA0). intros He.
    pose proof (acked_known _ _ _ _ _ H0 (acks_known_snoc _ _ _ Hk) HA0) as Hsub.
    assert (A0 = g_managers g0) as -> by (apply subset_size_eq; [done|lia]).
    assert (m ∈ g_managers g0) as Hm.
    { rewrite (mrun_managers _ _ _ _ H0). by apply (Hk l m []). }
    rewrite (acked_inv _ _ _ _ _ H0 HA0) in Hm. unfold acked_since in Hm.
    rewrite ack_in_set in Hm by (intros e k He'; by apply Hq, elem_of_app; left).
    cbn [fst] in Hn. apply NoDup_app in Hn as (_ & Hd & _).
    destruct Hm as [Hm|Hm]; [set_solver|]. apply (Hd m Hm). by left.
Qed.
(** ** Who was asked, who was told *)

Lemma sent_snoc n m tr e : sent n m (tr ++ [e]) <-> sent n m tr \/ FSend n m ∈ e.2.
Proof.
  split.
  - intros (x & [Hx| ->%elem_of_list_singleton]%elem_of_app & H); [left; by exists x|by right].
  - intros [(x & Hx & H)|H]; [exists x|exists e]; rewrite elem_of_app, ?elem_of_list_singleton; tauto.
Qed.
Lemma since_up_snoc tr e :
  since_up (tr ++ [e]) = match e.1 with IResult (Some _) => [e] | _ => since_up tr ++ [e] end.
Proof. unfold since_up. by rewrite fold_left_app. Qed.
Lemma elem_notify g n m : n ∈ g_managers g -> FSend n m ∈ notify_managers g m.
Proof. intros H. apply elem_of_list_fmap. exists n. by rewrite elem_of_elements. Qed.
Lemma elem_request g n : n ∈ g_managers g -> FSend n (QRequest (g_node g)) ∈ request_lease g.
Proof.
  intros H. unfold request_lease. case_decide as Hs; [|by apply elem_notify].
  apply size_empty_inv in Hs. set_solver.
Qed.

Lemma asked_step g i g' eff A' tr :
  mstep g i = (g', eff) -> g_state g' = SStarting A' ->
  (forall A n, g_state g = SStarting A -> n ∈ g_managers g -> sent n (QRequest (g_node g)) (since tr)) ->
  forall n, n ∈ g_managers g' -> sent n (QRequest (g_node g)) (since (tr ++ [(i, eff)])).
Proof.
  intros H HA IH n Hn.
  assert (forall A, g_state g = SStarting A -> n ∈ g_managers g -> begins (i, eff) = false ->
          sent n (QRequest (g_node g)) (since (tr ++ [(i, eff)]))) as Hold.
  { intros A Es Hg Hb. rewrite since_snoc, Hb. apply sent_snoc. left. by apply (IH A). }
  assert (FSend n (QRequest (g_node g)) ∈ eff ->
          sent n (QRequest (g_node g)) (since (tr ++ [(i, eff)]))) as Hnew.
  { intros Hs. rewrite since_snoc. destruct (begins _).
    - exists (i, eff). split; [by left|done].
    - apply sent_snoc. by right. }
  destruct i as [leader nodes|leader|k|k|[k|k|k|k]|r|]; cbn [Singleton_Model.mstep] in H.
  - unfold on_member_up, begin_starting in H. destruct (leader =? g_node g); [|by injection H as <- <-].
    injection H as <- <-. apply Hnew, elem_of_app. right.
    apply (elem_request (set_state (add_managers includes g nodes) SIdle) n). exact Hn.
  - unfold on_leader_changed, begin_starting in H.
    destruct (is_joining (g_state g)) eqn:Ej; [injection H as <- <-; by eapply Hold|].
    destruct (_ && _); injection H as <- <-; [by apply Hnew, (elem_request g n)|by eapply Hold].
  - unfold on_node_added in H. destruct (_ && _); [|injection H as <- <-; by eapply Hold].
    case_decide; injection H as <- <-; [by eapply Hold|].
    simpl in HA. simpl in Hn. apply elem_of_union in Hn as [->%elem_of_singleton|Hn]; [|by eapply Hold].
    apply Hnew. rewrite HA. by left.
  - unfold on_node_removed in H. destruct (g_state g) eqn:Eg; injection H as <- <-; simpl in HA, Hn;
      try congruence; eapply Hold; try done; set_solver.
  - unfold on_request_lease, begin_stopping, grant_lease in H.
    destruct (g_state g) eqn:Eg; simpl in H; injection H as <- <-; simpl in HA, Hn; try congruence; by eapply Hold.
  - unfold on_lease_ack in H. destruct (g_state g) eqn:Eg; try (injection H as <- <-; congruence).
    repeat case_match; injection H as <- <-; simpl in HA, Hn; try congruence; by eapply Hold.
  - injection H as <- <-. by eapply Hold.
  - injection H as <- <-. by eapply Hold.
  - unfold on_start_result in H. destruct r; injection H as <- <-; simpl in HA; try congruence; by eapply Hold.
  - unfold on_child_stopped, grant_lease in H. destruct (g_state g) eqn:Eg; injection H as <- <-; simpl in HA;
      try congruence; by eapply Hold.
Qed.

Lemma asked_run n l g effs A m :
  mrun n l = (g, effs) -> g_state g = SStarting A -> m ∈ known n includes l ->
  sent m (QRequest n) (since (zip l effs)).
Proof.
  intros E HA Hm. rewrite <-(mrun_managers _ _ _ _ E) in Hm.
  revert g effs A m E HA Hm. induction l as [|i l IH] using rev_ind; intros g effs A m H HA Hm.
  - unfold Singleton_Model.mrun in H. simpl in H. by simplify_eq.
  - apply mrun_snoc in H as (g0 & effs0 & eff & H0 & H1 & ->).
    rewrite zip_snoc by exact (mrun_length _ _ _ _ H0).
    rewrite <-(mrun_node _ _ _ _ H0). refine (asked_step g0 i g eff A _ H1 HA _ m Hm).
    intros A0 m0 HA0 Hm0. rewrite (mrun_node _ _ _ _ H0). by apply (IH g0 effs0 A0).
Qed.

Lemma told_step g i g' eff a' tr :
  mstep g i = (g', eff) -> g_state g' = SRunning a' ->
  (forall a n, g_state g = SRunning a -> n ∈ g_managers g -> sent n (QStarted (g_node g)) (since_up tr)) ->
  forall n, n ∈ g_managers g' -> sent n (QStarted (g_node g)) (since_up (tr ++ [(i, eff)])).
Proof.
  intros H HA IH n Hn.
  assert (forall a, g_state g = SRunning a -> n ∈ g_managers g -> (forall b, i <> IResult (Some b)) ->
          sent n (QStarted (g_node g)) (since_up (tr ++ [(i, eff)]))) as Hold.
  { intros a Es Hg Hb. rewrite since_up_snoc.
    assert (match (i, eff).1 with IResult (Some _) => [(i, eff)] | _ => since_up tr ++ [(i, eff)] end =
            since_up tr ++ [(i, eff)]) as ->.
    { simpl. destruct i as [| | | | |[b|]|]; try done. by destruct (Hb b). }
    apply sent_snoc. left. by apply (IH a). }
  assert (FSend n (QStarted (g_node g)) ∈ eff ->
          sent n (QStarted (g_node g)) (since_up (tr ++ [(i, eff)]))) as Hnew.
  { intros Hs. rewrite since_up_snoc. simpl.
    destruct i as [| | | | |[b|]|]; try (apply sent_snoc; by right).
    eexists. split; [by left|done]. }
  destruct i as [leader nodes|leader|k|k|[k|k|k|k]|r|]; cbn [Singleton_Model.mstep] in H.
  - unfold on_member_up, begin_starting in H. destruct (leader =? g_node g); by injection H as <- <-.
  - unfold on_leader_changed, begin_starting in H.
    destruct (is_joining (g_state g)) eqn:Ej; [injection H as <- <-; by apply (Hold a')|].
    destruct (_ && _); injection H as <- <-; [done|by apply (Hold a')].
  - unfold on_node_added in H. destruct (_ && _); [|injection H as <- <-; by apply (Hold a')].
    case_decide; injection H as <- <-; [by apply (Hold a')|].
    simpl in HA. simpl in Hn. apply elem_of_union in Hn as [->%elem_of_singleton|Hn]; [|by apply (Hold a')].
    apply Hnew. rewrite HA. by left.
  - unfold on_node_removed in H. destruct (g_state g) eqn:Eg; injection H as <- <-; simpl in HA, Hn;
      try congruence; (apply (Hold a'); [congruence|set_solver|done]).
  - unfold on_request_lease, begin_stopping, grant_lease in H.
    destruct (g_state g) eqn:Eg; simpl in H; injection H as <- <-; simpl in HA, Hn; try congruence; (apply (Hold a'); [congruence|done|done]).
  - unfold on_lease_ack in H. destruct (g_state g) eqn:Eg; injection H as <- <-; simpl in HA, Hn; try congruence; (apply (Hold a'); [congruence|done|done]).
  - injection H as <- <-. by apply (Hold a').
  - injection H as <- <-. by apply (Hold a').
  - unfold on_start_result in H. destruct r; injection H as <- <-; simpl in HA; [|by apply (Hold a')].
    apply Hnew. right. by apply elem_notify.
  - unfold on_child_stopped, grant_lease in H. destruct (g_state g) eqn:Eg; injection H as <- <-; simpl in HA;
      try congruence; (apply (Hold a'); [congruence|done|done]).
Qed.

Lemma told_run n l g effs a m :
  mrun n l = (g, effs) -> g_state g = SRunning a -> m ∈ known n includes l ->
  sent m (QStarted n) (since_up (zip l effs)).
Proof.
  intros E HA Hm. rewrite <-(mrun_managers _ _ _ _ E) in Hm.
  revert g effs a m E HA Hm. induction l as [|i l IH] using rev_ind; intros g effs a m H HA Hm.
  - unfold Singleton_Model.mrun in H. simpl in H. by simplify_eq.
  - apply mrun_snoc in H as (g0 & effs0 & eff & H0 & H1 & ->).
    rewrite zip_snoc by exact (mrun_length _ _ _ _ H0).
    rewrite <-(mrun_node _ _ _ _ H0). refine (told_step g0 i g eff a _ H1 HA _ m Hm).
    intros A0 m0 HA0 Hm0. rewrite (mrun_node _ _ _ _ H0). by apply (IH g0 effs0 A0).
Qed.

End manager.
