(** Proofs about publications between nodes. *)
From Verif Require Import Stream_Model Stream_Spec Stream_Proofs.
#[local] Arguments capacity : simpl never.

Lemma lfilter_perm {A} (p : A -> bool) l l' : l ≡ₚ l' -> List.filter p l ≡ₚ List.filter p l'.
Proof.
  induction 1 as [|x l l' H IH|x y l|l1 l2 l3 H1 IH1 H2 IH2]; simpl; [done| | |by etrans].
  - destruct (p x); [by constructor|done].
  - destruct (p x), (p y); try done. by constructor.
Qed.
Lemma lfilter_none {A} (p : A -> bool) l : (forall x, x ∈ l -> p x = false) -> List.filter p l = [].
Proof. induction l as [|x l IH]; intros H; [done|]. simpl. rewrite H by left. apply IH. intros y Hy. apply H. by right. Qed.
Lemma lfilter_all {A} (p : A -> bool) l : (forall x, x ∈ l -> p x = true) -> List.filter p l = l.
Proof. induction l as [|x l IH]; intros H; [done|]. simpl. rewrite H by left. f_equal. apply IH. intros y Hy. apply H. by right. Qed.
Lemma lfilter_elem {A} (p : A -> bool) l x : x ∈ List.filter p l <-> x ∈ l /\ p x = true.
Proof. rewrite !elem_of_list_In. apply List.filter_In. Qed.
Lemma take_first_perm {A} (p : A -> bool) l x r : take_first p l = Some (x, r) -> l ≡ₚ x :: r /\ p x = true.
Proof.
  revert r. induction l as [|y l IH]; intros r H; [done|]. simpl in H. destruct (p y) eqn:E; [injection H as -> ->; done|].
  destruct (take_first p l) as [[z r']|]; [|done]. cbn in H. injection H as -> <-. destruct (IH _ eq_refl) as [IH1 IH2]. split; [|done]. rewrite IH1. constructor.
Qed.
Lemma remaining_app a b : remaining (a ++ b) = remaining a ++ remaining b.
Proof. apply flat_map_app. Qed.
Lemma remaining_mid a t b : remaining (a ++ t :: b) ≡ₚ left_of t ++ remaining (a ++ b).
Proof. rewrite !remaining_app. cbn. by rewrite !app_assoc, (Permutation_app_comm (remaining a)). Qed.
Lemma remaining_send ts i t d r : ts !! i = Some t -> t_left t = d :: r ->
  remaining ts ≡ₚ Flight (t_src t) d (t_tag t) (t_packet t) ::
    remaining (match r with [] => delete i ts | _ => <[i := Task (t_src t) (t_tag t) (t_packet t) r]> ts end).
Proof.
  intros Hi Hl. pose proof (take_drop_middle _ _ _ Hi) as E.
  rewrite <- E at 1. rewrite remaining_mid. destruct r as [|d' r].
  - rewrite delete_take_drop. unfold left_of. by rewrite Hl.
  - rewrite insert_take_drop by (by eapply lookup_lt_Some). rewrite remaining_mid. unfold left_of at 1. rewrite Hl. done.
Qed.
Lemma remaining_elem ts f : f ∈ remaining ts <-> exists t d, t ∈ ts /\ d ∈ t_left t /\ f = Flight (t_src t) d (t_tag t) (t_packet t).
Proof.
  unfold remaining. rewrite elem_of_list_In, in_flat_map. split.
  - intros (t & Ht & Hf). apply elem_of_list_In in Ht, Hf. unfold left_of in Hf. apply elem_of_list_fmap in Hf as (d & -> & Hd). eauto 10.
  - intros (t & d & Ht & Hd & ->). exists t. rewrite <- !elem_of_list_In. split; [done|]. unfold left_of. apply elem_of_list_fmap. eauto.
Qed.

Section proofs.
Variable M : Type.
Variable tname : N -> bytes.
Variable mtype : N -> N.
Variable encode : N -> M -> option bytes.
Variable decode : N -> bytes -> outcome M.
Variable member : M -> option (bool * N).
Notation mstep := (mstep M tname mtype decode member).
Notation mrun := (mrun M tname mtype decode member).
Notation gstep := (gstep M tname mtype encode decode member).
Notation grun := (grun M tname mtype encode decode member).
Notation g_sent := (g_sent M). Notation g_tasks := (g_tasks M). Notation g_count := (g_count M). Notation g_wire := (g_wire M). Notation g_in := (g_in M). Notation g_ran := (g_ran M). Notation g_meds := (g_meds M).
Implicit Types (g : cluster M).

Lemma grun_app g l1 l2 : grun g (l1 ++ l2) = g' ← grun g l1; grun g' l2.
Proof. revert g. induction l1 as [|o l1 IH]; intros g; [done|]. simpl. destruct (gstep g o); simpl; [apply IH|done]. Qed.
Lemma grun_snoc g l o g' : grun g (l ++ [o]) = Some g' -> exists g1, grun g l = Some g1 /\ gstep g1 o = Some g'.
Proof. rewrite grun_app. destruct (grun g l) as [g1|]; cbn; [|done]. destruct (gstep g1 o) eqn:E; cbn; [|done]. intros [= <-]. eauto. Qed.
Lemma gmed_inv g n o g' : gstep g (GMed M n o) = Some g' -> exists m m', g_meds g !! n = Some m /\ mstep m o = Some m' /\
  g' = Clu M (<[n := m']> (g_meds g)) (g_tasks g) (g_wire g) (g_in g) (g_sent g) (g_ran g) (g_count g).
Proof.
  cbn [Stream_Model.gstep]. intros H. assert (HH : (m ← g_meds g !! n; m' ← mstep m o; Some (Clu M (<[n := m']> (g_meds g)) (g_tasks g) (g_wire g) (g_in g) (g_sent g) (g_ran g) (g_count g))) = Some g') by (by destruct o as [| ? ? ? [] | | | | |]). clear H.
  destruct (g_meds g !! n) as [m|]; [|done]. cbn in HH. destruct (mstep m o) as [m'|] eqn:E; [|done]. cbn in HH. injection HH as <-. eauto.
Qed.
Lemma gpublish_inv g n t key x order g' : gstep g (GPublish M n t key x order) = Some g' -> exists m m' ts, g_meds g !! n = Some m /\ mstep m (MPublish M t key x Cluster) = Some m' /\
  order ≡ₚ elements (m_nodes M m) /\
  g' = Clu M (<[n := m']> (g_meds g)) (g_tasks g ++ ts) (g_wire g) (g_in g) (g_sent g) (g_ran g) (S (g_count g)) /\
  (ts = [] \/ exists b, encode (mtype t) x = Some b /\ ts = [Task n (g_count g) (Packet (tname t) key b) order]) /\
  (m_alive M m' = true -> forall b, encode (mtype t) x = Some b -> remaining ts = (fun d => Flight n d (g_count g) (Packet (tname t) key b)) <$> order).
Proof.
  cbn [Stream_Model.gstep]. destruct (g_meds g !! n) as [m|]; [|done]. cbn [mbind option_bind]. destruct (mstep m _) as [m'|] eqn:E; [|done]. cbn [mbind option_bind].
  case_bool_decide as Ho; [|done]. intros [= <-]. do 3 eexists. split_and!; [done|done|done|done|..].
  - destruct (m_alive M m'); [|by left]. destruct (encode (mtype t) x) as [b|]; [|by left]. destruct order; [by left|]. right. eauto.
  - intros -> b ->. destruct order; [done|]. cbn. by rewrite app_nil_r.
Qed.

(** ** Exactly once *)
Definition tags_ok g : Prop := forall f, f ∈ g_sent g ++ remaining (g_tasks g) -> f_tag f < g_count g.
Lemma tags_step g o g' : tags_ok g -> gstep g o = Some g' -> tags_ok g' /\
  forall k, k < g_count g -> k < g_count g' /\ with_tag k (g_sent g' ++ remaining (g_tasks g')) ≡ₚ with_tag k (g_sent g ++ remaining (g_tasks g)).
Proof.
  intros HT H. destruct o as [n o|n t key x order|i|src dst|src dst|i].
  - apply gmed_inv in H as (m & m' & _ & _ & ->). split; done.
  - apply gpublish_inv in H as (m & m' & ts & _ & _ & _ & -> & Hts & _). cbn. rewrite remaining_app.
    assert (HN : forall f, f ∈ remaining ts -> f_tag f = g_count g).
    { intros f. destruct Hts as [->|(b & _ & ->)]; [by intros ?%elem_of_nil|]. cbn. rewrite app_nil_r. intros (d & -> & _)%elem_of_list_fmap. done. }
    split.
    + intros f. cbn. rewrite remaining_app, app_assoc. intros [Hf%HT|Hf%HN]%elem_of_app; cbn; lia.
    + intros k Hk. split; [lia|]. unfold with_tag. rewrite app_assoc, List.filter_app, (lfilter_none _ (remaining ts)), app_nil_r; [done|].
      intros f Hf%HN. apply Nat.eqb_neq. lia.
  - cbn [Stream_Model.gstep] in H. destruct (g_tasks g !! i) as [t|] eqn:Ei; [|done]. cbn in H. destruct (t_left t) as [|d r] eqn:El; [done|]. injection H as <-.
    pose proof (remaining_send _ _ _ _ _ Ei El) as HP. cbn.
    assert (HA : (g_sent g ++ [Flight (t_src t) d (t_tag t) (t_packet t)]) ++ remaining (match r with [] => delete i (g_tasks g) | _ => <[i := Task (t_src t) (t_tag t) (t_packet t) r]> (g_tasks g) end) ≡ₚ g_sent g ++ remaining (g_tasks g)).
    { rewrite HP, <- app_assoc. done. }
    split.
    + intros f Hf. cbn in *. rewrite HA in Hf. by apply HT.
    + intros k Hk. split; [done|]. by apply lfilter_perm.
  - cbn [Stream_Model.gstep] in H. destruct (take_first _ _) as [[f w]|]; [|done]. cbn in H. injection H as <-. split; done.
  - injection H as <-. split; done.
  - cbn [Stream_Model.gstep] in H. destruct (g_in g !! i) as [f|]; [|done]. cbn in H. destruct (g_meds g !! f_dst f) as [m|]; [|done]. cbn in H.
    destruct (m_alive M m); [|done]. cbn in H. injection H as <-. split; done.
Qed.
Lemma tags_run l : forall g g', tags_ok g -> grun g l = Some g' -> tags_ok g' /\
  forall k, k < g_count g -> k < g_count g' /\ with_tag k (g_sent g' ++ remaining (g_tasks g')) ≡ₚ with_tag k (g_sent g ++ remaining (g_tasks g)).
Proof.
  induction l as [|o l IH]; intros g g' HT Hr; simpl in Hr; [by injection Hr as <-|]. destruct (gstep g o) as [g1|] eqn:E; cbn in Hr; [|done].
  destruct (tags_step _ _ _ HT E) as [HT1 H1]. destruct (IH _ _ HT1 Hr) as [HT2 H2]. split; [done|]. intros k Hk. destruct (H1 _ Hk) as [Hk1 E1]. destruct (H2 _ Hk1) as [Hk2 E2]. split; [done|]. by rewrite E2.
Qed.
Lemma tags_fresh meds : tags_ok (fresh_cluster meds).
Proof. intros f Hf. cbn in Hf. by apply elem_of_nil in Hf. Qed.

(** Nothing is handled that was not sent, nor more often. *)
Definition once g : Prop := g_ran g ++ g_in g ++ g_wire g ⊆+ g_sent g.
Lemma once_step g o g' : once g -> gstep g o = Some g' -> once g'.
Proof.
  unfold once. intros HO H. destruct o as [n o|n t key x order|i|src dst|src dst|i].
  - apply gmed_inv in H as (m & m' & _ & _ & ->). done.
  - apply gpublish_inv in H as (m & m' & ts & _ & _ & _ & -> & Hts & _). done.
  - cbn [Stream_Model.gstep] in H. destruct (g_tasks g !! i) as [t|] eqn:Ei; [|done]. cbn in H. destruct (t_left t) as [|d r] eqn:El; [done|]. injection H as <-. cbn.
    rewrite !app_assoc. apply submseteq_app; [|done]. by rewrite <- app_assoc.
  - cbn [Stream_Model.gstep] in H. destruct (take_first _ _) as [[f w]|] eqn:E; [|done]. cbn in H. injection H as <-. cbn. apply take_first_perm in E as [E _].
    etrans; [|exact HO]. rewrite E, <- app_assoc. done.
  - injection H as <-. cbn. etrans; [|exact HO]. apply submseteq_app; [done|]. apply submseteq_app; [done|].
    clear. induction (g_wire g) as [|f w IH]; cbn; [done|]. destruct (negb _); [by apply submseteq_skip|by apply submseteq_cons].
  - cbn [Stream_Model.gstep] in H. destruct (g_in g !! i) as [f|] eqn:Ei; [|done]. cbn in H. destruct (g_meds g !! f_dst f) as [m|]; [|done]. cbn in H.
    destruct (m_alive M m); [|done]. cbn in H. injection H as <-. cbn. etrans; [|exact HO].
    rewrite <- app_assoc. apply submseteq_app; [done|]. cbn. rewrite app_comm_cons. apply submseteq_app; [|done]. by rewrite <- (delete_Permutation _ _ _ Ei).
Qed.
Lemma once_run l : forall g g', once g -> grun g l = Some g' -> once g'.
Proof.
  induction l as [|o l IH]; intros g g' HO Hr; simpl in Hr; [by injection Hr as <-|]. destruct (gstep g o) as [g1|] eqn:E; cbn in Hr; [|done].
  eapply IH; [|done]. by eapply once_step.
Qed.

(** ** Order *)
Definition fkey (f : flight) : nat * N := (f_tag f, f_dst f).
Definition distinct g : Prop := NoDup (fkey <$> (g_sent g ++ remaining (g_tasks g))).
Lemma distinct_step g o g' : tags_ok g -> distinct g -> gstep g o = Some g' -> distinct g'.
Proof.
  unfold distinct. intros HT HD H. destruct o as [n o|n t key x order|i|src dst|src dst|i].
  - apply gmed_inv in H as (m & m' & _ & _ & ->). done.
  - apply gpublish_inv in H as (m & m' & ts & _ & _ & Ho & -> & Hts & _). cbn. rewrite remaining_app, app_assoc, fmap_app. apply NoDup_app. split; [done|].
    assert (HN : NoDup (fkey <$> remaining ts) /\ forall f, f ∈ remaining ts -> f_tag f = g_count g).
    { destruct Hts as [->|(b & _ & ->)]; [split; [constructor|by intros ? ?%elem_of_nil]|]. cbn. rewrite app_nil_r. split.
      - rewrite <- list_fmap_compose. apply NoDup_fmap_2; [intros d d' [= ->]; done|]. rewrite Ho. apply NoDup_elements.
      - intros f (d & -> & _)%elem_of_list_fmap. done. }
    split; [|apply HN]. intros k (f & -> & Hf)%elem_of_list_fmap (f' & Hk & Hf')%elem_of_list_fmap. apply HT in Hf. apply HN in Hf'. injection Hk as Hk _. lia.
  - cbn [Stream_Model.gstep] in H. destruct (g_tasks g !! i) as [t|] eqn:Ei; [|done]. cbn in H. destruct (t_left t) as [|d r] eqn:El; [done|]. injection H as <-.
    pose proof (remaining_send _ _ _ _ _ Ei El) as HP. cbn. rewrite <- app_assoc. cbn. by rewrite <- HP.
  - cbn [Stream_Model.gstep] in H. destruct (take_first _ _) as [[f w]|]; [|done]. cbn in H. by injection H as <-.
  - by injection H as <-.
  - cbn [Stream_Model.gstep] in H. destruct (g_in g !! i) as [f|]; [|done]. cbn in H. destruct (g_meds g !! f_dst f) as [m|]; [|done]. cbn in H.
    destruct (m_alive M m); [|done]. cbn in H. by injection H as <-.
Qed.
(** The packets of a publisher that are on their way are of one publication, and the latest. *)
Definition latest n g : Prop := exists k,
  (forall f, f ∈ g_in g ++ g_wire g ++ remaining (g_tasks g) -> f_src f = n -> f_tag f = k) /\
  (forall f, f ∈ g_ran g -> f_src f = n -> f_tag f <= k) /\ k <= g_count g /\
  (forall f, f ∈ g_ran g -> f_src f = n -> f_tag f < g_count g).
Definition sorted_to n g : Prop := forall d, StronglySorted lt (f_tag <$> between n d (g_ran g)).
Lemma sorted_snoc l x : StronglySorted lt l -> Forall (fun y => y < x) l -> StronglySorted lt (l ++ [x]).
Proof.
  induction 1 as [|y l Hs IH Hf]; intros HF; cbn; [repeat constructor|]. apply Forall_cons in HF as [Hy HF]. constructor; [by apply IH|].
  apply Forall_app. split; [done|]. by repeat constructor.
Qed.
Lemma order_step n g o g' : tags_ok g -> distinct g -> once g -> latest n g -> sorted_to n g -> gstep g o = Some g' ->
  (forall t key x order, o = GPublish M n t key x order -> calm g n) -> latest n g' /\ sorted_to n g'.
Proof.
  intros HT HD HO HL HS H HC. pose proof HL as (k & L1 & L2 & L3 & L4). destruct o as [n' o|n' t key x order|i|src dst|src dst|i].
  - apply gmed_inv in H as (m & m' & _ & _ & ->). split; done.
  - apply gpublish_inv in H as (m & m' & ts & _ & _ & Ho & -> & Hts & _). split; [|done]. unfold latest; cbn. rewrite remaining_app.
    assert (HN : forall f, f ∈ remaining ts -> f_tag f = g_count g /\ f_src f = n').
    { intros f. destruct Hts as [->|(b & _ & ->)]; [by intros ?%elem_of_nil|]. cbn. rewrite app_nil_r. intros (d & -> & _)%elem_of_list_fmap. done. }
    destruct (decide (n' = n)) as [->|Hne].
    + exists (g_count g). destruct (HC _ _ _ _ eq_refl) as (C1 & C2 & C3). split_and!; [|intros f Hf Hs; specialize (L4 _ Hf Hs); lia|lia|intros f Hf Hs; specialize (L4 _ Hf Hs); lia].
      intros f Hf Hs. rewrite !elem_of_app in Hf. destruct Hf as [Hf|[Hf|[Hf|Hf]]].
      * by apply C3 in Hf.
      * by apply C2 in Hf.
      * apply remaining_elem in Hf as (t' & d & Ht & _ & ->). by apply C1 in Ht.
      * by apply HN in Hf as [? _].
    + exists k. split_and!; [|done|lia|intros f Hf Hs; specialize (L4 _ Hf Hs); lia].
      intros f Hf Hs. rewrite !app_assoc in Hf. apply elem_of_app in Hf as [Hf|Hf]; [apply L1; [by rewrite !app_assoc|done]|].
      apply HN in Hf as [_ ?]. congruence.
  - cbn [Stream_Model.gstep] in H. destruct (g_tasks g !! i) as [t|] eqn:Ei; [|done]. cbn in H. destruct (t_left t) as [|d r] eqn:El; [done|]. injection H as <-.
    pose proof (remaining_send _ _ _ _ _ Ei El) as HP. split; [|done]. exists k. cbn. split_and!; [|done..]. intros f Hf. apply L1. rewrite HP.
    rewrite !elem_of_app in Hf. rewrite !elem_of_app, elem_of_cons. rewrite elem_of_list_singleton in Hf. tauto.
  - cbn [Stream_Model.gstep] in H. destruct (take_first _ _) as [[f w]|] eqn:E; [|done]. cbn in H. injection H as <-. apply take_first_perm in E as [E _].
    split; [|done]. exists k. cbn. split_and!; [|done..]. intros f' Hf. apply L1. rewrite E. rewrite !elem_of_app, elem_of_list_singleton in Hf. rewrite !elem_of_app, elem_of_cons. tauto.
  - injection H as <-. split; [|done]. exists k. cbn. split_and!; [|done..]. intros f' Hf. apply L1. rewrite !elem_of_app, lfilter_elem in Hf. rewrite !elem_of_app. tauto.
  - cbn [Stream_Model.gstep] in H. destruct (g_in g !! i) as [f|] eqn:Ei; [|done]. cbn in H. destruct (g_meds g !! f_dst f) as [m|]; [|done]. cbn in H.
    destruct (m_alive M m); [|done]. cbn in H. injection H as <-.
    assert (Hfin : f ∈ g_in g) by (by eapply elem_of_list_lookup_2).
    assert (Hfs : f ∈ g_sent g). { eapply elem_of_submseteq; [|exact HO]. rewrite !elem_of_app. tauto. }
    split.
    + exists k. cbn. split_and!; [| |done|].
      * intros f' Hf. apply L1. rewrite (delete_Permutation _ _ _ Ei). rewrite !elem_of_app in Hf. rewrite !elem_of_app, elem_of_cons. tauto.
      * intros f' [Hf| ->%elem_of_list_singleton]%elem_of_app Hs; [by apply L2|]. rewrite (L1 f); [done| |done]. rewrite !elem_of_app. tauto.
      * intros f' [Hf| ->%elem_of_list_singleton]%elem_of_app Hs; [by apply L4|]. apply HT. rewrite elem_of_app. by left.
    + intros d. unfold between. cbn. rewrite List.filter_app, fmap_app. cbn. destruct (on_link n d f) eqn:Eo; [|rewrite app_nil_r; apply HS]. cbn. apply sorted_snoc; [apply HS|].
      unfold on_link in Eo. apply andb_true_iff in Eo as [E1%N.eqb_eq E2%N.eqb_eq].
      apply Forall_forall. intros y (f' & -> & Hf')%elem_of_list_fmap. apply lfilter_elem in Hf' as [Hf' Ho']. unfold on_link in Ho'. apply andb_true_iff in Ho' as [E3%N.eqb_eq E4%N.eqb_eq].
      assert (f_tag f = k) as -> by (apply L1; [rewrite !elem_of_app; tauto|done]).
      assert (f_tag f' <= k) by (by apply L2). destruct (decide (f_tag f' = k)) as [E|]; [|lia]. exfalso.
      assert (f_tag f = k) as Ek by (apply L1; [rewrite !elem_of_app; tauto|done]).
      assert (HN : NoDup (fkey <$> (g_ran g ++ g_in g ++ g_wire g))).
      { unfold distinct in HD. rewrite fmap_app in HD. apply NoDup_app in HD as [HD _]. unfold once in HO. apply submseteq_Permutation in HO as [z Hz]. rewrite Hz, fmap_app in HD. by apply NoDup_app in HD as [HD _]. }
      rewrite fmap_app in HN. apply NoDup_app in HN as (_ & HN & _). apply (HN (fkey f')).
      * apply elem_of_list_fmap. eauto.
      * apply elem_of_list_fmap. exists f. split; [unfold fkey; congruence|]. rewrite elem_of_app. by left.
Qed.
(** Every publication of [n] waits until nothing of the earlier ones is on its way. *)
Fixpoint patient n g (l : list (gop M)) : Prop :=
  match l with
  | [] => True
  | o :: l' => match o with GPublish _ n' _ _ _ _ => n' = n -> calm g n | _ => True end /\
               match gstep g o with Some g' => patient n g' l' | None => True end
  end.
Lemma order_run n l : forall g g', tags_ok g -> distinct g -> once g -> latest n g -> sorted_to n g -> patient n g l -> grun g l = Some g' -> sorted_to n g'.
Proof.
  induction l as [|o l IH]; intros g g' HT HD HO HL HS HP Hr; simpl in Hr; [by injection Hr as <-|]. destruct HP as [HP1 HP2]. destruct (gstep g o) as [g1|] eqn:E; cbn in Hr; [|done].
  destruct (order_step n g o g1) as [HL1 HS1]; try done. { intros t key x order ->. by apply HP1. }
  eapply (IH g1); [by eapply tags_step|by eapply distinct_step|by eapply once_step|done..].
Qed.

(** ** The history of a node *)
(** What a mediator did: its own operations, and what arrived. *)
Definition node_op n (o : gop M) : list (mop M) :=
  match o with
  | GMed _ n' o => if decide (n' = n) then [o] else []
  | GPublish _ n' t key x _ => if decide (n' = n) then [MPublish M t key x Cluster] else []
  | _ => []
  end.
Definition as_raw (f : flight) : mop M := MRaw M (pk_topic (f_packet f)) (pk_key (f_packet f)) (pk_data (f_packet f)).
Definition is_raw (o : mop M) : bool := match o with MRaw _ _ _ _ => true | _ => false end.
Definition no_raw (o : gop M) : Prop := match o with GMed _ _ (MRaw _ _ _ _) => False | _ => True end.
Definition to_node n (l : list flight) : list flight := List.filter (fun f => (f_dst f =? n)%N) l.
Lemma node_history n l : forall g g' m, grun g l = Some g' -> g_meds g !! n = Some m -> Forall no_raw l ->
  exists ops m' R, g_meds g' !! n = Some m' /\ mrun m ops = Some m' /\ g_ran g' = g_ran g ++ R /\
    List.filter is_raw ops = as_raw <$> to_node n R /\ List.filter (fun o => negb (is_raw o)) ops = flat_map (node_op n) l.
Proof.
  induction l as [|o l IH]; intros g g' m Hr Hm Hn; simpl in Hr.
  { injection Hr as <-. exists [], m, []. rewrite app_nil_r. done. }
  apply Forall_cons in Hn as [Ho Hn]. destruct (gstep g o) as [g1|] eqn:E; cbn in Hr; [|done].
  assert (HK : exists op m1 R, g_meds g1 !! n = Some m1 /\ mrun m op = Some m1 /\ g_ran g1 = g_ran g ++ R /\
     List.filter is_raw op = as_raw <$> to_node n R /\ List.filter (fun o => negb (is_raw o)) op = node_op n o).
  { destruct o as [n' o|n' t key x order|i|src dst|src dst|i]; cbn [node_op].
    - apply gmed_inv in E as (m0 & m1 & E1 & E2 & ->). cbn. destruct (decide (n' = n)) as [->|].
      + rewrite Hm in E1. injection E1 as <-. exists [o], m1, []. rewrite lookup_insert, app_nil_r. cbn. rewrite E2. cbn. destruct o; done.
      + exists [], m, []. rewrite lookup_insert_ne, app_nil_r by done. done.
    - apply gpublish_inv in E as (m0 & m1 & ts & E1 & E2 & _ & -> & _). cbn. destruct (decide (n' = n)) as [->|].
      + rewrite Hm in E1. injection E1 as <-. exists [MPublish M t key x Cluster], m1, []. rewrite lookup_insert, app_nil_r. cbn [Stream_Model.mrun]. rewrite E2. done.
      + exists [], m, []. rewrite lookup_insert_ne, app_nil_r by done. done.
    - cbn [Stream_Model.gstep] in E. destruct (g_tasks g !! i) as [t|]; [|done]. cbn in E. destruct (t_left t) as [|d r] eqn:El; [done|]. injection E as <-.
      exists [], m, []. rewrite app_nil_r. done.
    - cbn [Stream_Model.gstep] in E. destruct (take_first _ _) as [[f w]|]; [|done]. cbn in E. injection E as <-. exists [], m, []. rewrite app_nil_r. done.
    - injection E as <-. exists [], m, []. rewrite app_nil_r. done.
    - cbn [Stream_Model.gstep] in E. destruct (g_in g !! i) as [f|]; [|done]. cbn [mbind option_bind] in E. destruct (g_meds g !! f_dst f) as [m0|] eqn:E0; [|done]. cbn [mbind option_bind] in E.
      destruct (mstep m0 _) as [m1|] eqn:E1; [|done]. cbn [mbind option_bind] in E. injection E as <-. cbn [Stream_Model.g_meds Stream_Model.g_ran]. destruct (decide (f_dst f = n)) as [Ed|].
      + rewrite Ed in E0. rewrite Hm in E0. injection E0 as <-. exists [as_raw f], m1, [f]. rewrite Ed, lookup_insert. unfold as_raw. cbn [Stream_Model.mrun]. rewrite E1. cbn. rewrite Ed, N.eqb_refl. done.
      + exists [], m, [f]. rewrite lookup_insert_ne by done. cbn. by rewrite (proj2 (N.eqb_neq _ _)). }
  destruct HK as (op & m1 & R1 & Hm1 & Hr1 & HR1 & Hf1 & Hf2). destruct (IH _ _ _ Hr Hm1 Hn) as (ops & m' & R2 & Hm' & Hr2 & HR2 & Hf3 & Hf4).
  exists (op ++ ops), m', (R1 ++ R2). split_and!; [done|by rewrite mrun_app, Hr1|by rewrite HR2, HR1, app_assoc|..].
  - unfold to_node in *. rewrite !List.filter_app, fmap_app. congruence.
  - rewrite List.filter_app. cbn. congruence.
Qed.

(** ** Any order *)
Section any.
Variables (n d t : N) (key : bytes).
Hypothesis Hnd : n <> d.
Definition ready g L : Prop := exists m md, g_meds g !! n = Some m /\ g_meds g !! d = Some md /\ m_nodes M m = {[d]} /\ m_alive M m = true /\ m_alive M md = true /\
  m_topics M md !! tname t = Some t /\ m_chans M md !! (tname t, key) = Some L /\ (forall t', m_topics M m !! tname t = Some t' -> mtype t' = mtype t).
Definition flight_of (kx : nat * bytes) : flight := Flight n d (fst kx) (Packet (tname t) key (snd kx)).
Definition task_of (kx : nat * bytes) : task := Task n (fst kx) (Packet (tname t) key (snd kx)) [d].
Definition number (k : nat) (bs : list bytes) : list (nat * bytes) := zip (seq k (length bs)) bs.
Lemma publish_all xs : forall bs g L, ready g L -> Forall2 (fun x b => encode (mtype t) x = Some b) xs bs ->
  exists g', grun g ((fun x => GPublish M n t key x [d]) <$> xs) = Some g' /\ ready g' L /\
    g_tasks g' = g_tasks g ++ (task_of <$> number (g_count g) bs) /\ g_wire g' = g_wire g /\ g_in g' = g_in g /\ g_ran g' = g_ran g.
Proof.
  induction xs as [|x xs IH]; intros bs g L HR Hb; inversion Hb as [|? b ? bs' Hx Hbs]; subst.
  { exists g. cbn. rewrite app_nil_r. done. }
  destruct HR as (m & md & H1 & H2 & H3 & H4 & H5 & H6 & H7 & H8).
  assert (HE : exists m1, mstep m (MPublish M t key x Cluster) = Some m1 /\ m_alive M m1 = true /\ m_nodes M m1 = {[d]} /\ m_topics M m1 = m_topics M m).
  { cbn [Stream_Model.mstep]. rewrite H4. eexists. split; [done|]. unfold emit. destruct (m_topics M m !! tname t) as [t0|] eqn:Et; [|done].
    rewrite (H8 _ eq_refl), N.eqb_refl. unfold broadcast. destruct (m_chans M m !! _); done. }
  destruct HE as (m1 & E1 & E2 & E3 & E4).
  assert (ES : gstep g (GPublish M n t key x [d]) = Some (Clu M (<[n := m1]> (g_meds g)) (g_tasks g ++ [task_of (g_count g, b)]) (g_wire g) (g_in g) (g_sent g) (g_ran g) (S (g_count g)))).
  { cbn [Stream_Model.gstep]. rewrite H1. cbn [mbind option_bind]. rewrite E1. cbn [mbind option_bind]. rewrite E2, Hx, H3. rewrite bool_decide_eq_true_2; [done|]. by rewrite elements_singleton. }
  edestruct (IH bs' (Clu M (<[n := m1]> (g_meds g)) (g_tasks g ++ [task_of (g_count g, b)]) (g_wire g) (g_in g) (g_sent g) (g_ran g) (S (g_count g))) L) as (g' & Hr & HR' & Ht & Hw & Hi & Hran); [|done|].
  { exists m1, md. cbn. rewrite lookup_insert, lookup_insert_ne by done. split_and!; try done. by rewrite E4. }
  exists g'. split_and!; try done.
  - cbn [fmap list_fmap Stream_Model.grun]. rewrite ES. exact Hr.
  - rewrite Ht. cbn. by rewrite <- app_assoc.
Qed.
Lemma send_all bs : forall g L, ready g L -> g_tasks g = task_of <$> bs ->
  exists g', grun g (replicate (length bs) (GSend M 0)) = Some g' /\ ready g' L /\ g_tasks g' = [] /\ g_wire g' = g_wire g ++ (flight_of <$> bs) /\ g_in g' = g_in g /\ g_ran g' = g_ran g.
Proof.
  induction bs as [|b bs IH]; intros g L HR Ht.
  { exists g. cbn. rewrite app_nil_r. done. }
  assert (ES : gstep g (GSend M 0) = Some (Clu M (g_meds g) (task_of <$> bs) (g_wire g ++ [flight_of b]) (g_in g) (g_sent g ++ [flight_of b]) (g_ran g) (g_count g))).
  { cbn [Stream_Model.gstep]. rewrite Ht. done. }
  destruct (IH (Clu M (g_meds g) (task_of <$> bs) (g_wire g ++ [flight_of b]) (g_in g) (g_sent g ++ [flight_of b]) (g_ran g) (g_count g)) L) as (g' & Hr & HR' & Ht' & Hw & Hi & Hran); [done|done|].
  exists g'. split_and!; try done.
  - cbn [length replicate Stream_Model.grun]. rewrite ES. exact Hr.
  - rewrite Hw. cbn. by rewrite <- app_assoc.
Qed.
Lemma recv_all bs : forall g L, ready g L -> g_wire g = flight_of <$> bs ->
  exists g', grun g (replicate (length bs) (GRecv M n d)) = Some g' /\ ready g' L /\ g_tasks g' = g_tasks g /\ g_wire g' = [] /\ g_in g' = g_in g ++ (flight_of <$> bs) /\ g_ran g' = g_ran g.
Proof.
  induction bs as [|b bs IH]; intros g L HR Ht.
  { exists g. cbn. rewrite app_nil_r. done. }
  assert (ES : gstep g (GRecv M n d) = Some (Clu M (g_meds g) (g_tasks g) (flight_of <$> bs) (g_in g ++ [flight_of b]) (g_sent g) (g_ran g) (g_count g))).
  { cbn [Stream_Model.gstep]. rewrite Ht. cbn. unfold on_link. cbn. by rewrite !N.eqb_refl. }
  destruct (IH (Clu M (g_meds g) (g_tasks g) (flight_of <$> bs) (g_in g ++ [flight_of b]) (g_sent g) (g_ran g) (g_count g)) L) as (g' & Hr & HR' & Ht' & Hw & Hi & Hran); [done|done|].
  exists g'. split_and!; try done.
  - cbn [length replicate Stream_Model.grun]. rewrite ES. exact Hr.
  - rewrite Hi. cbn. by rewrite <- app_assoc.
Qed.
Lemma run_all ys : forall g L (bys : list (nat * bytes)), ready g L -> Forall2 (fun y kb => decode (mtype t) (snd kb) = Done y) ys bys -> g_in g ≡ₚ flight_of <$> bys ->
  exists l g', grun g l = Some g' /\ ready g' (L ++ ys) /\ Forall (fun o => match o with GRun _ _ => True | _ => False end) l.
Proof.
  induction ys as [|y ys IH]; intros g L bys HR Hd Hi; inversion Hd as [|? kb ? bys' Hy Hys]; subst.
  { exists [], g. rewrite app_nil_r. done. }
  assert (Hin : flight_of kb ∈ g_in g). { rewrite Hi. cbn. left. }
  apply elem_of_list_lookup in Hin as [i Hini].
  destruct HR as (m & md & H1 & H2 & H3 & H4 & H5 & H6 & H7 & H8).
  set (md' := Med (m_self M md) (m_topics M md) (<[(tname t, key) := L ++ [y]]> (m_chans M md)) (m_subs M md) (m_nodes M md) (m_seen M md) (m_alive M md)).
  assert (ES : gstep g (GRun M i) = Some (Clu M (<[d := md']> (g_meds g)) (g_tasks g) (g_wire g) (delete i (g_in g)) (g_sent g) (g_ran g ++ [flight_of kb]) (g_count g))).
  { cbn [Stream_Model.gstep]. rewrite Hini. cbn [mbind option_bind flight_of f_dst f_packet pk_topic pk_key pk_data]. rewrite H2. cbn [mbind option_bind Stream_Model.mstep]. rewrite H5.
    unfold emit_raw. rewrite H6, Hy. unfold broadcast. rewrite H7. done. }
  edestruct (IH (Clu M (<[d := md']> (g_meds g)) (g_tasks g) (g_wire g) (delete i (g_in g)) (g_sent g) (g_ran g ++ [flight_of kb]) (g_count g)) (L ++ [y]) bys') as (l & g' & Hr & HR' & Hl); [|done| |].
  - exists m, md'. cbn. rewrite lookup_insert, lookup_insert_ne by done. subst md'. cbn. rewrite lookup_insert. split_and!; done.
  - cbn. apply (Permutation_cons_inv (a := flight_of kb)). etrans; [symmetry; apply (delete_Permutation _ _ _ Hini)|]. exact Hi.
  - exists (GRun M i :: l), g'. split_and!.
    + cbn [Stream_Model.grun]. rewrite ES. exact Hr.
    + by rewrite <- app_assoc in HR'.
    + by constructor.
Qed.
End any.
End proofs.
