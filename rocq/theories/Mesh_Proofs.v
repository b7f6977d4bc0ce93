(** Proofs about a cluster that comes together. *)
From Verif Require Import Mesh_Model Mesh_Spec.

(** * Meeting a list of nodes *)
Lemma meet_known x down cur m l m' ks :
  meet_nodes x down cur m l = (m', ks) ->
  m_known m ⊆ m_known m' /\ m_known m' ⊆ m_known m ∪ list_to_set l /\
  (forall k, k ∈ ks -> k_from k = x /\ k_to k ∈ m_known m' /\ k_nodes k ⊆ m_known m').
Proof.
  revert m m' ks. induction l as [|n l IH]; intros m m' ks E; cbn [meet_nodes] in E.
  - injection E as <- <-. split_and!; [set_solver|set_solver|]. intros k Hk. by apply elem_of_nil in Hk.
  - destruct (_ || _) eqn:Eb.
    + apply IH in E as (H1 & H2 & H3). split_and!; [done|set_solver|done].
    + destruct (meet_nodes _ _ _ _ _) as [m1 ks1] eqn:E1. injection E as <- <-.
      apply IH in E1 as (H1 & H2 & H3). cbn [m_known] in *.
      split_and!; [set_solver|set_solver|].
      intros k [->|Hk]%elem_of_cons; [|by apply H3]. cbn. split_and!; [done|set_solver|done].
Qed.

Lemma meet_ing x down cur m l m' ks :
  meet_nodes x down cur m l = (m', ks) -> m_ing m ⊆ m_known m -> m_ing m' ⊆ m_known m'.
Proof.
  revert m m' ks. induction l as [|n l IH]; intros m m' ks E Hi; cbn [meet_nodes] in E.
  - by injection E as <- <-.
  - destruct (_ || _) eqn:Eb; [by eapply IH|].
    destruct (meet_nodes _ _ _ _ _) as [m1 ks1] eqn:E1. injection E as <- <-.
    apply IH in E1; [done|]. cbn. set_solver.
Qed.

(** Every node of the list is known afterwards. *)
Lemma meet_all x cur m l m' ks :
  meet_nodes x [] cur m l = (m', ks) -> cur ⊆ m_known m -> m_ing m ⊆ m_known m ->
  forall n, n ∈ l -> n ∈ m_known m'.
Proof.
  revert m m' ks. induction l as [|n l IH]; intros m m' ks E Hc Hi k Hk; cbn [meet_nodes] in E; [by apply elem_of_nil in Hk|].
  destruct (_ || _) eqn:Eb.
  - apply elem_of_cons in Hk as [->|Hk]; [|by eapply IH].
    pose proof (meet_known _ _ _ _ _ _ _ E) as (H1 & _ & _). apply H1.
    apply orb_true_iff in Eb as [Eb|Eb]; [|apply bool_decide_eq_true in Eb; by apply elem_of_nil in Eb].
    apply orb_true_iff in Eb as [Eb|Eb]; apply bool_decide_eq_true in Eb; set_solver.
  - destruct (meet_nodes _ _ _ _ _) as [m1 ks1] eqn:E1. injection E as <- <-.
    apply elem_of_cons in Hk as [->|Hk].
    + pose proof (meet_known _ _ _ _ _ _ _ E1) as (H1 & _ & _). apply H1. cbn. set_solver.
    + refine (IH _ _ _ E1 _ _ k Hk); cbn; set_solver.
Qed.

(** A new acquaintance is told of all others, or the other, new as well, is told of it. *)
Lemma meet_told x down cur m l m' ks a b :
  meet_nodes x down cur m l = (m', ks) -> a ∈ m_known m' -> b ∈ m_known m' -> a ∉ m_known m ->
  (exists k, k ∈ ks /\ k_to k = a /\ b ∈ k_nodes k) \/
  (b ∉ m_known m /\ exists k, k ∈ ks /\ k_to k = b /\ a ∈ k_nodes k).
Proof.
  revert m m' ks a b. induction l as [|n l IH]; intros m m' ks a b E Ha Hb Hn; cbn [meet_nodes] in E.
  - injection E as <- <-. done.
  - destruct (_ || _) eqn:Eb; [by eapply IH|].
    destruct (meet_nodes _ _ _ _ _) as [m1 ks1] eqn:E1. injection E as <- <-.
    destruct (decide (a = n)) as [->|Han].
    + destruct (decide (b ∈ {[ n ]} ∪ m_known m)) as [Hb'|Hb'].
      * left. exists (Shake x n ({[ n ]} ∪ m_known m)). cbn. split_and!; [left|done|done].
      * destruct (IH _ _ _ _ _ E1 Hb Ha Hb') as [(k & Hk & Ek & Hin)|[Hbad _]]; [|cbn in Hbad; set_solver].
        right. split; [set_solver|]. exists k. split_and!; [by right|done|done].
    + destruct (decide (b = n)) as [->|Hbn].
      * destruct (IH _ _ _ _ _ E1 Ha Hb) as [(k & Hk & Ek & Hin)|[Hbad _]]; [cbn; set_solver| |cbn in Hbad; set_solver].
        left. exists k. split_and!; [by right|done|done].
      * destruct (IH _ _ _ _ _ E1 Ha Hb) as [(k & Hk & Ek & Hin)|[Hbad (k & Hk & Ek & Hin)]]; [cbn; set_solver| |].
        -- left. exists k. split_and!; [by right|done|done].
        -- cbn in Hbad. right. split; [set_solver|]. exists k. split_and!; [by right|done|done].
Qed.

(** As many handshakes as new acquaintances. *)
Lemma meet_count x down cur m l m' ks :
  meet_nodes x down cur m l = (m', ks) -> m_known m ⊆ cur ∪ m_ing m ->
  size (m_known m') = (size (m_known m) + length ks)%nat.
Proof.
  revert m m' ks. induction l as [|n l IH]; intros m m' ks E Hc; cbn [meet_nodes] in E.
  - injection E as <- <-. cbn. lia.
  - destruct (_ || _) eqn:Eb; [by apply IH in E|].
    destruct (meet_nodes _ _ _ _ _) as [m1 ks1] eqn:E1. injection E as <- <-.
    apply orb_false_iff in Eb as [Eb _]. apply orb_false_iff in Eb as [E2 E3].
    apply bool_decide_eq_false in E2. apply bool_decide_eq_false in E3.
    apply IH in E1; cbn in *; [|set_solver].
    rewrite E1, size_union by set_solver. rewrite size_singleton. lia.
Qed.

(** * The invariants *)
(** Every node mentioned anywhere has started. *)
Definition wf (h : mesh) : Prop :=
  (forall x m y, h_nodes h !! x = Some m -> y ∈ m_known m -> is_Some (h_nodes h !! y)) /\
  (forall k y, k ∈ h_flight h -> y = k_to k \/ y ∈ k_nodes k -> is_Some (h_nodes h !! y)).

Lemma wf_discover h x down l h' :
  wf h -> (forall n, n ∈ l -> is_Some (h_nodes h !! n)) -> discover h x down l = Some h' ->
  wf h' /\ (forall y, is_Some (h_nodes h !! y) <-> is_Some (h_nodes h' !! y)).
Proof.
  intros [W1 W2] Hl E. unfold discover in E.
  destruct (h_nodes h !! x) as [m|] eqn:Ex; [|done]. cbn [mbind option_bind] in E.
  destruct (meet_nodes _ _ _ _ _) as [m' ks] eqn:Em. injection E as <-. cbn [h_nodes h_flight].
  apply meet_known in Em as (H1 & H2 & H3).
  assert (Hdom : forall y, is_Some (h_nodes h !! y) <-> is_Some (<[x:=m']> (h_nodes h) !! y)).
  { intros y. destruct (decide (x = y)) as [<-|Hy].
    - rewrite lookup_insert, Ex. by split; eauto.
    - by rewrite lookup_insert_ne. }
  assert (Hk' : forall y, y ∈ m_known m' -> is_Some (<[x:=m']> (h_nodes h) !! y)).
  { intros y Hy. apply Hdom. apply H2 in Hy. apply elem_of_union in Hy as [Hy|Hy].
    - by eapply W1.
    - apply elem_of_list_to_set in Hy. auto. }
  split; [|done]. split; cbn [h_nodes h_flight].
  - intros y n z En Hz. destruct (decide (x = y)) as [<-|Hy].
    + rewrite lookup_insert in En. injection En as <-. by apply Hk'.
    + rewrite lookup_insert_ne in En by done. apply Hdom. by eapply W1.
  - intros k y [Hk|Hk]%elem_of_app Hy.
    + apply Hdom. by eapply W2.
    + apply H3 in Hk as (_ & Ht & Hn). apply Hk'. destruct Hy as [->|Hy]; [done|by apply Hn].
Qed.

Lemma elem_of_delete_list {A} (l : list A) i y : y ∈ delete i l -> y ∈ l.
Proof.
  rewrite delete_take_drop. intros [H|H]%elem_of_app.
  - rewrite elem_of_list_lookup in H. destruct H as [j H]. apply lookup_take_Some in H as [H _]. by eapply elem_of_list_lookup_2.
  - rewrite elem_of_list_lookup in H. destruct H as [j H]. rewrite lookup_drop in H. by eapply elem_of_list_lookup_2.
Qed.

Lemma elem_of_delete_other {A} (l : list A) i y z : l !! i = Some z -> y ∈ l -> y = z \/ y ∈ delete i l.
Proof.
  intros Hi Hy. rewrite <- (take_drop_middle l i z Hi) in Hy. rewrite delete_take_drop.
  rewrite elem_of_app, elem_of_cons in Hy. rewrite elem_of_app. tauto.
Qed.

Lemma wf_step h o h' : wf h -> mstep h o = Some h' -> wf h'.
Proof.
  intros W E. pose proof W as [W1 W2]. destruct o as [x|x s l|i l down|i|x y|x y]; cbn [mstep] in E.
  - destruct (h_nodes h !! x) eqn:Ex; [done|]. injection E as <-. split; cbn [h_nodes h_flight].
    + intros y m z Ey Hz. destruct (decide (x = y)) as [<-|Hy].
      * rewrite lookup_insert in Ey. injection Ey as <-. cbn in Hz. apply elem_of_singleton in Hz as ->.
        rewrite lookup_insert. eauto.
      * rewrite lookup_insert_ne in Ey by done.
        destruct (decide (x = z)) as [<-|]; [rewrite lookup_insert; eauto|rewrite lookup_insert_ne by done; by eapply W1].
    + intros k y Hk Hy. destruct (decide (x = y)) as [<-|]; [rewrite lookup_insert; eauto|rewrite lookup_insert_ne by done; by eapply W2].
  - destruct (_ && _) eqn:Eb; [|done]. apply andb_true_iff in Eb as [_ Eb].
    refine (proj1 (wf_discover _ _ _ _ _ W _ E)).
    intros n Hn. rewrite forallb_forall in Eb. specialize (Eb n). rewrite <- elem_of_list_In in Eb.
    by apply Eb, bool_decide_eq_true in Hn.
  - destruct (h_flight h !! i) as [k|] eqn:Ek; [|done]. cbn [mbind option_bind] in E.
    destruct (bool_decide _) eqn:Eb; [|done]. apply bool_decide_eq_true in Eb.
    refine (proj1 (wf_discover _ _ _ _ _ _ _ E)); cbn [h_nodes h_flight].
    + split; cbn [h_nodes h_flight]; [done|]. intros k' y Hk'. apply W2. by eapply elem_of_delete_list.
    + intros n Hn. apply (W2 k); [by eapply elem_of_list_lookup_2|]. right.
      assert (n ∈ (list_to_set l : gset N)) as Hn' by by apply elem_of_list_to_set.
      rewrite Eb in Hn'. set_solver.
  - destruct (h_flight h !! i) as [k|] eqn:Ek; [|done]. cbn [mbind option_bind] in E. injection E as <-.
    split; cbn [h_nodes h_flight]; [done|]. intros k' y Hk'. apply W2. by eapply elem_of_delete_list.
  - destruct (h_nodes h !! x) as [m|] eqn:Ex; [|done]. cbn [mbind option_bind] in E. injection E as <-.
    assert (Hdom : forall z m', is_Some (h_nodes h !! z) -> is_Some (<[x:=m']> (h_nodes h) !! z)).
    { intros z m' Hz. destruct (decide (x = z)) as [<-|]; [rewrite lookup_insert; eauto|by rewrite lookup_insert_ne]. }
    split; cbn [h_nodes h_flight].
    + intros z n w Ez Hw. apply Hdom. destruct (decide (x = z)) as [<-|].
      * rewrite lookup_insert in Ez. injection Ez as <-. by eapply W1.
      * rewrite lookup_insert_ne in Ez by done. by eapply W1.
    + intros k z Hk Hz. apply Hdom. by eapply W2.
  - destruct (h_nodes h !! x) as [m|] eqn:Ex; [|done]. cbn [mbind option_bind] in E. injection E as <-.
    assert (Hdom : forall z m', is_Some (h_nodes h !! z) -> is_Some (<[x:=m']> (h_nodes h) !! z)).
    { intros z m' Hz. destruct (decide (x = z)) as [<-|]; [rewrite lookup_insert; eauto|by rewrite lookup_insert_ne]. }
    split; cbn [h_nodes h_flight].
    + intros z n w Ez Hw. apply Hdom. destruct (decide (x = z)) as [<-|].
      * rewrite lookup_insert in Ez. injection Ez as <-. cbn in Hw. eapply W1; [done|set_solver].
      * rewrite lookup_insert_ne in Ez by done. by eapply W1.
    + intros k z Hk Hz. apply Hdom. by eapply W2.
Qed.

Lemma mruns_app h l1 l2 : mruns h (l1 ++ l2) = h' ← mruns h l1; mruns h' l2.
Proof.
  revert h. induction l1 as [|o l1 IH]; intros h; [done|]. cbn [mruns app].
  destruct (mstep h o); cbn [mbind option_bind]; [apply IH|done].
Qed.

Lemma wf_runs h ops h' : wf h -> mruns h ops = Some h' -> wf h'.
Proof.
  revert h. induction ops as [|o ops IH]; intros h W E; cbn [mruns] in E; [by injection E as <-|].
  destruct (mstep h o) as [h1|] eqn:E1; [|done]. cbn [mbind option_bind] in E. eapply IH; [|done]. by eapply wf_step.
Qed.
Lemma wf_init : wf mesh_init.
Proof. split; cbn; [intros ??? E; by rewrite lookup_empty in E|intros ?? H; by apply elem_of_nil in H]. Qed.

(** * Full knowledge *)
(** [y] knows [z] or is about to. *)
Definition told (h : mesh) (y z : N) : Prop :=
  knows h y z \/ exists k, k ∈ h_flight h /\ k_to k = y /\ z ∈ k_nodes k.

Record good (h : mesh) : Prop := {
  good_self : forall x m, h_nodes h !! x = Some m -> x ∈ m_known m /\ m_ing m ⊆ m_known m;
  good_back : forall x y, knows h x y -> told h y x;
  good_pair : forall x y z, knows h x y -> knows h x z -> told h y z \/ told h z y
}.

Lemma knows_insert h x m' fl y z :
  knows (Mesh (<[x:=m']> (h_nodes h)) fl) y z <-> (x = y /\ z ∈ m_known m') \/ (x <> y /\ knows h y z).
Proof.
  unfold knows; cbn [h_nodes]. destruct (decide (x = y)) as [<-|Hy].
  - rewrite lookup_insert. split; [intros (m & [= <-] & H); by left|]. intros [[_ H]|[H _]]; [eauto|done].
  - rewrite lookup_insert_ne by done. split; [intros H; by right|]. by intros [[H _]|[_ H]].
Qed.

(** The effect of a discovery on [good], where the handshakes of [gone] are being handled. *)
Lemma good_discover h x l h' gone :
  good (Mesh (h_nodes h) (h_flight h ++ gone)) ->
  (forall k, k ∈ gone -> k_to k = x /\ forall z, z ∈ k_nodes k -> z = x \/ z ∈ l) ->
  discover h x [] l = Some h' -> good h' /\ (forall y z, knows h y z -> knows h' y z) /\ (forall n, n ∈ l -> knows h' x n).
Proof.
  intros [Gs Gb Gp] Hg E. unfold discover in E.
  destruct (h_nodes h !! x) as [m|] eqn:Ex; [|done]. cbn [mbind option_bind] in E.
  destruct (meet_nodes _ _ _ _ _) as [m' ks] eqn:Em. injection E as <-.
  pose proof (meet_known _ _ _ _ _ _ _ Em) as (H1 & H2 & H3).
  destruct (Gs x m Ex) as [Hxm Him].
  pose proof (meet_all _ _ _ _ _ _ Em ltac:(done) Him) as Hall.
  pose proof (meet_ing _ _ _ _ _ _ _ Em Him) as Him'.
  pose proof (fun a b => meet_told _ _ _ _ _ _ _ a b Em) as Ht.
  set (h' := Mesh _ _).
  assert (Kmono : forall y z, knows h y z -> knows h' y z).
  { intros y z Hk. unfold h'. rewrite knows_insert. destruct (decide (x = y)) as [<-|]; [left|by right].
    split; [done|]. destruct Hk as (m0 & E0 & Hz). rewrite Ex in E0. injection E0 as <-. by apply H1. }
  assert (Kx : forall z, z ∈ m_known m' -> knows h' x z).
  { intros z Hz. unfold h'. rewrite knows_insert. by left. }
  assert (Kx' : forall z, knows h' x z -> z ∈ m_known m').
  { intros z Hz. unfold h' in Hz. rewrite knows_insert in Hz. by destruct Hz as [[_ Hz]|[Hz _]]. }
  assert (Ko : forall y z, x <> y -> knows h' y z -> knows h y z).
  { intros y z Hy Hz. unfold h' in Hz. rewrite knows_insert in Hz. by destruct Hz as [[Hz _]|[_ Hz]]. }
  assert (Tmono : forall y z, told (Mesh (h_nodes h) (h_flight h ++ gone)) y z -> told h' y z).
  { intros y z [Hk|(k & Hk & Et & Hz)]; [left; by apply Kmono|]. apply elem_of_app in Hk as [Hk|Hk].
    - right. exists k. split_and!; [|done|done]. unfold h'. cbn. apply elem_of_app. by left.
    - apply Hg in Hk as [E1 E2]. left. subst y. rewrite E1. apply Kx. apply E2 in Hz as [->|Hz]; [by apply H1|by apply Hall]. }
  assert (Tks : forall k z, k ∈ ks -> z ∈ k_nodes k -> told h' (k_to k) z).
  { intros k z Hk Hz. right. exists k. split_and!; [|done|done]. unfold h'. cbn. apply elem_of_app. by right. }
  assert (Kold : forall z, z ∈ m_known m -> knows h x z).
  { intros z Hz. exists m. done. }
  split; [|split; [exact Kmono|intros n Hn; by apply Kx, Hall]].
  constructor.
  - intros y n En. unfold h' in En; cbn [h_nodes] in En. destruct (decide (x = y)) as [<-|Hy].
    + rewrite lookup_insert in En. injection En as <-. split; [by apply H1|done].
    + rewrite lookup_insert_ne in En by done. by apply Gs in En.
  - intros y z Hk. destruct (decide (x = y)) as [<-|Hy].
    + apply Kx' in Hk. destruct (decide (z ∈ m_known m)) as [Hz|Hz].
      * apply Tmono, Gb. by apply Kold.
      * destruct (Ht z x Hk (H1 _ Hxm) Hz) as [(k & Hk' & <- & Hin)|[Hbad _]]; [by apply Tks|done].
    + apply Tmono, Gb. by apply Ko.
  - intros y a b Ha Hb. destruct (decide (x = y)) as [<-|Hy].
    + apply Kx' in Ha. apply Kx' in Hb.
      destruct (decide (a ∈ m_known m)) as [Ha'|Ha'].
      * destruct (decide (b ∈ m_known m)) as [Hb'|Hb'].
        -- destruct (Gp x a b) as [T|T]; [by apply Kold|by apply Kold|left|right]; by apply Tmono.
        -- destruct (Ht b a Hb Ha Hb') as [(k & Hk' & <- & Hin)|[Hbad _]]; [|done]. right. by apply Tks.
      * destruct (Ht a b Ha Hb Ha') as [(k & Hk' & <- & Hin)|[_ (k & Hk' & <- & Hin)]]; [left|right]; by apply Tks.
    + destruct (Gp y a b) as [T|T]; [by apply Ko|by apply Ko|left|right]; by apply Tmono.
Qed.

Lemma good_ext h fl' : good h -> (forall k, k ∈ h_flight h <-> k ∈ fl') -> good (Mesh (h_nodes h) fl').
Proof.
  intros [Gs Gb Gp] Hf.
  assert (T : forall y z, told h y z -> told (Mesh (h_nodes h) fl') y z).
  { intros y z [Hk|(k & Hk & H)]; [by left|right]. exists k. split; [by apply Hf|done]. }
  constructor; [done| |].
  - intros x y Hk. by apply T, Gb.
  - intros x y z H1 H2. destruct (Gp x y z H1 H2); [left|right]; by apply T.
Qed.

Lemma good_step h o h' : good h -> smooth o = true -> mstep h o = Some h' ->
  good h' /\ (forall y z, knows h y z -> knows h' y z) /\
  (forall x s l, o = MSeed x s l -> knows h' x s) /\ (forall x, o = MStart x -> knows h' x x).
Proof.
  intros G Hs E. pose proof G as [Gs Gb Gp].
  destruct o as [x|x s l|i l down|i|x y|x y]; cbn [mstep] in E; cbn [smooth] in Hs; try done.
  - destruct (h_nodes h !! x) eqn:Ex; [done|]. injection E as <-.
    set (h' := Mesh _ _).
    assert (K : forall y z, knows h' y z <-> (x = y /\ z = x) \/ (x <> y /\ knows h y z)).
    { intros y z. unfold h'. rewrite knows_insert. cbn. rewrite elem_of_singleton. done. }
    assert (Kh : forall z, ~ knows h x z). { intros z (m & Em & _). by rewrite Ex in Em. }
    assert (Kmono : forall y z, knows h y z -> knows h' y z).
    { intros y z Hk. apply K. right. split; [|done]. intros <-. by eapply Kh. }
    assert (Tmono : forall y z, told h y z -> told h' y z).
    { intros y z [Hk|H]; [left; by apply Kmono|by right]. }
    assert (Kxx : knows h' x x) by (apply K; by left).
    split_and!; [|done|done|by intros ? [= <-]]. constructor.
    + intros y m Em. unfold h' in Em; cbn in Em. destruct (decide (x = y)) as [<-|].
      * rewrite lookup_insert in Em. injection Em as <-. cbn. set_solver.
      * rewrite lookup_insert_ne in Em by done. by apply Gs in Em.
    + intros y z [[<- ->]|[_ Hk]]%K; [by left|]. by apply Tmono, Gb.
    + intros y a b [[<- ->]|[Hy Ha]]%K [[Hy' ->]|[Hy' Hb]]%K; try done; [left; by left|].
      destruct (Gp y a b Ha Hb); [left|right]; by apply Tmono.
  - destruct (_ && _) eqn:Eb; [|done]. apply andb_true_iff in Eb as [Eb _]. apply bool_decide_eq_true in Eb.
    destruct (good_discover h x l h' []) as (G' & K & A).
    + rewrite app_nil_r. by destruct h.
    + intros k Hk. by apply elem_of_nil in Hk.
    + done.
    + split_and!; [done|done| |done]. intros ??? [= -> -> ->]. by apply A.
  - apply bool_decide_eq_true in Hs as ->.
    destruct (h_flight h !! i) as [k|] eqn:Ek; [|done]. cbn [mbind option_bind] in E.
    destruct (bool_decide _) eqn:Eb; [|done]. apply bool_decide_eq_true in Eb.
    destruct (good_discover (Mesh (h_nodes h) (delete i (h_flight h))) (k_to k) l h' [k]) as (G' & K & A).
    + cbn [h_nodes h_flight]. apply (good_ext h); [done|]. intros k'. rewrite elem_of_app, elem_of_list_singleton. split.
      * intros Hk'. destruct (elem_of_delete_other _ _ _ _ Ek Hk'); tauto.
      * intros [Hk'| ->]; [by eapply elem_of_delete_list|by eapply elem_of_list_lookup_2].
    + intros k' ->%elem_of_list_singleton. split; [done|]. intros z Hz.
      destruct (decide (z = k_to k)) as [->|Hne]; [by left|right].
      rewrite <- (elem_of_list_to_set (C:=gset N)), Eb. set_solver.
    + done.
    + split_and!; done.
  - destruct (h_nodes h !! x) as [m|] eqn:Ex; [|done]. cbn [mbind option_bind] in E. injection E as <-.
    set (h' := Mesh _ _).
    assert (K : forall a b, knows h' a b <-> knows h a b).
    { intros a b. unfold h'. rewrite knows_insert. cbn. split.
      - intros [[<- H]|[_ H]]; [by exists m|done].
      - intros H. destruct (decide (x = a)) as [<-|]; [left|by right]. split; [done|].
        destruct H as (m0 & E0 & H). rewrite Ex in E0. by injection E0 as <-. }
    assert (T : forall a b, told h a b -> told h' a b).
    { intros a b [H|H]; [left; by apply K|by right]. }
    split_and!; [|intros a b; apply K|done|done]. constructor.
    + intros a n En. unfold h' in En; cbn in En. destruct (decide (x = a)) as [<-|].
      * rewrite lookup_insert in En. injection En as <-. cbn. destruct (Gs x m Ex). split; [done|set_solver].
      * rewrite lookup_insert_ne in En by done. by apply Gs in En.
    + intros a b H%K. by apply T, Gb.
    + intros a b c H1%K H2%K. destruct (Gp a b c H1 H2); [left|right]; by apply T.
Qed.

Lemma good_init : good mesh_init.
Proof.
  constructor; cbn.
  - intros ?? E. by rewrite lookup_empty in E.
  - intros ?? (? & E & _). cbn in E. by rewrite lookup_empty in E.
  - intros ??? (? & E & _). cbn in E. by rewrite lookup_empty in E.
Qed.

Lemma good_runs h ops h' : good h -> forallb smooth ops = true -> mruns h ops = Some h' ->
  good h' /\ (forall y z, knows h y z -> knows h' y z) /\
  (forall x s, seeded ops x s -> knows h' x s) /\ (forall x, started ops x -> knows h' x x).
Proof.
  revert h. induction ops as [|o ops IH]; intros h G Hs E; cbn [mruns] in E.
  - injection E as <-. split_and!; [done|done| |]; unfold seeded, started.
    + intros x s (l & Hl). by apply elem_of_nil in Hl.
    + intros x Hx. by apply elem_of_nil in Hx.
  - cbn [forallb] in Hs. apply andb_true_iff in Hs as [Ho Hs].
    destruct (mstep h o) as [h1|] eqn:E1; [|done]. cbn [mbind option_bind] in E.
    destruct (good_step _ _ _ G Ho E1) as (G1 & K1 & S1 & T1).
    destruct (IH h1 G1 Hs E) as (G2 & K2 & S2 & T2). split_and!; [done|auto| |].
    + intros x s (l & [El|Hl]%elem_of_cons); [|apply S2; by exists l]. apply K2. by eapply S1.
    + intros x [Ex|Hx]%elem_of_cons; [apply K2; by apply T1|by apply T2].
Qed.

Lemma settled_told h x y : settled h -> told h x y -> knows h x y.
Proof. intros Hs [H|(k & Hk & _)]; [done|]. rewrite Hs in Hk. by apply elem_of_nil in Hk. Qed.

Lemma nodes_started h z h0 ops :
  mruns h0 ops = Some h -> is_Some (h_nodes h !! z) -> is_Some (h_nodes h0 !! z) \/ MStart z ∈ ops.
Proof.
  revert h0. induction ops as [|o ops IH]; intros h0 E Hz; cbn [mruns] in E.
  - injection E as <-. by left.
  - destruct (mstep h0 o) as [h1|] eqn:E1; [|done]. cbn [mbind option_bind] in E.
    destruct (IH h1 E Hz) as [H1|H1]; [|right; by right].
    clear IH E Hz.
    assert (Hins : forall x0 m0 m1, h_nodes h0 !! x0 = Some m0 -> is_Some (<[x0:=m1]> (h_nodes h0) !! z) -> is_Some (h_nodes h0 !! z)).
    { intros x0 m0 m1 E0 H. destruct (decide (x0 = z)) as [->|]; [by eauto|by rewrite lookup_insert_ne in H]. }
    assert (Hdisc : forall fl x0 d l, discover (Mesh (h_nodes h0) fl) x0 d l = Some h1 -> is_Some (h_nodes h0 !! z)).
    { intros fl x0 d l E. unfold discover in E. cbn [h_nodes] in E. destruct (h_nodes h0 !! x0) eqn:E0; [|done]. cbn [mbind option_bind] in E.
      destruct (meet_nodes _ _ _ _ _). injection E as <-. cbn in H1. by eapply Hins. }
    destruct o as [x|x s l|i l down|i|x y|x y]; cbn [mstep] in E1.
    + destruct (h_nodes h0 !! x) eqn:Ex; [done|]. injection E1 as <-. cbn in H1.
      destruct (decide (x = z)) as [->|]; [right; left|left; by rewrite lookup_insert_ne in H1].
    + destruct (_ && _); [|done]. left. destruct h0. by eapply Hdisc.
    + destruct (h_flight h0 !! i); [|done]. cbn [mbind option_bind] in E1. destruct (bool_decide _); [|done]. left. by eapply Hdisc.
    + destruct (h_flight h0 !! i); [|done]. cbn [mbind option_bind] in E1. injection E1 as <-. by left.
    + destruct (h_nodes h0 !! x) eqn:Ex; [|done]. cbn [mbind option_bind] in E1. injection E1 as <-. left. by eapply Hins.
    + destruct (h_nodes h0 !! x) eqn:Ex; [|done]. cbn [mbind option_bind] in E1. injection E1 as <-. left. by eapply Hins.
Qed.

Lemma known_started ops h x y : mruns mesh_init ops = Some h -> knows h x y -> started ops x /\ started ops y.
Proof.
  intros E (m & Em & Hy). pose proof (wf_runs _ _ _ wf_init E) as [W _].
  assert (forall z, is_Some (h_nodes h !! z) -> started ops z) as Hz.
  { intros z Hz. destruct (nodes_started _ _ _ _ E Hz) as [[? H]|H]; [|done]. cbn in H. by rewrite lookup_empty in H. }
  split; apply Hz; [eauto|by eapply W].
Qed.

Lemma full_mesh ops h x y :
  mruns mesh_init ops = Some h -> forallb smooth ops = true -> settled h ->
  joined ops x y -> started ops x -> knows h x y.
Proof.
  intros E Hs Hset Hj Hst.
  destruct (good_runs _ _ _ good_init Hs E) as (G & _ & Hseed & Hself).
  assert (Hsym : forall a b, knows h a b -> knows h b a).
  { intros a b H. by apply settled_told, (good_back h G). }
  assert (Htrans : forall a b c, knows h a b -> knows h b c -> knows h a c).
  { intros a b c H1 H2. destruct (good_pair h G b a c) as [T|T]; [by apply Hsym|done| |].
    - by apply settled_told.
    - by apply Hsym, settled_told. }
  unfold joined in Hj. induction Hj as [x|x z y Hxz Hzy IH]; [by apply Hself|].
  assert (Hk : knows h x z).
  { destruct Hxz as [H|H]; [by apply Hseed|by apply Hsym, Hseed]. }
  eapply Htrans; [exact Hk|apply IH]. by apply (known_started _ _ _ _ E Hk).
Qed.

(** * The handshakes come to an end *)
(** How many pairs of nodes do not know each other. *)
Definition missing (h : mesh) : nat := sum_list_with (fun p => size (h_nodes h) - size (m_known p.2))%nat (map_to_list (h_nodes h)).

Lemma known_size h x m : wf h -> h_nodes h !! x = Some m -> (size (m_known m) <= size (h_nodes h))%nat.
Proof.
  intros [W _] E. rewrite <- (size_dom (h_nodes h)). apply subseteq_size. intros y Hy.
  apply elem_of_dom. by eapply W.
Qed.

Lemma sum_list_insert (f : N * mnode -> nat) (M : gmap N mnode) x m m' :
  M !! x = Some m ->
  (sum_list_with f (map_to_list (<[x:=m']> M)) + f (x, m) = sum_list_with f (map_to_list M) + f (x, m'))%nat.
Proof.
  intros E.
  assert (P1 : map_to_list (<[x:=m']> M) ≡ₚ (x, m') :: map_to_list (delete x M)).
  { rewrite <- insert_delete_insert. apply map_to_list_insert, lookup_delete. }
  assert (P2 : map_to_list M ≡ₚ (x, m) :: map_to_list (delete x M)).
  { rewrite <- (insert_delete M x m E) at 1. apply map_to_list_insert, lookup_delete. }
  assert (Hp : forall l1 l2, l1 ≡ₚ l2 -> sum_list_with f l1 = sum_list_with f l2).
  { intros l1 l2 H. induction H; cbn; lia. }
  rewrite (Hp _ _ P1), (Hp _ _ P2). cbn. lia.
Qed.

Lemma discover_missing h x down l h' :
  wf h -> (forall n, n ∈ l -> is_Some (h_nodes h !! n)) -> discover h x down l = Some h' ->
  (length (h_flight h') + missing h' = length (h_flight h) + missing h)%nat.
Proof.
  intros W Hl E. pose proof (wf_discover _ _ _ _ _ W Hl E) as [W' _]. unfold discover in E.
  destruct (h_nodes h !! x) as [m|] eqn:Ex; [|done]. cbn [mbind option_bind] in E.
  destruct (meet_nodes _ _ _ _ _) as [m' ks] eqn:Em. injection E as <-.
  apply meet_count in Em; [|set_solver]. unfold missing. cbn [h_nodes h_flight] in *.
  assert (Hsz : size (<[x:=m']> (h_nodes h)) = size (h_nodes h)).
  { rewrite map_size_insert, Ex. done. }
  rewrite Hsz. pose proof (known_size _ x m' W' ltac:(cbn; by rewrite lookup_insert)) as Hk'. cbn [h_nodes] in Hk'. rewrite Hsz in Hk'.
  pose proof (sum_list_insert (fun p => size (h_nodes h) - size (m_known p.2))%nat (h_nodes h) x m m' Ex) as Hsum.
  cbn [snd] in Hsum. rewrite app_length. lia.
Qed.

Lemma handle_missing h o h' : wf h -> handles o = true -> mstep h o = Some h' ->
  (S (length (h_flight h') + missing h') = length (h_flight h) + missing h)%nat.
Proof.
  intros W Ho E. destruct o as [| |i l down| | |]; try done. cbn [mstep] in E.
  destruct (h_flight h !! i) as [k|] eqn:Ek; [|done]. cbn [mbind option_bind] in E.
  destruct (bool_decide _) eqn:Eb; [|done]. apply bool_decide_eq_true in Eb.
  apply discover_missing in E.
  - cbn [h_nodes h_flight] in E. rewrite E. unfold missing. cbn [h_nodes].
    rewrite length_delete by eauto. apply lookup_lt_Some in Ek. lia.
  - destruct W as [W1 W2]. split; cbn [h_nodes h_flight]; [done|]. intros k' y Hk'. apply W2. by eapply elem_of_delete_list.
  - cbn [h_nodes]. intros n Hn. destruct W as [_ W2]. apply (W2 k); [by eapply elem_of_list_lookup_2|]. right.
    assert (n ∈ (list_to_set l : gset N)) as Hn' by by apply elem_of_list_to_set.
    rewrite Eb in Hn'. set_solver.
Qed.

Lemma handles_run h ops h' : wf h -> forallb handles ops = true -> mruns h ops = Some h' ->
  (length ops + length (h_flight h') + missing h' = length (h_flight h) + missing h)%nat.
Proof.
  revert h. induction ops as [|o ops IH]; intros h W Ho E; cbn [mruns] in E; [by injection E as <-|].
  cbn [forallb] in Ho. apply andb_true_iff in Ho as [Ho Ho'].
  destruct (mstep h o) as [h1|] eqn:E1; [|done]. cbn [mbind option_bind] in E.
  pose proof (handle_missing _ _ _ W Ho E1). pose proof (IH h1 (wf_step _ _ _ W E1) Ho' E). cbn. lia.
Qed.

Lemma missing_bound h : (missing h <= size (h_nodes h) * size (h_nodes h))%nat.
Proof.
  unfold missing. assert (forall l, (sum_list_with (fun p : N * mnode => size (h_nodes h) - size (m_known p.2)) l <= length l * size (h_nodes h))%nat) as H.
  { induction l as [|p l IH]; cbn; lia. }
  exact (H (map_to_list (h_nodes h))).
Qed.

(** Every handshake on its way can be handled. *)
Lemma handle_enabled h i k down : wf h -> h_flight h !! i = Some k ->
  exists h', mstep h (MHandle i (elements (k_nodes k ∖ {[ k_to k ]})) down) = Some h'.
Proof.
  intros [_ W2] Ek. cbn [mstep]. rewrite Ek. cbn [mbind option_bind].
  rewrite list_to_set_elements_L, bool_decide_eq_true_2 by done.
  unfold discover. cbn [h_nodes]. destruct (W2 k (k_to k)) as [m Em]; [by eapply elem_of_list_lookup_2|by left|].
  rewrite Em. cbn [mbind option_bind]. destruct (meet_nodes _ _ _ _ _). eauto.
Qed.

Lemma settles h : wf h -> exists ops h', forallb handles ops = true /\ forallb smooth ops = true /\ mruns h ops = Some h' /\ settled h'.
Proof.
  remember (length (h_flight h) + missing h)%nat as n eqn:En. revert h En.
  induction n as [n IH] using (well_founded_induction lt_wf). intros h En W.
  destruct (h_flight h) as [|k fl] eqn:Ef.
  - exists [], h. done.
  - destruct (handle_enabled h 0 k [] W) as [h1 E1]; [by rewrite Ef|].
    pose proof (handle_missing _ _ _ W (eq_refl true : handles (MHandle _ _ _) = true) E1) as Hm. rewrite Ef in Hm. cbn in Hm, En.
    destruct (IH (length (h_flight h1) + missing h1)%nat) with h1 as (ops & h' & H1 & H2 & H3 & H4); [lia|done|by eapply wf_step|].
    exists (MHandle 0 (elements (k_nodes k ∖ {[ k_to k ]})) [] :: ops), h'. split_and!; [| | |exact H4].
    + cbn. exact H1.
    + cbn [forallb smooth]. rewrite bool_decide_eq_true_2 by done. exact H2.
    + cbn [mruns]. rewrite E1. exact H3.
Qed.

(** * A lost handshake is not repeated *)
Lemma meet_nothing x down cur m l : (forall n, n ∈ l -> n ∈ cur) -> meet_nodes x down cur m l = (m, []).
Proof.
  revert m. induction l as [|n l IH]; intros m H; [done|]. cbn [meet_nodes].
  rewrite bool_decide_eq_true_2 by (apply H; left). cbn. apply IH. intros k Hk. apply H. by right.
Qed.

Definition again (x : N) (o : mop) : bool :=
  match o with MSeed y _ _ => (x =? y)%N | MDone _ _ => true | _ => false end.

Lemma again_runs h ops h' x : settled h -> (forall y, is_Some (h_nodes h !! y) -> knows h x y) ->
  forallb (again x) ops = true -> mruns h ops = Some h' ->
  settled h' /\ forall a b, knows h' a b <-> knows h a b.
Proof.
  revert h. induction ops as [|o ops IH]; intros h Hs Hk Ho E; cbn [mruns] in E; [by injection E as <-|].
  cbn [forallb] in Ho. apply andb_true_iff in Ho as [Ho Ho'].
  destruct (mstep h o) as [h1|] eqn:E1; [|done]. cbn [mbind option_bind] in E.
  assert (settled h1 /\ (forall a b, knows h1 a b <-> knows h a b) /\ (forall y, is_Some (h_nodes h1 !! y) -> is_Some (h_nodes h !! y))) as (S1 & K1 & D1).
  { clear IH E. destruct o as [y|y s l|i l down|i|y z|y z]; try done; cbn [mstep again] in *.
    - apply N.eqb_eq in Ho as <-. destruct (_ && _) eqn:Eb; [|done]. apply andb_true_iff in Eb as [_ Eb].
      unfold discover in E1. destruct (h_nodes h !! x) as [m|] eqn:Ex; [|done]. cbn [mbind option_bind] in E1.
      rewrite meet_nothing in E1.
      + injection E1 as <-. rewrite app_nil_r, insert_id by done. by destruct h.
      + intros n Hn. rewrite forallb_forall in Eb. specialize (Eb n). rewrite <- elem_of_list_In in Eb.
        apply Eb, bool_decide_eq_true, Hk in Hn. destruct Hn as (m0 & E0 & Hn). rewrite Ex in E0. by injection E0 as <-.
    - destruct (h_nodes h !! y) as [m|] eqn:Ex; [|done]. cbn [mbind option_bind] in E1. injection E1 as <-.
      split_and!; [done| |].
      + intros a b. rewrite knows_insert. cbn. split.
        * intros [[<- H]|[_ H]]; [by exists m|done].
        * intros H. destruct (decide (y = a)) as [<-|]; [left|by right]. split; [done|].
          destruct H as (m0 & E0 & H). rewrite Ex in E0. by injection E0 as <-.
      + cbn. intros a Ha. destruct (decide (y = a)) as [<-|]; [eauto|by rewrite lookup_insert_ne in Ha]. }
  destruct (IH h1 S1) as [S2 K2]; [|done|done|].
  - intros y Hy. apply K1, Hk, D1, Hy.
  - split; [done|]. intros a b. by rewrite K2.
Qed.
