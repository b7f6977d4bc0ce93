(** Paths of actors. *)
From Coq Require Import Ascii.
From Verif Require Import Paths_Model Paths_Spec.

Section proofs.
  Context (sys : string).
  Notation pstep := (pstep sys).
  Notation prun := (prun sys).

  (** Nothing that concerns the path changes, and what is set stays. *)
  Definition kept (a b : pactor) : Prop :=
    pa_id b = pa_id a /\ pa_path b = pa_path a /\ pa_origin b = pa_origin a /\
    (forall x, pa_below a = Some x -> pa_below b = Some x) /\ (pa_alive b = true -> pa_alive a = true).
  Lemma kept_refl a : kept a a.
  Proof. repeat split; auto. Qed.
  Lemma kept_trans a b c : kept a b -> kept b c -> kept a c.
  Proof. intros (H1 & H2 & H3 & H4 & H5) (G1 & G2 & G3 & G4 & G5). repeat split; [congruence|congruence|congruence|auto|auto]. Qed.
  Lemma kept_open p a : kept a (open p a).
  Proof. repeat split; auto. cbn. intros x E. by rewrite E. Qed.
  Lemma kept_child id r a : kept a (set_child id r a).
  Proof. repeat split; auto. Qed.

  Lemma insert_kept (s : list pactor) p a a' q x : s !! p = Some a -> kept a a' -> s !! q = Some x ->
    exists y, <[p := a']> s !! q = Some y /\ kept x y.
  Proof.
    intros Hp Hk Hq. destruct (decide (p = q)) as [<-|Hn].
    - exists a'. rewrite list_lookup_insert by (by eapply lookup_lt_Some). split; [done|]. congruence.
    - exists x. rewrite list_lookup_insert_ne by done. split; [done|apply kept_refl].
  Qed.

  Lemma step_kept s o q x : s !! q = Some x -> exists y, pstep s o !! q = Some y /\ kept x y.
  Proof.
    intros Hq. assert (Happ : forall l, exists y, (s ++ l) !! q = Some y /\ kept x y).
    { intros l. exists x. split; [by apply lookup_app_l_Some|apply kept_refl]. }
    assert (Hid : exists y, s !! q = Some y /\ kept x y) by (exists x; split; [done|apply kept_refl]).
    destruct o as [id|p id|p id|p c|p c|c|p id]; cbn [Paths_Model.pstep]; auto.
    - destruct (s !! p); auto.
    - destruct (s !! p) as [a|] eqn:Hp; auto. destruct (pa_alive a); auto. cbn zeta. destruct (pa_children a !! id).
      + eapply insert_kept; eauto using kept_open.
      + assert (Hk : kept a (set_child id (length s) (open (full_path a) a))) by eauto using kept_trans, kept_open, kept_child.
        destruct (insert_kept s p a _ q x Hp Hk Hq) as (y & Hy & Hky). exists y. split; [by apply lookup_app_l_Some|done].
    - destruct (s !! p) as [a|] eqn:Hp; auto. destruct (s !! c) as [b|]; auto. destruct (pa_alive a); auto.
      eapply insert_kept; eauto using kept_trans, kept_open, kept_child.
    - destruct (s !! p) as [a|] eqn:Hp; auto. destruct (s !! c) as [b|]; auto. destruct (pa_alive a); auto.
      eapply insert_kept; eauto using kept_trans, kept_open, kept_child.
    - destruct (s !! c) as [a|] eqn:Hc; auto. eapply insert_kept; eauto. repeat split; auto. done.
    - destruct (s !! p) as [a|] eqn:Hp; auto. eapply insert_kept; eauto. repeat split; auto.
  Qed.
  Lemma fold_kept ops s q x : s !! q = Some x -> exists y, fold_left pstep ops s !! q = Some y /\ kept x y.
  Proof.
    revert s x. induction ops as [|o ops IH]; intros s x Hq; simpl; [by eauto using kept_refl|].
    destruct (step_kept s o q x Hq) as (y & Hy & Hk). destruct (IH _ _ Hy) as (z & Hz & Hk'). eauto using kept_trans.
  Qed.
  Lemma prun_app l1 l2 : prun (l1 ++ l2) = fold_left pstep l2 (prun l1).
  Proof. apply fold_left_app. Qed.
  Lemma prun_kept l1 l2 q x : prun l1 !! q = Some x -> exists y, prun (l1 ++ l2) !! q = Some y /\ kept x y.
  Proof. rewrite prun_app. apply fold_kept. Qed.

  Lemma step_length s o : length s <= length (pstep s o) <= S (length s).
  Proof.
    destruct o; cbn [Paths_Model.pstep]; repeat case_match; cbn zeta; rewrite ?app_length, ?insert_length; cbn [length]; lia.
  Qed.

  (** An actor after a step was there before or is new. *)
  Definition new_at (s : list pactor) (o : pop) (y : pactor) : Prop :=
    match o with
    | PTop id => y = fresh id sys FromSystem
    | PSupervised p id => is_Some (s !! p) /\ y = fresh id sys (WithParent p)
    | PSpawn p id => exists a, s !! p = Some a /\ pa_alive a = true /\ y = fresh id (default (full_path a) (pa_below a)) (SpawnedBy p)
    | _ => False
    end.
  Lemma step_back s o q y : pstep s o !! q = Some y ->
    (exists x, s !! q = Some x /\ kept x y) \/ (q = length s /\ new_at s o y).
  Proof.
    intros H. destruct (s !! q) as [x|] eqn:Hq.
    { left. exists x. split; [done|]. destruct (step_kept s o q x Hq) as (y' & Hy & Hk). congruence. }
    right. apply lookup_ge_None in Hq. pose proof (step_length s o) as Hl.
    assert (q = length s) as -> by (apply lookup_lt_Some in H; lia). split; [done|].
    assert (Hs : forall y0, s !! length s = Some y0 -> False) by (intros ? ?%lookup_lt_Some; lia).
    assert (Hi : forall p a y0, <[p := a]> s !! length s = Some y0 -> False)
      by (intros p a ? E%lookup_lt_Some; rewrite insert_length in E; lia).
    destruct o as [id|p id|p id|p c|p c|c|p id]; cbn [Paths_Model.pstep new_at] in *.
    - rewrite lookup_app_r in H by lia. rewrite Nat.sub_diag in H. by simplify_eq/=.
    - destruct (s !! p) eqn:Hp; [|by destruct (Hs y)]. rewrite lookup_app_r in H by lia. rewrite Nat.sub_diag in H.
      by simplify_eq/=.
    - destruct (s !! p) as [a|] eqn:Hp; [|by destruct (Hs y)]. destruct (pa_alive a) eqn:Ha; [|by destruct (Hs y)].
      cbn zeta in H. destruct (pa_children a !! id); [by destruct (Hi _ _ _ H)|].
      rewrite lookup_app_r in H by (rewrite insert_length; lia). rewrite insert_length, Nat.sub_diag in H.
      exists a. by simplify_eq/=.
    - repeat case_match; first [by destruct (Hi _ _ _ H)|by destruct (Hs y)].
    - repeat case_match; first [by destruct (Hi _ _ _ H)|by destruct (Hs y)].
    - repeat case_match; first [by destruct (Hi _ _ _ H)|by destruct (Hs y)].
    - repeat case_match; first [by destruct (Hi _ _ _ H)|by destruct (Hs y)].
  Qed.

  (** What is set when a child comes. *)
  Lemma step_below s o p a : s !! p = Some a -> pa_below a = None -> exists b, pstep s o !! p = Some b /\
    (pa_below b = None \/
     (pa_alive a = true /\ takes_in p o /\ pa_below b = Some (full_path a)) \/ (pa_alive a = true /\ attaches p o /\ pa_below b = Some (pa_path a))).
  Proof.
    intros Hp Hn. pose proof (lookup_lt_Some _ _ _ Hp) as Hl.
    assert (Hsame : forall x, <[x := a]> s = s -> True) by done.
    destruct o as [id|q id|q id|q c|q c|c|q id]; cbn [Paths_Model.pstep takes_in attaches].
    - exists a. split; [by apply lookup_app_l_Some|by left].
    - destruct (s !! q); exists a; (split; [|by left]); [by apply lookup_app_l_Some|done].
    - destruct (decide (q = p)) as [->|Hne].
      + rewrite Hp. destruct (pa_alive a) eqn:Ha; [|by eauto]. cbn zeta. destruct (pa_children a !! id).
        * eexists. rewrite list_lookup_insert by done. split; [done|]. right. left. cbn. by rewrite Hn.
        * eexists. split; [apply lookup_app_l_Some; by rewrite list_lookup_insert by done|]. right. left. cbn. by rewrite Hn.
      + exists a. split; [|by left]. destruct (s !! q) as [x|]; [|done]. destruct (pa_alive x); [|done]. cbn zeta.
        destruct (pa_children x !! id); [by rewrite list_lookup_insert_ne by done|].
        apply lookup_app_l_Some. by rewrite list_lookup_insert_ne by done.
    - destruct (decide (q = p)) as [->|Hne].
      + rewrite Hp. destruct (s !! c); [|by eauto]. destruct (pa_alive a) eqn:Ha; [|by eauto].
        eexists. rewrite list_lookup_insert by done. split; [done|]. right. left. cbn. by rewrite Hn.
      + exists a. split; [|by left]. destruct (s !! q) as [x|]; [|done]. destruct (s !! c); [|done].
        destruct (pa_alive x); [|done]. by rewrite list_lookup_insert_ne by done.
    - destruct (decide (q = p)) as [->|Hne].
      + rewrite Hp. destruct (s !! c); [|by eauto]. destruct (pa_alive a) eqn:Ha; [|by eauto].
        eexists. rewrite list_lookup_insert by done. split; [done|]. right. right. cbn. by rewrite Hn.
      + exists a. split; [|by left]. destruct (s !! q) as [x|]; [|done]. destruct (s !! c); [|done].
        destruct (pa_alive x); [|done]. by rewrite list_lookup_insert_ne by done.
    - destruct (decide (c = p)) as [->|Hne].
      + rewrite Hp. eexists. rewrite list_lookup_insert by done. split; [done|by left].
      + exists a. split; [|by left]. destruct (s !! c); [|done]. by rewrite list_lookup_insert_ne by done.
    - destruct (decide (q = p)) as [->|Hne].
      + rewrite Hp. eexists. rewrite list_lookup_insert by done. split; [done|by left].
      + exists a. split; [|by left]. destruct (s !! q); [|done]. by rewrite list_lookup_insert_ne by done.
  Qed.

  (** Spawned children are below the path that was set. *)
  Definition inv (s : list pactor) : Prop := forall c x, s !! c = Some x ->
    match pa_origin x with
    | FromSystem => pa_path x = sys
    | WithParent p => pa_path x = sys /\ p < c
    | SpawnedBy p => p < c /\ exists a, s !! p = Some a /\ pa_below a = Some (pa_path x)
    end.
  Lemma inv_step s o : inv s -> inv (pstep s o).
  Proof.
    intros Hi c y Hc. destruct (step_back s o c y Hc) as [(x & Hx & (K1 & K2 & K3 & _))|[-> Hnew]].
    - specialize (Hi c x Hx). rewrite K3, K2. destruct (pa_origin x) as [|p|p]; try done.
      destruct Hi as (Hlt & a & Ha & Hb). split; [done|].
      destruct (step_kept s o p a Ha) as (b & Hb' & (_ & _ & _ & K & _)). exists b. auto.
    - destruct o as [id|p id|p id|?|?|?|?]; cbn [new_at] in Hnew; try done.
      + by subst y.
      + destruct Hnew as [[z Hz] ->]. cbn. split; [done|by eapply lookup_lt_Some].
      + destruct Hnew as (a & Ha & Hal & ->). cbn [fresh pa_origin pa_path]. split; [by eapply lookup_lt_Some|].
        cbn [Paths_Model.pstep] in Hc |- *. rewrite Ha, Hal in Hc |- *. cbn zeta in Hc |- *.
        destruct (pa_children a !! id).
        { apply lookup_lt_Some in Hc. rewrite insert_length in Hc. lia. }
        eexists. split; [apply lookup_app_l_Some; rewrite list_lookup_insert by (by eapply lookup_lt_Some); done|]. done.
  Qed.
  Lemma inv_run ops : inv (prun ops).
  Proof. induction ops as [|o ops IH] using rev_ind; [done|]. rewrite prun_app. by apply inv_step. Qed.

  Lemma str_app_cons c s t : (String c s ++ t)%string = String c (s ++ t).
  Proof. done. Qed.
  Lemma str_app_nil t : ("" ++ t)%string = t.
  Proof. done. Qed.
  Lemma str_app_length s t : String.length (s ++ t)%string = String.length s + String.length t.
  Proof. induction s as [|c s IH]; [done|]. rewrite str_app_cons. simpl. by rewrite IH. Qed.

  (** * The place of spawned children *)
  Lemma below_taken ops p a : Forall (fun o => ~ attaches p o) ops -> prun ops !! p = Some a ->
    pa_below a = None \/ pa_below a = Some (full_path a).
  Proof.
    revert a. induction ops as [|o ops IH] using rev_ind; intros a Hf Ha; [done|].
    apply Forall_app in Hf as [Hf Ho]; apply Forall_cons in Ho as [Ho _]. rewrite prun_app in Ha. cbn [fold_left] in Ha.
    destruct (step_back _ _ _ _ Ha) as [(x & Hx & K)|[_ Hnew]].
    - destruct (IH x Hf Hx) as [Hn|Hs].
      + destruct (step_below (prun ops) o p x Hx Hn) as (b & Hb & Hcase). assert (b = a) as -> by congruence.
        destruct Hcase as [?|[(_ & _ & ->)|(_ & Hat & _)]]; [by left| |by destruct (Ho Hat)].
        right. destruct K as (K1 & K2 & _). unfold full_path. by rewrite K1, K2.
      + right. destruct K as (K1 & K2 & _ & K4 & _). rewrite (K4 _ Hs). unfold full_path. by rewrite K1, K2.
    - left. destruct o; cbn [new_at] in Hnew; try done; [by subst a|by destruct Hnew as [_ ->]|by destruct Hnew as (? & _ & _ & ->)].
  Qed.
  Lemma below_attached ops p a : Forall (fun o => ~ takes_in p o) ops -> prun ops !! p = Some a ->
    pa_below a = None \/ pa_below a = Some (pa_path a).
  Proof.
    revert a. induction ops as [|o ops IH] using rev_ind; intros a Hf Ha; [done|].
    apply Forall_app in Hf as [Hf Ho]; apply Forall_cons in Ho as [Ho _]. rewrite prun_app in Ha. cbn [fold_left] in Ha.
    destruct (step_back _ _ _ _ Ha) as [(x & Hx & K)|[_ Hnew]].
    - destruct (IH x Hf Hx) as [Hn|Hs].
      + destruct (step_below (prun ops) o p x Hx Hn) as (b & Hb & Hcase). assert (b = a) as -> by congruence.
        destruct Hcase as [?|[(_ & Hat & _)|(_ & _ & ->)]]; [by left|by destruct (Ho Hat)|].
        right. destruct K as (K1 & K2 & _). by rewrite K2.
      + right. destruct K as (K1 & K2 & _ & K4 & _). rewrite (K4 _ Hs). by rewrite K2.
    - left. destruct o; cbn [new_at] in Hnew; try done; [by subst a|by destruct Hnew as [_ ->]|by destruct Hnew as (? & _ & _ & ->)].
  Qed.

  Theorem spawned_below l1 o l2 p a c x : Forall (fun o => ~ attaches p o) l1 -> takes_in p o ->
    prun l1 !! p = Some a -> pa_alive a = true -> (forall q d, o = PAdd q d -> is_Some (prun l1 !! d)) ->
    prun (l1 ++ o :: l2) !! c = Some x -> pa_origin x = SpawnedBy p ->
    exists b, prun (l1 ++ o :: l2) !! p = Some b /\ pa_path x = full_path b.
  Proof.
    intros Hf Ho Ha Hal Hadd Hx Hor. pose proof (inv_run (l1 ++ o :: l2) c x Hx) as Hi. rewrite Hor in Hi.
    destruct Hi as (_ & b & Hb & Hbel). exists b. split; [done|].
    assert (Hopen : exists b1, pstep (prun l1) o !! p = Some b1 /\ kept a b1 /\ pa_below b1 = Some (full_path a)).
    { destruct (step_kept (prun l1) o p a Ha) as (b1 & Hb1 & K). exists b1. split; [done|]. split; [done|].
      destruct (below_taken l1 p a Hf Ha) as [Hn|Hs]; [|by apply K].
      destruct o as [|?|q id|q d|?|?|?]; cbn [takes_in] in Ho; try done; subst q; cbn [Paths_Model.pstep] in Hb1.
      - rewrite Ha, Hal in Hb1. cbn zeta in Hb1. destruct (pa_children a !! id).
        + rewrite list_lookup_insert in Hb1 by (by eapply lookup_lt_Some). simplify_eq. cbn. by rewrite Hn.
        + rewrite lookup_app_l in Hb1 by (rewrite insert_length; by eapply lookup_lt_Some).
          rewrite list_lookup_insert in Hb1 by (by eapply lookup_lt_Some). simplify_eq. cbn. by rewrite Hn.
      - rewrite Ha in Hb1. destruct (Hadd p d eq_refl) as [z Hz]. rewrite Hz, Hal in Hb1.
        rewrite list_lookup_insert in Hb1 by (by eapply lookup_lt_Some). simplify_eq. cbn. by rewrite Hn. }
    destruct Hopen as (b1 & Hb1 & K & Hbel1).
    replace (l1 ++ o :: l2) with ((l1 ++ [o]) ++ l2) in Hb by (by rewrite <- app_assoc). rewrite prun_app in Hb.
    assert (E1 : prun (l1 ++ [o]) = pstep (prun l1) o) by (by rewrite prun_app). rewrite E1 in Hb.
    destruct (fold_kept l2 _ p b1 Hb1) as (b2 & Hb2 & K2). assert (b2 = b) as -> by congruence.
    pose proof (kept_trans _ _ _ K K2) as (G1 & G2 & _). destruct K2 as (_ & _ & _ & K4 & _).
    rewrite (K4 _ Hbel1) in Hbel. unfold full_path. rewrite G1, G2. by simplify_eq.
  Qed.

  Theorem spawned_beside l1 d l2 p a c x : Forall (fun o => ~ takes_in p o) l1 ->
    prun l1 !! p = Some a -> pa_alive a = true -> is_Some (prun l1 !! d) ->
    prun (l1 ++ PAttach p d :: l2) !! c = Some x -> pa_origin x = SpawnedBy p ->
    pa_path x = pa_path a /\ full_path x <> path_join (full_path a) (pa_id x).
  Proof.
    intros Hf Ha Hal [z Hz] Hx Hor. pose proof (inv_run _ c x Hx) as Hi. rewrite Hor in Hi.
    destruct Hi as (_ & b & Hb & Hbel).
    assert (E : pa_path x = pa_path a).
    { assert (Hopen : exists b1, pstep (prun l1) (PAttach p d) !! p = Some b1 /\ pa_below b1 = Some (pa_path a)).
      { cbn [Paths_Model.pstep]. rewrite Ha, Hz, Hal. rewrite list_lookup_insert by (by eapply lookup_lt_Some).
        eexists. split; [done|]. cbn. destruct (below_attached l1 p a Hf Ha) as [-> | ->]; done. }
      destruct Hopen as (b1 & Hb1 & Hbel1).
      replace (l1 ++ PAttach p d :: l2) with ((l1 ++ [PAttach p d]) ++ l2) in Hb by (by rewrite <- app_assoc). rewrite prun_app in Hb.
      assert (E1 : prun (l1 ++ [PAttach p d]) = pstep (prun l1) (PAttach p d)) by (by rewrite prun_app). rewrite E1 in Hb.
      destruct (fold_kept l2 _ p b1 Hb1) as (b2 & Hb2 & K2). assert (b2 = b) as -> by congruence.
      destruct K2 as (_ & _ & _ & K4 & _). rewrite (K4 _ Hbel1) in Hbel. by simplify_eq. }
    split; [done|]. unfold full_path, path_join. rewrite E. intros Heq.
    apply (f_equal String.length) in Heq. rewrite !str_app_length in Heq. simpl in Heq. lia.
  Qed.

  (** * Paths and ancestors *)
  Lemma no_slash_app s t : no_slash (s ++ String "/"%char t)%string -> False.
  Proof. induction s as [|c s IH]; [by intros [[] _]|]. rewrite str_app_cons. intros [_ H]. by apply IH. Qed.
  Lemma join_inj p1 p2 i1 i2 : no_slash i1 -> no_slash i2 -> path_join p1 i1 = path_join p2 i2 -> p1 = p2 /\ i1 = i2.
  Proof.
    intros H1 H2. unfold path_join. rewrite !str_app_cons, !str_app_nil.
    revert p2. induction p1 as [|c p1 IH]; intros [|d p2]; rewrite ?str_app_cons, ?str_app_nil.
    - by intros [= ->].
    - intros [= _ ->]. by destruct (no_slash_app p2 i2).
    - intros [= _ <-]. by destruct (no_slash_app p1 i1).
    - intros [= -> E]. by destruct (IH p2 E) as [-> ->].
  Qed.
  Lemma path_of_length name l : String.length name <= String.length (path_of name l).
  Proof.
    unfold path_of. revert name. induction l as [|i l IH]; intros name; simpl; [done|]. specialize (IH (path_join name i)).
    unfold path_join in IH at 1. rewrite str_app_length in IH. simpl in IH. lia.
  Qed.
  Lemma path_of_snoc name l i : path_of name (l ++ [i]) = path_join (path_of name l) i.
  Proof. unfold path_of. by rewrite fold_left_app. Qed.
  Lemma path_of_inj l1 l2 : Forall no_slash l1 -> Forall no_slash l2 -> path_of sys l1 = path_of sys l2 -> l1 = l2.
  Proof.
    assert (Hne : forall l i, sys = path_of sys (l ++ [i]) -> False).
    { intros l i E. rewrite path_of_snoc in E. pose proof (path_of_length sys l) as Hl. apply (f_equal String.length) in E.
      unfold path_join in E. rewrite str_app_length in E. simpl in E. lia. }
    revert l2. induction l1 as [|i l1 IH] using rev_ind; intros l2 H1 H2 E.
    - destruct l2 as [|j l2 _] using rev_ind; [done|]. by destruct (Hne l2 j).
    - destruct l2 as [|j l2 _] using rev_ind; [by destruct (Hne l1 i)|].
      apply Forall_app in H1 as [H1 Hi]; apply Forall_cons in Hi as [Hi _]. apply Forall_app in H2 as [H2 Hj]; apply Forall_cons in Hj as [Hj _].
      rewrite !path_of_snoc in E. destruct (join_inj _ _ _ _ Hi Hj E) as [E' ->]. by rewrite (IH l2 H1 H2 E').
  Qed.

  Lemma plain_origin ops c x p : Forall plain ops -> prun ops !! c = Some x -> pa_origin x <> WithParent p.
  Proof.
    revert x. induction ops as [|o ops IH] using rev_ind; intros x Hf Hx; [done|].
    apply Forall_app in Hf as [Hf Ho]; apply Forall_cons in Ho as [Ho _]. rewrite prun_app in Hx. cbn [fold_left] in Hx.
    destruct (step_back _ _ _ _ Hx) as [(y & Hy & (_ & _ & -> & _))|[_ Hnew]]; [by eapply IH|].
    destruct o; cbn [new_at plain] in *; try done; [by subst x|by destruct Hnew as (? & _ & _ & ->)].
  Qed.
  Theorem path_lineage ops c x l : Forall plain ops -> prun ops !! c = Some x -> lineage (prun ops) c l ->
    full_path x = path_of sys l.
  Proof.
    intros Hf Hx Hl. revert x Hx. induction Hl as [a x Hx Hor|a x p l Hx Hor Hp IH]; intros x' Hx'; assert (x' = x) as -> by congruence.
    - pose proof (inv_run ops a x Hx) as Hi. rewrite Hor in Hi. unfold full_path. by rewrite Hi.
    - destruct Hor as [Hor|Hor]; [|by destruct (plain_origin ops a x p Hf Hx)].
      pose proof (inv_run ops a x Hx) as Hi. rewrite Hor in Hi. destruct Hi as (_ & b & Hb & Hbel).
      rewrite path_of_snoc, <- (IH b Hb). unfold full_path at 1. f_equal.
      assert (Hna : Forall (fun o => ~ attaches p o) ops) by (eapply Forall_impl; [exact Hf|]; intros []; cbn [plain attaches]; tauto).
      destruct (below_taken ops p b Hna Hb) as [E|E]; congruence.
  Qed.
  Theorem lineage_exists ops c : c < length (prun ops) -> exists l, lineage (prun ops) c l.
  Proof.
    induction c as [c IH] using lt_wf_ind. intros Hc. destruct (lookup_lt_is_Some_2 _ _ Hc) as [x Hx].
    pose proof (inv_run ops c x Hx) as Hi. destruct (pa_origin x) as [|p|p] eqn:Hor.
    - exists [pa_id x]. by constructor.
    - destruct Hi as [_ Hlt]. destruct (IH p Hlt) as [l Hl]; [lia|]. exists (l ++ [pa_id x]). apply (LinChild _ _ _ p); auto.
    - destruct Hi as [Hlt _]. destruct (IH p Hlt) as [l Hl]; [lia|]. exists (l ++ [pa_id x]). apply (LinChild _ _ _ p); auto.
  Qed.
  Theorem path_unambiguous ops c1 c2 x1 x2 l1 l2 : Forall plain ops ->
    prun ops !! c1 = Some x1 -> prun ops !! c2 = Some x2 -> lineage (prun ops) c1 l1 -> lineage (prun ops) c2 l2 ->
    Forall no_slash l1 -> Forall no_slash l2 -> full_path x1 = full_path x2 -> l1 = l2.
  Proof.
    intros Hf H1 H2 L1 L2 N1 N2 E. rewrite (path_lineage ops c1 x1 l1 Hf H1 L1), (path_lineage ops c2 x2 l2 Hf H2 L2) in E.
    by apply path_of_inj.
  Qed.
End proofs.
