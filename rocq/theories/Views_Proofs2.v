(** The list of actors keeps to the limits and to the tree. *)
From Verif Require Export Views_Spec.
From Verif Require ActorSys_Proofs.
Import ActorSys_Model ActorSys_Spec ActorSys_Proofs.

(** The result for one actor. *)
Definition result_of (o : options) (timeout : N) (depth : nat) (t : tree) : dresult :=
  snd (await_child timeout (tree_id t) (describe o depth t)).
Lemma result_cases o timeout depth t :
  (exists tm d, describe o depth t = Some (tm, OValue d) /\ result_of o timeout depth t = DOk d) \/
  result_of o timeout depth t = DErr (tree_id t) \/ result_of o timeout depth t = DTimeout (tree_id t).
Proof.
  unfold result_of, await_child. destruct (describe o depth t) as [[tm r]|]; [|by right; right].
  destruct (tm <=? timeout)%N; [|by right; right]. destruct r; [|by right; left|by right; left].
  left. by exists tm, d.
Qed.

(** What a described actor shows. *)
Lemma view_described o depth w id att re ch tm d : describe o depth (Tree id att re ch) = Some (tm, OValue d) ->
  exists rs, view_ok w d = Entry (w id).1 (full_path w id) StOk (map (view w) rs) /\
    rs = if below o depth then [] else map (result_of o (describe_timeout depth) (S depth)) (describable is_attached o ch).
Proof.
  rewrite describe_eq. destruct re as [| | |dl]; try done. destruct (below o depth).
  - intros [= _ <-]. by exists [].
  - intros [= _ <-]. eexists. split; [done|]. by rewrite map_map.
Qed.

Lemma describable_sublist o (ch : list tree) :
  describable is_attached o ch `sublist_of` List.filter (fun t => describe_attached o || negb (is_attached t)) ch.
Proof. unfold describable. destruct (max_children o); [apply sublist_take|done]. Qed.
Lemma flat_map_sublist {A B} (f : A -> list B) l1 l2 : l1 `sublist_of` l2 -> flat_map f l1 `sublist_of` flat_map f l2.
Proof.
  induction 1; simpl; [done| |].
  - by apply sublist_app.
  - by apply sublist_inserts_l.
Qed.
Lemma flat_map_filter {A B} (p : A -> bool) (f : A -> list B) l :
  flat_map f (List.filter p l) = flat_map (fun c => if p c then f c else []) l.
Proof. induction l as [|x l IH]; [done|]. simpl. destruct (p x); simpl; by rewrite IH. Qed.
Lemma fmap_flat_map {A B C} (g : B -> C) (f : A -> list B) l : g <$> flat_map f l = flat_map (fun x => g <$> f x) l.
Proof. induction l as [|x l IH]; [done|]. simpl. by rewrite fmap_app, IH. Qed.
Lemma flat_map_map {A B C} (g : A -> B) (f : B -> list C) l : flat_map f (map g l) = flat_map (fun x => f (g x)) l.
Proof. induction l as [|x l IH]; [done|]. simpl. by rewrite IH. Qed.
Lemma flat_map_pointwise {A B} (f g : A -> list B) l : (forall x, x ∈ l -> f x `sublist_of` g x) ->
  flat_map f l `sublist_of` flat_map g l.
Proof.
  induction l as [|x l IH]; intros H; simpl; [done|]. apply sublist_app; [apply H; constructor|].
  apply IH. intros y Hy. apply H. by constructor.
Qed.
Lemma flat_map_same {A B} (f g : A -> list B) l : (forall x, x ∈ l -> f x = g x) -> flat_map f l = flat_map g l.
Proof.
  induction l as [|x l IH]; intros H; simpl; [done|]. rewrite (H x) by constructor. f_equal.
  apply IH. intros y Hy. apply H. by constructor.
Qed.

Lemma failed_line w id : fst <$> lines (view w (DErr id)) = [full_path w id] /\
  fst <$> lines (view w (DTimeout id)) = [full_path w id].
Proof. done. Qed.
Lemma paths_head b w t : exists l, paths b w t = full_path w (tree_id t) :: l.
Proof. destruct t as [id att re ch]. by eexists. Qed.

Theorem listed_paths o t : forall timeout depth w,
  fst <$> lines (view w (result_of o timeout depth t)) `sublist_of` paths (describe_attached o) w t.
Proof.
  induction t as [id att re ch IH] using tree_ind'. intros timeout depth w.
  destruct (result_cases o timeout depth (Tree id att re ch)) as [(tm & d & Hd & ->)|[->| ->]].
  - destruct (view_described o depth w id att re ch tm d Hd) as (rs & Hv & Hrs).
    change (view w (DOk d)) with (view_ok w d). rewrite Hv. cbn [lines paths fmap list_fmap fst].
    apply sublist_skip. subst rs. destruct (below o depth); [apply sublist_nil_l|].
    rewrite fmap_flat_map, map_map, flat_map_map.
    etransitivity; [apply flat_map_sublist, describable_sublist|]. rewrite flat_map_filter.
    apply flat_map_pointwise. intros c Hc. rewrite Forall_forall in IH.
    destruct (describe_attached o || negb (is_attached c)); [|done]. by apply IH.
  - cbn [tree_id]. apply (sublist_skip _ [] _), sublist_nil_l.
  - cbn [tree_id]. apply (sublist_skip _ [] _), sublist_nil_l.
Qed.

Lemma levels_max es n : (forall e, e ∈ es -> (levels e <= n)%nat) ->
  (fold_right (fun c m => Nat.max (levels c) m) 0 es <= n)%nat.
Proof.
  induction es as [|e es IH]; intros H; simpl; [lia|].
  assert (levels e <= n)%nat by (apply H; constructor).
  assert (fold_right (fun c m => Nat.max (levels c) m) 0 es <= n)%nat by (apply IH; intros ? ?; apply H; by constructor). lia.
Qed.
Theorem listed_levels o m t : max_depth o = Some m -> forall timeout depth w,
  (levels (view w (result_of o timeout depth t)) <= Nat.max 1 (S m - depth))%nat.
Proof.
  intros Hm. induction t as [id att re ch IH] using tree_ind'. intros timeout depth w.
  destruct (result_cases o timeout depth (Tree id att re ch)) as [(tm & d & Hd & ->)|[->| ->]]; [|simpl; lia|simpl; lia].
  destruct (view_described o depth w id att re ch tm d Hd) as (rs & Hv & Hrs).
  change (view w (DOk d)) with (view_ok w d). rewrite Hv. cbn [levels].
  unfold below in Hrs. rewrite Hm in Hrs. destruct (m <? S depth)%nat eqn:Eb; subst rs; [simpl; lia|].
  apply Nat.ltb_ge in Eb.
  enough (fold_right (fun c m => Nat.max (levels c) m) 0
    (map (view w) (map (result_of o (describe_timeout depth) (S depth)) (describable is_attached o ch))) <= m - depth)%nat by lia.
  apply levels_max. intros e He. rewrite map_map in He. apply elem_of_list_fmap in He as (c & -> & Hc).
  apply describable_sub in Hc. rewrite Forall_forall in IH.
  specialize (IH c Hc (describe_timeout depth) (S depth) w). lia.
Qed.

Lemma narrow_all n es : (forall e, e ∈ es -> narrow n e) -> fold_right (fun c P => narrow n c /\ P) True es.
Proof.
  induction es as [|e es IH]; intros H; simpl; [done|]. split; [apply H; constructor|].
  apply IH. intros ? ?. apply H. by constructor.
Qed.
Theorem listed_narrow o n t : max_children o = Some n -> forall timeout depth w,
  narrow n (view w (result_of o timeout depth t)).
Proof.
  intros Hn. induction t as [id att re ch IH] using tree_ind'. intros timeout depth w.
  destruct (result_cases o timeout depth (Tree id att re ch)) as [(tm & d & Hd & ->)|[->| ->]];
    [|simpl; split; [lia|done]|simpl; split; [lia|done]].
  destruct (view_described o depth w id att re ch tm d Hd) as (rs & Hv & Hrs).
  change (view w (DOk d)) with (view_ok w d). rewrite Hv. cbn [narrow].
  destruct (below o depth); subst rs; [split; [simpl; lia|done]|]. rewrite !map_length. split.
  - pose proof (describable_length o ch) as H. by rewrite Hn in H.
  - apply narrow_all. intros e He. rewrite map_map in He. apply elem_of_list_fmap in He as (c & -> & Hc).
    apply describable_sub in Hc. rewrite Forall_forall in IH. by apply IH.
Qed.

(** * Completeness *)
Definition unlimited (o : options) : Prop := max_depth o = None /\ max_children o = None /\ describe_attached o = true.
Lemma describable_unlimited {A} (p : A -> bool) o l : unlimited o -> describable p o l = l.
Proof.
  intros (_ & H2 & H3). unfold describable. rewrite H2, H3. simpl. induction l as [|x l IH]; [done|]. simpl. by rewrite IH.
Qed.
Lemma complete_shown o t : unlimited o -> forall depth w, lines (view w (complete o depth t)) = shown w t.
Proof.
  intros Hu. induction t as [id att re ch IH] using tree_ind'. intros depth w. cbn [complete shown].
  destruct re as [| | |dl]; try done. unfold below. rewrite (proj1 Hu). rewrite describable_unlimited by done.
  rewrite map_map. cbn [snd]. cbn [view view_ok lines]. f_equal. rewrite map_map, flat_map_map.
  apply flat_map_same. intros c Hc. rewrite Forall_forall in IH. by apply IH.
Qed.
Theorem listed_complete o t m timeout depth w : unlimited o -> path_delay t = Some m -> (m <= 5000)%N -> (m <= timeout)%N ->
  lines (view w (result_of o timeout depth t)) = shown w t.
Proof.
  intros Hu Hm Hle Hto. destruct (describe_complete o t depth m Hm Hle) as (tm & r & Hd & Htm & Hr).
  rewrite <- (complete_shown o t Hu depth w), <- Hr. unfold result_of, await_child. rewrite Hd.
  replace (tm <=? timeout)%N with true by lia. done.
Qed.
