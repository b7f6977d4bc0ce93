(** Singleton proxy: what happens to the requests. *)
From Verif Require Export Singleton_Model Singleton_Spec.

Section proxy.
Context {R A : Type}.
Implicit Types (v : pxsys (R := R) A) (l : list (pxop (R := R) A)).

Definition queue v : list (R * bool) := match v_state v with Some (XBuffered q) => q | _ => [] end.

Lemma drain_all (q : list (R * bool)) : (forall x, (x, false) ∉ q) -> drain q = (q.*1, true).
Proof.
  induction q as [|[x [|]] q IH]; intros H; simpl; [done| |].
  - rewrite IH; [done|]. intros z Hz. apply (H z). by right.
  - destruct (H x). by left.
Qed.

Lemma asked_snoc l o : asked (l ++ [o]) = asked l ++ asked [o].
Proof. unfold asked. apply omap_app. Qed.
Lemma pxrun_snoc l o : pxrun (l ++ [o]) = pxsys_step (pxrun l) o.
Proof. unfold pxrun. by rewrite fold_left_app. Qed.

(** Without notifications the proxy lives, and every request is in exactly one place. *)
Record kinv l v : Prop := {
  k_alive : v_state v <> None;
  k_reply : forall x, (x, false) ∉ queue v;
  k_lost : v_lost v = [];
  k_refused : v_refused v = [];
  k_places : (asked l).*1 ≡ₚ (v_done v).*1 ++ (v_tasks v).*1 ++ kept v;
  k_got : (v_done v).*1 = (v_got v).*1;
}.

Lemma kept_queue v : kept v = (queue v).*1.
Proof. unfold kept, queue. by destruct (v_state v) as [[q|r]|]. Qed.

Lemma kinv_run l : no_notifications l -> kinv l (pxrun l).
Proof.
  induction l as [|o l IH] using rev_ind; intros Hn.
  { split; try done; simpl; rewrite ?elem_of_nil; try done; by intros x ?%elem_of_nil. }
  assert (no_notifications l) as Hn'.
  { intros x Hx. apply (Hn x). rewrite asked_snoc, elem_of_app. by left. }
  destruct (IH Hn') as [K1 K2 K3 K4 K5 K6]. clear IH. rewrite pxrun_snoc.
  unfold no_notifications in Hn. rewrite asked_snoc in Hn.
  set (v := pxrun l) in *. rewrite kept_queue in K5. unfold queue in *.
  destruct o as [i|k a]; simpl.
  - destruct (v_state v) as [s|] eqn:Es; [|done].
    destruct i as [x b|r|], s as [q|r']; simpl in *.
    + assert (b = true) as -> by (destruct b; [done|]; destruct (Hn x); apply elem_of_app; right; by left).
      split; unfold kept, queue; simpl; rewrite ?app_nil_r; try done.
      * intros z [Hz|Hz%elem_of_list_singleton]%elem_of_app; [by destruct (K2 z)|done].
      * rewrite asked_snoc, !fmap_app. simpl. rewrite K5. by rewrite <-!app_assoc.
    + assert (b = true) as -> by (destruct b; [done|]; destruct (Hn x); apply elem_of_app; right; by left).
      split; unfold kept, queue; simpl; rewrite ?app_nil_r; try done.
      rewrite asked_snoc, !fmap_app. simpl. rewrite K5. simpl. rewrite ?app_nil_r. by rewrite <-!app_assoc.
    + rewrite (drain_all _ K2). simpl. split; unfold kept, queue; simpl; rewrite ?app_nil_r; try done.
      * intros z. by intros ?%elem_of_nil.
      * rewrite asked_snoc, !fmap_app. simpl. rewrite app_nil_r, K5. rewrite <-list_fmap_compose.
        by rewrite (list_fmap_id (q.*1)).
    + split; unfold kept, queue; simpl; rewrite ?app_nil_r; try done.
      rewrite asked_snoc, fmap_app. simpl. rewrite app_nil_r, K5. by rewrite app_nil_r.
    + split; unfold kept, queue; simpl; rewrite ?app_nil_r; try done.
      rewrite asked_snoc, fmap_app. simpl. by rewrite app_nil_r, K5.
    + split; unfold kept, queue; simpl; rewrite ?app_nil_r; try done.
      rewrite asked_snoc, fmap_app. simpl. rewrite app_nil_r, K5. by rewrite app_nil_r.
  - destruct (v_tasks v !! k) as [[x r]|] eqn:Ek.
    + split; unfold queue; simpl; try done.
      * rewrite asked_snoc, !fmap_app. simpl. rewrite app_nil_r, K5, kept_queue. unfold queue. simpl.
        rewrite <-app_assoc. f_equiv. simpl.
        rewrite (delete_Permutation _ _ _ Ek) at 1. done.
      * rewrite !fmap_app. simpl. by rewrite K6.
    + split; try done. rewrite asked_snoc, !fmap_app. simpl. by rewrite app_nil_r, K5, kept_queue.
Qed.

(** In turn: the singleton receives them in the order in which they were made. *)
Lemma in_turn_run l : no_notifications l -> in_turn l ->
  (asked l).*1 = (v_got (pxrun l)).*1 ++ (v_tasks (pxrun l)).*1 ++ kept (pxrun l).
Proof.
  induction l as [|o l IH] using rev_ind; intros Hn Ht; [done|].
  assert (no_notifications l) as Hn'.
  { intros x Hx. apply (Hn x). rewrite asked_snoc, elem_of_app. by left. }
  unfold in_turn in *. apply Forall_app in Ht as [Ht Ho]. apply Forall_cons in Ho as [Ho _].
  specialize (IH Hn' Ht). destruct (kinv_run l Hn') as [K1 K2 _ _ _ _].
  unfold no_notifications in Hn. rewrite asked_snoc in Hn.
  rewrite pxrun_snoc, asked_snoc, fmap_app, IH. clear IH. set (v := pxrun l) in *.
  rewrite !kept_queue. unfold queue in *.
  destruct o as [i|k a]; simpl.
  - destruct (v_state v) as [s|] eqn:Es; [|done].
    destruct i as [x b|r|], s as [q|r'].
    + destruct b; simpl; rewrite app_nil_r, fmap_app, <-!app_assoc; done.
    + assert (b = true) as -> by (destruct b; [done|]; destruct (Hn x); apply elem_of_app; right; by left).
      simpl. rewrite fmap_app. by rewrite !app_nil_r, <-!app_assoc.
    + simpl in *. rewrite (drain_all _ K2). simpl. rewrite fmap_app. rewrite !app_nil_r.
      rewrite <-list_fmap_compose. by rewrite (list_fmap_id (q.*1)).
    + simpl. by rewrite !app_nil_r.
    + simpl. by rewrite !app_nil_r.
    + simpl. by rewrite !app_nil_r.
  - rewrite app_nil_r. rewrite Ho. destruct (v_tasks v) as [|[x r] tl] eqn:Ek; simpl; [by rewrite Ek|].
    rewrite fmap_app, <-app_assoc. done.
Qed.

(** Once the singleton is known nothing is kept back. *)
Lemma active_empty v r : v_state v = Some (XActive r) -> kept v = [].
Proof. unfold kept. by intros ->. Qed.

(** A gone proxy stays gone and refuses everything. *)
Lemma gone v l : v_state v = None ->
  v_state (fold_left pxsys_step l v) = None /\
  v_refused (fold_left pxsys_step l v) = v_refused v ++ (asked l).*1.
Proof.
  revert v. induction l as [|o l IH]; intros v Hv; simpl; [by rewrite app_nil_r|].
  destruct o as [i|k a].
  - simpl. rewrite Hv. destruct (IH (PXSys None (v_tasks v) (v_done v) (v_got v) (v_lost v)
      (v_refused v ++ match i with XDeliver x _ => [x] | _ => [] end)) eq_refl) as [-> ->].
    split; [done|]. cbn [v_refused]. rewrite <-app_assoc. f_equal. destruct i; done.
  - simpl. destruct (v_tasks v !! k) as [[x r]|] eqn:E.
    + destruct (IH (PXSys (v_state v) (delete k (v_tasks v)) (v_done v ++ [(x, a)])
        (v_got v ++ [(x, r)]) (v_lost v) (v_refused v)) Hv) as [-> ->]. done.
    + by apply IH.
Qed.

(** A notification is never delivered: sent while the singleton is known, it ends the proxy;
    kept, it ends the proxy when the singleton starts, and is lost with what was queued
    behind it. *)
Lemma notify_active v r x :
  v_state v = Some (XActive r) ->
  v_state (pxsys_step v (VInput (XDeliver x false))) = None /\
  v_tasks (pxsys_step v (VInput (XDeliver x false))) = v_tasks v /\
  v_lost (pxsys_step v (VInput (XDeliver x false))) = v_lost v ++ [x].
Proof. intros H. simpl. rewrite H. simpl. by rewrite app_nil_r. Qed.

Lemma drain_stops (q1 q2 : list (R * bool)) x :
  (forall z, (z, false) ∉ q1) -> drain (q1 ++ (x, false) :: q2) = (q1.*1, false).
Proof.
  induction q1 as [|[z [|]] q1 IH]; intros H; simpl; [done| |].
  - rewrite IH; [done|]. intros y Hy. apply (H y). by right.
  - destruct (H z). by left.
Qed.

Lemma notify_kept v q1 x q2 r :
  v_state v = Some (XBuffered (q1 ++ (x, false) :: q2)) -> (forall z, (z, false) ∉ q1) ->
  let v' := pxsys_step v (VInput (XStarted r)) in
  v_state v' = None /\ v_tasks v' = v_tasks v ++ ((fun z => (z, r)) <$> q1.*1) /\
  v_lost v' = v_lost v ++ x :: q2.*1.
Proof.
  intros H Hq. simpl. rewrite H. simpl. rewrite (drain_stops _ _ _ Hq). simpl. split; [done|]. split; [done|].
  f_equal. rewrite fmap_app. rewrite !fmap_length. rewrite drop_app_alt; [done|]. by rewrite fmap_length.
Qed.
(** The proxy knows the singleton it was told of last, and hands requests to no other. *)
Lemma last_told_snoc l o : last_told (l ++ [o]) = match o with VInput (XStarted r) => Some r | _ => last_told l end.
Proof. unfold last_told. by rewrite fold_left_app. Qed.

Lemma active_last l r : v_state (pxrun l) = Some (XActive r) -> last_told l = Some r.
Proof.
  revert r. induction l as [|o l IH] using rev_ind; intros r; [done|].
  rewrite pxrun_snoc, last_told_snoc. set (v := pxrun l) in *.
  destruct o as [i|k a]; simpl.
  - destruct (v_state v) as [s|] eqn:Es; [|done].
    destruct i as [x [|]|r'|], s as [q|r0]; simpl; intros H; simplify_eq; try by apply IH.
    + destruct (drain q) as [l0 ok]. simpl in H. destruct ok; by simplify_eq.
    + done.
  - intros H. apply IH. destruct (v_tasks v !! k) as [[x r0]|]; done.
Qed.

Lemma handed_last l i : exists new,
  v_tasks (pxrun (l ++ [VInput i])) = v_tasks (pxrun l) ++ new /\
  forall x r, (x, r) ∈ new -> last_told (l ++ [VInput i]) = Some r.
Proof.
  rewrite pxrun_snoc, last_told_snoc. cbn [pxsys_step].
  destruct (v_state (pxrun l)) as [s|] eqn:Es.
  2: { exists []. simpl. rewrite app_nil_r. split; [done|]. by intros x r ?%elem_of_nil. }
  destruct (pxstep s i) as [s' out] eqn:Ep. exists out. split; [done|]. intros x r Hx.
  destruct i as [y [|]|r'|], s as [q|r0]; simpl in Ep; simplify_eq; try by apply elem_of_nil in Hx.
  - apply elem_of_list_singleton in Hx. simplify_eq. by apply active_last.
  - destruct (drain q) as [l0 ok]. simplify_eq.
    apply elem_of_list_fmap in Hx as (z & [= _ ->] & _). done.
Qed.
End proxy.
