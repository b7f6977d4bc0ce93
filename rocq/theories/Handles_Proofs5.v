(** Context ids; shutting down; the storage providers of persistent actors. *)
From Verif Require Import Handles_Spec Handles_Proofs Handles_Proofs2 Handles_Proofs3 Handles_Proofs4.
Local Open Scope N_scope.

(** * Context ids *)
Definition ctx_of (a : hactor) : N * N := (s_core (a_sys a), a_ctx a).
Definition ctxs (w : world) : list (N * N) := ctx_of <$> w_actors w.
Record apart (w : world) : Prop := {
  ap_nodup : NoDup (ctxs w);
  ap_next : forall c x, (c, x) ∈ ctxs w -> (N.to_nat c < length (w_cores w))%nat /\ x < c_next (core_of w c) }.

Lemma apart_same w w' : apart w -> ctxs w' = ctxs w -> (length (w_cores w) <= length (w_cores w'))%nat ->
  (forall c, (N.to_nat c < length (w_cores w))%nat -> c_next (core_of w' c) = c_next (core_of w c)) -> apart w'.
Proof.
  intros [H1 H2] E Hl Hn. split; rewrite E; [done|]. intros c x Hx. destruct (H2 _ _ Hx) as [H3 H4].
  split; [lia|]. by rewrite Hn.
Qed.

Lemma apart_start w s id t tr p : apart w -> (N.to_nat (s_core s) < length (w_cores w))%nat -> apart (start w s id t tr p).1.
Proof.
  intros [H1 H2] Hs.
  assert (E : ctxs (start w s id t tr p).1 = ctxs w ++ [(s_core s, c_next (core_of w (s_core s)))]).
  { unfold ctxs. rewrite start_actors, fmap_app. done. }
  assert (Hn : forall c, (N.to_nat c < length (w_cores w))%nat ->
    c_next (core_of (start w s id t tr p).1 c) = if bool_decide (s_core s = c) then c_next (core_of w c) + 1 else c_next (core_of w c)).
  { intros c Hc. rewrite start_core by done. case_bool_decide; [|done]. by destruct (_ && _). }
  split; rewrite E.
  - apply NoDup_app. split; [done|]. split; [|apply NoDup_singleton].
    intros [c x] Hx. rewrite elem_of_list_singleton. intros [= -> ->]. destruct (H2 _ _ Hx). lia.
  - intros c x. rewrite start_ncores, elem_of_app, elem_of_list_singleton. intros [Hx|[= -> ->]].
    + destruct (H2 _ _ Hx) as [H3 H4]. split; [done|]. rewrite Hn by done. case_bool_decide; lia.
    + split; [done|]. rewrite Hn, bool_decide_eq_true_2 by done. lia.
Qed.
Lemma apart_services w s l : apart w -> (N.to_nat (s_core s) < length (w_cores w))%nat -> apart (start_services w s l).
Proof.
  revert w. induction l as [|id l IH]; intros w Hw Hs; [done|].
  change (start_services w s (id :: l)) with (start_services (start w s id (plain 0) true None).1 s l).
  apply IH; [by apply apart_start|]. by rewrite start_ncores.
Qed.

Lemma ctx_alter (l : list hactor) (r : nat) f : (forall a, a ∈ l -> ctx_of (f a) = ctx_of a) -> ctx_of <$> alter f r l = ctx_of <$> l.
Proof.
  intros Hf. apply list_eq. intros i. rewrite !list_lookup_fmap.
  destruct (decide (i = r)) as [->|]; [|by rewrite list_lookup_alter_ne].
  rewrite list_lookup_alter. destruct (l !! r) as [a|] eqn:E; [|done]. cbn. rewrite Hf; [done|]. by eapply elem_of_list_lookup_2.
Qed.
Lemma ctxs_end (w : world) l : ctxs (end_under w l) = ctxs w.
Proof.
  unfold ctxs. rewrite end_under_actors. apply list_eq. intros i. rewrite !list_lookup_fmap.
  destruct (w_actors w !! i) as [a|]; [|done]. cbn. unfold end_in. by case_bool_decide.
Qed.

Lemma the_five_ctx w s n : ctx_of <$> the_five w s n = ctx_of <$> news w s service_names.
Proof.
  rewrite the_five_eq. unfold given. pose proof (news_sys w s service_names) as Hs. revert Hs. generalize (news w s service_names). intros l Hs.
  rewrite 3 ctx_alter by done. apply ctx_alter. intros a Ha. unfold ctx_of. cbn. by rewrite (Hs _ Ha).
Qed.

Lemma apart_build w h n : sane w -> apart w -> apart (hstep w (HBuild h n)).1.
Proof.
  intros Hw Ha. destruct (s_handle w h) as [s|] eqn:E; [|by rewrite no_build].
  destruct (sane_handle _ _ _ Hw E) as [_ Hs]. rewrite (step_build _ _ _ _ E).
  pose proof (apart_services w s service_names Ha Hs) as H5.
  assert (Ec : ctx_of <$> (w_actors w ++ the_five w s n) = ctxs (start_services w s service_names)).
  { unfold ctxs. rewrite services_actors, !fmap_app. by rewrite the_five_ctx. }
  assert (H9 : apart (b_w9 w s n)).
  { eapply apart_same; [exact H5|..].
    - unfold ctxs at 1. by rewrite b_w9_actors.
    - by rewrite services_ncores, b_w9_ncores.
    - intros c _. by rewrite b_w9_core. }
  destruct (b_down w s); [exact H9|]. cbn [fst].
  eapply apart_same; [exact H9|..].
  - unfold ctxs. cbn [add_handle w_actors]. by rewrite b_w10_actors, b_w9_actors.
  - cbn [add_handle w_cores]. by rewrite b_w10_ncores, b_w9_ncores.
  - intros c Hc. rewrite b_w9_ncores in Hc. change (core_of (add_handle (b_w10 w s n) (HR (b_r2 w s n))) c) with (core_of (b_w10 w s n) c).
    rewrite b_w10_core by done. by case_bool_decide.
Qed.

Lemma next_core w c d f : (forall x, c_next (f x) = c_next x) -> (N.to_nat d < length (w_cores w))%nat ->
  c_next (core_of (with_core w c f) d) = c_next (core_of w d).
Proof. intros Hf Hd. rewrite with_core_of by done. by case_bool_decide. Qed.

Lemma apart_step w o : sane w -> apart w -> apart (hstep w o).1.
Proof.
  intros Hw Ha. pose proof (apart_build w) as Hb.
  assert (Hst : forall s id t tr p, in_system (length (w_cores w)) s -> apart (start w s id t tr p).1) by (intros ? ? ? ? ? [_ ?]; by apply apart_start).
  destruct o.
  - eapply apart_same; [exact Ha|done|cbn; rewrite app_length; lia|]. intros c Hc. unfold core_of.
    change (w_cores (hstep w (HNew p)).1) with (w_cores w ++ [fresh_core]). by rewrite lookup_app_l.
  - cbn [hstep]. destruct (s_handle w h); [|done]. by eapply apart_same.
  - by apply Hb.
  - cbn [hstep]. destruct (r_handle w h); [|done]. by eapply apart_same.
  - cbn [hstep]. destruct (s_handle w h) as [s|]; [|done]. destruct (s_remote s); [|done]. by eapply apart_same.
  - cbn [hstep]. destruct (living w a); [|done]. by eapply apart_same.
  - cbn [hstep]. destruct (s_handle w h) eqn:E; [|done]. apply Hst. by eapply sane_handle.
  - cbn [hstep]. destruct (living w a) eqn:E; [|done]. apply Hst. by eapply sane_living.
  - cbn [hstep]. destruct (r_handle w h) eqn:E; [|done]. apply Hst. by eapply sane_rhandle.
  - cbn [hstep]. destruct (r_handle w h) eqn:E; [|done]. apply Hst. by eapply sane_rhandle.
  - cbn [hstep]. destruct (living w a) as [x|] eqn:E; [|done]. pose proof (sane_living _ _ _ Hw E) as Hx.
    pose proof (Hst (a_sys x) "session"%string (plain 0) false (Some a) Hx) as H1.
    destruct (s_remote (a_sys x)) as [y|] eqn:Ey.
    + cbn [started fst]. apply apart_start; [done|]. rewrite start_ncores.
      destruct (in_system_inner _ _ _ Hx Ey) as [[_ ?] _]. done.
    + cbn [fst]. eapply apart_same; [exact H1|..]; [|done|done].
      unfold ctxs, with_actor; cbn [w_actors]. by rewrite !ctx_alter.
  - cbn [hstep]. destruct (living w a) as [x|]; [|done]. destruct (s_remote (a_sys x)); [done|].
    cbn [fst]. eapply apart_same; [exact Ha|..]; [|done|done]. unfold ctxs, with_actor; cbn [w_actors]. by rewrite !ctx_alter.
  - cbn [hstep]. destruct (living w a) as [y|]; [|done]. destruct (a_store y); [|done]. by eapply apart_same.
  - cbn [hstep]. destruct (living w a) as [x|]; [|done]. case_bool_decide; [|done]. cbn [fst].
    assert (H1 : apart (end_under w [a])) by (eapply apart_same; [exact Ha|apply ctxs_end|done|done]).
    destruct (_ && _); [|done]. eapply apart_same; [exact H1|done|cbn; by rewrite alter_length|].
    intros c Hc. by apply next_core.
  - cbn [hstep]. by destruct (s_handle w h).
  - cbn [hstep]. by destruct (s_handle w h).
  - cbn [hstep]. destruct (s_handle w h) as [s|]; [|done]. cbn [fst]. unfold shutdown.
    assert (He : forall w l, apart w -> apart (end_under w l)).
    { intros w' l H'. eapply apart_same; [exact H'|apply ctxs_end|done|done]. }
    assert (Hc : forall w c f, (forall x, c_next (f x) = c_next x) -> apart w -> apart (with_core w c f)).
    { intros w' c f Hf H'. eapply apart_same; [exact H'|done|cbn; by rewrite alter_length|]. intros d Hd. by apply next_core. }
    destruct (c_down _), (s_remote s); auto.
Qed.

Lemma apart_hrun l : apart (hrun l).1.
Proof.
  induction l as [|o l IH] using rev_ind.
  - split; [apply NoDup_nil_2|]. intros c x H. by apply elem_of_nil in H.
  - rewrite hrun_snoc. apply apart_step; [apply sane_hrun|done].
Qed.

Lemma contexts_differ l a b x y : w_actors (hrun l).1 !! a = Some x -> w_actors (hrun l).1 !! b = Some y -> a <> b ->
  s_core (a_sys x) = s_core (a_sys y) -> a_ctx x <> a_ctx y.
Proof.
  intros Hx Hy Hab Hs Hc. destruct (apart_hrun l) as [H _]. apply Hab.
  apply (proj1 (NoDup_alt _) H a b (ctx_of x)); unfold ctxs; rewrite list_lookup_fmap, ?Hx, ?Hy; [done|].
  cbn. unfold ctx_of. congruence.
Qed.

(** * Shutting down *)
Lemma end_under_dead w l a : (exists x, w_actors w !! a = Some x /\ a_root x ∈ l) -> living (end_under w l) a = None.
Proof.
  intros (x & Hx & Hl). unfold living. rewrite end_under_actors, list_lookup_fmap, Hx. cbn.
  unfold end_in. by rewrite bool_decide_eq_true_2.
Qed.
Lemma end_under_stays w l a : living w a = None -> living (end_under w l) a = None.
Proof.
  unfold living. rewrite end_under_actors, list_lookup_fmap. destruct (w_actors w !! a) as [x|]; [|done]. cbn.
  unfold end_in. case_bool_decide; [done|]. by destruct (a_alive x).
Qed.
Lemma shutdown_remote w s r a : s_remote s = Some r -> (exists x, w_actors w !! a = Some x /\ a_root x ∈ service_list (r_services r)) ->
  living (shutdown w s) a = None.
Proof.
  intros Hr (x & Hx & Hl). unfold shutdown. rewrite Hr.
  match goal with |- context [end_under (if ?b then ?y else ?z) _] => set (w2 := if b then y else z) end.
  assert (H2 : exists y, w_actors w2 !! a = Some y /\ a_root y = a_root x).
  { unfold w2. destruct (c_down _); [by exists x|]. unfold with_core, end_under; cbn [w_actors].
    rewrite list_lookup_fmap, Hx. cbn. eexists; split; [done|]. by case_bool_decide. }
  destruct H2 as (y & Hy & E). apply end_under_dead. exists y. split; [done|]. by rewrite E.
Qed.
Lemma shutdown_tracked w s id a : c_down (core_of w (s_core s)) = false -> c_map (core_of w (s_core s)) !! id = Some a ->
  forall b x, w_actors w !! b = Some x -> a_root x = a -> living (shutdown w s) b = None.
Proof.
  intros Hd Hm b x Hx Hr. unfold shutdown. rewrite Hd.
  assert (H2 : living (with_core (end_under (with_core w (s_core s) set_term) (map_to_list (c_map (core_of w (s_core s)))).*2) (s_core s) set_down) b = None).
  { change (living (end_under (with_core w (s_core s) set_term) (map_to_list (c_map (core_of w (s_core s)))).*2) b = None).
    apply end_under_dead. exists x. split; [done|]. rewrite Hr. apply elem_of_list_fmap. exists (id, a). split; [done|].
    by apply elem_of_map_to_list. }
  destruct (s_remote s); [|done]. by apply end_under_stays.
Qed.
