(** Runs keep handles and actors; where the remote system can be reached. *)
From Verif Require Import Handles_Spec Handles_Proofs.
Local Open Scope N_scope.

Lemma step_handles w o : exists l, w_handles (hstep w o).1 = w_handles w ++ l.
Proof.
  assert (H0 : exists l, w_handles w = w_handles w ++ l) by (exists []; by rewrite app_nil_r).
  assert (Hb : match o with HBuild h x => exists l, w_handles (hstep w (HBuild h x)).1 = w_handles w ++ l | _ => True end).
  { destruct o; try done. destruct (s_handle w h) as [s|] eqn:E; [|by rewrite no_build]. rewrite (step_build _ _ _ _ E).
    destruct (b_down w s); cbn [fst add_handle w_handles]; rewrite ?b_w9_handles, ?b_w10_handles; [done|by eexists]. }
  destruct o; cbn [hstep] in *.
  - by eexists.
  - destruct (s_handle w h); [by eexists|done].
  - exact Hb.
  - destruct (r_handle w h); [by eexists|done].
  - destruct (s_handle w h) as [s|]; [|done]. destruct (s_remote s); [by eexists|done].
  - destruct (living w a); [by eexists|done].
  - destruct (s_handle w h); [|done]. cbn [started fst]. by rewrite start_handles.
  - destruct (living w a); [|done]. cbn [started fst]. by rewrite start_handles.
  - destruct (r_handle w h); [|done]. cbn [started fst]. by rewrite start_handles.
  - destruct (r_handle w h); [|done]. cbn [started fst]. by rewrite start_handles.
  - destruct (living w a) as [x|]; [|done]. destruct (s_remote (a_sys x)); cbn [started fst with_actor w_handles]; by rewrite ?start_handles.
  - destruct (living w a) as [x|]; [|done]. by destruct (s_remote (a_sys x)).
  - destruct (living w a) as [y|]; [|done]. by destruct (a_store y).
  - destruct (living w a) as [y|]; [|done]. case_bool_decide; [|done]. cbn. by destruct (_ && _).
  - by destruct (s_handle w h).
  - by destruct (s_handle w h).
  - destruct (s_handle w h) as [s|]; [|done]. cbn. unfold shutdown. destruct (s_remote s), (c_down _); done.
Qed.

Lemma kept_start w s id t tr p : kept (w_actors w) (w_actors (start w s id t tr p).1).
Proof. rewrite start_actors. apply kept_app. Qed.

Lemma step_kept w o : kept (w_actors w) (w_actors (hstep w o).1).
Proof.
  pose proof (kept_refl (w_actors w)) as H0.
  assert (Hb : match o with HBuild h x => kept (w_actors w) (w_actors (hstep w (HBuild h x)).1) | _ => True end).
  { destruct o; try done. destruct (s_handle w h) as [s|] eqn:E; [|by rewrite no_build]. rewrite (step_build _ _ _ _ E).
    destruct (b_down w s); cbn [fst add_handle w_actors]; rewrite ?b_w9_actors, ?b_w10_actors; apply kept_app. }
  destruct o; cbn [hstep] in *.
  - done.
  - by destruct (s_handle w h).
  - exact Hb.
  - by destruct (r_handle w h).
  - destruct (s_handle w h) as [s|]; [|done]. by destruct (s_remote s).
  - by destruct (living w a).
  - destruct (s_handle w h); [|done]. apply kept_start.
  - destruct (living w a); [|done]. apply kept_start.
  - destruct (r_handle w h); [|done]. apply kept_start.
  - destruct (r_handle w h); [|done]. apply kept_start.
  - destruct (living w a) as [x|]; [|done].
    destruct (s_remote (a_sys x)).
    + eapply kept_trans; [|apply kept_start]. apply kept_start.
    + cbn [fst]. unfold with_actor; cbn [w_actors].
      eapply kept_trans; [apply (kept_start w (a_sys x) "session" (plain 0) false (Some a))|].
      eapply kept_trans; apply kept_alter; intros ??; apply same_dead.
  - destruct (living w a) as [x|]; [|done]. destruct (s_remote (a_sys x)); [done|].
    apply kept_alter; intros ??; apply same_dead.
  - destruct (living w a) as [y|]; [|done]. by destruct (a_store y).
  - destruct (living w a) as [y|]; [|done]. case_bool_decide; [|done]. cbn [fst].
    destruct (_ && _); apply (kept_fmap _ (end_in [a])), same_end.
  - by destruct (s_handle w h).
  - by destruct (s_handle w h).
  - destruct (s_handle w h) as [s|]; [|done]. cbn [fst]. unfold shutdown.
    match goal with |- context [if ?b then ?x else ?y] => set (w2 := if b then x else y) end.
    assert (H2 : kept (w_actors w) (w_actors w2)).
    { unfold w2. destruct (c_down _); [done|].
      apply (kept_fmap _ (end_in (map_to_list (c_map (core_of w (s_core s)))).*2)), same_end. }
    destruct (s_remote s) as [r|]; [|done]. eapply kept_trans; [exact H2|].
    apply (kept_fmap _ (end_in (service_list (r_services r)))), same_end.
Qed.

Lemma run_handles w l : exists l', w_handles (run hstep w l).1 = w_handles w ++ l'.
Proof.
  revert w. induction l as [|o l IH]; intros w; cbn [run]; [exists []; by rewrite app_nil_r|].
  destruct (step_handles w o) as [l1 H1]. destruct (hstep w o) as [w1 x]. cbn [fst] in H1.
  destruct (IH w1) as [l2 H2]. destruct (run hstep w1 l). cbn [fst] in *. rewrite H2, H1.
  exists (l1 ++ l2). by rewrite (assoc_L (++)).
Qed.
Lemma run_kept w l : kept (w_actors w) (w_actors (run hstep w l).1).
Proof.
  revert w. induction l as [|o l IH]; intros w; cbn [run]; [apply kept_refl|].
  pose proof (step_kept w o) as H1. destruct (hstep w o) as [w1 x]. cbn [fst] in H1.
  specialize (IH w1). destruct (run hstep w1 l). cbn [fst] in *. by eapply kept_trans.
Qed.
Lemma s_handle_later w l h s : s_handle w h = Some s -> s_handle (run hstep w l).1 h = Some s.
Proof.
  intros H. apply s_handle_lookup in H. destruct (run_handles w l) as [l' E].
  unfold s_handle. by rewrite E, (lookup_app_l_Some _ _ _ _ H).
Qed.

Lemma hrun_snoc l o : hrun (l ++ [o]) = ((hstep (hrun l).1 o).1, (hrun l).2 ++ [(hstep (hrun l).1 o).2]).
Proof.
  unfold hrun. rewrite run_app. destruct (run hstep world0 l) as [w rs]. cbn [run fst snd].
  by destruct (hstep w o).
Qed.

(** * Reaching the remote system *)
Section built.
Context (w : world) (h : nat) (n : N) (s : asys) (w1 : world) (k : nat).
Hypothesis (Hs : s_handle w h = Some s) (Hb : hstep w (HBuild h n) = (w1, RHandle k)).
Let K := length (w_actors w1).

Lemma built_handle : k = length (w_handles w) /\ w_handles w1 = w_handles w ++ [HR (b_r2 w s n)].
Proof.
  rewrite (step_build _ _ _ _ Hs) in Hb. destruct (b_down w s); [done|].
  injection Hb as <- <-. split; [done|]. cbn [add_handle w_handles]. by rewrite b_w10_handles.
Qed.

Lemma built_obeys : obeys (fun _ x => s_remote x = Some (b_r1 w s n)) (fun _ r => r = b_r2 w s n) k K w1.
Proof.
  destruct built_handle as [-> E]. split.
  - intros i x Hi Hx. rewrite E in Hx. apply lookup_app_Some in Hx as [Hx|[_ Hx]].
    + apply lookup_lt_Some in Hx. lia.
    + by apply list_lookup_singleton_Some in Hx as [_ ?].
  - intros i x Hi Hx. rewrite E in Hx. apply lookup_app_Some in Hx as [Hx|[_ Hx]].
    + apply lookup_lt_Some in Hx. lia.
    + by apply list_lookup_singleton_Some in Hx as [_ [= ->]].
  - intros i a Hi Ha. apply lookup_lt_Some in Ha. unfold K in Hi. lia.
Qed.

Lemma direct_obeys l : Forall (direct k K) l ->
  obeys (fun _ x => s_remote x = Some (b_r1 w s n)) (fun _ r => r = b_r2 w s n) k K (run hstep w1 l).1.
Proof.
  intros Hl. apply obeys_run; [done|done|..].
  - by intros _ r ->.
  - apply built_obeys.
  - eapply Forall_impl; [exact Hl|]. intros o [Hg Ho]. split; [done|]. by destruct o.
Qed.

Lemma direct_remote l a x : Forall (direct k K) l -> (K <= a)%nat -> living (run hstep w1 l).1 a = Some x ->
  s_remote (a_sys x) = Some (b_r1 w s n).
Proof. intros Hl Ha Hx. apply living_lookup in Hx as [Hx _]. exact (ob_a _ _ _ _ _ (direct_obeys l Hl) a x Ha Hx). Qed.
End built.

Lemma started_here w s id t tr p : t_persists t = false ->
  exists w', started (start w s id t tr p) (length (w_actors w)) = (w', RActor (length (w_actors w))) /\
  exists x, living w' (length (w_actors w)) = Some x /\ a_sys x = s.
Proof.
  intros Ht. exists (start w s id t tr p).1. unfold started. rewrite start_ok.
  assert (Hok : a_alive (new_one w s id t tr p) = true) by (unfold new_one; cbn [a_alive]; by rewrite Ht).
  rewrite Hok. split; [done|]. exists (new_one w s id t tr p). split; [|done].
  unfold living. rewrite start_actors, lookup_app_r by lia. rewrite Nat.sub_diag. cbn [lookup list_lookup].
  by rewrite Hok.
Qed.

Lemma use_dies w b x : living w b = Some x -> s_remote (a_sys x) = None ->
  (hstep w (HUse b)).2 = RPanic /\ living (hstep w (HUse b)).1 b = None.
Proof.
  intros Hx Hr. cbn [hstep]. rewrite Hx, Hr. split; [done|]. apply living_lookup in Hx as [Hx _].
  unfold living, with_actor; cbn [fst w_actors]. by rewrite list_lookup_alter, Hx.
Qed.
