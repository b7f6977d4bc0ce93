(** What survives when the running version keeps the identifiers of the versions before it. *)
From Verif Require Import Upgrade_Model Upgrade_Spec Journal_Spec Journal_Proofs Upgrade_Proofs.
Local Open Scope Z_scope.

(** ** Acknowledged and kept *)

Definition ua_matches (a : uactual) (x : uexpected) : Prop :=
  ua_version a = ux_version x /\ ua_snapshot a = ux_snapshot x /\ ua_lost a ++ ua_kept a = ux_after x /\
  (ua_snapshot a = None -> ua_lost a = []).

Lemma ua_ux v pid h : ua_matches (does_survive v pid h) (must_survive v pid h).
Proof.
  unfold does_survive, must_survive.
  assert (G : forall a x, ua_matches a x -> ua_matches (fold_left (ua_step pid) h a) (fold_left (ux_step pid) h x)).
  { induction h as [|[[w|p o] r] h IH]; intros a x Hm; simpl; [done| |]; apply IH; clear IH;
      destruct a as [v1 sn lo ke fr], x as [v2 xs xa]; destruct Hm as (H1 & H2 & H3 & H4); simpl in *; subst.
    - by split_and!.
    - unfold ua_step, ux_step. simpl. destruct r as [r|]; [|by split_and!].
      destruct (decide (p = pid)); [|by split_and!].
      destruct o; simpl; try (by split_and!).
      + destruct r; try by split_and!. destruct xs as [xs|]; [destruct ke as [|k ke]; [destruct fr|]|];
          split_and!; simpl; rewrite ?app_nil_r; try done; by rewrite <-?(assoc_L (++)).
      + destruct r; try by split_and!. split_and!; simpl; try done. by rewrite (assoc_L (++)).
      + destruct r; by split_and!.
      + destruct r; try by split_and!. destruct b; by split_and!. }
  apply G. by split_and!.
Qed.

Lemma no_snapshots_ux v pid (h : list uevent) :
  (forall s b f r, ~ In (UCall pid (JSnapshot s b f), r) h) -> ux_snapshot (must_survive v pid h) = None.
Proof.
  unfold must_survive.
  assert (G : forall x, ux_snapshot x = None -> (forall s b f r, ~ In (UCall pid (JSnapshot s b f), r) h) ->
    ux_snapshot (fold_left (ux_step pid) h x) = None).
  { induction h as [|[[w|p o] r] h IH]; intros x Hx Hn; simpl; [done| |]; apply IH; try (by intros s b f r' H'; eapply Hn; right).
    - destruct x. done.
    - destruct x as [v2 xs xa]. unfold ux_step. simpl in *. destruct r as [r|]; [|done].
      destruct (decide (p = pid)) as [->|]; [|done]. destruct o; try done.
      + by destruct r.
      + by destruct r.
      + exfalso. apply (Hn s b fail (Some r)). by left.
      + destruct r as [| | |b| ]; try done. by destruct b. }
  intros H. by apply G.
Qed.

(** ** What was acknowledged was registered *)

Definition was_written (conf : versions) (vs : list nat) (part : jtypes -> regs) (pid : string) (u : umsg) : Prop :=
  In u.1.1 vs /\ exists i, In (u.1.2, i) (part (conf u.1.1 pid)) /\ written_as (part (conf u.1.1 pid)) u.1.2 = Some i.

Definition written_inv conf vs pid (s : usys) (x : uexpected) : Prop :=
  ux_version x = u_version s /\ In (u_version s) vs /\
  Forall (was_written conf vs jt_messages pid) (ux_after x) /\
  (forall u, ux_snapshot x = Some u -> was_written conf vs jt_snapshots pid u).

Lemma written_of conf vs part pid v m i b :
  In v vs -> reg_types (part (conf v pid)) !! m = Some i -> was_written conf vs part pid ((v, m), b).
Proof.
  intros Hv H. split; [done|]. exists i. cbn [fst snd]. rewrite written_as_reg. split; [by apply reg_types_in|done].
Qed.

Lemma written_step conf vs pid s x p o :
  written_inv conf vs pid s x ->
  written_inv conf vs pid (ustep conf s (UCall p o)).1 (ux_step pid x (UCall p o, (ustep conf s (UCall p o)).2)).
Proof.
  intros (H1 & H2 & H3 & H4). destruct x as [v xs xa]. cbn in H1, H3, H4. subst v. unfold ustep.
  destruct (jstep mem_storage (conf (u_version s)) (u_sys s) (p, o)) as [s' r] eqn:E. cbn [fst snd].
  unfold ux_step. cbn [fst snd].
  assert (Hsame : written_inv conf vs pid (USys (u_version s) s') (UExpected (u_version s) xs xa)) by (by split_and!).
  destruct (decide (p = pid)) as [->|]; [|done].
  unfold jstep in E. destruct o; try done.
  - destruct r; try done. destruct (js_journals (u_sys s) !! pid); [|done]. unfold persist_message in E.
    destruct (reg_types (jt_messages (conf (u_version s) pid)) !! m) as [i|] eqn:Ei; [|done].
    split_and!; [done|done| |done]. cbn. apply Forall_app. split; [done|]. constructor; [|constructor]. by eapply written_of.
  - destruct r; try done. destruct (js_journals (u_sys s) !! pid); [|done]. unfold persist_batch in E.
    destruct (batch_types (conf (u_version s)) pid l) as [es|] eqn:Ei; [|done].
    split_and!; [done|done| |done]. cbn. apply Forall_app. split; [done|]. unfold batch_types in Ei. apply mapM_Some in Ei.
    clear -Ei H2. induction Ei as [|[m b] [ty b'] l es Hx _ IH]; constructor; [|done]. cbn [fst snd] in *.
    destruct (reg_types (jt_messages (conf (u_version s) pid)) !! m) eqn:E; [|done]. by eapply written_of.
  - destruct r; try done. destruct (js_journals (u_sys s) !! pid); [|done]. unfold persist_snapshot in E.
    destruct (reg_types (jt_snapshots (conf (u_version s) pid)) !! s0) as [i|] eqn:Ei; [|done].
    split_and!; [done|done|constructor|]. cbn. intros u [= <-]. by eapply written_of.
  - destruct r as [| | |b| ]; try done. destruct b; [|done]. split_and!; [done|done|constructor|done].
Qed.

Lemma written_run conf vs pid h s x :
  Forall (fun y => match y with UBoot w => In w vs | UCall _ _ => True end) h ->
  written_inv conf vs pid s x ->
  written_inv conf vs pid (urun conf s h).1 (fold_left (ux_step pid) (combine h (urun conf s h).2) x).
Proof.
  unfold urun. revert s x. induction h as [|y h IH]; intros s x Hh H; [done|]. apply Forall_cons in Hh as [Hy Hh]. cbn [run].
  destruct y as [w|p o].
  - cbn [ustep]. specialize (IH (USys w (JSys (js_store (u_sys s)) ∅)) (ux_step pid x (UBoot w, None)) Hh).
    destruct (run (ustep conf) (USys w (JSys (js_store (u_sys s)) ∅)) h) as [s2 rs]. cbn [fst snd combine fold_left] in *.
    apply IH. destruct x as [v xs xa], H as (H1 & H2 & H3 & H4). by split_and!.
  - pose proof (written_step conf vs pid s x p o H) as Hs. destruct (ustep conf s (UCall p o)) as [s1 r1]. cbn [fst snd] in Hs.
    specialize (IH s1 _ Hh Hs). destruct (run (ustep conf) s1 h) as [s2 rs]. cbn [fst snd combine fold_left] in *. done.
Qed.

Lemma survives_written conf v h pid :
  let x := must_survive v pid (uhistory conf (u_init v) h) in
  Forall (was_written conf (versions_of v h) jt_messages pid) (ux_after x) /\
  (forall u, ux_snapshot x = Some u -> was_written conf (versions_of v h) jt_snapshots pid u).
Proof.
  cbn zeta. destruct (written_run conf (versions_of v h) pid h (u_init v) (UExpected v None [])) as (_ & _ & H3 & H4).
  - apply Forall_forall. intros y Hy. destruct y as [w|p o]; [|done]. right. apply elem_of_list_In. apply elem_of_list_omap.
    by exists (UBoot w).
  - split_and!; [done|by left|constructor|done].
  - by split.
Qed.

(** ** A version that keeps the identifiers sees everything *)

Definition as_read (r : nat -> N -> N) (u : umsg) : msg := (r u.1.1 u.1.2, u.2).

Lemma read_as_in r i m : In (m, i) r -> (forall m', In (m', i) r -> m' = m) -> read_as r i = Some m.
Proof.
  intros H1 H2. rewrite read_as_reg. destruct (reg_handlers_acc r ∅ i) as (m' & E & H); [eauto|].
  unfold reg_handlers. rewrite E. destruct H as [H|H]; [by rewrite (H2 m' H)|by rewrite lookup_empty in H].
Qed.

Lemma seen_kept conf part vs w pid r u :
  (forall v, In v vs -> keeps (r v) (part (conf v pid)) (part (conf w pid))) ->
  was_written conf vs part pid u -> seen_by conf part w pid u = Some (as_read r u).
Proof.
  intros Hk (Hv & i & Hin & Hw). unfold seen_by. rewrite Hw. destruct (Hk _ Hv _ _ Hin) as [H1 H2].
  by rewrite (read_as_in _ _ _ H1 H2).
Qed.

Lemma omap_all {A B} (f : A -> option B) (g : A -> B) l : Forall (fun x => f x = Some (g x)) l -> omap f l = map g l.
Proof.
  induction 1 as [|x l Hx _ IH]; [done|].
  change (omap f (x :: l)) with (match f x with Some y => y :: omap f l | None => omap f l end). rewrite Hx, IH. done.
Qed.

Lemma upgrade_kept conf v h pid r rs :
  let w := version_after v h in
  let a := does_survive v pid (uhistory conf (u_init v) h) in
  (forall u, In u (versions_of v h) -> keeps (r u) (jt_messages (conf u pid)) (jt_messages (conf w pid))) ->
  (forall u, In u (versions_of v h) -> keeps (rs u) (jt_snapshots (conf u pid)) (jt_snapshots (conf w pid))) ->
  (ustart_after conf v h pid ≫= recovered) = Some (as_read rs <$> ua_snapshot a, map (as_read r) (ua_kept a)).
Proof.
  cbn zeta. intros Hm Hs. rewrite upgrade_exact. destruct (survives_written conf v h pid) as [W1 W2].
  destruct (ua_ux v pid (uhistory conf (u_init v) h)) as (_ & E1 & E2 & _). f_equal. f_equal.
  - destruct (ua_snapshot (does_survive v pid (uhistory conf (u_init v) h))) as [u|]; [|done]. cbn [mbind option_bind fmap option_fmap option_map].
    eapply seen_kept; [exact Hs|]. apply W2. by rewrite <-E1.
  - apply omap_all. rewrite <-E2 in W1. apply Forall_app in W1 as [_ W1]. eapply Forall_impl; [exact W1|].
    intros u Hu. by eapply seen_kept.
Qed.

Lemma upgrade_all conf v h pid r :
  let w := version_after v h in
  no_snapshots pid h ->
  (forall u, In u (versions_of v h) -> keeps (r u) (jt_messages (conf u pid)) (jt_messages (conf w pid))) ->
  (ustart_after conf v h pid ≫= recovered) =
    Some (None, map (as_read r) (ux_after (must_survive v pid (uhistory conf (u_init v) h)))).
Proof.
  cbn zeta. intros Hn Hm. rewrite upgrade_exact. destruct (survives_written conf v h pid) as [W1 _].
  destruct (ua_ux v pid (uhistory conf (u_init v) h)) as (_ & E1 & E2 & E3).
  rewrite no_snapshots_ux in E1.
  2:{ intros s b f r0 H. apply in_combine_l in H. by eapply Hn. }
  rewrite E1. rewrite (E3 E1) in E2. cbn in E2. rewrite E2. f_equal. f_equal. apply omap_all. eapply Forall_impl; [exact W1|].
  intros u Hu. by eapply seen_kept.
Qed.
