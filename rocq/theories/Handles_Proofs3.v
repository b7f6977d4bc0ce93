(** What the handles of one system share, and the storage its actors use. *)
From Verif Require Import Handles_Spec Handles_Proofs Handles_Proofs2.
Local Open Scope N_scope.

(** * Every handle and context belongs to a system that exists *)
Fixpoint within (c : N) (s : asys) : Prop :=
  let 'ASys d _ r := s in d = c /\ match r with Some (RSys _ _ s') => within c s' | None => True end.
Definition in_system (n : nat) (s : asys) : Prop := within (s_core s) s /\ (N.to_nat (s_core s) < n)%nat.
Definition sane (w : world) : Prop := obeys in_system (fun n r => in_system n (r_actor_system r)) 0 0 w.

Lemma in_system_inner n s r : in_system n s -> s_remote s = Some r -> in_system n (r_actor_system r) /\ s_core (r_actor_system r) = s_core s.
Proof.
  destruct s as [c p [[m v s']|]]; [|done]. intros [[_ H] Hn] [= <-]. cbn in *.
  assert (E : s_core s' = c) by (destruct s' as [d q x]; cbn in *; by destruct H).
  split; [|done]. split; rewrite E; done.
Qed.

Lemma sane_step w o : sane w -> sane (hstep w o).1.
Proof.
  intros Hw. apply obeys_step; [..|done|].
  - intros n m s Hn [H1 H2]. split; [done|lia].
  - intros n m s Hn [H1 H2]. split; [done|lia].
  - done.
  - split; [destruct o; cbn; lia|]. destruct o; cbn; try done.
    + intros n. split; [done|]. cbn. lia.
    + intros n [c q [r|]] H; exact H.
    + intros n' v s Hn. assert (H1 : in_system n' (to_remote s (RSys n v s))).
      { destruct s as [c q x]. destruct Hn as [[_ H] Hlt]. split; [|done]. cbn in *. done. }
      split; [done|]. done.
    + intros n s r H Hr. by apply (in_system_inner n s r).
    + intros n s r H Hr. by apply (in_system_inner n s r).
Qed.
Lemma sane_run w l : sane w -> sane (run hstep w l).1.
Proof.
  revert w. induction l as [|o l IH]; intros w Hw; [done|]. cbn [run].
  pose proof (sane_step w o Hw) as H1. destruct (hstep w o) as [w1 x]. cbn [fst] in H1.
  specialize (IH w1 H1). by destruct (run hstep w1 l).
Qed.
Lemma sane_hrun l : sane (hrun l).1.
Proof. apply sane_run. split; intros i ? _ H; done. Qed.

Lemma sane_handle w h s : sane w -> s_handle w h = Some s -> in_system (length (w_cores w)) s.
Proof. intros Hw H. apply s_handle_lookup in H. eapply (ob_s _ _ _ _ _ Hw h s); [lia|done]. Qed.
Lemma sane_rhandle w h r : sane w -> r_handle w h = Some r -> in_system (length (w_cores w)) (r_actor_system r).
Proof. intros Hw H. apply r_handle_lookup in H. eapply (ob_r _ _ _ _ _ Hw h r); [lia|done]. Qed.
Lemma sane_living w a x : sane w -> living w a = Some x -> in_system (length (w_cores w)) (a_sys x).
Proof. intros Hw H. apply living_lookup in H as [H _]. eapply (ob_a _ _ _ _ _ Hw a x); [lia|done]. Qed.

Lemma derived_handle w o k : sane w -> (hstep w o).2 = RHandle k ->
  match o with HNew _ => True | _ => exists c x, source w o = Some c /\ w_handles (hstep w o).1 !! k = Some x /\ handle_system x = c end.
Proof.
  intros Hw.
  assert (Hb : match o with HBuild h n => (hstep w (HBuild h n)).2 = RHandle k -> exists c x, s_core <$> s_handle w h = Some c /\
    w_handles (hstep w (HBuild h n)).1 !! k = Some x /\ handle_system x = c | _ => True end).
  { destruct o; try done. destruct (s_handle w h) as [s|] eqn:E; [|by rewrite no_build]. rewrite (step_build _ _ _ _ E).
    destruct (b_down w s); [done|]. intros [= <-]. eexists _, _. split; [done|]. cbn [fst add_handle w_handles].
    rewrite b_w10_handles, lookup_app_r, Nat.sub_diag by lia. done. }
  destruct o; cbn [hstep source] in *; try done.
  - destruct (s_handle w h) as [s|] eqn:E; [|done]. intros [= <-]. eexists _, _. split; [done|].
    cbn. rewrite lookup_app_r, Nat.sub_diag by lia. done.
  - destruct (r_handle w h) as [r|] eqn:E; [|done]. intros [= <-]. eexists _, _. split; [done|].
    cbn. rewrite lookup_app_r, Nat.sub_diag by lia. done.
  - destruct (s_handle w h) as [s|] eqn:E; [|done]. destruct (s_remote s) as [r|] eqn:Er; [|done].
    intros [= <-]. eexists _, _. split; [done|].
    cbn. rewrite lookup_app_r, Nat.sub_diag by lia. split; [done|]. cbn.
    by apply (in_system_inner _ _ _ (sane_handle _ _ _ Hw E)).
  - destruct (living w a) as [s|] eqn:E; [|done]. intros [= <-]. eexists _, _. split; [done|].
    cbn. rewrite lookup_app_r, Nat.sub_diag by lia. done.
  - destruct (s_handle w h); [|done]. unfold started. cbn [snd]. by destruct (start _ _ _ _ _ _).2.
  - destruct (living w a); [|done]. unfold started. cbn [snd]. by destruct (start _ _ _ _ _ _).2.
  - destruct (r_handle w h); [|done]. unfold started. cbn [snd]. by destruct (start _ _ _ _ _ _).2.
  - destruct (r_handle w h); [|done]. unfold started. cbn [snd]. by destruct (start _ _ _ _ _ _).2.
  - destruct (living w a) as [x|]; [|done]. destruct (s_remote (a_sys x)); [|done]. unfold started. cbn [snd]. by destruct (start _ _ _ _ _ _).2.
  - destruct (living w a) as [x|]; [|done]. by destruct (s_remote (a_sys x)).
  - destruct (living w a) as [x'|]; [|done]. by destruct (a_store x').
  - destruct (living w a); [|done]. by case_bool_decide.
  - by destruct (s_handle w h).
  - by destruct (s_handle w h).
  - by destruct (s_handle w h).
Qed.

(** * What operations do to what the handles share *)
#[local] Transparent start.
Lemma start_core w s id t tr p d : (N.to_nat d < length (w_cores w))%nat ->
  core_of (start w s id t tr p).1 d =
  if bool_decide (s_core s = d) then
    if tr && negb (c_down (core_of w d)) then enlist id (length (w_actors w)) (bump (core_of w d)) else bump (core_of w d)
  else core_of w d.
Proof.
  intros Hd. unfold start. cbn [fst].
  set (w1 := with_core (add_actor w _) _ bump).
  assert (H1 : core_of w1 d = if bool_decide (s_core s = d) then bump (core_of w d) else core_of w d).
  { unfold w1. by rewrite with_core_of. }
  assert (Hn : length (w_cores w1) = length (w_cores w)) by (unfold w1; cbn; by rewrite alter_length).
  case_bool_decide as E.
  - subst d. destruct (tr && _); [|done]. rewrite with_core_of by (rewrite Hn; done). rewrite bool_decide_eq_true_2 by done. by rewrite H1.
  - destruct (tr && _); [|done]. rewrite with_core_of by (rewrite Hn; done). rewrite bool_decide_eq_false_2 by done. by rewrite H1.
Qed.

#[local] Opaque start.
(** The system [d] is as before as far as the id [id] and being shut down go. *)
Definition unmoved (d : N) (id : string) (w w' : world) : Prop :=
  c_map (core_of w' d) !! id = c_map (core_of w d) !! id /\
  c_down (core_of w' d) = c_down (core_of w d) /\ c_term (core_of w' d) = c_term (core_of w d).
Lemma unmoved_refl d id w : unmoved d id w w.
Proof. done. Qed.
Lemma unmoved_trans d id w1 w2 w3 : unmoved d id w1 w2 -> unmoved d id w2 w3 -> unmoved d id w1 w3.
Proof. intros (?&?&?) (?&?&?). repeat split; congruence. Qed.
Lemma unmoved_cores d id w w' : w_cores w' = w_cores w -> unmoved d id w w'.
Proof. intros E. unfold unmoved, core_of. by rewrite E. Qed.

Lemma unmoved_start d id w s id' t tr p : (N.to_nat d < length (w_cores w))%nat -> (tr = true -> id' <> id) ->
  unmoved d id w (start w s id' t tr p).1.
Proof.
  intros Hd Hi. unfold unmoved. rewrite start_core by done. case_bool_decide; [|done].
  destruct tr; cbn [andb]; [|done]. destruct (negb _); [|done]. cbn.
  split; [|done]. apply lookup_insert_ne. by apply Hi.
Qed.

Lemma unmoved_services d id w s l : (N.to_nat d < length (w_cores w))%nat -> id ∉ l -> unmoved d id w (start_services w s l).
Proof.
  revert w. induction l as [|x l IH]; intros w Hd Hi; [done|].
  rewrite not_elem_of_cons in Hi. destruct Hi as [Hx Hi].
  change (start_services w s (x :: l)) with (start_services (start w s x (plain 0) true None).1 s l).
  eapply unmoved_trans; [|apply IH; [by rewrite start_ncores|done]]. apply unmoved_start; [done|]. intros _ ->. done.
Qed.

Lemma cores_World c a h st : w_cores (World c a h st) = c.
Proof. done. Qed.
Lemma core_of_same w w' d : w_cores w = w_cores w' -> core_of w d = core_of w' d.
Proof. unfold core_of. by intros ->. Qed.
Lemma b_w9_core w s n d : core_of (b_w9 w s n) d = core_of (start_services w s service_names) d.
Proof. apply core_of_same. rewrite b_w9_eq. apply cores_World. Qed.
Lemma b_w10_core w s n d : (N.to_nat d < length (w_cores w))%nat ->
  core_of (b_w10 w s n) d = if bool_decide (s_core s = d) then set_c_remote (b_r2 w s n) (core_of (b_w9 w s n) d) else core_of (b_w9 w s n) d.
Proof. intros Hd. rewrite b_w10_eq, with_core_of; [done|]. by rewrite b_w9_ncores. Qed.

Lemma unmoved_build d id w h n : (N.to_nat d < length (w_cores w))%nat -> id ∉ service_names ->
  unmoved d id w (hstep w (HBuild h n)).1.
Proof.
  intros Hd Hi. destruct (s_handle w h) as [s|] eqn:E; [|by rewrite no_build]. rewrite (step_build _ _ _ _ E).
  pose proof (unmoved_services d id w s service_names Hd Hi) as H5.
  assert (H9 : unmoved d id w (b_w9 w s n)) by (unfold unmoved; rewrite b_w9_core; exact H5).
  clear H5. pose proof (b_w10_core w s n d Hd) as E10.
  generalize dependent (b_w10 w s n). generalize dependent (b_w9 w s n). intros w9 H9 w10 E10.
  destruct (b_down w s); [exact H9|]. cbn [fst]. apply (unmoved_trans _ _ _ _ _ H9).
  unfold unmoved. change (core_of (add_handle w10 (HR (b_r2 w s n))) d) with (core_of w10 d). rewrite E10. by case_bool_decide.
Qed.

(** [o] leaves alone, in [w], what is known under [id] in the system [d]. *)
Definition spares (w : world) (d : N) (id : string) (o : hop) : Prop :=
  id ∉ names o /\
  match o with
  | HEnd b => forall x, w_actors w !! b = Some x -> a_id x <> id
  | HShutdown h => forall s, s_handle w h = Some s -> s_core s <> d
  | _ => True
  end.

Lemma step_unmoved w d id o : (N.to_nat d < length (w_cores w))%nat -> spares w d id o -> unmoved d id w (hstep w o).1.
Proof.
  intros Hd [Hn Ho].
  assert (Hb : match o with HBuild h n => unmoved d id w (hstep w (HBuild h n)).1 | _ => True end) by (destruct o; try done; by apply unmoved_build).
  destruct o; cbn [hstep] in *; cbn [names] in Hn.
  - unfold unmoved, core_of; cbn [return_handle fst add_handle w_cores]. by rewrite lookup_app_l.
  - by destruct (s_handle w h).
  - exact Hb.
  - by destruct (r_handle w h).
  - destruct (s_handle w h) as [s|]; [|done]. by destruct (s_remote s).
  - by destruct (living w a).
  - destruct (s_handle w h); [|done]. apply unmoved_start; [done|]. intros -> ->. by rewrite elem_of_list_singleton in Hn.
  - destruct (living w a); [|done]. by apply unmoved_start.
  - destruct (r_handle w h); [|done]. apply unmoved_start; [done|]. intros _ ->. by rewrite elem_of_list_singleton in Hn.
  - destruct (r_handle w h); [|done]. apply unmoved_start; [done|]. intros _ <-. by rewrite elem_of_list_singleton in Hn.
  - destruct (living w a) as [x|]; [|done].
    assert (H1 : unmoved d id w (start w (a_sys x) "session" (plain 0) false (Some a)).1) by (by apply unmoved_start).
    destruct (s_remote (a_sys x)).
    + eapply unmoved_trans; [exact H1|]. apply unmoved_start; [by rewrite start_ncores|]. intros _ ->. by rewrite elem_of_list_singleton in Hn.
    + eapply unmoved_trans; [exact H1|by apply unmoved_cores].
  - destruct (living w a) as [x|]; [|done]. by destruct (s_remote (a_sys x)).
  - destruct (living w a) as [y|]; [|done]. by destruct (a_store y).
  - destruct (living w a) as [x|] eqn:E; [|done]. apply living_lookup in E as [E _]. case_bool_decide; [|done]. cbn [fst].
    destruct (_ && _); [|by apply unmoved_cores]. unfold unmoved. rewrite with_core_of by done.
    case_bool_decide; [|done]. cbn. split; [|done]. by apply lookup_delete_ne, Ho.
  - by destruct (s_handle w h).
  - by destruct (s_handle w h).
  - destruct (s_handle w h) as [s|] eqn:E; [|done]. specialize (Ho s eq_refl). cbn [fst]. unfold shutdown.
    match goal with |- context [if ?b then ?x else ?y] => set (w2 := if b then x else y) end.
    assert (H2 : core_of w2 d = core_of w d).
    { unfold w2. destruct (c_down _).
      - rewrite with_core_of by done. by rewrite bool_decide_eq_false_2.
      - rewrite with_core_of by (cbn; by rewrite alter_length). rewrite bool_decide_eq_false_2 by done.
        change (core_of (end_under (with_core w (s_core s) set_term) (map_to_list (c_map (core_of w (s_core s)))).*2) d)
          with (core_of (with_core w (s_core s) set_term) d).
        rewrite with_core_of by done. by rewrite bool_decide_eq_false_2. }
    assert (H3 : unmoved d id w w2) by (unfold unmoved; by rewrite H2).
    destruct (s_remote s); [|done]. eapply unmoved_trans; [exact H3|by apply unmoved_cores].
Qed.

Lemma step_ncores w o : (length (w_cores w) <= length (w_cores (hstep w o).1))%nat.
Proof.
  assert (Hb : match o with HBuild h n => length (w_cores (hstep w (HBuild h n)).1) = length (w_cores w) | _ => True end).
  { destruct o; try done. destruct (s_handle w h) as [s|] eqn:E; [|by rewrite no_build]. rewrite (step_build _ _ _ _ E).
    destruct (b_down w s); cbn [fst add_handle w_cores]; by rewrite ?b_w9_ncores, ?b_w10_ncores. }
  destruct o; cbn [hstep] in *.
  - cbn. rewrite app_length. lia.
  - by destruct (s_handle w h).
  - lia.
  - by destruct (r_handle w h).
  - destruct (s_handle w h) as [s|]; [|done]. by destruct (s_remote s).
  - by destruct (living w a).
  - destruct (s_handle w h); [|done]. cbn [started fst]. by rewrite start_ncores.
  - destruct (living w a); [|done]. cbn [started fst]. by rewrite start_ncores.
  - destruct (r_handle w h); [|done]. cbn [started fst]. by rewrite start_ncores.
  - destruct (r_handle w h); [|done]. cbn [started fst]. by rewrite start_ncores.
  - destruct (living w a) as [x|]; [|done]. destruct (s_remote (a_sys x)); cbn [started fst with_actor w_cores]; by rewrite ?start_ncores.
  - destruct (living w a) as [x|]; [|done]. by destruct (s_remote (a_sys x)).
  - destruct (living w a) as [y|]; [|done]. by destruct (a_store y).
  - destruct (living w a) as [x|]; [|done]. case_bool_decide; [|done]. cbn [fst].
    destruct (_ && _); cbn; by rewrite ?alter_length.
  - by destruct (s_handle w h).
  - by destruct (s_handle w h).
  - destruct (s_handle w h) as [s|]; [|done]. cbn [fst]. unfold shutdown.
    destruct (c_down _), (s_remote s); cbn; by rewrite ?alter_length.
Qed.

Lemma run_unmoved w d id l : (N.to_nat d < length (w_cores w))%nat -> undisturbed (run hstep w l).1 d id l ->
  unmoved d id w (run hstep w l).1.
Proof.
  revert w. induction l as [|o l IH]; intros w Hd Hu; [done|]. cbn [run] in *.
  assert (Hsp : spares w d id o).
  { destruct (Hu o ltac:(by left)) as [H1 H2]. split; [done|].
    pose proof (run_kept w (o :: l)) as Hk. pose proof (fun h s => s_handle_later w (o :: l) h s) as Hh.
    cbn [run] in Hk, Hh.
    destruct (hstep w o) as [w1 r], (run hstep w1 l) as [w2 rs]. cbn [fst] in *.
    destruct o; try done.
    - intros x Hx. destruct (Hk _ _ Hx) as (y & Hy & E). destruct E as [-> _]. by eapply H2.
    - intros s Hs. by apply H2, Hh. }
  pose proof (step_unmoved w d id o Hd Hsp) as H1. pose proof (step_ncores w o) as Hn.
  destruct (hstep w o) as [w1 r]. cbn [fst] in H1, Hn. specialize (IH w1 ltac:(lia)).
  destruct (run hstep w1 l) as [w2 rs]. cbn [fst] in *. eapply unmoved_trans; [exact H1|]. apply IH.
  intros o' Ho'. apply Hu. by right.
Qed.
