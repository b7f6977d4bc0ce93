(** Termination flags, context ids, shutting down, and storage providers. *)
From Verif Require Import Handles_Spec Handles_Proofs Handles_Proofs2 Handles_Proofs3.
Local Open Scope N_scope.

(** * The termination flag *)
Lemma step_term w o d : (N.to_nat d < length (w_cores w))%nat ->
  c_term (core_of (hstep w o).1 d) =
  c_term (core_of w d) || match o with HShutdown h => match s_handle w h with Some s => bool_decide (s_core s = d) | None => false end | _ => false end.
Proof.
  intros Hd.
  assert (Hsp : forall id, id ∉ names o -> (forall b, o <> HEnd b) -> (forall h, o <> HShutdown h) ->
    c_term (core_of (hstep w o).1 d) = c_term (core_of w d) || false).
  { intros id Hi He Hs. rewrite orb_false_r. destruct (step_unmoved w d id o Hd) as (_ & _ & H); [|done].
    split; [done|]. destruct o; try done; [by destruct (He a)|by destruct (Hs h)]. }
  assert (Hf : exists id, id ∉ names o) by (exists (fresh (names o)); apply infinite_is_fresh).
  destruct Hf as [id Hid].
  destruct o; try (apply (Hsp id Hid); congruence).
  - clear Hsp. cbn [hstep]. rewrite orb_false_r. destruct (living w a) as [x|] eqn:E; [|done]. case_bool_decide; [|done]. cbn [fst].
    destruct (_ && _); [|done]. rewrite with_core_of by done. by case_bool_decide.
  - clear Hsp. cbn [hstep]. destruct (s_handle w h) as [s|] eqn:E; [|by rewrite orb_false_r]. cbn [fst]. unfold shutdown.
    match goal with |- context [if ?b then ?x else ?y] => set (w2 := if b then x else y) end.
    assert (H2 : c_term (core_of w2 d) = c_term (core_of w d) || bool_decide (s_core s = d)).
    { unfold w2. destruct (c_down _).
      - rewrite with_core_of by done. case_bool_decide; [|by rewrite orb_false_r]. cbn. by rewrite orb_true_r.
      - rewrite with_core_of by (cbn; by rewrite alter_length).
        change (core_of (end_under (with_core w (s_core s) set_term) (map_to_list (c_map (core_of w (s_core s)))).*2) d)
          with (core_of (with_core w (s_core s) set_term) d).
        rewrite with_core_of by done. case_bool_decide; [|by rewrite orb_false_r]. cbn. by rewrite orb_true_r. }
    by destruct (s_remote s).
Qed.

Lemma step_down w o d : (N.to_nat d < length (w_cores w))%nat ->
  c_down (core_of (hstep w o).1 d) =
  c_down (core_of w d) || match o with HShutdown h => match s_handle w h with Some s => bool_decide (s_core s = d) | None => false end | _ => false end.
Proof.
  intros Hd.
  assert (Hsp : forall id, id ∉ names o -> (forall b, o <> HEnd b) -> (forall h, o <> HShutdown h) ->
    c_down (core_of (hstep w o).1 d) = c_down (core_of w d) || false).
  { intros id Hi He Hs. rewrite orb_false_r. destruct (step_unmoved w d id o Hd) as (_ & H & _); [|done].
    split; [done|]. destruct o; try done; [by destruct (He a)|by destruct (Hs h)]. }
  assert (Hf : exists id, id ∉ names o) by (exists (fresh (names o)); apply infinite_is_fresh).
  destruct Hf as [id Hid].
  destruct o; try (apply (Hsp id Hid); congruence).
  - clear Hsp. cbn [hstep]. rewrite orb_false_r. destruct (living w a) as [x|] eqn:E; [|done]. case_bool_decide; [|done]. cbn [fst].
    destruct (_ && _); [|done]. rewrite with_core_of by done. by case_bool_decide.
  - clear Hsp. cbn [hstep]. destruct (s_handle w h) as [s|] eqn:E; [|by rewrite orb_false_r]. cbn [fst]. unfold shutdown.
    match goal with |- context [if ?b then ?x else ?y] => set (w2 := if b then x else y) end.
    assert (H2 : c_down (core_of w2 d) = c_down (core_of w d) || bool_decide (s_core s = d)).
    { unfold w2. destruct (c_down (core_of w (s_core s))) eqn:Ed.
      - rewrite with_core_of by done. case_bool_decide as E'; [|by rewrite orb_false_r]. cbn. rewrite orb_true_r, <-E'. done.
      - rewrite with_core_of by (cbn; by rewrite alter_length).
        change (core_of (end_under (with_core w (s_core s) set_term) (map_to_list (c_map (core_of w (s_core s)))).*2) d)
          with (core_of (with_core w (s_core s) set_term) d).
        rewrite with_core_of by done. case_bool_decide; [|by rewrite orb_false_r]. cbn. by rewrite orb_true_r. }
    by destruct (s_remote s).
Qed.

Lemma fresh_core_of w d : (length (w_cores w) <= N.to_nat d)%nat -> core_of w d = fresh_core.
Proof. intros H. unfold core_of. by rewrite (proj2 (lookup_ge_None _ _) H). Qed.

Lemma shut_down_later l o c : was_shut_down (hrun l).1 c l (hrun l).2 -> was_shut_down (hrun (l ++ [o])).1 c (l ++ [o]) (hrun (l ++ [o])).2.
Proof.
  rewrite hrun_snoc. cbn [fst snd]. intros (i & h & s & H1 & H2 & H3 & H4). exists i, h, s.
  split; [by apply lookup_app_l_Some|]. split; [by apply lookup_app_l_Some|]. split; [|done].
  pose proof (s_handle_later _ [o] _ _ H3) as H. cbn [run] in H. by destruct (hstep (hrun l).1 o).
Qed.

Lemma step_ncores_eq w o : (forall p, o <> HNew p) -> length (w_cores (hstep w o).1) = length (w_cores w).
Proof.
  intros Hn.
  assert (Hb : match o with HBuild h n => length (w_cores (hstep w (HBuild h n)).1) = length (w_cores w) | _ => True end).
  { destruct o; try done. destruct (s_handle w h) as [s|] eqn:E; [|by rewrite no_build]. rewrite (step_build _ _ _ _ E).
    destruct (b_down w s); cbn [fst add_handle w_cores]; by rewrite ?b_w9_ncores, ?b_w10_ncores. }
  destruct o.
  - by destruct (Hn p).
  - cbn [hstep]. by destruct (s_handle w h).
  - exact Hb.
  - cbn [hstep]. by destruct (r_handle w h).
  - cbn [hstep]. destruct (s_handle w h) as [s|]; [|done]. by destruct (s_remote s).
  - cbn [hstep]. by destruct (living w a).
  - cbn [hstep]. destruct (s_handle w h); [|done]. cbn [started fst]. by rewrite start_ncores.
  - cbn [hstep]. destruct (living w a); [|done]. cbn [started fst]. by rewrite start_ncores.
  - cbn [hstep]. destruct (r_handle w h); [|done]. cbn [started fst]. by rewrite start_ncores.
  - cbn [hstep]. destruct (r_handle w h); [|done]. cbn [started fst]. by rewrite start_ncores.
  - cbn [hstep]. destruct (living w a) as [x|]; [|done]. destruct (s_remote (a_sys x)); cbn [started fst with_actor w_cores]; by rewrite ?start_ncores.
  - cbn [hstep]. destruct (living w a) as [x|]; [|done]. by destruct (s_remote (a_sys x)).
  - cbn [hstep]. destruct (living w a) as [y|]; [|done]. by destruct (a_store y).
  - cbn [hstep]. destruct (living w a) as [x|]; [|done]. case_bool_decide; [|done]. cbn [fst].
    destruct (_ && _); cbn; by rewrite ?alter_length.
  - cbn [hstep]. by destruct (s_handle w h).
  - cbn [hstep]. by destruct (s_handle w h).
  - cbn [hstep]. destruct (s_handle w h) as [s|]; [|done]. cbn [fst]. unfold shutdown.
    destruct (c_down _), (s_remote s); cbn; by rewrite ?alter_length.
Qed.

Lemma step_new_core w o d : (length (w_cores w) <= N.to_nat d)%nat -> core_of (hstep w o).1 d = fresh_core.
Proof.
  intros Hd. assert ((exists p, o = HNew p) \/ ~ (exists p, o = HNew p)) as [[p ->]|Hn] by (destruct o; (left; by eexists) || (right; by intros [? [=]])).
  - unfold core_of. change (w_cores (hstep w (HNew p)).1) with (w_cores w ++ [fresh_core]). rewrite lookup_app_r by done.
    destruct (N.to_nat d - length (w_cores w))%nat as [|m]; [done|]. done.
  - apply fresh_core_of. rewrite step_ncores_eq; [done|]. intros p ->. apply Hn. by exists p.
Qed.

Lemma shutdown_called l i h : l !! i = Some (HShutdown h) -> (hrun l).2 !! i = Some RDone -> exists s, s_handle (hrun l).1 h = Some s.
Proof.
  induction l as [|o l IH] using rev_ind; [done|]. intros H1 H2. rewrite hrun_snoc in H2 |- *. cbn [fst snd] in *.
  assert (Hl : length (hrun l).2 = length l) by apply run_length.
  assert (Hs : forall s, s_handle (hrun l).1 h = Some s -> s_handle (hstep (hrun l).1 o).1 h = Some s).
  { intros s E. pose proof (s_handle_later _ [o] _ _ E) as H. cbn [run] in H. by destruct (hstep (hrun l).1 o). }
  apply lookup_app_Some in H1 as [H1|[Hi H1]].
  - assert (Hi : (i < length l)%nat) by (by eapply lookup_lt_Some). rewrite lookup_app_l in H2 by lia.
    destruct (IH H1 H2) as [s E]. exists s. by apply Hs.
  - assert (Hi' : (i - length l = 0)%nat) by (apply lookup_lt_Some in H1; cbn in H1; lia). rewrite Hi' in H1. injection H1 as ->.
    rewrite lookup_app_r, Hl, Hi' in H2 by lia. injection H2 as H2. cbn [hstep] in H2.
    destruct (s_handle (hrun l).1 h) as [s|] eqn:E; [|done]. exists s. by apply Hs.
Qed.

Lemma terminated_iff l c : c_term (core_of (hrun l).1 c) = true <-> was_shut_down (hrun l).1 c l (hrun l).2.
Proof.
  induction l as [|o l IH] using rev_ind.
  { split; [|intros (i & h & s & H & _); by rewrite lookup_nil in H]. done. }
  pose proof (sane_hrun l) as Hw. assert (Hl : length (hrun l).2 = length l) by apply run_length. split.
  - rewrite hrun_snoc. cbn [fst snd]. destruct (decide (N.to_nat c < length (w_cores (hrun l).1)))%nat as [Hc|Hc]; cycle 1.
    { rewrite step_new_core; [done|lia]. }
    rewrite step_term by done. rewrite orb_true_iff. intros [H|H].
    + pose proof (shut_down_later l o c (proj1 IH H)) as H'. by rewrite hrun_snoc in H'.
    + destruct o; try done. destruct (s_handle (hrun l).1 h) as [s|] eqn:E; [|done]. apply bool_decide_eq_true in H.
      exists (length l), h, s. split; [by apply list_lookup_middle|].
      split. { rewrite list_lookup_middle by done. cbn [hstep]. by rewrite E. }
      split; [|done]. pose proof (s_handle_later _ [HShutdown h] _ _ E) as H'. cbn [run] in H'. by destruct (hstep (hrun l).1 (HShutdown h)).
  - intros (i & h & s & H1 & H2 & H3 & H4). rewrite hrun_snoc in H2, H3 |- *. cbn [fst snd] in *.
    assert (Hs : forall s', s_handle (hrun l).1 h = Some s' -> s' = s).
    { intros s' E. pose proof (s_handle_later _ [o] _ _ E) as H. cbn [run] in H.
      destruct (hstep (hrun l).1 o) as [w1 x]. cbn [fst] in *. congruence. }
    assert (Hin : forall s', s_handle (hrun l).1 h = Some s' -> (N.to_nat c < length (w_cores (hrun l).1))%nat).
    { intros s' E. destruct (sane_handle _ _ _ Hw E) as [_ H]. by rewrite (Hs _ E), H4 in H. }
    apply lookup_app_Some in H1 as [H1|[Hi H1]].
    + assert (Hi : (i < length l)%nat) by (by eapply lookup_lt_Some). rewrite lookup_app_l in H2 by lia.
      destruct (shutdown_called _ _ _ H1 H2) as [s' E]. rewrite step_term by (by apply (Hin s')).
      rewrite (proj2 IH); [done|]. exists i, h, s'. repeat split; try done. by rewrite (Hs _ E).
    + assert (Hi' : (i - length l = 0)%nat) by (apply lookup_lt_Some in H1; cbn in H1; lia). rewrite Hi' in H1. injection H1 as ->.
      rewrite lookup_app_r, Hl, Hi' in H2 by lia. injection H2 as H2. cbn [hstep] in H2.
      destruct (s_handle (hrun l).1 h) as [s'|] eqn:E; [|done]. rewrite step_term by (by apply (Hin s')).
      rewrite E, (Hs _ eq_refl), bool_decide_eq_true_2 by done. by rewrite orb_true_r.
Qed.

(** The scheduler has stopped exactly when the flag is set. *)
Lemma down_term l c : c_down (core_of (hrun l).1 c) = c_term (core_of (hrun l).1 c).
Proof.
  induction l as [|o l IH] using rev_ind; [done|]. rewrite hrun_snoc. cbn [fst].
  destruct (decide (N.to_nat c < length (w_cores (hrun l).1)))%nat as [Hc|Hc].
  - by rewrite step_term, step_down, IH.
  - by rewrite step_new_core by lia.
Qed.
