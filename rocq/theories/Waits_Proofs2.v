(** Proofs about waiting tasks: deadlocks stay, and the invariant of ranks. *)
From Verif Require Export Waits_Proofs.

Section Proofs.
  Context {K M : Type} `{Countable K}.
  Notation act := (action K M).
  Notation pid := (K + N)%type.
  Notation state := (state K M).
  Variable handler : K -> M -> list act -> Prop.
  Variable started : K -> list act -> Prop.
  Notation pstep := (pstep handler started).
  Notation step := (step handler started).
  Notation moved := (moved handler started).
  Notation touched := (touched started).

  (** ** Deadlocks stay *)

  (** A task that moves does not wait. *)
  Lemma moved_nw (s : state) p s' x : moved s p s' -> s_procs s !! p = Some x -> waitsb x = false.
  Proof. intros Hm E. destruct Hm; repeat match goal with E' : s_procs s !! p = _ |- _ => rewrite E in E'; injection E' as -> end; done. Qed.

  Lemma owes_before (s : state) p s' z y : fresh s -> pstep s p s' -> owes s' z y -> y = p \/ owes s z y \/ owes s p y.
  Proof.
    intros Hf Hs (l & r & E & Ho). destruct (decide (z = p)) as [->|Hne].
    - destruct (step_moved handler started s p s' Hf Hs) as
        [q m k l0 todo Hp E0 Hh E1|l0 l' k q m todo E0 E1 Hq Hl|l0 k y0 todo todo' E0 E1 Hst Hr|l0 l' k a todo E0 E1 Hl Hnd'
        |l0 l5 k q5 m5 todo E0 E1 Hq5 Hl5|l0 k q5 m5 todo E0 E1 Hr|l0 k todo E0 E1 Hr|l0 k todo' todo n E0 E1 Hr|l0 k todo E0 E1 Hr Hr2|l0 k E0 E1 Hr];
        rewrite E1 in E; try (injection E as <- <-); cbn in Ho.
      + right. right. exists ((m, k) :: l0), None. split; [done|].
        destruct Ho as [[m' Hm]|(todo' & w & Er)]; simplify_eq; left; [exists m'|exists m]; set_solver.
      + destruct Ho as [[m' Hm]|(todo' & w & Er)]; simplify_eq.
        * apply elem_of_app in Hm as [Hm|Hm]; [right; right; eexists _, _; split; [done|eauto]|].
          rewrite Forall_forall in Hl. apply Hl in Hm as Hm. cbn in Hm. destruct Hm; simplify_eq. auto.
        * right; right; eexists _, _; split; [done|eauto].
      + right; right; eexists _, _; split; [done|]. destruct Ho as [Ho|(? & ? & Er)]; simplify_eq; eauto.
      + destruct Ho as [[m' Hm]|(todo' & w & Er)]; simplify_eq.
        * apply elem_of_app in Hm as [Hm|Hm]; [right; right; eexists _, _; split; [done|eauto]|].
          rewrite Forall_forall in Hl. apply Hl in Hm as Hm. cbn in Hm. destruct Hm; simplify_eq. auto.
        * right; right; eexists _, _; split; [done|eauto].
      + right; right; eexists _, _; split; [done|]. destruct Ho as [[m' Hm]|(? & ? & Er)]; simplify_eq.
        apply elem_of_app in Hm as [Hm|Hm]; [eauto|].
        rewrite Forall_forall in Hl5. apply Hl5 in Hm. cbn in Hm. destruct Hm; simplify_eq. eauto.
      + right; right; eexists _, _; split; [done|]. destruct Ho as [Ho|(? & ? & Er)]; simplify_eq; eauto.
      + right; right; eexists _, _; split; [done|]. destruct Ho as [Ho|(? & ? & Er)]; simplify_eq; eauto.
      + right; right; eexists _, _; split; [done|]. destruct Ho as [Ho|(? & ? & Er)]; simplify_eq; eauto.
      + done.
      + right; right; eexists _, _; split; [done|]. destruct p; cbn in E; simplify_eq. destruct Ho as [Ho|(? & ? & Er)]; simplify_eq; eauto.
    - pose proof (step_other handler started s p s' z Hf Hs Hne) as Ht. rewrite E in Ht.
      inversion Ht as [E0|l0 r0 m k E0 Hk E1|x E0 Hx E1|k todo E0 Hst Hk E1]; subst.
      + right. left. exists l, r. auto.
      + destruct Ho as [[m' Hm]|Ho]; [|right; left; eexists _, _; split; [done|]; by right].
        apply elem_of_app in Hm as [Hm|Hm]; [right; left; eexists _, _; split; [done|]; eauto|].
        apply elem_of_list_singleton in Hm. simplify_eq. destruct (Hk y eq_refl); auto.
      + right. left. destruct (resume_spec x) as [Ex|(l1 & k1 & a & todo & -> & Ex)].
        * rewrite E1 in Ex. subst. eexists _, _. split; [done|]. eauto.
        * rewrite Ex in E1. simplify_eq. eexists _, _. split; [done|].
          destruct Ho as [Ho|(? & ? & Er)]; simplify_eq; eauto.
      + destruct Ho as [[m' Hm]|(? & ? & Er)]; simplify_eq; [by apply elem_of_nil in Hm|].
        destruct (Hk y eq_refl); auto.
  Qed.

  Lemma deadlock_step (s : state) o s' D : fresh s -> deadlock s D -> step s o s' ->
    deadlock s' D /\ (forall p k todo, D p -> runs s p k todo true -> runs s' p k todo true).
  Proof.
    intros Hf [Hw Ho] Hs.
    assert (Hkeep : forall p k todo, D p -> runs s p k todo true -> runs s' p k todo true).
    { intros p k todo Hp [l E]. destruct o as [x|]; cbn in Hs.
      - pose proof (step_moved handler started s x s' Hf Hs) as Hm.
        assert (Hne : p <> x). { intros ->. by pose proof (moved_nw s x s' _ Hm E). }
        assert (Hnd : ~ D x).
        { intros Hx. destruct (Hw x Hx) as (k' & todo' & l' & E'). by pose proof (moved_nw s x s' _ Hm E'). }
        pose proof (step_other handler started s x s' p Hf Hs Hne) as Ht. rewrite E in Ht.
        inversion Ht as [E0|l0 r0 m k0 E0 Hk E1|y E0 Hx E1|k0 todo0 E0 Hst Hk E1]; subst.
        + eexists. eauto.
        + injection E0 as <- <-. eexists. symmetry. exact E1.
        + exfalso. apply Hnd. by apply (Ho p x).
        + done.
      - exists l. rewrite (estep_other started s s' p Hf Hs); [done|]. rewrite E. eauto. }
    split; [split|done].
    - intros p Hp. destruct (Hw p Hp) as (k & todo & Hr). exists k, todo. auto.
    - intros p z Hp Hz. destruct o as [x|]; cbn in Hs.
      + assert (Hnd : ~ D x).
        { intros Hx. destruct (Hw x Hx) as (k' & todo' & l' & E'). pose proof (step_moved handler started s x s' Hf Hs) as Hm.
          by pose proof (moved_nw s x s' _ Hm E'). }
        destruct (owes_before s x s' z p Hf Hs Hz) as [->|[Hz'|Hz']]; [done|by apply (Ho p z)|].
        exfalso. apply Hnd. by apply (Ho p x).
      + apply (Ho p z Hp). destruct Hz as (l & r & E & Hz). exists l, r. split; [|done].
        inversion Hs; subst; [done|]. cbn in E. destruct (decide (z = inr (s_next s))) as [->|Hne].
        * rewrite lookup_insert in E. injection E as <- <-. exfalso.
          destruct Hz as [[m Hm]|(? & ? & Er)]; simplify_eq. by apply elem_of_nil in Hm.
        * by rewrite lookup_insert_ne in E.
  Qed.

  Lemma init_fresh l : fresh (init (M := M) (K := K) l).
  Proof.
    intros n _. apply not_elem_of_list_to_map. rewrite <- list_fmap_compose.
    intros (k & [=] & _)%elem_of_list_fmap.
  Qed.
  Lemma reachable_fresh l (s : state) : reachable handler started l s -> fresh s.
  Proof. induction 1; [apply init_fresh|]. by eapply step_fresh. Qed.

  (** ** Ranks *)
  Variable rank : K -> option nat.
  Variable sure : K -> M -> option nat.
  Variable rank0 : K -> option nat.
  Notation fine := (fine sure rank0).
  Notation moves := (moves sure rank0).
  Hypothesis Hranked : ranked handler started rank sure rank0.

  Definition held (s : state) (p : pid) (r : nat) : Prop :=
    exists x todo w, runs s x (Some p) todo w /\ Forall (fine r) todo.
  (** [p] is sure to get an answer, by something of at most the rank. *)
  Definition due (s : state) (p : pid) (r : nat) : Prop :=
    exists r', (r' <= r)%nat /\ (held s p r' \/ exists q m, sure q m = Some r' /\ queued s p q m).
  Definition served (s : state) (p : pid) (a : act) : Prop :=
    match a with
    | Ask q m => forall r, sure q m = Some r -> due s p r
    | Begin y => forall r, rank0 y = Some r -> due s p r
    | _ => False
    end.
  Definition inv (s : state) : Prop :=
    fresh s /\
    (forall p k todo, runs s p k todo true -> exists a todo', todo = a :: todo' /\ served s p a) /\
    (forall q k todo w r, rank q = Some r -> runs s (inl q) k todo w -> Forall (moves r) todo).

  Lemma fine_delegate r (l : list act) : fine r (Delegate l) <-> Forall (fine r) l.
  Proof.
    cbn. induction l as [|a l IH]; [split; [constructor|done]|].
    rewrite Forall_cons. split; intros [Ha Hl]; (split; [done|]); by apply IH.
  Qed.

  (** The holder of a channel keeps it, hands it on, or uses it. *)
  Lemma held_step (s : state) o s' y ky a todo r : fresh s -> step s o s' -> runs s y ky (a :: todo) true -> held s y r ->
    held s' y r \/ (exists q m r', sure q m = Some r' /\ (r' < r)%nat /\ queued s' y q m) \/ runs s' y ky todo false.
  Proof.
    intros Hf Hs [ly Ey] (x & t & w & [l E] & Hfine). destruct (decide (o = Some x)) as [->|Hne].
    - destruct (step_moved handler started s x s' Hf Hs) as
        [q m k l0 todo0 Hp E0 Hh E1|l0 l' k q m todo0 E0 E1 Hq Hl|l0 k y0 todo0 todo' E0 E1 Hst Hr|l0 l' k a0 todo0 E0 E1 Hl Hnd'
        |l0 l5 k q5 m5 todo0 E0 E1 Hq5 Hl5|l0 k q5 m5 todo0 E0 E1 Hr|l0 k todo0 E0 E1 Hr|l0 k todo' todo0 n E0 E1 Hr|l0 k todo0 E0 E1 Hr Hr2|l0 k E0 E1 Hr];
        rewrite E in E0; simplify_eq.
      + left. eexists x, _, true. split; [by eexists|]. done.
      + left. eexists x, _, true. split; [by eexists|]. done.
      + left. eexists x, _, false. split; [by eexists|]. by apply Forall_cons in Hfine as [_ Hfine].
      + right. left. apply Forall_cons in Hfine as [(r' & Hr' & Hlt) _]. exists q5, m5, r'. auto.
      + right. right. exists ly. by apply (Hr y eq_refl _ _ a).
      + right. right. exists ly. by apply (Hr y eq_refl _ _ a).
      + left. eexists _, _, false. split; [exact Hr|]. apply Forall_cons in Hfine as [Hfine _]. by apply fine_delegate in Hfine.
      + right. right. exists ly. by apply (Hr y eq_refl _ _ a).
      + right. right. exists ly. by apply (Hr y eq_refl _ _ a).
    - destruct (runs_kept handler started s o s' x l (Some y) t w Hf Hs Hne E) as [l' [E'|(-> & b & t' & -> & E')]]; left.
      + eexists x, _, w. split; [by eexists|]. done.
      + eexists x, _, false. split; [by eexists|]. by apply Forall_cons in Hfine as [_ Hfine].
  Qed.

  Lemma live_kept (s : state) o s' x l R : fresh s -> step s o s' -> o <> Some x -> s_procs s !! x = Some (Live l R) ->
    exists l' R', s_procs s' !! x = Some (Live (l ++ l') R').
  Proof.
    intros Hf Hs Hne E. destruct R as [[k todo w]|].
    - destruct (runs_kept handler started s o s' x l k todo w Hf Hs Hne E) as [l' [E'|(-> & b & t' & -> & E')]]; [eauto|].
      exists []. rewrite app_nil_r. eauto.
    - destruct (idle_kept handler started s o s' x l Hf Hs Hne E) as [l' E']. eauto.
  Qed.

  Lemma queued_step (s : state) o s' y ky a todo q m r : fresh s -> sure q m = Some r -> step s o s' ->
    runs s y ky (a :: todo) true -> queued s y q m -> queued s' y q m \/ held s' y r \/ runs s' y ky todo false.
  Proof.
    intros Hf Hq Hs [ly Ey] (l & R & E & Hm). destruct (decide (o = Some (inl q))) as [->|Hne].
    - destruct (step_moved handler started s (inl q) s' Hf Hs) as
        [q' m0 k l0 todo0 Hp E0 Hh E1|l0 l' k q' m' todo0 E0 E1 Hq' Hl|l0 k y0 todo0 todo' E0 E1 Hst Hr|l0 l' k a0 todo0 E0 E1 Hl Hnd'
        |l0 l5 k q5 m5 todo0 E0 E1 Hq5 Hl5|l0 k q5 m5 todo0 E0 E1 Hr|l0 k todo0 E0 E1 Hr|l0 k todo' todo0 n E0 E1 Hr|l0 k todo0 E0 E1 Hr Hr2|l0 k E0 E1 Hr];
        rewrite E in E0; injection E0 as -> ->.
      + injection Hp as <-. apply elem_of_cons in Hm as [[= -> <-]|Hm].
        * right. left. eexists _, _, _. split; [by eexists|]. destruct Hranked as (_ & H1 & _). by eapply H1.
        * left. eexists _, _. eauto.
      + left. eexists _, _. split; [exact E1|]. set_solver.
      + left. eexists _, _. split; [exact E1|]. set_solver.
      + left. eexists _, _. split; [exact E1|]. set_solver.
      + left. eexists _, _. split; [exact E1|]. set_solver.
      + left. eexists _, _. split; [exact E1|]. set_solver.
      + left. eexists _, _. split; [exact E1|]. set_solver.
      + left. eexists _, _. split; [exact E1|]. set_solver.
      + right. right. exists ly. by apply (Hr2 y m Hm _ _ a).
      + left. eexists _, _. split; [exact E1|]. set_solver.
    - left. destruct (live_kept s o s' (inl q) l R Hf Hs Hne E) as (l' & R' & E'). eexists _, _. split; [exact E'|]. set_solver.
  Qed.

  Lemma due_step (s : state) o s' y ky a todo r : fresh s -> step s o s' -> runs s y ky (a :: todo) true -> due s y r ->
    due s' y r \/ runs s' y ky todo false.
  Proof.
    intros Hf Hs Hr (r' & Hle & [Hh|(q & m & Hq & Hqd)]).
    - destruct (held_step s o s' y ky a todo r' Hf Hs Hr Hh) as [?|[(q & m & r2 & ? & ? & ?)|?]]; [|..|by right]; left.
      + exists r'. auto.
      + exists r2. split; [lia|]. eauto.
    - destruct (queued_step s o s' y ky a todo q m r' Hf Hq Hs Hr Hqd) as [?|[?|?]]; [..|by right]; left; exists r'; eauto 10.
  Qed.

  (** Who waits after a step waited before, or has just begun to. *)
  Lemma waits_before (s : state) o s' y k todo : fresh s -> step s o s' -> o <> Some y -> runs s' y k todo true ->
    runs s y k todo true.
  Proof.
    intros Hf Hs Hne [l E]. destruct o as [p|]; cbn in Hs.
    - pose proof (step_other handler started s p s' y Hf Hs ltac:(congruence)) as Ht. rewrite E in Ht.
      inversion Ht as [E0|l0 r0 m k0 E0 Hk E1|x E0 Hx E1|k0 todo0 E0 Hst Hk E1]; subst.
      + by exists l.
      + by exists l0.
      + destruct (resume_spec x) as [Ex|(l1 & k1 & a & todo1 & -> & Ex)]; [|congruence].
        rewrite E1 in Ex. subst x. by exists l.
    - inversion Hs; subst; [by exists l|]. cbn in E. destruct (decide (y = inr (s_next s))) as [->|Hy].
      + by rewrite lookup_insert in E.
      + rewrite lookup_insert_ne in E by done. by exists l.
  Qed.

  Lemma wait_step (s : state) o s' y k a todo : fresh s -> step s o s' -> runs s y k (a :: todo) true ->
    runs s' y k (a :: todo) true \/ runs s' y k todo false.
  Proof.
    intros Hf Hs [l E]. assert (Ho : o <> Some y).
    { intros ->. pose proof (moved_nw s y s' _ (step_moved handler started s y s' Hf Hs) E). done. }
    destruct (runs_kept handler started s o s' y l k (a :: todo) true Hf Hs Ho E) as [l' [E'|(_ & b & t' & [= <- <-] & E')]].
    - left. by eexists.
    - right. by eexists.
  Qed.

  Lemma inv_step (s : state) o s' : inv s -> step s o s' -> inv s'.
  Proof.
    intros (Hf & Hw & Hq) Hs. split; [by eapply step_fresh|]. split.
    - intros p k todo Hr. destruct (decide (o = Some p)) as [->|Hne].
      + destruct Hr as [l E]. destruct (step_moved handler started s p s' Hf Hs) as
          [q m0 k0 l0 todo0 Hp E0 Hh E1|l0 l' k0 q m' todo0 E0 E1 Hq' Hl|l0 k0 y0 todo0 todo' E0 E1 Hst Hr|l0 l' k0 a0 todo0 E0 E1 Hl Hnd'
          |l0 l5 k0 q5 m5 todo0 E0 E1 Hq5 Hl5|l0 k0 q5 m5 todo0 E0 E1 Hr|l0 k0 todo0 E0 E1 Hr|l0 k0 todo' todo0 n E0 E1 Hr|l0 k0 todo0 E0 E1 Hr Hr2|l0 k0 E0 E1 Hr];
          rewrite E in E1; try done.
        * injection E1 as -> -> ->. eexists _, _. split; [done|]. cbn. intros r Hr. exists r. split; [done|]. right. eauto.
        * injection E1 as -> -> ->. eexists _, _. split; [done|]. cbn. intros r Hr0. exists r. split; [done|]. left. eexists _, _, _. split; [exact Hr|].
          destruct Hranked as (_ & _ & _ & _ & H3). by eapply H3.
        * by destruct p.
      + pose proof (waits_before s o s' p k todo Hf Hs Hne Hr) as Hr0.
        destruct (Hw p k todo Hr0) as (a & todo' & -> & Ha). exists a, todo'. split; [done|].
        assert (Hno : ~ runs s' p k todo' false).
        { intros [l' E']. destruct Hr as [l E]. rewrite E in E'. injection E' as _ E'. clear -E'.
          apply (f_equal length) in E'. cbn in E'. lia. }
        destruct a; cbn in Ha |- *; try done.
        * intros r Hr'. destruct (due_step s o s' p k _ _ r Hf Hs Hr0 (Ha r Hr')); done.
        * intros r Hr'. destruct (due_step s o s' p k _ _ r Hf Hs Hr0 (Ha r Hr')); done.
    - intros q k todo w r Hr [l E]. destruct (decide (o = Some (inl q))) as [->|Hne].
      + destruct (step_moved handler started s (inl q) s' Hf Hs) as
          [q' m0 k0 l0 todo0 Hp E0 Hh E1|l0 l' k0 q' m' todo0 E0 E1 Hq' Hl|l0 k0 y0 todo0 todo' E0 E1 Hst Hr'|l0 l' k0 a0 todo0 E0 E1 Hl Hnd'
          |l0 l5 k0 q5 m5 todo0 E0 E1 Hq5 Hl5|l0 k0 q5 m5 todo0 E0 E1 Hr'|l0 k0 todo0 E0 E1 Hr'|l0 k0 todo' todo0 n E0 E1 Hr'|l0 k0 todo0 E0 E1 Hr' Hr2|l0 k0 E0 E1 Hr'];
          rewrite E in E1; try done; injection E1 as -> -> -> ->.
        * injection Hp as <-. destruct Hranked as (_ & _ & H1 & _). by eapply H1.
        * by eapply (Hq q _ _ _ r Hr); eexists.
        * by eapply (Hq q _ _ _ r Hr); eexists.
        * assert (Hfn : Forall (moves r) (a0 :: todo0)) by (by eapply (Hq q _ _ _ r Hr); eexists). by apply Forall_cons in Hfn as [_ Hfn].
        * assert (Hfn : Forall (moves r) (Forward q5 m5 :: todo0)) by (by eapply (Hq q _ _ _ r Hr); eexists). by apply Forall_cons in Hfn as [_ Hfn].
        * assert (Hfn : Forall (moves r) (Forward q5 m5 :: todo0)) by (by eapply (Hq q _ _ _ r Hr); eexists). by apply Forall_cons in Hfn as [_ Hfn].
        * assert (Hfn : Forall (moves r) (Reply :: todo0)) by (by eapply (Hq q _ _ _ r Hr); eexists). by apply Forall_cons in Hfn as [_ Hfn].
        * assert (Hfn : Forall (moves r) (Delegate todo' :: todo0)) by (by eapply (Hq q _ _ _ r Hr); eexists). by apply Forall_cons in Hfn as [_ Hfn].
      + destruct o as [p|]; cbn in Hs.
        * pose proof (step_other handler started s p s' (inl q) Hf Hs ltac:(congruence)) as Ht. rewrite E in Ht.
          inversion Ht as [E0|l0 r0 m k0 E0 Hk E1|x E0 Hx E1|k0 todo0 E0 Hst Hk E1]; subst.
          -- by eapply (Hq q _ _ _ r Hr); eexists.
          -- by eapply (Hq q _ _ _ r Hr); eexists.
          -- destruct (resume_spec x) as [Ex|(l1 & k1 & a & todo1 & -> & Ex)].
             ++ rewrite E1 in Ex. subst x. by eapply (Hq q _ _ _ r Hr); eexists.
             ++ rewrite Ex in E1. simplify_eq.
                assert (Hfn : Forall (moves r) (a :: todo)) by (by eapply (Hq q _ _ _ r Hr); eexists). by apply Forall_cons in Hfn as [_ Hfn].
          -- destruct Hranked as (_ & _ & _ & H2 & _). eapply H2; [exact Hr|]. by apply Hst.
        * inversion Hs; subst; [by eapply (Hq q _ _ _ r Hr); eexists|]. cbn in E.
          rewrite lookup_insert_ne in E by done. by eapply (Hq q _ _ _ r Hr); eexists.
  Qed.

  Lemma init_inv l : inv (init l).
  Proof.
    split; [apply init_fresh|].
    assert (Hno : forall p k todo w, ~ runs (init (M := M) l) p k todo w).
    { intros p k todo w [l' E]. unfold init in E. cbn in E. apply elem_of_list_to_map_2 in E.
      apply elem_of_list_fmap in E as (y & [= _] & _). }
    split; intros; exfalso; by eapply Hno.
  Qed.
  Lemma reachable_inv l (s : state) : reachable handler started l s -> inv s.
  Proof. induction 1; [apply init_inv|]. by eapply inv_step. Qed.
End Proofs.
