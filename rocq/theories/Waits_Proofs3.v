(** Proofs about waiting tasks: who waits for a ranked actor waits only for a while. *)
From Verif Require Export Waits_Proofs2.

Section Proofs.
  Context {K M : Type} `{Countable K}.
  Notation act := (action K M).
  Notation pid := (K + N)%type.
  Notation state := (state K M).
  Variable handler : K -> M -> list act -> Prop.
  Variable started : K -> list act -> Prop.
  Variable rank : K -> option nat.
  Variable sure : K -> M -> option nat.
  Variable rank0 : K -> option nat.
  Notation fine := (fine sure rank0).
  Notation moves := (moves sure rank0).
  Notation held := (held sure rank0).
  Notation inv := (inv rank sure rank0).
  Hypothesis Hranked : ranked handler started rank sure rank0.
  Variable e : nat -> state.
  Variable who : nat -> option pid.
  Hypothesis Hex : execution handler started e who.
  Hypothesis Hfair : fair e who.
  Hypothesis Hinv : inv (e 0%nat).

  Lemma inv_at t : inv (e t).
  Proof. induction t; [done|]. eapply inv_step; eauto. Qed.
  Lemma fresh_at t : fresh (e t).
  Proof. apply inv_at. Qed.

  Notation at_ t x l k todo w := (s_procs (e t) !! x = Some (Live l (Some (Run k todo w)))).

  (** At some later time [x] goes on with [todo]. *)
  Definition goes_on (t : nat) (x : pid) (l : list (M * option pid)) (k : option pid) (todo : list act) : Prop :=
    exists t' l', (t < t')%nat /\ at_ t' x (l ++ l') k todo false.

  Lemma goes_on_le t t' x l l' k todo : (t <= t')%nat -> goes_on t' x (l ++ l') k todo -> goes_on t x l k todo.
  Proof. intros Ht (t2 & l2 & Ht2 & E). exists t2, (l' ++ l2). rewrite app_assoc. split; [lia|done]. Qed.

  Lemma wait_or t n x l k a todo : at_ t x l k (a :: todo) true ->
    (exists l', at_ (n + t)%nat x (l ++ l') k (a :: todo) true) \/ goes_on t x l k todo.
  Proof.
    intros E. induction n as [|n IH].
    - left. exists []. by rewrite app_nil_r.
    - destruct IH as [[l' E']|?]; [|by right].
      assert (Hne : who (n + t)%nat <> Some x).
      { intros Ew. pose proof (Hex (n + t)%nat) as Hs. rewrite Ew in Hs. cbn in Hs.
        pose proof (moved_nw handler started _ _ _ _ (step_moved handler started _ _ _ (fresh_at _) Hs) E'). done. }
      destruct (runs_kept handler started _ _ _ x _ _ _ _ (fresh_at _) (Hex (n + t)%nat) Hne E') as [l2 [E2|(_ & b & t' & [= <- <-] & E2)]].
      + left. exists (l' ++ l2). rewrite app_assoc. exact E2.
      + right. exists (S (n + t))%nat, l'. split; [lia|done].
  Qed.
  Lemma wait_or' t t' x l k a todo : (t <= t')%nat -> at_ t x l k (a :: todo) true ->
    (exists l', at_ t' x (l ++ l') k (a :: todo) true) \/ goes_on t x l k todo.
  Proof. intros Ht E. replace t' with ((t' - t) + t)%nat by lia. by apply wait_or. Qed.

  (** A task that is ready has its turn, and nothing about it changes before, except that messages come. *)
  Lemma turn t x l k todo : at_ t x l k todo false -> head todo <> Some Hang ->
    exists t' l', (t <= t')%nat /\ who t' = Some x /\ at_ t' x (l ++ l') k todo false.
  Proof.
    intros E Hh. destruct (Hfair t x) as (t' & Ht & Ew). { left. exists k, todo. split; [by exists l|done]. }
    remember (t' - t)%nat as n eqn:En. revert t l E Ht En. induction n as [|n IH]; intros t l E Ht En.
    - assert (t' = t) as -> by lia. exists t, []. rewrite app_nil_r. auto.
    - destruct (decide (who t = Some x)) as [Ew'|Hne].
      + exists t, []. rewrite app_nil_r. auto.
      + destruct (runs_kept handler started _ _ _ x _ _ _ _ (fresh_at _) (Hex t) Hne E) as [l2 [E2|([=] & _)]].
        destruct (IH (S t) (l ++ l2) E2) as (t2 & l3 & ? & ? & E3); [lia..|].
        exists t2, (l2 ++ l3). rewrite app_assoc. split; [lia|]. auto.
  Qed.
  Lemma turn_idle t q y l : s_procs (e t) !! inl q = Some (Live (y :: l) None) ->
    exists t' l', (t <= t')%nat /\ who t' = Some (inl q) /\ s_procs (e t') !! inl q = Some (Live (y :: l ++ l') None).
  Proof.
    intros E. destruct (Hfair t (inl q)) as (t' & Ht & Ew). { right. eauto. }
    remember (t' - t)%nat as n eqn:En. revert t l E Ht En. induction n as [|n IH]; intros t l E Ht En.
    - assert (t' = t) as -> by lia. exists t, []. rewrite app_nil_r. auto.
    - destruct (decide (who t = Some (inl q))) as [Ew'|Hne].
      + exists t, []. rewrite app_nil_r. auto.
      + destruct (idle_kept handler started _ _ _ _ _ (fresh_at _) (Hex t) Hne E) as [l2 E2].
        destruct (IH (S t) (l ++ l2) E2) as (t2 & l3 & ? & ? & E3); [lia..|].
        exists t2, (l2 ++ l3). rewrite app_assoc. split; [lia|]. auto.
  Qed.

  (** ** By induction on ranks *)
  Definition held_ends (r : nat) : Prop := forall t y l k a todo,
    at_ t y l k (a :: todo) true -> held (e t) y r -> goes_on t y l k todo.
  Definition queued_ends (r : nat) : Prop := forall t y l k a todo q m,
    at_ t y l k (a :: todo) true -> sure q m = Some r -> queued (e t) y q m -> goes_on t y l k todo.

  Lemma wait_ends r : (forall r', (r' < r)%nat -> held_ends r' /\ queued_ends r') ->
    forall t x l k a todo, moves r a -> at_ t x l k (a :: todo) true -> goes_on t x l k todo.
  Proof.
    intros IH t x l k a todo Ha E. destruct (inv_at t) as (_ & Hw & _).
    destruct (Hw x k (a :: todo)) as (a' & todo' & [= <- <-] & Hs); [by exists l|].
    destruct a; cbn in Hs, Ha; try done; destruct Ha as (r' & Hr & Hlt).
    all: destruct (Hs r' Hr) as (r2 & Hle & Hd); destruct (IH r2 ltac:(lia)) as [H1 H2].
    all: destruct Hd as [Hh|(q' & m' & Hq' & Hqd)]; [by eapply H1|by eapply H2].
  Qed.

  Fixpoint size (a : act) : nat :=
    match a with
    | Delegate l => S ((fix sum l := match l with [] => 0%nat | a :: l => (size a + sum l)%nat end) l)
    | _ => 1%nat
    end.
  Definition sizes (l : list act) : nat := sum_list_with size l.
  Lemma size_delegate l : size (Delegate l) = S (sizes l).
  Proof. cbn. f_equal. Qed.
  Lemma size_pos a : (1 <= size a)%nat.
  Proof. destruct a; cbn; lia. Qed.
  Definition left_ (todo : list act) (w : bool) : nat := (2 * sizes todo + (if w then 0 else 1))%nat.

  Lemma left_tail a todo w : (left_ todo false < left_ (a :: todo) w)%nat.
  Proof. unfold left_, sizes. cbn. pose proof (size_pos a). destruct w; lia. Qed.

  Lemma fine_moves r a : fine r a -> moves r a.
  Proof. by destruct a. Qed.
  Lemma fine_hang r todo : Forall (fine r) todo -> head todo <> Some Hang.
  Proof. destruct todo as [|[] tx]; try done. by intros [[] _]%Forall_cons. Qed.
  Lemma moves_hang r todo : Forall (moves r) todo -> head todo <> Some Hang.
  Proof. destruct todo as [|[] tx]; try done. by intros [[] _]%Forall_cons. Qed.

  (** A channel held by a task of rank [r] is used. *)
  Lemma held_ends_step r : (forall r', (r' < r)%nat -> held_ends r' /\ queued_ends r') -> held_ends r.
  Proof.
    intros IH t y l k a todo Ey (x & tx & w & [lx Ex] & Hf).
    remember (left_ tx w) as n eqn:En. revert t l x tx w lx Ey Ex Hf En.
    induction (lt_wf n) as [n _ IHn]. intros t l x tx w lx Ey Ex Hf En. destruct w.
    - destruct (inv_at t) as (_ & Hw & _). destruct (Hw x (Some y) tx) as (a' & tx' & -> & _); [by exists lx|].
      apply Forall_cons in Hf as [Ha Hf].
      destruct (wait_ends r IH t x lx (Some y) a' tx' (fine_moves _ _ Ha) Ex) as (t' & l' & Ht & E').
      destruct (wait_or' t t' y l k a todo ltac:(lia) Ey) as [[l2 E2]|?]; [|done].
      eapply (goes_on_le t t'); [lia|]. eapply (IHn _ _ t' _ x tx' false _ E2 E' Hf eq_refl).
      Unshelve. subst n. apply left_tail.
    - pose proof (fine_hang r tx Hf) as Hh.
      destruct (turn t x lx (Some y) tx Ex Hh) as (t' & l' & Ht & Ew & E').
      destruct (wait_or' t t' y l k a todo ltac:(lia) Ey) as [[l2 E2]|?]; [|done].
      pose proof (Hex t') as Hs. rewrite Ew in Hs. cbn in Hs.
      eapply (goes_on_le t t'); [lia|]. clear Ex Ey.
      assert (Hnow : forall l0, s_procs (e (S t')) !! y = Some (Live l0 (Some (Run k todo false))) -> l0 = l ++ l2 -> goes_on t' y (l ++ l2) k todo).
      { intros l0 E0 ->. exists (S t'), []. rewrite app_nil_r. split; [lia|done]. }
      assert (Hlater : forall lz z tz wz, (left_ tz wz < n)%nat -> at_ (S t') z lz (Some y) tz wz -> Forall (fine r) tz -> goes_on t' y (l ++ l2) k todo).
      { intros lz z tz wz Hlt Ez Hz. destruct (wait_or' t' (S t') y (l ++ l2) k a todo ltac:(lia) E2) as [[l3 E3]|?]; [|done].
        eapply (goes_on_le t' (S t')); [lia|]. by apply (IHn _ Hlt _ _ z tz wz lz E3 Ez Hz). }
      destruct (step_moved handler started _ _ _ (fresh_at _) Hs) as
        [q m k0 l0 todo0 Hp E0 Hh' E1|l0 l3 k0 q m todo0 E0 E1 Hq Hl|l0 k0 y0 todo0 todo' E0 E1 Hst Hr|l0 l3 k0 a0 todo0 E0 E1 Hl Hnd'
        |l0 l5 k0 q5 m5 todo0 E0 E1 Hq5 Hl5|l0 k0 q5 m5 todo0 E0 E1 Hr|l0 k0 todo0 E0 E1 Hr|l0 k0 todo' todo0 m E0 E1 Hr|l0 k0 todo0 E0 E1 Hr Hr2|l0 k0 E0 E1 Hr];
        rewrite E' in E0; simplify_eq.
      + eapply Hlater; [|exact E1|done]. unfold left_. lia.
      + eapply Hlater; [|exact E1|done]. unfold left_. lia.
      + eapply Hlater; [apply left_tail|exact E1|]. by apply Forall_cons in Hf as [_ Hf].
      + apply Forall_cons in Hf as [(r' & Hr' & Hlt) _]. destruct (IH r' Hlt) as [_ H2].
        destruct (wait_or' t' (S t') y (l ++ l2) k a todo ltac:(lia) E2) as [[l3 E3]|?]; [|done].
        eapply (goes_on_le t' (S t')); [lia|]. by apply (H2 _ _ _ _ _ _ q5 m5 E3 Hr' (Hq5 y eq_refl)).
      + eapply Hnow; [|reflexivity]. by apply (Hr y eq_refl _ _ a).
      + eapply Hnow; [|reflexivity]. by apply (Hr y eq_refl _ _ a).
      + destruct Hr as [l4 Hr]. eapply Hlater; [|exact Hr|].
        * unfold left_. unfold sizes at 2. cbn [sum_list_with]. rewrite size_delegate. lia.
        * apply Forall_cons in Hf as [Hf _]. by apply fine_delegate in Hf.
      + eapply Hnow; [|reflexivity]. by apply (Hr y eq_refl _ _ a).
      + eapply Hnow; [|reflexivity]. by apply (Hr y eq_refl _ _ a).
  Qed.

  (** An actor of rank [r] gets to its next message, or is about to end. *)
  Lemma idle_ends_step r : (forall r', (r' < r)%nat -> held_ends r' /\ queued_ends r') ->
    forall t q l k todo w, at_ t (inl q) l k todo w -> Forall (moves r) todo ->
      exists t' l', (t <= t')%nat /\
        (s_procs (e t') !! inl q = Some (Live (l ++ l') None) \/
         (who t' = Some (inl q) /\ exists k' todo', at_ t' (inl q) (l ++ l') k' (Die :: todo') false)).
  Proof.
    intros IH t q l k tx w Ex Hf.
    remember (left_ tx w) as n eqn:En. revert t l k tx w Ex Hf En.
    induction (lt_wf n) as [n _ IHn]. intros t l k tx w Ex Hf En.
    assert (Hlater : forall t1 l1 k1 tz wz, (t <= t1)%nat -> (left_ tz wz < n)%nat -> at_ t1 (inl q) (l ++ l1) k1 tz wz -> Forall (moves r) tz ->
      exists t' l', (t <= t')%nat /\
        (s_procs (e t') !! inl q = Some (Live (l ++ l') None) \/
         (who t' = Some (inl q) /\ exists k' todo', at_ t' (inl q) (l ++ l') k' (Die :: todo') false))).
    { intros t1 l1 k1 tz wz Ht Hlt Ez Hz. destruct (IHn _ Hlt t1 _ k1 tz wz Ez Hz eq_refl) as (t2 & l2 & Ht2 & E2).
      exists t2, (l1 ++ l2). rewrite app_assoc. split; [lia|done]. }
    destruct w.
    - destruct (inv_at t) as (_ & Hw & _). destruct (Hw (inl q) k tx) as (a' & tx' & -> & _); [by exists l|].
      apply Forall_cons in Hf as [Ha Hf].
      destruct (wait_ends r IH t (inl q) l k a' tx' Ha Ex) as (t' & l' & Ht & E').
      eapply Hlater; [|subst n; apply (left_tail a' tx' true)|exact E'|done]. lia.
    - pose proof (moves_hang r tx Hf) as Hh.
      destruct (turn t (inl q) l k tx Ex Hh) as (t' & l' & Ht & Ew & E').
      pose proof (Hex t') as Hs. rewrite Ew in Hs. cbn in Hs. clear Ex.
      destruct (step_moved handler started _ _ _ (fresh_at _) Hs) as
        [q' m k0 l0 todo0 Hp E0 Hh' E1|l0 l3 k0 q' m todo0 E0 E1 Hq Hl|l0 k0 y0 todo0 todo' E0 E1 Hst Hr|l0 l3 k0 a0 todo0 E0 E1 Hl Hnd'
        |l0 l5 k0 q5 m5 todo0 E0 E1 Hq5 Hl5|l0 k0 q5 m5 todo0 E0 E1 Hr|l0 k0 todo0 E0 E1 Hr|l0 k0 todo' todo0 m E0 E1 Hr|l0 k0 todo0 E0 E1 Hr Hr2|l0 k0 E0 E1 Hr];
        rewrite E' in E0; simplify_eq.
      + eapply (Hlater (S t') (l' ++ l3)); [lia| |rewrite app_assoc; exact E1|done]. unfold left_. lia.
      + eapply (Hlater (S t') l'); [lia| |exact E1|done]. unfold left_. lia.
      + eapply (Hlater (S t') (l' ++ l3)); [lia|apply left_tail|rewrite app_assoc; exact E1|]. by apply Forall_cons in Hf as [_ Hf].
      + eapply (Hlater (S t') (l' ++ l5)); [lia|apply left_tail|rewrite app_assoc; exact E1|]. by apply Forall_cons in Hf as [_ Hf].
      + eapply (Hlater (S t') l'); [lia|apply left_tail|exact E1|]. by apply Forall_cons in Hf as [_ Hf].
      + eapply (Hlater (S t') l'); [lia|apply left_tail|exact E1|]. by apply Forall_cons in Hf as [_ Hf].
      + eapply (Hlater (S t') l'); [lia|apply left_tail|exact E1|]. by apply Forall_cons in Hf as [_ Hf].
      + exists t', l'. split; [lia|]. right. split; [done|]. eauto.
      + exists (S t'), l'. split; [lia|]. by left.
  Qed.

  (** A message of an actor of rank [r] is taken, or the actor is about to end. *)
  Lemma taken_step r : (forall r', (r' < r)%nat -> held_ends r' /\ queued_ends r') ->
    forall i t q l R x, rank q = Some r -> s_procs (e t) !! inl q = Some (Live l R) -> l !! i = Some x ->
      exists t' l', (t <= t')%nat /\ who t' = Some (inl q) /\
        (s_procs (e t') !! inl q = Some (Live (x :: l') None) \/
         exists k todo, x ∈ l' /\ at_ t' (inl q) l' k (Die :: todo) false).
  Proof.
    intros IH i. induction i as [i IHi] using lt_wf_ind. intros t q l R x Hq E Hi.
    assert (Hidle : exists t' l', (t <= t')%nat /\
        (s_procs (e t') !! inl q = Some (Live (l ++ l') None) \/
         (who t' = Some (inl q) /\ exists k' todo', at_ t' (inl q) (l ++ l') k' (Die :: todo') false))).
    { destruct R as [[k todo w]|].
      - eapply (idle_ends_step r IH); [exact E|]. destruct (inv_at t) as (_ & _ & Hr). by eapply (Hr q _ _ _ r Hq); eexists.
      - exists t, []. rewrite app_nil_r. auto. }
    destruct Hidle as (t' & l' & Ht & [E'|(Ew & k' & todo' & E')]).
    2:{ exists t', (l ++ l'). split; [done|]. split; [done|]. right. exists k', todo'. split; [|done].
      apply elem_of_app. left. by eapply elem_of_list_lookup_2. }
    destruct l as [|y l]; [done|]. destruct (turn_idle t' q y (l ++ l') E') as (t2 & l2 & Ht2 & Ew2 & E2).
    destruct i as [|i]; cbn in Hi.
    - injection Hi as ->. exists t2, ((l ++ l') ++ l2). split; [lia|]. auto.
    - pose proof (Hex t2) as Hs. rewrite Ew2 in Hs. cbn in Hs.
      destruct (step_moved handler started _ _ _ (fresh_at _) Hs) as
        [q' m k0 l0 todo0 Hp E0 Hh' E1|l0 l3 k0 q' m todo0 E0 E1 Hq' Hl|l0 k0 y0 todo0 todo' E0 E1 Hst Hr|l0 l3 k0 a0 todo0 E0 E1 Hl Hnd'
        |l0 l5 k0 q5 m5 todo0 E0 E1 Hq5 Hl5|l0 k0 q5 m5 todo0 E0 E1 Hr|l0 k0 todo0 E0 E1 Hr|l0 k0 todo' todo0 m E0 E1 Hr|l0 k0 todo0 E0 E1 Hr Hr2|l0 k0 E0 E1 Hr];
        rewrite E2 in E0; simplify_eq.
      destruct (IHi i ltac:(lia) (S t2) q' _ _ x Hq E1) as (t3 & l3 & ? & ? & ?).
      { rewrite lookup_app_l; [apply lookup_app_l_Some; exact Hi|]. apply lookup_lt_Some in Hi. rewrite app_length. lia. }
      exists t3, l3. split; [lia|]. auto.
  Qed.

  Lemma queued_ends_step r : (forall r', (r' < r)%nat -> held_ends r' /\ queued_ends r') -> queued_ends r.
  Proof.
    intros IH t y l k a todo q m Ey Hq (lq & R & E & Hm). apply elem_of_list_lookup in Hm as [i Hi].
    destruct Hranked as (Hsure & Hsfine & _). destruct (Hsure q m r Hq) as (r0 & Hr0 & Hle).
    destruct (taken_step r0 (fun r' (Hlt : (r' < r0)%nat) => IH r' ltac:(lia)) i t q lq R _ Hr0 E Hi) as (t' & l' & Ht & Ew & HE).
    destruct (wait_or' t t' y l k a todo Ht Ey) as [[l2 E2]|?]; [|done].
    eapply (goes_on_le t t'); [lia|]. pose proof (Hex t') as Hs. rewrite Ew in Hs. cbn in Hs.
    destruct HE as [E'|(k0 & todo0 & Hl & E')].
    - destruct (wait_or' t' (S t') y (l ++ l2) k a todo ltac:(lia) E2) as [[l3 E3]|?]; [|done].
      eapply (goes_on_le t' (S t')); [lia|]. eapply (held_ends_step r IH); [exact E3|].
      destruct (step_moved handler started _ _ _ (fresh_at _) Hs) as
        [q' m0 k0 l0 todo0 Hp E0 Hh' E1|l0 l4 k0 q' m0 todo0 E0 E1 Hq' Hl|l0 k0 y0 todo0 todo' E0 E1 Hst Hr|l0 l4 k0 a0 todo0 E0 E1 Hl Hnd'
        |l0 l5 k0 q5 m5 todo0 E0 E1 Hq5 Hl5|l0 k0 q5 m5 todo0 E0 E1 Hr|l0 k0 todo0 E0 E1 Hr|l0 k0 todo' todo0 m0 E0 E1 Hr|l0 k0 todo0 E0 E1 Hr Hr2|l0 k0 E0 E1 Hr];
        rewrite E' in E0; simplify_eq.
      eexists _, _, _. split; [by eexists|]. by eapply Hsfine.
    - destruct (step_moved handler started _ _ _ (fresh_at _) Hs) as
        [q' m0 k1 l0 todo1 Hp E0 Hh' E1|l0 l4 k1 q' m0 todo1 E0 E1 Hq' Hl'|l0 k1 y0 todo1 todo' E0 E1 Hst Hr|l0 l4 k1 a0 todo1 E0 E1 Hl' Hnd'
        |l0 l5 k1 q5 m5 todo1 E0 E1 Hq5 Hl5|l0 k1 q5 m5 todo1 E0 E1 Hr|l0 k1 todo1 E0 E1 Hr|l0 k1 todo' todo1 m0 E0 E1 Hr|l0 k1 todo1 E0 E1 Hr Hr2|l0 k1 E0 E1 Hr];
        rewrite E' in E0; simplify_eq.
      + exists (S t'), []. rewrite app_nil_r. split; [lia|]. by apply (Hr2 y m Hl _ _ a).
  Qed.

  Lemma all_end r : held_ends r /\ queued_ends r.
  Proof.
    induction r as [r IH] using lt_wf_ind. split; [by apply held_ends_step|by apply queued_ends_step].
  Qed.

  (** ** What follows for users *)
  Theorem ask_ends t p k q m todo w r : sure q m = Some r -> runs (e t) p k (Ask q m :: todo) w ->
    exists t', (t < t')%nat /\ runs (e t') p k todo false.
  Proof.
    intros Hq [l E]. destruct w.
    - destruct (wait_ends (S r) (fun r' _ => all_end r') t p l k (Ask q m) todo) as (t' & l' & ? & ?); [cbn; eauto|done|].
      exists t'. split; [done|]. by eexists.
    - destruct (turn t p l k _ E) as (t' & l' & Ht & Ew & E'); [done|]. pose proof (Hex t') as Hs. rewrite Ew in Hs. cbn in Hs.
      destruct (step_moved handler started _ _ _ (fresh_at _) Hs) as
        [q' m0 k0 l0 todo0 Hp E0 Hh' E1|l0 l3 k0 q' m0 todo0 E0 E1 Hq' Hl|l0 k0 y0 todo0 todo' E0 E1 Hst Hr|l0 l3 k0 a0 todo0 E0 E1 Hl Hnd'
        |l0 l5 k0 q5 m5 todo0 E0 E1 Hq5 Hl5|l0 k0 q5 m5 todo0 E0 E1 Hr|l0 k0 todo0 E0 E1 Hr|l0 k0 todo' todo0 m0 E0 E1 Hr|l0 k0 todo0 E0 E1 Hr Hr2|l0 k0 E0 E1 Hr];
        rewrite E' in E0; simplify_eq.
      + destruct (wait_ends (S r) (fun r' _ => all_end r') (S t') p _ k0 (Ask q' m0) todo0 ltac:(cbn; eauto) E1) as (t2 & l2 & ? & ?).
        exists t2. split; [lia|]. by eexists.
      + exists (S t'). split; [lia|]. by eexists.
  Qed.
  Theorem begin_ends t p k y todo w r : rank0 y = Some r -> runs (e t) p k (Begin y :: todo) w ->
    exists t', (t < t')%nat /\ runs (e t') p k todo false.
  Proof.
    intros Hq [l E]. destruct w.
    - destruct (wait_ends (S r) (fun r' _ => all_end r') t p l k (Begin y) todo) as (t' & l' & ? & ?); [cbn; eauto|done|].
      exists t'. split; [done|]. by eexists.
    - destruct (turn t p l k _ E) as (t' & l' & Ht & Ew & E'); [done|]. pose proof (Hex t') as Hs. rewrite Ew in Hs. cbn in Hs.
      destruct (step_moved handler started _ _ _ (fresh_at _) Hs) as
        [q' m0 k0 l0 todo0 Hp E0 Hh' E1|l0 l3 k0 q' m0 todo0 E0 E1 Hq' Hl|l0 k0 y0 todo0 todo' E0 E1 Hst Hr|l0 l3 k0 a0 todo0 E0 E1 Hl Hnd'
        |l0 l5 k0 q5 m5 todo0 E0 E1 Hq5 Hl5|l0 k0 q5 m5 todo0 E0 E1 Hr|l0 k0 todo0 E0 E1 Hr|l0 k0 todo' todo0 m0 E0 E1 Hr|l0 k0 todo0 E0 E1 Hr Hr2|l0 k0 E0 E1 Hr];
        rewrite E' in E0; simplify_eq.
      + destruct (wait_ends (S r) (fun r' _ => all_end r') (S t') p _ k0 (Begin y0) todo0 ltac:(cbn; eauto) E1) as (t2 & l2 & ? & ?).
        exists t2. split; [lia|]. by eexists.
      + exists (S t'). split; [lia|]. by eexists.
  Qed.
  Theorem taken t q l R i m k r : rank q = Some r -> s_procs (e t) !! inl q = Some (Live l R) -> l !! i = Some (m, k) ->
    exists t', (t <= t')%nat /\ who t' = Some (inl q) /\
      ((exists l', s_procs (e t') !! inl q = Some (Live ((m, k) :: l') None)) \/ dead (e (S t')) (inl q)).
  Proof.
    intros Hq E Hi. destruct (taken_step r (fun r' _ => all_end r') i t q l R _ Hq E Hi) as (t' & l' & Ht & Ew & HE).
    exists t'. split; [done|]. split; [done|]. destruct HE as [E'|(k0 & todo0 & Hl & E')]; [eauto|]. right.
    pose proof (Hex t') as Hs. rewrite Ew in Hs. cbn in Hs.
    destruct (step_moved handler started _ _ _ (fresh_at _) Hs); simplify_eq; done.
  Qed.
End Proofs.
