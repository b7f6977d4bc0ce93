(** Proofs about waiting tasks: what each step leaves alone, the invariant of ranks, and progress. *)
From Verif Require Export Waits_Spec.

Section Proofs.
  Context {K M : Type} `{Countable K}.
  Notation act := (action K M).
  Notation pid := (K + N)%type.
  Notation state := (state K M).
  Variable handler : K -> M -> list act -> Prop.
  Variable started : K -> list act -> Prop.
  Notation pstep := (pstep handler started).
  Notation step := (step handler started).

  (** ** The primitive changes of the tasks *)

  Lemma resume_spec (x : proc K M) :
    resume x = x \/ exists l k a todo, x = Live l (Some (Run k (a :: todo) true)) /\ resume x = Live l (Some (Run k todo false)).
  Proof.
    destruct x as [l [[k [|a todo] [|]]|]|]; cbn; auto. right. eauto 10.
  Qed.

  (** A task after some channels were used or dropped: as before, or no longer waiting. *)
  Definition woken (x y : proc K M) : Prop := y = x \/ y = resume x.

  Lemma resume_woken x : woken x (resume x).
  Proof. right. reflexivity. Qed.
  Lemma resume_resume (x : proc K M) : resume (resume x) = resume x.
  Proof. by destruct x as [l [[k [|a [|b todo]] [|]]|]|]. Qed.
  Lemma woken_trans x y z : woken x y -> woken y z -> woken x z.
  Proof.
    intros [->| ->] [->| ->]; unfold woken; auto. right. apply resume_resume.
  Qed.

  Lemma wake_lookup (k : option pid) (ps : gmap pid (proc K M)) p :
    exists f, wake k ps !! p = f <$> ps !! p /\ (forall x, woken x (f x)) /\ (k = Some p -> forall x, f x = resume x)
      /\ (k = Some p \/ forall x, f x = x).
  Proof.
    destruct k as [p'|]; cbn.
    - destruct (decide (p = p')) as [->|Hne].
      + exists resume. rewrite lookup_alter. split; [done|]. split; [intros; apply resume_woken|auto].
      + exists id. rewrite lookup_alter_ne by done. split; [by destruct (ps !! p)|]. split; [left; done|]. split; [congruence|by right].
    - exists id. split; [by destruct (ps !! p)|]. split; [left; done|]. split; [done|by right].
  Qed.

  Lemma wake_all_lookup (l : list (M * option pid)) (ps : gmap pid (proc K M)) p :
    exists f, wake_all l ps !! p = f <$> ps !! p /\ (forall x, woken x (f x)) /\ ((exists m, (m, Some p) ∈ l) -> forall x, f x = resume x)
      /\ ((exists m, (m, Some p) ∈ l) \/ forall x, f x = x).
  Proof.
    induction l as [|[m k] l IH]; cbn.
    - exists id. split; [by destruct (ps !! p)|]. split; [left; done|]. split; [|by right]. intros [m Hm]. by apply elem_of_nil in Hm.
    - destruct IH as (f & Ef & Hf & Hr & Hi). destruct (wake_lookup k (wake_all l ps) p) as (g & Eg & Hg & Hgr & Hgi).
      unfold wake_all in *. rewrite Eg, Ef. exists (g ∘ f). split; [by destruct (ps !! p)|]. split; [|split].
      + intros x. cbn. eapply woken_trans; [apply Hf|apply Hg].
      + intros [m' Hm] x. cbn. apply elem_of_cons in Hm as [Hm|Hm].
        * injection Hm as _ E. rewrite Hgr by done. destruct (Hf x) as [->| ->]; [done|apply resume_resume].
        * rewrite Hr by eauto. destruct (Hg (resume x)) as [->| ->]; [done|apply resume_resume].
      + destruct Hgi as [->|Hgi]; [left; exists m; set_solver|]. destruct Hi as [[m' Hm]|Hi]; [left; exists m'; set_solver|].
        right. intros x. cbn. by rewrite Hi.
  Qed.

  (** What a step of [p] may do to another task [x]: nothing, a message at the end of the mailbox, or the end of a wait. *)
  Inductive touched (s : state) (p x : pid) (a : option (proc K M)) : option (proc K M) -> Prop :=
  | TSame : touched s p x a a
  | TMail l r m k : a = Some (Live l r) -> (forall y, k = Some y -> y = p \/ owes s p y) -> touched s p x a (Some (Live (l ++ [(m, k)]) r))
  | TWake y : a = Some y -> owes s p x -> touched s p x a (Some (resume y))
  | TNew k todo : a = None -> (forall y, x = inl y -> started y todo) -> (forall y, k = Some y -> y = p \/ owes s p y) ->
      touched s p x a (Some (Live [] (Some (Run k todo false)))).

  Lemma put_other (q : pid) (m : M) (k : option pid) (ps : gmap pid (proc K M)) (s : state) (p x : pid) (a : option (proc K M)) :
    (forall y, k = Some y -> y = p \/ owes s p y) -> ps !! x = a -> touched s p x a (put q m k ps !! x).
  Proof.
    intros Hk E. unfold put. destruct (decide (x = q)) as [->|Hne].
    - rewrite lookup_alter, E. destruct a as [[l r|]|]; cbn; [econstructor; eauto|constructor..].
    - rewrite lookup_alter_ne by done. rewrite E. constructor.
  Qed.

  Lemma wake_other (k : option pid) (ps : gmap pid (proc K M)) (s : state) (p x : pid) a : (k = Some x -> owes s p x) -> ps !! x = a -> touched s p x a (wake k ps !! x).
  Proof.
    intros Ho E. destruct (wake_lookup k ps x) as (f & -> & Hf & _ & Hi). rewrite E. destruct a as [a|]; cbn; [|constructor].
    destruct Hi as [Hi|Hi]; [|rewrite Hi; constructor].
    destruct (Hf a) as [->| ->]; [constructor|by constructor; auto].
  Qed.

  Definition fresh (s : state) : Prop := forall n, (s_next s <= n)%N -> s_procs s !! inr n = None.

  Lemma fresh_insert_inl (ps : gmap pid (proc K M)) n q x : (forall m, (n <= m)%N -> ps !! inr m = None) ->
    forall m, (n <= m)%N -> <[inl q := x]> ps !! inr m = None.
  Proof. intros Hf m Hm. rewrite lookup_insert_ne by done. auto. Qed.

  Lemma step_other s p s' x : fresh s -> pstep s p s' -> x <> p -> touched s p x (s_procs s !! x) (s_procs s' !! x).
  Proof.
    intros Hf Hs Hx. inversion Hs; subst; cbn [s_procs];
      try (rewrite lookup_insert_ne by done; constructor).
    - apply put_other; [naive_solver|]. by rewrite lookup_insert_ne.
    - apply put_other; [naive_solver|]. by rewrite lookup_insert_ne.
    - destruct (decide (x = inl y)) as [->|Hy].
      + rewrite lookup_insert. constructor; [done| |naive_solver]. intros ? [= <-]. done.
      + rewrite !lookup_insert_ne by done. constructor.
    - destruct (decide (x = inl y)) as [->|Hy].
      + rewrite lookup_insert. constructor; [done| |done]. intros ? [= <-]. done.
      + rewrite !lookup_insert_ne by done. constructor.
    - destruct (decide (x = inr (s_next s))) as [->|Hy].
      + rewrite lookup_insert. constructor; [|done|done]. apply Hf. lia.
      + rewrite !lookup_insert_ne by done. constructor.
    - destruct (decide (x = inr (s_next s))) as [->|Hy].
      + rewrite lookup_insert. constructor; [|done|]. { apply Hf. lia. }
        intros z ->. right. eexists _, _. split; [done|]. eauto.
      + rewrite !lookup_insert_ne by done. constructor.
    - apply put_other; [|by rewrite lookup_insert_ne]. intros z ->. right. eexists _, _. split; [done|]. eauto.
    - apply wake_other; [|by rewrite lookup_insert_ne]. intros ->. eexists _, _. split; [done|]. eauto.
    - apply wake_other; [|by rewrite lookup_insert_ne]. intros ->. eexists _, _. split; [done|]. eauto.
    - destruct (wake_all_lookup l (wake k (<[p:=Dead]> (s_procs s))) x) as (f & -> & Hf' & _ & Hi).
      destruct (wake_lookup k (<[p:=Dead]> (s_procs s)) x) as (g & -> & Hg & _ & Hgi). rewrite lookup_insert_ne by done.
      destruct (s_procs s !! x) as [a|] eqn:Ea; cbn; [|constructor].
      destruct (woken_trans _ _ _ (Hg a) (Hf' (g a))) as [->|E]; [constructor|].
      destruct Hgi as [->|Hgi].
      { rewrite E. constructor; [done|]. eexists _, _. split; [done|]. eauto. }
      destruct Hi as [Hi|Hi]; [|rewrite Hi, Hgi; constructor].
      rewrite E. constructor; [done|]. eexists _, _. split; [done|]. eauto.
    - apply wake_other; [|by rewrite lookup_insert_ne]. intros ->. eexists _, _. split; [done|]. eauto.
  Qed.

  Lemma step_fresh s o s' : fresh s -> step s o s' -> fresh s'.
  Proof.
    intros Hf Hs n Hn. destruct o as [p|]; cbn in Hs.
    - assert (Hp : is_Some (s_procs s !! p)) by (inversion Hs; subst; eauto).
      assert (Hnx : (s_next s <= s_next s')%N) by (inversion Hs; subst; cbn; lia).
      assert (Hne : inr n <> p).
      { intros <-. rewrite Hf in Hp by lia. by apply is_Some_None in Hp. }
      assert (E : s_procs s !! inr n = None) by (apply Hf; lia).
      pose proof (step_other s p s' (inr n) Hf Hs Hne) as Ht. rewrite E in Ht.
      inversion Ht as [|? ? ? ? Ha|? Ha|? ? Ha Hst Hk Hnew]; subst; try done.
      exfalso. symmetry in Hnew. clear Ht Ha Hst Hk.
      inversion Hs; subst; cbn [s_procs s_next] in *.
      all: try (rewrite lookup_insert_ne in Hnew by done; congruence).
      all: try (unfold put in Hnew; rewrite lookup_alter_ne in Hnew by done; rewrite lookup_insert_ne in Hnew by done; congruence).
      all: try (rewrite !lookup_insert_ne in Hnew by (done || (intros [= E']; lia)); congruence).
      + destruct (wake_lookup k0 (<[p:=Live l (Some (Run None todo0 false))]> (s_procs s)) (inr n)) as (f & Ef & _).
        rewrite Ef, lookup_insert_ne, E in Hnew by done. done.
      + destruct (wake_lookup k0 (<[p:=Live l (Some (Run None todo0 false))]> (s_procs s)) (inr n)) as (f & Ef & _).
        rewrite Ef, lookup_insert_ne, E in Hnew by done. done.
      + destruct (wake_all_lookup l (wake k0 (<[p:=Dead]> (s_procs s))) (inr n)) as (f & Ef & _).
        destruct (wake_lookup k0 (<[p:=Dead]> (s_procs s)) (inr n)) as (g & Eg & _).
        rewrite Ef, Eg, lookup_insert_ne, E in Hnew by done. done.
      + match type of Hnew with wake _ ?ps !! _ = _ => destruct (wake_lookup k0 ps (inr n)) as (f & Ef & _) end.
        rewrite Ef, lookup_insert_ne, E in Hnew by done. done.
    - inversion Hs; subst; cbn in *; [by apply Hf|]. rewrite lookup_insert_ne by (intros [= E]; lia). apply Hf. lia.
  Qed.

  Lemma estep_other s s' x : fresh s -> estep s s' -> is_Some (s_procs s !! x) -> s_procs s' !! x = s_procs s !! x.
  Proof.
    intros Hf Hs Hx. inversion Hs; subst; [done|]. cbn. rewrite lookup_insert_ne; [done|]. intros <-.
    rewrite Hf in Hx by lia. by apply is_Some_None in Hx.
  Qed.

  (** A task that runs something and does not move keeps it: a wait may end. *)
  Lemma runs_kept s o s' x l k todo w : fresh s -> step s o s' -> o <> Some x ->
    s_procs s !! x = Some (Live l (Some (Run k todo w))) ->
    exists l', s_procs s' !! x = Some (Live (l ++ l') (Some (Run k todo w))) \/
      (w = true /\ exists a todo', todo = a :: todo' /\ s_procs s' !! x = Some (Live l (Some (Run k todo' false)))).
  Proof.
    intros Hf Hs Ho E. destruct o as [p|]; cbn in Hs.
    - pose proof (step_other s p s' x Hf Hs ltac:(congruence)) as Ht. rewrite E in Ht.
      inversion Ht as [E'|l1 r m k' Ha Hk E'|y Ha Ho' E'|? ? Ha]; subst.
      + exists []. rewrite app_nil_r. auto.
      + injection Ha as <- <-. exists [(m, k')]. auto.
      + injection Ha as <-. exists []. rewrite app_nil_r. destruct todo as [|a todo], w; cbn in E'; auto.
        right. eauto.
      + done.
    - exists []. rewrite app_nil_r. left. rewrite (estep_other s s' x Hf Hs) by eauto. done.
  Qed.
  Lemma idle_kept s o s' x l : fresh s -> step s o s' -> o <> Some x ->
    s_procs s !! x = Some (Live l None) -> exists l', s_procs s' !! x = Some (Live (l ++ l') None).
  Proof.
    intros Hf Hs Ho E. destruct o as [p|]; cbn in Hs.
    - pose proof (step_other s p s' x Hf Hs ltac:(congruence)) as Ht. rewrite E in Ht.
      inversion Ht as [E'|l1 r m k' Ha Hk E'|y Ha Ho' E'|? ? Ha]; subst.
      + exists []. rewrite app_nil_r. auto.
      + injection Ha as <- <-. exists [(m, k')]. auto.
      + injection Ha as <-. exists []. rewrite app_nil_r. auto.
      + done.
    - exists []. rewrite app_nil_r. rewrite (estep_other s s' x Hf Hs) by eauto. done.
  Qed.

  (** ** What a step of a task does to the task itself, and to those it answers *)

  (** [y] no longer waits for what it waited for. *)
  Definition resumed (s s' : state) (y : pid) : Prop :=
    forall l k a todo, s_procs s !! y = Some (Live l (Some (Run k (a :: todo) true))) ->
      s_procs s' !! y = Some (Live l (Some (Run k todo false))).

  Definition queued (s : state) (p : pid) (q : K) (m : M) : Prop :=
    exists l r, s_procs s !! inl q = Some (Live l r) /\ (m, Some p) ∈ l.

  Inductive moved (s : state) (p : pid) (s' : state) : Prop :=
  | MTake q m k l todo : p = inl q -> s_procs s !! p = Some (Live ((m, k) :: l) None) -> handler q m todo ->
      s_procs s' !! p = Some (Live l (Some (Run k todo false))) -> moved s p s'
  | MAsk l l' k q m todo : s_procs s !! p = Some (Live l (Some (Run k (Ask q m :: todo) false))) ->
      s_procs s' !! p = Some (Live (l ++ l') (Some (Run k (Ask q m :: todo) true))) -> queued s' p q m ->
      Forall (fun x => snd x = Some p \/ snd x = None) l' -> moved s p s'
  | MBegin l k y todo todo' : s_procs s !! p = Some (Live l (Some (Run k (Begin y :: todo) false))) ->
      s_procs s' !! p = Some (Live l (Some (Run k (Begin y :: todo) true))) -> started y todo' ->
      runs s' (inl y) (Some p) todo' false -> moved s p s'
  | MGo l l' k a todo : s_procs s !! p = Some (Live l (Some (Run k (a :: todo) false))) ->
      s_procs s' !! p = Some (Live (l ++ l') (Some (Run k todo false))) ->
      Forall (fun x => snd x = Some p \/ snd x = None) l' -> a <> Die -> moved s p s'
  | MForward l l' k q m todo : s_procs s !! p = Some (Live l (Some (Run k (Forward q m :: todo) false))) ->
      s_procs s' !! p = Some (Live (l ++ l') (Some (Run None todo false))) ->
      (forall y, k = Some y -> queued s' y q m) -> Forall (fun x => snd x = k \/ snd x = None) l' -> moved s p s'
  | MForwardDead l k q m todo : s_procs s !! p = Some (Live l (Some (Run k (Forward q m :: todo) false))) ->
      s_procs s' !! p = Some (Live l (Some (Run None todo false))) ->
      (forall y, k = Some y -> resumed s s' y) -> moved s p s'
  | MReply l k todo : s_procs s !! p = Some (Live l (Some (Run k (Reply :: todo) false))) ->
      s_procs s' !! p = Some (Live l (Some (Run None todo false))) ->
      (forall y, k = Some y -> resumed s s' y) -> moved s p s'
  | MDelegate l k todo' todo n : s_procs s !! p = Some (Live l (Some (Run k (Delegate todo' :: todo) false))) ->
      s_procs s' !! p = Some (Live l (Some (Run None todo false))) ->
      runs s' (inr n) k todo' false -> moved s p s'
  | MDie l k todo : s_procs s !! p = Some (Live l (Some (Run k (Die :: todo) false))) ->
      s_procs s' !! p = Some Dead -> (forall y, k = Some y -> resumed s s' y) ->
      (forall y m, (m, Some y) ∈ l -> resumed s s' y) -> moved s p s'
  | MEnd (l : list (M * option pid)) k : s_procs s !! p = Some (Live l (Some (Run k [] false))) ->
      s_procs s' !! p = Some (match p with inl _ => Live l None | inr _ => Dead end) ->
      (forall y, k = Some y -> resumed s s' y) -> moved s p s'.

  Definition waitsb (x : proc K M) : bool := match x with Live _ (Some (Run _ _ w)) => w | _ => false end.
  Lemma woken_nw x y : waitsb x = false -> woken x y -> y = x.
  Proof. intros Hw [->| ->]; [done|]. by destruct x as [l [[k [|a todo] [|]]|]|]. Qed.

  Lemma wake_self (k : option pid) (ps : gmap pid (proc K M)) p x : ps !! p = Some x -> waitsb x = false -> wake k ps !! p = Some x.
  Proof.
    intros E Hw. destruct (wake_lookup k ps p) as (f & -> & Hf & _). rewrite E. cbn. f_equal. by apply woken_nw.
  Qed.

  Lemma put_at (q : pid) (m : M) (k : option pid) (ps : gmap pid (proc K M)) (p : pid) l r : ps !! p = Some (Live l r) ->
    exists l', put q m k ps !! p = Some (Live (l ++ l') r) /\ Forall (fun x => snd x = k \/ snd x = None) l'.
  Proof.
    intros E. unfold put. destruct (decide (p = q)) as [->|Hne].
    - rewrite lookup_alter, E. eexists. split; [reflexivity|]. repeat constructor.
    - exists []. by rewrite lookup_alter_ne, app_nil_r.
  Qed.
  Lemma put_put (q : pid) (m : M) (k : option pid) (ps : gmap pid (proc K M)) : is_Some (ps !! q) -> ps !! q <> Some Dead ->
    exists l r, put q m k ps !! q = Some (Live (l ++ [(m, k)]) r).
  Proof.
    intros [[l r|] E] Hd; [|done]. unfold put. rewrite lookup_alter, E. cbn. eauto.
  Qed.

  Lemma wake_resumed (k : option pid) (s s' : state) p x :
    s_procs s' = wake k (<[p := x]> (s_procs s)) -> (forall a, s_procs s !! p = Some a -> waitsb a = false) ->
    forall y, k = Some y -> resumed s s' y.
  Proof.
    intros E Hp y -> l k' a todo Ey. rewrite E. destruct (wake_lookup (Some y) (<[p := x]> (s_procs s)) y) as (f & -> & _ & Hf & _).
    assert (Hne : p <> y). { intros ->. specialize (Hp _ Ey). done. }
    rewrite lookup_insert_ne, Ey by done. cbn. by rewrite Hf.
  Qed.

  Lemma step_moved s p s' : fresh s -> pstep s p s' -> moved s p s'.
  Proof.
    intros Hf Hs. inversion Hs as [q m k l todo Hp E Hh|l k q m todo E Ha|l k q m todo E Ha|l k q m todo E|l k y todo todo' E Ey Hst
      |l k y todo E Ey|l k y todo todo' E Ey Hst|l k y todo E Ey|l k todo' todo E|l k todo' todo E|l k q m todo E Ha|l k q m todo E Ha|l k todo E|l k todo E|l k todo E
      |l k todo E|l k E]; subst.
    - eapply MTake; eauto. cbn. by rewrite lookup_insert.
    - match goal with |- moved _ _ (State (put ?q' ?m' ?k' ?ps') _) =>
        destruct (put_at q' m' k' ps' p l (Some (Run k (Ask q m :: todo) true))) as (l' & El & Hl'); [by rewrite lookup_insert|];
        destruct (put_put q' m' k' ps') as (l2 & r2 & E2) end.
      + destruct (decide (p = inl q)) as [->|Hne]; [rewrite lookup_insert; eauto|rewrite lookup_insert_ne by done].
        unfold alive in Ha. by destruct (s_procs s !! inl q).
      + destruct (decide (p = inl q)) as [->|Hne]; [by rewrite lookup_insert|rewrite lookup_insert_ne by done].
        unfold alive in Ha. by destruct (s_procs s !! inl q) as [[]|].
      + eapply MAsk; [done|exact El| |exact Hl']. exists (l2 ++ [(m, Some p)]), r2. split; [exact E2|]. set_solver.
    - eapply (MGo _ _ _ l [] k); [done| |by constructor|done]. rewrite app_nil_r. cbn. by rewrite lookup_insert.
    - match goal with |- moved _ _ (State (put ?q' ?m' ?k' ?ps') _) =>
        destruct (put_at q' m' k' ps' p l (Some (Run k todo false))) as (l' & El & Hl'); [by rewrite lookup_insert|] end.
      eapply MGo; [done|exact El| |done]. eapply Forall_impl; [exact Hl'|]. cbn. intros ? []; auto.
    - assert (p <> inl y) by (intros ->; congruence).
      eapply MBegin; [done| |exact Hst|]; cbn.
      + by rewrite lookup_insert_ne, lookup_insert.
      + eexists. cbn. by rewrite lookup_insert.
    - eapply (MGo _ _ _ l [] k); [done| |by constructor|done]. rewrite app_nil_r. cbn. by rewrite lookup_insert.
    - assert (p <> inl y) by (intros ->; congruence).
      eapply (MGo _ _ _ l [] k); [done| |by constructor|done]. rewrite app_nil_r. cbn. by rewrite lookup_insert_ne, lookup_insert.
    - eapply (MGo _ _ _ l [] k); [done| |by constructor|done]. rewrite app_nil_r. cbn. by rewrite lookup_insert.
    - assert (p <> inr (s_next s)). { intros ->. rewrite Hf in E by lia. done. }
      eapply (MGo _ _ _ l [] k); [done| |by constructor|done]. rewrite app_nil_r. cbn. by rewrite lookup_insert_ne, lookup_insert.
    - assert (p <> inr (s_next s)). { intros ->. rewrite Hf in E by lia. done. }
      eapply MDelegate; [done| |]; cbn.
      + by rewrite lookup_insert_ne, lookup_insert.
      + eexists. cbn. by rewrite lookup_insert.
    - match goal with |- moved _ _ (State (put ?q' ?m' ?k' ?ps') _) =>
        destruct (put_at q' m' k' ps' p l (Some (Run None todo false))) as (l' & El & Hl'); [by rewrite lookup_insert|];
        destruct (put_put q' m' k' ps') as (l2 & r2 & E2) end.
      + destruct (decide (p = inl q)) as [->|Hne]; [rewrite lookup_insert; eauto|rewrite lookup_insert_ne by done].
        unfold alive in Ha. by destruct (s_procs s !! inl q).
      + destruct (decide (p = inl q)) as [->|Hne]; [by rewrite lookup_insert|rewrite lookup_insert_ne by done].
        unfold alive in Ha. by destruct (s_procs s !! inl q) as [[]|].
      + eapply MForward; [done|exact El| |exact Hl']. intros y ->. exists (l2 ++ [(m, Some y)]), r2. split; [exact E2|]. set_solver.
    - eapply MForwardDead; [done| |].
      + cbn. apply wake_self; [by rewrite lookup_insert|done].
      + eapply wake_resumed; [reflexivity|]. rewrite E. by intros ? [= <-].
    - eapply MReply; [done| |].
      + cbn. apply wake_self; [by rewrite lookup_insert|done].
      + eapply wake_resumed; [reflexivity|]. rewrite E. by intros ? [= <-].
    - eapply (MGo _ _ _ l [] k); [done| |by constructor|done]. rewrite app_nil_r. cbn. by rewrite lookup_insert.
    - eapply (MGo _ _ _ l [] k); [done| |by constructor|done]. rewrite app_nil_r. cbn. by rewrite lookup_insert.
    - eapply MDie; [done| | |].
      + cbn. destruct (wake_all_lookup l (wake k (<[p:=Dead]> (s_procs s))) p) as (f & -> & Hf' & _).
        erewrite wake_self; [|by rewrite lookup_insert|done]. cbn. f_equal. by apply woken_nw.
      + intros y -> ly ky a todoy Ey. cbn [s_procs].
        destruct (wake_all_lookup l (wake (Some y) (<[p:=Dead]> (s_procs s))) y) as (f & -> & Hf' & _).
        destruct (wake_lookup (Some y) (<[p:=Dead]> (s_procs s)) y) as (g & -> & _ & Hg & _).
        rewrite lookup_insert_ne by (intros ->; congruence). rewrite Ey. cbn. f_equal.
        rewrite Hg by done. by apply woken_nw.
      + intros y m Hy ly ky a todoy Ey. cbn [s_procs].
        destruct (wake_all_lookup l (wake k (<[p:=Dead]> (s_procs s))) y) as (f & -> & _ & Hf' & _).
        destruct (wake_lookup k (<[p:=Dead]> (s_procs s)) y) as (g & -> & Hg & _).
        rewrite lookup_insert_ne by (intros ->; congruence). rewrite Ey. cbn. f_equal.
        rewrite Hf' by eauto. destruct (Hg (Live ly (Some (Run ky (a :: todoy) true)))) as [->| ->]; [done|].
        by rewrite resume_resume.
    - eapply MEnd; [done| |].
      + cbn. apply wake_self; [by rewrite lookup_insert|]. by destruct p.
      + eapply wake_resumed; [reflexivity|]. rewrite E. by intros ? [= <-].
  Qed.
End Proofs.
