(** Actors that ask each other in a circle reach a deadlock. *)
From Verif Require Export Waits_Proofs2.

Section Cycle.
  Context {K M : Type} `{Countable K}.
  Notation act := (action K M).
  Notation pid := (K + N)%type.
  Notation state := (state K M).
  Variable handler : K -> M -> list act -> Prop.
  Variable started : K -> list act -> Prop.
  Notation step := (step handler started).
  Notation reachable := (reachable handler started).

  (** Each actor of the list may, for its message, first of all ask the next one; the last asks [z]. *)
  Fixpoint asks_on (c : list (K * M)) (z : K * M) : Prop :=
    match c with
    | [] => True
    | x :: c' => (exists t, handler x.1 x.2 (Ask (default z (head c')).1 (default z (head c')).2 :: t)) /\ asks_on c' z
    end.

  (** The questions went from a task up to [x], who has not yet begun with it. *)
  Definition on_the_way (l : list K) (s : state) (pre : list K) (x : K * M) (rest : list (K * M)) : Prop :=
    reachable l s /\
    (forall p : pid, p = inr 0%N \/ p ∈ inl <$> pre -> exists k todo, runs s p k todo true) /\
    (exists k, s_procs s !! inl x.1 = Some (Live [(x.2, k)] None)) /\
    (forall b, b ∈ rest.*1 -> s_procs s !! inl b = Some (Live [] None)) /\
    (forall p : pid, is_Some (s_procs s !! p) -> p = inr 0%N \/ p ∈ inl <$> pre ++ x.1 :: rest.*1).

  Lemma put_lookup (q : pid) (m : M) (k : option pid) (ps : gmap pid (proc K M)) p : p <> q -> put q m k ps !! p = ps !! p.
  Proof. intros. unfold put. by rewrite lookup_alter_ne. Qed.
  Lemma put_is_Some (q : pid) (m : M) (k : option pid) (ps : gmap pid (proc K M)) p : is_Some (put q m k ps !! p) -> is_Some (ps !! p).
  Proof. unfold put. destruct (decide (p = q)) as [->|]; [rewrite lookup_alter|by rewrite lookup_alter_ne]. by destruct (ps !! q). Qed.
  Lemma alive_live (ps : gmap pid (proc K M)) p l r : ps !! p = Some (Live l r) -> alive ps p = true.
  Proof. intros E. unfold alive. by rewrite E. Qed.
  Lemma runs_put (s : state) (p : pid) k todo (w : bool) (q : pid) (m : M) (k' : option pid) n :
    runs s p k todo w -> runs (State (put q m k' (s_procs s)) n) p k todo w.
  Proof.
    intros [l E]. unfold runs, put. cbn [s_procs]. destruct (decide (p = q)) as [->|].
    - rewrite lookup_alter, E. cbn. eauto.
    - rewrite lookup_alter_ne by done. eauto.
  Qed.

  (** [x] takes its message and asks [y], who is there. *)
  Lemma asks_next l (s : state) a m k y my t :
    reachable l s -> s_procs s !! inl a = Some (Live [(m, k)] None) -> handler a m (Ask y my :: t) ->
    (exists l' r, s_procs s !! inl y = Some (Live l' r)) ->
    exists s', reachable l s' /\ s_procs s' = put (inl y) my (Some (inl a)) (<[inl a := Live [] (Some (Run k (Ask y my :: t) true))]> (s_procs s)).
  Proof.
    intros Hs E Hh (l' & r & Ey).
    assert (step s (Some (inl a)) (State (<[inl a := Live [] (Some (Run k (Ask y my :: t) false))]> (s_procs s)) (s_next s))) as Hs1.
    { by eapply PTake. }
    pose proof (ReachStep _ _ _ _ _ _ Hs Hs1) as Hr. eexists. split.
    - eapply ReachStep; [exact Hr|]. instantiate (2 := Some (inl a)). cbn. eapply PAsk; cbn [s_procs]; [by rewrite lookup_insert|].
      destruct (decide (y = a)) as [->|]; [eapply alive_live; by rewrite lookup_insert|].
      eapply alive_live. rewrite lookup_insert_ne by congruence. done.
    - cbn [s_procs]. by rewrite insert_insert.
  Qed.

  Lemma way_on l s pre x y rest t : NoDup (pre ++ x.1 :: y.1 :: rest.*1) ->
    on_the_way l s pre x (y :: rest) -> handler x.1 x.2 (Ask y.1 y.2 :: t) ->
    exists s', on_the_way l s' (pre ++ [x.1]) y rest.
  Proof.
    intros Hn (Hr & Hw & (k & Ex) & Hi & Ha) Hh.
    assert (x.1 <> y.1) as Hxy. { intros E. apply NoDup_app in Hn as (_ & _ & Hn). apply NoDup_cons in Hn as [Hn _]. apply Hn. apply elem_of_cons. by left. }
    assert (s_procs s !! inl y.1 = Some (Live [] None)) as Ey. { apply Hi. rewrite fmap_cons. left. }
    destruct (asks_next l s x.1 x.2 k y.1 y.2 t Hr Ex Hh) as (s' & Hr' & E'); [eauto|].
    exists s'. split; [done|]. split_and!.
    - intros p Hp. destruct (decide (p = inl x.1)) as [->|Hpx].
      + exists k, (Ask y.1 y.2 :: t). exists []. rewrite E', put_lookup by congruence. by rewrite lookup_insert.
      + destruct (Hw p) as (k' & todo & l' & El).
        { rewrite fmap_app in Hp. destruct Hp as [?|Hp]; [by left|]. apply elem_of_app in Hp as [?|Hp]; [by right|].
          cbn in Hp. apply elem_of_list_singleton in Hp. done. }
        assert (p <> inl y.1) as Hpy. { intros ->. rewrite Ey in El. done. }
        exists k', todo, l'. rewrite E', put_lookup by done. by rewrite lookup_insert_ne by congruence.
    - exists (Some (inl x.1)). rewrite E'. unfold put. rewrite lookup_alter, lookup_insert_ne by congruence. rewrite Ey. done.
    - intros b Hb. apply NoDup_app in Hn as (_ & _ & Hn). apply NoDup_cons in Hn as [Hnx Hn]. apply NoDup_cons in Hn as [Hny _].
      rewrite E', put_lookup by (intros [= E]; by rewrite E in Hb). rewrite lookup_insert_ne.
      + apply Hi. rewrite fmap_cons. by right.
      + intros [= E]. apply Hnx. rewrite E. by right.
    - intros p Hp. rewrite <-app_assoc. cbn [app]. rewrite E' in Hp. apply put_is_Some in Hp. destruct (decide (p = inl x.1)) as [->|].
      + right. rewrite fmap_app. apply elem_of_app. right. rewrite fmap_cons. left.
      + rewrite lookup_insert_ne in Hp by congruence. apply Ha in Hp. by rewrite fmap_cons in Hp.
  Qed.

  Lemma way_ends l z : forall rest s pre x, NoDup (pre ++ x.1 :: rest.*1) -> on_the_way l s pre x rest ->
    asks_on (x :: rest) z -> z.1 ∈ pre ++ x.1 :: rest.*1 ->
    exists s', reachable l s' /\ deadlock s' (fun p => p = inr 0%N \/ p ∈ inl <$> pre ++ x.1 :: rest.*1).
  Proof.
    induction rest as [|y rest IH]; intros s pre x Hn Hs Hc Hz.
    - destruct Hc as [(t & Hh) _]. cbn [head default] in Hh. destruct Hs as (Hr & Hw & (k & Ex) & _ & Ha).
      destruct (asks_next l s x.1 x.2 k z.1 z.2 t Hr Ex Hh) as (s' & Hr' & E').
      { apply elem_of_app in Hz as [Hz|Hz].
        - destruct (Hw (inl z.1)) as (k' & todo & l' & El); [right; apply elem_of_list_fmap; by exists z.1|]. eauto.
        - cbn in Hz. apply elem_of_list_singleton in Hz as ->. eauto. }
      exists s'. split; [done|]. split.
      + intros p Hp.
        assert (exists k' todo, runs (State (<[inl x.1 := Live [] (Some (Run k (Ask z.1 z.2 :: t) true))]> (s_procs s)) 0) p k' todo true) as (k1 & todo & H1).
        { destruct (decide (p = inl x.1)) as [->|].
          - eexists _, _, []. cbn [s_procs]. rewrite lookup_insert. reflexivity.
          - destruct (Hw p) as (k' & todo & l' & El).
            { rewrite fmap_app in Hp. destruct Hp as [?|Hp]; [by left|]. apply elem_of_app in Hp as [?|Hp]; [by right|].
              cbn in Hp. apply elem_of_list_singleton in Hp. done. }
            exists k', todo, l'. cbn [s_procs]. by rewrite lookup_insert_ne by congruence. }
        apply (runs_put _ p k1 todo true (inl z.1) z.2 (Some (inl x.1)) 0) in H1. destruct H1 as [l1 H1]. cbn [s_procs] in H1.
        exists k1, todo, l1. by rewrite E'.
      + intros p q Hp (l1 & r1 & E1 & _).
        assert (is_Some (s_procs s' !! q)) as Hq by eauto. rewrite E' in Hq. apply put_is_Some in Hq.
        destruct (decide (q = inl x.1)) as [->|].
        * right. rewrite fmap_app. apply elem_of_app. right. left.
        * rewrite lookup_insert_ne in Hq by congruence. by apply Ha.
    - destruct Hc as [(t & Hh) Hc]. cbn [head default] in Hh.
      destruct (way_on l s pre x y rest t) as (s1 & Hs1); [done|done|done|].
      assert (pre ++ x.1 :: (y :: rest).*1 = (pre ++ [x.1]) ++ y.1 :: rest.*1) as El by (rewrite <-app_assoc; done).
      rewrite El in *. exact (IH s1 _ _ Hn Hs1 Hc Hz).
  Qed.

  (** From the start, with these actors and one task that asks the first of them. *)
  Theorem cycle_deadlock c z : c <> [] -> NoDup c.*1 -> z.1 ∈ c.*1 -> asks_on c z ->
    exists s, reachable c.*1 s /\ deadlock s (fun p => p = inr 0%N \/ p ∈ inl <$> c.*1).
  Proof.
    intros Hne Hn Hz Hc. destruct c as [|x rest]; [done|]. clear Hne.
    set (l := (x :: rest).*1) in *.
    assert (forall b, b ∈ l -> s_procs (init (M := M) l) !! (inl b : pid) = Some (Live [] None)) as Hi.
    { intros b Hb. unfold init. cbn [s_procs]. apply elem_of_list_to_map.
      - rewrite <-list_fmap_compose. apply NoDup_fmap_2; [intros ?? [=]; done|done].
      - apply elem_of_list_fmap. by exists b. }
    assert (forall p : pid, is_Some (s_procs (init (M := M) l) !! p) -> p ∈ inl <$> l) as Ha.
    { intros p [v E]. unfold init in E. cbn [s_procs] in E. apply elem_of_list_to_map_2 in E.
      apply elem_of_list_fmap in E as (b & [= -> _] & Hb). apply elem_of_list_fmap. by exists b. }
    set (todo := [Ask x.1 x.2]).
    assert (step (init l) None (State (<[inr 0%N := Live [] (Some (Run None todo false))]> (s_procs (init l))) 1)) as H1.
    { exact (ETask (init l) todo). }
    set (s1 := State (<[inr 0%N := Live [] (Some (Run None todo false))]> (s_procs (init l))) 1) in *.
    assert (step s1 (Some (inr 0%N)) (State (put (inl x.1) x.2 (Some (inr 0%N)) (<[inr 0%N := Live [] (Some (Run None todo true))]> (s_procs s1))) 1)) as H2.
    { eapply PAsk with (s := s1); cbn [s_procs s1]; [by rewrite lookup_insert|]. eapply alive_live. rewrite lookup_insert_ne by done. apply Hi. left. }
    set (s2 := State _ 1) in H2.
    destruct (way_ends l z rest s2 [] x) as (s' & Hr & Hd); [done| |done|done|by exists s'].
    split; [eapply ReachStep; [eapply ReachStep; [apply ReachInit|exact H1]|exact H2]|]. split_and!.
    - intros p [->|Hp]; [|by apply elem_of_nil in Hp]. exists None, todo, []. cbn [s_procs s2]. rewrite put_lookup by done. by rewrite lookup_insert.
    - exists (Some (inr 0%N)). cbn [s_procs s2 s1]. unfold put. rewrite lookup_alter, !lookup_insert_ne by done. rewrite Hi; [done|left].
    - intros b Hb. apply NoDup_cons in Hn as [Hx _]. cbn [s_procs s2 s1]. rewrite put_lookup by (intros [= ->]; done).
      rewrite !lookup_insert_ne by done. apply Hi. by right.
    - intros p Hp. cbn [s_procs s2 s1] in Hp. apply put_is_Some in Hp. destruct (decide (p = inr 0%N)) as [->|]; [by left|].
      rewrite !lookup_insert_ne in Hp by congruence. right. by apply Ha in Hp.
  Qed.

  (** A handler that waits for a new actor whose start asks back. *)
  Theorem begin_deadlock a m c m' t t' : a <> c -> handler a m (Begin c :: t) -> started c (Ask a m' :: t') ->
    exists s, reachable [a] s /\ deadlock s (fun p => p = inr 0%N \/ p = inl a \/ p = inl c).
  Proof.
    intros Hac Hh Hst.
    set (todo := [Ask a m]).
    set (s0 := init [a] : state).
    assert (forall p : pid, s_procs s0 !! p = if decide (p = inl a) then Some (Live [] None) else None) as Hi.
    { intros p. unfold s0, init. cbn [s_procs fmap list_fmap list_to_map foldr]. cbn. destruct (decide (p = inl a)) as [->|].
      - by rewrite lookup_insert.
      - rewrite lookup_insert_ne by congruence. apply lookup_empty. }
    set (s1 := State (<[inr 0%N := Live [] (Some (Run None todo false))]> (s_procs s0)) 1).
    assert (step s0 None s1) as H1 by exact (ETask s0 todo).
    set (s2 := State (put (inl a) m (Some (inr 0%N)) (<[inr 0%N := Live [] (Some (Run None todo true))]> (s_procs s1))) 1).
    assert (step s1 (Some (inr 0%N)) s2) as H2.
    { eapply PAsk with (s := s1); cbn [s_procs s1]; [by rewrite lookup_insert|]. eapply alive_live. rewrite lookup_insert_ne by done.
      rewrite Hi. by rewrite decide_True. }
    assert (s_procs s2 !! inl a = Some (Live [(m, Some (inr 0%N))] None)) as Ea.
    { cbn [s_procs s2 s1]. unfold put. rewrite lookup_alter, !lookup_insert_ne by done. rewrite Hi. by rewrite decide_True. }
    set (s3 := State (<[inl a := Live [] (Some (Run (Some (inr 0%N)) (Begin c :: t) false))]> (s_procs s2)) 1).
    assert (step s2 (Some (inl a)) s3) as H3 by (eapply PTake; done).
    set (s4 := State (<[inl c := Live [] (Some (Run (Some (inl a)) (Ask a m' :: t') false))]>
                 (<[inl a := Live [] (Some (Run (Some (inr 0%N)) (Begin c :: t) true))]> (s_procs s3))) 1).
    assert (step s3 (Some (inl a)) s4) as H4.
    { eapply PBegin with (s := s3); [cbn [s_procs s3]; by rewrite lookup_insert| |done].
      cbn [s_procs s3 s2 s1]. rewrite lookup_insert_ne by congruence. rewrite put_lookup by congruence.
      rewrite !lookup_insert_ne by done. rewrite Hi. by rewrite decide_False by congruence. }
    set (s5 := State (put (inl a) m' (Some (inl c)) (<[inl c := Live [] (Some (Run (Some (inl a)) (Ask a m' :: t') true))]> (s_procs s4))) 1).
    assert (step s4 (Some (inl c)) s5) as H5.
    { eapply PAsk with (s := s4); cbn [s_procs s4]; [by rewrite lookup_insert|]. eapply alive_live. rewrite lookup_insert_ne by congruence.
      by rewrite lookup_insert. }
    exists s5. split.
    { eapply ReachStep; [|exact H5]. eapply ReachStep; [|exact H4]. eapply ReachStep; [|exact H3]. eapply ReachStep; [|exact H2].
      eapply ReachStep; [|exact H1]. apply ReachInit. }
    split.
    - intros p [->|[->| ->]].
      + exists None, todo, []. cbn [s_procs s5 s4 s3 s2 s1]. rewrite put_lookup by done. rewrite !lookup_insert_ne by done.
        rewrite put_lookup by done. by rewrite lookup_insert.
      + exists (Some (inr 0%N)), (Begin c :: t), [(m', Some (inl c))]. cbn [s_procs s5 s4]. unfold put. rewrite lookup_alter.
        rewrite !lookup_insert_ne by congruence. by rewrite lookup_insert.
      + exists (Some (inl a)), (Ask a m' :: t'), []. cbn [s_procs s5]. rewrite put_lookup by congruence. by rewrite lookup_insert.
    - intros p q _ (l1 & r1 & E1 & _). assert (is_Some (s_procs s5 !! q)) as Hq by eauto.
      destruct (decide (q = inr 0%N)) as [|]; [by left|]. destruct (decide (q = inl a)) as [|]; [by right; left|].
      destruct (decide (q = inl c)) as [|]; [by right; right|]. exfalso.
      cbn [s_procs s5 s4 s3 s2 s1] in Hq. rewrite put_lookup in Hq by done. rewrite !lookup_insert_ne in Hq by congruence.
      rewrite put_lookup in Hq by done. rewrite !lookup_insert_ne in Hq by congruence. rewrite Hi, decide_False in Hq by done. by destruct Hq.
  Qed.
End Cycle.
