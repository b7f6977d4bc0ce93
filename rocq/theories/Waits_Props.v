(** Properties of waiting for other actors. *)
From Verif Require Import Waits_Proofs3 Waits_Exec Waits_Cycle.

(** C96: if the actors have ranks such that each waits only for lower ones, every wait for one of them ends, whatever
    the others do, and every message of theirs is taken. *)
Theorem C96_answered {K M : Type} `{Countable K} handler started rank sure rank0 (names : list K) (e : nat -> state K M) who :
  ranked handler started rank sure rank0 -> execution handler started e who -> fair e who -> reachable handler started names (e 0%nat) ->
  forall t p k q m todo w r, sure q m = Some r -> runs (e t) p k (Ask q m :: todo) w ->
  exists t', (t < t')%nat /\ runs (e t') p k todo false.
Proof. intros Hr He Hf Hs. eapply ask_ends; try done. by eapply reachable_inv. Qed.
Print Assumptions C96_answered.

Theorem C96_begun {K M : Type} `{Countable K} handler started rank sure rank0 (names : list K) (e : nat -> state K M) who :
  ranked handler started rank sure rank0 -> execution handler started e who -> fair e who -> reachable handler started names (e 0%nat) ->
  forall t p k y todo w r, rank0 y = Some r -> runs (e t) p k (Begin y :: todo) w ->
  exists t', (t < t')%nat /\ runs (e t') p k todo false.
Proof. intros Hr He Hf Hs. eapply begin_ends; try done. by eapply reachable_inv. Qed.
Print Assumptions C96_begun.

Theorem C96_taken {K M : Type} `{Countable K} handler started rank sure rank0 (names : list K) (e : nat -> state K M) who :
  ranked handler started rank sure rank0 -> execution handler started e who -> fair e who -> reachable handler started names (e 0%nat) ->
  forall t q l R i m k r, rank q = Some r -> s_procs (e t) !! inl q = Some (Live l R) -> l !! i = Some (m, k) ->
  exists t', (t <= t')%nat /\ who t' = Some (inl q) /\
    ((exists l', s_procs (e t') !! inl q = Some (Live ((m, k) :: l') None)) \/ dead (e (S t')) (inl q)).
Proof. intros Hr He Hf Hs. eapply taken; try done. by eapply reachable_inv. Qed.
Print Assumptions C96_taken.

(** Such executions exist, from every state the program can get to. *)
Theorem C96_exists {K M : Type} `{Countable K} (handler : K -> M -> list (action K M) -> Prop) (started : K -> list (action K M) -> Prop) names (s : state K M) :
  (exists pick, forall q m, handler q m (pick q m)) -> (exists pick, forall q, started q (pick q)) ->
  reachable handler started names s -> exists e who, e 0%nat = s /\ execution handler started e who /\ fair e who.
Proof.
  intros [pick Hp] [pick0 Hp0] Hs. exists (states pick pick0 s), (Waits_Exec.moves pick pick0 s).
  split; [done|]. split; [by apply states_execution|]. apply (states_fair handler started); try done. by eapply reachable_fresh.
Qed.
Print Assumptions C96_exists.

(** Tasks that wait for each other only do so for ever, whatever happens elsewhere. *)
Theorem C96_deadlock {K M : Type} `{Countable K} handler started (names : list K) (e : nat -> state K M) who D :
  execution handler started e who -> reachable handler started names (e 0%nat) -> deadlock (e 0%nat) D ->
  forall t p, D p -> exists k todo, runs (e 0%nat) p k todo true /\ runs (e t) p k todo true /\ who t <> Some p.
Proof.
  intros He Hs Hd t.
  assert (reachable handler started names (e t) /\ deadlock (e t) D /\
    forall p k todo, D p -> runs (e 0%nat) p k todo true -> runs (e t) p k todo true) as (Hr & Hdt & Hk).
  { induction t as [|t (Hr & Hdt & Hk)]; [eauto|].
    destruct (deadlock_step handler started _ _ _ D (reachable_fresh _ _ _ _ Hr) Hdt (He t)) as [Hd' Hk']. split; [by eapply ReachStep|]. split; [done|].
    intros p k todo Hp H0. eauto. }
  intros p Hp. destruct Hd as [Hw _]. destruct (Hw p Hp) as (k & todo & H0). exists k, todo. split; [done|]. split; [by apply Hk|].
  intros Ew. pose proof (He t) as Hst. rewrite Ew in Hst. cbn in Hst.
  destruct (Hk p k todo Hp H0) as [l E]. pose proof (step_moved handler started _ _ _ (reachable_fresh _ _ _ _ Hr) Hst) as Hm.
  pose proof (moved_nw _ _ _ _ _ _ Hm E). done.
Qed.
Print Assumptions C96_deadlock.

(** Ranks are needed: a circle of actors that may ask each other comes to a deadlock, as does a handler that waits for
    a new actor whose start asks back. *)
Theorem C96_circle {K M : Type} `{Countable K} (handler : K -> M -> list (action K M) -> Prop) (started : K -> list (action K M) -> Prop) (c : list (K * M)) z :
  c <> [] -> NoDup c.*1 -> z.1 ∈ c.*1 -> asks_on handler c z ->
  exists s, reachable handler started c.*1 s /\ deadlock s (fun p => p = inr 0%N \/ p ∈ inl <$> c.*1).
Proof. apply cycle_deadlock. Qed.
Print Assumptions C96_circle.
Theorem C96_start_asks_back {K M : Type} `{Countable K} (handler : K -> M -> list (action K M) -> Prop) (started : K -> list (action K M) -> Prop) a m c m' t t' :
  a <> c -> handler a m (Begin c :: t) -> started c (Ask a m' :: t') ->
  exists s, reachable handler started [a] s /\ deadlock s (fun p => p = inr 0%N \/ p = inl a \/ p = inl c).
Proof. apply begin_deadlock. Qed.
Print Assumptions C96_start_asks_back.

(** A teller who asks the vault, and a visitor who may do anything. *)
Inductive bank := Vault | Teller | Visitor.
Global Instance bank_eq : EqDecision bank.
Proof. solve_decision. Defined.
Global Instance bank_countable : Countable bank.
Proof.
  refine (inj_countable' (fun b => match b with Vault => 0%N | Teller => 1%N | Visitor => 2%N end)
    (fun n => match n with 0%N => Vault | 1%N => Teller | _ => Visitor end) _). by intros [].
Defined.
Definition bank_handler (q : bank) (m : bool) (todo : list (action bank bool)) : Prop :=
  match q with
  | Vault => todo = [Tell Visitor m]
  | Teller => todo = if m then [Ask Vault true; Begin Visitor; Pause] else [Ask Vault false; Delegate [Ask Vault true; Pause]]
  | Visitor => True
  end.
Definition bank_started (q : bank) (todo : list (action bank bool)) : Prop :=
  match q with Visitor => todo = [Fork [Ask Teller true; Hang]] | _ => todo = [] end.
Example C96_case :
  ranked bank_handler bank_started (fun q => match q with Vault => Some 0%nat | Teller => Some 1%nat | Visitor => None end)
    (fun q _ => match q with Vault => Some 0%nat | Teller => Some 1%nat | Visitor => None end)
    (fun q => match q with Visitor => Some 0%nat | _ => None end).
Proof.
  split_and!.
  - intros [] m r [= <-]; eauto.
  - intros [] m todo r [= <-] Hh; cbn in Hh; subst; [|destruct m]; repeat constructor; cbn; eauto.
  - intros [] m todo r [= <-] Hh; cbn in Hh; subst; [|destruct m]; repeat constructor; cbn; eauto.
  - intros [] todo r [= <-] Hh; cbn in Hh; subst; repeat constructor.
  - intros [] todo r [= <-] Hh; cbn in Hh; subst; repeat constructor.
Qed.
Example C96_exists_case : exists e who, execution bank_handler bank_started e who /\ fair e who /\
  reachable bank_handler bank_started [Vault; Teller] (e 0%nat) /\ runs (e 0%nat) (inr 0%N) None [Ask Teller true; Reply] false.
Proof.
  assert (reachable bank_handler bank_started [Vault; Teller]
    (State (<[inr 0%N := Live [] (Some (Run None [Ask Teller true; Reply] false))]> (s_procs (init [Vault; Teller]))) 1)) as Hr.
  { eapply ReachStep; [apply ReachInit|]. instantiate (1 := None). exact (ETask (init [Vault; Teller]) [Ask Teller true; Reply]). }
  assert (exists pick, forall q m, bank_handler q m (pick q m)) as Hp.
  { exists (fun (q : bank) (m : bool) => match q with Vault => [Tell Visitor m]
      | Teller => if m then [Ask Vault true; Begin Visitor; Pause] else [Ask Vault false; Delegate [Ask Vault true; Pause]] | Visitor => [] end).
    by intros [] []. }
  assert (exists pick, forall q, bank_started q (pick q)) as Hp0.
  { exists (fun q : bank => match q with Visitor => [Fork [Ask Teller true; Hang]] | _ => [] end). by intros []. }
  destruct (C96_exists _ _ _ _ Hp Hp0 Hr) as (e & who & E & He & Hf).
  exists e, who. rewrite E. split_and!; [done|done|done|]. exists []. cbn [s_procs]. by rewrite lookup_insert.
Qed.
(** Two actors who ask each other. *)
Example C96_circle_case : exists s, reachable (fun (q : bank) (m : unit) todo => todo = [Ask (match q with Vault => Teller | _ => Vault end) tt])
  (fun _ _ => True) [Vault; Teller] s /\ deadlock s (fun p => p = inr 0%N \/ p ∈ inl <$> [Vault; Teller]).
Proof.
  apply (C96_circle _ _ [(Vault, tt); (Teller, tt)] (Vault, tt)); [done| |left|].
  - apply NoDup_cons. split; [|apply NoDup_singleton]. by intros ?%elem_of_list_singleton.
  - cbn. eauto.
Qed.
(** A handler that waits for its own answer. *)
Example C96_self_case : exists s, reachable (fun (q : bank) (m : unit) todo => todo = [Ask q m]) (fun _ _ => True) [Vault] s /\
  deadlock s (fun p => p = inr 0%N \/ p ∈ inl <$> [Vault]).
Proof. apply (C96_circle _ _ [(Vault, tt)] (Vault, tt)); [done|apply NoDup_singleton|left|]. cbn. eauto. Qed.
