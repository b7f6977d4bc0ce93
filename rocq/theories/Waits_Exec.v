(** Every state of waiting tasks has a continuation in which everyone gets their turn. *)
From Verif Require Export Waits_Proofs.

Section Exec.
  Context {K M : Type} `{Countable K}.
  Notation act := (action K M).
  Notation pid := (K + N)%type.
  Notation state := (state K M).
  Variable handler : K -> M -> list act -> Prop.
  Variable started : K -> list act -> Prop.
  (** A choice of what handlers and hooks do. *)
  Variable pick : K -> M -> list act.
  Variable pick0 : K -> list act.
  Hypothesis Hpick : forall q m, handler q m (pick q m).
  Hypothesis Hpick0 : forall y, started y (pick0 y).

  Definition exec (s : state) (p : pid) : option state :=
    let ps := s_procs s in
    match ps !! p with
    | Some (Live ((m, k) :: l) None) =>
        match p with
        | inl q => Some (State (<[p := Live l (Some (Run k (pick q m) false))]> ps) (s_next s))
        | inr _ => None
        end
    | Some (Live l (Some (Run k todo false))) =>
        match todo with
        | [] => Some (State (wake k (<[p := match p with inl _ => Live l None | inr _ => Dead end]> ps)) (s_next s))
        | a :: todo' =>
            let ps1 := <[p := Live l (Some (Run k todo' false))]> ps in
            let ps2 := <[p := Live l (Some (Run k todo true))]> ps in
            match a with
            | Ask q m => if alive ps (inl q) then Some (State (put (inl q) m (Some p) ps2) (s_next s)) else Some (State ps1 (s_next s))
            | Tell q m => Some (State (put (inl q) m None ps1) (s_next s))
            | Begin y =>
                match ps !! inl y with
                | None => Some (State (<[inl y := Live [] (Some (Run (Some p) (pick0 y) false))]> ps2) (s_next s))
                | Some _ => Some (State ps1 (s_next s))
                end
            | Launch y =>
                match ps !! inl y with
                | None => Some (State (<[inl y := Live [] (Some (Run None (pick0 y) false))]> ps1) (s_next s))
                | Some _ => Some (State ps1 (s_next s))
                end
            | Fork l' => Some (State (<[inr (s_next s) := Live [] (Some (Run None l' false))]> ps1) (s_next s + 1))
            | Delegate l' => Some (State (<[inr (s_next s) := Live [] (Some (Run k l' false))]>
                                            (<[p := Live l (Some (Run None todo' false))]> ps)) (s_next s + 1))
            | Forward q m =>
                let ps3 := <[p := Live l (Some (Run None todo' false))]> ps in
                if alive ps (inl q) then Some (State (put (inl q) m k ps3) (s_next s)) else Some (State (wake k ps3) (s_next s))
            | Reply => Some (State (wake k (<[p := Live l (Some (Run None todo' false))]> ps)) (s_next s))
            | Pause => Some (State ps1 (s_next s))
            | Hang => None
            | Die => Some (State (wake_all l (wake k (<[p := Dead]> ps))) (s_next s))
            end
        end
    | _ => None
    end.

  Lemma exec_step s p s' : exec s p = Some s' -> pstep handler started s p s'.
  Proof.
    unfold exec. intros Hs. repeat case_match; simplify_eq; try (by econstructor; eauto).
    all: first [by eapply PTake; eauto|match goal with E : s_procs ?z !! ?y = _ |- _ => exact (PEnd handler started z y _ _ E) end].
  Qed.

  Lemma exec_ready s p : ready s p -> is_Some (exec s p).
  Proof.
    unfold exec. intros [(k & todo & [l E] & Hh)|(q & [m k] & l & -> & E)]; rewrite E.
    - destruct todo as [|a todo]; [destruct l as [|[]]; eauto|]. destruct l as [|[]], a; repeat case_match; eauto; done.
    - eauto.
  Qed.

  (** Each task comes up at infinitely many instants. *)
  Definition turn_at (t : nat) : option pid := decode_nat (t - Nat.sqrt t * Nat.sqrt t)%nat.
  Lemma turn_again p t : exists t', (t <= t')%nat /\ turn_at t' = Some p.
  Proof.
    set (n := encode_nat p). set (m := (t + n)%nat). exists (m * m + n)%nat. split; [nia|].
    unfold turn_at. rewrite (Nat.sqrt_unique (m * m + n) m) by nia.
    replace (m * m + n - m * m)%nat with n by lia. apply decode_encode_nat.
  Qed.

  Fixpoint states (s : state) (t : nat) : state :=
    match t with
    | O => s
    | S t => let s' := states s t in
        match turn_at t with Some p => default s' (exec s' p) | None => s' end
    end.
  Definition moves (s : state) (t : nat) : option pid :=
    match turn_at t with
    | Some p => match exec (states s t) p with Some _ => Some p | None => None end
    | None => None
    end.

  Lemma states_execution s : execution handler started (states s) (moves s).
  Proof.
    intros t. unfold moves. cbn [states]. destruct (turn_at t) as [p|]; [|constructor].
    destruct (exec (states s t) p) eqn:E; cbn; [by apply exec_step|constructor].
  Qed.

  Lemma ready_kept s o s' p : fresh s -> step handler started s o s' -> o <> Some p -> ready s p -> ready s' p.
  Proof.
    intros Hf Hs Ho [(k & todo & [l E] & Hh)|(q & x & l & -> & E)].
    - destruct (runs_kept handler started s o s' p l k todo false Hf Hs Ho E) as [l' [E'|([=] & _)]].
      left. exists k, todo. split; [by eexists|done].
    - destruct (idle_kept handler started s o s' (inl q) (x :: l) Hf Hs Ho E) as [l' E']. right. eauto.
  Qed.

  Lemma states_fresh s t : fresh s -> fresh (states s t).
  Proof. intros Hf. induction t as [|t IH]; [done|]. eapply step_fresh; [exact IH|]. apply states_execution. Qed.

  Lemma states_fair s : fresh s -> fair (states s) (moves s).
  Proof.
    intros Hf t p Hr. destruct (turn_again p t) as (t' & Ht & E).
    assert (Hd : forall n, (exists t2, (t <= t2)%nat /\ moves s t2 = Some p) \/ ready (states s (n + t)) p).
    { induction n as [|n IH]; [by right|]. destruct IH as [?|IH]; [by left|].
      destruct (decide (moves s (n + t) = Some p)) as [Em|Hne]; [left; exists (n + t)%nat; split; [lia|done]|].
      right. eapply ready_kept; [by apply states_fresh|apply (states_execution s (n + t))|exact Hne|exact IH]. }
    specialize (Hd (t' - t)%nat). replace (t' - t + t)%nat with t' in Hd by lia. destruct Hd as [?|Hr']; [done|]. exists t'. split; [done|]. unfold moves. rewrite E.
    destruct (exec_ready _ _ Hr') as [s' ->]. done.
  Qed.
End Exec.
