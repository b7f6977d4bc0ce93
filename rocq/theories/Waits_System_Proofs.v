(** Ranks of the actors of the framework, and a way to run them into a deadlock. *)
From Verif Require Export Waits_System Waits_Proofs2.

Section Shapes.
  Context {K M : Type}.
  Notation act := (action K M).
  Variable sure : K -> M -> option nat.
  Variable rank0 : K -> option nat.
  Notation moves := (moves sure rank0).
  Notation fine := (fine sure rank0).

  Fixpoint movesS (r : nat) (s : shape K M) : Prop :=
    match s with
    | Nil => True
    | Do P => forall a, P a -> moves r a
    | Then a b | Or a b => movesS r a /\ movesS r b
    | Many a => movesS r a
    | Spawns _ | Hands _ => True
    end.
  Fixpoint fineS (r : nat) (s : shape K M) : Prop :=
    match s with
    | Nil => True
    | Do P => forall a, P a -> fine r a
    | Then a b | Or a b => fineS r a /\ fineS r b
    | Many a => fineS r a
    | Spawns _ => True
    | Hands a => fineS r a
    end.

  Lemma movesS_sound r s l : does s l -> movesS r s -> Forall (moves r) l.
  Proof.
    induction 1; cbn [movesS]; intros Hm; try (by constructor); try (by destruct Hm; auto).
    - constructor; [by apply Hm|constructor].
    - destruct Hm. apply Forall_app. auto.
    - apply Forall_app. auto.
  Qed.
  Lemma fineS_sound r s l : does s l -> fineS r s -> Forall (fine r) l.
  Proof.
    induction 1; cbn [fineS]; intros Hm; try (by constructor); try (by destruct Hm; auto).
    - constructor; [by apply Hm|constructor].
    - destruct Hm. apply Forall_app. auto.
    - apply Forall_app. auto.
    - constructor; [|constructor]. apply fine_delegate. auto.
  Qed.
  Lemma may_moves r s l : may s l -> movesS r s -> Forall (moves r) l.
  Proof.
    intros (l0 & Hd & [->|(l1 & l2 & -> & ->)]) Hm; pose proof (movesS_sound _ _ _ Hd Hm) as Hf; [done|].
    apply Forall_app in Hf as [Hf _]. apply Forall_app. split; [done|]. by constructor.
  Qed.
  Lemma may_fine r s l : may s l -> fineS r s -> Forall (fine r) l.
  Proof.
    intros (l0 & Hd & [->|(l1 & l2 & -> & ->)]) Hm; pose proof (fineS_sound _ _ _ Hd Hm) as Hf; [done|].
    apply Forall_app in Hf as [Hf _]. apply Forall_app. split; [done|]. by constructor.
  Qed.
End Shapes.

(** ** Ranks *)
Definition sys_rank (q : name) : option nat :=
  match q with
  | Scheduler => Some 0 | Mediator => Some 1 | Registry => Some 2 | Clients => Some 1 | Discovery => Some 3 | Heartbeat => Some 3
  | Host _ => Some 1 | Shard _ => Some 1 | Coordinator _ => Some 3 | Manager _ => Some 2 | Proxy _ => Some 1
  | Client _ | Store | Session _ | User _ => None
  end%nat.
(** The lookup of an actor's node and the health of the system may take for ever; the latter does not if [healthy]. *)
Definition sys_sure (healthy : bool) (q : name) (m : msg) : option nat :=
  match q, m with
  | Registry, GetActorNode => None
  | Heartbeat, GetHealth => if healthy then Some 4%nat else None
  | Discovery, DiscoverAddr => Some 4%nat
  | _, _ => sys_rank q
  end.
Definition sys_rank0 (q : name) : option nat :=
  match q with
  | Client _ => Some 0%nat
  | Store => Some 0%nat
  | Session _ | User _ => None
  | _ => sys_rank q
  end.

Ltac shapes :=
  repeat (match goal with
  | |- _ /\ _ => split
  | |- True => exact I
  | |- forall a, _ => let a := fresh "a" in let H := fresh "H" in intros a H; repeat (match type of H with ex _ => destruct H as [? H] | _ /\ _ => destruct H as [? H] | _ \/ _ => destruct H as [H|H] end); repeat (match goal with H' : ex _ |- _ => destruct H' end); subst; cbn
  | |- exists r', Some ?x = Some r' /\ _ => exists x; split; [reflexivity|lia]
  end).

Section Ranked.
  Variable checked : name -> Prop.
  Variable healthy : bool.
  Hypothesis Hchecked : healthy = true -> forall q, checked q -> is_Some (sys_rank q).

  Lemma sys_moves q m r : sys_rank q = Some r -> movesS (sys_sure healthy) sys_rank0 r (script_of false checked q m).
  Proof. intros Hr. destruct q; try discriminate Hr; injection Hr as <-; destruct m; cbn; shapes. Qed.
  Lemma sys_fine q m r : sys_sure healthy q m = Some r -> fineS (sys_sure healthy) sys_rank0 r (script_of false checked q m).
  Proof.
    intros Hr.
    assert (q = Heartbeat /\ m = GetHealth \/ ~ (q = Heartbeat /\ m = GetHealth)) as [[-> ->]|Hn] by (destruct q, m; try (by left); right; intros [? ?]; discriminate).
    - cbn in Hr. destruct healthy eqn:Eh; [|done]. injection Hr as <-. cbn. split.
      + intros a (q & Hq & ->). cbn. destruct (Hchecked eq_refl q Hq) as [r Hr].
        destruct q; try discriminate Hr; injection Hr as <-; cbn; eexists; (split; [reflexivity|lia]).
      + shapes.
    - destruct q; try discriminate Hr; destruct m; cbn in Hr; try discriminate Hr; try (injection Hr as <-); cbn; shapes; exfalso; by apply Hn.
  Qed.
  Lemma sys_start_moves q r : sys_rank q = Some r -> movesS (sys_sure healthy) sys_rank0 r (start_of q).
  Proof. intros Hr. destruct q; try discriminate Hr; injection Hr as <-; cbn; shapes. Qed.
  Lemma sys_start_fine q r : sys_rank0 q = Some r -> fineS (sys_sure healthy) sys_rank0 r (start_of q).
  Proof. intros Hr. destruct q; try discriminate Hr; cbn in Hr; injection Hr as <-; cbn; shapes. Qed.

  Theorem sys_ranked : ranked (handler false checked) started sys_rank (sys_sure healthy) sys_rank0.
  Proof.
    split_and!.
    - intros q m r Hr. destruct q; try discriminate Hr; destruct m; cbn in Hr; try discriminate Hr; try (destruct healthy; [|discriminate Hr]);
        injection Hr as <-; eexists; (split; [reflexivity|lia]).
    - intros q m todo r Hr Hh. eapply may_fine; [exact Hh|by apply sys_fine].
    - intros q m todo r Hr Hh. eapply may_moves; [exact Hh|by apply sys_moves].
    - intros q todo r Hr Hh. eapply may_moves; [exact Hh|by apply sys_start_moves].
    - intros q todo r Hr Hh. eapply may_fine; [exact Hh|by apply sys_start_fine].
  Qed.
End Ranked.
