(** Iteration orders of hash tables, and stable sorting.

    Rust's [HashMap] and [HashSet] are iterated in an order that depends on a random seed. The
    models take the order as an input: [arrange ord m] lists the entries of [m], first those
    whose keys are in [ord], in that order, then the others. Every [ord] gives an enumeration
    of [m], and every enumeration of [m] is given by some [ord]. *)
From Verif Require Export Base.
From stdpp Require Export gmap sorting.

Section arrange.
  Context {K : Type} `{Countable K} {A : Type}.

  Fixpoint arrange (ord : list K) (m : gmap K A) : list (K * A) :=
    match ord with
    | [] => map_to_list m
    | k :: ord' => match m !! k with
                   | Some a => (k, a) :: arrange ord' (delete k m)
                   | None => arrange ord' m
                   end
    end.

  Lemma arrange_perm ord m : arrange ord m ≡ₚ map_to_list m.
  Proof using.
    revert m. induction ord as [|k ord IH]; intros m; simpl; [done|].
    destruct (m !! k) as [a|] eqn:E; [|apply IH]. rewrite IH. by apply map_to_list_delete.
  Qed.

  Lemma elem_of_arrange ord m k a : (k, a) ∈ arrange ord m <-> m !! k = Some a.
  Proof using. rewrite (arrange_perm ord m). apply elem_of_map_to_list. Qed.

  Lemma arrange_NoDup ord m : NoDup (arrange ord m).*1.
  Proof using. rewrite (arrange_perm ord m). apply NoDup_fst_map_to_list. Qed.

  (** Every enumeration of the table is obtained. *)
  Lemma arrange_complete l m : l ≡ₚ map_to_list m -> arrange l.*1 m = l.
  Proof using.
    revert m. induction l as [|[k a] l IH]; intros m Hp; simpl.
    - by apply Permutation_nil in Hp.
    - assert (Hk : m !! k = Some a) by (apply elem_of_map_to_list; rewrite <- Hp; constructor).
      rewrite Hk. f_equal. apply IH. apply (Permutation_cons_inv (a := (k, a))). rewrite Hp.
      symmetry. by apply map_to_list_delete.
  Qed.
End arrange.

Section arrange_set.
  Context {K : Type} `{Countable K}.

  Fixpoint arrange_set (ord : list K) (X : gset K) : list K :=
    match ord with
    | [] => elements X
    | k :: ord' => if decide (k ∈ X) then k :: arrange_set ord' (X ∖ {[k]}) else arrange_set ord' X
    end.

  Lemma arrange_set_perm ord X : arrange_set ord X ≡ₚ elements X.
  Proof using.
    revert X. induction ord as [|k ord IH]; intros X; simpl; [done|].
    destruct (decide (k ∈ X)) as [Hk|]; [|apply IH]. rewrite IH.
    rewrite <- (elements_union_singleton (X ∖ {[k]}) k) by set_solver.
    assert (E : {[k]} ∪ X ∖ {[k]} = X) by (apply set_eq; intros x; destruct (decide (x = k)); set_solver).
    by rewrite E.
  Qed.

  Lemma elem_of_arrange_set ord X k : k ∈ arrange_set ord X <-> k ∈ X.
  Proof using. rewrite (arrange_set_perm ord X). apply elem_of_elements. Qed.

  Lemma arrange_set_NoDup ord X : NoDup (arrange_set ord X).
  Proof using. rewrite (arrange_set_perm ord X). apply NoDup_elements. Qed.

  Lemma arrange_set_length ord X : length (arrange_set ord X) = size X.
  Proof using. by rewrite (arrange_set_perm ord X). Qed.

  Lemma arrange_set_complete l X : l ≡ₚ elements X -> arrange_set l X = l.
  Proof using.
    revert X. induction l as [|k l IH]; intros X Hp; simpl.
    - by apply Permutation_nil in Hp.
    - assert (Hk : k ∈ X) by (apply elem_of_elements; rewrite <- Hp; constructor).
      destruct (decide (k ∈ X)) as [_|]; [|done]. f_equal. apply IH. apply (Permutation_cons_inv (a := k)). rewrite Hp.
      assert (E : {[k]} ∪ X ∖ {[k]} = X) by (apply set_eq; intros x; destruct (decide (x = k)); set_solver).
      rewrite <- E at 1. apply elements_union_singleton. set_solver.
  Qed.
End arrange_set.

(** Rust's [sort_by] is stable; so is insertion sort from the back. *)
Section isort.
  Context {A : Type} (le : A -> A -> bool).

  Fixpoint insert_sorted (x : A) (l : list A) : list A :=
    match l with
    | [] => [x]
    | y :: l' => if le x y then x :: l else y :: insert_sorted x l'
    end.
  Definition stable_sort (l : list A) : list A := foldr insert_sorted [] l.

  Lemma insert_sorted_perm x l : insert_sorted x l ≡ₚ x :: l.
  Proof using.
    induction l as [|y l IH]; simpl; [done|]. destruct (le x y); [done|]. rewrite IH. apply Permutation_swap.
  Qed.
  Lemma stable_sort_perm l : stable_sort l ≡ₚ l.
  Proof using. induction l as [|x l IH]; simpl; [done|]. by rewrite insert_sorted_perm, IH. Qed.

  Context (Htot : forall x y, le x y = true \/ le y x = true) (Htr : forall x y z, le x y = true -> le y z = true -> le x z = true).
  Lemma insert_sorted_sorted x l : StronglySorted (fun a b => le a b = true) l -> StronglySorted (fun a b => le a b = true) (insert_sorted x l).
  Proof using Htot Htr.
    induction 1 as [|y l Hs IH Hy]; simpl; [repeat constructor|].
    destruct (le x y) eqn:E.
    - constructor; [by constructor|]. constructor; [done|]. eapply Forall_impl; [exact Hy|]. intros z Hz. by eapply Htr.
    - constructor; [done|]. rewrite insert_sorted_perm. constructor; [|done]. destruct (Htot x y); congruence.
  Qed.
  Lemma stable_sort_sorted l : StronglySorted (fun a b => le a b = true) (stable_sort l).
  Proof using Htot Htr. induction l as [|x l IH]; simpl; [constructor|]. by apply insert_sorted_sorted. Qed.
End isort.
