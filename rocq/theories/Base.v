(** Definitions shared by all models. *)
From stdpp Require Export gmap strings list sorting.
From Coq Require Export ZArith NArith Lia ZifyN ZifyNat ZifyBool.

(** A Rust [Vec<u8>] / [&[u8]]; an element is meant to be below 256. *)
Definition bytes := list N.

(** Every element is a byte. *)
Definition is_bytes (b : bytes) : Prop := Forall (fun x => (x < 256)%N) b.

(** Lexicographic order on byte strings ([memcmp], then the shorter first). *)
Fixpoint bytes_leb (a b : bytes) : bool :=
  match a, b with
  | [], _ => true
  | _ :: _, [] => false
  | x :: a', y :: b' =>
      if (x <? y)%N then true else if (y <? x)%N then false else bytes_leb a' b'
  end.

(** Running a step function over a list of operations and collecting the
    outputs, oldest first. *)
Fixpoint run {S O R} (step : S -> O -> S * R) (s : S) (l : list O) : S * list R :=
  match l with
  | [] => (s, [])
  | o :: l' => let '(s1, r) := step s o in
               let '(s2, rs) := run step s1 l' in (s2, r :: rs)
  end.

Lemma run_app {S O R} (step : S -> O -> S * R) s l1 l2 :
  run step s (l1 ++ l2) =
  let '(s1, r1) := run step s l1 in
  let '(s2, r2) := run step s1 l2 in (s2, r1 ++ r2).
Proof.
  revert s. induction l1 as [|o l1 IH]; intros s; simpl.
  - by destruct (run step s l2).
  - destruct (step s o) as [s1 r]. rewrite IH.
    destruct (run step s1 l1) as [s2 rs]. by destruct (run step s2 l2).
Qed.

Lemma run_length {S O R} (step : S -> O -> S * R) s l :
  length (run step s l).2 = length l.
Proof.
  revert s. induction l as [|o l IH]; intros s; simpl; [done|].
  destruct (step s o) as [s1 r]. specialize (IH s1).
  destruct (run step s1 l). simpl in *. lia.
Qed.
