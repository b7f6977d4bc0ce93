(** Proofs about JSON text: what is written is read back as the same tree. *)
From Verif Require Import Base.
From Verif Require Proto_Model.
From Verif Require Export Json_Spec.
Local Open Scope N_scope.

(** ** Induction over trees *)
Section json_ind.
  Variable P : json -> Prop.
  Hypothesis Hnull : P JNull.
  Hypothesis Hbool : forall b, P (JBool b).
  Hypothesis Hint : forall z, P (JInt z).
  Hypothesis Hstr : forall s, P (JStr s).
  Hypothesis Harr : forall l, Forall P l -> P (JArr l).
  Hypothesis Hobj : forall l, Forall (fun e => P e.2) l -> P (JObj l).
  Fixpoint json_rec' (j : json) : P j :=
    match j with
    | JNull => Hnull | JBool b => Hbool b | JInt z => Hint z | JStr s => Hstr s
    | JArr l => Harr l ((fix go (l : list json) : Forall P l :=
                           match l with [] => Forall_nil_2 _ | x :: l' => Forall_cons_2 _ _ _ (json_rec' x) (go l') end) l)
    | JObj l => Hobj l ((fix go (l : list (bytes * json)) : Forall (fun e => P e.2) l :=
                           match l with [] => Forall_nil_2 _ | x :: l' => Forall_cons_2 _ _ _ (json_rec' x.2) (go l') end) l)
    end.
End json_ind.

(** ** Strings *)

Lemma unhex_low n : n < 16 -> unhex (hex_low n) = Some n.
Proof.
  intros H. unfold hex_low, unhex. destruct (N.ltb_spec n 10).
  - rewrite (proj2 (N.leb_le 48 (48 + n))) by lia. rewrite (proj2 (N.leb_le (48 + n) 57)) by lia. cbn [andb]. f_equal. lia.
  - rewrite (proj2 (N.leb_le 48 (87 + n))) by lia. rewrite (proj2 (N.leb_gt (87 + n) 57)) by lia. cbn [andb].
    rewrite (proj2 (N.leb_le 97 (87 + n))) by lia. rewrite (proj2 (N.leb_le (87 + n) 102)) by lia. cbn [andb]. f_equal. lia.
Qed.

Lemma read_escape c r :
  read_chars (escape c ++ r) = match read_chars r with Some (s, r') => Some (c :: s, r') | None => None end.
Proof.
  unfold escape.
  destruct (N.eqb_spec c 34) as [->|N1]; [done|]. destruct (N.eqb_spec c 92) as [->|N2]; [done|].
  destruct (N.eqb_spec c 8) as [->|N3]; [done|]. destruct (N.eqb_spec c 9) as [->|N4]; [done|].
  destruct (N.eqb_spec c 10) as [->|N5]; [done|]. destruct (N.eqb_spec c 12) as [->|N6]; [done|].
  destruct (N.eqb_spec c 13) as [->|N7]; [done|].
  destruct (N.ltb_spec c 32) as [H|H].
  - cbn [app read_chars N.eqb N.ltb N.compare Pos.eqb Pos.compare Pos.compare_cont negb orb].
    assert (Hu : unhex4 48 48 (hex_low (c / 16)) (hex_low (c mod 16)) = Some c).
    { unfold unhex4. rewrite (unhex_low (c / 16)), (unhex_low (c mod 16)).
      - change (unhex 48) with (Some 0). f_equal. pose proof (N.div_mod c 16). lia.
      - apply N.mod_lt. lia.
      - apply N.div_lt_upper_bound; lia. }
    rewrite Hu. cbv zeta.
    rewrite (proj2 (N.leb_gt 55296 c)) by lia. rewrite (proj2 (N.leb_gt 56320 c)) by lia. cbn [andb].
    unfold utf8_of. rewrite (proj2 (N.ltb_lt c 128)) by lia. done.
  - cbn [app read_chars]. rewrite (proj2 (N.eqb_neq c 34)) by done. rewrite (proj2 (N.ltb_ge c 32)) by done.
    rewrite (proj2 (N.eqb_neq c 92)) by done. done.
Qed.

Lemma read_escaped s r : read_chars (concat (map escape s) ++ 34 :: r) = Some (s, r).
Proof. induction s as [|c s IH]; [done|]. cbn [map concat]. rewrite <- app_assoc, read_escape, IH. done. Qed.

Lemma read_quoted s r : unicode s -> read_string (concat (map escape s) ++ 34 :: r) = Some (s, r).
Proof. intros H. unfold read_string. rewrite read_escaped. unfold unicode in H. by rewrite H. Qed.

(** ** Numbers *)

Lemma read_digits_aux f n l : n < 10 ^ N.of_nat f -> read_digits 0 (digits_aux f n l) = read_digits n l.
Proof.
  revert n l. induction f as [|f IH]; intros n l H; cbn [digits_aux].
  - change (N.of_nat 0) with 0 in H. rewrite N.pow_0_r in H. assert (n = 0) as -> by lia. done.
  - destruct (N.ltb_spec n 10) as [Hn|Hn].
    + cbn [read_digits]. unfold is_digit. rewrite (proj2 (N.leb_le 48 (48 + n))) by lia. rewrite (proj2 (N.leb_le (48 + n) 57)) by lia.
      cbn [andb]. f_equal. lia.
    + assert (Hm : n mod 10 < 10) by (apply N.mod_lt; lia).
      rewrite IH.
      * cbn [read_digits]. unfold is_digit. rewrite (proj2 (N.leb_le 48 (48 + n mod 10))) by lia.
        rewrite (proj2 (N.leb_le (48 + n mod 10) 57)) by lia. cbn [andb]. f_equal. pose proof (N.div_mod n 10). lia.
      * rewrite Nat2N.inj_succ, N.pow_succ_r' in H. apply N.div_lt_upper_bound; lia.
Qed.

Lemma digits_aux_head f n l : n < 10 ^ N.of_nat f -> n <> 0 -> exists c r, digits_aux f n l = c :: r /\ 49 <= c <= 57.
Proof.
  revert n l. induction f as [|f IH]; intros n l H Hz; cbn [digits_aux].
  - change (N.of_nat 0) with 0 in H. rewrite N.pow_0_r in H. lia.
  - destruct (N.ltb_spec n 10) as [Hn|Hn].
    + exists (48 + n), l. split; [done|lia].
    + apply IH.
      * rewrite Nat2N.inj_succ, N.pow_succ_r' in H. apply N.div_lt_upper_bound; lia.
      * intros E. apply N.div_small_iff in E; lia.
Qed.

(** What may come after a number. *)
Definition stops (r : bytes) : Prop :=
  match r with [] => True | c :: _ => is_digit c = false /\ c <> 46 /\ c <> 101 /\ c <> 69 end.

Lemma read_digits_stops n r : stops r -> read_digits n r = (n, r).
Proof. destruct r as [|c r]; [done|]. intros [H _]. cbn [read_digits]. by rewrite H. Qed.

Lemma digits_aux_app f n l r : digits_aux f n (l ++ r) = digits_aux f n l ++ r.
Proof.
  revert n l. induction f as [|f IH]; intros n l; cbn [digits_aux]; [done|]. destruct (n <? 10); [done|].
  rewrite <- IH. done.
Qed.

Lemma read_integer_digits n r : n < 18446744073709551616 -> stops r -> read_integer (digits n ++ r) = Some (n, r).
Proof.
  intros Hn Hr. unfold digits. rewrite <- digits_aux_app. cbn [app].
  assert (Hp : n < 10 ^ N.of_nat 20).
  { change (10 ^ N.of_nat 20) with 100000000000000000000. lia. }
  assert (Hend : match r with x :: _ => if is_digit x || (x =? 46) || (x =? 101) || (x =? 69) then None else Some (n, r) | [] => Some (n, r) end = Some (n, r)).
  { destruct r as [|x r]; [done|]. destruct Hr as (H1 & H2 & H3 & H4). rewrite H1.
    rewrite (proj2 (N.eqb_neq x 46)), (proj2 (N.eqb_neq x 101)), (proj2 (N.eqb_neq x 69)) by done. done. }
  destruct (N.eq_dec n 0) as [-> |Hz].
  - change (digits_aux 20 0 r) with (48 :: r). cbn [read_integer]. change (is_digit 48) with true. cbn [negb]. change (48 =? 48) with true. cbn iota. exact Hend.
  - destruct (digits_aux_head 20 n r Hp Hz) as (c & l & E & Hc). pose proof (read_digits_aux 20 n r Hp) as Hd. rewrite E in Hd |- *.
    unfold read_integer.
    assert (Hdig : is_digit c = true). { unfold is_digit. rewrite (proj2 (N.leb_le 48 c)) by lia. by rewrite (proj2 (N.leb_le c 57)) by lia. }
    rewrite Hdig. cbn [negb]. rewrite (proj2 (N.eqb_neq c 48)) by lia. rewrite Hd, (read_digits_stops n r Hr). exact Hend.
Qed.

Lemma digits_head n : n < 18446744073709551616 -> exists c r, digits n = c :: r /\ 48 <= c <= 57.
Proof.
  intros Hn. assert (Hp : n < 10 ^ N.of_nat 20).
  { change (10 ^ N.of_nat 20) with 100000000000000000000. lia. }
  destruct (N.eq_dec n 0) as [-> |Hz].
  - exists 48, []. split; [done|lia].
  - destruct (digits_aux_head 20 n [] Hp Hz) as (c & l & E & Hc). exists c, l. split; [done|lia].
Qed.

Definition fits (z : Z) : Prop := (-9223372036854775808 <= z < 18446744073709551616)%Z.

Lemma read_number_text z r : fits z -> stops r -> read_number (number_text z ++ r) = Some (JInt z, r).
Proof.
  intros [H1 H2] Hr. unfold number_text, read_number. destruct (Z.ltb_spec z 0) as [Hz|Hz].
  - cbn [app]. change (45 =? 45) with true. cbn iota. rewrite read_integer_digits by (try done; lia).
    rewrite (proj2 (N.leb_le 1 (Z.to_N (- z)))) by lia. rewrite (proj2 (N.leb_le (Z.to_N (- z)) 9223372036854775808)) by lia. cbn [andb].
    do 3 f_equal. lia.
  - destruct (digits_head (Z.to_N z)) as (c & l & E & Hc); [lia|].
    pose proof (read_integer_digits (Z.to_N z) r ltac:(lia) Hr) as Hi. rewrite E in Hi |- *. cbn [app] in Hi |- *.
    rewrite (proj2 (N.eqb_neq c 45)) by lia. rewrite Hi. rewrite (proj2 (N.ltb_lt (Z.to_N z) 18446744073709551616)) by lia. do 3 f_equal. lia.
Qed.

(** ** Trees *)

(** Trees that are written for values: integers fit, strings are UTF-8. *)
Fixpoint clean (j : json) : Prop :=
  match j with
  | JNull | JBool _ => True
  | JInt z => fits z
  | JStr s => unicode s
  | JArr l => (fix go (l : list json) : Prop := match l with [] => True | x :: l' => clean x /\ go l' end) l
  | JObj l => (fix go (l : list (bytes * json)) : Prop := match l with [] => True | (k, x) :: l' => unicode k /\ clean x /\ go l' end) l
  end.
Lemma clean_arr l : clean (JArr l) <-> Forall clean l.
Proof.
  split.
  - induction l as [|x l IH]; [constructor|]. intros [Hx Hl]. constructor; [done|exact (IH Hl)].
  - induction 1 as [|x l Hx _ IH]; [done|]. split; [done|exact IH].
Qed.
Lemma clean_obj l : clean (JObj l) <-> Forall (fun e => unicode e.1 /\ clean e.2) l.
Proof.
  split.
  - induction l as [|[k x] l IH]; [constructor|]. intros (Hk & Hx & Hl). constructor; [done|exact (IH Hl)].
  - induction 1 as [|[k x] l [Hk Hx] _ IH]; [done|]. split; [done|]. split; [done|exact IH].
Qed.

Fixpoint depth (j : json) : nat :=
  match j with
  | JArr l => S (fold_right (fun x m => Nat.max (depth x) m) 0%nat l)
  | JObj l => S (fold_right (fun e m => Nat.max (depth e.2) m) 0%nat l)
  | _ => 0%nat
  end.
(** The fuel reading takes. *)
Fixpoint cost (j : json) : nat :=
  match j with
  | JArr l => S (fold_right (fun x m => S (cost x + m)) 1%nat l)
  | JObj l => S (fold_right (fun e m => S (cost e.2 + m)) 1%nat l)
  | _ => 1%nat
  end.

Lemma text_head j : clean j -> exists c r, text j = c :: r /\ white c = false /\ c <> 93 /\ c <> 125 /\ c <> 44.
Proof.
  destruct j as [|[]|z|s|l|l]; intros Hc; try (eexists _, _; split; [reflexivity|done]).
  cbn [text]. unfold number_text. destruct (Z.ltb_spec z 0) as [Hz|Hz].
  - eexists _, _. split; [reflexivity|done].
  - destruct (digits_head (Z.to_N z)) as (c & r & E & H). { destruct Hc. lia. }
    exists c, r. split; [done|]. split; [|lia]. unfold white. rewrite !(proj2 (N.eqb_neq _ _)) by lia. done.
Qed.

Lemma skip_black c r : white c = false -> skip_white (c :: r) = c :: r.
Proof. intros H. cbn [skip_white]. by rewrite H. Qed.

Lemma stops_comma r : stops (44 :: r). Proof. done. Qed.
Lemma stops_close r : stops (93 :: r). Proof. done. Qed.
Lemma stops_brace r : stops (125 :: r). Proof. done. Qed.

(** What follows an element: a comma and the others, or the end. *)
Definition tail_of (l : list bytes) : bytes := match l with [] => [] | _ => 44 :: sep l end.
Lemma sep_cons x l : sep (x :: l) = x ++ tail_of l.
Proof. destruct l; [cbn; by rewrite app_nil_r|done]. Qed.

Definition reads_back (j : json) : Prop :=
  forall f d r, clean j -> (cost j <= f)%nat -> (depth j < d)%nat -> stops r -> value f d (text j ++ r) = Some (j, r).

Lemma elements_back l f d first r :
  Forall reads_back l -> Forall clean l -> (fold_right (fun x m => S (cost x + m)) 1%nat l <= f)%nat ->
  Forall (fun j => (depth j < d)%nat) l ->
  elements f d first ((if first then sep (map text l) else tail_of (map text l)) ++ 93 :: r) = Some (l, r).
Proof.
  intros HR HC Hf HD. revert f first HR HC Hf HD. induction l as [|j l IH]; intros f first HR HC Hf HD.
  - cbn [fold_right] in Hf. destruct f as [|f]; [lia|]. destruct first; reflexivity.
  - cbn [fold_right] in Hf. destruct f as [|f]; [lia|].
    inversion HR as [|? ? HRj HRl]; subst. inversion HC as [|? ? HCj HCl]; subst. inversion HD as [|? ? HDj HDl]; subst.
    destruct (text_head j HCj) as (c & t & Et & Hw & H1 & _ & _).
    assert (Hv : value f d (text j ++ (tail_of (map text l) ++ 93 :: r)) = Some (j, tail_of (map text l) ++ 93 :: r)).
    { apply HRj; [done|lia|done|]. destruct l; [apply stops_close|apply stops_comma]. }
    assert (He : elements f d false (tail_of (map text l) ++ 93 :: r) = Some (l, r)).
    { apply (IH f false); [done|done|lia|done]. }
    cbn [map]. destruct first.
    + rewrite sep_cons, <- app_assoc. rewrite Et in Hv |- *. cbn [app] in Hv |- *. cbn [elements]. rewrite (skip_black c) by done.
      rewrite (proj2 (N.eqb_neq c 93)) by done. rewrite Hv, He. done.
    + unfold tail_of at 1. cbv iota. rewrite sep_cons. cbn [app]. rewrite <- app_assoc. cbn [elements].
      rewrite (skip_black 44) by done. change (44 =? 93) with false. change (44 =? 44) with true. cbn iota. rewrite Hv, He. done.
Qed.

Definition member (e : bytes * json) : bytes := quoted e.1 ++ 58 :: text e.2.
Lemma members_back l f d first r :
  Forall (fun e => reads_back e.2) l -> Forall (fun e => unicode e.1 /\ clean e.2) l ->
  (fold_right (fun e m => S (cost e.2 + m)) 1%nat l <= f)%nat -> Forall (fun e => (depth e.2 < d)%nat) l ->
  members f d first ((if first then sep (map member l) else tail_of (map member l)) ++ 125 :: r) = Some (l, r).
Proof.
  intros HR HC Hf HD. revert f first HR HC Hf HD. induction l as [|[k j] l IH]; intros f first HR HC Hf HD.
  - cbn [fold_right] in Hf. destruct f as [|f]; [lia|]. destruct first; reflexivity.
  - cbn [fold_right] in Hf. cbn [snd] in Hf. destruct f as [|f]; [lia|].
    inversion HR as [|? ? HRj HRl]; subst. inversion HC as [|? ? [HCk HCj] HCl]; subst. inversion HD as [|? ? HDj HDl]; subst.
    cbn [fst snd] in *.
    assert (Hv : value f d (text j ++ (tail_of (map member l) ++ 125 :: r)) = Some (j, tail_of (map member l) ++ 125 :: r)).
    { apply HRj; [done|lia|done|]. destruct l; [apply stops_brace|apply stops_comma]. }
    assert (He : members f d false (tail_of (map member l) ++ 125 :: r) = Some (l, r)).
    { apply (IH f false); [done|done|lia|done]. }
    assert (Hq : forall R, member (k, j) ++ R = 34 :: concat (map escape k) ++ 34 :: 58 :: text j ++ R).
    { intros R. unfold member, quoted. cbn [fst snd app]. rewrite <- !app_assoc. reflexivity. }
    cbn [map]. destruct first.
    + rewrite sep_cons, <- app_assoc, Hq. cbn [members]. rewrite (skip_black 34) by done.
      change (34 =? 125) with false. cbn iota. rewrite (skip_black 34) by done. cbn [strip]. change (34 =? 34) with true. cbn iota.
      rewrite read_quoted by done. rewrite (skip_black 58) by done. change (58 =? 58) with true. cbn iota. rewrite Hv, He. done.
    + unfold tail_of at 1. cbv iota. rewrite sep_cons. cbn [app]. rewrite <- app_assoc, Hq. cbn [members].
      rewrite (skip_black 44) by done. change (44 =? 125) with false. change (44 =? 44) with true. cbn iota.
      rewrite (skip_black 34) by done. cbn [strip]. change (34 =? 34) with true. cbn iota.
      rewrite read_quoted by done. rewrite (skip_black 58) by done. change (58 =? 58) with true. cbn iota. rewrite Hv, He. done.
Qed.

Lemma max_below {A} (g : A -> nat) (l : list A) d :
  (fold_right (fun x m => Nat.max (g x) m) 0%nat l < d)%nat -> Forall (fun x => (g x < d)%nat) l.
Proof. induction l as [|x l IH]; intros H; [constructor|]. cbn [fold_right] in H. constructor; [lia|]. apply IH. lia. Qed.

Lemma value_number f d z r : (1 <= f)%nat -> fits z -> stops r -> value f d (number_text z ++ r) = Some (JInt z, r).
Proof.
  intros Hf Hz Hr. destruct f as [|f]; [lia|]. pose proof (read_number_text z r Hz Hr) as Hn.
  assert (exists c t, number_text z ++ r = c :: t /\ (c = 45 \/ 48 <= c <= 57)) as (c & t & E & Hc).
  { unfold number_text. destruct (Z.ltb_spec z 0) as [H|H]; [eexists _, _; split; [reflexivity|by left]|].
    destruct (digits_head (Z.to_N z)) as (c & l & E & Hc). { destruct Hz. lia. }
    rewrite E. eexists _, _. split; [reflexivity|by right]. }
  rewrite E in Hn |- *. cbn [value]. rewrite skip_black.
  - rewrite !(proj2 (N.eqb_neq _ _)) by lia. exact Hn.
  - unfold white. rewrite !(proj2 (N.eqb_neq _ _)) by lia. done.
Qed.

Lemma text_reads_back j : reads_back j.
Proof.
  induction j as [|b|z|s|l IH|l IH] using json_rec'; intros f d r HC Hf HD Hr.
  - cbn [cost] in Hf. destruct f as [|f]; [lia|]. reflexivity.
  - cbn [cost] in Hf. destruct f as [|f]; [lia|]. destruct b; reflexivity.
  - cbn [cost] in Hf. by apply value_number.
  - cbn [cost] in Hf. destruct f as [|f]; [lia|]. cbn [text]. unfold quoted. cbn [app]. rewrite <- app_assoc. cbn [app value].
    rewrite (skip_black 34) by done. change (34 =? 110) with false. change (34 =? 116) with false. change (34 =? 102) with false.
    change (34 =? 34) with true. cbn iota. by rewrite read_quoted.
  - cbn [cost] in Hf. cbn [depth] in HD. destruct f as [|f]; [lia|]. destruct d as [|[|d]]; [lia|lia|].
    cbn [text app]. rewrite <- app_assoc. cbn [app value]. rewrite (skip_black 91) by done.
    change (91 =? 110) with false. change (91 =? 116) with false. change (91 =? 102) with false. change (91 =? 34) with false. change (91 =? 91) with true. cbn iota.
    pose proof (elements_back l f (S d) true r IH (proj1 (clean_arr l) HC) ltac:(lia) (max_below depth l (S d) ltac:(lia))) as He.
    cbn iota in He. by rewrite He.
  - cbn [cost] in Hf. cbn [depth] in HD. destruct f as [|f]; [lia|]. destruct d as [|[|d]]; [lia|lia|].
    cbn [text app]. rewrite <- app_assoc. cbn [app value]. rewrite (skip_black 123) by done.
    change (123 =? 110) with false. change (123 =? 116) with false. change (123 =? 102) with false. change (123 =? 34) with false.
    change (123 =? 91) with false. change (123 =? 123) with true. cbn iota.
    pose proof (members_back l f (S d) true r IH (proj1 (clean_obj l) HC) ltac:(lia) (max_below (fun e => depth e.2) l (S d) ltac:(lia))) as He.
    cbn iota in He. replace (map (λ '(k, x), quoted k ++ 58 :: text x) l) with (map member l); [by rewrite He|].
    apply map_ext. intros [k x]. done.
Qed.

Lemma sep_length l : (length (sep l) + 1 >= fold_right (fun x m => S (length x + m)) 0 l)%nat.
Proof.
  induction l as [|x l IH]; [simpl; lia|]. rewrite sep_cons, app_length. destruct l as [|y l]; [simpl; lia|].
  cbn [fold_right tail_of length] in *. lia.
Qed.

Lemma quoted_length s : (2 <= length (quoted s))%nat.
Proof. unfold quoted. cbn [length]. rewrite app_length. cbn. lia. Qed.

Lemma cost_length j : clean j -> (cost j <= 2 * length (text j))%nat.
Proof.
  induction j as [|b|z|s|l IH|l IH] using json_rec'; intros HC.
  - simpl. lia.
  - destruct b; simpl; lia.
  - destruct (text_head (JInt z) HC) as (c & r & E & _). rewrite E. simpl. lia.
  - simpl. lia.
  - apply clean_arr in HC. cbn [cost text length]. rewrite app_length. cbn [length].
    pose proof (sep_length (map text l)) as Hs.
    assert (H : (fold_right (fun x m => S (cost x + m)) 1%nat l <= 1 + 2 * fold_right (fun x m => S (length x + m)) 0%nat (map text l))%nat).
    { clear Hs. induction l as [|x l IHl]; [simpl; lia|]. inversion IH as [|? ? Hx Hl]; subst. inversion HC as [|? ? Cx Cl]; subst.
      cbn [fold_right map]. specialize (Hx Cx). specialize (IHl Hl Cl). lia. }
    lia.
  - apply clean_obj in HC. cbn [cost text length]. rewrite app_length. cbn [length].
    replace (map (λ '(k, x), quoted k ++ 58 :: text x) l) with (map member l); [|apply map_ext; intros [k x]; done].
    pose proof (sep_length (map member l)) as Hs.
    assert (H : (fold_right (fun e m => S (cost e.2 + m)) 1%nat l <= 1 + 2 * fold_right (fun x m => S (length x + m)) 0%nat (map member l))%nat).
    { clear Hs. induction l as [|[k x] l IHl]; [simpl; lia|]. inversion IH as [|? ? Hx Hl]; subst. inversion HC as [|? ? [Ck Cx] Cl]; subst.
      cbn [fold_right map snd] in *. specialize (Hx Cx). specialize (IHl Hl Cl). unfold member at 1. cbn [fst snd]. rewrite app_length. cbn [length]. lia. }
    lia.
Qed.

(** What is written is read back. *)
Theorem text_roundtrip j : clean j -> (depth j < 128)%nat -> read_text (text j) = Some j.
Proof.
  intros HC HD. unfold read_text.
  pose proof (text_reads_back j (2 * length (text j) + 2)%nat 128%nat [] HC) as H. rewrite app_nil_r in H.
  rewrite H; [done| |exact HD|exact I]. pose proof (cost_length j HC). lia.
Qed.
