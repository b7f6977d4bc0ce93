(** Proofs about JSON text: every way to write a tree is read as this tree. *)
From Verif Require Import Base.
From Verif Require Proto_Model.
From Verif Require Export JsonText_Spec.
From Verif Require Import Json_Proofs.
Local Open Scope N_scope.

(** ** Space *)
Lemma white_spec c : white c = true <-> c ∈ [32; 9; 10; 13].
Proof.
  unfold white. rewrite !orb_true_iff, !N.eqb_eq. rewrite !elem_of_cons, elem_of_nil. tauto.
Qed.
Lemma skip_blank u b : blank u -> skip_white (u ++ b) = skip_white b.
Proof. induction 1 as [|c u Hc _ IH]; [done|]. cbn [app skip_white]. by rewrite (proj2 (white_spec c) Hc). Qed.
Lemma stops_blank v r : blank v -> stops r -> stops (v ++ r).
Proof.
  intros [|c u Hc _]; [done|]. intros _. cbn [app stops]. rewrite !elem_of_cons, elem_of_nil in Hc.
  destruct Hc as [-> |[-> |[-> |[-> |[]]]]]; done.
Qed.

(** ** Strings *)
Lemma unhex_spec c n : unhex c = Some n <-> hex_digit c n.
Proof.
  unfold unhex. split.
  - destruct (N.leb_spec 48 c), (N.leb_spec c 57); cbn [andb]; intros H'; simplify_eq;
      try (replace c with (48 + (c - 48)) at 1 by lia; constructor; lia).
    all: destruct (N.leb_spec 97 c), (N.leb_spec c 102); cbn [andb] in H'; simplify_eq;
      try (replace c with (87 + (c - 87)) at 1 by lia; constructor; lia).
    all: destruct (N.leb_spec 65 c), (N.leb_spec c 70); cbn [andb] in H'; simplify_eq;
      try (replace c with (55 + (c - 55)) at 1 by lia; constructor; lia).
  - intros [k Hk|k Hk|k Hk];
      repeat match goal with |- context [?a <=? ?b] => destruct (N.leb_spec a b); try lia; cbn [andb] end; f_equal; lia.
Qed.
Lemma unhex4_spec a b c d n : unhex4 a b c d = Some n <-> hex4 [a; b; c; d] n.
Proof.
  unfold unhex4. split.
  - destruct (unhex a) as [x|] eqn:Ea; [|done]. destruct (unhex b) as [y|] eqn:Eb; [|done].
    destruct (unhex c) as [z|] eqn:Ec; [|done]. destruct (unhex d) as [t|] eqn:Ed; [|done]. intros H. simplify_eq.
    replace (((x * 16 + y) * 16 + z) * 16 + t) with (4096 * x + 256 * y + 16 * z + t) by lia.
    constructor; by apply unhex_spec.
  - intros H. inversion H as [? ? ? ? x y z t Ha Hb Hc Hd]; subst.
    apply unhex_spec in Ha as ->, Hb as ->, Hc as ->, Hd as ->. f_equal. lia.
Qed.
Lemma hex4_parts h n : hex4 h n -> exists a b c d, h = [a; b; c; d] /\ unhex4 a b c d = Some n.
Proof.
  intros H. assert (exists a b c d, h = [a; b; c; d]) as (a & b & c & d & ->) by (destruct H; by eexists _, _, _, _).
  exists a, b, c, d. split; [done|]. by apply unhex4_spec.
Qed.
Lemma encoded_spec n x : n < 1114112 -> encoded n x <-> x = utf8_of n.
Proof.
  intros Hn. unfold utf8_of. split.
  - intros [k Hk|a b Ha Hb|a b c Ha Hb Hc|a b c d Ha Hb Hc Hd].
    + by rewrite (proj2 (N.ltb_lt k 128)).
    + rewrite (proj2 (N.ltb_ge _ 128)) by lia. rewrite (proj2 (N.ltb_lt _ 2048)) by lia.
      rewrite <- (N.div_unique (64 * a + b) 64 a b) by lia. rewrite <- (N.mod_unique (64 * a + b) 64 a b) by lia. done.
    + rewrite (proj2 (N.ltb_ge _ 128)) by lia. rewrite (proj2 (N.ltb_ge _ 2048)) by lia. rewrite (proj2 (N.ltb_lt _ 65536)) by lia.
      rewrite <- (N.div_unique (4096 * a + 64 * b + c) 4096 a (64 * b + c)) by lia.
      rewrite <- (N.div_unique (4096 * a + 64 * b + c) 64 (64 * a + b) c) by lia.
      rewrite <- (N.mod_unique (64 * a + b) 64 a b) by lia.
      rewrite <- (N.mod_unique (4096 * a + 64 * b + c) 64 (64 * a + b) c) by lia. done.
    + rewrite (proj2 (N.ltb_ge _ 128)) by lia. rewrite (proj2 (N.ltb_ge _ 2048)) by lia. rewrite (proj2 (N.ltb_ge _ 65536)) by lia.
      rewrite <- (N.div_unique (262144 * a + 4096 * b + 64 * c + d) 262144 a (4096 * b + 64 * c + d)) by lia.
      rewrite <- (N.div_unique (262144 * a + 4096 * b + 64 * c + d) 4096 (64 * a + b) (64 * c + d)) by lia.
      rewrite <- (N.div_unique (262144 * a + 4096 * b + 64 * c + d) 64 (4096 * a + 64 * b + c) d) by lia.
      rewrite <- (N.mod_unique (64 * a + b) 64 a b) by lia.
      rewrite <- (N.mod_unique (4096 * a + 64 * b + c) 64 (64 * a + b) c) by lia.
      rewrite <- (N.mod_unique (262144 * a + 4096 * b + 64 * c + d) 64 (4096 * a + 64 * b + c) d) by lia. done.
  - intros ->.
    assert (E1 : n = 64 * (n / 64) + n mod 64) by (apply N.div_mod; lia). assert (L1 : n mod 64 < 64) by (apply N.mod_lt; lia).
    assert (E2 : n / 64 = 64 * (n / 4096) + n / 64 mod 64).
    { replace (n / 4096) with (n / 64 / 64) by (rewrite N.div_div by lia; done). apply N.div_mod. lia. }
    assert (L2 : n / 64 mod 64 < 64) by (apply N.mod_lt; lia).
    assert (E3 : n / 4096 = 64 * (n / 262144) + n / 4096 mod 64).
    { replace (n / 262144) with (n / 4096 / 64) by (rewrite N.div_div by lia; done). apply N.div_mod. lia. }
    assert (L3 : n / 4096 mod 64 < 64) by (apply N.mod_lt; lia).
    destruct (N.ltb_spec n 128); [by constructor|]. destruct (N.ltb_spec n 2048).
    { rewrite E1 at 1. constructor; lia. }
    destruct (N.ltb_spec n 65536).
    { replace n with (4096 * (n / 4096) + 64 * (n / 64 mod 64) + n mod 64) at 1 by lia. constructor; lia. }
    replace n with (262144 * (n / 262144) + 4096 * (n / 4096 mod 64) + 64 * (n / 64 mod 64) + n mod 64) at 1 by lia. constructor; lia.
Qed.

Lemma hex4_bound h n : hex4 h n -> n < 65536.
Proof.
  assert (H : forall c x, hex_digit c x -> x < 16) by (intros c x []; lia).
  intros [a b c d x y z t Ha Hb Hc Hd]. apply H in Ha, Hb, Hc, Hd. lia.
Qed.

Lemma read_code h1 h2 h3 h4 r2 :
  read_chars (92 :: 117 :: h1 :: h2 :: h3 :: h4 :: r2) =
  match unhex4 h1 h2 h3 h4 with
  | None => None
  | Some n =>
      if (55296 <=? n) && (n <=? 56319) then
        match r2 with
        | x :: y :: l1 :: l2 :: l3 :: l4 :: r3 =>
            match unhex4 l1 l2 l3 l4 with
            | None => None
            | Some m =>
                if (x =? 92) && (y =? 117) && (56320 <=? m) && (m <=? 57343) then
                  match read_chars r3 with
                  | Some (s, r') => Some (utf8_of (65536 + (n - 55296) * 1024 + (m - 56320)) ++ s, r')
                  | None => None
                  end
                else None
            end
        | _ => None
        end
      else if (56320 <=? n) && (n <=? 57343) then None
      else match read_chars r2 with Some (s, r') => Some (utf8_of n ++ s, r') | None => None end
  end.
Proof. reflexivity. Qed.

Lemma spelled_reads s t r : spelled s t -> read_chars (t ++ 34 :: r) = Some (s, r).
Proof.
  induction 1 as [|c s t H1 H2 H3 _ IH|e c s t H _ IH|h n x s t Hh Hn Hx _ IH|h k hi lo x s t Hhi Hlo Hh Hk Hx _ IH].
  - done.
  - cbn [app read_chars]. rewrite (proj2 (N.eqb_neq c 34)), (proj2 (N.ltb_ge c 32)), (proj2 (N.eqb_neq c 92)) by done.
    cbn [negb]. by rewrite IH.
  - rewrite !elem_of_cons, elem_of_nil in H.
    destruct H as [H|[H|[H|[H|[H|[H|[H|[H|[]]]]]]]]]; injection H as -> ->; cbn [app read_chars]; rewrite IH; done.
  - pose proof (hex4_bound _ _ Hh) as Hb. destruct (hex4_parts _ _ Hh) as (a & b & c & d & -> & Eh).
    cbn [app]. rewrite read_code, Eh.
    rewrite IH. apply encoded_spec in Hx as ->; [|lia].
    destruct (N.leb_spec 55296 n), (N.leb_spec n 56319); try lia; cbn [andb]; [|];
      destruct (N.leb_spec 56320 n), (N.leb_spec n 57343); try lia; done.
  - destruct (hex4_parts _ _ Hh) as (a & b & c & d & -> & Eh).
    destruct (hex4_parts _ _ Hk) as (a' & b' & c' & d' & -> & Ek).
    cbn [app]. rewrite read_code, Eh, Ek.
    rewrite IH. apply encoded_spec in Hx as ->; [|lia].
    rewrite (proj2 (N.leb_le 55296 _)), (proj2 (N.leb_le _ 56319)) by lia. cbn [andb].
    rewrite (proj2 (N.leb_le 56320 _)), (proj2 (N.leb_le _ 57343)) by lia. cbn [andb].
    replace (65536 + (55296 + hi - 55296) * 1024 + (56320 + lo - 56320)) with (65536 + 1024 * hi + lo) by lia. done.
Qed.
Lemma spelled_string s t r : unicode s -> spelled s t -> read_string (t ++ 34 :: r) = Some (s, r).
Proof. intros H1 H2. unfold read_string. rewrite (spelled_reads s t r H2). unfold unicode in H1. by rewrite H1. Qed.

(** ** Numbers *)
Lemma digit_yes d : d < 10 -> is_digit (48 + d) = true.
Proof. intros H. unfold is_digit. by rewrite (proj2 (N.leb_le 48 (48 + d))), (proj2 (N.leb_le (48 + d) 57)) by lia. Qed.
Lemma digit_is c : is_digit c = true -> exists d, d < 10 /\ c = 48 + d.
Proof. unfold is_digit. rewrite andb_true_iff, !N.leb_le. intros [H1 H2]. exists (c - 48). lia. Qed.
Lemma numeral_head n b : numeral n b -> exists d t, b = 48 + d :: t /\ d < 10 /\ (d = 0 -> n = 0 /\ t = []).
Proof.
  induction 1 as [n Hn|n b d H0 Hd H IH]; [by exists n, []|]. destruct IH as (d' & t & -> & H1 & H2).
  exists d', (t ++ [48 + d]). split; [done|]. split; [done|]. intros E. destruct (H2 E). done.
Qed.
Lemma numeral_digits n b r : numeral n b -> read_digits 0 (b ++ r) = read_digits n r.
Proof.
  intros H. revert r. induction H as [n Hn|n b d H0 Hd H IH]; intros r.
  - cbn [app read_digits]. rewrite digit_yes by done. f_equal. lia.
  - rewrite <- app_assoc, IH. cbn [app read_digits]. rewrite digit_yes by done. f_equal. lia.
Qed.
Lemma numeral_integer n b r : numeral n b -> stops r -> read_integer (b ++ r) = Some (n, r).
Proof.
  intros H Hr. destruct (numeral_head n b H) as (d & t & E & Hd & Hz). pose proof (numeral_digits n b r H) as HD.
  rewrite E in HD |- *. cbn [app] in HD |- *. unfold read_integer. rewrite digit_yes by done. cbn [negb].
  assert (E2 : (if 48 + d =? 48 then (0, t ++ r) else read_digits 0 (48 + d :: t ++ r)) = (n, r)).
  { destruct (N.eqb_spec (48 + d) 48) as [E0|E0].
    - destruct (Hz ltac:(lia)) as [-> ->]. done.
    - rewrite HD. by apply read_digits_stops. }
  rewrite E2. destruct r as [|c r]; [done|]. destruct Hr as (H1 & H2 & H3 & H4). rewrite H1.
  rewrite !(proj2 (N.eqb_neq _ _)) by done. done.
Qed.

(** ** Trees *)
Lemma nesting_depth j : nesting j = depth j.
Proof. reflexivity. Qed.
Lemma written_head j b : written j b -> exists c r, b = c :: r /\ white c = false /\ c <> 93 /\ c <> 125 /\ c <> 44.
Proof.
  intros H. assert (K : forall n b, numeral n b -> exists c r, b = c :: r /\ white c = false /\ c <> 93 /\ c <> 125 /\ c <> 44).
  { intros n b' Hn. destruct (numeral_head n b' Hn) as (d & t & -> & Hd & _). exists (48 + d), t. split; [done|]. split; [|lia].
    unfold white. rewrite !(proj2 (N.eqb_neq _ _)) by lia. done. }
  inversion H; subst; try (by eexists _, _; split; [reflexivity|done]). by eapply K.
Qed.
Lemma value_integer f d u n b r : blank u -> n < 2 ^ 64 -> numeral n b -> stops r ->
  value (S f) d (u ++ b ++ r) = Some (JInt (Z.of_N n), r).
Proof.
  intros Hu Hn Hb Hr. pose proof (numeral_integer n b r Hb Hr) as HI. destruct (numeral_head n b Hb) as (x & t & -> & Hx & _).
  cbn [app] in HI |- *. cbn [value]. rewrite skip_blank by done. rewrite skip_black.
  2: { unfold white. rewrite !(proj2 (N.eqb_neq _ _)) by lia. done. }
  rewrite !(proj2 (N.eqb_neq (48 + x) _)) by lia. unfold read_number.
  rewrite (proj2 (N.eqb_neq (48 + x) 45)) by lia. rewrite HI. rewrite (proj2 (N.ltb_lt n _)) by done. done.
Qed.
Lemma value_negative f d u n b r : blank u -> 0 < n <= 2 ^ 63 -> numeral n b -> stops r ->
  value (S f) d (u ++ (45 :: b) ++ r) = Some (JInt (- Z.of_N n), r).
Proof.
  intros Hu Hn Hb Hr. pose proof (numeral_integer n b r Hb Hr) as HI.
  cbn [value]. rewrite skip_blank by done. cbn [app]. rewrite skip_black by done.
  change (45 =? 110) with false. change (45 =? 116) with false. change (45 =? 102) with false. change (45 =? 34) with false.
  change (45 =? 91) with false. change (45 =? 123) with false. cbv iota. unfold read_number. change (45 =? 45) with true. cbv iota.
  rewrite HI. rewrite (proj2 (N.leb_le 1 n)) by lia. rewrite (proj2 (N.leb_le n 9223372036854775808)); [done|].
  destruct Hn as [_ Hn]. change (2 ^ 63) with 9223372036854775808 in Hn. done.
Qed.

Definition reads_value (j : json) (b : bytes) : Prop :=
  forall f d u r, (2 * length b <= f)%nat -> (nesting j < d)%nat -> blank u -> stops r -> value f d (u ++ b ++ r) = Some (j, r).
Definition reads_items (l : list json) (b : bytes) : Prop :=
  forall f d r, (2 * length b + 1 <= f)%nat -> Forall (fun j => (nesting j < d)%nat) l ->
    elements f d true (b ++ 93 :: r) = Some (l, r) /\
    forall v, blank v -> elements f d false (v ++ 44 :: b ++ 93 :: r) = Some (l, r).
Definition reads_named (l : list (bytes * json)) (b : bytes) : Prop :=
  forall f d r, (2 * length b + 1 <= f)%nat -> Forall (fun e => (nesting e.2 < d)%nat) l ->
    members f d true (b ++ 125 :: r) = Some (l, r) /\
    forall v, blank v -> members f d false (v ++ 44 :: b ++ 125 :: r) = Some (l, r).

Lemma elements_end f d v r : blank v -> elements (S f) d false (v ++ 93 :: r) = Some ([], r).
Proof. intros Hv. cbn [elements]. by rewrite skip_blank. Qed.
Lemma members_end f d v r : blank v -> members (S f) d false (v ++ 125 :: r) = Some ([], r).
Proof. intros Hv. cbn [members]. by rewrite skip_blank. Qed.

(** One element and what follows. *)
Lemma elements_step f d u j b R l r : blank u -> written j b -> reads_value j b -> (2 * length b <= f)%nat -> (nesting j < d)%nat ->
  stops R -> elements f d false R = Some (l, r) ->
  elements (S f) d true (u ++ b ++ R) = Some (j :: l, r) /\
  forall v, blank v -> elements (S f) d false (v ++ 44 :: u ++ b ++ R) = Some (j :: l, r).
Proof.
  intros Hu Hw HR Hf Hd HS He. split.
  - destruct (written_head j b Hw) as (c & t & E & Hc & H1 & _). pose proof (HR f d [] R Hf Hd ltac:(constructor) HS) as Hv.
    rewrite E in Hv |- *. cbn [app] in Hv |- *. cbn [elements]. rewrite skip_blank by done. rewrite skip_black by done.
    rewrite (proj2 (N.eqb_neq c 93)) by done. by rewrite Hv, He.
  - intros v Hv. cbn [elements]. rewrite skip_blank by done. rewrite skip_black by done.
    change (44 =? 93) with false. change (44 =? 44) with true. cbv iota. by rewrite (HR f d u R), He.
Qed.
Lemma members_step f d u k t v w j b R l r : blank u -> unicode k -> spelled k t -> blank v -> blank w -> reads_value j b ->
  (2 * length b <= f)%nat -> (nesting j < d)%nat -> stops R -> members f d false R = Some (l, r) ->
  members (S f) d true (u ++ 34 :: t ++ 34 :: v ++ 58 :: w ++ b ++ R) = Some ((k, j) :: l, r) /\
  forall x, blank x -> members (S f) d false (x ++ 44 :: u ++ 34 :: t ++ 34 :: v ++ 58 :: w ++ b ++ R) = Some ((k, j) :: l, r).
Proof.
  intros Hu Hk Ht Hv Hw HR Hf Hd HS He. split.
  - cbn [members]. rewrite (skip_blank u) by done. rewrite (skip_black 34) by done. change (34 =? 125) with false. cbv iota.
    rewrite (skip_black 34) by done. cbn [strip]. change (34 =? 34) with true. cbv iota. rewrite (spelled_string k t) by done.
    rewrite (skip_blank v) by done. rewrite (skip_black 58) by done. change (58 =? 58) with true. cbv iota.
    by rewrite (HR f d w R), He.
  - intros x Hx. cbn [members]. rewrite (skip_blank x) by done. rewrite (skip_black 44) by done.
    change (44 =? 125) with false. change (44 =? 44) with true. cbv iota. rewrite (skip_blank u) by done. rewrite (skip_black 34) by done.
    cbn [strip]. change (34 =? 34) with true. cbv iota. rewrite (spelled_string k t) by done.
    rewrite (skip_blank v) by done. rewrite (skip_black 58) by done. change (58 =? 58) with true. cbv iota.
    by rewrite (HR f d w R), He.
Qed.

Lemma all_read :
  (forall j b, written j b -> reads_value j b) /\ (forall l b, items l b -> reads_items l b) /\
  (forall l b, named l b -> reads_named l b).
Proof.
  apply (written_items_named (fun j b _ => reads_value j b) (fun l b _ => reads_items l b) (fun l b _ => reads_named l b)).
  - intros f d u r Hf Hd Hu Hr. destruct f as [|f]; [cbn in Hf; lia|]. cbn [value]. rewrite skip_blank by done. done.
  - intros f d u r Hf Hd Hu Hr. destruct f as [|f]; [cbn in Hf; lia|]. cbn [value]. rewrite skip_blank by done. done.
  - intros f d u r Hf Hd Hu Hr. destruct f as [|f]; [cbn in Hf; lia|]. cbn [value]. rewrite skip_blank by done. done.
  - intros n b Hn Hb f d u r Hf Hd Hu Hr. destruct (numeral_head n b Hb) as (x & t & E & _).
    destruct f as [|f]; [rewrite E in Hf; cbn in Hf; lia|]. by apply value_integer.
  - intros n b Hn Hb f d u r Hf Hd Hu Hr. destruct f as [|f]; [cbn in Hf; lia|]. by apply value_negative.
  - intros s t Hs Ht f d u r Hf Hd Hu Hr. destruct f as [|f]; [cbn in Hf; lia|]. cbn [value]. rewrite skip_blank by done.
    cbn [app]. rewrite skip_black by done. change (34 =? 110) with false. change (34 =? 116) with false. change (34 =? 102) with false.
    change (34 =? 34) with true. cbv iota. rewrite <- app_assoc. cbn [app]. by rewrite (spelled_string s t).
  - intros v Hv f d u r Hf Hd Hu Hr. destruct f as [|[|f]]; [cbn in Hf; lia|cbn in Hf; lia|]. cbn [nesting fold_right] in Hd.
    destruct d as [|[|d]]; [lia|lia|]. cbn [value]. rewrite skip_blank by done. cbn [app]. rewrite skip_black by done.
    change (91 =? 110) with false. change (91 =? 116) with false. change (91 =? 102) with false. change (91 =? 34) with false.
    change (91 =? 91) with true. cbv iota. rewrite <- app_assoc. cbn [app elements]. by rewrite skip_blank.
  - intros l b Hl HI f d u r Hf Hd Hu Hr. cbn [length] in Hf. rewrite app_length in Hf. cbn [length] in Hf.
    destruct f as [|f]; [lia|]. cbn [nesting] in Hd.
    destruct d as [|[|d]]; [lia|lia|]. cbn [value]. rewrite skip_blank by done. cbn [app]. rewrite skip_black by done.
    change (91 =? 110) with false. change (91 =? 116) with false. change (91 =? 102) with false. change (91 =? 34) with false.
    change (91 =? 91) with true. cbv iota. rewrite <- app_assoc. cbn [app].
    destruct (HI f (S d) r ltac:(lia) (max_below nesting l (S d) ltac:(lia))) as [-> _]. done.
  - intros v Hv f d u r Hf Hd Hu Hr. destruct f as [|[|f]]; [cbn in Hf; lia|cbn in Hf; lia|]. cbn [nesting fold_right] in Hd.
    destruct d as [|[|d]]; [lia|lia|]. cbn [value]. rewrite skip_blank by done. cbn [app]. rewrite skip_black by done.
    change (123 =? 110) with false. change (123 =? 116) with false. change (123 =? 102) with false. change (123 =? 34) with false.
    change (123 =? 91) with false. change (123 =? 123) with true. cbv iota. rewrite <- app_assoc. cbn [app members]. by rewrite skip_blank.
  - intros l b Hl HI f d u r Hf Hd Hu Hr. cbn [length] in Hf. rewrite app_length in Hf. cbn [length] in Hf.
    destruct f as [|f]; [lia|]. cbn [nesting] in Hd.
    destruct d as [|[|d]]; [lia|lia|]. cbn [value]. rewrite skip_blank by done. cbn [app]. rewrite skip_black by done.
    change (123 =? 110) with false. change (123 =? 116) with false. change (123 =? 102) with false. change (123 =? 34) with false.
    change (123 =? 91) with false. change (123 =? 123) with true. cbv iota. rewrite <- app_assoc. cbn [app].
    destruct (HI f (S d) r ltac:(lia) (max_below (fun e => nesting e.2) l (S d) ltac:(lia))) as [-> _]. done.
  - intros u j b v Hu Hw HR Hv f d r Hf HD. rewrite !app_length in Hf. apply Forall_cons in HD as [HD _].
    destruct (written_head j b Hw) as (c & t & E & _). assert (1 <= length b)%nat by (rewrite E; cbn; lia).
    destruct f as [|[|f]]; [lia|lia|]. rewrite <- !app_assoc.
    apply (elements_step (S f) d u j b (v ++ 93 :: r) [] r); [done|done|done|lia|done| |by apply elements_end].
    apply stops_blank; [done|apply stops_close].
  - intros u j b v l t Hu Hw HR Hv Hl HI f d r Hf HD. rewrite !app_length in Hf. cbn [length] in Hf. apply Forall_cons in HD as [HD HDl].
    destruct f as [|f]; [lia|]. rewrite <- ?app_assoc. cbn [app]. rewrite <- ?app_assoc. cbn [app].
    apply (elements_step f d u j b (v ++ 44 :: t ++ 93 :: r) l r); [done|done|done|lia|done| |].
    + apply stops_blank; [done|apply stops_comma].
    + destruct (HI f d r ltac:(lia) HDl) as [_ H]. by apply H.
  - intros u k t v w j b x Hu Hk Ht Hv Hw Hj HR Hx f d r Hf HD. apply Forall_cons in HD as [HD _]. cbn [snd] in HD.
    rewrite app_length in Hf. cbn [length] in Hf. rewrite app_length in Hf. cbn [length] in Hf. rewrite app_length in Hf. cbn [length] in Hf.
    rewrite !app_length in Hf. destruct f as [|[|f]]; [lia|lia|].
    rewrite <- ?app_assoc. cbn [app]. rewrite <- ?app_assoc. cbn [app]. rewrite <- ?app_assoc. cbn [app]. rewrite <- ?app_assoc. cbn [app].
    apply (members_step (S f) d u k t v w j b (x ++ 125 :: r) [] r); try done; [lia| |by apply members_end].
    apply stops_blank; [done|apply stops_brace].
  - intros u k t v w j b x l c Hu Hk Ht Hv Hw Hj HR Hx Hl HI f d r Hf HD. apply Forall_cons in HD as [HD HDl]. cbn [snd] in HD.
    rewrite app_length in Hf. cbn [length] in Hf. rewrite app_length in Hf. cbn [length] in Hf. rewrite app_length in Hf. cbn [length] in Hf.
    rewrite !app_length in Hf. cbn [length] in Hf. destruct f as [|f]; [lia|].
    rewrite <- ?app_assoc. cbn [app]. rewrite <- ?app_assoc. cbn [app]. rewrite <- ?app_assoc. cbn [app]. rewrite <- ?app_assoc. cbn [app].
    rewrite <- ?app_assoc. cbn [app].
    apply (members_step f d u k t v w j b (x ++ 44 :: c ++ 125 :: r) l r); try done; [lia| |].
    + apply stops_blank; [done|apply stops_comma].
    + destruct (HI f d r ltac:(lia) HDl) as [_ H]. by apply H.
Qed.

Theorem document_reads j b : document j b -> (nesting j < 128)%nat -> read_text b = Some j.
Proof.
  intros (u & t & v & -> & Hu & Hw & Hv) Hd. unfold read_text.
  rewrite (proj1 all_read j t Hw _ 128%nat u v); [|rewrite !app_length; lia|done|done|].
  - rewrite <- (app_nil_r v), skip_blank by done. done.
  - rewrite <- (app_nil_r v). apply stops_blank; done.
Qed.
