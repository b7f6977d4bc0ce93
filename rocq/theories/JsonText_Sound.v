(** Proofs about JSON text: what is read as a tree is a way to write it. *)
From Verif Require Import Base.
From Verif Require Proto_Model.
From Verif Require Import Json_Proofs JsonText_Proofs.
Local Open Scope N_scope.

Lemma skip_white_parts b : exists u, b = u ++ skip_white b /\ blank u.
Proof.
  induction b as [|c b IH]; [exists []; split; [done|constructor]|]. cbn [skip_white]. destruct (white c) eqn:E.
  - destruct IH as (u & E' & Hu). exists (c :: u). split; [cbn [app]; by rewrite <- E'|]. constructor; [by apply white_spec|done].
  - exists []. split; [done|constructor].
Qed.
Lemma strip_parts p b r : strip p b = Some r -> b = p ++ r.
Proof.
  revert b. induction p as [|x p IH]; intros b H; [by injection H as ->|]. destruct b as [|y b]; [done|]. cbn [strip] in H.
  destruct (N.eqb_spec x y) as [-> |]; [|done]. cbn [app]. f_equal. by apply IH.
Qed.

(** ** Strings *)
Lemma read_chars_parts b s r : read_chars b = Some (s, r) -> exists t, b = t ++ 34 :: r /\ spelled s t.
Proof.
  remember (length b) as n eqn:En. revert b s En. induction n as [n IH] using lt_wf_ind. intros b s En H.
  destruct b as [|c b]; [done|]. cbn [length] in En. cbn [read_chars] in H.
  destruct (N.eqb_spec c 34) as [-> |N1]. { injection H as <- ->. exists []. split; [done|constructor]. }
  destruct (N.ltb_spec c 32) as [|N2]; [done|]. destruct (N.eqb_spec c 92) as [-> |N3]; cbn [negb] in H.
  2: { destruct (read_chars b) as [[s' r']|] eqn:E; [|done]. injection H as <- ->.
       destruct (IH (length b) ltac:(lia) b s' eq_refl E) as (t & -> & Ht). exists (c :: t). split; [done|]. by constructor. }
  destruct b as [|e b]; [done|]. cbv zeta in H. cbn [length] in En.
  assert (K : forall x, match read_chars b with Some (s, r') => Some (x :: s, r') | None => None end = Some (s, r) ->
    (e, x) ∈ [(34, 34); (92, 92); (47, 47); (98, 8); (102, 12); (110, 10); (114, 13); (116, 9)] ->
    exists t, 92 :: e :: b = t ++ 34 :: r /\ spelled s t).
  { intros x Hx Hin. destruct (read_chars b) as [[s' r']|] eqn:E; [|done]. injection Hx as <- ->.
    destruct (IH (length b) ltac:(lia) b s' eq_refl E) as (t & -> & Ht). exists (92 :: e :: t). split; [done|].
    by eapply SpShort. }
  destruct (N.eqb_spec e 34) as [-> |M1]; [apply (K _ H), elem_of_list_In; simpl; tauto|].
  destruct (N.eqb_spec e 92) as [-> |M2]; [apply (K _ H), elem_of_list_In; simpl; tauto|].
  destruct (N.eqb_spec e 47) as [-> |M3]; [apply (K _ H), elem_of_list_In; simpl; tauto|]. cbn [orb] in H.
  destruct (N.eqb_spec e 98) as [-> |M4]; [apply (K _ H), elem_of_list_In; simpl; tauto|].
  destruct (N.eqb_spec e 102) as [-> |M5]; [apply (K _ H), elem_of_list_In; simpl; tauto|].
  destruct (N.eqb_spec e 110) as [-> |M6]; [apply (K _ H), elem_of_list_In; simpl; tauto|].
  destruct (N.eqb_spec e 114) as [-> |M7]; [apply (K _ H), elem_of_list_In; simpl; tauto|].
  destruct (N.eqb_spec e 116) as [-> |M8]; [apply (K _ H), elem_of_list_In; simpl; tauto|].
  destruct (N.eqb_spec e 117) as [-> |M9]; [|done]. clear K.
  destruct b as [|h1 [|h2 [|h3 [|h4 b]]]]; try done. cbn [length] in En.
  destruct (unhex4 h1 h2 h3 h4) as [n1|] eqn:E1; [|done]. apply unhex4_spec in E1. pose proof (hex4_bound _ _ E1) as B1.
  destruct (N.leb_spec 55296 n1) as [L1|L1], (N.leb_spec n1 56319) as [L2|L2]; cbn [andb] in H.
  1: { destruct b as [|x [|y [|l1 [|l2 [|l3 [|l4 b]]]]]]; try done. cbn [length] in En.
       destruct (unhex4 l1 l2 l3 l4) as [m|] eqn:E2; [|done]. apply unhex4_spec in E2.
       destruct (N.eqb_spec x 92) as [-> |]; [|done]. destruct (N.eqb_spec y 117) as [-> |]; [|done].
       destruct (N.leb_spec 56320 m) as [L3|L3], (N.leb_spec m 57343) as [L4|L4]; cbn [andb] in H; try done.
       destruct (read_chars b) as [[s' r']|] eqn:E; [|done]. injection H as <- ->.
       destruct (IH (length b) ltac:(lia) b s' eq_refl E) as (t & -> & Ht).
       exists (92 :: 117 :: [h1; h2; h3; h4] ++ 92 :: 117 :: [l1; l2; l3; l4] ++ t). split; [done|].
       apply (SpPair _ _ (n1 - 55296) (m - 56320)); [lia|lia| | | |done].
       - by replace (55296 + (n1 - 55296)) with n1 by lia.
       - by replace (56320 + (m - 56320)) with m by lia.
       - replace (65536 + 1024 * (n1 - 55296) + (m - 56320)) with (65536 + (n1 - 55296) * 1024 + (m - 56320)) by lia.
         apply encoded_spec; [lia|done]. }
  all: destruct (N.leb_spec 56320 n1) as [L3|L3], (N.leb_spec n1 57343) as [L4|L4]; cbn [andb] in H; try done; try lia.
  all: destruct (read_chars b) as [[s' r']|] eqn:E; [|done]; injection H as <- ->;
       destruct (IH (length b) ltac:(lia) b s' eq_refl E) as (t & -> & Ht);
       exists (92 :: 117 :: [h1; h2; h3; h4] ++ t); split; [done|];
       apply (SpCode _ n1); [done|lia| |done]; apply encoded_spec; [lia|done].
Qed.
Lemma read_string_parts b s r : read_string b = Some (s, r) -> exists t, b = t ++ 34 :: r /\ unicode s /\ spelled s t.
Proof.
  unfold read_string. destruct (read_chars b) as [[s' r']|] eqn:E; [|done]. destruct (Proto_Model.utf8 s') eqn:E'; [|done].
  intros H. injection H as -> ->. destruct (read_chars_parts b s r E) as (t & Et & Ht). by exists t.
Qed.

(** ** Numbers *)
Lemma read_digits_parts acc t0 b n r : numeral acc t0 -> acc <> 0 -> read_digits acc b = (n, r) ->
  exists t, b = t ++ r /\ numeral n (t0 ++ t).
Proof.
  revert acc t0. induction b as [|c b IH]; intros acc t0 Hn H0 H; cbn [read_digits] in H.
  - injection H as <- <-. exists []. split; [done|]. by rewrite app_nil_r.
  - destruct (is_digit c) eqn:E.
    + destruct (digit_is c E) as (d & Hd & ->). replace (48 + d - 48) with d in H by lia.
      destruct (IH (acc * 10 + d) (t0 ++ [48 + d])) as (t & -> & Ht); [|lia|done|].
      * replace (acc * 10 + d) with (10 * acc + d) by lia. by constructor.
      * exists (48 + d :: t). split; [done|]. by rewrite <- app_assoc in Ht.
    + injection H as <- <-. exists []. split; [done|]. by rewrite app_nil_r.
Qed.
Lemma read_integer_parts b n r : read_integer b = Some (n, r) -> exists t, b = t ++ r /\ numeral n t.
Proof.
  destruct b as [|c b]; [done|]. cbn [read_integer]. destruct (is_digit c) eqn:E; [|done]. cbn [negb].
  destruct (digit_is c E) as (d & Hd & ->).
  assert (K : forall n' r', (if 48 + d =? 48 then (0, b) else read_digits 0 (48 + d :: b)) = (n', r') ->
    exists t, 48 + d :: b = t ++ r' /\ numeral n' t).
  { intros n' r' H. destruct (N.eqb_spec (48 + d) 48) as [E0|E0].
    - injection H as <- <-. exists [48 + d]. split; [done|]. replace d with 0 by lia. by constructor.
    - cbn [read_digits] in H. rewrite E in H. replace (0 * 10 + (48 + d - 48)) with d in H by lia.
      destruct (read_digits_parts d [48 + d] b n' r') as (t & -> & Ht); [by constructor|lia|done|].
      exists (48 + d :: t). done. }
  destruct (if 48 + d =? 48 then _ else _) as [n' r'] eqn:EE. specialize (K n' r' eq_refl). intros H.
  assert (n' = n /\ r' = r) as [-> ->]; [|done].
  destruct r' as [|x r']; [by injection H as -> ->|].
  destruct (is_digit x || (x =? 46) || (x =? 101) || (x =? 69)); [done|]. by injection H as -> ->.
Qed.
Lemma read_number_parts b j r : read_number b = Some (j, r) -> exists t, b = t ++ r /\ written j t /\ nesting j = 0%nat.
Proof.
  destruct b as [|c b]; [done|]. unfold read_number. destruct (N.eqb_spec c 45) as [-> |].
  - destruct (read_integer b) as [[n r']|] eqn:E; [|done]. destruct (N.leb_spec 1 n) as [L1|]; [|done].
    destruct (N.leb_spec n 9223372036854775808) as [L2|]; [|done]. cbn [andb]. intros H. injection H as <- ->.
    destruct (read_integer_parts b n r E) as (t & -> & Ht). exists (45 :: t). split; [done|]. split; [|done]. constructor; [|done].
    change (2 ^ 63) with 9223372036854775808. lia.
  - destruct (read_integer (c :: b)) as [[n' r']|] eqn:E; [|done]. destruct (N.ltb_spec n' 18446744073709551616) as [L|]; [|done].
    intros H. injection H as <- ->. destruct (read_integer_parts _ n' r E) as (t & -> & Ht). exists t. split; [done|].
    split; [|done]. by constructor.
Qed.

(** ** Trees *)
Lemma below_max {A} (g : A -> nat) (l : list A) d :
  (0 < d)%nat -> Forall (fun x => (g x < d)%nat) l -> (fold_right (fun x m => Nat.max (g x) m) 0%nat l < d)%nat.
Proof. intros Hd. induction 1 as [|x l Hx _ IH]; cbn [fold_right]; lia. Qed.

Definition value_sound (f : nat) : Prop := forall d b j r, (0 < d)%nat -> value f d b = Some (j, r) ->
  exists u t, b = u ++ t ++ r /\ blank u /\ written j t /\ (nesting j < d)%nat.
Definition elements_sound (f : nat) : Prop := forall d first b l r, (0 < d)%nat -> elements f d first b = Some (l, r) ->
  Forall (fun j => (nesting j < d)%nat) l /\
  exists v, blank v /\ (l = [] /\ b = v ++ 93 :: r \/ exists t, items l t /\ b = (if first then t else v ++ 44 :: t) ++ 93 :: r).
Definition members_sound (f : nat) : Prop := forall d first b l r, (0 < d)%nat -> members f d first b = Some (l, r) ->
  Forall (fun e => (nesting e.2 < d)%nat) l /\
  exists v, blank v /\ (l = [] /\ b = v ++ 125 :: r \/ exists t, named l t /\ b = (if first then t else v ++ 44 :: t) ++ 125 :: r).

Lemma value_next f : elements_sound f -> members_sound f -> value_sound (S f).
Proof.
  intros HE HM d b j r Hd H. cbn [value] in H. destruct (skip_white_parts b) as (u & Eb & Hu).
  destruct (skip_white b) as [|c s]; [done|].
  assert (K : forall t, c :: s = t ++ r -> written j t -> (nesting j < d)%nat ->
    exists u t, b = u ++ t ++ r /\ blank u /\ written j t /\ (nesting j < d)%nat).
  { intros t Et Hw Hn. exists u, t. split; [by rewrite Eb, Et|done]. }
  destruct (N.eqb_spec c 110) as [-> |N1].
  { destruct (strip _ s) as [r'|] eqn:E; [|done]. injection H as <- ->. apply strip_parts in E as ->. apply (K [110; 117; 108; 108]); [done|constructor|done]. }
  destruct (N.eqb_spec c 116) as [-> |N2].
  { destruct (strip _ s) as [r'|] eqn:E; [|done]. injection H as <- ->. apply strip_parts in E as ->. apply (K [116; 114; 117; 101]); [done|constructor|done]. }
  destruct (N.eqb_spec c 102) as [-> |N3].
  { destruct (strip _ s) as [r'|] eqn:E; [|done]. injection H as <- ->. apply strip_parts in E as ->. apply (K [102; 97; 108; 115; 101]); [done|constructor|done]. }
  destruct (N.eqb_spec c 34) as [-> |N4].
  { destruct (read_string s) as [[x r']|] eqn:E; [|done]. injection H as <- ->.
    destruct (read_string_parts s x r E) as (t & -> & Hx & Ht). apply (K (34 :: t ++ [34])); [|by constructor|done].
    cbn [app]. by rewrite <- app_assoc. }
  destruct (N.eqb_spec c 91) as [-> |N5].
  { destruct d as [|[|d]]; [done|done|]. destruct (elements f (S d) true s) as [[l r']|] eqn:E; [|done]. injection H as <- ->.
    destruct (HE (S d) true s l r ltac:(lia) E) as (Hn & v & Hv & [[-> ->]|(t & Ht & ->)]).
    - apply (K (91 :: v ++ [93])); [|by constructor|cbn; lia]. cbn [app]. by rewrite <- app_assoc.
    - apply (K (91 :: t ++ [93])); [|by constructor|]. { cbn [app]. by rewrite <- app_assoc. }
      cbn [nesting]. pose proof (below_max nesting l (S d) ltac:(lia) Hn). lia. }
  destruct (N.eqb_spec c 123) as [-> |N6].
  { destruct d as [|[|d]]; [done|done|]. destruct (members f (S d) true s) as [[l r']|] eqn:E; [|done]. injection H as <- ->.
    destruct (HM (S d) true s l r ltac:(lia) E) as (Hn & v & Hv & [[-> ->]|(t & Ht & ->)]).
    - apply (K (123 :: v ++ [125])); [|by constructor|cbn; lia]. cbn [app]. by rewrite <- app_assoc.
    - apply (K (123 :: t ++ [125])); [|by constructor|]. { cbn [app]. by rewrite <- app_assoc. }
      cbn [nesting]. pose proof (below_max (fun e => nesting e.2) l (S d) ltac:(lia) Hn). lia. }
  destruct (read_number_parts _ j r H) as (t & Et & Ht & Hn). apply (K t); [done|done|lia].
Qed.

Lemma elements_next f : value_sound f -> elements_sound f -> elements_sound (S f).
Proof.
  intros HV HE d first b l r Hd H. cbn [elements] in H. destruct (skip_white_parts b) as (u & Eb & Hu).
  destruct (skip_white b) as [|c s]; [done|]. destruct (N.eqb_spec c 93) as [-> |N1].
  { injection H as <- ->. split; [constructor|]. exists u. split; [done|]. left. done. }
  destruct (if first then Some (c :: s) else if c =? 44 then Some s else None) as [b'|] eqn:E'; [|done].
  destruct (value f d b') as [[j b1]|] eqn:Ev; [|done]. destruct (elements f d false b1) as [[l' b2]|] eqn:Ee; [|done].
  injection H as <- ->. destruct (HV d b' j b1 Hd Ev) as (u' & t & -> & Hu' & Ht & Hj).
  destruct (HE d false b1 l' r Hd Ee) as (Hl & v & Hv & HH). split; [by constructor|].
  assert (exists t', items (j :: l') t' /\ u' ++ t ++ b1 = t' ++ 93 :: r) as (t' & Hi & Et').
  { destruct HH as [[-> ->]|(t1 & Ht1 & ->)].
    - exists (u' ++ t ++ v). split; [by constructor|]. by rewrite <- !app_assoc.
    - exists (u' ++ t ++ v ++ 44 :: t1). split; [by constructor|]. rewrite <- !app_assoc. cbn [app]. done. }
  destruct first.
  - injection E' as E'. exists []. split; [constructor|]. right. destruct Hi as [u0 j0 b0 v0 H1 H2 H3|u0 j0 b0 v0 l0 r0 H1 H2 H3 H4].
    + exists ((u ++ u0) ++ b0 ++ v0). split; [constructor; [by apply Forall_app|done|done]|]. rewrite Eb, E', Et'. by rewrite <- !app_assoc.
    + exists ((u ++ u0) ++ b0 ++ v0 ++ 44 :: r0). split; [constructor; [by apply Forall_app|done|done|done]|]. rewrite Eb, E', Et'. by rewrite <- !app_assoc.
  - destruct (N.eqb_spec c 44) as [-> |]; [|done]. injection E' as E'. exists u. split; [done|]. right. exists t'. split; [done|].
    rewrite Eb, E', Et'. by rewrite <- app_assoc.
Qed.

Lemma members_next f : value_sound f -> members_sound f -> members_sound (S f).
Proof.
  intros HV HM d first b l r Hd H. cbn [members] in H. destruct (skip_white_parts b) as (u & Eb & Hu).
  destruct (skip_white b) as [|c s]; [done|]. destruct (N.eqb_spec c 125) as [-> |N1].
  { injection H as <- ->. split; [constructor|]. exists u. split; [done|]. left. done. }
  destruct (if first then Some (c :: s) else if c =? 44 then Some s else None) as [b'|] eqn:E'; [|done].
  destruct (skip_white_parts b') as (u' & Eb' & Hu').
  destruct (strip [34] (skip_white b')) as [b1|] eqn:E1; [|done]. apply strip_parts in E1. rewrite E1 in Eb'. clear E1.
  destruct (read_string b1) as [[k b2]|] eqn:E2; [|done]. destruct (read_string_parts b1 k b2 E2) as (tk & -> & Hk & Htk).
  destruct (skip_white_parts b2) as (v & Eb2 & Hv).
  destruct (strip [58] (skip_white b2)) as [b3|] eqn:E3; [|done]. apply strip_parts in E3. rewrite E3 in Eb2. clear E3. subst b2.
  destruct (value f d b3) as [[j b4]|] eqn:Ev; [|done]. destruct (members f d false b4) as [[l' b5]|] eqn:Ee; [|done].
  injection H as <- ->. destruct (HV d b3 j b4 Hd Ev) as (w & t & -> & Hw & Ht & Hj).
  destruct (HM d false b4 l' r Hd Ee) as (Hl & x & Hx & HH). split; [by constructor|].
  assert (K : forall z, blank z -> exists t', named ((k, j) :: l') t' /\ z ++ 34 :: tk ++ 34 :: v ++ 58 :: w ++ t ++ b4 = t' ++ 125 :: r).
  { intros z Hz. destruct HH as [[-> ->]|(t1 & Ht1 & ->)].
    - exists (z ++ 34 :: tk ++ 34 :: v ++ 58 :: w ++ t ++ x). split; [by constructor|].
      do 6 (rewrite <- ?app_assoc; cbn [app]). done.
    - exists (z ++ 34 :: tk ++ 34 :: v ++ 58 :: w ++ t ++ x ++ 44 :: t1). split; [by constructor|].
      do 6 (rewrite <- ?app_assoc; cbn [app]). done. }
  cbn [app] in Eb'. destruct first.
  - injection E' as E'. exists []. split; [constructor|]. right.
    destruct (K (u ++ u')) as (t' & Hn & Et'); [by apply Forall_app|]. exists t'. split; [done|].
    rewrite <- Et', Eb, E', Eb'. by rewrite <- app_assoc.
  - destruct (N.eqb_spec c 44) as [-> |]; [|done]. injection E' as E'. exists u. split; [done|]. right.
    destruct (K u' Hu') as (t' & Hn & Et'). exists t'. split; [done|].
    rewrite <- app_assoc. cbn [app]. rewrite <- Et', Eb, E', Eb'. done.
Qed.

Lemma all_sound f : value_sound f /\ elements_sound f /\ members_sound f.
Proof.
  induction f as [|f (HV & HE & HM)]; [split_and!; intros ? **; done|]. split_and!.
  - by apply value_next.
  - by apply elements_next.
  - by apply members_next.
Qed.

Theorem reads_document j b : read_text b = Some j -> document j b /\ (nesting j < 128)%nat.
Proof.
  unfold read_text. destruct (value _ 128 b) as [[j' r]|] eqn:E; [|done]. destruct (skip_white r) eqn:Er; [|done]. intros H. injection H as ->.
  destruct (proj1 (all_sound _) 128%nat b j r ltac:(lia) E) as (u & t & -> & Hu & Ht & Hn). split; [|done].
  destruct (skip_white_parts r) as (v & Ev & Hv). rewrite Er, app_nil_r in Ev. subst r. exists u, t, v. done.
Qed.
