(** C21, C105: the strings of the wire are exactly the sequences of Unicode characters. *)
From Verif Require Import Base.
From Verif Require Proto_Model.
From Verif Require Import Json_Proofs3 JsonText_Spec.
Import Proto_Model.
Local Open Scope N_scope.

(** A Unicode scalar value: what a Rust [char] is. *)
Definition scalar (n : N) : Prop := n < 55296 \/ 57344 <= n < 1114112.

Lemma cont_iff x : cont x = true <-> 128 <= x <= 191.
Proof. unfold cont. rewrite andb_true_iff, !N.leb_le. done. Qed.
Ltac tests := repeat match goal with
  | H : (_ && _)%bool = true |- _ => apply andb_true_iff in H as [? ?]
  | H : cont _ = true |- _ => apply cont_iff in H
  | H : (_ <=? _) = true |- _ => apply N.leb_le in H
  | H : (_ =? _) = true |- _ => apply N.eqb_eq in H
  | H : (_ =? _) = false |- _ => apply N.eqb_neq in H
  | H : (_ <? _) = true |- _ => apply N.ltb_lt in H
  | H : (_ <? _) = false |- _ => apply N.ltb_ge in H
  end.
Ltac yes := repeat first [apply andb_true_intro; split | apply cont_iff; lia | apply N.leb_le; lia].

Lemma encoded_utf8 n x : scalar n -> encoded n x -> utf8 x = true.
Proof.
  intros Hn He. unfold scalar in Hn. destruct He as [k Hk|a b Ha Hb|a b c Ha Hb Hc|a b c d Ha Hb Hc Hd]; cbn [utf8].
  - by rewrite (proj2 (N.ltb_lt k 128)).
  - rewrite (proj2 (N.ltb_ge _ 128)) by lia. replace ((194 <=? 192 + a) && (192 + a <=? 223))%bool with true by (symmetry; yes).
    apply andb_true_intro. split; [by yes|done].
  - rewrite (proj2 (N.ltb_ge _ 128)) by lia.
    replace ((194 <=? 224 + a) && (224 + a <=? 223))%bool with false by (symmetry; apply andb_false_iff; right; apply N.leb_gt; lia).
    replace ((224 <=? 224 + a) && (224 + a <=? 239))%bool with true by (symmetry; yes).
    apply andb_true_intro. split; [|done]. apply andb_true_intro. split; [|by yes].
    destruct (224 + a =? 224) eqn:E1; [tests; yes|]. destruct (224 + a =? 237) eqn:E2; tests; yes.
  - rewrite (proj2 (N.ltb_ge _ 128)) by lia.
    replace ((194 <=? 240 + a) && (240 + a <=? 223))%bool with false by (symmetry; apply andb_false_iff; right; apply N.leb_gt; lia).
    replace ((224 <=? 240 + a) && (240 + a <=? 239))%bool with false by (symmetry; apply andb_false_iff; right; apply N.leb_gt; lia).
    replace ((240 <=? 240 + a) && (240 + a <=? 244))%bool with true by (symmetry; yes).
    apply andb_true_intro. split; [|done]. apply andb_true_intro. split; [|by yes]. apply andb_true_intro. split; [|by yes].
    destruct (240 + a =? 240) eqn:E1; [tests; yes|]. destruct (240 + a =? 244) eqn:E2; tests; yes.
Qed.

Lemma utf8_first x b : utf8 (x :: b) = true -> exists n e r, scalar n /\ encoded n e /\ x :: b = e ++ r /\ utf8 r = true /\ e <> [].
Proof.
  cbn [utf8]. destruct (x <? 128) eqn:E0.
  { intros H. tests. exists x, [x], b. split; [unfold scalar; lia|]. split; [by constructor|done]. }
  destruct b as [|x1 b]; [done|]. destruct ((194 <=? x) && (x <=? 223))%bool eqn:E1.
  { intros H. tests. exists (64 * (x - 192) + (x1 - 128)), [x; x1], b. split; [unfold scalar; lia|]. split; [|done].
    replace [x; x1] with [192 + (x - 192); 128 + (x1 - 128)] by (f_equal; [lia|f_equal; lia]). constructor; lia. }
  destruct b as [|x2 b]; [done|]. destruct ((224 <=? x) && (x <=? 239))%bool eqn:E2.
  { intros H. tests. exists (4096 * (x - 224) + 64 * (x1 - 128) + (x2 - 128)), [x; x1; x2], b.
    assert (128 <= x1 <= 191 /\ (x = 224 -> 160 <= x1) /\ (x = 237 -> x1 <= 159)) as (B1 & B2 & B3).
    { destruct (x =? 224) eqn:D1; [tests; lia|]. destruct (x =? 237) eqn:D2; tests; lia. }
    split; [unfold scalar; lia|]. split; [|done].
    replace [x; x1; x2] with [224 + (x - 224); 128 + (x1 - 128); 128 + (x2 - 128)] by (repeat (f_equal; [lia|]); f_equal; lia).
    constructor; lia. }
  destruct b as [|x3 b]; [done|]. destruct ((240 <=? x) && (x <=? 244))%bool eqn:E3; [|done].
  intros H. tests. exists (262144 * (x - 240) + 4096 * (x1 - 128) + 64 * (x2 - 128) + (x3 - 128)), [x; x1; x2; x3], b.
  assert (128 <= x1 <= 191 /\ (x = 240 -> 144 <= x1) /\ (x = 244 -> x1 <= 143)) as (B1 & B2 & B3).
  { destruct (x =? 240) eqn:D1; [tests; lia|]. destruct (x =? 244) eqn:D2; tests; lia. }
  split; [unfold scalar; lia|]. split; [|done].
  replace [x; x1; x2; x3] with [240 + (x - 240); 128 + (x1 - 128); 128 + (x2 - 128); 128 + (x3 - 128)] by (repeat (f_equal; [lia|]); f_equal; lia).
  constructor; lia.
Qed.

(** Bytes are taken for a string exactly if they are a sequence of encoded characters, any that Unicode has. *)
Theorem C21_strings b : utf8 b = true <-> exists chars parts, Forall scalar chars /\ Forall2 encoded chars parts /\ b = concat parts.
Proof.
  split.
  - remember (length b) as k eqn:Ek. revert b Ek. induction k as [k IH] using lt_wf_ind. intros [|x b] Ek H; [by exists [], []|].
    destruct (utf8_first x b H) as (n & e & r & Hn & He & E & Hr & Hne).
    destruct (IH (length r)) with (b := r) as (chars & parts & H1 & H2 & ->); [|done|done|].
    { rewrite Ek, E, app_length. destruct e; [done|cbn; lia]. }
    exists (n :: chars), (e :: parts). split; [by constructor|]. split; [by constructor|done].
  - intros (chars & parts & H1 & H2 & ->). induction H2 as [|n e chars parts He _ IH]; [done|].
    apply Forall_cons in H1 as [Hn H1]. cbn [concat]. apply utf8_app; [by apply (encoded_utf8 n)|by apply IH].
Qed.

(** And no two sequences of characters have the same bytes. *)
Lemma encoded_head n e n' e' r r' : scalar n -> scalar n' -> encoded n e -> encoded n' e' -> e ++ r = e' ++ r' -> n = n' /\ e = e' /\ r = r'.
Proof.
  unfold scalar. intros Hn Hn' He He' E. destruct He, He'; cbn [app] in E; simplify_eq; repeat match goal with H : _ + _ = _ + _ |- _ => apply N.add_cancel_l in H; subst end;
    try (exfalso; lia); try done.
  all: split; [lia|]; split; [repeat (f_equal; [lia|]); done|done].
Qed.
Theorem C21_characters chars chars' parts parts' :
  Forall scalar chars -> Forall scalar chars' -> Forall2 encoded chars parts -> Forall2 encoded chars' parts' -> concat parts = concat parts' ->
  chars = chars'.
Proof.
  intros H1 H1' H2. revert chars' parts' H1'. induction H2 as [|n e chars parts He _ IH]; intros chars' parts' H1' H2' E.
  - destruct H2' as [|n' e' chars' parts' He' _]; [done|]. by destruct He'.
  - apply Forall_cons in H1 as [Hn H1]. destruct H2' as [|n' e' chars' parts' He' H2']; [by destruct He|].
    apply Forall_cons in H1' as [Hn' H1']. cbn [concat] in E. destruct (encoded_head _ _ _ _ _ _ Hn Hn' He He' E) as (-> & _ & E').
    f_equal. by apply (IH H1 chars' parts').
Qed.
Print Assumptions C21_strings.
Print Assumptions C21_characters.

(** U+10FFFF, the last character, and U+E000, the first one after the surrogates; half a surrogate pair is refused. *)
Example C21_strings_case :
  scalar 1114111 /\ encoded 1114111 [240 + 4; 128 + 15; 128 + 63; 128 + 63] /\ utf8 [244; 143; 191; 191; 238; 128; 128; 97] = true /\
  utf8 [237; 160; 128] = false /\ utf8 [192; 128] = false.
Proof.
  split; [unfold scalar; lia|]. split; [apply (Enc4 4 15 63 63); lia|]. repeat split; vm_compute; reflexivity.
Qed.
