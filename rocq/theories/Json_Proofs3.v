(** Proofs about JSON text: it is UTF-8 on one line. *)
From Verif Require Import Base.
From Verif Require Proto_Model.
From Verif Require Export Json_Proofs2.
Import Proto_Model.
Local Open Scope N_scope.

Lemma utf8_app a b : utf8 a = true -> utf8 b = true -> utf8 (a ++ b) = true.
Proof.
  intros Ha Hb. remember (length a) as n eqn:En. revert a En Ha. induction n as [n IH] using lt_wf_ind. intros [|x a] En Ha; [done|].
  cbn [length] in En. cbn [app utf8] in Ha |- *. destruct (x <? 128).
  - apply (IH (length a)); [lia|done|done].
  - destruct a as [|x1 a]; [done|]. cbn [length] in En. cbn [app]. destruct ((194 <=? x) && (x <=? 223)).
    + apply andb_true_iff in Ha as [H1 H2]. rewrite H1. apply (IH (length a)); [lia|done|done].
    + destruct a as [|x2 a]; [done|]. cbn [length] in En. cbn [app]. destruct ((224 <=? x) && (x <=? 239)).
      * apply andb_true_iff in Ha as [H1 H2]. rewrite H1. apply (IH (length a)); [lia|done|done].
      * destruct a as [|x3 a]; [done|]. cbn [length] in En. cbn [app]. destruct ((240 <=? x) && (x <=? 244)); [|done].
        apply andb_true_iff in Ha as [H1 H2]. rewrite H1. apply (IH (length a)); [lia|done|done].
Qed.

Lemma utf8_small b : Forall (fun x => x < 128) b -> utf8 b = true.
Proof. induction 1 as [|x b Hx _ IH]; [done|]. cbn [utf8]. rewrite (proj2 (N.ltb_lt x 128)) by done. exact IH. Qed.

Lemma hex_small n : n < 16 -> 32 <= hex_low n < 128.
Proof. intros H. unfold hex_low. destruct (N.ltb_spec n 10); lia. Qed.
Lemma escape_small c : c < 128 -> Forall (fun x => 32 <= x < 128) (escape c).
Proof.
  intros H. unfold escape.
  assert (H1 : c / 16 < 16) by (apply N.div_lt_upper_bound; lia). assert (H2 : c mod 16 < 16) by (apply N.mod_lt; lia).
  pose proof (hex_small _ H1). pose proof (hex_small _ H2).
  repeat (match goal with |- context [if ?b then _ else _] => destruct b eqn:? end; try (repeat constructor; lia)).
Qed.
Lemma escape_big c : 128 <= c -> escape c = [c].
Proof. intros H. unfold escape. rewrite !(proj2 (N.eqb_neq _ _)) by lia. by rewrite (proj2 (N.ltb_ge c 32)) by lia. Qed.
Lemma cont_big x : cont x = true -> 128 <= x.
Proof. unfold cont. intros H. apply andb_true_iff in H as [H _]. by apply N.leb_le in H. Qed.

Lemma utf8_quoted s : unicode s -> utf8 (concat (map escape s)) = true.
Proof.
  unfold unicode. remember (length s) as n eqn:En. revert s En. induction n as [n IH] using lt_wf_ind. intros [|x s] En Hs; [done|].
  cbn [length] in En. cbn [map concat]. cbn [utf8] in Hs. destruct (N.ltb_spec x 128) as [Hx|Hx].
  - apply utf8_app.
    + apply utf8_small. eapply Forall_impl; [exact (escape_small x Hx)|]. intros y. cbv beta. lia.
    + apply (IH (length s)); [lia|done|done].
  - rewrite (escape_big x Hx). destruct s as [|x1 s]; [done|]. cbn [length] in En.
    destruct ((194 <=? x) && (x <=? 223)) eqn:E2.
    + apply andb_true_iff in Hs as [H1 H2]. cbn [map concat]. rewrite (escape_big x1 (cont_big x1 H1)). cbn [app utf8].
      rewrite (proj2 (N.ltb_ge x 128)) by done. rewrite E2, H1. apply (IH (length s)); [lia|done|done].
    + destruct s as [|x2 s]; [done|]. cbn [length] in En. destruct ((224 <=? x) && (x <=? 239)) eqn:E3.
      * apply andb_true_iff in Hs as [H1 H2]. pose proof H1 as H1'. apply andb_true_iff in H1 as [Ha Hb].
        assert (Hx1 : 128 <= x1).
        { destruct (x =? 224); [|destruct (x =? 237); [|by apply cont_big]]; apply andb_true_iff in Ha as [Ha _]; apply N.leb_le in Ha; lia. }
        cbn [map concat]. rewrite (escape_big x1 Hx1), (escape_big x2 (cont_big x2 Hb)). cbn [app utf8].
        rewrite (proj2 (N.ltb_ge x 128)) by done. rewrite E2, E3, H1'. apply (IH (length s)); [lia|done|done].
      * destruct s as [|x3 s]; [done|]. cbn [length] in En. destruct ((240 <=? x) && (x <=? 244)) eqn:E4; [|done].
        apply andb_true_iff in Hs as [H1 H2]. pose proof H1 as H1'. apply andb_true_iff in H1 as [H1 Hc]. apply andb_true_iff in H1 as [Ha Hb].
        assert (Hx1 : 128 <= x1).
        { destruct (x =? 240); [|destruct (x =? 244); [|by apply cont_big]]; apply andb_true_iff in Ha as [Ha _]; apply N.leb_le in Ha; lia. }
        cbn [map concat]. rewrite (escape_big x1 Hx1), (escape_big x2 (cont_big x2 Hb)), (escape_big x3 (cont_big x3 Hc)). cbn [app utf8].
        rewrite (proj2 (N.ltb_ge x 128)) by done. rewrite E2, E3, E4, H1'. apply (IH (length s)); [lia|done|done].
Qed.

Definition printable (b : bytes) : Prop := Forall (fun x => 32 <= x) b.
Lemma printable_quoted s : printable (quoted s).
Proof.
  unfold quoted. constructor; [lia|]. apply Forall_app. split; [|repeat constructor; lia].
  induction s as [|c s IH]; [constructor|]. cbn [map concat]. apply Forall_app. split; [|exact IH].
  destruct (N.lt_ge_cases c 128) as [H|H].
  - eapply Forall_impl; [exact (escape_small c H)|]. intros y. cbv beta. lia.
  - rewrite (escape_big c H). repeat constructor. lia.
Qed.

Lemma digits_small f n l : Forall (fun x => 32 <= x < 128) l -> Forall (fun x => 32 <= x < 128) (digits_aux f n l).
Proof.
  revert n l. induction f as [|f IH]; intros n l H; cbn [digits_aux]; [done|]. destruct (N.ltb_spec n 10).
  - constructor; [lia|done].
  - apply IH. assert (n mod 10 < 10) by (apply N.mod_lt; lia). constructor; [lia|done].
Qed.
Lemma number_small z : Forall (fun x => 32 <= x < 128) (number_text z).
Proof. unfold number_text. destruct (z <? 0)%Z; [constructor; [lia|]|]; apply digits_small; constructor. Qed.

Lemma sep_all (P : bytes -> Prop) l :
  P [] -> P [44] -> (forall a b, P a -> P b -> P (a ++ b)) -> Forall P l -> P (sep l).
Proof.
  intros H0 H1 Ha. induction 1 as [|x l Hx Hl IH]; [done|]. rewrite sep_cons. apply Ha; [done|]. destruct l as [|y l]; [done|].
  exact (Ha [44] _ H1 IH).
Qed.

Definition line (b : bytes) : Prop := utf8 b = true /\ printable b.
Lemma line_app a b : line a -> line b -> line (a ++ b).
Proof. intros [H1 H2] [H3 H4]. split; [by apply utf8_app|by apply Forall_app]. Qed.
Lemma line_small b : Forall (fun x => 32 <= x < 128) b -> line b.
Proof. intros H. split; [apply utf8_small|]; (eapply Forall_impl; [exact H|]; intros y; cbv beta; lia). Qed.
Lemma line_one c : 32 <= c < 128 -> line [c].
Proof. intros H. apply line_small. constructor; [exact H|constructor]. Qed.
Lemma line_quoted s : unicode s -> line (quoted s).
Proof.
  intros H. split; [|apply printable_quoted]. unfold quoted. change (34 :: concat (map escape s) ++ [34]) with ([34] ++ concat (map escape s) ++ [34]).
  apply utf8_app; [done|]. apply utf8_app; [by apply utf8_quoted|done].
Qed.

Lemma text_line j : clean j -> line (text j).
Proof.
  induction j as [|b|z|s|l IH|l IH] using json_rec'; intros HC.
  - apply line_small. repeat constructor; lia.
  - apply line_small. destruct b; repeat constructor; lia.
  - apply line_small. apply number_small.
  - by apply line_quoted.
  - apply clean_arr in HC. cbn [text]. change (91 :: sep (map text l) ++ [93]) with ([91] ++ sep (map text l) ++ [93]).
    apply line_app; [by apply line_one|]. apply line_app; [|by apply line_one].
    apply sep_all; [by split; [|constructor]|by apply line_one|exact line_app|].
    apply Forall_map. rewrite Forall_forall in HC, IH |- *. intros x Hx. exact (IH x Hx (HC x Hx)).
  - apply clean_obj in HC. cbn [text].
    change (123 :: sep (map (fun '(k, x) => quoted k ++ 58 :: text x) l) ++ [125]) with ([123] ++ sep (map (fun '(k, x) => quoted k ++ 58 :: text x) l) ++ [125]).
    apply line_app; [by apply line_one|]. apply line_app; [|by apply line_one].
    apply sep_all; [by split; [|constructor]|by apply line_one|exact line_app|].
    apply Forall_map. rewrite Forall_forall in HC, IH |- *. intros [k x] Hx. destruct (HC _ Hx) as [Hk Hc].
    apply line_app; [by apply line_quoted|]. exact (line_app [58] _ (line_one 58 ltac:(lia)) (IH _ Hx Hc)).
Qed.
