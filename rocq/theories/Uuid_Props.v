(** Property C52: which texts are taken for the ids of requests. *)
From Verif Require Import ShardWire_Proofs.
Local Open Scope list_scope.
Local Open Scope N_scope.

(** Capital letters A to F. *)
Definition lower_hex (c : N) : N := if (65 <=? c) && (c <=? 70) then c + 32 else c.

Lemma unhex_digit_is c x : unhex_digit c = Some x -> x < 16 /\ hex_digit x = lower_hex c.
Proof.
  unfold unhex_digit, hex_digit, lower_hex.
  destruct (N.leb_spec 48 c), (N.leb_spec c 57), (N.leb_spec 97 c), (N.leb_spec c 102), (N.leb_spec 65 c), (N.leb_spec c 70);
    cbn [andb]; intros [= <-]; try lia; (match goal with |- context [?z <? 10] => destruct (N.ltb_spec z 10) end); split; lia.
Qed.

Lemma unhex_is n : forall s u, (length s <= n)%nat -> unhex s = Some u -> hex u = lower_hex <$> s /\ is_bytes u /\ length s = (2 * length u)%nat.
Proof.
  induction n as [|n IH]; intros [|a [|b r]] u Hl; cbn [unhex]; try (cbn in Hl; lia); try done;
    try (intros [= <-]; split_and!; [done|by apply Forall_nil|done]).
  destruct (unhex_digit a) as [x|] eqn:Ea; [|done]. destruct (unhex_digit b) as [y|] eqn:Eb; [|done].
  destruct (unhex r) as [l|] eqn:Er; [|done]. intros Hu. assert (u = 16 * x + y :: l) as -> by congruence. clear Hu. apply unhex_digit_is in Ea as [Hx Ea], Eb as [Hy Eb].
  destruct (IH r l) as (H1 & H2 & H3); [cbn in Hl; lia|done|]. split_and!.
  - change (hex (16 * x + y :: l)) with (hex_digit ((16 * x + y) / 16) :: hex_digit ((16 * x + y) mod 16) :: hex l). rewrite H1.
    assert ((16 * x + y) / 16 = x) as -> by (symmetry; apply (N.div_unique _ _ _ y); lia).
    assert ((16 * x + y) mod 16 = y) as -> by (symmetry; apply (N.mod_unique _ _ x); lia). by rewrite Ea, Eb.
  - apply Forall_cons. split; [|done]. lia.
  - cbn [length]. lia.
Qed.

Lemma parse_is s u : uuid_parse s = Some u -> length s = 36%nat /\ s !! 8%nat = Some 45 /\ s !! 13%nat = Some 45 /\ s !! 18%nat = Some 45 /\ s !! 23%nat = Some 45 /\
  unhex (take 8 s ++ take 4 (drop 9 s) ++ take 4 (drop 14 s) ++ take 4 (drop 19 s) ++ drop 24 s) = Some u.
Proof.
  unfold uuid_parse. destruct (Nat.eqb_spec (length s) 36) as [Hl|]; [|done].
  destruct (s !! 8%nat) as [[|p]|]; [done| |done]. do 6 (destruct p as [p|p|]; try done).
  destruct (s !! 13%nat) as [[|p]|]; [done| |done]. do 6 (destruct p as [p|p|]; try done).
  destruct (s !! 18%nat) as [[|p]|]; [done| |done]. do 6 (destruct p as [p|p|]; try done).
  destruct (s !! 23%nat) as [[|p]|]; [done| |done]. do 6 (destruct p as [p|p|]; try done).
Qed.

(** A text that is taken for the id of a request is the text of that id, but for capital
    letters. Partial: the other forms that the crate reads (without hyphens, in braces, as a
    URN) are not modelled; nothing writes them. *)
Theorem C52_uuid_partial s u : uuid_parse s = Some u -> length u = 16%nat /\ is_bytes u /\ lower_hex <$> s = uuid_to_string u.
Proof.
  intros H. apply parse_is in H as (Hl & H1 & H2 & H3 & H4 & H).
  do 36 (destruct s as [|? s]; [discriminate Hl|]). destruct s as [|? s]; [|discriminate Hl]. clear Hl.
  cbn in H1, H2, H3, H4. simplify_eq. cbn [take drop app] in H. apply (unhex_is 32) in H as (Hx & Hb & Hlen); [|cbn; lia].
  cbn [length] in Hlen. assert (Hu : length u = 16%nat) by lia. clear Hlen. split; [done|]. split; [done|].
  do 16 (destruct u as [|? u]; [discriminate Hu|]). destruct u as [|? u]; [|discriminate Hu].
  unfold uuid_to_string. cbn [take drop]. unfold hex in Hx |- *. cbn [map concat app] in Hx |- *. cbn [fmap list_fmap] in Hx |- *.
  injection Hx as -> -> -> -> -> -> -> -> -> -> -> -> -> -> -> -> -> -> -> -> -> -> -> -> -> -> -> -> -> -> -> ->. done.
Qed.
Print Assumptions C52_uuid_partial.

(** Hence a request to stop a shard is read with an id that is written in it. *)
Theorem C52_stop_id_partial b m r : parse_or_reject p_stop_shard_codec b = Done r -> read_stop_shard b = Done m ->
  lower_hex <$> pss_request r = uuid_to_string (ss_request m).
Proof.
  intros Hr. unfold read_stop_shard. rewrite Hr. cbn [obind]. destruct (uuid_parse (pss_request r)) as [u|] eqn:E; [|done].
  cbn [unwrap omap_out]. intros [= <-]. apply C52_uuid_partial in E as (_ & _ & E). exact E.
Qed.
Print Assumptions C52_stop_id_partial.

(** An id in capital letters; one with a letter too far; one that is too short. *)
Definition an_id : bytes := [171; 205; 239; 1; 2; 3; 4; 5; 6; 7; 8; 9; 10; 11; 12; 250].
Definition upper (c : N) : N := if (97 <=? c) && (c <=? 102) then c - 32 else c.
Example C52_id_case :
  (uuid_parse (upper <$> uuid_to_string an_id), uuid_parse (103 :: drop 1 (uuid_to_string an_id)), uuid_parse (take 34 (uuid_to_string an_id))) =
  (Some an_id, None, None).
Proof. by vm_compute. Qed.
