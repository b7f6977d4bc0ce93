(** Queries are read as they were written. *)
From Verif Require Export Views_Spec.

Local Open Scope N_scope.

(** * Spelling *)
Lemma hex_digit_range c v : hex_digit c v -> 48 <= c <= 102 /\ c <> 61 /\ v < 16.
Proof. destruct 1; lia. Qed.
Lemma hex_spec c v : hex_digit c v -> hex c = Some v.
Proof.
  unfold hex. destruct 1 as [d Hd|d Hd|d Hd].
  - replace ((48 <=? 48 + d) && (48 + d <=? 57)) with true by lia. f_equal. lia.
  - replace ((48 <=? 65 + d) && (65 + d <=? 57)) with false by lia.
    replace ((65 <=? 65 + d) && (65 + d <=? 70)) with true by lia. f_equal. lia.
  - replace ((48 <=? 97 + d) && (97 + d <=? 57)) with false by lia.
    replace ((65 <=? 97 + d) && (97 + d <=? 70)) with false by lia.
    replace ((97 <=? 97 + d) && (97 + d <=? 102)) with true by lia. f_equal. lia.
Qed.

Lemma spelled_decode sep t r : spelled sep t r -> form_decode r = t.
Proof.
  unfold form_decode. induction 1 as [|b t r H1 H2 H3 _ _ IH|t r _ IH|h l x y t r Hh Hl _ IH].
  - done.
  - cbn [map]. apply N.eqb_neq in H3 as ->. cbn [percent]. apply N.eqb_neq in H2 as ->. by rewrite IH.
  - cbn [map percent N.eqb Pos.eqb]. by rewrite IH.
  - cbn [map]. pose proof (hex_digit_range _ _ Hh) as ([? ?] & _ & _). pose proof (hex_digit_range _ _ Hl) as ([? ?] & _ & _).
    replace (h =? 43) with false by lia. replace (l =? 43) with false by lia. cbn [percent N.eqb Pos.eqb].
    rewrite (hex_spec _ _ Hh), (hex_spec _ _ Hl). by rewrite IH.
Qed.
Lemma spelled_amp sep t r : spelled sep t r -> 38 ∉ r.
Proof.
  induction 1 as [|b t r H1 H2 H3 _ _ IH|t r _ IH|h l x y t r Hh Hl _ IH]; rewrite ?not_elem_of_cons.
  - apply not_elem_of_nil.
  - done.
  - done.
  - pose proof (hex_digit_range _ _ Hh) as ([? ?] & _ & _). pose proof (hex_digit_range _ _ Hl) as ([? ?] & _ & _).
    split_and!; [lia|lia|lia|done].
Qed.
Lemma spelled_eq t r : spelled true t r -> 61 ∉ r.
Proof.
  induction 1 as [|b t r H1 H2 H3 H4 _ IH|t r _ IH|h l x y t r Hh Hl _ IH]; rewrite ?not_elem_of_cons.
  - apply not_elem_of_nil.
  - split; [|done]. intros <-. by apply H4.
  - done.
  - pose proof (hex_digit_range _ _ Hh) as (_ & ? & _). pose proof (hex_digit_range _ _ Hl) as (_ & ? & _).
    split_and!; [lia|done|done|done].
Qed.

Lemma cut_at_app c k v : c ∉ k -> cut_at c (k ++ c :: v) = (k, v).
Proof.
  induction k as [|b k IH]; intros H; cbn [app cut_at].
  - by rewrite N.eqb_refl.
  - apply not_elem_of_cons in H as [H1 H2]. replace (b =? c) with false by lia. by rewrite IH.
Qed.
Lemma cut_at_none c k : c ∉ k -> cut_at c k = (k, []).
Proof.
  induction k as [|b k IH]; intros H; cbn [cut_at]; [done|].
  apply not_elem_of_cons in H as [H1 H2]. replace (b =? c) with false by lia. by rewrite IH.
Qed.
Lemma split_on_none c p : c ∉ p -> split_on c p = [p].
Proof.
  induction p as [|b p IH]; intros H; cbn [split_on]; [done|].
  apply not_elem_of_cons in H as [H1 H2]. replace (b =? c) with false by lia. by rewrite IH.
Qed.
Lemma split_on_app c p q : c ∉ p -> split_on c (p ++ c :: q) = p :: split_on c q.
Proof.
  induction p as [|b p IH]; intros H; cbn [app split_on].
  - by rewrite N.eqb_refl.
  - apply not_elem_of_cons in H as [H1 H2]. replace (b =? c) with false by lia. by rewrite IH.
Qed.

Lemma spelled_pair_spec kv r : spelled_pair kv r ->
  r <> [] /\ 38 ∉ r /\ (let '(k, v) := cut_at 61 r in (form_decode k, form_decode v)) = kv.
Proof.
  destruct 1 as [k v rk rv Hk Hv|k rk Hk Hr].
  - split_and!; [by destruct rk| |].
    + rewrite elem_of_app, elem_of_cons. intros [H|[H|H]]; [by apply (spelled_amp _ _ _ Hk)|done|by apply (spelled_amp _ _ _ Hv)].
    + rewrite cut_at_app by (by eapply spelled_eq). by rewrite (spelled_decode _ _ _ Hk), (spelled_decode _ _ _ Hv).
  - split_and!; [done|by eapply spelled_amp|]. rewrite cut_at_none by (by eapply spelled_eq).
    by rewrite (spelled_decode _ _ _ Hk).
Qed.

Theorem pairs_spelled ps q : spelled_query ps q -> pairs q = ps.
Proof.
  unfold pairs. induction 1 as [|kv r H|ps q _ IH|kv r ps q H _ IH].
  - done.
  - destruct (spelled_pair_spec _ _ H) as (H1 & H2 & H3). rewrite split_on_none by done.
    destruct r as [|b r]; [done|]. cbn [List.filter map]. by rewrite H3.
  - cbn [split_on N.eqb Pos.eqb List.filter]. done.
  - destruct (spelled_pair_spec _ _ H) as (H1 & H2 & H3). rewrite split_on_app by done.
    destruct r as [|b r]; [done|]. cbn [List.filter map]. by rewrite H3, IH.
Qed.

(** Everything can be written. *)
Definition hex_char (x : N) : N := if x <? 10 then 48 + x else 55 + x.
Lemma hex_char_digit x : x < 16 -> hex_digit (hex_char x) x.
Proof.
  intros H. unfold hex_char. destruct (x <? 10) eqn:E; [apply HexDec; lia|].
  replace (55 + x) with (65 + (x - 10)) by lia. replace x with (10 + (x - 10)) at 2 by lia. apply HexUpper. lia.
Qed.
Lemma spelled_all sep t : is_bytes t -> exists r, spelled sep t r.
Proof.
  induction 1 as [|b t Hb _ [r IH]]; [exists []; constructor|].
  exists (37 :: hex_char (b / 16) :: hex_char (b mod 16) :: r).
  rewrite (N.div_mod b 16) at 1 by done. constructor; [| |done]; apply hex_char_digit.
  - apply N.div_lt_upper_bound; lia.
  - by apply N.mod_lt.
Qed.
Theorem spelled_query_all ps : Forall (fun kv => is_bytes kv.1 /\ is_bytes kv.2) ps -> exists q, spelled_query ps q.
Proof.
  induction 1 as [|[k v] ps [Hk Hv] _ [q IH]]; [exists []; constructor|].
  destruct (spelled_all true k Hk) as [rk Hrk]. destruct (spelled_all false v Hv) as [rv Hrv].
  exists ((rk ++ 61 :: rv) ++ 38 :: q). constructor; [|done]. by constructor.
Qed.

(** * Numbers *)
Lemma digits_snoc v c : digits (v ++ [c]) =
  n ← digits v; if (48 <=? c) && (c <=? 57) then Some (10 * n + (c - 48)) else None.
Proof. unfold digits. by rewrite fold_left_app. Qed.
Lemma decimal_digits v n : decimal v n <-> v <> [] /\ digits v = Some n.
Proof.
  split.
  - induction 1 as [d Hd|ds n d _ [_ IH] Hd].
    + split; [done|]. unfold digits. cbn [fold_left mbind option_bind].
      replace ((48 <=? 48 + d) && (48 + d <=? 57)) with true by lia. f_equal. lia.
    + split; [by destruct ds|]. rewrite digits_snoc, IH. cbn [mbind option_bind].
      replace ((48 <=? 48 + d) && (48 + d <=? 57)) with true by lia. f_equal. lia.
  - intros [Hne H]. revert n Hne H. induction v as [|c v IH] using rev_ind; intros n Hne H; [done|].
    rewrite digits_snoc in H. destruct (digits v) as [m|] eqn:E; [|done]. cbn [mbind option_bind] in H.
    destruct ((48 <=? c) && (c <=? 57)) eqn:Ec; [|done]. injection H as <-.
    replace c with (48 + (c - 48)) at 1 by lia. destruct v as [|b v].
    + assert (m = 0) as -> by (unfold digits in E; cbn [fold_left] in E; congruence).
      replace (10 * 0 + (c - 48)) with (c - 48) by lia. apply DecOne. lia.
    + apply DecMore; [by apply IH|lia].
Qed.
Lemma decimal_head v n : decimal v n -> exists c v', v = c :: v' /\ 48 <= c <= 57.
Proof.
  induction 1 as [d Hd|ds n d _ (c & v' & -> & Hc) Hd]; [|by exists c, (v' ++ [48 + d])].
  exists (48 + d), []. split; [done|lia].
Qed.
Lemma parse_usize_spec v n : parse_usize v = Some n <-> numeral v n /\ n < 2 ^ 64.
Proof.
  assert (Hd : forall ds, match ds with [] => None | _ => n ← digits ds; if n <? 2 ^ 64 then Some n else None end = Some n <->
                          decimal ds n /\ n < 2 ^ 64).
  { intros ds. rewrite decimal_digits. destruct ds as [|c ds]; [split; [done|by intros [[? _] _]]|].
    destruct (digits (c :: ds)) as [m|]; cbn [mbind option_bind]; [|split; [done|by intros [[_ ?] _]]].
    destruct (m <? 2 ^ 64) eqn:E.
    - split; [intros [= <-]; split; [done|lia]|by intros [[_ [= ->]] _]].
    - split; [done|]. intros [[_ [= ->]] ?]. lia. }
  unfold parse_usize, numeral. destruct v as [|c v].
  - split; [done|]. intros [[(c & v' & ? & _)%decimal_head|(v' & ? & _)] _]; done.
  - destruct (c =? 43) eqn:E.
    + apply N.eqb_eq in E as ->. rewrite Hd. split.
      * intros [H1 H2]. split; [right; by exists v|done].
      * intros [[(c & v' & [= <- <-] & Hc)%decimal_head|(v' & [= <-] & H1)] H2]; [lia|done].
    + etransitivity; [apply (Hd (c :: v))|]. split; [intros [H1 H2]; split; [by left|done]|].
      intros [[H1|(v' & [= -> <-] & _)] H2]; [done|]. by rewrite N.eqb_refl in E.
Qed.

(** * Parameters *)
Lemma given_cons k k0 v ps : given k ((k0, v) :: ps) = if decide (k0 = text k) then v :: given k ps else given k ps.
Proof. unfold given. rewrite filter_cons. cbn [fst]. by destruct (decide (k0 = text k)). Qed.

(** What becomes of a field. *)
Definition slot {X} (parse : bytes -> option X) (c : option X) (vals : list bytes) (c' : option X) : Prop :=
  (vals = [] /\ c' = c) \/ exists v x, c = None /\ vals = [v] /\ parse v = Some x /\ c' = Some x.
Lemma slot_taken {X} parse (x : X) v vals c' : ~ slot parse (Some x) (v :: vals) c'.
Proof. intros [[? _]|(? & ? & ? & _)]; done. Qed.
Lemma slot_bad {X} (parse : bytes -> option X) v vals c' : parse v = None -> ~ slot parse None (v :: vals) c'.
Proof. intros H [[? _]|(v' & x & _ & [= -> _] & H' & _)]; [done|congruence]. Qed.
Lemma slot_first {X} (parse : bytes -> option X) v x vals c' : parse v = Some x ->
  slot parse None (v :: vals) c' <-> slot parse (Some x) vals c'.
Proof.
  intros H. split.
  - intros [[? _]|(v' & x' & _ & [= -> ->] & H' & ->)]; [done|]. left. split; [done|]. congruence.
  - intros [[-> ->]|(? & ? & ? & _)]; [|done]. right. by exists v, x.
Qed.

Definition reads (g : got) (ps : list (bytes * bytes)) (g' : got) : Prop :=
  slot parse_usize (g_depth g) (given "max_depth" ps) (g_depth g') /\
  slot parse_usize (g_children g) (given "max_children" ps) (g_children g') /\
  given "child_describe_timeout" ps = [] /\
  slot parse_bool (g_attached g) (given "child_describe_attached" ps) (g_attached g').

Definition read_fold (ps : list (bytes * bytes)) (g : option got) : option got :=
  fold_left (fun g kv => g' ← g; read_pair g' kv) ps g.
Lemma read_fold_none ps : read_fold ps None = None.
Proof. induction ps as [|kv ps IH]; [done|exact IH]. Qed.

Lemma read_fold_spec ps g g' : read_fold ps (Some g) = Some g' <-> reads g ps g'.
Proof.
  revert g. induction ps as [|[k v] ps IH]; intros g.
  - cbn. unfold reads, given. cbn. split.
    + intros [= ->]. split_and!; try (by left); done.
    + intros (H1 & H2 & _ & H4). f_equal. destruct g as [a b c], g' as [a' b' c']; cbn in *.
      destruct H1 as [[_ ->]|(? & ? & _ & ? & _)]; [|done]. destruct H2 as [[_ ->]|(? & ? & _ & ? & _)]; [|done].
      destruct H4 as [[_ ->]|(? & ? & _ & ? & _)]; [|done]. done.
  - change (read_fold ((k, v) :: ps) (Some g)) with (read_fold ps (read_pair g (k, v))).
    unfold reads. rewrite !given_cons. unfold read_pair.
    destruct (decide (k = text "max_depth")) as [->|H1].
    + rewrite (decide_False (P := text "max_depth" = text "max_children")) by done.
      rewrite (decide_False (P := text "max_depth" = text "child_describe_timeout")) by done.
      rewrite (decide_False (P := text "max_depth" = text "child_describe_attached")) by done.
      destruct (g_depth g) as [x|] eqn:Eg.
      { rewrite read_fold_none. split; [done|]. intros [H _]. by apply slot_taken in H. }
      destruct (parse_usize v) as [n|] eqn:Ev; cbn [mbind option_bind].
      * rewrite IH. unfold reads. cbn [g_depth g_children g_attached]. by rewrite (slot_first _ _ _ _ _ Ev).
      * rewrite read_fold_none. split; [done|]. intros [H _]. by apply slot_bad in H.
    + destruct (decide (k = text "max_children")) as [->|H2].
      * rewrite (decide_False (P := text "max_children" = text "child_describe_timeout")) by done.
        rewrite (decide_False (P := text "max_children" = text "child_describe_attached")) by done.
        destruct (g_children g) as [x|] eqn:Eg.
        { rewrite read_fold_none. split; [done|]. intros (_ & H & _). by apply slot_taken in H. }
        destruct (parse_usize v) as [n|] eqn:Ev; cbn [mbind option_bind].
        -- rewrite IH. unfold reads. cbn [g_depth g_children g_attached]. by rewrite (slot_first _ _ _ _ _ Ev).
        -- rewrite read_fold_none. split; [done|]. intros (_ & H & _). by apply slot_bad in H.
      * destruct (decide (k = text "child_describe_timeout")) as [->|H3].
        { rewrite read_fold_none. split; [done|]. by intros (_ & _ & ? & _). }
        destruct (decide (k = text "child_describe_attached")) as [->|H4]; [|apply IH].
        destruct (g_attached g) as [x|] eqn:Eg.
        { rewrite read_fold_none. split; [done|]. intros (_ & _ & _ & H). by apply slot_taken in H. }
        destruct (parse_bool v) as [n|] eqn:Ev; cbn [mbind option_bind].
        -- rewrite IH. unfold reads. cbn [g_depth g_children g_attached]. by rewrite (slot_first _ _ _ _ _ Ev).
        -- rewrite read_fold_none. split; [done|]. intros (_ & _ & _ & H). by apply slot_bad in H.
Qed.

Lemma parse_bool_spec v b : parse_bool v = Some b <-> v = text (if b then "true" else "false").
Proof.
  unfold parse_bool. destruct (decide (v = text "true")) as [->|H1].
  - split; [by intros [= <-]|]. destruct b; [done|]. intros H. by vm_compute in H.
  - destruct (decide (v = text "false")) as [->|H2].
    + split; [by intros [= <-]|]. destruct b; [|done]. intros H. by vm_compute in H.
    + split; [done|]. intros ->. by destruct b.
Qed.

Lemma number_slot k ps x : slot parse_usize None (given k ps) x -> asks_number k ps (N.to_nat <$> x).
Proof.
  intros [[H ->]|(v & n & _ & H & Hp & ->)]; [done|]. apply parse_usize_spec in Hp as [Hp Hn]. by exists v, n.
Qed.
Lemma slot_number k ps m : asks_number k ps m -> exists x, m = N.to_nat <$> x /\ slot parse_usize None (given k ps) x.
Proof.
  destruct m as [m|]; intros H.
  - destruct H as (v & n & H & Hv & Hn & ->). exists (Some n). split; [done|]. right. exists v, n. split_and!; try done.
    by apply parse_usize_spec.
  - exists None. split; [done|]. by left.
Qed.

Theorem query_options ps q o : spelled_query ps q ->
  (exists g, read_query q = Some g /\ to_options g = o) <-> asks ps o.
Proof.
  intros Hq. unfold read_query. rewrite (pairs_spelled _ _ Hq).
  change (fold_left _ ps _) with (read_fold ps (Some (Got None None None))). split.
  - intros (g & H%read_fold_spec & <-). destruct H as (H1 & H2 & H3 & H4). cbn [g_depth g_children g_attached] in *.
    unfold asks, to_options. cbn [ActorSys_Model.max_depth ActorSys_Model.max_children ActorSys_Model.describe_attached].
    split_and!; [by apply number_slot|by apply number_slot|done|].
    destruct H4 as [[H4 ->]|(v & b & _ & H4 & Hb%parse_bool_spec & ->)]; [by left|].
    rewrite H4, Hb. destruct b; [by right|done].
  - destruct o as [md mc att]. unfold asks. cbn [ActorSys_Model.max_depth ActorSys_Model.max_children ActorSys_Model.describe_attached].
    intros (H1 & H2 & H3 & H4). apply slot_number in H1 as (x & -> & H1). apply slot_number in H2 as (y & -> & H2).
    assert (H5 : exists z, default true z = att /\ slot parse_bool None (given "child_describe_attached" ps) z).
    { destruct att; [destruct H4 as [H4|H4]|].
      - exists None. split; [done|]. by left.
      - exists (Some true). split; [done|]. right. by exists (text "true"), true.
      - exists (Some false). split; [done|]. right. by exists (text "false"), false. }
    destruct H5 as (z & Hz & H5). exists (Got x y z). split; [|unfold to_options; by rewrite <- Hz].
    apply read_fold_spec. done.
Qed.
