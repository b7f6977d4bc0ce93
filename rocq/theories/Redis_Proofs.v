(** Proofs about the redis journal. *)
From Verif Require Import Journal_Model Journal_Spec Journal_Proofs Journal_Proofs3.
From Verif Require Import Proto_Proofs Codec_Proofs ShardWire_Model ShardWire_Proofs.
From Verif Require Import Redis_Model Redis_Spec.
Local Open Scope Z_scope.

(** ** The order of a sorted set *)

Lemma bytes_leb_refl a : bytes_leb a a = true.
Proof. induction a as [|x a IH]; simpl; [done|]. by rewrite N.ltb_irrefl. Qed.

Lemma bytes_leb_total a b : bytes_leb a b = true \/ bytes_leb b a = true.
Proof.
  revert b. induction a as [|x a IH]; intros [|y b]; simpl; auto.
  destruct (x <? y)%N eqn:E1; [by left|]. destruct (y <? x)%N eqn:E2; [by right|]. apply IH.
Qed.

Lemma bytes_leb_antisym a b : bytes_leb a b = true -> bytes_leb b a = true -> a = b.
Proof.
  revert b. induction a as [|x a IH]; intros [|y b]; simpl; try done.
  destruct (x <? y)%N eqn:E1, (y <? x)%N eqn:E2; try done; try lia.
  intros H1 H2. f_equal; [lia|by apply IH].
Qed.

Lemma bytes_leb_trans a b c : bytes_leb a b = true -> bytes_leb b c = true -> bytes_leb a c = true.
Proof.
  revert b c. induction a as [|x a IH]; intros [|y b] [|z c]; simpl; try done.
  destruct (x <? y)%N eqn:E1, (y <? x)%N eqn:E2, (y <? z)%N eqn:E3, (z <? y)%N eqn:E4,
    (x <? z)%N eqn:E5, (z <? x)%N eqn:E6; try done; try lia. apply IH.
Qed.

Lemma zle_total a b : zle a b = true \/ zle b a = true.
Proof.
  unfold zle. destruct (a.1 <? b.1) eqn:E1, (b.1 <? a.1) eqn:E2; auto. apply bytes_leb_total.
Qed.

Lemma zle_trans a b c : zle a b = true -> zle b c = true -> zle a c = true.
Proof.
  unfold zle. destruct (a.1 <? b.1) eqn:E1, (b.1 <? a.1) eqn:E2, (b.1 <? c.1) eqn:E3,
    (c.1 <? b.1) eqn:E4, (a.1 <? c.1) eqn:E5, (c.1 <? a.1) eqn:E6; try done; try lia.
  apply bytes_leb_trans.
Qed.

Lemma zle_antisym a b : zle a b = true -> zle b a = true -> a = b.
Proof.
  unfold zle. destruct a as [s x], b as [t y]. simpl.
  destruct (s <? t) eqn:E1, (t <? s) eqn:E2; try done; try lia.
  intros. f_equal; [lia|by apply bytes_leb_antisym].
Qed.

Lemma zle_seq a b : zle a b = true -> a.1 <= b.1.
Proof. unfold zle. destruct (a.1 <? b.1) eqn:E1, (b.1 <? a.1) eqn:E2; try done; lia. Qed.

(** ** Entries that fit *)

Definition storable (e : entry) : Prop :=
  0 <= e_seq e < 4611686018427387904 /\ good_identifier (e_type e) /\ good_payload (e_bytes e).

Lemma varint_aux_length f n : (length (varint_aux f n) <= f)%nat.
Proof. revert n. induction f as [|f IH]; intros n; simpl; [done|]. destruct (n <? 128)%N; simpl; [lia|]. specialize (IH (n / 128)%N). lia. Qed.

Lemma varint_length n : (length (varint n) <= 10)%nat.
Proof. apply varint_aux_length. Qed.

Lemma member_fits e : storable e -> fits (member e).
Proof.
  intros (H1 & [H2 H3] & H4). unfold fits, member, write_msg, Proto_Model.encode.
  unfold good_payload in H4.
  cbn -[ser varint u64_of_i64 num str N.of_nat N.lt].
  assert (Hn : forall n v, (length (ser (map (fun v0 => (n, enc FU64 v0)) (num v))) <= 20)%nat).
  { intros n v. unfold num. destruct (v =? 0)%N; [simpl; lia|]. cbn [map].
    unfold ser, ser_field, ser_wire. cbn [map concat fst snd enc wire_type]. rewrite !app_length.
    pose proof (varint_length (8 * n + 0)%N). pose proof (varint_length v). simpl in *. lia. }
  assert (Hs : forall n v, (length (ser (map (fun v0 => (n, enc FBytes v0)) (str v))) <= 20 + length v)%nat).
  { intros n v. unfold str. destruct v as [|x v]; [simpl; lia|]. cbn [map].
    unfold ser, ser_field, ser_wire. cbn [map concat fst snd enc wire_type]. rewrite !app_length.
    pose proof (varint_length (8 * n + 2)%N). pose proof (varint_length (N.of_nat (length (x :: v)))).
    simpl in *. lia. }
  assert (Ha : forall a b, ser (a ++ b) = ser a ++ ser b).
  { intros. unfold ser. by rewrite map_app, concat_app. }
  rewrite !Ha, !app_length. change FString with FString in *.
  pose proof (Hn 1%N (u64_of_i64 (e_seq e))). pose proof (Hs 2%N (bytes_of_string (e_type e))).
  pose proof (Hs 3%N (e_bytes e)). simpl in *. lia.
Qed.

Lemma storable_ok e : storable e -> entry_ok e.
Proof. intros (H1 & [H2 _] & _). split; [unfold is_i64; lia|done]. Qed.

Lemma read_member e : storable e -> read_entry (member e) = Some e.
Proof. intros H. apply entry_roundtrip; [by apply storable_ok|done|by apply member_fits]. Qed.

Lemma member_inj e1 e2 : storable e1 -> storable e2 -> member e1 = member e2 -> e1 = e2.
Proof.
  intros H1 H2 E. assert (Some e1 = Some e2) as [= ->]; [|done].
  rewrite <- (read_member e1), <- (read_member e2) by done. by rewrite E.
Qed.

(** ** Sorted sets of entries *)

Definition pair_of (e : entry) : Z * bytes := (e_seq e, member e).
Definition ele (a b : entry) : Prop := zle (pair_of a) (pair_of b) = true.

(** [es] is the content of the sorted set [z]. *)
Definition holds (z : zset) (es : list entry) : Prop :=
  z = map pair_of es /\ StronglySorted ele es /\ NoDup es /\ Forall storable es.

Fixpoint einsert (e : entry) (es : list entry) : list entry :=
  match es with
  | [] => [e]
  | y :: es' => if zle (pair_of e) (pair_of y) then e :: es else y :: einsert e es'
  end.
Definition eadd (e : entry) (es : list entry) : list entry :=
  einsert e (List.filter (fun y => negb (bool_decide (y = e))) es).

Lemma in_einsert e es x : x ∈ einsert e es <-> x = e \/ x ∈ es.
Proof.
  induction es as [|y es IH]; simpl; [set_solver|].
  destruct (zle _ _); [set_solver|]. rewrite elem_of_cons, IH. set_solver.
Qed.

Lemma in_lfilter {A} (f : A -> bool) l x : x ∈ List.filter f l <-> x ∈ l /\ f x = true.
Proof. rewrite !elem_of_list_In. apply filter_In. Qed.

Lemma in_eadd e es x : x ∈ eadd e es <-> x = e \/ x ∈ es.
Proof.
  unfold eadd. rewrite in_einsert, in_lfilter. destruct (decide (x = e)); [tauto|].
  rewrite bool_decide_false by done. simpl. tauto.
Qed.

Lemma einsert_sorted e es : StronglySorted ele es -> StronglySorted ele (einsert e es).
Proof.
  induction 1 as [|y es Hs IH Hy]; simpl; [by constructor; constructor|].
  destruct (zle (pair_of e) (pair_of y)) eqn:E.
  - constructor; [by constructor|]. constructor; [done|].
    eapply Forall_impl; [exact Hy|]. intros x Hx. by eapply zle_trans.
  - constructor; [done|]. apply Forall_forall. intros x Hx. apply in_einsert in Hx as [->|Hx].
    + destruct (zle_total (pair_of e) (pair_of y)); [congruence|done].
    + rewrite Forall_forall in Hy. by apply Hy.
Qed.

Lemma lfilter_sorted {A} (R : A -> A -> Prop) (f : A -> bool) es :
  StronglySorted R es -> StronglySorted R (List.filter f es).
Proof.
  induction 1 as [|y es Hs IH Hy]; simpl; [constructor|].
  destruct (f y); [|done]. constructor; [done|]. apply Forall_forall. intros x Hx.
  apply in_lfilter in Hx as [Hx _]. rewrite Forall_forall in Hy. by apply Hy.
Qed.

Lemma lfilter_NoDup {A} (f : A -> bool) es : NoDup es -> NoDup (List.filter f es).
Proof.
  induction 1 as [|y es Hy Hs IH]; simpl; [constructor|].
  destruct (f y); [|done]. constructor; [|done]. by rewrite in_lfilter; intros [? _].
Qed.

Lemma einsert_NoDup e es : e ∉ es -> NoDup es -> NoDup (einsert e es).
Proof.
  intros He. induction 1 as [|y es Hy Hs IH]; simpl; [by constructor; [set_solver|constructor]|].
  destruct (zle _ _); [constructor; [done|by constructor]|].
  constructor; [|apply IH; set_solver]. rewrite in_einsert. set_solver.
Qed.

Lemma map_einsert e es : map pair_of (einsert e es) = zinsert (pair_of e) (map pair_of es).
Proof. induction es as [|y es IH]; simpl; [done|]. destruct (zle _ _); simpl; [done|]. by rewrite IH. Qed.

Lemma map_lfilter {A B} (g : A -> B) (f : B -> bool) l :
  List.filter f (map g l) = map g (List.filter (fun x => f (g x)) l).
Proof. induction l as [|x l IH]; simpl; [done|]. destruct (f (g x)); simpl; by rewrite IH. Qed.

Lemma lfilter_ext_in {A} (f g : A -> bool) l : (forall x, x ∈ l -> f x = g x) -> List.filter f l = List.filter g l.
Proof.
  induction l as [|x l IH]; intros H; simpl; [done|]. rewrite (H x) by left.
  rewrite IH; [done|]. intros y Hy. apply H. by right.
Qed.

Lemma holds_add z es e : holds z es -> storable e -> holds (zadd (e_seq e) (member e) z) (eadd e es).
Proof.
  intros (-> & Hs & Hd & Hst) He. unfold zadd, eadd. split_and!.
  - rewrite map_einsert. unfold pair_of at 3. simpl. f_equal. rewrite map_lfilter. f_equal.
    apply lfilter_ext_in. intros x Hx. unfold pair_of. simpl. f_equal. apply bool_decide_ext.
    split; [|by intros ->]. rewrite Forall_forall in Hst. intros. apply member_inj; auto.
  - apply einsert_sorted. by apply lfilter_sorted.
  - apply einsert_NoDup; [|by apply lfilter_NoDup]. rewrite in_lfilter. intros [_ H].
    by rewrite bool_decide_true in H.
  - apply Forall_forall. intros x Hx. change (einsert _ _) with (eadd e es) in Hx.
    apply in_eadd in Hx as [->|Hx]; [done|]. rewrite Forall_forall in Hst. auto.
Qed.

Lemma holds_adds z es l :
  holds z es -> Forall storable l ->
  exists es', holds (fold_left (fun z e => zadd (e_seq e) (member e) z) l z) es' /\
    forall x, x ∈ es' <-> x ∈ l \/ x ∈ es.
Proof.
  revert z es. induction l as [|e l IH]; intros z es H Hl; simpl.
  - exists es. split; [done|]. set_solver.
  - apply Forall_cons in Hl as [He Hl].
    destruct (IH _ _ (holds_add z es e H He) Hl) as (es' & H' & Hin).
    exists es'. split; [done|]. intros x. rewrite Hin, in_eadd. set_solver.
Qed.

Lemma read_entries_members es : Forall storable es -> read_entries (map member es) = Some es.
Proof.
  unfold read_entries. induction 1 as [|e es He Hs IH]; simpl; [done|].
  rewrite read_member by done. by rewrite IH.
Qed.

(** The entries of [es] with a sequence id in the range. *)
Definition erange (from : Z) (to : option Z) (es : list entry) : list entry :=
  List.filter (fun e => (from <=? e_seq e) && match to with Some t => e_seq e <=? t | None => true end) es.

Lemma holds_range z es from to : holds z es -> read_entries (zrange from to z) = Some (erange from to es).
Proof.
  intros (-> & _ & _ & Hs). unfold zrange. rewrite map_lfilter, map_map. cbn [pair_of fst snd].
  change (map (fun x => member x) ?l) with (map member l). apply read_entries_members.
  apply Forall_forall. intros x Hx. apply in_lfilter in Hx as [Hx _]. rewrite Forall_forall in Hs. auto.
Qed.

Lemma holds_remrange z es from to : holds z es ->
  holds (zremrange from to z) (List.filter (fun e => negb ((from <=? e_seq e) && (e_seq e <=? to))) es).
Proof.
  intros (-> & H1 & H2 & H3). unfold zremrange. split_and!.
  - by rewrite map_lfilter.
  - by apply lfilter_sorted.
  - by apply lfilter_NoDup.
  - apply Forall_forall. intros x Hx. apply in_lfilter in Hx as [Hx _]. rewrite Forall_forall in H3. auto.
Qed.

Lemma holds_nil : holds [] [].
Proof. split_and!; try constructor. Qed.

Lemma holds_last z es : holds z es ->
  match last z with Some (_, b) => read_entry b | None => None end = last es.
Proof.
  intros (-> & _ & _ & Hs). rewrite fmap_last. destruct (last es) as [e|] eqn:E; [|done]. simpl.
  apply read_member. rewrite Forall_forall in Hs. apply Hs. by apply last_Some_elem_of.
Qed.

Lemma ele_sorted_seq es : StronglySorted ele es -> seq_sorted es.
Proof.
  induction 1 as [|y es Hs IH Hy]; constructor; [done|].
  eapply Forall_impl; [exact Hy|]. intros x Hx. by apply zle_seq in Hx.
Qed.

Lemma last_is_max es e x : StronglySorted ele es -> last es = Some e -> x ∈ es -> e_seq x <= e_seq e.
Proof.
  intros Hs Hl Hx. apply ele_sorted_seq in Hs.
  pose proof (sorted_last_max es e Hs Hl) as H. rewrite Forall_forall in H. auto.
Qed.
