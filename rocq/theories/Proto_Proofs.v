(** Round trip of the protobuf encoding, for every descriptor. *)
From Verif Require Import Proto_Model.
Local Open Scope N_scope.

Lemma unvarint_varint_aux f n r :
  n < 128 ^ N.of_nat (S f) -> unvarint_aux (S f) (varint_aux (S f) n ++ r) = Some (n, r).
Proof.
  revert n. induction f as [|f IH]; intros n Hn.
  - change (128 ^ N.of_nat 1) with 128 in Hn. cbn [varint_aux]. destruct (n <? 128) eqn:E; [|lia].
    cbn [app unvarint_aux]. by rewrite E.
  - change (varint_aux (S (S f)) n) with
      (if n <? 128 then [n] else (n mod 128 + 128) :: varint_aux (S f) (n / 128)).
    destruct (n <? 128) eqn:E; cbn [app].
    + cbn [unvarint_aux]. by rewrite E.
    + assert (n mod 128 < 128) by (apply N.mod_lt; lia).
      change (unvarint_aux (S (S f)) (n mod 128 + 128 :: varint_aux (S f) (n / 128) ++ r)) with
        (if n mod 128 + 128 <? 128 then Some (n mod 128 + 128, varint_aux (S f) (n / 128) ++ r)
         else match unvarint_aux (S f) (varint_aux (S f) (n / 128) ++ r) with
              | Some (n0, r') => Some (n mod 128 + 128 - 128 + 128 * n0, r') | None => None end).
      destruct (n mod 128 + 128 <? 128) eqn:E2; [lia|].
      rewrite IH.
      * f_equal. f_equal. pose proof (N.div_mod' n 128). lia.
      * apply N.div_lt_upper_bound; [lia|]. rewrite (Nat2N.inj_succ (S f)), N.pow_succ_r' in Hn. lia.
Qed.

Lemma unvarint_varint n r : n < two64 -> unvarint (varint n ++ r) = Some (n, r).
Proof.
  intros Hn. unfold unvarint, varint. rewrite unvarint_varint_aux.
  - by rewrite N.mod_small.
  - change (128 ^ N.of_nat 10) with 1180591620717411303424. unfold two64 in Hn. lia.
Qed.

Lemma varint_nonempty n : varint n <> [].
Proof. unfold varint. change (varint_aux 10 n) with (if n <? 128 then [n] else (n mod 128 + 128) :: varint_aux 9 (n / 128)). by destruct (n <? 128). Qed.

Definition wf_wire (w : wire) : Prop :=
  match w with
  | WVarint n => n < two64
  | WLen b => N.of_nat (length b) < two64
  | WFixed64 b => length b = 8%nat
  | WFixed32 b => length b = 4%nat
  end.

Lemma take_exact_app b r : take_exact (N.of_nat (length b)) (b ++ r) = Some (b, r).
Proof.
  unfold take_exact. rewrite app_length.
  destruct (N.of_nat (length b) <=? N.of_nat (length b + length r)) eqn:E; [|lia].
  rewrite Nat2N.id. f_equal. f_equal; [by rewrite take_app|by rewrite drop_app].
Qed.

Lemma read_ser_wire w r : wf_wire w -> read_wire (wire_type w) (ser_wire w ++ r) = Some (w, r).
Proof.
  destruct w; simpl; intros Hw; unfold read_wire; simpl.
  - by rewrite unvarint_varint.
  - replace 8 with (N.of_nat (length b)) by lia. by rewrite take_exact_app.
  - rewrite <-(assoc_L (++)), unvarint_varint by done. by rewrite take_exact_app.
  - replace 4 with (N.of_nat (length b)) by lia. by rewrite take_exact_app.
Qed.

Definition wf_wf (f : N * wire) : Prop := 1 <= f.1 < 536870912 /\ wf_wire f.2.

Lemma wire_type_lt w : wire_type w < 8.
Proof. destruct w; simpl; lia. Qed.

Lemma parse_aux_ser fs fuel :
  Forall wf_wf fs -> (length (ser fs) <= fuel)%nat -> parse_aux fuel (ser fs) = Some fs.
Proof.
  revert fuel. induction fs as [|[no w] fs IH]; intros fuel Hwf Hf.
  - by destruct fuel.
  - apply Forall_cons in Hwf as [[Hno Hw] Hwf]. simpl in Hno, Hw.
    unfold ser in *. cbn [map concat] in *. fold (ser fs) in *.
    unfold ser_field in *. cbn [fst snd] in *.
    rewrite !app_length in Hf.
    pose proof (varint_nonempty (8 * no + wire_type w)) as Hne.
    set (tag := 8 * no + wire_type w) in *.
    assert (Htag : tag < 4294967296) by (pose proof (wire_type_lt w); unfold tag; lia).
    destruct (varint tag) as [|x v] eqn:Ev; [done|].
    destruct fuel as [|fuel]; [simpl in Hf; lia|].
    cbn [app parse_aux].
    replace (x :: ((v ++ ser_wire w) ++ ser fs)) with (varint tag ++ (ser_wire w ++ ser fs))
      by (rewrite Ev; simpl; by rewrite (assoc_L (++))).
    rewrite unvarint_varint by (unfold two64; lia).
    assert (Hdiv : tag / 8 = no).
    { unfold tag. rewrite N.mul_comm, N.div_add_l by lia. rewrite N.div_small by apply wire_type_lt. lia. }
    assert (Hmod : tag mod 8 = wire_type w).
    { unfold tag. rewrite N.add_comm, N.mul_comm, N.mod_add by lia. apply N.mod_small, wire_type_lt. }
    rewrite Hdiv, Hmod. unfold two32.
    destruct (4294967296 <=? tag) eqn:E1; [lia|]. destruct (no =? 0) eqn:E2; [lia|]. simpl orb. cbn iota.
    rewrite read_ser_wire by done.
    rewrite IH; [done|done|]. simpl in Hf. lia.
Qed.

Lemma parse_ser fs : Forall wf_wf fs -> parse (ser fs) = Some fs.
Proof. intros H. by apply parse_aux_ser. Qed.

Lemma ser_in f ws : In f ws -> (length (ser_wire f.2) <= length (ser ws))%nat.
Proof.
  induction ws as [|g ws IH]; simpl; [done|]. intros [->|H]; unfold ser; simpl; rewrite app_length.
  - unfold ser_field. rewrite app_length. lia.
  - specialize (IH H). unfold ser in IH. lia.
Qed.

(** ** Descriptors *)

Lemma ftype_ind' (P : ftype -> Prop) :
  P FU32 -> P FU64 -> P FI32 -> P FBool -> P FBytes -> P FString ->
  (forall fs, Forall (fun f : field => P f.2) fs -> P (FMsg fs)) ->
  forall t, P t.
Proof.
  intros H1 H2 H3 H4 H5 H6 H7. fix IH 1. intros [| | | | | |fs]; [exact H1|exact H2|exact H3|exact H4|exact H5|exact H6|].
  apply H7. induction fs as [|[[no lb] ty] fs IHfs]; constructor; [apply IH|exact IHfs].
Qed.

Definition dec_fields (ws : list (N * wire)) : desc -> option (list (list val)) :=
  fix go fs :=
    match fs with
    | [] => Some []
    | (no, lb, ty) :: fs' =>
        match all_some (dec ty) (occurrences no ty ws), go fs' with
        | Some vs, Some r => Some (settle lb ty vs :: r)
        | _, _ => None
        end
    end.

Definition wf_content (lb : label) (ty : ftype) (l : list val) : bool :=
  match lb, l with
  | Repeated, _ => forallb (wf ty) l
  | Implicit, [] => true
  | Implicit, [v] => negb (is_default v) && wf ty v
  | Always, [v] => wf ty v
  | _, _ => false
  end.

Definition wf_fields : desc -> list (list val) -> bool :=
  fix go fs ms :=
    match fs, ms with
    | [], [] => true
    | (_, lb, ty) :: fs', l :: ms' => wf_content lb ty l && go fs' ms'
    | _, _ => false
    end.

Lemma enc_msg fs ms : enc (FMsg fs) (VMsg ms) = WLen (ser (enc_fields fs ms)).
Proof. reflexivity. Qed.

Lemma wf_msg fs ms : wf (FMsg fs) (VMsg ms) = wf_fields fs ms.
Proof. reflexivity. Qed.

Lemma dec_msg fs b : dec (FMsg fs) (WLen b) =
  match parse b with
  | None => None
  | Some ws => match dec_fields ws fs with Some ms => Some (VMsg ms) | None => None end
  end.
Proof. reflexivity. Qed.

Lemma all_some_map {A B C} (f : B -> option C) (g : A -> B) (l : list A) (h : A -> C) :
  (forall x, In x l -> f (g x) = Some (h x)) -> all_some f (map g l) = Some (map h l).
Proof.
  induction l as [|x l IH]; simpl; intros H; [done|].
  rewrite (H x) by auto. rewrite IH by auto. done.
Qed.

Lemma enc_wire_type t v : wire_type (enc t v) = type_wire t.
Proof. destruct t; reflexivity. Qed.

Lemma occurrences_app no t w1 w2 : occurrences no t (w1 ++ w2) = occurrences no t w1 ++ occurrences no t w2.
Proof. unfold occurrences. by rewrite List.filter_app, map_app. Qed.

Lemma occurrences_same no t l : occurrences no t (map (fun v => (no, enc t v)) l) = map (enc t) l.
Proof.
  unfold occurrences. induction l as [|v l IH]; simpl; [done|].
  rewrite N.eqb_refl, enc_wire_type, N.eqb_refl. simpl. by f_equal.
Qed.

Lemma occurrences_other no t no' t' l : no' <> no -> occurrences no t (map (fun v => (no', enc t' v)) l) = [].
Proof.
  intros Hne. unfold occurrences. induction l as [|v l IH]; simpl; [done|].
  destruct (no' =? no) eqn:E; [lia|]. done.
Qed.

Definition nos (fs : desc) : list N := map (fun f : field => f.1.1) fs.

Lemma occurrences_notin no t fs ms : ~ In no (nos fs) -> occurrences no t (enc_fields fs ms) = [].
Proof.
  revert ms. induction fs as [|[[no' lb] ty] fs IH]; intros [|l ms] Hn; simpl; try done.
  rewrite occurrences_app, occurrences_other, IH; [done| |].
  - intros H. apply Hn. by right.
  - intros ->. apply Hn. by left.
Qed.

Lemma occurrences_enc fs ms i no lb ty l :
  NoDup (nos fs) -> fs !! i = Some (no, lb, ty) -> ms !! i = Some l ->
  occurrences no ty (enc_fields fs ms) = map (enc ty) l.
Proof.
  revert ms i. induction fs as [|[[no' lb'] ty'] fs IH]; intros [|l' ms] [|i] Hn Hf Hm; try done.
  - simpl in *. injection Hf as -> -> ->. injection Hm as ->.
    apply NoDup_cons in Hn as [Hn _]. rewrite occurrences_app, occurrences_same, occurrences_notin.
    + by rewrite app_nil_r.
    + by rewrite <-elem_of_list_In.
  - simpl in *. apply NoDup_cons in Hn as [Hn Hn'].
    rewrite occurrences_app, occurrences_other, (IH ms i); try done.
    intros ->. apply Hn. apply elem_of_list_In. unfold nos. apply in_map_iff. exists (no, lb, ty).
    split; [done|]. apply elem_of_list_In. by eapply elem_of_list_lookup_2.
Qed.

Lemma wf_desc_msg fs :
  wf_desc (FMsg fs) = true ->
  NoDup (nos fs) /\ Forall (fun f : field => 1 <= f.1.1 < 536870912 /\ wf_desc f.2 = true) fs.
Proof.
  simpl. rewrite andb_true_iff. intros [H1 H2]. split.
  - fold (nos fs) in H2. clear H1. induction (nos fs) as [|x l IH]; [constructor|].
    apply andb_true_iff in H2 as [Hx Hl]. constructor; [|by apply IH].
    rewrite elem_of_list_In. intros Hin. apply negb_true_iff in Hx.
    assert (existsb (N.eqb x) l = true) as He; [|congruence].
    apply existsb_exists. exists x. split; [done|]. apply N.eqb_refl.
  - apply List.Forall_forall. intros f Hf. rewrite forallb_forall in H1. specialize (H1 f Hf).
    rewrite !andb_true_iff in H1. destruct H1 as [[H1 H1'] H1'']. split; [lia|done].
Qed.

Lemma settle_wf lb ty l : wf_content lb ty l = true -> settle lb ty l = l.
Proof.
  destruct lb; simpl.
  - destruct l as [|v [|]]; try done. simpl. rewrite andb_true_iff, negb_true_iff. by intros [-> _].
  - by destruct l as [|v [|]].
  - done.
Qed.

Lemma wf_content_all lb ty l : wf_content lb ty l = true -> forall v, In v l -> wf ty v = true.
Proof.
  destruct lb; simpl.
  - destruct l as [|v [|]]; try done. rewrite andb_true_iff. intros [_ H] w [<-|[]]. done.
  - destruct l as [|v [|]]; try done. intros H w [<-|[]]. done.
  - rewrite forallb_forall. auto.
Qed.

Lemma wf_fields_in fs ms f : wf_fields fs ms = true -> In f (enc_fields fs ms) ->
  exists no lb ty v, In (no, lb, ty) fs /\ wf ty v = true /\ f = (no, enc ty v).
Proof.
  revert ms. induction fs as [|[[no lb] ty] fs IH]; intros [|l ms]; simpl; try done.
  rewrite andb_true_iff. intros [H1 H2]. rewrite in_app_iff. intros [H|H].
  - apply in_map_iff in H as (v & <- & Hv). exists no, lb, ty, v. split_and!; [by left| |done].
    by eapply wf_content_all.
  - destruct (IH ms H2 H) as (no' & lb' & ty' & v & ? & ? & ->). exists no', lb', ty', v.
    split_and!; [by right|done|done].
Qed.

Lemma wf_wire_enc t v : wf t v = true -> N.of_nat (length (ser_wire (enc t v))) < two64 -> wf_wire (enc t v).
Proof.
  intros Hw Hl.
  assert (Hlen : forall b, enc t v = WLen b -> wf_wire (enc t v)).
  { intros b E. rewrite E in *. cbn [ser_wire wf_wire] in *. rewrite app_length in Hl. lia. }
  destruct t; try (eapply Hlen; reflexivity); clear Hlen Hl; cbn [wf] in Hw;
    destruct v as [n| |]; try discriminate; apply N.ltb_lt in Hw; cbn [enc wf_wire].
  - eapply N.lt_trans; [exact Hw|]. reflexivity.
  - exact Hw.
  - eapply N.lt_trans; [exact Hw|]. reflexivity.
  - eapply N.lt_trans; [exact Hw|]. reflexivity.
Qed.

Lemma dec_enc t : wf_desc t = true -> forall v, wf t v = true ->
  N.of_nat (length (ser_wire (enc t v))) < two64 -> dec t (enc t v) = Some v.
Proof.
  induction t as [| | | | | |fs IH] using ftype_ind'; intros Hd v Hw Hl.
  - destruct v; try done. simpl in *. rewrite N.mod_small by lia. done.
  - by destruct v.
  - destruct v; try done. simpl in *. rewrite N.mod_small; [done|]. unfold two32. lia.
  - destruct v; try done. simpl in *. destruct (n =? 0) eqn:E; do 2 f_equal; lia.
  - by destruct v.
  - destruct v; try done. simpl in *. by rewrite Hw.
  - destruct v as [| |ms]; try done. apply wf_desc_msg in Hd as [Hnd Hfs].
    rewrite wf_msg in Hw. rewrite enc_msg in *. rewrite dec_msg.
    assert (Hsmall : forall f, In f (enc_fields fs ms) -> N.of_nat (length (ser_wire f.2)) < two64).
    { intros f Hf. apply ser_in in Hf. simpl in Hl. rewrite app_length in Hl. lia. }
    rewrite parse_ser.
    2:{ apply List.Forall_forall. intros f Hf.
        destruct (wf_fields_in _ _ _ Hw Hf) as (no & lb & ty & v & Hin & Hv & ->).
        rewrite List.Forall_forall in Hfs. destruct (Hfs _ Hin) as [Hno _]. simpl in Hno.
        split; [done|]. apply wf_wire_enc; [done|]. exact (Hsmall (no, enc ty v) Hf). }
    assert (Hocc : forall i no lb ty l, fs !! i = Some (no, lb, ty) -> ms !! i = Some l ->
              occurrences no ty (enc_fields fs ms) = map (enc ty) l /\
              (forall v, In v l -> In (no, enc ty v) (enc_fields fs ms))).
    { intros i no lb ty l Hf Hm. split; [by eapply occurrences_enc|].
      clear -Hf Hm. revert ms i Hf Hm. induction fs as [|[[no' lb'] ty'] fs IH]; intros [|l' ms] [|i] Hf Hm v Hv; try done; simpl in *.
      - injection Hf as -> -> ->. injection Hm as ->. apply in_app_iff. left. apply in_map_iff. eauto.
      - apply in_app_iff. right. by eapply IH. }
    set (ws := enc_fields fs ms) in *. clearbody ws.
    assert (dec_fields ws fs = Some ms) as ->; [|done].
    clear Hl Hnd. revert ms Hw Hocc. induction fs as [|[[no lb] ty] fs IHfs]; intros [|l ms] Hw Hocc; try done.
    simpl in *. apply andb_true_iff in Hw as [Hw1 Hw2].
    apply Forall_cons in IH as [IH1 IH2]. apply Forall_cons in Hfs as [[_ Hd1] Hd2]. simpl in *.
    destruct (Hocc 0%nat no lb ty l) as [Ho Hin]; [done|done|]. rewrite Ho.
    rewrite (all_some_map _ _ _ id).
    2:{ intros v Hv. apply IH1; [done|by eapply wf_content_all|]. apply (Hsmall (no, enc ty v)). auto. }
    rewrite map_id. rewrite (IHfs IH2 Hd2 ms); [|done|].
    + by rewrite settle_wf.
    + intros i no' lb' ty' l' Hf Hm. by apply (Hocc (S i) no' lb').
Qed.

(** The round trip. The bound says that the encoded message fits in 2^64 bytes. *)
Theorem decode_encode d m :
  wf_desc (FMsg d) = true -> wf (FMsg d) (VMsg m) = true ->
  N.of_nat (length (encode d m)) < 4294967296 -> decode d (encode d m) = Some m.
Proof.
  intros Hd Hw Hl. unfold decode.
  pose proof (dec_enc (FMsg d) Hd (VMsg m) Hw) as H. rewrite enc_msg in H.
  unfold encode in *. rewrite H; [done|]. simpl. rewrite app_length.
  assert (length (varint (N.of_nat (length (ser (enc_fields d m))))) <= 10)%nat.
  { unfold varint. generalize (N.of_nat (length (ser (enc_fields d m)))). generalize 10%nat.
    induction n as [|f IH]; intros k; simpl; [lia|]. destruct (k <? 128); simpl; [lia|]. specialize (IH (k / 128)). lia. }
  unfold two64. lia.
Qed.

(** ** Conversions *)
Lemma get_num_num n : get_num (num n) = n.
Proof. unfold num. destruct (n =? 0) eqn:E; simpl; [lia|done]. Qed.
Lemma get_str_str b : get_str (str b) = b.
Proof. by destruct b. Qed.
Lemma get_bool_boolv b : get_bool (boolv b) = b.
Proof. by destruct b. Qed.

Lemma i64_u64 z : is_i64 z -> i64_of_u64 (u64_of_i64 z) = z.
Proof.
  unfold is_i64, i64_of_u64, u64_of_i64. intros H.
  destruct (decide (0 <= z)%Z) as [Hz|Hz].
  - rewrite Z.mod_small by lia. destruct (Z.to_N z <? 9223372036854775808) eqn:E; lia.
  - assert (z mod 18446744073709551616 = z + 18446744073709551616)%Z as ->.
    { symmetry. apply (Z.mod_unique _ _ (-1)); lia. }
    destruct (Z.to_N (z + 18446744073709551616) <? 9223372036854775808) eqn:E; lia.
Qed.

Lemma u64_lt z : u64_of_i64 z < two64.
Proof.
  unfold u64_of_i64, two64. pose proof (Z.mod_pos_bound z 18446744073709551616). lia.
Qed.

Lemma wf_num_u64 n : n < two64 -> wf_content Implicit FU64 (num n) = true.
Proof. unfold num. destruct (n =? 0) eqn:E; simpl; [done|]. intros H. destruct n; [done|]. simpl. apply N.ltb_lt. done. Qed.
Lemma wf_num_u32 n : n < two32 -> wf_content Implicit FU32 (num n) = true.
Proof. unfold num. destruct (n =? 0) eqn:E; simpl; [done|]. intros H. destruct n; [done|]. simpl. apply N.ltb_lt. done. Qed.
Lemma wf_num_i32 n : n < 2147483648 -> wf_content Implicit FI32 (num n) = true.
Proof. unfold num. destruct (n =? 0) eqn:E; simpl; [done|]. intros H. destruct n; [done|]. simpl. apply N.ltb_lt. done. Qed.
Lemma wf_str_string b : utf8 b = true -> wf_content Implicit FString (str b) = true.
Proof. destruct b; simpl; [done|]. intros ->. done. Qed.
Lemma wf_str_bytes b : wf_content Implicit FBytes (str b) = true.
Proof. by destruct b. Qed.
Lemma wf_boolv b : wf_content Implicit FBool (boolv b) = true.
Proof. by destruct b. Qed.
Lemma wf_msg_opt fs m : wf_fields fs m = true -> wf_content Implicit (FMsg fs) (msg m) = true.
Proof. intros H. unfold wf_content, msg. rewrite wf_msg, H. done. Qed.
Lemma wf_msg_none fs : wf_content Implicit (FMsg fs) [] = true.
Proof. done. Qed.
