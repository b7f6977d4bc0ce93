(** C83, C84: JSON messages, results and snapshots. *)
From Verif Require Import Base.
From Verif Require Proto_Model.
From Verif Require Export Json_Sound.
From Coq Require Import Ascii.
Local Open Scope N_scope.

(** ** C83 *)

(** An option of an option: a present value without content is read as no value at all. *)
Definition u64_ty : ty := TyInt 0 18446744073709551615.
Theorem C83_options_refuted :
  exists t v v', rust_ty t /\ has_ty t v /\ from_slice t (to_vec t v) = Some v' /\ v' <> v.
Proof.
  exists (TyOpt (TyOpt u64_ty)), (XSome XNone), XNone. split; [done|]. split; [exact I|]. split; [by vm_compute|done].
Qed.

(** A value that is written and cannot be read: 128 arrays in each other. *)
Fixpoint nested_ty (n : nat) : ty := match n with O => TyVec TyUnit | S n => TyVec (nested_ty n) end.
Fixpoint nested (n : nat) : xval := match n with O => XList [] | S n => XList [nested n] end.
Lemma nested_ok n : rust_ty (nested_ty n) /\ told_apart (nested_ty n) /\ has_ty (nested_ty n) (nested n).
Proof.
  induction n as [|n (H1 & H2 & H3)]; [repeat split; constructor|]. split; [exact H1|]. split; [exact H2|].
  change (Forall (has_ty (nested_ty n)) [nested n]). constructor; [exact H3|constructor].
Qed.
Theorem C83_deep_refuted :
  exists t v, rust_ty t /\ told_apart t /\ has_ty t v /\ from_slice t (to_vec t v) = None.
Proof.
  exists (nested_ty 127), (nested 127). destruct (nested_ok 127) as (H1 & H2 & H3). split; [exact H1|]. split; [exact H2|].
  split; [exact H3|by vm_compute].
Qed.

(** Every value is read back as it was, unless its type has an option of an option or of [()],
    or it is nested 128 levels deep. *)
Theorem C83_partial t v :
  rust_ty t -> told_apart t -> has_ty t v -> (levels v t < 128)%nat -> from_slice t (to_vec t v) = Some v.
Proof. exact (json_roundtrip t v). Qed.

Theorem C83_types_partial t :
  rust_ty t -> told_apart t -> (ty_levels t < 128)%nat -> forall v, has_ty t v -> from_slice t (to_vec t v) = Some v.
Proof. intros HR HT HL v HV. apply json_roundtrip; [done|done|done|]. pose proof (levels_bound t v HV). lia. Qed.

(** Different values are written differently. *)
Theorem C83_distinct_partial t v w :
  rust_ty t -> told_apart t -> has_ty t v -> has_ty t w -> (levels v t < 128)%nat -> (levels w t < 128)%nat ->
  to_vec t v = to_vec t w -> v = w.
Proof.
  intros HR HT Hv Hw Lv Lw H. pose proof (json_roundtrip t v HR HT Hv Lv) as E1. pose proof (json_roundtrip t w HR HT Hw Lw) as E2.
  rewrite H in E1. rewrite E1 in E2. by injection E2.
Qed.

(** What is written is a line of text. *)
Theorem C83_line t v : rust_ty t -> has_ty t v -> Proto_Model.utf8 (to_vec t v) = true /\ Forall (fun c => 32 <= c) (to_vec t v).
Proof. intros HR HV. exact (text_line (to_json t v) (clean_json t v HR HV)). Qed.

(** Whatever text arrives, what is read is a value of the type, and it can be passed on. *)
Theorem C83_typed t b v : from_slice t b = Some v -> has_ty t v.
Proof. intros H. exact (proj1 (from_slice_sound t b v H)). Qed.
Theorem C83_again_partial t b v : rust_ty t -> told_apart t -> from_slice t b = Some v -> from_slice t (to_vec t v) = Some v.
Proof. intros HR HT H. destruct (from_slice_sound t b v H) as [H1 H2]. exact (json_roundtrip t v HR HT H1 H2). Qed.

(** ** C84 *)

(** A newer version of the type reads every value of the older one: fields by their names, new
    optional fields empty, fields that were given up passed over, variants by their names. *)
Theorem C84_newer t' t v :
  rust_ty t -> told_apart t -> has_ty t v -> (levels v t < 128)%nat -> newer t' t = true ->
  exists v', migrate t' t v = Some v' /\ from_slice t' (to_vec t v) = Some v'.
Proof.
  intros HR HT HV HL HN. destruct (newer_total t' t v HN HV) as [v' Hv']. exists v'. split; [done|].
  exact (json_reads t' t v v' HR HT HV HL Hv').
Qed.

(** A field both versions have is read as it was written. *)
Lemma migrate_fields fs l fs' r :
  (fix go (fs' : list (bytes * ty)) : option (list xval) :=
     match fs' with
     | [] => Some []
     | (n, u') :: fs'' =>
         match (match field_of n fs l with
                | Some (u, x) => migrate u' u x
                | None => if is_opt u' then Some XNone else None
                end), go fs'' with
         | Some y, Some r => Some (y :: r)
         | _, _ => None
         end
     end) fs' = Some r ->
  forall k n u', fs' !! k = Some (n, u') ->
  exists y, r !! k = Some y /\
    match field_of n fs l with Some (u, x) => migrate u' u x = Some y | None => is_opt u' = true /\ y = XNone end.
Proof.
  revert r. induction fs' as [|[m w] fs' IH]; intros r H k n u' Hk; [done|].
  match goal with H : match ?a with _ => _ end = Some _ |- _ => destruct a as [y|] eqn:Ey; [|done] end.
  match goal with H : match ?a with _ => _ end = Some _ |- _ => destruct a as [r0|] eqn:Er; [|done] end. injection H as <-.
  destruct k as [|k].
  - injection Hk as -> ->. exists y. split; [done|]. destruct (field_of n fs l) as [[u x]|]; [done|]. destruct (is_opt u'); [|done]. by injection Ey as <-.
  - exact (IH r0 eq_refl k n u' Hk).
Qed.

Theorem C84_fields fs' fs l :
  rust_ty (TyStruct fs) -> told_apart (TyStruct fs) -> has_ty (TyStruct fs) (XList l) -> (levels (XList l) (TyStruct fs) < 128)%nat ->
  newer (TyStruct fs') (TyStruct fs) = true ->
  exists l', from_slice (TyStruct fs') (to_vec (TyStruct fs) (XList l)) = Some (XList l') /\
  (forall k n t, fs' !! k = Some (n, t) ->
     (forall i x, fs !! i = Some (n, t) -> l !! i = Some x -> l' !! k = Some x) /\
     (n ∉ fs.*1 -> l' !! k = Some XNone)).
Proof.
  intros HR HT HV HL HN. destruct (C84_newer _ _ _ HR HT HV HL HN) as (v' & HM & Hread). cbn [migrate] in HM.
  match goal with H : XList <$> ?m = Some _ |- _ => destruct m as [r|] eqn:E; [|done] end. injection HM as <-.
  exists r. split; [exact Hread|]. intros k n t Hk. destruct (migrate_fields fs l fs' r E k n t Hk) as (y & Hy & Hm).
  destruct HR as (HNd & _ & HR). apply struct_parts in HR. change (has_fields fs l) in HV. split.
  - intros i x Hi Hx. rewrite Hy. f_equal.
    assert (Hf : field_of n fs l = Some (t, x) /\ has_ty t x).
    { clear - HNd HV Hi Hx. revert l i HV Hi Hx. induction fs as [|[m u] fs IH]; intros [|z l] i HV Hi Hx; try done.
      destruct HV as [Hz HV]. cbn [fmap list_fmap fst] in HNd. apply NoDup_cons in HNd as [Hm HNd]. cbn [field_of]. destruct i as [|i].
      - injection Hi as -> ->. injection Hx as ->. rewrite bool_decide_eq_true_2 by done. done.
      - rewrite bool_decide_eq_false_2; [exact (IH HNd l i HV Hi Hx)|]. intros ->. apply Hm. apply elem_of_list_fmap. exists (n, t).
        split; [done|]. exact (elem_of_list_lookup_2 fs i _ Hi). }
    destruct Hf as [Hf Hx']. rewrite Hf in Hm. pose proof (proj1 (Forall_lookup _ _) HR i _ Hi) as HRt. cbn [snd] in HRt.
    rewrite (migrate_self t x HRt Hx') in Hm. by injection Hm.
  - intros Hn. assert (Hf : field_of n fs l = None).
    { clear - Hn. revert l. induction fs as [|[m u] fs IH]; intros [|z l]; try done. cbn [fmap list_fmap fst] in Hn.
      apply not_elem_of_cons in Hn as [H1 H2]. cbn [field_of]. rewrite bool_decide_eq_false_2 by done. by apply IH. }
    rewrite Hf in Hm. destruct Hm as [_ ->]. exact Hy.
Qed.

(** What cannot be understood is rejected: a variant the reader does not know, a field it needs
    and the writer has not. *)
Theorem C84_variant_rejected vs' vs i o n p :
  rust_ty (TyEnum vs) -> told_apart (TyEnum vs) -> has_ty (TyEnum vs) (XVar i o) -> (levels (XVar i o) (TyEnum vs) < 128)%nat ->
  vs !! i = Some (n, p) -> n ∉ vs'.*1 -> from_slice (TyEnum vs') (to_vec (TyEnum vs) (XVar i o)) = None.
Proof.
  intros HR HT HV HL Hi Hn. unfold from_slice, to_vec. rewrite (text_roundtrip _ (clean_json _ _ HR HV)).
  - rewrite (enum_json vs i o n p Hi).
    assert (Hgo : forall (x : option json) k,
      (fix go (vs : list (bytes * option ty)) (i : nat) : option xval :=
             match vs with
             | [] => None
             | (m, p) :: vs' =>
                 if same m n then
                   match p, x with
                   | None, None | None, Some JNull => Some (XVar i None)
                   | Some t, Some x => match of_json t x with Some v => Some (XVar i (Some v)) | None => None end
                   | _, _ => None
                   end
                 else go vs' (S i)
             end) vs' k = None).
    { intros x. induction vs' as [|[m q] vs' IH]; intros k; [done|]. cbn [fmap list_fmap fst] in Hn. apply not_elem_of_cons in Hn as [H1 H2].
      rewrite same_no by done. by apply IH. }
    destruct p as [t|], o as [x|]; [exact (Hgo (Some (to_json t x)) 0%nat)|exact (Hgo None 0%nat)..].
  - pose proof (depth_levels _ _ HV). lia.
Qed.

Theorem C84_field_rejected fs' fs l n u' :
  rust_ty (TyStruct fs) -> told_apart (TyStruct fs) -> has_ty (TyStruct fs) (XList l) -> (levels (XList l) (TyStruct fs) < 128)%nat ->
  (n, u') ∈ fs' -> n ∉ fs.*1 -> is_opt u' = false -> from_slice (TyStruct fs') (to_vec (TyStruct fs) (XList l)) = None.
Proof.
  intros HR HT HV HL Hin Hn Ho. unfold from_slice, to_vec. rewrite (text_roundtrip _ (clean_json _ _ HR HV)).
  - assert (H : struct_of (struct_json fs l) fs' = None).
    { clear HR HT HV HL. induction fs' as [|[m w] fs' IH]; [by apply elem_of_nil in Hin|].
      change (match (match List.filter (fun e => same e.1 m) (struct_json fs l) with
                  | [] => if is_opt w then Some XNone else None
                  | [(_, x)] => of_json w x
                  | _ => None
                  end), struct_of (struct_json fs l) fs' with
           | Some v, Some r => Some (v :: r)
           | _, _ => None
           end = None).
      apply elem_of_cons in Hin as [Hin|Hin].
      - injection Hin as <- <-. rewrite (filter_none n fs l Hn), Ho. done.
      - rewrite (IH Hin). match goal with |- match ?a with _ => _ end = None => by destruct a end. }
    change (match struct_of (struct_json fs l) fs' with Some r => Some (XList r) | None => None end = None). by rewrite H.
  - pose proof (depth_levels _ _ HV). lia.
Qed.

Print Assumptions C83_options_refuted.
Print Assumptions C83_deep_refuted.
Print Assumptions C83_partial.
Print Assumptions C83_types_partial.
Print Assumptions C83_distinct_partial.
Print Assumptions C83_line.
Print Assumptions C83_typed.
Print Assumptions C83_again_partial.
Print Assumptions C84_newer.
Print Assumptions C84_fields.
Print Assumptions C84_variant_rejected.
Print Assumptions C84_field_rejected.

(** ** Cases *)
Definition b (s : string) : bytes := map N_of_ascii (list_ascii_of_string s).

(** An order with all kinds of parts (a message of a shop). *)
Definition item_ty : ty := TyStruct [(b "name", TyStr); (b "count", TyInt 1 255); (b "note", TyOpt TyStr)].
Definition pay_ty : ty := TyEnum [(b "Cash", None); (b "Card", Some (TyTuple [TyStr; u64_ty])); (b "Later", Some (TyStruct [(b "days", u64_ty)]))].
Definition order_ty : ty :=
  TyStruct [(b "id", u64_ty); (b "items", TyVec item_ty); (b "pay", pay_ty); (b "labels", TyMap (TyInt (-10) 10)); (b "paid", TyBool)].
Definition order : xval :=
  XList [XInt 18446744073709551615;
         XList [XList [XStr (b "tea ""green"""); XInt 2; XNone]; XList [XStr [195; 169; 10; 1]; XInt 255; XSome (XStr [])]];
         XVar 1 (Some (XList [XStr (b "1\2"); XInt 0]));
         XMap [(b "x", XInt (-7)); ([], XInt 10)];
         XBool false].

Example C83_case : rust_ty order_ty /\ told_apart order_ty /\ has_ty order_ty order /\ (ty_levels order_ty < 128)%nat.
Proof.
  assert (N1 : NoDup [b "name"; b "count"; b "note"]) by (repeat constructor; set_solver).
  assert (N2 : NoDup [b "id"; b "items"; b "pay"; b "labels"; b "paid"]) by (repeat constructor; set_solver).
  assert (N3 : NoDup [b "Cash"; b "Card"; b "Later"]) by (repeat constructor; set_solver).
  assert (N5 : NoDup [b "days"]) by (repeat constructor; set_solver).
  assert (N4 : NoDup [b "x"; []]) by (repeat constructor; set_solver).
  assert (U : forall l, forallb Proto_Model.utf8 l = true -> Forall unicode l).
  { intros l. induction l as [|x l IH]; intros H; [constructor|]. cbn [forallb] in H. apply andb_true_iff in H as [H1 H2].
    constructor; [exact H1|exact (IH H2)]. }
  unfold order_ty, order, item_ty, pay_ty. split_and!; cbn [rust_ty told_apart has_ty levels ty_levels fmap list_fmap fst snd].
  - split_and!; try done; apply U; by vm_compute.
  - done.
  - split_and!; try done.
    + repeat (apply Forall_cons; split); try apply Forall_nil_2; split_and!; try done; lia.
    + repeat (apply Forall_cons; split); try apply Forall_nil_2; done.
  - cbn. lia.
Qed.
Example C83_text :
  to_vec order_ty order =
  b "{""id"":18446744073709551615,""items"":[{""name"":""tea \""green\"""",""count"":2,""note"":null},{""name"":""" ++ [195; 169] ++
  b "\n\u0001"",""count"":255,""note"":""""}],""pay"":{""Card"":[""1\\2"",0]},""labels"":{""x"":-7,"""":10},""paid"":false}".
Proof. vm_compute. reflexivity. Qed.
Example C83_read : from_slice order_ty (to_vec order_ty order) = Some order.
Proof. vm_compute. reflexivity. Qed.
(** Text of other writers: blanks, escapes, surrogate pairs, other members. *)
Example C83_other :
  from_slice item_ty (b " { ""count"" : 3, ""extra"": [1, {}], ""name"":""\u00e9\uD83d\ude00\/"" } ") =
  Some (XList [XStr [195; 169; 240; 159; 152; 128; 47]; XInt 3; XNone]).
Proof. vm_compute. reflexivity. Qed.
Example C83_rejected :
  map (fun s => from_slice item_ty (b s))
    ["{""name"":""a"",""count"":0}"; "{""name"":""a"",""count"":1,}"; "{""name"":""a"",""count"":1,""count"":1}"; "{""name"":""a"",""count"":01}";
     "{""name"":""\ud83d"",""count"":1}"; "{""name"":""a"",""count"":1}x"; "{""name"":""a""}"; "null"; ""]
  = [None; None; None; None; None; None; None; None; None].
Proof. vm_compute. reflexivity. Qed.

(** The next version: wider counts, the note is gone, a colour may be given, a voucher pays. *)
Definition item_ty2 : ty := TyStruct [(b "count", TyInt 0 65535); (b "colour", TyOpt TyStr); (b "name", TyOpt TyStr)].
Definition pay_ty2 : ty := TyEnum [(b "Voucher", Some TyStr); (b "Card", Some (TyTuple [TyStr; u64_ty])); (b "Later", Some (TyStruct [(b "days", u64_ty)])); (b "Cash", None)].
Definition order_ty2 : ty :=
  TyStruct [(b "id", u64_ty); (b "items", TyVec item_ty2); (b "pay", pay_ty2); (b "labels", TyMap (TyInt (-10) 10)); (b "paid", TyBool)].
Example C84_case : newer order_ty2 order_ty = true /\ newer order_ty order_ty2 = false.
Proof. vm_compute. done. Qed.
Example C84_read :
  from_slice order_ty2 (to_vec order_ty order) =
  Some (XList [XInt 18446744073709551615;
         XList [XList [XInt 2; XNone; XSome (XStr (b "tea ""green"""))]; XList [XInt 255; XNone; XSome (XStr [195; 169; 10; 1])]];
         XVar 1 (Some (XList [XStr (b "1\2"); XInt 0]));
         XMap [(b "x", XInt (-7)); ([], XInt 10)];
         XBool false]).
Proof. vm_compute. reflexivity. Qed.
(** The older version does not understand a voucher. *)
Example C84_voucher : from_slice pay_ty (to_vec pay_ty2 (XVar 0 (Some (XStr (b "V"))))) = None.
Proof. vm_compute. reflexivity. Qed.
