(** Proofs about JSON text: a tree that describes a value is read as this value. *)
From Verif Require Import Base.
From Verif Require Import Json_Proofs2.
From Verif Require Export JsonText_Spec.
Local Open Scope N_scope.

Lemma filter_absent {A} (l : list (bytes * A)) (n : bytes) : n ∉ l.*1 -> List.filter (fun e => same e.1 n) l = [].
Proof.
  induction l as [|[m x] l IH]; intros H; [done|]. cbn [fmap list_fmap fst] in H. apply not_elem_of_cons in H as [H1 H2].
  cbn [List.filter fst]. rewrite same_no by congruence. by apply IH.
Qed.
Lemma filter_given {A} (p q : list (bytes * A)) (n : bytes) (x : A) : n ∉ p.*1 -> n ∉ q.*1 ->
  List.filter (fun e => same e.1 n) (p ++ (n, x) :: q) = [(n, x)].
Proof.
  intros Hp Hq. rewrite List.filter_app, filter_absent by done. cbn [List.filter fst app]. rewrite same_refl. by rewrite filter_absent.
Qed.

Definition variant_of (o : option json) (n : bytes) : list (bytes * option ty) -> nat -> option xval :=
  fix go vs i :=
    match vs with
    | [] => None
    | (m, p) :: vs' =>
        if same m n then
          match p, o with
          | None, None | None, Some JNull => Some (XVar i None)
          | Some t, Some x => match of_json t x with Some v => Some (XVar i (Some v)) | None => None end
          | _, _ => None
          end
        else go vs' (S i)
    end.
Lemma variant_found o n vs i k p : NoDup vs.*1 -> vs !! i = Some (n, p) ->
  variant_of o n vs k =
    match p, o with
    | None, None | None, Some JNull => Some (XVar (k + i) None)
    | Some t, Some x => match of_json t x with Some v => Some (XVar (k + i) (Some v)) | None => None end
    | _, _ => None
    end.
Proof.
  revert i k. induction vs as [|[m q] vs IH]; intros i k HN Hi; [done|]. cbn [fmap list_fmap fst] in HN. apply NoDup_cons in HN as [Hm HN].
  destruct i as [|i].
  - injection Hi as -> ->. cbn [variant_of]. rewrite same_refl, Nat.add_0_r. done.
  - cbn [variant_of]. rewrite same_no; [|intros ->; apply Hm; apply elem_of_list_fmap; exists (n, p); split; [done|by eapply elem_of_list_lookup_2]].
    rewrite <- Nat.add_succ_comm. exact (IH i (S k) HN Hi).
Qed.

Lemma all_shown :
  (forall t v j, shows t v j -> rust_ty t -> of_json t j = Some v) /\
  (forall t xs js, shows_all t xs js -> rust_ty t -> all_of (of_json t) js = Some xs) /\
  (forall t xs ms, shows_map t xs ms -> rust_ty t ->
     all_of (fun '(k, x) => match of_json t x with Some v => Some (k, v) | None => None end) ms = Some xs) /\
  (forall ts xs js, shows_each ts xs js -> Forall rust_ty ts -> tuple_of ts js = Some xs) /\
  (forall ms fs xs, shows_fields ms fs xs -> Forall (fun f => rust_ty f.2) fs -> struct_of ms fs = Some xs).
Proof.
  apply (shows_ind5 (fun t v j _ => rust_ty t -> of_json t j = Some v)
    (fun t xs js _ => rust_ty t -> all_of (of_json t) js = Some xs)
    (fun t xs ms _ => rust_ty t -> all_of (fun '(k, x) => match of_json t x with Some v => Some (k, v) | None => None end) ms = Some xs)
    (fun ts xs js _ => Forall rust_ty ts -> tuple_of ts js = Some xs)
    (fun ms fs xs _ => Forall (fun f => rust_ty f.2) fs -> struct_of ms fs = Some xs)).
  - done.
  - intros lo hi z Hz _. cbn [of_json]. by rewrite (proj2 (Z.leb_le lo z)), (proj2 (Z.leb_le z hi)) by lia.
  - done.
  - done.
  - done.
  - intros t v j Hj _ IH HR. cbn [of_json]. rewrite (IH HR). by destruct j.
  - intros t xs js _ IH HR. cbn [of_json]. by rewrite (IH HR).
  - intros t xs ms HN _ IH HR. cbn [of_json]. rewrite (IH HR). rewrite put_all; [done|]. exact HN.
  - intros ts xs js _ IH HR. cbn [rust_ty] in HR. apply tuple_parts in HR. specialize (IH HR). cbn [of_json]. unfold tuple_of in IH. by rewrite IH.
  - intros fs xs ms _ IH (HN & _ & HR). apply struct_parts in HR. specialize (IH HR). cbn [of_json]. unfold struct_of in IH. by rewrite IH.
  - intros vs i n Hi (HN & _). exact (variant_found None n vs i 0 None HN Hi).
  - intros vs i n Hi (HN & _). exact (variant_found (Some JNull) n vs i 0 None HN Hi).
  - intros vs i n t v j Hi _ IH HR. pose proof HR as (HN & _ & HP). apply enum_parts in HP.
    pose proof (proj1 (Forall_lookup _ _) HP i _ Hi) as Ht. cbn [snd on_opt] in Ht.
    pose proof (variant_found (Some j) n vs i 0 (Some t) HN Hi) as H. cbv iota in H. rewrite (IH Ht) in H. exact H.
  - done.
  - intros t x xs j js _ IHx _ IHs HR. cbn [all_of]. by rewrite (IHx HR), (IHs HR).
  - done.
  - intros t k x xs j ms _ IHx _ IHs HR. cbn [all_of]. by rewrite (IHx HR), (IHs HR).
  - done.
  - intros t ts x xs j js _ IHx _ IHs HR. apply Forall_cons in HR as [HR HRs]. cbn [tuple_of]. by rewrite (IHx HR), (IHs HRs).
  - done.
  - intros p n j q t fs x xs Hp Hq _ IHx _ IHs HR. apply Forall_cons in HR as [HR HRs]. cbn [struct_of]. rewrite filter_given by done.
    by rewrite (IHx HR), (IHs HRs).
  - intros ms n t fs xs Hn _ IHs HR. apply Forall_cons in HR as [HR HRs]. cbn [struct_of is_opt]. rewrite filter_absent by done.
    by rewrite (IHs HRs).
Qed.

(** ** What this code writes describes the value, too. *)
Lemma fields_own pre fs l :
  NoDup (pre.*1 ++ fs.*1) -> Forall (fun f => forall v, has_ty f.2 v -> shows f.2 v (to_json f.2 v)) fs -> has_fields fs l ->
  shows_fields (pre ++ struct_json fs l) fs l.
Proof.
  intros HN HI. revert pre l HN. induction HI as [|[n t] fs Ht HI IH]; intros pre [|x l] HN HV; try done.
  { constructor. }
  destruct HV as [Hx HV]. cbn [struct_json]. cbn [fmap list_fmap fst] in HN. apply NoDup_app in HN as (HN1 & HN2 & HN3).
  apply NoDup_cons in HN3 as [Hn HN3].
  assert (Hkeys : (struct_json fs l).*1 = fs.*1).
  { clear -HV. revert l HV. induction fs as [|[m u] fs IH]; intros [|x l] HV; try done. destruct HV as [_ HV].
    cbn [struct_json fmap list_fmap fst]. f_equal. by apply IH. }
  constructor.
  - intros H. apply (HN2 n H). by left.
  - change (n ∉ (struct_json fs l).*1). by rewrite Hkeys.
  - exact (Ht x Hx).
  - pose proof (IH (pre ++ [(n, to_json t x)]) l) as K. rewrite <- app_assoc in K. apply K; [|done].
    rewrite fmap_app. cbn [fmap list_fmap fst]. apply NoDup_app. split_and!; [| |done].
    + apply NoDup_app. split_and!; [done| |apply NoDup_singleton]. intros y Hy ->%elem_of_list_singleton. apply (HN2 n Hy). by left.
    + intros y [Hy| ->%elem_of_list_singleton]%elem_of_app Hy'; [|done]. apply (HN2 y Hy). by right.
Qed.
Lemma own_shown t : forall v, rust_ty t -> told_apart t -> has_ty t v -> shows t v (to_json t v).
Proof.
  induction t as [|lo hi| | |u IH|u IH|u IH|ts IH|fs IH|vs IH] using ty_rec'; intros v HR HT HV.
  - destruct v; try done. constructor.
  - destruct v; try done. by constructor.
  - destruct v; try done. constructor.
  - destruct v; try done. constructor.
  - destruct v as [| | | | |x| | |]; try done; [constructor|]. destruct HT as [Hn HT]. cbn [to_json]. constructor; [by apply not_null|by apply IH].
  - destruct v as [| | | | | |l| |]; try done. cbn [to_json]. constructor. cbn [has_ty] in HV.
    induction HV as [|x l Hx _ IHl]; [constructor|]. cbn [map]. constructor; [by apply IH|exact IHl].
  - destruct v as [| | | | | | |l|]; try done. destruct HV as [HN HV]. cbn [to_json]. constructor; [exact HN|]. clear HN.
    induction HV as [|[k x] l [_ Hx] _ IHl]; [constructor|]. cbn [map]. constructor; [by apply IH|exact IHl].
  - destruct v as [| | | | | |l| |]; try done. cbn [rust_ty] in HR. cbn [told_apart] in HT. apply tuple_parts in HR. apply tuple_parts in HT.
    cbn [to_json]. constructor. change (has_tys ts l) in HV. change (shows_each ts l (tuple_json ts l)).
    revert l HV. induction IH as [|t ts Ht _ IHs]; intros [|x l] HV; try done; [constructor|].
    apply Forall_cons in HR as [HR HRs]. apply Forall_cons in HT as [HT HTs]. destruct HV as [HV HVs].
    cbn [tuple_json]. constructor; [by apply Ht|exact (IHs HRs HTs l HVs)].
  - destruct v as [| | | | | |l| |]; try done. destruct HR as (HN & _ & HR). apply struct_parts in HR. cbn [told_apart] in HT. apply struct_parts in HT.
    cbn [to_json]. constructor. change (has_fields fs l) in HV. change (shows_fields (struct_json fs l) fs l).
    apply (fields_own [] fs l HN); [|done]. clear HV HN.
    induction IH as [|f fs Hf _ IHs]; [constructor|]. apply Forall_cons in HR as [HR HRs]. apply Forall_cons in HT as [HT HTs].
    constructor; [|exact (IHs HRs HTs)]. intros v Hv. by apply Hf.
  - destruct v as [| | | | | | | |i o]; try done. destruct HR as (HN & _ & HR). apply enum_parts in HR. cbn [told_apart] in HT. apply enum_parts in HT.
    destruct (enum_has vs i o HV) as (n & p & Hi & Ho). rewrite (enum_json vs i o n p Hi).
    pose proof (proj1 (Forall_lookup _ _) HR i _ Hi) as HRt. pose proof (proj1 (Forall_lookup _ _) HT i _ Hi) as HTt.
    pose proof (proj1 (Forall_lookup _ _) IH i _ Hi) as IHt. cbn [snd on_opt] in *.
    destruct p as [t|], o as [x|]; try done.
    + apply (ShVariant vs i n t); [done|]. by apply IHt.
    + by apply ShName.
Qed.
