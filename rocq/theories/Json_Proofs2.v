(** Proofs about JSON messages: values through trees and text, and other versions of a type. *)
From Verif Require Import Base.
From Verif Require Proto_Model.
From Verif Require Export Json_Proofs.
Local Open Scope N_scope.

(** ** Induction over types *)
Definition on_opt (P : ty -> Prop) (o : option ty) : Prop := match o with Some t => P t | None => True end.
Section ty_ind.
  Variable P : ty -> Prop.
  Hypothesis Hbool : P TyBool.
  Hypothesis Hint : forall lo hi, P (TyInt lo hi).
  Hypothesis Hstr : P TyStr.
  Hypothesis Hunit : P TyUnit.
  Hypothesis Hopt : forall t, P t -> P (TyOpt t).
  Hypothesis Hvec : forall t, P t -> P (TyVec t).
  Hypothesis Hmap : forall t, P t -> P (TyMap t).
  Hypothesis Htuple : forall l, Forall P l -> P (TyTuple l).
  Hypothesis Hstruct : forall l, Forall (fun f => P f.2) l -> P (TyStruct l).
  Hypothesis Henum : forall l, Forall (fun f => on_opt P f.2) l -> P (TyEnum l).
  Fixpoint ty_rec' (t : ty) : P t :=
    match t with
    | TyBool => Hbool | TyInt lo hi => Hint lo hi | TyStr => Hstr | TyUnit => Hunit
    | TyOpt t => Hopt t (ty_rec' t) | TyVec t => Hvec t (ty_rec' t) | TyMap t => Hmap t (ty_rec' t)
    | TyTuple l => Htuple l ((fix go (l : list ty) : Forall P l :=
                                match l with [] => Forall_nil_2 _ | x :: l' => Forall_cons_2 _ _ _ (ty_rec' x) (go l') end) l)
    | TyStruct l => Hstruct l ((fix go (l : list (bytes * ty)) : Forall (fun f => P f.2) l :=
                                  match l with [] => Forall_nil_2 _ | x :: l' => Forall_cons_2 _ _ _ (ty_rec' x.2) (go l') end) l)
    | TyEnum l => Henum l ((fix go (l : list (bytes * option ty)) : Forall (fun f => on_opt P f.2) l :=
                              match l with
                              | [] => Forall_nil_2 _
                              | x :: l' => Forall_cons_2 (fun f => on_opt P f.2) x l' (match x.2 as o return on_opt P o with
                                                                | Some t => ty_rec' t | None => I end) (go l')
                              end) l)
    end.
End ty_ind.

(** ** The recursive functions, with names *)
Definition tuple_json : list ty -> list xval -> list json :=
  fix go ts l := match ts, l with t :: ts', x :: l' => to_json t x :: go ts' l' | _, _ => [] end.
Definition struct_json : list (bytes * ty) -> list xval -> list (bytes * json) :=
  fix go fs l := match fs, l with (n, t) :: fs', x :: l' => (n, to_json t x) :: go fs' l' | _, _ => [] end.
Definition tuple_of : list ty -> list json -> option (list xval) :=
  fix go ts l :=
    match ts, l with
    | [], [] => Some []
    | t :: ts', x :: l' => match of_json t x, go ts' l' with Some v, Some r => Some (v :: r) | _, _ => None end
    | _, _ => None
    end.
Definition struct_of (l : list (bytes * json)) : list (bytes * ty) -> option (list xval) :=
  fix go fs :=
    match fs with
    | [] => Some []
    | (n, t) :: fs' =>
        match (match List.filter (fun e => same e.1 n) l with
               | [] => if is_opt t then Some XNone else None
               | [(_, x)] => of_json t x
               | _ => None
               end), go fs' with
        | Some v, Some r => Some (v :: r)
        | _, _ => None
        end
    end.
Definition has_tys : list ty -> list xval -> Prop :=
  fix go ts l := match ts, l with [], [] => True | t :: ts', x :: l' => has_ty t x /\ go ts' l' | _, _ => False end.
Definition has_fields : list (bytes * ty) -> list xval -> Prop :=
  fix go fs l := match fs, l with [], [] => True | (_, t) :: fs', x :: l' => has_ty t x /\ go fs' l' | _, _ => False end.

Lemma enum_json vs i o n p :
  vs !! i = Some (n, p) ->
  to_json (TyEnum vs) (XVar i o) = match p, o with Some t, Some x => JObj [(n, to_json t x)] | _, _ => JStr n end.
Proof.
  revert i. induction vs as [|[m q] vs IH]; intros [|i] H; [done|done| |].
  - injection H as -> ->. done.
  - exact (IH i H).
Qed.
Lemma enum_has vs i o :
  has_ty (TyEnum vs) (XVar i o) ->
  exists n p, vs !! i = Some (n, p) /\ match p, o with None, None => True | Some t, Some x => has_ty t x | _, _ => False end.
Proof.
  revert i. induction vs as [|[m q] vs IH]; intros [|i] H; [done|done| |].
  - exists m, q. split; [done|exact H].
  - exact (IH i H).
Qed.

Lemma struct_parts fs (P : ty -> Prop) :
  (fix go (fs : list (bytes * ty)) : Prop := match fs with [] => True | (_, t) :: fs' => P t /\ go fs' end) fs <-> Forall (fun f => P f.2) fs.
Proof.
  split.
  - induction fs as [|[n t] fs IH]; [constructor|]. intros [Ht Hf]. constructor; [done|exact (IH Hf)].
  - induction 1 as [|[n t] fs Ht _ IH]; [done|]. split; [done|exact IH].
Qed.
Lemma tuple_parts ts (P : ty -> Prop) :
  (fix go (ts : list ty) : Prop := match ts with [] => True | t :: ts' => P t /\ go ts' end) ts <-> Forall P ts.
Proof.
  split.
  - induction ts as [|t ts IH]; [constructor|]. intros [Ht Hf]. constructor; [done|exact (IH Hf)].
  - induction 1 as [|t ts Ht _ IH]; [done|]. split; [done|exact IH].
Qed.
Lemma enum_parts vs (P : ty -> Prop) :
  (fix go (vs : list (bytes * option ty)) : Prop :=
     match vs with [] => True | (_, Some t) :: vs' => P t /\ go vs' | (_, None) :: vs' => go vs' end) vs <->
  Forall (fun f => match f.2 with Some t => P t | None => True end) vs.
Proof.
  split.
  - induction vs as [|[n [t|]] vs IH]; [constructor| |].
    + intros [Ht Hf]. constructor; [done|exact (IH Hf)].
    + intros Hf. constructor; [done|exact (IH Hf)].
  - induction 1 as [|[n [t|]] vs Ht _ IH]; [done| |].
    + split; [done|exact IH].
    + exact IH.
Qed.

(** ** Nothing but [()] and options is written as null *)
Lemma not_null t v : nullable t = false -> has_ty t v -> to_json t v <> JNull.
Proof.
  destruct t as [| | | |t|t|t|l|l|vs]; intros Hn Hv; try done; destruct v as [| | | | | | | |i o]; try done.
  apply enum_has in Hv as (n & p & Hi & Ho). rewrite (enum_json vs i o n p Hi). destruct p as [t|], o as [x|]; done.
Qed.

(** ** Another version of the type *)
Lemma same_spec a b : same a b = true <-> a = b.
Proof. unfold same. apply bool_decide_eq_true. Qed.
Lemma same_refl a : same a a = true.
Proof. by apply same_spec. Qed.
Lemma same_no a b : a <> b -> same a b = false.
Proof. intros H. unfold same. by apply bool_decide_eq_false. Qed.

Lemma filter_none n fs l : n ∉ fs.*1 -> List.filter (fun e => same e.1 n) (struct_json fs l) = [].
Proof.
  revert l. induction fs as [|[m t] fs IH]; intros [|x l] H; try done.
  cbn [fmap list_fmap fst] in H. apply not_elem_of_cons in H as [H1 H2].
  change (struct_json ((m, t) :: fs) (x :: l)) with ((m, to_json t x) :: struct_json fs l). cbn [List.filter fst].
  rewrite same_no by done. by apply IH.
Qed.

Lemma filter_field n fs l :
  NoDup fs.*1 ->
  List.filter (fun e => same e.1 n) (struct_json fs l) = match field_of n fs l with Some (t, x) => [(n, to_json t x)] | None => [] end.
Proof.
  revert l. induction fs as [|[m t] fs IH]; intros [|x l] H; try done.
  cbn [fmap list_fmap fst] in H. apply NoDup_cons in H as [H1 H2].
  change (struct_json ((m, t) :: fs) (x :: l)) with ((m, to_json t x) :: struct_json fs l). cbn [List.filter fst field_of].
  destruct (bool_decide_reflect (m = n)) as [-> |Hm].
  - rewrite same_refl. by rewrite filter_none.
  - rewrite same_no by done. by apply IH.
Qed.

Lemma field_has n fs l t x (P : ty -> Prop) :
  has_fields fs l -> Forall (fun f => P f.2) fs -> field_of n fs l = Some (t, x) -> has_ty t x /\ P t.
Proof.
  revert l. induction fs as [|[m u] fs IH]; intros [|y l] Hf HP H; try done.
  destruct Hf as [Hy Hf]. inversion HP as [|? ? Hu HPs]; subst. cbn [field_of] in H. destruct (bool_decide (m = n)).
  - injection H as -> ->. done.
  - exact (IH l Hf HPs H).
Qed.

Lemma put_new {A} (l : list (bytes * A)) k x : k ∉ l.*1 -> put l k x = l ++ [(k, x)].
Proof.
  intros H. unfold put. replace (existsb (fun e => same e.1 k) l) with false; [done|]. symmetry.
  induction l as [|[m y] l IH]; [done|]. cbn [fmap list_fmap fst] in H. apply not_elem_of_cons in H as [H1 H2].
  cbn [existsb fst]. rewrite same_no by done. by apply IH.
Qed.
Lemma put_all {A} (r m : list (bytes * A)) : NoDup (m.*1 ++ r.*1) -> foldl (fun m e => put m e.1 e.2) m r = m ++ r.
Proof.
  revert m. induction r as [|[k x] r IH]; intros m H; [by rewrite app_nil_r|].
  cbn [foldl fst snd]. cbn [fmap list_fmap fst] in H. rewrite put_new.
  - rewrite IH; [by rewrite <- app_assoc|]. rewrite fmap_app. cbn [fmap list_fmap fst]. by rewrite <- app_assoc.
  - apply NoDup_app in H as (_ & H & _). intros Hk. exact (H k Hk (elem_of_list_here _ _)).
Qed.

Lemma all_of_map {A B C} (f : A -> B) (g : A -> option C) (h : B -> option C) l r (P : A -> Prop) :
  (forall a c, P a -> g a = Some c -> h (f a) = Some c) -> Forall P l -> all_of g l = Some r -> all_of h (map f l) = Some r.
Proof.
  intros H HP. revert r. induction HP as [|a l Ha _ IH]; intros r Hr; [done|].
  cbn [all_of] in Hr. destruct (g a) as [c|] eqn:Ec; [|done].
  change (match all_of g l with Some r0 => Some (c :: r0) | None => None end = Some r) in Hr.
  destruct (all_of g l) as [r0|] eqn:El; [|done]. injection Hr as <-.
  change (match h (f a), all_of h (map f l) with Some y, Some r => Some (y :: r) | _, _ => None end = Some (c :: r0)).
  rewrite (H a c Ha Ec), (IH r0 eq_refl). done.
Qed.

Lemma all_of_keys {A B} (g : A -> option B) (l : list (bytes * A)) r :
  all_of (fun '(k, x) => (k,.) <$> g x) l = Some r -> r.*1 = l.*1.
Proof.
  revert r. induction l as [|[k x] l IH]; intros r H; [by injection H as <-|].
  change (match (k,.) <$> g x, all_of (fun '(k, x) => (k,.) <$> g x) l with Some y, Some r => Some (y :: r) | _, _ => None end = Some r) in H.
  destruct (g x) as [y|]; [|done]. cbn [fmap option_fmap option_map] in H.
  destruct (all_of _ l) as [r0|] eqn:E; [|done]. injection H as <-. cbn [fmap list_fmap fst]. f_equal. by apply IH.
Qed.

Lemma migrate_reads t' : forall t v v',
  rust_ty t -> told_apart t -> has_ty t v -> migrate t' t v = Some v' -> of_json t' (to_json t v) = Some v'.
Proof.
  induction t' as [|lo hi| | |u' IH|u' IH|u' IH|ts' IH|fs' IH|vs' IH] using ty_rec'; intros t v v' HR HT HV HM.
  - destruct t; try done. injection HM as <-. destruct v; done.
  - destruct t as [|lo2 hi2| | | | | | | |]; try done. destruct v as [|z| | | | | | |]; done.
  - destruct t; try done. injection HM as <-. destruct v; done.
  - destruct t; try done. injection HM as <-. destruct v; done.
  - (* option *)
    assert (Hplain : nullable t = false -> XSome <$> migrate u' t v = Some v' -> of_json (TyOpt u') (to_json t v) = Some v').
    { intros Hn H. destruct (migrate u' t v) as [y|] eqn:E; [|done]. injection H as <-.
      pose proof (IH t v y HR HT HV E) as Hy. pose proof (not_null t v Hn HV) as Hnn. cbn [of_json]. rewrite Hy.
      destruct (to_json t v); done. }
    destruct t as [| | | |u| | | | |]; try (apply Hplain; [done|destruct v; exact HM]).
    + destruct v; done.
    + destruct v as [| | | | |x| | |]; try done.
      cbn [migrate] in HM. destruct HT as [Hn HT]. destruct (migrate u' u x) as [y|] eqn:E; [|done]. injection HM as <-.
      pose proof (IH u x y HR HT HV E) as Hy. pose proof (not_null u x Hn HV) as Hnn. cbn [of_json to_json]. rewrite Hy.
      destruct (to_json u x); done.
  - (* vector *)
    destruct t as [| | | | |u| | | |]; try done. destruct v as [| | | | | |l| |]; try done. cbn [migrate] in HM.
    destruct (all_of (migrate u' u) l) as [r|] eqn:E; [|done]. injection HM as <-. cbn [to_json of_json].
    rewrite (all_of_map (to_json u) (migrate u' u) (of_json u') l r (has_ty u)); [done| |exact HV|exact E].
    intros a c Ha Hc. exact (IH u a c HR HT Ha Hc).
  - (* map *)
    destruct t as [| | | | | |u| | |]; try done. destruct v as [| | | | | | |l|]; try done. cbn [migrate] in HM.
    destruct (all_of _ l) as [r|] eqn:E; [|done]. injection HM as <-. destruct HV as [HN HV]. cbn [to_json of_json].
    rewrite (all_of_map (fun '(k, x) => (k, to_json u x)) (fun '(k, x) => (k,.) <$> migrate u' u x) _ l r (fun e => unicode e.1 /\ has_ty u e.2)); [|clear E|exact HV|exact E].
    + f_equal. f_equal. rewrite put_all; [done|]. cbn [fmap list_fmap app]. by rewrite (all_of_keys (migrate u' u) l r E).
    + intros [k x] c [_ Hx] Hc. cbn [snd] in Hx. destruct (migrate u' u x) as [y|] eqn:E; [|done]. injection Hc as <-.
      by rewrite (IH u x y HR HT Hx E).
  - (* tuple *)
    destruct t as [| | | | | | |ts| |]; try done. destruct v as [| | | | | |l| |]; try done. cbn [migrate] in HM.
    cbn [rust_ty] in HR. cbn [told_apart] in HT. apply tuple_parts in HR. apply tuple_parts in HT.
    change (has_tys ts l) in HV. cbn [to_json of_json]. change (fix go ts l := match ts, l with t :: ts', x :: l' => to_json t x :: go ts' l' | _, _ => [] end) with tuple_json.
    match goal with H : XList <$> ?m = Some _ |- _ => destruct m as [r|] eqn:E; [|done] end. injection HM as <-.
    cut (tuple_of ts' (tuple_json ts l) = Some r); [intros H; unfold tuple_of in H; by rewrite H|].
    revert ts l r HR HT HV E. induction IH as [|t' ts' Ht' _ IHts]; intros [|t ts] [|x l] r HR HT HV E; try done.
    inversion HR as [|? ? HRt HRs]; subst. inversion HT as [|? ? HTt HTs]; subst. destruct HV as [HVx HVl].
    destruct (migrate t' t x) as [y|] eqn:Ex; [|done].
    match goal with H : match ?m with _ => _ end = Some _ |- _ => destruct m as [r0|] eqn:Er; [|done] end. injection E as <-.
    change (tuple_of (t' :: ts') (tuple_json (t :: ts) (x :: l))) with
      (match of_json t' (to_json t x), tuple_of ts' (tuple_json ts l) with Some v, Some r => Some (v :: r) | _, _ => None end).
    rewrite (Ht' t x y HRt HTt HVx Ex). rewrite (IHts ts l r0 HRs HTs HVl Er). done.
  - (* struct *)
    destruct t as [| | | | | | | |fs|]; try done. destruct v as [| | | | | |l| |]; try done. cbn [migrate] in HM.
    destruct HR as (HN & _ & HR). apply struct_parts in HR. cbn [told_apart] in HT. apply struct_parts in HT.
    change (has_fields fs l) in HV. cbn [to_json of_json]. change (fix go fs l := match fs, l with (n, t) :: fs', x :: l' => (n, to_json t x) :: go fs' l' | _, _ => [] end) with struct_json.
    match goal with H : XList <$> ?m = Some _ |- _ => destruct m as [r|] eqn:E; [|done] end. injection HM as <-.
    cut (struct_of (struct_json fs l) fs' = Some r); [intros H; unfold struct_of in H; by rewrite H|].
    revert r E. induction IH as [|[n u'] fs' Hu' _ IHfs]; intros r E; [exact E|].
    match goal with H : match ?a with _ => _ end = Some _ |- _ => destruct a as [y|] eqn:Ey; [|done] end.
    match goal with H : match ?m with _ => _ end = Some _ |- _ => destruct m as [r0|] eqn:Er; [|done] end. injection E as <-.
    change (struct_of (struct_json fs l) ((n, u') :: fs')) with
      (match (match List.filter (fun e => same e.1 n) (struct_json fs l) with
              | [] => if is_opt u' then Some XNone else None
              | [(_, x)] => of_json u' x
              | _ => None
              end), struct_of (struct_json fs l) fs' with
       | Some v, Some r => Some (v :: r)
       | _, _ => None
       end).
    rewrite (IHfs r0 eq_refl). rewrite (filter_field n fs l HN).
    destruct (field_of n fs l) as [[u x]|] eqn:Ef; [|by rewrite Ey].
    destruct (field_has n fs l u x rust_ty HV HR Ef) as [Hx HRu]. destruct (field_has n fs l u x told_apart HV HT Ef) as [_ HTu].
    cbn [snd] in Hu'. by rewrite (Hu' u x y HRu HTu Hx Ey).
  - (* enum *)
    destruct t as [| | | | | | | | |vs]; try done. destruct v as [| | | | | | | |i o]; try done. cbn [migrate] in HM.
    destruct HR as (_ & _ & HR). apply enum_parts in HR. cbn [told_apart] in HT. apply enum_parts in HT.
    apply enum_has in HV as (n & p & Hi & Ho). rewrite Hi in HM. rewrite (enum_json vs i o n p Hi).
    pose proof (proj1 (Forall_lookup _ _) HR i _ Hi) as HRi. pose proof (proj1 (Forall_lookup _ _) HT i _ Hi) as HTi. cbn [snd] in HRi, HTi.
    assert (Hgo : forall k w,
      (fix go (vs' : list (bytes * option ty)) (k : nat) : option xval :=
         match vs' with
         | [] => None
         | (m, p') :: vs'' =>
             if bool_decide (m = n) then
               match p', p, o with
               | None, None, None => Some (XVar k None)
               | Some u', Some u, Some x => (fun y => XVar k (Some y)) <$> migrate u' u x
               | _, _, _ => None
               end
             else go vs'' (S k)
         end) vs' k = Some w ->
      (fix go (vs : list (bytes * option ty)) (i : nat) : option xval :=
         match vs with
         | [] => None
         | (m, p0) :: vs' =>
             if same m n then
               match p0, match p, o with Some t, Some x => Some (to_json t x) | _, _ => None end with
               | None, None | None, Some JNull => Some (XVar i None)
               | Some t, Some x => match of_json t x with Some v => Some (XVar i (Some v)) | None => None end
               | _, _ => None
               end
             else go vs' (S i)
         end) vs' k = Some w).
    { clear HM v'. induction IH as [|[m p'] vs' Hp' _ IHvs]; intros k w H; [done|]. unfold same. destruct (bool_decide (m = n)).
      - cbn [snd] in Hp'. destruct p' as [u'|], p as [u|], o as [x|]; try done.
        + destruct (migrate u' u x) as [y|] eqn:Ey; [|done]. injection H as <-. by rewrite (Hp' u x y HRi HTi Ho Ey).
      - exact (IHvs (S k) w H). }
    apply Hgo in HM. destruct p as [u|], o as [x|]; try done.
Qed.

(** ** The type itself *)
Lemma migrate_self t : forall v, rust_ty t -> has_ty t v -> migrate t t v = Some v.
Proof.
  induction t as [|lo hi| | |u IH|u IH|u IH|ts IH|fs IH|vs IH] using ty_rec'; intros v HR HV.
  - destruct v; done.
  - destruct v as [|z| | | | | | |]; try done. cbn [migrate]. destruct HV as [H1 H2].
    rewrite (proj2 (Z.leb_le lo z)), (proj2 (Z.leb_le z hi)) by done. done.
  - destruct v; done.
  - destruct v; done.
  - destruct v as [| | | | |x| | |]; try done. cbn [migrate]. by rewrite (IH x HR HV).
  - destruct v as [| | | | | |l| |]; try done. cbn [migrate]. replace (all_of (migrate u u) l) with (Some l); [done|]. symmetry.
    change (Forall (has_ty u) l) in HV. induction HV as [|x l Hx _ IHl]; [done|].
    change (match migrate u u x, all_of (migrate u u) l with Some y, Some r => Some (y :: r) | _, _ => None end = Some (x :: l)).
    by rewrite (IH x HR Hx), IHl.
  - destruct v as [| | | | | | |l|]; try done. cbn [migrate]. destruct HV as [_ HV]. replace (all_of _ l) with (Some l); [done|]. symmetry.
    induction HV as [|[k x] l [_ Hx] _ IHl]; [done|]. cbn [snd] in Hx.
    change (match (k,.) <$> migrate u u x, all_of (fun '(k, x) => (k,.) <$> migrate u u x) l with Some y, Some r => Some (y :: r) | _, _ => None end = Some ((k, x) :: l)).
    by rewrite (IH x HR Hx), IHl.
  - destruct v as [| | | | | |l| |]; try done. cbn [migrate]. cbn [rust_ty] in HR. apply tuple_parts in HR. change (has_tys ts l) in HV.
    match goal with |- XList <$> ?m = _ => cut (m = Some l); [intros ->; done|] end.
    revert l HR HV. induction IH as [|t ts Ht _ IHts]; intros [|x l] HR HV; try done.
    inversion HR as [|? ? HRt HRs]; subst. destruct HV as [Hx Hl]. rewrite (Ht x HRt Hx). by rewrite (IHts l HRs Hl).
  - destruct v as [| | | | | |l| |]; try done. cbn [migrate]. destruct HR as (HN & _ & HR). apply struct_parts in HR. change (has_fields fs l) in HV.
    match goal with |- XList <$> ?m = _ => cut (m = Some l); [intros ->; done|] end.
    (* the fields before those still to be read *)
    assert (Hgen : forall pre prel, length pre = length prel -> forall fs1 l1, fs = pre ++ fs1 -> l = prel ++ l1 -> has_fields fs1 l1 -> Forall (fun f => rust_ty f.2) fs1 ->
      Forall (fun f => forall v, rust_ty f.2 -> has_ty f.2 v -> migrate f.2 f.2 v = Some v) fs1 ->
      (fix go (fs' : list (bytes * ty)) : option (list xval) :=
             match fs' with
             | [] => Some []
             | (n, u') :: fs'' =>
                 match (match field_of n fs l with
                        | Some (u, x) => migrate u' u x
                        | None => if is_opt u' then Some XNone else None
                        end), go fs'' with
                 | Some y, Some r => Some (y :: r)
                 | _, _ => None
                 end
             end) fs1 = Some l1).
    { intros pre prel Hlen fs1. revert pre prel Hlen. induction fs1 as [|[n u] fs1 IHf]; intros pre prel Hlen [|x l1] Hfs Hl Hh HRs HIs; try done.
      destruct Hh as [Hx Hh]. apply Forall_cons in HRs as [HRu HRs']. apply Forall_cons in HIs as [HIu HIs'].
      assert (Hfo : field_of n fs l = Some (u, x)).
      { rewrite Hl. rewrite Hfs in HN |- *. clear - HN Hlen. revert prel Hlen. induction pre as [|[m t] pre IHp]; intros [|y prel] Hlen; try done.
        - cbn [app field_of]. by rewrite bool_decide_eq_true_2.
        - cbn [app field_of]. cbn [app fmap list_fmap fst] in HN. apply NoDup_cons in HN as [Hm HN].
          rewrite bool_decide_eq_false_2.
          + apply IHp; [exact HN|by injection Hlen].
          + intros ->. apply Hm. rewrite fmap_app. apply elem_of_app. right. left. }
      rewrite Hfo. cbn [snd] in HIu, HRu. rewrite (HIu x HRu Hx).
      rewrite (IHf (pre ++ [(n, u)]) (prel ++ [x])) with (l1 := l1); [done| | | |done|done|done].
      - rewrite !app_length. cbn. lia.
      - by rewrite <- app_assoc.
      - by rewrite <- app_assoc. }
    exact (Hgen [] [] eq_refl fs l eq_refl eq_refl HV HR IH).
  - destruct v as [| | | | | | | |i o]; try done. cbn [migrate]. destruct HR as (HN & _ & HR). apply enum_parts in HR.
    apply enum_has in HV as (n & p & Hi & Ho). rewrite Hi.
    pose proof (proj1 (Forall_lookup _ _) HR i _ Hi) as HRi. pose proof (proj1 (Forall_lookup _ _) IH i _ Hi) as HIi. cbn [snd] in HRi, HIi.
    assert (Hgo : forall k j, vs !! j = Some (n, p) -> 
      (fix go (vs' : list (bytes * option ty)) (k : nat) : option xval :=
         match vs' with
         | [] => None
         | (m, p') :: vs'' =>
             if bool_decide (m = n) then
               match p', p, o with
               | None, None, None => Some (XVar k None)
               | Some u', Some u, Some x => (fun y => XVar k (Some y)) <$> migrate u' u x
               | _, _, _ => None
               end
             else go vs'' (S k)
         end) vs k = Some (XVar (k + j) o)).
    { clear Hi IH HR. induction vs as [|[m q] vs IHvs]; intros k j Hj; [done|].
      cbn [fmap list_fmap fst] in HN. apply NoDup_cons in HN as [Hm HN]. destruct j as [|j].
      - injection Hj as -> ->. rewrite bool_decide_eq_true_2 by done. rewrite Nat.add_0_r.
        destruct p as [u|], o as [x|]; try done. by rewrite (HIi x HRi Ho).
      - rewrite bool_decide_eq_false_2.
        + rewrite (IHvs HN (S k) j Hj). do 2 f_equal. lia.
        + intros ->. apply Hm. apply elem_of_list_fmap. exists (n, p). split; [done|]. exact (elem_of_list_lookup_2 vs j _ Hj). }
    rewrite (Hgo 0%nat i Hi). done.
Qed.

(** ** The tree of a value *)
Lemma clean_json t : forall v, rust_ty t -> has_ty t v -> clean (to_json t v).
Proof.
  induction t as [|lo hi| | |u IH|u IH|u IH|ts IH|fs IH|vs IH] using ty_rec'; intros v HR HV.
  - destruct v; done.
  - destruct v as [|z| | | | | | |]; try done. destruct HR, HV. split; lia.
  - destruct v; done.
  - destruct v; done.
  - destruct v as [| | | | |x| | |]; try done. exact (IH x HR HV).
  - destruct v as [| | | | | |l| |]; try done. cbn [to_json]. apply clean_arr. change (Forall (has_ty u) l) in HV.
    apply Forall_map. eapply Forall_impl; [exact HV|]. intros x Hx. exact (IH x HR Hx).
  - destruct v as [| | | | | | |l|]; try done. cbn [to_json]. apply clean_obj. destruct HV as [_ HV].
    apply Forall_map. eapply Forall_impl; [exact HV|]. intros [k x] [Hk Hx]. split; [exact Hk|exact (IH x HR Hx)].
  - destruct v as [| | | | | |l| |]; try done. cbn [rust_ty] in HR. apply tuple_parts in HR. change (has_tys ts l) in HV.
    apply (clean_arr (tuple_json ts l)). revert l HR HV. induction IH as [|t ts Ht _ IHts]; intros [|x l] HR HV; try (constructor; done).
    inversion HR as [|? ? HRt HRs]; subst. destruct HV as [Hx Hl]. constructor; [exact (Ht x HRt Hx)|exact (IHts l HRs Hl)].
  - destruct v as [| | | | | |l| |]; try done. destruct HR as (_ & HU & HR). apply struct_parts in HR. change (has_fields fs l) in HV.
    apply (clean_obj (struct_json fs l)). revert l HU HR HV. induction IH as [|[n t] fs Ht _ IHfs]; intros [|x l] HU HR HV; try (constructor; done).
    inversion HR as [|? ? HRt HRs]; subst. cbn [fmap list_fmap fst] in HU. inversion HU as [|? ? HUn HUs]; subst. destruct HV as [Hx Hl].
    constructor; [split; [exact HUn|exact (Ht x HRt Hx)]|exact (IHfs l HUs HRs Hl)].
  - destruct v as [| | | | | | | |i o]; try done. destruct HR as (_ & HU & HR). apply enum_parts in HR.
    apply enum_has in HV as (n & p & Hi & Ho). rewrite (enum_json vs i o n p Hi).
    pose proof (proj1 (Forall_lookup _ _) HR i _ Hi) as HRi. pose proof (proj1 (Forall_lookup _ _) IH i _ Hi) as HIi. cbn [snd] in HRi, HIi.
    assert (Hn : unicode n). { apply (proj1 (Forall_forall _ _) HU). apply elem_of_list_fmap. exists (n, p). split; [done|]. exact (elem_of_list_lookup_2 _ _ _ Hi). }
    destruct p as [u|], o as [x|]; try done. apply clean_obj. constructor; [|constructor]. split; [done|exact (HIi x HRi Ho)].
Qed.

Lemma max_mono {A B} (f : A -> nat) (g : B -> nat) (h : A -> B) l :
  Forall (fun x => (g (h x) <= f x)%nat) l ->
  (fold_right (fun x m => Nat.max (g x) m) 0 (map h l) <= fold_right (fun x m => Nat.max (f x) m) 0 l)%nat.
Proof. induction 1 as [|x l Hx _ IH]; [done|]. cbn [map fold_right]. lia. Qed.

Lemma depth_levels t : forall v, has_ty t v -> (depth (to_json t v) <= levels v t)%nat.
Proof.
  induction t as [|lo hi| | |u IH|u IH|u IH|ts IH|fs IH|vs IH] using ty_rec'; intros v HV.
  - destruct v; done.
  - destruct v; done.
  - destruct v; done.
  - destruct v; done.
  - destruct v as [| | | | |x| | |]; try done. exact (IH x HV).
  - destruct v as [| | | | | |l| |]; try done. cbn [to_json depth levels]. apply le_n_S.
    apply (max_mono (fun x => levels x u) depth (to_json u)). eapply Forall_impl; [exact HV|]. intros x Hx. exact (IH x Hx).
  - destruct v as [| | | | | | |l|]; try done. cbn [to_json depth levels]. apply le_n_S. destruct HV as [_ HV].
    apply (max_mono (fun e => levels e.2 u) (fun e => depth e.2) (fun '(k, x) => (k, to_json u x))). eapply Forall_impl; [exact HV|].
    intros [k x] [_ Hx]. exact (IH x Hx).
  - destruct v as [| | | | | |l| |]; try done. change (has_tys ts l) in HV. cbn [to_json depth levels]. apply le_n_S.
    revert l HV. induction IH as [|t ts Ht _ IHts]; intros [|x l] HV; try done.
    destruct HV as [Hx Hl]. cbn [fold_right]. specialize (Ht x Hx). specialize (IHts l Hl). lia.
  - destruct v as [| | | | | |l| |]; try done. change (has_fields fs l) in HV. cbn [to_json depth levels]. apply le_n_S.
    revert l HV. induction IH as [|[n t] fs Ht _ IHfs]; intros [|x l] HV; try done.
    destruct HV as [Hx Hl]. cbn [fold_right snd]. specialize (Ht x Hx). specialize (IHfs l Hl). cbn [snd] in Ht. lia.
  - destruct v as [| | | | | | | |i o]; try done. apply enum_has in HV as (n & p & Hi & Ho). rewrite (enum_json vs i o n p Hi).
    pose proof (proj1 (Forall_lookup _ _) IH i _ Hi) as HIi. cbn [snd] in HIi.
    destruct p as [u|], o as [x|]; try done. cbn [levels]. rewrite Hi. cbn [depth fold_right snd]. specialize (HIi x Ho). lia.
Qed.

Lemma levels_bound t : forall v, has_ty t v -> (levels v t <= ty_levels t)%nat.
Proof.
  induction t as [|lo hi| | |u IH|u IH|u IH|ts IH|fs IH|vs IH] using ty_rec'; intros v HV.
  - destruct v; done.
  - destruct v; done.
  - destruct v; done.
  - destruct v; done.
  - destruct v as [| | | | |x| | |]; try done; [cbn [levels]; lia|]. exact (IH x HV).
  - destruct v as [| | | | | |l| |]; try done. cbn [levels ty_levels]. apply le_n_S. change (Forall (has_ty u) l) in HV.
    induction HV as [|x l Hx _ IHl]; [cbn; lia|]. cbn [fold_right]. specialize (IH x Hx). lia.
  - destruct v as [| | | | | | |l|]; try done. cbn [levels ty_levels]. apply le_n_S. destruct HV as [_ HV].
    induction HV as [|[k x] l [_ Hx] _ IHl]; [cbn; lia|]. cbn [fold_right snd] in *. specialize (IH x Hx). lia.
  - destruct v as [| | | | | |l| |]; try done. change (has_tys ts l) in HV. cbn [levels ty_levels]. apply le_n_S.
    revert l HV. induction IH as [|t ts Ht _ IHts]; intros [|x l] HV; try done.
    destruct HV as [Hx Hl]. cbn [fold_right]. specialize (Ht x Hx). specialize (IHts l Hl). lia.
  - destruct v as [| | | | | |l| |]; try done. change (has_fields fs l) in HV. cbn [levels ty_levels]. apply le_n_S.
    revert l HV. induction IH as [|[n t] fs Ht _ IHfs]; intros [|x l] HV; try done.
    destruct HV as [Hx Hl]. cbn [fold_right snd] in *. specialize (Ht x Hx). specialize (IHfs l Hl). lia.
  - destruct v as [| | | | | | | |i o]; try done. apply enum_has in HV as (n & p & Hi & Ho).
    destruct o as [x|]; [|cbn [levels]; lia]. destruct p as [u|]; [|done]. cbn [levels]. rewrite Hi. cbn [ty_levels].
    revert i Hi. induction IH as [|[m q] vs Hm _ IHvs]; intros [|i] Hi; try done.
    + injection Hi as -> ->. cbn [fold_right snd] in *. specialize (Hm x Ho). lia.
    + cbn [fold_right]. specialize (IHvs i Hi). lia.
Qed.

(** ** Through text *)
Theorem json_reads t' t v v' :
  rust_ty t -> told_apart t -> has_ty t v -> (levels v t < 128)%nat -> migrate t' t v = Some v' ->
  from_slice t' (to_vec t v) = Some v'.
Proof.
  intros HR HT HV HL HM. unfold from_slice, to_vec.
  rewrite (text_roundtrip (to_json t v) (clean_json t v HR HV)).
  - exact (migrate_reads t' t v v' HR HT HV HM).
  - pose proof (depth_levels t v HV). lia.
Qed.
Theorem json_roundtrip t v :
  rust_ty t -> told_apart t -> has_ty t v -> (levels v t < 128)%nat -> from_slice t (to_vec t v) = Some v.
Proof. intros HR HT HV HL. exact (json_reads t t v v HR HT HV HL (migrate_self t v HR HV)). Qed.

(** ** Every value of an older type is read *)
Lemma all_of_total {A B} (g : A -> option B) l : Forall (fun a => exists b, g a = Some b) l -> exists r, all_of g l = Some r.
Proof.
  induction 1 as [|a l [b Hb] _ [r Hr]]; [by exists []|]. exists (b :: r).
  change (match g a, all_of g l with Some y, Some r => Some (y :: r) | _, _ => None end = Some (b :: r)). by rewrite Hb, Hr.
Qed.

Lemma find_field n fs l :
  has_fields fs l ->
  match find (fun f => bool_decide (f.1 = n)) fs with
  | Some (_, u) => exists x, field_of n fs l = Some (u, x) /\ has_ty u x
  | None => field_of n fs l = None
  end.
Proof.
  revert l. induction fs as [|[m u] fs IH]; intros [|x l] H; try done. destruct H as [Hx H]. cbn [find field_of fst].
  destruct (bool_decide (m = n)); [by exists x|]. exact (IH l H).
Qed.

Lemma newer_total t' : forall t v, newer t' t = true -> has_ty t v -> exists v', migrate t' t v = Some v'.
Proof.
  induction t' as [|lo hi| | |u' IH|u' IH|u' IH|ts' IH|fs' IH|vs' IH] using ty_rec'; intros t v HN HV.
  - destruct t; try done. by eexists.
  - destruct t as [|lo2 hi2| | | | | | | |]; try done. destruct v as [|z| | | | | | |]; try done. cbn [newer] in HN. cbn [migrate].
    apply andb_true_iff in HN as [H1 H2]. apply Z.leb_le in H1, H2. destruct HV.
    rewrite (proj2 (Z.leb_le lo z)), (proj2 (Z.leb_le z hi)) by lia. by eexists.
  - destruct t; try done. by eexists.
  - destruct t; try done. by eexists.
  - assert (Hplain : newer u' t = true -> exists v', XSome <$> migrate u' t v = Some v').
    { intros H. destruct (IH t v H HV) as [y Hy]. exists (XSome y). by rewrite Hy. }
    destruct t as [| | | |u| | | | |]; try (destruct v; exact (Hplain HN)); [done|].
    destruct v as [| | | | |x| | |]; try done; [by eexists|]. destruct (IH u x HN HV) as [y Hy]. exists (XSome y). cbn [migrate]. by rewrite Hy.
  - destruct t as [| | | | |u| | | |]; try done. destruct v as [| | | | | |l| |]; try done. cbn [migrate].
    destruct (all_of_total (migrate u' u) l) as [r Hr]; [|exists (XList r); by rewrite Hr].
    eapply Forall_impl; [exact HV|]. intros x Hx. exact (IH u x HN Hx).
  - destruct t as [| | | | | |u| | |]; try done. destruct v as [| | | | | | |l|]; try done. cbn [migrate]. destruct HV as [_ HV].
    destruct (all_of_total (fun '(k, x) => (k,.) <$> migrate u' u x) l) as [r Hr]; [|exists (XMap r); by rewrite Hr].
    eapply Forall_impl; [exact HV|]. intros [k x] [_ Hx]. destruct (IH u x HN Hx) as [y Hy]. exists (k, y). by rewrite Hy.
  - destruct t as [| | | | | | |ts| |]; try done. destruct v as [| | | | | |l| |]; try done. change (has_tys ts l) in HV. cbn [newer] in HN. cbn [migrate].
    match goal with |- exists v', XList <$> ?m = Some v' => cut (exists r, m = Some r); [intros [r ->]; by eexists|] end.
    revert ts l HN HV. induction IH as [|t' ts' Ht' _ IHts]; intros [|t ts] [|x l] HN HV; try done; [by eexists|].
    apply andb_true_iff in HN as [H1 H2]. destruct HV as [Hx Hl]. destruct (Ht' t x H1 Hx) as [y ->]. destruct (IHts ts l H2 Hl) as [r ->]. by eexists.
  - destruct t as [| | | | | | | |fs|]; try done. destruct v as [| | | | | |l| |]; try done. change (has_fields fs l) in HV. cbn [newer] in HN. cbn [migrate].
    match goal with |- exists v', XList <$> ?m = Some v' => cut (exists r, m = Some r); [intros [r ->]; by eexists|] end.
    revert HN. induction IH as [|[n u'] fs' Hu' _ IHfs]; intros HN; [by eexists|].
    apply andb_true_iff in HN as [H1 H2]. destruct (IHfs H2) as [r ->]. pose proof (find_field n fs l HV) as Hf.
    destruct (find _ fs) as [[m u]|].
    + destruct Hf as (x & -> & Hx). cbn [snd] in Hu'. destruct (Hu' u x H1 Hx) as [y ->]. by eexists.
    + rewrite Hf, H1. by eexists.
  - destruct t as [| | | | | | | | |vs]; try done. destruct v as [| | | | | | | |i o]; try done. cbn [newer] in HN. cbn [migrate].
    apply enum_has in HV as (n & p & Hi & Ho). rewrite Hi.
    pose proof (proj1 (forallb_forall _ _) HN (n, p)) as Hnp. specialize (Hnp (proj1 (elem_of_list_In _ _) (elem_of_list_lookup_2 _ _ _ Hi))).
    cbv beta iota in Hnp. clear HN Hi. generalize 0%nat as k.
    induction IH as [|[m p'] vs' Hp' _ IHvs]; intros k; [done|]. destruct (bool_decide (m = n)).
    + cbn [snd] in Hp'. destruct p' as [u'|], p as [u|], o as [x|]; try done; [|by eexists].
      destruct (Hp' u x Hnp Ho) as [y ->]. by eexists.
    + exact (IHvs Hnp (S k)).
Qed.
