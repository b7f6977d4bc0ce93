(** Specification vocabulary for JSON messages: values of a type, types whose values can be told
    apart in JSON, nesting, and what a reader with another version of a type makes of a value. *)
From Verif Require Import Base.
From Verif Require Proto_Model.
From Verif Require Export Json_Model.
Local Open Scope N_scope.

Definition unicode (s : bytes) : Prop := Proto_Model.utf8 s = true.

(** The Rust type of a value: integers in their range, strings of UTF-8, keys of a map once. *)
Fixpoint has_ty (t : ty) (v : xval) : Prop :=
  match t, v with
  | TyBool, XBool _ => True
  | TyInt lo hi, XInt z => (lo <= z <= hi)%Z
  | TyStr, XStr s => unicode s
  | TyUnit, XUnit => True
  | TyOpt _, XNone => True
  | TyOpt t', XSome v' => has_ty t' v'
  | TyVec t', XList l => Forall (has_ty t') l
  | TyMap t', XMap l => NoDup l.*1 /\ Forall (fun e => unicode e.1 /\ has_ty t' e.2) l
  | TyTuple ts, XList l =>
      (fix go (ts : list ty) (l : list xval) : Prop :=
         match ts, l with [], [] => True | t :: ts', x :: l' => has_ty t x /\ go ts' l' | _, _ => False end) ts l
  | TyStruct fs, XList l =>
      (fix go (fs : list (bytes * ty)) (l : list xval) : Prop :=
         match fs, l with [], [] => True | (_, t) :: fs', x :: l' => has_ty t x /\ go fs' l' | _, _ => False end) fs l
  | TyEnum vs, XVar i o =>
      (fix go (vs : list (bytes * option ty)) (i : nat) : Prop :=
         match vs, i with
         | (_, p) :: _, O => match p, o with None, None => True | Some t, Some x => has_ty t x | _, _ => False end
         | _ :: vs', S i' => go vs' i'
         | [], _ => False
         end) vs i
  | _, _ => False
  end.

(** Types of Rust: integers of at most 64 bits, distinct names. *)
Fixpoint rust_ty (t : ty) : Prop :=
  match t with
  | TyBool | TyStr | TyUnit => True
  | TyInt lo hi => (-9223372036854775808 <= lo)%Z /\ (hi < 18446744073709551616)%Z
  | TyOpt t' | TyVec t' | TyMap t' => rust_ty t'
  | TyTuple ts => (fix go (ts : list ty) : Prop := match ts with [] => True | t :: ts' => rust_ty t /\ go ts' end) ts
  | TyStruct fs =>
      NoDup fs.*1 /\ Forall unicode fs.*1 /\
      (fix go (fs : list (bytes * ty)) : Prop := match fs with [] => True | (_, t) :: fs' => rust_ty t /\ go fs' end) fs
  | TyEnum vs =>
      NoDup vs.*1 /\ Forall unicode vs.*1 /\
      (fix go (vs : list (bytes * option ty)) : Prop :=
         match vs with [] => True | (_, Some t) :: vs' => rust_ty t /\ go vs' | (_, None) :: vs' => go vs' end) vs
  end.

(** No option of [()] or of an option. *)
Definition nullable (t : ty) : bool := match t with TyUnit | TyOpt _ => true | _ => false end.
Fixpoint told_apart (t : ty) : Prop :=
  match t with
  | TyBool | TyStr | TyUnit | TyInt _ _ => True
  | TyOpt t' => nullable t' = false /\ told_apart t'
  | TyVec t' | TyMap t' => told_apart t'
  | TyTuple ts => (fix go (ts : list ty) : Prop := match ts with [] => True | t :: ts' => told_apart t /\ go ts' end) ts
  | TyStruct fs =>
      (fix go (fs : list (bytes * ty)) : Prop := match fs with [] => True | (_, t) :: fs' => told_apart t /\ go fs' end) fs
  | TyEnum vs =>
      (fix go (vs : list (bytes * option ty)) : Prop :=
         match vs with [] => True | (_, Some t) :: vs' => told_apart t /\ go vs' | (_, None) :: vs' => go vs' end) vs
  end.

(** How deep arrays and objects are nested in what is written for a value. *)
Fixpoint levels (v : xval) (t : ty) : nat :=
  match v, t with
  | XSome v', TyOpt t' => levels v' t'
  | XList l, TyVec t' => S (fold_right (fun x m => Nat.max (levels x t') m) 0%nat l)
  | XMap l, TyMap t' => S (fold_right (fun e m => Nat.max (levels e.2 t') m) 0%nat l)
  | XList l, TyTuple ts =>
      S ((fix go (l : list xval) (ts : list ty) : nat :=
            match l, ts with x :: l', t :: ts' => Nat.max (levels x t) (go l' ts') | _, _ => 0%nat end) l ts)
  | XList l, TyStruct fs =>
      S ((fix go (l : list xval) (fs : list (bytes * ty)) : nat :=
            match l, fs with x :: l', (_, t) :: fs' => Nat.max (levels x t) (go l' fs') | _, _ => 0%nat end) l fs)
  | XVar i (Some x), TyEnum vs => match vs !! i with Some (_, Some t) => S (levels x t) | _ => 0%nat end
  | _, _ => 0%nat
  end.

(** The nesting of a type: an upper bound. *)
Fixpoint ty_levels (t : ty) : nat :=
  match t with
  | TyBool | TyStr | TyUnit | TyInt _ _ => 0%nat
  | TyOpt t' => ty_levels t'
  | TyVec t' | TyMap t' => S (ty_levels t')
  | TyTuple ts => S (fold_right (fun t m => Nat.max (ty_levels t) m) 0%nat ts)
  | TyStruct fs => S (fold_right (fun f m => Nat.max (ty_levels f.2) m) 0%nat fs)
  | TyEnum vs => fold_right (fun f m => Nat.max (match f.2 with Some t => S (ty_levels t) | None => 0%nat end) m) 0%nat vs
  end.

(** ** Versions of a type *)

Fixpoint field_of (n : bytes) (fs : list (bytes * ty)) (l : list xval) : option (ty * xval) :=
  match fs, l with
  | (m, t) :: fs', x :: l' => if bool_decide (m = n) then Some (t, x) else field_of n fs' l'
  | _, _ => None
  end.

(** What a value [v] of type [t] is for a reader whose type is [t']: fields and variants are
    found by their names, fields the writer has not are options with no value, fields the reader
    has not are gone; a value is one of an option, too. *)
Fixpoint migrate (t' t : ty) (v : xval) : option xval :=
  match t' with
  | TyOpt u' =>
      match t, v with
      | TyOpt _, XNone => Some XNone
      | TyOpt u, XSome x => XSome <$> migrate u' u x
      | TyUnit, _ | TyOpt _, _ => None
      | _, _ => XSome <$> migrate u' t v
      end
  | TyVec u' => match t, v with TyVec u, XList l => XList <$> all_of (migrate u' u) l | _, _ => None end
  | TyMap u' =>
      match t, v with
      | TyMap u, XMap l => XMap <$> all_of (fun '(k, x) => (k,.) <$> migrate u' u x) l
      | _, _ => None
      end
  | TyTuple ts' =>
      match t, v with
      | TyTuple ts, XList l =>
          XList <$> (fix go (ts' ts : list ty) (l : list xval) : option (list xval) :=
             match ts', ts, l with
             | [], [], [] => Some []
             | t' :: ts', t :: ts, x :: l => match migrate t' t x, go ts' ts l with Some y, Some r => Some (y :: r) | _, _ => None end
             | _, _, _ => None
             end) ts' ts l
      | _, _ => None
      end
  | TyStruct fs' =>
      match t, v with
      | TyStruct fs, XList l =>
          XList <$> (fix go (fs' : list (bytes * ty)) : option (list xval) :=
             match fs' with
             | [] => Some []
             | (n, u') :: fs'' =>
                 match (match field_of n fs l with
                        | Some (u, x) => migrate u' u x
                        | None => if is_opt u' then Some XNone else None
                        end), go fs'' with
                 | Some y, Some r => Some (y :: r)
                 | _, _ => None
                 end
             end) fs'
      | _, _ => None
      end
  | TyEnum vs' =>
      match t, v with
      | TyEnum vs, XVar i o =>
          match vs !! i with
          | None => None
          | Some (n, p) =>
              (fix go (vs' : list (bytes * option ty)) (k : nat) : option xval :=
                 match vs' with
                 | [] => None
                 | (m, p') :: vs'' =>
                     if bool_decide (m = n) then
                       match p', p, o with
                       | None, None, None => Some (XVar k None)
                       | Some u', Some u, Some x => (fun y => XVar k (Some y)) <$> migrate u' u x
                       | _, _, _ => None
                       end
                     else go vs'' (S k)
                 end) vs' O
          end
      | _, _ => None
      end
  | TyInt lo hi => match t, v with TyInt _ _, XInt z => if (lo <=? z)%Z && (z <=? hi)%Z then Some v else None | _, _ => None end
  | TyBool => match t with TyBool => Some v | _ => None end
  | TyStr => match t with TyStr => Some v | _ => None end
  | TyUnit => match t with TyUnit => Some v | _ => None end
  end.

(** Changes a reader can make to a type: wider integers, new fields that are options, fields
    left out, in another order, new variants, a required value made optional. *)
Fixpoint newer (t' t : ty) : bool :=
  match t' with
  | TyOpt u' => match t with TyOpt u => newer u' u | TyUnit => false | _ => newer u' t end
  | TyVec u' => match t with TyVec u => newer u' u | _ => false end
  | TyMap u' => match t with TyMap u => newer u' u | _ => false end
  | TyTuple ts' =>
      match t with
      | TyTuple ts =>
          (fix go (ts' ts : list ty) : bool :=
             match ts', ts with [], [] => true | t' :: ts', t :: ts => newer t' t && go ts' ts | _, _ => false end) ts' ts
      | _ => false
      end
  | TyStruct fs' =>
      match t with
      | TyStruct fs =>
          (fix go (fs' : list (bytes * ty)) : bool :=
             match fs' with
             | [] => true
             | (n, u') :: fs'' =>
                 match find (fun f => bool_decide (f.1 = n)) fs with
                 | Some (_, u) => newer u' u
                 | None => is_opt u'
                 end && go fs''
             end) fs'
      | _ => false
      end
  | TyEnum vs' =>
      match t with
      | TyEnum vs =>
          forallb (fun '(n, p) =>
            (fix go (vs' : list (bytes * option ty)) : bool :=
               match vs' with
               | [] => false
               | (m, p') :: vs'' =>
                   if bool_decide (m = n) then
                     match p', p with None, None => true | Some u', Some u => newer u' u | _, _ => false end
                   else go vs''
               end) vs') vs
      | _ => false
      end
  | TyInt lo hi => match t with TyInt lo2 hi2 => (lo <=? lo2)%Z && (hi2 <=? hi)%Z | _ => false end
  | TyBool => match t with TyBool => true | _ => false end
  | TyStr => match t with TyStr => true | _ => false end
  | TyUnit => match t with TyUnit => true | _ => false end
  end.
