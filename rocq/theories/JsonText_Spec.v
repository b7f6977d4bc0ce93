(** JSON text as RFC 8259 describes it, apart from how this code writes it: any space between
    tokens, any way to escape a character; and what a text says about a value of a type, with the
    members of a struct in any order. *)
From Verif Require Import Base.
From Verif Require Export Json_Spec.
Local Open Scope N_scope.

(** RFC 8259, section 2: space, tab, line feed, carriage return. *)
Definition blank (u : bytes) : Prop := Forall (fun c => c ∈ [32; 9; 10; 13]) u.

(** Section 7, and RFC 3629 for the bytes of a character *)
Inductive hex_digit : N -> N -> Prop :=
| HexNumber n : n < 10 -> hex_digit (48 + n) n
| HexLower n : 10 <= n < 16 -> hex_digit (87 + n) n
| HexUpper n : 10 <= n < 16 -> hex_digit (55 + n) n.
Inductive hex4 : bytes -> N -> Prop :=
| Hex4 a b c d x y z t : hex_digit a x -> hex_digit b y -> hex_digit c z -> hex_digit d t ->
    hex4 [a; b; c; d] (4096 * x + 256 * y + 16 * z + t).
Inductive encoded : N -> bytes -> Prop :=
| Enc1 n : n < 128 -> encoded n [n]
| Enc2 x y : 2 <= x < 32 -> y < 64 -> encoded (64 * x + y) [192 + x; 128 + y]
| Enc3 x y z : 2048 <= 4096 * x + 64 * y + z < 65536 -> y < 64 -> z < 64 ->
    encoded (4096 * x + 64 * y + z) [224 + x; 128 + y; 128 + z]
| Enc4 x y z t : 65536 <= 262144 * x + 4096 * y + 64 * z + t -> y < 64 -> z < 64 -> t < 64 ->
    encoded (262144 * x + 4096 * y + 64 * z + t) [240 + x; 128 + y; 128 + z; 128 + t].

(** [spelled s t]: the characters [s] are written [t] between quotes. *)
Inductive spelled : bytes -> bytes -> Prop :=
| SpEnd : spelled [] []
| SpPlain c s t : 32 <= c -> c <> 34 -> c <> 92 -> spelled s t -> spelled (c :: s) (c :: t)
| SpShort e c s t : (e, c) ∈ [(34, 34); (92, 92); (47, 47); (98, 8); (102, 12); (110, 10); (114, 13); (116, 9)] ->
    spelled s t -> spelled (c :: s) (92 :: e :: t)
| SpCode h n x s t : hex4 h n -> ~ 55296 <= n < 57344 -> encoded n x -> spelled s t ->
    spelled (x ++ s) (92 :: 117 :: h ++ t)
| SpPair h k hi lo x s t : hi < 1024 -> lo < 1024 -> hex4 h (55296 + hi) -> hex4 k (56320 + lo) ->
    encoded (65536 + 1024 * hi + lo) x -> spelled s t -> spelled (x ++ s) (92 :: 117 :: h ++ 92 :: 117 :: k ++ t).

(** Section 6, without fractions and exponents: no zeros before the first digit. *)
Inductive numeral : N -> bytes -> Prop :=
| NumOne n : n < 10 -> numeral n [48 + n]
| NumMore n b d : n <> 0 -> d < 10 -> numeral n b -> numeral (10 * n + d) (b ++ [48 + d]).

(** Sections 3 to 5 *)
Inductive written : json -> bytes -> Prop :=
| WrNull : written JNull [110; 117; 108; 108]
| WrTrue : written (JBool true) [116; 114; 117; 101]
| WrFalse : written (JBool false) [102; 97; 108; 115; 101]
| WrInt n b : n < 2 ^ 64 -> numeral n b -> written (JInt (Z.of_N n)) b
| WrNegative n b : 0 < n <= 2 ^ 63 -> numeral n b -> written (JInt (- Z.of_N n)) (45 :: b)
| WrStr s t : unicode s -> spelled s t -> written (JStr s) (34 :: t ++ [34])
| WrEmptyArr u : blank u -> written (JArr []) (91 :: u ++ [93])
| WrArr l b : items l b -> written (JArr l) (91 :: b ++ [93])
| WrEmptyObj u : blank u -> written (JObj []) (123 :: u ++ [125])
| WrObj l b : named l b -> written (JObj l) (123 :: b ++ [125])
with items : list json -> bytes -> Prop :=
| ItLast u j b v : blank u -> written j b -> blank v -> items [j] (u ++ b ++ v)
| ItMore u j b v l r : blank u -> written j b -> blank v -> items l r -> items (j :: l) (u ++ b ++ v ++ 44 :: r)
with named : list (bytes * json) -> bytes -> Prop :=
| NaLast u k t v w j b x : blank u -> unicode k -> spelled k t -> blank v -> blank w -> written j b -> blank x ->
    named [(k, j)] (u ++ 34 :: t ++ 34 :: v ++ 58 :: w ++ b ++ x)
| NaMore u k t v w j b x l r : blank u -> unicode k -> spelled k t -> blank v -> blank w -> written j b -> blank x ->
    named l r -> named ((k, j) :: l) (u ++ 34 :: t ++ 34 :: v ++ 58 :: w ++ b ++ x ++ 44 :: r).

Definition document (j : json) (b : bytes) : Prop :=
  exists u t v, b = u ++ t ++ v /\ blank u /\ written j t /\ blank v.

Scheme written_mut := Induction for written Sort Prop
with items_mut := Induction for items Sort Prop
with named_mut := Induction for named Sort Prop.
Combined Scheme written_items_named from written_mut, items_mut, named_mut.

(** How deep arrays and objects are nested. *)
Fixpoint nesting (j : json) : nat :=
  match j with
  | JArr l => S (fold_right (fun x m => Nat.max (nesting x) m) 0%nat l)
  | JObj l => S (fold_right (fun e m => Nat.max (nesting e.2) m) 0%nat l)
  | _ => 0%nat
  end.

(** [shows t v j]: the tree describes the value. Fields may be in any order, among members of
    other names; an option may be left out if it is empty. A variant without content is its name
    or an object with nothing under this name. *)
Inductive shows : ty -> xval -> json -> Prop :=
| ShBool b : shows TyBool (XBool b) (JBool b)
| ShInt lo hi z : (lo <= z <= hi)%Z -> shows (TyInt lo hi) (XInt z) (JInt z)
| ShStr s : shows TyStr (XStr s) (JStr s)
| ShUnit : shows TyUnit XUnit JNull
| ShNone t : shows (TyOpt t) XNone JNull
| ShSome t v j : j <> JNull -> shows t v j -> shows (TyOpt t) (XSome v) j
| ShVec t xs js : shows_all t xs js -> shows (TyVec t) (XList xs) (JArr js)
| ShMap t xs ms : NoDup xs.*1 -> shows_map t xs ms -> shows (TyMap t) (XMap xs) (JObj ms)
| ShTuple ts xs js : shows_each ts xs js -> shows (TyTuple ts) (XList xs) (JArr js)
| ShStruct fs xs ms : shows_fields ms fs xs -> shows (TyStruct fs) (XList xs) (JObj ms)
| ShName vs i n : vs !! i = Some (n, None) -> shows (TyEnum vs) (XVar i None) (JStr n)
| ShEmpty vs i n : vs !! i = Some (n, None) -> shows (TyEnum vs) (XVar i None) (JObj [(n, JNull)])
| ShVariant vs i n t v j : vs !! i = Some (n, Some t) -> shows t v j -> shows (TyEnum vs) (XVar i (Some v)) (JObj [(n, j)])
with shows_all : ty -> list xval -> list json -> Prop :=
| ShaNil t : shows_all t [] []
| ShaCons t x xs j js : shows t x j -> shows_all t xs js -> shows_all t (x :: xs) (j :: js)
with shows_map : ty -> list (bytes * xval) -> list (bytes * json) -> Prop :=
| ShmNil t : shows_map t [] []
| ShmCons t k x xs j ms : shows t x j -> shows_map t xs ms -> shows_map t ((k, x) :: xs) ((k, j) :: ms)
with shows_each : list ty -> list xval -> list json -> Prop :=
| SheNil : shows_each [] [] []
| SheCons t ts x xs j js : shows t x j -> shows_each ts xs js -> shows_each (t :: ts) (x :: xs) (j :: js)
with shows_fields : list (bytes * json) -> list (bytes * ty) -> list xval -> Prop :=
| ShfNil ms : shows_fields ms [] []
| ShfGiven p n j q t fs x xs : n ∉ p.*1 -> n ∉ q.*1 -> shows t x j -> shows_fields (p ++ (n, j) :: q) fs xs ->
    shows_fields (p ++ (n, j) :: q) ((n, t) :: fs) (x :: xs)
| ShfLeftOut ms n t fs xs : n ∉ ms.*1 -> shows_fields ms fs xs -> shows_fields ms ((n, TyOpt t) :: fs) (XNone :: xs).

Scheme shows_mut := Induction for shows Sort Prop
with shows_all_mut := Induction for shows_all Sort Prop
with shows_map_mut := Induction for shows_map Sort Prop
with shows_each_mut := Induction for shows_each Sort Prop
with shows_fields_mut := Induction for shows_fields Sort Prop.
Combined Scheme shows_ind5 from shows_mut, shows_all_mut, shows_map_mut, shows_each_mut, shows_fields_mut.
