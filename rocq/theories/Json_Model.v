(** JSON messages and snapshots: what the derives [JsonMessage] and [JsonSnapshot]
    (coerce/macros/src/message/json.rs, snapshot/json.rs) generate, on values of types with
    derived [Serialize] and [Deserialize].

    The crates serde and serde_json are not part of the repository: text is written and read
    here as serde_json 1.0 documents it ([to_vec]: compact; [from_slice]: RFC 8259, at most 127
    levels of arrays and objects). Reading into a type is split in two, text to tree and tree
    to value; serde_json does both at once. Numbers with a fraction or an exponent are left out:
    text with such a number is rejected here. *)
From Verif Require Import Base.
From Verif Require Proto_Model.
Local Open Scope N_scope.

(** ** Text *)

Inductive json :=
| JNull | JBool (b : bool) | JInt (z : Z) | JStr (s : bytes)
| JArr (l : list json) | JObj (l : list (bytes * json)).

Definition hex_low (n : N) : N := if n <? 10 then 48 + n else 87 + n.

(** serde_json, [format_escaped_str]: the quote, the backslash and control characters. *)
Definition escape (c : N) : bytes :=
  if c =? 34 then [92; 34] else if c =? 92 then [92; 92]
  else if c =? 8 then [92; 98] else if c =? 9 then [92; 116] else if c =? 10 then [92; 110]
  else if c =? 12 then [92; 102] else if c =? 13 then [92; 114]
  else if c <? 32 then [92; 117; 48; 48; hex_low (c / 16); hex_low (c mod 16)]
  else [c].
Definition quoted (s : bytes) : bytes := 34 :: concat (map escape s) ++ [34].

(** Decimal digits; 20 hold 64 bits. *)
Fixpoint digits_aux (fuel : nat) (n : N) (acc : bytes) : bytes :=
  match fuel with
  | O => acc
  | S f => if n <? 10 then 48 + n :: acc else digits_aux f (n / 10) (48 + n mod 10 :: acc)
  end.
Definition digits (n : N) : bytes := digits_aux 20 n [].
Definition number_text (z : Z) : bytes :=
  if (z <? 0)%Z then 45 :: digits (Z.to_N (- z)) else digits (Z.to_N z).

Fixpoint sep (l : list bytes) : bytes :=
  match l with [] => [] | [x] => x | x :: l' => x ++ 44 :: sep l' end.

(** serde_json, [CompactFormatter] *)
Fixpoint text (j : json) : bytes :=
  match j with
  | JNull => [110; 117; 108; 108]
  | JBool true => [116; 114; 117; 101]
  | JBool false => [102; 97; 108; 115; 101]
  | JInt z => number_text z
  | JStr s => quoted s
  | JArr l => 91 :: sep (map text l) ++ [93]
  | JObj l => 123 :: sep (map (fun '(k, x) => quoted k ++ 58 :: text x) l) ++ [125]
  end.

(** ** Reading text *)

Definition white (c : N) : bool := (c =? 32) || (c =? 9) || (c =? 10) || (c =? 13).
Fixpoint skip_white (b : bytes) : bytes :=
  match b with c :: r => if white c then skip_white r else b | [] => [] end.
Fixpoint strip (p b : bytes) : option bytes :=
  match p, b with
  | [], _ => Some b
  | x :: p', y :: b' => if x =? y then strip p' b' else None
  | _, _ => None
  end.

Definition unhex (c : N) : option N :=
  if (48 <=? c) && (c <=? 57) then Some (c - 48)
  else if (97 <=? c) && (c <=? 102) then Some (c - 87)
  else if (65 <=? c) && (c <=? 70) then Some (c - 55)
  else None.
Definition unhex4 (a b c d : N) : option N :=
  match unhex a, unhex b, unhex c, unhex d with
  | Some x, Some y, Some z, Some t => Some (((x * 16 + y) * 16 + z) * 16 + t)
  | _, _, _, _ => None
  end.
(** [char::encode_utf8] *)
Definition utf8_of (n : N) : bytes :=
  if n <? 128 then [n]
  else if n <? 2048 then [192 + n / 64; 128 + n mod 64]
  else if n <? 65536 then [224 + n / 4096; 128 + n / 64 mod 64; 128 + n mod 64]
  else [240 + n / 262144; 128 + n / 4096 mod 64; 128 + n / 64 mod 64; 128 + n mod 64].

(** serde_json, [parse_str], [parse_escape]: up to the closing quote. A control character is an
    error, so is half of a surrogate pair. *)
Fixpoint read_chars (b : bytes) : option (bytes * bytes) :=
  match b with
  | [] => None
  | c :: r =>
      if c =? 34 then Some ([], r)
      else if c <? 32 then None
      else if negb (c =? 92) then
        match read_chars r with Some (s, r') => Some (c :: s, r') | None => None end
      else
        match r with
        | [] => None
        | e :: r1 =>
            let one x := match read_chars r1 with Some (s, r') => Some (x :: s, r') | None => None end in
            if (e =? 34) || (e =? 92) || (e =? 47) then one e
            else if e =? 98 then one 8 else if e =? 102 then one 12 else if e =? 110 then one 10
            else if e =? 114 then one 13 else if e =? 116 then one 9
            else if e =? 117 then
              match r1 with
              | h1 :: h2 :: h3 :: h4 :: r2 =>
                  match unhex4 h1 h2 h3 h4 with
                  | None => None
                  | Some n =>
                      if (55296 <=? n) && (n <=? 56319) then
                        match r2 with
                        | x :: y :: l1 :: l2 :: l3 :: l4 :: r3 =>
                            match unhex4 l1 l2 l3 l4 with
                            | None => None
                            | Some m =>
                                if (x =? 92) && (y =? 117) && (56320 <=? m) && (m <=? 57343) then
                                  match read_chars r3 with
                                  | Some (s, r') => Some (utf8_of (65536 + (n - 55296) * 1024 + (m - 56320)) ++ s, r')
                                  | None => None
                                  end
                                else None
                            end
                        | _ => None
                        end
                      else if (56320 <=? n) && (n <=? 57343) then None
                      else match read_chars r2 with Some (s, r') => Some (utf8_of n ++ s, r') | None => None end
                  end
              | _ => None
              end
            else None
        end
  end.
Definition read_string (b : bytes) : option (bytes * bytes) :=
  match read_chars b with
  | Some (s, r) => if Proto_Model.utf8 s then Some (s, r) else None
  | None => None
  end.

Definition is_digit (c : N) : bool := (48 <=? c) && (c <=? 57).
Fixpoint read_digits (acc : N) (b : bytes) : N * bytes :=
  match b with
  | c :: r => if is_digit c then read_digits (acc * 10 + (c - 48)) r else (acc, b)
  | [] => (acc, [])
  end.
(** serde_json, [parse_integer]: no leading zeros; what does not fit is a float. *)
Definition read_integer (b : bytes) : option (N * bytes) :=
  match b with
  | [] => None
  | c :: r =>
      if negb (is_digit c) then None
      else
        let '(n, r') := if c =? 48 then (0, r) else read_digits 0 b in
        match r' with
        | x :: _ => if is_digit x || (x =? 46) || (x =? 101) || (x =? 69) then None else Some (n, r')
        | [] => Some (n, r')
        end
  end.
Definition read_number (b : bytes) : option (json * bytes) :=
  match b with
  | [] => None
  | c :: r =>
      if c =? 45 then
        match read_integer r with
        | Some (n, r') => if (1 <=? n) && (n <=? 9223372036854775808) then Some (JInt (- Z.of_N n), r') else None
        | None => None
        end
      else
        match read_integer b with
        | Some (n, r') => if n <? 18446744073709551616 then Some (JInt (Z.of_N n), r') else None
        | None => None
        end
  end.

(** serde_json, [Deserializer]: a value, the elements of an array, the members of an object.
    [depth] is [remaining_depth]. The fuel is more than the calls a text of its length takes. *)
Fixpoint value (fuel depth : nat) (b : bytes) {struct fuel} : option (json * bytes) :=
  match fuel with
  | O => None
  | S f =>
      match skip_white b with
      | [] => None
      | c :: r =>
          if c =? 110 then match strip [117; 108; 108] r with Some r' => Some (JNull, r') | None => None end
          else if c =? 116 then match strip [114; 117; 101] r with Some r' => Some (JBool true, r') | None => None end
          else if c =? 102 then match strip [97; 108; 115; 101] r with Some r' => Some (JBool false, r') | None => None end
          else if c =? 34 then match read_string r with Some (s, r') => Some (JStr s, r') | None => None end
          else if c =? 91 then
            match depth with
            | S (S d) => match elements f (S d) true r with Some (l, r') => Some (JArr l, r') | None => None end
            | _ => None
            end
          else if c =? 123 then
            match depth with
            | S (S d) => match members f (S d) true r with Some (l, r') => Some (JObj l, r') | None => None end
            | _ => None
            end
          else read_number (c :: r)
      end
  end
with elements (fuel depth : nat) (first : bool) (b : bytes) {struct fuel} : option (list json * bytes) :=
  match fuel with
  | O => None
  | S f =>
      match skip_white b with
      | [] => None
      | c :: r =>
          if c =? 93 then Some ([], r)
          else
            match (if first then Some (c :: r) else if c =? 44 then Some r else None) with
            | None => None
            | Some b' =>
                match value f depth b' with
                | None => None
                | Some (j, b1) =>
                    match elements f depth false b1 with Some (l, b2) => Some (j :: l, b2) | None => None end
                end
            end
      end
  end
with members (fuel depth : nat) (first : bool) (b : bytes) {struct fuel} : option (list (bytes * json) * bytes) :=
  match fuel with
  | O => None
  | S f =>
      match skip_white b with
      | [] => None
      | c :: r =>
          if c =? 125 then Some ([], r)
          else
            match (if first then Some (c :: r) else if c =? 44 then Some r else None) with
            | None => None
            | Some b' =>
                match strip [34] (skip_white b') with
                | None => None
                | Some b1 =>
                    match read_string b1 with
                    | None => None
                    | Some (k, b2) =>
                        match strip [58] (skip_white b2) with
                        | None => None
                        | Some b3 =>
                            match value f depth b3 with
                            | None => None
                            | Some (j, b4) =>
                                match members f depth false b4 with Some (l, b5) => Some ((k, j) :: l, b5) | None => None end
                            end
                        end
                    end
                end
            end
      end
  end.
Definition read_text (b : bytes) : option json :=
  match value (2 * length b + 2) 128 b with
  | Some (j, r) => match skip_white r with [] => Some j | _ => None end
  | None => None
  end.

(** ** Types and values *)

(** Types with derived [Serialize] and [Deserialize], without attributes: integers of a range,
    strings, [()] and unit structs, options, vectors, maps with string keys, tuples and tuple
    structs, structs, enums. A newtype struct is its content. A variant has no content or one:
    a struct variant has a struct, a tuple variant a tuple. A recursive type is represented by
    as many of its unfoldings as a value takes. *)
Inductive ty :=
| TyBool | TyInt (lo hi : Z) | TyStr | TyUnit
| TyOpt (t : ty) | TyVec (t : ty) | TyMap (t : ty)
| TyTuple (l : list ty) | TyStruct (l : list (bytes * ty)) | TyEnum (l : list (bytes * option ty)).

(** A map is a list in the order of its iteration; a struct the values of its fields in order;
    a variant has its number. *)
Inductive xval :=
| XBool (b : bool) | XInt (z : Z) | XStr (s : bytes) | XUnit
| XNone | XSome (v : xval) | XList (l : list xval) | XMap (l : list (bytes * xval))
| XVar (i : nat) (o : option xval).

(** Derived [Serialize] *)
Fixpoint to_json (t : ty) (v : xval) : json :=
  match t, v with
  | TyBool, XBool b => JBool b
  | TyInt _ _, XInt z => JInt z
  | TyStr, XStr s => JStr s
  | TyOpt t', XSome v' => to_json t' v'
  | TyVec t', XList l => JArr (map (to_json t') l)
  | TyMap t', XMap l => JObj (map (fun '(k, x) => (k, to_json t' x)) l)
  | TyTuple ts, XList l =>
      JArr ((fix go (ts : list ty) (l : list xval) : list json :=
               match ts, l with t :: ts', x :: l' => to_json t x :: go ts' l' | _, _ => [] end) ts l)
  | TyStruct fs, XList l =>
      JObj ((fix go (fs : list (bytes * ty)) (l : list xval) : list (bytes * json) :=
               match fs, l with (n, t) :: fs', x :: l' => (n, to_json t x) :: go fs' l' | _, _ => [] end) fs l)
  | TyEnum vs, XVar i o =>
      (fix go (vs : list (bytes * option ty)) (i : nat) : json :=
         match vs, i with
         | (n, p) :: _, O =>
             match p, o with Some t, Some x => JObj [(n, to_json t x)] | _, _ => JStr n end
         | _ :: vs', S i' => go vs' i'
         | [], _ => JNull
         end) vs i
  | _, _ => JNull
  end.

Definition same (a b : bytes) : bool := bool_decide (a = b).
Definition all_of {A B} (f : A -> option B) : list A -> option (list B) :=
  fix go l := match l with
              | [] => Some []
              | x :: l' => match f x, go l' with Some y, Some r => Some (y :: r) | _, _ => None end
              end.
(** [HashMap::insert] *)
Definition put {A} (l : list (bytes * A)) (k : bytes) (x : A) : list (bytes * A) :=
  if existsb (fun e => same e.1 k) l then map (fun e => if same e.1 k then (k, x) else e) l else l ++ [(k, x)].
Definition is_opt (t : ty) : bool := match t with TyOpt _ => true | _ => false end.

(** Derived [Deserialize]. The members of an object that are no fields are passed over; a field
    that occurs twice is an error, one that is missing as well unless it is an option. A struct
    is read from an array, too. *)
Fixpoint of_json (t : ty) (j : json) : option xval :=
  match t with
  | TyBool => match j with JBool b => Some (XBool b) | _ => None end
  | TyInt lo hi => match j with JInt z => if (lo <=? z)%Z && (z <=? hi)%Z then Some (XInt z) else None | _ => None end
  | TyStr => match j with JStr s => Some (XStr s) | _ => None end
  | TyUnit => match j with JNull => Some XUnit | _ => None end
  | TyOpt t' => match j with JNull => Some XNone | _ => match of_json t' j with Some v => Some (XSome v) | None => None end end
  | TyVec t' => match j with JArr l => match all_of (of_json t') l with Some r => Some (XList r) | None => None end | _ => None end
  | TyMap t' =>
      match j with
      | JObj l =>
          match all_of (fun '(k, x) => match of_json t' x with Some v => Some (k, v) | None => None end) l with
          | Some r => Some (XMap (foldl (fun m e => put m e.1 e.2) [] r))
          | None => None
          end
      | _ => None
      end
  | TyTuple ts =>
      match j with
      | JArr l =>
          match (fix go (ts : list ty) (l : list json) : option (list xval) :=
                   match ts, l with
                   | [], [] => Some []
                   | t :: ts', x :: l' => match of_json t x, go ts' l' with Some v, Some r => Some (v :: r) | _, _ => None end
                   | _, _ => None
                   end) ts l with
          | Some r => Some (XList r)
          | None => None
          end
      | _ => None
      end
  | TyStruct fs =>
      match j with
      | JObj l =>
          match (fix go (fs : list (bytes * ty)) : option (list xval) :=
                   match fs with
                   | [] => Some []
                   | (n, t) :: fs' =>
                       match (match List.filter (fun e => same e.1 n) l with
                              | [] => if is_opt t then Some XNone else None
                              | [(_, x)] => of_json t x
                              | _ => None
                              end), go fs' with
                       | Some v, Some r => Some (v :: r)
                       | _, _ => None
                       end
                   end) fs with
          | Some r => Some (XList r)
          | None => None
          end
      | JArr l =>
          match (fix go (fs : list (bytes * ty)) (l : list json) : option (list xval) :=
                   match fs, l with
                   | [], [] => Some []
                   | (_, t) :: fs', x :: l' => match of_json t x, go fs' l' with Some v, Some r => Some (v :: r) | _, _ => None end
                   | _, _ => None
                   end) fs l with
          | Some r => Some (XList r)
          | None => None
          end
      | _ => None
      end
  | TyEnum vs =>
      match (match j with JStr n => Some (n, None) | JObj [(n, x)] => Some (n, Some x) | _ => None end) with
      | None => None
      | Some (n, o) =>
          (fix go (vs : list (bytes * option ty)) (i : nat) : option xval :=
             match vs with
             | [] => None
             | (m, p) :: vs' =>
                 if same m n then
                   match p, o with
                   | None, None | None, Some JNull => Some (XVar i None)
                   | Some t, Some x => match of_json t x with Some v => Some (XVar i (Some v)) | None => None end
                   | _, _ => None
                   end
                 else go vs' (S i)
             end) vs O
      end
  end.

(** ** What the derives generate *)

(** message/json.rs:40-43 [as_bytes], 53-55 [write_remote_result] and snapshot/json.rs:10-14
    [into_remote_envelope]. The types above are always serialised. *)
Definition to_vec (t : ty) (v : xval) : bytes := text (to_json t v).
(** message/json.rs:45-47 [from_bytes], 49-51 [read_remote_result] and snapshot/json.rs:16-18
    [from_remote_envelope]: [None] is [DeserializationErr]. *)
Definition from_slice (t : ty) (b : bytes) : option xval :=
  match read_text b with Some j => of_json t j | None => None end.
