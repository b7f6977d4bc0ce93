(** Protocol buffers (proto3) as used by the generated code in
    coerce/src/remote/net/proto/network.rs, coerce/src/sharding/proto/sharding.rs,
    coerce/src/singleton/proto/singleton.rs and
    coerce/src/persistent/journal/proto/journal.rs.

    The generated [merge_from] / [write_to_with_cached_sizes] of every message have the
    same shape (e.g. network.rs:101-131 and :167-194), so they are modelled once, driven
    by a descriptor of the message. The primitives ([read_raw_varint64], [read_string],
    [write_uint64], ...) belong to the crate protobuf 3.2.0, which is not part of the
    repository: the wire format below is the one of the protobuf encoding specification. *)
From Verif Require Export Base.
Local Open Scope N_scope.

(** ** Wire level *)

Definition two32 : N := 4294967296.
Definition two64 : N := 18446744073709551616.

(** Base 128 varint, least significant group first; 10 groups hold 64 bits. *)
Fixpoint varint_aux (fuel : nat) (n : N) : bytes :=
  match fuel with
  | O => []
  | S f => if n <? 128 then [n] else (n mod 128 + 128) :: varint_aux f (n / 128)
  end.
Definition varint (n : N) : bytes := varint_aux 10 n.

Fixpoint unvarint_aux (fuel : nat) (b : bytes) : option (N * bytes) :=
  match fuel, b with
  | S f, x :: r =>
      if x <? 128 then Some (x, r)
      else match unvarint_aux f r with
           | Some (n, r') => Some (x - 128 + 128 * n, r')
           | None => None
           end
  | _, _ => None
  end.
Definition unvarint (b : bytes) : option (N * bytes) :=
  match unvarint_aux 10 b with
  | Some (n, r) => Some (n mod two64, r)
  | None => None
  end.

(** The payload of a field. Groups (wire types 3 and 4) are treated as errors; the
    generated code never writes them. *)
Inductive wire := WVarint (n : N) | WFixed64 (b : bytes) | WLen (b : bytes) | WFixed32 (b : bytes).

Definition wire_type (w : wire) : N :=
  match w with WVarint _ => 0 | WFixed64 _ => 1 | WLen _ => 2 | WFixed32 _ => 5 end.

Definition ser_wire (w : wire) : bytes :=
  match w with
  | WVarint n => varint n
  | WLen b => varint (N.of_nat (length b)) ++ b
  | WFixed64 b | WFixed32 b => b
  end.

Definition ser_field (f : N * wire) : bytes := varint (8 * f.1 + wire_type f.2) ++ ser_wire f.2.

Definition ser (fs : list (N * wire)) : bytes := concat (map ser_field fs).

Definition take_exact (n : N) (b : bytes) : option (bytes * bytes) :=
  if n <=? N.of_nat (length b) then Some (take (N.to_nat n) b, drop (N.to_nat n) b) else None.

Definition read_wire (wt : N) (b : bytes) : option (wire * bytes) :=
  if wt =? 0 then match unvarint b with Some (n, r) => Some (WVarint n, r) | None => None end
  else if wt =? 1 then match take_exact 8 b with Some (x, r) => Some (WFixed64 x, r) | None => None end
  else if wt =? 2 then
    match unvarint b with
    | Some (n, r) => match take_exact n r with Some (x, r') => Some (WLen x, r') | None => None end
    | None => None
    end
  else if wt =? 5 then match take_exact 4 b with Some (x, r) => Some (WFixed32 x, r) | None => None end
  else None.

(** [while let Some(tag) = is.read_raw_tag_or_eof()? { ... }]; every field consumes at
    least one byte, so the length of the input bounds the number of rounds. *)
Fixpoint parse_aux (fuel : nat) (b : bytes) : option (list (N * wire)) :=
  match b with
  | [] => Some []
  | _ =>
      match fuel with
      | O => None
      | S f =>
          match unvarint b with
          | None => None
          | Some (tag, r) =>
              if (two32 <=? tag) || (tag / 8 =? 0) then None
              else match read_wire (tag mod 8) r with
                   | None => None
                   | Some (w, r') =>
                       match parse_aux f r' with
                       | Some fs => Some ((tag / 8, w) :: fs)
                       | None => None
                       end
                   end
          end
      end
  end.
Definition parse (b : bytes) : option (list (N * wire)) := parse_aux (length b) b.

(** ** UTF-8 *)

Definition cont (x : N) : bool := (128 <=? x) && (x <=? 191).

(** [String::from_utf8] (well-formed byte sequences of the Unicode standard, table 3-7). *)
Fixpoint utf8 (b : bytes) : bool :=
  match b with
  | [] => true
  | a :: r =>
      if a <? 128 then utf8 r
      else match r with
      | [] => false
      | x1 :: r1 =>
          if (194 <=? a) && (a <=? 223) then cont x1 && utf8 r1
          else match r1 with
          | [] => false
          | x2 :: r2 =>
              if (224 <=? a) && (a <=? 239) then
                (if a =? 224 then (160 <=? x1) && (x1 <=? 191)
                 else if a =? 237 then (128 <=? x1) && (x1 <=? 159) else cont x1)
                && cont x2 && utf8 r2
              else match r2 with
              | [] => false
              | x3 :: r3 =>
                  if (240 <=? a) && (a <=? 244) then
                    (if a =? 240 then (144 <=? x1) && (x1 <=? 191)
                     else if a =? 244 then (128 <=? x1) && (x1 <=? 143) else cont x1)
                    && cont x2 && cont x3 && utf8 r3
                  else false
              end
          end
      end
  end.

(** ** Messages *)

(** How a field is written. *)
Inductive label :=
| Implicit   (* proto3 singular scalar: the default value is not written;
                singular message: written when present *)
| Always     (* key and value of a map entry: always written (network.rs:183-184) *)
| Repeated.

(** Field types; a message type is the list of its fields in writing order. Signed
    64 bit integers are their two's complement ([FU64]); enums and [int32] are [FI32],
    restricted to non-negative values. *)
Inductive ftype :=
| FU32 | FU64 | FI32 | FBool | FBytes | FString
| FMsg (fields : list (N * label * ftype)).
Notation field := (N * label * ftype)%type.
Notation desc := (list field).

(** Values. The content of a message is, for each field, the list of its values: any
    number for a repeated field, none or one for a singular field (none when it has its
    default value), exactly one for a map key or value. *)
Inductive val :=
| VNum (n : N)
| VBytes (b : bytes)
| VMsg (fields : list (list val)).

Definition is_default (v : val) : bool :=
  match v with VNum 0 => true | VBytes [] => true | _ => false end.

Definition default_val (t : ftype) : val :=
  match t with
  | FU32 | FU64 | FI32 | FBool => VNum 0
  | FBytes | FString => VBytes []
  | FMsg fs => VMsg (map (fun _ => []) fs)
  end.

Definition type_wire (t : ftype) : N :=
  match t with FU32 | FU64 | FI32 | FBool => 0 | _ => 2 end.

(** [write_to_with_cached_sizes] *)
Fixpoint enc (t : ftype) (v : val) : wire :=
  match t with
  | FMsg fs =>
      WLen (ser (match v with
                 | VMsg ms =>
                     (fix go (fs : desc) (ms : list (list val)) : list (N * wire) :=
                        match fs, ms with
                        | (no, _, ty) :: fs', l :: ms' => map (fun v => (no, enc ty v)) l ++ go fs' ms'
                        | _, _ => []
                        end) fs ms
                 | _ => []
                 end))
  | FBytes | FString => WLen (match v with VBytes b => b | _ => [] end)
  | _ => WVarint (match v with VNum n => n | _ => 0 end)
  end.

Definition enc_fields : desc -> list (list val) -> list (N * wire) :=
  fix go fs ms :=
    match fs, ms with
    | (no, _, ty) :: fs', l :: ms' => map (fun v => (no, enc ty v)) l ++ go fs' ms'
    | _, _ => []
    end.

(** The occurrences of a field: those with its number and wire type. Others are unknown
    fields, which are skipped (kept aside by the crate and not read by the code). *)
Definition occurrences (no : N) (t : ftype) (ws : list (N * wire)) : list wire :=
  map snd (List.filter (fun x => (x.1 =? no) && (wire_type x.2 =? type_wire t)) ws).

Definition all_some {A B} (f : A -> option B) : list A -> option (list B) :=
  fix go l := match l with
              | [] => Some []
              | x :: l' => match f x, go l' with Some y, Some r => Some (y :: r) | _, _ => None end
              end.

(** A singular field keeps the last occurrence. *)
Definition settle (lb : label) (t : ftype) (vs : list val) : list val :=
  match lb with
  | Repeated => vs
  | Always => match last vs with Some v => [v] | None => [default_val t] end
  | Implicit => match last vs with Some v => if is_default v then [] else [v] | None => [] end
  end.

(** [merge_from] on a fresh message, [None] = [Err]. *)
Fixpoint dec (t : ftype) (w : wire) : option val :=
  match t with
  | FU64 => match w with WVarint n => Some (VNum n) | _ => None end
  | FU32 | FI32 => match w with WVarint n => Some (VNum (n mod two32)) | _ => None end
  | FBool => match w with WVarint n => Some (VNum (if n =? 0 then 0 else 1)) | _ => None end
  | FBytes => match w with WLen b => Some (VBytes b) | _ => None end
  | FString => match w with WLen b => if utf8 b then Some (VBytes b) else None | _ => None end
  | FMsg fs =>
      match w with
      | WLen b =>
          match parse b with
          | None => None
          | Some ws =>
              match (fix go (fs : desc) : option (list (list val)) :=
                       match fs with
                       | [] => Some []
                       | (no, lb, ty) :: fs' =>
                           match all_some (dec ty) (occurrences no ty ws), go fs' with
                           | Some vs, Some r => Some (settle lb ty vs :: r)
                           | _, _ => None
                           end
                       end) fs with
              | Some ms => Some (VMsg ms)
              | None => None
              end
          end
      | _ => None
      end
  end.

(** [Message::write_to_bytes] and [Message::parse_from_bytes]. *)
Definition encode (d : desc) (m : list (list val)) : bytes := ser (enc_fields d m).

Definition decode (d : desc) (b : bytes) : option (list (list val)) :=
  match dec (FMsg d) (WLen b) with Some (VMsg ms) => Some ms | _ => None end.

(** ** Well-formed values of a type *)
Fixpoint wf (t : ftype) (v : val) : bool :=
  match t with
  | FU32 => match v with VNum n => n <? two32 | _ => false end
  | FU64 => match v with VNum n => n <? two64 | _ => false end
  | FI32 => match v with VNum n => n <? 2147483648 | _ => false end
  | FBool => match v with VNum n => n <? 2 | _ => false end
  | FBytes => match v with VBytes _ => true | _ => false end
  | FString => match v with VBytes b => utf8 b | _ => false end
  | FMsg fs =>
      match v with
      | VMsg ms =>
          (fix go (fs : desc) (ms : list (list val)) : bool :=
             match fs, ms with
             | [], [] => true
             | (_, lb, ty) :: fs', l :: ms' =>
                 match lb, l with
                 | Repeated, _ => forallb (wf ty) l
                 | Implicit, [] => true
                 | Implicit, [v] => negb (is_default v) && wf ty v
                 | Always, [v] => wf ty v
                 | _, _ => false
                 end && go fs' ms'
             | _, _ => false
             end) fs ms
      | _ => false
      end
  end.

(** Field numbers are distinct and in range, in the whole descriptor. *)
Fixpoint wf_desc (t : ftype) : bool :=
  match t with
  | FMsg fs =>
      forallb (fun f : field => (1 <=? f.1.1) && (f.1.1 <? 536870912) && wf_desc f.2) fs
      && (fix distinct (l : list N) : bool :=
            match l with [] => true | x :: l' => negb (existsb (N.eqb x) l') && distinct l' end)
           (map (fun f : field => f.1.1) fs)
  | _ => true
  end.

(** ** Conversions between Rust values and field contents *)

Definition num (n : N) : list val := if n =? 0 then [] else [VNum n].
Definition str (b : bytes) : list val := match b with [] => [] | _ => [VBytes b] end.
Definition boolv (b : bool) : list val := if b then [VNum 1] else [].
Definition msg (m : list (list val)) : list val := [VMsg m].

Definition get_num (l : list val) : N := match l with [VNum n] => n | _ => 0 end.
Definition get_str (l : list val) : bytes := match l with [VBytes b] => b | _ => [] end.
Definition get_bool (l : list val) : bool := match l with [VNum n] => negb (n =? 0) | _ => false end.

(** [i64 as u64] and back. *)
Definition u64_of_i64 (z : Z) : N := Z.to_N (z mod 18446744073709551616)%Z.
Definition i64_of_u64 (n : N) : Z :=
  if n <? 9223372036854775808 then Z.of_N n else (Z.of_N n - 18446744073709551616)%Z.
Definition is_i64 (z : Z) : Prop := (-9223372036854775808 <= z < 9223372036854775808)%Z.
