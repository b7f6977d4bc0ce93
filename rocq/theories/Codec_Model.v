(** Typed views of protobuf messages.

    The generated structs (e.g. [pub struct PingEvent], network.rs:1340-1352) have one Rust
    field per protobuf field. A message codec below pairs the descriptor of a message with
    the conversion between the Rust struct and the field contents of [Proto_Model]. *)
From Verif Require Export Proto_Model.
Local Open Scope N_scope.

(** One field: how it is labelled, its type, and its Rust value as field content. [f_ok] is
    the invariant of the Rust type (a [u64] is below 2^64, a [String] is UTF-8, ...). *)
Record fcodec (A : Type) := FC {
  f_label : label;
  f_type : ftype;
  f_to : A -> list val;
  f_from : list val -> A;
  f_ok : A -> Prop
}.
Arguments FC {A}.
Arguments f_label {A}. Arguments f_type {A}. Arguments f_to {A}. Arguments f_from {A}.
Arguments f_ok {A}.

(** A message: the same for all its fields. *)
Record mcodec (A : Type) := MC {
  m_desc : desc;
  m_to : A -> list (list val);
  m_from : list (list val) -> A;
  m_ok : A -> Prop
}.
Arguments MC {A}.
Arguments m_desc {A}. Arguments m_to {A}. Arguments m_from {A}. Arguments m_ok {A}.

(** ** Fields *)

Definition u64f : fcodec N := FC Implicit FU64 num get_num (fun n => n < two64).
Definition u32f : fcodec N := FC Implicit FU32 num get_num (fun n => n < two32).
(** [EnumOrUnknown<E>]: any [i32]; negative numbers are left out *)
Definition enumf : fcodec N := FC Implicit FI32 num get_num (fun n => n < 2147483648).
Definition i64f : fcodec Z :=
  FC Implicit FU64 (fun z => num (u64_of_i64 z)) (fun l => i64_of_u64 (get_num l)) is_i64.
Definition boolf : fcodec bool := FC Implicit FBool boolv get_bool (fun _ => True).
Definition stringf : fcodec bytes := FC Implicit FString str get_str (fun b => utf8 b = true).
Definition bytesf : fcodec bytes := FC Implicit FBytes str get_str (fun _ => True).

(** [MessageField<M>] *)
Definition subf {A} (m : mcodec A) : fcodec (option A) :=
  FC Implicit (FMsg (m_desc m))
    (fun o => match o with Some a => [VMsg (m_to m a)] | None => [] end)
    (fun l => match l with [VMsg c] => Some (m_from m c) | _ => None end)
    (fun o => match o with Some a => m_ok m a | None => True end).

Definition msg_of {A} (m : mcodec A) (v : val) : A :=
  m_from m (match v with VMsg c => c | _ => [] end).

(** [Vec<M>] *)
Definition subsf {A} (m : mcodec A) : fcodec (list A) :=
  FC Repeated (FMsg (m_desc m)) (map (fun a => VMsg (m_to m a))) (map (msg_of m)) (Forall (m_ok m)).

(** [Vec<String>] *)
Definition stringsf : fcodec (list bytes) :=
  FC Repeated FString (map VBytes) (map (fun v => match v with VBytes b => b | _ => [] end))
     (Forall (fun b => utf8 b = true)).

(** The key and the value of a map entry, always written (network.rs:182-185). *)
Definition keyf : fcodec bytes :=
  FC Always FString (fun b => [VBytes b]) get_str (fun b => utf8 b = true).

(** ** Messages *)

Definition no_fields : mcodec unit :=
  MC [] (fun _ => []) (fun _ => tt) (fun _ => True).

Definition with_field {A B} (no : N) (f : fcodec A) (m : mcodec B) : mcodec (A * B) :=
  MC ((no, f_label f, f_type f) :: m_desc m)
     (fun x => f_to f x.1 :: m_to m x.2)
     (fun l => (f_from f (hd [] l), m_from m (tl l)))
     (fun x => f_ok f x.1 /\ m_ok m x.2).

(** A struct given by its fields. *)
Definition as_struct {A B} (to : B -> A) (from : A -> B) (m : mcodec A) : mcodec B :=
  MC (m_desc m) (fun b => m_to m (to b)) (fun l => from (m_from m l)) (fun b => m_ok m (to b)).

Notation "no '@:' f '+:' m" := (with_field no f m) (at level 60, f at level 50, right associativity).

(** ** Maps

    [HashMap<String, String>] is the list of its entries in iteration order; reading inserts
    the entries one by one (network.rs:116-127), so the last one with a key wins. *)
Definition entry_codec : mcodec (bytes * bytes) :=
  as_struct (fun e => (e.1, (e.2, tt))) (fun '(k, (v, _)) => (k, v))
    (1 @: keyf +: 2 @: keyf +: no_fields).
Definition mapf : fcodec (list (bytes * bytes)) := subsf entry_codec.

Definition map_of_entries (l : list (bytes * bytes)) : gmap bytes bytes :=
  foldl (fun m e => <[e.1 := e.2]> m) ∅ l.

(** ** [write_to_bytes] and [parse_from_bytes] *)
Definition write_msg {A} (m : mcodec A) (a : A) : bytes := encode (m_desc m) (m_to m a).
Definition parse_msg {A} (m : mcodec A) (b : bytes) : option A :=
  match decode (m_desc m) b with Some c => Some (m_from m c) | None => None end.

(** The crate refuses messages whose size does not fit in 32 bits. *)
Definition fits (b : bytes) : Prop := N.of_nat (length b) < 4294967296.
