(** The redis journal: providers/persistence/coerce-redis/src/journal/{actor,mod}.rs.

    Redis itself is external: a sorted set is the list of its (score, member) pairs ordered by
    score and, for equal scores, by the bytes of the member; members are unique. Scores are
    IEEE doubles in redis and integers here (equal up to 2^53). Each command is atomic.
    Failing commands are injected by the caller, as for the other storages. *)
From Verif Require Export ShardWire_Model.
Local Open Scope Z_scope.

Notation zset := (list (Z * bytes)).
Notation redis_store := (gmap string zset).

Definition zle (a b : Z * bytes) : bool :=
  if a.1 <? b.1 then true else if b.1 <? a.1 then false else bytes_leb a.2 b.2.

Fixpoint zinsert (x : Z * bytes) (z : zset) : zset :=
  match z with
  | [] => [x]
  | y :: z' => if zle x y then x :: z else y :: zinsert x z'
  end.

(** ZADD key score member *)
Definition zadd (score : Z) (member : bytes) (z : zset) : zset :=
  zinsert (score, member) (List.filter (fun y => negb (bool_decide (y.2 = member))) z).

(** ZRANGE key from to BYSCORE; [None] as [to] is +inf *)
Definition zrange (from : Z) (to : option Z) (z : zset) : list bytes :=
  map snd (List.filter (fun y => (from <=? y.1) && match to with Some t => y.1 <=? t | None => true end) z).

(** ZREMRANGEBYSCORE key from to *)
Definition zremrange (from to : Z) (z : zset) : zset :=
  List.filter (fun y => negb ((from <=? y.1) && (y.1 <=? to))) z.

(** The sorted set at a key; a missing key is an empty set. *)
Definition zget (k : string) (st : redis_store) : zset := default [] (st !! k).

(** ** Keys (mod.rs:271-291) *)
Open Scope string_scope.
Definition clustered_key (prefix pid ty : string) : string :=
  "{__" +:+ pid +:+ "}:" +:+ prefix +:+ pid +:+ ":" +:+ ty.
Definition plain_key (prefix pid ty : string) : string := prefix +:+ pid +:+ ":" +:+ ty.

(** mod.rs:111-115 *)
Definition redis_key (use_key_hashtags : bool) (prefix : string) : string -> string -> string :=
  if use_key_hashtags then clustered_key prefix else plain_key prefix.
Close Scope string_scope.

(** ** Commands *)

Section redis.
  Context (key : string -> string -> string).

  Definition jkey (pid : string) : string := key pid "journal"%string.
  Definition skey (pid : string) : string := key pid "snapshot"%string.

  (** The member written for an entry (actor.rs:89, :118). *)
  Definition member (e : entry) : bytes := write_msg journal_entry_codec e.

  (** actor.rs:82-99 *)
  Definition redis_write (k : string) (e : entry) (st : redis_store) : redis_store :=
    <[k := zadd (e_seq e) (member e) (zget k st)]> st.

  (** mod.rs:132-147, :149-160 *)
  Definition redis_write_snapshot (pid : string) := redis_write (skey pid).
  Definition redis_write_message (pid : string) := redis_write (jkey pid).

  (** mod.rs:162-177, actor.rs:107-127: one ZADD with all pairs *)
  Definition redis_write_batch (pid : string) (es : list entry) (st : redis_store) : redis_store :=
    <[jkey pid := fold_left (fun z e => zadd (e_seq e) (member e) z) es (zget (jkey pid) st)]> st.

  (** actor.rs:276-278. [read_from_bytes(..).unwrap()] panics in the spawned task on bytes that
      are not an entry, which fails the call; here such a call gives [None]. *)
  Definition read_entries (l : list bytes) : option (list entry) := all_some read_entry l.

  (** mod.rs:179-190, actor.rs:160-187: highest score first, one element *)
  Definition redis_read_latest_snapshot (pid : string) (st : redis_store) : option entry :=
    match last (zget (skey pid) st) with Some (_, b) => read_entry b | None => None end.

  (** mod.rs:192-207, actor.rs:228-258 *)
  Definition redis_read_latest_messages (pid : string) (from : Z) (st : redis_store) : option (list entry) :=
    read_entries (zrange from None (zget (jkey pid) st)).

  (** mod.rs:209-224, actor.rs:195-220 *)
  Definition redis_read_message (pid : string) (seq : Z) (st : redis_store) : option entry :=
    match zrange seq (Some seq) (zget (jkey pid) st) with b :: _ => read_entry b | [] => None end.

  (** mod.rs:226-242 *)
  Definition redis_read_messages (pid : string) (from to : Z) (st : redis_store) : option (list entry) :=
    read_entries (zrange from (Some to) (zget (jkey pid) st)).

  (** mod.rs:244-259, actor.rs:135-152 *)
  Definition redis_delete_to (pid : string) (to : Z) (st : redis_store) : redis_store :=
    <[jkey pid := zremrange 0 to (zget (jkey pid) st)]> st.

  (** mod.rs:261-268, actor.rs:266-273 *)
  Definition redis_delete_all (pid : string) (st : redis_store) : redis_store :=
    delete (skey pid) (delete (jkey pid) st).

  Definition redis_storage : storage redis_store :=
    Storage redis_write_snapshot redis_write_message redis_write_batch redis_read_latest_snapshot
            redis_read_latest_messages redis_delete_to redis_delete_all.
End redis.

(** A system with an empty redis and no running actor. *)
Definition redis_init : jsys (St := redis_store) := JSys ∅ ∅.
