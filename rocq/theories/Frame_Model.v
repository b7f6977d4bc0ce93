(** The bytes of a connection: [LengthDelimitedCodec] of tokio-util (external, used by
    coerce/src/remote/net/mod.rs, net/client/send.rs and net/server/session/mod.rs) with its
    default settings, and the writing and reading of events through it. *)
From Verif Require Export Wire_Model.
Local Open Scope N_scope.

(** Default settings of the codec: four bytes of length, most significant first, counting the
    payload only; at most 8 MiB. *)
Definition max_frame : N := 8388608.
Definition be32 (n : N) : bytes :=
  [n / 16777216 mod 256; n / 65536 mod 256; n / 256 mod 256; n mod 256].
Definition of_be32 (b : bytes) : N := fold_left (fun n x => n * 256 + x) b 0.

(** [Encoder::encode]. [None]: refused, nothing is written. *)
Definition frame (b : bytes) : option bytes :=
  if max_frame <? N.of_nat (length b) then None else Some (be32 (N.of_nat (length b)) ++ b).

(** [DecodeState] and [Decoder::decode]. *)
Inductive dstate := Head | Data (n : N).
Inductive decoded :=
| Need (st : dstate) (buf : bytes)   (* wait for more bytes *)
| Frame (f : bytes) (buf : bytes)    (* a frame, then [Head] again *)
| TooLong.                           (* an error, the stream ends *)

Definition decode_data (n : N) (buf : bytes) : decoded :=
  if N.of_nat (length buf) <? n then Need (Data n) buf
  else Frame (take (N.to_nat n) buf) (drop (N.to_nat n) buf).
Definition decode (st : dstate) (buf : bytes) : decoded :=
  match st with
  | Head =>
      if (length buf <? 4)%nat then Need Head buf
      else let n := of_be32 (take 4 buf) in
           if max_frame <? n then TooLong else decode_data n (drop 4 buf)
  | Data n => decode_data n buf
  end.

(** [FramedRead::poll_next]: decodes until more bytes are needed. [None]: an error. *)
Fixpoint decode_all (fuel : nat) (st : dstate) (buf : bytes) : list bytes * option (dstate * bytes) :=
  match fuel with
  | O => ([], Some (st, buf))
  | S fuel' =>
      match decode st buf with
      | Need st' buf' => ([], Some (st', buf'))
      | TooLong => ([], None)
      | Frame f buf' => let '(fs, r) := decode_all fuel' Head buf' in (f :: fs, r)
      end
  end.
Definition decode_buffer (st : dstate) (buf : bytes) : list bytes * option (dstate * bytes) :=
  decode_all (S (S (length buf))) st buf.

(** How the bytes end: the other side closed, or reading failed. *)
Inductive bytes_end := Eof | IoError.

(** [FramedRead]: the frames found in the pieces that [read] returns, and whether the stream
    ends with an error. At the end of the input, bytes that are not a frame are an error
    ([Decoder::decode_eof]). *)
Fixpoint read_frames (st : dstate) (buf : bytes) (pieces : list bytes) (e : bytes_end) : list bytes * bool :=
  match pieces with
  | [] => ([], match e with Eof => negb (length buf =? 0)%nat | IoError => true end)
  | p :: pieces' =>
      let '(fs, r) := decode_buffer st (buf ++ p) in
      match r with
      | None => (fs, true)
      | Some (st', buf') => let '(fs', io) := read_frames st' buf' pieces' e in (fs ++ fs', io)
      end
  end.

(** net/server/session/mod.rs:205-222 ([RemoteSession::write]) and net/client/send.rs:135-143
    ([write_bytes]): the bytes a written event adds to the connection. What cannot be encoded
    or is too long adds nothing. *)
Definition wire_bytes {E} (write : E -> option bytes) (e : E) : option bytes :=
  match write e with Some b => frame b | None => None end.
Definition wire {E} (write : E -> option bytes) (es : list E) : bytes :=
  concat (omap (wire_bytes write) es).

(** net/mod.rs:82-112 over the frames of the connection; the receiver notes what it gets. *)
Definition received {E} (read : bytes -> outcome E) (pieces : list bytes) (e : bytes_end) : list E * loop_end :=
  let '(fs, io) := read_frames Head [] pieces e in
  receive_loop read (fun s x => s ++ [x]) (fun s => s) (fun _ => false) fs io [].
