(** The bytes of the sharded chat (examples/coerce-sharded-chat-example): what clients write and
    read (src/websocket/client/mod.rs, bin/client.rs), what the server makes of it
    (src/actor/peer/message.rs, peer/mod.rs), and what goes to rooms, the journal and other nodes
    (src/actor/stream/mod.rs, pubsub.rs). *)
From Coq Require Import Ascii.
From Verif Require Export Json_Model.
From Verif Require Export Wire_Model Chat_Model Chat_Spec.
Local Open Scope N_scope.

(** A Rust string is its bytes. *)
Definition sb (s : string) : bytes := map N_of_ascii (list_ascii_of_string s).
Definition bs (b : bytes) : string := string_of_list_ascii (map ascii_of_N b).

(** ** Protobuf, from the client (src/protocol/chat.proto:7-33, generated: chat.rs) *)

(** [google.protobuf.StringValue] (external: wrappers.proto) *)
Definition string_value_codec : mcodec string :=
  as_struct (fun s => (sb s, tt)) (fun '(b, _) => bs b) (1 @: stringf +: no_fields).

(** chat.proto:23-33, chat.rs:538-680; message.rs:59-85 *)
Definition chat_codec : mcodec chat :=
  as_struct (fun c => (sb (c_room c), (c_id c, (c_sender c, (sb (c_text c), tt)))))
    (fun '(r, (i, (s, (t, _)))) => Chat (bs r) i s (bs t))
    (1 @: stringf +: 2 @: subf uint64_value_codec +: 3 @: subf string_value_codec +: 4 @: stringf +: no_fields).
(** chat.proto:11-15, chat.rs:152-260; message.rs:26-52 *)
Definition join_codec : mcodec (string * option string) :=
  as_struct (fun j => (sb j.1, (j.2, tt))) (fun '(r, (t, _)) => (bs r, t))
    (1 @: stringf +: 2 @: subf string_value_codec +: no_fields).
(** chat.proto:17-19, chat.rs:293-380; message.rs:116-134 *)
Definition leave_codec : mcodec string :=
  as_struct (fun s => (sb s, tt)) (fun '(b, _) => bs b) (1 @: stringf +: no_fields).
(** chat.proto:21-23, chat.rs:415-510; message.rs:87-111 *)
Definition send_codec : mcodec (option chat) :=
  as_struct (fun c => (c, tt)) (fun '(c, _) => c) (1 @: subf chat_codec +: no_fields).

(** message.rs:136-152; [FBad]: a panic of the reading task *)
Definition parse_inbound (data : bytes) : frame :=
  match data with
  | [] => FEvent EClose
  | 0 :: m => match parse_msg join_codec m with Some (r, _) => FEvent (EJoin r) | None => FBad end
  | 1 :: m => match parse_msg send_codec m with Some (Some c) => FEvent (EChat c) | _ => FBad end
  | 2 :: m => match parse_msg leave_codec m with Some r => FEvent (ELeave r) | None => FBad end
  | _ :: _ => FEvent EClose
  end.

(** peer/mod.rs:77-84 and the end of the stream *)
Inductive wsframe := WText (b : bytes) | WBinary (b : bytes) | WPing | WPong | WRaw | WClose | WEnd.
Definition read_ws (f : wsframe) : frame :=
  match f with
  | WText b | WBinary b => parse_inbound b
  | WPing | WPong | WRaw => FOther
  | WClose => FEvent EClose
  | WEnd => FEnd
  end.

(** client/mod.rs:100-132. [leave_bytes] is what [write(2, LeaveChat(..))] sends; the client has
    no function of its own for it. *)
Definition join_bytes (r : string) : bytes := 0 :: write_msg join_codec (r, None).
Definition send_bytes (c : chat) : bytes := 1 :: write_msg send_codec (Some c).
Definition chat_bytes (r t : string) : bytes := send_bytes (Chat r None None t).
Definition leave_bytes (r : string) : bytes := 2 :: write_msg leave_codec r.

(** ** JSON (stream/mod.rs:36-75, pubsub.rs:5-8, 25-33) *)

Definition chat_ty : ty :=
  TyStruct [(sb "chat_stream_id", TyStr); (sb "message_id", TyOpt (TyInt 0 18446744073709551615));
            (sb "sender", TyOpt TyStr); (sb "message", TyStr)].
Definition opt_x {A} (f : A -> xval) (o : option A) : xval := match o with Some a => XSome (f a) | None => XNone end.
Definition chat_x (c : chat) : xval :=
  XList [XStr (sb (c_room c)); opt_x (fun n => XInt (Z.of_N n)) (c_id c);
         opt_x (fun s => XStr (sb s)) (c_sender c); XStr (sb (c_text c))].
Definition x_chat (v : xval) : option chat :=
  match v with
  | XList [XStr r; i; s; XStr t] =>
      Some (Chat (bs r) (match i with XSome (XInt z) => Some (Z.to_N z) | _ => None end)
              (match s with XSome (XStr n) => Some (bs n) | _ => None end) (bs t))
  | _ => None
  end.

(** [ChatMessage::as_bytes], [ChatMessage::from_bytes]: to a room on another node, to the journal
    and to the client. *)
Definition chat_json (c : chat) : bytes := to_vec chat_ty (chat_x c).
Definition chat_of_json (b : bytes) : option chat :=
  match from_slice chat_ty b with Some v => x_chat v | None => None end.

(** The answer to [Join]: stream/mod.rs:52-60, 85-89. *)
Definition answer_ty : ty :=
  TyEnum [(sb "Ok", Some (TyStruct [(sb "creator", TyStr); (sb "message_history", TyVec chat_ty); (sb "token", TyStr)]));
          (sb "NameCollision", None)].
Definition answer_json (creator : string) (h : list chat) : bytes :=
  to_vec answer_ty (XVar 0 (Some (XList [XStr (sb creator); XList (map chat_x h); XStr (sb "todo: join-token")]))).
(** peer/mod.rs:141-146: the history, [None] when the join fails *)
Definition history_of_json (b : bytes) : option (list chat) :=
  match from_slice answer_ty b with
  | Some (XVar 0 (Some (XList [_; XList l; _]))) => all_of x_chat l
  | _ => None
  end.

(** pubsub.rs:25-33: written as a [ChatReceive], read as an [Option<ChatReceive>] *)
Definition receive_ty : ty := TyEnum [(sb "Message", Some chat_ty)].
Definition receive_json (c : chat) : bytes := to_vec receive_ty (XVar 0 (Some (chat_x c))).
Definition receive_of_json (b : bytes) : outcome (option chat) :=
  match from_slice (TyOpt receive_ty) b with
  | None => Panicked
  | Some (XSome (XVar 0 (Some v))) => Done (x_chat v)
  | Some _ => Done None
  end.

(** stream/mod.rs:71-75, client/mod.rs:31-35, websocket/mod.rs:27; [None]: the connection's task
    panics and there is no peer *)
Definition handshake_ty : ty := TyStruct [(sb "name", TyStr)].
Definition handshake_json (name : string) : bytes := to_vec handshake_ty (XList [XStr (sb name)]).
Definition handshake_of_json (b : bytes) : option string :=
  match from_slice handshake_ty b with Some (XList [XStr s]) => Some (bs s) | _ => None end.

(** ** Runs

    Clients are seen by the bytes they send; everything else is as in Chat_Model. *)
Inductive bop := BConnect (i n : N) (hs : bytes) | BFrame (i : N) (f : wsframe) | BOther (o : cop).
Definition wire_op (o : bop) : option cop :=
  match o with
  | BConnect i n hs => match handshake_of_json hs with Some name => Some (CConnect i n name) | None => None end
  | BFrame i f => Some (CFrame i (read_ws f))
  | BOther (CConnect _ _ _) | BOther (CFrame _ _) => None
  | BOther o => Some o
  end.
Definition bruns (l : list bop) : option world := cruns new_world (omap wire_op l).
(** What was written to the connection of a client (peer/mod.rs:54-64, 119, 166-179). *)
Definition written (w : world) (i : N) : list bytes := chat_json <$> shown w i.

(** ** The client program (bin/client.rs) *)

(** [line.split(' ')] *)
Fixpoint split_space (b : bytes) : list bytes :=
  match b with
  | [] => [[]]
  | c :: r =>
      if c =? 32 then [] :: split_space r
      else match split_space r with w :: ws => (c :: w) :: ws | [] => [[c]] end
  end.
Inductive typed := Sends (frames : list bytes) | Stuck | Crash.
(** client.rs:37-47, 62-86: the room the client is in, and what a line sends. [Stuck]: the loop of
    "/spam"; [Crash]: the [expect] of "/join". *)
Definition type_line (cur : option string) (line : bytes) : option string * typed :=
  match line with
  | [] => (cur, Sends [])
  | 47 :: _ =>
      match split_space line with
      | cmd :: ws =>
          if bool_decide (cmd = sb "/join") then
            match ws with
            | room :: _ => (Some (bs room), Sends [join_bytes (bs room)])
            | [] => (cur, Crash)
            end
          else if bool_decide (cmd = sb "/spam") then
            match cur with Some _ => (cur, Stuck) | None => (cur, Sends []) end
          else (cur, Sends [])
      | [] => (cur, Sends [])
      end
  | _ => match cur with Some r => (cur, Sends [chat_bytes r (bs line)]) | None => (cur, Sends []) end
  end.
Fixpoint type_lines (cur : option string) (lines : list bytes) : option (list bytes) :=
  match lines with
  | [] => Some []
  | line :: lines' =>
      match type_line cur line with
      | (cur', Sends fs) => option_map (fun r => fs ++ r) (type_lines cur' lines')
      | _ => None
      end
  end.
