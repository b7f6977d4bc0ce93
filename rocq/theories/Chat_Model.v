(** The sharded chat (examples/coerce-sharded-chat-example/src): the actors of the clients
    (actor/peer/mod.rs), the rooms (actor/stream/mod.rs) and what clients are shown. *)
From Verif Require Export Base.

(** actor/stream/mod.rs:62-69 *)
Record chat := Chat { c_room : string; c_id : option N; c_sender : option string; c_text : string }.

(** actor/peer/message.rs:8-13. The token of a join is not looked at (stream/mod.rs:78-90). *)
Inductive event := EJoin (r : string) | EChat (c : chat) | ELeave (r : string) | EClose.
(** What the reader of a connection sees (peer/mod.rs:77-84, message.rs:136-152): an event; a
    frame that is passed over; one whose bytes make [unwrap] panic; the end of the stream. *)
Inductive frame := FEvent (e : event) | FOther | FBad | FEnd.
(** The mailbox of a peer: events, publications with the number of their subscription, [Stop]. *)
Inductive pmail := MEvent (e : event) | MLive (sid : N) (c : chat) | MStop.
(** What the handler of a peer waits for: a room that was sent [Join], or has answered it with its
    history; the subscription that was made then; a room that was sent a message, or has
    answered; an answer that will not come. *)
Inductive doing :=
| Idle | JoinSent (r : string) | JoinAnswered (r : string) (hist : list chat)
| Subscribed (r : string) (hist : list chat) (sid : N)
| ChatSent (c : chat) | ChatAnswered (c : chat) | Unanswered.
(** What is written to the connection: a message of the history, the welcome, a publication. *)
Inductive wrote := Past (c : chat) | Welcome (r : string) | Live (sid : N) (c : chat).

(** peer/mod.rs:26-33. [p_reader]: the task that reads the connection is there (context.rs:443-454). *)
Record peer := Peer {
  p_node : N; p_name : string; p_alive : bool; p_reader : bool;
  p_mail : list pmail; p_do : doing; p_in : gmap string N; p_out : list wrote
}.
(** stream/mod.rs:9-15, on the node [o_home]. The creator and the token are not shown to anyone. *)
Record room := Room { o_home : N; o_msgs : list chat }.
(** A subscription (coerce/src/remote/stream/pubsub.rs:193-230; in detail: Stream_Model.v). *)
Record csub := CSub { s_peer : N; s_node : N; s_room : string; s_first : nat; s_next : nat; s_live : bool }.

(** [w_rooms]: the rooms that run, one actor at a time for a room (overlapping ones: C66).
    [w_log]: the journal, shared by all nodes (app.rs:124-138 with Redis), under
    "ChatStream-" and the name of the room (stream/mod.rs:19-21). [w_chans]: for the mediator of
    every node, what was sent on the channel of a room. [w_fly]: publications on their way to
    other nodes. [w_known]: the nodes every mediator knows. *)
Record world := World {
  w_peers : gmap N peer; w_rooms : gmap string room; w_log : gmap string (list chat);
  w_chans : gmap (N * string) (list chat); w_subs : gmap N csub;
  w_fly : list (N * string * chat); w_known : gmap N (gset N)
}.
Definition new_world : world := World ∅ ∅ ∅ ∅ ∅ [] ∅.

Definition set_peer (w : world) (i : N) (p : peer) : world :=
  World (<[i := p]> (w_peers w)) (w_rooms w) (w_log w) (w_chans w) (w_subs w) (w_fly w) (w_known w).
Definition set_subs (w : world) (s : gmap N csub) : world :=
  World (w_peers w) (w_rooms w) (w_log w) (w_chans w) s (w_fly w) (w_known w).
Definition set_room (w : world) (r : string) (o : room) : world :=
  World (w_peers w) (<[r := o]> (w_rooms w)) (w_log w) (w_chans w) (w_subs w) (w_fly w) (w_known w).
Definition set_mail (p : peer) (m : list pmail) : peer :=
  Peer (p_node p) (p_name p) (p_alive p) (p_reader p) m (p_do p) (p_in p) (p_out p).
Definition set_do (p : peer) (d : doing) : peer :=
  Peer (p_node p) (p_name p) (p_alive p) (p_reader p) (p_mail p) d (p_in p) (p_out p).

(** pubsub.rs:198-209 *)
Definition ended (s : csub) : csub := CSub (s_peer s) (s_node s) (s_room s) (s_first s) (s_next s) false.
Definition end_sub (w : world) (sid : option N) : world :=
  match sid with Some k => set_subs w (alter ended k (w_subs w)) | None => w end.

(** A peer stops or panics: it is dropped with its subscriptions. *)
Definition die (w : world) (i : N) (p : peer) : world :=
  let p' := Peer (p_node p) (p_name p) false (p_reader p) (p_mail p) Idle (p_in p) (p_out p) in
  set_subs (set_peer w i p') ((fun s => if (s_peer s =? i)%N then ended s else s) <$> w_subs w).

(** The reader of peer [i] gets a frame (peer/mod.rs:70-86, context.rs:443-454). A panic ends the
    reader without stopping the peer. *)
Definition on_frame (w : world) (i : N) (p : peer) (f : frame) : option world :=
  if p_reader p then
    match f with
    | FEvent e => Some (if p_alive p then set_peer w i (set_mail p (p_mail p ++ [MEvent e])) else w)
    | FOther => Some w
    | FBad => Some (set_peer w i (Peer (p_node p) (p_name p) (p_alive p) false (p_mail p) (p_do p) (p_in p) (p_out p)))
    | FEnd => Some (set_peer w i (Peer (p_node p) (p_name p) (p_alive p) false (p_mail p ++ [MStop]) (p_do p) (p_in p) (p_out p)))
    end
  else None.

(** Peer [i] takes its next message: peer/mod.rs:91-100 (events), 105-121 (publications),
    126-146 (join), 193-200 (chat), 205-209 (leave). *)
Definition on_mail (w : world) (i : N) (p : peer) : option world :=
  match p_alive p, p_do p, p_mail p with
  | true, Idle, m :: rest =>
      let q := set_mail p rest in
      match m with
      | MEvent (EJoin r) => Some (set_peer w i (set_do q (JoinSent r)))
      | MEvent (EChat c) =>
          Some (set_peer w i
            (match p_in p !! c_room c with
             | Some _ => set_do q (ChatSent (Chat (c_room c) (c_id c) (Some (p_name p)) (c_text c)))
             | None => q
             end))
      | MEvent (ELeave r) =>
          let q' := Peer (p_node q) (p_name q) (p_alive q) (p_reader q) (p_mail q) (p_do q) (delete r (p_in q)) (p_out q) in
          Some (end_sub (set_peer w i q') (p_in p !! r))
      | MEvent EClose => Some (set_peer w i (set_mail p (rest ++ [MStop])))
      | MLive sid c =>
          Some (set_peer w i (Peer (p_node q) (p_name q) (p_alive q) (p_reader q) (p_mail q) (p_do q) (p_in q) (p_out q ++ [Live sid c])))
      | MStop => Some (die w i q)
      end
  | _, _, _ => None
  end.

(** The room, started on node [n] if it does not run: it recovers its messages
    (stream/mod.rs:121-134, 137-141). *)
Definition the_room (w : world) (r : string) (n : N) : room :=
  match w_rooms w !! r with Some o => o | None => Room n (default [] (w_log w !! r)) end.

(** coerce/src/remote/stream/mediator/mod.rs:185-222 on the node of the room *)
Definition publish (w : world) (home : N) (r : string) (c : chat) : world :=
  World (w_peers w) (w_rooms w) (w_log w) (alter (fun l => l ++ [c]) (home, r) (w_chans w)) (w_subs w)
    (w_fly w ++ ((fun d => (d, r, c)) <$> elements (default ∅ (w_known w !! home)))) (w_known w).

Definition keep (w : world) (r : string) (c : chat) : world :=
  World (w_peers w) (w_rooms w) (<[r := default [] (w_log w !! r) ++ [c]]> (w_log w)) (w_chans w) (w_subs w) (w_fly w) (w_known w).

(** The journal stores a message, or does not, or stores it and the room dies before it goes on. *)
Inductive pres := Kept | NotKept | Crashed.

(** A room handles the request of peer [i] (stream/mod.rs:78-113). *)
Definition on_room (w : world) (i : N) (p : peer) (n : N) (k : pres) : option world :=
  match p_do p with
  | JoinSent r =>
      let o := the_room w r n in
      Some (set_room (set_peer w i (set_do p (JoinAnswered r (o_msgs o)))) r o)
  | ChatSent c =>
      let r := c_room c in
      let o := the_room w r n in
      match k with
      | NotKept => Some (set_room (set_peer w i (set_do p (ChatAnswered c))) r o)
      | Kept =>
          let w1 := set_room (set_peer (keep w r c) i (set_do p (ChatAnswered c))) r (Room (o_home o) (o_msgs o ++ [c])) in
          Some (publish w1 (o_home o) r c)
      | Crashed =>
          let w1 := set_peer (keep w r c) i (set_do p Unanswered) in
          Some (World (w_peers w1) (delete r (w_rooms w1)) (w_log w1) (w_chans w1) (w_subs w1) (w_fly w1) (w_known w1))
      end
  | _ => None
  end.

(** peer/mod.rs:148-159, pubsub.rs:131-141: the subscription, at the mediator of the node. *)
Definition on_subscribe (w : world) (i : N) (p : peer) (sid : N) : option world :=
  match p_do p, w_subs w !! sid with
  | JoinAnswered r h, None =>
      let l := default [] (w_chans w !! (p_node p, r)) in
      Some (World (<[i := set_do p (Subscribed r h sid)]> (w_peers w)) (w_rooms w) (w_log w)
              (<[(p_node p, r) := l]> (w_chans w))
              (<[sid := CSub i (p_node p) r (length l) (length l) true]> (w_subs w)) (w_fly w) (w_known w))
  | _, _ => None
  end.

(** The handler of peer [i] goes on: peer/mod.rs:166-181 (an older subscription to the room is
    dropped when it is replaced), 198-199. *)
Definition on_resume (w : world) (i : N) (p : peer) : option world :=
  match p_do p with
  | Subscribed r h sid =>
      let p' := Peer (p_node p) (p_name p) (p_alive p) (p_reader p) (p_mail p) Idle
                  (<[r := sid]> (p_in p)) (p_out p ++ (Past <$> h) ++ [Welcome r]) in
      Some (end_sub (set_peer w i p') (p_in p !! r))
  | ChatAnswered _ => Some (set_peer w i (set_do p Idle))
  | _ => None
  end.

(** The request of peer [i] fails, or its answer is lost: peer/mod.rs:182-187 for a join, and the
    panic of 198 for a message. *)
Definition on_fail (w : world) (i : N) (p : peer) : option world :=
  match p_do p with
  | JoinSent _ | JoinAnswered _ _ => Some (set_peer w i (set_do p Idle))
  | ChatSent _ | ChatAnswered _ | Unanswered => Some (die w i p)
  | _ => None
  end.

(** pubsub.rs:219-227: the task of a subscription; it ends when it is more than 1024 messages
    behind or its actor is gone. *)
Definition on_deliver (w : world) (sid : N) : option world :=
  s ← w_subs w !! sid;
  p ← w_peers w !! s_peer s;
  if s_live s then
    let l := default [] (w_chans w !! (s_node s, s_room s)) in
    if (1024 <? length l - s_next s)%nat then Some (end_sub w (Some sid))
    else match l !! s_next s with
         | None => None
         | Some c =>
             if p_alive p then
               Some (set_subs (set_peer w (s_peer s) (set_mail p (p_mail p ++ [MLive sid c])))
                       (<[sid := CSub (s_peer s) (s_node s) (s_room s) (s_first s) (S (s_next s)) true]> (w_subs w)))
             else Some (end_sub w (Some sid))
         end
  else None.

(** - [CConnect i n name]: a client connects to node [n] (websocket/mod.rs:16-46).
    - [CFrame]: the client sends a frame; [CHandle], [CSubscribe], [CResume]: the peer takes a
      message, subscribes, goes on; [CRoom i n k]: the room handles the request of peer [i], on
      node [n] if it has to be started; [CFail]: the request fails.
    - [CDeliver]: a subscription passes on a message. [CArrive], [CDrop]: a publication arrives
      at another node (session/mod.rs:621-626), in any order, or is lost.
    - [CRoomStop]: a room stops (it is moved, or its node fails).
    - [CMember n d b]: the mediator of [n] learns that [d] was added or removed. *)
Inductive cop :=
| CConnect (i n : N) (name : string)
| CFrame (i : N) (f : frame)
| CHandle (i : N)
| CRoom (i n : N) (k : pres)
| CSubscribe (i sid : N)
| CResume (i : N)
| CFail (i : N)
| CDeliver (sid : N)
| CArrive (k : nat)
| CDrop (k : nat)
| CRoomStop (r : string)
| CMember (n d : N) (b : bool).

Definition cstep (w : world) (o : cop) : option world :=
  match o with
  | CConnect i n name =>
      match w_peers w !! i with
      | Some _ => None
      | None => Some (set_peer w i (Peer n name true true [] Idle ∅ []))
      end
  | CFrame i f => p ← w_peers w !! i; on_frame w i p f
  | CHandle i => p ← w_peers w !! i; on_mail w i p
  | CRoom i n k => p ← w_peers w !! i; on_room w i p n k
  | CSubscribe i sid => p ← w_peers w !! i; on_subscribe w i p sid
  | CResume i => p ← w_peers w !! i; on_resume w i p
  | CFail i => p ← w_peers w !! i; on_fail w i p
  | CDeliver sid => on_deliver w sid
  | CArrive k =>
      '(d, r, c) ← w_fly w !! k;
      Some (World (w_peers w) (w_rooms w) (w_log w) (alter (fun l => l ++ [c]) (d, r) (w_chans w)) (w_subs w)
              (delete k (w_fly w)) (w_known w))
  | CDrop k =>
      _ ← w_fly w !! k;
      Some (World (w_peers w) (w_rooms w) (w_log w) (w_chans w) (w_subs w) (delete k (w_fly w)) (w_known w))
  | CRoomStop r =>
      _ ← w_rooms w !! r;
      Some (World (w_peers w) (delete r (w_rooms w)) (w_log w) (w_chans w) (w_subs w) (w_fly w) (w_known w))
  | CMember n d b =>
      (* mediator/mod.rs:151-173 *)
      let s := default ∅ (w_known w !! n) in
      let s' := if b then (if (d =? n)%N then s else {[ d ]} ∪ s) else s ∖ {[ d ]} in
      Some (World (w_peers w) (w_rooms w) (w_log w) (w_chans w) (w_subs w) (w_fly w) (<[n := s']> (w_known w)))
  end.

Fixpoint cruns (w : world) (l : list cop) : option world :=
  match l with
  | [] => Some w
  | o :: l' => w' ← cstep w o; cruns w' l'
  end.
