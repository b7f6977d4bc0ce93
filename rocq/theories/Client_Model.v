(** The client side of a connection to another node (coerce/src/remote/net/client) and the
    registry of the clients (coerce/src/remote/actor/clients.rs). *)
From Verif Require Export Base.

(** ** One client *)
Section client.
(** Encoded messages; whether the codec accepts one (at most 8 MiB); their lengths. *)
Context {M : Type}.
Variable frame_ok : M -> bool.
Variable len : M -> N.

(** client/mod.rs:276-280 *)
Inductive handshake := HNone | HPending | HAcknowledged.
(** client/mod.rs:245-249. The identity of a connection is the id of its node. *)
Inductive cstate := CIdle (attempts : nat) | CConnected (node : N) (hs : handshake) | CTerminated.
(** The actor: running; waiting for ever inside a handler; gone by a panic; stopped. *)
Inductive clife := LRunning | LHung | LPanicked | LStopped.

(** What it tells the rest of the node. *)
Inductive cout :=
| OConnected (node : N)               (* ClientConnected, to the registry *)
| ORemove (node : option N)           (* RemoveClient, to the registry *)
| ODisconnected (node : N)            (* NodePing Disconnected, to the heartbeat *)
| OForget                             (* to the discovery *)
| OIdentity (i : nat) (node : option N)
| OHandshakeDone (i : nat).

(** client/mod.rs:37-48 and its surroundings: [c_scheduled] reconnections on their way,
    [c_readers] receive loops running, one of each connection made, [c_handed] what was written
    to a transport, [c_lost] what was thrown away. [c_total] is [write_buffer_bytes_total]. *)
Record client := Client {
  c_state : cstate;
  c_node : option N;
  c_buffer : list M;
  c_total : N;
  c_identify : list nat;
  c_acks : list nat;
  c_life : clife;
  c_stopping : bool;
  c_scheduled : nat;
  c_readers : nat;
  c_handed : list M;
  c_lost : list M;
  c_out : list cout
}.

(** client/mod.rs:58-88, 189-192: the start hook sends the first [Connect] *)
Definition new_client : client := Client (CIdle 0) None [] 0 [] [] LRunning false 1 0 [] [] [].

Definition with_state (c : client) (s : cstate) : client :=
  Client s (c_node c) (c_buffer c) (c_total c) (c_identify c) (c_acks c) (c_life c) (c_stopping c) (c_scheduled c)
         (c_readers c) (c_handed c) (c_lost c) (c_out c).
Definition with_life (c : client) (v : clife) : client :=
  Client (c_state c) (c_node c) (c_buffer c) (c_total c) (c_identify c) (c_acks c) v (c_stopping c) (c_scheduled c)
         (c_readers c) (c_handed c) (c_lost c) (c_out c).
Definition with_scheduled (c : client) (n : nat) : client :=
  Client (c_state c) (c_node c) (c_buffer c) (c_total c) (c_identify c) (c_acks c) (c_life c) (c_stopping c) n
         (c_readers c) (c_handed c) (c_lost c) (c_out c).
Definition with_readers (c : client) (n : nat) : client :=
  Client (c_state c) (c_node c) (c_buffer c) (c_total c) (c_identify c) (c_acks c) (c_life c) (c_stopping c) (c_scheduled c)
         n (c_handed c) (c_lost c) (c_out c).
Definition tell (c : client) (o : list cout) : client :=
  Client (c_state c) (c_node c) (c_buffer c) (c_total c) (c_identify c) (c_acks c) (c_life c) (c_stopping c) (c_scheduled c)
         (c_readers c) (c_handed c) (c_lost c) (c_out c ++ o).

(** connect.rs:274-343 *)
Definition disconnected (c : client) : client :=
  match c_state c with
  | CIdle n =>
      if (10 <? S n)%nat then
        let c := tell (with_state c CTerminated) [ORemove (c_node c)] in
        Client (c_state c) (c_node c) (c_buffer c) (c_total c) (c_identify c) (c_acks c) (c_life c) true (c_scheduled c)
               (c_readers c) (c_handed c) (c_lost c) (c_out c)
      else with_scheduled (with_state c (CIdle (S n))) (S (c_scheduled c))
  | CConnected _ _ => with_scheduled (with_state c (CIdle 1)) (S (c_scheduled c))
  | CTerminated => with_scheduled c (S (c_scheduled c))
  end.

(** send.rs:69-72 *)
Definition buffer_message (c : client) (m : M) : client :=
  Client (c_state c) (c_node c) (c_buffer c ++ [m]) (c_total c + len m)%N (c_identify c) (c_acks c) (c_life c) (c_stopping c)
         (c_scheduled c) (c_readers c) (c_handed c) (c_lost c) (c_out c).
Definition hand (c : client) (m : M) : client :=
  Client (c_state c) (c_node c) (c_buffer c) (c_total c) (c_identify c) (c_acks c) (c_life c) (c_stopping c)
         (c_scheduled c) (c_readers c) (c_handed c ++ [m]) (c_lost c) (c_out c).
Definition lose (c : client) (m : M) : client :=
  Client (c_state c) (c_node c) (c_buffer c) (c_total c) (c_identify c) (c_acks c) (c_life c) (c_stopping c)
         (c_scheduled c) (c_readers c) (c_handed c) (c_lost c ++ [m]) (c_out c).

(** send.rs:74-133; [link]: the transport takes the frame. Every failure of [write_bytes] is a
    [StreamErr]. *)
Definition write (c : client) (m : M) (link : bool) : client :=
  match c_state c with
  | CIdle _ => buffer_message c m
  | CConnected _ _ => if frame_ok m && link then hand c m else disconnected (buffer_message c m)
  | CTerminated => disconnected (lose c m)
  end.

(** send.rs:43-67; [link i]: the transport takes the [i]-th frame *)
Fixpoint flush (buffer : list M) (link : nat -> bool) (i : nat) : list M * list M :=
  match buffer with
  | [] => ([], [])
  | m :: rest =>
      if frame_ok m && link i then let '(sent, kept) := flush rest link (S i) in (m :: sent, kept)
      else ([], buffer)
  end.
Definition flush_buffered (c : client) (link : nat -> bool) : client :=
  let '(sent, kept) := flush (c_buffer c) link 0 in
  Client (c_state c) (c_node c) kept (c_total c - foldr (fun m n => len m + n) 0 sent)%N (c_identify c) (c_acks c)
         (c_life c) (c_stopping c) (c_scheduled c) (c_readers c) (c_handed c ++ sent) (c_lost c) (c_out c).

(** connect.rs:34-114. How an attempt ends: no connection; the first frame cannot be written;
    the receive loop panics before the identity is known; the other side closes the
    connection before it has sent its identity; it sends its identity. In the fourth case the
    receive loop waits for the client to handle [Disconnected] (receive.rs:158-161) and keeps
    the channel open which the client waits on. *)
Inductive outcome :=
| Refused
| IdentifyFailed
| NoIdentity
| ClosedEarly
| Identified (node : N) (link : nat -> bool).

(** connect.rs:121-170 *)
Definition answer_identify (c : client) (node : option N) : client :=
  Client (c_state c) (c_node c) (c_buffer c) (c_total c) [] (c_acks c) (c_life c) (c_stopping c) (c_scheduled c)
         (c_readers c) (c_handed c) (c_lost c) (c_out c ++ ((fun i => OIdentity i node) <$> rev (c_identify c))).
Definition attempt (c : client) (r : outcome) : client :=
  match r with
  | Identified node link =>
      let c := answer_identify (tell (with_readers c (S (c_readers c))) [OConnected node]) (Some node) in
      let c := Client (CConnected node HNone) (Some node) (c_buffer c) (c_total c) (c_identify c) (c_acks c) (c_life c)
                      (c_stopping c) (c_scheduled c) (c_readers c) (c_handed c) (c_lost c) (c_out c) in
      flush_buffered c link
  | ClosedEarly => with_life c LHung
  | _ => disconnected (answer_identify c None)
  end.
Definition connect (c : client) (r : outcome) : client :=
  match c_state c with CConnected _ _ => c | _ => attempt c r end.

(** ping.rs:28-110, without the request that waits for the pong *)
Definition ping_tick (c : client) (m : M) (link : bool) : client :=
  match c_state c with
  | CConnected _ _ => write c m link
  | _ => tell c (match c_node c with Some n => [ODisconnected n] | None => [] end ++ [OForget])
  end.

(** connect.rs:172-244; the handshake is not buffered, and a failure panics *)
Definition push_ack (c : client) (i : nat) : client :=
  Client (c_state c) (c_node c) (c_buffer c) (c_total c) (c_identify c) (c_acks c ++ [i]) (c_life c) (c_stopping c)
         (c_scheduled c) (c_readers c) (c_handed c) (c_lost c) (c_out c).
Definition begin_handshake (c : client) (i : nat) (link : bool) : client :=
  match c_state c with
  | CConnected _ HAcknowledged => tell c [OHandshakeDone i]
  | CConnected _ HPending => push_ack c i
  | CConnected n HNone => if link then push_ack (with_state c (CConnected n HPending)) i else with_life c LPanicked
  | _ => c
  end.
(** connect.rs:246-272; the callbacks are popped from the end *)
Definition acknowledge (c : client) : client :=
  match c_state c with
  | CConnected n _ =>
      Client (CConnected n HAcknowledged) (c_node c) (c_buffer c) (c_total c) (c_identify c) [] (c_life c) (c_stopping c)
             (c_scheduled c) (c_readers c) (c_handed c) (c_lost c) (c_out c ++ (OHandshakeDone <$> rev (c_acks c)))
  | _ => c
  end.
(** client/mod.rs:105-117 *)
Definition identify (c : client) (i : nat) : client :=
  match c_state c with
  | CConnected n _ => tell c [OIdentity i (Some n)]
  | _ => Client (c_state c) (c_node c) (c_buffer c) (c_total c) (c_identify c ++ [i]) (c_acks c) (c_life c) (c_stopping c)
                (c_scheduled c) (c_readers c) (c_handed c) (c_lost c) (c_out c)
  end.

(** What the client handles, one at a time. [AConnect] needs a reconnection on its way, [ALost]
    (the report of a receive loop that ended) a receive loop; the loop of a connection goes on
    after the connection was given up. [AReaderPanic]: a receive loop ends without a report.
    Messages that come after the stop request are not told apart from those before. *)
Inductive cop :=
| AConnect (r : outcome)
| ALost
| AReaderPanic
| AWrite (m : M) (link : bool)
| APing (m : M) (link : bool)
| AHandshake (i : nat) (link : bool)
| AAck
| AIdentify (i : nat)
| AStop.

Definition cstep (c : client) (o : cop) : option client :=
  match c_life c with
  | LRunning =>
      match o with
      | AConnect r => match c_scheduled c with O => None | S n => Some (connect (with_scheduled c n) r) end
      | ALost => match c_readers c with O => None | S n => Some (disconnected (with_readers c n)) end
      | AReaderPanic => match c_readers c with O => None | S n => Some (with_readers c n) end
      | AWrite m link => Some (write c m link)
      | APing m link => Some (ping_tick c m link)
      | AHandshake i link => Some (begin_handshake c i link)
      | AAck => Some (acknowledge c)
      | AIdentify i => Some (identify c i)
      | AStop => Some (with_life c LStopped)
      end
  | _ => None
  end.
Fixpoint crun (c : client) (l : list cop) : option client :=
  match l with [] => Some c | o :: l' => c' ← cstep c o; crun c' l' end.
End client.
Arguments client : clear implicits.
Arguments cop : clear implicits.

(** ** The registry of clients (actor/clients.rs) *)
Section registry.
Context {M : Type}.
(** clients.rs:13-16; clients are numbered in the order of their creation. [g_alive]: those
    that still take messages; [g_inbox]: what was put in their mailboxes; [g_dropped]: writes
    for nodes without a client. *)
Record registry := Registry {
  g_addr : gmap string nat;
  g_node : gmap N nat;
  g_next : nat;
  g_dead : gset nat;
  g_inbox : list (nat * M);
  g_dropped : list (N * M)
}.
Definition new_registry : registry := Registry ∅ ∅ 0 ∅ [] [].

(** [GStop]: a client stopped or panicked. *)
Inductive gop :=
| GNew (addr : string)
| GRemove (addr : string) (node : option N)
| GConnected (node : N) (client : nat)
| GWrite (node : N) (m : M)
| GStop (client : nat).

(** clients.rs:42-116; the client that [NewClient] returns. [None]: a panic ([expect]). *)
Definition gstep (g : registry) (o : gop) : option (registry * option nat) :=
  match o with
  | GNew addr =>
      match g_addr g !! addr with
      | Some c => Some (g, Some c)
      | None => Some (Registry (<[addr := g_next g]> (g_addr g)) (g_node g) (S (g_next g)) (g_dead g) (g_inbox g) (g_dropped g),
                      Some (g_next g))
      end
  | GRemove addr node =>
      Some (Registry (delete addr (g_addr g)) (match node with Some n => delete n (g_node g) | None => g_node g end)
                     (g_next g) (g_dead g) (g_inbox g) (g_dropped g), None)
  | GConnected node c =>
      Some (Registry (g_addr g) (<[node := c]> (g_node g)) (g_next g) (g_dead g) (g_inbox g) (g_dropped g), None)
  | GWrite node m =>
      match g_node g !! node with
      | Some c =>
          if decide (c ∈ g_dead g) then None
          else Some (Registry (g_addr g) (g_node g) (g_next g) (g_dead g) (g_inbox g ++ [(c, m)]) (g_dropped g), None)
      | None => Some (Registry (g_addr g) (g_node g) (g_next g) (g_dead g) (g_inbox g) (g_dropped g ++ [(node, m)]), None)
      end
  | GStop c => Some (Registry (g_addr g) (g_node g) (g_next g) (g_dead g ∪ {[c]}) (g_inbox g) (g_dropped g), None)
  end.
Fixpoint grun (g : registry) (l : list gop) : option registry :=
  match l with [] => Some g | o :: l' => r ← gstep g o; grun (fst r) l' end.
End registry.
Arguments registry : clear implicits.
Arguments gop : clear implicits.
