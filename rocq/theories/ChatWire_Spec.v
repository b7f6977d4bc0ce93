(** What is expected of the bytes of the chat. *)
From Verif Require Export ChatWire_Model Json_Spec.
Local Open Scope N_scope.

(** A Rust [String]. *)
Definition rust_string (s : string) : Prop := unicode (sb s).
(** A Rust [ChatMessage]. *)
Definition rust_chat (c : chat) : Prop :=
  rust_string (c_room c) /\ (forall n, c_id c = Some n -> n < two64) /\
  (forall s, c_sender c = Some s -> rust_string s) /\ rust_string (c_text c).

(** The clients of a run: who connected under which name, and what they asked for, by the bytes. *)
Definition connected_as (l : list bop) (i : N) (name : string) : Prop :=
  exists n hs, BConnect i n hs ∈ l /\ handshake_of_json hs = Some name.
Definition sent_event (l : list bop) (i : N) (e : event) : Prop :=
  exists f, BFrame i f ∈ l /\ read_ws f = FEvent e.

(** ** The client program: what a line means *)

(** The room named in the last "/join" among some lines. *)
Fixpoint in_room_after (cur : option string) (lines : list bytes) : option string :=
  match lines with
  | [] => cur
  | line :: lines' =>
      in_room_after (match split_space line with
                     | cmd :: room :: _ => if bool_decide (cmd = sb "/join") then Some (bs room) else cur
                     | _ => cur
                     end) lines'
  end.
Definition command (line : bytes) : bool := match line with 47 :: _ => true | _ => false end.
(** What is to arrive for line [k]: a request to join, a message to the room that was joined last. *)
Definition meant (lines : list bytes) (k : nat) (line : bytes) : list event :=
  match split_space line with
  | cmd :: room :: _ => if bool_decide (cmd = sb "/join") then [EJoin (bs room)] else []
  | _ => []
  end ++
  (if command line || bool_decide (line = []) then []
   else match in_room_after None (take k lines) with Some r => [EChat (Chat r None None (bs line))] | None => [] end).
Definition meant_all (lines : list bytes) : list event := concat (imap (meant lines) lines).
