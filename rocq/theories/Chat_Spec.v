(** What is expected of the chat. *)
From Verif Require Import Chat_Model.

(** The messages a room accepted, in order. *)
Definition accepted (w : world) (r : string) : list chat := default [] (w_log w !! r).

(** actor/peer/mod.rs:170-179 *)
Definition welcome (r : string) : chat :=
  Chat r None (Some "Coerce") ("Welcome to " +:+ r +:+ ", say hello!").
(** What the client is shown. *)
Definition seen_of (x : wrote) : chat :=
  match x with Past c => c | Welcome r => welcome r | Live _ c => c end.
Definition shown (w : world) (i : N) : list chat :=
  from_option (fun p => seen_of <$> p_out p) [] (w_peers w !! i).
(** What a client is shown of a room. *)
Definition shown_in (w : world) (i : N) (r : string) : list chat :=
  List.filter (fun c => bool_decide (c_room c = r)) (shown w i).

(** What client [i] wrote. *)
Definition asked_join (l : list cop) (i : N) (r : string) : Prop := CFrame i (FEvent (EJoin r)) ∈ l.
Definition said (l : list cop) (i : N) : list chat :=
  omap (fun o => match o with CFrame j (FEvent (EChat c)) => if (j =? i)%N then Some c else None | _ => None end) l.
Definition named (l : list cop) (i : N) (name : string) : Prop := exists n, CConnect i n name ∈ l.
(** A message under the name of a client. *)
Definition signed (name : string) (c : chat) : chat := Chat (c_room c) (c_id c) (Some name) (c_text c).

(** What a subscription gave to the client. *)
Definition live_of (w : world) (sid : N) : list chat :=
  s ← option_list (w_subs w !! sid);
  p ← option_list (w_peers w !! s_peer s);
  omap (fun x => match x with Live k c => if (k =? sid)%N then Some c else None | _ => None end) (p_out p).

(** ** Where everything comes from *)
Definition genuine (l : list cop) (c : chat) : Prop :=
  exists j name c0, named l j name /\ c0 ∈ said l j /\ c = signed name c0 /\ asked_join l j (c_room c).
(** The history of a room at some time after a client asked for it. *)
Definition past_log (l : list cop) (i : N) (r : string) (h : list chat) : Prop :=
  exists l1 l2 w0, l = l1 ++ l2 /\ cruns new_world l1 = Some w0 /\ h = accepted w0 r /\ asked_join l1 i r.

(** What the client does not do while it stays in a room, and what must not be waiting for it. *)
Definition stays (i : N) (r : string) (l : list cop) : Prop :=
  CFrame i (FEvent (EJoin r)) ∉ l /\ CFrame i (FEvent (ELeave r)) ∉ l.
Definition unrelated (r : string) (m : pmail) : Prop :=
  match m with MEvent (EJoin r') | MEvent (ELeave r') => r' <> r | MLive _ c => c_room c <> r | _ => True end.
(** Publications of a room that a peer has not taken yet. *)
Definition waiting (r : string) (m : list pmail) : list chat :=
  omap (fun x => match x with MLive _ c => if bool_decide (c_room c = r) then Some c else None | _ => None end) m.
(** A peer does not wait for an answer about this room. *)
Definition not_joining (r : string) (d : doing) : Prop :=
  match d with JoinSent r' | JoinAnswered r' _ | Subscribed r' _ _ => r' <> r | _ => True end.
Definition of_sender (name : string) (l : list chat) : list chat := List.filter (fun c => bool_decide (c_sender c = Some name)) l.
Definition to_room (r : string) (l : list chat) : list chat := List.filter (fun c => bool_decide (c_room c = r)) l.
