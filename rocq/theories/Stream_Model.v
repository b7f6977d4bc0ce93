(** Publish and subscribe: the broadcast channels and subscriptions (coerce/src/remote/stream/pubsub.rs),
    the mediator (stream/mediator/mod.rs) and publications between nodes (net/server/session). *)
From Verif Require Export Wire_Model.

Section stream.
(** Messages of any type. *)
Variable M : Type.
(** The types that implement [Topic]: their name (pubsub.rs:22) and the type of their messages. *)
Variable tname : N -> bytes.
Variable mtype : N -> N.
(** [StreamData], by type of message; [decode] may panic (stream/system.rs:73-94). *)
Variable encode : N -> M -> option bytes.
Variable decode : N -> bytes -> outcome M.
(** stream/system.rs:15-21: a message that says that a node was added ([true]) or removed. *)
Variable member : M -> option (bool * N).

(** [SystemTopic] is type 0, its key is empty (stream/system.rs:34-40, pubsub.rs:24-26). *)
Definition system_topic : N := 0%N.
(** pubsub.rs:135 *)
Definition capacity : nat := 1024.

Notation channel := (bytes * bytes)%type.
Inductive reach := Local | Cluster.
(** pubsub.rs:193-230: the task of a subscription. [sb_next] is the position of its receiver,
    [sb_got] what it notified its actor of, [sb_up] whether the actor still takes messages. *)
Record sub := Sub { sb_chan : channel; sb_next : nat; sb_got : list M; sb_live : bool; sb_up : bool }.
(** mediator/mod.rs:20-26. [m_chans]: for every channel all messages sent on it; the channel keeps
    the last [capacity] of them. [m_seen]: how many events of the system topic the mediator
    handled. *)
Record med := Med {
  m_self : N;
  m_topics : gmap bytes N;
  m_chans : gmap channel (list M);
  m_subs : gmap N sub;
  m_nodes : gset N;
  m_seen : nat;
  m_alive : bool
}.
(** mediator/mod.rs:139-146: after [SetRemote]. The subscription of the mediator is number 0. *)
Definition new_med (self : N) : med :=
  Med self {[tname system_topic := system_topic]} {[(tname system_topic, []) := []]}
    {[0%N := Sub (tname system_topic, []) 0 [] true true]} ∅ 0 true.

(** pubsub.rs:143-155 *)
Definition broadcast (m : med) (c : channel) (x : M) : med :=
  match m_chans m !! c with
  | Some l => Med (m_self m) (m_topics m) (<[c := l ++ [x]]> (m_chans m)) (m_subs m) (m_nodes m) (m_seen m) (m_alive m)
  | None => m
  end.
Definition set_sub (m : med) (i : N) (s : sub) : med :=
  Med (m_self m) (m_topics m) (m_chans m) (<[i := s]> (m_subs m)) (m_nodes m) (m_seen m) (m_alive m).
Definition crash (m : med) : med :=
  Med (m_self m) (m_topics m) (m_chans m) (m_subs m) (m_nodes m) (m_seen m) false.
(** pubsub.rs:131-141 *)
Definition receiver (m : med) (c : channel) : med * nat :=
  match m_chans m !! c with
  | Some l => (m, length l)
  | None => (Med (m_self m) (m_topics m) (<[c := []]> (m_chans m)) (m_subs m) (m_nodes m) (m_seen m) (m_alive m), 0)
  end.
(** mediator/mod.rs:96-135. A topic of another type under the same name: an error. *)
Definition subscribe (m : med) (i : N) (t : N) (key : bytes) : med :=
  let m1 := match m_topics m !! tname t with
            | Some _ => m
            | None => Med (m_self m) (<[tname t := t]> (m_topics m)) (m_chans m) (m_subs m) (m_nodes m) (m_seen m) (m_alive m)
            end in
  if from_option (fun t' => (t' =? t)%N) true (m_topics m !! tname t) then
    let '(m2, pos) := receiver m1 (tname t, key) in
    set_sub m2 i (Sub (tname t, key) pos [] true true)
  else m1.
(** mediator/mod.rs:186-188, pubsub.rs:178-182: [downcast().unwrap()]. *)
Definition emit (m : med) (t : N) (key : bytes) (x : M) : med :=
  match m_topics m !! tname t with
  | Some t' => if (mtype t' =? mtype t)%N then broadcast m (tname t, key) x else crash m
  | None => m
  end.
(** mediator/mod.rs:255-264, pubsub.rs:160-176 *)
Definition emit_raw (m : med) (name key : bytes) (b : bytes) : med :=
  match m_topics m !! name with
  | Some t => match decode (mtype t) b with
              | Done x => broadcast m (name, key) x
              | Rejected => m
              | Panicked => crash m
              end
  | None => m
  end.
(** mediator/mod.rs:149-175 *)
Definition on_event (m : med) (x : M) : med :=
  Med (m_self m) (m_topics m) (m_chans m) (m_subs m)
    (match member x with
     | Some (true, n) => if (n =? m_self m)%N then m_nodes m else {[n]} ∪ m_nodes m
     | Some (false, n) => m_nodes m ∖ {[n]}
     | None => m_nodes m
     end) (S (m_seen m)) (m_alive m).

Inductive mop :=
| MSubscribe (i : N) (t : N) (key : bytes)
| MPublish (t : N) (key : bytes) (x : M) (r : reach)
| MRaw (name key : bytes) (b : bytes)
| MRecv (i : N)
| MUnsubscribe (i : N)
| MActorStop (i : N)
| MSystem.
(** pubsub.rs:222-226. [recv]: [Lagged] if the message was overwritten, and the loop ends; when
    the sender is gone and nothing is left, [Closed]. *)
Definition recv (m : med) (i : N) : option med :=
  match m_subs m !! i with
  | Some (Sub c n got true up) =>
      l ← m_chans m !! c;
      if capacity <? length l - n then Some (set_sub m i (Sub c n got false up))
      else match l !! n with
           | Some x => Some (set_sub m i (if up then Sub c (S n) (got ++ [x]) true true else Sub c (S n) got false false))
           | None => if m_alive m then None else Some (set_sub m i (Sub c n got false up))
           end
  | _ => None
  end.
Definition mstep (m : med) (o : mop) : option med :=
  match o with
  | MSubscribe i t key => if m_alive m then match m_subs m !! i with None => Some (subscribe m i t key) | Some _ => None end else None
  | MPublish t key x r => if m_alive m then Some (emit m t key x) else None
  | MRaw name key b => if m_alive m then Some (emit_raw m name key b) else None
  | MRecv i => recv m i
  | MUnsubscribe i =>
      match m_subs m !! i with Some (Sub c n got true up) => Some (set_sub m i (Sub c n got false up)) | _ => None end
  | MActorStop i =>
      match m_subs m !! i with Some (Sub c n got live true) => Some (set_sub m i (Sub c n got live false)) | _ => None end
  | MSystem =>
      if m_alive m then s ← m_subs m !! 0%N; x ← sb_got s !! m_seen m; Some (on_event m x) else None
  end.
Fixpoint mrun (m : med) (l : list mop) : option med :=
  match l with [] => Some m | o :: l' => m' ← mstep m o; mrun m' l' end.

(** ** Between nodes *)
(** network.proto StreamPublish *)
Record packet := Packet { pk_topic : bytes; pk_key : bytes; pk_data : bytes }.
(** A packet with its sender, its receiver and the number of the publication (for counting only). *)
Record flight := Flight { f_src : N; f_dst : N; f_tag : nat; f_packet : packet }.
(** mediator/mod.rs:198-215: the task of a publication, with the nodes that are left. *)
Record task := Task { t_src : N; t_tag : nat; t_packet : packet; t_left : list N }.
Record cluster := Clu {
  g_meds : gmap N med;
  g_tasks : list task;
  g_wire : list flight;   (* on connections *)
  g_in : list flight;     (* tasks of sessions *)
  g_sent : list flight;   (* history *)
  g_ran : list flight;    (* history *)
  g_count : nat
}.
Inductive gop :=
| GMed (n : N) (o : mop)                  (* everything local but publications in the cluster *)
| GPublish (n t : N) (key : bytes) (x : M) (order : list N)
| GSend (i : nat)
| GRecv (src dst : N)
| GLose (src dst : N)                     (* a connection breaks: what is on it is lost *)
| GRun (i : nat).
(** The first of a list with a property, and the others. *)
Fixpoint take_first {A} (p : A -> bool) (l : list A) : option (A * list A) :=
  match l with
  | [] => None
  | x :: l' => if p x then Some (x, l') else '(y, r) ← take_first p l'; Some (y, x :: r)
  end.
Definition on_link (src dst : N) (f : flight) : bool := (f_src f =? src)%N && (f_dst f =? dst)%N.
Definition gstep (g : cluster) (o : gop) : option cluster :=
  match o with
  | GMed n o =>
      match o with
      | MPublish _ _ _ Cluster => None
      | _ => m ← g_meds g !! n; m' ← mstep m o;
             Some (Clu (<[n := m']> (g_meds g)) (g_tasks g) (g_wire g) (g_in g) (g_sent g) (g_ran g) (g_count g))
      end
  | GPublish n t key x order =>
      (* mediator/mod.rs:185-222; a [HashSet] is iterated in any order *)
      m ← g_meds g !! n; m' ← mstep m (MPublish t key x Cluster);
      let ts := if m_alive m' then
                  match encode (mtype t) x with
                  | Some b => match order with [] => [] | _ => [Task n (g_count g) (Packet (tname t) key b) order] end
                  | None => []
                  end
                else [] in
      if bool_decide (order ≡ₚ elements (m_nodes m)) then
        Some (Clu (<[n := m']> (g_meds g)) (g_tasks g ++ ts) (g_wire g) (g_in g) (g_sent g) (g_ran g) (S (g_count g)))
      else None
  | GSend i =>
      (* mediator/mod.rs:208-212 *)
      t ← g_tasks g !! i;
      match t_left t with
      | [] => None
      | d :: r =>
          let f := Flight (t_src t) d (t_tag t) (t_packet t) in
          Some (Clu (g_meds g)
                 (match r with [] => delete i (g_tasks g) | _ => <[i := Task (t_src t) (t_tag t) (t_packet t) r]> (g_tasks g) end)
                 (g_wire g ++ [f]) (g_in g) (g_sent g ++ [f]) (g_ran g) (g_count g))
      end
  | GRecv src dst =>
      (* session/mod.rs:355-358: a task for each *)
      '(f, w) ← take_first (on_link src dst) (g_wire g);
      Some (Clu (g_meds g) (g_tasks g) w (g_in g ++ [f]) (g_sent g) (g_ran g) (g_count g))
  | GLose src dst =>
      Some (Clu (g_meds g) (g_tasks g) (List.filter (fun f => negb (on_link src dst f)) (g_wire g)) (g_in g) (g_sent g) (g_ran g) (g_count g))
  | GRun i =>
      (* session/mod.rs:621-626 *)
      f ← g_in g !! i;
      m ← g_meds g !! f_dst f;
      m' ← mstep m (MRaw (pk_topic (f_packet f)) (pk_key (f_packet f)) (pk_data (f_packet f)));
      Some (Clu (<[f_dst f := m']> (g_meds g)) (g_tasks g) (g_wire g) (delete i (g_in g)) (g_sent g) (g_ran g ++ [f]) (g_count g))
  end.
Fixpoint grun (g : cluster) (l : list gop) : option cluster :=
  match l with [] => Some g | o :: l' => g' ← gstep g o; grun g' l' end.
End stream.
Arguments Sub {_}. Arguments Med {_}.
