(** The coordinator and the shard hosts of a cluster, with the messages between them. *)
From Verif Require Export Coord_Model Host_Model.

Local Open Scope N_scope.

(** Everything that is under way. *)
Inductive packet (R : Type) :=
| PSend (n : N) (m : hmsg R)                    (* to the host of [n], not yet arrived *)
| PMail (n : N) (m : hmsg R)                    (* in the mailbox of that host *)
| PAsk (n s : N)                                (* host/request.rs:91-97: a host asks for an allocation *)
| PMoved (s : N)                                (* balancing.rs:117-123: the stop was answered, the coordinator's
                                                   task asks for the reallocation *)
| PStopTask (n s a : N) (req : option stop_req) (* host/mod.rs:338-361 *)
| PNotifyStop (n s a : N)                       (* host/mod.rs:224 *)
| PTask (n s a : N) (r : R).                    (* host/request.rs:45-62: send the request to the shard actor *)
Arguments PSend {R}. Arguments PMail {R}. Arguments PAsk {R}. Arguments PMoved {R}.
Arguments PStopTask {R}. Arguments PNotifyStop {R}. Arguments PTask {R}.

(** [y_live]: the shard actors that exist: node, shard, number, and whether it has completed
    its start ([Shard::post_recovery]). [y_got]: what shard actors received. Mailboxes and
    messages in flight are in one list: those of one mailbox are handled in the order of the
    list, everything else happens in any order. *)
Record sys (R : Type) := Sys {
  y_coord : coord;
  y_hosts : gmap N (host R);
  y_net : list (packet R);
  y_live : list (N * N * N * bool);
  y_got : list (N * N * N * R);
  y_ids : N }.
Arguments Sys {R}. Arguments y_coord {R}. Arguments y_hosts {R}. Arguments y_net {R}.
Arguments y_live {R}. Arguments y_got {R}. Arguments y_ids {R}.

Inductive yop (R : Type) :=
| YCoord (o : cop)                               (* the coordinator: rebalancing, membership *)
| YPick (i : nat) (persisted : bool) (ord : list N)  (* the [i]th packet advances *)
| YHandle (n : N)                                (* the host of [n] handles its next message *)
| YUp (n s a : N)                                (* a shard actor completes its start *)
| YRequest (n s : N) (r : R)                     (* an entity request on node [n] *)
| YCrash (n : N).                                (* node [n] dies *)
Arguments YCoord {R}. Arguments YPick {R}. Arguments YHandle {R}. Arguments YUp {R}.
Arguments YRequest {R}. Arguments YCrash {R}.

Section sys.
Context {R : Type}.
Implicit Types (y : sys R) (h : host R) (p : packet R).

(** A cluster of the given nodes with the coordinator on [self]. *)
Definition sys_init (self : N) (nodes : list N) : sys R :=
  Sys (coord_init self (map (fun n => (n, true)) nodes))
      (list_to_map (map (fun n => (n, host_init n)) (self :: nodes))) [] [] [] 0.

(** What the coordinator's effects put under way: allocation.rs:135-176, 178-199,
    balancing.rs:90-130. [id] numbers the stop requests. *)
Fixpoint coord_packets (self id : N) (eff : list ceffect) : list (packet R) :=
  match eff with
  | [] => []
  | CTell s owner targets :: eff' => map (fun t => PSend t (MAllocated s owner)) targets ++ coord_packets self id eff'
  | CReallocating s targets :: eff' => map (fun t => PSend t (MReallocating s)) targets ++ coord_packets self id eff'
  | CStop s n :: eff' => PSend n (MStop s (id, self)) :: coord_packets self (id + 1) eff'
  | _ :: eff' => coord_packets self id eff'
  end.
(** host/request.rs:98-116: the answer to a host's question makes it notify itself *)
Definition answer_packets (n : N) (eff : list ceffect) : list (packet R) :=
  omap (fun e => match e with
                 | CAnswer (Allocated s o) | CAnswer (AlreadyAllocated s o) => Some (PSend n (MAllocated s o))
                 | _ => None end) eff.

(** What the effects of the host of [n] put under way. Requests to shards on other nodes are
    not followed. *)
Definition host_packets (n : N) (eff : list (heffect R)) : list (packet R) :=
  omap (fun e => match e with
                 | HForward s a r => Some (PTask n s a r)
                 | HAsk s => Some (PAsk n s)
                 | HNotifyStop s a => Some (PNotifyStop n s a)
                 | HStopTask s a req => Some (PStopTask n s a req)
                 | _ => None end) eff.
Definition started (n : N) (eff : list (heffect R)) : list (N * N * N * bool) :=
  omap (fun e => match e with HStart s a => Some (n, s, a, false) | _ => None end) eff.

Definition is_actor (n s a : N) (x : N * N * N * bool) : bool :=
  let '(n', s', a', _) := x in (n' =? n) && (s' =? s) && (a' =? a).
Definition starting_actor (n s a : N) (x : N * N * N * bool) : bool := is_actor n s a x && negb x.2.

Definition remove_nth {A} (i : nat) (l : list A) : list A := take i l ++ drop (S i) l.
Definition mail_for (n : N) p : bool := match p with PMail n' _ => n' =? n | _ => false end.
Fixpoint index_of {A} (f : A -> bool) (l : list A) : option nat :=
  match l with
  | [] => None
  | x :: l' => if f x then Some O else S <$> index_of f l'
  end.
(** Tasks and mailboxes of a node. *)
Definition of_node (n : N) p : bool :=
  match p with
  | PMail n' _ | PAsk n' _ | PStopTask n' _ _ _ | PNotifyStop n' _ _ | PTask n' _ _ _ => n' =? n
  | _ => false
  end.

(** The coordinator handles a message. *)
Definition coord_step y (net : list (packet R)) (o : cop) (asker : option N) : sys R :=
  match cstep (y_coord y) o with
  | None => y
  | Some (c, eff) =>
      Sys c (y_hosts y)
          (net ++ coord_packets (c_self c) (y_ids y) eff ++ match asker with Some n => answer_packets n eff | None => [] end)
          (y_live y) (y_got y) (y_ids y + N.of_nat (length eff))
  end.

Definition set_net y net : sys R := Sys (y_coord y) (y_hosts y) net (y_live y) (y_got y) (y_ids y).

(** A stopping actor is gone; an actor that is still starting handles the stop later. *)
Definition remove_actor (n s a : N) (l : list (N * N * N * bool)) : list (N * N * N * bool) :=
  List.filter (fun x => negb (is_actor n s a x)) l.

Definition pick y (i : nat) (persisted : bool) (ord : list N) : sys R :=
  match y_net y !! i with
  | None => y
  | Some p =>
      let net := remove_nth i (y_net y) in
      match p with
      | PSend n m => set_net y (match y_hosts y !! n with Some _ => net ++ [PMail n m] | None => net end)
      | PMail _ _ => y
      | PAsk n s => coord_step y net (COAllocate s false persisted ord) (Some n)
      | PMoved s => coord_step y net (COAllocate s true persisted ord) None
      | PStopTask n s a req =>
          if existsb (starting_actor n s a) (y_live y) then y
          else Sys (y_coord y) (y_hosts y)
                   (net ++ PMail n (MStopped s) :: match req with Some _ => [PMoved s] | None => [] end)
                   (remove_actor n s a (y_live y)) (y_got y) (y_ids y)
      | PNotifyStop n s a =>
          if existsb (starting_actor n s a) (y_live y) then y
          else Sys (y_coord y) (y_hosts y) net (remove_actor n s a (y_live y)) (y_got y) (y_ids y)
      | PTask n s a r =>
          Sys (y_coord y) (y_hosts y) net (y_live y)
              (if existsb (is_actor n s a) (y_live y) then y_got y ++ [(n, s, a, r)] else y_got y) (y_ids y)
      end
  end.

Definition ystep y (o : yop R) : sys R :=
  match o with
  | YCoord (COAllocate _ _ _ _) | YCoord (CORecover _ _) => y
  | YCoord o => coord_step y (y_net y) o None
  | YPick i persisted ord => pick y i persisted ord
  | YHandle n =>
      match y_hosts y !! n, index_of (mail_for n) (y_net y) with
      | Some h, Some i =>
          match y_net y !! i with
          | Some (PMail _ m) =>
              let '(h', eff) := hstep h m in
              Sys (y_coord y) (<[n := h']> (y_hosts y))
                  (remove_nth i (y_net y) ++ host_packets n eff)
                  (y_live y ++ started n eff) (y_got y) (y_ids y)
          | _ => y
          end
      | _, _ => y
      end
  | YUp n s a =>
      if existsb (starting_actor n s a) (y_live y) then
        Sys (y_coord y) (y_hosts y) (y_net y ++ [PMail n (MReady s a)])
            (map (fun x => if is_actor n s a x then (x.1, true) else x) (y_live y)) (y_got y) (y_ids y)
      else y
  | YRequest n s r =>
      match y_hosts y !! n with Some _ => set_net y (y_net y ++ [PMail n (MRequest s r)]) | None => y end
  | YCrash n =>
      Sys (y_coord y) (delete n (y_hosts y)) (List.filter (fun p => negb (of_node n p)) (y_net y))
          (List.filter (fun x => negb (x.1.1.1 =? n)) (y_live y)) (y_got y) (y_ids y)
  end.

Definition yrun y (l : list (yop R)) : sys R := fold_left ystep l y.

End sys.
