(** The heartbeat of a node: health of the others, leadership, cluster start, health report
    (coerce/src/remote/heartbeat). *)
From Verif Require Export Nodes_Model.

(** ** One node (heartbeat/mod.rs) *)

(** mod.rs:41-48. Durations in nanoseconds. *)
Record hconfig := HConfig { cf_unhealthy : N; cf_terminated : N; cf_min_size : option N }.

(** mod.rs:143-149; the pong itself is not used. *)
Inductive ping := POk (latency : N) (received : Z) | PTimeout | PDisconnected | PErr.

Section heart.
(** [DateTime::<Utc>::MIN_UTC], [MAX_UTC] and [chrono::Duration::max_value()]. *)
Variable min_date max_date max_duration : Z.
Variable cf : hconfig.

(** mod.rs:375-479; [now] is the clock. [None]: a panic, when the pong lies in the future
    ([to_std().unwrap()]) or the arithmetic on dates overflows. *)
Definition node_status (now : Z) (previous : nstatus) (beat : option Z) (p : option ping) : option nstatus :=
  match p with
  | Some (POk latency received) =>
      let since := (now - received)%Z in
      if (since <? 0)%Z then None
      else if (Z.of_N (cf_terminated cf) <=? since)%Z then Some Terminated
      else if (Z.of_N (cf_unhealthy cf) <=? since)%Z then Some Unhealthy
      else if (cf_unhealthy cf <? latency)%N then Some Unhealthy
      else Some Healthy
  | None => Some (match previous with Terminated => Terminated | _ => Joining end)
  | Some PTimeout =>
      match beat with
      | None => Some Terminated
      | Some h =>
          if (max_duration <? Z.of_N (cf_terminated cf))%Z then None
          else if (max_date <? h + Z.of_N (cf_terminated cf))%Z then None
          else if (now <=? h + Z.of_N (cf_terminated cf))%Z then Some Terminated
          else Some Unhealthy
      end
  | Some PDisconnected => Some Terminated
  | Some PErr => Some (match previous with Unhealthy => Terminated | _ => Unhealthy end)
  end.

(** mod.rs:344-373 *)
Definition update_node (now : Z) (s : rstate) (p : option ping) : option rstate :=
  let '(latency, beat) :=
    match p with
    | None => (s_latency s, s_beat s)
    | Some (POk l r) => (Some l, Some r)
    | Some _ => (None, s_beat s)
    end in
  status ← node_status now (s_status s) beat p;
  Some (RState (s_node s) latency beat status).

(** mod.rs:253-262 *)
Definition start_of (s : rstate) : Z := default min_date (r_started (s_node s)).
Definition older (a b : rstate) : bool :=
  match (start_of a ?= start_of b)%Z with
  | Eq => (s_id a <=? s_id b)%N
  | Lt => true
  | Gt => false
  end.

(** ** The actor, with the registry it works on *)

(** What it publishes on the system topic, locally, each by a task of its own. *)
Inductive hevent := EMemberUp (leader : N) (nodes : list rnode) | ELeader (n : N).

Section actor.
Context {C : Type}.   (* the channels of [OnLeaderChanged] *)
Variable rhash : N -> string -> string -> option Z -> N.
Variable search : list N -> N -> nat.
Variable self : N.

(** mod.rs:31-40 (without the timer), system/mod.rs:47 ([h_leader], an [AtomicI64]) and the
    registry. [h_told]: the channels that were answered. *)
Record heart := Heart {
  h_store : store;
  h_pings : gmap N ping;
  h_leader : Z;
  h_beaten : bool;              (* [last_heartbeat] is set *)
  h_up : bool;
  h_waiting : list C;
  h_told : list (C * N);
  h_sent : list hevent
}.

(** A u64 stored in an i64 and back (system/cluster.rs:41-60). *)
Definition as_i64 (n : N) : Z := if (n <? 2 ^ 63)%N then Z.of_N n else (Z.of_N n - 2 ^ 64)%Z.
Definition read_leader (z : Z) : option N := if (0 <=? z)%Z then Some (Z.to_N z) else None.
Definition current_leader (h : heart) : option N := read_leader (h_leader h).

(** system/builder.rs:199-203 *)
Definition new_heart (single : bool) : heart :=
  Heart (new_store rhash []) ∅ (if single then as_i64 self else (-1)%Z) false false [] [] [].

(** mod.rs:226-244: this node is healthy, the others are judged by their last ping *)
Definition judge (clock : N -> Z) (pings : gmap N ping) (s : rstate) : option rstate :=
  if (s_id s =? self)%N then Some (RState (s_node s) (s_latency s) (Some (clock self)) Healthy)
  else update_node (clock (s_id s)) s (pings !! s_id s).

(** mod.rs:253-262, 265: the oldest healthy node *)
Definition choose (updates : list rstate) : option rstate :=
  find (fun s => is_healthy (s_status s)) (stable_sort older updates).

(** mod.rs:309-326 *)
Definition update_leader (h : heart) (n : N) : heart :=
  Heart (h_store h) (h_pings h) (as_i64 n) (h_beaten h) (h_up h) []
        (h_told h ++ ((fun c => (c, n)) <$> h_waiting h)) (h_sent h ++ [ELeader n]).

(** mod.rs:328-341 *)
Definition member_up (h : heart) (n : N) (nodes : list rnode) : heart :=
  Heart (h_store h) (h_pings h) (h_leader h) (h_beaten h) true (h_waiting h) (h_told h)
        (h_sent h ++ [EMemberUp n nodes]).

(** mod.rs:293-296 *)
Definition size_reached (h : heart) : bool :=
  match cf_min_size cf with
  | None => true
  | Some n => (N.of_nat (size (h_pings h)) <=? n)%N
  end.

(** mod.rs:203-306. The nodes are read from the registry in the order [ord], judged with the
    clock at that moment, and written back; [mid] is what the registry handles in between. *)
Definition tick (h : heart) (ord : list N) (clock : N -> Z) (mid : list dop) : option heart :=
  judged ← mapM (judge clock (h_pings h)) (get_all ord (h_store h));
  let updates := stable_sort older judged in
  let new_leader :=
    if h_beaten h then
      match choose judged with
      | Some s => if decide (Some (s_id s) = current_leader h) then None else Some (s_id s)
      | None => None
      end
    else None in
  let store1 := update_nodes (fold_left (dstep rhash search) mid (h_store h)) updates in
  let h1 := Heart store1 (h_pings h) (h_leader h) (h_beaten h) (h_up h) (h_waiting h) (h_told h) (h_sent h) in
  let h2 :=
    match new_leader with
    | Some n =>
        let h' := if negb (h_up h1) && size_reached h1 then member_up h1 n (s_node <$> updates) else h1 in
        update_leader h' n
    | None => h1
    end in
  Some (Heart (h_store h2) (h_pings h2) (h_leader h2) true (h_up h2) (h_waiting h2) (h_told h2) (h_sent h2)).

Inductive hop :=
| HPing (n : N) (p : ping)
| HTick (ord : list N) (clock : N -> Z) (mid : list dop)
| HTerminated (n : N) (ord : list N) (clock : N -> Z) (mid : list dop)
| HWait (c : C)
| HRegistry (o : dop).

(** mod.rs:176-306. [None]: the handler panicked, the heartbeat actor is gone. *)
Definition hstep (h : heart) (o : hop) : option heart :=
  match o with
  | HPing n p => Some (Heart (h_store h) (<[n := p]> (h_pings h)) (h_leader h) (h_beaten h) (h_up h)
                             (h_waiting h) (h_told h) (h_sent h))
  | HTick ord clock mid => tick h ord clock mid
  | HTerminated n ord clock mid =>
      tick (Heart (node_terminated (h_store h) n) (delete n (h_pings h)) (h_leader h) (h_beaten h) (h_up h)
                  (h_waiting h) (h_told h) (h_sent h)) ord clock mid
  | HWait c => Some (Heart (h_store h) (h_pings h) (h_leader h) (h_beaten h) (h_up h)
                           (h_waiting h ++ [c]) (h_told h) (h_sent h))
  | HRegistry o => Some (Heart (dstep rhash search (h_store h) o) (h_pings h) (h_leader h) (h_beaten h) (h_up h)
                               (h_waiting h) (h_told h) (h_sent h))
  end.
Fixpoint hrun (h : heart) (l : list hop) : option heart :=
  match l with [] => Some h | o :: l' => h' ← hstep h o; hrun h' l' end.
End actor.
End heart.
Arguments heart : clear implicits.
Arguments hop : clear implicits.

(** ** Health report (heartbeat/health.rs) *)

(** The reference of a checked actor: its path and its id. *)
Record checked := Checked { k_path : string; k_id : string }.
Inductive hstatus := SysHealthy | SysDegraded | SysUnhealthy.

Section health.
Local Open Scope N_scope.
(** What an actor answers to the status question, and how long that takes (nanoseconds);
    [None] unless it answers that it is started. *)
Variable answer : checked -> option N.

(** health.rs:64-70: the key under which an actor is reported *)
Definition report_key (a : checked) : string := (k_path a ++ "/" ++ k_id a)%string.
(** health.rs:56-75, [join_all] keeps the order *)
Definition checks (actors : list checked) : list (string * option N) :=
  (fun a => (report_key a, answer a)) <$> actors.
Definition slow : N := 1000000000.
(** health.rs:77-89: the loop stops at the first actor that did not answer *)
Fixpoint examine (l : list (string * option N)) (errors slows : bool) : bool * bool :=
  match l with
  | [] => (errors, slows)
  | (_, None) :: _ => (true, slows)
  | (_, Some t) :: l' => examine l' errors (if slow <? t then true else slows)
  end.
(** health.rs:91-106; the report is collected into a table *)
Definition health (actors : list checked) : hstatus * gmap string (option N) :=
  let l := checks actors in
  let '(errors, slows) := examine l false false in
  (if errors then SysUnhealthy else if slows then SysDegraded else SysHealthy, list_to_map (rev l)).

(** health.rs:110-134, mod.rs:99-113 *)
Inductive kop := KStart (system_actors : list checked) | KRegister (a : checked) | KRemove (id : string).
Definition kstep (l : list checked) (o : kop) : list checked :=
  match o with
  | KStart sys => sys
  | KRegister a => l ++ [a]
  | KRemove id => List.filter (fun a => negb (bool_decide (k_id a = id))) l
  end.
Definition krun (l : list kop) : list checked := fold_left kstep l [].
End health.
