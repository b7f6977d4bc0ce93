(** The HTTP api: queries of requests, the list of actors, the list of nodes, the server
    (coerce/src/remote/api). *)
From Verif Require Export Heart_Model.
From Verif Require ActorSys_Model.
From Coq Require Import Ascii.

Local Open Scope N_scope.

(** The bytes of a text that only has ASCII characters. *)
Definition text (s : string) : bytes := map N_of_ascii (list_ascii_of_string s).

(** * The query of a request *)

(** [form_urlencoded::parse] (the crate behind axum's [Query], api/system/actors.rs:86): pieces
    between ampersands, the empty ones left out; a piece is divided at its first equals sign;
    plus is a space, [%] and two hexadecimal digits are a byte, another [%] stays. The names and
    values are then made valid UTF-8, which changes bytes above 127 to others above 127 only; the
    model keeps them. *)
Fixpoint split_on (c : N) (q : bytes) : list bytes :=
  match q with
  | [] => [[]]
  | b :: q' =>
      if b =? c then [] :: split_on c q'
      else match split_on c q' with p :: ps => (b :: p) :: ps | [] => [[b]] end
  end.
Fixpoint cut_at (c : N) (p : bytes) : bytes * bytes :=
  match p with
  | [] => ([], [])
  | b :: p' => if b =? c then ([], p') else let '(k, v) := cut_at c p' in (b :: k, v)
  end.
Definition hex (c : N) : option N :=
  if (48 <=? c) && (c <=? 57) then Some (c - 48)
  else if (65 <=? c) && (c <=? 70) then Some (c - 55)
  else if (97 <=? c) && (c <=? 102) then Some (c - 87)
  else None.
Fixpoint percent (p : bytes) : bytes :=
  match p with
  | [] => []
  | b :: p' =>
      if b =? 37 then
        match p' with
        | h :: l :: rest =>
            match hex h, hex l with
            | Some x, Some y => (16 * x + y) :: percent rest
            | _, _ => b :: percent p'
            end
        | _ => b :: percent p'
        end
      else b :: percent p'
  end.
Definition form_decode (p : bytes) : bytes := percent (map (fun b => if b =? 43 then 32 else b) p).
Definition pairs (q : bytes) : list (bytes * bytes) :=
  map (fun p => let '(k, v) := cut_at 61 p in (form_decode k, form_decode v))
      (List.filter (fun p => match p with [] => false | _ => true end) (split_on 38 q)).

(** [str::parse::<usize>]: an optional plus, then at least one digit, below 2^64. *)
Definition digits (v : bytes) : option N :=
  fold_left (fun acc c => n ← acc; if (48 <=? c) && (c <=? 57) then Some (10 * n + (c - 48)) else None) v (Some 0).
Definition parse_usize (v : bytes) : option N :=
  let ds := match v with c :: v' => if c =? 43 then v' else v | [] => v end in
  match ds with
  | [] => None
  | _ => n ← digits ds; if n <? 2 ^ 64 then Some n else None
  end.
(** [str::parse::<bool>] *)
Definition parse_bool (v : bytes) : option bool :=
  if decide (v = text "true") then Some true else if decide (v = text "false") then Some false else None.

(** api/system/actors.rs:10-18 while the derived [Deserialize] reads it: a field given twice is
    an error, names it does not know are passed over. *)
Record got := Got { g_depth : option N; g_children : option N; g_attached : option bool }.
(** A value is offered to the field's type as a string; [Duration] is read from a sequence or a
    map only, so it is always refused. *)
Definition read_pair (g : got) (kv : bytes * bytes) : option got :=
  let '(k, v) := kv in
  if decide (k = text "max_depth") then
    match g_depth g with
    | Some _ => None
    | None => n ← parse_usize v; Some (Got (Some n) (g_children g) (g_attached g))
    end
  else if decide (k = text "max_children") then
    match g_children g with
    | Some _ => None
    | None => n ← parse_usize v; Some (Got (g_depth g) (Some n) (g_attached g))
    end
  else if decide (k = text "child_describe_timeout") then None
  else if decide (k = text "child_describe_attached") then
    match g_attached g with
    | Some _ => None
    | None => b ← parse_bool v; Some (Got (g_depth g) (g_children g) (Some b))
    end
  else Some g.
Definition read_query (q : bytes) : option got :=
  fold_left (fun g kv => g' ← g; read_pair g' kv) (pairs q) (Some (Got None None None)).
(** actors.rs:20-22, 107-116 *)
Definition to_options (g : got) : ActorSys_Model.options :=
  ActorSys_Model.Options (N.to_nat <$> g_depth g) (N.to_nat <$> g_children g) (default true (g_attached g)).

(** * The list of actors *)

(** actors.rs:32-37, 46-56: one line of the answer. The name of the type, the number of the
    context, the tags and the time taken are left out. *)
Inductive astatus := StOk | StErr | StTimeout.
Inductive entry := Entry (id : string) (path : string) (status : astatus) (supervised : list entry).
Definition joined (path id : string) : string := (path ++ "/" ++ id)%string.
(** The actors of a tree are named by their references; [w] gives the id of each and the path
    at which it is. Attached children, and those added to a parent, are not at the path of the
    parent (C104), so paths do not follow from the tree. *)
Definition full_path (w : string -> string * string) (k : string) : string := joined (w k).2 (w k).1.
(** actors.rs:118-168, actor/context.rs:61-62 *)
Fixpoint view (w : string -> string * string) (r : ActorSys_Model.dresult) : entry :=
  match r with
  | ActorSys_Model.DOk d => view_ok w d
  | ActorSys_Model.DErr id => Entry (w id).1 (full_path w id) StErr []
  | ActorSys_Model.DTimeout id => Entry (w id).1 (full_path w id) StTimeout []
  end
with view_ok (w : string -> string * string) (d : ActorSys_Model.description) : entry :=
  match d with
  | ActorSys_Model.Desc id rs => Entry (w id).1 (full_path w id) StOk (map (view w) rs)
  end.

(** The answer to a request: refused (400, before the handler runs) or the document. *)
Inductive answer (A : Type) := BadRequest | Document (a : A).
Arguments BadRequest {A}.
Arguments Document {A} _.

(** actor/describe/mod.rs:226-252: [top] are the tracked actors, in the order of the table, and
    the scheduler. *)
Definition describe_top (o : ActorSys_Model.options) (top : list ActorSys_Model.tree) : list ActorSys_Model.dresult :=
  map (fun t => snd (ActorSys_Model.await_child (ActorSys_Model.describe_timeout 0) (ActorSys_Model.tree_id t)
                                                (ActorSys_Model.describe o 1 t))) top.
(** actors.rs:84-105. *)
Definition get_actors (w : string -> string * string) (top : list ActorSys_Model.tree) (q : bytes) : answer (list entry) :=
  match read_query q with
  | None => BadRequest
  | Some g => Document (map (view w) (describe_top (to_options g) top))
  end.

(** * The list of nodes *)

(** api/cluster/mod.rs:41-47 *)
Record cluster_nodes := ClusterNodes {
  cn_id : N; cn_leader : option N; cn_leader_tag : option string; cn_nodes : list rstate
}.
(** cluster/mod.rs:79-107. The leader is read before the registry is asked, which answers in the
    order [ord] of its table; [id], [tag] are this node's. The conversion of each node (109-126)
    keeps all its fields. *)
Definition get_nodes (id : N) (tag : string) (leader : option N) (ord : list N) (d : store) : cluster_nodes :=
  let nodes := stable_sort (fun a b => s_id a <=? s_id b) (get_all ord d) in
  ClusterNodes id leader
    (if decide (leader = Some id) then Some tag
     else (fun s => r_tag (s_node s)) <$> find (fun s => bool_decide (Some (s_id s) = leader)) nodes)
    nodes.

(** * The server *)
Section server.
Context {A : Type} `{EqDecision A}.
Notation path := string (only parsing).
(** axum's router panics at a path without leading slash, and at one that overlaps with another. *)
Variable valid : path -> bool.
Variable overlap : path -> path -> bool.

Inductive phase := Pending | Serving | Gone.
(** api/mod.rs:24-28 and the task it starts; [v_stop]: the stop hook has run. *)
Record server := Server { v_addr : A; v_paths : list path; v_phase : phase; v_stop : bool }.

(** api/mod.rs:44-47 and each [Routes::routes]; [false]: it panics. *)
Fixpoint add_routes (app : list path) (l : list path) : bool :=
  match l with
  | [] => true
  | p :: l' => valid p && negb (existsb (overlap p) app) && add_routes (p :: app) l'
  end.

Inductive aop :=
| AStart (addr : option A) (routes : list (list path))
| ARun (i : nat) (held : bool)    (* the task runs; [held]: another program has the address *)
| AStop (i : nat).
Inductive areply := RPanic | RStarted (i : nat) | RDone.

Definition serving_at (addr : A) (v : server) : bool :=
  match v_phase v with Serving => bool_decide (v_addr v = addr) | _ => false end.

(** api/builder.rs:31-40, api/mod.rs:30-63. [start] returns when the actor has started; the
    task that builds the router and binds the address goes on by itself, and nobody hears of
    its panic. Requests under way when the server stops are not modelled. *)
Definition astep (s : list server) (o : aop) : list server * areply :=
  match o with
  | AStart None _ => (s, RPanic)
  | AStart (Some a) routes => (s ++ [Server a (concat routes) Pending false], RStarted (length s))
  | ARun i held =>
      (match s !! i with
       | Some v =>
           match v_phase v with
           | Pending =>
               let up := add_routes [] (v_paths v) && negb held && negb (existsb (serving_at (v_addr v)) s) && negb (v_stop v) in
               <[i := Server (v_addr v) (v_paths v) (if up then Serving else Gone) (v_stop v)]> s
           | _ => s
           end
       | None => s
       end, RDone)
  | AStop i =>
      (match s !! i with
       | Some v => <[i := Server (v_addr v) (v_paths v) (match v_phase v with Serving => Gone | p => p end) true]> s
       | None => s
       end, RDone)
  end.
(** Who answers a request to a path at an address. *)
Definition served (s : list server) (addr : A) (p : path) : option nat :=
  fst <$> find (fun iv => serving_at addr (iv.2) && existsb (String.eqb p) (v_paths (iv.2))) (imap pair s).
End server.
Arguments server : clear implicits.
Arguments aop : clear implicits.
