(** The sharding statistics of the HTTP api (coerce/src/remote/api/sharding): what the coordinator,
    the shards and the hosts report, collected while the system goes on. *)
From Verif Require Export Coord_Model Host_Model.
From Verif Require Import Entity_Model.

Local Open Scope N_scope.

(** shard/mod.rs:34-42: the entities of a shard; requests carry nothing of interest here. *)
Notation sents := (gmap N (N * estate unit)).

(** shard/stats.rs:15-20 *)
Record shard_report := ShardReport { sr_shard : N; sr_node : N; sr_entities : list N }.
(** coordinator/stats.rs:11-22, without the entity type: all shards, their nodes, the nodes *)
Record coord_report := CoordReport { cr_total : N; cr_shards : list (N * N); cr_nodes : list (N * N * hstatus) }.

(** api/sharding/cluster.rs:53-82; a shard with its node, the number of its entities (u32) and
    the entities *)
Record listed := Listed { ls_shard : N; ls_node : N; ls_count : N; ls_entities : list N }.
Record cluster_stats := ClusterStats {
  cl_total_shards : N;
  cl_total_nodes : N;
  cl_available : N;
  cl_total_entities : N;
  cl_nodes : list (N * N * hstatus);
  cl_shards : list listed }.

(** coordinator/stats.rs:26-48 *)
Definition coord_report_of (c : coord) (ord sord : list N) : coord_report :=
  let '(total, shards, nodes) := stats c ord sord in
  CoordReport (N.of_nat total) shards (map (fun x => (x.1.1, N.of_nat x.1.2, x.2)) nodes).

(** shard/stats.rs:24-33; [eord] is the order of the hash table *)
Definition shard_report_of (s n : N) (m : sents) (eord : list N) : shard_report :=
  ShardReport s n (map fst (arrange eord m)).

(** cluster.rs:246-261: [as u32] *)
Definition listed_of (r : shard_report) : listed :=
  Listed (sr_shard r) (sr_node r) (N.of_nat (length (sr_entities r)) mod 2 ^ 32) (sr_entities r).

(** cluster.rs:155-164. The sum of u32 numbers wraps around (release build). *)
Definition is_available (x : N * N * hstatus) : bool := bool_decide (x.2 = SReady).
Definition cluster_stats_of (cr : coord_report) (l : list shard_report) : cluster_stats :=
  let shards := map listed_of l in
  ClusterStats (cr_total cr) (N.of_nat (length (cr_nodes cr)) mod 2 ^ 32)
               (N.of_nat (length (List.filter is_available (cr_nodes cr))) mod 2 ^ 32)
               (fold_left (fun z x => (z + ls_count x) mod 2 ^ 32) shards 0)
               (cr_nodes cr) shards.

(** cluster.rs:174-204: a reference to a shard actor of this node, by its number, or to whatever
    shard actor another node has when the message arrives. *)
Inductive sref := RLocal (s a : N) | RRemote (s n : N).

(** cluster.rs:117-172 and 216-229: the stages of one call. [QDone None]: the body is [null].
    [QPanicked]: a task panicked; the call ends with a closed connection, without a response. *)
Inductive query :=
| QNone
| QCoordinator                                                        (* 139: waits for the coordinator *)
| QLookup (cr : coord_report) (todo : list (N * N)) (refs : list sref)  (* 140, 180-201 *)
| QShards (cr : coord_report) (slots : list (sref * option (option shard_report)))  (* 145: waits for the shards *)
| QDone (r : option cluster_stats)
| QPanicked.

(** [w_self]: the node on which the call is made; [w_shards]: the shard actors that run, by node
    and shard (their names, host/mod.rs:374-376), with numbers and entities; [w_journal]: the
    entities each shard has written; [w_live]: the entity actors that run. *)
Record world := World {
  w_self : N;
  w_coord : coord;
  w_shards : gmap (N * N) (N * sents);
  w_journal : gmap N (list eentry);
  w_live : gset N;
  w_next : N;
  w_query : query }.

Definition world_init (self leader : N) (nodes : list (N * bool)) : world :=
  World self (coord_init leader nodes) ∅ ∅ ∅ 0 QNone.

Inductive wop :=
| WCoord (o : cop)                                    (* the coordinator handles a message *)
| WShardStarted (n s : N)                             (* a shard actor starts and recovers *)
| WShardStopped (n s : N)
| WCrash (n : N)
| WRequest (n id : N) (recipe : option N) (known persisted : bool)   (* a request reaches its shard on [n] *)
| WCreated (n id : N) (ok : bool)                     (* the creation of an entity has ended *)
| WEntityStopped (e : N)                              (* an entity actor stops by itself *)
| WAsk (known up : bool)                              (* the call; whether the type is attached, the host there *)
| WCoordAnswers (ok : bool) (ord sord : list N)       (* the coordinator's answer or an error *)
| WLookup                                             (* the next shard is looked up *)
| WShardAnswers (i : nat) (ok : bool) (eord : list N).  (* the answer of a shard or an error *)

Definition set_query (w : world) (q : query) : world :=
  World (w_self w) (w_coord w) (w_shards w) (w_journal w) (w_live w) (w_next w) q.
Definition set_shards (w : world) m j live next : world := World (w_self w) (w_coord w) m j live next (w_query w).

(** All answers are there (cluster.rs:145-155): with an error among them, the [unwrap] panics. *)
Definition settle (q : query) : query :=
  match q with
  | QLookup cr [] refs => QShards cr (map (fun r => (r, None)) refs)
  | _ => q
  end.
Definition all_reports {A} (l : list (option A)) : option (list A) := mapM (fun x => x) l.
Definition finish (q : query) : query :=
  match q with
  | QShards cr slots =>
      match all_reports (map snd slots) with
      | None => q
      | Some l => match all_reports l with
                  | Some reports => QDone (Some (cluster_stats_of cr reports))
                  | None => QPanicked
                  end
      end
  | _ => q
  end.

(** The shard actor that gets [GetShardStats]: a local reference leads to that actor only. *)
Definition find_shard (w : world) (r : sref) : option (N * N * sents) :=
  match r with
  | RLocal s a => match w_shards w !! (w_self w, s) with
                  | Some (a', m) => if a' =? a then Some (s, w_self w, m) else None
                  | None => None
                  end
  | RRemote s n => match w_shards w !! (n, s) with Some (_, m) => Some (s, n, m) | None => None end
  end.

(** The entity actors a shard knows; they stop with it (actor/supervised.rs:143-167). *)
Definition active (m : sents) : list N :=
  omap (fun x : N * (N * estate unit) => match x.2.2 with EActive e => Some e | _ => None end) (map_to_list m).

Section stats.
(** The shard of an entity ([ShardAllocator::allocate], host/mod.rs:76-78). *)
Variable shard_of : N -> N.

Definition wstep (w : world) (o : wop) : world :=
  match o with
  | WCoord o =>
      match cstep (w_coord w) o with
      | Some (c, _) => World (w_self w) c (w_shards w) (w_journal w) (w_live w) (w_next w) (w_query w)
      | None => w
      end
  | WShardStarted n s =>
      match w_shards w !! (n, s) with
      | Some _ => w
      | None => set_shards w (<[(n, s) := (w_next w, recover_log (default [] (w_journal w !! s)) ∅)]> (w_shards w))
                           (w_journal w) (w_live w) (w_next w + 1)
      end
  | WShardStopped n s =>
      set_shards w (delete (n, s) (w_shards w)) (w_journal w)
                 (w_live w ∖ list_to_set (match w_shards w !! (n, s) with Some (_, m) => active m | None => [] end)) (w_next w)
  | WCrash n =>
      set_shards w (filter (fun x => x.1.1 <> n) (w_shards w)) (w_journal w)
                 (w_live w ∖ list_to_set (concat (map (fun x => active x.2.2) (map_to_list (filter (fun x => x.1.1 = n) (w_shards w))))))
                 (w_next w)
  | WRequest n id recipe known persisted =>
      let s := shard_of id in
      match w_shards w !! (n, s) with
      | None => w
      | Some (a, m) =>
          let '(m', eff) := on_entity_request m (EReq id recipe known tt) in
          set_shards w (<[(n, s) := (a, m')]> (w_shards w))
            (if persisted then <[s := default [] (w_journal w !! s) ++ map (fun x => JStart x.1 x.2) (creates eff)]> (w_journal w)
             else w_journal w) (w_live w) (w_next w)
      end
  | WCreated n id ok =>
      let s := shard_of id in
      match w_shards w !! (n, s) with
      | None => w
      | Some (a, m) =>
          if ok then
            set_shards w (<[(n, s) := (a, (on_start_result m id (Some (w_next w))).1)]> (w_shards w))
                       (w_journal w) ({[w_next w]} ∪ w_live w) (w_next w + 1)
          else w
      end
  | WEntityStopped e => set_shards w (w_shards w) (w_journal w) (w_live w ∖ {[e]}) (w_next w)
  | WAsk known up =>
      match w_query w with
      | QNone => set_query w (if known && up then QCoordinator else QDone None)
      | _ => w
      end
  | WCoordAnswers ok ord sord =>
      match w_query w with
      | QCoordinator =>
          let cr := coord_report_of (w_coord w) ord sord in
          set_query w (if ok then finish (settle (QLookup cr (cr_shards cr) [])) else QPanicked)
      | _ => w
      end
  | WLookup =>
      match w_query w with
      | QLookup cr ((s, n) :: todo) refs =>
          let refs' := if n =? w_self w
                       then match w_shards w !! (n, s) with Some (a, _) => refs ++ [RLocal s a] | None => refs end
                       else refs ++ [RRemote s n] in
          set_query w (finish (settle (QLookup cr todo refs')))
      | _ => w
      end
  | WShardAnswers i ok eord =>
      match w_query w with
      | QShards cr slots =>
          match slots !! i with
          | Some (r, None) =>
              let ans := if ok then match find_shard w r with
                                    | Some (s, n, m) => Some (shard_report_of s n m eord)
                                    | None => None
                                    end
                         else None in
              set_query w (finish (QShards cr (<[i := (r, Some ans)]> slots)))
          | _ => w
          end
      | _ => w
      end
  end.

Definition wrun (w : world) (l : list wop) : world := fold_left wstep l w.

End stats.

(** api/sharding/node.rs:37-106: what [/sharding/stats/node/{entity}] tells about a host: the total and the
    lists of hosted and of remote shards, which are left empty. *)
Definition node_stats {R} (h : host R) (sord rord : list N) : nat * list N * list (N * N) :=
  let '(_, hosted, remote, _, _) := host_stats h sord rord in ((hosted + remote)%nat, [], []).
