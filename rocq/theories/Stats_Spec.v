(** What is expected of the sharding statistics. *)
From Verif Require Import Entity_Model Stats_Model.
Local Open Scope N_scope.

(** Whether entity [id] is known to the shard actor [s] of node [n]. *)
Definition has_entity (w : world) (n s id : N) : Prop := exists a m, w_shards w !! (n, s) = Some (a, m) /\ is_Some (m !! id).
Definition shard_runs (w : world) (n s : N) : Prop := is_Some (w_shards w !! (n, s)).
(** The number of the shard actor. *)
Definition shard_actor (w : world) (n s : N) : option N := fst <$> w_shards w !! (n, s).
(** Every allocated shard runs on its node. *)
Definition settled (w : world) : Prop := forall s n, c_shards (w_coord w) !! s = Some n -> shard_runs w n s.

(** A moment of a run between two others; moments are prefixes of the list of steps. *)
Definition between {A} (l0 t l : list A) : Prop := l0 `prefix_of` t /\ t `prefix_of` l.

(** The step belongs to the call itself, and nothing fails. *)
Definition asking (o : wop) : bool :=
  match o with WAsk true true | WCoordAnswers true _ _ | WLookup | WShardAnswers _ true _ => true | _ => false end.
(** An error reaches the call although the addressed actor might be there (connection, timeout). *)
Definition failure (o : wop) : bool :=
  match o with WCoordAnswers false _ _ | WShardAnswers _ false _ => true | _ => false end.

(** Answers the call still waits for. *)
Definition steps_left (q : query) : nat :=
  match q with
  | QLookup cr todo refs => 2 * length todo + length refs
  | QShards _ slots => length (List.filter (fun x => match x.2 with None => true | _ => false end) slots)
  | _ => 0
  end.
Definition open_query (q : query) : Prop :=
  match q with QCoordinator | QLookup _ _ _ | QShards _ _ => True | _ => False end.

(** The shards a host knows of. *)
Definition known_shards {R} (h : host R) : gset N := dom (sh_hosted h) ∪ dom (sh_remote h).
(** A shard reports that it is ready only while the host waits for it. *)
Fixpoint expected_ready {R} (h : host R) (l : list (hmsg R)) : Prop :=
  match l with
  | [] => True
  | m :: l' => match m with MReady s _ => is_Some (sh_hosted h !! s) | _ => True end /\ expected_ready (hstep h m).1 l'
  end.

(** The numbers of the answer are those of coordinator state [c], and those of the lists. *)
Definition counts_right (c : coord) (r : cluster_stats) : Prop :=
  cl_total_shards r = N.of_nat (size (c_shards c)) /\
  cl_total_shards r = foldr N.add 0 (map (fun x => x.1.2) (cl_nodes r)) /\
  NoDup (map (fun x => x.1.1) (cl_nodes r)) /\
  (forall n k st, (n, k, st) ∈ cl_nodes r <-> exists h, c_hosts c !! n = Some h /\ k = N.of_nat (size (h_shards h)) /\ st = h_status h) /\
  cl_total_nodes r = N.of_nat (length (cl_nodes r)) mod 2 ^ 32 /\
  cl_available r = N.of_nat (length (List.filter (fun x => bool_decide (x.2 = SReady)) (cl_nodes r))) mod 2 ^ 32 /\
  (forall x, x ∈ cl_shards r -> ls_count x = N.of_nat (length (ls_entities x)) mod 2 ^ 32) /\
  cl_total_entities r = N.of_nat (length (concat (map ls_entities (cl_shards r)))) mod 2 ^ 32.
(** A shard is listed for the node. *)
Definition lists (r : cluster_stats) (s n : N) : Prop := exists x, x ∈ cl_shards r /\ ls_shard x = s /\ ls_node x = n.
