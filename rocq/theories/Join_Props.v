(** Properties C77 and C78: workers that have been started are in the cluster; starting returns. *)
From Verif Require Import Mesh_Model Join_Model Join_Spec Join_Proofs Join_Proofs2.

(** Membership in a concrete list. *)
Local Ltac inl := unfold has_seed; cbn; repeat (apply elem_of_cons; first [left; reflexivity|right]).
Local Ltac unlist H :=
  repeat (apply elem_of_cons in H as [H|H]; [try discriminate H; injection H as -> ->; auto|]);
  apply elem_of_nil in H; contradiction.

(** Concrete runs, evaluated. *)
Definition knowsb (j : jstate) (x y : N) : bool :=
  match j_nodes j !! x with Some m => bool_decide (y ∈ m_known m) | None => false end.
Definition backb (j : jstate) (x : N) : bool := match j_phase j !! x with Some (PBack _) => true | _ => false end.
Definition doneb (j : jstate) (x : N) : bool := match j_phase j !! x with Some (PBack ODone) => true | _ => false end.
Definition resolvedb (j : jstate) (x : N) : bool := match j_phase j !! x with Some (PBack OUnresolved) => false | _ => true end.
Lemma knowsb_spec j x y : knowsb j x y = true <-> jknows j x y.
Proof.
  unfold knowsb, jknows. destruct (j_nodes j !! x) as [m|].
  - rewrite bool_decide_eq_true. split; [eauto|]. by intros (m' & [= <-] & H).
  - split; [done|]. by intros (m' & E & _).
Qed.
Lemma backb_spec j x : backb j x = true -> returned j x.
Proof. unfold backb, returned. destruct (j_phase j !! x) as [[| | |r]|]; try done. eauto. Qed.
Lemma doneb_spec j x : doneb j x = true -> j_phase j !! x = Some (PBack ODone).
Proof. unfold doneb. by destruct (j_phase j !! x) as [[| | |[]]|]. Qed.
Lemma resolvedb_spec j x : resolvedb j x = true -> j_phase j !! x <> Some (PBack OUnresolved).
Proof. unfold resolvedb. by destruct (j_phase j !! x) as [[| | |[]]|]. Qed.
Lemma run_shows (P : jstate -> bool) ops :
  match jruns join_init ops with Some j => P j | None => false end = true ->
  exists j, jruns join_init ops = Some j /\ P j = true.
Proof. destruct (jruns join_init ops) as [j|]; [eauto|done]. Qed.

(** When nothing fails, then once all calls of [start] have returned any two workers that are
    linked by the seeds they were given have each other in their lists of nodes. Missing: what may
    fail, see below. *)
Theorem C77_all_know_partial ops j x y :
  jruns join_init ops = Some j -> forallb fine ops = true -> resolved ops j -> all_returned ops j ->
  linked ops x y -> calls_start ops x -> jknows j x y /\ jknows j y x.
Proof. intros E Hf Hres Hall Hl Hx. exact (all_know ops j x y E Hf Hall Hres Hl Hx). Qed.
Print Assumptions C77_all_know_partial.

(** When nothing fails, a worker of which nobody has told it anything before it has asked its seed
    is known, as soon as its own call of [start] has returned, to its seed and all nodes found
    through it, whatever else is still under way. *)
Theorem C77_newcomer_partial ops1 j1 x l ops2 j n :
  jruns join_init ops1 = Some j1 -> (forall y, jknows j1 x y -> y = x) ->
  jruns j1 (JAsk x (Some l) :: ops2) = Some j ->
  forallb fine (ops1 ++ JAsk x (Some l) :: ops2) = true -> returned j x -> n ∈ l ->
  jknows j x n /\ jknows j n x.
Proof. intros E1 Ho E Hf Hr Hn. exact (newcomer_known ops1 j1 x l ops2 j E1 Ho E Hf Hr n Hn). Qed.
Print Assumptions C77_newcomer_partial.

(** Nothing tells the caller that the seed was not resolved: [start] returns all the same, and
    nobody knows of the worker. *)
Theorem C77_unresolved_refuted :
  exists ops j, jruns join_init ops = Some j /\ forallb fine ops = true /\ all_returned ops j /\
    has_seed ops 2 1 /\ ~ jknows j 1 2 /\ ~ jknows j 2 1.
Proof.
  set (ops := ([JStart 1 None; JStart 2 (Some 1)] ++ repeat (JLookup 2 false) 12)%N).
  destruct (run_shows (fun j => backb j 1 && backb j 2 && negb (knowsb j 1 2) && negb (knowsb j 2 1)) ops) as (j & E & H);
    [vm_compute; reflexivity|].
  apply andb_true_iff in H as [H H4]. apply andb_true_iff in H as [H H3]. apply andb_true_iff in H as [H1 H2].
  exists ops, j. split_and!; [exact E|vm_compute; reflexivity| | | |].
  - intros x (s & Hs).
    assert (x = 1%N \/ x = 2%N) as [-> | ->]; [|by apply backb_spec..].
    apply elem_of_app in Hs as [Hs|Hs]; [unlist Hs|].
    apply elem_of_list_In, repeat_spec in Hs. done.
  - unfold ops. inl.
  - intros K%knowsb_spec. by rewrite K in H3.
  - intros K%knowsb_spec. by rewrite K in H4.
Qed.
Print Assumptions C77_unresolved_refuted.

(** Nor that the seed could not be asked. *)
Theorem C77_unknown_refuted :
  exists ops j, jruns join_init ops = Some j /\ all_returned ops j /\ resolved ops j /\
    has_seed ops 2 1 /\ ~ jknows j 1 2 /\ ~ jknows j 2 1.
Proof.
  set (ops := ([JStart 1 None; JStart 2 (Some 1); JLookup 2 true; JAsk 2 None])%N).
  destruct (run_shows (fun j => backb j 1 && backb j 2 && negb (knowsb j 1 2) && negb (knowsb j 2 1) && resolvedb j 1 && resolvedb j 2) ops) as (j & E & H);
    [vm_compute; reflexivity|].
  apply andb_true_iff in H as [H H6]. apply andb_true_iff in H as [H H5].
  apply andb_true_iff in H as [H H4]. apply andb_true_iff in H as [H H3]. apply andb_true_iff in H as [H1 H2].
  assert (Hc : forall x, calls_start ops x -> x = 1%N \/ x = 2%N).
  { intros x (s & Hs). unfold ops in Hs. unlist Hs. }
  exists ops, j. split_and!; [exact E| | | | |].
  - intros x [-> | ->]%Hc; by apply backb_spec.
  - intros x [-> | ->]%Hc; by apply resolvedb_spec.
  - unfold ops. inl.
  - intros K%knowsb_spec. by rewrite K in H3.
  - intros K%knowsb_spec. by rewrite K in H4.
Qed.
Print Assumptions C77_unknown_refuted.

(** Nor that the handshake with the seed has failed: the discovery is complete all the same. *)
Theorem C77_failed_refuted :
  exists ops j, jruns join_init ops = Some j /\ j_phase j !! 2%N = Some (PBack ODone) /\
    has_seed ops 2 1 /\ jknows j 2 1 /\ ~ jknows j 1 2.
Proof.
  set (ops := ([JStart 1 None; JStart 2 (Some 1); JLookup 2 true; JAsk 2 (Some [1]); JLose 0; JGiveUp 0; JReturn 2])%N).
  destruct (run_shows (fun j => doneb j 2 && knowsb j 2 1 && negb (knowsb j 1 2)) ops) as (j & E & H);
    [vm_compute; reflexivity|].
  apply andb_true_iff in H as [H H3]. apply andb_true_iff in H as [H1 H2].
  exists ops, j. split_and!; [exact E|by apply doneb_spec|unfold ops; inl|by apply knowsb_spec|].
  intros K%knowsb_spec. by rewrite K in H3.
Qed.
Print Assumptions C77_failed_refuted.

(** Three workers, each with the next one as its seed, start at the same time. Nothing fails, but
    one of them is back before its seed knows of it: it had learned of the seed from the third
    one, and its own discovery found nothing new to wait for. *)
Theorem C77_early_refuted :
  exists ops j, jruns join_init ops = Some j /\ forallb fine ops = true /\
    j_phase j !! 1%N = Some (PBack ODone) /\ has_seed ops 1 2 /\ jknows j 1 2 /\ ~ jknows j 2 1.
Proof.
  set (ops := ([JStart 1 (Some 2); JStart 2 (Some 3); JStart 3 (Some 1);
           JLookup 1 true; JLookup 2 true; JLookup 3 true;
           JAsk 2 (Some [3]); JHandle 0 [2] []; JAsk 3 (Some [1]); JHandle 2 [2;3] [];
           JAsk 1 (Some [2;3]); JReturn 1])%N).
  destruct (run_shows (fun j => doneb j 1 && knowsb j 1 2 && negb (knowsb j 2 1)) ops) as (j & E & H);
    [vm_compute; reflexivity|].
  apply andb_true_iff in H as [H H3]. apply andb_true_iff in H as [H1 H2].
  exists ops, j. split_and!; [exact E|vm_compute; reflexivity|by apply doneb_spec|unfold ops; inl|by apply knowsb_spec|].
  intros K%knowsb_spec. by rewrite K in H3.
Qed.
Print Assumptions C77_early_refuted.

(** No circle of waiting: as long as a call of [start] has not returned, whatever has happened,
    some step can be taken, without anyone giving up on a handshake that is not lost or failing
    to ask a seed that is up. *)
Theorem C78_no_deadlock ops j x :
  jruns join_init ops = Some j -> is_Some (j_phase j !! x) -> ~ returned j x ->
  exists o j', goes_on o = true /\ harmless j o /\ jstep j o = Some j'.
Proof. intros E. exact (goes_on_enabled j x (reach_runs _ _ _ reach_init E)). Qed.
Print Assumptions C78_no_deadlock.

(** In whichever order they are taken, these steps come to an end. *)
Theorem C78_bounded ops j ops' j' :
  jruns join_init ops = Some j -> jruns j ops' = Some j' -> forallb goes_on ops' = true ->
  (length ops' <= 2 * (size (j_nodes j) * size (j_nodes j)) + 2 * length (j_tickets j) + 15 * size (j_nodes j))%nat.
Proof.
  intros E E' Ho. pose proof (reach_runs _ _ _ reach_init E) as R.
  pose proof (goes_on_length _ _ _ R Ho E'). pose proof (weight_bound j R). lia.
Qed.
Print Assumptions C78_bounded.

(** So every call of [start] returns. *)
Theorem C78_returns ops j :
  jruns join_init ops = Some j ->
  exists ops' j', forallb goes_on ops' = true /\ patient j ops' /\ jruns j ops' = Some j' /\
    (forall x, is_Some (j_phase j !! x) -> returned j' x).
Proof.
  intros E. pose proof (reach_runs _ _ _ reach_init E) as R.
  destruct (all_return j R) as (ops' & j' & H1 & H2 & H3 & H4). exists ops', j'. split_and!; [done|done|done|].
  intros x Hx. apply H4. exact (phase_kept_runs _ _ _ x H3 Hx).
Qed.
Print Assumptions C78_returns.

(** And it has if no step is left. *)
Theorem C78_stuck_returned ops j x :
  jruns join_init ops = Some j -> (forall o, goes_on o = true -> jstep j o = None) ->
  is_Some (j_phase j !! x) -> returned j x.
Proof.
  intros E Hs Hx. destruct (j_phase j !! x) as [[s a|s| |r]|] eqn:Ep; [| | |by exists r|by destruct Hx].
  all: exfalso; destruct (goes_on_enabled j x (reach_runs _ _ _ reach_init E)) as (o & j' & Ho & _ & E');
    [by eauto|intros (r & Er); congruence|rewrite (Hs o Ho) in E'; done].
Qed.
Print Assumptions C78_stuck_returned.

(** The seed is looked up eleven times: the first success among these counts. *)
Theorem C78_lookups j x s n :
  j_phase j !! x = Some (PLook s 1) -> (n <= 11)%nat ->
  exists j', jruns j (repeat (JLookup x false) n ++ [JLookup x true]) = Some j' /\
    j_phase j' !! x = Some (if (n <? 11)%nat then PAsk s else PBack OUnresolved).
Proof. exact (lookups j x s n). Qed.
Print Assumptions C78_lookups.

(** Two workers join through the first one at the same time. *)
Definition join_ops : list jop :=
  ([JStart 1 None; JStart 2 (Some 1); JStart 3 (Some 1); JLookup 2 false; JLookup 3 true; JLookup 2 true;
    JAsk 2 (Some [1]); JAsk 3 (Some [1]); JHandle 0 [2] []; JHandle 1 [3] []; JHandle 2 [1] []; JAck 2; JAck 0; JReturn 2;
    JHandle 3 [2;1] []; JHandle 4 [3;1] []; JHandle 5 [1;2] []; JAck 5; JAck 4; JAck 3; JAck 1; JReturn 3])%N.
Example C77_example :
  match jruns join_init join_ops with
  | Some j => forallb fine join_ops = true /\
      forallb (fun x => match j_phase j !! x with Some (PBack ODone) | Some (PBack OAlone) => true | _ => false end) [1; 2; 3]%N = true /\
      forallb (fun x => match j_nodes j !! x with
                        | Some m => bool_decide (m_known m = {[ 1; 2; 3 ]}%N)
                        | None => false end) [1; 2; 3]%N = true
  | None => False
  end.
Proof. vm_compute. done. Qed.
(** Its hypotheses hold: all calls have returned, the seeds are resolved, 2 and 3 are linked. *)
Example C77_example_hypotheses :
  exists j, jruns join_init join_ops = Some j /\ all_returned join_ops j /\ resolved join_ops j /\ linked join_ops 2 3.
Proof.
  assert (Hc : forall x, calls_start join_ops x -> x = 1%N \/ x = 2%N \/ x = 3%N).
  { intros x (s & Hs). unfold join_ops in Hs. unlist Hs. }
  destruct (run_shows (fun j => forallb (backb j) [1;2;3]%N && forallb (resolvedb j) [1;2;3]%N) join_ops) as (j & E & H);
    [vm_compute; reflexivity|].
  apply andb_true_iff in H as [H1 H2]. rewrite forallb_forall in H1, H2.
  exists j. split_and!; [exact E| | |].
  - intros x Hx. apply backb_spec, H1. apply Hc in Hx as [-> |[-> | ->]]; cbn; auto.
  - intros x Hx. apply resolvedb_spec, H2. apply Hc in Hx as [-> |[-> | ->]]; cbn; auto.
  - apply (rtc_l _ 2%N 1%N 3%N); [left|apply rtc_once; right]; unfold join_ops; inl.
Qed.
(** Worker 2 has been told nothing when it asks its seed. *)
Example C77_example_newcomer :
  exists ops1 ops2 j1, join_ops = ops1 ++ JAsk 2 (Some [1%N]) :: ops2 /\ jruns join_init ops1 = Some j1 /\
    (forall y, jknows j1 2 y -> y = 2%N).
Proof.
  destruct (run_shows (fun j => match j_nodes j !! 2%N with Some m => bool_decide (m_known m = {[ 2%N ]}) | None => false end) (take 6 join_ops)) as (j & E & H);
    [vm_compute; reflexivity|].
  exists (take 6 join_ops), (drop 7 join_ops), j. split; [reflexivity|]. split; [exact E|].
  intros y (m & Em & Hy). rewrite Em in H. apply bool_decide_eq_true in H. rewrite H in Hy. by apply elem_of_singleton in Hy.
Qed.
(** A worker that is its own seed asks itself and is alone. *)
Example C77_own_seed :
  match jruns join_init [JStart 1 (Some 1); JLookup 1 true; JAsk 1 (Some [1]); JReturn 1]%N with
  | Some j => j_phase j !! 1%N = Some (PBack ODone) /\ j_tickets j = []
  | None => False
  end.
Proof. vm_compute. done. Qed.
(** In the midst of it, worker 3 waits for 1, which waits for 2, and so on. *)
Example C78_example :
  match jruns join_init (take 16 join_ops) with
  | Some j => j_phase j !! 3%N = Some PWait /\ through j (CStart 3) = false /\ through j (CShake 1) = false
  | None => False
  end.
Proof. vm_compute. done. Qed.
