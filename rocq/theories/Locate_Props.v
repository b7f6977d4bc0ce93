(** Property C30: locating actors. *)
From Verif Require Import Locate_Model Locate_Spec Locate_Proofs Nodes_Spec Nodes_Proofs Nodes_Props.
Local Open Scope string_scope.
Local Open Scope list_scope.
Local Open Scope N_scope.

(** In every history, with stops, lost messages and membership changes: where an actor is found,
    an actor with that id was started. *)
Theorem C30_sound rhash khash search l w k x id m t :
  lrun rhash khash search new_world l = Some w -> LAnswer k x id (Some m) t ∈ w_log w -> LCreate m id ∈ l.
Proof.
  intros Hr H. destruct (created_run rhash khash search _ _ _ m id Hr) as [Hin|Hin]; [|by apply elem_of_nil in Hin|done].
  by eapply (md_answer _ (made_run rhash khash search _ _ Hr)).
Qed.
Print Assumptions C30_sound.

(** In every history, what a caller on node [x] is given for an answer: a local reference is to an
    actor that runs on [x] at that time, a remote one names a node on which an actor with that id
    was started; and it is given nothing only if nothing was found, or [x] itself was answered
    and no such actor runs there any more. *)
Theorem C30_reference rhash khash search l1 w1 l2 w k x id r t :
  lrun rhash khash search new_world l1 = Some w1 -> LAnswer k x id r t ∈ w_log w1 ->
  lrun rhash khash search w1 l2 = Some w ->
  match actor_ref w x id r with
  | FLocal => r = Some x /\ running x id (w_log w) = true
  | FRemote m => r = Some m /\ m <> x /\ LCreate m id ∈ l1
  | FNone => r = None \/ r = Some x /\ running x id (w_log w) = false
  end.
Proof.
  intros Hr Ha Hr2. unfold actor_ref. destruct r as [m|]; [|by left].
  assert (Hlive : live_right w).
  { refine (lruns_ind rhash khash search live_right w1 l2 w _ _ Hr2); [intros w0 o w' _; apply live_step|].
    refine (lruns_ind rhash khash search live_right new_world l1 w1 _ _ Hr); [intros w0 o w' _; apply live_step|].
    intros n i. cbn. split; [by intros ?%elem_of_empty|done]. }
  destruct (m =? x)%N eqn:E.
  - apply N.eqb_eq in E as ->. case_decide as Hd.
    + split; [done|]. by apply Hlive.
    + right. split; [done|]. destruct (running x id (w_log w)) eqn:Er; [|done]. by apply Hlive in Er.
  - apply N.eqb_neq in E. split_and!; [done|done|]. by eapply C30_sound.
Qed.
Print Assumptions C30_reference.

(** The nodes of [X] agree on who keeps the entry of an id; the actor is then started on node [n] of [X]
    and nowhere else, and its registration is not lost and has arrived. From then on, as long as
    the membership stays, every lookup from any of these nodes that is answered in time answers [n].
    Whatever else happens with other actors, and to all other messages. *)
Theorem C30_located_partial rhash khash search X id o n l1 l2 l3 w1 w2 w3 k x r :
  lrun rhash khash search new_world l1 = Some w1 -> (forall m, LCreate m id ∉ l1) -> agree rhash khash search w1 X id o ->
  lrun rhash khash search w1 l2 = Some w2 -> (forall p, p ∈ l2 -> is_store p = false /\ is_lose p = false) ->
  n ∈ X -> LCreate n id ∈ l2 -> (forall m, LCreate m id ∈ l2 -> m = n) -> arrived w2 id ->
  lrun rhash khash search w2 l3 = Some w3 -> (forall p, p ∈ l3 -> is_store p = false) -> (forall m, LCreate m id ∈ l3 -> m = n) ->
  LAnswer k x id r false ∈ w_log w3 -> (w_next w2 <= k)%nat -> x ∈ X -> r = Some n.
Proof.
  intros R1 N1 Ha R2 P2 Hn C2 N2 Har R3 P3 N3 Hin Hk Hx.
  destruct (located_run rhash khash search X id o n Hn l1 l2 w1 w2 R1 N1 Ha R2 P2 C2 N2 Har) as [Hlo _].
  exact (lo_answers _ _ _ _ _ _ _ _ _ (located_stays rhash khash search X id o n Hn _ _ _ _ Hlo P3 N3 R3) k x r Hk Hin Hx).
Qed.
Print Assumptions C30_located_partial.

(** Then, two nodes suffice: such a lookup is answered by the node it comes from or by the next. *)
Theorem C30_two_hops rhash khash search X id o n l1 l2 l3 w1 w2 w3 k x path :
  lrun rhash khash search new_world l1 = Some w1 -> (forall m, LCreate m id ∉ l1) -> agree rhash khash search w1 X id o ->
  lrun rhash khash search w1 l2 = Some w2 -> (forall p, p ∈ l2 -> is_store p = false /\ is_lose p = false) ->
  n ∈ X -> LCreate n id ∈ l2 -> (forall m, LCreate m id ∈ l2 -> m = n) -> arrived w2 id ->
  lrun rhash khash search w2 l3 = Some w3 -> (forall p, p ∈ l3 -> is_store p = false) -> (forall m, LCreate m id ∈ l3 -> m = n) ->
  w_looks w3 !! k = Some (x, path, id) -> (w_next w2 <= k)%nat -> x ∈ X ->
  exists j w', (j <= 2)%nat /\ lrun rhash khash search w3 (repeat (LHop k) j) = Some w' /\ LAnswer k x id (Some n) false ∈ w_log w'.
Proof.
  intros R1 N1 Ha R2 P2 Hn C2 N2 Har R3 P3 N3 Hl Hk Hx.
  destruct (located_run rhash khash search X id o n Hn l1 l2 w1 w2 R1 N1 Ha R2 P2 C2 N2 Har) as [Hlo _].
  exact (located_hops rhash khash search X id o n Hn _ _ k x path (located_stays rhash khash search X id o n Hn _ _ _ _ Hlo P3 N3 R3) Hk Hl Hx).
Qed.
Print Assumptions C30_two_hops.

(** When do nodes agree: they know the same nodes, by the same records. *)
Theorem C30_agree rhash khash search w (X : gset N) (ls : N -> list dop) x0 id :
  searches search -> x0 ∈ X -> (forall x, x ∈ X -> w_stores w !! x = Some (drun rhash search (ls x)) /\ consistent (ls x)) ->
  (forall x n, x ∈ X -> member (ls x) n <-> member (ls x0) n) -> (forall n, member (ls x0) n -> r_id n ∈ X) ->
  (exists n, member (ls x0) n) -> no_collision rhash (member (ls x0)) ->
  exists o, agree rhash khash search w X id o.
Proof.
  intros Hse H0 Hst Hm Hid Hne Hnc. destruct (Hst _ H0) as [_ Hc0].
  destruct (C29_some rhash khash search _ id Hse Hc0 Hne) as [n Hn].
  exists (r_id n). split; [apply Hid; by apply (C29_assigned rhash khash search _ id n Hse Hc0) in Hn as [? _]|].
  intros x Hx. destruct (Hst x Hx) as [Hs Hc]. unfold owner. rewrite Hs. cbn [mbind option_bind].
  rewrite (C29_agreement_partial rhash khash search (ls x) (ls x0) id Hse Hc Hc0 (fun n => Hm x n Hx)), Hn; [done|].
  intros a b Ha Hb. apply Hnc; by apply (Hm x).
Qed.
Print Assumptions C30_agree.

(** Even where nodes do not agree, because some know fewer nodes: a lookup is passed on fewer times
    than there are nodes, if each ring has its own node and records agree. *)
Theorem C30_lookup_ends rhash khash search X id n l0 l w w1 w' :
  searches search -> lrun rhash khash search new_world l0 = Some w -> rings_right rhash search w X ->
  n ∈ X -> lstep rhash khash search w (LLook n id) = Some w1 -> (forall p, p ∈ l -> is_store p = false) ->
  lrun rhash khash search w1 l = Some w' ->
  (exists r t, LAnswer (w_next w) n id r t ∈ w_log w') \/
  ((exists path, w_looks w' !! w_next w = Some (n, path, id)) /\ (length (List.filter (hops_of (w_next w)) l) < size X)%nat).
Proof.
  intros Hse H0 Hri. exact (lookup_ends rhash khash search w X id n l w1 w' Hse Hri (numbered_run rhash khash search _ _ H0)).
Qed.
Print Assumptions C30_lookup_ends.

(** ** Cases *)
Definition key_hash (id : string) : N := if String.eqb id "a" then 150 else 50.
Notation run := (lrun time_hash key_hash search_first).
Definition knows (x : N) : list lop := [LStore x (DAdd [] (node 1 100)); LStore x (DAdd [] (node 2 200))].
Definition three (x : N) : list lop := knows x ++ [LStore x (DAdd [] (node 3 300))].

(** Actor "a" starts on node 1, its entry is at node 2: both nodes and a third one find it. *)
Example C30_example :
  match run new_world (three 1 ++ three 2 ++ three 3 ++ [LCreate 1 "a"; LRegister 0; LArrive 0; LLook 1 "a"; LLook 3 "a"; LLook 2 "a";
     LHop 0; LHop 1; LHop 2; LHop 0; LHop 1]) with
  | Some w => w_log w = [LCreated 1 "a"; LAnswer 2 2 "a" (Some 1) false; LAnswer 0 1 "a" (Some 1) false; LAnswer 1 3 "a" (Some 1) false] /\
      actor_ref w 1 "a" (Some 1) = FLocal /\ actor_ref w 3 "a" (Some 1) = FRemote 1
  | None => False
  end.
Proof. vm_compute. done. Qed.
(** The hypotheses of [C30_located_partial] are met there. *)
Example C30_example_agree :
  match run new_world (three 1 ++ three 2 ++ three 3) with
  | Some w1 => agree time_hash key_hash search_first w1 {[ 1; 2; 3 ]} "a" 2 /\
      match run w1 [LCreate 1 "a"; LCreate 3 "b"; LRegister 0; LArrive 0] with Some w2 => arrived w2 "a" /\ ~ arrived w2 "b" | None => False end
  | None => False
  end.
Proof.
  assert (Hs : match run new_world (three 1 ++ three 2 ++ three 3) with Some w => True | None => False end) by (by vm_compute).
  destruct (run new_world _) as [w1|] eqn:E; [|done]. clear Hs.
  assert (Hx : forall x, x ∈ ({[ 1; 2; 3 ]} : gset N) -> owner time_hash key_hash search_first w1 x "a" = 2).
  { assert (H3 : match run new_world (three 1 ++ three 2 ++ three 3) with Some w => (owner time_hash key_hash search_first w 1 "a",
      owner time_hash key_hash search_first w 2 "a", owner time_hash key_hash search_first w 3 "a") = (2, 2, 2) | None => False end) by (clear; by vm_compute).
    rewrite E in H3. injection H3 as E1 E2 E3. intros x Hx. rewrite !elem_of_union, !elem_of_singleton in Hx.
    by destruct Hx as [[->| ->]| ->]. }
  split; [split; [set_solver|done]|].
  assert (H4 : match run new_world (three 1 ++ three 2 ++ three 3) ≫= fun w => run w [LCreate 1 "a"; LCreate 3 "b"; LRegister 0; LArrive 0] with
     Some w => w_local w = [(3, "b")] /\ w_net w = [] | None => False end) by (clear; by vm_compute).
  rewrite E in H4. cbn [mbind option_bind] in H4. destruct (run w1 _) as [w2|]; [|done]. destruct H4 as [H4 H5].
  unfold arrived. rewrite H4, H5. split; [|intros [Hb _]; apply (Hb 3); by left].
  split; [|by intros ? ? ?%elem_of_nil]. intros n Hn. by apply elem_of_list_singleton in Hn.
Qed.

(** A node that joins: node 1 was alone and keeps the entry of its actor "a". Then nodes 1 and 2 learn
    of each other, and the entry belongs to node 2, which never hears of it: node 2 does not find the actor. *)
Theorem C30_join_refuted :
  match run new_world ([LStore 1 (DAdd [] (node 1 100)); LCreate 1 "a"; LRegister 0; LLook 1 "a"; LHop 0;
     LStore 1 (DAdd [] (node 2 200))] ++ knows 2 ++ [LLook 2 "a"; LHop 1; LLook 1 "a"; LHop 2]) with
  | Some w => w_log w = [LCreated 1 "a"; LAnswer 0 1 "a" (Some 1) false; LAnswer 1 2 "a" None false; LAnswer 2 1 "a" (Some 1) false] /\
      (1, "a") ∈ w_live w /\ w_local w = [] /\ w_net w = []
  | None => False
  end.
Proof.
  vm_compute. split_and!; done.
Qed.
Print Assumptions C30_join_refuted.
(** A node that leaves with its entries: node 2 kept the entry and is removed; no node finds the actor,
    which goes on running on node 1. *)
Theorem C30_leave_refuted :
  match run new_world (knows 1 ++ knows 2 ++ [LCreate 1 "a"; LRegister 0; LArrive 0; LLook 1 "a"; LHop 0; LHop 0;
     LStore 1 (DRemove 2); LLook 1 "a"; LHop 1]) with
  | Some w => w_log w = [LCreated 1 "a"; LAnswer 0 1 "a" (Some 1) false; LAnswer 1 1 "a" None false]
  | None => False
  end.
Proof. by vm_compute. Qed.
Print Assumptions C30_leave_refuted.
(** An actor that stopped is still found, at every node: entries are never removed. A caller on another
    node gets a reference to it, a caller on its node none. *)
Theorem C30_stopped_refuted :
  match run new_world (knows 1 ++ knows 2 ++ [LCreate 1 "a"; LRegister 0; LArrive 0; LStop 1 "a"; LLook 1 "a"; LLook 2 "a"; LHop 0; LHop 0; LHop 1]) with
  | Some w => w_log w = [LCreated 1 "a"; LStopped 1 "a"; LAnswer 0 1 "a" (Some 1) false; LAnswer 1 2 "a" (Some 1) false] /\
      actor_ref w 1 "a" (Some 1) = FNone /\ actor_ref w 2 "a" (Some 1) = FRemote 1
  | None => False
  end.
Proof. vm_compute. done. Qed.
Print Assumptions C30_stopped_refuted.
(** A lookup that overtakes the registration finds nothing although the actor runs; one whose
    registration was lost is never found by others (its own node does not ask again). *)
Theorem C30_early_refuted :
  match run new_world (knows 1 ++ knows 2 ++ [LCreate 1 "a"; LRegister 0; LLook 2 "a"; LHop 0; LLose 0; LLook 1 "a"; LHop 1; LHop 1]) with
  | Some w => w_log w = [LCreated 1 "a"; LAnswer 0 2 "a" None false; LAnswer 1 1 "a" None false] /\ w_local w = [] /\ w_net w = []
  | None => False
  end.
Proof. by vm_compute. Qed.
Print Assumptions C30_early_refuted.
(** An actor started on two nodes (see C31): the lookup answers the one that registered last. *)
Example C30_twice :
  match run new_world (knows 1 ++ knows 2 ++ [LCreate 1 "a"; LCreate 2 "a"; LRegister 1; LRegister 0; LArrive 0; LLook 2 "a"; LHop 0]) with
  | Some w => w_log w = [LCreated 1 "a"; LCreated 2 "a"; LAnswer 0 2 "a" (Some 1) false]
  | None => False
  end.
Proof. by vm_compute. Qed.
(** Three nodes that know different ones: node 1 knows 1 and 2, node 2 knows all; the lookup takes two steps. *)
Example C30_rings :
  match run new_world (knows 1 ++ three 2 ++ three 3 ++ [LLook 1 "z"; LHop 0; LLook 3 "a"; LHop 1; LHop 1]) with
  | Some w => w_log w = [LAnswer 0 1 "z" None false; LAnswer 1 3 "a" None false]
  | None => False
  end.
Proof. by vm_compute. Qed.
Example C30_rings_right :
  match run new_world (knows 1 ++ three 2 ++ three 3) with
  | Some w => rings_right time_hash search_first w {[ 1; 2; 3 ]}
  | None => False
  end.
Proof.
  set (l2 := [DAdd [] (node 1 100); DAdd [] (node 2 200)]). set (l3 := l2 ++ [DAdd [] (node 3 300)]).
  assert (M2 : forall n, member l2 n -> n = node 1 100 \/ n = node 2 200).
  { intros n [ord H]. repeat (apply elem_of_cons in H as [H|H]; [simplify_eq; by eauto|]). by apply elem_of_nil in H. }
  assert (M3 : forall n, member l3 n -> n = node 1 100 \/ n = node 2 200 \/ n = node 3 300).
  { intros n [ord H]. repeat (apply elem_of_cons in H as [H|H]; [simplify_eq; by eauto|]). by apply elem_of_nil in H. }
  assert (C2 : consistent l2).
  { split_and!; [intros a b [->| ->]%M2 [->| ->]%M2; done| |].
    - intros p1 u p2 s H. destruct p1 as [|? [|? [|? ?]]]; simplify_eq/=.
    - intros n H. repeat (apply elem_of_cons in H as [H|H]; [done|]). by apply elem_of_nil in H. }
  assert (C3 : consistent l3).
  { split_and!; [intros a b [->|[->| ->]]%M3 [->|[->| ->]]%M3; done| |].
    - intros p1 u p2 s H. destruct p1 as [|? [|? [|? [|? ?]]]]; simplify_eq/=.
    - intros n H. repeat (apply elem_of_cons in H as [H|H]; [done|]). by apply elem_of_nil in H. }
  assert (Hst : match run new_world (knows 1 ++ three 2 ++ three 3) with Some w =>
     w_stores w !! 1 = Some (drun time_hash search_first l2) /\ w_stores w !! 2 = Some (drun time_hash search_first l3) /\
     w_stores w !! 3 = Some (drun time_hash search_first l3) | None => False end) by (clear; by vm_compute).
  destruct (run new_world _) as [w|]; [|done]. destruct Hst as (S1 & S2 & S3).
  exists (member l3). split_and!; [intros a b [->|[->| ->]]%M3 [->|[->| ->]]%M3; done|
    intros a b [->|[->| ->]]%M3 [->|[->| ->]]%M3; done|].
  intros x Hx. rewrite !elem_of_union, !elem_of_singleton in Hx. destruct Hx as [[->| ->]| ->].
  - exists l2. split_and!; [done|done| |].
    + intros n [->| ->]%M2; (split; [|cbn; set_solver]); exists []; unfold l3, l2; cbn; set_solver.
    + exists (node 1 100). split; [|done]. exists []. by left.
  - exists l3. split_and!; [done|done| |].
    + intros n Hn. split; [done|]. destruct (M3 n Hn) as [->|[->| ->]]; cbn; set_solver.
    + exists (node 2 200). split; [|done]. exists []. right. by left.
  - exists l3. split_and!; [done|done| |].
    + intros n Hn. split; [done|]. destruct (M3 n Hn) as [->|[->| ->]]; cbn; set_solver.
    + exists (node 3 300). split; [|done]. exists []. right. right. by left.
Qed.
