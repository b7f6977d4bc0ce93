(** Properties of the actors of the framework: who may wait for ever. *)
From Verif Require Import Waits_Props Waits_System_Proofs Waits_System_Play.

(** The services of a node. *)
Definition service (q : name) : Prop :=
  match q with Scheduler | Mediator | Registry | Clients | Discovery | Heartbeat => True | _ => False end.
(** The actors of sharding and of singletons. *)
Definition hosting (q : name) : Prop :=
  match q with Host _ | Shard _ | Coordinator _ | Manager _ | Proxy _ => True | _ => False end.

(** What is going on in the node: whatever the program's actors, the clients, the sessions and the network do. *)
Definition running_system (checked : name -> Prop) names (e : nat -> state name msg) who : Prop :=
  execution (handler false checked) started e who /\ fair e who /\ reachable (handler false checked) started names (e 0%nat).

(** C97: a call to a service comes to its end, and every message to a service is taken. *)
Theorem C97_answered_partial checked names e who : running_system checked names e who ->
  forall t p k q m todo w, service q -> m <> GetActorNode -> m <> GetHealth -> runs (e t) p k (Ask q m :: todo) w ->
  exists t', (t < t')%nat /\ runs (e t') p k todo false.
Proof.
  intros (He & Hf & Hr) t p k q m todo w Hq Hm1 Hm2 Hp.
  assert (exists r, sys_sure false q m = Some r) as [r Hs] by (destruct q; try done; destruct m; eauto; done).
  eapply (C96_answered _ _ _ _ _ _ e who (sys_ranked checked false ltac:(done))); done.
Qed.
Print Assumptions C97_answered_partial.
Theorem C97_taken checked names e who : running_system checked names e who ->
  forall t q l R i m k, service q -> s_procs (e t) !! inl q = Some (Live l R) -> l !! i = Some (m, k) ->
  exists t', (t <= t')%nat /\ who t' = Some (inl q) /\
    ((exists l', s_procs (e t') !! inl q = Some (Live ((m, k) :: l') None)) \/ dead (e (S t')) (inl q)).
Proof.
  intros (He & Hf & Hr) t q l R i m k Hq Hp Hi.
  assert (exists r, sys_rank q = Some r) as [r Hs] by (destruct q; try done; eauto).
  eapply (C96_taken _ _ _ _ _ _ e who (sys_ranked checked false ltac:(done))); done.
Qed.
Print Assumptions C97_taken.
(** The health of the system is told if all actors that take part in the checks are the framework's. *)
Theorem C97_health_partial checked names e who : running_system checked names e who ->
  (forall q, checked q -> service q \/ hosting q) ->
  forall t p k todo w, runs (e t) p k (Ask Heartbeat GetHealth :: todo) w -> exists t', (t < t')%nat /\ runs (e t') p k todo false.
Proof.
  intros (He & Hf & Hr) Hc t p k todo w Hp.
  assert (forall q, checked q -> is_Some (sys_rank q)) as Hc'. { intros q [Hq|Hq]%Hc; destruct q; try done; eauto. }
  eapply (C96_answered _ _ _ _ _ _ e who (sys_ranked checked true (fun _ => Hc'))); try done. reflexivity.
Qed.
Print Assumptions C97_health_partial.
Theorem C97_exists checked names s : reachable (handler false checked) started names s ->
  exists e who, e 0%nat = s /\ running_system checked names e who.
Proof.
  intros Hr. destruct (C96_exists _ _ _ _ (handler_some false checked) started_some Hr) as (e & who & E & He & Hf).
  exists e, who. split; [done|]. split; [done|]. split; [done|]. by rewrite E.
Qed.
Print Assumptions C97_exists.

(** C98: the actors of sharding and singletons always get to their next message, however long entities and singletons
    take to start, to answer or to stop; calls to them come to their end, as do their own starts. *)
Theorem C98_answered checked names e who : running_system checked names e who ->
  forall t p k q m todo w, hosting q -> runs (e t) p k (Ask q m :: todo) w ->
  exists t', (t < t')%nat /\ runs (e t') p k todo false.
Proof.
  intros (He & Hf & Hr) t p k q m todo w Hq Hp.
  assert (exists r, sys_sure false q m = Some r) as [r Hs] by (destruct q; try done; destruct m; eauto; done).
  eapply (C96_answered _ _ _ _ _ _ e who (sys_ranked checked false ltac:(done))); done.
Qed.
Print Assumptions C98_answered.
Theorem C98_taken checked names e who : running_system checked names e who ->
  forall t q l R i m k, hosting q -> s_procs (e t) !! inl q = Some (Live l R) -> l !! i = Some (m, k) ->
  exists t', (t <= t')%nat /\ who t' = Some (inl q) /\
    ((exists l', s_procs (e t') !! inl q = Some (Live ((m, k) :: l') None)) \/ dead (e (S t')) (inl q)).
Proof.
  intros (He & Hf & Hr) t q l R i m k Hq Hp Hi.
  assert (exists r, sys_rank q = Some r) as [r Hs] by (destruct q; try done; eauto).
  eapply (C96_taken _ _ _ _ _ _ e who (sys_ranked checked false ltac:(done))); done.
Qed.
Print Assumptions C98_taken.
Theorem C98_started checked names e who : running_system checked names e who ->
  forall t p k y todo w, hosting y -> runs (e t) p k (Begin y :: todo) w ->
  exists t', (t < t')%nat /\ runs (e t') p k todo false.
Proof.
  intros (He & Hf & Hr) t p k y todo w Hy Hp.
  assert (exists r, sys_rank0 y = Some r) as [r Hs] by (destruct y; try done; eauto).
  eapply (C96_begun _ _ _ _ _ _ e who (sys_ranked checked false ltac:(done))); done.
Qed.
Print Assumptions C98_started.

(** ** What may take for ever *)

(** Nobody can go on. *)
Definition quietb (s : state name msg) : bool :=
  forallb (fun y : (name + N) * proc name msg =>
    match y.2 with
    | Live _ (Some (Run _ todo false)) => match todo with Hang :: _ => true | _ => false end
    | Live (_ :: _) None => match y.1 with inl _ => false | inr _ => true end
    | _ => true
    end) (map_to_list (s_procs s)).
Lemma quiet_fair (s : state name msg) h st : quietb s = true -> execution h st (fun _ => s) (fun _ => None) /\ fair (fun _ => s) (fun _ => None).
Proof.
  intros Hq. split; [intros t; apply ENothing|]. unfold quietb in Hq. rewrite forallb_forall in Hq.
  intros t p [(k & todo & [l E] & Hh)|(q & x & l & -> & E)]; exfalso.
  - specialize (Hq (p, Live l (Some (Run k todo false)))). rewrite <-elem_of_list_In, elem_of_map_to_list in Hq. specialize (Hq E).
    cbn in Hq. clear E. destruct l, todo as [|[] ?]; done.
  - specialize (Hq (inl q, Live (x :: l) None)). rewrite <-elem_of_list_In, elem_of_map_to_list in Hq. specialize (Hq E). done.
Qed.
Definition asksb (s : state name msg) (p : N) (f : name -> msg -> bool) : bool :=
  match s_procs s !! inr p with Some (Live _ (Some (Run None [Ask q m] true))) => f q m | _ => false end.
Lemma asksb_sound s p f : asksb s p f = true -> exists q m, f q m = true /\ runs s (inr p) None [Ask q m] true.
Proof.
  unfold asksb. destruct (s_procs s !! inr p) as [[l [[[|] [|[q m| | | | | | | | | |] [|]] []]|]|]|] eqn:E; try done.
  intros Hf. exists q, m. split; [done|]. by exists l.
Qed.

Ltac scripts := repeat (first [ apply Forall_nil_2 | (apply Forall_cons; split) ]); try exact I.
(** The lookup of an actor's node: the other node never answers. *)
Definition lookup_run : list (op (K := name) (M := msg)) :=
  [OTask [Ask Registry GetActorNode]; OMove (inr 0%N); OTake Registry GetActorNode [Delegate [Ask Clients (ClientWrite 2); Hang]];
   OMove (inl Registry); OMove (inl Registry); OMove (inr 1%N); OTake Clients (ClientWrite 2) []; OMove (inl Clients)].
Theorem C97_lookup_refuted checked : exists e who, running_system checked services e who /\
  forall t, runs (e t) (inr 0%N) None [Ask Registry GetActorNode] true.
Proof.
  assert (match play (init services) lookup_run with
    | Some s => quietb s && asksb s 0 (fun q m => bool_decide (q = Registry /\ m = GetActorNode)) | None => false end = true) as Hc by (vm_compute; reflexivity).
  destruct (play (init services) lookup_run) as [s|] eqn:E; [|done]. apply andb_prop in Hc as [Hq Ha].
  destruct (asksb_sound _ _ _ Ha) as (q & m & [-> ->]%bool_decide_eq_true & Hs).
  exists (fun _ => s), (fun _ => None). destruct (quiet_fair s (handler false checked) started Hq) as [He Hf].
  split; [|done]. split; [done|]. split; [done|]. eapply play_reachable; [apply ReachInit| |exact E]. scripts.
  - exists [Delegate [Ask Clients (ClientWrite 2); Hang]]. split; [|by left]. apply DOrR, DHands, (DThen _ _ [_] [_]); constructor; eauto.
  - exists []. split; [|by left]. apply DOrL, DNil.
Qed.
Print Assumptions C97_lookup_refuted.

(** The health of the system: an actor that takes part in the checks is stuck. *)
Definition health_run : list (op (K := name) (M := msg)) :=
  [OTask [Tell (User 7) (Own 0)]; OMove (inr 0%N); OMove (inr 0%N); OTake (User 7) (Own 0) [Hang];
   OTask [Ask Heartbeat GetHealth]; OMove (inr 1%N); OTake Heartbeat GetHealth [Delegate [Ask Registry Status; Ask (User 7) Status; Ask Registry GetNodes]];
   OMove (inl Heartbeat); OMove (inl Heartbeat); OMove (inr 2%N); OTake Registry Status []; OMove (inl Registry); OMove (inr 2%N)].
Theorem C97_health_refuted : exists e who, running_system (fun q => q = Registry \/ q = User 7) (User 7 :: services) e who /\
  forall t, runs (e t) (inr 1%N) None [Ask Heartbeat GetHealth] true.
Proof.
  assert (match play (init (User 7 :: services)) health_run with
    | Some s => quietb s && asksb s 1 (fun q m => bool_decide (q = Heartbeat /\ m = GetHealth)) | None => false end = true) as Hc by (vm_compute; reflexivity).
  destruct (play (init (User 7 :: services)) health_run) as [s|] eqn:E; [|done]. apply andb_prop in Hc as [Hq Ha].
  destruct (asksb_sound _ _ _ Ha) as (q & m & [-> ->]%bool_decide_eq_true & Hs).
  exists (fun _ => s), (fun _ => None). destruct (quiet_fair s (handler false (fun q => q = Registry \/ q = User 7)) started Hq) as [He Hf].
  split; [|done]. split; [done|]. split; [done|]. eapply play_reachable; [apply ReachInit| |exact E]. scripts.
  - exists [Hang]. split; [|by left]. apply (DMany _ [Hang] []); [by apply DDo|apply DMany0].
  - eexists. split; [|by left]. apply DHands. apply (DThen _ _ [Ask Registry Status; Ask (User 7) Status] [Ask Registry GetNodes]); [|by apply DDo].
    apply (DMany _ [_] [_]); [apply DDo; eauto|]. apply (DMany _ [_] []); [apply DDo; eauto|apply DMany0].
  - exists []. split; [|by left]. apply DNil.
Qed.
Print Assumptions C97_health_refuted.

(** The shutdown of the system: a client that has just connected again waits for the registry of clients, which waits
    for its stop. *)
Definition reconnects : list (action name msg) := [Pause; Hang; Ask Clients ClientConnected; Tell Discovery DiscoverAddr].
Definition shutdown_run : list (op (K := name) (M := msg)) :=
  [(* a client is made, and connects *)
   OTask [Ask Clients (NewClient 1)]; OMove (inr 0%N); OTake Clients (NewClient 1) [Ask Scheduler RegisterActor; Begin (Client 1)];
   OMove (inl Clients); OTake Scheduler RegisterActor [Tell Registry PutActor]; OMove (inl Scheduler); OMove (inl Scheduler);
   OBegin (inl Clients) (Client 1) [Tell (Client 1) Connect]; OMove (inl (Client 1)); OMove (inl (Client 1)); OMove (inl Clients); OMove (inr 0%N);
   OTake (Client 1) Connect reconnects; OMove (inl (Client 1)); OMove (inl (Client 1)); OMove (inl (Client 1));
   OTake Clients ClientConnected []; OMove (inl Clients); OMove (inl (Client 1)); OMove (inl (Client 1));
   (* the connection is lost, and there again *)
   OTask [Tell (Client 1) Disconnected]; OMove (inr 1%N); OMove (inr 1%N);
   OTake (Client 1) Disconnected [Fork [Pause; Ask (Client 1) Connect]]; OMove (inl (Client 1)); OMove (inl (Client 1)); OMove (inr 2%N); OMove (inr 2%N);
   OTake (Client 1) Connect reconnects; OMove (inl (Client 1)); OMove (inl (Client 1));
   (* meanwhile the system is shut down *)
   OTask [Ask Scheduler Stop]; OMove (inr 3%N); OTake Scheduler Stop [Ask Clients Stop; Reply; Die]; OMove (inl Scheduler);
   OTake Clients Stop [Ask (Client 1) Stop; Reply; Fork []; Die]; OMove (inl Clients); OMove (inl (Client 1))].
Theorem C97_shutdown_refuted checked : exists s, reachable (handler true checked) started services s /\
  runs s (inr 3%N) None [Ask Scheduler Stop] true /\
  deadlock s (fun p => p ∈ [inr 3%N; inl Scheduler; inl Clients; inl (Client 1); inr 2%N]).
Proof.
  assert (match play (init services) shutdown_run with
    | Some s => deadlockb s [inr 3%N; inl Scheduler; inl Clients; inl (Client 1); inr 2%N] && asksb s 3 (fun q m => bool_decide (q = Scheduler /\ m = Stop))
    | None => false end = true) as Hc by (vm_compute; reflexivity).
  destruct (play (init services) shutdown_run) as [s|] eqn:E; [|done]. apply andb_prop in Hc as [Hd Ha].
  destruct (asksb_sound _ _ _ Ha) as (q & m & [-> ->]%bool_decide_eq_true & Hs).
  exists s. split; [|split; [done|by apply deadlockb_sound]]. eapply play_reachable; [apply ReachInit| |exact E].
  assert (forall l : script, does l reconnects -> may l reconnects) as Hm by (intros l ?; exists reconnects; split; [done|by left]).
  assert (does (client 1 Connect) reconnects) as Hre.
  { apply DOrR. apply (DThen _ _ [_] _); [by apply DDo|]. apply (DThen _ _ [_] _); [by apply DDo|]. apply DOrR.
    apply (DThen _ _ [_] _); [by apply DDo|]. apply (DThen _ _ [_] []); [by apply DDo|apply DMany0]. }
  scripts.
  - eexists. split; [|by left]. apply DOrR. apply (DThen _ _ [_] [_]); apply DDo; [done|]. exists (Client 1). eauto.
  - eexists. split; [|by left]. apply DOrR. by apply DDo.
  - eexists. split; [|by left]. by apply DDo.
  - by apply Hm.
  - exists []. split; [|by left]. apply DNil.
  - eexists. split; [|by left]. apply DOrL, DSpawns. apply (DThen _ _ [_] [_]); by apply DDo.
  - by apply Hm.
  - eexists. split; [|by left]. apply (DThen _ _ [_] [_; _]); [|apply (DThen _ _ [_] [_]); by apply DDo].
    apply (DMany _ [_] []); [apply DDo; eauto|apply DMany0].
  - eexists. split; [|by left]. apply (DThen _ _ [_] [_; _; _]); [apply (DMany _ [_] []); [apply DDo; eauto|apply DMany0]|].
    apply (DThen _ _ [] [_; _; _]); [apply DOrL, DNil|]. apply (DThen _ _ [_] [_; _]); [by apply DDo|].
    apply (DThen _ _ [_] [_]); [apply DSpawns, DMany0|by apply DDo].
Qed.
Print Assumptions C97_shutdown_refuted.

(** Nothing helps then: not even the end of the connection. *)
Theorem C97_shutdown_for_ever_refuted checked : exists s, reachable (handler true checked) started services s /\
  forall e who, execution (handler true checked) started e who -> e 0%nat = s -> forall t, runs (e t) (inr 3%N) None [Ask Scheduler Stop] true.
Proof.
  destruct (C97_shutdown_refuted checked) as (s & Hr & Hs & Hd). exists s. split; [done|]. intros e who He E t.
  rewrite <-E in Hr, Hd. destruct (C96_deadlock _ _ _ _ _ _ He Hr Hd t (inr 3%N) ltac:(left)) as (k & todo & [l H0] & Ht & _).
  rewrite E in H0. destruct Hs as [l' Hs]. rewrite Hs in H0. by simplify_eq.
Qed.
Print Assumptions C97_shutdown_for_ever_refuted.

(** ** Cases *)

(** A node in which a user's actor is stuck for ever, and asks to a service and to a shard are under way. *)
Definition case_run : list (op (K := name) (M := msg)) :=
  [OTask [Tell (User 7) (Own 0)]; OMove (inr 0%N); OMove (inr 0%N); OTake (User 7) (Own 0) [Hang];
   OTask [Ask Discovery DiscoverNodes; Ask (Shard 3) (EntityRequest 7)]; OMove (inr 1%N);
   OTask [Ask (Host 1) (ShardAllocated 3)]; OMove (inr 2%N)].
Example C97_case checked : exists e who, running_system checked (User 7 :: Host 1 :: services) e who /\
  runs (e 0%nat) (inl (User 7)) None [Hang] false /\
  runs (e 0%nat) (inr 1%N) None [Ask Discovery DiscoverNodes; Ask (Shard 3) (EntityRequest 7)] true /\
  runs (e 0%nat) (inr 2%N) None [Ask (Host 1) (ShardAllocated 3)] true /\
  s_procs (e 0%nat) !! inl (Host 1) = Some (Live [(ShardAllocated 3, Some (inr 2%N))] None).
Proof.
  assert (match play (init (User 7 :: Host 1 :: services)) case_run with
    | Some s => match s_procs s !! inl (User 7), s_procs s !! inr 1%N, s_procs s !! inr 2%N, s_procs s !! inl (Host 1) with
      | Some (Live [] (Some (Run None [Hang] false))), Some (Live [] (Some (Run None [Ask Discovery DiscoverNodes; Ask (Shard 3) (EntityRequest 7)] true))),
        Some (Live [] (Some (Run None [Ask (Host 1) (ShardAllocated 3)] true))), Some (Live [(ShardAllocated 3, Some (inr 2%N))] None) => true
      | _, _, _, _ => false end
    | None => false end = true) as Hc by (vm_compute; reflexivity).
  destruct (play (init (User 7 :: Host 1 :: services)) case_run) as [s|] eqn:E; [|done].
  assert (reachable (handler false checked) started (User 7 :: Host 1 :: services) s) as Hr.
  { eapply play_reachable; [apply ReachInit| |exact E]. scripts.
    exists [Hang]. split; [|by left]. apply (DMany _ [Hang] []); [by apply DDo|apply DMany0]. }
  destruct (C97_exists _ _ _ Hr) as (e & who & E0 & Hrun). exists e, who. split; [done|]. rewrite E0. clear -Hc. unfold runs.
  repeat match type of Hc with
  | (match ?x with _ => _ end) = true => destruct x eqn:?; try discriminate Hc
  end; subst; eauto 10.
Qed.
