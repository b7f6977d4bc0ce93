(** The handles of an actor system: reaching the cluster, sharing one node, and storage providers (C87-C89). *)
From Verif Require Import Handles_Spec Handles_Proofs Handles_Proofs2 Handles_Proofs3 Handles_Proofs4 Handles_Proofs5 Handles_Proofs6.
Local Open Scope N_scope.

(** * C87 *)
(** A program that goes on with what the builder returned, creates, spawns and deploys actors from
    there and takes no remote handle out of a context: all its actors reach the node that was built.
    Missing: everything else, as the theorems below refute it. *)
Theorem C87_served_partial w h n w1 k l a x :
  hstep w (HBuild h n) = (w1, RHandle k) -> Forall (direct k (length (w_actors w1))) l ->
  (length (w_actors w1) <= a)%nat -> living (run hstep w1 l).1 a = Some x ->
  (hstep (run hstep w1 l).1 (HUse a)).2 = RDone /\ r_node <$> s_remote (a_sys x) = Some n.
Proof.
  intros Hb Hl Ha Hx. destruct (s_handle w h) as [s|] eqn:Hs; [|by rewrite no_build in Hb].
  pose proof (direct_remote w h n s w1 k Hs Hb l a x Hl Ha Hx) as Hr. cbn [hstep]. by rewrite Hx, Hr.
Qed.

Lemma serve_step w h r : r_handle w h = Some r ->
  exists w', hstep w (HServe h) = (w', RActor (length (w_actors w))) /\ (exists x, living w' (length (w_actors w)) = Some x /\ a_sys x = r_actor_system r).
Proof.
  intros Hr. cbn [hstep]. rewrite Hr.
  by apply (started_here w (r_actor_system r) "remote-session-store" (plain 0) true None).
Qed.
Lemma deploy_step w h r id t : r_handle w h = Some r -> t_persists t = false ->
  exists w', hstep w (HDeploy h id t) = (w', RActor (length (w_actors w))) /\ (exists x, living w' (length (w_actors w)) = Some x /\ a_sys x = r_actor_system r).
Proof. intros Hr Ht. cbn [hstep]. rewrite Hr. by apply started_here. Qed.
Lemma peer_step w a x r id t : living w a = Some x -> s_remote (a_sys x) = Some r -> t_persists t = false ->
  exists w', hstep w (HPeer a id t) = (w', RActor (S (length (w_actors w)))) /\
  (exists y, living w' (S (length (w_actors w))) = Some y /\ a_sys y = r_actor_system r).
Proof.
  intros Hx Hr Ht. cbn [hstep]. rewrite Hx, Hr.
  destruct (started_here (start w (a_sys x) "session" (plain 0) false (Some a)).1 (r_actor_system r) id t true None Ht) as (w' & H1 & H2).
  assert (E : length (w_actors (start w (a_sys x) "session" (plain 0) false (Some a)).1) = S (length (w_actors w))).
  { rewrite start_actors, app_length. cbn. lia. }
  rewrite E in *. by exists w'.
Qed.
Lemma peer_dies w a x id t : living w a = Some x -> s_remote (a_sys x) = None ->
  (hstep w (HPeer a id t)).2 = RPanic /\ living (hstep w (HPeer a id t)).1 a = None.
Proof.
  intros Hx Hr. cbn [hstep]. rewrite Hx, Hr. split; [done|]. cbn [fst]. unfold living, with_actor; cbn [w_actors].
  rewrite list_lookup_alter. by destruct (alter dead _ _ !! a).
Qed.

(** Built over a system that is not a node of a cluster yet, the node serves others, and another
    node deploys an actor on it: that actor dies as soon as it uses the cluster. *)
Theorem C87_peer_refuted w h s n w1 k id t :
  s_handle w h = Some s -> s_remote s = None -> hstep w (HBuild h n) = (w1, RHandle k) -> t_persists t = false ->
  exists a b w', run hstep w1 [HServe k; HPeer a id t; HUse b] = (w', [RActor a; RActor b; RPanic]) /\ living w' b = None.
Proof.
  intros Hs Hn Hb Ht. destruct (built_handle w h n s w1 k Hs Hb) as [-> Ek].
  assert (Hr : r_handle w1 (length (w_handles w)) = Some (b_r2 w s n)) by (unfold r_handle; by rewrite Ek, list_lookup_middle).
  destruct (serve_step w1 _ _ Hr) as (w2 & E2 & x & Hx & Ex).
  destruct (peer_step w2 _ x (b_r1 w s n) id t Hx) as (w3 & E3 & y & Hy & Ey); [by rewrite Ex|done|].
  destruct (use_dies w3 _ y Hy) as [H1 H2]; [by rewrite Ey|].
  exists (length (w_actors w1)), (S (length (w_actors w2))), (hstep w3 (HUse (S (length (w_actors w2))))).1.
  split; [|done]. cbn [run]. rewrite E2, E3. destruct (hstep w3 _) as [w4 r4]. cbn [fst snd] in *. by subst.
Qed.

Lemma context_reach w a x r : living w a = Some x -> s_remote (a_sys x) = Some r ->
  exists w', run hstep w [HContext a; HReach (length (w_handles w))] = (w', [RHandle (length (w_handles w)); RHandle (S (length (w_handles w)))]) /\
  r_handle w' (S (length (w_handles w))) = Some r.
Proof.
  intros Hx Hr. cbn [run hstep]. rewrite Hx. cbn [return_handle].
  assert (E : s_handle (add_handle w (HS (a_sys x))) (length (w_handles w)) = Some (a_sys x)).
  { unfold s_handle; cbn [add_handle w_handles]. by rewrite list_lookup_middle. }
  rewrite E, Hr. eexists. split.
  - unfold return_handle. cbn [add_handle w_handles]. rewrite app_length, Nat.add_comm. done.
  - unfold r_handle; cbn [add_handle w_handles]. rewrite lookup_app_r; rewrite app_length; cbn; [|lia].
    by replace (S (length (w_handles w)) - (length (w_handles w) + 1))%nat with 0%nat by lia.
Qed.

(** An actor of such a program takes the cluster handle out of its context and deploys another
    actor on its own node through it: that actor dies as soon as it uses the cluster. *)
Theorem C87_context_refuted w h s n w1 k l a x id t :
  s_handle w h = Some s -> s_remote s = None -> hstep w (HBuild h n) = (w1, RHandle k) ->
  Forall (direct k (length (w_actors w1))) l -> (length (w_actors w1) <= a)%nat -> living (run hstep w1 l).1 a = Some x -> t_persists t = false ->
  exists i j b w', run hstep (run hstep w1 l).1 [HContext a; HReach i; HDeploy j id t; HUse b] = (w', [RHandle i; RHandle j; RActor b; RPanic]) /\
    living w' b = None.
Proof.
  intros Hs Hn Hb Hl Ha Hx Ht. pose proof (direct_remote w h n s w1 k Hs Hb l a x Hl Ha Hx) as Hr.
  generalize dependent (run hstep w1 l).1. intros w2 Hx.
  destruct (context_reach w2 a x _ Hx Hr) as (w3 & E3 & H3).
  destruct (deploy_step w3 _ _ id t H3 Ht) as (w4 & E4 & y & Hy & Ey).
  destruct (use_dies w4 _ y Hy) as [H1 H2]; [by rewrite Ey|].
  exists (length (w_handles w2)), (S (length (w_handles w2))), (length (w_actors w3)), (hstep w4 (HUse (length (w_actors w3)))).1.
  split; [|done].
  change [HContext a; HReach (length (w_handles w2)); HDeploy (S (length (w_handles w2))) id t; HUse (length (w_actors w3))]
    with ([HContext a; HReach (length (w_handles w2))] ++ [HDeploy (S (length (w_handles w2))) id t; HUse (length (w_actors w3))]).
  rewrite run_app, E3. cbn [run fst snd]. rewrite E4. destruct (hstep w4 _) as [w5 r5]. cbn [fst snd app] in *. by subst.
Qed.

(** The same with the worker: a server started through that handle dies at the first connection. *)
Theorem C87_worker_refuted w h s n w1 k l a x id t :
  s_handle w h = Some s -> s_remote s = None -> hstep w (HBuild h n) = (w1, RHandle k) ->
  Forall (direct k (length (w_actors w1))) l -> (length (w_actors w1) <= a)%nat -> living (run hstep w1 l).1 a = Some x ->
  exists i j c w', run hstep (run hstep w1 l).1 [HContext a; HReach i; HServe j; HPeer c id t] = (w', [RHandle i; RHandle j; RActor c; RPanic]) /\
    living w' c = None.
Proof.
  intros Hs Hn Hb Hl Ha Hx. pose proof (direct_remote w h n s w1 k Hs Hb l a x Hl Ha Hx) as Hr.
  generalize dependent (run hstep w1 l).1. intros w2 Hx.
  destruct (context_reach w2 a x _ Hx Hr) as (w3 & E3 & H3).
  destruct (serve_step w3 _ _ H3) as (w4 & E4 & y & Hy & Ey).
  destruct (peer_dies w4 _ y id t Hy) as [H1 H2]; [by rewrite Ey|].
  exists (length (w_handles w2)), (S (length (w_handles w2))), (length (w_actors w3)), (hstep w4 (HPeer (length (w_actors w3)) id t)).1.
  split; [|done].
  change [HContext a; HReach (length (w_handles w2)); HServe (S (length (w_handles w2))); HPeer (length (w_actors w3)) id t]
    with ([HContext a; HReach (length (w_handles w2))] ++ [HServe (S (length (w_handles w2))); HPeer (length (w_actors w3)) id t]).
  rewrite run_app, E3. cbn [run fst snd]. rewrite E4. destruct (hstep w4 _) as [w5 r5]. cbn [fst snd app] in *. by subst.
Qed.

(** * C88 *)
(** A handle belongs to the system of the handle, or the actor, that it was got from. *)
Theorem C88_same_system l o k : (forall p, o <> HNew p) -> (hstep (hrun l).1 o).2 = RHandle k ->
  exists c x, source (hrun l).1 o = Some c /\ w_handles (hstep (hrun l).1 o).1 !! k = Some x /\ handle_system x = c.
Proof.
  intros Hn Hk. pose proof (derived_handle _ o k (sane_hrun l) Hk) as H. destruct o; try done. by destruct (Hn p).
Qed.

Lemma start_enlists w s id t p : (N.to_nat (s_core s) < length (w_cores w))%nat -> c_down (core_of w (s_core s)) = false ->
  c_map (core_of (start w s id t true p).1 (s_core s)) !! id = Some (length (w_actors w)) /\
  c_down (core_of (start w s id t true p).1 (s_core s)) = false.
Proof.
  intros Hs Hd. rewrite start_core, bool_decide_eq_true_2, Hd by done. cbn. by rewrite lookup_insert.
Qed.
Lemma hrun_app l1 l2 : (hrun (l1 ++ l2)).1 = (run hstep (hrun l1).1 l2).1.
Proof. unfold hrun. rewrite run_app. destruct (run hstep world0 l1) as [w rs]. cbn [fst]. by destruct (run hstep w l2). Qed.


Lemma found_later l o s id a l' h' s' :
  s_handle (hrun (l ++ o :: l')).1 h' = Some s' -> s_core s' = s_core s -> (N.to_nat (s_core s) < length (w_cores (hrun l).1))%nat ->
  c_map (core_of (hstep (hrun l).1 o).1 (s_core s)) !! id = Some a -> c_down (core_of (hstep (hrun l).1 o).1 (s_core s)) = false ->
  undisturbed (hrun (l ++ o :: l')).1 (s_core s) id l' ->
  (hstep (hrun (l ++ o :: l')).1 (HFind h' id)).2 = RFound (Some a).
Proof.
  intros Hs' Hc Hlt Hm Hd Hu. cbn [hstep]. rewrite Hs', Hc. cbn [snd].
  assert (E : (hrun (l ++ o :: l')).1 = (run hstep (hstep (hrun l).1 o).1 l').1).
  { change (o :: l') with ([o] ++ l'). rewrite (assoc_L (++)), hrun_app, hrun_snoc. done. }
  assert (Hlt' : (N.to_nat (s_core s) < length (w_cores (hstep (hrun l).1 o).1))%nat) by (pose proof (step_ncores (hrun l).1 o); lia).
  rewrite E in Hu. destruct (run_unmoved _ _ _ _ Hlt' Hu) as (H1 & H2 & _).
  by rewrite E, H1, H2, Hd, Hm.
Qed.
Lemma not_down l c : ~ was_shut_down (hrun l).1 c l (hrun l).2 -> c_down (core_of (hrun l).1 c) = false.
Proof. intros H. rewrite down_term. apply not_true_is_false. by rewrite terminated_iff. Qed.

(** An actor created through one handle of a system is found under its id through every handle of
    that system, until somebody gives the id to another actor, ends an actor with that id, or shuts
    the system down. *)
Theorem C88_found l h s id t a l' h' s' :
  s_handle (hrun l).1 h = Some s -> ~ was_shut_down (hrun l).1 (s_core s) l (hrun l).2 ->
  (hstep (hrun l).1 (HCreate h id t true)).2 = RActor a ->
  let w := (hrun (l ++ HCreate h id t true :: l')).1 in
  undisturbed w (s_core s) id l' -> s_handle w h' = Some s' -> s_core s' = s_core s ->
  (hstep w (HFind h' id)).2 = RFound (Some a).
Proof.
  intros Hs Hd Ha w Hu Hs' Hc. destruct (sane_handle _ _ _ (sane_hrun l) Hs) as [_ Hlt].
  cbn [hstep] in Ha. rewrite Hs in Ha. cbn [started snd] in Ha. destruct (start _ _ _ _ _ _).2; [|done]. injection Ha as <-.
  destruct (start_enlists (hrun l).1 s id t None Hlt (not_down _ _ Hd)) as [H1 H2].
  eapply (found_later l (HCreate h id t true) s id); try done; cbn [hstep]; rewrite Hs; done.
Qed.
(** The same for actors deployed through a remote handle. *)
Theorem C88_found_deployed l h r id t a l' h' s' :
  r_handle (hrun l).1 h = Some r -> ~ was_shut_down (hrun l).1 (s_core (r_actor_system r)) l (hrun l).2 ->
  (hstep (hrun l).1 (HDeploy h id t)).2 = RActor a ->
  let w := (hrun (l ++ HDeploy h id t :: l')).1 in
  undisturbed w (s_core (r_actor_system r)) id l' -> s_handle w h' = Some s' -> s_core s' = s_core (r_actor_system r) ->
  (hstep w (HFind h' id)).2 = RFound (Some a).
Proof.
  intros Hs Hd Ha w Hu Hs' Hc. destruct (sane_rhandle _ _ _ (sane_hrun l) Hs) as [_ Hlt].
  cbn [hstep] in Ha. rewrite Hs in Ha. cbn [started snd] in Ha. destruct (start _ _ _ _ _ _).2; [|done]. injection Ha as <-.
  destruct (start_enlists (hrun l).1 (r_actor_system r) id t None Hlt (not_down _ _ Hd)) as [H1 H2].
  eapply (found_later l (HDeploy h id t) (r_actor_system r) id); try done; cbn [hstep]; rewrite Hs; done.
Qed.

(** Through every handle of a system: it is terminated exactly if it was shut down through one of
    its handles, and then no actor is found any more. *)
Theorem C88_terminated l h s : s_handle (hrun l).1 h = Some s ->
  exists b, (hstep (hrun l).1 (HTerminated h)).2 = RBool b /\ (b = true <-> was_shut_down (hrun l).1 (s_core s) l (hrun l).2) /\
  (b = true -> forall id, (hstep (hrun l).1 (HFind h id)).2 = RFound None).
Proof.
  intros Hs. exists (c_term (core_of (hrun l).1 (s_core s))). cbn [hstep]. rewrite Hs. split; [done|].
  split; [apply terminated_iff|]. intros Ht id. cbn [snd]. by rewrite down_term, Ht.
Qed.

(** No two actors of a system have the same context id, whatever handles they were created through. *)
Theorem C88_contexts l a b x y : w_actors (hrun l).1 !! a = Some x -> w_actors (hrun l).1 !! b = Some y -> a <> b ->
  s_core (a_sys x) = s_core (a_sys y) -> a_ctx x <> a_ctx y.
Proof. apply contexts_differ. Qed.

Lemma news_root w s l j a : news w s l !! j = Some a -> a_root a = (length (w_actors w) + j)%nat.
Proof.
  revert w j. induction l as [|id l IH]; intros w j; [done|]. cbn [news]. destruct j as [|j]; cbn [lookup list_lookup].
  - intros [= <-]. cbn. lia.
  - intros H. rewrite (IH _ _ H), start_actors, app_length. cbn. lia.
Qed.
Lemma root_alter (l : list hactor) (r j : nat) f a : (forall a, a_root (f a) = a_root a) -> alter f r l !! j = Some a ->
  exists b, l !! j = Some b /\ a_root a = a_root b.
Proof.
  intros Hf H. destruct (decide (j = r)) as [->|].
  - rewrite list_lookup_alter in H. destruct (l !! r) as [b|]; [|done]. injection H as <-. exists b. by rewrite Hf.
  - rewrite list_lookup_alter_ne in H by done. by exists a.
Qed.
Lemma the_five_at w s n j : (j < 5)%nat -> exists a, the_five w s n !! j = Some a /\ a_root a = (length (w_actors w) + j)%nat.
Proof.
  intros Hj. rewrite the_five_eq. assert (El : length (given w s n (news w s service_names)) = 5%nat).
  { unfold given. rewrite !alter_length. done. }
  destruct (lookup_lt_is_Some_2 (given w s n (news w s service_names)) j) as [a Ha]; [lia|]. exists a. split; [done|].
  unfold given in Ha.
  apply root_alter in Ha as (a1 & Ha & ->); [|done]. apply root_alter in Ha as (a2 & Ha & ->); [|done].
  apply root_alter in Ha as (a3 & Ha & ->); [|done]. apply root_alter in Ha as (a4 & Ha & ->); [|done]. by eapply news_root.
Qed.

(** Shutting the system down through any handle that comes from the one the builder returned stops
    the actors of the node. *)
Theorem C88_shutdown_partial w h n w1 k l i s' j :
  hstep w (HBuild h n) = (w1, RHandle k) -> Forall (direct k (length (w_actors w1))) l ->
  (k <= i)%nat -> s_handle (run hstep w1 l).1 i = Some s' -> (j < 5)%nat ->
  living (hstep (run hstep w1 l).1 (HShutdown i)).1 (length (w_actors w) + j) = None.
Proof.
  intros Hb Hl Hi Hs' Hj. destruct (s_handle w h) as [s|] eqn:Hs; [|by rewrite no_build in Hb].
  pose proof (direct_obeys w h n s w1 k Hs Hb l Hl) as Ho.
  pose proof (ob_s _ _ _ _ _ Ho i s' Hi (s_handle_lookup _ _ _ Hs')) as Hr.
  assert (Ha : exists a, w_actors w1 !! (length (w_actors w) + j)%nat = Some a /\ a_root a = (length (w_actors w) + j)%nat).
  { rewrite (step_build _ _ _ _ Hs) in Hb. destruct (b_down w s); [done|]. injection Hb as <- _. cbn [add_handle w_actors].
    rewrite b_w10_actors, lookup_app_r by lia. replace (length (w_actors w) + j - length (w_actors w))%nat with j by lia.
    by apply the_five_at. }
  destruct Ha as (a & Ha & Er). destruct (run_kept w1 l _ _ Ha) as (b & Hb' & Es).
  assert (Er' : a_root b = (length (w_actors w) + j)%nat) by (rewrite <-Er; symmetry; apply Es).
  cbn [hstep]. rewrite Hs'. cbn [fst]. apply (shutdown_remote _ _ _ _ Hr). exists b. split; [done|]. rewrite Er'.
  apply elem_of_list_lookup. exists j.
  destruct j as [|[|[|[|[|j]]]]]; [..|lia]; cbn; f_equal; lia.
Qed.

(** Not so through the handle that the node was built over: it stops the actors it finds, and an
    actor with the id of one of the node's own has replaced it. *)
Theorem C88_shutdown_refuted n m :
  let '(w, rs) := hrun [HNew None; HBuild 0 n; HCreate 0 "heartbeat" (AType m false) true; HShutdown 0; HTerminated 0] in
  rs = [RHandle 0; RHandle 1; RActor 5; RDone; RBool true] /\ is_Some (living w 3) /\ living w 5 = None.
Proof. vm_compute. split_and!; by eauto. Qed.

(** * C89 *)
(** The persistent actors of a program use the default provider, whatever providers were given for
    their types. *)
Theorem C89_default p L l a x : one_system l ->
  w_actors (hrun (HNew (Some (configured p L)) :: l)).1 !! a = Some x -> t_persists (a_type x) = true -> a_store x = Some p.
Proof.
  intros Hl Hx Ht. rewrite (to_ok _ _ (told_run (configured p L) l Hl) _ _ Hx), Ht. by rewrite configured_default.
Qed.
(** So an actor type that was given its own provider never stores anything there. *)
Theorem C89_own_refuted p L t : meant p L t <> p -> forall l id, one_system l ->
  default [] (w_stores (hrun (HNew (Some (configured p L)) :: l)).1 !! (meant p L t, id)) = [].
Proof.
  intros Hm l id Hl. rewrite (to_stores _ _ (told_run (configured p L) l Hl)).
  rewrite configured_default. by rewrite bool_decide_eq_false_2.
Qed.
(** A persistent actor that is created, spawned or deployed reads all events that actors with its id
    have stored, of whatever type they were. *)
Theorem C89_read p L l o a x : one_system l -> let l' := HNew (Some (configured p L)) :: l in
  (hstep (hrun l').1 o).2 = RActor a -> w_actors (hstep (hrun l').1 o).1 !! a = Some x -> t_persists (a_type x) = true ->
  a_read x = stored_by (hrun l').1 (a_id x) l' (hrun l').2.
Proof.
  intros Hl l' Ho Hx Ht. destruct (told_run (configured p L) l Hl) as [H1 _ _ H4]. fold l' in H1, H4.
  rewrite (step_reads _ _ _ _ _ H1 Ho Hx Ht), H4. by rewrite bool_decide_eq_true_2.
Qed.

(** Actors of different types read each other's events if they have the same id, even where each
    type was given a provider of its own. *)
Theorem C89_mixed_refuted p L t t' id e :
  let '(w, rs) := hrun [HNew (Some (configured p L)); HCreate 0 id (AType t true) true; HStore 0 e; HCreate 0 id (AType t' true) true] in
  rs = [RHandle 0; RActor 0; RDone; RActor 1] /\ a_read <$> living w 1 = Some [(t, e)].
Proof.
  set (P := configured p L). pose (s := ASys 0 (Some P) None).
  assert (Hp : with_persistence s = Some p).
  { unfold with_persistence, s. cbn [s_pers fmap option_fmap option_map]. unfold P. by rewrite configured_default. }
  assert (Hok : forall w t, a_alive (new_one w s id (AType t true) true None) = true) by (intros w u; unfold new_one; cbn [a_alive t_persists]; by rewrite Hp).
  assert (Hst : forall w t, a_store (new_one w s id (AType t true) true None) = Some p) by (intros w u; unfold new_one; cbn [a_store t_persists]; by rewrite Hp).
  assert (Hcr : forall w t, s_handle w 0 = Some s ->
    hstep w (HCreate 0 id (AType t true) true) = ((start w s id (AType t true) true None).1, RActor (length (w_actors w))) /\
    living (start w s id (AType t true) true None).1 (length (w_actors w)) = Some (new_one w s id (AType t true) true None) /\
    s_handle (start w s id (AType t true) true None).1 0 = Some s).
  { intros w u Hw. cbn [hstep]. rewrite Hw. unfold started. rewrite start_ok, Hok. split; [done|]. split.
    - unfold living. rewrite start_actors, list_lookup_middle by done. by rewrite Hok.
    - unfold s_handle. by rewrite start_handles. }
  unfold hrun. cbn [run]. destruct (hstep world0 (HNew (Some P))) as [w0 r0] eqn:E0.
  assert (Hw0 : s_handle w0 0 = Some s /\ w_actors w0 = [] /\ w_stores w0 = ∅ /\ r0 = RHandle 0).
  { cbn in E0. injection E0 as <- <-. done. }
  destruct Hw0 as (H1 & H2 & H3 & ->). destruct (Hcr w0 t H1) as (E1 & L1 & H4). rewrite E1. rewrite H2 in *. cbn [length] in *.
  pose proof (start_stores w0 s id (AType t true) true None) as Hs1. pose proof (start_actors w0 s id (AType t true) true None) as Ha1.
  destruct (start w0 s id (AType t true) true None) as [w1 b1]. cbn [fst] in *.
  set (x1 := new_one w0 s id (AType t true) true None) in *.
  assert (E2 : hstep w1 (HStore 0 e) = (World (w_cores w1) (w_actors w1) (w_handles w1) (<[(p, id) := [(t, e)]]> (w_stores w1)), RDone)).
  { cbn [hstep]. rewrite L1. unfold x1 at 1. rewrite Hst. change (a_id x1) with id. rewrite Hs1, H3, lookup_empty. done. }
  rewrite E2. set (w2 := World _ _ _ _). destruct (Hcr w2 t' H4) as (E3 & L3 & _). rewrite E3.
  change (w_actors w2) with (w_actors w1) in *. rewrite Ha1, H2 in *. cbn [app length] in *. split; [done|]. rewrite L3. cbn [fmap option_fmap option_map].
  f_equal. unfold new_one; cbn [a_read t_persists]. rewrite Hp. unfold w2; cbn [w_stores]. by rewrite lookup_insert.
Qed.
(** If the types of persistent actors with the same id agree, nothing is mixed. *)
Theorem C89_private_partial p L l o a x : one_system l -> let l' := HNew (Some (configured p L)) :: l in
  (hstep (hrun l').1 o).2 = RActor a -> w_actors (hstep (hrun l').1 o).1 !! a = Some x -> t_persists (a_type x) = true ->
  (forall b y, w_actors (hrun l').1 !! b = Some y -> t_persists (a_type y) = true -> a_id y = a_id x -> t_num (a_type y) = t_num (a_type x)) ->
  Forall (fun e => e.1 = t_num (a_type x)) (a_read x).
Proof.
  intros Hl l' Ho Hx Ht Hid. rewrite (C89_read p L l o a x Hl Ho Hx Ht). apply Forall_forall. intros [t e] He.
  destruct (stored_by_from _ _ _ _ _ _ (to_done _ _ (told_run (configured p L) l Hl)) He) as (b & y & Hy & Ei & Ep & <-).
  by apply (Hid b y).
Qed.

(** * Cases *)
Definition t1 : atype := AType 1 false.
Example C87_case :
  let '(w, rs) := hrun [HNew None; HBuild 0 7; HInner 1; HCreate 2 "a" t1 true; HSpawn 5 "b" t1; HDeploy 1 "c" t1;
    HContext 6; HCreate 3 "d" t1 true; HUse 5; HUse 6; HUse 7; HUse 8; HUse 1] in
  rs = [RHandle 0; RHandle 1; RHandle 2; RActor 5; RActor 6; RActor 7; RHandle 3; RActor 8; RDone; RDone; RDone; RDone; RPanic].
Proof. vm_compute. done. Qed.
Example C87_peer_case :
  let '(w, rs) := hrun [HNew None; HBuild 0 7; HServe 1; HPeer 5 "a" t1; HUse 7; HUse 7] in
  rs = [RHandle 0; RHandle 1; RActor 5; RActor 7; RPanic; RVoid].
Proof. vm_compute. done. Qed.
(** Built twice, the second time over what the first builder returned: the actors that others deploy
    then reach the cluster. *)
Example C87_twice :
  let '(w, rs) := hrun [HNew None; HBuild 0 7; HInner 1; HBuild 2 7; HServe 3; HPeer 10 "a" t1; HUse 12] in
  rs = [RHandle 0; RHandle 1; RHandle 2; RHandle 3; RActor 10; RActor 12; RDone].
Proof. vm_compute. done. Qed.
Example C87_direct : Forall (direct 1 5) [HInner 1; HCreate 2 "a" t1 true; HSpawn 5 "b" t1; HDeploy 1 "c" t1; HContext 6; HCreate 3 "d" t1 true].
Proof. repeat (constructor; [split; cbn; [lia|done]|]). constructor. Qed.
Example C88_case :
  let '(w, rs) := hrun [HNew None; HBuild 0 7; HInner 1; HCreate 2 "a" t1 true; HFind 0 "a"; HContext 5; HCreate 3 "b" t1 true; HFind 0 "b";
    HPersist 0 (from_provider 4); HFind 4 "a"; HEnd 5; HFind 0 "a"; HShutdown 2; HTerminated 4; HFind 0 "b"] in
  rs = [RHandle 0; RHandle 1; RHandle 2; RActor 5; RFound (Some 5%nat); RHandle 3; RActor 6; RFound (Some 6%nat);
        RHandle 4; RFound (Some 5%nat); RDone; RFound None; RDone; RBool true; RFound None] /\
  (a_ctx <$> w_actors w) = [1; 2; 3; 4; 5; 6; 7].
Proof. vm_compute. done. Qed.
Example C89_case :
  meant 0 [(1, 5); (2, 6); (1, 7)] 1 = 7 /\ meant 0 [(1, 5); (2, 6); (1, 7)] 3 = 0 /\
  let '(w, rs) := hrun [HNew (Some (configured 0 [(1, 5); (2, 6); (1, 7)])); HCreate 0 "x" (AType 1 true) true; HStore 0 8; HStore 0 9;
    HCreate 0 "y" (AType 2 true) true; HStore 1 10; HEnd 0; HBuild 0 3; HDeploy 1 "x" (AType 1 true); HDeploy 1 "y" (AType 1 true)] in
  rs = [RHandle 0; RActor 0; RDone; RDone; RActor 1; RDone; RDone; RHandle 1; RActor 7; RActor 8] /\
  a_read <$> living w 7 = Some [(1, 8); (1, 9)] /\ a_read <$> living w 8 = Some [(2, 10)] /\
  map_to_list (w_stores w) ≡ₚ [((0, "x"%string), [(1, 8); (1, 9)]); ((0, "y"%string), [(2, 10)])].
Proof. split_and!; [done|done|]. vm_compute. split_and!; try done. Qed.
Example C89_one : one_system [HCreate 0 "x" (AType 1 true) true; HStore 0 8; HBuild 0 3; HDeploy 1 "x" (AType 1 true)].
Proof. by repeat constructor. Qed.

Print Assumptions C87_served_partial.
Print Assumptions C87_peer_refuted.
Print Assumptions C87_context_refuted.
Print Assumptions C87_worker_refuted.
Print Assumptions C88_same_system.
Print Assumptions C88_found.
Print Assumptions C88_found_deployed.
Print Assumptions C88_terminated.
Print Assumptions C88_contexts.
Print Assumptions C88_shutdown_partial.
Print Assumptions C88_shutdown_refuted.
Print Assumptions C89_default.
Print Assumptions C89_own_refuted.
Print Assumptions C89_read.
Print Assumptions C89_mixed_refuted.
Print Assumptions C89_private_partial.
