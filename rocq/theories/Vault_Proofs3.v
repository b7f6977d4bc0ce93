(** Persistent sharded entities: actors and their journals. *)
From Verif Require Import Journal_Model Journal_Spec Durable_Model Durable_Spec Durable_Proofs.
From Verif Require Import Host_Model Entity_Model Sharded_Model Sharded_Spec Sharded_Results Vault_Model Vault_Spec Vault_Proofs Vault_Proofs2.
Local Open Scope N_scope.

Section link.
Context {St : Type} (S : storage St) (conf : string -> jtypes).
Variable shard_of : N -> N.
Variable readable : bytes -> bool.
Variable pid_of : N -> string.
Variable stored_as : bytes -> option (N * bytes).
Variable answer : list (N * bytes) -> bytes -> bytes.
Variable failure : bytes.
Notation wstep := (wstep S conf shard_of readable pid_of stored_as answer failure).
Notation wruns := (wruns S conf shard_of readable pid_of stored_as answer failure).
Notation act := (act S conf shard_of readable).
Notation zstep := (zstep shard_of readable).
Notation zrun := (zrun shard_of readable).
Notation drun := (drun S conf).
Implicit Types (w : wsys St) (d : dsys (St := St)) (tr : list wevent).

Lemma wruns_snoc w ops o : wruns w (ops ++ [o]) = ((wstep (wruns w ops).1 o).1, (wruns w ops).2 ++ (wstep (wruns w ops).1 o).2).
Proof.
  unfold Vault_Model.wruns. rewrite run_app. destruct (run wstep w ops) as [w1 e1]. cbn. destruct (wstep w1 o) as [w2 e2]. cbn.
  by rewrite concat_app; cbn; rewrite app_nil_r.
Qed.
Lemma zruns_one z o : zruns shard_of readable z [o] = zstep z o.
Proof. unfold zruns. cbn. destruct (zstep z o). cbn. by rewrite app_nil_r. Qed.

(** ** What is true of an actor and of its incarnation *)
Definition ok_actor d (t : list devent) (q : list zevent) (x : eactor) : Prop :=
  forall c, d_incs d !! a_inc x = Some c ->
    i_pid c = pid_of (a_ent x) /\ i_loading c = None /\ a_state x = view (a_inc x) t /\
    match a_busy x with
    | None => i_call c = None
    | Some k => exists ty b n, stored_as (t_msg k) = Some (ty, b) /\ (exists y, i_call c = Some (y, CPersist ty b)) /\
        ZCalled (t_call k) n (a_ent x) (t_msg k) ∈ q
    end.
Definition ok_new d (t : list devent) (i : N) (y : N * N * option (list msg)) : Prop :=
  forall c, d_incs d !! i = Some c ->
    i_pid c = pid_of y.1.2 /\ i_call c = None /\
    match y.2 with None => view i t = [] | Some ms => i_loading c = None /\ view i t = ms end.
Definition same d d' (devs : list devent) (i : N) : Prop :=
  (d_incs d' !! i = d_incs d !! i \/ d_incs d' !! i = None) /\ view i devs = [].

Lemma ok_actor_same d d' t devs q zevs x : ok_actor d t q x -> same d d' devs (a_inc x) -> ok_actor d' (t ++ devs) (q ++ zevs) x.
Proof.
  intros H [[Hs|Hs] Hv] c Hc; rewrite Hs in Hc; [|done]. destruct (H c Hc) as (H1 & H2 & H3 & H4). split; [done|]. split; [done|].
  rewrite view_app, Hv, app_nil_r. split; [done|]. destruct (a_busy x) as [k|]; [|done]. destruct H4 as (ty & b & n & ? & ? & ?).
  exists ty, b, n. split; [done|]. split; [done|]. apply elem_of_app. by left.
Qed.
Lemma ok_new_same d d' t devs i y : ok_new d t i y -> same d d' devs i -> ok_new d' (t ++ devs) i y.
Proof.
  intros H [[Hs|Hs] Hv] c Hc; rewrite Hs in Hc; [|done]. destruct (H c Hc) as (H1 & H2 & H3). split; [done|]. split; [done|].
  rewrite view_app, Hv, app_nil_r. done.
Qed.

Definition own_of w (e id : N) : Prop := forall x, w_actors w !! e = Some x -> a_ent x = id.

Record link (nodes : list N) (st0 : St) w tr : Prop := {
  lk_alive : alive (w_d w) (journals tr);
  lk_z : exists ops, (w_z w, requests tr) = zrun nodes ops;
  lk_d : exists ops, (w_d w, journals tr) = drun (durable_init st0) ops;
  lk_owned : owned (own_of w) (w_z w);
  lk_act : forall e x, w_actors w !! e = Some x ->
    e < z_nexte (w_z w) /\ a_inc x < d_next (w_d w) /\ ok_actor (w_d w) (journals tr) (requests tr) x;
  lk_inj : forall e e' x x', w_actors w !! e = Some x -> w_actors w !! e' = Some x' -> a_inc x = a_inc x' -> e = e';
  lk_new : forall i y, w_new w !! i = Some y ->
    i < d_next (w_d w) /\ (forall e x, w_actors w !! e = Some x -> a_inc x <> i) /\ ok_new (w_d w) (journals tr) i y;
  lk_up : forall e i, WUp e i ∈ tr -> exists x, w_actors w !! e = Some x /\ a_inc x = i;
  lk_ups : forall e x, w_actors w !! e = Some x -> WUp e (a_inc x) ∈ tr }.

Lemma link_init nodes st0 : link nodes st0 (wsys_init nodes st0) [].
Proof.
  split; cbn; try done.
  - apply alive_init.
  - by exists [].
  - by exists [].
  - apply owned_init.
  - intros e i H. by apply elem_of_nil in H.
Qed.

(** The parts of a step. *)
Lemma act_eq w ds zs new actors ups : act w ds zs new actors ups =
  (WSys (zruns shard_of readable (w_z w) zs).1 (drun (w_d w) ds).1 new actors, map WD (drun (w_d w) ds).2 ++ ups ++ map WZ (zruns shard_of readable (w_z w) zs).2).
Proof. unfold Vault_Model.act. destruct (drun (w_d w) ds). by destruct (zruns shard_of readable (w_z w) zs). Qed.
Lemma act_journals ds zs w ups : journals ups = [] -> journals (map WD (drun (w_d w) ds).2 ++ ups ++ map WZ (zruns shard_of readable (w_z w) zs).2) = (drun (w_d w) ds).2.
Proof. intros H. by rewrite !journals_app, journals_wd, journals_wz, H, !app_nil_r. Qed.
Lemma act_requests ds zs w ups : requests ups = [] -> requests (map WD (drun (w_d w) ds).2 ++ ups ++ map WZ (zruns shard_of readable (w_z w) zs).2) = (zruns shard_of readable (w_z w) zs).2.
Proof. intros H. by rewrite !requests_app, requests_wd, requests_wz, H. Qed.
Lemma zruns_zrun nodes ops zs z q : (z, q) = zrun nodes ops ->
  ((zruns shard_of readable z zs).1, q ++ (zruns shard_of readable z zs).2) = zrun nodes (ops ++ zs).
Proof.
  intros E. unfold Sharded_Model.zrun in *. rewrite run_app. destruct (run zstep (sys_init nodes) ops) as [z1 q1]. injection E as -> ->.
  unfold zruns. destruct (run zstep z1 zs) as [z2 q2]. cbn. by rewrite concat_app.
Qed.
Lemma drun_drun st0 ops ds d t : (d, t) = drun (durable_init st0) ops -> ((drun d ds).1, t ++ (drun d ds).2) = drun (durable_init st0) (ops ++ ds).
Proof. intros E. rewrite drun_app, <- E. cbn. by destruct (drun d ds). Qed.

Lemma zstep_nexte z o : z_nexte z <= z_nexte (zstep z o).1.
Proof.
  destruct o as [n id m recipe enc typed|i|n c|i a known|i|i d|i|i ok|n s a id rc|n s a|n]; cbn [Sharded_Model.zstep];
    repeat (case_match; subst; cbn; try lia); unfold do_host, do_shard, do_resolve, shard_request, do_shard, resolve_all in *;
    repeat (case_match; subst; cbn; try lia); simplify_eq; cbn; lia.
Qed.
Lemma zruns_nexte zs : forall z, z_nexte z <= z_nexte (zruns shard_of readable z zs).1.
Proof.
  unfold zruns. induction zs as [|o zs IH]; intros z; cbn; [lia|]. pose proof (zstep_nexte z o). destruct (zstep z o) as [z1 e1]. cbn in *.
  specialize (IH z1). destruct (run zstep z1 zs) as [z2 e2]. cbn in *. lia.
Qed.

Definition made (o : zop) : Prop := exists i, o = OCreated i true.
Lemma owned_zruns (own : N -> N -> Prop) zs : forall z, owned own z -> Forall (fun o => ~ made o) zs -> owned own (zruns shard_of readable z zs).1.
Proof.
  unfold zruns. induction zs as [|o zs IH]; intros z O Hf; cbn; [done|]. inversion_clear Hf as [|?? Ho Hz].
  pose proof (owned_step shard_of readable own z o O) as H. destruct (zstep z o) as [z1 e1]. cbn in *.
  specialize (IH z1). destruct (run zstep z1 zs) as [z2 e2]. cbn in *. apply IH; [|done]. apply H. intros i n s a id rc -> _. destruct Ho. by exists i.
Qed.

(** Actors keep their entity and incarnation; none is new. *)
Lemma link_upd nodes st0 w tr ds zs new actors :
  link nodes st0 w tr -> Forall (fun o => ~ made o) zs ->
  (forall e x', actors !! e = Some x' -> exists x, w_actors w !! e = Some x /\ a_inc x' = a_inc x /\ a_ent x' = a_ent x) ->
  (forall e x, w_actors w !! e = Some x -> exists x', actors !! e = Some x' /\ a_inc x' = a_inc x) ->
  (forall e x', actors !! e = Some x' -> ok_actor (drun (w_d w) ds).1 (journals tr ++ (drun (w_d w) ds).2) (requests tr ++ (zruns shard_of readable (w_z w) zs).2) x') ->
  (forall i y, new !! i = Some y -> i < d_next (drun (w_d w) ds).1 /\ (forall e x, w_actors w !! e = Some x -> a_inc x <> i) /\
     ok_new (drun (w_d w) ds).1 (journals tr ++ (drun (w_d w) ds).2) i y) ->
  link nodes st0 (act w ds zs new actors []).1 (tr ++ (act w ds zs new actors []).2).
Proof.
  intros [L1 [zo L2] [do L3] L4 L5 L6 L7 L8 L9] Hz H1 H2 H3 H4. rewrite act_eq. cbn [fst snd].
  pose proof (proj1 (drun_frame S conf ds (w_d w))) as Hd. pose proof (zruns_nexte zs (w_z w)) as He.
  assert (Ej : journals (tr ++ map WD (drun (w_d w) ds).2 ++ [] ++ map WZ (zruns shard_of readable (w_z w) zs).2) = journals tr ++ (drun (w_d w) ds).2)
    by (rewrite journals_app, act_journals; done).
  assert (Er : requests (tr ++ map WD (drun (w_d w) ds).2 ++ [] ++ map WZ (zruns shard_of readable (w_z w) zs).2) = requests tr ++ (zruns shard_of readable (w_z w) zs).2)
    by (rewrite requests_app, act_requests; done).
  split; cbn [w_z w_d w_new w_actors]; rewrite ?Ej, ?Er.
  - by apply alive_drun.
  - exists (zo ++ zs). by apply zruns_zrun.
  - exists (do ++ ds). by apply drun_drun.
  - apply owned_zruns; [|done]. eapply owned_weaken; [exact L4|]. intros e id _ Ho x' Hx'. destruct (H1 _ _ Hx') as (x & Hx & _ & ->). by apply Ho.
  - intros e x' Hx'. destruct (H1 _ _ Hx') as (x & Hx & Ei & _). destruct (L5 _ _ Hx) as (B1 & B2 & _). split; [lia|]. split; [rewrite Ei; lia|]. by eapply H3.
  - intros e e' x x' Hx Hx' E. destruct (H1 _ _ Hx) as (y & Hy & Ey & _). destruct (H1 _ _ Hx') as (y' & Hy' & Ey' & _). eapply L6; [exact Hy|exact Hy'|congruence].
  - intros i y Hy. destruct (H4 _ _ Hy) as (B1 & B2 & B3). split; [done|]. split; [|done]. intros e x' Hx'. destruct (H1 _ _ Hx') as (x & Hx & Ei & _). rewrite Ei. by eapply B2.
  - intros e i Hin. apply elem_of_app in Hin as [Hin|Hin].
    + destruct (L8 _ _ Hin) as (x & Hx & <-). destruct (H2 _ _ Hx) as (x' & ? & ?). by exists x'.
    + exfalso. cbn in Hin. apply elem_of_app in Hin as [Hin|Hin]; by apply elem_of_list_fmap in Hin as (? & ? & _).
  - intros e x' Hx'. destruct (H1 _ _ Hx') as (x & Hx & -> & _). apply elem_of_app. left. by apply L9.
Qed.
Lemma link_keep nodes st0 w tr ds zs :
  link nodes st0 w tr -> Forall (fun o => ~ made o) zs ->
  (forall i, i < d_next (w_d w) -> same (w_d w) (drun (w_d w) ds).1 (drun (w_d w) ds).2 i) ->
  link nodes st0 (act w ds zs (w_new w) (w_actors w) []).1 (tr ++ (act w ds zs (w_new w) (w_actors w) []).2).
Proof.
  intros L Hz Hs. apply link_upd; [done|done|eauto|eauto| |].
  - intros e x Hx. destruct (lk_act _ _ _ _ L _ _ Hx) as (_ & B & C). eapply ok_actor_same; [done|]. by apply Hs.
  - intros i y Hy. destruct (lk_new _ _ _ _ L _ _ Hy) as (B & B' & C). pose proof (proj1 (drun_frame S conf ds (w_d w))).
    split; [lia|]. split; [done|]. eapply ok_new_same; [done|]. by apply Hs.
Qed.
(** One actor changes. *)
Lemma link_set nodes st0 w tr ds zs e x st b :
  link nodes st0 w tr -> Forall (fun o => ~ made o) zs -> w_actors w !! e = Some x ->
  Forall (fun o => forall j, j <> a_inc x -> ~ touches o j) ds ->
  ok_actor (drun (w_d w) ds).1 (journals tr ++ (drun (w_d w) ds).2) (requests tr ++ (zruns shard_of readable (w_z w) zs).2) (EActor (a_node x) (a_ent x) (a_inc x) st b) ->
  link nodes st0 (act w ds zs (w_new w) (set_actor w e st b) []).1 (tr ++ (act w ds zs (w_new w) (set_actor w e st b) []).2).
Proof.
  intros L Hz Hx Ht Hok. unfold set_actor. rewrite Hx.
  assert (Hs : forall j, j < d_next (w_d w) -> j <> a_inc x -> same (w_d w) (drun (w_d w) ds).1 (drun (w_d w) ds).2 j).
  { intros j Hj Hne. destruct (proj2 (drun_frame S conf ds (w_d w)) j Hj) as (E1 & E2 & _).
    - eapply Forall_impl; [exact Ht|]. intros o Ho. by apply Ho.
    - split; [by left|done]. }
  apply link_upd; [done|done| | | |].
  - intros e' x' Hx'. destruct (decide (e' = e)) as [->|Hne]; [rewrite lookup_insert in Hx'; injection Hx' as <-; by exists x|]. rewrite lookup_insert_ne in Hx' by done. by exists x'.
  - intros e' x' Hx'. destruct (decide (e' = e)) as [->|Hne]; [|exists x'; by rewrite lookup_insert_ne].
    rewrite lookup_insert. assert (x' = x) as -> by congruence. by eexists.
  - intros e' x' Hx'. destruct (decide (e' = e)) as [->|Hne]; [rewrite lookup_insert in Hx'; by injection Hx' as <-|]. rewrite lookup_insert_ne in Hx' by done.
    destruct (lk_act _ _ _ _ L _ _ Hx') as (_ & B & C). eapply ok_actor_same; [done|]. apply Hs; [done|]. intros E. apply Hne. by eapply (lk_inj _ _ _ _ L).
  - intros i y Hy. destruct (lk_new _ _ _ _ L _ _ Hy) as (B & B' & C). pose proof (proj1 (drun_frame S conf ds (w_d w))).
    split; [lia|]. split; [done|]. eapply ok_new_same; [done|]. apply Hs; [done|]. intros ->. by eapply B'.
Qed.

Lemma crash_same l : forall d i, same d (drun d (map DCrash l)).1 (drun d (map DCrash l)).2 i.
Proof.
  induction l as [|j l IH]; intros d i; cbn [map Durable_Model.drun]; [split; [by left|done]|].
  assert (H1 : same d (dstep S conf d (DCrash j)).1 (dstep S conf d (DCrash j)).2 i).
  { destruct d as [st incs fl n]. cbn. destruct (incs !! j) eqn:E; cbn; (split; [|done]); cbn; [|by left].
    destruct (decide (i = j)) as [->|Hne]; [right; apply lookup_delete|left; by apply lookup_delete_ne]. }
  destruct (dstep S conf d (DCrash j)) as [d1 e1]. specialize (IH d1 i). destruct (drun d1 (map DCrash l)) as [d2 e2]. cbn [fst snd] in *.
  destruct H1 as [H1 H1'], IH as [H2 H2']. split; [|by rewrite view_app, H1', H2'].
  destruct H2 as [-> | ->]; [done|by right].
Qed.
Lemma nil_same d i : same d (drun d []).1 (drun d []).2 i.
Proof. split; [by left|done]. Qed.
Lemma apply_same d k i : i < d_next d -> same d (drun d [DApply k]).1 (drun d [DApply k]).2 i.
Proof. intros Hi. destruct (proj2 (drun_frame S conf [DApply k] d) i Hi) as (E1 & E2 & _); [constructor; [intros []|constructor]|]. split; [by left|done]. Qed.


Lemma link_start nodes st0 w tr n id : link nodes st0 w tr ->
  link nodes st0 (act w [DStart (pid_of id)] [] (<[d_next (w_d w) := (n, id, None)]> (w_new w)) (w_actors w) []).1
    (tr ++ (act w [DStart (pid_of id)] [] (<[d_next (w_d w) := (n, id, None)]> (w_new w)) (w_actors w) []).2).
Proof.
  intros L. assert (Hs : forall i, i < d_next (w_d w) -> same (w_d w) (drun (w_d w) [DStart (pid_of id)]).1 (drun (w_d w) [DStart (pid_of id)]).2 i).
  { intros i Hi. destruct (proj2 (drun_frame S conf [DStart (pid_of id)] (w_d w)) i Hi) as (E1 & E2 & _); [constructor; [intros []|constructor]|]. split; [by left|done]. }
  assert (Hn : d_next (drun (w_d w) [DStart (pid_of id)]).1 = d_next (w_d w) + 1 /\ exists j snap,
    d_incs (drun (w_d w) [DStart (pid_of id)]).1 !! d_next (w_d w) = Some (Inc (pid_of id) j (Some snap) None) /\
    (drun (w_d w) [DStart (pid_of id)]).2 = [VStart (d_next (w_d w)) (pid_of id)]).
  { rewrite drun_one. destruct (w_d w) as [st incs fl nx]. cbn. destruct (recover_snapshot S conf (pid_of id) journal_new st) as [j snap]. cbn.
    split; [done|]. exists j, snap. by rewrite lookup_insert. }
  destruct Hn as (Hn & j & snap & Hi & Hev).
  apply link_upd; [done|constructor|eauto|eauto| |].
  - intros e x Hx. destruct (lk_act _ _ _ _ L _ _ Hx) as (_ & B & C). eapply ok_actor_same; [done|]. by apply Hs.
  - intros i y Hy. rewrite Hn. destruct (decide (i = d_next (w_d w))) as [->|Hne].
    + rewrite lookup_insert in Hy. injection Hy as <-. split; [lia|]. split.
      * intros e x Hx. destruct (lk_act _ _ _ _ L _ _ Hx) as (_ & B & _). lia.
      * intros c Hc. rewrite Hi in Hc. injection Hc as <-. split; [done|]. split; [done|]. cbn [snd].
        rewrite Hev, view_app. destruct (al_fresh _ _ (lk_alive _ _ _ _ L) (d_next (w_d w))) as (_ & -> & _); [lia|done].
    + rewrite lookup_insert_ne in Hy by done. destruct (lk_new _ _ _ _ L _ _ Hy) as (B & B' & C).
      split; [lia|]. split; [done|]. eapply ok_new_same; [done|]. by apply Hs.
Qed.
Lemma link_load nodes st0 w tr i n id ms : link nodes st0 w tr -> w_new w !! i = Some (n, id, None) -> loads S conf w i = Some ms ->
  link nodes st0 (act w [DLoad i] [] (<[i := (n, id, Some ms)]> (w_new w)) (w_actors w) []).1
    (tr ++ (act w [DLoad i] [] (<[i := (n, id, Some ms)]> (w_new w)) (w_actors w) []).2).
Proof.
  intros L Hnew Hl. assert (Hs : forall j, j < d_next (w_d w) -> i <> j -> same (w_d w) (drun (w_d w) [DLoad i]).1 (drun (w_d w) [DLoad i]).2 j).
  { intros j Hj Hne. destruct (proj2 (drun_frame S conf [DLoad i] (w_d w)) j Hj) as (E1 & E2 & _); [constructor; [done|constructor]|]. split; [by left|done]. }
  pose proof (proj1 (drun_frame S conf [DLoad i] (w_d w))) as Hn.
  destruct (lk_new _ _ _ _ L _ _ Hnew) as (Bi & Bi' & Ci).
  apply link_upd; [done|constructor|eauto|eauto| |].
  - intros e x Hx. destruct (lk_act _ _ _ _ L _ _ Hx) as (_ & B & C). eapply ok_actor_same; [done|]. apply Hs; [done|]. intros E. by eapply Bi'.
  - intros j y Hy. destruct (decide (j = i)) as [->|Hne].
    + rewrite lookup_insert in Hy. injection Hy as <-. split; [lia|]. split; [done|]. unfold loads in Hl.
      intros c Hc. rewrite drun_one in *. pose proof (lk_alive _ _ _ _ L) as A. destruct (w_d w) as [st incs fl nx] eqn:Ed. cbn [dstep] in *. destruct (incs !! i) as [[pid jn [snap|] call]|] eqn:Ei; try done.
      destruct (recover_messages S conf pid jn st) as [j' ms'] eqn:Er. cbn [fst snd d_incs] in *. injection Hl as <-.
      rewrite lookup_insert in Hc. injection Hc as <-. cbn [i_pid i_call i_loading]. destruct (Ci _ Ei) as (C1 & C2 & C3). split; [done|]. split; [done|].
      split; [done|]. rewrite view_app, C3. cbn. rewrite N.eqb_refl. by rewrite app_nil_r.
    + rewrite lookup_insert_ne in Hy by done. destruct (lk_new _ _ _ _ L _ _ Hy) as (B & B' & C).
      split; [lia|]. split; [done|]. eapply ok_new_same; [done|]. by apply Hs.
Qed.
Lemma link_created nodes st0 w tr t n s a id rc i ms : link nodes st0 w tr -> z_tasks (w_z w) !! t = Some (TCreate n s a id rc) ->
  w_new w !! i = Some (n, id, Some ms) ->
  let r := act w [] [OCreated t true] (delete i (w_new w)) (<[z_nexte (w_z w) := EActor n id i ms None]> (w_actors w)) [WUp (z_nexte (w_z w)) i] in
  link nodes st0 r.1 (tr ++ r.2).
Proof.
  intros L Ht Hnew. cbn zeta. destruct (lk_new _ _ _ _ L _ _ Hnew) as (Bi & Bi' & Ci).
  destruct L as [L1 [zo L2] [do L3] L4 L5 L6 L7 L8 L9]. rewrite act_eq. set (r := zruns shard_of readable (w_z w) [OCreated t true]). cbn [fst snd Durable_Model.drun].
  set (e := z_nexte (w_z w)) in *.
  assert (Hfree : w_actors w !! e = None). { destruct (w_actors w !! e) as [x|] eqn:E; [|done]. destruct (L5 _ _ E) as [? _]. unfold e in *. lia. }
  assert (Hz : z_nexte r.1 = e + 1).
  { unfold r, e. rewrite zruns_one. cbn [Sharded_Model.zstep]. rewrite Ht. destruct (z_shards (w_z w) !! (n, s, a)) as [m|]; [|done].
    destruct (on_start_result m id (Some (z_nexte (w_z w)))). unfold do_shard. destruct (resolve_all readable n _). done. }
  assert (Ej : journals (tr ++ map WD [] ++ [WUp e i] ++ map WZ r.2) = journals tr)
    by (rewrite !journals_app, journals_wd, journals_wz; by rewrite !app_nil_r).
  assert (Er : requests (tr ++ map WD [] ++ [WUp e i] ++ map WZ r.2) = requests tr ++ r.2)
    by (rewrite !requests_app, requests_wd, requests_wz; done).
  split; cbn [w_z w_d w_new w_actors]; rewrite ?Ej, ?Er.
  - done.
  - exists (zo ++ [OCreated t true]). by apply zruns_zrun.
  - by exists do.
  - unfold r. rewrite zruns_one. apply owned_step.
    + eapply owned_weaken; [exact L4|]. intros e' id' He Ho x Hx. cbn in Hx. rewrite lookup_insert_ne in Hx by (unfold e; lia). by apply Ho.
    + intros t' n' s' a' id' rc' [= <-] Ht'. rewrite Ht in Ht'. injection Ht' as <- <- <- <- <-. intros x Hx. cbn in Hx. fold e in Hx. rewrite lookup_insert in Hx. by injection Hx as <-.
  - intros e' x. destruct (decide (e' = e)) as [->|Hne].
    + rewrite lookup_insert. intros [= <-]. split; [lia|]. split; [done|]. intros c Hc. cbn [a_inc] in *. destruct (Ci _ Hc) as (C1 & C2 & C3 & C4). cbn. by rewrite C4.
    + rewrite lookup_insert_ne by done. intros Hx. destruct (L5 _ _ Hx) as (B1 & B2 & B3). split; [unfold e in *; lia|]. split; [done|].
      rewrite <- (app_nil_r (journals tr)). eapply ok_actor_same; [exact B3|]. split; [by left|done].
  - intros e1 e2 x1 x2. destruct (decide (e1 = e)) as [->|H1], (decide (e2 = e)) as [->|H2]; rewrite ?lookup_insert, ?(lookup_insert_ne _ e) by done; try done.
    + intros [= <-] Hx E. cbn in E. by destruct (Bi' _ _ Hx).
    + intros Hx [= <-] E. cbn in E. by destruct (Bi' _ _ Hx).
    + apply L6.
  - intros j y [Hne Hy]%lookup_delete_Some. destruct (L7 _ _ Hy) as (B1 & B2 & B3). split; [done|]. split; [|done].
    intros e' x. destruct (decide (e' = e)) as [->|He]; [rewrite lookup_insert; by intros [= <-]|rewrite lookup_insert_ne by done; by apply B2].
  - intros e' j. rewrite !elem_of_app, elem_of_list_singleton. intros [H|[H|[[= -> ->]|H]]].
    + destruct (L8 _ _ H) as (x & Hx & Hi). exists x. split; [|done]. rewrite lookup_insert_ne; [done|]. intros <-. congruence.
    + by apply elem_of_nil in H.
    + rewrite lookup_insert. by eexists.
    + by apply elem_of_list_fmap in H as (? & ? & _).
  - intros e' x. destruct (decide (e' = e)) as [->|He].
    + rewrite lookup_insert. intros [= <-]. cbn. rewrite elem_of_app. right. by left.
    + rewrite lookup_insert_ne by done. intros Hx. rewrite elem_of_app. left. by apply L9.
Qed.

(** The calls of an entity actor. *)
Lemma call_journal nodes st0 w tr e nn ent i st k ty b : link nodes st0 w tr ->
  w_actors w !! e = Some (EActor nn ent i st None) -> stored_as (t_msg k) = Some (ty, b) ->
  (exists n', ZCalled (t_call k) n' ent (t_msg k) ∈ requests tr) ->
  let r := act w [DCall i (CPersist ty b)] [] (w_new w) (set_actor w e st (Some k)) [] in link nodes st0 r.1 (tr ++ r.2).
Proof.
  intros L Hx Hs [n' Hc]. cbn zeta. eapply link_set; [done|constructor|exact Hx| |].
  { constructor; [|constructor]. intros j Hj Ht. by apply Hj. }
  destruct (lk_act _ _ _ _ L _ _ Hx) as (_ & _ & C). cbn [a_node a_ent a_inc a_state a_busy] in *. intros c Hi. rewrite drun_one in *. unfold ok_actor in C. cbn [a_node a_ent a_inc a_state a_busy] in *.
  destruct (w_d w) as [st1 incs fl nx] eqn:Ed. cbn [dstep] in *. cbn [d_incs] in C.
  destruct (incs !! i) as [[pid jn l call]|] eqn:Ei; [|cbn [fst snd d_incs] in Hi; congruence].
  destruct (C _ eq_refl) as (C1 & C2 & C3 & C4). cbn in C1, C2, C4. subst l call. 
  destruct (call_write conf pid (CPersist ty b) jn) as [[wr|]|] eqn:Ew; cbn [fst snd d_incs] in *.
  - rewrite lookup_insert in Hi. injection Hi as <-. cbn [i_pid i_loading i_call]. split; [done|]. split; [done|].
    split; [by rewrite view_app, C3, app_nil_r|]. exists ty, b, n'. split; [done|]. split; [by eexists|]. apply elem_of_app. by left.
  - cbn in Ew. by destruct (reg_types _ !! ty).
  - by rewrite lookup_delete in Hi.
Qed.

Lemma link_step nodes st0 w tr o : link nodes st0 w tr -> link nodes st0 (wstep w o).1 (tr ++ (wstep w o).2).
Proof.
  intros L. assert (Hnil : link nodes st0 w (tr ++ [])) by (by rewrite app_nil_r).
  destruct o as [o|t|i|t i|t|t|e t|e|e t|t d|i|k|n]; cbn [Vault_Model.wstep].
  - destruct (passes o) eqn:Hp; [|done]. apply link_keep; [done| |intros; apply nil_same]. repeat constructor. intros [i ->]. done.
  - destruct (z_tasks (w_z w) !! t) as [[]|]; try done. by apply link_start.
  - destruct (w_new w !! i) as [[[n id] [?|]]|] eqn:Ei; try done. destruct (loads S conf w i) as [ms|] eqn:El; [|done]. by apply link_load.
  - destruct (z_tasks (w_z w) !! t) as [[| | | |n s a id rc]|] eqn:Et; try done. destruct (w_new w !! i) as [[[n' id'] [ms|]]|] eqn:Ei; try done.
    destruct ((n' =? n) && (id' =? id) && runs w i) eqn:Eb; [|done]. apply andb_true_iff in Eb as [[<-%N.eqb_eq <-%N.eqb_eq]%andb_true_iff _].
    by eapply link_created.
  - apply link_keep; [done| |intros; apply nil_same]. repeat constructor. by intros [i [=]].
  - destruct (z_tasks (w_z w) !! t) as [[| |n s a id e k| |]|] eqn:Et; try done. destruct (w_actors w !! e) as [[nn ent i st [|]]|] eqn:Ea; try done.
    destruct (runs w i); [|done]. destruct (stored_as (t_msg k)) as [[ty b]|] eqn:Es.
    + eapply call_journal; [done|exact Ea|done|].
      assert (ent = id) as ->. { destruct (ow_tasks _ _ (lk_owned _ _ _ _ L) _ _ _ _ _ _ (elem_of_list_lookup_2 _ _ _ Et)) as [_ Ho]. by apply (Ho _ Ea). }
      destruct (lk_z _ _ _ _ L) as [zo Hzo]. assert (Hz1 : w_z w = (zrun nodes zo).1) by (by rewrite <- Hzo). assert (Hz2 : requests tr = (zrun nodes zo).2) by (by rewrite <- Hzo).
      rewrite Hz1 in Et. rewrite Hz2. by eapply task_called.
    + apply link_keep; [done| |intros; apply nil_same]. repeat constructor. by intros [? [=]].
  - destruct (w_actors w !! e) as [[nn ent i st [k|]]|] eqn:Ea; try done. destruct (z_tasks (w_z w) !! t) as [[| |n s a id e' k'| |]|] eqn:Et; try done.
    destruct ((e' =? e) && bool_decide (k' = k)) eqn:Eb; [|done]. apply andb_true_iff in Eb as [->%N.eqb_eq ->%bool_decide_eq_true].
    destruct (Durable_Model.drun S conf (w_d w) [DAnswer i true]).2 as [|dv [|]] eqn:Ed; try done. destruct (stored_as (t_msg k)) as [x|] eqn:Es; [|done].
    eapply link_set; [done|repeat constructor; by intros [? [=]]|exact Ea|constructor; [|constructor]; intros j Hj Ht; by apply Hj|].
    destruct (lk_act _ _ _ _ L _ _ Ea) as (_ & _ & C). intros c Hi. unfold ok_actor in C. cbn [a_node a_ent a_inc a_state a_busy] in *. rewrite drun_one in *.
    destruct (w_d w) as [st1 incs fl nx] eqn:Edw. cbn [dstep] in *. cbn [d_incs] in C. destruct (incs !! i) as [[pid jn l [[kk c']|]]|] eqn:Ei; try done.
    destruct (fl !! kk); [done|]. cbn [fst snd d_incs] in *. rewrite lookup_insert in Hi. injection Hi as <-.
    destruct (C _ eq_refl) as (C1 & C2 & C3 & (ty & b & n' & C4 & (yy & C5) & C6)). cbn [i_call i_pid i_loading] in *. injection C5 as <- ->. rewrite Es in C4. injection C4 as ->.
    split; [done|]. split; [done|]. split; [|done]. rewrite view_app, C3. cbn. by rewrite N.eqb_refl.
  - destruct (w_actors w !! e) as [[nn ent i st [k|]]|] eqn:Ea; try done. destruct (stored_as (t_msg k)) as [[ty b]|] eqn:Es; [|done].
    unfold keep. assert (Hsame : w_actors w = set_actor w e st (Some k)). { unfold set_actor. rewrite Ea. cbn. by rewrite insert_id. }
    rewrite Hsame. eapply link_set; [done|constructor|exact Ea| |].
    { constructor; [|constructor; [|constructor]]; intros j Hj Ht; by apply Hj. }
    destruct (lk_act _ _ _ _ L _ _ Ea) as (_ & _ & C). intros c Hi. unfold ok_actor in C. cbn [a_node a_ent a_inc a_state a_busy] in *. rewrite drun_two in *.
    destruct (w_d w) as [st1 incs fl nx] eqn:Edw. cbn [dstep] in *. cbn [d_incs] in C. destruct (incs !! i) as [[pid jn l call]|] eqn:Ei; cbn [fst snd dstep] in *; [|rewrite Ei in Hi; cbn [fst snd d_incs] in Hi; congruence].
    destruct (C _ eq_refl) as (C1 & C2 & C3 & (ty' & b' & n' & C4 & (yy & C5) & C6)). cbn [i_call i_pid i_loading] in *. subst call l. rewrite Es in C4. injection C4 as <- <-.
    cbn [fst snd dstep] in *. rewrite lookup_insert in Hi |- *. destruct (call_write conf pid (CPersist ty b) jn) as [[wr|]|] eqn:Ew; cbn [fst snd d_incs] in *.
    + rewrite lookup_insert in Hi. injection Hi as <-. cbn. split; [done|]. split; [done|]. rewrite view_app, C3. cbn. split; [by rewrite app_nil_r|].
      exists ty, b, n'. split; [done|]. split; [by eexists|]. apply elem_of_app. by left.
    + cbn in Ew. by destruct (reg_types _ !! ty).
    + by rewrite lookup_delete in Hi.
  - destruct (w_actors w !! e) as [[nn ent i st [k|]]|] eqn:Ea; try done. destruct (z_tasks (w_z w) !! t) as [[| |n s a id e' k'| |]|] eqn:Et; try done.
    destruct ((e' =? e) && bool_decide (k' = k) && runs w i) eqn:Eb; [|done].
    eapply link_set; [done|repeat constructor; by intros [? [=]]|exact Ea|constructor; [|constructor]; intros j Hj Ht; by apply Hj|].
    destruct (lk_act _ _ _ _ L _ _ Ea) as (_ & _ & C). intros c Hi. unfold ok_actor in C. cbn [a_node a_ent a_inc a_state a_busy] in *. rewrite drun_one in *.
    destruct (w_d w) as [st1 incs fl nx] eqn:Edw. cbn [dstep] in *. cbn [d_incs] in C. destruct (incs !! i) as [[pid jn l call]|] eqn:Ei; cbn [fst snd dstep d_incs] in *; [|cbn [fst snd d_incs] in Hi; congruence].
    destruct (C _ eq_refl) as (C1 & C2 & C3 & (ty & b & n' & C4 & (yy & C5) & C6)). cbn [i_call i_pid i_loading] in *. subst call l.
    cbn [fst snd d_incs] in *. rewrite lookup_insert in Hi. injection Hi as <-. cbn. split; [done|]. split; [done|]. split; [|done]. rewrite view_app, C3. cbn. by rewrite app_nil_r.
  - destruct (z_tasks (w_z w) !! t) as [[]|]; try done. 
    assert (Hk : link nodes st0 (keep S conf shard_of readable w [] [OEntity t d]).1 (tr ++ (keep S conf shard_of readable w [] [OEntity t d]).2)).
    { apply link_keep; [done| |intros; apply nil_same]. repeat constructor. by intros [i [=]]. }
    destruct d; repeat case_match; done.
  - apply link_keep; [done|by constructor|]. intros j _. apply (crash_same [i]).
  - apply link_keep; [done|by constructor|]. intros j Hj. by apply apply_same.
  - apply link_keep; [done| |]; [repeat constructor; by intros [i [=]]|]. intros j _. apply crash_same.
Qed.
Theorem link_run nodes st0 ops : link nodes st0 (wruns (wsys_init nodes st0) ops).1 (wruns (wsys_init nodes st0) ops).2.
Proof.
  induction ops as [|o ops IH] using rev_ind; [apply link_init|]. rewrite wruns_snoc. cbn [fst snd]. by apply link_step.
Qed.
End link.
