(** Persistent sharded entities: acknowledged writes. *)
From Verif Require Import Redis_Model Redis_Spec Redis_Proofs Redis_Proofs2 Redis_Props.
From Verif Require Import Journal_Model Journal_Spec Durable_Model Durable_Spec Durable_Proofs Durable_Props.
From Verif Require Import Host_Model Entity_Model Sharded_Model Sharded_Spec Sharded_Results Sharded_Progress Sharded_Props.
From Verif Require Import Vault_Model Vault_Spec Vault_Proofs Vault_Proofs2 Vault_Proofs3 Vault_Proofs4.
Local Open Scope N_scope.
Local Open Scope list_scope.

(** ** Journals *)
Lemma acked_elem pid t i c m : VAnswer i pid c true ∈ t -> m ∈ messages_in c -> m ∈ acked pid t.
Proof.
  intros H Hm. unfold acked. apply elem_of_list_In, in_concat. exists (messages_in c). split; [|by apply elem_of_list_In].
  apply in_map_iff. exists (VAnswer i pid c true). split; [|by apply elem_of_list_In]. cbn. by rewrite decide_True.
Qed.
Lemma tried_elem pid t m : m ∈ tried pid t -> exists i c, VCall i pid c ∈ t /\ m ∈ messages_in c.
Proof.
  unfold tried. intros H. apply elem_of_list_In, in_concat in H as (l & H & Hm). apply in_map_iff in H as (e & <- & He).
  destruct e as [| |i p c| |]; try done. cbn in Hm. destruct (decide (p = pid)) as [->|]; [|done]. exists i, c. split; by apply elem_of_list_In.
Qed.
Lemma view_recovered i t pid snap ms x : VRecovered i pid snap ms ∈ t -> x ∈ ms -> x ∈ view i t.
Proof.
  intros H Hx. unfold view. apply elem_of_list_In, in_flat_map. exists (VRecovered i pid snap ms). split; [by apply elem_of_list_In|]. cbn. rewrite N.eqb_refl. by apply elem_of_list_In.
Qed.
Lemma view_answered i t pid c x : VAnswer i pid c true ∈ t -> x ∈ messages_in c -> x ∈ view i t.
Proof.
  intros H Hx. unfold view. apply elem_of_list_In, in_flat_map. exists (VAnswer i pid c true). split; [by apply elem_of_list_In|]. cbn. rewrite N.eqb_refl. by apply elem_of_list_In.
Qed.
(** Incarnations that do not overlap: one that runs now and is not the one that ran then has
    started since. *)
Lemma apart_since pid A B rest i i' : apart pid (A ++ B ++ rest) -> i <> i' ->
  VStart i pid ∈ A -> VGone i pid ∉ A -> VStart i' pid ∈ A -> VGone i' pid ∉ A ++ B -> False.
Proof.
  intros Ha Hne Hi Hg Hi' Hg'. apply elem_of_list_split in Hi as (a1 & a2 & ->). apply elem_of_app in Hi' as [Hi'|Hi'].
  - apply Hg'. rewrite <- !app_assoc. apply elem_of_app. left. eapply (Ha a1 i (a2 ++ B ++ rest)); [by rewrite <- !app_assoc|done].
  - apply elem_of_cons in Hi' as [[= ->]|Hi']; [done|]. apply elem_of_list_split in Hi' as (b1 & b2 & ->). apply Hg.
    assert (H : VGone i pid ∈ a1 ++ VStart i pid :: b1).
    { eapply (Ha (a1 ++ VStart i pid :: b1) i' (b2 ++ B ++ rest)); [by rewrite <- !app_assoc; cbn; rewrite <- !app_assoc|]. apply elem_of_app. right. by left. }
    rewrite elem_of_app, elem_of_cons in H. rewrite elem_of_app, elem_of_cons, elem_of_app. tauto.
Qed.

(** ** Requests *)
Section requests.
Variable shard_of : N -> N.
Variable readable : bytes -> bool.
Notation zstep := (zstep shard_of readable).
Notation zrun := (zrun shard_of readable).

Lemma handled_after nodes ops r1 k id e m v r2 : (zrun nodes ops).2 = r1 ++ ZHandled k id e m v :: r2 -> exists n, ZCalled k n id m ∈ r1.
Proof.
  revert r2. induction ops as [|o ops IH] using rev_ind; intros r2 E; [by destruct r1|]. rewrite zrun_snoc in E. cbn [snd] in E.
  apply split_app in E as [(u & E & ->)|(u & E & ->)]; [by eapply IH|]. clear IH.
  assert (H : ZHandled k id e m v ∈ (zstep (zrun nodes ops).1 o).2) by (rewrite E; apply elem_of_app; right; by left).
  destruct o as [n' id' m' recipe enc typed|i|n' c|i a known|i|i d|i|i ok|n' s a id' rc|n' s a|n'];
    try by (exfalso; eapply step_unhandled; [|exact H]).
  destruct (z_tasks (zrun nodes ops).1 !! i) as [[| |n s a id' e' t| |]|] eqn:Et.
  3: { destruct (entity_step shard_of readable _ _ _ _ _ _ _ _ d Et) as (evs & Hn & Ev). rewrite Ev in H.
       destruct (entity_handled d) as [v'|]; [|by apply Hn in H]. apply elem_of_cons in H as [H|H]; [|by apply Hn in H]. injection H as -> -> -> -> ->.
       destruct (task_called _ _ _ _ _ _ _ _ _ _ _ Et) as [n' Hc]. exists n'. apply elem_of_app. by left. }
  all: exfalso; cbn [Sharded_Model.zstep] in H; rewrite Et in H; by apply elem_of_nil in H.
Qed.

Lemma two_count (f : zevent -> bool) l x y : (count f l <= 1)%nat -> x ∈ l -> y ∈ l -> f x = true -> f y = true -> x = y.
Proof.
  intros Hc Hx Hy Fx Fy. apply elem_of_list_split in Hx as (a & b & ->). rewrite count_app in Hc. unfold count in Hc at 2. cbn in Hc. rewrite Fx in Hc. cbn in Hc. fold (count f b) in Hc.
  apply elem_of_app in Hy as [Hy|[-> |Hy]%elem_of_cons]; [|done|]; pose proof (count_elem f _ _ Hy Fy); lia.
Qed.
Lemma same_call nodes ops k n id m n' id' m' : ZCalled k n id m ∈ (zrun nodes ops).2 -> ZCalled k n' id' m' ∈ (zrun nodes ops).2 -> n = n' /\ id = id' /\ m = m'.
Proof.
  intros H H'. pose proof (two_count (is_called k) _ _ _ (called_le shard_of readable nodes ops k) H H' (N.eqb_refl k) (N.eqb_refl k)). by simplify_eq.
Qed.
(** The handler run behind a result. *)
Lemma result_handled nodes ops r1 k v r2 n id m : (zrun nodes ops).2 = r1 ++ ZReturned k (SOk v) :: r2 -> ZCalled k n id m ∈ (zrun nodes ops).2 ->
  exists e, ZHandled k id e m (Some v) ∈ r1.
Proof.
  intros E Hc. destruct (C62_result shard_of readable nodes ops k v) as (n' & id' & e & m' & Hc' & Hh); [rewrite E; apply elem_of_app; right; by left|].
  destruct (same_call _ _ _ _ _ _ _ _ _ Hc Hc') as (<- & <- & <-). exists e. rewrite E in Hh. apply elem_of_app in Hh as [Hh|[Hh|Hh]%elem_of_cons]; [done|done|exfalso].
  pose proof (C62_not_late shard_of readable nodes ops k _ _ _ E) as Hl. pose proof (count_elem (is_handled k) _ _ Hh (N.eqb_refl k)). lia.
Qed.
(** A call made after some point is handled after it. *)
Lemma handled_later nodes ops r1 k n id m r2 id' e m' v : (zrun nodes ops).2 = r1 ++ ZCalled k n id m :: r2 -> ZHandled k id' e m' v ∉ r1.
Proof.
  intros E H. apply elem_of_list_split in H as (a & b & ->). rewrite <- app_assoc in E. destruct (handled_after _ _ _ _ _ _ _ _ _ E) as [n' H].
  pose proof (called_le shard_of readable nodes ops k) as Hl. rewrite E, count_app in Hl. pose proof (count_elem (is_called k) _ _ H (N.eqb_refl k)).
  assert (1 <= count (is_called k) ((ZHandled k id' e m' v :: b) ++ ZCalled k n id m :: r2))%nat; [|lia].
  apply (count_elem _ _ (ZCalled k n id m)); [apply elem_of_app; right; by left|apply N.eqb_refl].
Qed.
End requests.

Lemma requests_split (a : list wevent) x b : requests (a ++ WZ x :: b) = requests a ++ x :: requests b.
Proof. by rewrite requests_app. Qed.
Lemma journals_split (a : list wevent) x b : journals (a ++ WD x :: b) = journals a ++ x :: journals b.
Proof. by rewrite journals_app. Qed.
Lemma journals_skip (a : list wevent) x b : journals (a ++ WZ x :: b) = journals a ++ journals b.
Proof. by rewrite journals_app. Qed.

Section kept.
Variables (hashtags : bool) (prefix : string) (conf : string -> jtypes).
Variable shard_of : N -> N.
Variable readable : bytes -> bool.
Variable pid_of : N -> string.
Variable stored_as : bytes -> option (N * bytes).
Variable answer : list (N * bytes) -> bytes -> bytes.
Variable failure : bytes.
Hypothesis conf_ok : forall p, unambiguous_types (conf p).
Hypothesis conf_ids : forall p, good_identifiers (conf p).
Variables (nodes : list N).
Notation trace ops := (wruns (the_redis hashtags prefix) conf shard_of readable pid_of stored_as answer failure (wsys_init nodes ∅) ops).2.
Notation drun := (drun (the_redis hashtags prefix) conf).

Lemma trace_requests ops : exists zo, requests (trace ops) = (zrun shard_of readable nodes zo).2.
Proof.
  destruct (lk_z _ _ _ _ _ _ _ _ _ _ (link_run (the_redis hashtags prefix) conf shard_of readable pid_of stored_as answer failure nodes ∅ ops)) as [zo E].
  exists zo. by rewrite <- E.
Qed.
Lemma trace_journals ops : exists s ds, drun (durable_init ∅) ds = (s, journals (trace ops)).
Proof.
  destruct (lk_d _ _ _ _ _ _ _ _ _ _ (link_run (the_redis hashtags prefix) conf shard_of readable pid_of stored_as answer failure nodes ∅ ops)) as [ds E].
  by eexists _, ds.
Qed.
Lemma trace_plain ops pid : plain pid (journals (trace ops)).
Proof.
  apply Forall_forall. intros e He. destruct e as [| |i p c| |]; try done. apply journals_elem, elem_of_list_split in He as (t1 & t2 & E).
  destruct (calls_genuine _ _ _ _ _ _ _ _ _ _ _ _ _ _ _ _ E) as (k & n & id & m & x & _ & _ & -> & _). done.
Qed.
Lemma trace_orderly ops : orderly (journals (trace ops)).
Proof. exact (proj1 (link_orderly _ _ _ _ _ _ _ _ _ _ (link_run (the_redis hashtags prefix) conf shard_of readable pid_of stored_as answer failure nodes ∅ ops))). Qed.

(** A write that a caller was told of is acknowledged by the storage. *)
Lemma wrote ops t1 k v t2 n id m x : trace ops = t1 ++ WZ (ZReturned k (SOk v)) :: t2 -> WZ (ZCalled k n id m) ∈ trace ops ->
  stored_as m = Some x -> v <> failure ->
  exists e a b, t1 = a ++ WZ (ZHandled k id e m (Some v)) :: b /\ exists i, WUp e i ∈ a /\
    VStart i (pid_of id) ∈ journals a /\ (forall p, VGone i p ∉ journals a) /\ VAnswer i (pid_of id) (CPersist x.1 x.2) true ∈ journals a.
Proof.
  intros E Hc Hs Hv. destruct (trace_requests ops) as [zo Ez]. apply requests_elem in Hc. rewrite Ez in Hc.
  pose proof Ez as Ez'. rewrite E, requests_split in Ez'. symmetry in Ez'. destruct (result_handled _ _ _ _ _ _ _ _ _ _ _ Ez' Hc) as [e He].
  apply requests_elem, elem_of_list_split in He as (a & b & ->). exists e, a, b. split; [done|]. rewrite <- app_assoc in E.
  destruct (handled_served _ _ _ _ _ _ _ _ _ _ _ _ _ _ _ _ _ _ E) as (i & H1 & H2 & H3 & H4 & H5). rewrite Hs in H5. destruct H5 as [->|[H5 _]]; [done|]. by exists i.
Qed.

Theorem kept ops t1 k v t2 i snap ms t3 n id m x :
  trace ops = t1 ++ WZ (ZReturned k (SOk v)) :: t2 ++ WD (VRecovered i (pid_of id) snap ms) :: t3 ->
  good_trace (journals (trace ops)) -> WZ (ZCalled k n id m) ∈ trace ops -> stored_as m = Some x -> v <> failure -> x ∈ ms.
Proof.
  intros E Hg Hc Hs Hv. destruct (wrote _ _ _ _ _ _ _ _ _ E Hc Hs Hv) as (e & a & b & -> & i' & _ & _ & _ & Hans).
  destruct (trace_journals ops) as (s & ds & Ed). pose proof (trace_plain ops (pid_of id)) as Hp.
  assert (Ej : journals (trace ops) = (journals a ++ journals b ++ journals t2) ++ VRecovered i (pid_of id) snap ms :: journals t3).
  { rewrite E, journals_skip, journals_split, journals_skip. by rewrite <- !app_assoc. }
  rewrite Ej in Ed, Hg, Hp. eapply (C66_acknowledged_found_partial hashtags prefix conf conf_ok conf_ids) in Ed as [_ H]; [|by eapply good_trace_pre|by eapply plain_pre].
  apply H. eapply acked_elem; [apply elem_of_app; left; exact Hans|]. destruct x as [ty bs]. by left.
Qed.

Theorem genuine ops t1 i pid snap ms t2 y :
  trace ops = t1 ++ WD (VRecovered i pid snap ms) :: t2 -> good_trace (journals (trace ops)) -> y ∈ ms ->
  exists k n id m, pid_of id = pid /\ stored_as m = Some y /\ WZ (ZCalled k n id m) ∈ t1.
Proof.
  intros E Hg Hy. destruct (trace_journals ops) as (s & ds & Ed). rewrite E, journals_split in Ed, Hg.
  destruct (C66_recovered_tried_partial hashtags prefix conf conf_ok conf_ids _ _ _ _ _ _ _ _ Ed Hg) as [H _].
  apply H in Hy. apply tried_elem in Hy as (j & c & Hc & Hy). apply journals_elem, elem_of_list_split in Hc as (a & b & ->). rewrite <- app_assoc in E.
  destruct (calls_genuine _ _ _ _ _ _ _ _ _ _ _ _ _ _ _ _ E) as (k & n & id & m & x & -> & Hs & -> & Hz). cbn in Hy. apply elem_of_list_singleton in Hy as ->.
  destruct x. exists k, n, id, m. split; [done|]. split; [done|]. apply elem_of_app. by left.
Qed.

(** The state a handler works on: all of it was sent to the entity. *)
Theorem all_sent ops t1 k id e m v t2 : trace ops = t1 ++ WZ (ZHandled k id e m (Some v)) :: t2 -> good_trace (journals (trace ops)) ->
  (exists y, stored_as m = Some y /\ v = failure) \/
  exists st, v = answer st m /\ forall y, y ∈ st -> exists k' n id' m', pid_of id' = pid_of id /\ stored_as m' = Some y /\ WZ (ZCalled k' n id' m') ∈ t1.
Proof.
  intros E Hg. destruct (handled_served _ _ _ _ _ _ _ _ _ _ _ _ _ _ _ _ _ _ E) as (i & H1 & H2 & H3 & _ & H5).
  assert (Hv : forall y, y ∈ view i (journals t1) -> exists k' n id' m', pid_of id' = pid_of id /\ stored_as m' = Some y /\ WZ (ZCalled k' n id' m') ∈ t1).
  { intros y Hy. assert (Hu : forall p, VStart i p ∈ journals t1 -> p = pid_of id).
    { intros p Hp. assert (Ho : forall a p1 b, journals t1 = a ++ VStart i p1 :: b -> forall p2, VStart i p2 ∉ a).
      { intros a p1 b Ea. apply (trace_orderly ops a (VStart i p1) (b ++ journals t2)). rewrite E, journals_skip, Ea. by rewrite <- app_assoc. }
      pose proof H2 as (a & b & Ea)%elem_of_list_split. rewrite Ea in Hp. apply elem_of_app in Hp as [Hp|[[= ->]|Hp]%elem_of_cons]; [by eapply Ho in Hp|done|].
      apply elem_of_list_split in Hp as (b1 & b2 & ->). exfalso. eapply (Ho (a ++ VStart i (pid_of id) :: b1) p b2); [by rewrite Ea, <- app_assoc|]. apply elem_of_app. right. by left. }
    unfold view in Hy. apply elem_of_list_In, in_flat_map in Hy as (ev & Hev & Hy). apply elem_of_list_In in Hev, Hy.
    apply journals_elem, elem_of_list_split in Hev as (a & b & ->).
    assert (Hb : before (journals a) ev). { apply (trace_orderly ops (journals a) ev (journals b ++ journals t2)). rewrite E, journals_skip, journals_split. by rewrite <- app_assoc. }
    destruct ev as [|i' p snap ms|i' p c|i' p c ok|]; try by apply elem_of_nil in Hy.
    - cbn [view_of] in Hy. destruct (N.eqb_spec i' i) as [->|]; [|by apply elem_of_nil in Hy].
      assert (p = pid_of id) as -> by (apply Hu; rewrite journals_app; apply elem_of_app; by left).
      rewrite <- app_assoc in E. destruct (genuine _ _ _ _ _ _ _ _ E Hg Hy) as (k' & n & id' & m' & G1 & G2 & G3). exists k', n, id', m'. split; [done|]. split; [done|]. apply elem_of_app. by left.
    - destruct ok; [|by apply elem_of_nil in Hy]. cbn [view_of] in Hy. destruct (N.eqb_spec i' i) as [->|]; [|by apply elem_of_nil in Hy]. destruct Hb as [Hb1 Hb2].
      assert (p = pid_of id) as -> by (apply Hu; rewrite journals_app; apply elem_of_app; by left).
      apply journals_elem, elem_of_list_split in Hb2 as (a1 & a2 & ->). rewrite <- !app_assoc in E.
      destruct (calls_genuine _ _ _ _ _ _ _ _ _ _ _ _ _ _ _ _ E) as (k' & n & id' & m' & x & Hp & Hs & -> & Hz). cbn in Hy. apply elem_of_list_singleton in Hy as ->.
      destruct x. exists k', n, id', m'. split; [done|]. split; [done|]. apply elem_of_app. left. apply elem_of_app. by left. }
  destruct (stored_as m) as [y|]; [|right; by eexists]. destruct H5 as [->|[_ ->]]; [left; by exists y|right; by eexists].
Qed.

(** A handler run after a write was confirmed. *)
Theorem seen ops ta k v tb k' e' m' v' tc n id m x :
  trace ops = ta ++ WZ (ZReturned k (SOk v)) :: tb ++ WZ (ZHandled k' id e' m' (Some v')) :: tc ->
  good_trace (journals (trace ops)) -> WZ (ZCalled k n id m) ∈ trace ops -> stored_as m = Some x -> v <> failure ->
  WZ (ZHandled k id e' m (Some v)) ∈ ta \/
  (exists i, WUp e' i ∈ trace ops /\ WD (VStart i (pid_of id)) ∈ tb) \/ apart (pid_of id) (journals (trace ops)) ->
  (exists y, stored_as m' = Some y /\ v' = failure) \/ exists st, x ∈ st /\ v' = answer st m'.
Proof.
  intros E Hg Hc Hs Hv Hor. destruct (wrote _ _ _ _ _ _ _ _ _ E Hc Hs Hv) as (e & a & b & -> & i & Hup & Hst & Hgo & Hans).
  set (before := (a ++ WZ (ZHandled k id e m (Some v)) :: b) ++ WZ (ZReturned k (SOk v)) :: tb) in *.
  assert (E' : trace ops = before ++ WZ (ZHandled k' id e' m' (Some v')) :: tc). { rewrite E. unfold before. by rewrite <- !app_assoc. }
  destruct (handled_served _ _ _ _ _ _ _ _ _ _ _ _ _ _ _ _ _ _ E') as (i' & H1 & H2 & H3 & (snap & ms & H4) & H5).
  assert (Ej : journals before = journals a ++ journals b ++ journals tb). { unfold before. by rewrite journals_skip, journals_skip, <- app_assoc. }
  assert (Ejs : journals (trace ops) = journals before ++ journals tc). { by rewrite E', journals_skip. }
  assert (Hx : x ∈ messages_in (CPersist x.1 x.2)). { destruct x. by left. }
  assert (Hsee : x ∈ view i' (journals before)).
  { destruct (decide (i' = i)) as [->|Hne].
    - eapply view_answered; [|exact Hx]. rewrite Ej. apply elem_of_app. left. exact Hans.
    - (* it has started since *)
      assert (Hns : VStart i' (pid_of id) ∉ journals a).
      { intros Hin. destruct Hor as [Hsame|[(i2 & Hup2 & Hst2)|Ha]].
        - (* the same actor *)
          apply Hne. pose proof (link_run (the_redis hashtags prefix) conf shard_of readable pid_of stored_as answer failure nodes ∅ ops) as L.
          assert (e' = e) as ->.
          { destruct (trace_requests ops) as [zo Ez]. assert (Hh : ZHandled k id e' m (Some v) ∈ requests (trace ops) /\ ZHandled k id e m (Some v) ∈ requests (trace ops)).
            { split; apply requests_elem; rewrite E'; unfold before; [rewrite elem_of_app; left; rewrite elem_of_app; by left|]. rewrite !elem_of_app, !elem_of_cons. tauto. }
            rewrite Ez in Hh. destruct Hh as [Ha Hb]. pose proof (two_count (is_handled k) _ _ _ (handled_once shard_of readable nodes zo k) Ha Hb (N.eqb_refl k) (N.eqb_refl k)). by simplify_eq. }
          destruct (lk_up _ _ _ _ _ _ _ _ _ _ L e i) as (y1 & Hy1 & <-); [rewrite E'; unfold before; rewrite !elem_of_app; tauto|].
          destruct (lk_up _ _ _ _ _ _ _ _ _ _ L e i') as (y2 & Hy2 & <-); [rewrite E'; rewrite elem_of_app; tauto|]. congruence.
        - pose proof (link_run (the_redis hashtags prefix) conf shard_of readable pid_of stored_as answer failure nodes ∅ ops) as L.
          destruct (lk_up _ _ _ _ _ _ _ _ _ _ L e' i2) as (y1 & Hy1 & <-); [done|].
          destruct (lk_up _ _ _ _ _ _ _ _ _ _ L e' i') as (y2 & Hy2 & Hi2); [rewrite E'; rewrite elem_of_app; tauto|]. assert (y1 = y2) as -> by congruence. rewrite Hi2 in *.
          apply elem_of_list_split in Hst2 as (c1 & c2 & ->). rewrite journals_split in Ej.
          pose proof (trace_orderly ops (journals a ++ journals b ++ journals c1) (VStart i' (pid_of id)) (journals c2 ++ journals tc)) as Ho.
          assert (Hb : Vault_Proofs4.before (journals a ++ journals b ++ journals c1) (VStart i' (pid_of id))). { apply Ho. rewrite Ejs, Ej. by rewrite <- !app_assoc. }
          apply (Hb (pid_of id)). apply elem_of_app. by left.
        - eapply (apart_since (pid_of id) (journals a) (journals b ++ journals tb) (journals tc) i i'); [|by apply not_eq_sym|exact Hst|apply Hgo|exact Hin|rewrite <- Ej; apply H3].
          rewrite Ejs, Ej in Ha. rewrite <- !app_assoc in Ha. by rewrite <- app_assoc. }
      assert (Hrec : VRecovered i' (pid_of id) snap ms ∈ journals b ++ journals tb).
      { rewrite Ej in H4. apply elem_of_app in H4 as [H4|H4]; [|done]. exfalso. apply Hns. apply elem_of_list_split in H4 as (c1 & c2 & Ec).
        pose proof (trace_orderly ops c1 (VRecovered i' (pid_of id) snap ms) (c2 ++ journals b ++ journals tb ++ journals tc)) as Ho.
        rewrite Ec. apply elem_of_app. left. apply Ho. rewrite Ejs, Ej, Ec. by rewrite <- !app_assoc. }
      eapply view_recovered; [exact H4|]. apply elem_of_list_split in Hrec as (c1 & c2 & Ec).
      destruct (trace_journals ops) as (s & ds & Ed). pose proof (trace_plain ops (pid_of id)) as Hp.
      assert (Ej2 : journals (trace ops) = (journals a ++ c1) ++ VRecovered i' (pid_of id) snap ms :: c2 ++ journals tc).
      { rewrite Ejs, Ej, Ec. by rewrite <- !app_assoc. }
      rewrite Ej2 in Ed, Hg, Hp. eapply (C66_acknowledged_found_partial hashtags prefix conf conf_ok conf_ids) in Ed as [_ H]; [|by eapply good_trace_pre|by eapply plain_pre].
      apply H. eapply acked_elem; [apply elem_of_app; left; exact Hans|done]. }
  destruct (stored_as m') as [y|]; [|right; by eexists].
  destruct H5 as [H5|[_ H5]]; [left; by exists y|right; by eexists].
Qed.
End kept.
