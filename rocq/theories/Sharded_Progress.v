(** Order of events of a call, where results come from, and progress. *)
From Verif Require Import Sharded_Model Entity_Model Sharded_Spec Sharded_Proofs Sharded_Results.
Local Open Scope Z_scope.

Section progress.
Variable shard_of : N -> N.
Variable readable : bytes -> bool.
Notation zstep := (zstep shard_of readable).
Notation zrun := (zrun shard_of readable).
Implicit Types (z : sys) (k : N).

(** Results come from handlers. *)
Definition failed (l : list (ticket * sresult)) : Prop := forall p, p ∈ l -> forall v, p.2 <> SOk v.
Definition no_ok (ts : list task) (evs : list zevent) : Prop :=
  (forall n k o v, TAnswer n k o (SOk v) ∉ ts) /\ (forall k v, ZReturned k (SOk v) ∉ evs) /\ forall k id e m v, ZHandled k id e m v ∉ evs.

Lemma returned_ok x v : returned readable x = SOk v -> x = SOk v.
Proof. destruct x as [v'|e]; simpl; [|done]. by destruct (readable v'). Qed.
Lemma resolve_no_ok n t x : (forall v, x <> SOk v) -> no_ok (resolve readable n t x).1 (resolve readable n t x).2.
Proof.
  intros Hx. unfold resolve, no_ok. destruct (t_origin t); cbn [fst snd]; split_and!; intros *; rewrite ?elem_of_list_singleton, ?elem_of_nil; try (by intros ?); try done.
  - intros H. simplify_eq. by apply (Hx v).
  - intros H. injection H as _ E. symmetry in E. apply returned_ok in E. by apply (Hx v).
Qed.
Lemma no_ok_app ts evs ts' evs' : no_ok ts evs -> no_ok ts' evs' -> no_ok (ts ++ ts') (evs ++ evs').
Proof. intros (A & B & C) (A' & B' & C'). split_and!; intros *; rewrite elem_of_app; intros [H|H]; naive_solver. Qed.
Lemma no_ok_nil : no_ok [] []. Proof. split_and!; intros *; apply not_elem_of_nil. Qed.
Lemma resolve_all_no_ok n l : failed l -> no_ok (resolve_all readable n l).1 (resolve_all readable n l).2.
Proof.
  induction l as [|[t x] l IH]; intros Hf; [apply no_ok_nil|]. unfold resolve_all. cbn [flat_map fst snd]. apply no_ok_app.
  - apply resolve_no_ok. intros v. apply (Hf (t, x)). by left.
  - apply IH. intros p Hp. apply Hf. by right.
Qed.
Lemma host_dropped_failed eff : failed (host_dropped eff).
Proof. intros p Hp v. apply elem_of_list_omap in Hp as (e & _ & E). destruct e; simplify_eq. done. Qed.
Lemma shard_replies_failed eff : failed (shard_replies eff).
Proof. intros p Hp v. apply elem_of_list_omap in Hp as (e & _ & E). destruct e; simplify_eq; done. Qed.
Lemma kept_tickets_failed m : failed (kept_tickets m).
Proof.
  intros p Hp v. unfold kept_tickets in Hp. apply elem_of_list_In, in_flat_map in Hp as (x & _ & Hx).
  destruct x as [id [rc []]]; simpl in Hx; try done. apply in_map_iff in Hx as (t & <- & _). done.
Qed.
Lemma host_tasks_no_ok n eff : no_ok (host_tasks n eff) [].
Proof.
  split_and!; intros *; rewrite ?elem_of_nil; try (by intros ?); try done. intros H. apply elem_of_list_omap in H as (e & _ & E). by destruct e.
Qed.
Lemma shard_tasks_no_ok n s a eff : no_ok (shard_tasks n s a eff) [].
Proof.
  split_and!; intros *; rewrite ?elem_of_nil; try (by intros ?); try done. intros H. apply elem_of_list_omap in H as (e & _ & E). by destruct e.
Qed.

(** The tasks of the next state: old ones, and new ones without results. *)
Definition extends (tasks : list task) (r : sys * list zevent) : Prop := exists ts, z_tasks r.1 = tasks ++ ts /\ no_ok ts r.2.
Lemma do_host_extends z n mail h eff : extends (z_tasks z) (do_host readable z n mail h eff).
Proof.
  unfold extends, do_host. pose proof (resolve_all_no_ok n _ (host_dropped_failed eff)) as H. destruct (resolve_all _ _ _) as [ts evs].
  exists (host_tasks n eff ++ ts). split; [done|]. apply (no_ok_app _ []); [apply host_tasks_no_ok|done].
Qed.
Lemma do_shard_extends z n s a tasks m eff : extends tasks (do_shard readable z n s a tasks m eff).
Proof.
  unfold extends, do_shard. pose proof (resolve_all_no_ok n _ (shard_replies_failed eff)) as H. destruct (resolve_all _ _ _) as [ts evs].
  exists (shard_tasks n s a eff ++ ts). split; [done|]. apply (no_ok_app _ []); [apply shard_tasks_no_ok|done].
Qed.
Lemma shard_request_extends z n s a tasks m r t known : extends tasks (shard_request readable z n s a tasks m r t known).
Proof. unfold shard_request. destruct (on_entity_request _ _). apply do_shard_extends. Qed.
Lemma do_resolve_extends z tasks n t x : (forall v, x <> SOk v) -> extends tasks (do_resolve readable z tasks n t x).
Proof. intros Hx. unfold extends, do_resolve. pose proof (resolve_no_ok n t x Hx) as H. destruct (resolve _ _ _ _) as [ts evs]. by exists ts. Qed.

Lemma remove_nth_subset {A} i (l : list A) x : x ∈ remove_nth i l -> x ∈ l.
Proof.
  unfold remove_nth. intros [H|H]%elem_of_app; [by eapply elem_of_take in H as (? & ? & _); eapply elem_of_list_lookup_2|].
  apply elem_of_list_lookup in H as (j & H). rewrite lookup_drop in H. by eapply elem_of_list_lookup_2.
Qed.

(** What a step other than the ones of entities and answers does. *)
Lemma zstep_extends z o : (forall i d, o <> OEntity i d) -> (forall i, o <> OAnswer i) ->
  (forall t, t ∈ z_tasks (zstep z o).1 -> t ∈ z_tasks z \/ forall n k o v, t <> TAnswer n k o (SOk v)) /\
  no_ok [] (zstep z o).2.
Proof.
  intros H1 H2.
  assert (Hid : (forall t, t ∈ z_tasks z -> t ∈ z_tasks z \/ forall n k o v, t <> TAnswer n k o (SOk v)) /\ no_ok [] []) by (split; [by left|apply no_ok_nil]).
  assert (Hext : forall tasks r, (forall t, t ∈ tasks -> t ∈ z_tasks z) -> extends tasks r ->
    (forall t, t ∈ z_tasks r.1 -> t ∈ z_tasks z \/ forall n k o v, t <> TAnswer n k o (SOk v)) /\ no_ok [] r.2).
  { intros tasks r Hs (ts & E & A & B & C). split; [|split_and!; [intros *; apply not_elem_of_nil|done|done]].
    rewrite E. intros t [Ht|Ht]%elem_of_app; [left; by apply Hs|right]. intros n k o' v ->. by apply (A n k o' v). }
  assert (Hrem : forall i t, t ∈ remove_nth i (z_tasks z) -> t ∈ z_tasks z) by (intros i t; apply remove_nth_subset).
  assert (Hset : forall i evs, no_ok [] evs -> (forall t, t ∈ z_tasks (set_tasks z (remove_nth i (z_tasks z)), evs).1 -> t ∈ z_tasks z \/ forall n k o v, t <> TAnswer n k o (SOk v)) /\ no_ok [] evs).
  { intros i evs He. split; [|done]. intros t Ht. left. by apply (Hrem i). }
  assert (Hg : forall l, no_ok [] (gone l)).
  { intros l. split_and!; intros *; [apply not_elem_of_nil|..]; unfold gone; intros (x & E & _)%elem_of_list_fmap; done. }
  destruct o as [n id m recipe encodes typed|i|n c|i a known|i|i d|i|i ok|n s a id rc|n s a|n]; cbn [Sharded_Model.zstep]; try (by destruct (H1 i d)); try (by destruct (H2 i)).
  - clear H1 H2 Hid Hext Hrem Hset Hg.
    destruct encodes, typed; [destruct (z_hosts z !! n)|..]; (split; [by left|]); split_and!; intros * H;
      repeat (apply elem_of_cons in H as [H|H]; [discriminate|]); by apply elem_of_nil in H.
  - destruct (z_mail z !! i) as [[n r]|]; [|done]. destruct (z_hosts z !! n) as [h|]; [|done]. destruct (hstep h _).
    by apply (Hext (z_tasks z)), do_host_extends.
  - destruct c; [done|..]; (destruct (z_hosts z !! n) as [h|]; [|done]); destruct (hstep h _); by apply (Hext (z_tasks z)), do_host_extends.
  - destruct (z_tasks z !! i) as [[n s a' r|n m s r| | | ]|]; try done.
    + destruct (z_shards z !! _); apply (Hext _ _ (Hrem i)); [apply shard_request_extends|by apply do_resolve_extends].
    + destruct (z_shards z !! _); [apply (Hext _ _ (Hrem i)), shard_request_extends|]. apply Hset, (Hg [_]).
  - destruct (z_tasks z !! i) as [[]|]; try done; apply Hset, (Hg [_]).
  - destruct (z_tasks z !! i) as [[]|]; try done. destruct (z_shards z !! _); [destruct (on_start_result _ _ _); apply (Hext _ _ (Hrem i)), do_shard_extends|].
    split; [|apply no_ok_nil]. intros t Ht. left. by apply (Hrem i).
  - destruct (z_shards z !! _); [|done]. destruct (on_start_entity _ _ _). by apply (Hext (z_tasks z)), do_shard_extends.
  - destruct (z_shards z !! _) as [m|]; [|done]. pose proof (resolve_all_no_ok n _ (kept_tickets_failed m)) as H. destruct (resolve_all _ _ _) as [ts evs].
    apply (Hext (z_tasks z)); [done|]. by exists ts.
  - split; [|apply Hg]. intros t Ht. left. simpl in Ht. apply elem_of_list_In, filter_In in Ht as [Ht _]. by apply elem_of_list_In.
Qed.

Definition genuine (tr : list zevent) (k : N) (v : bytes) : Prop := exists id e m, ZHandled k id e m (Some v) ∈ tr.
Lemma genuine_app tr tr' k v : genuine tr k v -> genuine (tr ++ tr') k v.
Proof. intros (id & e & m & H). exists id, e, m. apply elem_of_app. by left. Qed.
Lemma results_genuine nodes ops :
  (forall n k o v, TAnswer n k o (SOk v) ∈ z_tasks (zrun nodes ops).1 -> genuine (zrun nodes ops).2 k v) /\
  (forall k v, ZReturned k (SOk v) ∈ (zrun nodes ops).2 -> genuine (zrun nodes ops).2 k v).
Proof.
  apply (zrun_ind shard_of readable nodes (fun z tr => (forall n k o v, TAnswer n k o (SOk v) ∈ z_tasks z -> genuine tr k v) /\ forall k v, ZReturned k (SOk v) ∈ tr -> genuine tr k v)).
  { split; intros * H; by apply elem_of_nil in H. }
  intros z tr o [A B].
  assert (Hgen : (forall i d, o <> OEntity i d) -> (forall i, o <> OAnswer i) ->
    (forall n k o' v, TAnswer n k o' (SOk v) ∈ z_tasks (zstep z o).1 -> genuine (tr ++ (zstep z o).2) k v) /\
    (forall k v, ZReturned k (SOk v) ∈ tr ++ (zstep z o).2 -> genuine (tr ++ (zstep z o).2) k v)).
  { intros H1 H2. destruct (zstep_extends z o H1 H2) as [H3 (_ & H4 & _)]. split.
    - intros n k o' v Ht. apply genuine_app. destruct (H3 _ Ht) as [Ht'|Ht']; [by apply (A n k o' v)|by destruct (Ht' n k o' v)].
    - intros k v [Ht|Ht]%elem_of_app; [apply genuine_app; by apply B|]. by apply H4 in Ht. }
  destruct o as [n id m recipe encodes typed|i|n c|i a known|i|i d|i|i ok|n s a id rc|n s a|n]; try (by apply Hgen).
  - cbn [Sharded_Model.zstep]. destruct (z_tasks z !! i) as [[ | |n s a id e t| | ]|] eqn:E; try (by rewrite app_nil_r).
    unfold do_resolve.
    assert (forall v, entity_result d = SOk v -> entity_handled d = Some (Some v)) as Hd by (intros v; destruct d; simpl; naive_solver).
    pose proof (resolve_no_ok n t (entity_result d)) as Hno. destruct (resolve readable n t (entity_result d)) as [ts evs] eqn:Er. cbn [fst snd] in *.
    destruct (entity_result d) as [v|err] eqn:Ed.
    + rewrite (Hd v eq_refl). cbn [fst snd]. assert (genuine (tr ++ ZHandled (t_call t) id e (t_msg t) (Some v) :: evs) (t_call t) v) as Hg.
      { exists id, e, (t_msg t). apply elem_of_app. right. by left. }
      assert ((forall n' k o' v', TAnswer n' k o' (SOk v') ∈ ts -> k = t_call t /\ v' = v) /\ (forall k v', ZReturned k (SOk v') ∈ evs -> k = t_call t /\ v' = v)) as [Hts Hevs].
      { unfold resolve in Er. destruct (t_origin t); simplify_eq/=; split; intros * H; rewrite ?elem_of_list_singleton, ?elem_of_nil in H; try done.
        - by injection H as -> -> -> ->.
        - destruct (readable v); [|done]. by injection H as -> ->. }
      split.
      * intros n' k o' v' Ht. apply elem_of_app in Ht as [Ht|Ht]; [apply genuine_app; apply (A n' k o' v'); by apply remove_nth_subset in Ht|].
        by apply Hts in Ht as [-> ->].
      * intros k v' Ht. apply elem_of_app in Ht as [Ht|Ht]; [apply genuine_app; by apply B|].
        apply elem_of_cons in Ht as [Ht|Ht]; [done|]. by apply Hevs in Ht as [-> ->].
    + destruct Hno as (C1 & C2 & _); [done|]. split.
      * intros n' k o' v' Ht. apply elem_of_app in Ht as [Ht|Ht]; [apply genuine_app; apply (A n' k o' v'); by apply remove_nth_subset in Ht|].
        by apply C1 in Ht.
      * intros k v' Ht. apply elem_of_app in Ht as [Ht|Ht]; [apply genuine_app; by apply B|].
        destruct (entity_handled d); [apply elem_of_cons in Ht as [Ht|Ht]; [done|]|]; by apply C2 in Ht.
  - cbn [Sharded_Model.zstep]. destruct (z_tasks z !! i) as [[ | | |n k o x| ]|] eqn:E; try (by rewrite app_nil_r).
    assert (Hrem : forall n' k' o' v', TAnswer n' k' o' (SOk v') ∈ remove_nth i (z_tasks z) -> genuine tr k' v').
    { intros n' k' o' v' Ht. apply (A n' k' o' v'). by apply remove_nth_subset in Ht. }
    destruct (z_waiting z !! k) as [o'|]; cbn [fst snd]; split.
    + intros n' k' o'' v' Ht. apply genuine_app. by apply (Hrem n' k' o'').
    + intros k' v' Ht. apply elem_of_app in Ht as [Ht|Ht]; [apply genuine_app; by apply B|]. apply elem_of_list_singleton in Ht.
      injection Ht as -> Hx. symmetry in Hx. apply returned_ok in Hx as ->. apply genuine_app. apply (A n k o v'). by eapply elem_of_list_lookup_2.
    + intros n' k' o'' v' Ht. apply genuine_app. by apply (Hrem n' k' o'').
    + intros k' v' Ht. apply elem_of_app in Ht as [Ht|Ht]; [apply genuine_app; by apply B|]. by apply elem_of_list_singleton in Ht.
Qed.

(** In the events of a step only the first one can be a handler. *)
Lemma step_shape z o : exists hd tl, (zstep z o).2 = hd ++ tl /\ (length hd <= 1)%nat /\ (forall k, count (is_handled k) tl = 0%nat) /\
  forall e, e ∈ hd -> exists k id x m v, e = ZHandled k id x m v.
Proof.
  assert (Hno : forall evs, no_ok [] evs -> forall k, count (is_handled k) evs = 0%nat).
  { intros evs (_ & _ & C) k. destruct (count (is_handled k) evs) eqn:E; [done|]. destruct (count_pos (is_handled k) evs) as (e & He & Hk); [lia|].
    destruct e as [ |k' id x m v| | ]; try done. by apply C in He. }
  assert (Hgen : (forall i d, o <> OEntity i d) -> (forall i, o <> OAnswer i) -> exists hd tl, (zstep z o).2 = hd ++ tl /\ (length hd <= 1)%nat /\ (forall k, count (is_handled k) tl = 0%nat) /\ forall e, e ∈ hd -> exists k id x m v, e = ZHandled k id x m v).
  { intros H1 H2. exists [], (zstep z o).2. split_and!; [done|simpl; lia| |intros e He; by apply elem_of_nil in He]. apply Hno. by apply zstep_extends. }
  assert (Hone : forall evs, (forall k, count (is_handled k) evs = 0%nat) -> exists hd tl, evs = hd ++ tl /\ (length hd <= 1)%nat /\ (forall k, count (is_handled k) tl = 0%nat) /\ forall e, e ∈ hd -> exists k id x m v, e = ZHandled k id x m v).
  { intros evs He. exists [], evs. split_and!; [done|simpl; lia|done|]. intros x Hx. by apply elem_of_nil in Hx. }
  destruct o as [n id m recipe encodes typed|i|n c|i a known|i|i d|i|i ok|n s a id rc|n s a|n]; try (by apply Hgen).
  - cbn [Sharded_Model.zstep]. destruct (z_tasks z !! i) as [[ | |n s a id e t| | ]|] eqn:E; try (by apply Hone).
    unfold do_resolve, resolve. destruct (t_origin t), (entity_handled d) as [v|]; cbn [fst snd]; try (by apply Hone).
    + exists [ZHandled (t_call t) id e (t_msg t) v], []. split_and!; [done|simpl; lia|done|]. intros x Hx. apply elem_of_list_singleton in Hx as ->. eauto 10.
    + eexists [ZHandled (t_call t) id e (t_msg t) v], _. split_and!; [done|simpl; lia|done|]. intros x Hx. apply elem_of_list_singleton in Hx as ->. eauto 10.
  - cbn [Sharded_Model.zstep]. destruct (z_tasks z !! i) as [[ | | |n k o x| ]|]; try (by apply Hone).
    destruct (z_waiting z !! k); by apply Hone.
Qed.

(** After a call has returned, its message is not handled any more. *)
Lemma not_late nodes ops k x tr1 tr2 : (zrun nodes ops).2 = tr1 ++ ZReturned k x :: tr2 -> count (is_handled k) tr2 = 0%nat.
Proof.
  revert tr1 tr2. induction ops as [|o ops IH] using rev_ind; intros tr1 tr2 E; [by destruct tr1|].
  rewrite zrun_snoc in E. cbn [snd] in E.
  destruct (app_eq_inv _ _ _ _ E) as [(l & E1 & E2)|(l & E1 & E2)].
  - destruct l as [|e l].
    + simpl in E2. destruct (step_shape (zrun nodes ops).1 o) as (hd & tl & Es & _ & Ht & Hh). rewrite Es in E2.
      destruct hd as [|h hd]; simpl in E2.
      * specialize (Ht k). rewrite <-E2 in Ht. unfold count in *. simpl in Ht. done.
      * injection E2 as <- _. destruct (Hh (ZReturned k x)) as (? & ? & ? & ? & ? & ?); [by left|done].
    + simpl in E2. injection E2 as <- ->. rewrite count_app, (IH tr1 l E1).
      destruct (finished_later shard_of readable nodes ops o k) as [H _]; [|by rewrite H].
      pose proof (count_elem (is_returned k) (zrun nodes ops).2 (ZReturned k x)) as Hc. rewrite E1 in Hc at 1.
      enough (1 <= count (is_returned k) (zrun nodes ops).2)%nat by lia. apply Hc; [apply elem_of_app; right; by left|simpl; apply N.eqb_refl].
  - destruct (step_shape (zrun nodes ops).1 o) as (hd & tl & Es & Hl & Ht & Hh). rewrite Es in E2.
    destruct hd as [|h [|]]; simpl in *; try lia.
    + specialize (Ht k). rewrite E2, count_app in Ht. unfold count in Ht at 2. simpl in Ht. unfold count. lia.
    + destruct l as [|h' l]; simpl in E2; injection E2 as E2 E3.
      * destruct (Hh h) as (? & ? & ? & ? & ? & ->); [by left|done].
      * specialize (Ht k). rewrite E3, count_app in Ht. unfold count in Ht at 2. simpl in Ht. unfold count. lia.
Qed.

(** At rest, a call that has not returned and is not gone waits in a host or in a shard. *)
Lemma rest_waits z k : at_rest z -> 0 < present k z -> waits_allocation z k \/ waits_shard z k \/ waits_entity z k.
Proof.
  intros [E1 E2] Hp. unfold present, total in Hp. rewrite E1, E2 in Hp. simpl in Hp.
  set (w := fun (k' : N) (_ : N) (_ : bytes) => b2z (k' =? k)%N) in *.
  assert (forall r, 0 <= req_w w r) as Hr by (intros r; apply b2z_nonneg).
  assert (forall r, 0 < req_w w r -> of_call k r) as Hr'.
  { intros r. unfold req_w, ticket_w, w, of_call. destruct (N.eqb_spec (t_call (r_ticket r)) k); simpl; [done|lia]. }
  assert (forall i x, 0 <= hstate_w w i x) as Hhs by (intros i []; simpl; try lia; by apply zsum_nonneg).
  assert (forall i x, 0 <= host_w w i x) as Hh.
  { intros i h. unfold host_w. pose proof (msum_nonneg (hstate_w w) (sh_hosted h) Hhs). pose proof (msum_nonneg (fun _ => zsum (req_w w)) (sh_pending h) (fun _ l => zsum_nonneg _ l Hr)). lia. }
  assert (forall i x, 0 <= estate_w w i x) as Hes by (intros i [rc []]; unfold estate_w; simpl; try lia; apply zsum_nonneg; intros t; apply b2z_nonneg).
  assert (forall i x, 0 <= ents_w w i x) as He by (intros i m; by apply msum_nonneg).
  pose proof (msum_nonneg _ (z_hosts z) Hh). pose proof (msum_nonneg _ (z_shards z) He).
  destruct (decide (0 < msum (host_w w) (z_hosts z))) as [Hd|Hd].
  - destruct (msum_pos _ _ Hh Hd) as (n & h & En & Hw). unfold host_w in Hw.
    destruct (decide (0 < msum (hstate_w w) (sh_hosted h))) as [Hd'|Hd'].
    + destruct (msum_pos _ _ Hhs Hd') as (s & st & Es & Hs). destruct st as [a buf req|a|]; simpl in Hs; try lia.
      destruct (zsum_pos _ _ Hr Hs) as (r & Hin & Hpos). right. left. exists n, h, s, a, buf, req, r. eauto.
    + assert (0 < msum (fun _ => zsum (req_w w)) (sh_pending h)) as Hd2 by lia.
      destruct (msum_pos _ _ (fun _ l => zsum_nonneg _ l Hr) Hd2) as (s & l & Es & Hs).
      destruct (zsum_pos _ _ Hr Hs) as (r & Hin & Hpos). left. exists n, h, s, l, r. eauto.
  - assert (0 < msum (ents_w w) (z_shards z)) as Hd2 by lia. destruct (msum_pos _ _ He Hd2) as (p & m & Ep & Hm).
    destruct (msum_pos _ _ Hes Hm) as (id & [rc st] & Ei & Hi). unfold estate_w in Hi. simpl in Hi. destruct st as [|buf|e|]; try lia.
    destruct (zsum_pos _ _ (fun t => b2z_nonneg _) Hi) as (t & Hin & Hpos). right. right. exists p, m, id, rc, buf, t. split_and!; try done.
    unfold w in Hpos. destruct (N.eqb_spec (t_call t) k); simpl in Hpos; [done|lia].
Qed.

(** How far requests are from the end. *)
Definition rank (t : task) : Z :=
  match t with TShard _ _ _ _ | TRemote _ _ _ _ => 6 | TEntity _ _ _ _ _ _ => 3 | TAnswer _ _ _ _ | TCreate _ _ _ _ _ => 1 end.
Definition kept_in (_ : N * N * N) (m : gmap N (N * estate ticket)) : Z := ents_w (fun _ _ _ => 4) (0, 0, 0)%N m.
Definition measure z : Z := 7 * Z.of_nat (length (z_mail z)) + zsum rank (z_tasks z) + msum kept_in (z_shards z).

Lemma rank_pos t : 0 < rank t. Proof. destruct t; simpl; lia. Qed.
Lemma kept_in_nonneg p m : 0 <= kept_in p m.
Proof. apply msum_nonneg. intros id x. unfold estate_w. destruct x.2; try lia. apply zsum_nonneg. intros t. unfold ticket_w. lia. Qed.
Lemma measure_nonneg z : 0 <= measure z.
Proof.
  unfold measure. pose proof (zsum_nonneg rank (z_tasks z) (fun t => Z.lt_le_incl _ _ (rank_pos t))). pose proof (msum_nonneg _ (z_shards z) kept_in_nonneg). lia.
Qed.
Lemma resolve_rank n t x : zsum rank (resolve readable n t x).1 <= 1.
Proof. unfold resolve. destruct (t_origin t); simpl; lia. Qed.
Lemma started_kept (l : list (N * N * N)) (m : gmap (N * N * N) (gmap N (N * estate ticket))) :
  msum kept_in (fold_right (fun x (m : gmap (N * N * N) (gmap N (N * estate ticket))) => match m !! x with Some _ => m | None => <[x := ∅]> m end) m l) = msum kept_in m.
Proof.
  induction l as [|x l IH]; [done|]. simpl. destruct (_ !! x) eqn:E; [done|].
  rewrite (msum_insert _ _ _ _ E), IH. unfold kept_in, ents_w. rewrite msum_empty. lia.
Qed.
Lemma length_remove_nth {A} (l : list A) i x : l !! i = Some x -> length l = S (length (remove_nth i l)).
Proof. intros E. unfold remove_nth. rewrite <-(take_drop_middle l i x E) at 1. rewrite !app_length. simpl. lia. Qed.

Lemma handle_measure z i n r h : z_mail z !! i = Some (n, r) -> z_hosts z !! n = Some h -> measure (zstep z (OHandle i)).1 < measure z.
Proof.
  intros E Eh. cbn [Sharded_Model.zstep]. rewrite E, Eh. pose proof (length_remove_nth _ _ _ E) as Hl.
  assert (Hcases : exists h' eff, hstep h (MRequest (shard_of (t_ent (r_ticket r))) r) = (h', eff) /\
    zsum rank (host_tasks n eff) + zsum rank (resolve_all readable n (host_dropped eff)).1 <= 6).
  { cbn [hstep]. unfold on_request. destruct (sh_hosted h !! _) as [[a buf req|a|]|] eqn:Es; simpl.
    - eexists _, _; split; [done|]; simpl; lia.
    - eexists _, _; split; [done|]; simpl; lia.
    - eexists _, _; split; [done|]. simpl. rewrite app_nil_r. pose proof (resolve_rank n (r_ticket r) (SErr SClosed)). lia.
    - destruct (sh_remote h !! _); (eexists _, _; split; [done|]); simpl; lia. }
  destruct Hcases as (h' & eff & Eq & Hr). rewrite Eq. unfold do_host. destruct (resolve_all _ _ _) as [ts evs]. cbn [fst snd] in *.
  unfold measure. simpl. rewrite !zsum_app, started_kept. lia.
Qed.
Lemma do_shard_measure z n s a tasks m m' eff : z_shards z !! (n, s, a) = Some m ->
  zsum rank (shard_tasks n s a eff) + zsum rank (resolve_all readable n (shard_replies eff)).1 + kept_in (n, s, a) m' < kept_in (n, s, a) m + (zsum rank (z_tasks z) - zsum rank tasks) ->
  measure (do_shard readable z n s a tasks m' eff).1 < measure z.
Proof.
  intros E H. unfold do_shard. destruct (resolve_all _ _ _) as [ts evs]. cbn [fst snd] in *.
  unfold measure. simpl. rewrite !zsum_app, (msum_replace _ _ _ _ _ E). lia.
Qed.
Lemma shard_request_measure z n s a tasks m r t known : z_shards z !! (n, s, a) = Some m -> zsum rank tasks + 6 = zsum rank (z_tasks z) ->
  measure (shard_request readable z n s a tasks m r t known).1 < measure z.
Proof.
  intros E Ht. unfold shard_request, on_entity_request. cbn [q_known q_id q_recipe q_req].
  assert (Hk : forall id rc st rc' st', m !! id = Some (rc, st) -> kept_in (n, s, a) (<[id := (rc', st')]> m) = kept_in (n, s, a) m - estate_w (fun _ _ _ => 4) id (rc, st) + estate_w (fun _ _ _ => 4) id (rc', st')).
  { intros * Em. unfold kept_in, ents_w. by rewrite (msum_replace _ _ _ _ _ Em). }
  destruct known.
  - destruct (m !! t_ent t) as [[rc st]|] eqn:Em.
    + pose proof (Hk _ _ _ rc (entity_request (t_ent t) st t).1 Em) as Hk'. destruct st as [|buf|e|]; cbn [entity_request fst] in *; apply (do_shard_measure _ _ _ _ _ m _ _ E); rewrite Hk'; unfold estate_w, ticket_w; simpl.
      * rewrite app_nil_r. pose proof (resolve_rank n t (SErr SUnavailable)). lia.
      * rewrite zsum_app. simpl. lia.
      * lia.
      * rewrite app_nil_r. pose proof (resolve_rank n t (SErr SUnavailable)). lia.
    + destruct (r_recipe r) as [rc|]; apply (do_shard_measure _ _ _ _ _ m _ _ E).
      * unfold kept_in, ents_w at 1. rewrite (msum_insert _ _ _ _ Em). unfold estate_w at 1, ticket_w. simpl. unfold ents_w. lia.
      * simpl. rewrite app_nil_r. pose proof (resolve_rank n t (SErr SNotFound)). lia.
  - apply (do_shard_measure _ _ _ _ _ m _ _ E). simpl. rewrite app_nil_r. pose proof (resolve_rank n t (SErr SNotSupported)). lia.
Qed.
Lemma set_measure z i t evs : z_tasks z !! i = Some t -> measure (set_tasks z (remove_nth i (z_tasks z)), evs : list zevent).1 < measure z.
Proof. intros E. unfold measure. simpl. pose proof (zsum_remove_nth rank _ _ _ E). pose proof (rank_pos t). lia. Qed.

Lemma task_measure z i t : z_tasks z !! i = Some t ->
  (forall o, (match o with OArrive j _ _ | OEntity j _ | OAnswer j | OCreated j _ | OLose j => j = i | _ => False end) ->
    zstep z o = (z, []) \/ measure (zstep z o).1 < measure z) /\
  exists o, internal o /\ measure (zstep z o).1 < measure z.
Proof.
  intros E. pose proof (zsum_remove_nth rank _ _ _ E) as Hr.
  assert (Harr : forall a known, (match t with TShard _ _ _ _ | TRemote _ _ _ _ => True | _ => False end) -> measure (zstep z (OArrive i a known)).1 < measure z).
  { intros a known Ht. cbn [Sharded_Model.zstep]. rewrite E. destruct t as [n s a' r|n m s r| | | ]; try done.
    - destruct (z_shards z !! _) as [m|] eqn:Es; [apply (shard_request_measure _ _ _ _ _ _ _ _ _ Es); simpl in Hr; lia|].
      unfold do_resolve. pose proof (resolve_rank n (r_ticket r) (SErr SClosed)). destruct (resolve _ _ _ _) as [ts evs]. cbn [fst snd] in *.
      unfold measure. simpl in *. rewrite zsum_app. lia.
    - destruct (z_shards z !! _) as [e|] eqn:Es; [apply (shard_request_measure _ _ _ _ _ _ _ _ _ Es); simpl in Hr; lia|].
      exact (set_measure z i _ _ E). }
  assert (Hent : forall d, (match t with TEntity _ _ _ _ _ _ => True | _ => False end) -> measure (zstep z (OEntity i d)).1 < measure z).
  { intros d Ht. cbn [Sharded_Model.zstep]. rewrite E. destruct t as [ | |n s a id e t| | ]; try done.
    unfold do_resolve. pose proof (resolve_rank n t (entity_result d)). destruct (resolve _ _ _ _) as [ts evs]. cbn [fst snd] in *.
    unfold measure. simpl in *. rewrite zsum_app. lia. }
  assert (Hans : (match t with TAnswer _ _ _ _ => True | _ => False end) -> measure (zstep z (OAnswer i)).1 < measure z).
  { intros Ht. cbn [Sharded_Model.zstep]. rewrite E. destruct t as [ | | |n k o x| ]; try done.
    destruct (z_waiting z !! k); [unfold measure; simpl in *; lia|exact (set_measure z i _ _ E)]. }
  assert (Hcre : forall ok, (match t with TCreate _ _ _ _ _ => True | _ => False end) -> measure (zstep z (OCreated i ok)).1 < measure z).
  { intros ok Ht. cbn [Sharded_Model.zstep]. rewrite E. destruct t as [ | | | |n s a id rc]; try done.
    destruct (z_shards z !! _) as [m|] eqn:Es; [|unfold measure; simpl in *; lia].
    set (z' := Sys _ _ _ _ _ _ _). assert (measure z' = measure z) as <- by done.
    assert (forall id' (e : N) buf, zsum rank (shard_tasks n s a (map (EForward id' e) buf)) = 3 * Z.of_nat (length buf) /\ shard_replies (map (EForward id' e) buf) = []) as Hf.
    { intros id' e buf. induction buf as [|x buf [IH1 IH2]]; [done|]. split; [|by simpl; rewrite IH2]. simpl map. cbn [length].
      change (shard_tasks n s a (EForward id' e x :: map (EForward id' e) buf)) with (TEntity n s a id' e x :: shard_tasks n s a (map (EForward id' e) buf)).
      cbn [zsum rank]. lia. }
    unfold on_start_result. destruct ok.
    - destruct (m !! id) as [[rc' st]|] eqn:Em.
      + apply (do_shard_measure z' n s a _ m _ _ Es). unfold z'. cbn [z_tasks].
        assert (kept_in (n, s, a) (<[id := (rc', EActive (z_nexte z))]> m) = kept_in (n, s, a) m - estate_w (fun _ _ _ => 4) id (rc', st)) as ->.
        { unfold kept_in, ents_w. rewrite (msum_replace _ _ _ _ _ Em). unfold estate_w at 3. simpl. lia. }
        unfold estate_w. simpl in Hr. destruct st as [|buf|e|]; cbn [snd]; try (simpl; lia).
        destruct (Hf id (z_nexte z) buf) as [-> ->]. simpl. unfold ticket_w.
        assert (zsum (fun _ : ticket => 4) buf = 4 * Z.of_nat (length buf)) as -> by (clear; induction buf; simpl; lia). lia.
      + apply (do_shard_measure z' n s a _ m _ _ Es). unfold z'. simpl in *. lia.
    - apply (do_shard_measure z' n s a _ m _ _ Es). unfold z'. simpl in *. lia. }
  split.
  - intros o Ho. destruct o as [ | | |j a known|j|j d|j|j ok| | | ]; try done; subst j.
    + destruct t; try (left; cbn [Sharded_Model.zstep]; by rewrite E); right; by apply Harr.
    + cbn [Sharded_Model.zstep]. rewrite E. destruct t; try (by left); right; exact (set_measure z i _ _ E).
    + destruct t; try (left; cbn [Sharded_Model.zstep]; by rewrite E); right; by apply Hent.
    + destruct t; try (left; cbn [Sharded_Model.zstep]; by rewrite E); right; by apply Hans.
    + destruct t; try (left; cbn [Sharded_Model.zstep]; by rewrite E); right; by apply Hcre.
  - destruct t.
    + exists (OArrive i 0%N true). split; [done|by apply Harr].
    + exists (OArrive i 0%N true). split; [done|by apply Harr].
    + exists (OEntity i DRefused). split; [done|by apply Hent].
    + exists (OAnswer i). split; [done|by apply Hans].
    + exists (OCreated i true). split; [done|by apply Hcre].
Qed.

Lemma internal_measure z o : internal o -> zstep z o = (z, []) \/ measure (zstep z o).1 < measure z.
Proof.
  assert (Ht : forall i, z_tasks z !! i = None \/ exists t, z_tasks z !! i = Some t) by (intros i; destruct (z_tasks z !! i); eauto).
  intros Ho. destruct o as [ |i| |i a known|i|i d|i|i ok| | | ]; try done.
  - destruct (z_mail z !! i) as [[n r]|] eqn:E; [|left; cbn [Sharded_Model.zstep]; by rewrite E].
    destruct (z_hosts z !! n) as [h|] eqn:Eh; [|left; cbn [Sharded_Model.zstep]; by rewrite E, Eh]. right. by eapply handle_measure.
  - destruct (Ht i) as [E|[t E]]; [left; cbn [Sharded_Model.zstep]; by rewrite E|]. by apply (task_measure z i t E).
  - destruct (Ht i) as [E|[t E]]; [left; cbn [Sharded_Model.zstep]; by rewrite E|]. by apply (task_measure z i t E).
  - destruct (Ht i) as [E|[t E]]; [left; cbn [Sharded_Model.zstep]; by rewrite E|]. by apply (task_measure z i t E).
  - destruct (Ht i) as [E|[t E]]; [left; cbn [Sharded_Model.zstep]; by rewrite E|]. by apply (task_measure z i t E).
  - destruct (Ht i) as [E|[t E]]; [left; cbn [Sharded_Model.zstep]; by rewrite E|]. by apply (task_measure z i t E).
Qed.
Lemma run_measure z ops : effective_run shard_of readable z ops -> Z.of_nat (length ops) <= measure z.
Proof.
  revert z. induction ops as [|o ops IH]; intros z; simpl; [intros _; apply measure_nonneg|].
  intros (Hi & He & Hr). destruct (internal_measure z o Hi) as [H|H]; [done|]. specialize (IH _ Hr). lia.
Qed.

(** Requests are in mailboxes of hosts that exist. *)
Definition hosts_up z : Prop := forall n r, (n, r) ∈ z_mail z -> is_Some (z_hosts z !! n).
Lemma do_host_up z n mail h eff : (forall p, p ∈ mail -> p ∈ z_mail z) -> hosts_up z -> hosts_up (do_host readable z n mail h eff).1.
Proof.
  intros Hm Hu. unfold do_host. destruct (resolve_all _ _ _). intros n' r Hin. simpl in *. destruct (decide (n = n')) as [->|Hne]; [rewrite lookup_insert; by eexists|].
  rewrite lookup_insert_ne by done. apply (Hu n' r). by apply Hm.
Qed.
Lemma do_shard_up z n s a tasks m eff : hosts_up z -> hosts_up (do_shard readable z n s a tasks m eff).1.
Proof. intros Hu. unfold do_shard. by destruct (resolve_all _ _ _). Qed.
Lemma shard_request_up z n s a tasks m r t known : hosts_up z -> hosts_up (shard_request readable z n s a tasks m r t known).1.
Proof. intros Hu. unfold shard_request. destruct (on_entity_request _ _). by apply do_shard_up. Qed.
Lemma zstep_up z o : hosts_up z -> hosts_up (zstep z o).1.
Proof.
  intros Hu. destruct o as [n id m recipe encodes typed|i|n c|i a known|i|i d|i|i ok|n s a id rc|n s a|n]; cbn [Sharded_Model.zstep].
  - destruct encodes, typed; [destruct (z_hosts z !! n) eqn:E|..]; try done. intros n' r Hin. simpl in *. apply elem_of_app in Hin as [Hin|Hin]; [by apply (Hu n' r)|].
    apply elem_of_list_singleton in Hin as [= -> ->]. by eexists.
  - destruct (z_mail z !! i) as [[n r]|]; [|done]. destruct (z_hosts z !! n) as [h|]; [|done]. destruct (hstep h _). apply do_host_up; [|done].
    intros p. apply remove_nth_subset.
  - destruct c; [done|..]; (destruct (z_hosts z !! n) as [h|]; [|done]); destruct (hstep h _); by apply do_host_up.
  - destruct (z_tasks z !! i) as [[n s a' r|n m s r| | | ]|]; try done.
    + destruct (z_shards z !! _); [by apply shard_request_up|]. unfold do_resolve. by destruct (resolve _ _ _ _).
    + destruct (z_shards z !! _); [by apply shard_request_up|done].
  - by destruct (z_tasks z !! i) as [[]|].
  - destruct (z_tasks z !! i) as [[]|]; try done. unfold do_resolve. by destruct (resolve _ _ _ _).
  - destruct (z_tasks z !! i) as [[]|]; try done. by destruct (z_waiting z !! _).
  - destruct (z_tasks z !! i) as [[]|]; try done. destruct (z_shards z !! _); [|done]. destruct (on_start_result _ _ _). by apply do_shard_up.
  - destruct (z_shards z !! _); [|done]. destruct (on_start_entity _ _ _). by apply do_shard_up.
  - destruct (z_shards z !! _) as [m|]; [|done]. by destruct (resolve_all _ _ _).
  - intros n' r Hin. simpl in *. apply elem_of_list_In, filter_In in Hin as [Hin Hk]. unfold keep_node in Hk. simpl in Hk. apply negb_true_iff, N.eqb_neq in Hk.
    rewrite lookup_delete_ne by done. apply (Hu n' r). by apply elem_of_list_In.
Qed.
Lemma run_up nodes ops : hosts_up (zrun nodes ops).1.
Proof.
  apply (zrun_ind shard_of readable nodes (fun z _ => hosts_up z)); [intros n r H; by apply elem_of_nil in H|]. intros z _ o. apply zstep_up.
Qed.

Lemma stuck_rest z : hosts_up z -> (forall o, internal o -> zstep z o = (z, [])) -> at_rest z.
Proof.
  intros Hu Hs. split.
  - destruct (z_mail z) as [|[n r] l] eqn:E; [done|]. exfalso. destruct (Hu n r) as [h Eh]; [rewrite E; by left|].
    assert (z_mail z !! 0%nat = Some (n, r)) as E0 by (by rewrite E). pose proof (handle_measure z 0 n r h E0 Eh) as H. rewrite (Hs (OHandle 0)) in H by done. simpl in H. lia.
  - destruct (z_tasks z) as [|t l] eqn:E; [done|]. exfalso. assert (z_tasks z !! 0%nat = Some t) as E0 by (by rewrite E).
    destruct (task_measure z 0 t E0) as [_ (o & Ho & H)]. rewrite (Hs o Ho) in H. simpl in H. lia.
Qed.

(** As long as no creation fails, every entity that is starting is being created. *)
Definition creating z : Prop :=
  forall n s a m id rc buf, z_shards z !! (n, s, a) = Some m -> m !! id = Some (rc, EStarting buf) -> exists rc', TCreate n s a id rc' ∈ z_tasks z.
Lemma creating_ext z z' : creating z -> (forall n s a id rc, TCreate n s a id rc ∈ z_tasks z -> TCreate n s a id rc ∈ z_tasks z') ->
  (forall n s a m, z_shards z' !! (n, s, a) = Some m -> m = ∅ \/ z_shards z !! (n, s, a) = Some m) -> creating z'.
Proof.
  intros Hc Ht Hs n s a m id rc buf E Em. destruct (Hs _ _ _ _ E) as [->|E']; [by rewrite lookup_empty in Em|].
  destruct (Hc _ _ _ _ _ _ _ E' Em) as [rc' H]. exists rc'. by apply Ht.
Qed.
Lemma remove_nth_keeps {A} i (l : list A) x y : l !! i = Some y -> x ∈ l -> x <> y -> x ∈ remove_nth i l.
Proof.
  intros E Hx Hne. unfold remove_nth. rewrite <-(take_drop_middle l i y E) in Hx. apply elem_of_app in Hx as [Hx|Hx]; [apply elem_of_app; by left|].
  apply elem_of_cons in Hx as [Hx|Hx]; [done|]. apply elem_of_app. by right.
Qed.
Lemma do_host_creating z n mail h eff : creating z -> creating (do_host readable z n mail h eff).1.
Proof.
  intros Hc. unfold do_host. destruct (resolve_all _ _ _) as [ts evs]. apply (creating_ext z); [done|..]; simpl.
  - intros * H. apply elem_of_app. by left.
  - intros n' s a m. induction (host_started n eff) as [|x l IH]; simpl; [by right|].
    destruct (_ !! x); [done|]. destruct (decide (x = (n', s, a))) as [->|Hne]; [rewrite lookup_insert; intros [= <-]; by left|]. by rewrite lookup_insert_ne.
Qed.
(** [m] is the new table of the shard: entities that are starting were so before or are created now. *)
Lemma do_shard_creating z n s a tasks m m' eff : z_shards z !! (n, s, a) = Some m -> creating z ->
  (forall n' s' a' id' rc', TCreate n' s' a' id' rc' ∈ z_tasks z -> TCreate n' s' a' id' rc' ∈ tasks \/ (n', s', a') = (n, s, a) /\ forall rc buf, m' !! id' <> Some (rc, EStarting buf)) ->
  (forall id rc buf, m' !! id = Some (rc, EStarting buf) -> (exists rc' buf', m !! id = Some (rc', EStarting buf')) \/ exists rc', ECreate id rc' ∈ eff) ->
  creating (do_shard readable z n s a tasks m' eff).1.
Proof.
  intros E Hc Ht Hm. unfold do_shard. destruct (resolve_all _ _ _) as [ts evs]. intros n' s' a' m0 id rc buf E' Em. simpl in E' |- *.
  destruct (decide ((n, s, a) = (n', s', a'))) as [Heq|Hne].
  - injection Heq as <- <- <-. rewrite lookup_insert in E'. injection E' as <-. destruct (Hm id rc buf Em) as [(rc1 & buf1 & H)|(rc1 & H)].
    + destruct (Hc _ _ _ _ _ _ _ E H) as [rc2 H2]. destruct (Ht _ _ _ _ _ H2) as [H3|[_ H3]]; [|by destruct (H3 rc buf)]. exists rc2. apply elem_of_app. by left.
    + exists rc1. apply elem_of_app. right. apply elem_of_app. left. apply elem_of_list_omap. by exists (ECreate id rc1).
  - rewrite lookup_insert_ne in E' by done. destruct (Hc _ _ _ _ _ _ _ E' Em) as [rc2 H2].
    destruct (Ht _ _ _ _ _ H2) as [H3|[H3 _]]; [|congruence]. exists rc2. apply elem_of_app. by left.
Qed.
Lemma shard_request_creating z n s a tasks m r t known : z_shards z !! (n, s, a) = Some m -> creating z ->
  (forall n' s' a' id' rc', TCreate n' s' a' id' rc' ∈ z_tasks z -> TCreate n' s' a' id' rc' ∈ tasks) ->
  creating (shard_request readable z n s a tasks m r t known).1.
Proof.
  intros E Hc Ht. unfold shard_request. destruct (on_entity_request m _) as [m' eff] eqn:Eo.
  apply (do_shard_creating z n s a tasks m); [done|done|by left; apply Ht|].
  unfold on_entity_request in Eo. cbn [q_known q_id q_recipe q_req] in Eo. destruct known; [|injection Eo as <- <-; eauto].
  destruct (m !! t_ent t) as [[rc st]|] eqn:Em.
  - intros id rc1 buf Hm. destruct (entity_request _ st t) as [st' eff'] eqn:Er. injection Eo as <- <-.
    destruct (decide (t_ent t = id)) as [<-|Hne]; [|rewrite lookup_insert_ne in Hm by done; eauto].
    rewrite lookup_insert in Hm. injection Hm as <- ->. destruct st; simpl in Er; simplify_eq. eauto.
  - destruct (r_recipe r) as [rc|]; injection Eo as <- <-; [|eauto]. intros id rc1 buf Hm.
    destruct (decide (t_ent t = id)) as [<-|Hne]; [|rewrite lookup_insert_ne in Hm by done; eauto]. right. exists rc. by left.
Qed.
Lemma zstep_creating z o : (forall i, o <> OCreated i false) -> creating z -> creating (zstep z o).1.
Proof.
  intros Ho Hc.
  assert (Hrem : forall i t, z_tasks z !! i = Some t -> (forall n s a id rc, t <> TCreate n s a id rc) ->
    forall n s a id rc, TCreate n s a id rc ∈ z_tasks z -> TCreate n s a id rc ∈ remove_nth i (z_tasks z)).
  { intros i t E Ht n s a id rc H. apply (remove_nth_keeps i _ _ t E H). intros Heq. by apply (Ht n s a id rc). }
  assert (Hset : forall i t, z_tasks z !! i = Some t -> (forall n s a id rc, t <> TCreate n s a id rc) -> forall ts,
    creating (set_tasks z (remove_nth i (z_tasks z) ++ ts))).
  { intros i t E Ht ts. apply (creating_ext z); [done| |simpl; by right]. intros * H. apply elem_of_app. left. by apply (Hrem i t). }
  assert (Hset0 : forall i t, z_tasks z !! i = Some t -> (forall n s a id rc, t <> TCreate n s a id rc) -> creating (set_tasks z (remove_nth i (z_tasks z)))).
  { intros i t E Ht. rewrite <-(app_nil_r (remove_nth i _)). by apply (Hset i t). }
  destruct o as [n id m recipe encodes typed|i|n c|i a known|i|i d|i|i ok|n s a id rc|n s a|n]; cbn [Sharded_Model.zstep].
  - destruct encodes, typed; [destruct (z_hosts z !! n)|..]; done.
  - destruct (z_mail z !! i) as [[n r]|]; [|done]. destruct (z_hosts z !! n) as [h|]; [|done]. destruct (hstep h _). by apply do_host_creating.
  - destruct c; [done|..]; (destruct (z_hosts z !! n) as [h|]; [|done]); destruct (hstep h _); by apply do_host_creating.
  - destruct (z_tasks z !! i) as [[n s a' r|n m s r| | | ]|] eqn:E; try done.
    + destruct (z_shards z !! _) eqn:Es; [apply shard_request_creating; [done|done|by apply (Hrem i _ E)]|].
      unfold do_resolve. destruct (resolve _ _ _ _). by apply (Hset i _ E).
    + destruct (z_shards z !! _) eqn:Es; [apply shard_request_creating; [done|done|by apply (Hrem i _ E)]|]. by apply (Hset0 i _ E).
  - destruct (z_tasks z !! i) as [[]|] eqn:E; try done; by apply (Hset0 i _ E).
  - destruct (z_tasks z !! i) as [[]|] eqn:E; try done. unfold do_resolve. destruct (resolve _ _ _ _). by apply (Hset i _ E).
  - destruct (z_tasks z !! i) as [[ | | |n k o x| ]|] eqn:E; try done. destruct (z_waiting z !! k); by apply (Hset0 i _ E).
  - destruct ok; [|by destruct (Ho i)]. destruct (z_tasks z !! i) as [[ | | | |n s a id rc]|] eqn:E; try done.
    destruct (z_shards z !! _) as [m|] eqn:Es.
    +
      assert (Hgo : forall m' eff, on_start_result m id (Some (z_nexte z)) = (m', eff) ->
        (forall rc1 buf, m' !! id <> Some (rc1, EStarting buf)) /\ forall id', id' <> id -> m' !! id' = m !! id').
      { intros m' eff Eo. unfold on_start_result in Eo. destruct (m !! id) as [[rc1 st]|] eqn:Em; injection Eo as <- <-; [|by rewrite Em].
        split; [intros *; by rewrite lookup_insert|]. intros id' Hne. by rewrite lookup_insert_ne. }
      destruct (on_start_result m id (Some (z_nexte z))) as [m' eff] eqn:Eo. destruct (Hgo m' eff eq_refl) as [H1 H2].
      set (z' := Sys _ _ _ _ _ _ _). apply (do_shard_creating z' n s a _ m); [done|done|..].
      * intros n' s' a' id' rc' H. destruct (decide ((n', s', a', id', rc') = (n, s, a, id, rc))) as [Heq|Hne].
        -- injection Heq as -> -> -> -> ->. right. by split.
        -- left. apply (remove_nth_keeps i _ _ _ E H). congruence.
      * intros id' rc1 buf H. left. destruct (decide (id' = id)) as [->|Hne]; [by destruct (H1 rc1 buf)|]. rewrite H2 in H by done. eauto.
    + intros n' s' a' m id' rc' buf Es' Em. simpl in Es'. destruct (Hc _ _ _ _ _ _ _ Es' Em) as [rc1 H]. exists rc1. simpl.
      apply (remove_nth_keeps i _ _ _ E H). congruence.
  - destruct (z_shards z !! _) as [m|] eqn:Es; [|done]. destruct (on_start_entity m id rc) as [m' eff] eqn:Eo. unfold on_start_entity in Eo. injection Eo as <- <-.
    apply (do_shard_creating z n s a _ m); [done|done|by left|]. intros id' rc1 buf H.
    destruct (decide (id = id')) as [<-|Hne]; [right; exists rc; apply elem_of_app; right; by left|]. rewrite lookup_insert_ne in H by done. eauto.
  - destruct (z_shards z !! _) as [m|]; [|done]. destruct (resolve_all _ _ _). apply (creating_ext z); [done| |].
    + intros * H. simpl. apply elem_of_app. by left.
    + intros n' s' a' m' H. simpl in H. apply lookup_delete_Some in H as [_ H]. by right.
  - intros n' s' a' m id' rc' buf Es Em. simpl in *. apply map_filter_lookup_Some in Es as [Es Hn]. simpl in Hn.
    destruct (Hc _ _ _ _ _ _ _ Es Em) as [rc1 H]. exists rc1. apply elem_of_list_In, filter_In. split; [by apply elem_of_list_In|].
    simpl. unfold keep_node. by apply negb_true_iff, N.eqb_neq.
Qed.
Lemma run_creating nodes ops : (forall i, OCreated i false ∉ ops) -> creating (zrun nodes ops).1.
Proof.
  induction ops as [|o ops IH] using rev_ind; intros Hn.
  - intros n s a m id rc buf E. unfold Sharded_Model.zrun in E. simpl in E. by rewrite lookup_empty in E.
  - rewrite zrun_snoc. cbn [fst]. apply zstep_creating.
    + intros i ->. apply (Hn i). apply elem_of_app. right. by left.
    + apply IH. intros i H. apply (Hn i). apply elem_of_app. by left.
Qed.
End progress.
