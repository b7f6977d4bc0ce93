(** Theorems about publish and subscribe: C37, C38. *)
From Verif Require Import Stream_Model Stream_Spec Stream_Proofs StreamNet_Proofs.
Open Scope string_scope.
Open Scope list_scope.
Open Scope nat_scope.

Section props.
Variable M : Type.
Variable tname : N -> bytes.
Variable mtype : N -> N.
Variable encode : N -> M -> option bytes.
Variable decode : N -> bytes -> outcome M.
Variable member : M -> option (bool * N).
Notation mstep := (mstep M tname mtype decode member).
Notation mrun := (mrun M tname mtype decode member).
Notation gstep := (gstep M tname mtype encode decode member).
Notation grun := (grun M tname mtype encode decode member).
Notation pubs := (pubs M tname mtype decode).
Notation got := (got M). Notation live := (live M).

(** ** C37: local subscriptions *)
(** What a subscription delivered is always a prefix of what was published to its topic and key
    since: every message once, in order, none of another key, none from before. *)
Theorem C37_prefix m i t key m1 l m2 :
  m_subs M m !! i = None -> mstep m (MSubscribe M i t key) = Some m1 -> m_subs M m1 !! i <> None ->
  mrun m1 l = Some m2 -> got m2 i `prefix_of` pubs t key l.
Proof.
  intros Hi Hs Hn Hr. destruct (follows_subscribe _ _ mtype decode member _ _ _ _ _ Hi Hs Hn) as (L0 & HF & _).
  pose proof (follows_run _ _ _ _ _ _ _ _ _ _ [] _ _ HF Hr) as HF2. exact (follows_got _ _ _ _ _ _ _ _ HF2).
Qed.
(** All of it, once nothing is left to deliver. Partial: for subscriptions that did not end. *)
Theorem C37_all_partial m i t key m1 l m2 :
  m_subs M m !! i = None -> mstep m (MSubscribe M i t key) = Some m1 -> m_subs M m1 !! i <> None ->
  mrun m1 l = Some m2 -> m_alive M m2 = true -> live m2 i = true -> mstep m2 (MRecv M i) = None -> got m2 i = pubs t key l.
Proof.
  intros Hi Hs Hn Hr Ha Hl Hq. destruct (follows_subscribe _ _ mtype decode member _ _ _ _ _ Hi Hs Hn) as (L0 & HF & _).
  pose proof (follows_run _ _ _ _ _ _ _ _ _ _ [] _ _ HF Hr) as HF2. eapply follows_all; [exact HF2|done..].
Qed.
(** As long as messages are left and the subscriber is no more than 1024 behind, the next one can
    be delivered. *)
Theorem C37_next_partial m i t key m1 l m2 :
  m_subs M m !! i = None -> mstep m (MSubscribe M i t key) = Some m1 -> m_subs M m1 !! i <> None ->
  mrun m1 l = Some m2 -> m_alive M m2 = true -> live m2 i = true -> (forall s, m_subs M m2 !! i = Some s -> sb_up M s = true) ->
  length (got m2 i) < length (pubs t key l) -> length (pubs t key l) <= length (got m2 i) + 1024 ->
  exists m3 x, mstep m2 (MRecv M i) = Some m3 /\ pubs t key l !! length (got m2 i) = Some x /\ got m3 i = got m2 i ++ [x] /\ live m3 i = true.
Proof.
  intros Hi Hs Hn Hr Ha Hl Hu. destruct (follows_subscribe _ _ mtype decode member _ _ _ _ _ Hi Hs Hn) as (L0 & HF & _).
  pose proof (follows_run _ _ _ _ _ _ _ _ _ _ [] _ _ HF Hr) as HF2. exact (follows_next _ _ _ _ _ _ _ _ _ _ _ HF2 Ha Hl Hu).
Qed.
(** A subscriber that is never more than 1024 messages behind, does not stop and does not
    unsubscribe, stays subscribed. *)
Theorem C37_stays_partial m i t key m1 l m2 :
  m_subs M m !! i = None -> mstep m (MSubscribe M i t key) = Some m1 -> m_subs M m1 !! i <> None ->
  mrun m1 l = Some m2 -> m_alive M m2 = true -> (forall o, o ∈ l -> ends_sub M i o = false) ->
  (forall l1 l2 m', l = l1 ++ l2 -> mrun m1 l1 = Some m' -> length (pubs t key l1) <= length (got m' i) + 1024) ->
  live m2 i = true.
Proof.
  intros Hi Hs Hn Hr Ha Ho Hle. destruct (follows_subscribe _ _ mtype decode member _ _ _ _ _ Hi Hs Hn) as (L0 & HF & _ & Hl & Hg).
  eapply (keeps_run _ _ _ _ _ _ _ _ _ l []); [exact HF|exact Hr|exact Ha|exact Hl| |exact Ho|exact Hle].
  intros s Es. unfold Stream_Spec.got in Hg. clear - Hi Hs Es. cbn [Stream_Model.mstep] in Hs. destruct (m_alive M m); [|done]. rewrite Hi in Hs. injection Hs as <-.
  unfold subscribe, receiver in Es. destruct (m_topics M m !! tname t) as [t0|]; cbn [from_option] in Es.
  - destruct (t0 =? t)%N; [|congruence]. destruct (m_chans M m !! (tname t, key)); cbn in Es; rewrite lookup_insert in Es; by injection Es as <-.
  - cbn in Es. destruct (m_chans M m !! (tname t, key)); cbn in Es; rewrite lookup_insert in Es; by injection Es as <-.
Qed.
(** A subscriber that falls more than 1024 messages behind never gets a message again. *)
Theorem C37_lag_refuted m i t key m1 l m2 l' m3 :
  m_subs M m !! i = None -> mstep m (MSubscribe M i t key) = Some m1 -> m_subs M m1 !! i <> None ->
  mrun m1 l = Some m2 -> m_alive M m2 = true -> length (got m2 i) + 1024 < length (pubs t key l) ->
  mrun m2 l' = Some m3 -> got m3 i = got m2 i.
Proof.
  intros Hi Hs Hn Hr Ha Hlt Hr'. destruct (follows_subscribe _ _ mtype decode member _ _ _ _ _ Hi Hs Hn) as (L0 & HF & _).
  pose proof (follows_run _ _ _ _ _ _ _ _ _ _ [] _ _ HF Hr) as HF2. eapply lost_run; [|eapply behind_lost; done|done].
  destruct HF2 as (s & L & E & _). congruence.
Qed.

(** A subscription that was given up, and an actor that has stopped, get nothing any more, also of
    what was published before. *)
Lemma over_step i m o m' s :
  m_subs M m !! i = Some s -> sb_live M s = false \/ sb_up M s = false -> mstep m o = Some m' ->
  exists s', m_subs M m' !! i = Some s' /\ (sb_live M s' = false \/ sb_up M s' = false) /\ sb_got M s' = sb_got M s.
Proof.
  intros Hs Ho H.
  assert (HSAME : forall m1, m_subs M m1 = m_subs M m -> exists s', m_subs M m1 !! i = Some s' /\ (sb_live M s' = false \/ sb_up M s' = false) /\ sb_got M s' = sb_got M s)
    by (intros m1 ->; by exists s).
  assert (HSET : forall m1 j s1, m_subs M m1 = m_subs M m -> (j = i -> (sb_live M s1 = false \/ sb_up M s1 = false) /\ sb_got M s1 = sb_got M s) ->
    exists s', m_subs M (set_sub M m1 j s1) !! i = Some s' /\ (sb_live M s' = false \/ sb_up M s' = false) /\ sb_got M s' = sb_got M s).
  { intros m1 j s1 E Hj. unfold set_sub. cbn. rewrite E. destruct (decide (j = i)) as [-> |]; [rewrite lookup_insert; exists s1; split; [done|exact (Hj eq_refl)]|].
    rewrite lookup_insert_ne by done. by exists s. }
  destruct o as [j t' k|t' k x r|n k b|j|j|j|]; cbn [Stream_Model.mstep] in H.
  - destruct (m_alive M m); [|done]. destruct (m_subs M m !! j) eqn:Ej; [done|]. injection H as <-.
    unfold subscribe, receiver. destruct (m_topics M m !! tname t') as [t0|]; cbn [from_option].
    + destruct (t0 =? t')%N; [|by apply HSAME]. destruct (m_chans M m !! (tname t', k)); apply HSET; try done; intros ->; congruence.
    + cbn. destruct (m_chans M m !! (tname t', k)); apply HSET; try done; intros ->; congruence.
  - destruct (m_alive M m); [|done]. injection H as <-. unfold emit. destruct (m_topics M m !! tname t'); [|by apply HSAME].
    destruct (mtype n =? mtype t')%N; [|by apply HSAME]. apply HSAME, broadcast_subs.
  - destruct (m_alive M m); [|done]. injection H as <-. unfold emit_raw. destruct (m_topics M m !! n); [|by apply HSAME].
    destruct (decode _ _); [apply HSAME, broadcast_subs|by apply HSAME..].
  - unfold recv in H. destruct (m_subs M m !! j) as [[cc n g [] up]|] eqn:Ej; try done.
    destruct (m_chans M m !! cc) as [l|]; [|done]. cbn [mbind option_bind] in H.
    assert (E : j = i -> up = false /\ g = sb_got M s) by (intros ->; rewrite Hs in Ej; injection Ej as ->; cbn in *; destruct Ho; done).
    destruct (capacity <? length l - n). { injection H as <-. apply HSET; [done|]. intros Hj. destruct (E Hj) as [-> ->]. split; [by left|done]. }
    destruct (l !! n).
    + injection H as <-. apply HSET; [done|]. intros Hj. destruct (E Hj) as [-> ->]. split; [by left|done].
    + destruct (m_alive M m); [done|]. injection H as <-. apply HSET; [done|]. intros Hj. destruct (E Hj) as [-> ->]. split; [by left|done].
  - destruct (m_subs M m !! j) as [[cc n g [] up]|] eqn:Ej; try done. injection H as <-. apply HSET; [done|]. intros ->. rewrite Hs in Ej. injection Ej as ->. split; [by left|done].
  - destruct (m_subs M m !! j) as [[cc n g lv []]|] eqn:Ej; try done. injection H as <-. apply HSET; [done|]. intros ->. rewrite Hs in Ej. injection Ej as ->. split; [by right|done].
  - destruct (m_alive M m); [|done]. destruct (m_subs M m !! 0%N) as [s0|]; [|done]. cbn [mbind option_bind] in H.
    destruct (sb_got M s0 !! m_seen M m); [|done]. injection H as <-. by apply HSAME.
Qed.
Theorem C37_ended m i o m1 l m2 :
  ends_sub M i o = true -> mstep m o = Some m1 -> mrun m1 l = Some m2 -> got m2 i = got m i.
Proof.
  intros Ho H1 Hr.
  assert (exists s s1, m_subs M m !! i = Some s /\ m_subs M m1 !! i = Some s1 /\ (sb_live M s1 = false \/ sb_up M s1 = false) /\ sb_got M s1 = sb_got M s)
    as (s & s1 & E & E1 & Hs1 & Eg).
  { destruct o; try done; cbn in Ho; apply N.eqb_eq in Ho; subst; cbn [Stream_Model.mstep] in H1.
    - destruct (m_subs M m !! _) as [[cc n g [] up]|] eqn:E; try done. injection H1 as <-. eexists _, _. split; [reflexivity|].
      unfold set_sub; cbn. rewrite lookup_insert. split; [done|]. split; [by left|done].
    - destruct (m_subs M m !! _) as [[cc n g lv []]|] eqn:E; try done. injection H1 as <-. eexists _, _. split; [reflexivity|].
      unfold set_sub; cbn. rewrite lookup_insert. split; [done|]. split; [by right|done]. }
  unfold Stream_Spec.got at 2. rewrite E. cbn [from_option]. rewrite <- Eg. clear -E1 Hs1 Hr.
  revert m1 s1 E1 Hs1 Hr. induction l as [|o l IH]; intros m1 s1 E1 Hs1 Hr; cbn [Stream_Model.mrun] in Hr.
  - injection Hr as <-. unfold Stream_Spec.got. by rewrite E1.
  - destruct (mstep m1 o) as [m'|] eqn:Em; [|done]. destruct (over_step _ _ _ _ _ E1 Hs1 Em) as (s' & E' & Hs' & <-).
    exact (IH m' s' E' Hs' Hr).
Qed.

(** ** C38: publications in the cluster *)
(** The nodes that a mediator knows: those whose last event says that they were added, among a
    prefix of the events published to the system topic, without itself. *)
Theorem C38_members self l m :
  mrun (new_med M tname self) l = Some m ->
  exists k, forall n, n ∈ m_nodes M m <-> n <> self /\ known M member (take k (pubs system_topic [] l)) n.
Proof.
  intros Hr. destruct (seen_run _ _ _ _ _ _ _ _ _ (follows_new M tname self) (seen_new M tname member self) Hr) as [(s & H1 & H2 & H3) E].
  pose proof (follows_run _ _ _ _ _ _ _ _ _ _ _ _ _ (follows_new M tname self) Hr) as HF. apply follows_got in HF. unfold Stream_Spec.got in HF. rewrite H1 in HF. cbn in HF. destruct HF as [z Hz].
  exists (m_seen M m). intros n. rewrite (H3 n), E. cbn. by rewrite Hz, take_app_le.
Qed.
(** A publication goes exactly once to every node that is known, and to no other: at any time what
    was sent of it and what its task is still going to send. *)
Theorem C38_sent meds l g n t key x order g1 m m1 b l2 g2 :
  grun (fresh_cluster meds) l = Some g -> g_meds M g !! n = Some m ->
  gstep g (GPublish M n t key x order) = Some g1 -> g_meds M g1 !! n = Some m1 -> m_alive M m1 = true -> encode (mtype t) x = Some b ->
  grun g1 l2 = Some g2 ->
  with_tag (g_count M g) (g_sent M g2) ++ with_tag (g_count M g) (remaining (g_tasks M g2)) ≡ₚ
    (fun d => Flight n d (g_count M g) (Packet (tname t) key b)) <$> elements (m_nodes M m).
Proof.
  intros Hr Hm Hs Hm1 Ha Hb Hr2. destruct (tags_run _ _ _ _ _ _ _ _ _ (tags_fresh M meds) Hr) as [HT _].
  destruct (tags_step _ _ _ _ _ _ _ _ _ HT Hs) as [HT1 _]. apply gpublish_inv in Hs as (m0 & m' & ts & E1 & E2 & Ho & E3 & Hts & Hrem).
  rewrite Hm in E1. injection E1 as <-. assert (m' = m1) as -> by (rewrite E3 in Hm1; cbn in Hm1; rewrite lookup_insert in Hm1; congruence).
  assert (Hk : g_count M g < g_count M g1) by (rewrite E3; cbn; lia).
  destruct (tags_run _ _ _ _ _ _ _ _ _ HT1 Hr2) as [_ HK]. destruct (HK _ Hk) as [_ HP]. unfold with_tag in *. rewrite List.filter_app in HP. etrans; [exact HP|].
  rewrite E3. cbn. rewrite remaining_app, app_assoc, List.filter_app, (lfilter_none _ (g_sent M g ++ _)).
  2: { intros f Hf%HT. apply Nat.eqb_neq. lia. }
  cbn. rewrite (Hrem Ha _ Hb), lfilter_all; [by rewrite Ho|]. intros f (d & -> & _)%elem_of_list_fmap. cbn. by rewrite Nat.eqb_refl.
Qed.
(** What is handled was sent, and no more often than it was sent. *)
Theorem C38_once meds l g :
  grun (fresh_cluster meds) l = Some g -> g_ran M g ++ g_in M g ++ g_wire M g ⊆+ g_sent M g.
Proof. intros Hr. eapply (once_run _ _ _ _ _ _ l); [|done]. constructor. Qed.
(** Every node of a cluster: its operations are its own and one for each packet that was handled,
    in the order of handling. With [C37_prefix] this is what its subscribers get. *)
Theorem C38_history meds l g n m :
  grun (fresh_cluster meds) l = Some g -> meds !! n = Some m -> Forall (no_raw M) l ->
  exists ops m', g_meds M g !! n = Some m' /\ mrun m ops = Some m' /\
    List.filter (is_raw M) ops = as_raw M <$> to_node n (g_ran M g) /\ List.filter (fun o => negb (is_raw M o)) ops = flat_map (node_op M n) l.
Proof.
  intros Hr Hm Hn. destruct (node_history _ _ _ _ _ _ n l _ _ m Hr Hm Hn) as (ops & m' & R & H1 & H2 & H3 & H4 & H5). cbn in H3. subst R. eauto 10.
Qed.
(** Any order: with two nodes, whatever is published, for every order there is a schedule in which
    the messages arrive at the channel of the other node in that order. *)
Theorem C38_any_order_refuted g n d t key m md L xs ys :
  n <> d -> g_tasks M g = [] -> g_wire M g = [] -> g_in M g = [] ->
  g_meds M g !! n = Some m -> m_nodes M m = {[d]} -> m_alive M m = true -> (forall t', m_topics M m !! tname t = Some t' -> mtype t' = mtype t) ->
  g_meds M g !! d = Some md -> m_alive M md = true -> m_topics M md !! tname t = Some t -> m_chans M md !! (tname t, key) = Some L ->
  (forall x, x ∈ xs -> exists b, encode (mtype t) x = Some b /\ decode (mtype t) b = Done x) -> ys ≡ₚ xs ->
  exists l g' md', grun g (((fun x => GPublish M n t key x [d]) <$> xs) ++ l) = Some g' /\
    Forall (fun o => match o with GSend _ _ | GRecv _ _ _ | GRun _ _ => True | _ => False end) l /\
    g_meds M g' !! d = Some md' /\ m_chans M md' !! (tname t, key) = Some (L ++ ys).
Proof.
  intros Hnd Ht Hw Hi Hm Hn Ha Hty Hmd Had Htop Hch Hx Hp.
  assert (HB : exists bs, Forall2 (fun x b => encode (mtype t) x = Some b /\ decode (mtype t) b = Done x) xs bs).
  { clear Hp. induction xs as [|x xs IH]; [by exists []|]. destruct (Hx x) as (b & Hb); [by left|]. destruct IH as [bs Hbs]; [intros y Hy; apply Hx; by right|]. exists (b :: bs). by constructor. }
  destruct HB as [bs HB].
  assert (HR : ready M tname mtype n d t key g L) by (exists m, md; split_and!; done).
  destruct (publish_all M tname mtype encode decode member n d t key Hnd xs bs g L HR) as (g1 & Hr1 & HR1 & Ht1 & Hw1 & Hi1 & _).
  { eapply Forall2_impl; [exact HB|]. by intros ? ? [? _]. }
  rewrite Ht in Ht1. cbn in Ht1.
  destruct (send_all M tname mtype encode decode member n d t key (number (g_count M g) bs) g1 L HR1 Ht1) as (g2 & Hr2 & HR2 & Ht2 & Hw2 & Hi2 & _).
  rewrite Hw1, Hw in Hw2. cbn in Hw2.
  destruct (recv_all M tname mtype encode decode member n d t key (number (g_count M g) bs) g2 L HR2 Hw2) as (g3 & Hr3 & HR3 & Ht3 & Hw3 & Hi3 & _).
  rewrite Hi2, Hi1, Hi in Hi3. cbn in Hi3.
  assert (HD : Forall2 (fun y kb => decode (mtype t) (snd kb) = Done y) xs (number (g_count M g) bs)).
  { unfold number. generalize (g_count M g). clear - HB. induction HB as [|x b xs bs [_ Hb] HB IH]; intros k; cbn; constructor; [done|apply IH]. }
  destruct (Permutation_Forall2 (Permutation_sym Hp) HD) as (bys & Hbp & HD2).
  destruct (run_all M tname mtype encode decode member n d t key Hnd ys g3 L bys HR3 HD2) as (l & g4 & Hr4 & HR4 & Hl).
  { rewrite Hi3. by apply fmap_Permutation. }
  destruct HR4 as (m4 & md4 & _ & E4 & _ & _ & _ & _ & E5 & _).
  exists (replicate (length (number (g_count M g) bs)) (GSend M 0) ++ replicate (length (number (g_count M g) bs)) (GRecv M n d) ++ l), g4, md4. split_and!; try done.
  - rewrite grun_app, Hr1. cbn [mbind option_bind]. rewrite grun_app, Hr2. cbn [mbind option_bind]. by rewrite grun_app, Hr3.
  - rewrite !Forall_app. split_and!; [by apply Forall_replicate..|]. eapply Forall_impl; [exact Hl|]. by intros [].
Qed.
(** In order, if a publisher publishes only when nothing of its earlier publications is on its way
    any more. *)
Theorem C38_order_partial meds l g n d :
  grun (fresh_cluster meds) l = Some g -> patient M tname mtype encode decode member n (fresh_cluster meds) l ->
  StronglySorted lt (f_tag <$> between n d (g_ran M g)).
Proof.
  intros Hr Hp. refine (order_run _ _ _ _ _ _ n l _ _ (tags_fresh M meds) _ _ _ _ Hp Hr d).
  - constructor.
  - constructor.
  - exists 0. cbn. split_and!; try done; by intros f ?%elem_of_nil.
  - intros d'. constructor.
Qed.
End props.

(** ** Examples *)
(** Messages are numbers; 1000 + n says that node n was added, 2000 + n that it was removed. *)
Definition tname1 (t : N) : bytes := [t].
Definition mtype1 (t : N) : N := t.
Definition encode1 (t x : N) : option bytes := Some [x].
Definition decode1 (t : N) (b : bytes) : outcome N := match b with [x] => Done x | _ => Rejected end.
Definition member1 (x : N) : option (bool * N) :=
  if (1000 <=? x)%N && (x <? 2000)%N then Some (true, x - 1000)%N else if (2000 <=? x)%N then Some (false, x - 2000)%N else None.
Definition mrun1 := mrun N tname1 mtype1 decode1 member1.
Definition grun1 := grun N tname1 mtype1 encode1 decode1 member1.
Definition med1 := new_med N tname1.
Example C37_case :
  match mrun1 (med1 1%N) [MSubscribe N 7%N 3%N [1%N]; MPublish N 3%N [1%N] 50%N Local; MPublish N 3%N [2%N] 51%N Local; MRecv N 7%N; MRaw N [3%N] [1%N] [52%N]; MPublish N 3%N [1%N] 53%N Cluster; MRecv N 7%N; MRecv N 7%N] with
  | Some m => got N m 7%N = [50; 52; 53]%N /\ live N m 7%N = true /\ mstep N tname1 mtype1 decode1 member1 m (MRecv N 7%N) = None
  | None => False
  end.
Proof. vm_compute. done. Qed.
Example C37_ended_case :
  match mrun1 (med1 1%N) [MSubscribe N 7%N 3%N [1%N]; MPublish N 3%N [1%N] 50%N Local; MRecv N 7%N; MPublish N 3%N [1%N] 51%N Local;
                          MActorStop N 7%N; MPublish N 3%N [1%N] 52%N Local; MRecv N 7%N] with
  | Some m => got N m 7%N = [50%N] /\ live N m 7%N = false
  | None => False
  end.
Proof. vm_compute. done. Qed.
(** A slow subscriber: 1025 messages at once, and the subscription is over. *)
Example C37_case_lag :
  match mrun1 (med1 1%N) (MSubscribe N 7%N 3%N [] :: replicate 1025 (MPublish N 3%N [] 50%N Local) ++ [MRecv N 7%N; MPublish N 3%N [] 51%N Local]) with
  | Some m => got N m 7%N = [] /\ live N m 7%N = false /\ m_alive N m = true /\ mstep N tname1 mtype1 decode1 member1 m (MRecv N 7%N) = None
  | None => False
  end.
Proof. vm_compute. done. Qed.
Definition cluster1 : cluster N := fresh_cluster {[1%N := med1 1%N; 2%N := med1 2%N]}.
(** Node 2 joins; it is subscribed; two publications in the cluster. *)
Definition joined : list (gop N) :=
  [GMed N 1%N (MPublish N 0%N [] 1002%N Local); GMed N 1%N (MRecv N 0%N); GMed N 1%N (MSystem N); GMed N 2%N (MSubscribe N 7%N 3%N [])].
Example C38_case :
  match grun1 cluster1 (joined ++ [GPublish N 1%N 3%N [] 60%N [2%N]; GSend N 0; GRecv N 1%N 2%N; GRun N 0; GMed N 2%N (MRecv N 7%N)]) with
  | Some g => match g_meds N g !! 2%N with Some m => got N m 7%N = [60%N] | None => False end /\
      match g_meds N g !! 1%N with Some m => elements (m_nodes N m) = [2%N] | None => False end
  | None => False
  end.
Proof. vm_compute. done. Qed.
(** Out of order. *)
Example C38_case_order :
  match grun1 cluster1 (joined ++ [GPublish N 1%N 3%N [] 60%N [2%N]; GPublish N 1%N 3%N [] 61%N [2%N]; GSend N 1; GSend N 0; GRecv N 1%N 2%N; GRecv N 1%N 2%N; GRun N 0; GRun N 0; GMed N 2%N (MRecv N 7%N); GMed N 2%N (MRecv N 7%N)]) with
  | Some g => match g_meds N g !! 2%N with Some m => got N m 7%N = [61; 60]%N | None => False end
  | None => False
  end.
Proof. vm_compute. done. Qed.
(** A node whose removal was published still gets publications until the mediator handles the
    event. *)
Theorem C38_removed_refuted :
  match grun1 cluster1 (joined ++ [GMed N 1%N (MPublish N 0%N [] 2002%N Local); GMed N 1%N (MRecv N 0%N); GPublish N 1%N 3%N [] 60%N [2%N]; GSend N 0]) with
  | Some g => g_sent N g = [Flight 1 2 0 (Packet [3%N] [] [60%N])]
  | None => False
  end.
Proof. vm_compute. done. Qed.
(** 1025 system events at once end the subscription of the mediator: it does not learn of nodes
    any more. *)
Theorem C38_deaf_refuted :
  match mrun1 (med1 1%N) (replicate 1025 (MPublish N 0%N [] 1002%N Local) ++ [MRecv N 0%N]) with
  | Some m => m_nodes N m = ∅ /\ live N m 0%N = false /\ mstep N tname1 mtype1 decode1 member1 m (MSystem N) = None /\ m_alive N m = true
  | None => False
  end.
Proof. vm_compute. done. Qed.

Print Assumptions C37_prefix.
Print Assumptions C37_all_partial.
Print Assumptions C37_next_partial.
Print Assumptions C37_stays_partial.
Print Assumptions C37_lag_refuted.
Print Assumptions C37_ended.
Print Assumptions C38_members.
Print Assumptions C38_sent.
Print Assumptions C38_once.
Print Assumptions C38_history.
Print Assumptions C38_any_order_refuted.
Print Assumptions C38_order_partial.
Print Assumptions C38_removed_refuted.
Print Assumptions C38_deaf_refuted.
