(** C56: what the proxies of a cluster are told is true: proofs. *)
From Verif Require Import Singleton_Model Singleton_Spec.
Local Open Scope N_scope.

Section told.
Variable includes : N -> bool.
Implicit Types (g : manager) (y : ssys) (x : snode).

Lemma in_notify g m k q : FSend k q ∈ notify_managers g m -> q = m.
Proof. unfold notify_managers. intros H. apply elem_of_list_fmap in H as (n & [= -> ->] & _). done. Qed.
Lemma no_proxy_notify g m r : FProxyStarted r ∉ notify_managers g m.
Proof. unfold notify_managers. intros H. by apply elem_of_list_fmap in H as (n & [=] & _). Qed.
Lemma in_notify1 g n m k q : FSend k q ∈ notify_manager g n m -> q = m.
Proof. unfold notify_manager. intros H. case_decide; [|by apply elem_of_nil in H]. by apply elem_of_list_singleton in H as [= _ ->]. Qed.
Lemma no_proxy_notify1 g n m r : FProxyStarted r ∉ notify_manager g n m.
Proof. unfold notify_manager. intros H. case_decide; [by apply elem_of_list_singleton in H|by apply elem_of_nil in H]. Qed.

(** What a manager does tell of a start. *)
Record says g (i : sinput) g' (eff : list seffect) : Prop := Says {
  sy_node : g_node g' = g_node g;
  sy_send k m : FSend k (QStarted m) ∈ eff -> m = g_node g /\ exists a, g_state g' = SRunning a;
  sy_runs a : g_state g' = SRunning a -> g_state g = SRunning a \/ i = IResult (Some a);
  sy_proxy r : FProxyStarted r ∈ eff ->
    (exists a, i = IResult (Some a) /\ r = RLocal a) \/ (exists m, i = IMsg (QStarted m) /\ r = RRemote m);
  sy_own a : i = IResult (Some a) -> FProxyStarted (RLocal a) ∈ eff
}.

(** Steps that tell nobody of a start. *)
Lemma says_silent g i g' eff : g_node g' = g_node g -> (forall a, g_state g' = SRunning a -> g_state g = SRunning a) ->
  (forall k m, FSend k (QStarted m) ∉ eff) -> (forall r, FProxyStarted r ∉ eff) -> (forall a, i <> IResult (Some a)) -> says g i g' eff.
Proof.
  intros H1 H2 H3 H4 H5. constructor; [done| | | |].
  - intros k m H. by destruct (H3 k m).
  - intros a H. left. by apply H2.
  - intros r H. by destruct (H4 r).
  - intros a H. by destruct (H5 a).
Qed.
Definition silent (eff : list seffect) : Prop := (forall k m, FSend k (QStarted m) ∉ eff) /\ (forall r, FProxyStarted r ∉ eff).
Lemma silent_nil : silent [].
Proof. split; intros; by intros ?%elem_of_nil. Qed.
Lemma silent_app a b : silent a -> silent b -> silent (a ++ b).
Proof. intros [A1 A2] [B1 B2]. split; intros; intros [?|?]%elem_of_app; [by eapply A1|by eapply B1|by eapply A2|by eapply B2]. Qed.
Lemma silent_cons e b : silent [e] -> silent b -> silent (e :: b).
Proof. apply (silent_app [e] b). Qed.
Lemma silent_notify g m : (forall n, m <> QStarted n) -> silent (notify_managers g m).
Proof. intros H. split; [intros k q Hk; apply in_notify in Hk; by destruct (H q)|apply no_proxy_notify]. Qed.
Lemma silent_notify1 g n m : (forall k, m <> QStarted k) -> silent (notify_manager g n m).
Proof. intros H. split; [intros k q Hk; apply in_notify1 in Hk; by destruct (H q)|apply no_proxy_notify1]. Qed.
Lemma silent_create : silent [FCreate].
Proof. split; intros; by intros ?%elem_of_list_singleton. Qed.
Lemma silent_request g : silent (request_lease g).
Proof. unfold request_lease. case_decide; [apply silent_create|by apply silent_notify]. Qed.

Lemma mstep_says g i g' eff : mstep includes g i = (g', eff) -> says g i g' eff.
Proof.
  destruct i as [leader nodes|leader|n|n|[n|n|n|n]|r|]; cbn [mstep]; intros H.
  - unfold on_member_up in H. destruct (leader =? g_node g).
    + cbn [begin_starting] in H. unfold begin_starting in H. injection H as <- <-.
      apply says_silent; [done|done| | |done]; [apply silent_app|apply silent_app]; try apply silent_request;
        (destruct (g_state g) as [[n|]| | | |]; [by apply silent_notify1|apply silent_nil..]).
    + injection H as <- <-. apply says_silent; [done|done| | |done];
        (destruct (g_state g) as [[n|]| | | |]; [by apply silent_notify1|apply silent_nil..]).
  - destruct (is_joining (g_state g)); [injection H as <- <-; by apply says_silent; [..|apply silent_nil|apply silent_nil|]|].
    unfold on_leader_changed in H. destruct (_ && _); [|injection H as <- <-; by apply says_silent; [..|apply silent_nil|apply silent_nil|]].
    unfold begin_starting in H. injection H as <- <-. apply says_silent; [done|done|apply silent_request|apply silent_request|done].
  - unfold on_node_added in H. destruct (_ && _); [|injection H as <- <-; by apply says_silent; [..|apply silent_nil|apply silent_nil|]].
    case_decide; [injection H as <- <-; by apply says_silent; [..|apply silent_nil|apply silent_nil|]|].
    injection H as <- <-. destruct (g_state g) as [p| |acked|a|a w] eqn:Es.
    1, 2, 5: apply says_silent; [done|by cbn; rewrite Es|apply silent_nil|apply silent_nil|done].
    + apply says_silent; [done|by cbn; rewrite Es| | |done]; intros; by intros [=]%elem_of_list_singleton.
    + constructor; cbn; rewrite ?Es; [done| |by left| |done].
      * intros k m [= -> ->]%elem_of_list_singleton. split; [done|by exists a].
      * by intros r [=]%elem_of_list_singleton.
  - unfold on_node_removed in H. destruct (g_state g) as [p| |acked|a|a w] eqn:Es; injection H as <- <-;
      (apply says_silent; [done|by cbn; rewrite ?Es| | |done]); try apply silent_nil; (case_decide; [apply silent_create|apply silent_nil]).
  - unfold on_request_lease in H. destruct (is_running (g_state g)).
    + unfold begin_stopping in H. destruct (get_actor (g_state g)); injection H as <- <-;
        (apply says_silent; [done|done| | |done]); try apply silent_nil; apply silent_cons; try (by apply silent_notify);
        split; intros; by intros [=]%elem_of_list_singleton.
    + unfold grant_lease in H. destruct (g_state g) as [p| |acked|a|a w] eqn:Es; injection H as <- <-;
        (apply says_silent; [done|by cbn; rewrite ?Es| | |done]); try apply silent_nil; by apply silent_notify1.
  - unfold on_lease_ack in H. destruct (g_state g) as [p| |acked|a|a w] eqn:Es; injection H as <- <-;
      (apply says_silent; [done|by cbn; rewrite ?Es| | |done]); try apply silent_nil; (case_decide; [apply silent_create|apply silent_nil]).
  - injection H as <- <-. constructor; [done| |by left| |done].
    + by intros k m [=]%elem_of_list_singleton.
    + intros r [= ->]%elem_of_list_singleton. right. by exists n.
  - injection H as <- <-. apply says_silent; [done|done| | |done]; intros; by intros [=]%elem_of_list_singleton.
  - unfold on_start_result in H. destruct r as [a|]; injection H as <- <-.
    + constructor; [done| | | |].
      * intros k m [[=]|Hk]%elem_of_cons. apply in_notify in Hk as [= ->]. split; [done|by exists a].
      * intros b [= ->]. by right.
      * intros r [[= ->]|Hk]%elem_of_cons; [left; by exists a|]. by apply no_proxy_notify in Hk.
      * intros b [= ->]. by left.
    + apply says_silent; [done|done|apply silent_nil|apply silent_nil|done].
  - unfold on_child_stopped in H. destruct (g_state g) as [p| |acked|a|a w] eqn:Es;
      [injection H as <- <-; apply says_silent; [done|by rewrite ?Es|apply silent_nil|apply silent_nil|done]..|].
    unfold grant_lease in H. rewrite Es in H. injection H as <- <-. apply says_silent; [done|done| | |done]; by apply silent_notify1.
Qed.

(** ** The cluster *)
(** The actor [a] was created on node [n]. *)
Definition created_at (ns : list N) (l : list sop) (n a : N) : Prop :=
  exists l1 l2 y1, l = l1 ++ YCreate n true :: l2 /\ srun includes (new_sys ns) l1 = Some y1 /\ y_next y1 = a.
(** The proxy of node [m] was told that the singleton runs there. *)
Definition ran y (m : N) : Prop := exists x a, y_nodes y !! m = Some x /\ Some (RLocal a) ∈ n_proxy x.

Record tinv (ns : list N) (l : list sop) y : Prop := TInv {
  tv_node n x : y_nodes y !! n = Some x -> g_node (n_mgr x) = n;
  tv_result n x a : y_nodes y !! n = Some x -> Some a ∈ n_results x -> created_at ns l n a;
  tv_runs n x a : y_nodes y !! n = Some x -> g_state (n_mgr x) = SRunning a -> Some (RLocal a) ∈ n_proxy x;
  tv_local n x a : y_nodes y !! n = Some x -> Some (RLocal a) ∈ n_proxy x -> created_at ns l n a;
  tv_net n m : (n, QStarted m) ∈ y_net y -> ran y m;
  tv_remote n x m : y_nodes y !! n = Some x -> Some (RRemote m) ∈ n_proxy x -> ran y m
}.

Lemma created_snoc ns l o n a : created_at ns l n a -> created_at ns (l ++ [o]) n a.
Proof. intros (l1 & l2 & y1 & -> & H). exists l1, (l2 ++ [o]), y1. by rewrite <- app_assoc. Qed.

Lemma in_proxied r eff : Some r ∈ proxied eff <-> FProxyStarted r ∈ eff.
Proof.
  unfold proxied. rewrite elem_of_list_omap. split.
  - intros (e & He & Hr). destruct e; simplify_eq; done.
  - intros H. by exists (FProxyStarted r).
Qed.
Lemma in_packets n m eff : (n, m) ∈ packets eff <-> FSend n m ∈ eff.
Proof.
  unfold packets. rewrite elem_of_list_omap. split.
  - intros (e & He & Hr). destruct e; simplify_eq; done.
  - intros H. by exists (FSend n m).
Qed.

(** A node handles an input; [x] is what the node was but for the results, [net] what the network was but for a packet. *)
Lemma tinv_handle ns l o y n x0 x i x' out net : tinv ns l y -> y_nodes y !! n = Some x0 ->
  n_mgr x = n_mgr x0 -> n_proxy x = n_proxy x0 -> (forall a, Some a ∈ n_results x -> Some a ∈ n_results x0) ->
  (forall p, p ∈ net -> p ∈ y_net y) ->
  (forall a, i = IResult (Some a) -> Some a ∈ n_results x0) -> (forall m, i = IMsg (QStarted m) -> (n, QStarted m) ∈ y_net y) ->
  handle includes x i = (x', out) -> tinv ns (l ++ [o]) (SSys (<[n := x']> (y_nodes y)) (net ++ out) (y_next y)).
Proof.
  intros [T1 T2 T3 T4 T5 T6] Hx Em Ep Er En Hi Hm H. unfold handle in H. destruct (mstep includes (n_mgr x) i) as [g' eff] eqn:E.
  injection H as <- <-. rewrite Em in E. apply mstep_says in E as [S1 S2 S3 S4 S5].
  assert (Hran : forall m, ran y m -> ran (SSys (<[n := SNode g' (n_tasks x + creates eff) (n_results x) (n_live x) (n_proxy x ++ proxied eff)]> (y_nodes y)) (net ++ packets eff) (y_next y)) m).
  { intros m (xm & a & Hxm & Ha). unfold ran. cbn. destruct (decide (n = m)) as [<-|Hne].
    - rewrite Hx in Hxm. injection Hxm as <-. eexists _, a. split; [apply lookup_insert|]. cbn. apply elem_of_app. left. by rewrite Ep.
    - exists xm, a. by rewrite lookup_insert_ne. }
  assert (Hown : forall a, g_state g' = SRunning a -> Some (RLocal a) ∈ n_proxy x ++ proxied eff).
  { intros a Ha. apply elem_of_app. destruct (S3 a Ha) as [Hs| ->]; [left; rewrite Ep; by eapply T3|]. right. apply in_proxied. by apply S5. }
  constructor; cbn.
  - intros k z Hz. destruct (decide (n = k)) as [<-|Hne].
    + rewrite lookup_insert in Hz. injection Hz as <-. cbn. rewrite S1. by apply T1.
    + rewrite lookup_insert_ne in Hz by done. by apply T1.
  - intros k z a Hz Ha. apply created_snoc. destruct (decide (n = k)) as [<-|Hne].
    + rewrite lookup_insert in Hz. injection Hz as <-. cbn in Ha. eapply T2; [exact Hx|by apply Er].
    + rewrite lookup_insert_ne in Hz by done. by eapply T2.
  - intros k z a Hz Ha. destruct (decide (n = k)) as [<-|Hne].
    + rewrite lookup_insert in Hz. injection Hz as <-. by apply Hown.
    + rewrite lookup_insert_ne in Hz by done. by eapply T3.
  - intros k z a Hz Ha. apply created_snoc. destruct (decide (n = k)) as [<-|Hne].
    + rewrite lookup_insert in Hz. injection Hz as <-. cbn in Ha. apply elem_of_app in Ha as [Ha|Ha].
      * rewrite Ep in Ha. by eapply T4.
      * apply in_proxied in Ha. destruct (S4 _ Ha) as [(b & -> & [= <-])|(m & _ & [=])]. eapply T2; [exact Hx|by apply Hi].
    + rewrite lookup_insert_ne in Hz by done. by eapply T4.
  - intros k m Hk. apply elem_of_app in Hk as [Hk|Hk]; [apply Hran; eapply T5, En, Hk|].
    apply in_packets in Hk. destruct (S2 _ _ Hk) as [-> [a Ha]]. rewrite (T1 _ _ Hx). eexists _, a. split; [apply lookup_insert|]. by apply Hown.
  - intros k z m Hz Ha. apply Hran. destruct (decide (n = k)) as [<-|Hne].
    + rewrite lookup_insert in Hz. injection Hz as <-. cbn in Ha. apply elem_of_app in Ha as [Ha|Ha].
      * rewrite Ep in Ha. by eapply T6.
      * apply in_proxied in Ha. destruct (S4 _ Ha) as [(b & _ & [=])|(q & -> & [= <-])]. eapply T5. by apply Hm.
    + rewrite lookup_insert_ne in Hz by done. by eapply T6.
Qed.

(** A node changes otherwise: its manager and its proxy do not. *)
Lemma tinv_other ns l o y n x x' net next : tinv ns l y -> y_nodes y !! n = Some x -> n_mgr x' = n_mgr x -> n_proxy x' = n_proxy x ->
  (forall a, Some a ∈ n_results x' -> created_at ns (l ++ [o]) n a) -> (forall p, p ∈ net -> p ∈ y_net y) ->
  tinv ns (l ++ [o]) (SSys (<[n := x']> (y_nodes y)) net next).
Proof.
  intros [T1 T2 T3 T4 T5 T6] Hx Em Ep Er En.
  assert (Hran : forall m, ran y m -> ran (SSys (<[n := x']> (y_nodes y)) net next) m).
  { intros m (xm & a & Hxm & Ha). unfold ran. cbn. destruct (decide (n = m)) as [<-|Hne].
    - rewrite Hx in Hxm. injection Hxm as <-. eexists _, a. split; [apply lookup_insert|]. by rewrite Ep.
    - exists xm, a. by rewrite lookup_insert_ne. }
  assert (Hat : forall k z, <[n := x']> (y_nodes y) !! k = Some z -> exists z0, y_nodes y !! k = Some z0 /\ n_mgr z = n_mgr z0 /\ n_proxy z = n_proxy z0 /\
    (forall a, Some a ∈ n_results z -> created_at ns (l ++ [o]) k a)).
  { intros k z Hz. destruct (decide (n = k)) as [<-|Hne].
    - rewrite lookup_insert in Hz. injection Hz as <-. by exists x.
    - rewrite lookup_insert_ne in Hz by done. exists z. split_and!; [done..|]. intros a Ha. apply created_snoc. by eapply T2. }
  constructor; cbn.
  - intros k z Hz. apply Hat in Hz as (z0 & Hz & E1 & _). rewrite E1. by apply T1.
  - intros k z a Hz. apply Hat in Hz as (z0 & Hz & _ & _ & E). apply E.
  - intros k z a Hz. apply Hat in Hz as (z0 & Hz & E1 & E2 & _). rewrite E1, E2. by eapply T3.
  - intros k z a Hz. apply Hat in Hz as (z0 & Hz & E1 & E2 & _). rewrite E2. intros Ha. apply created_snoc. by eapply T4.
  - intros k m Hk. apply Hran. by eapply T5, En.
  - intros k z m Hz. apply Hat in Hz as (z0 & Hz & E1 & E2 & _). rewrite E2. intros Ha. apply Hran. by eapply T6.
Qed.

Lemma srun_snoc y l o y' : srun includes y (l ++ [o]) = Some y' -> exists y1, srun includes y l = Some y1 /\ sstep includes y1 o = Some y'.
Proof.
  revert y. induction l as [|p l IH]; intros y; cbn [app srun].
  - destruct (sstep includes y o) as [y2|] eqn:E; cbn [mbind option_bind]; [|done]. intros [= <-]. by exists y.
  - destruct (sstep includes y p) as [y2|]; cbn [mbind option_bind]; [|done]. apply IH.
Qed.

Lemma tinv_run ns l y : srun includes (new_sys ns) l = Some y -> tinv ns l y.
Proof.
  revert y. induction l as [|o l IH] using rev_ind; intros y Hrun.
  { injection Hrun as <-.
    assert (Hnew : forall n x, y_nodes (new_sys ns) !! n = Some x -> x = new_node n).
    { intros n x H. apply elem_of_list_to_map_2 in H. apply elem_of_list_fmap in H as (k & [= -> ->] & _). done. }
    constructor; try (intros n x H; apply Hnew in H as ->; done); try (intros n x a H; apply Hnew in H as ->; cbn; by intros ?%elem_of_nil || done).
    intros n m H. by apply elem_of_nil in H. }
  apply srun_snoc in Hrun as (y1 & Hrun & Ho). specialize (IH y1 Hrun). destruct o as [n i|k|k|n ok|n k|n a]; cbn [sstep] in Ho.
  - destruct (y_nodes y1 !! n) as [x|] eqn:Hx; cbn [mbind option_bind] in Ho; [|done]. destruct (is_event i) eqn:Ei; [|done].
    destruct (handle includes x i) as [x' out] eqn:Hh. injection Ho as <-.
    eapply tinv_handle; [done|exact Hx|done|done|done|done| | |exact Hh]; intros ? ->; done.
  - destruct (y_net y1 !! k) as [[n m]|] eqn:Hk; cbn [mbind option_bind] in Ho; [|done].
    assert (Hd : forall p, p ∈ delete k (y_net y1) -> p ∈ y_net y1).
    { intros p Hp. by eapply (sublist_delete k), elem_of_submseteq in Hp || (eapply elem_of_submseteq; [exact Hp|]; apply sublist_submseteq, sublist_delete). }
    cbn [fst snd] in Ho. destruct (y_nodes y1 !! n) as [x|] eqn:Hx.
    + destruct (handle includes x (IMsg m)) as [x' out] eqn:Hh. injection Ho as <-.
      eapply tinv_handle; [done|exact Hx|done|done|done|exact Hd| | |exact Hh]; [done|]. intros q [= ->]. by eapply elem_of_list_lookup_2.
    + injection Ho as <-. destruct IH as [T1 T2 T3 T4 T5 T6]. constructor; cbn; try done.
      * intros n' x a H1 H2. apply created_snoc. by eapply T2.
      * intros n' x a H1 H2. apply created_snoc. by eapply T4.
      * intros n' q Hq. by eapply T5, Hd.
  - destruct (y_net y1 !! k) as [p|] eqn:Hk; cbn [mbind option_bind] in Ho; [|done]. injection Ho as <-.
    destruct IH as [T1 T2 T3 T4 T5 T6]. constructor; cbn; try done.
    + intros n' x a H1 H2. apply created_snoc. by eapply T2.
    + intros n' x a H1 H2. apply created_snoc. by eapply T4.
    + intros n' q Hq. eapply T5, elem_of_submseteq; [exact Hq|]. apply sublist_submseteq, sublist_delete.
  - destruct (y_nodes y1 !! n) as [x|] eqn:Hx; cbn [mbind option_bind] in Ho; [|done]. destruct (n_tasks x) as [|t]; [done|].
    injection Ho as <-. destruct ok.
    + eapply tinv_other; [done|exact Hx|done|done| |done]. cbn. intros a [Ha|Ha]%elem_of_app.
      * apply created_snoc. by eapply (tv_result _ _ _ IH).
      * apply elem_of_list_singleton in Ha as [= ->]. by exists l, [], y1.
    + eapply tinv_other; [done|exact Hx|done|done| |done]. cbn. intros a [Ha|Ha]%elem_of_app.
      * apply created_snoc. by eapply (tv_result _ _ _ IH).
      * by apply elem_of_list_singleton in Ha.
  - destruct (y_nodes y1 !! n) as [x|] eqn:Hx; cbn [mbind option_bind] in Ho; [|done].
    destruct (n_results x !! k) as [r|] eqn:Hr; cbn [mbind option_bind] in Ho; [|done].
    destruct (handle _ _ _) as [x' out] eqn:Hh in Ho. injection Ho as <-.
    eapply tinv_handle; [done|exact Hx| | | | | | |exact Hh]; [done|done| |done| |done].
    + cbn. intros a Ha. eapply elem_of_submseteq; [exact Ha|]. apply sublist_submseteq, sublist_delete.
    + intros a [= ->]. by eapply elem_of_list_lookup_2.
  - destruct (y_nodes y1 !! n) as [x|] eqn:Hx; cbn [mbind option_bind] in Ho; [|done]. case_decide; [|done]. injection Ho as <-.
    eapply tinv_other; [done|exact Hx|done|done| |done]. cbn. intros b Hb. apply created_snoc. by eapply (tv_result _ _ _ IH).
Qed.
End told.
