(** Property C56: what the proxies of a cluster are told of the singleton. *)
From Verif Require Import Singleton_Model Singleton_Spec Singleton_Proxy Singleton_Told Singleton_Everyone.
Local Open Scope list_scope.
Local Open Scope N_scope.

(** In every run of a cluster, an actor a proxy was told to run on its own node was created
    there, and a node it was told the singleton runs on did create it. *)
Theorem C56_told_true includes ns l y n x :
  srun includes (new_sys ns) l = Some y -> y_nodes y !! n = Some x ->
  (forall a, Some (RLocal a) ∈ n_proxy x -> exists l1 l2 y1,
    l = l1 ++ YCreate n true :: l2 /\ srun includes (new_sys ns) l1 = Some y1 /\ y_next y1 = a) /\
  (forall m, Some (RRemote m) ∈ n_proxy x -> exists l1 l2, l = l1 ++ YCreate m true :: l2).
Proof.
  intros Hrun Hx. apply tinv_run in Hrun as T. split.
  - intros a Ha. exact (tv_local _ _ _ _ T n x a Hx Ha).
  - intros m Hm. destruct (tv_remote _ _ _ _ T n x m Hx Hm) as (z & a & Hz & Ha).
    destruct (tv_local _ _ _ _ T m z a Hz Ha) as (l1 & l2 & y1 & -> & _). by exists l1, l2.
Qed.
Print Assumptions C56_told_true.

(** A manager that takes the singleton to run has told the proxy of its node so. *)
Theorem C56_told_own includes ns l y n x a :
  srun includes (new_sys ns) l = Some y -> y_nodes y !! n = Some x -> g_state (n_mgr x) = SRunning a ->
  Some (RLocal a) ∈ n_proxy x.
Proof. intros Hrun. apply tinv_run in Hrun as T. exact (tv_runs _ _ _ _ T n x a). Qed.
Print Assumptions C56_told_own.

(** A node that learns where the singleton starts or stops tells its proxy at once, and
    nothing else makes it speak of another node. *)
Theorem C56_told_others includes y o y' n x x' :
  sstep includes y o = Some y' -> y_nodes y !! n = Some x -> y_nodes y' !! n = Some x' ->
  forall m, (exists new, n_proxy x' = n_proxy x ++ new /\ Some (RRemote m) ∈ new) <->
    (exists k, o = YDeliver k /\ y_net y !! k = Some (n, QStarted m)).
Proof.
  intros Ho Hx Hx' m. split.
  - intros (new & Hnew & Hm).
    assert (Hout : forall z i z' out, handle includes z i = (z', out) -> n_proxy z = n_proxy x -> n_proxy z' = n_proxy x' -> i = IMsg (QStarted m)).
    { intros z i z' out H Ep Ep'. unfold handle in H. destruct (mstep includes (n_mgr z) i) as [g eff] eqn:E. injection H as <- <-.
      cbn in Ep'. rewrite Ep, Hnew in Ep'. apply (inj (app (n_proxy x))) in Ep'. subst new.
      apply in_proxied in Hm. apply mstep_says in E as [_ _ _ S _]. destruct (S _ Hm) as [(a & _ & [=])|(q & -> & [= <-])]. done. }
    assert (Hsame : n_proxy x' = n_proxy x -> False).
    { intros E. rewrite E in Hnew. rewrite <- (app_nil_r (n_proxy x)) in Hnew at 1. apply (inj (app (n_proxy x))) in Hnew. subst new. by apply elem_of_nil in Hm. }
    destruct o as [k i|k|k|k ok|k j|k a]; cbn [sstep] in Ho.
    + destruct (y_nodes y !! k) as [z|] eqn:Hz; cbn [mbind option_bind] in Ho; [|done]. destruct (is_event i) eqn:Ei; [|done].
      destruct (handle includes z i) as [z' out] eqn:Hh. injection Ho as <-. cbn in Hx'. destruct (decide (k = n)) as [->|Hne].
      * rewrite lookup_insert in Hx'. rewrite Hx in Hz. simplify_eq. by apply Hout in Hh as ->.
      * rewrite lookup_insert_ne in Hx' by done. rewrite Hx in Hx'. destruct Hsame. congruence.
    + destruct (y_net y !! k) as [[q msg]|] eqn:Hk; cbn [mbind option_bind] in Ho; [|done]. cbn [fst snd] in Ho. exists k. split; [done|].
      destruct (y_nodes y !! q) as [z|] eqn:Hz.
      * destruct (handle includes z (IMsg msg)) as [z' out] eqn:Hh. injection Ho as <-. cbn in Hx'. destruct (decide (q = n)) as [->|Hne].
        -- rewrite lookup_insert in Hx'. rewrite Hx in Hz. simplify_eq. apply Hout in Hh; [|done..]. by injection Hh as ->.
        -- rewrite lookup_insert_ne in Hx' by done. rewrite Hx in Hx'. destruct Hsame. congruence.
      * injection Ho as <-. cbn in Hx'. rewrite Hx in Hx'. destruct Hsame. congruence.
    + destruct (y_net y !! k) as [p|]; cbn [mbind option_bind] in Ho; [|done]. injection Ho as <-. cbn in Hx'. rewrite Hx in Hx'. destruct Hsame. congruence.
    + destruct (y_nodes y !! k) as [z|] eqn:Hz; cbn [mbind option_bind] in Ho; [|done]. destruct (n_tasks z) as [|t]; [done|].
      destruct Hsame. injection Ho as <-. destruct ok; cbn in Hx'; (destruct (decide (k = n)) as [->|Hne];
        [rewrite lookup_insert in Hx'; rewrite Hx in Hz; by simplify_eq|rewrite lookup_insert_ne in Hx' by done; rewrite Hx in Hx'; by simplify_eq]).
    + destruct (y_nodes y !! k) as [z|] eqn:Hz; cbn [mbind option_bind] in Ho; [|done].
      destruct (n_results z !! j) as [r|]; cbn [mbind option_bind] in Ho; [|done].
      destruct (handle _ _ _) as [z' out] eqn:Hh in Ho. injection Ho as <-. cbn in Hx'. destruct (decide (k = n)) as [->|Hne].
      * rewrite lookup_insert in Hx'. rewrite Hx in Hz. simplify_eq. by apply Hout in Hh.
      * rewrite lookup_insert_ne in Hx' by done. rewrite Hx in Hx'. destruct Hsame. congruence.
    + destruct (y_nodes y !! k) as [z|] eqn:Hz; cbn [mbind option_bind] in Ho; [|done]. case_decide; [|done]. injection Ho as <-. cbn in Hx'.
      destruct Hsame. destruct (decide (k = n)) as [->|Hne];
        [rewrite lookup_insert in Hx'; rewrite Hx in Hz; by simplify_eq|rewrite lookup_insert_ne in Hx' by done; rewrite Hx in Hx'; by simplify_eq].
  - intros (k & -> & Hk). cbn [sstep] in Ho. rewrite Hk in Ho. cbn [mbind option_bind fst snd] in Ho. rewrite Hx in Ho. cbn in Ho.
    injection Ho as <-. cbn in Hx'. rewrite lookup_insert in Hx'. injection Hx' as <-. cbn. eexists. split; [done|]. by apply elem_of_list_singleton.
Qed.
Print Assumptions C56_told_others.

(** If no packet is lost and none is under way, the proxy of every node that a running node
    knows has been told that the singleton runs there. A packet counts as lost if the sender
    gives up writing it. *)
Theorem C56_told_everyone_partial includes ns l y n x a m z :
  srun includes (new_sys ns) l = Some y -> (forall k, YLose k ∉ l) -> y_net y = [] ->
  y_nodes y !! n = Some x -> g_state (n_mgr x) = SRunning a ->
  m ∈ g_managers (n_mgr x) -> y_nodes y !! m = Some z ->
  Some (RRemote n) ∈ n_proxy z.
Proof.
  intros Hrun Hl Hnet Hx Hs Hm Hz. apply soon_run in Hrun.
  - destruct (Hrun n x a m z Hx Hs Hm Hz) as [Hp|Hp]; [|done]. rewrite Hnet in Hp. by apply elem_of_nil in Hp.
  - apply Forall_forall. intros o Ho. destruct o; try done. by destruct (Hl k).
Qed.
Print Assumptions C56_told_everyone_partial.

(** Node 1 leads two nodes and starts the singleton: node 2 acknowledges and is told. *)
Example C56_told_case :
  let l := [YEvent 2 (IMemberUp 1 [1; 2]); YEvent 1 (IMemberUp 1 [1; 2]); YDeliver 0; YDeliver 0;
            YCreate 1 true; YResult 1 0; YDeliver 0] in
  (fun y => (y_net y, (fun kx => (kx.1, g_state (n_mgr kx.2), n_proxy kx.2, elements (g_managers (n_mgr kx.2)))) <$> map_to_list (y_nodes y))) <$> srun (fun _ => true) (new_sys [1; 2]) l =
  Some ([], [(1, SRunning 0, [Some (RLocal 0)], [2]); (2, SIdle, [Some (RRemote 1)], [1])]).
Proof. by vm_compute. Qed.

(** The word that the singleton stops on node 1, which is then removed, reaches node 3 after
    the word that it runs on node 2. Nothing is under way any more, the singleton runs on
    node 2, and the proxy of node 3 takes it for stopped: it keeps what it is sent. *)
Theorem C56_late_stop_refuted :
  let l := [YEvent 2 (IMemberUp 1 [1; 2; 3]); YEvent 3 (IMemberUp 1 [1; 2; 3]); YEvent 1 (IMemberUp 1 [1; 2; 3]);
            YDeliver 0; YDeliver 0; YDeliver 0; YDeliver 0; YCreate 1 true; YResult 1 0; YDeliver 0; YDeliver 0;
            YEvent 2 (ILeader 2); YDeliver 0; YStopped 1 0; YDeliver 0; YDeliver 1; YDeliver 1;
            YEvent 2 (IRemoved 1); YEvent 3 (IRemoved 1); YCreate 2 true; YResult 2 0; YDeliver 1; YDeliver 0] in
  (fun y => (y_net y, (fun kx => (kx.1, n_tasks kx.2, n_results kx.2, n_live kx.2, n_proxy kx.2)) <$> map_to_list (y_nodes y))) <$>
    srun (fun _ => true) (new_sys [1; 2; 3]) l =
  Some ([], [(1, 0%nat, [], [], [Some (RLocal 0)]);
             (3, 0%nat, [], [], [Some (RRemote 1); Some (RRemote 2); None]);
             (2, 0%nat, [], [1], [Some (RRemote 1); None; Some (RLocal 1)])]).
Proof. by vm_compute. Qed.
Print Assumptions C56_late_stop_refuted.

(** What a proxy handled that came from its manager. *)
Definition words {R A} (l : list (pxop (R := R) A)) : list (option sref) :=
  omap (fun o => match o with VInput (XStarted r) => Some (Some r) | VInput XStopping => Some None | _ => None end) l.

Lemma handed_told {R A} (l : list (pxop (R := R) A)) :
  (forall x r, (x, r) ∈ v_tasks (pxrun l) ++ v_got (pxrun l) -> Some r ∈ words l) /\
  (forall r, v_state (pxrun l) = Some (XActive r) -> Some r ∈ words l).
Proof.
  induction l as [|o l [IH1 IH2]] using rev_ind.
  { split; [intros x r H; by apply elem_of_nil in H|done]. }
  rewrite pxrun_snoc. unfold words. rewrite omap_app. fold (words l).
  assert (Hw : forall r w, Some r ∈ words l -> Some r ∈ words l ++ w) by (intros; apply elem_of_app; by left).
  assert (Hold : forall t x r, (x, r) ∈ (v_tasks (pxrun l) ++ t) ++ v_got (pxrun l) -> (x, r) ∈ t \/ Some r ∈ words l).
  { intros t x r Hin. rewrite !elem_of_app in Hin. destruct Hin as [[H|H]|H]; [right; apply (IH1 x); apply elem_of_app; by left|by left|right; apply (IH1 x); apply elem_of_app; by right]. }
  destruct o as [i|k a]; cbn [pxsys_step].
  - destruct (v_state (pxrun l)) as [s|] eqn:Es.
    2: { cbn. split; [intros x r Hin; apply Hw, (IH1 x); done|done]. }
    destruct (pxstep s i) as [s' out] eqn:Ep. cbn [v_tasks v_got v_state].
    assert (Hout : (forall x r, (x, r) ∈ out -> Some r ∈ words l ++ omap (fun o => match o with VInput (XStarted r) => Some (Some r) | VInput XStopping => Some None | _ => None end) [@VInput R A i])
      /\ (forall r, s' = Some (XActive r) -> Some r ∈ words l ++ omap (fun o => match o with VInput (XStarted r) => Some (Some r) | VInput XStopping => Some None | _ => None end) [@VInput R A i])).
    { destruct i as [q b|r0|], s as [qu|r1]; cbn [pxstep] in Ep.
      - destruct b; injection Ep as <- <-; (split; [intros x r H; by apply elem_of_nil in H|done]).
      - destruct b; injection Ep as <- <-.
        + split; [intros x r [= -> ->]%elem_of_list_singleton; apply Hw; by apply IH2|intros r [= <-]; apply Hw; by apply IH2].
        + split; [intros x r H; by apply elem_of_nil in H|done].
      - destruct (drain qu) as [dl ok]. injection Ep as <- <-. split.
        + intros x r (y & [= -> ->] & _)%elem_of_list_fmap. apply elem_of_app. right. by apply elem_of_list_singleton.
        + destruct ok; [|done]. intros r [= <-]. apply elem_of_app. right. by apply elem_of_list_singleton.
      - injection Ep as <- <-. split; [intros x r H; by apply elem_of_nil in H|].
        intros r [= <-]. apply elem_of_app. right. by apply elem_of_list_singleton.
      - injection Ep as <- <-. split; [intros x r H; by apply elem_of_nil in H|done].
      - injection Ep as <- <-. split; [intros x r H; by apply elem_of_nil in H|done]. }
    destruct Hout as [Ho1 Ho2]. split; [|exact Ho2].
    intros x r Hin. destruct (Hold _ _ _ Hin) as [H|H]; [by apply (Ho1 x)|by apply Hw].
  - cbn. rewrite app_nil_r. destruct (v_tasks (pxrun l) !! k) as [[x0 r0]|] eqn:Hk; [|by split].
    cbn [v_tasks v_got v_state]. split; [|exact IH2].
    intros x r Hin. apply (IH1 x). apply elem_of_app. apply elem_of_app in Hin as [H|[H|H]%elem_of_app]; [|by right|].
    + left. eapply elem_of_submseteq; [exact H|]. apply sublist_submseteq, sublist_delete.
    + apply elem_of_list_singleton in H as [= -> ->]. left. by eapply elem_of_list_lookup_2.
Qed.

(** A request that goes through the proxy of a node of a cluster goes to an actor that was
    created on that node or to a node that created the singleton, whenever the proxy handles
    what its manager tells it. *)
Theorem C56_reached {R A} includes ns l y n x (p : list (pxop (R := R) A)) q r :
  srun includes (new_sys ns) l = Some y -> y_nodes y !! n = Some x -> words p `prefix_of` n_proxy x ->
  (q, r) ∈ v_tasks (pxrun p) ++ v_got (pxrun p) ->
  exists l1 l2 y1, srun includes (new_sys ns) l1 = Some y1 /\
    match r with
    | RLocal a => l = l1 ++ YCreate n true :: l2 /\ y_next y1 = a
    | RRemote m => l = l1 ++ YCreate m true :: l2
    end.
Proof.
  intros Hrun Hx [w Hw] Hq. apply (proj1 (handed_told p)) in Hq.
  assert (Hin : Some r ∈ n_proxy x) by (rewrite Hw; apply elem_of_app; by left).
  apply tinv_run in Hrun as T. destruct r as [a|m].
  - destruct (tv_local _ _ _ _ T n x a Hx Hin) as (l1 & l2 & y1 & H1 & H2 & H3). by exists l1, l2, y1.
  - destruct (tv_remote _ _ _ _ T n x m Hx Hin) as (z & a & Hz & Ha).
    destruct (tv_local _ _ _ _ T m z a Hz Ha) as (l1 & l2 & y1 & H1 & H2 & H3). by exists l1, l2, y1.
Qed.
Print Assumptions C56_reached.
(** The proxy of node 2 of the case above. *)
Example C56_reached_case :
  let p := [VInput (XDeliver 5 true); VInput (XStarted (RRemote 1)); VRun 0 6] in
  (words p, v_got (pxrun p)) = ([Some (RRemote 1)], [(5, RRemote 1)]).
Proof. by vm_compute. Qed.

(** That a node is gone is not told to the proxies, whatever the state: a proxy goes on
    sending to the node it was told of. *)
Theorem C56_removed_refuted includes y n m y' x x' :
  sstep includes y (YEvent n (IRemoved m)) = Some y' -> y_nodes y !! n = Some x -> y_nodes y' !! n = Some x' ->
  n_proxy x' = n_proxy x.
Proof.
  intros Ho Hx Hx'. cbn [sstep] in Ho. rewrite Hx in Ho. cbn [mbind option_bind is_event] in Ho.
  unfold handle in Ho. cbn [mstep] in Ho. unfold on_node_removed in Ho.
  destruct (g_state (n_mgr x)); [..|]; cbn in Ho; injection Ho as <-; cbn in Hx'; rewrite lookup_insert in Hx'; injection Hx' as <-; cbn;
    try (by rewrite app_nil_r).
  case_decide; cbn; by rewrite app_nil_r.
Qed.
Print Assumptions C56_removed_refuted.
(** Node 1, which runs the singleton, goes; a request made on node 2 is sent to node 1. *)
Example C56_removed_case :
  let l := [YEvent 2 (IMemberUp 1 [1; 2]); YEvent 1 (IMemberUp 1 [1; 2]); YDeliver 0; YDeliver 0;
            YCreate 1 true; YResult 1 0; YDeliver 0; YEvent 2 (IRemoved 1)] in
  let p := [VInput (XStarted (RRemote 1)); VInput (XDeliver 5 true)] : list (pxop N) in
  (n_proxy <$> (srun (fun _ => true) (new_sys [1; 2]) l ≫= fun y => y_nodes y !! 2), v_tasks (pxrun p)) =
  (Some (words p), [(5, RRemote 1)]).
Proof. by vm_compute. Qed.

(** The same on the node that runs the singleton: a late word of a stop elsewhere makes its
    proxy keep what it is sent, and until the singleton starts again nothing tells it better:
    all it is told by the events of the cluster and by other nodes that do not start it is to
    stop. *)
Definition starts_nothing (i : sinput) : Prop :=
  match i with IResult (Some _) | IMsg (QStarted _) => False | _ => True end.
Theorem C56_own_late_stop_refuted includes g a k l :
  g_state g = SRunning a -> Forall starts_nothing l ->
  let effs := (run (mstep includes) (mstep includes g (IMsg (QStopped k))).1 l).2 in
  g_state (mstep includes g (IMsg (QStopped k))).1 = SRunning a /\
  last (proxied (mstep includes g (IMsg (QStopped k))).2 ++ proxied (concat effs)) = Some None.
Proof.
  intros Hs Hl. cbv zeta. split; [exact Hs|].
  assert (Hno : forall g i g' eff, mstep includes g i = (g', eff) -> starts_nothing i -> Forall (fun w => w = None) (proxied eff)).
  { clear. intros g i g' eff E Hi. apply mstep_says in E as [_ _ _ S _]. apply Forall_forall. intros [r|] Hw; [|done].
    apply in_proxied in Hw. destruct (S _ Hw) as [(b & -> & _)|(m & -> & _)]; by destruct Hi. }
  assert (Hall : forall g', Forall (fun w => w = None) (proxied (concat (run (mstep includes) g' l).2))).
  { clear Hs. induction Hl as [|i l Hi _ IH]; intros g'; [apply Forall_nil; done|]. cbn [run].
    destruct (mstep includes g' i) as [g2 eff] eqn:E. specialize (IH g2). destruct (run (mstep includes) g2 l) as [g3 effs]. cbn in IH |- *.
    unfold proxied. rewrite omap_app. apply Forall_app. split; [by eapply Hno|exact IH]. }
  specialize (Hall (mstep includes g (IMsg (QStopped k))).1). cbn [mstep fst snd] in Hall |- *. cbn [proxied omap list_omap app].
  revert Hall. generalize (proxied (concat (run (mstep includes) g l).2)). intros w Hw.
  induction w as [|x w IH] using rev_ind; [done|]. apply Forall_app in Hw as [_ Hx]. inversion Hx; subst.
  rewrite app_comm_cons, last_snoc. done.
Qed.
Print Assumptions C56_own_late_stop_refuted.
Example C56_own_late_stop_case :
  let l := [YEvent 2 (IMemberUp 1 [1; 2; 3]); YEvent 3 (IMemberUp 1 [1; 2; 3]); YEvent 1 (IMemberUp 1 [1; 2; 3]);
            YDeliver 0; YDeliver 0; YDeliver 0; YDeliver 0; YCreate 1 true; YResult 1 0; YDeliver 0; YDeliver 0;
            YEvent 2 (ILeader 2); YDeliver 0; YStopped 1 0; YDeliver 0; YDeliver 2;
            YEvent 2 (IRemoved 1); YEvent 3 (IRemoved 1); YCreate 2 true; YResult 2 0; YDeliver 0; YDeliver 0; YDeliver 0] in
  (fun y => (y_net y, (fun kx => (kx.1, n_tasks kx.2, n_results kx.2, n_live kx.2, n_proxy kx.2)) <$> map_to_list (y_nodes y))) <$>
    srun (fun _ => true) (new_sys [1; 2; 3]) l =
  Some ([], [(1, 0%nat, [], [], [Some (RLocal 0)]);
             (3, 0%nat, [], [], [Some (RRemote 1); None; Some (RRemote 2)]);
             (2, 0%nat, [], [1], [Some (RRemote 1); Some (RLocal 1); None])]).
Proof. by vm_compute. Qed.
