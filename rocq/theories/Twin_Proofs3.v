(** Proofs about several singletons of one actor type: requests handled on the own node, after
    a stop, and a single kind. *)
From Verif Require Import Twin_Spec Twin_Proofs Twin_Proofs2.

Local Open Scope N_scope.

Section twin.
Variable includes : N -> bool.
Notation step := (tstep includes).
Notation trun := (trun includes).
Notation trun_ind := (trun_ind includes).
Notation step_moves := (step_moves includes).
Notation step_calls := (step_calls includes).
Notation step_log := (step_log includes).

(** ** References to another node lead to another node *)

Definition src_of (m : smsg) : N := match m with QRequest n | QAck n | QStarted n | QStopped n => n end.
Definition good_eff (n : N) (e : seffect) : Prop :=
  match e with
  | FSend to m => to <> n /\ src_of m = n
  | FProxyStarted (RRemote p) => p <> n
  | _ => True
  end.

Lemma good_notify_managers g m : g_node g ∉ g_managers g -> src_of m = g_node g ->
  Forall (good_eff (g_node g)) (notify_managers g m).
Proof.
  intros Hn Hm. apply Forall_forall. intros e He. unfold notify_managers in He.
  apply elem_of_list_fmap in He as (p & -> & Hp). apply elem_of_elements in Hp. cbn. split; [|done].
  intros ->. done.
Qed.
Lemma good_notify_manager g p m : g_node g ∉ g_managers g -> src_of m = g_node g ->
  Forall (good_eff (g_node g)) (notify_manager g p m).
Proof.
  intros Hn Hm. unfold notify_manager. destruct (decide _) as [Hp|]; [|apply Forall_nil; done].
  apply Forall_singleton. cbn. split; [|done]. intros ->. done.
Qed.
Lemma good_request g : g_node g ∉ g_managers g -> Forall (good_eff (g_node g)) (request_lease g).
Proof.
  intros Hn. unfold request_lease. destruct (decide _); [apply Forall_singleton; done|]. apply good_notify_managers; done.
Qed.

Lemma mstep_good g i g' eff : g_node g ∉ g_managers g -> (forall m, i = IMsg m -> src_of m <> g_node g) ->
  mstep includes g i = (g', eff) ->
  g_node g' = g_node g /\ g_node g ∉ g_managers g' /\ Forall (good_eff (g_node g)) eff.
Proof.
  intros Hn Hi Hs. destruct g as [n ms s]. cbn [g_node g_managers] in *.
  destruct i as [leader nodes|leader|m|m|m|r|]; cbn [mstep] in Hs.
  - unfold on_member_up, add_managers, set_managers, set_state, begin_starting in Hs. cbn [g_node g_managers g_state] in Hs.
    set (ms' := ms ∪ list_to_set (List.filter (fun m => negb (m =? n) && includes m) nodes)) in *.
    assert (Hms : n ∉ ms').
    { unfold ms'. intros [H|H]%elem_of_union; [done|]. apply elem_of_list_to_set, elem_of_list_In, filter_In in H as [_ H].
      rewrite N.eqb_refl in H. done. }
    assert (He : Forall (good_eff n) match s with SJoining (Some p) => notify_manager (Mgr n ms' s) p (QAck n) | _ => [] end).
    { destruct s as [[p|]| | | |]; try (apply Forall_nil; done). refine (good_notify_manager (Mgr n ms' _) p (QAck n) _ _); done. }
    cbn beta iota zeta in Hs.
    destruct (leader =? n).
    + injection Hs as <- <-. split; [done|]. split; [done|]. apply Forall_app. split; [exact He|].
      refine (good_request (Mgr n ms' _) _). done.
    + injection Hs as <- <-. split; [done|]. split; [done|]. exact He.
  - cbn [g_state] in Hs. destruct (is_joining s); [injection Hs as <- <-; split; [done|]; split; [done|apply Forall_nil; done]|].
    unfold on_leader_changed, begin_starting, set_state in Hs. cbn [g_node g_managers g_state] in Hs. destruct (_ && _).
    + injection Hs as <- <-. split; [done|]. split; [done|]. refine (good_request (Mgr n ms _) _). done.
    + injection Hs as <- <-. split; [done|]. split; [done|]. apply Forall_nil. done.
  - unfold on_node_added, set_managers in Hs. cbn [g_node g_managers g_state] in Hs.
    destruct (negb (m =? n) && includes m) eqn:E; [|injection Hs as <- <-; split; [done|]; split; [done|apply Forall_nil; done]].
    apply andb_prop in E as [E _]. apply negb_true_iff, N.eqb_neq in E.
    destruct (decide (m ∈ ms)); [injection Hs as <- <-; split; [done|]; split; [done|apply Forall_nil; done]|].
    injection Hs as <- <-. split; [done|]. cbn [g_managers]. split; [set_solver|].
    destruct s; try (apply Forall_nil; done); apply Forall_singleton; cbn; split; done.
  - unfold on_node_removed, set_managers, set_state in Hs. cbn [g_node g_managers g_state] in Hs.
    assert (Hms : n ∉ ms ∖ {[m]}) by set_solver.
    destruct s; injection Hs as <- <-; (split; [done|]; split; [done|]); try (apply Forall_nil; done).
    destruct (decide _); [apply Forall_singleton; done|apply Forall_nil; done].
  - pose proof (Hi m eq_refl) as Hsrc. destruct m as [p|p|p|p]; cbn [src_of] in Hsrc.
    + unfold on_request_lease in Hs. cbn [g_state] in Hs. destruct (is_running s).
      * unfold begin_stopping, set_state in Hs. cbn [g_state g_node g_managers] in Hs. destruct (get_actor s) as [a|].
        -- injection Hs as <- <-. split; [done|]. split; [done|]. apply Forall_cons. split; [done|].
           refine (good_notify_managers (Mgr n ms s) (QStopped n) _ _); done.
        -- injection Hs as <- <-. split; [done|]. split; [done|]. apply Forall_nil. done.
      * unfold grant_lease, set_state in Hs. cbn [g_state g_node g_managers] in Hs.
        destruct s; injection Hs as <- <-; (split; [done|]; split; [done|]); try (apply Forall_nil; done);
          (refine (good_notify_manager (Mgr n ms _) p (QAck n) _ _); done).
    + unfold on_lease_ack, set_state in Hs. cbn [g_state g_node g_managers] in Hs.
      destruct s; injection Hs as <- <-; (split; [done|]; split; [done|]); try (apply Forall_nil; done).
      destruct (decide _); [apply Forall_singleton; done|apply Forall_nil; done].
    + injection Hs as <- <-. split; [done|]. split; [done|]. apply Forall_singleton. done.
    + injection Hs as <- <-. split; [done|]. split; [done|]. apply Forall_singleton. done.
  - unfold on_start_result, set_state in Hs. cbn [g_node g_managers] in Hs. destruct r as [a|].
    + injection Hs as <- <-. split; [done|]. split; [done|]. apply Forall_cons. split; [done|].
      refine (good_notify_managers (Mgr n ms s) (QStarted n) _ _); done.
    + injection Hs as <- <-. split; [done|]. split; [done|]. apply Forall_nil. done.
  - unfold on_child_stopped, grant_lease, set_state in Hs. cbn [g_state g_node g_managers] in Hs.
    destruct s; injection Hs as <- <-; (split; [done|]; split; [done|]); try (apply Forall_nil; done).
    refine (good_notify_manager (Mgr n ms _) _ (QAck n) _ _); done.
Qed.

Definition box_far (n : N) (i : pxinput N) : Prop := match i with XStarted (RRemote p) => p <> n | _ => True end.
Definition ref_far (n : N) (r : sref) : Prop := match r with RRemote p => p <> n | RLocal _ => True end.
Definition slot_far (n : N) (x : tslot) : Prop :=
  g_node (t_mgr x) = n /\ n ∉ g_managers (t_mgr x) /\ Forall (box_far n) (t_box x) /\
  (forall r, t_px x = Some (XActive r) -> ref_far n r) /\
  Forall (fun qr => ref_far n qr.2) (t_todo x).

Lemma thandle_far n x i x' out : slot_far n x -> (forall m, i = IMsg m -> src_of m <> n) ->
  thandle includes x i = (x', out) ->
  slot_far n x' /\ Forall (fun p => src_of p.2 <> p.1) out.
Proof.
  intros (H1 & H2 & H3 & H4 & H5) Hi Hh. unfold thandle in Hh.
  destruct (mstep includes (t_mgr x) i) as [g eff] eqn:E. injection Hh as <- <-.
  rewrite <- H1 in H2, Hi. destruct (mstep_good (t_mgr x) i g eff H2 Hi E) as (G1 & G2 & G3). rewrite H1 in G1, G2, G3.
  split.
  - split; [done|]. split; [done|]. cbn [t_box t_px t_todo]. split; [|done]. apply Forall_app. split; [done|].
    apply Forall_forall. intros b Hb. unfold tells in Hb. apply elem_of_list_omap in Hb as (e & He & Eb).
    rewrite Forall_forall in G3. specialize (G3 e He). destruct e as [| | |r|]; try discriminate; injection Eb as <-; [|done].
    destruct r; done.
  - apply Forall_forall. intros p Hp. unfold packets in Hp. apply elem_of_list_omap in Hp as (e & He & Ep).
    rewrite Forall_forall in G3. specialize (G3 e He). destruct e as [to m| | | |]; try discriminate. injection Ep as <-.
    destruct G3 as [G3 G4]. cbn [fst snd]. congruence.
Qed.

Lemma drain_out (l : list (N * bool)) out ok r n : drain l = (out, ok) -> ref_far n r ->
  Forall (fun qr : N * sref => ref_far n qr.2) ((fun x => (x, r)) <$> out).
Proof. intros _ Hr. apply Forall_fmap, Forall_forall. intros x _. exact Hr. Qed.

Lemma pxstep_far n s i s' out : (forall r, s = XActive r -> ref_far n r) -> box_far n i ->
  pxstep (R := N) s i = (s', out) ->
  (forall r, s' = Some (XActive r) -> ref_far n r) /\ Forall (fun qr => ref_far n qr.2) out.
Proof.
  intros Hs Hi Hp. destruct i as [x b|r|], s as [l|r']; cbn [pxstep] in Hp.
  - assert (H' : (Some (XBuffered (l ++ [(x, b)])), []) = (s', out)) by (destruct b; exact Hp).
    injection H' as <- <-. split; [intros r; done|apply Forall_nil; done].
  - specialize (Hs r' eq_refl). destruct b; injection Hp as <- <-.
    + split; [intros r [= <-]; done|]. apply Forall_singleton. done.
    + split; [intros r; done|apply Forall_nil; done].
  - assert (Hr : ref_far n r) by (destruct r; done).
    destruct (drain l) as [o ok] eqn:E. injection Hp as <- <-. split; [|exact (drain_out l o ok r n E Hr)].
    intros r2 H2. destruct ok; [|done]. injection H2 as <-. done.
  - assert (Hr : ref_far n r) by (destruct r; done). injection Hp as <- <-. split; [|apply Forall_nil; done].
    intros r2 [= <-]. done.
  - injection Hp as <- <-. split; [intros r; done|apply Forall_nil; done].
  - injection Hp as <- <-. split; [intros r; done|apply Forall_nil; done].
Qed.

(** The messages between managers after a step. *)
Lemma step_net y o y' p : step y o = Some y' -> p ∈ t_net y' ->
  p ∈ t_net y \/ exists n k x i x' out, slot_of y n k = Some x /\
    (forall m, i = IMsg m -> exists j, t_net y !! j = Some (n, m)) /\ p ∈ out /\
    exists x0, t_mgr x0 = t_mgr x /\ thandle includes x0 i = (x', out).
Proof.
  intros Hs Hp. destruct o as [m k'|m k' i|j|j|m k' ok|m k' j|m k' a|m k' q b|m k'|m k' j|j|j]; cbn [tstep] in Hs;
    try (destruct (t_nodes y !! m) as [nd|] eqn:E; [|done]; cbn [mbind option_bind] in Hs);
    try (destruct (t_slots nd !! k') as [x|] eqn:Ex; [|done]; cbn [mbind option_bind] in Hs).
  - destruct (t_slots nd !! k'); [done|]. injection Hs as <-. left. done.
  - destruct (is_event i) eqn:Ei; [|done]. destruct (thandle _ _ _) as [x' out] eqn:Eh. injection Hs as <-.
    cbn [add_net t_net put_node] in Hp. apply elem_of_app in Hp as [Hp|Hp]; [left; done|]. right.
    exists m, k', x, i, x', out. rewrite (slot_of_node y m nd k' E). split; [done|]. split; [intros m' ->; done|]. split; [done|].
    exists x. done.
  - assert (Hdel : forall p, p ∈ delete j (t_net y) -> p ∈ t_net y).
    { intros p' Hp'. exact (elem_of_submseteq _ _ p' Hp' (sublist_submseteq _ _ (sublist_delete _ _))). }
    destruct (t_net y !! j) as [p1|] eqn:Ej; [|done]. cbn [mbind option_bind] in Hs.
    destruct (t_nodes y !! p1.1) as [nd|] eqn:E; cbn [mbind option_bind] in Hs; [|injection Hs as <-; left; apply Hdel; done].
    destruct (t_mreg nd) as [k'|] eqn:Em; cbn [mbind option_bind] in Hs; [|injection Hs as <-; left; apply Hdel; done].
    destruct (t_slots nd !! k') as [x|] eqn:Ex; cbn [mbind option_bind] in Hs; [|injection Hs as <-; left; apply Hdel; done].
    destruct (thandle _ _ _) as [x' out] eqn:Eh. injection Hs as <-.
    cbn [add_net t_net put_node del_net] in Hp. apply elem_of_app in Hp as [Hp|Hp]; [left; apply Hdel; done|]. right.
    exists p1.1, k', x, (IMsg p1.2), x', out. rewrite (slot_of_node y p1.1 nd k' E). split; [done|]. split.
    { intros m [= <-]. exists j. destruct p1. done. }
    split; [done|]. exists x. done.
  - destruct (t_net y !! j); [|done]. injection Hs as <-. left.
    exact (elem_of_submseteq _ _ p Hp (sublist_submseteq _ _ (sublist_delete _ _))).
  - destruct (t_tasks x); [done|]. injection Hs as <-. left. destruct ok; done.
  - destruct (t_results x !! j) as [r|]; [|done]. cbn [mbind option_bind] in Hs.
    destruct (thandle _ _ _) as [x' out] eqn:Eh. injection Hs as <-.
    cbn [add_net t_net put_node] in Hp. apply elem_of_app in Hp as [Hp|Hp]; [left; done|]. right.
    exists m, k', x, (IResult r), x', out. rewrite (slot_of_node y m nd k' E). split; [done|]. split; [done|]. split; [done|].
    eexists. split; [|exact Eh]. done.
  - destruct (decide _); [|done]. injection Hs as <-. left. done.
  - destruct (t_px x); injection Hs as <-; left; done.
  - destruct (t_px x); [|done]. cbn [mbind option_bind] in Hs. destruct (t_box x); [done|].
    destruct (pxstep _ _). injection Hs as <-. left. done.
  - destruct (t_todo x !! j) as [[q r]|] eqn:Er; [|done]. cbn [mbind option_bind snd fst] in Hs. injection Hs as <-.
    left. destruct r as [a|m']; [destruct (decide (a ∈ t_live x))|]; done.
  - destruct (t_calls y !! j) as [[m [[n' k'] q]]|] eqn:Ej; [|done]. cbn [mbind option_bind] in Hs.
    injection Hs as <-. left.
    destruct (t_nodes y !! m) as [nd|]; cbn [mbind option_bind] in Hp; [|done].
    destruct (t_areg nd) as [[k2 a]|]; done.
  - destruct (t_calls y !! j); [|done]. injection Hs as <-. left. done.
Qed.

Definition far (y : tsys) : Prop :=
  (forall p, p ∈ t_net y -> src_of p.2 <> p.1) /\
  (forall n k x, slot_of y n k = Some x -> slot_far n x) /\
  (forall m n k q, (m, (n, k, q)) ∈ t_calls y -> m <> n).

Lemma far_run ns l y : trun (tnew ns) l = Some y -> far y.
Proof.
  revert l y. refine (trun_ind (fun l y => far y) _ _ _).
  { split; [intros p H%elem_of_nil; done|]. split; [intros n k x; rewrite slot_of_new; done|].
    intros m n k q H%elem_of_nil. done. }
  intros l y o y' _ (F1 & F2 & F3) Hs. split; [|split].
  - intros p Hp. destruct (step_net y o y' p Hs Hp) as [H|(n & k & x & i & x' & out & Hx & Hi & Ho & x0 & Hm & Hh)]; [exact (F1 p H)|].
    specialize (F2 n k x Hx). unfold thandle in Hh. rewrite Hm in Hh.
    assert (Hh' : exists x2, thandle includes x i = (x2, out)).
    { unfold thandle. destruct (mstep includes (t_mgr x) i) as [g eff]. injection Hh as <- <-. eexists. done. }
    destruct Hh' as [x2 Hh'].
    assert (Hi' : forall m, i = IMsg m -> src_of m <> n).
    { intros m Em. destruct (Hi m Em) as [j Hj]. refine (F1 (n, m) _). apply elem_of_list_lookup. exists j. done. }
    destruct (thandle_far n x i x2 out F2 Hi' Hh') as [_ G]. rewrite Forall_forall in G. exact (G p Ho).
  - intros n k x Hx.
    destruct (step_moves y o y' n k Hs) as [Hm _| -> Hn Hm|x1 i x' out Hx1 Hor Hh Hm|x1 t ok Hx1 -> _ Hm|x1 j r x' out Hx1 -> _ Hh Hm
      |x1 a Hx1 -> _ Hm|x1 q1 b s Hx1 -> _ Hm|x1 s i box s' out Hx1 -> Hpx Hb Hp Hm|x1 j qr Hx1 -> Ht Hm]; rewrite Hx in Hm.
    + exact (F2 n k x (eq_sym Hm)).
    + injection Hm as ->. split; [done|]. split; [apply not_elem_of_empty|]. split; [apply Forall_nil; done|].
      split; [intros r; done|apply Forall_nil; done].
    + injection Hm as <-. refine (proj1 (thandle_far n x1 i x out (F2 n k x1 Hx1) _ Hh)).
      intros m ->. destruct Hor as [[-> He]|(j & m' & nd & -> & Hj & [= <-] & _)]; [done|].
      refine (F1 (n, m) _). apply elem_of_list_lookup. exists j. done.
    + injection Hm as ->. exact (F2 n k x1 Hx1).
    + injection Hm as <-. refine (proj1 (thandle_far n _ _ x out _ _ Hh)); [|done]. exact (F2 n k x1 Hx1).
    + injection Hm as ->. exact (F2 n k x1 Hx1).
    + injection Hm as ->. destruct (F2 n k x1 Hx1) as (H1 & H2 & H3 & H4 & H5). split; [done|]. split; [done|].
      cbn [t_box t_px t_todo]. split; [|done]. apply Forall_app. split; [done|]. apply Forall_singleton. done.
    + injection Hm as ->. destruct (F2 n k x1 Hx1) as (H1 & H2 & H3 & H4 & H5). split; [done|]. split; [done|].
      cbn [t_box t_px t_todo]. rewrite Hb in H3. apply Forall_cons in H3 as [H3 H3'].
      destruct (pxstep_far n s i s' out) as [G1 G2]; [intros r ->; apply H4; done|done|done|].
      split; [done|]. split; [done|]. apply Forall_app. done.
    + injection Hm as ->. destruct (F2 n k x1 Hx1) as (H1 & H2 & H3 & H4 & H5). split; [done|]. split; [done|].
      cbn [t_box t_px t_todo]. split; [done|]. split; [done|]. apply Forall_delete. done.
  - intros m n k q Hc. destruct (step_calls y o y' _ Hs Hc) as [H|(n' & k' & j & x & q' & m' & -> & Hx & Ht & [= -> -> -> ->])].
    + exact (F3 m n k q H).
    + destruct (F2 n' k' x Hx) as (_ & _ & _ & _ & H5). rewrite Forall_forall in H5.
      exact (H5 (q', RRemote m') (elem_of_list_lookup_2 _ _ _ Ht)).
Qed.

Lemma local_own ns l y h : trun (tnew ns) l = Some y -> h ∈ t_log y -> h_at h = h_from h -> h_by h = h_kind h.
Proof.
  revert l y. refine (trun_ind (fun l y => h ∈ t_log y -> h_at h = h_from h -> h_by h = h_kind h) _ _ _).
  { intros H%elem_of_nil. done. }
  intros l y o y' Hr IH Hs Hh Hat.
  destruct (step_log y o y' Hs) as [E|[(n' & k' & j & x1 & q & a & _ & Hx1 & Ht & Ha & E)|
      (j & m & n' & k' & q & nd & k2 & a & _ & Hj & Hn & Ha & E)]]; rewrite E in Hh.
  - exact (IH Hh Hat).
  - apply elem_of_app in Hh as [Hh|Hh]; [exact (IH Hh Hat)|]. apply elem_of_list_singleton in Hh. subst h. done.
  - apply elem_of_app in Hh as [Hh|Hh]; [exact (IH Hh Hat)|]. apply elem_of_list_singleton in Hh. subst h.
    cbn [h_at h_from] in Hat. destruct (far_run ns l y Hr) as (_ & _ & F3).
    exfalso. refine (F3 m n' k' q _ Hat). apply elem_of_list_lookup. exists j. done.
Qed.

(** ** After a stop *)

Lemma cut y o y1 n k a l y' : o = TStopped n k a -> step y o = Some y1 -> trun y1 l = Some y' ->
  (forall k', TCreate n k' true ∉ l) ->
  forall h, h ∈ t_log y' -> h ∈ t_log y1 \/ h_at h <> n \/ (h_from h = n /\ h_by h = h_kind h).
Proof.
  intros -> Hs. 
  assert (H0 : forall nd, t_nodes y1 !! n = Some nd -> t_areg nd = None).
  { intros nd Hn. destruct (areg_step includes y _ y1 n nd Hs Hn) as (nd0 & _ & [[_ H]|[(k2 & [=] & _)|(k2 & a2 & _ & E)]]); [|done].
    exfalso. exact (H k a eq_refl). }
  clear Hs. revert l y'.
  assert (Hboth : forall l y', trun y1 l = Some y' -> (forall k', TCreate n k' true ∉ l) ->
    (forall nd, t_nodes y' !! n = Some nd -> t_areg nd = None) /\
    forall h, h ∈ t_log y' -> h ∈ t_log y1 \/ h_at h <> n \/ (h_from h = n /\ h_by h = h_kind h)).
  { refine (trun_ind (fun l y' => (forall k', TCreate n k' true ∉ l) ->
    (forall nd, t_nodes y' !! n = Some nd -> t_areg nd = None) /\
    forall h, h ∈ t_log y' -> h ∈ t_log y1 \/ h_at h <> n \/ (h_from h = n /\ h_by h = h_kind h)) y1 _ _).
    - intros _. split; [exact H0|]. intros h Hh. left. done.
    - intros l y2 o y3 _ IH Hs Hno.
      assert (Hno' : forall k', TCreate n k' true ∉ l).
      { intros k' H. apply (Hno k'). apply elem_of_app. left. done. }
      destruct (IH Hno') as [I1 I2]. split.
      + intros nd3 Hn3. destruct (areg_step includes y2 o y3 n nd3 Hs Hn3) as (nd & Hn & [[E _]|[(k2 & -> & E)|(k2 & a2 & -> & E)]]).
        * rewrite E. exact (I1 nd Hn).
        * exfalso. apply (Hno k2). apply elem_of_app. right. apply elem_of_list_singleton. done.
        * done.
      + intros h Hh.
        destruct (step_log y2 o y3 Hs) as [E|[(n' & k' & j & x1 & q & a' & _ & Hx1 & Ht & Ha & E)|
          (j & m & n' & k' & q & nd & k2 & a' & _ & Hj & Hn & Ha & E)]]; rewrite E in Hh.
        * exact (I2 h Hh).
        * apply elem_of_app in Hh as [Hh|Hh]; [exact (I2 h Hh)|]. apply elem_of_list_singleton in Hh. subst h.
          cbn [h_at h_from h_by h_kind]. right. destruct (decide (n' = n)) as [->|]; [right; done|left; done].
        * apply elem_of_app in Hh as [Hh|Hh]; [exact (I2 h Hh)|]. apply elem_of_list_singleton in Hh. subst h.
          cbn [h_at h_from h_by h_kind]. right. left. intros ->. specialize (I1 nd Hn). congruence. }
  intros l y' Hr Hno. exact (proj2 (Hboth l y' Hr Hno)).
Qed.

(** ** One kind alone behaves as a singleton *)

Definition lone (k : N) (y : tsys) : Prop :=
  forall n nd, t_nodes y !! n = Some nd ->
    (t_mreg nd = None /\ t_slots nd = ∅) \/ (exists x, t_mreg nd = Some k /\ t_slots nd = {[k := x]}).

Lemma handle_thandle x s i s' out : n_mgr x = t_mgr s -> n_tasks x = t_tasks s -> n_results x = t_results s ->
  n_live x = t_live s -> thandle includes s i = (s', out) ->
  exists x', handle includes x i = (x', out) /\ n_mgr x' = t_mgr s' /\ n_tasks x' = t_tasks s' /\
    n_results x' = t_results s' /\ n_live x' = t_live s'.
Proof.
  intros H1 H2 H3 H4 Hh. unfold thandle in Hh. unfold handle. rewrite H1.
  destruct (mstep includes (t_mgr s) i) as [g eff]. injection Hh as <- <-. eexists. split; [done|].
  cbn. rewrite H2, H3, H4. done.
Qed.
End twin.
