(** Proofs about several singletons of one actor type: frames, and kinds that are never served. *)
From Verif Require Import Twin_Spec.

Local Open Scope N_scope.

Section twin.
Variable includes : N -> bool.
Notation step := (tstep includes).
Notation trun := (trun includes).

Lemma trun_app y l l' : trun y (l ++ l') = y' ← trun y l; trun y' l'.
Proof.
  revert y. induction l as [|o l IH]; intros y; [done|].
  cbn. destruct (step y o) as [y1|]; cbn; [apply IH|done].
Qed.

Lemma trun_ind (P : list top -> tsys -> Prop) y0 :
  P [] y0 ->
  (forall l y o y', trun y0 l = Some y -> P l y -> step y o = Some y' -> P (l ++ [o]) y') ->
  forall l y, trun y0 l = Some y -> P l y.
Proof.
  intros H0 Hs l. induction l as [|o l IH] using rev_ind; intros y Hr.
  - cbn in Hr. injection Hr as <-. done.
  - rewrite trun_app in Hr. destruct (trun y0 l) as [y1|] eqn:E; [|done].
    cbn in Hr. destruct (step y1 o) as [y2|] eqn:E2; [|done]. cbn in Hr. injection Hr as <-.
    refine (Hs l y1 o y2 E (IH y1 eq_refl) E2).
Qed.

(** ** Frames *)

Lemma slot_of_node y n nd k : t_nodes y !! n = Some nd -> slot_of y n k = t_slots nd !! k.
Proof. intros H. unfold slot_of. rewrite H. done. Qed.

Lemma slot_of_put y m nd nd' n k :
  t_nodes y !! m = Some nd ->
  slot_of (put_node y m nd') n k = if decide (n = m) then t_slots nd' !! k else slot_of y n k.
Proof.
  intros H. unfold slot_of, put_node. cbn [t_nodes]. destruct (decide (n = m)) as [->|Hn].
  - rewrite lookup_insert. done.
  - rewrite lookup_insert_ne by done. done.
Qed.

Lemma slot_of_put_slot y m nd k' x' n k :
  t_nodes y !! m = Some nd ->
  slot_of (put_node y m (put_slot nd k' x')) n k =
  if decide (n = m /\ k = k') then Some x' else slot_of y n k.
Proof.
  intros H. rewrite (slot_of_put y m nd _ n k H).
  destruct (decide (n = m)) as [->|Hn].
  - cbn [put_slot t_slots]. destruct (decide (m = m /\ k = k')) as [[_ ->]|Hk].
    + apply lookup_insert.
    + rewrite lookup_insert_ne by (intros ->; apply Hk; done). symmetry. apply slot_of_node. done.
  - rewrite decide_False; [done|]. intros [? _]. done.
Qed.

Lemma slot_of_put_areg y m nd k' x' r n k :
  t_nodes y !! m = Some nd ->
  slot_of (put_node y m (set_areg (put_slot nd k' x') r)) n k =
  if decide (n = m /\ k = k') then Some x' else slot_of y n k.
Proof. intros H. rewrite <- (slot_of_put_slot y m nd k' x' n k H). unfold slot_of, put_node. cbn [t_nodes].
  destruct (decide (n = m)) as [->|Hn].
  - rewrite !lookup_insert. done.
  - rewrite !lookup_insert_ne by done. done.
Qed.

(** What a step does to one kind on one node. *)
Inductive moves (y : tsys) (o : top) (n k : N) (y' : tsys) : Prop :=
| MSame : slot_of y' n k = slot_of y n k -> (forall i, o <> TEvent n k i) -> moves y o n k y'
| MStart : o = TStart n k -> slot_of y n k = None -> slot_of y' n k = Some (new_slot n) -> moves y o n k y'
| MHandle x i x' out : slot_of y n k = Some x ->
    (o = TEvent n k i /\ is_event i = true \/
     exists j m nd, o = TDeliver j /\ t_net y !! j = Some (n, m) /\ i = IMsg m /\
       t_nodes y !! n = Some nd /\ t_mreg nd = Some k) ->
    thandle includes x i = (x', out) -> slot_of y' n k = Some x' -> moves y o n k y'
| MCreate x t ok : slot_of y n k = Some x -> o = TCreate n k ok -> t_tasks x = S t ->
    slot_of y' n k = Some (TSlot (t_mgr x) t (t_results x ++ [if ok then Some (t_next y) else None])
       (t_live x ++ (if ok then [t_next y] else [])) (t_px x) (t_box x) (t_todo x)) -> moves y o n k y'
| MResult x j r x' out : slot_of y n k = Some x -> o = TResult n k j -> t_results x !! j = Some r ->
    thandle includes (TSlot (t_mgr x) (t_tasks x) (delete j (t_results x)) (t_live x) (t_px x) (t_box x) (t_todo x))
            (IResult r) = (x', out) -> slot_of y' n k = Some x' -> moves y o n k y'
| MStopped x a : slot_of y n k = Some x -> o = TStopped n k a -> a ∈ t_live x ->
    slot_of y' n k = Some (TSlot (t_mgr x) (t_tasks x) (t_results x)
       (List.filter (fun b => negb (b =? a)) (t_live x)) (t_px x) (t_box x) (t_todo x)) -> moves y o n k y'
| MSend x q b s : slot_of y n k = Some x -> o = TSend n k q b -> t_px x = Some s ->
    slot_of y' n k = Some (TSlot (t_mgr x) (t_tasks x) (t_results x) (t_live x) (t_px x)
       (t_box x ++ [XDeliver q b]) (t_todo x)) -> moves y o n k y'
| MProxy x s i box s' out : slot_of y n k = Some x -> o = TProxy n k -> t_px x = Some s -> t_box x = i :: box ->
    pxstep s i = (s', out) ->
    slot_of y' n k = Some (TSlot (t_mgr x) (t_tasks x) (t_results x) (t_live x) s' box (t_todo x ++ out)) ->
    moves y o n k y'
| MRun x j qr : slot_of y n k = Some x -> o = TRun n k j -> t_todo x !! j = Some qr ->
    slot_of y' n k = Some (TSlot (t_mgr x) (t_tasks x) (t_results x) (t_live x) (t_px x) (t_box x)
       (delete j (t_todo x))) -> moves y o n k y'.

Lemma step_moves y o y' n k : step y o = Some y' -> moves y o n k y'.
Proof.
  intros Hs. destruct o as [m k'|m k' i|j|j|m k' ok|m k' j|m k' a|m k' q b|m k'|m k' j|j|j]; cbn [tstep] in Hs.
  - destruct (t_nodes y !! m) as [nd|] eqn:E; [|done]. cbn in Hs.
    destruct (t_slots nd !! k') as [x|] eqn:Ex; [done|]. injection Hs as <-.
    destruct (decide (n = m /\ k = k')) as [[-> ->]|Hne].
    + apply MStart; [done| |].
      * rewrite (slot_of_node y m nd k' E). done.
      * rewrite (slot_of_put y m nd _ m k' E), decide_True by done. cbn [t_slots]. apply lookup_insert.
    + apply MSame; [|done]. rewrite (slot_of_put y m nd _ n k E).
      destruct (decide (n = m)) as [->|]; [|done]. cbn [t_slots].
      rewrite lookup_insert_ne by (intros ->; apply Hne; done). symmetry. apply slot_of_node. done.
  - destruct (t_nodes y !! m) as [nd|] eqn:E; [|done]. cbn [mbind option_bind] in Hs.
    destruct (t_slots nd !! k') as [x|] eqn:Ex; [|done]. cbn [mbind option_bind] in Hs.
    destruct (is_event i) eqn:Ei; [|done].
    destruct (thandle includes x i) as [x' out] eqn:Eh. injection Hs as <-.
    pose proof (slot_of_put_slot y m nd k' x' n k E) as Hp.
    destruct (decide (n = m /\ k = k')) as [[-> ->]|Hne].
    + apply (MHandle _ _ _ _ _ x i x' out); [|left; done|done|exact Hp].
      rewrite (slot_of_node y m nd k' E). done.
    + apply MSame; [exact Hp|]. intros i' [= -> -> ->]. apply Hne. done.
  - destruct (t_net y !! j) as [p|] eqn:Ej; [|done]. cbn [mbind option_bind] in Hs.
    destruct (t_nodes y !! p.1) as [nd|] eqn:E; cbn [mbind option_bind] in Hs;
      [|injection Hs as <-; apply MSame; done].
    destruct (t_mreg nd) as [k'|] eqn:Er; cbn [mbind option_bind] in Hs;
      [|injection Hs as <-; apply MSame; done].
    destruct (t_slots nd !! k') as [x|] eqn:Ex; cbn [mbind option_bind] in Hs;
      [|injection Hs as <-; apply MSame; done].
    destruct (thandle includes x (IMsg p.2)) as [x' out] eqn:Eh. injection Hs as <-.
    pose proof (slot_of_put_slot (del_net y j) p.1 nd k' x' n k E) as Hp.
    destruct (decide (n = p.1 /\ k = k')) as [[-> ->]|Hne].
    + apply (MHandle _ _ _ _ _ x (IMsg p.2) x' out); [|right|done|exact Hp].
      * rewrite (slot_of_node y p.1 nd k' E). done.
      * exists j, p.2, nd. destruct p. done.
    + apply MSame; [exact Hp|done].
  - destruct (t_net y !! j) as [p|] eqn:Ej; [|done]. injection Hs as <-. apply MSame; done.
  - destruct (t_nodes y !! m) as [nd|] eqn:E; [|done]. cbn [mbind option_bind] in Hs.
    destruct (t_slots nd !! k') as [x|] eqn:Ex; [|done]. cbn [mbind option_bind] in Hs.
    destruct (t_tasks x) as [|t] eqn:Et; [done|]. injection Hs as <-.
    destruct (decide (n = m /\ k = k')) as [[-> ->]|Hne].
    + apply (MCreate _ _ _ _ _ x t ok); [rewrite (slot_of_node y m nd k' E); done|done|done|].
      destruct ok.
      * refine (eq_trans (slot_of_put_areg y m nd k' _ _ m k' E) _). rewrite decide_True by done. done.
      * refine (eq_trans (slot_of_put_slot y m nd k' _ m k' E) _). rewrite decide_True by done.
        rewrite app_nil_r. done.
    + apply MSame; [|done]. destruct ok.
      * refine (eq_trans (slot_of_put_areg y m nd k' _ _ n k E) _). rewrite decide_False by done. done.
      * refine (eq_trans (slot_of_put_slot y m nd k' _ n k E) _). rewrite decide_False by done. done.
  - destruct (t_nodes y !! m) as [nd|] eqn:E; [|done]. cbn [mbind option_bind] in Hs.
    destruct (t_slots nd !! k') as [x|] eqn:Ex; [|done]. cbn [mbind option_bind] in Hs.
    destruct (t_results x !! j) as [r|] eqn:Er; [|done]. cbn [mbind option_bind] in Hs.
    destruct (thandle _ _ _) as [x' out] eqn:Eh. injection Hs as <-.
    pose proof (slot_of_put_slot y m nd k' x' n k E) as Hp.
    destruct (decide (n = m /\ k = k')) as [[-> ->]|Hne].
    + apply (MResult _ _ _ _ _ x j r x' out); [|done|done|done|exact Hp].
      rewrite (slot_of_node y m nd k' E). done.
    + apply MSame; [exact Hp|done].
  - destruct (t_nodes y !! m) as [nd|] eqn:E; [|done]. cbn [mbind option_bind] in Hs.
    destruct (t_slots nd !! k') as [x|] eqn:Ex; [|done]. cbn [mbind option_bind] in Hs.
    destruct (decide (a ∈ t_live x)) as [Ha|]; [|done]. injection Hs as <-.
    destruct (decide (n = m /\ k = k')) as [[-> ->]|Hne].
    + apply (MStopped _ _ _ _ _ x a); [rewrite (slot_of_node y m nd k' E); done|done|done|].
      refine (eq_trans (slot_of_put_areg y m nd k' _ _ m k' E) _). rewrite decide_True by done. done.
    + apply MSame; [|done].
      refine (eq_trans (slot_of_put_areg y m nd k' _ _ n k E) _). rewrite decide_False by done. done.
  - destruct (t_nodes y !! m) as [nd|] eqn:E; [|done]. cbn [mbind option_bind] in Hs.
    destruct (t_slots nd !! k') as [x|] eqn:Ex; [|done]. cbn [mbind option_bind] in Hs.
    destruct (t_px x) as [s|] eqn:Es; injection Hs as <-; [|apply MSame; done].
    pose proof (slot_of_put_slot y m nd k' (TSlot (t_mgr x) (t_tasks x) (t_results x) (t_live x) (Some s)
       (t_box x ++ [XDeliver q b]) (t_todo x)) n k E) as Hp.
    destruct (decide (n = m /\ k = k')) as [[-> ->]|Hne].
    + apply (MSend _ _ _ _ _ x q b s); [|done|done|rewrite Es; exact Hp].
      rewrite (slot_of_node y m nd k' E). done.
    + apply MSame; [exact Hp|done].
  - destruct (t_nodes y !! m) as [nd|] eqn:E; [|done]. cbn [mbind option_bind] in Hs.
    destruct (t_slots nd !! k') as [x|] eqn:Ex; [|done]. cbn [mbind option_bind] in Hs.
    destruct (t_px x) as [s|] eqn:Es; [|done]. cbn [mbind option_bind] in Hs.
    destruct (t_box x) as [|i box] eqn:Eb; [done|].
    destruct (pxstep s i) as [s' out] eqn:Ep. injection Hs as <-.
    pose proof (slot_of_put_slot y m nd k' (TSlot (t_mgr x) (t_tasks x) (t_results x) (t_live x) s'
       box (t_todo x ++ out)) n k E) as Hp.
    destruct (decide (n = m /\ k = k')) as [[-> ->]|Hne].
    + apply (MProxy _ _ _ _ _ x s i box s' out); [|done|done|done|done|exact Hp].
      rewrite (slot_of_node y m nd k' E). done.
    + apply MSame; [exact Hp|done].
  - destruct (t_nodes y !! m) as [nd|] eqn:E; [|done]. cbn [mbind option_bind] in Hs.
    destruct (t_slots nd !! k') as [x|] eqn:Ex; [|done]. cbn [mbind option_bind] in Hs.
    destruct (t_todo x !! j) as [qr|] eqn:Er; [|done]. cbn [mbind option_bind] in Hs. injection Hs as <-.
    pose proof (slot_of_put_slot y m nd k' (TSlot (t_mgr x) (t_tasks x) (t_results x) (t_live x) (t_px x)
       (t_box x) (delete j (t_todo x))) n k E) as Hp.
    assert (Hsl : forall z, z = (match qr.2 with
            | RLocal a => if decide (a ∈ t_live x) then
                add_hit (put_node y m (put_slot nd k' (TSlot (t_mgr x) (t_tasks x) (t_results x) (t_live x) (t_px x)
                   (t_box x) (delete j (t_todo x))))) (THit m k' qr.1 k' m a)
                else (put_node y m (put_slot nd k' (TSlot (t_mgr x) (t_tasks x) (t_results x) (t_live x) (t_px x)
                   (t_box x) (delete j (t_todo x)))))
            | RRemote m' => add_call (put_node y m (put_slot nd k' (TSlot (t_mgr x) (t_tasks x) (t_results x) (t_live x) (t_px x)
                   (t_box x) (delete j (t_todo x))))) (m', (m, k', qr.1))
            end) -> slot_of z n k = slot_of (put_node y m (put_slot nd k' (TSlot (t_mgr x) (t_tasks x) (t_results x) (t_live x) (t_px x)
                   (t_box x) (delete j (t_todo x))))) n k).
    { intros z ->. destruct qr.2 as [a|m']; [|reflexivity]. destruct (decide (a ∈ t_live x)); reflexivity. }
    destruct (decide (n = m /\ k = k')) as [[-> ->]|Hne].
    + apply (MRun _ _ _ _ _ x j qr); [|done|done|].
      * rewrite (slot_of_node y m nd k' E). done.
      * rewrite (Hsl _ eq_refl). exact Hp.
    + apply MSame; [|done]. rewrite (Hsl _ eq_refl). exact Hp.
  - destruct (t_calls y !! j) as [[m [[n' k'] q]]|] eqn:Ej; [|done]. cbn [mbind option_bind] in Hs.
    injection Hs as <-. apply MSame; [|done].
    destruct (t_nodes y !! m) as [nd|]; cbn [mbind option_bind]; [|done].
    destruct (t_areg nd) as [[k2 a]|]; done.
  - destruct (t_calls y !! j) as [c|] eqn:Ej; [|done]. injection Hs as <-. apply MSame; done.
Qed.

(** What a step does to the requests under way and to those handled. *)
Lemma step_calls y o y' c : step y o = Some y' -> c ∈ t_calls y' ->
  c ∈ t_calls y \/ exists n k j x q m, o = TRun n k j /\ slot_of y n k = Some x /\
                     t_todo x !! j = Some (q, RRemote m) /\ c = (m, (n, k, q)).
Proof.
  intros Hs Hc. destruct o as [m k'|m k' i|j|j|m k' ok|m k' j|m k' a|m k' q b|m k'|m k' j|j|j]; cbn [tstep] in Hs;
    try (destruct (t_nodes y !! m) as [nd|] eqn:E; [|done]; cbn [mbind option_bind] in Hs);
    try (destruct (t_slots nd !! k') as [x|] eqn:Ex; [|done]; cbn [mbind option_bind] in Hs).
  - destruct (t_slots nd !! k'); [done|]. injection Hs as <-. left. done.
  - destruct (is_event i); [|done]. destruct (thandle _ _ _). injection Hs as <-. left. done.
  - destruct (t_net y !! j) as [p|]; [|done]. cbn [mbind option_bind] in Hs. left.
    destruct (t_nodes y !! p.1) as [nd|]; cbn [mbind option_bind] in Hs; [|injection Hs as <-; done].
    destruct (t_mreg nd) as [k'|]; cbn [mbind option_bind] in Hs; [|injection Hs as <-; done].
    destruct (t_slots nd !! k') as [x|]; cbn [mbind option_bind] in Hs; [|injection Hs as <-; done].
    destruct (thandle _ _ _). injection Hs as <-. done.
  - destruct (t_net y !! j); [|done]. injection Hs as <-. left. done.
  - destruct (t_tasks x); [done|]. injection Hs as <-. left. destruct ok; done.
  - destruct (t_results x !! j); [|done]. cbn [mbind option_bind] in Hs. destruct (thandle _ _ _).
    injection Hs as <-. left. done.
  - destruct (decide _); [|done]. injection Hs as <-. left. done.
  - destruct (t_px x); injection Hs as <-; left; done.
  - destruct (t_px x); [|done]. cbn [mbind option_bind] in Hs. destruct (t_box x); [done|].
    destruct (pxstep _ _). injection Hs as <-. left. done.
  - destruct (t_todo x !! j) as [[q r]|] eqn:Er; [|done]. cbn [mbind option_bind snd fst] in Hs. injection Hs as <-.
    destruct r as [a|m']; [left; destruct (decide _); done|].
    cbn [add_call t_calls put_node] in Hc. apply elem_of_app in Hc as [Hc|Hc]; [left; done|].
    apply elem_of_list_singleton in Hc. right. exists m, k', j, x, q, m'.
    rewrite (slot_of_node y m nd k' E). done.
  - destruct (t_calls y !! j) as [[m [[n' k'] q]]|] eqn:Ej; [|done]. cbn [mbind option_bind] in Hs.
    injection Hs as <-. left.
    assert (Hd : c ∈ delete j (t_calls y)).
    { destruct (t_nodes y !! m) as [nd|]; cbn [mbind option_bind] in Hc; [|done].
      destruct (t_areg nd) as [[k2 a]|]; done. }
    exact (elem_of_submseteq _ _ c Hd (sublist_submseteq _ _ (sublist_delete _ _))).
  - destruct (t_calls y !! j); [|done]. injection Hs as <-. left.
    exact (elem_of_submseteq _ _ c Hc (sublist_submseteq _ _ (sublist_delete _ _))).
Qed.

Lemma step_log y o y' : step y o = Some y' ->
  t_log y' = t_log y \/
  (exists n k j x q a, o = TRun n k j /\ slot_of y n k = Some x /\ t_todo x !! j = Some (q, RLocal a) /\
     a ∈ t_live x /\ t_log y' = t_log y ++ [THit n k q k n a]) \/
  (exists j m n k q nd k' a, o = TArrive j /\ t_calls y !! j = Some (m, (n, k, q)) /\
     t_nodes y !! m = Some nd /\ t_areg nd = Some (k', a) /\ t_log y' = t_log y ++ [THit n k q k' m a]).
Proof.
  intros Hs. destruct o as [m k'|m k' i|j|j|m k' ok|m k' j|m k' a|m k' q b|m k'|m k' j|j|j]; cbn [tstep] in Hs;
    try (destruct (t_nodes y !! m) as [nd|] eqn:E; [|done]; cbn [mbind option_bind] in Hs);
    try (destruct (t_slots nd !! k') as [x|] eqn:Ex; [|done]; cbn [mbind option_bind] in Hs).
  - destruct (t_slots nd !! k'); [done|]. injection Hs as <-. left. done.
  - destruct (is_event i); [|done]. destruct (thandle _ _ _). injection Hs as <-. left. done.
  - destruct (t_net y !! j) as [p|]; [|done]. cbn [mbind option_bind] in Hs. left.
    destruct (t_nodes y !! p.1) as [nd|]; cbn [mbind option_bind] in Hs; [|injection Hs as <-; done].
    destruct (t_mreg nd) as [k'|]; cbn [mbind option_bind] in Hs; [|injection Hs as <-; done].
    destruct (t_slots nd !! k') as [x|]; cbn [mbind option_bind] in Hs; [|injection Hs as <-; done].
    destruct (thandle _ _ _). injection Hs as <-. done.
  - destruct (t_net y !! j); [|done]. injection Hs as <-. left. done.
  - destruct (t_tasks x); [done|]. injection Hs as <-. left. destruct ok; done.
  - destruct (t_results x !! j); [|done]. cbn [mbind option_bind] in Hs. destruct (thandle _ _ _).
    injection Hs as <-. left. done.
  - destruct (decide _); [|done]. injection Hs as <-. left. done.
  - destruct (t_px x); injection Hs as <-; left; done.
  - destruct (t_px x); [|done]. cbn [mbind option_bind] in Hs. destruct (t_box x); [done|].
    destruct (pxstep _ _). injection Hs as <-. left. done.
  - destruct (t_todo x !! j) as [[q r]|] eqn:Er; [|done]. cbn [mbind option_bind snd fst] in Hs. injection Hs as <-.
    destruct r as [a|m']; [|left; done].
    destruct (decide (a ∈ t_live x)) as [Ha|]; [|left; done].
    right. left. exists m, k', j, x, q, a. rewrite (slot_of_node y m nd k' E). done.
  - destruct (t_calls y !! j) as [[m [[n' k'] q]]|] eqn:Ej; [|done]. cbn [mbind option_bind] in Hs.
    injection Hs as <-.
    destruct (t_nodes y !! m) as [nd|] eqn:E; cbn [mbind option_bind]; [|left; done].
    destruct (t_areg nd) as [[k2 a]|] eqn:Ea; [|left; done].
    right. right. exists j, m, n', k', q, nd, k2, a. done.
  - destruct (t_calls y !! j); [|done]. injection Hs as <-. left. done.
Qed.

Lemma slot_of_new ns n k : slot_of (tnew ns) n k = None.
Proof.
  unfold slot_of, tnew. cbn [t_nodes]. destruct (list_to_map _ !! n) as [nd|] eqn:E; [|done].
  apply elem_of_list_to_map_2 in E. apply elem_of_list_fmap in E as (m & [= -> ->] & _). done.
Qed.

(** A kind is on a node exactly when it was started there. *)
Lemma started_iff ns l y n k : trun (tnew ns) l = Some y ->
  is_Some (slot_of y n k) <-> TStart n k ∈ l.
Proof.
  revert l y. refine (trun_ind (fun l y => is_Some (slot_of y n k) <-> TStart n k ∈ l) _ _ _).
  { rewrite slot_of_new. split; [intros [? [=]]|intros H%elem_of_nil; done]. }
  intros l y o y' _ IH Hs. rewrite elem_of_app, elem_of_list_singleton.
  destruct (step_moves y o y' n k Hs) as [Hm _| -> _ Hm|x i x' out Hx _ _ Hm|x t ok Hx _ _ Hm|x j r x' out Hx _ _ _ Hm
    |x a Hx _ _ Hm|x q b s Hx _ _ Hm|x s i box s' out Hx _ _ _ _ Hm|x j qr Hx _ _ Hm];
    rewrite Hm; try (rewrite Hx in IH; split; [intros _; left; apply IH; done|done]).
  - split; [intros H; left; apply IH; done|].
    intros [H|Ho]; [apply IH; done|]. subst o.
    (* the started kind is there *)
    cbn [tstep] in Hs. destruct (t_nodes y !! n) as [nd|] eqn:E; [|done]. cbn [mbind option_bind] in Hs.
    destruct (t_slots nd !! k) as [x|] eqn:Ex; [done|]. injection Hs as <-.
    rewrite (slot_of_put y n nd _ n k E), decide_True in Hm by done. cbn [t_slots] in Hm.
    rewrite lookup_insert in Hm. rewrite <- Hm. done.
  - split; [intros _; right; done|done].
Qed.

(** ** A kind whose manager cannot be reached *)

Definition only_sends (l : list (pxinput N)) : Prop :=
  Forall (fun i => match i with XDeliver _ _ => True | _ => False end) l.

(** Nothing has happened to this kind on this node but requests and its own node's events. *)
Definition idle_slot (x : tslot) : Prop :=
  t_tasks x = 0%nat /\ t_results x = [] /\ t_live x = [] /\
  (t_px x = None \/ exists q, t_px x = Some (XBuffered q)) /\ only_sends (t_box x) /\ t_todo x = [] /\
  match g_state (t_mgr x) with
  | SJoining None => True
  | SIdle => size (g_managers (t_mgr x)) <> 0%nat
  | SStarting a => a = ∅ /\ size (g_managers (t_mgr x)) <> 0%nat
  | _ => False
  end.

Definition unserved (y : tsys) (n k : N) : Prop :=
  (exists x, slot_of y n k = Some x /\ g_node (t_mgr x) = n /\ idle_slot x) /\
  (forall m q, (m, (n, k, q)) ∉ t_calls y) /\
  (forall h, h ∈ t_log y -> ~ (h_from h = n /\ h_kind h = k)).

Definition superseded (y : tsys) (n k : N) : Prop :=
  exists nd k', t_nodes y !! n = Some nd /\ t_mreg nd = Some k' /\ k' <> k.


Lemma creates_notify g m : creates (notify_managers g m) = 0%nat.
Proof.
  unfold notify_managers, creates. induction (elements (g_managers g)) as [|e l IH]; [done|]. exact IH.
Qed.
Lemma tells_notify g m : tells (notify_managers g m) = [].
Proof.
  unfold notify_managers, tells. induction (elements (g_managers g)) as [|e l IH]; [done|]. exact IH.
Qed.

Lemma size_union_pos (a b : gset N) : size a <> 0%nat -> size (a ∪ b) <> 0%nat.
Proof.
  intros Ha Hs. apply Ha. apply size_empty_iff. apply size_empty_iff in Hs. set_solver.
Qed.
Lemma size_elem_pos (a : gset N) x : x ∈ a -> size a <> 0%nat.
Proof. intros Hx Hs. apply size_empty_iff in Hs. set_solver. Qed.

(** The events of its own node do not make such a manager create its actor. *)
Lemma idle_event x i : idle_slot x -> is_event i = true -> fellow includes (g_node (t_mgr x)) i ->
  forall x' out, thandle includes x i = (x', out) -> idle_slot x' /\ g_node (t_mgr x') = g_node (t_mgr x).
Proof.
  intros (H1 & H2 & H3 & H4 & H5 & H6 & H7) Hi Hf x' out Hh. unfold thandle in Hh.
  destruct x as [g tasks results live px box todo]. cbn [t_mgr t_tasks t_results t_live t_px t_box t_todo] in *.
  subst tasks results live todo. destruct g as [n ms s]. cbn [g_node g_managers g_state] in *.
  assert (Hk : forall g' eff, creates eff = 0%nat -> tells eff = [] -> g_node g' = n ->
    match g_state g' with
    | SJoining None => True
    | SIdle => size (g_managers g') <> 0%nat
    | SStarting a => a = ∅ /\ size (g_managers g') <> 0%nat
    | _ => False
    end ->
    idle_slot (TSlot g' (0 + creates eff) [] [] px (box ++ tells eff) []) /\ g_node g' = n).
  { intros g' eff Hc Ht Hn Hg. rewrite Hc, Ht, app_nil_r. split; [|done]. repeat split; done. }
  destruct i as [leader nodes|leader|m|m|m|r|]; try done; cbn [mstep] in Hh.
  - (* the node is up *)
    unfold on_member_up in Hh. cbn [g_node g_state] in Hh.
    destruct Hf as (m & Hm & Hmn & Him).
    set (ms' := ms ∪ list_to_set (List.filter (fun m => negb (m =? n) && includes m) nodes)) in *.
    assert (Hms : size ms' <> 0%nat).
    { apply (size_elem_pos _ m). apply elem_of_union. right. apply elem_of_list_to_set.
      apply elem_of_list_In, filter_In. split; [apply elem_of_list_In; done|].
      rewrite Him. apply N.eqb_neq in Hmn. rewrite Hmn. done. }
    assert (Heff : match s with SJoining (Some p) => notify_manager (add_managers includes (Mgr n ms s) nodes) p (QAck n) | _ => [] end
                   = []).
    { destruct s as [[p|]| | | |]; done. }
    rewrite Heff in Hh. unfold begin_starting, add_managers, set_managers, set_state in Hh.
    cbn [g_node g_managers g_state] in Hh.
    destruct (leader =? n).
    + injection Hh as <- <-. cbn [app]. apply Hk; cbn [g_node g_managers g_state]; [| |done|done].
      * unfold request_lease. cbn [g_managers]. rewrite decide_False by exact Hms. apply creates_notify.
      * unfold request_lease. cbn [g_managers]. rewrite decide_False by exact Hms. apply tells_notify.
    + injection Hh as <- <-. apply Hk; done.
  - destruct (is_joining s) eqn:Ej.
    + cbn [g_state] in Hh. rewrite Ej in Hh. injection Hh as <- <-. apply Hk; done.
    + cbn [g_state] in Hh. rewrite Ej in Hh. unfold on_leader_changed in Hh. cbn [g_node g_state] in Hh.
      destruct ((leader =? n) && negb (is_running s)).
      * unfold begin_starting, set_state in Hh. cbn [g_node g_managers] in Hh. injection Hh as <- <-.
        assert (Hms : size ms <> 0%nat).
        { destruct s as [[p|]| | | |]; try done. destruct H7 as [_ H7]. done. }
        apply Hk; cbn [g_node g_managers g_state]; [| |done|done].
        -- unfold request_lease. cbn [g_managers]. rewrite decide_False by exact Hms. apply creates_notify.
        -- unfold request_lease. cbn [g_managers]. rewrite decide_False by exact Hms. apply tells_notify.
      * injection Hh as <- <-. apply Hk; done.
  - unfold on_node_added in Hh. cbn [g_node g_managers g_state] in Hh.
    destruct (negb (m =? n) && includes m); [|injection Hh as <- <-; apply Hk; done].
    destruct (decide (m ∈ ms)); [injection Hh as <- <-; apply Hk; done|].
    unfold set_managers in Hh. cbn [g_node g_state] in Hh. injection Hh as <- <-.
    apply Hk; cbn [g_node g_managers g_state]; try done.
    + destruct s; done.
    + destruct s; done.
    + destruct s as [[p|]| |ac| |]; try done.
      * rewrite (union_comm_L {[m]} ms). apply size_union_pos. done.
      * destruct H7 as [-> H7]. split; [done|]. rewrite (union_comm_L {[m]} ms). apply size_union_pos. done.
Qed.

(** Requests through the proxy of such a kind stay in its buffer. *)
Lemma idle_proxy (s : pxstate N) q b s' out : (exists l, s = XBuffered l) ->
  pxstep s (XDeliver q b) = (s', out) -> out = [] /\ exists l, s' = Some (XBuffered l).
Proof. intros [l ->] E. destruct b; cbn in E; inversion E; (split; [done|]); eexists; done. Qed.

Lemma unserved_step y o y' n k :
  unserved y n k -> no_delivery o \/ superseded y n k ->
  Forall (fellow includes n) (heard n k [o]) -> step y o = Some y' -> unserved y' n k.
Proof.
  intros ((x & Hx & Hg & Hi) & Hc & Hl) Hd Hf Hs. split; [|split].
  - destruct (step_moves y o y' n k Hs) as [Hm _| -> Hn _|x1 i x' out Hx1 Hor Hh Hm|x1 t ok Hx1 _ Ht _|x1 j r x' out Hx1 _ Hr _ _
      |x1 a Hx1 _ Ha _|x1 q b s Hx1 -> Hpx Hm|x1 s i box s' out Hx1 _ Hpx Hb Hp Hm|x1 j qr Hx1 _ Hr _];
      try (assert (x1 = x) by congruence; subst x1).
    + exists x. rewrite Hm. done.
    + congruence.
    + destruct Hor as [[-> He]|(j & m & nd & -> & _ & _ & Hnd & Hk)].
      * assert (Hfe : fellow includes n i).
        { unfold heard in Hf. cbn [omap list_omap] in Hf. rewrite !N.eqb_refl in Hf. cbn [andb] in Hf.
          inversion Hf. done. }
        rewrite <- Hg in Hfe. destruct (idle_event x i Hi He Hfe x' out Hh) as [Hi' Hg'].
        exists x'. rewrite Hg'. done.
      * destruct Hd as [[]|(nd' & k' & Hnd' & Hk' & Hne)]. congruence.
    + destruct Hi as (H1 & _). congruence.
    + destruct Hi as (_ & H2 & _). rewrite H2 in Hr. done.
    + destruct Hi as (_ & _ & H3 & _). rewrite H3 in Ha. apply elem_of_nil in Ha. done.
    + eexists. split; [exact Hm|]. cbn [t_mgr]. split; [done|].
      destruct Hi as (H1 & H2 & H3 & H4 & H5 & H6 & H7). repeat split; try done.
      apply Forall_app. split; [done|]. apply Forall_singleton. done.
    + eexists. split; [exact Hm|]. cbn [t_mgr]. split; [done|].
      destruct Hi as (H1 & H2 & H3 & H4 & H5 & H6 & H7). rewrite Hb in H5.
      apply Forall_cons in H5 as [H5 H5']. destruct i as [q b| |]; [|done|done].
      destruct H4 as [H4|[l0 H4]]; [congruence|].
      destruct (idle_proxy s q b s' out) as [-> [l' ->]]; [exists l0; congruence|done|].
      repeat split; try done.
      * right. exists l'. done.
      * cbn. rewrite H6. done.
    + destruct Hi as (_ & _ & _ & _ & _ & H6 & _). rewrite H6 in Hr. done.
  - intros m q Hin. destruct (step_calls y o y' _ Hs Hin) as [H|(n' & k' & j & x1 & q' & m' & -> & Hx1 & Ht & [= -> -> -> ->])].
    + exact (Hc m q H).
    + assert (x1 = x) by congruence. subst x1. destruct Hi as (_ & _ & _ & _ & _ & H6 & _). rewrite H6 in Ht. done.
  - intros h Hh. destruct (step_log y o y' Hs) as [E|[(n' & k' & j & x1 & q & a & _ & Hx1 & Ht & _ & E)|
      (j & m & n' & k' & q & nd & k2 & a & _ & Hj & _ & _ & E)]]; rewrite E in Hh.
    + exact (Hl h Hh).
    + apply elem_of_app in Hh as [Hh|Hh]; [exact (Hl h Hh)|]. apply elem_of_list_singleton in Hh. subst h.
      cbn [h_from h_kind]. intros [-> ->]. assert (x1 = x) by congruence. subst x1.
      destruct Hi as (_ & _ & _ & _ & _ & H6 & _). rewrite H6 in Ht. done.
    + apply elem_of_app in Hh as [Hh|Hh]; [exact (Hl h Hh)|]. apply elem_of_list_singleton in Hh. subst h.
      cbn [h_from h_kind]. intros [-> ->]. apply (Hc m q). apply elem_of_list_lookup. exists j. done.
Qed.

Lemma mreg_step y o y' n nd : step y o = Some y' -> t_nodes y !! n = Some nd ->
  exists nd', t_nodes y' !! n = Some nd' /\
    (t_mreg nd' = t_mreg nd \/ exists k, o = TStart n k /\ slot_of y n k = None /\ t_mreg nd' = Some k).
Proof.
  intros Hs Hn.
  assert (Hput : forall m nd1 nd2, t_nodes y !! m = Some nd1 -> t_mreg nd2 = t_mreg nd1 ->
    exists nd', <[m := nd2]> (t_nodes y) !! n = Some nd' /\ t_mreg nd' = t_mreg nd).
  { intros m nd1 nd2 H1 H2. destruct (decide (m = n)) as [->|Hm].
    - exists nd2. rewrite lookup_insert. split; [done|]. congruence.
    - exists nd. rewrite lookup_insert_ne by done. done. }
  assert (Hw : (exists nd', t_nodes y' !! n = Some nd' /\ t_mreg nd' = t_mreg nd) ->
    exists nd', t_nodes y' !! n = Some nd' /\
    (t_mreg nd' = t_mreg nd \/ exists k, o = TStart n k /\ slot_of y n k = None /\ t_mreg nd' = Some k)).
  { intros (nd' & H1 & H2). exists nd'. split; [done|left; done]. }
  destruct o as [m k'|m k' i|j|j|m k' ok|m k' j|m k' a|m k' q b|m k'|m k' j|j|j]; cbn [tstep] in Hs;
    try (destruct (t_nodes y !! m) as [nd1|] eqn:E; [|done]; cbn [mbind option_bind] in Hs);
    try (destruct (t_slots nd1 !! k') as [x|] eqn:Ex; [|done]; cbn [mbind option_bind] in Hs).
  - destruct (t_slots nd1 !! k') as [x|] eqn:Ex; [done|]. injection Hs as <-. cbn [put_node t_nodes].
    destruct (decide (m = n)) as [->|Hm].
    + eexists. rewrite lookup_insert. split; [done|]. right. exists k'. cbn [t_mreg].
      rewrite (slot_of_node y n nd1 k' E). done.
    + exists nd. rewrite lookup_insert_ne by done. split; [done|left; done].
  - destruct (is_event i); [|done]. destruct (thandle _ _ _). injection Hs as <-. apply Hw. refine (Hput m nd1 _ E _). done.
  - destruct (t_net y !! j) as [p|]; [|done]. cbn [mbind option_bind] in Hs. apply Hw.
    destruct (t_nodes y !! p.1) as [nd1|] eqn:E; cbn [mbind option_bind] in Hs; [|injection Hs as <-; exists nd; done].
    destruct (t_mreg nd1) as [k'|] eqn:Em; cbn [mbind option_bind] in Hs; [|injection Hs as <-; exists nd; done].
    destruct (t_slots nd1 !! k') as [x|]; cbn [mbind option_bind] in Hs; [|injection Hs as <-; exists nd; done].
    destruct (thandle _ _ _). injection Hs as <-. refine (Hput p.1 nd1 _ E _). done.
  - destruct (t_net y !! j); [|done]. injection Hs as <-. apply Hw. exists nd. done.
  - destruct (t_tasks x); [done|]. injection Hs as <-. apply Hw.
    destruct ok; refine (Hput m nd1 _ E _); done.
  - destruct (t_results x !! j); [|done]. cbn [mbind option_bind] in Hs. destruct (thandle _ _ _).
    injection Hs as <-. apply Hw. refine (Hput m nd1 _ E _). done.
  - destruct (decide _); [|done]. injection Hs as <-. apply Hw. refine (Hput m nd1 _ E _). done.
  - destruct (t_px x); injection Hs as <-; apply Hw; [refine (Hput m nd1 _ E _); done|exists nd; done].
  - destruct (t_px x); [|done]. cbn [mbind option_bind] in Hs. destruct (t_box x); [done|].
    destruct (pxstep _ _). injection Hs as <-. apply Hw. refine (Hput m nd1 _ E _). done.
  - destruct (t_todo x !! j) as [[q r]|] eqn:Er; [|done]. cbn [mbind option_bind snd fst] in Hs. injection Hs as <-.
    apply Hw. destruct r as [a|m']; [destruct (decide (a ∈ t_live x))|]; refine (Hput m nd1 _ E _); done.
  - destruct (t_calls y !! j) as [[m [[n' k'] q]]|] eqn:Ej; [|done]. cbn [mbind option_bind] in Hs.
    injection Hs as <-. apply Hw. exists nd.
    destruct (t_nodes y !! m) as [nd1|] eqn:E; cbn [mbind option_bind]; [|done].
    destruct (t_areg nd1) as [[k2 a]|] eqn:Ea; done.
  - destruct (t_calls y !! j); [|done]. injection Hs as <-. apply Hw. exists nd. done.
Qed.

Lemma superseded_step y o y' n k : superseded y n k -> is_Some (slot_of y n k) ->
  step y o = Some y' -> superseded y' n k.
Proof.
  intros (nd & k' & Hn & Hk & Hne) Hsl Hs. destruct (mreg_step y o y' n nd Hs Hn) as (nd' & Hn' & [Hm|(k2 & -> & Hno & Hm)]).
  - exists nd', k'. split; [done|]. split; [congruence|done].
  - exists nd', k2. split; [done|]. split; [done|]. intros ->. rewrite Hno in Hsl. destruct Hsl as [? [=]].
Qed.

Lemma heard_app n k l l' : heard n k (l ++ l') = heard n k l ++ heard n k l'.
Proof. unfold heard. apply omap_app. Qed.

Lemma unserved_run l y y' n k :
  unserved y n k -> Forall no_delivery l \/ superseded y n k ->
  Forall (fellow includes n) (heard n k l) -> trun y l = Some y' -> unserved y' n k.
Proof.
  revert y. induction l as [|o l IH]; intros y Hu Hd Hf Hr; [cbn in Hr; injection Hr as <-; done|].
  cbn [Twin_Model.trun] in Hr. destruct (step y o) as [y1|] eqn:E; [|done]. cbn [mbind option_bind] in Hr.
  change (o :: l) with ([o] ++ l) in Hf. rewrite heard_app in Hf. apply Forall_app in Hf as [Hf1 Hf2].
  assert (Hd1 : no_delivery o \/ superseded y n k).
  { destruct Hd as [Hd|Hd]; [left; inversion Hd; done|right; done]. }
  refine (IH y1 (unserved_step y o y1 n k Hu Hd1 Hf1 E) _ Hf2 Hr).
  destruct Hd as [Hd|Hd]; [left; inversion Hd; done|right].
  refine (superseded_step y o y1 n k Hd _ E). destruct Hu as [(x & Hx & _) _]. exists x. done.
Qed.

(** No request is under way from a kind that was not started. *)
Lemma unstarted_silent ns l y n k : trun (tnew ns) l = Some y -> slot_of y n k = None ->
  (forall m q, (m, (n, k, q)) ∉ t_calls y) /\ (forall h, h ∈ t_log y -> ~ (h_from h = n /\ h_kind h = k)).
Proof.
  revert l y. refine (trun_ind (fun l y => slot_of y n k = None ->
    (forall m q, (m, (n, k, q)) ∉ t_calls y) /\ (forall h, h ∈ t_log y -> ~ (h_from h = n /\ h_kind h = k))) _ _ _).
  { intros _. split; [intros m q H%elem_of_nil; done|intros h H%elem_of_nil; done]. }
  intros l y o y' _ IH Hs Hn'.
  assert (Hn : slot_of y n k = None).
  { destruct (step_moves y o y' n k Hs); congruence. }
  destruct (IH Hn) as [Hc Hl]. split.
  - intros m q Hin. destruct (step_calls y o y' _ Hs Hin) as [H|(n' & k' & j & x1 & q' & m' & -> & Hx1 & Ht & [= -> -> -> ->])].
    + exact (Hc m q H).
    + congruence.
  - intros h Hh. destruct (step_log y o y' Hs) as [E|[(n' & k' & j & x1 & q & a & _ & Hx1 & Ht & _ & E)|
      (j & m & n' & k' & q & nd & k2 & a & _ & Hj & _ & _ & E)]]; rewrite E in Hh.
    + exact (Hl h Hh).
    + apply elem_of_app in Hh as [Hh|Hh]; [exact (Hl h Hh)|]. apply elem_of_list_singleton in Hh. subst h.
      cbn [h_from h_kind]. intros [-> ->]. congruence.
    + apply elem_of_app in Hh as [Hh|Hh]; [exact (Hl h Hh)|]. apply elem_of_list_singleton in Hh. subst h.
      cbn [h_from h_kind]. intros [-> ->]. apply (Hc m q). apply elem_of_list_lookup. exists j. done.
Qed.

Lemma followed_unserved ns l y n k : trun (tnew ns) l = Some y -> followed includes n k l -> unserved y n k.
Proof.
  intros Hr (l0 & l1 & k' & l2 & -> & Hne & Hnd & Hf). rewrite trun_app in Hr.
  destruct (trun (tnew ns) l0) as [y0|] eqn:E0; [|done]. cbn [mbind option_bind Twin_Model.trun] in Hr.
  destruct (step y0 (TStart n k)) as [y1|] eqn:E1; [|done]. cbn [mbind option_bind] in Hr.
  rewrite trun_app in Hr. destruct (trun y1 l1) as [y2|] eqn:E2; [|done]. cbn [mbind option_bind Twin_Model.trun] in Hr.
  destruct (step y2 (TStart n k')) as [y3|] eqn:E3; [|done]. cbn [mbind option_bind] in Hr.
  rewrite heard_app in Hf. apply Forall_app in Hf as [Hf1 Hf2].
  assert (Hu1 : unserved y1 n k).
  { assert (Hno : slot_of y0 n k = None /\ slot_of y1 n k = Some (new_slot n)).
    { pose proof E1 as E1'. cbn [tstep] in E1'. destruct (t_nodes y0 !! n) as [nd|] eqn:E; [|done]. cbn [mbind option_bind] in E1'.
      destruct (t_slots nd !! k) as [x|] eqn:Ex; [done|]. injection E1' as <-.
      rewrite (slot_of_node y0 n nd k E). split; [done|].
      rewrite (slot_of_put y0 n nd _ n k E), decide_True by done. cbn [t_slots]. apply lookup_insert. }
    destruct Hno as [Hno Hyes]. destruct (unstarted_silent ns l0 y0 n k E0 Hno) as [Hc Hl].
    split; [|split].
    - exists (new_slot n). split; [done|]. split; [done|]. repeat split; try done.
      + right. exists []. done.
      + apply Forall_nil. done.
    - intros m q Hin. destruct (step_calls y0 _ y1 _ E1 Hin) as [H|(n' & k2 & j & x1 & q' & m' & [=] & _)].
      exact (Hc m q H).
    - intros h Hh. destruct (step_log y0 _ y1 E1) as [E|[(n' & k2 & j & x1 & q & a & [=] & _)|
        (j & m & n' & k2 & q & nd & k3 & a & [=] & _)]]. rewrite E in Hh. exact (Hl h Hh). }
  pose proof (unserved_run l1 y1 y2 n k Hu1 (or_introl Hnd) Hf1 E2) as Hu2.
  assert (Hu3 : unserved y3 n k).
  { refine (unserved_step y2 (TStart n k') y3 n k Hu2 (or_introl I) _ E3). apply Forall_nil. done. }
  assert (Hsup : superseded y3 n k).
  { cbn [tstep] in E3. destruct (t_nodes y2 !! n) as [nd|] eqn:E; [|done]. cbn [mbind option_bind] in E3.
    destruct (t_slots nd !! k') as [x|] eqn:Ex; [done|]. injection E3 as <-.
    eexists _, k'. cbn [put_node t_nodes]. rewrite lookup_insert. split; [done|]. split; done. }
  exact (unserved_run l2 y3 y n k Hu3 (or_intror Hsup) Hf2 Hr).
Qed.
End twin.
