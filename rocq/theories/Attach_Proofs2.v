(** Proofs about attached streams: what the actor handles. *)
From Verif Require Import Actor_Model Actor_Spec Actor_Proofs Actor_Proofs2 Actor_Proofs3 Attach_Model Attach_Spec Attach_Proofs.
Local Open Scope nat_scope.

Section find.
  Context {A : Type}.
  Definition at_number (l : list (nat * A)) (i : nat) : option A :=
    snd <$> list_find (fun x => x.1 = i) l ≫= fun y => Some y.2.

  Lemma at_number_cons x (l : list (nat * A)) i : at_number (x :: l) i = if decide (x.1 = i) then Some x.2 else at_number l i.
  Proof.
    unfold at_number. simpl. destruct (decide (x.1 = i)); [done|].
    by destruct (list_find _ l) as [[? ?]|].
  Qed.

  Definition rising (l : list (nat * A)) : Prop := StronglySorted (fun x y => x.1 < y.1) l.

  Lemma at_number_none (l : list (nat * A)) i : Forall (fun x => i < x.1) l -> at_number l i = None.
  Proof.
    induction 1 as [|x l Hx _ IH]; [done|]. rewrite at_number_cons, decide_False by lia. done.
  Qed.

  Lemma omap_none {B C} (f : B -> option C) l : Forall (fun i => f i = None) l -> omap f l = [].
  Proof. induction 1 as [|i l Hi _ IH]; [done|]. simpl. by rewrite Hi. Qed.

  Lemma omap_ext' {B C} (f g : B -> option C) l : Forall (fun i => f i = g i) l -> omap f l = omap g l.
  Proof. induction 1 as [|i l Hi _ IH]; [done|]. simpl. rewrite Hi. destruct (g i); [f_equal|]; exact IH. Qed.

  Lemma filter_all_false (p : nat * A -> bool) l : Forall (fun x => p x = false) l -> List.filter p l = [].
  Proof. induction 1 as [|x l Hx _ IH]; [done|]. simpl. by rewrite Hx. Qed.

  Lemma omap_at_number (l : list (nat * A)) a n : rising l -> Forall (fun x => a <= x.1) l ->
    omap (at_number l) (seq a n) = map snd (List.filter (fun x => x.1 <? a + n) l).
  Proof.
    intros Hr. revert a n. induction Hr as [|x l Hr IH Hx]; intros a n Ha.
    - simpl. apply omap_none, Forall_forall. done.
    - apply Forall_cons in Ha as [Ha _]. destruct (Nat.ltb_spec x.1 (a + n)) as [Hl|Hl].
      + replace n with ((x.1 - a) + S (a + n - S x.1)) by lia. rewrite seq_app, omap_app.
        replace (a + (x.1 - a)) with x.1 by lia. cbn [seq omap list_omap]. cbn [List.filter]. 
        replace (x.1 <? a + (x.1 - a + S (a + n - S x.1))) with true by (symmetry; apply Nat.ltb_lt; lia).
        cbn [map]. rewrite omap_none.
        2:{ apply Forall_forall. intros i Hi. apply elem_of_seq in Hi. rewrite at_number_cons, decide_False by lia.
            apply at_number_none. eapply Forall_impl; [exact Hx|]. simpl. lia. }
        cbn [app]. change (omap (at_number (x :: l)) (x.1 :: seq (S x.1) (a + n - S x.1))) with
          (match at_number (x :: l) x.1 with Some y => y :: omap (at_number (x :: l)) (seq (S x.1) (a + n - S x.1)) | None => omap (at_number (x :: l)) (seq (S x.1) (a + n - S x.1)) end).
        rewrite at_number_cons, decide_True by done. f_equal.
        rewrite (omap_ext' _ (at_number l)).
        2:{ apply Forall_forall. intros i Hi. apply elem_of_seq in Hi. by rewrite at_number_cons, decide_False by lia. }
        rewrite IH by (eapply Forall_impl; [exact Hx|]; simpl; lia).
        by replace (S x.1 + (a + n - S x.1)) with (a + (x.1 - a + S (a + n - S x.1))) by lia.
      + rewrite omap_none.
        * rewrite filter_all_false; [done|]. constructor; [apply Nat.ltb_ge; lia|].
          eapply Forall_impl; [exact Hx|]. simpl. intros y Hy. apply Nat.ltb_ge. lia.
        * apply Forall_forall. intros i Hi. apply elem_of_seq in Hi. rewrite at_number_cons, decide_False by lia.
          apply at_number_none. eapply Forall_impl; [exact Hx|]. simpl. lia.
  Qed.

  Lemma filter_rising (l : list (nat * A)) n : rising l -> List.filter (fun x => x.1 <? n) l `prefix_of` l.
  Proof.
    induction 1 as [|x l Hr IH Hx]; [done|]. simpl. destruct (Nat.ltb_spec x.1 n).
    - destruct IH as [l2 E]. exists l2. simpl. by f_equal.
    - rewrite filter_all_false; [by exists (x :: l)|]. eapply Forall_impl; [exact Hx|]. simpl. intros y Hy. apply Nat.ltb_ge. lia.
  Qed.

  Lemma rising_snoc (l : list (nat * A)) x n : rising l -> Forall (fun y => y.1 < n) l -> n <= x.1 -> rising (l ++ [x]).
  Proof.
    intros Hr Hl Hn. induction Hr as [|y l Hr IH Hy]; [constructor; constructor|].
    apply Forall_cons in Hl as [H1 H2]. simpl. constructor; [by apply IH|]. apply Forall_app. split; [done|]. constructor; [lia|constructor].
  Qed.
End find.

Section proofs.
  Context {St Msg Res R : Type}.
  Context (started : St -> St * effect) (handler : St -> Msg -> St * Res * effect) (tracked : bool).
  Context (conv : nat -> R -> option Msg).
  Notation opts := default_options.
  Notation wrun := (wrun started handler tracked conv opts).
  Notation wstep := (wstep started handler tracked conv opts).
  Notation arun := (arun started handler tracked).
  Notation astep := (astep started handler tracked).
  Notation world := (world St Msg R).
  Notation wop := (wop Msg R).
  Notation tagged := (tagged Msg Res).

  Lemma tick_accepts_none (a : actor St Msg) : accepted (tick started handler tracked a).2 = [].
  Proof using.
    unfold tick. destruct (a_phase a); simpl; try done.
    - unfold run_started. destruct (started (a_user a)) as [u' []]; try done.
      match goal with |- context [crash ?b] => destruct (crash_shape (Res:=Res) b) as (ev & -> & Ha) end. simpl. exact Ha.
    - destruct (a_queue a) as [|[i r] q]; [done|]. unfold run_message. destruct r as [m ans| |ans|id w|id]; try done.
      simpl. destruct (handler (a_user a) m) as [[u' res] []]; try (by destruct ans).
      destruct (crash_shape (Res:=Res) (Actor PRunning u' q (a_next a) (a_on_stopped a) (a_watchers a) (a_reported a))) as (ev & Ec & Ha).
      unfold crash in Ec. simpl in Ec. injection Ec as Ec. rewrite <- Ec in Ha. exact Ha.
    - apply quiet_proj. apply Forall_app. split; [destruct tracked; repeat constructor|].
      apply Forall_app. split; apply Forall_forall; intros e He; apply elem_of_list_fmap in He as (x & -> & _); done.
    - apply (quiet_proj _ (quiet_finish (Res:=Res) a)).
  Qed.

  Lemma tick_done (a : actor St Msg) : a_phase a = PDone -> (tick started handler tracked a).1 = a.
  Proof using. unfold tick. by intros ->. Qed.

  (** What one step does to the calls of stream [k]: nothing, or one call that is accepted unless
      the actor has ended. *)
  Lemma step_calls k (w : world) (o : wop) :
    (calls k (wstep w o).2 = [] /\ calls_accepted k (wstep w o).2 = []) \/
    exists r, o = WPull k /\ calls k (wstep w o).2 = [r] /\
      calls_accepted k (wstep w o).2 = (if decide (a_phase (w_actor w) = PDone) then [] else [(a_next (w_actor w), r)]).
  Proof using.
    assert (Hcall : forall j r s, (calls k (task_call (Res:=Res) j r s w).2 = [] /\ calls_accepted k (task_call (Res:=Res) j r s w).2 = []) \/
      exists r', j = k /\ calls k (task_call (Res:=Res) j r s w).2 = [r'] /\
        calls_accepted k (task_call (Res:=Res) j r s w).2 = (if decide (a_phase (w_actor w) = PDone) then [] else [(a_next (w_actor w), r')])).
    { intros j r s. unfold task_call, send. destruct (decide (j = k)) as [->|Hn].
      - right. exists r. destruct (a_phase (w_actor w)) eqn:E; simpl; by destruct (decide (k = k)).
      - left. destruct (a_phase (w_actor w)); simpl; by destruct (decide (j = k)). }
    assert (Hcall' : forall j r s, (calls k (task_call (Res:=Res) j r s w).2 = [] /\ calls_accepted k (task_call (Res:=Res) j r s w).2 = []) \/
      exists r', WPull j = WPull k :> wop /\ calls k (task_call (Res:=Res) j r s w).2 = [r'] /\
        calls_accepted k (task_call (Res:=Res) j r s w).2 = (if decide (a_phase (w_actor w) = PDone) then [] else [(a_next (w_actor w), r')])).
    { intros j r s. destruct (Hcall j r s) as [?|(r' & -> & ?)]; [by left|right; by exists r']. }
    destruct o as [r| |j x|j|j]; cbn [Attach_Model.wstep].
    - left. destruct (send r (w_actor w)). apply calls_none.
    - left. destruct (tick started handler tracked (w_actor w)). apply calls_none.
    - left. by destruct (_ || _).
    - by left.
    - unfold pull. destruct (st_over (stream_at j w)); [by left|].
      destruct (st_items (stream_at j w)) as [|[x|] l].
      + destruct (st_closed (stream_at j w)); [apply Hcall'|by left].
      + destruct (conv j x); [apply Hcall'|by left].
      + apply Hcall'.
  Qed.

  Lemma done_step (w : world) (o : wop) : a_phase (w_actor w) = PDone -> a_phase (w_actor (wstep w o).1) = PDone.
  Proof using.
    intros H. destruct (step_actor started handler tracked conv w o) as [[-> _]|(o' & E & _)]; [done|].
    apply (f_equal fst) in E. simpl in E. rewrite E. destruct o' as [r|]; simpl; [unfold send; by rewrite H|by rewrite tick_done].
  Qed.

  Lemma calls_accepted_in k i r (tr : list tagged) : (i, r) ∈ calls_accepted k tr -> (Some k, EAccepted i r) ∈ tr.
  Proof using.
    induction tr as [|[t e] tr IH]; intros H; [by apply elem_of_nil in H|].
    unfold calls_accepted in H. simpl in H. apply elem_of_cons.
    destruct t as [j|]; [|right; apply IH; exact H]. destruct e; try (right; apply IH; exact H).
    destruct (decide (j = k)) as [->|]; [|right; apply IH; exact H].
    apply elem_of_cons in H as [H|H]; [left; by simplify_eq|right; by apply IH].
  Qed.

  Lemma accepted_in i r (ev : list (event Msg Res)) : (i, r) ∈ accepted ev <-> EAccepted i r ∈ ev.
  Proof using.
    unfold accepted. rewrite elem_of_list_omap. split.
    - intros (e & He & E). destruct e; simplify_eq. done.
    - intros H. by exists (EAccepted i r).
  Qed.

  Lemma calls_accepted_below k u ops : Forall (fun x => x.1 < a_next (w_actor (wrun u ops).1)) (calls_accepted k (wrun u ops).2).
  Proof using.
    destruct (wrun_actor started handler tracked conv u ops) as [aops E].
    pose proof (binv_run started handler tracked u aops) as [B1 _]. rewrite E in B1. simpl in B1.
    apply Forall_forall. intros [i r] Hi. apply calls_accepted_in in Hi. simpl.
    assert (Ha : (i, r) ∈ accepted (map snd (wrun u ops).2)).
    { apply accepted_in. apply elem_of_list_fmap. by exists (Some k, EAccepted i r). }
    assert (Hs : i ∈ map fst (accepted (map snd (wrun u ops).2))) by (apply elem_of_list_fmap; by exists (i, r)).
    rewrite B1 in Hs. apply elem_of_seq in Hs. lia.
  Qed.

  Definition kinv (k : nat) (w : world) (tr : list tagged) : Prop :=
    rising (calls_accepted k tr) /\
    map snd (calls_accepted k tr) `prefix_of` calls k tr /\
    (a_phase (w_actor w) <> PDone -> map snd (calls_accepted k tr) = calls k tr).

  Lemma kinv_run k u ops : kinv k (wrun u ops).1 (wrun u ops).2.
  Proof using.
    induction ops as [|o ops IH] using rev_ind.
    - unfold kinv. simpl. split; [constructor|]. done.
    - pose proof (calls_accepted_below k u ops) as Hb. rewrite wrun_snoc. destruct (wrun u ops) as [w tr]. cbn [fst snd] in *.
      pose proof (step_calls k w o) as Hs. pose proof (done_step w o) as Hd. destruct (wstep w o) as [w' ev]. cbn [fst snd] in *.
      destruct IH as (I1 & I2 & I3). unfold kinv. rewrite calls_app, calls_accepted_app.
      destruct Hs as [[-> ->]|(r & _ & -> & ->)].
      + rewrite !app_nil_r. split_and!; [done..|]. intros H. apply I3. intros H'. by apply H, Hd.
      + destruct (decide (a_phase (w_actor w) = PDone)) as [Hp|Hp].
        * rewrite app_nil_r. split_and!; [done|by apply prefix_app_r|]. intros H. exfalso. by apply H, Hd.
        * rewrite map_app, (I3 Hp). simpl. split_and!; [|done..]. by eapply rising_snoc.
  Qed.

  Lemma stream_handled_filter k u ops : 
    stream_handled k (wrun u ops).2 =
    map snd (List.filter (fun x => x.1 <? length (handled (map snd (wrun u ops).2))) (calls_accepted k (wrun u ops).2)).
  Proof using.
    destruct (wrun_actor started handler tracked conv u ops) as [aops E].
    pose proof (binv_run started handler tracked u aops) as (_ & B2 & _). rewrite E in B2. cbn [fst snd] in B2.
    unfold stream_handled. rewrite B2 at 1.
    destruct (kinv_run k u ops) as (I1 & _).
    apply (omap_at_number _ 0 (length (handled (map snd (wrun u ops).2)))); [done|]. apply Forall_forall. intros. lia.
  Qed.

  (** The actor handles a prefix of what it is to be sent, in order. *)
  Theorem handled_prefix k u ops : stream_handled k (wrun u ops).2 `prefix_of` expected (conv k) (given k ops).1 (given k ops).2.
  Proof using.
    rewrite stream_handled_filter. destruct (kinv_run k u ops) as (I1 & I2 & _).
    etransitivity; [|apply (calls_prefix started handler tracked conv)]. etransitivity; [|exact I2].
    destruct (filter_rising (calls_accepted k (wrun u ops).2) (length (handled (map snd (wrun u ops).2))) I1) as [l2 El].
    rewrite El at 2. rewrite map_app. by eexists.
  Qed.

  (** ** An actor that only stops when it is asked to *)

  Context (u : St).
  Hypothesis Hstart : (started u).2 = Continue.
  Hypothesis Hhandler : forall s m, (handler s m).2 = Continue.

  Lemma past_stop aops : past (a_phase (arun u aops).1) = true ->
    exists i ans, (i, RStop ans) ∈ take (length (handled (arun u aops).2)) (accepted (arun u aops).2).
  Proof using Hstart Hhandler.
    clear conv. induction aops as [|o aops IH] using rev_ind; [done|].
    pose proof (binv_run started handler tracked u aops) as (B1 & B2 & B3 & B4 & _ & B6 & _).
    rewrite run_concat_snoc. destruct (arun u aops) as [a tr]. cbn [fst snd] in *.
    pose proof (accepted_length a tr B1) as Hl.
    assert (Hkeep : forall ev, (exists i ans, (i, RStop ans) ∈ take (length (handled tr)) (accepted tr)) ->
      exists i ans, (i, RStop ans) ∈ take (length (handled (tr ++ ev))) (accepted (tr ++ ev))).
    { intros ev (i & ans & Hi). exists i, ans. rewrite handled_app, accepted_app, app_length.

      assert (Hp : take (length (handled tr)) (accepted tr) `prefix_of` take (length (handled tr) + length (handled ev)) (accepted tr ++ accepted ev)).
      { rewrite <- (take_app_le (accepted tr) (accepted ev)) by lia. 
        exists (take (length (handled ev)) (drop (length (handled tr)) (accepted tr ++ accepted ev))). by rewrite take_take_drop. }
      destruct Hp as [l2 ->]. apply elem_of_app. by left. }
    destruct o as [r|].
    - simpl. unfold send. intros Hp. destruct (a_phase a) eqn:Ep; simpl in *; try done; apply Hkeep, IH; done.
    - simpl. unfold tick. destruct (a_phase a) eqn:Ep.
      + unfold run_started. destruct (B6 eq_refl) as [-> _]. destruct (started u) as [u' e]. simpl in Hstart. subst e. done.
      + destruct (a_queue a) as [|[i r] q] eqn:Eq; [simpl; by rewrite Ep|].
        specialize (B4 ltac:(done)).
        assert (Hat : accepted tr !! length (handled tr) = Some (i, r)).
        { apply (f_equal (fun l => l !! 0%nat)) in B4. rewrite lookup_drop, Nat.add_0_r in B4. by rewrite <- B4. }
        unfold run_message. destruct r as [m ans| |ans|id w|id]; try done.
        * pose proof (Hhandler (a_user a) m) as Hm. cbn [a_user]. destruct (handler (a_user a) m) as [[u' res] e]. simpl in Hm. subst e. done.
        * intros _. cbn [fst snd]. exists i, ans. rewrite handled_app, accepted_app, app_length. simpl. rewrite app_nil_r, Nat.add_1_r.
          rewrite (take_S_r _ _ _ Hat). apply elem_of_app. right. by left.
      + intros _. apply Hkeep, IH. done.
      + intros _. apply Hkeep, IH. done.
      + intros _. apply Hkeep, IH. done.
      + intros _. apply Hkeep, IH. done.
  Qed.

  Lemma other_origin ops i r : (None, EAccepted i r) ∈ (wrun u ops).2 -> WSend r ∈ ops.
  Proof using.
    clear Hstart Hhandler. induction ops as [|o ops IH] using rev_ind; [intros H; by apply elem_of_nil in H|].
    rewrite wrun_snoc. destruct (wrun u ops) as [w tr]. cbn [fst snd] in *.
    destruct (wstep w o) as [w' ev] eqn:E. cbn [fst snd]. intros H. apply elem_of_app in H as [H|H]; [apply elem_of_app; left; by apply IH|].
    apply elem_of_app. right. apply elem_of_list_singleton.
    assert (Hc : forall j r' s ev', task_call (Res:=Res) j r' s w = (w', ev') -> (None, EAccepted i r) ∉ ev').
    { intros j r' s ev' Ht Hin. unfold task_call in Ht. destruct (send r' (w_actor w)). simplify_eq.
      apply elem_of_list_fmap in Hin as (? & ? & _). done. }
    destruct o as [r'| |j x|j|j]; cbn [Attach_Model.wstep] in E.
    - unfold send in E. destruct (a_phase (w_actor w)); simplify_eq; simpl in H; apply elem_of_list_singleton in H; by simplify_eq.
    - pose proof (tick_accepts_none (w_actor w)) as Ha. destruct (tick started handler tracked (w_actor w)) as [a ev']. simplify_eq. exfalso.
      apply elem_of_list_fmap in H as (e & He & Hin). simplify_eq. apply accepted_in in Hin. simpl in Ha. rewrite Ha in Hin. by apply elem_of_nil in Hin.
    - destruct (_ || _); simplify_eq; by apply elem_of_nil in H.
    - simplify_eq. by apply elem_of_nil in H.
    - exfalso. unfold pull in E. destruct (st_over (stream_at j w)); [simplify_eq; by apply elem_of_nil in H|].
      destruct (st_items (stream_at j w)) as [|[x|] l].
      + destruct (st_closed (stream_at j w)); [|simplify_eq; by apply elem_of_nil in H]. by apply (Hc _ _ _ _ E).
      + destruct (conv j x); [|simplify_eq; by apply elem_of_nil in H]. by apply (Hc _ _ _ _ E).
      + by apply (Hc _ _ _ _ E).
  Qed.

  Lemma task_accepted_in j i r (tr : list tagged) : (Some j, EAccepted i r) ∈ tr -> (i, r) ∈ calls_accepted j tr /\ r ∈ calls j tr.
  Proof using.
    intros H. unfold calls_accepted, calls. rewrite !elem_of_list_omap. split; exists (Some j, EAccepted i r); by rewrite decide_True.
  Qed.

  Lemma stop_origin k ops i ans : no_stop ops -> (forall j, j <> k -> finished (given j ops) = false) ->
    (i, RStop ans) ∈ accepted (map snd (wrun u ops).2) -> (i, RStop false) ∈ calls_accepted k (wrun u ops).2 /\ RStop false ∈ calls k (wrun u ops).2.
  Proof using.
    intros Hn Hf Hi. apply accepted_in, elem_of_list_fmap in Hi as ([t e] & He & Hin). simpl in He. subst e.
    destruct t as [j|]; [|apply other_origin in Hin; by apply Hn in Hin].
    apply task_accepted_in in Hin as [Ha Hc].
    assert (He : RStop ans ∈ expected (conv j) (given j ops).1 (given j ops).2).
    { destruct (calls_prefix started handler tracked conv j u ops) as [l2 ->]. apply elem_of_app. by left. }
    assert (ans = false) as -> by (destruct (expected_kinds _ _ _ _ He) as [|[m ?]]; simplify_eq; done).
    apply expected_stop in He. rewrite <- surjective_pairing in He.
    destruct (decide (j = k)) as [->|Hj]; [done|]. rewrite Hf in He; done.
  Qed.

  Lemma finished_snoc j (ops : list wop) o : finished (given j ops) = true -> finished (given j (ops ++ [o])) = true.
  Proof using.
    rewrite given_snoc. unfold finished. intros H. destruct (given j ops) as [l b]. simpl in *. destruct b; [done|]. simpl in H.
    destruct o as [| |j' x|j'|]; try done; destruct (decide (j' = j)); simpl; try done. by rewrite existsb_app, H.
  Qed.

  Lemma all_accepted k ops : no_stop ops -> (forall j, j <> k -> finished (given j ops) = false) ->
    map snd (calls_accepted k (wrun u ops).2) = calls k (wrun u ops).2.
  Proof using Hstart Hhandler.
    induction ops as [|o ops IH] using rev_ind; [done|]. intros Hn Hf.
    assert (Hn' : no_stop ops) by (intros a Ha; apply (Hn a), elem_of_app; by left).
    assert (Hf' : forall j, j <> k -> finished (given j ops) = false).
    { intros j Hj. destruct (finished (given j ops)) eqn:E; [|done]. apply (finished_snoc j ops o) in E. rewrite Hf in E; done. }
    specialize (IH Hn' Hf').
    pose proof (stop_origin k ops) as Hso. destruct (wrun_actor started handler tracked conv u ops) as [aops Ea].
    pose proof (past_stop aops) as Hps. rewrite Ea in Hps. cbn [fst snd] in Hps.
    pose proof (calls_prefix started handler tracked conv k u (ops ++ [o])) as Hpre. revert Hpre.
    rewrite wrun_snoc. destruct (wrun u ops) as [w tr]. cbn [fst snd] in *.
    pose proof (step_calls k w o) as Hs. destruct (wstep w o) as [w' ev]. cbn [fst snd] in *.
    rewrite calls_app, calls_accepted_app. destruct Hs as [[-> ->]|(r & _ & -> & ->)]; [by rewrite !app_nil_r|].
    intros Hpre. destruct (decide (a_phase (w_actor w) = PDone)) as [Hp|Hp]; [|by rewrite map_app, IH].
    exfalso. destruct Hps as (i & ans & Hi); [by rewrite Hp|]. apply elem_of_take in Hi as (p & Hi & _). apply elem_of_list_lookup_2 in Hi.
    destruct (Hso i ans Hn' Hf' Hi) as [_ Hin].
    apply elem_of_list_split in Hin as (l1 & l2 & El). destruct Hpre as [l3 E3]. rewrite El in E3.
    rewrite <- !app_assoc in E3. simpl in E3. apply expected_last in E3. by destruct l2.
  Qed.

  (** Everything the stream gave is handled, and then the actor stops. *)
  Theorem handled_all k ops n t : no_stop ops -> (forall j, j <> k -> finished (given j ops) = false) -> finished (given k ops) = true ->
    S (length (given k ops).1) <= n -> length (accepted (map snd (wrun u (ops ++ repeat (WPull k) n)).2)) + 3 < t ->
    let x := wrun u (ops ++ repeat (WPull k) n ++ repeat WTick t) in
    a_phase (w_actor x.1) = PDone /\ stream_handled k x.2 = expected (conv k) (given k ops).1 (given k ops).2.
  Proof using Hstart Hhandler.
    intros Hn Hf Hk Hpn Ht x. set (ops1 := ops ++ repeat (WPull k) n) in *.
    assert (Hx : x = wrun u (ops1 ++ repeat WTick t)) by (unfold x, ops1; by rewrite app_assoc). rewrite Hx. clear x Hx.
    assert (Hn1 : no_stop ops1).
    { intros a Ha. apply elem_of_app in Ha as [Ha|Ha]; [by apply (Hn a)|]. apply elem_of_list_In, repeat_spec in Ha. done. }
    assert (Hg1 : forall j, given j ops1 = given j ops) by (intros; apply given_pulls).
    assert (Hc1 : calls k (wrun u ops1).2 = expected (conv k) (given k ops).1 (given k ops).2) by (by apply calls_all).
    destruct (wrun_actor started handler tracked conv u ops1) as [aops Ea].
    pose proof (wrun_ticks started handler tracked conv u ops1 aops t Ea) as Ea2.
    set (ops2 := ops1 ++ repeat WTick t) in *.
    assert (Hn2 : no_stop ops2).
    { intros a Ha. apply elem_of_app in Ha as [Ha|Ha]; [by apply (Hn1 a)|]. apply elem_of_list_In, repeat_spec in Ha. done. }
    assert (Hg2 : forall j, given j ops2 = given j ops) by (intros; unfold ops2; by rewrite given_ticks, Hg1).
    assert (Hf2 : forall j, j <> k -> finished (given j ops2) = false) by (intros; rewrite Hg2; auto).
    assert (Hf1 : forall j, j <> k -> finished (given j ops1) = false) by (intros; rewrite Hg1; auto).
    (* the stop has been accepted *)
    assert (Hstop : exists i, (i, RStop false) ∈ calls_accepted k (wrun u ops1).2).
    { rewrite (surjective_pairing (given k ops)) in Hk. apply (expected_stop (conv k)) in Hk. rewrite <- Hc1 in Hk.
      rewrite <- (all_accepted k ops1 Hn1 Hf1) in Hk. apply elem_of_list_fmap in Hk as ([i r] & Er & Hi). simpl in Er. subst r. by exists i. }
    destruct Hstop as [i Hi].
    assert (Hin : (i, RStop false) ∈ accepted (map snd (wrun u ops1).2)).
    { apply accepted_in, elem_of_list_fmap. exists (Some k, EAccepted i (RStop false)). split; [done|]. by apply calls_accepted_in. }
    assert (Hdone : a_phase (w_actor (wrun u ops2).1) = PDone).
    { pose proof (stop_completes started handler tracked u aops t i false) as Hsc. rewrite Ea in Hsc. rewrite Ea2 in Hsc. cbn [fst snd] in Hsc. by apply Hsc. }
    split; [done|].
    assert (Hc2 : calls k (wrun u ops2).2 = expected (conv k) (given k ops).1 (given k ops).2).
    { rewrite <- Hc1. unfold ops2. clear. induction t as [|t IH]; [simpl; by rewrite app_nil_r|].
      replace (S t) with (t + 1) by lia. rewrite repeat_app, app_assoc. simpl. rewrite wrun_snoc.
      destruct (wrun u (ops1 ++ repeat WTick t)) as [w tr]. simpl in *. destruct (tick _ _ _ _) as [a ev]. simpl. rewrite calls_app.
      pose proof (calls_none k ev) as [-> _]. by rewrite app_nil_r. }
    rewrite stream_handled_filter, <- Hc2, <- (all_accepted k ops2 Hn2 Hf2). f_equal.
    (* the stop is the last call and has been handled *)
    pose proof (past_stop (aops ++ repeat OTick t)) as Hps. rewrite Ea2 in Hps. cbn [fst snd] in Hps. rewrite Hdone in Hps.
    destruct Hps as (i' & ans & Hi'); [done|]. apply elem_of_take in Hi' as (p & Hi' & Hlt).
    pose proof (binv_run started handler tracked u (aops ++ repeat OTick t)) as (B1 & _). rewrite Ea2 in B1. cbn [fst snd] in B1.
    assert (i' = p) as ->.
    { apply (f_equal (fun l => l !! p)) in B1. rewrite list_lookup_fmap, Hi' in B1. simpl in B1. symmetry in B1. apply lookup_seq in B1 as [-> _]. done. }
    apply elem_of_list_lookup_2 in Hi'. destruct (stop_origin k ops2 p ans Hn2 Hf2 Hi') as [Hpa _].
    destruct (kinv_run k u ops2) as (I1 & _).
    apply elem_of_list_split in Hpa as (l1 & l2 & El).
    assert (l2 = []) as ->.
    { pose proof (all_accepted k ops2 Hn2 Hf2) as Hall. rewrite Hc2, El, map_app in Hall. simpl in Hall. symmetry in Hall. apply expected_last in Hall. by destruct l2. }
    rewrite El in *. clear -I1 Hlt. 
    assert (Hall : Forall (fun x => x.1 <= p) (l1 ++ [(p, RStop false)])).
    { clear Hlt. induction l1 as [|y l1 IH]; [constructor; [done|constructor]|]. simpl in *. apply StronglySorted_inv in I1 as [I1 Hy].
      constructor; [|by apply IH]. rewrite Forall_forall in Hy. specialize (Hy (p, RStop false)). simpl in Hy. apply Nat.lt_le_incl, Hy. apply elem_of_app. right. by left. }
    revert Hall. generalize (l1 ++ [(p, RStop (Msg:=Msg) false)]). intros l. induction 1 as [|y l Hy _ IH]; [done|]. simpl.
    replace (y.1 <? _) with true by (symmetry; apply Nat.ltb_lt; lia). by rewrite IH.
  Qed.
End proofs.
