(** Proofs about the actor loop: what stop callers get, watchers, progress. *)
From Verif Require Import Actor_Model Actor_Spec Actor_Proofs Actor_Proofs2.

Section proofs.
  Context {St Msg Res : Type}.
  Context (started : St -> St * effect) (handler : St -> Msg -> St * Res * effect) (tracked : bool).
  Notation event := (event Msg Res).
  Notation request := (request Msg).
  Notation actor := (actor St Msg).
  Notation arun := (arun started handler tracked).
  Notation astep := (astep started handler tracked).

  Theorem one_outcome u ops i : (count (is_outcome i) (arun u ops).2 <= 1)%nat.
  Proof using. destruct (outcomes started handler tracked u ops) as (H & _). specialize (H i). unfold total in H. lia. Qed.

  Theorem done_outcome u ops i r : a_phase (arun u ops).1 = PDone ->
    (i, r) ∈ accepted (arun u ops).2 -> awaits r = true -> count (is_outcome i) (arun u ops).2 = 1%nat.
  Proof using.
    intros Hd Hin Haw. destruct (outcomes started handler tracked u ops) as (_ & _ & H). specialize (H i r Hin Haw).
    unfold total, pend in H. rewrite (closing_on_stopped started handler tracked u ops (or_intror Hd)) in H.
    destruct (binv_run started handler tracked u ops) as (_ & _ & _ & _ & H5 & _). rewrite (H5 Hd) in H.
    unfold occ in H. simpl in H. lia.
  Qed.

  (** ** Which request an answer belongs to *)

  Definition origin (acc : list (nat * request)) (e : event) : Prop :=
    match e with
    | EReply i _ => exists m, (i, RUser m true) ∈ acc
    | EStatusReply i _ => (i, RStatus) ∈ acc
    | EStopAnswered i => (i, RStop true) ∈ acc
    | EDiscarded i => exists r, (i, r) ∈ acc
    | _ => True
    end.

  Lemma origin_mono acc acc' e : acc ⊆ acc' -> origin acc e -> origin acc' e.
  Proof using. intros Hs. destruct e; simpl; try set_solver. Qed.

  Definition oinv (a : actor) (tr : list event) : Prop :=
    Forall (origin (accepted tr)) tr /\ (forall i, i ∈ a_on_stopped a -> (i, RStop true) ∈ accepted tr) /\
    (forall x, x ∈ a_queue a -> x ∈ accepted tr).

  Lemma origin_discards acc (l : list nat) : (forall i, i ∈ l -> exists r, (i, r) ∈ acc) -> Forall (origin acc) (map EDiscarded l).
  Proof using. intros H. apply Forall_forall. intros e He. apply elem_of_list_fmap in He as (x & -> & Hx). simpl. auto. Qed.

  Lemma origin_finish acc (b : actor) : (forall x, x ∈ a_queue b -> x ∈ acc) -> Forall (origin acc) (finish (Res:=Res) b).2.
  Proof using.
    intros H. simpl. apply Forall_app. split.
    - apply Forall_forall. intros e He. apply elem_of_list_fmap in He as ([i r] & -> & Hx). simpl. eauto.
    - destruct (a_reported b); repeat constructor.
  Qed.

  Lemma origin_crash acc (b : actor) : (forall x, x ∈ a_queue b -> x ∈ acc) ->
    (forall i, i ∈ a_on_stopped b -> (i, RStop true) ∈ acc) -> Forall (origin acc) (crash (Res:=Res) b).2.
  Proof using.
    intros Hq Ho. unfold crash. pose proof (origin_finish acc b Hq) as H. cbn [finish snd] in H |- *.
    constructor; [done|]. apply Forall_app. split; [|exact H]. apply origin_discards. intros i Hi. eauto.
  Qed.

  Lemma oinv_tick_aux a tr a' ev :
    oinv a tr -> Forall (origin (accepted tr)) ev -> accepted ev = [] ->
    (forall i, i ∈ a_on_stopped a' -> (i, RStop true) ∈ accepted tr) ->
    (forall x, x ∈ a_queue a' -> x ∈ accepted tr) -> oinv a' (tr ++ ev).
  Proof using.
    intros (H1 & H2 & H3) Hev He Ho Hq. unfold oinv. rewrite accepted_app, He, app_nil_r.
    split_and!; [|done|done]. apply Forall_app. by split.
  Qed.

  Lemma crash_shape (b : actor) : exists ev, crash (Res:=Res) b = (Actor PDone (a_user b) [] (a_next b) [] ∅ true, ev) /\ accepted ev = [].
  Proof using.
    unfold crash. cbn [finish]. eexists. split; [reflexivity|].
    pose proof (quiet_finish (Res:=Res) b) as H. cbn [finish snd] in H.
    apply quiet_proj. constructor; [done|]. apply Forall_app. split; [|exact H].
    apply Forall_forall. intros e He. apply elem_of_list_fmap in He as (x & -> & _). done.
  Qed.

  Lemma oinv_step a tr o : oinv a tr -> oinv (astep a o).1 (tr ++ (astep a o).2).
  Proof using.
    intros H. pose proof H as (H1 & H2 & H3). destruct o as [r|].
    - simpl. unfold send. destruct (a_phase a); simpl.
      6: (apply (oinv_tick_aux a); [done|by repeat constructor|done|done|done]).
      all: unfold oinv; simpl; rewrite accepted_app; simpl;
        (split_and!; [apply Forall_app; split; [|by repeat constructor];
           eapply Forall_impl; [exact H1|]; intros e; apply origin_mono; set_solver
         |intros i Hi; apply elem_of_app; left; auto
         |intros x Hx; apply elem_of_app in Hx as [Hx|Hx]; apply elem_of_app; [left; auto|right; set_solver]]).
    - simpl. unfold tick. destruct (a_phase a).
      + unfold run_started. destruct (started (a_user a)) as [u' e]. destruct e.
        * simpl. apply (oinv_tick_aux a); [done|by repeat constructor|done|done|done].
        * simpl. apply (oinv_tick_aux a); [done|by repeat constructor|done|done|done].
        * destruct (crash_shape (Actor PNew u' (a_queue a) (a_next a) (a_on_stopped a) (a_watchers a) false)) as (ev & Ec & Ha).
          pose proof (origin_crash (accepted tr) (Actor PNew u' (a_queue a) (a_next a) (a_on_stopped a) (a_watchers a) false) H3 H2) as Ho.
          rewrite Ec in Ho |- *. simpl in Ho |- *.
          apply (oinv_tick_aux a); [done|by constructor|exact Ha| |]; simpl; intros ? ?%elem_of_nil; done.
      + destruct (a_queue a) as [|[i r] q] eqn:Eq.
        { simpl. apply (oinv_tick_aux a); [done|constructor|done|done|by rewrite Eq]. }
        assert (Hi : (i, r) ∈ accepted tr) by (apply H3; left).
        assert (Hq : forall x, x ∈ q -> x ∈ accepted tr) by (intros x Hx; apply H3; by right).
        unfold run_message. destruct r as [m ans| |ans|id w|id]; simpl.
        * destruct (handler (a_user a) m) as [[u' res] e]. destruct e.
          -- simpl. apply (oinv_tick_aux a); [done| |by destruct ans|done|done].
             destruct ans; constructor; try done; constructor; try done. by exists m.
          -- simpl. apply (oinv_tick_aux a); [done| |by destruct ans|done|done].
             destruct ans; constructor; try done; constructor; try done. by exists m.
          -- destruct (crash_shape (Actor PRunning u' q (a_next a) (a_on_stopped a) (a_watchers a) (a_reported a))) as (ev & Ec & Ha).
             pose proof (origin_crash (accepted tr) (Actor PRunning u' q (a_next a) (a_on_stopped a) (a_watchers a) (a_reported a)) Hq H2) as Ho.
             unfold crash in Ec, Ho. cbn [finish] in Ec, Ho. injection Ec as Ec. simpl in Ho. rewrite Ec in Ho. simpl. rewrite Ec.
             apply (oinv_tick_aux a); [done| |exact Ha| |]; simpl; try (intros ? ?%elem_of_nil; done).
             constructor; [done|]. constructor; [by eexists|]. exact Ho.
        * apply (oinv_tick_aux a); [done| |done|done|done]. by repeat constructor.
        * apply (oinv_tick_aux a); [done| |done| |done]; [by repeat constructor|]. simpl.
          intros j Hj. apply elem_of_app in Hj as [Hj|Hj]; [auto|].
          destruct ans; [|by apply elem_of_nil in Hj]. apply elem_of_list_singleton in Hj as ->. done.
        * apply (oinv_tick_aux a); [done| |done|done|done]. by repeat constructor.
        * apply (oinv_tick_aux a); [done| |done|done|done]. by repeat constructor.
      + simpl. apply (oinv_tick_aux a); [done|by repeat constructor|done|done|done].
      + simpl. apply (oinv_tick_aux a); [done| | |by intros ? ?%elem_of_nil|done].
        * apply Forall_app. split; [destruct tracked; repeat constructor|].
          apply Forall_app. split.
          -- apply Forall_forall. intros e He. apply elem_of_list_fmap in He as (x & -> & Hx). simpl. auto.
          -- apply Forall_forall. intros e He. apply elem_of_list_fmap in He as (x & -> & Hx). done.
        * apply quiet_proj. apply Forall_app. split; [destruct tracked; repeat constructor|].
          apply Forall_app. split; apply Forall_forall; intros e He; apply elem_of_list_fmap in He as (x & -> & _); done.
      + apply (oinv_tick_aux a); [done| | |by intros ? ?%elem_of_nil|by intros ? ?%elem_of_nil].
        * by apply origin_finish.
        * apply quiet_proj, quiet_finish.
      + simpl. apply (oinv_tick_aux a); [done|by repeat constructor|done|done|done].
  Qed.

  Lemma oinv_run u ops : oinv (arun u ops).1 (arun u ops).2.
  Proof using.
    apply (arun_ind started handler tracked u oinv); [|apply oinv_step].
    split_and!; [constructor| |]; simpl; by intros ? ?%elem_of_nil.
  Qed.

  Lemma count_exists (tr : list event) i : (0 < count (is_outcome i) tr)%nat -> exists e, e ∈ tr /\ is_outcome i e = true.
  Proof using.
    unfold count. destruct (List.filter (is_outcome i) tr) as [|e l] eqn:E; simpl; [lia|]. intros _. exists e.
    assert (Hin : In e (List.filter (is_outcome i) tr)) by (rewrite E; by left).
    apply filter_In in Hin as [Hin ?]. split; [by apply elem_of_list_In|done].
  Qed.

  Theorem stop_answered u ops i : a_phase (arun u ops).1 = PDone -> (i, RStop true) ∈ accepted (arun u ops).2 ->
    EStopAnswered i ∈ (arun u ops).2 \/ EDiscarded i ∈ (arun u ops).2.
  Proof using.
    intros Hd Hin. pose proof (done_outcome u ops i _ Hd Hin eq_refl) as Hc.
    destruct (count_exists _ _ (ltac:(rewrite Hc; lia))) as (e & He & Ho).
    destruct (oinv_run u ops) as (Hor & _). rewrite Forall_forall in Hor. pose proof (Hor e He) as Hoe.
    destruct e; simpl in Ho; try discriminate Ho; apply Nat.eqb_eq in Ho as <-; simpl in Hoe; auto.
    - destruct Hoe as [m Hm]. by pose proof (accepted_in_unique started handler tracked u ops _ _ _ Hin Hm).
    - by pose proof (accepted_in_unique started handler tracked u ops _ _ _ Hin Hoe).
  Qed.

  Theorem unhandled_discarded u ops i m : a_phase (arun u ops).1 = PDone ->
    (i, RUser m true) ∈ accepted (arun u ops).2 -> i ∉ handled (arun u ops).2 ->
    EDiscarded i ∈ (arun u ops).2 /\ forall r, EReply i r ∉ (arun u ops).2.
  Proof using.
    intros Hd Hin Hnot. pose proof (done_outcome u ops i _ Hd Hin eq_refl) as Hc.
    destruct (count_exists _ _ (ltac:(rewrite Hc; lia))) as (e & He & Ho).
    destruct (oinv_run u ops) as (Hor & _). rewrite Forall_forall in Hor. pose proof (Hor e He) as Hoe.
    assert (Hno : forall r, EReply i r ∉ (arun u ops).2).
    { intros r Hr. apply Hnot. destruct (binv_run started handler tracked u ops) as (B1 & B2 & B3 & _ & _ & _ & _ & B8).
      assert (Hx : (i, r) ∈ replies (arun u ops).2).
      { unfold replies. apply elem_of_list_omap. eauto. }
      rewrite B8 in Hx.
      assert (Ha : forall l u0, (i, r) ∈ answers handler u0 l -> i ∈ map fst l).
      { induction l as [|[j q] l IH]; intros u0; simpl; [by intros ?%elem_of_nil|].
        destruct q; try (intros H%IH; by right).
        destruct (handler u0 m0) as [[u' r'] []]; intros H.
        - apply elem_of_app in H as [H|H]; [|right; by eapply IH].
          destruct answer; [|by apply elem_of_nil in H]. apply elem_of_list_singleton in H as [= -> ->]. left.
        - apply elem_of_app in H as [H|H]; [|right; by eapply IH].
          destruct answer; [|by apply elem_of_nil in H]. apply elem_of_list_singleton in H as [= -> ->]. left.
        - right; by eapply IH. }
      apply Ha in Hx. rewrite B2. rewrite <- firstn_map, B1 in Hx.
      replace (a_next (arun u ops).1) with (length (handled (arun u ops).2) + (a_next (arun u ops).1 - length (handled (arun u ops).2)))%nat in Hx by lia.
      rewrite seq_app in Hx. rewrite take_app_alt in Hx by (by rewrite seq_length). done. }
    split; [|done].
    destruct e; simpl in Ho; try discriminate Ho; apply Nat.eqb_eq in Ho as <-; simpl in Hoe; auto.
    - by apply Hno in He.
    - by pose proof (accepted_in_unique started handler tracked u ops _ _ _ Hin Hoe).
    - by pose proof (accepted_in_unique started handler tracked u ops _ _ _ Hin Hoe).
  Qed.

  (** ** Watchers *)

  Definition wstep (m : gmap string nat) (r : request) : gmap string nat :=
    match r with RWatch id w => <[id := w]> m | RUnwatch id => delete id m | _ => m end.
  Definition wmap (l : list request) : gmap string nat := fold_left wstep l ∅.
  Definition handled_requests (tr : list event) : list request := map snd (take (length (handled tr)) (accepted tr)).
  Definition told (m : gmap string nat) (w : nat) : nat := length (List.filter (Nat.eqb w) (map snd (map_to_list m))).

  Definition winv (a : actor) (tr : list event) : Prop :=
    match a_phase a with
    | PClosing => ECrashed ∉ tr /\ forall w, count (is_told w) tr = told (wmap (handled_requests tr)) w
    | PDone => (ECrashed ∈ tr /\ forall w, count (is_told w) tr = 0%nat) \/
               (forall w, count (is_told w) tr = told (wmap (handled_requests tr)) w)
    | _ => a_watchers a = wmap (handled_requests tr) /\ ECrashed ∉ tr /\ forall w, count (is_told w) tr = 0%nat
    end.

  Lemma handled_requests_same (tr ev : list event) : accepted ev = [] -> handled ev = [] -> handled_requests (tr ++ ev) = handled_requests tr.
  Proof using. intros E1 E2. unfold handled_requests. by rewrite accepted_app, handled_app, E1, E2, !app_nil_r. Qed.

  Lemma not_told (ev : list event) w : Forall (fun e => match e with ETold _ => False | _ => True end) ev -> count (is_told w) ev = 0%nat.
  Proof using. unfold count. induction 1 as [|e l He _ IH]; [done|]. simpl. destruct e; try done. Qed.

  Lemma finish_not_told (b : actor) : Forall (fun e : event => match e with ETold _ => False | _ => True end) (finish (Res:=Res) b).2.
  Proof using.
    simpl. apply Forall_app. split; [|destruct (a_reported b); repeat constructor].
    apply Forall_forall. intros e He. apply elem_of_list_fmap in He as (x & -> & _). done.
  Qed.
  Lemma crash_not_told (b : actor) : Forall (fun e : event => match e with ETold _ => False | _ => True end) (crash (Res:=Res) b).2.
  Proof using.
    pose proof (finish_not_told b) as H. unfold crash. cbn [finish snd] in H |- *. constructor; [done|]. apply Forall_app.
    split; [|exact H]. apply Forall_forall. intros e He. apply elem_of_list_fmap in He as (x & -> & _). done.
  Qed.
  Lemma finish_not_crashed (b : actor) : ECrashed ∉ (finish (Res:=Res) b).2.
  Proof using.
    simpl. rewrite not_elem_of_app. split.
    - rewrite elem_of_list_fmap. intros (x & ? & _). discriminate.
    - destruct (a_reported b); [apply not_elem_of_nil|]. rewrite elem_of_list_singleton. discriminate.
  Qed.

  Lemma told_events (m : gmap string nat) w : count (is_told w) (map (fun x => ETold x.2) (map_to_list m) : list event) = told m w.
  Proof using.
    unfold count, told. induction (map_to_list m) as [|x l IH]; [done|]. simpl. destruct (Nat.eqb w x.2); simpl; by rewrite IH.
  Qed.

  Lemma winv_step u ops o : winv (arun u ops).1 (arun u ops).2 -> winv (arun u (ops ++ [o])).1 (arun u (ops ++ [o])).2.
  Proof using.
    intros H. pose proof (binv_run started handler tracked u ops) as B.
    rewrite run_concat_snoc. destruct (arun u ops) as [a tr]. cbn [fst snd] in H, B.
    assert (E : (let '(a', ev) := astep a o in (a', tr ++ ev)) = ((astep a o).1, tr ++ (astep a o).2)) by (by destruct (astep a o)).
    rewrite E. cbn [fst snd]. clear E.
    destruct o as [r|].
    - simpl. unfold send.
      assert (Hh : handled_requests (tr ++ [EAccepted (a_next a) r]) = handled_requests tr).
      { unfold handled_requests. rewrite accepted_app, handled_app. simpl. rewrite app_nil_r.
        destruct B as (B1 & _ & B3 & _). f_equal. apply take_app_le. rewrite (accepted_length a tr B1). done. }
      assert (Hh' : handled_requests (tr ++ [ERefused r]) = handled_requests tr) by (by apply handled_requests_same).
      unfold winv in *. destruct (a_phase a) eqn:Ep; simpl.
      6:{ rewrite Ep, Hh'. destruct H as [[Hc Hw]|H]; [left|right].
          - split; [set_solver|]. intros w. rewrite count_app, Hw. done.
          - intros w. rewrite count_app, H. unfold count; simpl. lia. }
      5:{ rewrite Hh. destruct H as [Hc Hw]. split; [set_solver|]. intros w. rewrite count_app, Hw. unfold count; simpl. lia. }
      all: rewrite Hh; destruct H as (Hw & Hc & Hz); split_and!; [done|set_solver|]; intros w; rewrite count_app, Hz; done.
    - unfold winv in *. simpl. unfold tick. destruct (a_phase a) eqn:Ep.
      + destruct H as (Hw & Hc & Hz). unfold run_started. destruct (started (a_user a)) as [u' e]. destruct e.
        * simpl. rewrite handled_requests_same by done. split_and!; [done|set_solver|]. intros w. rewrite count_app, Hz. done.
        * simpl. rewrite handled_requests_same by done. split_and!; [done|set_solver|]. intros w. rewrite count_app, Hz. done.
        * match goal with |- context [crash ?b] => pose proof (crash_not_told b) as Hcn; destruct (crash_shape b) as (ev & Ec & _) end.
          rewrite Ec in Hcn |- *. simpl in *. left. split.
          -- assert (ECrashed ∈ ev) by (unfold crash in Ec; simpl in Ec; injection Ec as <-; left). set_solver.
          -- intros w. rewrite count_app, Hz. by apply (not_told (EStartedHook :: ev)); constructor.
      + destruct H as (Hw & Hc & Hz). destruct (a_queue a) as [|[i r] q] eqn:Eq.
        { simpl. rewrite Ep, app_nil_r. done. }
        destruct B as (B1 & B2 & B3 & B4 & _). rewrite Ep in B4. specialize (B4 ltac:(done)). rewrite Eq in B4.
        assert (Hat : accepted tr !! length (handled tr) = Some (i, r)).
        { apply (f_equal (fun l => l !! 0%nat)) in B4. rewrite lookup_drop, Nat.add_0_r in B4. by rewrite <- B4. }
        assert (Hh : forall ev, accepted ev = [] -> handled ev = [] -> handled_requests (tr ++ EHandled i :: ev) = handled_requests tr ++ [r]).
        { intros ev E1 E2. unfold handled_requests. rewrite accepted_app, handled_app.
          change (accepted (EHandled i :: ev)) with (accepted ev). change (handled (EHandled i :: ev)) with (i :: handled ev).
          rewrite E1, E2, app_nil_r, app_length. simpl. rewrite Nat.add_1_r.
          rewrite (take_S_r _ _ _ Hat), map_app. done. }
        assert (Hwm : forall ev, accepted ev = [] -> handled ev = [] -> wmap (handled_requests (tr ++ EHandled i :: ev)) = wstep (wmap (handled_requests tr)) r).
        { intros ev E1 E2. rewrite Hh by done. unfold wmap. by rewrite fold_left_app. }
        unfold run_message. destruct r as [m ans| |ans|id w|id]; simpl.
        * destruct (handler (a_user a) m) as [[u' res] e]. destruct e.
          -- simpl. rewrite Hwm by (by destruct ans). split_and!; [done|destruct ans; set_solver|].
             intros w. rewrite count_app, Hz. by destruct ans.
          -- simpl. rewrite Hwm by (by destruct ans). split_and!; [done|destruct ans; set_solver|].
             intros w. rewrite count_app, Hz. by destruct ans.
          -- pose proof (crash_not_told (Actor PRunning u' q (a_next a) (a_on_stopped a) (a_watchers a) (a_reported a))) as Hcn.
             simpl in Hcn |- *. left. split; [set_solver|]. intros w. rewrite count_app, Hz.
             apply (not_told (EHandled i :: EDiscarded i :: _)). constructor; [done|]. constructor; [done|exact Hcn].
        * rewrite Ep || idtac. rewrite Hwm by done. split_and!; [done|set_solver|]. intros w. rewrite count_app, Hz. done.
        * rewrite Hwm by done. split_and!; [done|set_solver|]. intros w. rewrite count_app, Hz. done.
        * rewrite Hwm by done. split_and!; [simpl; by rewrite Hw|set_solver|]. intros v. rewrite count_app, Hz. done.
        * rewrite Hwm by done. split_and!; [simpl; by rewrite Hw|set_solver|]. intros v. rewrite count_app, Hz. done.
      + destruct H as (Hw & Hc & Hz). simpl. rewrite handled_requests_same by done. split_and!; [done|set_solver|].
        intros w. rewrite count_app, Hz. done.
      + destruct H as (Hw & Hc & Hz). simpl.
        match goal with |- context [tr ++ ?x] => assert (Hq : Forall quiet x) end.
        { apply Forall_app. split; [destruct tracked; repeat constructor|].
          apply Forall_app. split; apply Forall_forall; intros e He; apply elem_of_list_fmap in He as (x & -> & _); done. }
        apply quiet_proj in Hq as (E1 & E2 & _). rewrite handled_requests_same by done. split.
        * rewrite !not_elem_of_app. split_and!; [done| | |].
          -- destruct tracked; [rewrite elem_of_list_singleton; discriminate|apply not_elem_of_nil].
          -- rewrite elem_of_list_fmap. intros (x & ? & _). discriminate.
          -- rewrite elem_of_list_fmap. intros (x & ? & _). discriminate.
        * intros w. rewrite !count_app, Hz, told_events, <- Hw.
          rewrite !not_told; [done| |].
          -- apply Forall_forall; intros e He; apply elem_of_list_fmap in He as (x & -> & _); done.
          -- destruct tracked; repeat constructor.
      + destruct H as (Hc & Hw). right. intros w.
        pose proof (quiet_proj _ (quiet_finish (Res:=Res) a)) as (E1 & E2 & _).
        rewrite handled_requests_same by done. rewrite count_app, Hw, (not_told (finish a).2) by apply finish_not_told. lia.
      + simpl. rewrite Ep, app_nil_r. done.
  Qed.

  Lemma winv_run u ops : winv (arun u ops).1 (arun u ops).2.
  Proof using.
    induction ops as [|o ops IH] using rev_ind; [|by apply winv_step].
    simpl. split_and!; [done|apply not_elem_of_nil|done].
  Qed.

  Lemma told_spec w id (l : list request) : owns_id w id l ->
    (told (wmap l) w = if watching w id l then 1 else 0)%nat.
  Proof using.
    intros Ho.
    assert (H : (wmap l !! id = Some w <-> watching w id l = true) /\ forall id', wmap l !! id' = Some w -> id' = id).
    { induction l as [|r l IH] using rev_ind; [split; [done|]; intros id' H; done|].
      destruct IH as [I1 I2]. { intros id' w' Hin. apply Ho. apply in_or_app. by left. }
      unfold wmap, watching in *. rewrite !fold_left_app. simpl.
      destruct r as [m ans| |ans|j v|j]; simpl; try done.
      - specialize (Ho j v). rewrite in_app_iff in Ho. specialize (Ho ltac:(right; by left)).
        destruct (decide (v = w)) as [->|Hv].
        + assert (j = id) as -> by (by apply Ho). rewrite lookup_insert. split; [done|].
          intros id' H. destruct (decide (id = id')) as [->|]; [done|]. rewrite lookup_insert_ne in H by done. auto.
        + assert (j <> id) by tauto. rewrite lookup_insert_ne by done. split; [done|].
          intros id' H'. destruct (decide (j = id')) as [->|]; [rewrite lookup_insert in H'; congruence|].
          rewrite lookup_insert_ne in H' by done. auto.
      - destruct (decide (j = id)) as [->|Hj].
        + rewrite lookup_delete. split; [done|]. intros id' H. apply lookup_delete_Some in H as [_ H]. auto.
        + rewrite lookup_delete_ne by done. split; [done|]. intros id' H. apply lookup_delete_Some in H as [_ H]. auto. }
    destruct H as [H1 H2]. clear Ho. revert H1 H2. generalize (wmap l) as m. generalize (watching w id l) as b. intros b m H1 H2.
    unfold told. destruct b.
    - destruct H1 as [_ H1]. specialize (H1 eq_refl).
      rewrite <- (insert_delete m id w) by done.
      assert (Hp : map_to_list (<[id:=w]> (delete id m)) ≡ₚ (id, w) :: map_to_list (delete id m)) by apply map_to_list_insert, lookup_delete.
      assert (Hl : forall l1 l2 : list (string * nat), l1 ≡ₚ l2 -> length (List.filter (Nat.eqb w) (map snd l1)) = length (List.filter (Nat.eqb w) (map snd l2))).
      { induction 1; simpl; try (destruct (Nat.eqb _ _)); try (destruct (Nat.eqb _ _)); simpl; congruence. }
      rewrite (Hl _ _ Hp). simpl. rewrite Nat.eqb_refl. simpl. f_equal.
      assert (Hz : forall l1 : list (string * nat), (forall x, In x l1 -> x.2 <> w) -> length (List.filter (Nat.eqb w) (map snd l1)) = 0%nat).
      { induction l1 as [|x l1 IH]; [done|]. simpl. intros Hx. destruct (Nat.eqb_spec w x.2); [exfalso; by apply (Hx x); [left|]|]. auto. }
      apply Hz. intros [id' v] Hin Hv. simpl in Hv. subst v. apply elem_of_list_In, elem_of_map_to_list in Hin.
      apply lookup_delete_Some in Hin as [Hne Hin]. apply H2 in Hin. congruence.
    - assert (Hz : forall l1 : list (string * nat), (forall x, In x l1 -> x.2 <> w) -> length (List.filter (Nat.eqb w) (map snd l1)) = 0%nat).
      { induction l1 as [|x l1 IH]; [done|]. simpl. intros Hx. destruct (Nat.eqb_spec w x.2); [exfalso; by apply (Hx x); [left|]|]. auto. }
      apply Hz. intros [id' v] Hin Hv. simpl in Hv. subst v. apply elem_of_list_In, elem_of_map_to_list in Hin.
      pose proof (H2 _ Hin) as ->. apply H1 in Hin. done.
  Qed.

  (** ** Progress *)

  Fixpoint ticks (n : nat) (a : actor) : actor := match n with O => a | S n' => ticks n' (tick started handler tracked a).1 end.

  Lemma arun_ticks u ops n : (arun u (ops ++ repeat OTick n)).1 = ticks n (arun u ops).1.
  Proof using.
    revert ops. induction n as [|n IH]; intros ops; simpl; [by rewrite app_nil_r|].
    rewrite cons_middle, app_assoc, IH.
    rewrite run_concat_snoc. destruct (arun u ops) as [a tr]. simpl. by destruct (tick _ _ _ a).
  Qed.

  Definition past (p : phase) : bool := match p with PStopping | PCleanup | PClosing | PDone => true | _ => false end.

  Lemma past_ticks k b : past (a_phase b) = true -> past (a_phase (ticks k b)) = true.
  Proof using.
    revert b. induction k as [|k IHk]; intros b Hb; [done|]. simpl. apply IHk. unfold tick.
    destruct (a_phase b) eqn:E; try done; simpl. by rewrite E.
  Qed.

  Lemma ticks_past n a : past (a_phase a) = true -> (3 <= n)%nat -> a_phase (ticks n a) = PDone.
  Proof using.
    assert (Hd : forall n b, a_phase b = PDone -> a_phase (ticks n b) = PDone).
    { intros k. induction k as [|k IH]; intros b Hb; [done|]. simpl. apply IH. unfold tick. by rewrite Hb. }
    intros Hp Hn. do 3 (destruct n as [|n]; [lia|]). simpl. apply Hd.
    destruct (a_phase a) eqn:Ea; try done; unfold tick; rewrite Ea; simpl; try done. by rewrite Ea; simpl; rewrite Ea.
  Qed.

  Lemma tick_running a : a_phase a = PRunning ->
    a_phase (tick started handler tracked a).1 = PRunning /\ a_queue (tick started handler tracked a).1 = tail (a_queue a) /\
      (forall i ans q, a_queue a <> (i, RStop ans) :: q) \/
    past (a_phase (tick started handler tracked a).1) = true.
  Proof using.
    intros Hr. unfold tick. rewrite Hr. destruct (a_queue a) as [|[i r] q] eqn:Eq; [left; simpl; by rewrite Eq|].
    unfold run_message. destruct r as [m ans| |ans|id w|id]; simpl; try (left; done); try (by right).
    destruct (handler (a_user a) m) as [[u' res] []]; simpl; [left; done|right; done|right; done].
  Qed.

  Lemma ticks_add n m a : ticks (n + m) a = ticks m (ticks n a).
  Proof using. revert a. induction n as [|n IH]; intros a; [done|]. simpl. apply IH. Qed.

  Lemma ticks_running n a : a_phase a = PRunning -> (length (a_queue a) <= n)%nat ->
    (a_phase (ticks n a) = PRunning /\ a_queue (ticks n a) = [] /\ (forall i ans, (i, RStop ans) ∉ a_queue a)) \/
    past (a_phase (ticks n a)) = true.
  Proof using.
    revert a. induction n as [|n IH]; intros a Hr Hl; simpl.
    { left. destruct (a_queue a); [|simpl in Hl; lia]. split_and!; [done..|]. intros i ans. apply not_elem_of_nil. }
    destruct (tick_running a Hr) as [(H1 & H2 & H3)|Hp]; [|right; by apply past_ticks].
    destruct (IH _ H1) as [(E1 & E2 & E3)|?]; [|left|by right].
    - rewrite H2. destruct (a_queue a); simpl in *; lia.
    - split_and!; [done..|]. intros i ans Hin. rewrite H2 in E3. destruct (a_queue a) as [|x q]; [by apply elem_of_nil in Hin|].
      apply elem_of_cons in Hin as [<-|Hin]; [by apply (H3 i ans q)|]. by apply (E3 i ans).
  Qed.

  Lemma tick_new a : a_phase a = PNew -> a_queue (tick started handler tracked a).1 = a_queue a /\ a_phase (tick started handler tracked a).1 = PRunning \/
    past (a_phase (tick started handler tracked a).1) = true.
  Proof using.
    intros Hn. unfold tick. rewrite Hn. unfold run_started. destruct (started (a_user a)) as [u' []]; simpl; auto.
  Qed.

  Lemma queue_le u ops : (length (a_queue (arun u ops).1) <= length (accepted (arun u ops).2))%nat.
  Proof using.
    destruct (binv_run started handler tracked u ops) as (_ & _ & _ & B4 & B5 & _).
    destruct (decide (a_phase (arun u ops).1 = PDone)) as [Hd|Hd].
    - rewrite (B5 Hd). simpl. lia.
    - rewrite (B4 Hd), drop_length. lia.
  Qed.

  (** If the actor is still running after enough steps it has handled everything. *)
  Theorem all_handled u ops n : (length (accepted (arun u ops).2) < n)%nat ->
    let r := arun u (ops ++ repeat OTick n) in
    a_phase r.1 = PRunning -> handled r.2 = map fst (accepted (arun u ops).2).
  Proof using.
    intros Hn r Hr.
    assert (Hq : a_queue r.1 = []).
    { unfold r in *. rewrite arun_ticks in *. pose proof (queue_le u ops) as Hle.
      destruct (a_phase (arun u ops).1) eqn:Ep.
      - destruct n as [|n]; [lia|]. simpl in *. destruct (tick_new _ Ep) as [[H1 H2]|Hp].
        + destruct (ticks_running n _ H2) as [(? & ? & _)|Hp]; [rewrite H1; lia|done|by rewrite Hr in Hp].
        + destruct (decide (3 <= n)%nat); [rewrite ticks_past in Hr by done; done|].
          exfalso. clear -Hp Hr.
          apply (past_ticks n) in Hp. by rewrite Hr in Hp.
      - destruct (ticks_running n _ Ep) as [(? & ? & _)|Hp]; [lia|done|by rewrite Hr in Hp].
      - exfalso.
        assert (Hp : past (a_phase (arun u ops).1) = true) by (by rewrite Ep). apply (past_ticks n) in Hp. by rewrite Hr in Hp.
      - exfalso.
        assert (Hp : past (a_phase (arun u ops).1) = true) by (by rewrite Ep). apply (past_ticks n) in Hp. by rewrite Hr in Hp.
      - exfalso.
        assert (Hp : past (a_phase (arun u ops).1) = true) by (by rewrite Ep). apply (past_ticks n) in Hp. by rewrite Hr in Hp.
      - exfalso.
        assert (Hp : past (a_phase (arun u ops).1) = true) by (by rewrite Ep). apply (past_ticks n) in Hp. by rewrite Hr in Hp. }
    destruct (binv_run started handler tracked u (ops ++ repeat OTick n)) as (B1 & B2 & B3 & B4 & _). fold r in B1, B2, B3, B4.
    rewrite Hr in B4. specialize (B4 ltac:(done)). rewrite Hq in B4.
    assert (Hlen : length (accepted r.2) = length (handled r.2)).
    { pose proof (accepted_length _ _ B1). apply (f_equal length) in B4. rewrite drop_length in B4. simpl in B4. lia. }
    rewrite B2, <- Hlen. rewrite (accepted_length _ _ B1), <- B1. f_equal.
    (* ticks accept nothing *)
    unfold r. clear. induction n as [|n IH] using nat_ind; [by rewrite app_nil_r|].
    replace (S n) with (n + 1)%nat by lia. rewrite repeat_app, app_assoc. simpl. rewrite run_concat_snoc.
    destruct (arun u (ops ++ repeat OTick n)) as [a tr]. simpl in IH |- *.
    assert (Ht : accepted (tick started handler tracked a).2 = []).
    { unfold tick. destruct (a_phase a); simpl; try done.
      - unfold run_started. destruct (started (a_user a)) as [u' []]; try done.
        match goal with |- context [crash ?b] => destruct (crash_shape b) as (ev & -> & Ha) end. simpl. exact Ha.
      - destruct (a_queue a) as [|[i r] q]; [done|]. unfold run_message. destruct r as [m ans| |ans|id w|id]; try done.
        simpl. destruct (handler (a_user a) m) as [[u' res] []]; try (by destruct ans).
        destruct (crash_shape (Actor PRunning u' q (a_next a) (a_on_stopped a) (a_watchers a) (a_reported a))) as (ev & Ec & Ha).
        unfold crash in Ec. simpl in Ec. injection Ec as Ec. rewrite <- Ec in Ha. exact Ha.
      - apply quiet_proj. apply Forall_app. split; [destruct tracked; repeat constructor|].
        apply Forall_app. split; apply Forall_forall; intros e He; apply elem_of_list_fmap in He as (x & -> & _); done.
      - apply (quiet_proj _ (quiet_finish (Res:=Res) a)). }
    destruct (tick started handler tracked a) as [a' ev]. simpl in Ht |- *. by rewrite accepted_app, Ht, app_nil_r.
  Qed.

  Lemma no_stop_handled u ops : past (a_phase (arun u ops).1) = false ->
    Forall (fun r => match r with RStop _ => False | _ => True end) (handled_requests (arun u ops).2).
  Proof using.
    induction ops as [|o ops IH] using rev_ind; [constructor|].
    pose proof (binv_run started handler tracked u ops) as (B1 & B2 & B3 & B4 & _).
    rewrite run_concat_snoc. destruct (arun u ops) as [a tr]. cbn [fst snd] in *.
    pose proof (accepted_length a tr B1) as Hl. destruct o as [r|].
    - simpl. unfold send.
      assert (Hh : handled_requests (tr ++ [EAccepted (a_next a) r]) = handled_requests tr).
      { unfold handled_requests. rewrite accepted_app, handled_app. simpl. rewrite app_nil_r.
        f_equal. apply take_app_le. lia. }
      destruct (a_phase a) eqn:Ep; simpl; try done; rewrite ?Hh; auto.
      intros Hx. by rewrite Ep in Hx.
    - simpl. unfold tick. destruct (a_phase a) eqn:Ep; simpl; try done.
      + unfold run_started. destruct (started (a_user a)) as [u' []]; simpl; try done.
        rewrite handled_requests_same by done. auto.
      + destruct (a_queue a) as [|[i r] q] eqn:Eq.
        { simpl. rewrite app_nil_r. auto. }
        specialize (B4 ltac:(done)).
        assert (Hat : accepted tr !! length (handled tr) = Some (i, r)).
        { apply (f_equal (fun l => l !! 0%nat)) in B4. rewrite lookup_drop, Nat.add_0_r in B4. by rewrite <- B4. }
        assert (Hh : forall ev, accepted ev = [] -> handled ev = [] -> handled_requests (tr ++ EHandled i :: ev) = handled_requests tr ++ [r]).
        { intros ev E1 E2. unfold handled_requests. rewrite accepted_app, handled_app.
          change (accepted (EHandled i :: ev)) with (accepted ev). change (handled (EHandled i :: ev)) with (i :: handled ev).
          rewrite E1, E2, app_nil_r, app_length. simpl. rewrite Nat.add_1_r.
          rewrite (take_S_r _ _ _ Hat), map_app. done. }
        specialize (IH eq_refl).
        unfold run_message. destruct r as [m ans| |ans|id w|id]; simpl.
        * destruct (handler (a_user a) m) as [[u' res] []]; simpl; try done. intros _.
          rewrite Hh by (by destruct ans). apply Forall_app. split; [done|by repeat constructor].
        * intros _. rewrite Hh by done. apply Forall_app. split; [done|by repeat constructor].
        * done.
        * intros _. rewrite Hh by done. apply Forall_app. split; [done|by repeat constructor].
        * intros _. rewrite Hh by done. apply Forall_app. split; [done|by repeat constructor].
      + by rewrite Ep.
  Qed.

  (** A stop request that has been accepted is carried out. *)
  Theorem stop_completes u ops n i ans : (i, RStop ans) ∈ accepted (arun u ops).2 ->
    (length (accepted (arun u ops).2) + 3 < n)%nat -> a_phase (arun u (ops ++ repeat OTick n)).1 = PDone.
  Proof using.
    intros Hin Hn. rewrite arun_ticks. pose proof (queue_le u ops) as Hle.
    assert (Hrun : forall b, a_phase b = PRunning -> (i, RStop ans) ∈ a_queue b -> forall k, (length (a_queue b) + 3 <= k)%nat -> a_phase (ticks k b) = PDone).
    { intros b Hb Hq k Hk. replace k with (length (a_queue b) + (k - length (a_queue b)))%nat by lia. rewrite ticks_add.
      apply ticks_past; [|lia]. destruct (ticks_running (length (a_queue b)) b Hb) as [(_ & _ & Hx)|]; [done| |done].
      by apply Hx in Hq. }
    destruct (binv_run started handler tracked u ops) as (B1 & B2 & B3 & B4 & _ & B6 & _).
    destruct (a_phase (arun u ops).1) eqn:Ep.
    - destruct n as [|n]; [lia|]. simpl. destruct (tick_new _ Ep) as [[H1 H2]|Hp].
      + apply Hrun; [done| |rewrite H1; lia]. rewrite H1, B4 by done. destruct B6 as [_ ->]; [done|]. done.
      + apply ticks_past; [done|lia].
    - (* running: the stop request is still queued *)
      apply Hrun; [done| |lia]. rewrite B4 by done.
      pose proof (no_stop_handled u ops) as Hns. rewrite Ep in Hns. specialize (Hns eq_refl).
      rewrite <- (take_drop (length (handled (arun u ops).2)) (accepted (arun u ops).2)) in Hin.
      apply elem_of_app in Hin as [Hin|Hin]; [|done]. exfalso.
      rewrite Forall_forall in Hns. unfold handled_requests in Hns. apply (Hns (RStop ans)).
      apply elem_of_list_fmap. by exists (i, RStop ans).
    - apply ticks_past; [by rewrite Ep|lia].
    - apply ticks_past; [by rewrite Ep|lia].
    - apply ticks_past; [by rewrite Ep|lia].
    - apply ticks_past; [by rewrite Ep|lia].
  Qed.
End proofs.
