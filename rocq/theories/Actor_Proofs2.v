(** Proofs about the actor loop: lifecycle order, outcomes, watchers, progress. *)
From Verif Require Import Actor_Model Actor_Spec Actor_Proofs.

Section proofs.
  Context {St Msg Res : Type}.
  Context (started : St -> St * effect) (handler : St -> Msg -> St * Res * effect) (tracked : bool).
  Notation event := (event Msg Res).
  Notation request := (request Msg).
  Notation actor := (actor St Msg).
  Notation arun := (arun started handler tracked).
  Notation astep := (astep started handler tracked).

  (** ** Lifecycle automaton *)

  Inductive lstate := L0 | L1 | LR | LS (reported : bool) | LC (reported : bool).

  Definition life (s : lstate) (e : event) : option lstate :=
    match e, s with
    | EStartedHook, L0 => Some L1
    | EStartReported, L1 => Some LR
    | (EHandled _ | EReply _ _ | EStatusReply _ _), LR => Some LR
    | EStoppedHook, L1 => Some (LS false)
    | EStoppedHook, LR => Some (LS true)
    | (EDeregistered | EStopAnswered _ | ETold _), LS b => Some (LS b)
    | ECrashed, L1 => Some (LC false)
    | ECrashed, LR => Some (LC true)
    | EDiscarded _, (LR | LS _ | LC _) => Some s
    | EStartFailed, LS false => Some (LS true)
    | EStartFailed, LC false => Some (LC true)
    | EAccepted _ _, (L0 | L1 | LR | LS _) => Some s
    | ERefused _, (LS true | LC true) => Some s
    | _, _ => None
    end.

  Fixpoint lives (s : lstate) (tr : list event) : option lstate :=
    match tr with [] => Some s | e :: tr' => life s e ≫= fun s' => lives s' tr' end.

  Lemma lives_app s t1 t2 : lives s (t1 ++ t2) = lives s t1 ≫= fun s' => lives s' t2.
  Proof using.
    revert s. induction t1 as [|e t1 IH]; intros s; [done|]. simpl. destruct (life s e); simpl; [apply IH|done].
  Qed.

  Lemma lives_same s tr : Forall (fun e => life s e = Some s) tr -> lives s tr = Some s.
  Proof using. induction 1 as [|e tr He _ IH]; [done|]. simpl. by rewrite He. Qed.

  Definition lmatch (a : actor) (l : lstate) : Prop :=
    match a_phase a with
    | PNew => l = L0 /\ a_reported a = false
    | PRunning => l = LR /\ a_reported a = true
    | PStopping => (l = LR /\ a_reported a = true) \/ (l = L1 /\ a_reported a = false)
    | PCleanup | PClosing => l = LS (a_reported a)
    | PDone => l = LS true \/ l = LC true
    end /\ (a_on_stopped a <> [] -> a_phase a = PStopping \/ a_phase a = PCleanup).

  Lemma lives_discards s l : (exists b, s = LS b \/ s = LC b) -> lives s (map (fun x : nat * request => EDiscarded x.1) l) = Some s.
  Proof using.
    intros Hs. apply lives_same, Forall_forall. intros e He. apply elem_of_list_fmap in He as (x & -> & _).
    destruct Hs as [b [-> | ->]]; done.
  Qed.

  Lemma lives_finish (a : actor) l : (l = LS (a_reported a) \/ l = LC (a_reported a)) ->
    exists l', lives l (finish (Res:=Res) a).2 = Some l' /\ (l' = LS true \/ l' = LC true).
  Proof using.
    intros Hl. unfold finish; simpl. rewrite lives_app, lives_discards by naive_solver. simpl.
    destruct (a_reported a); destruct Hl as [-> | ->]; simpl; eauto.
  Qed.

  Lemma lmatch_step a l o : lmatch a l -> exists l', lives l (astep a o).2 = Some l' /\ lmatch (astep a o).1 l'.
  Proof using.
    intros [H Ho]. destruct o as [r|].
    - simpl. unfold send, lmatch in *. destruct (a_phase a) eqn:Ep; simpl.
      + destruct H as [-> ?]. by exists L0.
      + destruct H as [-> ?]. by exists LR.
      + destruct H as [[-> ?]|[-> ?]]; [exists LR|exists L1]; (split; [done|]); (split; [auto|done]).
      + subst l. eexists. split; [done|]. done.
      + subst l. eexists. split; [done|]. done.
      + rewrite Ep. destruct H as [-> | ->]; (eexists; split; [done|]); (split; [auto|done]).
    - simpl. unfold tick. unfold lmatch in H. destruct (a_phase a) eqn:Ep.
      + destruct H as [-> Hr]. unfold run_started. destruct (started (a_user a)) as [u' e].
        assert (Hno : a_on_stopped a = []).
        { destruct (a_on_stopped a); [done|]. destruct Ho; done. }
        destruct e; simpl.
        * eexists. split; [done|]. split; [done|]. simpl. by rewrite Hno.
        * eexists. split; [done|]. split; simpl; auto.
        * rewrite Hno. simpl. 
          destruct (lives_finish (Actor PNew u' (a_queue a) (a_next a) [] (a_watchers a) false) (LC false)) as (l' & E & Hl'); [by right|].
          simpl in E. exists l'. split; [exact E|]. split; [done|done].
      + destruct H as [-> Hr].
        assert (Hno : a_on_stopped a = []).
        { destruct (a_on_stopped a); [done|]. destruct Ho; done. }
        destruct (a_queue a) as [|[i r] q].
        { simpl. exists LR. split; [done|]. split; [by rewrite Ep|]. by rewrite Hno. }
        unfold run_message. destruct r as [m ans| |ans|id w|id]; simpl; rewrite ?Hno.
        * destruct (handler (a_user a) m) as [[u' res] []]; simpl.
          -- exists LR. destruct ans; (split; [done|]); by (split; [by split|simpl; rewrite ?Hno]).
          -- exists LR. destruct ans; (split; [done|]); (split; [simpl; auto|simpl; by rewrite ?Hno]).
          -- destruct (lives_finish (Actor PRunning u' q (a_next a) [] (a_watchers a) true) (LC true)) as (l' & E & Hl'); [by right|].
             simpl in E. rewrite Hr. simpl. exists l'. split; [exact E|]. split; [done|done].
        * exists LR. split; [done|]. by (split; [by split|simpl; rewrite ?Hno]).
        * exists LR. split; [done|]. split; simpl; auto.
        * exists LR. split; [done|]. by (split; [by split|simpl; rewrite ?Hno]).
        * exists LR. split; [done|]. by (split; [by split|simpl; rewrite ?Hno]).
      + destruct H as [[-> Hr]|[-> Hr]]; simpl; eexists; (split; [done|]); (split; [simpl; by rewrite Hr|simpl; auto]).
      + subst l. simpl. exists (LS (a_reported a)). split; [|done].
        apply lives_same, Forall_forall. intros e He.
        apply elem_of_app in He as [He|He]; [destruct tracked; [apply elem_of_list_singleton in He as ->; done|by apply elem_of_nil in He]|].
        apply elem_of_app in He as [He|He]; apply elem_of_list_fmap in He as (x & -> & _); done.
      + subst l. destruct (lives_finish a (LS (a_reported a))) as (l' & E & Hl'); [by left|].
        exists l'. split; [exact E|]. by split.
      + exists l. split; [done|]. unfold lmatch; simpl. rewrite Ep. by split.
  Qed.

  Lemma lmatch_run u ops : exists l, lives L0 (arun u ops).2 = Some l /\ lmatch (arun u ops).1 l.
  Proof using.
    apply (arun_ind started handler tracked u (fun a tr => exists l, lives L0 tr = Some l /\ lmatch a l)).
    { exists L0. done. }
    intros a tr o (l & E & Hl). destruct (lmatch_step a l o Hl) as (l' & E' & Hl').
    exists l'. split; [|done]. by rewrite lives_app, E.
  Qed.

  Lemma life_split tr1 e tr2 l : lives L0 (tr1 ++ e :: tr2) = Some l ->
    exists s1 s2, lives L0 tr1 = Some s1 /\ life s1 e = Some s2 /\ lives s2 tr2 = Some l.
  Proof using.
    rewrite lives_app. destruct (lives L0 tr1) as [s1|]; simpl; [|done].
    destruct (life s1 e) as [s2|] eqn:E; simpl; [|done]. eauto.
  Qed.

  Definition lseen (s : lstate) (tr : list event) : Prop :=
    match s with
    | L0 => EStartedHook ∉ tr /\ EStartReported ∉ tr /\ EStoppedHook ∉ tr /\ ECrashed ∉ tr /\ EStartFailed ∉ tr
    | L1 => EStartedHook ∈ tr /\ EStartReported ∉ tr /\ EStoppedHook ∉ tr /\ ECrashed ∉ tr /\ EStartFailed ∉ tr
    | LR => EStartedHook ∈ tr /\ EStartReported ∈ tr /\ EStoppedHook ∉ tr /\ ECrashed ∉ tr /\ EStartFailed ∉ tr
    | LS b => EStartedHook ∈ tr /\ EStoppedHook ∈ tr /\ ECrashed ∉ tr /\
        (if b then (EStartReported ∈ tr /\ EStartFailed ∉ tr) \/ (EStartReported ∉ tr /\ EStartFailed ∈ tr)
         else EStartReported ∉ tr /\ EStartFailed ∉ tr)
    | LC b => EStartedHook ∈ tr /\ EStoppedHook ∉ tr /\ ECrashed ∈ tr /\
        (if b then (EStartReported ∈ tr /\ EStartFailed ∉ tr) \/ (EStartReported ∉ tr /\ EStartFailed ∈ tr)
         else EStartReported ∉ tr /\ EStartFailed ∉ tr)
    end.

  Lemma lives_seen tr s : lives L0 tr = Some s -> lseen s tr.
  Proof using.
    revert s. induction tr as [|e tr IH] using rev_ind; intros s H.
    { simpl in H. injection H as <-. simpl. repeat split; apply not_elem_of_nil. }
    rewrite lives_app in H. destruct (lives L0 tr) as [s0|]; [|done]. specialize (IH s0 eq_refl).
    simpl in H. destruct (life s0 e) as [s1|] eqn:E; [|done]. injection H as <-.
    destruct e, s0; try discriminate E; simpl in E; try (destruct reported; try discriminate E);
      injection E as <-; simpl in IH |- *; rewrite ?elem_of_app, ?elem_of_list_singleton;
      destruct_and?; set_solver.
  Qed.

  Lemma lives_LS_absorb tr b s : lives (LS b) tr = Some s ->
    (exists b', s = LS b') /\ handled tr = [] /\ EStoppedHook ∉ tr /\ EStartedHook ∉ tr.
  Proof using.
    revert b. induction tr as [|e tr IH]; intros b H; simpl in H.
    { injection H as <-. split_and!; [eauto|done|apply not_elem_of_nil|apply not_elem_of_nil]. }
    destruct (life (LS b) e) as [s1|] eqn:E; [|done]. simpl in H.
    assert (exists b1, s1 = LS b1) as [b1 ->].
    { destruct e; try discriminate E; simpl in E; try (destruct b; try discriminate E); injection E as <-; eauto. }
    destruct (IH _ H) as (? & ? & ? & ?). split; [done|].
    destruct e; try discriminate E; set_solver.
  Qed.

  Lemma lives_no_started tr s l : lives s tr = Some l -> s <> L0 -> l <> L0 /\ EStartedHook ∉ tr.
  Proof using.
    revert s. induction tr as [|e tr IH]; intros s H Hs; simpl in H.
    { injection H as <-. split; [done|apply not_elem_of_nil]. }
    destruct (life s e) as [s1|] eqn:E; [|done]. simpl in H.
    assert (s1 <> L0).
    { intros ->. destruct e, s; try discriminate E; try done; simpl in E; destruct reported; discriminate E. }
    destruct (IH _ H ltac:(done)) as (? & ?). split; [done|].
    destruct e; try (destruct s; try discriminate E; done); set_solver.
  Qed.

  Theorem lifecycle_order u ops tr1 e tr2 : (arun u ops).2 = tr1 ++ e :: tr2 ->
    match e with
    | EStartedHook => EStartedHook ∉ tr1 /\ EStartedHook ∉ tr2 /\ handled tr1 = []
    | EStartReported => EStartedHook ∈ tr1
    | EHandled _ => EStartedHook ∈ tr1 /\ EStartReported ∈ tr1
    | EStoppedHook => EStartedHook ∈ tr1 /\ EStoppedHook ∉ tr1 /\ EStoppedHook ∉ tr2 /\ handled tr2 = []
    | EStopAnswered _ | ETold _ | EDeregistered => EStoppedHook ∈ tr1
    | _ => True
    end.
  Proof using.
    intros H. destruct (lmatch_run u ops) as (l & Hl & _). rewrite H in Hl.
    apply life_split in Hl as (s1 & s2 & H1 & H2 & H3).
    pose proof (lives_seen _ _ H1) as Hs.
    destruct e; try done; destruct s1; try discriminate H2; simpl in H2; injection H2 as <-; simpl in Hs;
      destruct_and?; try done.
    - split; [done|]. split; [by eapply lives_no_started|].
      clear -H1. assert (forall tr, lives L0 tr = Some L0 -> handled tr = []) as Hh; [|by apply Hh].
      induction tr as [|e tr IH]; [done|]. simpl. intros H.
      destruct e; try discriminate H; simpl in H; try (by apply IH).
      exfalso. eapply lives_no_started in H as [? ?]; done.
    - split_and!; try done; by eapply lives_LS_absorb.
    - split_and!; try done; by eapply lives_LS_absorb.
  Qed.

  Theorem stopped_once u ops : a_phase (arun u ops).1 = PDone -> ECrashed ∉ (arun u ops).2 ->
    exists tr1 tr2, (arun u ops).2 = tr1 ++ EStoppedHook :: tr2 /\
      EStoppedHook ∉ tr1 /\ EStoppedHook ∉ tr2 /\ handled tr2 = [].
  Proof using.
    intros Hd Hc. destruct (lmatch_run u ops) as (l & Hl & Hm & _). rewrite Hd in Hm.
    pose proof (lives_seen _ _ Hl) as Hs.
    destruct Hm as [-> | ->]; simpl in Hs; destruct_and?; [|done].
    destruct (elem_of_list_split _ EStoppedHook ltac:(eassumption)) as (t1 & t2 & E).
    exists t1, t2. split; [done|]. pose proof (lifecycle_order u ops t1 _ t2 E) as Ho. simpl in Ho. naive_solver.
  Qed.

  Theorem crashed_not_stopped u ops : ECrashed ∈ (arun u ops).2 -> EStoppedHook ∉ (arun u ops).2 /\ a_phase (arun u ops).1 = PDone.
  Proof using.
    intros Hc. destruct (lmatch_run u ops) as (l & Hl & Hm & _).
    pose proof (lives_seen _ _ Hl) as Hs. unfold lseen in Hs.
    destruct l; destruct_and?; try done. split; [done|].
    destruct (a_phase (arun u ops).1); naive_solver.
  Qed.

  Theorem creation_outcome u ops : a_phase (arun u ops).1 = PDone ->
    (EStartReported ∈ (arun u ops).2 /\ EStartFailed ∉ (arun u ops).2) \/
    (EStartReported ∉ (arun u ops).2 /\ EStartFailed ∈ (arun u ops).2).
  Proof using.
    intros Hd. destruct (lmatch_run u ops) as (l & Hl & Hm & _). rewrite Hd in Hm.
    pose proof (lives_seen _ _ Hl) as Hs. destruct Hm as [-> | ->]; simpl in Hs; by destruct_and?.
  Qed.

  Lemma not_started_run u ops : (started u).2 <> Continue ->
    EStartReported ∉ (arun u ops).2 /\ a_phase (arun u ops).1 <> PRunning /\ (a_phase (arun u ops).1 = PNew -> a_user (arun u ops).1 = u).
  Proof using.
    intros Hs. apply (arun_ind started handler tracked u
      (fun a tr => EStartReported ∉ tr /\ a_phase a <> PRunning /\ (a_phase a = PNew -> a_user a = u))).
    { split; [apply not_elem_of_nil|done]. }
    intros a tr o (H1 & H2 & H3). rewrite not_elem_of_app. destruct o as [r|].
    - simpl. unfold send. destruct (a_phase a) eqn:Ep; simpl; rewrite not_elem_of_cons; rewrite ?Ep;
        (split; [|done]); (split; [done|]); (split; [done|apply not_elem_of_nil]).
    - assert (Hfin : forall b : actor, EStartReported ∉ (finish (Res:=Res) b).2).
      { intros b. simpl. rewrite not_elem_of_app. split.
        - rewrite elem_of_list_fmap. intros (x & ? & _). discriminate.
        - destruct (a_reported b); [apply not_elem_of_nil|]. rewrite elem_of_list_singleton. discriminate. }
      simpl. unfold tick. destruct (a_phase a) eqn:Ep; simpl.
      + unfold run_started. rewrite (H3 eq_refl). destruct (started u) as [u' e]. simpl in Hs.
        destruct e; [done| |]; simpl; (split; [|done]); (split; [done|]).
        * by rewrite elem_of_list_singleton.
        * rewrite !not_elem_of_cons, not_elem_of_app. split_and!; try done.
          -- rewrite elem_of_list_fmap. intros (x & ? & _). discriminate.
          -- apply (Hfin (Actor PNew u' (a_queue a) (a_next a) (a_on_stopped a) (a_watchers a) false)).
      + done.
      + rewrite not_elem_of_cons. split; [|done]. split; [done|]. split; [done|apply not_elem_of_nil].
      + split; [|done]. split; [done|]. rewrite !not_elem_of_app. split_and!.
        * destruct tracked; [rewrite elem_of_list_singleton; discriminate|apply not_elem_of_nil].
        * rewrite elem_of_list_fmap. intros (x & ? & _). discriminate.
        * rewrite elem_of_list_fmap. intros (x & ? & _). discriminate.
      + split; [|done]. split; [done|]. apply (Hfin a).
      + rewrite Ep. split; [|done]. split; [done|]. apply not_elem_of_nil.
  Qed.

  Theorem stop_during_start u ops : (started u).2 <> Continue ->
    handled (arun u ops).2 = [] /\ EStartReported ∉ (arun u ops).2 /\
    (a_phase (arun u ops).1 = PDone -> EStartFailed ∈ (arun u ops).2).
  Proof using.
    intros Hs. destruct (not_started_run u ops Hs) as (H1 & _). split_and!; [|done|].
    - destruct (handled (arun u ops).2) as [|i h] eqn:E; [done|]. exfalso.
      assert (Hin : EHandled i ∈ (arun u ops).2).
      { assert (Hi : i ∈ handled (arun u ops).2) by (rewrite E; left).
        unfold handled in Hi. apply elem_of_list_omap in Hi as (e & He & Hi). destruct e; try discriminate Hi. by injection Hi as ->. }
      apply elem_of_list_split in Hin as (t1 & t2 & Et).
      pose proof (lifecycle_order u ops t1 _ t2 Et) as [_ Hr]. apply H1. rewrite Et. apply elem_of_app. by left.
    - intros Hd. destruct (creation_outcome u ops Hd) as [[? _]|[_ ?]]; done.
  Qed.

  (** ** Outcomes *)

  Definition occ (i : nat) (l : list nat) : nat := length (List.filter (Nat.eqb i) l).
  Definition pend (a : actor) (i : nat) : nat := (occ i (map fst (a_queue a)) + occ i (a_on_stopped a))%nat.
  Definition total (a : actor) (tr : list event) (i : nat) : nat := (count (is_outcome i) tr + pend a i)%nat.

  Lemma occ_app i l1 l2 : occ i (l1 ++ l2) = (occ i l1 + occ i l2)%nat.
  Proof using. unfold occ. by rewrite List.filter_app, app_length. Qed.

  Lemma count_discards i l : count (is_outcome i) (map EDiscarded l : list event) = occ i l.
  Proof using.
    unfold count, occ. induction l as [|x l IH]; [done|]. simpl. destruct (Nat.eqb i x); simpl; by rewrite IH.
  Qed.
  Lemma count_discards' i (l : list (nat * request)) : count (is_outcome i) (map (fun x => EDiscarded x.1) l : list event) = occ i (map fst l).
  Proof using. rewrite <- count_discards. rewrite map_map. done. Qed.
  Lemma count_answers i l : count (is_outcome i) (map EStopAnswered l : list event) = occ i l.
  Proof using.
    unfold count, occ. induction l as [|x l IH]; [done|]. simpl. destruct (Nat.eqb i x); simpl; by rewrite IH.
  Qed.
  Lemma count_told i (l : list (string * nat)) : count (is_outcome i) (map (fun x => ETold x.2) l : list event) = 0%nat.
  Proof using. unfold count. induction l as [|x l IH]; [done|]. simpl. done. Qed.

  Lemma count_finish i (a : actor) : count (is_outcome i) (finish (Res:=Res) a).2 = occ i (map fst (a_queue a)).
  Proof using. simpl. rewrite count_app, count_discards'. destruct (a_reported a); cbn; lia. Qed.

  Lemma count_crash i (a : actor) : count (is_outcome i) (crash (Res:=Res) a).2 = pend a i.
  Proof using.
    unfold crash. cbn [finish]. cbn [snd].
    change (ECrashed :: ?l) with ([ECrashed] ++ l). rewrite count_app, count_app, count_discards.
    change (count _ [ECrashed]) with 0%nat.
    pose proof (count_finish i a) as H. cbn [finish snd] in H. rewrite H. unfold pend. lia.
  Qed.

  Lemma total_step a tr o i : (a_phase a = PClosing -> a_on_stopped a = []) ->
    match o with
    | OSend r => total (astep a o).1 (tr ++ (astep a o).2) i =
        (total a tr i + if decide (i = a_next a /\ a_phase a <> PDone) then 1 else 0)%nat
    | OTick => total (astep a o).1 (tr ++ (astep a o).2) i = total a tr i \/
        exists r, (a_queue a) !! 0%nat = Some (i, r) /\ awaits r = false /\
          (total (astep a o).1 (tr ++ (astep a o).2) i <= total a tr i)%nat
    end.
  Proof using.
    intros Hclosed. unfold total. rewrite count_app. destruct o as [r|].
    - simpl. unfold send. destruct (a_phase a) eqn:Ep; unfold pend; simpl.
      6: rewrite decide_False by tauto; unfold count; simpl; lia.
      all: rewrite map_app, occ_app; unfold count, occ; simpl; destruct (Nat.eqb_spec i (a_next a)); simpl;
        [rewrite decide_True by done|rewrite decide_False by tauto]; lia.
    - simpl. unfold tick. destruct (a_phase a) eqn:Ep.
      + left. unfold run_started. destruct (started (a_user a)) as [u' e]. destruct e; simpl.
        * unfold pend, count; simpl. lia.
        * unfold pend, count; simpl. lia.
        * pose proof (count_crash i (Actor PNew u' (a_queue a) (a_next a) (a_on_stopped a) (a_watchers a) false)) as H.
          unfold crash in H. cbn [finish snd a_queue a_reported a_on_stopped] in H.
          change (EStartedHook :: ?l) with ([EStartedHook] ++ l). rewrite count_app, H.
          unfold pend, occ, count; simpl. lia.
      + destruct (a_queue a) as [|[j r] q] eqn:Eq.
        { left. simpl. unfold count; simpl. lia. }
        unfold run_message.
        assert (Hp : pend a i = ((if Nat.eqb i j then 1 else 0) + occ i (map fst q) + occ i (a_on_stopped a))%nat).
        { unfold pend. rewrite Eq. unfold occ. simpl. destruct (Nat.eqb i j); simpl; lia. }
        rewrite Hp.
        destruct r as [m ans| |ans|id w|id]; simpl.
        * destruct (handler (a_user a) m) as [[u' res] e]. destruct e; simpl.
          -- destruct ans; [left|destruct (Nat.eqb_spec i j) as [->|]; [right; eexists; split; [done|]; split; [done|]|left]];
               unfold pend, count; simpl; try (destruct (Nat.eqb i j); simpl); lia.
          -- destruct ans; [left|destruct (Nat.eqb_spec i j) as [->|]; [right; eexists; split; [done|]; split; [done|]|left]];
               unfold pend, count; simpl; try (destruct (Nat.eqb i j); simpl); lia.
          -- left. pose proof (count_crash i (Actor PRunning u' q (a_next a) (a_on_stopped a) (a_watchers a) (a_reported a))) as H.
             unfold crash in H. cbn [finish snd a_queue a_reported a_on_stopped] in H.
             match goal with |- context [count _ (EHandled j :: EDiscarded j :: ?l)] =>
               change (EHandled j :: EDiscarded j :: l) with ([EHandled j; EDiscarded j] ++ l) end.
             rewrite count_app, H. unfold pend, count; simpl. destruct (Nat.eqb i j); simpl; unfold occ; simpl; lia.
        * left. unfold pend, count; simpl. destruct (Nat.eqb i j); simpl; lia.
        * destruct ans; [left|destruct (Nat.eqb_spec i j) as [->|]; [right; eexists; split; [done|]; split; [done|]|left]];
            unfold pend, count; simpl; rewrite occ_app; unfold occ; simpl; try (destruct (Nat.eqb i j); simpl); lia.
        * destruct (Nat.eqb_spec i j) as [->|]; [right; eexists; split; [done|]; split; [done|]|left]; unfold pend, count; simpl; lia.
        * destruct (Nat.eqb_spec i j) as [->|]; [right; eexists; split; [done|]; split; [done|]|left]; unfold pend, count; simpl; lia.
      + left. unfold pend, count; simpl. lia.
      + left. unfold run_cleanup. cbn [fst snd]. rewrite !count_app, count_answers, count_told.
        unfold pend; simpl. destruct tracked; unfold count, occ; simpl; lia.
      + left. rewrite count_finish. unfold pend; simpl. rewrite (Hclosed eq_refl). unfold occ; simpl. lia.
      + left. simpl. unfold count; simpl. lia.
  Qed.

  Lemma closing_on_stopped u ops : a_phase (arun u ops).1 = PClosing \/ a_phase (arun u ops).1 = PDone -> a_on_stopped (arun u ops).1 = [].
  Proof using.
    intros H. destruct (lmatch_run u ops) as (l & _ & _ & Hm).
    destruct (a_on_stopped (arun u ops).1); [done|]. destruct Hm as [Hm|Hm]; [done| |]; destruct H; congruence.
  Qed.

  Lemma accepted_in_unique u ops i r r' :
    (i, r) ∈ accepted (arun u ops).2 -> (i, r') ∈ accepted (arun u ops).2 -> r = r'.
  Proof using.
    destruct (binv_run started handler tracked u ops) as (H1 & _). intros Hr Hr'.
    apply elem_of_list_lookup in Hr as [k Hk]. apply elem_of_list_lookup in Hr' as [k' Hk'].
    assert (Hid : forall k i r, accepted (arun u ops).2 !! k = Some (i, r) -> k = i).
    { intros k0 i0 r0 H. apply (f_equal (fun l => l !! k0)) in H1. rewrite list_lookup_fmap, H in H1. simpl in H1.
      symmetry in H1. apply lookup_seq in H1 as [-> _]. done. }
    pose proof (Hid _ _ _ Hk). pose proof (Hid _ _ _ Hk'). subst. congruence.
  Qed.

  Lemma queue_accepted u ops x : x ∈ a_queue (arun u ops).1 -> x ∈ accepted (arun u ops).2.
  Proof using.
    destruct (binv_run started handler tracked u ops) as (_ & _ & _ & H4 & H5 & _).
    destruct (decide (a_phase (arun u ops).1 = PDone)) as [Hd|Hd].
    - rewrite (H5 Hd). by intros ?%elem_of_nil.
    - rewrite (H4 Hd). intros Hx. apply elem_of_list_lookup in Hx as [k Hk]. rewrite lookup_drop in Hk.
      by eapply elem_of_list_lookup_2.
  Qed.

  Theorem outcomes u ops :
    let a := (arun u ops).1 in let tr := (arun u ops).2 in
    (forall i, (total a tr i <= 1)%nat) /\
    (forall i, (a_next a <= i)%nat -> total a tr i = 0%nat) /\
    (forall i r, (i, r) ∈ accepted tr -> awaits r = true -> total a tr i = 1%nat).
  Proof using.
    induction ops as [|o ops IH] using rev_ind.
    { simpl. split_and!; intros; unfold total, pend, count, occ; simpl; try lia. by apply elem_of_nil in H. }
    pose proof (closing_on_stopped u ops) as Hcl. pose proof (queue_accepted u ops) as Hq.
    pose proof (accepted_in_unique u ops) as Huniq.
    destruct (binv_run started handler tracked u ops) as (B1 & _).
    rewrite run_concat_snoc. destruct (arun u ops) as [a tr]. cbn [fst snd] in *.
    destruct IH as (I1 & I2 & I3).
    pose proof (fun i => total_step a tr o i (fun H => Hcl (or_introl H))) as Hstep.
    destruct (astep a o) as [a' ev] eqn:Es. cbn [fst snd] in *.
    destruct o as [r|].
    - assert (Hn : a_next a' = if decide (a_phase a = PDone) then a_next a else S (a_next a)).
      { simpl in Es. unfold send in Es. destruct (a_phase a); injection Es as <- <-; done. }
      assert (Hac : accepted ev = if decide (a_phase a = PDone) then [] else [(a_next a, r)]).
      { simpl in Es. unfold send in Es. destruct (a_phase a); injection Es as <- <-; done. }
      split_and!.
      + intros i. rewrite Hstep. destruct (decide (i = a_next a /\ a_phase a <> PDone)) as [[-> ?]|]; [rewrite I2; lia|]. specialize (I1 i). lia.
      + intros i Hi. rewrite Hstep; rewrite Hn in Hi. destruct (decide (a_phase a = PDone)).
        * rewrite decide_False by tauto. rewrite I2; lia.
        * rewrite decide_False by lia. rewrite I2; lia.
      + intros i r' Hin Haw. rewrite Hstep. rewrite accepted_app, Hac in Hin. apply elem_of_app in Hin as [Hin|Hin].
        * rewrite (I3 i r') by done. rewrite decide_False; [lia|].
          intros [-> _]. assert (Hx : a_next a ∈ map fst (accepted tr)).
          { apply elem_of_list_fmap. by exists (a_next a, r'). }
          rewrite B1 in Hx. apply elem_of_seq in Hx. lia.
        * destruct (decide (a_phase a = PDone)) as [|Hnd]; [by apply elem_of_nil in Hin|].
          apply elem_of_list_singleton in Hin. injection Hin as -> ->.
          rewrite decide_True by done. rewrite I2; lia.
    - assert (Hn : a_next a' = a_next a /\ accepted ev = []).
      { assert (Hb : a_next a' = a_next a /\ accepted ev = []).
        { simpl in Es. unfold tick in Es.
          assert (Hfin : forall b : actor, accepted (finish (Res:=Res) b).2 = []).
          { intros b. by apply quiet_proj, quiet_finish. }
          assert (Hcr : forall b : actor, accepted (crash (Res:=Res) b).2 = []).
          { intros b. unfold crash. cbn [finish snd]. specialize (Hfin b). cbn [finish snd] in Hfin.
            change (accepted (ECrashed :: ?l)) with (accepted l). rewrite accepted_app, Hfin, app_nil_r.
            apply quiet_proj. apply Forall_forall. intros e He. apply elem_of_list_fmap in He as (x & -> & _). done. }
          destruct (a_phase a).
          - unfold run_started in Es. destruct (started (a_user a)) as [u' []]; try (by injection Es as <- <-).
            match type of Es with context [crash ?b] => specialize (Hcr b) end.
            destruct (crash _) as [c cev] eqn:Ec. injection Es as <- <-. split; [|exact Hcr].
            unfold crash in Ec. simpl in Ec. by injection Ec as <- _.
          - destruct (a_queue a) as [|[j r] q]; [by injection Es as <- <-|].
            unfold run_message in Es. destruct r as [m ans| |ans|id w|id]; simpl in Es; try (by injection Es as <- <-).
            destruct (handler (a_user a) m) as [[u' res] []]; try (injection Es as <- <-; by destruct ans).
            match type of Es with context [EDiscarded j :: ECrashed :: ?l] =>
              specialize (Hcr (Actor PRunning u' q (a_next a) (a_on_stopped a) (a_watchers a) (a_reported a))) end.
            simpl in Hcr. injection Es as <- <-. split; [done|exact Hcr].
          - by injection Es as <- <-.
          - injection Es as <- <-. split; [done|]. apply quiet_proj.
            apply Forall_app. split; [destruct tracked; repeat constructor|].
            apply Forall_app. split; apply Forall_forall; intros e He; apply elem_of_list_fmap in He as (x & -> & _); done.
          - specialize (Hfin a). rewrite Es in Hfin. unfold finish in Es. by injection Es as <- _.
          - by injection Es as <- <-. }
        apply Hb. }
      destruct Hn as [Hn Hac]. split_and!.
      + intros i. destruct (Hstep i) as [-> |(r & _ & _ & ?)]; specialize (I1 i); lia.
      + intros i Hi. rewrite Hn in Hi. specialize (I2 i Hi).
        destruct (Hstep i) as [-> |(r & _ & _ & ?)]; lia.
      + intros i r Hin Haw. rewrite accepted_app, Hac, app_nil_r in Hin.
        destruct (Hstep i) as [-> |(r' & Hr' & Haw' & _)]; [by eapply I3|].
        apply elem_of_list_lookup_2, Hq in Hr'. rewrite (Huniq _ _ _ Hin Hr') in Haw. congruence.
  Qed.
End proofs.
