(** Proofs about the actor loop. *)
From Verif Require Import Actor_Model Actor_Spec.

Section proofs.
  Context {St Msg Res : Type}.
  Context (started : St -> St * effect) (handler : St -> Msg -> St * Res * effect) (tracked : bool).
  Notation event := (event Msg Res).
  Notation request := (request Msg).
  Notation actor := (actor St Msg).
  Notation arun := (arun started handler tracked).
  Notation astep := (astep started handler tracked).

  (** ** Projections of traces *)

  Lemma omap_app' {A B} (f : A -> option B) l1 l2 : omap f (l1 ++ l2) = omap f l1 ++ omap f l2.
  Proof using. apply omap_app. Qed.

  Lemma accepted_app (t1 t2 : list event) : accepted (t1 ++ t2) = accepted t1 ++ accepted t2.
  Proof using. apply omap_app. Qed.
  Lemma handled_app (t1 t2 : list event) : handled (t1 ++ t2) = handled t1 ++ handled t2.
  Proof using. apply omap_app. Qed.
  Lemma replies_app (t1 t2 : list event) : replies (t1 ++ t2) = replies t1 ++ replies t2.
  Proof using. apply omap_app. Qed.
  Lemma count_app p (t1 t2 : list event) : count p (t1 ++ t2) = (count p t1 + count p t2)%nat.
  Proof using. unfold count. by rewrite List.filter_app, app_length. Qed.

  (** Events that are neither acceptances nor handlings nor replies. *)
  Definition quiet (e : event) : Prop :=
    match e with EAccepted _ _ | EHandled _ | EReply _ _ => False | _ => True end.

  Lemma quiet_proj (tr : list event) : Forall quiet tr -> accepted tr = [] /\ handled tr = [] /\ replies tr = [].
  Proof using. induction 1 as [|e tr He _ [IH1 [IH2 IH3]]]; [done|]. destruct e; simpl in *; done. Qed.

  Lemma quiet_finish (a : actor) : Forall quiet (finish (Res:=Res) a).2.
  Proof using.
    simpl. apply Forall_app. split; [|destruct (a_reported a); repeat constructor].
    apply Forall_forall. intros e He. apply elem_of_list_fmap in He as (x & -> & _). done.
  Qed.

  (** ** Induction over runs *)

  Lemma run_concat_snoc u ops o :
    arun u (ops ++ [o]) =
    let '(a, tr) := arun u ops in let '(a', ev) := astep a o in (a', tr ++ ev).
  Proof using.
    unfold arun. rewrite run_app. destruct (run _ _ ops) as [a evs]. simpl.
    destruct (astep a o) as [a' ev]. rewrite concat_app. simpl. by rewrite app_nil_r.
  Qed.

  Lemma arun_ind u (P : actor -> list event -> Prop) :
    P (spawn u) [] ->
    (forall a tr o, P a tr -> P (astep a o).1 (tr ++ (astep a o).2)) ->
    forall ops, P (arun u ops).1 (arun u ops).2.
  Proof using.
    intros H0 Hs ops. induction ops as [|o ops IH] using rev_ind; [done|].
    rewrite run_concat_snoc. destruct (arun u ops) as [a tr]. specialize (Hs a tr o IH).
    destruct (astep a o). done.
  Qed.

  (** ** The basic invariant *)

  Definition user_before (u : St) (l : list (nat * request)) : St :=
    fold_left (fun s (x : nat * request) => match x.2 with RUser m _ => (handler s m).1.1 | _ => s end) l u.

  Definition binv (u : St) (a : actor) (tr : list event) : Prop :=
    let n := length (handled tr) in
    map fst (accepted tr) = seq 0 (a_next a) /\
    handled tr = seq 0 n /\ (n <= a_next a)%nat /\
    (a_phase a <> PDone -> a_queue a = drop n (accepted tr)) /\
    (a_phase a = PDone -> a_queue a = []) /\
    (a_phase a = PNew -> a_user a = u /\ n = 0%nat) /\
    (a_phase a <> PNew -> a_user a = user_before (started u).1 (take n (accepted tr)) \/ a_phase a = PDone) /\
    replies tr = answers handler (started u).1 (take n (accepted tr)).

  Lemma answers_app (h : St -> Msg -> St * Res * effect) (u : St) (l1 l2 : list (nat * request)) :
    answers (Res:=Res) h u (l1 ++ l2) =
    answers h u l1 ++ answers h (fold_left (fun s (x : nat * request) => match x.2 with RUser m _ => (h s m).1.1 | _ => s end) l1 u) l2.
  Proof using.
    revert u. induction l1 as [|[i r] l1 IH]; intros u; [done|]. simpl.
    destruct r; rewrite ?IH; try done. destruct (h u m) as [[u' r] e]. simpl. rewrite IH.
    by rewrite app_assoc.
  Qed.

  Lemma accepted_length (a : actor) tr : map fst (accepted (Msg:=Msg) (Res:=Res) tr) = seq 0 (a_next a) -> length (accepted tr) = a_next a.
  Proof using. intros H. apply (f_equal length) in H. by rewrite map_length, seq_length in H. Qed.

  Lemma binv_quiet u a a' tr ev :
    binv u a tr -> Forall quiet ev -> a_next a' = a_next a ->
    (a_phase a' <> PDone -> a_phase a <> PDone /\ a_queue a' = a_queue a /\ a_phase a' <> PNew /\
       ((a_phase a <> PNew /\ a_user a' = a_user a) \/ (a_phase a = PNew /\ a_user a' = (started u).1))) ->
    (a_phase a' = PDone -> a_queue a' = []) ->
    binv u a' (tr ++ ev).
  Proof using.
    intros (H1 & H2 & H3 & H4 & H5 & H6 & H7 & H8) Hq Hn Hp Hd.
    destruct (quiet_proj ev Hq) as (E1 & E2 & E3).
    unfold binv. rewrite accepted_app, handled_app, replies_app, E1, E2, E3, !app_nil_r, Hn.
    split_and!; try done.
    - intros Hne. destruct (Hp Hne) as (? & -> & _). auto.
    - intros He. destruct (Hp) as (? & ? & ? & _); [by rewrite He|]. done.
    - intros Hne. destruct (decide (a_phase a' = PDone)) as [|Hnd]; [by right|]. left.
      destruct (Hp Hnd) as (? & ? & ? & [[Hx ->]|[Hx ->]]).
      + destruct (H7 Hx); [done|congruence].
      + destruct (H6 Hx) as [_ Hz]. by rewrite Hz.
  Qed.

  Lemma binv_step u a tr o : binv u a tr -> binv u (astep a o).1 (tr ++ (astep a o).2).
  Proof using.
    intros H. destruct o as [r|].
    - (* send *)
      simpl. unfold send. destruct (a_phase a) eqn:Ep; simpl.
      6:{ eapply binv_quiet; [done|by repeat constructor|done| |]; rewrite Ep; [done|]. intros _. by apply H. }
      all: destruct H as (H1 & H2 & H3 & H4 & H5 & H6 & H7 & H8); unfold binv; simpl;
        rewrite accepted_app, handled_app, replies_app; simpl; rewrite !app_nil_r, Ep in *;
        pose proof (accepted_length a tr H1) as Hl;
        assert (Ht : take (length (handled tr)) (accepted tr ++ [(a_next a, r)]) = take (length (handled tr)) (accepted tr))
          by (apply take_app_le; lia);
        rewrite Ht;
        (split_and!; [rewrite map_app, H1; simpl; symmetry; apply seq_S|done|lia
          |intros _; rewrite H4 by done; symmetry; apply drop_app_le; lia|done|done|done|done]).
    - simpl. unfold tick. destruct (a_phase a) eqn:Ep.
      + (* new *)
        unfold run_started. destruct (started (a_user a)) as [u' e] eqn:Es.
        assert (Hu : a_user a = u) by (by apply H).
        destruct e; simpl.
        * eapply binv_quiet; [done|by repeat constructor|done| |done]. simpl. intros _.
          rewrite Ep. split_and!; try done. right. split; [done|]. by rewrite <- Hu, Es.
        * eapply binv_quiet; [done|by repeat constructor|done| |done]. simpl. intros _.
          rewrite Ep. split_and!; try done. right. split; [done|]. by rewrite <- Hu, Es.
        * eapply binv_quiet; [done| |done|done|done].
          repeat (constructor; [done|]).
          match goal with |- context [map EDiscarded ?l] => apply Forall_app; split end.
          { apply Forall_forall. intros e He. apply elem_of_list_fmap in He as (x & -> & _). done. }
          apply (quiet_finish (Actor PNew u' (a_queue a) (a_next a) (a_on_stopped a) (a_watchers a) false)).
      + (* running *)
        destruct (a_queue a) as [|[i r] q] eqn:Eq; simpl.
        { rewrite app_nil_r. done. }
        destruct H as (H1 & H2 & H3 & H4 & H5 & H6 & H7 & H8).
        rewrite Ep in *. specialize (H4 ltac:(done)). rewrite Eq in H4.
        pose proof (accepted_length a tr H1) as Hl.
        assert (Hlt : (length (handled tr) < a_next a)%nat).
        { apply (f_equal length) in H4. rewrite drop_length in H4. simpl in H4. lia. }
        assert (Hat : accepted tr !! length (handled tr) = Some (i, r)).
        { apply (f_equal (fun l => l !! 0%nat)) in H4. rewrite lookup_drop, Nat.add_0_r in H4. by rewrite <- H4. }
        assert (Hi : i = length (handled tr)).
        { apply (f_equal (fun l => l !! length (handled tr))) in H1.
          rewrite list_lookup_fmap, Hat, lookup_seq_lt in H1 by lia. simpl in H1. congruence. }
        assert (Htake : take (S (length (handled tr))) (accepted tr) = take (length (handled tr)) (accepted tr) ++ [(i, r)]).
        { by apply take_S_r. }
        assert (Hdrop : drop (S (length (handled tr))) (accepted tr) = q).
        { rewrite <- (tail_drop (length (handled tr)) (accepted tr)) || idtac.
          replace (S (length (handled tr))) with (length (handled tr) + 1)%nat by lia.
          rewrite <- drop_drop, <- H4. done. }
        specialize (H7 ltac:(done)). destruct H7 as [H7|]; [|done].
        unfold binv.
        set (b := Actor PRunning (a_user a) q (a_next a) (a_on_stopped a) (a_watchers a) (a_reported a)).
        assert (Hrun : exists a' ev, run_message handler i r b = (a', ev) /\ accepted ev = [] /\ handled ev = [] /\
           replies ev = answers handler (a_user a) [(i, r)] /\ a_next a' = a_next a /\
           ((a_phase a' <> PDone /\ a_phase a' <> PNew /\ a_queue a' = q /\
               a_user a' = user_before (a_user a) [(i, r)]) \/ (a_phase a' = PDone /\ a_queue a' = []))).
        { unfold run_message, b; simpl. destruct r as [m ans| |ans|id w|id]; simpl.
          - destruct (handler (a_user a) m) as [[u' res] e]. simpl.
            destruct e; simpl.
            + eexists _, _. split; [reflexivity|]. destruct ans; simpl; split_and!; try done; left; split_and!; done.
            + eexists _, _. split; [reflexivity|]. destruct ans; simpl; split_and!; try done; left; split_and!; done.
            + eexists _, _. split; [reflexivity|].
              match goal with |- accepted ?l = _ /\ _ => assert (Hq : Forall quiet l) end.
              { repeat (constructor; [done|]). apply Forall_app. split.
                - apply Forall_forall. intros e He. apply elem_of_list_fmap in He as (x & -> & _). done.
                - apply (quiet_finish (Actor PRunning u' q (a_next a) (a_on_stopped a) (a_watchers a) (a_reported a))). }
              apply quiet_proj in Hq as (-> & -> & ->). split_and!; try done. right. done.
          - eexists _, _. split; [reflexivity|]. simpl. split_and!; try done. left. done.
          - eexists _, _. split; [reflexivity|]. simpl. split_and!; try done. left. done.
          - eexists _, _. split; [reflexivity|]. simpl. split_and!; try done. left. done.
          - eexists _, _. split; [reflexivity|]. simpl. split_and!; try done. left. done. }
        destruct Hrun as (a' & ev & -> & E1 & E2 & E3 & En & Ecase). cbn [fst snd].
        rewrite accepted_app, handled_app, replies_app.
        change (accepted (EHandled i :: ev)) with (accepted ev).
        change (handled (EHandled i :: ev)) with (i :: handled ev).
        change (replies (EHandled i :: ev)) with (replies ev).
        rewrite E1, E2, E3, !app_nil_r, app_length. simpl length.
        replace (length (handled tr) + 1)%nat with (S (length (handled tr))) by lia.
        rewrite Htake, Hdrop, En. split_and!.
        * done.
        * rewrite seq_S, <- H2, Hi. done.
        * lia.
        * intros Hne. destruct Ecase as [(_ & _ & -> & _)|[? _]]; done.
        * intros Hd. destruct Ecase as [(? & _)|[_ ->]]; done.
        * intros Hn. destruct Ecase as [(_ & ? & _)|[Hd _]]; congruence.
        * intros Hn. destruct Ecase as [(_ & _ & _ & ->)|[Hd _]]; [left|by right].
          unfold user_before. rewrite fold_left_app. fold (user_before (started u).1 (take (length (handled tr)) (accepted tr))).
          by rewrite <- H7.
        * rewrite answers_app, H8. f_equal. rewrite H7. done.
      + (* stopping *)
        eapply binv_quiet; [done|by repeat constructor|done| |done]. simpl. intros _.
        rewrite Ep. split_and!; try done. by left.
      + (* cleanup *)
        eapply binv_quiet; [done| |done| |done].
        * unfold run_cleanup. simpl. apply Forall_app. split; [destruct tracked; repeat constructor|].
          apply Forall_app. split.
          -- apply Forall_forall. intros e He. apply elem_of_list_fmap in He as (x & -> & _). done.
          -- apply Forall_forall. intros e He. apply elem_of_list_fmap in He as (x & -> & _). done.
        * simpl. intros _. rewrite Ep. split_and!; try done. by left.
      + (* closing *)
        eapply binv_quiet; [done|apply quiet_finish|done|done|done].
      + simpl. by rewrite app_nil_r.
  Qed.

  Lemma binv_run u ops : binv u (arun u ops).1 (arun u ops).2.
  Proof using.
    apply (arun_ind u (binv u)); [|apply binv_step].
    unfold binv. simpl. split_and!; done.
  Qed.
End proofs.
