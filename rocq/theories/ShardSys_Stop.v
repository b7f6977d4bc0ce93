(** A stop under way is not lost, and can be finished. *)
From Verif Require Import ShardSys_Model ShardSys_Spec Coord_Spec Coord_Proofs Host_Spec ShardSys_Coord ShardSys_Host ShardSys_Inv ShardSys_Proofs.
Local Open Scope N_scope.

Section stop.
Context {R : Type}.
Implicit Types (y : sys R) (p : packet R) (net : list (packet R)).

Lemma coord_step_net y net o asker p : p ∈ net -> net ⊆ y_net y -> p ∈ y_net (coord_step y net o asker).
Proof using.
  intros Hp Hs. unfold coord_step. destruct (cstep (y_coord y) o) as [[c eff]|]; simpl; [|by apply Hs]. apply elem_of_app. by left.
Qed.

(** Only these steps remove the packet [p]. *)
Definition removes y (o : yop R) p : Prop :=
  match o with
  | YPick i _ _ => y_net y !! i = Some p
  | YHandle n => exists m, p = PMail n m
  | YCrash n => of_node n p = true
  | _ => False
  end.
Lemma step_keeps y o p : p ∈ y_net y -> ~ removes y o p -> p ∈ y_net (ystep y o).
Proof using.
  intros Hp Hr. destruct o as [o|i ps ord|n|n s0 a|n s0 r|n]; cbn [ystep removes] in *.
  - assert (H : p ∈ y_net (coord_step y (y_net y) o None)) by (by apply coord_step_net). by destruct o.
  - unfold pick. destruct (y_net y !! i) as [q|] eqn:Ei; [|done].
    assert (Hq : p <> q) by congruence. destruct (remove_nth_split _ _ _ Ei) as (l1 & l2 & En & ->).
    assert (Hp' : p ∈ l1 ++ l2). { rewrite En in Hp. rewrite elem_of_app, elem_of_cons in Hp. rewrite elem_of_app. tauto. }
    assert (Hsub : l1 ++ l2 ⊆ y_net y). { rewrite En. intros z. rewrite !elem_of_app, elem_of_cons. tauto. }
    destruct q; simpl; try (destruct (existsb _ _)); simpl; try done; try (apply elem_of_app; by left); try (by apply coord_step_net).
    destruct (y_hosts y !! n); [apply elem_of_app; by left|done].
  - destruct (y_hosts y !! n) as [h|]; [|done]. destruct (index_of (mail_for n) (y_net y)) as [i|] eqn:Ei; [|done].
    destruct (index_of_split _ _ _ Ei) as (q & l1 & l2 & En & Hq & -> & -> & _). destruct q as [|n' m| | | | |]; try done.
    destruct (hstep h m) as [h' eff]. simpl. rewrite !elem_of_app. rewrite En, elem_of_app, elem_of_cons in Hp.
    destruct Hp as [?|[->|?]]; [tauto| |tauto]. destruct Hr. simpl in Hq. apply N.eqb_eq in Hq. subst. eauto.
  - destruct (existsb _ _); simpl; [apply elem_of_app; by left|done].
  - destruct (y_hosts y !! n); simpl; [apply elem_of_app; by left|done].
  - simpl. apply elem_filter. split; [done|]. by destruct (of_node n p).
Qed.

Lemma net_not_odd y s : yinv y -> VOdd ∉ pk s (y_net y).
Proof using. intros [_ _ Hs]. apply (s_odd _ _ _ _ _ (Hs s)). Qed.

Lemma handle_stop y n s req h : yinv y -> y_hosts y !! n = Some h -> PMail n (MStop s req) ∈ y_net y ->
  exists a, sh_hosted h !! s = Some (HReady a).
Proof using.
  intros [_ _ Hs] Eh Hp. destruct (s_stop _ _ _ _ _ (Hs s) true n) as [a Ha].
  - apply elem_pk. exists (PMail n (MStop s req)). split; [done|]. simpl. by rewrite N.eqb_refl.
  - by exists h.
  - unfold ents in Ha. rewrite Eh in Ha. simpl in Ha. unfold hent in Ha. destruct (sh_hosted h !! s) as [[]|]; try done. eauto.
Qed.

Lemma task_not_starting y n s a req : yinv y -> PStopTask n s a req ∈ y_net y -> is_Some req /\ existsb (starting_actor n s a) (y_live y) = false.
Proof using.
  intros Hy Hp. destruct req as [rq|].
  2:{ destruct (net_not_odd y s Hy). apply elem_pk. exists (PStopTask n s a None). split; [done|]. simpl. by rewrite N.eqb_refl. }
  split; [by eexists|]. destruct (existsb (starting_actor n s a) (y_live y)) eqn:E; [|done]. apply existsb_true_live in E.
  destruct Hy as [_ _ Hs]. specialize (Hs s).
  assert (Hk : ents (y_hosts y) s n = Some KStopping).
  { eapply s_task; [exact Hs|]. apply elem_pk. exists (PStopTask n s a (Some rq)). split; [done|]. simpl. rewrite N.eqb_refl. done. }
  destruct (s_live _ _ _ _ _ Hs _ _ _ E) as [F|[[F _]|[F _]]]; congruence.
Qed.

(** The stop is carried on by every step, except the crash of its node. *)
Theorem stop_kept y o n s : yinv y -> alive (y_hosts y) n -> o <> YCrash n -> stop_outstanding y n s ->
  stop_outstanding (ystep y o) n s \/ stop_answered (ystep y o) s.
Proof using.
  intros Hy [h Eh] Hcr Hout. destruct Hout as [[req Hp]|[[req Hp]|(a & req & Hp)]].
  - assert (Hd : removes y o (PSend n (MStop s req)) \/ ~ removes y o (PSend n (MStop s req))).
    { destruct o as [o|i ps ord|n'|n' s0 a|n' s0 r|n']; simpl; try tauto; [|right; by intros [? ?]|right; done].
      destruct (y_net y !! i) as [q|]; [|by right]. destruct q as [k m| | | | | |]; try (right; congruence).
      destruct m as [| | | |s' [r1 r2]|]; try (right; congruence). destruct req as [r3 r4].
      destruct (decide ((k, s', r1, r2) = (n, s, r3, r4))); [left|right]; congruence. }
    destruct Hd as [Hd|Hd].
    + destruct o as [o|i ps ord|n'|n' s0 a|n' s0 r|n']; simpl in Hd; try done; [|by destruct Hd].
      left. right. left. exists req. cbn [ystep]. unfold pick. rewrite Hd, Eh. simpl. apply elem_of_app. right. constructor.
    + left. left. exists req. by apply step_keeps.
  - destruct (handle_stop y n s req h Hy Eh Hp) as [a Ha].
    destruct o as [o|i ps ord|n'|n' s0 a'|n' s0 r|n'].
    + left. right. left. exists req. apply step_keeps; [done|]. simpl. tauto.
    + left. right. left. exists req. cbn [ystep]. destruct (y_net y !! i) as [q|] eqn:Em; [|unfold pick; by rewrite Em].
      destruct q as [|k m| | | | |]; [|unfold pick; by rewrite Em|..]; (apply (step_keeps y (YPick i ps ord)); [done|]; simpl; congruence).
    + destruct (decide (n' = n)) as [->|Hne].
      2:{ left. right. left. exists req. apply step_keeps; [done|]. simpl. intros [m E]. congruence. }
      cbn [ystep]. rewrite Eh. destruct (index_of (mail_for n) (y_net y)) as [i|] eqn:Ei.
      2:{ left. right. left. by exists req. }
      destruct (index_of_split _ _ _ Ei) as (q & l1 & l2 & En & Hq & -> & -> & _). destruct q as [|n'' m| | | | |]; try done.
      rewrite En, elem_of_app, elem_of_cons in Hp.
      destruct (hstep h m) as [h' eff] eqn:Eh'.
      destruct Hp as [Hp|[Hp|Hp]].
      * left. right. left. exists req. simpl. rewrite !elem_of_app. tauto.
      * injection Hp as _ <-. simpl in Eh'. unfold on_stop in Eh'. rewrite Ha in Eh'. injection Eh' as <- <-.
        left. right. right. exists a, (Some req). simpl. rewrite !elem_of_app. right. constructor.
      * left. right. left. exists req. simpl. rewrite !elem_of_app. tauto.
    + left. right. left. exists req. apply step_keeps; [done|]. simpl. tauto.
    + left. right. left. exists req. apply step_keeps; [done|]. simpl. tauto.
    + left. right. left. exists req. apply step_keeps; [done|]. simpl. intros E%N.eqb_eq. congruence.
  - destruct (task_not_starting y n s a req Hy Hp) as [[rq ->] Hns].
    destruct o as [o|i ps ord|n'|n' s0 a'|n' s0 r|n'];
      try (left; right; right; exists a, (Some rq); apply step_keeps; [done|]; simpl; try tauto; try (by intros [? ?]); intros E%N.eqb_eq; congruence).
    cbn [ystep]. unfold pick. destruct (y_net y !! i) as [q|] eqn:Ei; [|left; right; right; eauto].
    destruct (remove_nth_split _ _ _ Ei) as (l1 & l2 & En & Er). rewrite En, elem_of_app, elem_of_cons in Hp.
    assert (Hd : (exists rq', q = PStopTask n s a (Some rq')) \/ ~ exists rq', q = PStopTask n s a (Some rq')).
    { destruct q as [| | | |n1 s1 a1 [rq1|]| |]; try (right; intros [? ?]; done).
      destruct (decide ((n1, s1, a1) = (n, s, a))) as [E|E]; [left; exists rq1; congruence|right; intros [? ?]; congruence]. }
    destruct Hd as [[rq' ->]|Hn].
    + right. rewrite Hns. unfold stop_answered. simpl. rewrite elem_of_app, !elem_of_cons. tauto.
    + left. right. right. exists a, (Some rq).
      assert (PStopTask n s a (Some rq) ∈ y_net (ystep y (YPick i ps ord))) as Hk.
      { apply step_keeps; [rewrite En, elem_of_app, elem_of_cons; tauto|]. simpl. rewrite Ei. intros [= ->]. apply Hn. eauto. }
      cbn [ystep] in Hk. unfold pick in Hk. rewrite Ei in Hk. exact Hk.
Qed.

(** From every such state the stop can be finished. *)
Fixpoint handles (n : N) (k : nat) : list (yop R) :=
  match k with O => [] | S k' => YHandle n :: handles n k' end.

Lemma host_packets_no_mail n k eff m : PMail k m ∉ host_packets (R:=R) n eff.
Proof using. unfold host_packets. intros (e & _ & He)%elem_of_list_omap. by destruct e. Qed.

Lemma finish_task y n s a req : yinv y -> PStopTask n s a req ∈ y_net y ->
  exists l, orderly_run y l /\ stop_answered (yrun y l) s.
Proof using.
  intros Hy Hp. destruct (task_not_starting y n s a req Hy Hp) as [[rq ->] Hns].
  apply elem_of_list_lookup in Hp as [i Hi]. exists [YPick i true []]. split.
  - simpl. split; [|done]. intros n' s'. rewrite Hi. done.
  - simpl. unfold pick. rewrite Hi, Hns. unfold stop_answered. simpl. rewrite elem_of_app, !elem_of_cons. tauto.
Qed.

Lemma finish_mail n s req : forall net1 net2 y h, yinv y -> y_hosts y !! n = Some h ->
  y_net y = net1 ++ PMail n (MStop s req) :: net2 ->
  exists l, orderly_run y l /\ stop_answered (yrun y l) s.
Proof using.
  intros net1. remember (length net1) as k eqn:Ek. revert net1 Ek. induction k as [k IH] using lt_wf_ind. intros net1 -> net2 y h Hy Eh En.
  assert (Hi : exists i, index_of (mail_for n) (y_net y) = Some i).
  { rewrite En. clear. induction net1 as [|p net1 IH]; simpl; [rewrite N.eqb_refl; eauto|]. destruct (mail_for n p); [eauto|]. destruct IH as [i ->]. eauto. }
  destruct Hi as [i Hi]. destruct (index_of_split _ _ _ Hi) as (q & l1 & l2 & En' & Hq & Hrem & Hlk & Hfirst).
  destruct q as [|n' m| | | | |]; try done. simpl in Hq. apply N.eqb_eq in Hq. subst n'.
  assert (Hstep : ystep y (YHandle n) = Sys (y_coord y) (<[n := (hstep h m).1]> (y_hosts y)) ((l1 ++ l2) ++ host_packets n (hstep h m).2)
                   (y_live y ++ started n (hstep h m).2) (y_got y) (y_ids y)).
  { cbn [ystep]. rewrite Eh, Hi, Hlk, Hrem. by destruct (hstep h m). }
  assert (Hy' : yinv (ystep y (YHandle n))) by (by apply ystep_inv).
  assert (Hcase : PMail n m = PMail n (MStop s req) \/ exists r1 r2, net1 = l1 ++ PMail n m :: r1 /\ l2 = r1 ++ PMail n (MStop s req) :: r2).
  { rewrite En in En'. clear -En' Hfirst. revert l1 En' Hfirst. induction net1 as [|p net1 IH]; intros l1 En' Hfirst.
    - destruct l1 as [|p l1]; simpl in En'; [injection En' as -> _; by left|]. injection En' as <- _.
      specialize (Hfirst _ (elem_of_list_here _ _)). simpl in Hfirst. by rewrite N.eqb_refl in Hfirst.
    - destruct l1 as [|p' l1]; simpl in En'; [injection En' as -> <-; right; eauto|]. injection En' as <- En'.
      destruct (IH l1 En') as [?|(r1 & r2 & -> & ->)]; [intros z Hz; apply Hfirst; by constructor|by left|]. right. eauto. }
  destruct Hcase as [[= ->]|(r1 & r2 & -> & ->)].
  - destruct (handle_stop y n s req h Hy Eh) as [a Ha]; [rewrite En'; apply elem_of_app; right; constructor|].
    assert (Hs' : PStopTask n s a (Some req) ∈ y_net (ystep y (YHandle n))).
    { rewrite Hstep. simpl. unfold on_stop. rewrite Ha. simpl. rewrite !elem_of_app. right. constructor. }
    destruct (finish_task _ _ _ _ _ Hy' Hs') as (l & Hl & Ha'). exists (YHandle n :: l). simpl. auto.
  - destruct (IH (length (l1 ++ r1))) with (net1 := l1 ++ r1) (net2 := r2 ++ host_packets n (hstep h m).2) (y := ystep y (YHandle n)) (h := (hstep h m).1)
      as (l & Hl & Ha); try done.
    + rewrite !app_length. simpl. lia.
    + rewrite Hstep. simpl. apply lookup_insert.
    + rewrite Hstep. simpl. by rewrite <- !app_assoc.
    + exists (YHandle n :: l). simpl. auto.
Qed.

Theorem stop_can_finish y n s : yinv y -> alive (y_hosts y) n -> stop_outstanding y n s ->
  exists l, orderly_run y l /\ stop_answered (yrun y l) s.
Proof using.
  intros Hy [h Eh] Hout. destruct Hout as [[req Hp]|[[req Hp]|(a & req & Hp)]].
  - apply elem_of_list_lookup in Hp as [i Hi]. assert (Ho : orderly y (YPick i true [])).
    { intros n' s'. rewrite Hi. done. }
    assert (Hy' := ystep_inv _ _ Hy Ho).
    assert (Hs : exists l1, y_net (ystep y (YPick i true [])) = l1 ++ PMail n (MStop s req) :: [] /\ y_hosts (ystep y (YPick i true [])) = y_hosts y).
    { cbn [ystep]. unfold pick. rewrite Hi, Eh. simpl. eauto. }
    destruct Hs as (l1 & Hn & Hh). destruct (finish_mail n s req l1 [] _ h Hy') as (l & Hl & Ha); [by rewrite Hh|done|].
    exists (YPick i true [] :: l). simpl. auto.
  - apply elem_of_list_split in Hp as (l1 & l2 & Hn). by eapply finish_mail.
  - by eapply finish_task.
Qed.

End stop.
