(** Proofs about the shutdown of an actor system. *)
From Verif Require Import Shutdown_Model Shutdown_Spec.

Lemma yrun_snoc ops o : yrun (ops ++ [o]) = let '(s, tr) := yrun ops in let '(s', ev) := ystep s o in (s', tr ++ ev).
Proof.
  unfold yrun. rewrite run_app. destruct (run _ _ ops) as [s evs]. simpl.
  destruct (ystep s o) as [s' ev]. rewrite concat_app. simpl. by rewrite app_nil_r.
Qed.

Lemma yrun_ind (P : sys -> list yevent -> Prop) :
  P sys_init [] ->
  (forall s tr o, P s tr -> P (ystep s o).1 (tr ++ (ystep s o).2)) ->
  forall ops, P (yrun ops).1 (yrun ops).2.
Proof.
  intros H0 Hs ops. induction ops as [|o ops IH] using rev_ind; [done|].
  rewrite yrun_snoc. destruct (yrun ops) as [s tr] eqn:E.
  specialize (Hs s tr o). destruct (ystep s o). by apply Hs.
Qed.

(** ** One step, seen from one actor *)

(** How the state of one actor may change in a step [o] from [y] to [y'], and what is reported
    about it. *)
Inductive actor_change (y : sys) (o : yop) (y' : sys) (ev : list yevent) (r : nat) : actor -> actor -> Prop :=
| CSame a : actor_change y o y' ev r a a
| CDeliver a m : m = MStop \/ (exists x, m = MUser x /\ o = OSend r x) -> actor_change y o y' ev r a (deliver a m)
| CTake a x q : a_phase a = ALoop -> a_mail a = MUser x :: q -> actor_change y o y' ev r a (set_mail a q)
| CLeave a m q : a_phase a = ALoop -> a_mail a = m :: q -> actor_change y o y' ev r a (set_phase (set_mail a q) AHook)
| CAsk a q : a_phase a = ALoop -> a_mail a = MUser RAsk :: q -> actor_change y o y' ev r a (set_phase (set_mail a q) AAsks)
| CAnswer a : a_phase a = AAsks -> actor_change y o y' ev r a (set_phase a ALoop)
| CHookAsk a : a_phase a = AHook -> a_asks a = true -> actor_change y o y' ev r a (set_phase a AHookAsks)
| CHook a : a_phase a = AHook \/ a_phase a = AHookAsks -> YHook r ∈ ev -> actor_change y o y' ev r a (set_phase a ACheck)
| CCheck a p : a_phase a = ACheck -> p = ADereg /\ a_tracked a = true /\ y_term y' = false \/ p = AEnding ->
    actor_change y o y' ev r a (set_phase a p)
| CWait a : a_phase a = ADereg -> (y_mail y' = y_mail y ++ [GDereg (a_id a) r] /\ y_sched y' = y_sched y) ->
    actor_change y o y' ev r a (set_phase a AWaits)
| CDone a : a_phase a = AWaits -> actor_change y o y' ev r a (set_phase a AEnding)
| CEnd a : a_phase a = AEnding -> actor_change y o y' ev r a (set_phase (set_mail a []) AEnded)
| CPanic a : YPanicked r ∈ ev -> actor_change y o y' ev r a (set_phase (set_mail a []) AEnded).

Ltac ch :=
  first [ by apply CSame | by apply CDeliver; eauto | by eapply CTake | by eapply CLeave | by apply CAsk | by apply CAnswer
        | by apply CHookAsk | apply CHook; [by auto|by first [left|auto]] | apply CCheck; [by auto|by auto]
        | by apply CWait | by apply CDone | by apply CEnd | apply CPanic; by first [left|auto] ].

Lemma answer_actors y k y' ev y0 o y1 : answer y k = (y', ev) -> forall r a, y_actors y !! r = Some a ->
  exists a', y_actors y' !! r = Some a' /\ actor_change y0 o y1 ev r a a'.
Proof.
  unfold answer. intros H r a Ha. destruct (y_actors y !! k) as [b|] eqn:Hk.
  2: { injection H as <- <-. exists a. split; [done|ch]. }
  destruct (answered b) as [b' h] eqn:Eb. injection H as <- <-. cbn [with_actor y_actors].
  destruct (decide (r = k)) as [->|Hne].
  - rewrite lookup_insert. assert (b = a) as -> by congruence. exists b'. split; [done|].
    unfold answered in Eb. destruct (a_phase a) eqn:Ep; simplify_eq; ch.
  - rewrite lookup_insert_ne by done. exists a. split; [done|ch].
Qed.

Lemma concat_event (l : list (nat * actor)) e :
  e ∈ concat (map unanswered_event l) <-> exists x, x ∈ l /\ e ∈ unanswered_event x.
Proof.
  induction l as [|x l IH]; simpl.
  - split; [by intros ?%elem_of_nil|by intros (x & ?%elem_of_nil & _)].
  - rewrite elem_of_app, IH. split.
    + intros [H|(z & Hz & H)]; [exists x|exists z]; (split; [|done]); [by left|by right].
    + intros (z & [->|Hz]%elem_of_cons & H); [by left|right; by exists z].
Qed.

Lemma step_actors y o r a : y_actors y !! r = Some a ->
  r < y_next y ->
  exists a', y_actors (ystep y o).1 !! r = Some a' /\ actor_change y o (ystep y o).1 (ystep y o).2 r a a'.
Proof.
  intros Ha Hr. 
  assert (Hsame : forall y', exists a', y_actors y !! r = Some a' /\ actor_change y o y' [] r a a').
  { intros y'. exists a. split; [done|ch]. }
  assert (Hw : forall y' k b b' ev, y_actors y !! k = Some b -> actor_change y o y' ev k b b' ->
     exists a', y_actors (with_actor y k b') !! r = Some a' /\ actor_change y o y' ev r a a').
  { intros y' k b b' ev Hk Hc. cbn [with_actor y_actors]. destruct (decide (r = k)) as [->|Hne].
    - rewrite lookup_insert. assert (b = a) as -> by congruence. by exists b'.
    - rewrite lookup_insert_ne by done. exists a. split; [done|ch]. }
  destruct o as [id t asks|k|k x|k| | |k|]; cbn [ystep].
  - cbn [fst snd y_actors]. rewrite lookup_insert_ne by lia. exists a. split; [done|ch].
  - destruct (y_actors y !! k) as [b|]; [|apply Hsame]. destruct (_ && _); apply Hsame.
  - destruct (y_actors y !! k) as [b|] eqn:Hk; [|apply Hsame]. apply (Hw _ k b); [done|ch].
  - destruct (y_actors y !! k) as [b|] eqn:Hk; [|apply Hsame]. apply (Hw _ k b); [done|ch].
  - apply Hsame.
  - destruct (y_term y); [|apply Hsame]. destruct (sched_done y); apply Hsame.
  - destruct (y_actors y !! k) as [b|] eqn:Hk; [|apply Hsame]. unfold actor_step.
    destruct (a_phase b) eqn:Ep; try apply Hsame.
    + destruct (a_mail b) as [|[[| | |]|] q] eqn:Em; [apply Hsame| | | | |].
      * apply (Hw _ k b); [done|ch].
      * apply (Hw _ k b); [done|ch].
      * apply (Hw _ k b); [done|ch].
      * destruct (sched_done y); [|cbn [fst snd post y_actors]]; (apply (Hw _ k b); [done|ch]).
      * apply (Hw _ k b); [done|ch].
    + destruct (a_asks b) eqn:Ea, (sched_done y); cbn [andb negb]; cbn [fst snd post y_actors]; (apply (Hw _ k b); [done|ch]).
    + apply (Hw _ k b); [done|]. destruct (a_tracked b) eqn:Et, (y_term y) eqn:Ey; cbn [andb negb]; ch.
    + destruct (sched_done y); [|cbn [fst snd post y_actors]]; (apply (Hw _ k b); [done|ch]).
    + apply (Hw _ k b); [done|ch].
  - unfold sched_step. destruct (y_sched y) as [|l|] eqn:Es; [| |apply Hsame].
    + destruct (y_mail y) as [|[id k|id k|k|] q] eqn:Em; [apply Hsame|by exists a; split; [done|ch]| | |].
      * destruct (answer _ k) as [y' ev] eqn:E. cbn [fst snd]. by apply (answer_actors _ _ _ _ _ _ _ E r a).
      * destruct (answer _ k) as [y' ev] eqn:E. cbn [fst snd]. by apply (answer_actors _ _ _ _ _ _ _ E r a).
      * cbn [fst snd y_actors]. rewrite map_lookup_imap, Ha. cbn [mbind option_bind].
        eexists. split; [done|]. unfold stop_in. case_bool_decide; ch.
    + destruct (forallb _ l); [|apply Hsame]. cbn [fst snd y_actors]. rewrite lookup_fmap, Ha. cbn [fmap option_fmap option_map].
      eexists. split; [done|]. unfold unanswered.
      assert (Hev : forall e, e ∈ unanswered_event (r, a) -> e ∈ concat (map unanswered_event (map_to_list (y_actors y))) ++ [YReturned]).
      { intros e He. apply elem_of_app. left. apply concat_event. exists (r, a). split; [|done].
        by apply elem_of_map_to_list. }
      unfold unanswered_event in Hev. cbn [snd fst] in Hev.
      destruct (a_phase a) eqn:Ep; try ch; [apply CHook; [by auto|]|apply CPanic]; apply Hev; by left.
Qed.

Definition late (p : aphase) : bool :=
  match p with ACheck | ADereg | AWaits | AEnding | AEnded => true | _ => false end.

Lemma change_id y o y' ev r a a' : actor_change y o y' ev r a a' -> a_id a' = a_id a /\ a_tracked a' = a_tracked a /\ a_asks a' = a_asks a.
Proof. intros []; try done. unfold deliver. by case_bool_decide. Qed.

Lemma change_late y o y' ev r a a' : actor_change y o y' ev r a a' -> late (a_phase a') = true ->
  late (a_phase a) = true \/ YHook r ∈ ev \/ YPanicked r ∈ ev.
Proof.
  intros [ | |a0 x q H Hm|a0 m q H Hm|a0 q H Hm|a0 H|a0 H Hk|a0 H He|a0 p0 H Hp|a0 H Hm|a0 H|a0 H|a0 He]; cbn [set_phase set_mail a_phase]; try done; auto.
  - unfold deliver. case_bool_decide; auto.
  - rewrite H. auto.
  - rewrite H. auto.
  - rewrite H. auto.
  - rewrite H. auto.
Qed.

(** ** What else changes in a step *)
Inductive rest_change (y : sys) : sys -> list yevent -> Prop :=
| SNothing y' ev : y_mail y' = y_mail y -> y_map y' = y_map y -> y_sched y' = y_sched y ->
    (forall r id, YRegistered r id ∉ ev) -> YReturned ∉ ev -> rest_change y y' ev
| SReg y' r a : y_actors y !! r = Some a -> a_tracked a = true -> y_sched y <> GDone ->
    y_mail y' = y_mail y ++ [GReg (a_id a) r] -> y_map y' = y_map y -> y_sched y' = y_sched y -> rest_change y y' []
| SDereg y' r a : y_actors y !! r = Some a -> a_phase a = ADereg -> y_sched y <> GDone ->
    y_mail y' = y_mail y ++ [GDereg (a_id a) r] -> y_map y' = y_map y -> y_sched y' = y_sched y -> rest_change y y' []
| SGet y' r : (exists a, y_actors y !! r = Some a /\ (a_asks a = true \/ MUser RAsk ∈ a_mail a)) -> y_sched y <> GDone -> y_mail y' = y_mail y ++ [GGet r] -> y_map y' = y_map y -> y_sched y' = y_sched y -> rest_change y y' []
| SShut y' : y_term y = true -> y_sched y <> GDone ->
    y_mail y' = y_mail y ++ [GStop] -> y_map y' = y_map y -> y_sched y' = y_sched y -> rest_change y y' []
| SHReg y' id r q : y_sched y = GLoop -> y_mail y = GReg id r :: q ->
    y_mail y' = q -> y_map y' = <[id := r]> (y_map y) -> y_sched y' = GLoop -> rest_change y y' [YRegistered r id]
| SHDereg y' ev id r q : y_sched y = GLoop -> y_mail y = GDereg id r :: q ->
    y_mail y' = q -> y_map y' = delete id (y_map y) -> y_sched y' = GLoop ->
    (forall a, y_actors y' !! r = Some a -> a_phase a <> AWaits) ->
    (forall r id, YRegistered r id ∉ ev) -> YReturned ∉ ev -> rest_change y y' ev
| SHGet y' ev r q : y_sched y = GLoop -> y_mail y = GGet r :: q ->
    y_mail y' = q -> y_map y' = y_map y -> y_sched y' = GLoop ->
    (forall r id, YRegistered r id ∉ ev) -> YReturned ∉ ev -> rest_change y y' ev
| SHStop y' l q : y_sched y = GLoop -> y_mail y = GStop :: q -> l = map snd (map_to_list (y_map y)) ->
    y_mail y' = q -> y_map y' = y_map y -> y_sched y' = GStopping l ->
    (forall r a, r ∈ l -> y_actors y' !! r = Some a -> a_phase a = ALoop -> MStop ∈ a_mail a) -> rest_change y y' []
| SFinish y' l ev : y_sched y = GStopping l -> (forall r, r ∈ l -> has_ended y r = true) ->
    y_mail y' = [] -> y_map y' = y_map y -> y_sched y' = GDone -> (forall r id, YRegistered r id ∉ ev) -> rest_change y y' ev.

Lemma sched_done_false y : sched_done y = false -> y_sched y <> GDone.
Proof. unfold sched_done. by destruct (y_sched y). Qed.

Lemma answer_rest y k y' ev : answer y k = (y', ev) ->
  y_mail y' = y_mail y /\ y_map y' = y_map y /\ y_sched y' = y_sched y /\
  (forall r id, YRegistered r id ∉ ev) /\ YReturned ∉ ev.
Proof.
  unfold answer. intros H. destruct (y_actors y !! k) as [b|] eqn:Hk.
  - destruct (answered b) as [b' h]. injection H as <- <-. split_and!; try done.
    + intros r id. destruct h; [by intros ?%elem_of_list_singleton|by intros ?%elem_of_nil].
    + destruct h; [by intros ?%elem_of_list_singleton|by intros ?%elem_of_nil].
  - injection H as <- <-. split_and!; try done; intros; by intros ?%elem_of_nil.
Qed.

Lemma answer_waits y k y' ev : answer y k = (y', ev) -> forall a, y_actors y' !! k = Some a -> a_phase a <> AWaits.
Proof.
  unfold answer. intros H a. destruct (y_actors y !! k) as [b|] eqn:Hk.
  - destruct (answered b) as [b' h] eqn:Eb. injection H as <- <-. cbn [with_actor y_actors]. rewrite lookup_insert.
    intros [= <-]. unfold answered in Eb. destruct (a_phase b) eqn:Ep; simplify_eq; cbn; congruence.
  - injection H as <- <-. congruence.
Qed.

Lemma step_rest y o : rest_change y (ystep y o).1 (ystep y o).2.
Proof.
  assert (Hnil : forall y', y_mail y' = y_mail y -> y_map y' = y_map y -> y_sched y' = y_sched y -> rest_change y y' []).
  { intros y' H1 H2 H3. apply SNothing; try done; intros; by intros ?%elem_of_nil. }
  assert (Hone : forall y' e, y_mail y' = y_mail y -> y_map y' = y_map y -> y_sched y' = y_sched y ->
    (forall r id, e <> YRegistered r id) -> e <> YReturned -> rest_change y y' [e]).
  { intros y' e H1 H2 H3 H4 H5. apply SNothing; try done.
    - intros r id H%elem_of_list_singleton. by apply (H4 r id).
    - intros H%elem_of_list_singleton. by apply H5. }
  destruct o as [id t asks|k|k x|k| | |k|]; cbn [ystep].
  - by apply Hone.
  - destruct (y_actors y !! k) as [b|] eqn:Hk; [|by apply Hnil]. destruct (_ && _) eqn:E; [|by apply Hnil].
    apply andb_true_iff in E as [E1 E2%negb_true_iff]. apply (SReg y _ k b); auto. by apply sched_done_false.
  - destruct (y_actors y !! k) as [b|]; by apply Hnil.
  - destruct (y_actors y !! k) as [b|]; by apply Hnil.
  - by apply Hnil.
  - destruct (y_term y) eqn:Et; [|by apply Hnil]. destruct (sched_done y) eqn:Es; [by apply Hnil|].
    apply SShut; auto. by apply sched_done_false.
  - destruct (y_actors y !! k) as [b|] eqn:Hk; [|by apply Hnil]. unfold actor_step.
    destruct (a_phase b) eqn:Ep; try by apply Hnil.
    + destruct (a_mail b) as [|[[| | |]|] q] eqn:Em; try (by apply Hnil); try (by apply Hone).
      destruct (sched_done y) eqn:Es; [by apply Hnil|]. apply (SGet y _ k); auto; [|by apply sched_done_false].
      exists b. split; [done|]. right. rewrite Em. by left.
    + destruct (a_asks b) eqn:Ea; cbn [andb]; [|by apply Hone].
      destruct (sched_done y) eqn:Es; cbn [negb]; [by apply Hone|].
      apply (SGet y _ k); auto; [|by apply sched_done_false]. exists b. auto.
    + destruct (sched_done y) eqn:Es; [by apply Hone|].
      apply (SDereg y _ k b); auto. by apply sched_done_false.
    + by apply Hone.
  - unfold sched_step. destruct (y_sched y) as [|l|] eqn:Es.
    + destruct (y_mail y) as [|[id k|id k|k|] q] eqn:Em.
      * by apply Hnil.
      * by eapply SHReg.
      * destruct (answer _ k) as [y' ev] eqn:E. pose proof (answer_waits _ _ _ _ E) as Hw.
        apply answer_rest in E as (H1 & H2 & H3 & H4 & H5). by eapply SHDereg.
      * destruct (answer _ k) as [y' ev] eqn:E. apply answer_rest in E as (H1 & H2 & H3 & H4 & H5). by eapply SHGet.
      * eapply SHStop; try done. cbn [fst y_actors]. intros r a Hr Ha Hp. rewrite map_lookup_imap in Ha.
        destruct (y_actors y !! r) as [b|]; [|done]. cbn [mbind option_bind] in Ha. injection Ha as <-.
        revert Hp. unfold stop_in. rewrite bool_decide_eq_true_2 by done. unfold deliver. case_bool_decide as Hb; [congruence|].
        intros _. cbn. apply elem_of_app. right. by left.
    + destruct (forallb (has_ended y) l) eqn:Ef; [|by apply Hnil].
      apply (SFinish y _ l); try done.
      * intros r Hr. rewrite forallb_forall in Ef. apply Ef. by apply elem_of_list_In.
      * intros r id [H|H]%elem_of_app; [|by apply elem_of_list_singleton in H].
        apply concat_event in H as (x & _ & H). unfold unanswered_event in H.
        destruct (a_phase _); try (by apply elem_of_nil in H); by apply elem_of_list_singleton in H.
    + by apply Hnil.
Qed.

(** ** Everything registered is stopped *)
Record I (y : sys) (tr : list yevent) : Prop := {
  i_next : forall r a, y_actors y !! r = Some a -> r < y_next y;
  i_created : forall r a, y_actors y !! r = Some a -> YCreated r (a_id a) (a_tracked a) ∈ tr;
  i_track : forall r a, y_actors y !! r = Some a -> a_phase a = ADereg -> a_tracked a = true;
  i_late : forall r a, y_actors y !! r = Some a -> late (a_phase a) = true -> stopped r tr;
  i_reg : forall id r, GReg id r ∈ y_mail y -> YCreated r id true ∈ tr;
  i_dereg : forall id r, GDereg id r ∈ y_mail y -> YCreated r id true ∈ tr /\ stopped r tr;
  i_map : forall r id, YRegistered r id ∈ tr -> only_one r id tr -> y_map y !! id = Some r \/ stopped r tr;
  i_regd : forall r id, YRegistered r id ∈ tr -> exists a, y_actors y !! r = Some a;
  i_stopping : forall l r id, y_sched y = GStopping l -> YRegistered r id ∈ tr -> only_one r id tr -> r ∈ l \/ stopped r tr;
  i_done : forall r id, y_sched y = GDone -> YRegistered r id ∈ tr -> only_one r id tr -> stopped r tr;
  i_ret : YReturned ∈ tr -> y_sched y = GDone;
  i_exists : forall r, (exists id t, YCreated r id t ∈ tr) -> exists a, y_actors y !! r = Some a;
}.

Lemma created_actor y o r a : y_actors (ystep y o).1 !! r = Some a -> y_actors y !! r = None ->
  r = y_next y /\ y_next (ystep y o).1 = S (y_next y) /\ (ystep y o).2 = [YCreated r (a_id a) (a_tracked a)] /\
  a_phase a = ALoop /\ a_mail a = [] /\ exists asks, o = OCreate (a_id a) (a_tracked a) asks /\ a_asks a = asks.
Proof.
  assert (Hw : forall k b b', y_actors y !! k = Some b -> y_actors (with_actor y k b') !! r = Some a -> y_actors y !! r = None -> False).
  { intros k b b' Hk H1 H2. cbn [with_actor y_actors] in H1. destruct (decide (r = k)) as [->|Hne]; [congruence|].
    rewrite lookup_insert_ne in H1 by done. congruence. }
  assert (Han : forall y0 k y' ev, y_actors y0 = y_actors y -> answer y0 k = (y', ev) -> y_actors y' !! r = Some a -> y_actors y !! r = None -> False).
  { intros y0 k y' ev E. unfold answer. rewrite E. destruct (y_actors y !! k) as [b|] eqn:Hk.
    - destruct (answered b). intros [= <- _]. cbn [with_actor y_actors]. rewrite E.
      destruct (decide (r = k)) as [->|Hne]; [congruence|]. rewrite lookup_insert_ne by done. congruence.
    - intros [= <- _]. rewrite E. congruence. }
  intros H Hn.
  destruct o as [id t asks|k|k x|k| | |k|]; cbn [ystep] in *.
  - cbn [fst snd y_actors y_next] in *. destruct (decide (r = y_next y)) as [->|Hne].
    + rewrite lookup_insert in H. injection H as <-. cbn. split_and!; try done. by exists asks.
    + rewrite lookup_insert_ne in H by done. congruence.
  - destruct (y_actors y !! k) as [b|] eqn:Hk; [destruct (_ && _)|]; cbn [fst post y_actors] in H; congruence.
  - destruct (y_actors y !! k) as [b|] eqn:Hk; [|simpl in H; congruence]. exfalso. by eapply Hw.
  - destruct (y_actors y !! k) as [b|] eqn:Hk; [|simpl in H; congruence]. exfalso. by eapply Hw.
  - simpl in H. congruence.
  - destruct (y_term y); [destruct (sched_done y)|]; simpl in H; congruence.
  - exfalso. destruct (y_actors y !! k) as [b|] eqn:Hk; [|simpl in H; congruence].
    unfold actor_step in H.
    repeat case_match; cbn [fst post y_actors] in H; try congruence; by eapply Hw.
  - exfalso. unfold sched_step in H. destruct (y_sched y) as [|l|].
    + destruct (y_mail y) as [|[id k|id k|k|] q].
      * simpl in H. congruence.
      * simpl in H. congruence.
      * destruct (answer _ k) as [y' ev] eqn:E. by refine (Han _ _ _ _ _ E H Hn).
      * destruct (answer _ k) as [y' ev] eqn:E. by refine (Han _ _ _ _ _ E H Hn).
      * cbn [fst y_actors] in H. rewrite map_lookup_imap, Hn in H. done.
    + destruct (forallb _ _); [|simpl in H; congruence]. cbn [fst y_actors] in H. by rewrite lookup_fmap, Hn in H.
    + simpl in H. congruence.
Qed.

Lemma step_next y o : y_next y <= y_next (ystep y o).1.
Proof.
  destruct o as [id t asks|k|k x|k| | |k|]; cbn [ystep].
  1: cbn; lia.
  all: unfold actor_step, sched_step, answer, post, with_actor; repeat case_match; simplify_eq; simpl; lia.
Qed.

Lemma created_event y o r id t : YCreated r id t ∈ (ystep y o).2 -> exists a, y_actors (ystep y o).1 !! r = Some a.
Proof.
  assert (Hn : forall e : yevent, e ∉ []) by (intros e; by intros ?%elem_of_nil).
  destruct o as [i t' asks|k|k x|k| | |k|]; cbn [ystep].
  - cbn. intros [= -> -> ->]%elem_of_list_singleton. rewrite lookup_insert. eauto.
  - destruct (y_actors y !! k) as [b|]; [destruct (_ && _)|]; by intros ?%Hn.
  - destruct (y_actors y !! k) as [b|]; by intros ?%Hn.
  - destruct (y_actors y !! k) as [b|]; by intros ?%Hn.
  - by intros ?%Hn.
  - destruct (y_term y); [destruct (sched_done y)|]; by intros ?%Hn.
  - destruct (y_actors y !! k) as [b|]; [|by intros ?%Hn]. unfold actor_step.
    repeat case_match; cbn [snd]; try (by intros ?%Hn); by intros ?%elem_of_list_singleton.
  - unfold sched_step, answer. destruct (y_sched y) as [|l|].
    + repeat case_match; simplify_eq; cbn [snd]; try (by intros ?%Hn); by intros ?%elem_of_list_singleton.
    + destruct (forallb _ _); [|by intros ?%Hn]. cbn [snd].
      intros [H|H]%elem_of_app; [|by apply elem_of_list_singleton in H].
      apply concat_event in H as (x & _ & H). unfold unanswered_event in H.
      destruct (a_phase _); try (by apply elem_of_nil in H); by apply elem_of_list_singleton in H.
    + by intros ?%Hn.
Qed.

Lemma stopped_mono r tr ev : stopped r tr -> stopped r (tr ++ ev).
Proof. unfold stopped. rewrite !elem_of_app. tauto. Qed.
Lemma only_one_mono r id tr ev : only_one r id (tr ++ ev) -> only_one r id tr.
Proof. intros H r' Hr. apply H, elem_of_app. by left. Qed.

Lemma I_init : I sys_init [].
Proof.
  assert (Hn : forall e : yevent, e ∉ []) by (intros e; by intros ?%elem_of_nil).
  split; cbn; intros; try done; try (by match goal with H : _ ∈ [] |- _ => apply elem_of_nil in H end).
  by destruct H as (i & t & ?%Hn).
Qed.

Lemma I_step y tr o : I y tr -> I (ystep y o).1 (tr ++ (ystep y o).2).
Proof.
  intros HI. destruct HI as [H1 H2 H3 H4 H5 H6 H7 H8 H9 H10 H11 H12].
  assert (Hback : forall r a', y_actors (ystep y o).1 !! r = Some a' ->
    (exists a, y_actors y !! r = Some a /\ actor_change y o (ystep y o).1 (ystep y o).2 r a a') \/
    (r = y_next y /\ y_next (ystep y o).1 = S (y_next y) /\ (ystep y o).2 = [YCreated r (a_id a') (a_tracked a')] /\ a_phase a' = ALoop)).
  { intros r a' Ha'. destruct (y_actors y !! r) as [a|] eqn:Ha.
    - left. destruct (step_actors y o r a Ha (H1 _ _ Ha)) as (a2 & E & Hc). exists a. split; [done|]. congruence.
    - right. destruct (created_actor y o r a' Ha' Ha) as (? & ? & ? & ? & _). done. }
  assert (Hfwd : forall r a, y_actors y !! r = Some a -> exists a', y_actors (ystep y o).1 !! r = Some a' /\ actor_change y o (ystep y o).1 (ystep y o).2 r a a').
  { intros r a Ha. by apply step_actors; [|eapply H1]. }
  assert (Hcrev : forall id t r, YCreated r id t ∈ (ystep y o).2 -> exists a, y_actors (ystep y o).1 !! r = Some a).
  { intros id t r. apply created_event. }
  pose proof (step_next y o) as Hn. pose proof (step_rest y o) as Hr.
  destruct (ystep y o) as [y' ev] eqn:Eo. cbn [fst snd] in *. clear Eo.
  assert (Hlate : forall r a, y_actors y' !! r = Some a -> late (a_phase a) = true -> stopped r (tr ++ ev)).
  { intros r a' Ha' Hl. destruct (Hback _ _ Ha') as [(a & Ha & Hc)|(_ & _ & _ & Hp)]; [|by rewrite Hp in Hl].
    destruct (change_late _ _ _ _ _ _ _ Hc Hl) as [H|[H|H]].
    - apply stopped_mono. by eapply H4.
    - left. apply elem_of_app. by right.
    - right. apply elem_of_app. by right. }
  assert (Hreg : forall r id, YRegistered r id ∈ tr ++ ev -> YRegistered r id ∉ ev -> YRegistered r id ∈ tr).
  { intros r id [H|H]%elem_of_app Hn'; [done|by destruct Hn']. }
  assert (Hmail : forall m, m ∈ y_mail y -> (forall id r, m = GReg id r -> YCreated r id true ∈ tr ++ ev) /\
     (forall id r, m = GDereg id r -> YCreated r id true ∈ tr ++ ev /\ stopped r (tr ++ ev))).
  { intros m Hm. split.
    - intros id r ->. apply elem_of_app. left. by apply H5.
    - intros id r ->. apply H6 in Hm as [Hm1 Hm2]. split; [apply elem_of_app; by left|by apply stopped_mono]. }
  assert (Hcr : forall r a, y_actors y !! r = Some a -> YCreated r (a_id a) (a_tracked a) ∈ tr ++ ev).
  { intros r a Ha. apply elem_of_app. left. by apply H2. }
  assert (Hposted : forall m, m ∈ y_mail y' -> m ∈ y_mail y \/
     (exists r a, y_actors y !! r = Some a /\ a_tracked a = true /\ m = GReg (a_id a) r) \/
     (exists r a, y_actors y !! r = Some a /\ a_phase a = ADereg /\ m = GDereg (a_id a) r) \/
     (m = GStop \/ exists r, m = GGet r)).
  { intros m. destruct Hr as [y' ev Em Ep Es Hn1 Hn2|y' r0 a0 Ha0 Ht0 Hs0 Em Ep Es|y' r0 a0 Ha0 Hp0 Hs0 Em Ep Es|y' r0 Hk0 Hs0 Em Ep Es|y' Ht0 Hs0 Em Ep Es|y' id0 r0 q0 Hs0 Eq Em Ep Es|y' ev id0 r0 q0 Hs0 Eq Em Ep Es Hw0 Hn1 Hn2|y' ev r0 q0 Hs0 Eq Em Ep Es Hn1 Hn2|y' l0 q0 Hs0 Eq Hl Em Ep Es Hst|y' l0 ev Hs0 Hall Em Ep Es Hn1]; rewrite Em, ?elem_of_app, ?elem_of_list_singleton; try rewrite Eq, elem_of_cons; eauto 10.
    - intros [H|H]; eauto 10.
    - intros [H|H]; eauto 10.
    - intros [H|H]; eauto 10.
    - intros [H|H]; eauto 10.
    - by intros ?%elem_of_nil. }
  split.
  - intros r a' Ha'. destruct (Hback _ _ Ha') as [(a & Ha & Hc)|(-> & -> & _)]; [|lia].
    apply H1 in Ha. lia.
  - intros r a' Ha'. destruct (Hback _ _ Ha') as [(a & Ha & Hc)|(_ & _ & -> & _)].
    + destruct (change_id _ _ _ _ _ _ _ Hc) as (-> & -> & _). by apply Hcr.
    + apply elem_of_app. right. by left.
  - intros r a' Ha' Hp. destruct (Hback _ _ Ha') as [(a & Ha & Hc)|(_ & _ & _ & Hp')]; [|congruence].
    destruct (change_id _ _ _ _ _ _ _ Hc) as (_ & Et & _). rewrite Et.
    inversion Hc as [ |? m Hm|? x q Hq Hm|? m q Hq Hm|? q Hq Hm|? Hq|? Hq Hk|? Hq He|? p0 Hq Hq'|? Hq Hm|? Hq|? Hq|? He]; subst;
      cbn [set_phase set_mail a_phase] in Hp; try done; try (by eapply H3); try congruence.
    + apply (H3 r a); [done|]. revert Hp. unfold deliver. by case_bool_decide.
    + destruct Hq' as [(_ & ? & _)|?]; [done|congruence].
  - done.
  - intros id r Hm. destruct (Hposted _ Hm) as [Hm'|[(r0 & a0 & Ha & Ht & E)|[(r0 & a0 & Ha & Hp & E)|Hm']]]; [|simplify_eq|done|].
    + by apply (proj1 (Hmail _ Hm')).
    + rewrite <-Ht. by apply Hcr.
    + by destruct Hm' as [Hm'|[r0 Hm']].
  - intros id r Hm. destruct (Hposted _ Hm) as [Hm'|[(r0 & a0 & Ha & Ht & E)|[(r0 & a0 & Ha & Hp & E)|Hm']]]; [|done|simplify_eq|].
    + by apply (proj2 (Hmail _ Hm')).
    + split; [rewrite <-(H3 _ _ Ha Hp); by apply Hcr|]. apply stopped_mono. apply (H4 _ _ Ha). by rewrite Hp.
    + by destruct Hm' as [Hm'|[r0 Hm']].
  - intros r id Hin Ho. pose proof (only_one_mono _ _ _ _ Ho) as Ho'.
    assert (Hsame : YRegistered r id ∉ ev -> y_map y' = y_map y -> y_map y' !! id = Some r \/ stopped r (tr ++ ev)).
    { intros Hn' ->. destruct (H7 _ _ (Hreg _ _ Hin Hn') Ho') as [H|H]; [by left|right; by apply stopped_mono]. }
    assert (Hnil : forall e, e ∉ ([] : list yevent)) by (intros e; by intros ?%elem_of_nil).
    destruct Hr as [y' ev Em Ep Es Hn1 Hn2|y' r0 a0 Ha0 Ht0 Hs0 Em Ep Es|y' r0 a0 Ha0 Hp0 Hs0 Em Ep Es|y' r0 Hk0 Hs0 Em Ep Es|y' Ht0 Hs0 Em Ep Es|y' id0 r0 q0 Hs0 Eq Em Ep Es|y' ev id0 r0 q0 Hs0 Eq Em Ep Es Hw0 Hn1 Hn2|y' ev r0 q0 Hs0 Eq Em Ep Es Hn1 Hn2|y' l0 q0 Hs0 Eq Hl Em Ep Es Hst|y' l0 ev Hs0 Hall Em Ep Es Hn1]; try (by apply Hsame; auto).
    + rewrite Ep. destruct (decide (id0 = id)) as [->|Hne].
      * rewrite lookup_insert. left. f_equal. apply Ho'. apply H5. rewrite Eq. by left.
      * rewrite lookup_insert_ne by done. apply Hreg in Hin; [|by intros [= ? ?]%elem_of_list_singleton].
        destruct (H7 _ _ Hin Ho') as [H|H]; [by left|right; by apply stopped_mono].
    + rewrite Ep. apply Hreg in Hin; [|auto]. destruct (decide (id0 = id)) as [->|Hne].
      * right. destruct (H6 id r0) as [Hc Hst]; [rewrite Eq; by left|]. apply stopped_mono. by rewrite <-(Ho' _ Hc).
      * rewrite lookup_delete_ne by done. destruct (H7 _ _ Hin Ho') as [H|H]; [by left|right; by apply stopped_mono].
  - intros r id Hin. 
    assert (Hold : YRegistered r id ∈ tr -> exists a, y_actors y' !! r = Some a).
    { intros H. destruct (H8 _ _ H) as [a Ha]. destruct (Hfwd _ _ Ha) as (a' & Ha' & _). by exists a'. }
    apply elem_of_app in Hin as [Hin|Hin]; [by apply Hold|].
    destruct Hr as [y' ev Em Ep Es Hn1 Hn2|y' r0 a0 Ha0 Ht0 Hs0 Em Ep Es|y' r0 a0 Ha0 Hp0 Hs0 Em Ep Es|y' r0 Hk0 Hs0 Em Ep Es|y' Ht0 Hs0 Em Ep Es|y' id0 r0 q0 Hs0 Eq Em Ep Es|y' ev id0 r0 q0 Hs0 Eq Em Ep Es Hw0 Hn1 Hn2|y' ev r0 q0 Hs0 Eq Em Ep Es Hn1 Hn2|y' l0 q0 Hs0 Eq Hl Em Ep Es Hst|y' l0 ev Hs0 Hall Em Ep Es Hn1]; try (by apply elem_of_nil in Hin); try (by destruct (Hn1 r id)).
    apply elem_of_list_singleton in Hin as [= -> ->].
    destruct (H12 r0) as [a Ha]. { exists id0, true. apply H5. rewrite Eq. by left. }
    destruct (Hfwd _ _ Ha) as (a' & Ha' & _). by exists a'.
  - intros l r id Hs Hin Ho. pose proof (only_one_mono _ _ _ _ Ho) as Ho'.
    assert (Hsame : YRegistered r id ∉ ev -> y_sched y' = y_sched y -> r ∈ l \/ stopped r (tr ++ ev)).
    { intros Hn' E. rewrite E in Hs. destruct (H9 _ _ _ Hs (Hreg _ _ Hin Hn') Ho') as [H|H]; [by left|right; by apply stopped_mono]. }
    assert (Hnil : forall e, e ∉ ([] : list yevent)) by (intros e; by intros ?%elem_of_nil).
    destruct Hr as [y' ev Em Ep Es Hn1 Hn2|y' r0 a0 Ha0 Ht0 Hs0 Em Ep Es|y' r0 a0 Ha0 Hp0 Hs0 Em Ep Es|y' r0 Hk0 Hs0 Em Ep Es|y' Ht0 Hs0 Em Ep Es|y' id0 r0 q0 Hs0 Eq Em Ep Es|y' ev id0 r0 q0 Hs0 Eq Em Ep Es Hw0 Hn1 Hn2|y' ev r0 q0 Hs0 Eq Em Ep Es Hn1 Hn2|y' l0 q0 Hs0 Eq Hl Em Ep Es Hst|y' l0 ev Hs0 Hall Em Ep Es Hn1]; try (by apply Hsame; auto); try congruence.
    rewrite app_nil_r in *. assert (l = l0) as -> by congruence.
    destruct (H7 _ _ Hin Ho') as [H|H]; [left|by right]. subst l0.
    apply elem_of_list_fmap. exists (id, r). split; [done|]. by apply elem_of_map_to_list.
  - intros r id Hs Hin Ho. pose proof (only_one_mono _ _ _ _ Ho) as Ho'.
    assert (Hsame : YRegistered r id ∉ ev -> y_sched y' = y_sched y -> stopped r (tr ++ ev)).
    { intros Hn' E. rewrite E in Hs. apply stopped_mono. by apply (H10 _ _ Hs (Hreg _ _ Hin Hn') Ho'). }
    assert (Hnil : forall e, e ∉ ([] : list yevent)) by (intros e; by intros ?%elem_of_nil).
    destruct Hr as [y' ev Em Ep Es Hn1 Hn2|y' r0 a0 Ha0 Ht0 Hs0 Em Ep Es|y' r0 a0 Ha0 Hp0 Hs0 Em Ep Es|y' r0 Hk0 Hs0 Em Ep Es|y' Ht0 Hs0 Em Ep Es|y' id0 r0 q0 Hs0 Eq Em Ep Es|y' ev id0 r0 q0 Hs0 Eq Em Ep Es Hw0 Hn1 Hn2|y' ev r0 q0 Hs0 Eq Em Ep Es Hn1 Hn2|y' l0 q0 Hs0 Eq Hl Em Ep Es Hst|y' l0 ev Hs0 Hall Em Ep Es Hn1]; try (by apply Hsame; auto); try congruence.
    apply Hreg in Hin; [|auto]. destruct (H8 _ _ Hin) as [a Ha].
    destruct (H9 _ _ _ Hs0 Hin Ho') as [H|H]; [|by apply stopped_mono].
    apply Hall in H. unfold has_ended in H. rewrite Ha in H. apply bool_decide_eq_true in H.
    apply stopped_mono, (H4 _ _ Ha). by rewrite H.
  - intros [H|H]%elem_of_app.
    + apply H11 in H. destruct Hr; congruence.
    + destruct Hr; try done; try (by apply elem_of_nil in H). by apply elem_of_list_singleton in H.
  - intros r (id & t & [H|H]%elem_of_app).
    + destruct (H12 r) as [a Ha]; [by exists id, t|]. destruct (Hfwd _ _ Ha) as (a' & Ha' & _). by exists a'.
    + by apply (Hcrev id t).
Qed.

Lemma I_run ops : I (yrun ops).1 (yrun ops).2.
Proof. apply yrun_ind; [exact I_init|]. intros. by apply I_step. Qed.
