(** Proofs about attached streams: what an error does, and what remains when the actor has ended. *)
From Verif Require Import Actor_Model Actor_Spec Actor_Proofs Actor_Proofs2 Actor_Proofs3 Attach_Model Attach_Spec Attach_Proofs Attach_Proofs2.
Local Open Scope nat_scope.

Section proofs.
  Context {St Msg Res R : Type}.
  Context (started : St -> St * effect) (handler : St -> Msg -> St * Res * effect) (tracked : bool).
  Context (conv : nat -> R -> option Msg).
  Notation opts := default_options.
  Notation wrun := (wrun started handler tracked conv opts).
  Notation wstep := (wstep started handler tracked conv opts).
  Notation world := (world St Msg R).
  Notation wop := (wop Msg R).
  Notation tagged := (tagged Msg Res).

  (** ** A stream that fails looks like one that ends *)

  Definition masked (s1 s2 : stream R) : Prop :=
    st_over s1 = st_over s2 /\
    (st_over s1 = true \/
     (st_items s1 = st_items s2 /\ st_closed s1 = st_closed s2) \/
     exists l', st_items s1 = st_items s2 ++ SErr :: l' /\ st_closed s2 = true).

  Definition wmasked (w1 w2 : world) : Prop := w_actor w1 = w_actor w2 /\ forall k, masked (stream_at k w1) (stream_at k w2).

  Lemma masked_refl s : masked s s.
  Proof using. split; [done|]. right. by left. Qed.

  Lemma masked_insert k s1 s2 (w1 w2 : world) (a1 a2 : actor St Msg) : a1 = a2 -> wmasked w1 w2 -> masked s1 s2 ->
    wmasked (World a1 (<[k := s1]> (w_streams w1))) (World a2 (<[k := s2]> (w_streams w2))).
  Proof using. intros -> [_ H] Hs. split; [done|]. intros j. rewrite !stream_insert. by destruct (decide (k = j)). Qed.

  Lemma masked_call k r s1 s2 (w1 w2 : world) : wmasked w1 w2 -> masked s1 s2 ->
    wmasked (task_call (Res:=Res) k r s1 w1).1 (task_call (Res:=Res) k r s2 w2).1 /\ (task_call (Res:=Res) k r s1 w1).2 = (task_call (Res:=Res) k r s2 w2).2.
  Proof using.
    intros H Hs. unfold task_call. destruct H as [Ha Hk]. rewrite Ha. destruct (send r (w_actor w2)) as [a ev]. simpl.
    split; [|done]. by apply masked_insert.
  Qed.

  Lemma masked_end k (w1 w2 : world) : wmasked w1 w2 ->
    wmasked (task_end (Res:=Res) opts k w1).1 (task_end (Res:=Res) opts k w2).1 /\ (task_end (Res:=Res) opts k w1).2 = (task_end (Res:=Res) opts k w2).2.
  Proof using. intros H. unfold task_end. simpl. apply masked_call; [done|]. split; [done|by left]. Qed.

  Lemma masked_pull k (w1 w2 : world) : wmasked w1 w2 ->
    wmasked (pull (Res:=Res) conv opts k w1).1 (pull (Res:=Res) conv opts k w2).1 /\ (pull (Res:=Res) conv opts k w1).2 = (pull (Res:=Res) conv opts k w2).2.
  Proof using.
    intros H. pose proof (proj2 H k) as Hk. destruct Hk as [Ho Hk]. unfold pull. rewrite Ho. destruct (st_over (stream_at k w2)) eqn:Eo; [done|].
    rewrite Ho in Hk. destruct Hk as [?|[[E1 E2]|(l' & E1 & E2)]]; [done| |].
    - rewrite E1, E2. destruct (st_items (stream_at k w2)) as [|[x|] l].
      + destruct (st_closed (stream_at k w2)); [by apply masked_end|done].
      + destruct (conv k x) as [m|]; [apply masked_call; [done|apply masked_refl]|].
        split; [|done]. apply masked_insert; [by destruct H|done|apply masked_refl].
      + by apply masked_end.
    - rewrite E1, E2. destruct (st_items (stream_at k w2)) as [|[x|] l]; simpl.
      + by apply masked_end.
      + assert (Hm : masked (Stream (l ++ SErr :: l') (st_closed (stream_at k w1)) false) (Stream l true false)).
        { split; [done|]. right. right. simpl. by exists l'. }
        destruct (conv k x) as [m|]; [apply masked_call; done|].
        split; [|done]. apply masked_insert; [by destruct H|done|done].
      + by apply masked_end.
  Qed.

  Lemma masked_step (w1 w2 : world) o : wmasked w1 w2 -> (forall k, o <> WArrive k SErr) ->
    wmasked (wstep w1 o).1 (wstep w2 o).1 /\ (wstep w1 o).2 = (wstep w2 o).2.
  Proof using.
    intros H Ho. destruct o as [r| |k x|k|k]; cbn [Attach_Model.wstep].
    - destruct H as [Ha Hk]. rewrite Ha. by destruct (send r (w_actor w2)) as [a ev].
    - destruct H as [Ha Hk]. rewrite Ha. by destruct (tick started handler tracked (w_actor w2)) as [a ev].
    - pose proof (proj2 H k) as [Hv Hk]. rewrite Hv. destruct (st_over (stream_at k w2)) eqn:Eo.
      { rewrite !orb_true_r. done. }
      rewrite !orb_false_r. rewrite Hv in Hk. destruct Hk as [?|[[E1 E2]|(l' & E1 & E2)]]; [done| |].
      + rewrite E1, E2. destruct (st_closed (stream_at k w2)) eqn:Ec; [done|]. split; [|done].
        apply masked_insert; [by destruct H|done|]. apply masked_refl.
      + rewrite E2. destruct (st_closed (stream_at k w1)); [done|]. split; [|done]. split; [by destruct H|]. cbn [fst]. intros j.
        rewrite stream_insert. destruct (decide (k = j)) as [<-|]; [|apply H]. split; [done|]. right. right. cbn [st_items].
        exists (l' ++ [x]). rewrite E1, <- app_assoc. done.
    - split; [|done]. pose proof (proj2 H k) as [Hv Hk]. apply masked_insert; [by destruct H|done|].
      split; [done|]. destruct Hk as [?|[[E1 E2]|(l' & E1 & E2)]]; [by left|right; left; done|right; right; by exists l'].
    - by apply masked_pull.
  Qed.

  Definition unmask (o : wop) : wop := match o with WArrive k SErr => WEnd k | _ => o end.

  Lemma masked_mask (w1 w2 : world) k : wmasked w1 w2 ->
    wmasked (wstep w1 (WArrive k SErr)).1 (wstep w2 (WEnd k)).1 /\ (wstep w1 (WArrive k SErr)).2 = (wstep w2 (WEnd k)).2.
  Proof using.
    intros H. cbn [Attach_Model.wstep]. pose proof (proj2 H k) as [Hv Hk].
    destruct (st_over (stream_at k w1)) eqn:Eo.
    { rewrite orb_true_r. split; [|done]. split; [by destruct H|]. cbn [fst]. intros j. rewrite stream_insert.
      destruct (decide (k = j)) as [<-|]; [|apply H]. split; [cbn; congruence|by left]. }
    rewrite orb_false_r. destruct Hk as [?|[[E1 E2]|(l' & E1 & E2)]]; [done| |].
    - destruct (st_closed (stream_at k w1)) eqn:Ec; (split; [|done]).
      + split; [by destruct H|]. cbn [fst]. intros j. rewrite stream_insert. destruct (decide (k = j)) as [<-|]; [|apply H].
        split; [cbn; congruence|]. right. left. cbn. by rewrite Ec.
      + apply masked_insert; [by destruct H|done|]. split; [cbn; congruence|]. right. right. cbn. exists []. by rewrite E1.
    - destruct (st_closed (stream_at k w1)) eqn:Ec; (split; [|done]).
      + split; [by destruct H|]. cbn [fst]. intros j. rewrite stream_insert. destruct (decide (k = j)) as [<-|]; [|apply H].
        split; [cbn; congruence|]. right. right. cbn. by exists l'.
      + apply masked_insert; [by destruct H|done|]. split; [cbn; congruence|]. right. right. cbn. exists (l' ++ [SErr]). by rewrite E1, <- app_assoc.
  Qed.

  Theorem errors_silent u ops : (wrun u ops).2 = (wrun u (map unmask ops)).2.
  Proof using.
    assert (H : wmasked (wrun u ops).1 (wrun u (map unmask ops)).1 /\ (wrun u ops).2 = (wrun u (map unmask ops)).2); [|by destruct H].
    induction ops as [|o ops IH] using rev_ind; [split; [|done]; split; [done|]; intros k; apply masked_refl|].
    rewrite map_app. cbn [map]. rewrite !wrun_snoc. destruct (wrun u ops) as [w1 t1], (wrun u (map unmask ops)) as [w2 t2]. cbn [fst snd] in *.
    destruct IH as [IH ->].
    assert (Hs : wmasked (wstep w1 o).1 (wstep w2 (unmask o)).1 /\ (wstep w1 o).2 = (wstep w2 (unmask o)).2).
    { destruct o as [r| |k [x|]|k|k]; try (by apply masked_step). by apply masked_mask. }
    destruct (wstep w1 o) as [w1' e1], (wstep w2 (unmask o)) as [w2' e2]. cbn [fst snd] in *. destruct Hs as [? ->]. done.
  Qed.

  (** ** A stream is read on when its actor has ended *)

  Definition feed (k : nat) (l : list R) : list wop := flat_map (fun x => [WArrive k (SOk x); WPull k]) l.

  Theorem read_on k u ops l : a_phase (w_actor (wrun u ops).1) = PDone ->
    let s := stream_at k (wrun u ops).1 in st_items s = [] -> st_closed s = false -> st_over s = false ->
    let x := wrun u (ops ++ feed k l) in
    x.2 = (wrun u ops).2 ++ omap (fun y => (fun m => (Some k, ERefused (RUser m false))) <$> conv k y) l /\
    st_over (stream_at k x.1) = false.
  Proof using.
    intros Hd s Hi Hc Ho x. cut (x.2 = (wrun u ops).2 ++ omap (fun y => (fun m => (Some k, ERefused (RUser m false))) <$> conv k y) l /\
      stream_at k x.1 = Stream [] false false /\ a_phase (w_actor x.1) = PDone); [intros (-> & -> & _); done|].
    unfold x. clear x. assert (Hs : stream_at k (wrun u ops).1 = Stream [] false false).
    { fold s. destruct s as [i c o]. simpl in *. by subst. }
    clearbody s. clear s Hi Hc Ho.
    induction l as [|y l IH] using rev_ind; [simpl; rewrite !app_nil_r; done|].
    unfold feed. rewrite flat_map_app. fold (feed k l). cbn [flat_map app].
    replace (ops ++ feed k l ++ [WArrive k (SOk y); WPull k]) with (((ops ++ feed k l) ++ [WArrive k (SOk y)]) ++ [WPull k]) by (rewrite <- !app_assoc; done).
    rewrite !wrun_snoc. destruct (wrun u (ops ++ feed k l)) as [w tr]. cbn [fst snd] in *.
    destruct IH as (-> & Hs' & Hd'). cbn [Attach_Model.wstep]. rewrite Hs'. cbn [st_closed st_over st_items orb app].
    unfold pull. rewrite stream_insert, decide_True by done. cbn [st_closed st_over st_items]. rewrite app_nil_r, omap_app. simpl.
    destruct (conv k y) as [m|]; simpl.
    - unfold task_call, send. simpl. rewrite Hd'. simpl. rewrite <- app_assoc. split; [done|]. split; [|done].
      unfold stream_at. simpl. by rewrite lookup_insert.
    - rewrite !app_nil_r. split; [done|]. split; [|done].
      unfold stream_at. simpl. by rewrite lookup_insert.
  Qed.
End proofs.
