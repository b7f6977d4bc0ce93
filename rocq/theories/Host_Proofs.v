From Verif Require Import Host_Model Host_Spec.
Local Open Scope N_scope.

Section proofs.
Context {R : Type}.
Implicit Types (h : host R) (l : list (hmsg R)) (eff : list (heffect R)) (r : R) (q : list R).

Lemma hrun_nil h : hrun h [] = (h, []).
Proof using. done. Qed.
Lemma hrun_cons h m l : hrun h (m :: l) = let '(h1, e1) := hstep h m in let '(h2, e2) := hrun h1 l in (h2, e1 ++ e2).
Proof using. unfold hrun. simpl. destruct (hstep h m) as [h1 e1]. destruct (run hstep h1 l) as [h2 evs]. done. Qed.
Lemma hrun_app h l1 l2 : hrun h (l1 ++ l2) = let '(h1, e1) := hrun h l1 in let '(h2, e2) := hrun h1 l2 in (h2, e1 ++ e2).
Proof using.
  revert h. induction l1 as [|m l1 IH]; intros h.
  - simpl app. rewrite hrun_nil. by destruct (hrun h l2).
  - simpl app. rewrite !hrun_cons. destruct (hstep h m) as [h1 e1]. rewrite IH.
    destruct (hrun h1 l1) as [h2 e2]. destruct (hrun h2 l2) as [h3 e3]. by rewrite app_assoc.
Qed.
Lemma hrun_snoc h l m : hrun h (l ++ [m]) = let '(h1, e1) := hrun h l in let '(h2, e2) := hstep h1 m in (h2, e1 ++ e2).
Proof using.
  rewrite hrun_app. destruct (hrun h l) as [h1 e1]. rewrite hrun_cons. destruct (hstep h1 m) as [h2 e2].
  rewrite hrun_nil. by rewrite app_nil_r.
Qed.

Lemma handed_app s (e1 e2 : list (heffect R)) : handed s (e1 ++ e2) = handed s e1 ++ handed s e2.
Proof using. apply omap_app. Qed.
Lemma lost_app s (e1 e2 : list (heffect R)) : lost s (e1 ++ e2) = lost s e1 ++ lost s e2.
Proof using. apply omap_app. Qed.
Lemma arrived_app s (l1 l2 : list (hmsg R)) : arrived s (l1 ++ l2) = arrived s l1 ++ arrived s l2.
Proof using. apply omap_app. Qed.
Lemma lost_lost s q : lost s (map (HLost s) q) = q.
Proof using. induction q as [|r q IH]; simpl; [done|]. rewrite N.eqb_refl. by f_equal. Qed.
Lemma handed_lost s s' q : handed s (map (HLost s') q) = [].
Proof using. induction q as [|r q IH]; simpl; done. Qed.
Lemma handed_forward s a q : handed s (map (HForward s a) q) = q.
Proof using. induction q as [|r q IH]; simpl; [done|]. rewrite N.eqb_refl. by f_equal. Qed.
Lemma lost_forward s s' a q : lost s (map (HForward s' a) q) = [].
Proof using. induction q as [|r q IH]; simpl; done. Qed.
Lemma lost_other s s' q : s' <> s -> lost s (map (HLost s') q) = [].
Proof using. intros Hn. induction q as [|r q IH]; simpl; [done|]. apply N.eqb_neq in Hn. by rewrite Hn. Qed.
Lemma handed_forward_other s s' a q : s' <> s -> handed s (map (HForward s' a) q) = [].
Proof using. intros Hn. induction q as [|r q IH]; simpl; [done|]. apply N.eqb_neq in Hn. by rewrite Hn. Qed.

(** ** Messages about other shards *)

Definition same_view (s : N) h h' : Prop :=
  sh_node h' = sh_node h /\ sh_hosted h' !! s = sh_hosted h !! s /\ sh_remote h' !! s = sh_remote h !! s /\ sh_pending h' !! s = sh_pending h !! s.

Lemma same_view_refl s h : same_view s h h.
Proof using. done. Qed.
Lemma same_view_trans s h1 h2 h3 : same_view s h1 h2 -> same_view s h2 h3 -> same_view s h1 h3.
Proof using. intros (A1 & A2 & A3 & A4) (B1 & B2 & B3 & B4). split_and!; congruence. Qed.

Lemma on_request_other s s' h r : s' <> s ->
  same_view s h (on_request h s' r).1 /\ handed s (on_request h s' r).2 = [] /\ lost s (on_request h s' r).2 = [].
Proof using.
  intros Hn. assert (Hb : (s' =? s) = false) by by apply N.eqb_neq.
  unfold on_request. destruct (sh_hosted h !! s') as [[a buf req|a|]|] eqn:E; simpl; rewrite ?Hb;
    [split_and!; try done; split_and!; simpl; rewrite ?lookup_insert_ne by done; done..|].
  destruct (sh_remote h !! s') as [n|]; simpl; rewrite ?Hb; split_and!; try done.
  split_and!; simpl; rewrite ?lookup_insert_ne by done; done.
Qed.
Lemma on_requests_other s s' q : forall h, s' <> s ->
  same_view s h (on_requests h s' q).1 /\ handed s (on_requests h s' q).2 = [] /\ lost s (on_requests h s' q).2 = [].
Proof using.
  induction q as [|r q IH]; intros h Hn; simpl; [done|].
  destruct (on_request_other s s' h r Hn) as (V1 & H1 & L1). destruct (on_request h s' r) as [h1 e1].
  destruct (IH h1 Hn) as (V2 & H2 & L2). destruct (on_requests h1 s' q) as [h2 e2]. simpl in *.
  rewrite handed_app, lost_app, H1, H2, L1, L2. split_and!; try done. by eapply same_view_trans.
Qed.

(** The first part of [on_allocated], before the pending requests are handled. *)
Definition allocated_first h s n : host R * list (heffect R) :=
    if n =? sh_node h then
      let h0 := set_remote h (delete s (sh_remote h)) in
      match sh_hosted h0 !! s with
      | Some _ => (h0, [])
      | None =>
          let a := sh_next h0 in
          (Host (sh_node h0) (<[s := HStarting a [] None]> (sh_hosted h0)) (sh_remote h0) (sh_pending h0) (a + 1),
           [HStart s a])
      end
    else
      (Host (sh_node h) (delete s (sh_hosted h)) (<[s := n]> (sh_remote h)) (sh_pending h) (sh_next h),
       match sh_hosted h !! s with
       | Some st => match state_ref st with Some a => [HNotifyStop s a] | None => [] end ++ lost_buffer s st
       | None => []
       end).
Lemma on_allocated_eq h s n : on_allocated h s n =
  let '(h1, eff1) := allocated_first h s n in
  match sh_pending h1 !! s with
  | None => (h1, eff1)
  | Some l =>
      let '(h2, eff2) := on_requests (set_pending h1 (delete s (sh_pending h1))) s l in
      (h2, eff1 ++ eff2)
  end.
Proof using. reflexivity. Qed.

Lemma allocated_first_other s s' n h : s' <> s ->
  same_view s h (allocated_first h s' n).1 /\ handed s (allocated_first h s' n).2 = [] /\ lost s (allocated_first h s' n).2 = [].
Proof using.
  intros Hn. assert (Hb : (s' =? s) = false) by by apply N.eqb_neq. unfold allocated_first.
  destruct (n =? sh_node h); simpl.
  - destruct (sh_hosted h !! s') as [st|] eqn:E; simpl; split_and!; try done;
      split_and!; simpl; rewrite ?lookup_insert_ne, ?lookup_delete_ne by done; done.
  - split_and!.
    + split_and!; simpl; rewrite ?lookup_insert_ne, ?lookup_delete_ne by done; done.
    + destruct (sh_hosted h !! s') as [[a buf req|a|]|]; simpl; try done. apply handed_lost.
    + destruct (sh_hosted h !! s') as [[a buf req|a|]|]; simpl; try done. by apply lost_other.
Qed.

Lemma hstep_other s h m : msg_shard m <> s ->
  same_view s h (hstep h m).1 /\ handed s (hstep h m).2 = [] /\ lost s (hstep h m).2 = [].
Proof using.
  intros Hn. destruct m as [s' r|s' n|s' a|s'|s' req|s']; cbn [hstep msg_shard] in *.
  - by apply on_request_other.
  - rewrite on_allocated_eq. destruct (allocated_first_other s s' n h Hn) as (V1 & H1 & L1).
    destruct (allocated_first h s' n) as [h1 e1]. cbn [fst snd] in *.
    destruct (sh_pending h1 !! s') as [q|]; [|done].
    destruct (on_requests_other s s' q (set_pending h1 (delete s' (sh_pending h1))) Hn) as (V2 & H2 & L2).
    destruct (on_requests _ s' q) as [h2 e2]. cbn [fst snd] in *. rewrite handed_app, lost_app, H1, H2, L1, L2. split_and!; try done.
    eapply same_view_trans; [exact V1|]. eapply same_view_trans; [|exact V2].
    split_and!; simpl; rewrite ?lookup_delete_ne by done; done.
  - unfold on_ready; simpl; split_and!.
    + split_and!; simpl; rewrite ?lookup_insert_ne by done; done.
    + destruct (sh_hosted h !! s') as [[? buf [req|]|?|]|]; simpl; try done; [apply handed_lost|by apply handed_forward_other].
    + destruct (sh_hosted h !! s') as [[? buf [req|]|?|]|]; simpl; try done; [by apply lost_other|apply lost_forward].
  - simpl; split_and!; try done. split_and!; simpl; rewrite ?lookup_delete_ne by done; done.
  - unfold on_stop. destruct (sh_hosted h !! s') as [[? buf req'|?|]|]; simpl; try done; split_and!;
      rewrite ?handed_lost, ?lost_other by done; try done; (split_and!; simpl; rewrite ?lookup_insert_ne by done; done).
  - unfold on_stopped; simpl. split_and!; simpl.
    + split_and!; simpl; rewrite ?lookup_delete_ne by done; done.
    + destruct (sh_hosted h !! s') as [[? buf req'|?|]|]; simpl; try done. apply handed_lost.
    + destruct (sh_hosted h !! s') as [[? buf req'|?|]|]; simpl; try done. by apply lost_other.
Qed.

(** ** Messages about the shard *)

Lemma on_request_node h s r : sh_node (on_request h s r).1 = sh_node h.
Proof using.
  unfold on_request. destruct (sh_hosted h !! s) as [st|]; [by destruct (handle_request s r st)|].
  by destruct (sh_remote h !! s).
Qed.

Lemma on_request_kept h s r :
  handed s (on_request h s r).2 ++ lost s (on_request h s r).2 ++ kept (on_request h s r).1 s ≡ₚ kept h s ++ [r].
Proof using.
  unfold on_request, kept, buffered, pending. destruct (sh_hosted h !! s) as [[a buf req|a|]|] eqn:E; simpl; rewrite ?N.eqb_refl.
  - rewrite lookup_insert. solve_Permutation.
  - rewrite lookup_insert. simpl. solve_Permutation.
  - rewrite lookup_insert. simpl. solve_Permutation.
  - destruct (sh_remote h !! s) as [n|]; simpl; rewrite ?N.eqb_refl, ?E; simpl; [solve_Permutation|].
    by rewrite lookup_insert.
Qed.

Lemma on_requests_kept s q : forall h,
  handed s (on_requests h s q).2 ++ lost s (on_requests h s q).2 ++ kept (on_requests h s q).1 s ≡ₚ kept h s ++ q.
Proof using.
  induction q as [|r q IH]; intros h; simpl; [by rewrite app_nil_r|].
  pose proof (on_request_kept h s r) as H1. destruct (on_request h s r) as [h1 e1]. cbn [fst snd] in *.
  pose proof (IH h1) as H2. destruct (on_requests h1 s q) as [h2 e2]. cbn [fst snd] in *.
  rewrite handed_app, lost_app. transitivity (handed s e1 ++ lost s e1 ++ (handed s e2 ++ lost s e2 ++ kept h2 s)); [solve_Permutation|].
  rewrite H2. transitivity ((handed s e1 ++ lost s e1 ++ kept h1 s) ++ q); [solve_Permutation|]. rewrite H1. by rewrite <- app_assoc.
Qed.

Lemma allocated_first_kept h s n :
  handed s (allocated_first h s n).2 = [] /\
  lost s (allocated_first h s n).2 ++ buffered (allocated_first h s n).1 s = buffered h s /\
  sh_pending (allocated_first h s n).1 = sh_pending h.
Proof using.
  unfold allocated_first, buffered. destruct (n =? sh_node h); simpl.
  - destruct (sh_hosted h !! s) as [[a buf req|a|]|] eqn:E; simpl; rewrite ?E, ?lookup_insert; done.
  - rewrite lookup_delete. destruct (sh_hosted h !! s) as [[a buf req|a|]|]; simpl; rewrite ?handed_lost, ?lost_lost, ?app_nil_r; done.
Qed.

Lemma hstep_kept s h m :
  handed s (hstep h m).2 ++ lost s (hstep h m).2 ++ kept (hstep h m).1 s ≡ₚ kept h s ++ arrived s [m].
Proof using.
  destruct (decide (msg_shard m = s)) as [Hs|Hn].
  2:{ destruct (hstep_other s h m Hn) as ((_ & V1 & _ & V2) & H1 & L1). rewrite H1, L1. unfold kept, buffered, pending. rewrite V1, V2.
      assert (arrived s [m] = []) as ->; [|by rewrite app_nil_r].
      destruct m; simpl in *; try done. apply N.eqb_neq in Hn. by rewrite Hn. }
  destruct m as [s' r|s' n|s' a|s'|s' req|s']; cbn [msg_shard] in Hs; subst s'; cbn [hstep arrived omap list_omap]; rewrite ?N.eqb_refl, ?app_nil_r.
  - apply on_request_kept.
  - rewrite on_allocated_eq. destruct (allocated_first_kept h s n) as (H1 & L1 & P1).
    destruct (allocated_first h s n) as [h1 e1]. cbn [fst snd] in *. rewrite P1.
    destruct (sh_pending h !! s) as [q|] eqn:Ep.
    + pose proof (on_requests_kept s q (set_pending h1 (delete s (sh_pending h)))) as H2.
      destruct (on_requests _ s q) as [h2 e2]. cbn [fst snd] in *. rewrite handed_app, lost_app, H1. simpl.
      transitivity (lost s e1 ++ (handed s e2 ++ lost s e2 ++ kept h2 s)); [solve_Permutation|]. rewrite H2.
      unfold kept. unfold buffered at 1. simpl. fold (buffered h1 s). unfold pending at 1. simpl. rewrite lookup_delete. simpl.
      rewrite app_nil_r, app_assoc, L1. unfold pending. by rewrite Ep.
    + cbn [fst snd]. rewrite H1. unfold kept, pending. rewrite P1, Ep. simpl. by rewrite !app_nil_r, L1.
  - unfold on_ready, kept, buffered, pending. simpl. rewrite lookup_insert. simpl.
    destruct (sh_hosted h !! s) as [[? buf [req|]|?|]|]; simpl; rewrite ?handed_lost, ?lost_lost, ?handed_forward, ?lost_forward; done.
  - done.
  - unfold on_stop, kept, buffered, pending. destruct (sh_hosted h !! s) as [[? buf req'|?|]|] eqn:E; simpl; rewrite ?lookup_insert, ?handed_lost, ?lost_lost, ?E; done.
  - unfold on_stopped, kept, buffered, pending. simpl. rewrite lookup_delete.
    destruct (sh_hosted h !! s) as [[? buf req'|?|]|] eqn:E; simpl; rewrite ?handed_lost, ?lost_lost; done.
Qed.

(** Conservation: whatever happens, a request is handed over, lost or kept, exactly once. *)
Lemma hrun_kept s l : forall h,
  handed s (hrun h l).2 ++ lost s (hrun h l).2 ++ kept (hrun h l).1 s ≡ₚ kept h s ++ arrived s l.
Proof using.
  induction l as [|m l IH]; intros h; [simpl; by rewrite app_nil_r|].
  rewrite hrun_cons. pose proof (hstep_kept s h m) as H1. destruct (hstep h m) as [h1 e1]. cbn [fst snd] in *.
  pose proof (IH h1) as H2. destruct (hrun h1 l) as [h2 e2]. cbn [fst snd] in *. rewrite handed_app, lost_app.
  change (m :: l) with ([m] ++ l). rewrite arrived_app.
  transitivity (handed s e1 ++ lost s e1 ++ (handed s e2 ++ lost s e2 ++ kept h2 s)); [solve_Permutation|]. rewrite H2.
  transitivity ((handed s e1 ++ lost s e1 ++ kept h1 s) ++ arrived s l); [solve_Permutation|]. rewrite H1. by rewrite <- app_assoc.
Qed.

(** ** Order *)

(** Pending requests exist only for shards that are neither hosted nor known to be remote;
    no stop request is stored; a hosted shard is not stopping. *)
Definition tidy (s : N) h : Prop :=
  (is_Some (sh_pending h !! s) -> sh_hosted h !! s = None /\ sh_remote h !! s = None) /\
  (forall a buf req, sh_hosted h !! s = Some (HStarting a buf req) -> req = None) /\
  sh_hosted h !! s <> Some HStopping.

Lemma on_request_tidy s h r : tidy s h ->
  tidy s (on_request h s r).1 /\ lost s (on_request h s r).2 = [] /\
  handed s (on_request h s r).2 ++ kept (on_request h s r).1 s = kept h s ++ [r].
Proof using.
  intros (T1 & T2 & T3). unfold on_request, kept, buffered, pending, tidy.
  destruct (sh_hosted h !! s) as [[a buf req|a|]|] eqn:E; simpl; rewrite ?N.eqb_refl.
  - assert (Ep : sh_pending h !! s = None). { destruct (sh_pending h !! s) eqn:Ep; [|done]. by destruct T1. }
    rewrite lookup_insert, Ep. simpl. rewrite !app_nil_r. split_and!; try done.
    + by intros [? ?].
    + intros a' b' r' Heq. injection Heq as <- <- <-. by eapply T2.
  - assert (Ep : sh_pending h !! s = None). { destruct (sh_pending h !! s) eqn:Ep; [|done]. by destruct T1. }
    rewrite lookup_insert, Ep. simpl. split_and!; try done. by intros [? ?].
  - done.
  - destruct (sh_remote h !! s) as [n|] eqn:Er; simpl; rewrite ?N.eqb_refl, ?E; simpl.
    + assert (Ep : sh_pending h !! s = None). { destruct (sh_pending h !! s) eqn:Ep; [|done]. destruct T1 as [_ ?]; [by eexists|done]. }
      rewrite Ep. simpl. split_and!; try done. by intros [? ?].
    + rewrite lookup_insert. done.
Qed.

Lemma on_requests_tidy s q : forall h, tidy s h ->
  tidy s (on_requests h s q).1 /\ lost s (on_requests h s q).2 = [] /\
  handed s (on_requests h s q).2 ++ kept (on_requests h s q).1 s = kept h s ++ q.
Proof using.
  induction q as [|r q IH]; intros h T; simpl; [by rewrite app_nil_r|].
  destruct (on_request_tidy s h r T) as (T1 & L1 & H1). destruct (on_request h s r) as [h1 e1]. cbn [fst snd] in *.
  destruct (IH h1 T1) as (T2 & L2 & H2). destruct (on_requests h1 s q) as [h2 e2]. cbn [fst snd] in *.
  rewrite handed_app, lost_app, L1, L2. split_and!; try done.
  rewrite <- app_assoc, H2, app_assoc, H1. by rewrite <- app_assoc.
Qed.

Lemma hstep_tidy s h m : tidy s h -> calm s h m ->
  tidy s (hstep h m).1 /\ lost s (hstep h m).2 = [] /\
  handed s (hstep h m).2 ++ kept (hstep h m).1 s = kept h s ++ arrived s [m].
Proof using.
  intros T C. destruct (decide (msg_shard m = s)) as [Hs|Hn].
  2:{ destruct (hstep_other s h m Hn) as ((_ & V1 & V3 & V2) & H1 & L1). rewrite H1, L1. unfold kept, buffered, pending, tidy. rewrite V1, V2, V3.
      assert (arrived s [m] = []) as ->; [|by rewrite app_nil_r].
      destruct m; simpl in *; try done. apply N.eqb_neq in Hn. by rewrite Hn. }
  destruct m as [s' r|s' n|s' a|s'|s' req|s']; cbn [msg_shard] in Hs; subst s'; cbn [hstep arrived omap list_omap calm] in *; rewrite ?N.eqb_refl, ?app_nil_r.
  - by apply on_request_tidy.
  - rewrite on_allocated_eq. destruct (allocated_first_kept h s n) as (H1 & L1 & P1).
    assert (HT : tidy s (set_pending (allocated_first h s n).1 (delete s (sh_pending (allocated_first h s n).1)))
                 /\ lost s (allocated_first h s n).2 = []).
    { destruct T as (T1 & T2 & T3). unfold allocated_first, tidy.
      destruct (N.eqb_spec n (sh_node h)) as [->|Hne]; simpl.
      - destruct (sh_hosted h !! s) as [st|] eqn:E; simpl; rewrite ?lookup_delete, ?lookup_insert; simpl; rewrite ?E.
        + split_and!; try done; by intros [? ?].
        + split_and!; try done; [by intros [? ?]|]. intros a buf req Heq. by injection Heq as _ _ <-.
      - rewrite !lookup_delete. split_and!; try done; [by intros [? ?]|].
        destruct (sh_hosted h !! s) as [[a buf req|a|]|] eqn:E; simpl; try done. destruct C; try done. by eexists _, _, _. }
    destruct HT as [HT HL]. destruct (allocated_first h s n) as [h1 e1]. cbn [fst snd] in *. rewrite P1.
    rewrite HL in L1. simpl in L1.
    destruct (sh_pending h !! s) as [q|] eqn:Ep.
    + destruct (on_requests_tidy s q _ HT) as (T2 & L2 & H2).
      rewrite P1 in *. destruct (on_requests _ s q) as [h2 e2]. cbn [fst snd] in *. rewrite handed_app, lost_app, H1, HL, L2.
      split_and!; try done. simpl. rewrite H2. unfold kept, pending. simpl. rewrite lookup_delete, Ep. simpl.
      rewrite app_nil_r. f_equal. done.
    + cbn [fst snd]. rewrite H1, HL. unfold kept, pending. rewrite P1, Ep, L1. simpl. split_and!; try done.
      destruct HT as (U1 & U2 & U3). split_and!; try done. simpl in *. rewrite P1, Ep. by intros [? ?].
  - destruct (C eq_refl) as (a' & buf & req & E). destruct T as (T1 & T2 & T3). pose proof (T2 _ _ _ E) as ->.
    assert (Ep : sh_pending h !! s = None). { destruct (sh_pending h !! s) eqn:Ep; [|done]. destruct T1 as [? _]; [by eexists|congruence]. }
    unfold on_ready, kept, buffered, pending, tidy. simpl. rewrite lookup_insert, E, Ep. simpl.
    rewrite lost_forward, handed_forward. split_and!; try done. by intros [? ?].
  - destruct T as (T1 & T2 & T3). unfold on_reallocating, tidy, kept, buffered, pending. simpl. rewrite lookup_delete. split_and!; try done.
    intros Hp%T1. by destruct Hp.
  - done.
  - destruct T as (T1 & T2 & T3). unfold on_stopped, kept, buffered, pending, tidy. simpl. rewrite lookup_delete. simpl.
    destruct (sh_hosted h !! s) as [[a buf req'|a|]|] eqn:E; simpl; try (split_and!; try done; intros Hp%T1; by destruct Hp).
    destruct (C eq_refl). by eexists _, _, _.
Qed.

Lemma hrun_tidy s l : forall h, tidy s h -> calm_run s h l ->
  tidy s (hrun h l).1 /\ lost s (hrun h l).2 = [] /\
  handed s (hrun h l).2 ++ kept (hrun h l).1 s = kept h s ++ arrived s l.
Proof using.
  induction l as [|m l IH]; intros h T C; [simpl; by rewrite app_nil_r|].
  destruct C as [C1 C2]. rewrite hrun_cons. destruct (hstep_tidy s h m T C1) as (T1 & L1 & H1).
  destruct (hstep h m) as [h1 e1]. cbn [fst snd] in *.
  destruct (IH h1 T1 C2) as (T2 & L2 & H2). destruct (hrun h1 l) as [h2 e2]. cbn [fst snd] in *.
  rewrite handed_app, lost_app, L1, L2. split_and!; try done.
  change (m :: l) with ([m] ++ l). rewrite arrived_app, <- app_assoc, H2, app_assoc, H1. by rewrite <- app_assoc.
Qed.

Lemma tidy_init s n : tidy s (host_init n : host R).
Proof using. unfold tidy, host_init. simpl. rewrite !lookup_empty. split_and!; try done. Qed.

(** ** Non-interference *)

(** The states agree on everything about [s] up to the numbers of the actors. *)
Definition alike (s : N) h1 h2 : Prop :=
  sh_node h1 = sh_node h2 /\ sh_remote h1 !! s = sh_remote h2 !! s /\ sh_pending h1 !! s = sh_pending h2 !! s /\
  match sh_hosted h1 !! s, sh_hosted h2 !! s with
  | None, None | Some (HReady _), Some (HReady _) | Some HStopping, Some HStopping => True
  | Some (HStarting _ b1 r1), Some (HStarting _ b2 r2) => b1 = b2 /\ r1 = r2
  | _, _ => False
  end.

Lemma on_request_alike s h1 h2 r : alike s h1 h2 ->
  alike s (on_request h1 s r).1 (on_request h2 s r).1 /\
  handed s (on_request h1 s r).2 = handed s (on_request h2 s r).2 /\ lost s (on_request h1 s r).2 = lost s (on_request h2 s r).2.
Proof using.
  intros (A1 & A2 & A3 & A4). unfold on_request, alike.
  destruct (sh_hosted h1 !! s) as [[a1 b1 q1|a1|]|] eqn:E1, (sh_hosted h2 !! s) as [[a2 b2 q2|a2|]|] eqn:E2; try done; simpl;
    rewrite ?lookup_insert; try (split_and!; done).
  - destruct A4 as [-> ->]. split_and!; done.
  - rewrite A2. destruct (sh_remote h2 !! s) eqn:Er; simpl; rewrite ?E1, ?E2, ?A3; rewrite ?lookup_insert; split_and!; first [done|congruence].
Qed.
Lemma on_requests_alike s q : forall h1 h2, alike s h1 h2 ->
  alike s (on_requests h1 s q).1 (on_requests h2 s q).1 /\
  handed s (on_requests h1 s q).2 = handed s (on_requests h2 s q).2 /\ lost s (on_requests h1 s q).2 = lost s (on_requests h2 s q).2.
Proof using.
  induction q as [|r q IH]; intros h1 h2 A; simpl; [done|].
  destruct (on_request_alike s h1 h2 r A) as (B1 & B2 & B3).
  destruct (on_request h1 s r) as [k1 e1]. destruct (on_request h2 s r) as [k2 e2]. cbn [fst snd] in *.
  destruct (IH k1 k2 B1) as (D1 & D2 & D3).
  destruct (on_requests k1 s q) as [m1 f1]. destruct (on_requests k2 s q) as [m2 f2]. cbn [fst snd] in *.
  rewrite !handed_app, !lost_app. split_and!; congruence.
Qed.

Lemma hstep_alike s h1 h2 m : msg_shard m = s -> alike s h1 h2 ->
  alike s (hstep h1 m).1 (hstep h2 m).1 /\
  handed s (hstep h1 m).2 = handed s (hstep h2 m).2 /\ lost s (hstep h1 m).2 = lost s (hstep h2 m).2.
Proof using.
  intros Hs A. destruct m as [s' r|s' n|s' a|s'|s' req|s']; cbn [msg_shard] in Hs; subst s'; cbn [hstep].
  - by apply on_request_alike.
  - rewrite !on_allocated_eq. destruct A as (A1 & A2 & A3 & A4).
    assert (HA : alike s (allocated_first h1 s n).1 (allocated_first h2 s n).1 /\
                 handed s (allocated_first h1 s n).2 = handed s (allocated_first h2 s n).2 /\
                 lost s (allocated_first h1 s n).2 = lost s (allocated_first h2 s n).2).
    { unfold allocated_first, alike. rewrite A1. destruct (n =? sh_node h2); simpl.
      - destruct (sh_hosted h1 !! s) as [[a1 b1 q1|a1|]|] eqn:E1, (sh_hosted h2 !! s) as [[a2 b2 q2|a2|]|] eqn:E2; try done; simpl;
          rewrite ?lookup_delete, ?lookup_insert, ?E1, ?E2; done.
      - rewrite !lookup_delete, !lookup_insert.
        destruct (sh_hosted h1 !! s) as [[a1 b1 q1|a1|]|] eqn:E1, (sh_hosted h2 !! s) as [[a2 b2 q2|a2|]|] eqn:E2; try done; simpl.
        destruct A4 as [-> ->]. done. }
    destruct HA as (B1 & B2 & B3).
    destruct (allocated_first h1 s n) as [k1 e1]. destruct (allocated_first h2 s n) as [k2 e2]. cbn [fst snd] in *.
    assert (Hp : sh_pending k1 !! s = sh_pending k2 !! s) by apply B1. rewrite Hp.
    destruct (sh_pending k2 !! s) as [q|]; [|done].
    destruct (on_requests_alike s q (set_pending k1 (delete s (sh_pending k1))) (set_pending k2 (delete s (sh_pending k2)))) as (D1 & D2 & D3).
    { destruct B1 as (C1 & C2 & C3 & C4). split_and!; try done. simpl. by rewrite !lookup_delete. }
    destruct (on_requests _ s q) as [m1 f1]. destruct (on_requests (set_pending k2 _) s q) as [m2 f2]. cbn [fst snd] in *.
    rewrite !handed_app, !lost_app. split_and!; congruence.
  - destruct A as (A1 & A2 & A3 & A4). unfold on_ready, alike. simpl. rewrite !lookup_insert.
    destruct (sh_hosted h1 !! s) as [[a1 b1 q1|a1|]|] eqn:E1, (sh_hosted h2 !! s) as [[a2 b2 q2|a2|]|] eqn:E2; try done.
    destruct A4 as [-> ->]. done.
  - destruct A as (A1 & A2 & A3 & A4). unfold on_reallocating, alike. simpl. by rewrite !lookup_delete.
  - destruct A as (A1 & A2 & A3 & A4). unfold on_stop, alike.
    destruct (sh_hosted h1 !! s) as [[a1 b1 q1|a1|]|] eqn:E1, (sh_hosted h2 !! s) as [[a2 b2 q2|a2|]|] eqn:E2; try done; simpl; rewrite ?lookup_insert; try done.
    + destruct A4 as [-> ->]. done.
    + rewrite E1, E2. done.
  - destruct A as (A1 & A2 & A3 & A4). unfold on_stopped, alike. simpl. rewrite !lookup_delete.
    destruct (sh_hosted h1 !! s) as [[a1 b1 q1|a1|]|] eqn:E1, (sh_hosted h2 !! s) as [[a2 b2 q2|a2|]|] eqn:E2; try done.
    destruct A4 as [-> ->]. done.
Qed.

Lemma alike_view s h1 h1' h2 : same_view s h1 h1' -> alike s h1 h2 -> alike s h1' h2.
Proof using. intros (V1 & V2 & V3 & V4) (A1 & A2 & A3 & A4). split_and!; try congruence. by rewrite V2. Qed.

Lemma hrun_alike s l : forall h1 h2, alike s h1 h2 ->
  alike s (hrun h1 l).1 (hrun h2 (List.filter (about s) l)).1 /\
  handed s (hrun h1 l).2 = handed s (hrun h2 (List.filter (about s) l)).2 /\
  lost s (hrun h1 l).2 = lost s (hrun h2 (List.filter (about s) l)).2.
Proof using.
  induction l as [|m l IH]; intros h1 h2 A; [done|].
  cbn [List.filter]. destruct (about s m) eqn:Eab; unfold about in Eab; [apply N.eqb_eq in Eab as Hs|apply N.eqb_neq in Eab as Hn].
  - rewrite !hrun_cons. destruct (hstep_alike s h1 h2 m Hs A) as (B1 & B2 & B3).
    destruct (hstep h1 m) as [k1 e1]. destruct (hstep h2 m) as [k2 e2]. cbn [fst snd] in *.
    destruct (IH k1 k2 B1) as (D1 & D2 & D3).
    destruct (hrun k1 l) as [m1 f1]. destruct (hrun k2 _) as [m2 f2]. cbn [fst snd] in *.
    rewrite !handed_app, !lost_app. split; [done|split; congruence].
  - rewrite hrun_cons. destruct (hstep_other s h1 m Hn) as (V & H1 & L1).
    destruct (hstep h1 m) as [k1 e1]. cbn [fst snd] in *.
    destruct (IH k1 h2 (alike_view _ _ _ _ V A)) as (D1 & D2 & D3).
    destruct (hrun k1 l) as [m1 f1]. cbn [fst snd] in *. rewrite handed_app, lost_app, H1, L1. done.
Qed.
Lemma alike_refl s h : alike s h h.
Proof using. split_and!; try done. by destruct (sh_hosted h !! s) as [[]|]. Qed.

End proofs.
