(** C74, C75: what the dispatches to a pool of workers do. *)
From Verif Require Export Pool_Proofs.

Section props.
Context {S M R E : Type}.
Variable hdl : E -> S -> M -> option (S * R).
Variable s : S.
Variable n : nat.
Notation pool := (pool S M R E).
Notation pop := (pop M E).
Notation step := (pstep hdl).
Notation run := (prun hdl).
Implicit Types (w : pool) (l : list pop).

Lemma reach l w : run (pool_new s n) l = Some w -> pinv hdl s n w.
Proof. apply pinv_run, pinv_new. Qed.

(** A result that a dispatch returns was given by exactly one worker, which handled the message once. *)
Theorem C74_answer l w c r : run (pool_new s n) l = Some w -> answer_of w c = Some (inl r) ->
  exists k, handled_by w c k r /\ forall k' r', handled_by w c k' r' -> k' = k /\ r' = r.
Proof.
  intros Hr Ha. pose proof (reach _ _ Hr) as HI. unfold answer_of in Ha.
  destruct (p_calls w !! c) as [x|] eqn:Hx; [|done]. cbn in Ha. destruct (c_caller x) eqn:Hc; try done. injection Ha as ->.
  pose proof (pi_calls _ _ _ _ HI c x Hx) as A. pose proof (ci_ret _ _ _ _ A) as Ht. rewrite Hc in Ht.
  destruct (ci_end _ _ _ _ A r Ht) as (h & Hh & Hhc & Hhr). exists (h_worker h). split; [by exists h|].
  intros k' r' (h' & Hh' & Hhc' & <- & <-).
  assert (h' = h) as ->; [|done]. clear -Hh Hh' Hhc Hhc' HI.
  apply elem_of_list_lookup in Hh as [i Hi], Hh' as [j Hj].
  assert (i = j) as ->; [|congruence]. eapply (NoDup_lookup _ i j c (pi_log_nodup _ _ _ _ HI)); rewrite list_lookup_fmap; [rewrite Hi|rewrite Hj]; by f_equal/=.
Qed.

(** No message is handled twice. *)
Theorem C74_once l w i j h h' : run (pool_new s n) l = Some w ->
  p_log w !! i = Some h -> p_log w !! j = Some h' -> h_call h = h_call h' -> i = j.
Proof.
  intros Hr Hi Hj Hc. pose proof (reach _ _ Hr) as HI.
  eapply (NoDup_lookup _ i j (h_call h) (pi_log_nodup _ _ _ _ HI)); rewrite list_lookup_fmap; [rewrite Hi|rewrite Hj]; by f_equal/=.
Qed.

(** A dispatch that failed is not handled, then or later. *)
Theorem C74_error l w l' w' c e : run (pool_new s n) l = Some w -> answer_of w c = Some (inr e) ->
  run w l' = Some w' -> ~ was_handled w' c /\ answer_of w' c = Some (inr e).
Proof.
  intros Hr Ha Hr'. pose proof (reach _ _ Hr) as HI.
  assert (Hkeep : answer_of w' c = Some (inr e)).
  { clear -Ha Hr'. revert w Ha Hr'. induction l' as [|o l' IH]; intros w Ha H; simpl in H; [by simplify_eq|].
    destruct (step w o) as [w1|] eqn:E1; [|done]. apply (IH w1); [|done]. clear -E1 Ha.
    unfold answer_of in *. destruct (p_calls w !! c) as [x|] eqn:Hx; [|done]. cbn in Ha. destruct (c_caller x) eqn:Hc; try done. injection Ha as ->.
    assert (exists x', p_calls w1 !! c = Some x' /\ c_caller x' = Returned (inr e)) as (x' & -> & E2); [|cbn; by rewrite E2].
    destruct w as [cs sup ring sbox ws asked log].
    cbn [p_calls] in Hx. 
    assert (Hst : forall t c', exists x', set_task t c' cs !! c = Some x' /\ c_caller x' = Returned (inr e)).
    { intros t c'. rewrite lookup_set_task. case_decide; rewrite Hx; cbn; by eexists. }
    assert (Hsc : forall y c', c' <> c -> exists x', set_caller y c' cs !! c = Some x' /\ c_caller x' = Returned (inr e)).
    { intros y c' Hne. rewrite lookup_set_caller. case_decide; [congruence|]. rewrite Hx. by eexists. }
    assert (Hda : forall cs', exists x', drop_all cs' cs !! c = Some x' /\ c_caller x' = Returned (inr e)).
    { intros cs'. rewrite lookup_drop_all. case_decide; rewrite Hx; cbn; by eexists. }
    destruct o as [m| |c'|k e'|c'|c'|c'|k|k| |]; cbn [Pool_Model.pstep] in E1.
    - assert (Happ : forall z, (cs ++ [z]) !! c = Some x) by (intros; by apply lookup_app_l_Some).
      destruct sup; apply (inj Some) in E1; subst w1; cbn [p_calls]; exists x; auto.
    - destruct sup; try done. destruct sbox as [|c' sbox]; [done|]. destruct ring; apply (inj Some) in E1; subst w1; apply Hst.
    - destruct (c_task <$> cs !! c') as [[]|]; try done. destruct (ws !! k); [|done]. cbn in E1.
      destruct (k_life _); apply (inj Some) in E1; subst w1; apply Hst.
    - destruct (ws !! k) as [y|]; [|done]. cbn in E1. destruct (k_life y); try done. destruct (k_box y) as [|c' box]; [done|].
      destruct (cs !! c') as [z|]; [|done]. cbn in E1. destruct (hdl _ _ _) as [[? ?]|]; apply (inj Some) in E1; subst w1; [apply Hst|apply Hda].
    - destruct (c_task <$> cs !! c') as [[]|]; try done. apply (inj Some) in E1; subst w1; apply Hst.
    - destruct (cs !! c') as [z|] eqn:Hz; [|done]. cbn in E1. destruct (c_caller z) eqn:Hcz; try done.
      assert (c' <> c) by (intros ->; congruence). destruct (c_task z) as [| | | |[]]; try done; apply (inj Some) in E1; subst w1; by apply Hsc.
    - destruct (cs !! c') as [z|] eqn:Hz; [|done]. cbn in E1. destruct (c_caller z) eqn:Hcz; try done.
      assert (c' <> c) by (intros ->; congruence). apply (inj Some) in E1; subst w1; by apply Hsc.
    - destruct (ws !! k) as [y|]; [|done]. cbn in E1. destruct (k_life y); try done. apply (inj Some) in E1; subst w1. by exists x.
    - destruct (ws !! k) as [y|]; [|done]. cbn in E1. destruct (k_life y); try done. apply (inj Some) in E1; subst w1. apply Hda.
    - destruct sup; try done. apply (inj Some) in E1; subst w1. by exists x.
    - destruct sup; try done. apply (inj Some) in E1; subst w1. apply Hda. }
  split; [|done]. intros (h & Hh & Hhc). pose proof (pinv_run _ _ _ _ _ _ HI Hr') as HI'.
  unfold answer_of in Hkeep. destruct (p_calls w' !! c) as [x|] eqn:Hx; [|done]. cbn in Hkeep. destruct (c_caller x) eqn:Hc; try done. injection Hkeep as ->.
  pose proof (pi_calls _ _ _ _ HI' c x Hx) as A. pose proof (ci_ret _ _ _ _ A) as Ht. rewrite Hc in Ht.
  destruct (ci_log _ _ _ _ A h Hh Hhc) as (_ & _ & [H|H]); congruence.
Qed.

(** Message [i] that the pool took goes to worker [i mod n], and to no other. *)
Theorem C74_turns l w i c k r : run (pool_new s n) l = Some w -> p_asked w !! i = Some c -> handled_by w c k r -> k = i mod n.
Proof.
  intros Hr Hi (h & Hh & <- & <- & <-). pose proof (reach _ _ Hr) as HI.
  destruct (lookup_lt_is_Some_2 (p_calls w) (h_call h)) as [x Hx]; [by apply (pi_log _ _ _ _ HI)|].
  destruct (ci_log _ _ _ _ (pi_calls _ _ _ _ HI _ x Hx) h Hh eq_refl) as (_ & (j & Hj & ->) & _).
  by rewrite (NoDup_lookup _ _ _ _ (pi_asked_nodup _ _ _ _ HI) Hi Hj).
Qed.

(** Every worker handles its messages one after the other, from a copy of the state the pool was made with; the
    messages are those that were dispatched. *)
Theorem C74_state l w k y : run (pool_new s n) l = Some w -> p_workers w !! k = Some y ->
  works hdl s (filter (fun h => h_worker h = k) (p_log w)) (k_state y) /\
  forall h, h ∈ p_log w -> c_msg <$> p_calls w !! h_call h = Some (h_msg h).
Proof.
  intros Hr Hy. pose proof (reach _ _ Hr) as HI. split; [by apply (pi_state _ _ _ _ HI)|].
  intros h Hh. destruct (lookup_lt_is_Some_2 (p_calls w) (h_call h)) as [x Hx]; [by apply (pi_log _ _ _ _ HI)|].
  destruct (ci_log _ _ _ _ (pi_calls _ _ _ _ HI _ x Hx) h Hh eq_refl) as (-> & _). by rewrite Hx.
Qed.

(** The pool comes to rest by itself: its own steps are bounded, and when none is left every caller that has not
    given up has its answer. *)
Theorem C74_finishes l w : run (pool_new s n) l = Some w ->
  (forall l' w', run w l' = Some w' -> forallb inner l' = true -> length l' <= work w) /\
  (forall e : E, (forall o, inner o = true -> step w o = None) -> forall c, ~ waits w c).
Proof.
  intros Hr. pose proof (reach _ _ Hr) as HI. split.
  - clear Hr l. intros l'. revert w HI. induction l' as [|o l' IH]; intros w HI w' H Ho; simpl; [lia|]. simpl in H, Ho.
    apply andb_true_iff in Ho as [Ho Ho']. destruct (step w o) as [w1|] eqn:E1; [|done].
    pose proof (work_step _ _ _ _ _ _ HI E1 Ho). specialize (IH w1 (pinv_step _ _ _ _ _ _ HI E1) w' H Ho'). lia.
  - intros e Hstuck c Hw. unfold waits in Hw. destruct (p_calls w !! c) as [x|] eqn:Hx; [|done]. injection Hw as Hw.
    pose proof (pi_calls _ _ _ _ HI c x Hx) as A.
    assert (Hsup : p_sup w <> Ending).
    { intros Hs. specialize (Hstuck PSupClose eq_refl). destruct w. simpl in *. by rewrite Hs in Hstuck. }
    assert (Hwk : forall k y, p_workers w !! k = Some y -> k_life y <> Ending).
    { intros k y Hy Hl. specialize (Hstuck (PClose k) eq_refl). destruct w. simpl in *. by rewrite Hy in Hstuck; simpl in Hstuck; rewrite Hl in Hstuck. }
    destruct (c_task x) as [|k|k|k r|[r|]] eqn:Ht.
    + apply (ci_sbox _ _ _ _ A) in Ht. destruct (pi_ring _ _ _ _ HI) as [[_ H0]|_]; [rewrite H0 in Ht; by apply elem_of_nil in Ht|].
      pose proof (Hstuck PTake eq_refl) as H1. destruct w as [cs sup ring sbox ws asked log]. simpl in *.
      destruct sbox as [|c' sbox]; [by apply elem_of_nil in Ht|]. pose proof (pi_sup _ _ _ _ HI) as H2. simpl in H2. destruct sup; [by destruct ring|done|].
      by specialize (H2 eq_refl).
    + destruct (ci_send _ _ _ _ A k Ht) as [Hk _]. rewrite <- (pi_workers _ _ _ _ HI) in Hk. apply lookup_lt_is_Some_2 in Hk as [y Hy].
      pose proof (Hstuck (PSend c) eq_refl) as H1. destruct w as [cs sup ring sbox ws asked log]. simpl in *.
      rewrite Hx in H1. cbn in H1. rewrite Ht, Hy in H1. cbn in H1. by destruct (k_life y).
    + apply (ci_sent _ _ _ _ A) in Ht as (y & Hy & Hc). specialize (Hwk k y Hy).
      pose proof (Hstuck (PWork k e) eq_refl) as H1. pose proof (pi_closed _ _ _ _ HI k y Hy) as H2.
      pose proof (pi_box _ _ _ _ HI k y) as H3.
      destruct w as [cs sup ring sbox ws asked log]. simpl in *. rewrite Hy in H1. cbn in H1.
      destruct (k_life y); [|done|rewrite H2 in Hc by done; by apply elem_of_nil in Hc].
      destruct (k_box y) as [|c' box]; [by apply elem_of_nil in Hc|].
      destruct (lookup_lt_is_Some_2 cs c') as [z Hz]; [apply (H3 c' Hy), elem_of_list_here|]. rewrite Hz in H1. cbn in H1.
      by destruct (hdl e (k_state y) (c_msg z)) as [[? ?]|].
    + pose proof (Hstuck (PForward c) eq_refl) as H1. destruct w as [cs sup ring sbox ws asked log]. simpl in *.
      rewrite Hx in H1. cbn in H1. by rewrite Ht in H1.
    + pose proof (Hstuck (PReturn c) eq_refl) as H1. destruct w as [cs sup ring sbox ws asked log]. simpl in *.
      rewrite Hx in H1. cbn in H1. by rewrite Hw, Ht in H1.
    + pose proof (Hstuck (PReturn c) eq_refl) as H1. destruct w as [cs sup ring sbox ws asked log]. simpl in *.
      rewrite Hx in H1. cbn in H1. by rewrite Hw, Ht in H1.
Qed.

(** A dispatch fails only if the pool is empty or stopped, or the worker whose turn it is has stopped. *)
Theorem C74_fails_only l w c e : run (pool_new s n) l = Some w -> answer_of w c = Some (inr e) ->
  p_sup w = Closed \/ n = 0 \/ exists i, p_asked w !! i = Some c /\ life_of w (i mod n) = Some Closed.
Proof.
  intros Hr Ha. pose proof (reach _ _ Hr) as HI. unfold answer_of in Ha.
  destruct (p_calls w !! c) as [x|] eqn:Hx; [|done]. cbn in Ha. destruct (c_caller x) eqn:Hc; try done. injection Ha as ->.
  pose proof (ci_ret _ _ _ _ (pi_calls _ _ _ _ HI c x Hx)) as Ht. rewrite Hc in Ht.
  assert (HL : lost_ok n w).
  { eapply lost_run; [apply pinv_new| |done]. by intros c0 x0 H. }
  destruct (HL c x Hx Ht) as [?|[?|(k & (i & Hi & ->) & Hl)]]; [auto|auto|]. right. right. by exists i.
Qed.

(** * C75 *)

(** False: once worker [k] has stopped, every message whose turn is worker [k] fails, whatever the other workers do;
    the pool goes on giving it every [n]-th message. *)
Theorem C75_dead_refuted l w l' w' k i c r : run (pool_new s n) l = Some w ->
  life_of w k = Some Closed \/ life_of w k = Some Ending -> run w l' = Some w' ->
  p_asked w' !! i = Some c -> i mod n = k -> ~ was_handled w c -> answer_of w' c <> Some (inl r).
Proof.
  intros Hr Hk Hr' Hi Him Hnw Ha. pose proof (reach _ _ Hr) as HI.
  assert (Hr2 : run (pool_new s n) (l ++ l') = Some w').
  { clear -Hr Hr'. revert Hr. generalize (@pool_new S M R E s n) as w0. induction l as [|o l IH]; intros w0 H; simpl in *; [by simplify_eq|].
    destruct (step w0 o); [|done]. by apply IH. }
  destruct (C74_answer _ _ _ _ Hr2 Ha) as (k' & Hh & _). pose proof (C74_turns _ _ _ _ _ _ Hr2 Hi Hh) as ->.
  rewrite Him in Hh. destruct Hh as (h & Hh & Hc & Hw & _).
  destruct (dead_run _ _ _ _ _ _ k HI Hr' Hk) as (a & Ea & Hna). rewrite Ea in Hh. apply elem_of_app in Hh as [Hh|Hh]; [apply Hnw; by exists h|].
  by destruct (Hna h Hh).
Qed.
(** A dispatch fails only with the worker whose turn it is (or with the whole pool). *)
Theorem C75_own_worker_partial l w c e i : run (pool_new s n) l = Some w -> answer_of w c = Some (inr e) ->
  p_sup w = Running -> p_asked w !! i = Some c -> life_of w (i mod n) <> Some Running.
Proof.
  intros Hr Ha Hs Hi. pose proof (reach _ _ Hr) as HI. destruct (C74_fails_only _ _ _ _ Hr Ha) as [H|[H|(j & Hj & H)]]; [congruence| |].
  - unfold life_of. pose proof (pi_workers _ _ _ _ HI) as Hl. rewrite H in Hl. by destruct (p_workers w).
  - rewrite (NoDup_lookup _ _ _ _ (pi_asked_nodup _ _ _ _ HI) Hi Hj). congruence.
Qed.

(** * C76 *)

(** A message dispatched after the answer to another one is handled after it. *)
Theorem C76_sequential_partial l w l' w' c c' r i j h h' : run (pool_new s n) l = Some w -> answer_of w c = Some (inl r) ->
  run w l' = Some w' -> length (p_calls w) <= c' ->
  p_log w' !! i = Some h -> h_call h = c -> p_log w' !! j = Some h' -> h_call h' = c' -> i < j.
Proof.
  intros Hr Ha Hr' Hc' Hi Hh Hj Hh'. pose proof (reach _ _ Hr) as HI.
  destruct (C74_answer _ _ _ _ Hr Ha) as (k & (h0 & Hh0 & Hc0 & _) & _).
  destruct (grow_run _ _ _ _ Hr') as ((a & Ea) & _).
  apply elem_of_list_lookup in Hh0 as [i0 Hi0].
  assert (i = i0) as ->.
  { pose proof (pinv_run _ _ _ _ _ _ HI Hr') as HI'. apply (NoDup_lookup _ i i0 c (pi_log_nodup _ _ _ _ HI')); rewrite list_lookup_fmap; [rewrite Hi; by f_equal/=|].
    rewrite Ea, (lookup_app_l_Some _ _ _ _ Hi0). by f_equal/=. }
  apply lookup_lt_Some in Hi0. destruct (decide (j < length (p_log w))) as [Hlt|]; [|lia].
  rewrite Ea, lookup_app_l in Hj by done. apply elem_of_list_lookup_2, (pi_log _ _ _ _ HI) in Hj. lia.
Qed.
End props.
Print Assumptions C74_answer.
Print Assumptions C74_once.
Print Assumptions C74_error.
Print Assumptions C74_turns.
Print Assumptions C74_state.
Print Assumptions C76_sequential_partial.
Print Assumptions C74_finishes.
Print Assumptions C74_fails_only.
Print Assumptions C75_dead_refuted.
Print Assumptions C75_own_worker_partial.

(** Three dispatches to two workers that count: the third finds the first worker again. *)
Section example.
(** A worker adds what it is given; 0 makes it panic. *)
Let hdl (_ : unit) (s m : nat) : option (nat * nat) := if m =? 0 then None else Some (s + m, s + m).
Let run := prun hdl (pool_new 10 2).
Let summary (w : pool nat nat nat unit) := (map c_caller (p_calls w), map (fun h => (h_call h, h_worker h)) (p_log w), map k_state (p_workers w)).
Example C74_case : summary <$> run [PDispatch 1; PDispatch 2; PDispatch 3; PTake; PTake; PTake; PSend 1; PSend 0; PWork 1 tt; PSend 2;
    PWork 0 tt; PForward 1; PReturn 1; PWork 0 tt; PForward 2; PForward 0; PReturn 0; PReturn 2] =
  Some ([Returned (inl 11); Returned (inl 12); Returned (inl 14)], [(1, 1); (0, 0); (2, 0)], [14; 12]).
Proof. vm_compute. done. Qed.
(** A dispatch may be given up and is handled all the same; a pool that stops fails what is left in its mailbox. *)
Example C74_case_stop : summary <$> run [PDispatch 1; PDispatch 2; PTake; PCancel 0; PSupEnd; PSend 0; PWork 0 tt; PForward 0; PDispatch 3; PSupClose;
    PReturn 1; PReturn 2; PDispatch 4] =
  Some ([Gone; Returned (inr ResultChannelClosed); Returned (inr ResultChannelClosed); Returned (inr InvalidRef)], [(0, 0)], [11; 10]).
Proof. vm_compute. done. Qed.

(** False: worker 0 has panicked, worker 1 runs, and the next dispatch but one fails. *)
Theorem C75_refuted : exists l w, run l = Some w /\ life_of w 1 = Some Running /\ p_sup w = Running /\
  answer_of w 1 = Some (inl 11) /\ answer_of w 2 = Some (inr ResultChannelClosed) /\ c_msg <$> p_calls w !! 2 = Some 5.
Proof.
  eexists [PDispatch 0; PTake; PSend 0; PWork 0 tt; PReturn 0; PDispatch 1; PTake; PSend 1; PWork 1 tt; PForward 1; PReturn 1;
    PDispatch 5; PTake; PSend 2; PReturn 2], _. split; [vm_compute; reflexivity|]. vm_compute. done.
Qed.
(** False: a pool of one worker handles two messages in the other order. *)
Theorem C76_order_refuted : exists l w, prun hdl (pool_new 10 1) l = Some w /\ p_asked w = [0; 1] /\
  map h_call (p_log w) = [1; 0] /\ map c_caller (p_calls w) = [Returned (inl 13); Returned (inl 12)].
Proof.
  eexists [PDispatch 1; PDispatch 2; PTake; PTake; PSend 1; PSend 0; PWork 0 tt; PWork 0 tt; PForward 0; PForward 1; PReturn 0; PReturn 1], _.
  split; [vm_compute; reflexivity|]. vm_compute. done.
Qed.
End example.
Print Assumptions C75_refuted.
Print Assumptions C76_order_refuted.
