(** Property C48 and, for one host, C49: shard hosts. *)
From Verif Require Import Host_Model Host_Spec Host_Proofs ShardSys_Host.
Local Open Scope string_scope.
Local Open Scope list_scope.
Local Open Scope N_scope.

(** * C48 *)

(** In every history each request that arrived is handed over once, kept, or was dropped. *)
Theorem C48_accounted_partial {R} (n : N) (l : list (hmsg R)) s :
  handed s (hrun (host_init n) l).2 ++ lost s (hrun (host_init n) l).2 ++ kept (hrun (host_init n) l).1 s ≡ₚ arrived s l.
Proof.
  pose proof (hrun_kept s l (host_init n)) as H. assert (kept (host_init n : host R) s = []) as E by done. by rewrite E in H.
Qed.
Print Assumptions C48_accounted_partial.

(** If the start of [s] is not disturbed (no request to stop it, no move while it starts),
    nothing is dropped, and what was handed over, followed by what is kept, is what arrived,
    in this order. *)
Theorem C48_order_partial {R} (n : N) (l : list (hmsg R)) s :
  calm_run s (host_init n) l ->
  lost s (hrun (host_init n) l).2 = [] /\
  handed s (hrun (host_init n) l).2 ++ kept (hrun (host_init n) l).1 s = arrived s l.
Proof.
  intros C. destruct (hrun_tidy s l (host_init n) (tidy_init s n) C) as (_ & H1 & H2). split; [done|].
  exact H2.
Qed.
Print Assumptions C48_order_partial.

(** When the shard is ready, or known to be on another node, nothing is kept any more: all
    requests so far have been handed over, in the order of arrival. *)
Theorem C48_flushed_partial {R} (n : N) (l : list (hmsg R)) s a :
  calm_run s (host_init n) (l ++ [MReady s a]) ->
  handed s (hrun (host_init n) (l ++ [MReady s a])).2 = arrived s l.
Proof.
  intros C. destruct (hrun_tidy s _ (host_init n) (tidy_init s n) C) as ((T & _) & _ & H2).
  assert (kept (host_init n : host R) s = []) as E by done. rewrite E, app_nil_l in H2. clear E.
  assert (arrived s (l ++ [MReady s a]) = arrived s l) as E by (by rewrite arrived_app, app_nil_r). rewrite E in H2. clear E.
  rewrite <- H2. assert (kept (hrun (host_init n) (l ++ [MReady s a])).1 s = []) as ->; [|by rewrite app_nil_r].
  rewrite hrun_snoc in *. destruct (hrun (host_init n) l) as [h1 e1]. simpl in *. unfold kept, buffered, pending in *. simpl in *.
  rewrite lookup_insert in *. destruct (sh_pending h1 !! s) eqn:Ep; [|done]. destruct T as [? _]; [by eexists|]. done.
Qed.
Print Assumptions C48_flushed_partial.

Theorem C48_remote_flushed_partial {R} (n k : N) (l : list (hmsg R)) s :
  k <> n -> calm_run s (host_init n) (l ++ [MAllocated s k]) ->
  handed s (hrun (host_init n) (l ++ [MAllocated s k])).2 = arrived s l.
Proof.
  intros Hk C. destruct (hrun_tidy s _ (host_init n) (tidy_init s n) C) as ((T & _) & _ & H2).
  assert (kept (host_init n : host R) s = []) as E by done. rewrite E, app_nil_l in H2. clear E.
  assert (arrived s (l ++ [MAllocated s k]) = arrived s l) as E by (by rewrite arrived_app, app_nil_r). rewrite E in H2. clear E.
  rewrite <- H2. assert (kept (hrun (host_init n) (l ++ [MAllocated s k])).1 s = []) as ->; [|by rewrite app_nil_r].
  assert (Hn : forall l h, sh_node (hrun (R:=R) h l).1 = sh_node h).
  { clear. intros l. induction l as [|m l IH]; intros h; [done|]. rewrite hrun_cons. destruct (hstep h m) as [h1 e1] eqn:E.
    specialize (IH h1). destruct (hrun h1 l) as [h2 e2]. simpl in *. rewrite IH.
    destruct (hstep_other (msg_shard m + 1) h m ltac:(lia)) as ((V & _) & _). by rewrite E in V. }
  rewrite hrun_snoc in *. specialize (Hn l (host_init n)). destruct (hrun (host_init n) l) as [h1 e1]. simpl in Hn.
  assert (Hr : sh_remote (hstep h1 (MAllocated s k)).1 !! s = Some k /\ sh_hosted (hstep h1 (MAllocated s k)).1 !! s = None).
  { cbn [hstep]. rewrite on_allocated_eq. unfold allocated_first. rewrite Hn, (proj2 (N.eqb_neq k n)) by done.
    assert (Hq : forall q (h : host R), sh_remote h !! s = Some k -> sh_hosted h !! s = None ->
              sh_remote (on_requests h s q).1 !! s = Some k /\ sh_hosted (on_requests h s q).1 !! s = None).
    { intros q. induction q as [|r q IHq]; intros h Hh1 Hh2; [done|]. simpl. unfold on_request. rewrite Hh2, Hh1.
      specialize (IHq h Hh1 Hh2). by destruct (on_requests h s q). }
    simpl. destruct (sh_pending h1 !! s) as [q|]; simpl; [|by rewrite lookup_insert, lookup_delete].
    match goal with |- context [on_requests ?h s q] => specialize (Hq q h) end. simpl in Hq.
    rewrite lookup_insert, lookup_delete in Hq. specialize (Hq eq_refl eq_refl).
    by destruct (on_requests _ s q). }
  destruct (hstep h1 (MAllocated s k)) as [h2 e2]. simpl in *. unfold kept, buffered, pending. destruct Hr as [Hr1 Hr2]. rewrite Hr2. simpl.
  destruct (sh_pending h2 !! s) eqn:Ep; [|done]. destruct T as [_ T]; [by eexists|]. congruence.
Qed.
Print Assumptions C48_remote_flushed_partial.

(** Whatever happens to other shards, the requests of [s] fare as if only the messages about
    [s] had arrived. *)
Theorem C48_independent {R} (n : N) (l : list (hmsg R)) s :
  handed s (hrun (host_init n) l).2 = handed s (hrun (host_init n) (List.filter (about s) l)).2 /\
  lost s (hrun (host_init n) l).2 = lost s (hrun (host_init n) (List.filter (about s) l)).2.
Proof. destruct (hrun_alike s l (host_init n) (host_init n) (alike_refl s _)) as (_ & H). exact H. Qed.
Print Assumptions C48_independent.

(** The full property is false: requests are dropped when the shard is stopped while it
    starts, and while it is stopping. *)
Theorem C48_dropped_refuted :
  let l := [MRequest 7 1; MAllocated 7 5; MRequest 7 2; MStop 7 (0, 9); MRequest 7 3; MReady 7 0; MRequest 7 4] in
  arrived 7 l = [1; 2; 3; 4] /\ handed 7 (hrun (host_init 5) l).2 = [4] /\ lost 7 (hrun (host_init 5) l).2 = [1; 2; 3].
Proof. vm_compute. done. Qed.
Print Assumptions C48_dropped_refuted.

(** A calm run with two shards on this node and one elsewhere. *)
Definition ex_l : list (hmsg N) :=
  [MRequest 7 1; MRequest 8 2; MRequest 7 3; MAllocated 7 5; MRequest 7 4; MRequest 9 5; MAllocated 9 6; MRequest 9 6;
   MAllocated 8 5; MReady 7 0; MRequest 7 7; MRequest 8 8; MReady 8 1].
Example C48_case : calm_run 7 (host_init 5) ex_l /\ handed 7 (hrun (host_init 5) ex_l).2 = [1; 3; 4; 7] /\
  calm_run 8 (host_init 5) ex_l /\ handed 8 (hrun (host_init 5) ex_l).2 = [2; 8] /\ handed 9 (hrun (host_init 5) ex_l).2 = [5; 6].
Proof.
  split_and!; try (vm_compute; done).
  - cbn [calm_run ex_l calm]. split_and!; try done; try (intros _; vm_compute; by eauto); try (intros [=]).
  - cbn [calm_run ex_l calm]. split_and!; try done; try (intros _; vm_compute; by eauto); try (intros [=]).
Qed.

(** * C49, one host *)

(** A shard that is ready: the stop is carried out by a task that answers the request when the
    shard actor has stopped; the host stops using the shard at once. *)
Theorem C49_ready_partial {R} (h : host R) s a req :
  sh_hosted h !! s = Some (HReady a) ->
  (hstep h (MStop s req)).2 = [HStopTask s a (Some req)] /\ sh_hosted (hstep h (MStop s req)).1 !! s = Some HStopping.
Proof. intros E. simpl. unfold on_stop. rewrite E. simpl. by rewrite lookup_insert. Qed.
Print Assumptions C49_ready_partial.

(** In every other state the request is never answered, whatever happens later. *)
Theorem C49_never_answered_refuted {R} (n : N) (l1 l2 : list (hmsg R)) s req :
  (forall a, sh_hosted (hrun (host_init n) l1).1 !! s <> Some (HReady a)) ->
  MStop s req ∉ l1 -> MStop s req ∉ l2 ->
  forall a, HStopTask s a (Some req) ∉ (hrun (host_init n) (l1 ++ MStop s req :: l2)).2.
Proof.
  assert (Hstep : forall (h : host R) m a, hwf h -> HStopTask s a (Some req) ∈ (hstep h m).2 -> m = MStop s req /\ hent h s = Some (KReady a)).
  { intros h m a Hw Hin. assert (Hc : CtTask a (Some req) ∈ hctls s (hstep h m).2).
    { apply elem_of_list_omap. exists (HStopTask s a (Some req)). simpl. by rewrite N.eqb_refl. }
    destruct (hstep_ctl h m Hw) as (_ & _ & Hoth & _ & Hctl). destruct (decide (s = msg_shard m)) as [->|Hne].
    - rewrite Hctl in Hc. unfold step_ctl in Hc. destruct m as [x r|x o|x b|x|x rq|x]; simpl in *; destruct (hent h x) as [[b'|b'|]|]; simpl in Hc;
        try (destruct (_ =? _)); try (by apply elem_of_nil in Hc); apply elem_of_list_singleton in Hc; try done. by injection Hc as -> ->.
    - destruct (Hoth s Hne) as [_ E]. rewrite E in Hc. by apply elem_of_nil in Hc. }
  assert (Hrun : forall l (h : host R) a, hwf h -> MStop s req ∉ l -> HStopTask s a (Some req) ∉ (hrun h l).2 /\ hwf (hrun h l).1).
  { intros l. induction l as [|m l IH]; intros h a Hw Hl; [split; [by intros ?%elem_of_nil|done]|].
    rewrite hrun_cons. specialize (Hstep h m a Hw). destruct (hstep_ctl h m Hw) as (Hw1 & _). destruct (hstep h m) as [h1 e1]. cbn [fst snd] in *.
    destruct (IH h1 a Hw1) as [H1 H2]; [intros ?; apply Hl; by constructor|]. destruct (hrun h1 l) as [h2 e2]. cbn [fst snd] in *.
    split; [|done]. intros [?|?]%elem_of_app; [|done]. destruct Hstep as [-> _]; [done|]. apply Hl. constructor. }
  intros Hnr Hl1 Hl2 a. destruct (Hrun l1 (host_init n) a (hwf_init n) Hl1) as [H1 Hw1].
  rewrite hrun_app. destruct (hrun (host_init n) l1) as [h1 e1]. cbn [fst snd] in *. rewrite hrun_cons.
  specialize (Hstep h1 (MStop s req) a Hw1). destruct (hstep_ctl h1 (MStop s req) Hw1) as (Hw2 & _).
  destruct (hstep h1 (MStop s req)) as [h2 e2]. cbn [fst snd] in *. destruct (Hrun l2 h2 a Hw2 Hl2) as [H3 _].
  destruct (hrun h2 l2) as [h3 e3]. cbn [fst snd] in *. intros [?|[?|?]%elem_of_app]%elem_of_app; [done| |done].
  destruct Hstep as [_ E]; [done|]. unfold hent in E. destruct (sh_hosted h1 !! s) as [[|b|]|] eqn:Eh; try done. by apply (Hnr b).
Qed.
Print Assumptions C49_never_answered_refuted.

(** Moreover a shard stopped while it starts is used again as soon as it reports ready. *)
Theorem C49_runs_anyway_refuted :
  let '(h, eff) := hrun (host_init 5) [MAllocated 7 5; MStop 7 (0, 9); MReady 7 0; MRequest 7 4] in
  sh_hosted h !! 7 = Some (HReady 0) /\ eff = [HStart 7 0; HForward 7 0 4].
Proof. vm_compute. done. Qed.
Print Assumptions C49_runs_anyway_refuted.
