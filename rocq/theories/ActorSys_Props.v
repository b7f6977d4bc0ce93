(** Properties C16 to C19: registry, worker pools, timers and descriptions. *)
From Verif Require Import ActorSys_Model ActorSys_Spec ActorSys_Proofs.
Local Open Scope string_scope.
Local Open Scope list_scope.
Local Open Scope nat_scope.

(** * C16 *)

(** In histories that do not reuse the id of a running actor, without panics and without
    actors that stop before their creation returns: a lookup finds the latest running actor. *)
Theorem C16_lookup_partial ops id : careful ops -> all_registered (grun ops).1 ->
  exists res, lookup_answer ops id = Some res /\ forall r, res = Some r <-> latest_live id (grun ops).2 r.
Proof. exact (registry_lookup ops id). Qed.
Print Assumptions C16_lookup_partial.

(** A restarted and a different actor: the hypotheses hold and both lookups succeed. *)
Definition ex_registry : list gop :=
  [GOCreate "a"; GORegister 0; GOCreate "b"; GORegister 1; GOProcess; GOStop 0; GOCreate "a"; GOProcess; GORegister 2].
Example C16_careful_case : careful ex_registry /\ all_registered (grun ex_registry).1 /\
  lookup_answer ex_registry "a" = Some (Some 2) /\ lookup_answer ex_registry "b" = Some (Some 1) /\
  lookup_answer ex_registry "c" = Some None.
Proof.
  assert (Hd : forall s (P : nat -> tracked_actor -> Prop),
     Forall (fun x => P x.1 x.2) (map_to_list (g_actors s)) -> forall r t, g_actors s !! r = Some t -> P r t).
  { intros s P HF r t H%elem_of_map_to_list. rewrite Forall_forall in HF. exact (HF (r, t) H). }
  split_and!; try (vm_compute; reflexivity).
  - intros pre o post E. unfold ex_registry in E.
    repeat match type of E with
    | _ :: _ = pre ++ _ => destruct pre as [|? pre]; [injection E as <- <-|injection E as <- E]; [try exact I|..]
    end.
    + apply (Hd _ (fun _ t => t_id t = "a" -> t_alive t = false)). vm_compute. constructor.
    + apply (Hd _ (fun _ t => t_id t = "b" -> t_alive t = false)). vm_compute. repeat constructor. intros [=].
    + intros t Hx. revert Hx. vm_compute. by intros [= <-].
    + apply (Hd _ (fun _ t => t_id t = "a" -> t_alive t = false)). vm_compute. repeat constructor; intros [=].
    + by destruct pre.
  - unfold all_registered. apply (Hd _ (fun _ t => t_sent t = true)). vm_compute. repeat constructor.
Qed.

(** Stopping an actor does not affect lookups of other ids, in any history. *)
Theorem C16_frame ops r j id a t : g_actors (grun ops).1 !! r = Some (TActor j a t) -> j <> id ->
  lookup_answer (ops ++ [GOStop r]) id = lookup_answer ops id.
Proof. exact (registry_frame ops r j id a t). Qed.
Print Assumptions C16_frame.

(** In any history a lookup finds only actors that were created with the id. *)
Theorem C16_found_has_id ops id r : lookup_answer ops id = Some (Some r) -> GCreated r id ∈ (grun ops).2.
Proof. exact (registry_ids ops id r). Qed.
Print Assumptions C16_found_has_id.

(** An actor that is replaced by another with the same id deregisters its replacement when it
    stops: the replacement runs but is not found. *)
Theorem C16_replaced_refuted : exists ops id r,
  all_registered (grun ops).1 /\ latest_live id (grun ops).2 r /\ lookup_answer ops id = Some None.
Proof.
  exists [GOCreate "a"; GORegister 0; GOCreate "a"; GORegister 1; GOStop 0], "a", 1. split_and!.
  - intros r t H. apply elem_of_map_to_list in H. revert H. vm_compute.
    intros [[= -> ->]|[[= -> ->]|[]%elem_of_nil]%elem_of_cons]%elem_of_cons; done.
  - vm_compute. split_and!.
    + apply elem_of_list_In. simpl. tauto.
    + intros H%elem_of_list_In. simpl in H. intuition discriminate.
    + intros r' H%elem_of_list_In _. simpl in H. intuition (try discriminate).
      * injection H0 as <-. repeat constructor.
      * injection H as <-. repeat constructor.
  - vm_compute. reflexivity.
Qed.
Print Assumptions C16_replaced_refuted.

(** An actor that stops before its creator has sent the registration stays registered, *)
Theorem C16_stopped_early_refuted : exists ops id r,
  all_registered (grun ops).1 /\ GStopped r ∈ (grun ops).2 /\ lookup_answer ops id = Some (Some r).
Proof.
  exists [GOCreate "a"; GOStop 0; GORegister 0], "a", 0. split_and!; try (vm_compute; reflexivity).
  - intros r t H. apply elem_of_map_to_list in H. revert H. vm_compute.
    intros [[= -> ->]|[]%elem_of_nil]%elem_of_cons; done.
  - vm_compute. apply elem_of_list_In. simpl. tauto.
Qed.
Print Assumptions C16_stopped_early_refuted.

(** and so does an actor whose code panics. *)
Theorem C16_crashed_refuted : exists ops id r,
  all_registered (grun ops).1 /\ GStopped r ∈ (grun ops).2 /\ lookup_answer ops id = Some (Some r).
Proof.
  exists [GOCreate "a"; GORegister 0; GOProcess; GOCrash 0], "a", 0. split_and!; try (vm_compute; reflexivity).
  - intros r t H. apply elem_of_map_to_list in H. revert H. vm_compute.
    intros [[= -> ->]|[]%elem_of_nil]%elem_of_cons; done.
  - vm_compute. apply elem_of_list_In. simpl. tauto.
Qed.
Print Assumptions C16_crashed_refuted.

(** * C17 *)

(** Every message is handed to exactly one worker: the result has one worker per message, and
    it is a worker of the pool; message [k] goes to worker [k mod n]. *)
Theorem C17_each_message_once {W} (ws : list W) n : ws <> [] ->
  length (pool_run ws n) = n /\
  forall k, k < n -> exists w, pool_run ws n !! k = Some (Some w) /\ ws !! (k mod length ws) = Some w.
Proof.
  intros Hne. destruct (pool_state ws n Hne) as [_ ->]. split; [by rewrite map_length, seq_length|].
  intros k Hk. assert (Hl : 0 < length ws) by (destruct ws; simpl; [done|lia]).
  destruct (lookup_lt_is_Some_2 ws (k mod length ws)) as [w Hw]; [apply Nat.mod_upper_bound; lia|].
  exists w. split; [|done]. change (map ?f ?l) with (f <$> l). rewrite list_lookup_fmap, lookup_seq_lt by done. simpl. by rewrite Hw.
Qed.
Print Assumptions C17_each_message_once.

(** The shares of two workers differ by at most one. *)
Theorem C17_fair {W} `{EqDecision W} (ws : list W) n w w' : NoDup ws -> w ∈ ws -> w' ∈ ws ->
  given w (pool_run ws n) <= S (given w' (pool_run ws n)).
Proof.
  intros Hnd [i Hi]%elem_of_list_lookup [j Hj]%elem_of_list_lookup.
  rewrite (given_count ws n i w Hnd Hi), (given_count ws n j w' Hnd Hj).
  destruct (i <? _), (j <? _); lia.
Qed.
Print Assumptions C17_fair.

(** Nothing is handed out by an empty pool. *)
Theorem C17_empty_pool {W} n : pool_run ([] : list W) n = repeat None n.
Proof. unfold pool_run. induction n as [|n IH]; [done|]. simpl. destruct (run _ _ _) as [s o]. simpl in *. by rewrite IH. Qed.
Print Assumptions C17_empty_pool.

Example C17_case : pool_run ["a"; "b"; "c"] 5 = map Some ["a"; "b"; "c"; "a"; "b"] /\
  given "a" (pool_run ["a"; "b"; "c"] 5) = 2 /\ given "c" (pool_run ["a"; "b"; "c"] 5) = 1.
Proof. vm_compute. done. Qed.

(** * C18 *)
Local Open Scope Z_scope.

(** With handlers that take no time there is one tick per elapsed period: tick [k] is made at
    its time if it is before the stop, and there are no other ticks. *)
Theorem C18_one_tick_per_period_partial now period stop n k : 0 <= period -> (k < n)%nat ->
  timer false now period stop (repeat (Answered 0) n) !! k =
  (let x := now + Z.of_nat (S k) * period in if stop_seen stop x then None else Some x).
Proof.
  intros Hp Hk. unfold timer. cbv zeta.
  assert (Hz : forall m j, delay_sum j (repeat (Answered 0) m) = 0).
  { induction m as [|m IH]; intros [|j]; simpl; try done. by rewrite IH. }
  replace (now + Z.of_nat (S k) * period) with (now + period + Z.of_nat k * period + delay_sum k (repeat (Answered 0) n)) by (rewrite Hz; lia).
  destruct (stop_seen stop _) eqn:Es.
  - destruct (timer_loop period stop (now + period) (repeat (Answered 0) n) !! k) as [x|] eqn:Ex; [|done].
    destruct stop as [s|]; [|done]. simpl in Es.
    pose proof (timer_loop_nth _ _ _ _ _ _ Ex) as Ht.
    pose proof (timer_loop_before_stop period s (now + period) (repeat (Answered 0) n)) as Hb.
    rewrite Forall_lookup in Hb. specialize (Hb _ _ Ex). lia.
  - apply timer_loop_complete; [by rewrite repeat_length|done|..].
    + apply Forall_forall. intros f Hf. apply elem_of_list_In, repeat_spec in Hf as ->. by exists 0.
    + intros s ->. simpl in Es. lia.
Qed.
Print Assumptions C18_one_tick_per_period_partial.

(** In general the time of the [k]th tick is delayed by the handling of the earlier ones. *)
Theorem C18_tick_times now period stop fates k x : timer false now period stop fates !! k = Some x ->
  x = now + Z.of_nat (S k) * period + delay_sum k fates.
Proof. unfold timer. intros H. apply timer_loop_nth in H. lia. Qed.
Print Assumptions C18_tick_times.

(** No tick is ever due before the period has passed since the previous one. *)
Theorem C18_no_early_tick now period stop fates k x y : fates_ok fates ->
  timer false now period stop fates !! k = Some x -> timer false now period stop fates !! S k = Some y -> x + period <= y.
Proof.
  intros Hf. unfold timer. generalize (now + period). revert fates Hf x. induction k as [|k IH]; intros fates Hf x t;
    destruct fates as [|f fates]; simpl; try done; apply Forall_cons in Hf as [H0 Hf]; destruct (stop_seen stop t); try done; destruct f; simpl; try done.
  - intros [= ->] Hy. apply (timer_loop_nth _ _ _ _ 0) in Hy. simpl in Hy. lia.
  - apply IH, Hf.
Qed.
Print Assumptions C18_no_early_tick.

(** No tick is made once the timer was stopped. *)
Theorem C18_no_tick_after_stop imm now period s fates x : x ∈ timer imm now period (Some s) fates -> x < s.
Proof. intros H. pose proof (timer_loop_before_stop period s (if imm then now else now + period) fates) as HF. rewrite Forall_forall in HF. auto. Qed.
Print Assumptions C18_no_tick_after_stop.

(** While the receiver answers, every tick that is due before the stop is made. *)
Theorem C18_no_missing_tick now period stop fates k : (k < length fates)%nat -> 0 <= period ->
  Forall (fun f => exists d, f = Answered d /\ 0 <= d) fates ->
  (forall s, stop = Some s -> now + Z.of_nat (S k) * period + delay_sum k fates < s) ->
  timer false now period stop fates !! k = Some (now + Z.of_nat (S k) * period + delay_sum k fates).
Proof.
  intros Hk Hp Hf Hs. unfold timer. rewrite (timer_loop_complete period stop (now + period) fates k Hk Hp Hf).
  - f_equal. lia.
  - intros s H. specialize (Hs s H). lia.
Qed.
Print Assumptions C18_no_missing_tick.

(** The timer ends when the receiver is gone: whatever would come after makes no difference,
    and the receiver accepts nothing at and after the tick it refuses. *)
Theorem C18_ends_with_receiver imm now period stop l1 f l2 : (f = Gone \/ f = Lost) ->
  timer imm now period stop (l1 ++ f :: l2) = timer imm now period stop (l1 ++ [f]) /\
  (length (timer imm now period stop (l1 ++ f :: l2)) <= length l1 + 1)%nat.
Proof.
  intros Hf. unfold timer. rewrite (timer_loop_gone period stop _ l1 f l2 Hf). split; [done|].
  pose proof (timer_loop_length period stop (if imm then now else now + period) (l1 ++ [f])) as H. rewrite app_length in H. done.
Qed.
Print Assumptions C18_ends_with_receiver.

(** A delayed notification is delivered exactly once, at its time, unless it is cancelled
    before; then it is not delivered. *)
Theorem C18_scheduled_once pick now delay cancel : 
  (forall c, cancel = Some c -> now + delay < c) -> scheduled_notify pick now delay cancel = [now + delay].
Proof.
  intros H. destruct cancel as [c|]; simpl; [|done]. specialize (H c eq_refl).
  destruct (Z.ltb_spec c (now + delay)); [lia|]. destruct (Z.ltb_spec (now + delay) c); [done|lia].
Qed.
Print Assumptions C18_scheduled_once.
Theorem C18_scheduled_cancelled pick now delay c : c < now + delay -> scheduled_notify pick now delay (Some c) = [].
Proof. intros H. simpl. destruct (Z.ltb_spec c (now + delay)); [done|lia]. Qed.
Print Assumptions C18_scheduled_cancelled.

(** With a handler that takes time a period can pass without a tick: period 10, handling takes
    10, and there are five ticks in the first hundred time units. *)
Theorem C18_slow_handler_refuted : exists period fates,
  0 < period /\ Forall (fun f => exists d, f = Answered d /\ 0 <= d <= period) fates /\ (length fates >= 10)%nat /\
  (length (List.filter (fun x => (x <=? 10 * period)%Z) (timer false 0 period None fates)) < 10)%nat.
Proof.
  exists 10, (repeat (Answered 10) 20%nat). split_and!; [lia| |vm_compute; lia|vm_compute; lia].
  apply Forall_forall. intros f Hf. apply elem_of_list_In, repeat_spec in Hf as ->. exists 10. split; [done|lia].
Qed.
Print Assumptions C18_slow_handler_refuted.

Example C18_case :
  timer false 100 10 (Some 135) [Answered 0; Answered 3; Answered 0; Answered 0] = [110; 120; 133] /\
  timer true 100 10 None [Answered 0; Answered 3; Gone; Answered 0] = [100; 110].
Proof. vm_compute. done. Qed.
Local Close Scope Z_scope.

(** * C19 *)

(** Never more children than allowed, never anything below the depth. *)
Theorem C19_limits o t depth time d : describe o depth t = Some (time, OValue d) -> within o depth d.
Proof. exact (describe_within o t depth time d). Qed.
Print Assumptions C19_limits.

(** The description follows the tree: under each described actor there is exactly one result
    for each of its describable children, in their order, with their own ids. *)
Theorem C19_follows_tree o t depth time d : describe o depth t = Some (time, OValue d) -> follows o depth t d.
Proof. exact (describe_follows o t depth time d). Qed.
Print Assumptions C19_follows_tree.

(** If everybody answers or fails, and the delays along each path stay below five seconds, the
    description is complete: who answers is described, who fails is reported as failing. *)
Theorem C19_complete_partial o t depth m : path_delay t = Some m -> (m <= 5000)%N ->
  exists time r, describe o depth t = Some (time, r) /\ (time <= m)%N /\
                 as_result (tree_id t) (Some (time, r)) = complete o depth t.
Proof. exact (describe_complete o t depth m). Qed.
Print Assumptions C19_complete_partial.

(** An actor that never answers makes its parent, which does answer, be reported as timed out,
    and the parent's other children disappear. *)
Definition ex_tree : tree :=
  Tree "root" false (Handles 1)
    [Tree "a" false (Handles 1)
       [Tree "b" false (Handles 1)
          [Tree "silent" false Silent []; Tree "c" false (Handles 1) []];
        Tree "d" false (Handles 1) []]].
Theorem C19_unresponsive_refuted : exists o t time,
  describe o 0 t = Some (time, OValue (Desc "root" [DOk (Desc "a" [DTimeout "b"; DOk (Desc "d" [])])])) /\
  t = ex_tree /\ max_depth o = None /\ max_children o = None.
Proof. exists (Options None None false), ex_tree, 5002%N. vm_compute. done. Qed.
Print Assumptions C19_unresponsive_refuted.

Definition ex_tree2 : tree :=
  Tree "root" false (Handles 3)
    [Tree "x" true (Handles 1) []; Tree "a" false (Handles 1) [Tree "b" false (Drops 2) []; Tree "c" false (Handles 4) [Tree "deep" false (Handles 1) []]];
     Tree "e" false Refuses []; Tree "f" false (Handles 1) []].
Example C19_case :
  path_delay ex_tree2 = Some 9%N /\
  describe (Options (Some 2) (Some 2) false) 0 ex_tree2 =
    Some (8%N, OValue (Desc "root" [DOk (Desc "a" [DErr "b"; DOk (Desc "c" [])]); DErr "e"])) /\
  complete (Options (Some 2) (Some 2) false) 0 ex_tree2 = DOk (Desc "root" [DOk (Desc "a" [DErr "b"; DOk (Desc "c" [])]); DErr "e"]).
Proof. vm_compute. done. Qed.
