(** Proofs about the registry, worker pools and timers. *)
From Verif Require Import ActorSys_Model ActorSys_Spec.

(** * Registry *)

Lemma grun_snoc ops o : grun (ops ++ [o]) = let '(s, tr) := grun ops in let '(s', ev) := gstep s o in (s', tr ++ ev).
Proof.
  unfold grun. rewrite run_app. destruct (run _ _ ops) as [s evs]. simpl.
  destruct (gstep s o) as [s' ev]. rewrite concat_app. simpl. by rewrite app_nil_r.
Qed.

Definition virt (mail : list gmsg) (mp : gmap string nat) : gmap string nat :=
  fold_left (fun mp m => (g_handle m mp).1) mail mp.

Record ginv (s : registry) (tr : list gevent) : Prop := {
  gi_created : forall r id, GCreated r id ∈ tr <-> exists a t, g_actors s !! r = Some (TActor id a t);
  gi_stopped : forall r, GStopped r ∈ tr <-> exists id t, g_actors s !! r = Some (TActor id false t);
  gi_fresh : forall r t, g_actors s !! r = Some t -> (r < g_next s)%nat;
}.

Lemma ginv_step s tr o : ginv s tr -> ginv (gstep s o).1 (tr ++ (gstep s o).2).
Proof.
  intros [H1 H2 H3]. destruct o as [id|r|r|r|k id|]; simpl.
  - assert (Hn : g_actors s !! g_next s = None).
    { destruct (g_actors s !! g_next s) eqn:E; [|done]. apply H3 in E. lia. }
    split; simpl.
    + intros r j. rewrite elem_of_app, elem_of_list_singleton, H1. destruct (decide (r = g_next s)) as [->|Hr].
      * rewrite lookup_insert, Hn. split; [intros [(?&?&?)|[= <-]]; [done|eauto]|intros (?&?&[= <- _ _]); auto].
      * rewrite lookup_insert_ne by done. split; [intros [?|[= ? ?]]; [done|congruence]|auto].
    + intros r. rewrite elem_of_app, elem_of_list_singleton, H2. destruct (decide (r = g_next s)) as [->|Hr].
      * rewrite lookup_insert, Hn. split; [intros [(?&?&?)|[=]]; done|intros (?&?&[=])].
      * rewrite lookup_insert_ne by done. split; [intros [?|[=]]; done|auto].
    + intros r t. intros [[<- _]|[_ Hr]]%lookup_insert_Some; [lia|]. apply H3 in Hr. lia.
  - destruct (g_actors s !! r) as [[id a []]|] eqn:Er; simpl; rewrite app_nil_r; try by split.
    split; simpl.
    + intros r' j. rewrite H1. destruct (decide (r' = r)) as [->|Hr].
      * rewrite lookup_insert, Er. naive_solver.
      * by rewrite lookup_insert_ne.
    + intros r'. rewrite H2. destruct (decide (r' = r)) as [->|Hr].
      * rewrite lookup_insert, Er. naive_solver.
      * by rewrite lookup_insert_ne.
    + intros r' t. intros [[<- _]|[_ Hr]]%lookup_insert_Some; [by eapply H3|by eapply H3].
  - destruct (g_actors s !! r) as [[id [] t]|] eqn:Er; simpl; rewrite ?app_nil_r; try by split.
    split; simpl.
    + intros r' j. rewrite elem_of_app, elem_of_list_singleton, H1. destruct (decide (r' = r)) as [->|Hr].
      * rewrite lookup_insert, Er. naive_solver.
      * rewrite lookup_insert_ne by done. naive_solver.
    + intros r'. rewrite elem_of_app, elem_of_list_singleton, H2. destruct (decide (r' = r)) as [->|Hr].
      * rewrite lookup_insert, Er. naive_solver.
      * rewrite lookup_insert_ne by done. naive_solver.
    + intros r' t'. intros [[<- _]|[_ Hr]]%lookup_insert_Some; [by eapply H3|by eapply H3].
  - destruct (g_actors s !! r) as [[id [] t]|] eqn:Er; simpl; rewrite ?app_nil_r; try by split.
    split; simpl.
    + intros r' j. rewrite elem_of_app, elem_of_list_singleton, H1. destruct (decide (r' = r)) as [->|Hr].
      * rewrite lookup_insert, Er. naive_solver.
      * rewrite lookup_insert_ne by done. naive_solver.
    + intros r'. rewrite elem_of_app, elem_of_list_singleton, H2. destruct (decide (r' = r)) as [->|Hr].
      * rewrite lookup_insert, Er. naive_solver.
      * rewrite lookup_insert_ne by done. naive_solver.
    + intros r' t'. intros [[<- _]|[_ Hr]]%lookup_insert_Some; [by eapply H3|by eapply H3].
  - rewrite app_nil_r. by split.
  - destruct (g_mail s) as [|m q]; [simpl; rewrite app_nil_r; by split|].
    assert (He : forall e, e ∈ (g_handle m (g_map s)).2 -> exists k res, e = GAnswer k res).
    { intros e. destruct m; simpl; [by intros ?%elem_of_nil..|]. intros ->%elem_of_list_singleton. eauto. }
    destruct (g_handle m (g_map s)) as [mp ev]. simpl in *. split; simpl; [| |done].
    + intros r j. rewrite elem_of_app, <- H1. split; [intros [?|Hx]; [done|apply He in Hx as (?&?&?); done]|auto].
    + intros r. rewrite elem_of_app, <- H2. split; [intros [?|Hx]; [done|apply He in Hx as (?&?&?); done]|auto].
Qed.

Lemma ginv_run ops : ginv (grun ops).1 (grun ops).2.
Proof.
  induction ops as [|o ops IH] using rev_ind.
  - split; simpl; intros; rewrite ?lookup_empty; try done.
    + split; [by intros ?%elem_of_nil|intros (?&?&?); done].
    + split; [by intros ?%elem_of_nil|intros (?&?&?); done].
  - rewrite grun_snoc. destruct (grun ops) as [s tr]. pose proof (ginv_step s tr o IH) as H. by destruct (gstep s o).
Qed.

Lemma virt_app l1 l2 mp : virt (l1 ++ l2) mp = virt l2 (virt l1 mp).
Proof. unfold virt. apply fold_left_app. Qed.

Record cinv (s : registry) : Prop := {
  ci_unique : forall r r' t t', g_actors s !! r = Some t -> g_actors s !! r' = Some t' ->
     t_alive t = true -> t_alive t' = true -> t_id t = t_id t' -> r = r';
  ci_sent : forall r t, g_actors s !! r = Some t -> t_alive t = false -> t_sent t = true;
  ci_virt : forall id r, virt (g_mail s) (g_map s) !! id = Some r <-> g_actors s !! r = Some (TActor id true true);
}.

Lemma cinv_run ops : careful ops -> cinv (grun ops).1.
Proof.
  induction ops as [|o ops IH] using rev_ind; intros Hc.
  { split; simpl; intros; rewrite ?lookup_empty in *; try done. }
  assert (Hpre : careful ops).
  { intros pre o' post ->. apply (Hc pre o' (post ++ [o])). by rewrite <- app_assoc. }
  specialize (IH Hpre). pose proof (ginv_run ops) as [_ _ Hfresh]. specialize (Hc ops o [] eq_refl).
  rewrite grun_snoc. destruct (grun ops) as [s tr]. simpl in *.
  destruct IH as [C1 C2 C3]. destruct o as [id|r|r|r|k id|]; simpl.
  - assert (Hn : g_actors s !! g_next s = None).
    { destruct (g_actors s !! g_next s) eqn:E; [|done]. apply Hfresh in E. lia. }
    split; simpl.
    + intros r r' t t' [[<- <-]|[Hr H]]%lookup_insert_Some [[<- <-]|[Hr' H']]%lookup_insert_Some Ha Ha' Hid; simpl in *; try done.
      * specialize (Hc _ _ H' (eq_sym Hid)). congruence.
      * specialize (Hc _ _ H Hid). congruence.
      * by eapply C1.
    + intros r t [[<- <-]|[Hr H]]%lookup_insert_Some Ha; [done|]. by eapply C2.
    + intros j r. rewrite C3. destruct (decide (r = g_next s)) as [->|Hr].
      * rewrite lookup_insert, Hn. split; [done|by intros [=]].
      * by rewrite lookup_insert_ne.
  - destruct (g_actors s !! r) as [[id a []]|] eqn:Er; simpl; try by split.
    assert (a = true) as -> by (destruct a; [done|by pose proof (C2 _ _ Er eq_refl)]).
    split; simpl.
    + intros r1 r2 t t' [[<- <-]|[Hr H]]%lookup_insert_Some [[<- <-]|[Hr' H']]%lookup_insert_Some Ha Ha' Hid; simpl in *; try done.
      * eapply (C1 _ _ _ _ Er H'); done.
      * eapply (C1 _ _ _ _ H Er); done.
      * by eapply C1.
    + intros r1 t [[<- <-]|[Hr H]]%lookup_insert_Some Ha; [done|]. by eapply C2.
    + intros j r1. rewrite virt_app. simpl. destruct (decide (j = id)) as [->|Hj].
      * rewrite lookup_insert. split.
        -- intros [= <-]. by rewrite lookup_insert.
        -- intros [[<- _]|[Hr H]]%lookup_insert_Some; [done|].
           f_equal. symmetry. eapply (C1 _ _ _ _ H Er); done.
      * rewrite lookup_insert_ne, C3 by done. destruct (decide (r1 = r)) as [->|Hr].
        -- rewrite lookup_insert, Er. naive_solver.
        -- by rewrite lookup_insert_ne.
  - destruct (g_actors s !! r) as [[id [] t]|] eqn:Er; simpl; try by split.
    specialize (Hc _ eq_refl). simpl in Hc. subst t. split; simpl.
    + intros r1 r2 t t' [[<- <-]|[Hr H]]%lookup_insert_Some [[<- <-]|[Hr' H']]%lookup_insert_Some Ha Ha' Hid; simpl in *; try done.
      by eapply C1.
    + intros r1 t [[<- <-]|[Hr H]]%lookup_insert_Some Ha; [done|]. by eapply C2.
    + intros j r1. rewrite virt_app. simpl. destruct (decide (j = id)) as [->|Hj].
      * rewrite lookup_delete. split; [done|]. intros [[<- ?]|[Hr H]]%lookup_insert_Some; [done|].
        exfalso. apply Hr. eapply (C1 _ _ _ _ Er H); done.
      * rewrite lookup_delete_ne, C3 by done. destruct (decide (r1 = r)) as [->|Hr].
        -- rewrite lookup_insert, Er. naive_solver.
        -- by rewrite lookup_insert_ne.
  - done.
  - split; simpl; try done. intros j r. rewrite virt_app. simpl. apply C3.
  - destruct (g_mail s) as [|m q] eqn:Em; simpl; [split; try done; by rewrite Em|].
    destruct (g_handle m (g_map s)) as [mp ev] eqn:Eh. simpl. split; simpl; try done.
    intros j r. rewrite <- C3. simpl. by rewrite Eh.
Qed.

(** Processing the mailbox answers the last lookup from the virtual map. *)
Lemma process_all l k id : forall s tr pre, g_mail s = l ++ [GGet k id] -> grun pre = (s, tr) ->
  exists ev, (grun (pre ++ repeat GOProcess (S (length l)))).2 = tr ++ ev ++ [GAnswer k (virt l (g_map s) !! id)].
Proof.
  induction l as [|m l IH]; intros s tr pre Hm Hr.
  - exists []. simpl. rewrite grun_snoc, Hr. simpl. rewrite Hm. simpl. done.
  - change (repeat GOProcess (S (length (m :: l)))) with ([GOProcess] ++ repeat GOProcess (S (length l))).
    rewrite app_assoc. simpl in Hm.
    destruct (g_handle m (g_map s)) as [mp ev] eqn:Eh.
    destruct (IH (Registry (g_actors s) (g_next s) (l ++ [GGet k id]) mp) (tr ++ ev) (pre ++ [GOProcess]) eq_refl) as [ev' E].
    + rewrite grun_snoc, Hr. simpl. rewrite Hm, Eh. done.
    + exists (ev ++ ev'). rewrite E. simpl. rewrite Eh. by rewrite <- !app_assoc.
Qed.

Lemma lookup_answer_virt ops id :
  lookup_answer ops id = Some (virt (g_mail (grun ops).1) (g_map (grun ops).1) !! id).
Proof.
  unfold lookup_answer. destruct (grun ops) as [s tr] eqn:Er. simpl fst.
  rewrite cons_middle, app_assoc.
  destruct (process_all (g_mail s) 0 id (Registry (g_actors s) (g_next s) (g_mail s ++ [GGet 0 id]) (g_map s)) tr (ops ++ [GOLookup 0 id])) as [ev E].
  - done.
  - rewrite grun_snoc, Er. simpl. by rewrite app_nil_r.
  - rewrite E. simpl. by rewrite app_assoc, last_snoc.
Qed.

Theorem registry_lookup ops id : careful ops -> all_registered (grun ops).1 ->
  exists res, lookup_answer ops id = Some res /\ forall r, res = Some r <-> latest_live id (grun ops).2 r.
Proof.
  intros Hc Ha. rewrite lookup_answer_virt. eexists. split; [done|]. intros r.
  destruct (cinv_run ops Hc) as [C1 _ C3]. destruct (ginv_run ops) as [G1 G2 _]. rewrite C3. unfold latest_live. split.
  - intros Hr. split_and!.
    + apply G1. eauto.
    + intros (j & t & H)%G2. congruence.
    + intros r' (a & t & H)%G1 Hns. assert (a = true) as ->.
      { destruct a; [done|]. exfalso. apply Hns, G2. eauto. }
      rewrite (C1 _ _ _ _ H Hr); done.
  - intros ((a & t & H)%G1 & Hns & _). assert (a = true) as ->.
    { destruct a; [done|]. exfalso. apply Hns, G2. eauto. }
    pose proof (Ha _ _ H) as Ht. simpl in Ht. by subst.
Qed.

Theorem registry_frame ops r j id a t : g_actors (grun ops).1 !! r = Some (TActor j a t) -> j <> id ->
  lookup_answer (ops ++ [GOStop r]) id = lookup_answer ops id.
Proof.
  intros Hr Hj. rewrite !lookup_answer_virt, grun_snoc. destruct (grun ops) as [s tr]. simpl in *. rewrite Hr.
  destruct a; [|done]. simpl. rewrite virt_app. simpl. by rewrite lookup_delete_ne.
Qed.

(** * Worker pools *)

Lemma pool_state {W} (ws : list W) n : ws <> [] ->
  (run pool_step ws (repeat tt n)).1 = drop (n mod length ws) ws ++ take (n mod length ws) ws /\
  pool_run ws n = map (fun k => ws !! (k mod length ws)) (seq 0 n).
Proof.
  intros Hne. assert (Hl : (0 < length ws)%nat) by (destruct ws; simpl; [done|lia]).
  unfold pool_run. induction n as [|n IH].
  - simpl. rewrite Nat.mod_0_l by lia. simpl. by rewrite app_nil_r.
  - replace (S n) with (n + 1)%nat by lia. rewrite repeat_app, run_app, seq_app, map_app. simpl.
    destruct (run pool_step ws (repeat tt n)) as [s out]. simpl in IH |- *. destruct IH as [-> ->].
    assert (Hm : (n mod length ws < length ws)%nat) by (apply Nat.mod_upper_bound; lia).
    destruct (lookup_lt_is_Some_2 ws (n mod length ws) Hm) as [w Hw].
    rewrite (drop_S _ _ _ Hw). simpl. rewrite Hw. split; [|done].
    assert (Hcase : (n mod length ws = length ws - 1 /\ (n + 1) mod length ws = 0 \/
                     S (n mod length ws) < length ws /\ (n + 1) mod length ws = S (n mod length ws))%nat).
    { rewrite (Nat.add_mod n 1) by lia. destruct (decide (length ws = 1)%nat) as [H1|H1].
      - left. rewrite H1. rewrite !Nat.mod_1_r. lia.
      - rewrite (Nat.mod_small 1) by lia. destruct (decide (S (n mod length ws) < length ws)%nat).
        + right. split; [done|]. rewrite Nat.mod_small by lia. lia.
        + left. assert (E : (n mod length ws + 1 = length ws)%nat) by lia. rewrite E, Nat.mod_same by lia. lia. }
    destruct Hcase as [[E1 E2]|[E1 E2]]; rewrite E2.
    + simpl. rewrite app_nil_r. rewrite drop_ge by lia. simpl. rewrite <- (take_S_r _ _ _ Hw). rewrite take_ge by lia. done.
    + rewrite <- app_assoc. f_equal. by rewrite <- (take_S_r _ _ _ Hw).
Qed.

Lemma count_mod i L n : (i < L)%nat ->
  length (List.filter (fun k => Nat.eqb (k mod L) i) (seq 0 n)) = (n / L + if (i <? n mod L)%nat then 1 else 0)%nat.
Proof.
  intros Hi. induction n as [|n IH].
  - simpl. rewrite Nat.div_0_l, Nat.mod_0_l by lia. done.
  - rewrite seq_S, List.filter_app, app_length, IH. simpl.
    pose proof (Nat.div_mod n L ltac:(lia)) as Hn. pose proof (Nat.mod_upper_bound n L ltac:(lia)) as Hb.
    destruct (decide (S (n mod L) < L)%nat) as [Hs|Hs].
    + assert (E : (S n / L = n / L /\ S n mod L = S (n mod L))%nat).
      { split; symmetry; [apply (Nat.div_unique (S n) L (n / L) (S (n mod L)))|apply (Nat.mod_unique (S n) L (n / L) (S (n mod L)))]; lia. }
      destruct E as [-> ->]. destruct (Nat.eqb_spec (n mod L) i); destruct (Nat.ltb_spec i (n mod L)); destruct (Nat.ltb_spec i (S (n mod L))); simpl; lia.
    + assert (E : (S n / L = S (n / L) /\ S n mod L = 0)%nat).
      { split; symmetry; [apply (Nat.div_unique (S n) L (S (n / L)) 0)|apply (Nat.mod_unique (S n) L (S (n / L)) 0)]; nia. }
      destruct E as [-> ->]. destruct (Nat.eqb_spec (n mod L) i); destruct (Nat.ltb_spec i (n mod L)); destruct (Nat.ltb_spec i 0); simpl; lia.
Qed.

Lemma given_count {W} `{EqDecision W} (ws : list W) n i w : NoDup ws -> ws !! i = Some w ->
  given w (pool_run ws n) = (n / length ws + if (i <? n mod length ws)%nat then 1 else 0)%nat.
Proof.
  intros Hnd Hi. assert (Hlt : (i < length ws)%nat) by (by apply lookup_lt_Some in Hi).
  destruct (pool_state ws n) as [_ ->]; [by intros ->|]. rewrite <- (count_mod i (length ws) n Hlt). unfold given.
  generalize (seq 0 n). intros l. induction l as [|k l IH]; [done|]. simpl.
  assert (Hb : bool_decide (ws !! (k mod length ws) = Some w) = Nat.eqb (k mod length ws) i).
  { destruct (Nat.eqb_spec (k mod length ws) i) as [->|Hk]; [by apply bool_decide_eq_true_2|].
    apply bool_decide_eq_false_2. intros Hx. apply Hk. by eapply NoDup_lookup. }
  rewrite Hb. destruct (Nat.eqb _ i); simpl; by rewrite IH.
Qed.

(** * Timers *)
Local Open Scope Z_scope.

Lemma timer_loop_before_stop period s t fates : Forall (fun x => x < s) (timer_loop period (Some s) t fates).
Proof.
  revert t. induction fates as [|f fates IH]; intros t; simpl; [constructor|].
  destruct (s <=? t) eqn:E; [constructor|]. destruct f; repeat constructor; try lia. apply IH.
Qed.

Definition fates_ok (fates : list tick_fate) : Prop := Forall (fun f => match f with Answered d => 0 <= d | _ => True end) fates.

(** Delays of the first [k] ticks. *)
Fixpoint delay_sum (k : nat) (fates : list tick_fate) : Z :=
  match k, fates with S k', Answered d :: fates' => d + delay_sum k' fates' | _, _ => 0 end.

Lemma timer_loop_nth period stop t fates k x : timer_loop period stop t fates !! k = Some x ->
  x = t + Z.of_nat k * period + delay_sum k fates.
Proof.
  revert t fates. induction k as [|k IH]; intros t fates; destruct fates as [|f fates]; simpl; try done.
  - destruct (stop_seen stop t); [done|]. destruct f; simpl; intros [= <-]; lia.
  - destruct (stop_seen stop t); [done|]. destruct f; simpl; try done. intros H. apply IH in H. lia.
Qed.

Lemma timer_loop_length period stop t fates : (length (timer_loop period stop t fates) <= length fates)%nat.
Proof.
  revert t. induction fates as [|f fates IH]; intros t; simpl; [lia|].
  destruct (stop_seen stop t); simpl; [lia|]. destruct f; simpl; try lia. specialize (IH (t + d + period)). lia.
Qed.

(** All ticks that are due before the stop are made while the receiver lives. *)
Lemma timer_loop_complete period stop t fates k : (k < length fates)%nat -> 0 <= period ->
  Forall (fun f => exists d, f = Answered d /\ 0 <= d) fates ->
  (forall s, stop = Some s -> t + Z.of_nat k * period + delay_sum k fates < s) ->
  timer_loop period stop t fates !! k = Some (t + Z.of_nat k * period + delay_sum k fates).
Proof.
  intros Hk Hp. revert t fates Hk. induction k as [|k IH]; intros t fates Hk Hf Hs; destruct fates as [|f fates]; simpl in Hk; try lia;
    apply Forall_cons in Hf as [[d [-> Hd]] Hf']; simpl.
  - assert (E : stop_seen stop t = false).
    { destruct stop as [s|]; simpl; [|done]. specialize (Hs s eq_refl). simpl in Hs. lia. }
    rewrite E. simpl. f_equal. lia.
  - assert (Hnn : 0 <= delay_sum k fates).
    { clear -Hf'. revert k. induction Hf' as [|f l [d [-> Hd]] _ IH]; intros [|k]; simpl; try reflexivity; pose proof (IH k); lia. }
    assert (Hkp : 0 <= Z.of_nat k * period) by (apply Z.mul_nonneg_nonneg; lia).
    assert (E : stop_seen stop t = false).
    { destruct stop as [s|]; simpl; [|done]. specialize (Hs s eq_refl). cbn [delay_sum] in Hs. rewrite Nat2Z.inj_succ, Z.mul_succ_l in Hs. lia. }
    rewrite E. cbn [lookup list_lookup]. rewrite IH; [f_equal; rewrite Nat2Z.inj_succ, Z.mul_succ_l; lia|lia|done|]. intros s H. specialize (Hs s H). cbn [delay_sum] in Hs. rewrite Nat2Z.inj_succ, Z.mul_succ_l in Hs. lia.
Qed.

Lemma timer_loop_gone period stop t l1 f l2 : (f = Gone \/ f = Lost) ->
  timer_loop period stop t (l1 ++ f :: l2) = timer_loop period stop t (l1 ++ [f]).
Proof.
  intros Hf. revert t. induction l1 as [|g l1 IH]; intros t; simpl.
  - destruct (stop_seen stop t); [done|]. by destruct Hf as [-> | ->].
  - destruct (stop_seen stop t); [done|]. destruct g; [by rewrite IH|done|done].
Qed.
Local Close Scope Z_scope.

(** * Descriptions *)

Section tree_ind.
  Variable P : tree -> Prop.
  Hypothesis Hstep : forall id att re ch, Forall P ch -> P (Tree id att re ch).
  Fixpoint tree_ind' (t : tree) : P t :=
    match t with
    | Tree id att re ch =>
        Hstep id att re ch
          ((fix go (l : list tree) : Forall P l :=
              match l with [] => @List.Forall_nil _ _ | c :: l' => @List.Forall_cons _ _ c l' (tree_ind' c) (go l') end) ch)
    end.
End tree_ind.

Lemma describable_map {A} o (f : tree -> A) ch :
  describable fst o (map (fun c => (is_attached c, f c)) ch) =
  map (fun c => (is_attached c, f c)) (describable is_attached o ch).
Proof.
  unfold describable.
  assert (E : List.filter (fun t : bool * A => describe_attached o || negb (fst t)) (map (fun c => (is_attached c, f c)) ch) =
              map (fun c => (is_attached c, f c)) (List.filter (fun t => describe_attached o || negb (is_attached t)) ch)).
  { induction ch as [|c ch IH]; [done|]. simpl. destruct (_ || _); simpl; by rewrite IH. }
  rewrite E. destruct (max_children o); [|done]. apply firstn_map.
Qed.

Lemma describable_sub {A} (p : A -> bool) o l x : x ∈ describable p o l -> x ∈ l.
Proof.
  unfold describable. intros H.
  assert (x ∈ List.filter (fun t => describe_attached o || negb (p t)) l).
  { destruct (max_children o); [|done]. by eapply elem_of_take in H as (?&?&?); eapply elem_of_list_lookup_2. }
  apply elem_of_list_In in H0. apply filter_In in H0 as [? _]. by apply elem_of_list_In.
Qed.

Lemma describe_eq o depth id att re ch :
  describe o depth (Tree id att re ch) =
  match re with
  | Refuses => Some (0%N, ORefused)
  | Drops d => Some (d, OClosed)
  | Silent => None
  | Handles d =>
      if below o depth then Some (d, OValue (Desc id []))
      else let rs := map (fun c => await_child (describe_timeout depth) (tree_id c) (describe o (S depth) c)) (describable is_attached o ch) in
           Some (fold_right (fun x m => N.max (fst x) m) 0%N rs + d, OValue (Desc id (map snd rs)))%N
  end.
Proof.
  cbn [describe]. destruct re; try done. unfold below. destruct (match max_depth o with Some m => _ | None => _ end); [done|].
  cbv zeta. rewrite describable_map, !map_map. done.
Qed.

Lemma describable_length o ch : match max_children o with Some n => (length (describable is_attached o ch) <= n)%nat | None => True end.
Proof. unfold describable. destruct (max_children o); [|done]. rewrite take_length. lia. Qed.

Theorem describe_within o t : forall depth time d, describe o depth t = Some (time, OValue d) -> within o depth d.
Proof.
  induction t as [id att re ch IH] using tree_ind'. intros depth time d. rewrite describe_eq.
  destruct re as [| | |dl]; try done. destruct (below o depth) eqn:Eb.
  - intros [= _ <-]. simpl. rewrite Eb. split; [done|]. split; [|done]. destruct (max_children o); lia || done.
  - intros [= _ <-]. cbn [within]. rewrite Eb. split; [done|]. split.
    + pose proof (describable_length o ch). destruct (max_children o); [|done]. by rewrite !map_length.
    + assert (Hsub : forall c, c ∈ describable is_attached o ch -> c ∈ ch) by apply describable_sub.
      revert Hsub. generalize (describable is_attached o ch). intros l Hsub.
      induction l as [|c l IHl]; [done|]. simpl.
      assert (Hl : (fix all (l : list dresult) : Prop :=
        match l with [] => True | DOk d' :: l' => within o (S depth) d' /\ all l' | _ :: l' => all l' end)
        (map snd (map (fun c => await_child (describe_timeout depth) (tree_id c) (describe o (S depth) c)) l))).
      { apply IHl. intros c' Hc'. apply Hsub. by constructor. }
      assert (Hc : c ∈ ch) by (apply Hsub; constructor).
      rewrite Forall_forall in IH. specialize (IH c Hc (S depth)).
      unfold await_child at 1. destruct (describe o (S depth) c) as [[tm [dd| |]]|]; simpl.
      * destruct (tm <=? _)%N; simpl; [|done]. split; [by eapply IH|done].
      * by destruct (tm <=? _)%N.
      * by destruct (tm <=? _)%N.
      * done.
Qed.

Lemma describe_failed o depth t tm r : describe o depth t = Some (tm, r) -> (r = ORefused \/ r = OClosed) ->
  exists id att re ch, t = Tree id att re ch /\ (re = Refuses \/ exists d, re = Drops d).
Proof.
  destruct t as [id att re ch]. rewrite describe_eq. destruct re as [| | |dl]; try done.
  - intros _ _. repeat eexists. auto.
  - intros _ _. repeat eexists. eauto.
  - destruct (below o depth); intros [= _ <-] [|]; done.
Qed.

Theorem describe_follows o t : forall depth time d, describe o depth t = Some (time, OValue d) -> follows o depth t d.
Proof.
  induction t as [id att re ch IH] using tree_ind'. intros depth time d. rewrite describe_eq.
  destruct re as [| | |dl]; try done. destruct (below o depth) eqn:Eb.
  - intros [= _ <-]. by constructor.
  - intros [= _ <-]. apply FollowsChildren; [done|].
    assert (Hsub : forall c, c ∈ describable is_attached o ch -> c ∈ ch) by apply describable_sub.
    revert Hsub. generalize (describable is_attached o ch). intros l Hsub.
    induction l as [|c l IHl]; [constructor|]. simpl. constructor; [|apply IHl; intros c' Hc'; apply Hsub; by constructor].
    assert (Hc : c ∈ ch) by (apply Hsub; constructor).
    rewrite Forall_forall in IH. specialize (IH c Hc (S depth)).
    unfold await_child. destruct (describe o (S depth) c) as [[tm r]|] eqn:Ed; [|constructor].
    destruct (tm <=? _)%N; [|constructor]. destruct r as [dd| |].
    + constructor. by eapply IH.
    + destruct (describe_failed _ _ _ _ _ Ed (or_introl eq_refl)) as (i & a & re & ch' & -> & Hre). by constructor.
    + destruct (describe_failed _ _ _ _ _ Ed (or_intror eq_refl)) as (i & a & re & ch' & -> & Hre). by constructor.
Qed.

(** The result of the whole request at a given depth. *)
Definition as_result (id : string) (x : option (N * outcome)) : dresult :=
  match x with Some (_, OValue d) => DOk d | Some (_, _) => DErr id | None => DTimeout id end.

Lemma path_delay_children d ch m :
  fold_right (fun x m => match x, m with Some a, Some b => Some (N.max (a + d) b) | _, _ => None end)%N (Some d) (map path_delay ch) = Some m ->
  (d <= m)%N /\ forall c, c ∈ ch -> exists a, path_delay c = Some a /\ (a + d <= m)%N.
Proof.
  revert m. induction ch as [|c ch IH]; intros m; simpl.
  - intros [= <-]. split; [lia|]. by intros ? ?%elem_of_nil.
  - destruct (path_delay c) as [a|] eqn:Ea; [|done].
    destruct (fold_right _ _ _) as [b|]; [|done]. intros [= <-]. destruct (IH b eq_refl) as [H1 H2].
    split; [lia|]. intros c' [->|Hc]%elem_of_cons.
    + exists a. split; [done|lia].
    + destruct (H2 c' Hc) as (a' & ? & ?). exists a'. split; [done|lia].
Qed.

Theorem describe_complete o t : forall depth m, path_delay t = Some m -> (m <= 5000)%N ->
  exists time r, describe o depth t = Some (time, r) /\ (time <= m)%N /\
                 as_result (tree_id t) (Some (time, r)) = complete o depth t.
Proof.
  induction t as [id att re ch IH] using tree_ind'. intros depth m Hm Hle. rewrite describe_eq. simpl in Hm.
  destruct re as [|d| |d]; try done.
  - injection Hm as <-. eexists _, _. done.
  - injection Hm as <-. eexists _, _. done.
  - destruct (path_delay_children _ _ _ Hm) as [Hd Hch]. cbn [complete]. destruct (below o depth) eqn:Eb.
    { eexists _, _. done. }
    rewrite describable_map, map_map. cbv zeta.
    assert (Hx : forall c, c ∈ describable is_attached o ch ->
       exists tm, await_child (describe_timeout depth) (tree_id c) (describe o (S depth) c) = (tm, complete o (S depth) c) /\ (tm + d <= m)%N).
    { intros c Hc%describable_sub. destruct (Hch c Hc) as (a & Ha & Hb).
      rewrite Forall_forall in IH. destruct (IH c Hc (S depth) a Ha ltac:(lia)) as (tm & r & -> & Htm & Hr).
      exists tm. split; [|lia]. unfold await_child.
      assert (Ht : (tm <=? describe_timeout depth)%N = true).
      { apply N.leb_le. unfold describe_timeout. destruct (0 <? depth)%nat; lia. }
      rewrite Ht. f_equal. rewrite <- Hr. by destruct r. }
    revert Hx. generalize (describable is_attached o ch). intros l Hx. eexists _, _. split; [done|].
    assert (Hboth : (fold_right (fun (x : N * dresult) (m0 : N) => N.max x.1 m0) 0
      (map (fun c => await_child (describe_timeout depth) (tree_id c) (describe o (S depth) c)) l) + d <= m)%N /\
      map snd (map (fun c => await_child (describe_timeout depth) (tree_id c) (describe o (S depth) c)) l) = map (fun x => complete o (S depth) x) l).
    { induction l as [|c l IHl]; simpl; [done|].
      destruct IHl as [I1 I2]. { intros c' Hc'. apply Hx. by constructor. }
      destruct (Hx c ltac:(constructor)) as (tm & E & Htm). rewrite E. simpl. split; [lia|]. by rewrite I2. }
    destruct Hboth as [H1 H2]. split; [exact H1|]. cbn [as_result tree_id]. rewrite map_map in H2. rewrite ?map_map. f_equal. f_equal. exact H2.
Qed.

(** In every history a lookup finds only actors created with the id. *)
Lemma virt_ids ops :
  (forall id r, g_map (grun ops).1 !! id = Some r -> GCreated r id ∈ (grun ops).2) /\
  (forall id r, GReg id r ∈ g_mail (grun ops).1 -> GCreated r id ∈ (grun ops).2).
Proof.
  induction ops as [|o ops [IH1 IH2]] using rev_ind.
  { split; simpl; intros; [by rewrite lookup_empty in *|by apply elem_of_nil in H]. }
  pose proof (ginv_run ops) as [G1 _ _]. rewrite grun_snoc. destruct (grun ops) as [s tr]. simpl in *.
  destruct o as [id|r|r|r|k id|]; simpl.
  - split; intros; apply elem_of_app; left; auto.
  - destruct (g_actors s !! r) as [[id a []]|] eqn:Er; simpl; rewrite app_nil_r; try done.
    split; [done|]. intros j r' [H|[= -> ->]%elem_of_list_singleton]%elem_of_app; [auto|]. apply G1. eauto.
  - destruct (g_actors s !! r) as [[id [] t]|] eqn:Er; simpl; rewrite ?app_nil_r; try done.
    split; intros j r'; [intros H; apply elem_of_app; auto|].
    intros [H|[=]%elem_of_list_singleton]%elem_of_app. apply elem_of_app; auto.
  - destruct (g_actors s !! r) as [[id [] t]|] eqn:Er; simpl; rewrite ?app_nil_r; try done.
    split; intros j r' H; apply elem_of_app; auto.
  - rewrite app_nil_r. split; [done|]. intros j r' [H|[=]%elem_of_list_singleton]%elem_of_app. auto.
  - destruct (g_mail s) as [|m q] eqn:Em; simpl; [rewrite app_nil_r, Em; done|].
    destruct (g_handle m (g_map s)) as [mp ev] eqn:Eh. simpl. split.
    + intros j r' H. apply elem_of_app. left. destruct m as [id r|id|k id]; simpl in Eh; injection Eh as <- <-.
      * apply lookup_insert_Some in H as [[<- <-]|[_ H]]; [apply IH2; constructor|auto].
      * apply lookup_delete_Some in H as [_ H]. auto.
      * auto.
    + intros j r' H. apply elem_of_app. left. apply IH2. by constructor.
Qed.

Lemma virt_some l : forall mp id r, virt l mp !! id = Some r -> mp !! id = Some r \/ GReg id r ∈ l.
Proof.
  induction l as [|m l IH]; intros mp id r; simpl; [auto|]. intros H. apply IH in H as [H|H]; [|right; by constructor].
  destruct m as [j r'|j|k j]; simpl in H; [| |auto].
  - apply lookup_insert_Some in H as [[<- <-]|[_ H]]; [right; constructor|auto].
  - apply lookup_delete_Some in H as [_ H]. auto.
Qed.

Theorem registry_ids ops id r : lookup_answer ops id = Some (Some r) -> GCreated r id ∈ (grun ops).2.
Proof.
  rewrite lookup_answer_virt. intros [= H]. destruct (virt_ids ops) as [H1 H2].
  apply virt_some in H as [H|H]; auto.
Qed.
