(** Proofs about attached streams. *)
From Verif Require Import Actor_Model Actor_Spec Actor_Proofs Actor_Proofs2 Actor_Proofs3 Attach_Model Attach_Spec.
Local Open Scope nat_scope.

Section proofs.
  Context {St Msg Res R : Type}.
  Context (started : St -> St * effect) (handler : St -> Msg -> St * Res * effect) (tracked : bool).
  Context (conv : nat -> R -> option Msg).
  Notation opts := default_options.
  Notation wrun := (wrun started handler tracked conv opts).
  Notation wstep := (wstep started handler tracked conv opts).
  Notation arun := (arun started handler tracked).
  Notation astep := (astep started handler tracked).
  Notation world := (world St Msg R).
  Notation wop := (wop Msg R).
  Notation tagged := (tagged Msg Res).

  Lemma wrun_snoc u ops o :
    wrun u (ops ++ [o]) = let '(w, tr) := wrun u ops in let '(w', ev) := wstep w o in (w', tr ++ ev).
  Proof using.
    unfold wrun. rewrite run_app. destruct (run _ _ ops) as [w evs]. simpl.
    destruct (wstep w o) as [w' ev]. rewrite concat_app. simpl. by rewrite app_nil_r.
  Qed.

  (** ** What the actor sees is a run of the actor *)

  Lemma map_snd_tag (t : option nat) (ev : list (event Msg Res)) : map snd (map (pair t) ev) = ev.
  Proof using. induction ev as [|e ev IH]; [done|]. simpl. by rewrite IH. Qed.

  Lemma task_call_actor k (r : request Msg) (s : stream R) (w : world) : (w_actor (task_call (Res:=Res) k r s w).1, map snd (task_call (Res:=Res) k r s w).2) = send r (w_actor w).
  Proof using. unfold task_call. destruct (send r (w_actor w)) as [a ev]. simpl. by rewrite map_snd_tag. Qed.

  Lemma pull_actor k (w : world) :
    (w_actor (pull (Res:=Res) conv opts k w).1 = w_actor w /\ (pull (Res:=Res) conv opts k w).2 = []) \/
    exists r, (w_actor (pull (Res:=Res) conv opts k w).1, map snd (pull (Res:=Res) conv opts k w).2) = send r (w_actor w).
  Proof using.
    unfold pull. destruct (st_over (stream_at k w)); [by left|].
    destruct (st_items (stream_at k w)) as [|[x|] l].
    - destruct (st_closed (stream_at k w)); [|by left]. right. exists (RStop false). apply task_call_actor.
    - destruct (conv k x) as [m|]; [|by left]. right. exists (RUser m false). apply task_call_actor.
    - right. exists (RStop false). apply task_call_actor.
  Qed.

  Lemma step_actor (w : world) (o : wop) :
    (w_actor (wstep w o).1 = w_actor w /\ (wstep w o).2 = []) \/
    exists o', (w_actor (wstep w o).1, map snd (wstep w o).2) = astep (w_actor w) o' /\ (o = WTick -> o' = OTick) /\ (o' = OTick -> o = WTick).
  Proof using.
    destruct o as [r| |k x|k|k]; simpl.
    - right. exists (OSend r). simpl. destruct (send r (w_actor w)) as [a ev]. simpl. by rewrite map_snd_tag.
    - right. exists OTick. simpl. destruct (tick started handler tracked (w_actor w)) as [a ev]. simpl. by rewrite map_snd_tag.
    - left. destruct (st_closed _ || st_over _); done.
    - by left.
    - destruct (pull_actor k w) as [?|[r Hr]]; [by left|right]. exists (OSend r). simpl. done.
  Qed.

  Lemma wrun_actor u ops : exists aops, arun u aops = (w_actor (wrun u ops).1, map snd (wrun u ops).2).
  Proof using.
    induction ops as [|o ops [aops IH]] using rev_ind; [by exists []|].
    rewrite wrun_snoc. destruct (wrun u ops) as [w tr]. simpl in IH.
    destruct (step_actor w o) as [[H1 H2]|(o' & H & _)]; destruct (wstep w o) as [w' ev]; simpl in *.
    - exists aops. subst ev. by rewrite app_nil_r, H1.
    - exists (aops ++ [o']). rewrite run_concat_snoc, IH, <- H. simpl. by rewrite map_app.
  Qed.

  Lemma wrun_ticks u ops aops n : arun u aops = (w_actor (wrun u ops).1, map snd (wrun u ops).2) ->
    arun u (aops ++ repeat OTick n) = (w_actor (wrun u (ops ++ repeat WTick n)).1, map snd (wrun u (ops ++ repeat WTick n)).2).
  Proof using.
    intros H. induction n as [|n IH]; [simpl; by rewrite !app_nil_r|].
    replace (S n) with (n + 1) by lia. rewrite !repeat_app, !app_assoc. simpl. rewrite run_concat_snoc, IH, wrun_snoc.
    destruct (wrun u (ops ++ repeat WTick n)) as [w tr]. simpl.
    destruct (tick started handler tracked (w_actor w)) as [a ev]. simpl. by rewrite map_app, map_snd_tag.
  Qed.

  (** ** What the tasks call *)

  Lemma calls_app k (t1 t2 : list tagged) : calls k (t1 ++ t2) = calls k t1 ++ calls k t2.
  Proof using. apply omap_app. Qed.
  Lemma calls_accepted_app k (t1 t2 : list tagged) : calls_accepted k (t1 ++ t2) = calls_accepted k t1 ++ calls_accepted k t2.
  Proof using. apply omap_app. Qed.

  Lemma calls_none k (ev : list (event Msg Res)) : calls k (map (pair None) ev) = [] /\ calls_accepted k (map (pair None) ev) = [].
  Proof using. induction ev as [|e ev [IH1 IH2]]; [done|]. simpl. destruct e; done. Qed.

  Lemma calls_send k j r (a : actor St Msg) :
    calls k (map (pair (Some j)) (send (Res:=Res) r a).2) = if decide (j = k) then [r] else [].
  Proof using. unfold send. destruct (a_phase a); simpl; by destruct (decide (j = k)). Qed.

  Lemma given_snoc k (ops : list wop) o :
    given k (ops ++ [o]) =
    if (given k ops).2 then given k ops
    else match o with
         | WArrive j x => if decide (j = k) then ((given k ops).1 ++ [x], false) else given k ops
         | WEnd j => if decide (j = k) then ((given k ops).1, true) else given k ops
         | _ => given k ops
         end.
  Proof using.
    induction ops as [|p ops IH].
    - simpl. destruct o; try done; by destruct (decide _).
    - simpl. destruct p as [| |j x|j|]; try apply IH.
      + destruct (decide (j = k)); [|apply IH]. rewrite IH. simpl. destruct (given k ops) as [l b]. simpl.
        destruct b; [done|]. destruct o as [| |j' x'|j'|]; try done; by destruct (decide (j' = k)).
      + destruct (decide (j = k)); [done|apply IH].
  Qed.

  Lemma expected_snoc cv (l : list (sitem R)) x e : existsb (fun y => match y with SErr => true | _ => false end) l = true ->
    expected (Msg:=Msg) cv (l ++ [x]) e = expected cv l e.
  Proof using.
    induction l as [|[y|] l IH]; [done| |done]. simpl. intros H. rewrite IH by done. done.
  Qed.
  Lemma expected_err cv (l : list (sitem R)) e e' : existsb (fun y => match y with SErr => true | _ => false end) l = true ->
    expected (Msg:=Msg) cv l e = expected cv l e'.
  Proof using.
    induction l as [|[y|] l IH]; [done| |done]. simpl. intros H. rewrite IH by done. done.
  Qed.

  (** What has been called and what is still to be called makes up what is expected. *)
  Definition sinv (k : nat) (ops : list wop) (w : world) (tr : list tagged) : Prop :=
    let s := stream_at k w in let g := given k ops in
    st_closed s = g.2 /\
    (if st_over s then finished g = true /\ calls k tr = expected (conv k) g.1 g.2
     else exists l1, g.1 = l1 ++ st_items s /\
          (forall l2 e, expected (conv k) (l1 ++ l2) e = calls k tr ++ expected (conv k) l2 e)).

  Lemma stream_insert k j s (w : world) (a : actor St Msg) : stream_at k (World a (<[j := s]> (w_streams w))) = if decide (j = k) then s else stream_at k w.
  Proof using.
    unfold stream_at. simpl. destruct (decide (j = k)) as [->|Hn]; [by rewrite lookup_insert|by rewrite lookup_insert_ne].
  Qed.

  Lemma stream_same k (w : world) (a : actor St Msg) : stream_at k (World a (w_streams w)) = stream_at k w.
  Proof using. done. Qed.

  Lemma sinv_step k ops w tr o : sinv k ops w tr -> sinv k (ops ++ [o]) (wstep w o).1 (tr ++ (wstep w o).2).
  Proof using.
    unfold sinv. intros [Hc Hs]. rewrite given_snoc, calls_app.
    assert (Hq : forall (w' : world) (ev : list tagged), stream_at k w' = stream_at k w -> calls k ev = [] ->
      st_closed (stream_at k w') = (given k ops).2 /\
      (if st_over (stream_at k w') then finished (given k ops) = true /\ calls k tr ++ calls k ev = expected (conv k) (given k ops).1 (given k ops).2
       else exists l1, (given k ops).1 = l1 ++ st_items (stream_at k w') /\
            (forall l2 e, expected (conv k) (l1 ++ l2) e = (calls k tr ++ calls k ev) ++ expected (conv k) l2 e))).
    { intros w' ev E1 E2. rewrite E1, E2, app_nil_r. done. }
    assert (Hif : forall {A} (x : A), (if (given k ops).2 then x else x) = x) by (intros; by destruct (given k ops).2).
    destruct o as [r| |j x|j|j]; cbn [Attach_Model.wstep].
    - destruct (send r (w_actor w)) as [a ev] eqn:E. cbn [fst snd]. rewrite Hif. apply Hq; [done|]. apply calls_none.
    - destruct (tick started handler tracked (w_actor w)) as [a ev] eqn:E. cbn [fst snd]. rewrite Hif. apply Hq; [done|]. apply calls_none.
    - destruct (decide (j = k)) as [->|Hn].
      + destruct (st_closed (stream_at k w)) eqn:Ec; simpl orb.
        { cbn [fst snd]. rewrite <- Hc. apply Hq; [done|]. done. }
        rewrite <- Hc. destruct (st_over (stream_at k w)) eqn:Eo; cbn [fst snd].
        * (* over, not closed: an error was read *)
          rewrite Eo, app_nil_r. destruct Hs as [Hf Hs]. rewrite <- Hc in Hs. unfold finished in *. rewrite <- Hc in Hf. simpl in *.
          split; [done|]. split; [rewrite existsb_app, Hf; done|]. rewrite Hs. by rewrite expected_snoc.
        * rewrite stream_insert, decide_True by done. cbn [st_closed st_over st_items]. rewrite app_nil_r.
          destruct Hs as (l1 & E1 & E2). split; [done|]. exists l1. split; [simpl; by rewrite E1, app_assoc|done].
      + rewrite Hif. destruct (st_closed (stream_at j w) || st_over (stream_at j w)); cbn [fst snd]; [by apply Hq|].
        apply Hq; [|done]. by rewrite stream_insert, decide_False.
    - cbn [fst snd]. rewrite stream_insert. destruct (decide (j = k)) as [->|Hn].
      + rewrite app_nil_r. cbn [st_closed st_over st_items]. destruct (given k ops) as [l b] eqn:Eg. cbn [fst snd] in *.
        assert (Hg : (if b then (l, b) else (l, true)) = (l, true)) by (by destruct b). rewrite Hg. cbn [fst snd].
        split; [done|]. destruct (st_over (stream_at k w)).
        * destruct Hs as [Hf Hs]. split; [done|]. rewrite Hs. destruct b; [done|]. unfold finished in Hf. simpl in Hf. by apply expected_err.
        * done.
      + rewrite Hif, app_nil_r. done.
    - rewrite Hif. unfold pull. destruct (st_over (stream_at j w)) eqn:Eo; [by apply Hq|].
      assert (Hend : (st_items (stream_at j w) = [] /\ st_closed (stream_at j w) = true \/ exists l, st_items (stream_at j w) = SErr :: l) ->
        st_closed (stream_at k (task_end (Res:=Res) opts j w).1) = (given k ops).2 /\
        (if st_over (stream_at k (task_end (Res:=Res) opts j w).1) then finished (given k ops) = true /\ calls k tr ++ calls k (task_end (Res:=Res) opts j w).2 = expected (conv k) (given k ops).1 (given k ops).2
         else exists l1, (given k ops).1 = l1 ++ st_items (stream_at k (task_end (Res:=Res) opts j w).1) /\
            (forall l2 e, expected (conv k) (l1 ++ l2) e = (calls k tr ++ calls k (task_end (Res:=Res) opts j w).2) ++ expected (conv k) l2 e))).
      { intros He. unfold task_end. cbn [stop_on_stream_end default_options]. unfold task_call.
        pose proof (calls_send k j (RStop false) (w_actor w)) as Hcs. destruct (send (RStop false) (w_actor w)) as [a ev]. cbn [fst snd] in *.
        rewrite stream_insert. destruct (decide (j = k)) as [->|Hn]; [|rewrite Hcs, app_nil_r; done].
        cbn [st_closed st_over]. split; [done|]. rewrite Eo in Hs. destruct Hs as (l1 & E1 & E2). rewrite Hcs. rewrite E1, E2, <- Hc.
        destruct He as [[Hi Hcl]|[l Hi]]; rewrite Hi.
        - split; [unfold finished; rewrite <- Hc, Hcl; done|]. simpl. by rewrite Hcl.
        - split; [|done]. unfold finished. rewrite E1, existsb_app, Hi. simpl. by rewrite !orb_true_r. }
      destruct (st_items (stream_at j w)) as [|[x|] l] eqn:Ei.
      + destruct (st_closed (stream_at j w)) eqn:Ec; [|by apply Hq]. apply Hend. by left.
      + destruct (conv j x) as [m|] eqn:Ecv.
        * unfold task_call. pose proof (calls_send k j (RUser m false) (w_actor w)) as Hcs.
          destruct (send (RUser m false) (w_actor w)) as [a ev]. cbn [fst snd] in *.
          rewrite stream_insert. destruct (decide (j = k)) as [->|Hn]; [|rewrite Hcs, app_nil_r; done].
          cbn [st_closed st_over st_items]. split; [done|]. rewrite Eo in Hs. destruct Hs as (l1 & E1 & E2). rewrite Hcs.
          exists (l1 ++ [SOk x]). split; [rewrite E1, Ei, <- app_assoc; done|]. intros l2 e. rewrite <- app_assoc, E2. simpl. rewrite Ecv. by rewrite <- app_assoc.
        * cbn [fst snd]. rewrite stream_insert. destruct (decide (j = k)) as [->|Hn]; [|rewrite app_nil_r; done].
          cbn [st_closed st_over st_items]. split; [done|]. rewrite Eo in Hs. destruct Hs as (l1 & E1 & E2). rewrite app_nil_r.
          exists (l1 ++ [SOk x]). split; [rewrite E1, Ei, <- app_assoc; done|]. intros l2 e. rewrite <- app_assoc, E2. simpl. by rewrite Ecv.
      + apply Hend. right. by exists l.
  Qed.

  Lemma sinv_run k u ops : sinv k ops (wrun u ops).1 (wrun u ops).2.
  Proof using.
    induction ops as [|o ops IH] using rev_ind.
    - unfold sinv. simpl. split; [done|]. exists []. done.
    - rewrite wrun_snoc. destruct (wrun u ops) as [w tr]. apply (sinv_step k ops w tr o) in IH.
      destruct (wstep w o) as [w' ev]. done.
  Qed.

  Theorem calls_prefix k u ops : calls k (wrun u ops).2 `prefix_of` expected (conv k) (given k ops).1 (given k ops).2.
  Proof using.
    pose proof (sinv_run k u ops) as [Hc Hs]. destruct (st_over _).
    - destruct Hs as [_ ->]. done.
    - destruct Hs as (l1 & -> & ->). by eexists.
  Qed.

  (** ** The task gets to the end *)

  Lemma given_pulls k j n (ops : list wop) : given k (ops ++ repeat (WPull j) n) = given k ops.
  Proof using.
    clear started handler tracked conv.
    induction n as [|n IH]; [simpl; by rewrite app_nil_r|].
    replace (S n) with (n + 1) by lia. rewrite repeat_app, app_assoc. simpl. rewrite given_snoc, IH. by destruct (given k ops).2.
  Qed.
  Lemma given_ticks k n (ops : list wop) : given k (ops ++ repeat WTick n) = given k ops.
  Proof using.
    clear started handler tracked conv.
    induction n as [|n IH]; [simpl; by rewrite app_nil_r|].
    replace (S n) with (n + 1) by lia. rewrite repeat_app, app_assoc. simpl. rewrite given_snoc, IH. by destruct (given k ops).2.
  Qed.

  Definition todo (s : stream R) : nat := if st_over s then 0 else S (length (st_items s)).

  Lemma pull_todo k (w : world) : let w' := (pull (Res:=Res) conv opts k w).1 in
    st_over (stream_at k w') = true \/ (st_items (stream_at k w') = [] /\ st_closed (stream_at k w') = false) \/
    todo (stream_at k w') < todo (stream_at k w).
  Proof using.
    clear started handler tracked. simpl. unfold pull, todo. destruct (st_over (stream_at k w)) eqn:Eo; [left; done|].
    assert (Hend : st_over (stream_at k (task_end (Res:=Res) opts k w).1) = true).
    { unfold task_end. simpl. unfold task_call. destruct (send _ _). simpl. by rewrite stream_insert, decide_True. }
    destruct (st_items (stream_at k w)) as [|[x|] l] eqn:Ei.
    - destruct (st_closed (stream_at k w)) eqn:Ec; [by left|]. right. left. simpl. by rewrite Ei, Ec.
    - right. right. destruct (conv k x); unfold task_call; [destruct (send _ _)|]; simpl; rewrite stream_insert, decide_True by done; simpl; lia.
    - by left.
  Qed.

  Definition settled (s : stream R) : Prop := st_over s = true \/ (st_items s = [] /\ st_closed s = false).

  Lemma settled_pull k (w : world) : settled (stream_at k w) -> pull (Res:=Res) conv opts k w = (w, []).
  Proof using. unfold pull. intros [->|[E1 E2]]; [done|]. rewrite E1, E2. by destruct (st_over _). Qed.

  Lemma pulls_settle k u ops n : todo (stream_at k (wrun u ops).1) <= n -> settled (stream_at k (wrun u (ops ++ repeat (WPull k) n)).1).
  Proof using.
    revert ops. induction n as [|n IH]; intros ops Hn.
    - simpl. rewrite app_nil_r. unfold todo in Hn. left. destruct (st_over _); [done|lia].
    - simpl. rewrite cons_middle, app_assoc.
      assert (Hset : forall m ops', settled (stream_at k (wrun u ops').1) -> settled (stream_at k (wrun u (ops' ++ repeat (WPull k) m)).1)).
      { clear. intros m. induction m as [|m IH]; intros ops' H; [simpl; by rewrite app_nil_r|].
        simpl. rewrite cons_middle, app_assoc. apply IH. rewrite wrun_snoc. destruct (wrun u ops') as [w tr]. simpl in *. by rewrite settled_pull. }
      pose proof (pull_todo k (wrun u ops).1) as Hp.
      assert (Hw : (wrun u (ops ++ [WPull k])).1 = (pull (Res:=Res) conv opts k (wrun u ops).1).1).
      { rewrite wrun_snoc. destruct (wrun u ops) as [w tr]. simpl. by destruct (pull _ _ _ _). }
      simpl in Hp. rewrite <- Hw in Hp. destruct Hp as [?|[?|?]]; [apply Hset; by left|apply Hset; by right|]. apply IH. lia.
  Qed.

  Lemma todo_given k u ops : todo (stream_at k (wrun u ops).1) <= S (length (given k ops).1).
  Proof using.
    pose proof (sinv_run k u ops) as [_ Hs]. unfold todo. destruct (st_over _); [lia|]. destruct Hs as (l1 & -> & _).
    rewrite app_length. lia.
  Qed.

  Theorem calls_all k u ops n : S (length (given k ops).1) <= n ->
    calls k (wrun u (ops ++ repeat (WPull k) n)).2 = expected (conv k) (given k ops).1 (given k ops).2.
  Proof using.
    intros Hn. pose proof (sinv_run k u (ops ++ repeat (WPull k) n)) as [Hc Hs].
    destruct (pulls_settle k u ops n) as [Ho|[Hi Hcl]].
    - pose proof (todo_given k u ops). lia.
    - rewrite Ho, given_pulls in Hs. by destruct Hs.
    - rewrite Hcl in Hc. destruct (st_over _); [rewrite given_pulls in Hs; by destruct Hs|].
      destruct Hs as (l1 & E1 & E2). specialize (E2 [] false). rewrite app_nil_r in E2. simpl in E2. rewrite app_nil_r in E2.
      rewrite Hi, app_nil_r in E1. rewrite given_pulls in *. by rewrite <- Hc, E1, E2.
  Qed.

  Lemma expected_stop cv (l : list (sitem R)) e : finished (l, e) = true <-> RStop false ∈ expected (Msg:=Msg) cv l e.
  Proof using.
    induction l as [|[x|] l IH].
    - unfold finished. simpl. rewrite orb_false_r. destruct e; [split; [by left|done]|]. split; [done|]. intros H. by apply elem_of_nil in H.
    - unfold finished in *. simpl in *. rewrite IH. destruct (cv x); [|done]. rewrite elem_of_cons. naive_solver.
    - unfold finished. simpl. rewrite orb_true_r. split; [intros _; by left|done].
  Qed.

  Lemma expected_kinds cv (l : list (sitem R)) e r : r ∈ expected (Msg:=Msg) cv l e -> r = RStop false \/ exists m, r = RUser m false.
  Proof using.
    induction l as [|[x|] l IH]; simpl.
    - destruct e; [|intros H; by apply elem_of_nil in H]. rewrite elem_of_list_singleton. by left.
    - destruct (cv x) as [m|]; [|done]. rewrite elem_of_cons. intros [->|?]; [right; by eexists|auto].
    - rewrite elem_of_list_singleton. by left.
  Qed.

  Lemma expected_last cv (l : list (sitem R)) e l1 l2 : expected (Msg:=Msg) cv l e = l1 ++ RStop false :: l2 -> l2 = [].
  Proof using.
    revert l1. induction l as [|[x|] l IH]; simpl; intros l1.
    - destruct e; destruct l1 as [|? [|]]; try done; by intros [= ->].
    - destruct (cv x) as [m|]; [|apply IH]. destruct l1 as [|r l1]; [done|]. intros [= _ H]. by apply IH in H.
    - destruct l1 as [|? [|]]; try done; by intros [= ->].
  Qed.
End proofs.
