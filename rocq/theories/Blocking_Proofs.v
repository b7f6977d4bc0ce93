(** Proofs about the blocking api. *)
From Verif Require Import Actor_Model Actor_Spec Actor_Proofs Actor_Proofs2 Actor_Proofs3 Blocking_Model Blocking_Spec.
Local Open Scope nat_scope.

Section proofs.
  Context {St Msg Res : Type}.
  Context (started : St -> St * effect) (handler : St -> Msg -> St * Res * effect) (tracked : bool).
  Notation arun := (arun started handler tracked).
  Notation astep := (astep started handler tracked).
  Notation brun := (brun started handler tracked).
  Notation bstep := (bstep started handler tracked).
  Notation bsys := (bsys St Msg Res).
  Notation thread := (thread Msg Res).
  Notation progs_t := (gmap nat (place * list (style * ask Msg))).

  Lemma brun_snoc u (progs : progs_t) ops o : brun u progs (ops ++ [o]) = bstep (brun u progs ops) o.
  Proof using. unfold brun. by rewrite fold_left_app. Qed.

  (** ** What the actor sees is a run of the actor *)

  Lemma call_actor (s : bsys) t th st a todo :
    (b_actor (make_call s t th st a todo), b_trace (make_call s t th st a todo)) =
    (let '(ac, ev) := send (to_request a) (b_actor s) in (ac, b_trace s ++ ev)).
  Proof using. unfold make_call. by destruct (send (to_request a) (b_actor s)) as [ac ev]. Qed.

  Lemma step_seen (s : bsys) o :
    (b_actor (bstep s o) = b_actor s /\ b_trace (bstep s o) = b_trace s) \/
    exists o', b_actor (bstep s o) = (astep (b_actor s) o').1 /\ b_trace (bstep s o) = b_trace s ++ (astep (b_actor s) o').2.
  Proof using.
    destruct o as [|t]; cbn [Blocking_Model.bstep].
    - right. exists OTick. simpl. by destruct (tick started handler tracked (b_actor s)) as [a ev].
    - destruct (b_threads s !! t) as [th|]; [|by left]. unfold thread_step.
      destruct (th_panicked th); [by left|]. destruct (_ <? _).
      + left. destruct (last (th_made th)) as [[a [i|]]|]; [|done..]. by destruct (result_in a i (b_trace s)).
      + destruct (th_todo th) as [|[st a] todo]; [by left|]. right. exists (OSend (to_request a)).
        pose proof (call_actor s t th st a todo) as H. simpl. destruct (send (to_request a) (b_actor s)) as [ac ev]. by simplify_eq.
  Qed.

  Lemma brun_actor u (progs : progs_t) ops : exists aops, arun u aops = (b_actor (brun u progs ops), b_trace (brun u progs ops)).
  Proof using.
    induction ops as [|o ops [aops IH]] using rev_ind; [by exists []|]. rewrite brun_snoc.
    destruct (step_seen (brun u progs ops) o) as [[-> ->]|(o' & -> & ->)]; [by exists aops|].
    exists (aops ++ [o']). rewrite run_concat_snoc, IH. by destruct (astep _ o').
  Qed.

  Lemma brun_ticks u (progs : progs_t) ops aops n : arun u aops = (b_actor (brun u progs ops), b_trace (brun u progs ops)) ->
    let s := brun u progs (ops ++ repeat BTick n) in
    arun u (aops ++ repeat OTick n) = (b_actor s, b_trace s) /\ b_threads s = b_threads (brun u progs ops).
  Proof using.
    intros H s. unfold s. clear s. induction n as [|n [IH1 IH2]]; [simpl; by rewrite !app_nil_r|].
    replace (S n) with (n + 1) by lia. rewrite !repeat_app, !app_assoc. simpl. rewrite run_concat_snoc, IH1, brun_snoc.
    cbn [Blocking_Model.bstep Actor_Model.astep]. destruct (tick started handler tracked _) as [a ev]. done.
  Qed.

  (** ** Results belong to their calls *)

  Lemma accepted_event i r (tr : list (event Msg Res)) : (i, r) ∈ accepted tr <-> EAccepted i r ∈ tr.
  Proof using.
    unfold accepted. rewrite elem_of_list_omap. split.
    - intros (e & He & E). destruct e; simplify_eq. done.
    - intros H. by exists (EAccepted i r).
  Qed.

  Lemma result_in_some a i (tr : list (event Msg Res)) r : result_in a i tr = Some r -> exists e, e ∈ tr /\ result_of a i e = Some r.
  Proof using.
    induction tr as [|e tr IH]; [done|]. simpl. destruct (result_of a i e) as [x|] eqn:E.
    - intros [= ->]. exists e. split; [by left|done].
    - intros H. destruct (IH H) as (e' & ? & ?). exists e'. split; [by right|done].
  Qed.

  Lemma result_in_none a i (tr : list (event Msg Res)) : result_in a i tr = None -> count (is_outcome i) tr = 0.
  Proof using.
    induction tr as [|e tr IH]; [done|]. simpl. destruct (result_of a i e) as [x|] eqn:E; [done|]. intros H. specialize (IH H).
    unfold count in *. simpl. destruct (is_outcome i e) eqn:Eo; [|done]. exfalso.
    destruct e; simpl in *; try done; rewrite Eo in E; done.
  Qed.

  Lemma result_is_answer u aops a i r : (i, to_request a) ∈ accepted (arun u aops).2 ->
    result_in a i (arun u aops).2 = Some r -> is_answer a i r (arun u aops).2.
  Proof using.
    intros Hin Hr. apply result_in_some in Hr as (e & He & Er).
    destruct (oinv_run started handler tracked u aops) as (Hor & _). rewrite Forall_forall in Hor. specialize (Hor e He).
    pose proof (accepted_in_unique started handler tracked u aops) as Hu.
    destruct e as [| | | | |j x|j x| | |j| |j| |]; simpl in Er; try done; destruct (Nat.eqb_spec i j) as [<-|]; try done; injection Er as <-; simpl in Hor.
    - destruct Hor as [m Hm]. pose proof (Hu _ _ _ Hin Hm) as E. destruct a; simpl in E; try done.
    - pose proof (Hu _ _ _ Hin Hor) as E. destruct a; simpl in E; try done.
    - pose proof (Hu _ _ _ Hin Hor) as E. destruct a; simpl in E; try done.
    - destruct a; done.
  Qed.

  Lemma is_answer_mono a i r (t1 t2 : list (event Msg Res)) : is_answer a i r t1 -> is_answer a i r (t1 ++ t2).
  Proof using. destruct a, r; simpl; try done; intros; apply elem_of_app; by left. Qed.

  Record tinv (x : place * list (style * ask Msg)) (next : nat) (tr : list (event Msg Res)) (th : thread) : Prop := {
    ti_place : th_place th = x.1;
    ti_prog : exists done, x.2 = done ++ th_todo th /\ map snd done = map fst (th_made th);
    ti_len : length (th_results th) = length (th_made th) \/
             exists l a i, th_made th = l ++ [(a, Some i)] /\ length (th_results th) = length l;
    ti_res : forall p res, th_results th !! p = Some res -> exists a o, th_made th !! p = Some (a, o) /\
             match o with None => res = InvalidRef /\ ERefused (to_request a) ∈ tr | Some i => is_answer a i res tr end;
    ti_acc : forall a i, (a, Some i) ∈ th_made th -> (i, to_request a) ∈ accepted tr;
    ti_num : StronglySorted lt (numbers th) /\ Forall (fun i => i < next) (numbers th);
  }.

  Lemma tinv_mono x n1 n2 t1 t2 th : n1 <= n2 -> tinv x n1 t1 th -> tinv x n2 (t1 ++ t2) th.
  Proof using.
    intros Hn [I1 I2 I3 I4 I5 [I6 I7]]. split; [done..| | |].
    - intros p res Hp. destruct (I4 p res Hp) as (a & o & Ho & Hm). exists a, o. split; [done|].
      destruct o as [i|]; [by apply is_answer_mono|]. destruct Hm as [-> Hm]. split; [done|]. apply elem_of_app. by left.
    - intros a i Hi. rewrite accepted_app. apply elem_of_app. left. by apply I5.
    - split; [done|]. eapply Forall_impl; [exact I7|]. simpl. lia.
  Qed.

  Lemma sorted_snoc (l : list nat) x : StronglySorted lt l -> Forall (fun i => i < x) l -> StronglySorted lt (l ++ [x]).
  Proof using.
    intros H. induction H as [|y l Hs IH Hy]; intros Hl; [constructor; constructor|].
    apply Forall_cons in Hl as [? ?]. simpl. constructor; [by apply IH|]. apply Forall_app. split; [done|]. constructor; [done|constructor].
  Qed.

  Definition binv2 (u : St) (progs : progs_t) (s : bsys) : Prop :=
    forall t, match progs !! t, b_threads s !! t with
              | Some x, Some th => tinv x (a_next (b_actor s)) (b_trace s) th
              | None, None => True
              | _, _ => False
              end.

  Lemma next_grows (a : actor St Msg) o : a_next a <= a_next (astep a o).1.
  Proof using.
    destruct o as [r|]; simpl.
    - unfold send. destruct (a_phase a); simpl; lia.
    - unfold tick. destruct (a_phase a); simpl; try lia.
      + unfold run_started. destruct (started (a_user a)) as [u' []]; simpl; lia.
      + destruct (a_queue a) as [|[i r] q]; [simpl; lia|]. unfold run_message. destruct r as [m ans| |ans|id w|id]; simpl; try lia.
        destruct (handler (a_user a) m) as [[u' res] []]; simpl; lia.
  Qed.

  Lemma binv2_run u progs ops : binv2 u progs (brun u progs ops).
  Proof using.
    induction ops as [|o ops IH] using rev_ind.
    { intros t. unfold brun. simpl. unfold start_threads. rewrite lookup_fmap. destruct (progs !! t) as [x|]; simpl; [|done].
      split; simpl.
      - done.
      - by exists [].
      - by left.
      - intros p res Hp. by rewrite lookup_nil in Hp.
      - intros a i Hi. by apply elem_of_nil in Hi.
      - split; constructor. }
    destruct (brun_actor u progs ops) as [aops Ea]. rewrite brun_snoc.
    pose proof (step_seen (brun u progs ops) o) as Hseen. revert IH Ea Hseen. generalize (brun u progs ops). intros s IH Ea Hseen t'.
    specialize (IH t').
    (* what happens to the other threads *)
    assert (Hother : forall th x, tinv x (a_next (b_actor s)) (b_trace s) th -> tinv x (a_next (b_actor (bstep s o))) (b_trace (bstep s o)) th).
    { intros th x Hx. destruct Hseen as [[-> ->]|(o' & -> & ->)]; [done|]. eapply tinv_mono; [apply next_grows|done]. }
    destruct o as [|t]; cbn [Blocking_Model.bstep] in *.
    - assert (Hth : b_threads (let '(a, ev) := tick started handler tracked (b_actor s) in BSys a (b_trace s ++ ev) (b_threads s)) = b_threads s)
        by (by destruct (tick _ _ _ _)).
      rewrite Hth. destruct (progs !! t') as [x|], (b_threads s !! t') as [th|]; auto.
    - destruct (b_threads s !! t) as [th|] eqn:Et; [|done].
      destruct (decide (t' = t)) as [->|Hne].
      2:{ assert (Hth : b_threads (thread_step s t th) !! t' = b_threads s !! t').
          { unfold thread_step. destruct (th_panicked th); [done|]. destruct (_ <? _).
            - destruct (last (th_made th)) as [[a [i|]]|]; [|done..]. destruct (result_in a i (b_trace s)); [|done]. simpl. by rewrite lookup_insert_ne.
            - destruct (th_todo th) as [|[st a] todo]; [done|]. unfold make_call. destruct (send (to_request a) (b_actor s)). simpl. by rewrite lookup_insert_ne. }
          rewrite Hth. destruct (progs !! t') as [x|], (b_threads s !! t') as [th'|]; auto. }
      destruct (progs !! t) as [x|] eqn:Ex; [|by rewrite Et in IH]. rewrite Et in IH. specialize (Hother th x IH).
      clear Hseen. unfold thread_step in *. destruct (th_panicked th); [by rewrite Et|].
      destruct (Nat.ltb_spec (length (th_results th)) (length (th_made th))) as [Hlt|Hge].
      + destruct IH as [I1 I2 I3 I4 I5 I6]. destruct I3 as [?|(l & a & i & El & Hl)]; [lia|].
        rewrite El, last_snoc in *. destruct (result_in a i (b_trace s)) as [r|] eqn:Er; [|by rewrite Et].
        cbn [b_threads b_trace b_actor]. rewrite lookup_insert. split; cbn [th_place th_todo th_made th_results].
        * done.
        * done.
        * left. rewrite !app_length. simpl. lia.
        * intros p res Hp. apply lookup_app_Some in Hp as [Hp|[Hp1 Hp2]]; [by apply I4|].
          apply list_lookup_singleton_Some in Hp2 as [Hp2 <-]. assert (p = length l) as -> by lia.
          exists a, (Some i). split; [apply list_lookup_middle; done|].
          pose proof (result_is_answer u aops a i r) as Hra. rewrite Ea in Hra. cbn [snd] in Hra. apply Hra; [|done]. apply I5. apply elem_of_app. right. by left.
        * done.
        * unfold numbers in *. cbn [th_made]. by rewrite El in I6.
      + destruct (th_todo th) as [|[st a] todo] eqn:Etodo; [by rewrite Et|].
        unfold make_call in *. 
        assert (Hs : send (Res:=Res) (to_request a) (b_actor s) =
          match a_phase (b_actor s) with PDone => (b_actor s, [ERefused (to_request a)]) | _ =>
            (Actor (a_phase (b_actor s)) (a_user (b_actor s)) (a_queue (b_actor s) ++ [(a_next (b_actor s), to_request a)]) (S (a_next (b_actor s)))
               (a_on_stopped (b_actor s)) (a_watchers (b_actor s)) (a_reported (b_actor s)), [EAccepted (a_next (b_actor s)) (to_request a)]) end) by done.
        destruct (send (to_request a) (b_actor s)) as [ac ev] eqn:Esend. cbn [b_threads b_trace b_actor] in *. rewrite lookup_insert.
        destruct Hother as [I1 I2 I3 I4 I5 I6]. destruct I2 as (done & Ed1 & Ed2). rewrite Etodo in Ed1.
        assert (Hmade : exists d, x.2 = d ++ todo /\ map snd d = map fst (th_made th) ++ [a]).
        { exists (done ++ [(st, a)]). split; [rewrite <- app_assoc; done|]. by rewrite map_app, Ed2. }
        assert (Hlen : length (th_results th) = length (th_made th)).
        { destruct I3 as [?|(l & a' & i & El & Hl)]; [done|]. rewrite El, app_length in Hge. simpl in Hge. lia. }
        assert (Hn : Forall (fun i => i < a_next (b_actor s)) (numbers th)) by apply IH.
        destruct (decide (a_phase (b_actor s) = PDone)) as [Hp|Hp].
        * rewrite Hp in *. simplify_eq. split; cbn [th_place th_todo th_made th_results].
          -- done.
          -- rewrite map_app. done.
          -- left. rewrite !app_length. simpl. lia.
          -- intros p res Hr. apply lookup_app_Some in Hr as [Hr|[Hr1 Hr2]].
             ++ destruct (I4 p res Hr) as (a' & o & Ho & Hm). exists a', o. split; [by apply lookup_app_l_Some|done].
             ++ apply list_lookup_singleton_Some in Hr2 as [Hr2 <-]. exists a, None. split; [apply list_lookup_middle; lia|].
                split; [done|]. apply elem_of_app. right. by left.
          -- intros a' i Hi. apply elem_of_app in Hi as [Hi|Hi]; [by apply I5|]. by apply elem_of_list_singleton in Hi.
          -- unfold numbers in *. cbn [th_made]. rewrite omap_app. simpl. rewrite app_nil_r. done.
        * assert (Hac : (ac, ev) = (Actor (a_phase (b_actor s)) (a_user (b_actor s)) (a_queue (b_actor s) ++ [(a_next (b_actor s), to_request a)]) (S (a_next (b_actor s)))
               (a_on_stopped (b_actor s)) (a_watchers (b_actor s)) (a_reported (b_actor s)), [EAccepted (a_next (b_actor s)) (to_request a)])) by (rewrite Hs; by destruct (a_phase (b_actor s))).
          clear Hs. injection Hac as -> ->.
          assert (Htv : forall pk, tinv x (S (a_next (b_actor s))) (b_trace s ++ [EAccepted (a_next (b_actor s)) (to_request a)])
            (Thread (th_place th) todo (th_made th ++ [(a, Some (a_next (b_actor s)))]) (th_results th) pk)).
          { intros pk. split; cbn [th_place th_todo th_made th_results].
            - done.
            - rewrite map_app. done.
            - right. by exists (th_made th), a, (a_next (b_actor s)).
            - intros p res Hr. destruct (I4 p res Hr) as (a' & o & Ho & Hm). exists a', o. split; [by apply lookup_app_l_Some|done].
            - intros a' i Hi. apply elem_of_app in Hi as [Hi|Hi]; [by apply I5|]. apply elem_of_list_singleton in Hi. simplify_eq.
              rewrite accepted_app. apply elem_of_app. right. by left.
            - unfold numbers in *. cbn [th_made]. rewrite omap_app. simpl. split; [apply sorted_snoc; [apply I6|done]|].
              apply Forall_app. split; [eapply Forall_impl; [exact Hn|]; simpl; lia|]. constructor; [lia|constructor]. }
          destruct (a_phase (b_actor s)); try done; apply Htv.
  Qed.
End proofs.
