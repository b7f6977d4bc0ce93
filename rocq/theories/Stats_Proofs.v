(** Proofs about the sharding statistics. *)
From Verif Require Import Entity_Model Coord_Spec Coord_Proofs Host_Proofs Stats_Model Stats_Spec.
Local Open Scope N_scope.

Definition ref_shard (r : sref) : N := match r with RLocal s _ | RRemote s _ => s end.
Definition ref_node (self : N) (r : sref) : N := match r with RLocal _ _ => self | RRemote _ n => n end.

Lemma between_mono {A} (l0 t l l' : list A) : between l0 t l -> l `prefix_of` l' -> between l0 t l'.
Proof. intros [H1 H2] H. split; [done|]. by etrans. Qed.
Lemma between_end {A} (l0 l : list A) o : l0 `prefix_of` l -> between l0 l (l ++ [o]).
Proof. intros H. split; [done|]. by apply prefix_app_r. Qed.

Lemma find_shard_spec w r s n m : find_shard w r = Some (s, n, m) ->
  s = ref_shard r /\ n = ref_node (w_self w) r /\ exists a, w_shards w !! (n, s) = Some (a, m).
Proof.
  destruct r as [s' a|s' n']; simpl.
  - destruct (w_shards w !! (w_self w, s')) as [[a' m']|] eqn:E; [|done]. destruct (a' =? a); [|done].
    intros [= <- <- <-]. eauto.
  - destruct (w_shards w !! (n', s')) as [[a' m']|] eqn:E; [|done]. intros [= <- <- <-]. eauto.
Qed.

Lemma all_reports_some {A} (l : list (option A)) k : all_reports l = Some k -> Forall2 (fun x y => x = Some y) l k.
Proof. intros H%mapM_Some. done. Qed.
Lemma all_reports_none {A} (l : list (option A)) : all_reports l = None -> None ∈ l.
Proof.
  unfold all_reports. rewrite mapM_None. intros (x & H & ->)%Exists_exists. done.
Qed.

Lemma sublist_NoDup {A} (l k : list A) : sublist l k -> NoDup k -> NoDup l.
Proof.
  induction 1 as [|x l k H IH|x l k H IH]; intros Hk; [done| |].
  - apply NoDup_cons in Hk as [Hx Hk]. apply NoDup_cons. split; [|by apply IH]. intros Hl. apply Hx.
    eapply elem_of_submseteq; [exact Hl|]. by apply sublist_submseteq.
  - apply NoDup_cons in Hk as [_ Hk]. by apply IH.
Qed.

Section run.
Variable shard_of : N -> N.
Variable w0 : world.
Notation W l := (wrun shard_of w0 l).
Notation self := (w_self w0).

Lemma wrun_snoc l o : W (l ++ [o]) = wstep shard_of (W l) o.
Proof. unfold wrun. by rewrite fold_left_app. Qed.

Lemma wstep_self w o : w_self (wstep shard_of w o) = w_self w.
Proof.
  destruct o; simpl; repeat case_match; done.
Qed.
Lemma wrun_self l : w_self (W l) = self.
Proof. induction l as [|o l IH] using rev_ind; [done|]. by rewrite wrun_snoc, wstep_self. Qed.

Record looked (l0 l : list wop) (done : list (N * N)) (refs : list sref) : Prop := {
  lk_sub : sublist (map ref_shard refs) done.*1;
  lk_ok : forall r, r ∈ refs -> (ref_shard r, ref_node self r) ∈ done /\
            match r with RLocal s a => exists t, between l0 t l /\ shard_actor (W t) self s = Some a | RRemote s n => n <> self end;
  lk_all : forall s n, (s, n) ∈ done -> (exists r, r ∈ refs /\ ref_shard r = s) \/
             (n = self /\ exists t, between l0 t l /\ ~ shard_runs (W t) self s) }.

Lemma looked_mono l0 l l' done refs : looked l0 l done refs -> l `prefix_of` l' -> looked l0 l' done refs.
Proof.
  intros [H1 H2 H3] Hl. split; [done| |].
  - intros r Hr. destruct (H2 r Hr) as [? H]. split; [done|]. destruct r; [|done]. destruct H as (t & ? & ?). exists t.
    split; [|done]. by eapply between_mono.
  - intros s n Hs. destruct (H3 s n Hs) as [?|(? & t & ? & ?)]; [by left|]. right. split; [done|]. exists t.
    split; [|done]. by eapply between_mono.
Qed.

Definition answered (l0 l : list wop) (r : sref) (x : option (option shard_report)) : Prop :=
  match x with
  | None => True
  | Some (Some rep) => exists t eord s n m, between l0 t l /\ find_shard (W t) r = Some (s, n, m) /\ rep = shard_report_of s n m eord
  | Some None => (exists o, o ∈ l /\ failure o = true) \/ exists t, between l0 t l /\ find_shard (W t) r = None
  end.

Lemma answered_mono l0 l l' r x : answered l0 l r x -> l `prefix_of` l' -> answered l0 l' r x.
Proof.
  intros H Hl. destruct x as [[rep|]|]; simpl in *; [| |done].
  - destruct H as (t & eord & s & n & m & ? & ? & ?). exists t, eord, s, n, m. split; [by eapply between_mono|done].
  - destruct H as [(o & ? & ?)|(t & ? & ?)].
    + left. exists o. split; [|done]. destruct Hl as [k ->]. apply elem_of_app. by left.
    + right. exists t. split; [by eapply between_mono|done].
Qed.

Definition stage (l : list wop) (q : query) : Prop :=
  match q with
  | QNone | QCoordinator => True
  | QLookup cr todo refs => exists l0 ord sord done, l0 `prefix_of` l /\ cr = coord_report_of (w_coord (W l0)) ord sord /\
      cr_shards cr = done ++ todo /\ looked l0 l done refs
  | QShards cr slots => exists l0 ord sord, l0 `prefix_of` l /\ cr = coord_report_of (w_coord (W l0)) ord sord /\
      looked l0 l (cr_shards cr) slots.*1 /\ forall r x, (r, x) ∈ slots -> answered l0 l r x
  | QDone (Some res) => exists l0 ord sord refs reports, l0 `prefix_of` l /\
      res = cluster_stats_of (coord_report_of (w_coord (W l0)) ord sord) reports /\
      looked l0 l (cr_shards (coord_report_of (w_coord (W l0)) ord sord)) refs /\
      Forall2 (fun r rep => answered l0 l r (Some (Some rep))) refs reports
  | QDone None => exists known up, WAsk known up ∈ l /\ known && up = false
  | QPanicked => (exists o, o ∈ l /\ failure o = true) \/
      exists l0 ord sord refs r t, l0 `prefix_of` l /\
        looked l0 l (cr_shards (coord_report_of (w_coord (W l0)) ord sord)) refs /\ r ∈ refs /\ between l0 t l /\ find_shard (W t) r = None
  end.

Lemma stage_mono l l' q : stage l q -> l `prefix_of` l' -> stage l' q.
Proof.
  intros H Hl. assert (Hin : forall o, o ∈ l -> o ∈ l').
  { intros o Ho. destruct Hl as [k ->]. apply elem_of_app. by left. }
  destruct q as [| |cr todo refs|cr slots|[res|]|]; simpl in *; [done|done| | | | |].
  - destruct H as (l0 & ord & sord & dn & ? & ? & ? & ?). exists l0, ord, sord, dn. split_and!; [by etrans|done..|by eapply looked_mono].
  - destruct H as (l0 & ord & sord & ? & ? & ? & H). exists l0, ord, sord. split_and!; [by etrans|done|by eapply looked_mono|].
    intros r x Hr. eapply answered_mono; [by apply H|done].
  - destruct H as (l0 & ord & sord & refs & reports & ? & ? & ? & H). exists l0, ord, sord, refs, reports.
    split_and!; [by etrans|done|by eapply looked_mono|]. eapply Forall2_impl; [exact H|]. intros r rep Hr. exact (answered_mono l0 l l' r (Some (Some rep)) Hr Hl).
  - destruct H as (k & u & ? & ?). exists k, u. eauto.
  - destruct H as [(o & ? & ?)|(l0 & ord & sord & refs & r & t & ? & ? & ? & ? & ?)]; [left; eauto|right].
    exists l0, ord, sord, refs, r, t. split_and!; [by etrans|by eapply looked_mono|done|by eapply between_mono|done].
Qed.

Lemma stage_settle l q : stage l q -> stage l (settle q).
Proof.
  destruct q as [| |cr [|x todo] refs|cr slots|r|]; try done. simpl. intros (l0 & ord & sord & dn & H1 & H2 & H3 & H4).
  exists l0, ord, sord. rewrite app_nil_r in H3. split_and!; [done|done| |].
  - rewrite H3.
    assert (E : (map (fun r : sref => (r, None : option (option shard_report))) refs).*1 = refs).
    { clear. induction refs as [|r refs IH]; [done|]. change (r :: (map (fun r : sref => (r, None : option (option shard_report))) refs).*1 = r :: refs). by rewrite IH. }
    match goal with |- looked _ _ _ ?x => replace x with refs by (symmetry; exact E) end. exact H4.
  - intros r x (? & [= -> ->] & ?)%elem_of_list_fmap. done.
Qed.

Lemma stage_finish l q : stage l q -> stage l (finish q).
Proof.
  destruct q as [| |cr todo refs|cr slots|r|]; try done. cbn [finish]. destruct (all_reports (map snd slots)) as [reps|] eqn:E; [|done].
  apply all_reports_some in E. destruct (all_reports reps) as [reports|] eqn:E2.
  - apply all_reports_some in E2. intros (l0 & ord & sord & H1 & H2 & H3 & H4). exists l0, ord, sord, slots.*1, reports.
    subst cr. split_and!; [done|done|done|]. clear H3 H1. revert reps reports E E2.
    induction slots as [|[r x] slots IH]; intros reps reports E E2; simpl in *.
    + inversion E; subst. inversion E2; subst. constructor.
    + inversion E as [|? y ? reps' Ex E']; subst. inversion E2 as [|? rep ? reports' Ey E2']; subst. constructor.
      * exact (H4 r (Some (Some rep)) ltac:(constructor)).
      * eapply IH; [|done|done]. intros r' x' Hr. apply H4. by constructor.
  - intros (l0 & ord & sord & H1 & H2 & H3 & H4). apply all_reports_none in E2. subst cr.
    assert (Hs : exists r, (r, Some None) ∈ slots).
    { clear - E E2. revert reps E E2. induction slots as [|[r x] slots IH]; intros reps E E2; simpl in *.
      - inversion E; subst. by apply elem_of_nil in E2.
      - inversion E as [|? y ? reps' Ex E']; subst. apply elem_of_cons in E2 as [<-|E2].
        + exists r. constructor.
        + destruct (IH _ E' E2) as [r' ?]. exists r'. by constructor. }
    destruct Hs as [r Hr]. destruct (H4 _ _ Hr) as [?|(t & ? & ?)]; [by left|]. right.
    exists l0, ord, sord, slots.*1, r, t. split_and!; try done. apply elem_of_list_fmap. by exists (r, Some None).
Qed.

Lemma stage_step l o : stage l (w_query (W l)) -> stage (l ++ [o]) (w_query (W (l ++ [o]))).
Proof.
  intros H. assert (Hm : stage (l ++ [o]) (w_query (W l))) by (eapply stage_mono; [exact H|by apply prefix_app_r]).
  rewrite wrun_snoc. pose proof (wrun_self l) as Hself.
  destruct o as [c|n s|n s|n|n id rc kn p|n id ok|e|kn up|ok ord sord| |i ok eord]; cbn [wstep].
  - destruct (cstep _ _) as [[? ?]|]; exact Hm.
  - destruct (w_shards _ !! _); exact Hm.
  - exact Hm.
  - exact Hm.
  - destruct (w_shards _ !! _) as [[a m]|]; [|exact Hm]. destruct (on_entity_request m _). exact Hm.
  - destruct (w_shards _ !! _) as [[a m]|]; [|exact Hm]. destruct ok; exact Hm.
  - exact Hm.
  - destruct (w_query (W l)) eqn:Eq; rewrite ?Eq; try exact Hm. cbn [set_query w_query].
    destruct (kn && up) eqn:Ek; [done|]. simpl. exists kn, up. split; [|done]. apply elem_of_app. right. by apply elem_of_list_singleton.
  - destruct (w_query (W l)) eqn:Eq; rewrite ?Eq; try exact Hm. cbn [set_query w_query]. destruct ok.
    + apply stage_finish, stage_settle. exists l, ord, sord, []. split_and!; [by apply prefix_app_r|done|done|].
      split; [constructor|by intros r ?%elem_of_nil|by intros s n ?%elem_of_nil].
    + left. exists (WCoordAnswers false ord sord). split; [|done]. apply elem_of_app. right. by apply elem_of_list_singleton.
  - destruct (w_query (W l)) as [| |cr [|[s n] todo] refs|cr slots|r|] eqn:Eq; rewrite ?Eq; try exact Hm. cbn [set_query w_query].
    apply stage_finish, stage_settle. simpl in H. destruct H as (l0 & ord & sord & dn & H1 & H2 & H3 & H4).
    exists l0, ord, sord, (dn ++ [(s, n)]). split_and!; [by apply prefix_app_r|done|by rewrite H3, <- app_assoc|].
    rewrite Hself. pose proof (looked_mono _ _ (l ++ [WLookup]) _ _ H4 (prefix_app_r _ _ _ (reflexivity l))) as [K1 K2 K3].
    destruct (N.eqb_spec n self) as [->|Hn].
    + destruct (w_shards (W l) !! (self, s)) as [[a m]|] eqn:Es.
      * split.
        -- rewrite map_app, fmap_app. simpl. by apply sublist_app.
        -- intros r [Hr|Hr]%elem_of_app.
           ++ destruct (K2 r Hr) as [K2a K2b]. split; [|exact K2b]. apply elem_of_app. by left.
           ++ apply elem_of_list_singleton in Hr as ->. simpl. split; [apply elem_of_app; right; by apply elem_of_list_singleton|].
              exists l. split; [by apply between_end|]. unfold shard_actor. by rewrite Es.
        -- intros s' n' [Hs|Hs]%elem_of_app.
           ++ destruct (K3 s' n' Hs) as [(r & ? & ?)|?]; [|by right]. left. exists r. split; [|done]. apply elem_of_app. by left.
           ++ apply elem_of_list_singleton in Hs as [= -> ->]. left. exists (RLocal s a). split; [|done].
              apply elem_of_app. right. by apply elem_of_list_singleton.
      * split.
        -- rewrite fmap_app. simpl. by apply sublist_inserts_r.
        -- intros r Hr. destruct (K2 r Hr) as [K2a K2b]. split; [|exact K2b]. apply elem_of_app. by left.
        -- intros s' n' [Hs|Hs]%elem_of_app; [by apply K3|]. apply elem_of_list_singleton in Hs as [= -> ->]. right. split; [done|].
           exists l. split; [by apply between_end|]. unfold shard_runs. rewrite Es. by intros [? ?].
    + split.
      * rewrite map_app, fmap_app. simpl. by apply sublist_app.
      * intros r [Hr|Hr]%elem_of_app.
        -- destruct (K2 r Hr) as [K2a K2b]. split; [|exact K2b]. apply elem_of_app. by left.
        -- apply elem_of_list_singleton in Hr as ->. simpl. split; [|done]. apply elem_of_app. right. by apply elem_of_list_singleton.
      * intros s' n' [Hs|Hs]%elem_of_app.
        -- destruct (K3 s' n' Hs) as [(r & ? & ?)|?]; [|by right]. left. exists r. split; [|done]. apply elem_of_app. by left.
        -- apply elem_of_list_singleton in Hs as [= -> ->]. left. exists (RRemote s n). split; [|done].
           apply elem_of_app. right. by apply elem_of_list_singleton.
  - destruct (w_query (W l)) as [| |cr todo refs|cr slots|r|] eqn:Eq; rewrite ?Eq; try exact Hm.
    destruct (slots !! i) as [[r [x|]]|] eqn:Ei; rewrite ?Eq; try exact Hm. cbn [set_query w_query]. apply stage_finish.
    simpl in H. destruct H as (l0 & ord & sord & H1 & H2 & H3 & H4). pose proof (prefix_app_r l l [WShardAnswers i ok eord] (reflexivity l)) as Hl.
    exists l0, ord, sord. split_and!; [by etrans|done| |].
    + rewrite list_fmap_insert. simpl. rewrite list_insert_id; [by eapply looked_mono|]. by rewrite list_lookup_fmap, Ei.
    + intros r' x' Hr. apply elem_of_list_lookup in Hr as [j Hj]. destruct (decide (j = i)) as [->|Hne].
      * rewrite list_lookup_insert in Hj by (by eapply lookup_lt_Some). injection Hj as <- <-.
        assert (Hb : between l0 l (l ++ [WShardAnswers i ok eord])) by (by apply between_end). destruct ok.
        -- destruct (find_shard (W l) r) as [[[s n] m]|] eqn:Ef.
           ++ exists l, eord, s, n, m. done.
           ++ right. exists l. done.
        -- left. exists (WShardAnswers i false eord). split; [|done]. apply elem_of_app. right. by apply elem_of_list_singleton.
      * rewrite list_lookup_insert_ne in Hj by done. eapply answered_mono; [|exact Hl]. apply H4. apply elem_of_list_lookup. by exists j.
Qed.

Lemma stage_run l : w_query w0 = QNone -> stage l (w_query (W l)).
Proof.
  intros Hq. induction l as [|o l IH] using rev_ind; [|by apply stage_step].
  change (stage [] (w_query w0)). by rewrite Hq.
Qed.


(** * The world during a call *)

Lemma asking_step w o : asking o = true ->
  w_coord (wstep shard_of w o) = w_coord w /\ w_shards (wstep shard_of w o) = w_shards w.
Proof.
  destruct o as [| | | | | | |[] []|[] ? ?| |? [] ?]; try done; intros _; simpl; repeat case_match; done.
Qed.
Lemma asking_run l : Forall (fun o => asking o = true) l -> w_coord (W l) = w_coord w0 /\ w_shards (W l) = w_shards w0.
Proof.
  induction l as [|o l IH] using rev_ind; [done|]. intros [H1 H2]%Forall_app. rewrite wrun_snoc.
  destruct (IH H1) as [<- <-]. inversion H2; subst. by apply asking_step.
Qed.
Lemma wrun_app l1 l2 : W (l1 ++ l2) = wrun shard_of (W l1) l2.
Proof. unfold wrun. by rewrite fold_left_app. Qed.

End run.

Section more.
Variable shard_of : N -> N.

Lemma wstep_coord w o : cwf (w_coord w) -> cwf (w_coord (wstep shard_of w o)).
Proof.
  intros H. destruct o as [c| | | | | | | | | |]; try (simpl; repeat case_match; exact H).
  simpl. destruct (cstep_wf (w_coord w) c H) as (c' & eff & -> & H' & _). exact H'.
Qed.
Lemma wrun_coord l w : cwf (w_coord w) -> cwf (w_coord (wrun shard_of w l)).
Proof. revert w. induction l as [|o l IH]; intros w H; [done|]. simpl. apply IH. by apply wstep_coord. Qed.

(** * Entities are where they belong *)

Definition journal_ids (l : list eentry) : list N := omap (fun e => match e with JStart id _ => Some id | _ => None end) l.
Definition placed (w : world) : Prop :=
  (forall n s a m id, w_shards w !! (n, s) = Some (a, m) -> is_Some (m !! id) -> shard_of id = s) /\
  (forall s l id, w_journal w !! s = Some l -> id ∈ journal_ids l -> shard_of id = s).

Lemma recover_log_dom l : forall (m : sents) id, is_Some (recover_log l m !! id) -> is_Some (m !! id) \/ id ∈ journal_ids l.
Proof.
  induction l as [|e l IH]; intros m id H; [by left|]. simpl in H. apply IH in H as [H|H].
  - destruct e as [i rc|i|i]; simpl in *.
    + destruct (decide (i = id)) as [->|?]; [right; constructor|]. rewrite lookup_insert_ne in H by done. by left.
    + destruct (m !! i) as [[rc st]|] eqn:E; [|by left]. destruct (decide (i = id)) as [->|?]; [left; by eexists|].
      rewrite lookup_insert_ne in H by done. by left.
    + destruct (decide (i = id)) as [->|?]; [rewrite lookup_delete in H; by destruct H|]. rewrite lookup_delete_ne in H by done. by left.
  - right. destruct e; simpl; try done. by constructor.
Qed.

Lemma entity_request_dom (m : sents) q id : is_Some ((on_entity_request m q).1 !! id) -> is_Some (m !! id) \/ id = q_id q.
Proof.
  unfold on_entity_request. destruct (q_known q); [|by left]. destruct (m !! q_id q) as [[rc st]|].
  - destruct (entity_request _ _ _). simpl. destruct (decide (q_id q = id)) as [<-|?]; [by right|]. rewrite lookup_insert_ne by done. by left.
  - destruct (q_recipe q); [|by left]. simpl. destruct (decide (q_id q = id)) as [<-|?]; [by right|]. rewrite lookup_insert_ne by done. by left.
Qed.
Lemma entity_request_kept (m : sents) q id : is_Some (m !! id) -> is_Some ((on_entity_request m q).1 !! id).
Proof.
  intros H. unfold on_entity_request. destruct (q_known q); [|done]. destruct (m !! q_id q) as [[rc st]|].
  - destruct (entity_request _ _ _). simpl. destruct (decide (q_id q = id)) as [<-|?]; [rewrite lookup_insert; by eexists|]. by rewrite lookup_insert_ne.
  - destruct (q_recipe q); [|done]. simpl. destruct (decide (q_id q = id)) as [<-|?]; [rewrite lookup_insert; by eexists|]. by rewrite lookup_insert_ne.
Qed.
Lemma entity_request_creates (m : sents) q id rc : (id, rc) ∈ creates (on_entity_request m q).2 -> id = q_id q.
Proof.
  unfold on_entity_request. destruct (q_known q); [|by intros ?%elem_of_nil]. destruct (m !! q_id q) as [[rc' st]|].
  - unfold entity_request. destruct st; simpl; by intros ?%elem_of_nil.
  - destruct (q_recipe q); simpl; [|by intros ?%elem_of_nil]. intros H. apply elem_of_list_singleton in H. by injection H.
Qed.
Lemma start_result_dom (m : sents) i x id : is_Some ((on_start_result m i x).1 !! id) <-> is_Some (m !! id).
Proof.
  unfold on_start_result. destruct x as [a|]; [|done]. destruct (m !! i) as [[rc st]|] eqn:E; [|done]. simpl.
  destruct (decide (i = id)) as [<-|?]; [|by rewrite lookup_insert_ne]. rewrite lookup_insert, E. split; by eexists.
Qed.

Lemma placed_step w o : placed w -> placed (wstep shard_of w o).
Proof.
  intros [H1 H2]. destruct o as [c|n s|n s|n|n id rc kn p|n id ok|e|kn up|ok ord sord| |i ok eord]; cbn [wstep].
  - destruct (cstep _ _) as [[? ?]|]; by split.
  - destruct (w_shards w !! (n, s)) eqn:E; [by split|]. split; [|done]. simpl. intros n' s' a m id H Hid.
    destruct (decide ((n, s) = (n', s'))) as [[= <- <-]|Hne].
    + rewrite lookup_insert in H. injection H as <- <-. apply recover_log_dom in Hid as [[? Hid]|Hid]; [by rewrite lookup_empty in Hid|].
      destruct (w_journal w !! s) eqn:Ej; simpl in Hid; [by eapply H2|by apply elem_of_nil in Hid].
    + rewrite lookup_insert_ne in H by done. by eapply H1.
  - split; [|done]. simpl. intros n' s' a m id [_ H]%lookup_delete_Some Hid. by eapply H1.
  - split; [|done]. simpl. intros n' s' a m id [H _]%map_filter_lookup_Some Hid. by eapply H1.
  - destruct (w_shards w !! (n, shard_of id)) as [[a m]|] eqn:E; [|by split].
    destruct (on_entity_request m (EReq id rc kn tt)) as [m' eff] eqn:Er. split; simpl.
    + intros n' s' a' m2 id' H Hid. destruct (decide ((n, shard_of id) = (n', s'))) as [[= <- <-]|Hne].
      * rewrite lookup_insert in H. injection H as <- <-. pose proof (entity_request_dom m (EReq id rc kn tt) id') as Hd.
        rewrite Er in Hd. apply Hd in Hid as [Hid| ->]; [by eapply H1|done].
      * rewrite lookup_insert_ne in H by done. by eapply H1.
    + destruct p; [|done]. intros s' l id' H Hid. destruct (decide (shard_of id = s')) as [<-|Hne].
      * rewrite lookup_insert in H. injection H as <-. unfold journal_ids in Hid. rewrite omap_app in Hid. apply elem_of_app in Hid as [Hid|Hid].
        -- destruct (w_journal w !! shard_of id) eqn:Ej; simpl in Hid; [by eapply H2|by apply elem_of_nil in Hid].
        -- apply elem_of_list_omap in Hid as (e & He & Hid). apply elem_of_list_fmap in He as ([i c] & -> & He). simpl in Hid. injection Hid as <-.
           pose proof (entity_request_creates m (EReq id rc kn tt) i c) as Hc. rewrite Er in Hc. by rewrite (Hc He).
      * rewrite lookup_insert_ne in H by done. by eapply H2.
  - destruct (w_shards w !! (n, shard_of id)) as [[a m]|] eqn:E; [|by split]. destruct ok; [|by split]. split; [|done]. simpl.
    intros n' s' a' m2 id' H Hid. destruct (decide ((n, shard_of id) = (n', s'))) as [[= <- <-]|Hne].
    + rewrite lookup_insert in H. injection H as <- <-. exact (H1 _ _ _ _ _ E (proj1 (start_result_dom m id (Some (w_next w)) _) Hid)).
    + rewrite lookup_insert_ne in H by done. by eapply H1.
  - by split.
  - repeat case_match; by split.
  - repeat case_match; by split.
  - repeat case_match; by split.
  - repeat case_match; by split.
Qed.
Lemma placed_run l w : placed w -> placed (wrun shard_of w l).
Proof. revert w. induction l as [|o l IH]; intros w H; [done|]. simpl. apply IH. by apply placed_step. Qed.
Lemma placed_init self leader nodes : placed (world_init self leader nodes).
Proof. split; intros *; simpl; by rewrite lookup_empty. Qed.

(** * Shard actors keep their entities *)

(** [a] is not the number of a shard actor to come; if the shard actor is [a] it has [id]. *)
Definition keeps (n s a id : N) (w : world) : Prop :=
  a < w_next w /\ forall m, w_shards w !! (n, s) = Some (a, m) -> is_Some (m !! id).
Definition absent (n s a : N) (w : world) : Prop := a < w_next w /\ forall m, w_shards w !! (n, s) <> Some (a, m).

Lemma shards_step w o n s a m : a < w_next w -> w_shards (wstep shard_of w o) !! (n, s) = Some (a, m) ->
  exists m0, w_shards w !! (n, s) = Some (a, m0) /\ forall id, is_Some (m0 !! id) -> is_Some (m !! id).
Proof.
  intros Ha. destruct o as [c|n' s'|n' s'|n'|n' id rc kn p|n' id ok|e|kn up|ok ord sord| |i ok eord]; cbn [wstep];
    try (repeat case_match; simpl; intros Hz; by exists m).
  - destruct (w_shards w !! (n', s')) eqn:E; [by exists m|]. simpl. destruct (decide ((n', s') = (n, s))) as [[= -> ->]|Hne].
    + rewrite lookup_insert. intros [= <- <-]. lia.
    + rewrite lookup_insert_ne by done. by exists m.
  - simpl. intros [_ H]%lookup_delete_Some. by exists m.
  - simpl. intros [H _]%map_filter_lookup_Some. by exists m.
  - destruct (w_shards w !! (n', shard_of id)) as [[a0 m0]|] eqn:E; [|by exists m].
    pose proof (entity_request_kept m0 (EReq id rc kn tt)) as Hk.
    destruct (on_entity_request m0 (EReq id rc kn tt)) as [m' eff]. simpl in *.
    destruct (decide ((n', shard_of id) = (n, s))) as [[= -> <-]|Hne].
    + rewrite lookup_insert. intros [= <- <-]. exists m0. by split.
    + rewrite lookup_insert_ne by done. by exists m.
  - destruct (w_shards w !! (n', shard_of id)) as [[a0 m0]|] eqn:E; [|by exists m]. destruct ok; [|by exists m]. simpl.
    destruct (decide ((n', shard_of id) = (n, s))) as [[= -> <-]|Hne].
    + rewrite lookup_insert. intros [= <- <-]. exists m0. split; [done|]. intros i Hi. exact (proj2 (start_result_dom m0 id (Some (w_next w)) i) Hi).
    + rewrite lookup_insert_ne by done. by exists m.
Qed.
Lemma next_step w o : w_next w <= w_next (wstep shard_of w o).
Proof. destruct o; simpl; repeat case_match; simpl; lia. Qed.

Lemma keeps_run l n s a id w : keeps n s a id w -> keeps n s a id (wrun shard_of w l).
Proof.
  revert w. induction l as [|o l IH]; intros w H; [done|]. simpl. apply IH. destruct H as [H1 H2].
  split; [pose proof (next_step w o); lia|]. intros m Hm. destruct (shards_step w o n s a m H1 Hm) as (m0 & H0 & Hk). apply Hk. by apply H2.
Qed.
Lemma absent_run l n s a w : absent n s a w -> absent n s a (wrun shard_of w l).
Proof.
  revert w. induction l as [|o l IH]; intros w H; [done|]. simpl. apply IH. destruct H as [H1 H2].
  split; [pose proof (next_step w o); lia|]. intros m Hm. destruct (shards_step w o n s a m H1 Hm) as (m0 & H0 & Hk). by apply (H2 m0).
Qed.
Lemma numbers_run l w : (forall x a m, w_shards w !! x = Some (a, m) -> a < w_next w) ->
  forall x a m, w_shards (wrun shard_of w l) !! x = Some (a, m) -> a < w_next (wrun shard_of w l).
Proof.
  revert w. induction l as [|o l IH]; intros w H; [done|]. simpl. apply IH. clear IH l.
  intros [n s] a m. destruct (N.lt_ge_cases a (w_next (wstep shard_of w o))) as [?|Hge]; [done|]. pose proof (next_step w o) as Hn.
  destruct o as [c|n' s'|n' s'|n'|n' id rc kn p|n' id ok|e|kn up|ok ord sord| |i ok eord]; cbn [wstep] in *;
    try (repeat case_match; simpl in *; intros Hx; by eapply H).
  - destruct (w_shards w !! (n', s')) eqn:E; [by apply H|]. simpl in *. destruct (decide ((n', s') = (n, s))) as [[= -> ->]|Hne].
    + rewrite lookup_insert. intros [= <- <-]. lia.
    + rewrite lookup_insert_ne by done. intros Hx. apply H in Hx. lia.
  - simpl in *. intros [_ Hx]%lookup_delete_Some. by eapply H.
  - simpl in *. intros [Hx _]%map_filter_lookup_Some. by eapply H.
  - destruct (w_shards w !! (n', shard_of id)) as [[a0 m0]|] eqn:E; [|by apply H].
    destruct (on_entity_request m0 (EReq id rc kn tt)) as [m' eff]. simpl in *.
    destruct (decide ((n', shard_of id) = (n, s))) as [[= -> <-]|Hne].
    + rewrite lookup_insert. intros [= <- <-]. by eapply H.
    + rewrite lookup_insert_ne by done. by apply H.
  - destruct (w_shards w !! (n', shard_of id)) as [[a0 m0]|] eqn:E; [|by apply H]. destruct ok; [|by apply H]. simpl in *.
    destruct (decide ((n', shard_of id) = (n, s))) as [[= -> <-]|Hne].
    + rewrite lookup_insert. intros [= <- <-]. apply H in E. lia.
    + rewrite lookup_insert_ne by done. intros Hx. apply H in Hx. lia.
Qed.

(** The same shard actor at two moments is there in between, and has got all entities it had. *)
Lemma same_actor w l1 l2 n s a : (forall x b m, w_shards w !! x = Some (b, m) -> b < w_next w) ->
  shard_actor w n s = Some a -> shard_actor (wrun shard_of w (l1 ++ l2)) n s = Some a ->
  exists m, w_shards (wrun shard_of w l1) !! (n, s) = Some (a, m) /\ forall id, has_entity w n s id -> is_Some (m !! id).
Proof.
  intros Hnum H1 H2. unfold shard_actor in *. destruct (w_shards w !! (n, s)) as [[b m0]|] eqn:E0; [|done].
  simpl in H1. injection H1 as ->. pose proof (Hnum _ _ _ E0) as Ha.
  assert (Hn : w_next w <= w_next (wrun shard_of w l1)).
  { clear. revert w. induction l1 as [|o l IH]; intros w; simpl; [lia|]. pose proof (next_step w o). specialize (IH (wstep shard_of w o)). 
    change (fold_left (wstep shard_of) l (wstep shard_of w o)) with (wrun shard_of (wstep shard_of w o) l). lia. }
  destruct (w_shards (wrun shard_of w l1) !! (n, s)) as [[b m]|] eqn:E1.
  - destruct (decide (b = a)) as [->|Hne].
    + exists m. split; [done|]. intros id (a1 & m1 & Hm & Hid). rewrite E0 in Hm. injection Hm as <- <-.
      assert (K : keeps n s a id (wrun shard_of w l1)).
      { apply keeps_run. split; [done|]. intros m1 Hm. rewrite E0 in Hm. by injection Hm as <-. }
      by apply K.
    + exfalso. assert (K : absent n s a (wrun shard_of (wrun shard_of w l1) l2)).
      { apply absent_run. split; [lia|]. intros m'. rewrite E1. congruence. }
      rewrite wrun_app in H2. destruct (w_shards (wrun shard_of (wrun shard_of w l1) l2) !! (n, s)) as [[b' m']|] eqn:E2; [|done].
      simpl in H2. injection H2 as ->. by apply (proj2 K m').
  - exfalso. assert (K : absent n s a (wrun shard_of (wrun shard_of w l1) l2)).
    { apply absent_run. split; [lia|]. intros m'. by rewrite E1. }
    rewrite wrun_app in H2. destruct (w_shards (wrun shard_of (wrun shard_of w l1) l2) !! (n, s)) as [[b' m']|] eqn:E2; [|done].
    simpl in H2. injection H2 as ->. by apply (proj2 K m').
Qed.

End more.

(** * Numbers *)

Lemma sum_wraps (l : list listed) : forall z, z < 2 ^ 32 ->
  fold_left (fun z x => (z + ls_count x) mod 2 ^ 32) l z = (z + foldr N.add 0 (map ls_count l)) mod 2 ^ 32.
Proof.
  induction l as [|x l IH]; intros z Hz; simpl.
  - by rewrite N.add_0_r, N.mod_small.
  - rewrite IH by (by apply N.mod_lt). rewrite N.add_mod_idemp_l by done. by rewrite N.add_assoc.
Qed.
Lemma counts_wrap (l : list shard_report) :
  foldr N.add 0 (map ls_count (map listed_of l)) mod 2 ^ 32 = N.of_nat (length (concat (map sr_entities l))) mod 2 ^ 32.
Proof.
  induction l as [|x l IH]; [done|]. cbn [map foldr concat listed_of ls_count]. rewrite app_length, Nat2N.inj_add.
  rewrite N.add_mod_idemp_l by done. rewrite (N.add_mod _ (foldr _ _ _)) by done. rewrite IH. by rewrite <- N.add_mod.
Qed.

Lemma sum_of_nat (l : list nat) : N.of_nat (sum_list l) = foldr N.add 0 (map N.of_nat l).
Proof. induction l as [|x l IH]; [done|]. simpl. rewrite <- IH. lia. Qed.
Lemma sum_list_perm (l l' : list nat) : l ≡ₚ l' -> sum_list l = sum_list l'.
Proof. induction 1; simpl; lia. Qed.

Lemma counts_right_of c ord sord reports : cwf c -> counts_right c (cluster_stats_of (coord_report_of c ord sord) reports).
Proof.
  intros [Hc _]. assert (En : cl_nodes (cluster_stats_of (coord_report_of c ord sord) reports) =
    map (fun x : N * chost => (x.1, N.of_nat (size (h_shards x.2)), h_status x.2)) (arrange ord (c_hosts c))).
  { simpl. by rewrite map_map. }
  unfold counts_right. rewrite En. split_and!.
  - done.
  - change (cl_total_shards _) with (N.of_nat (size (c_shards c))). rewrite (consistent_total c Hc). unfold total_held.
    rewrite sum_of_nat, !map_map. simpl. assert (Hp : map (fun x : N * chost => size (h_shards x.2)) (arrange ord (c_hosts c)) ≡ₚ
      map (fun x : N * chost => size (h_shards x.2)) (map_to_list (c_hosts c))).
    { apply Permutation_map. apply arrange_perm. }
    rewrite <- (map_map (fun x : N * chost => size (h_shards x.2)) N.of_nat (map_to_list _)).
    rewrite <- (map_map (fun x : N * chost => size (h_shards x.2)) N.of_nat (arrange _ _)).
    rewrite <- !sum_of_nat. f_equal. symmetry. by apply sum_list_perm.
  - rewrite map_map. simpl. apply (arrange_NoDup ord (c_hosts c)).
  - intros n k st. split.
    + intros ([n' h] & [= -> -> ->] & H)%elem_of_list_fmap. apply elem_of_arrange in H. exists h. done.
    + intros (h & H & -> & ->). apply elem_of_list_fmap. exists (n, h). split; [done|]. by apply elem_of_arrange.
  - rewrite <- En. done.
  - rewrite <- En. done.
  - intros x (rep & -> & _)%elem_of_list_fmap. done.
  - simpl. rewrite sum_wraps by done. rewrite N.add_0_l, counts_wrap. by rewrite map_map.
Qed.

(** * The call goes on *)

Definition live_query (q : query) : Prop :=
  match q with
  | QLookup _ [] _ => False
  | QShards _ slots => exists i r, slots !! i = Some (r, None)
  | _ => True
  end.
Lemma finish_live q : match q with QLookup _ [] _ => False | _ => True end -> live_query (finish q).
Proof.
  destruct q as [| |cr todo refs|cr slots|r|]; try done. intros _. cbn [finish].
  destruct (all_reports (map snd slots)) as [l|] eqn:E.
  - by destruct (all_reports l).
  - apply all_reports_none in E. apply elem_of_list_fmap in E as ([r x] & E & Hin). simpl in E. subst x.
    apply elem_of_list_lookup in Hin as [i Hi]. by exists i, r.
Qed.
Lemma live_step shard_of w o : live_query (w_query w) -> live_query (w_query (wstep shard_of w o)).
Proof.
  intros H. destruct o as [c|n s|n s|n|n id rc kn p|n id ok|e|kn up|ok ord sord| |i ok eord]; cbn [wstep].
  - by destruct (cstep _ _) as [[? ?]|].
  - by destruct (w_shards w !! _).
  - done.
  - done.
  - destruct (w_shards w !! _) as [[a m]|]; [|done]. by destruct (on_entity_request m _).
  - destruct (w_shards w !! _) as [[a m]|]; [|done]. by destruct ok.
  - done.
  - destruct (w_query w) eqn:Eq; rewrite ?Eq; try done. cbn [set_query w_query]. by destruct (kn && up).
  - destruct (w_query w) eqn:Eq; rewrite ?Eq; try done. cbn [set_query w_query]. destruct ok; [|done].
    apply finish_live. by destruct (cr_shards _).
  - destruct (w_query w) as [| |cr [|[s n] todo] refs|cr slots|r|] eqn:Eq; rewrite ?Eq; try done. cbn [set_query w_query].
    apply finish_live. by destruct todo.
  - destruct (w_query w) as [| |cr todo refs|cr slots|r|] eqn:Eq; rewrite ?Eq; try done.
    destruct (slots !! i) as [[r [x|]]|]; rewrite ?Eq; try done. cbn [set_query w_query]. by apply finish_live.
Qed.
Lemma live_run shard_of l w : live_query (w_query w) -> live_query (w_query (wrun shard_of w l)).
Proof. revert w. induction l as [|o l IH]; intros w H; [done|]. simpl. apply IH. by apply live_step. Qed.

Lemma finish_steps q : (steps_left (finish q) <= steps_left q)%nat.
Proof.
  destruct q as [| |cr todo refs|cr slots|r|]; try done. cbn [finish].
  destruct (all_reports (map snd slots)) as [l|]; [|done]. destruct (all_reports l); simpl; lia.
Qed.
Lemma settle_steps q : steps_left (settle q) = steps_left q.
Proof.
  destruct q as [| |cr [|x todo] refs|cr slots|r|]; try done. simpl. induction refs as [|r refs IH]; [done|]. simpl. by rewrite IH.
Qed.
Lemma open_answer (slots : list (sref * option (option shard_report))) i r x : slots !! i = Some (r, None) ->
  length (List.filter (fun x => match x.2 with None => true | _ => false end) slots) =
  S (length (List.filter (fun x => match x.2 with None => true | _ => false end) (<[i := (r, Some x)]> slots))).
Proof.
  revert i. induction slots as [|[r' y] slots IH]; intros [|i] H; simpl in *; try done.
  - by injection H as -> ->.
  - destruct y; simpl; by rewrite (IH i).
Qed.

(** Some step of the call can be made, and brings it nearer to its end. *)
Lemma call_step shard_of w : open_query (w_query w) -> live_query (w_query w) ->
  exists o, asking o = true /\
    (w_query w = QCoordinator \/ (steps_left (w_query (wstep shard_of w o)) < steps_left (w_query w))%nat) /\
    w_query (wstep shard_of w o) <> QCoordinator.
Proof.
  intros Ho Hl. destruct (w_query w) as [| |cr [|[s n] todo] refs|cr slots|r|] eqn:Eq; try done.
  - exists (WCoordAnswers true [] []). split; [done|]. split; [by left|]. cbn [wstep]. rewrite Eq. cbn [set_query w_query].
    destruct (cr_shards _); simpl; done.
  - exists WLookup. split; [done|]. cbn [wstep]. rewrite Eq. cbn [set_query w_query]. split.
    + right. eapply Nat.le_lt_trans; [apply finish_steps|]. rewrite settle_steps. cbn [steps_left length].
      destruct (n =? w_self w); [destruct (w_shards w !! (n, s)) as [[a m]|]|]; rewrite ?app_length; simpl; lia.
    + destruct todo; simpl; [|done]. destruct (all_reports _) as [l|]; [|done]. by destruct (all_reports l).
  - destruct Hl as (i & r & Hi). exists (WShardAnswers i true []). split; [done|]. cbn [wstep]. rewrite Eq, Hi. cbn [set_query w_query]. split.
    + right. eapply Nat.le_lt_trans; [apply finish_steps|]. cbn [steps_left].
      match goal with |- context [<[i := (r, Some ?x)]> slots] => rewrite (open_answer slots i r x Hi) end. lia.
    + cbn [finish]. destruct (all_reports _) as [l|]; [|done]. by destruct (all_reports l).
Qed.
Lemma call_ends shard_of k : forall w, live_query (w_query w) -> w_query w <> QCoordinator -> (steps_left (w_query w) <= k)%nat ->
  exists l, (length l <= k)%nat /\ Forall (fun o => asking o = true) l /\ ~ open_query (w_query (wrun shard_of w l)).
Proof.
  induction k as [|k IH]; intros w Hl Hc Hk.
  - exists []. split; [done|]. split; [constructor|]. intros Ho. simpl in Ho. destruct (call_step shard_of w Ho Hl) as (o & _ & [?|?] & _); [done|lia].
  - destruct (decide (match w_query w with QCoordinator | QLookup _ _ _ | QShards _ _ => true | _ => false end = true)) as [Ho|Ho].
    + assert (Hop : open_query (w_query w)) by (by destruct (w_query w)).
      destruct (call_step shard_of w Hop Hl) as (o & Ha & [?|Hs] & Hc'); [done|].
      destruct (IH (wstep shard_of w o)) as (l & Hl1 & Hl2 & Hl3); [by apply live_step|done|lia|].
      exists (o :: l). split; [simpl; lia|]. split; [by constructor|]. exact Hl3.
    + exists []. split; [simpl; lia|]. split; [constructor|]. simpl. intros Hop. by destruct (w_query w).
Qed.

(** * Counts of a host *)

Section counts.
Context {R : Type}.
Implicit Types (h : host R).
Definition apart h : Prop := forall s, is_Some (sh_hosted h !! s) -> sh_remote h !! s = None.

Lemma request_apart h s r : apart h -> apart (on_request h s r).1.
Proof.
  intros H. unfold on_request. destruct (sh_hosted h !! s) as [st|] eqn:E.
  - destruct (handle_request s r st). simpl. intros s' Hs. simpl in *. apply H. destruct (decide (s = s')) as [<-|?]; [by eexists|].
    by rewrite lookup_insert_ne in Hs.
  - by destruct (sh_remote h !! s).
Qed.
Lemma requests_apart s q : forall h, apart h -> apart (on_requests h s q).1.
Proof.
  induction q as [|r q IH]; intros h H; [done|]. simpl. pose proof (request_apart h s r H) as H1.
  destruct (on_request h s r) as [h1 e1]. specialize (IH h1 H1). by destruct (on_requests h1 s q).
Qed.
Lemma step_apart h m : apart h -> match m with MReady s _ => is_Some (sh_hosted h !! s) | _ => True end -> apart (hstep h m).1.
Proof.
  intros H Hm. destruct m as [s r|s n|s a|s|s req|s]; cbn [hstep].
  - by apply request_apart.
  - rewrite on_allocated_eq. assert (Hf : apart (allocated_first h s n).1).
    { unfold allocated_first. destruct (n =? sh_node h).
      - simpl. destruct (sh_hosted h !! s) eqn:E; intros s' Hs; simpl in *.
        + destruct (decide (s = s')) as [<-|?]; [by rewrite lookup_delete|]. rewrite lookup_delete_ne by done. by apply H.
        + destruct (decide (s = s')) as [<-|?]; [by rewrite lookup_delete|]. rewrite lookup_delete_ne by done. apply H.
          by rewrite lookup_insert_ne in Hs.
      - intros s' Hs. simpl in *. destruct (decide (s = s')) as [<-|?]; [rewrite lookup_delete in Hs; by destruct Hs|].
        rewrite lookup_insert_ne by done. apply H. by rewrite lookup_delete_ne in Hs. }
    destruct (allocated_first h s n) as [h1 e1]. simpl in *. destruct (sh_pending h1 !! s) as [q|]; [|done].
    pose proof (requests_apart s q (set_pending h1 (delete s (sh_pending h1))) Hf) as Hq. by destruct (on_requests _ s q).
  - intros s' Hs. simpl in *. apply H. destruct (decide (s = s')) as [<-|?]; [done|]. by rewrite lookup_insert_ne in Hs.
  - intros s' Hs. simpl in *. destruct (decide (s = s')) as [<-|?]; [by rewrite lookup_delete|]. rewrite lookup_delete_ne by done. by apply H.
  - unfold on_stop. destruct (sh_hosted h !! s) eqn:E; [|done]. intros s' Hs. simpl in *. apply H.
    destruct (decide (s = s')) as [<-|?]; [by eexists|]. by rewrite lookup_insert_ne in Hs.
  - intros s' Hs. simpl in *. apply H. destruct (decide (s = s')) as [<-|?]; [rewrite lookup_delete in Hs; by destruct Hs|].
    by rewrite lookup_delete_ne in Hs.
Qed.
Lemma run_apart l : forall h, apart h -> expected_ready h l -> apart (hrun h l).1.
Proof.
  induction l as [|m l IH]; intros h H He; [done|]. destruct He as [Hm He]. pose proof (step_apart h m H Hm) as H1. rewrite hrun_cons.
  destruct (hstep h m) as [h1 e1]. specialize (IH h1 H1 He). by destruct (hrun h1 l).
Qed.
Lemma apart_size h : apart h -> (size (sh_hosted h) + size (sh_remote h))%nat = size (known_shards h).
Proof.
  intros H. unfold known_shards. rewrite size_union; [by rewrite !size_dom|]. intros s [? H1]%elem_of_dom [? H2]%elem_of_dom.
  rewrite H in H2; [done|by eexists].
Qed.
End counts.
