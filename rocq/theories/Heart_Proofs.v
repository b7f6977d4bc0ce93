(** Proofs about the heartbeat and the health report. *)
From Verif Require Import Nodes_Model Nodes_Spec Nodes_Proofs Heart_Model Heart_Spec.

Lemma small_leader n : small n -> read_leader (as_i64 n) = Some n.
Proof.
  unfold small, as_i64, read_leader. intros H. assert ((n <? 2 ^ 63)%N = true) as -> by by apply N.ltb_lt.
  assert ((0 <=? Z.of_N n)%Z = true) as -> by (apply Z.leb_le; lia). by rewrite N2Z.id.
Qed.
Lemma large_leader n : ~ small n -> (n < 2 ^ 64)%N -> read_leader (as_i64 n) = None.
Proof.
  unfold small, as_i64, read_leader. intros H Hn. assert ((n <? 2 ^ 63)%N = false) as -> by (apply N.ltb_ge; lia).
  assert ((0 <=? Z.of_N n - 2 ^ 64)%Z = false) as ->; [|done]. apply Z.leb_gt. lia.
Qed.

Section order.
Variable min_date : Z.
Notation choose := (choose min_date).
Notation older := (older min_date).
Notation first := (comes_first min_date).
(** *** The order of nodes *)
Lemma older_first a b : older a b = true <-> first a b.
Proof.
  unfold Heart_Model.older, comes_first, start_of. destruct (Z.compare_spec (default min_date (r_started (s_node a))) (default min_date (r_started (s_node b)))) as [E|E|E].
  - rewrite N.leb_le. split; [auto|]. intros [?|[_ ?]]; [lia|done].
  - split; [auto|done].
  - split; [done|]. intros [?|[? _]]; lia.
Qed.
Lemma older_total a b : older a b = true \/ older b a = true.
Proof. rewrite !older_first. unfold comes_first. lia. Qed.
Lemma older_trans a b c : older a b = true -> older b c = true -> older a c = true.
Proof. rewrite !older_first. unfold comes_first. lia. Qed.
Lemma first_antisym a b : first a b -> first b a -> s_id a = s_id b.
Proof. unfold comes_first. lia. Qed.

Lemma find_first (f : rstate -> bool) (l : list rstate) s : StronglySorted (fun a b => older a b = true) l -> find f l = Some s ->
  s ∈ l /\ f s = true /\ forall x, x ∈ l -> f x = true -> first s x.
Proof.
  induction 1 as [|a l Hs IH Ha]; simpl; [done|]. destruct (f a) eqn:E.
  - intros [= <-]. split_and!; [by left|done|]. intros x [->|Hx]%elem_of_cons Hf.
    + apply older_first. by destruct (older_total a a).
    + apply older_first. rewrite Forall_forall in Ha. by apply Ha.
  - intros (H1 & H2 & H3)%IH. split_and!; [by right|done|]. intros x [->|Hx]%elem_of_cons Hf; [congruence|auto].
Qed.
Lemma healthy_true x : is_healthy x = true <-> x = Healthy.
Proof. by destruct x. Qed.

Lemma choose_oldest l s : choose l = Some s -> oldest_healthy min_date (fun x => x ∈ l) s.
Proof.
  intros H. apply find_first in H as (H1 & H2 & H3); [|apply (stable_sort_sorted _ older_total older_trans)].
  rewrite stable_sort_perm in H1. apply healthy_true in H2. split_and!; [done..|]. intros x Hx Hh. apply H3.
  - by rewrite stable_sort_perm.
  - by apply healthy_true.
Qed.
Lemma choose_none l : choose l = None -> forall x, x ∈ l -> s_status x <> Healthy.
Proof.
  unfold Heart_Model.choose. intros H x Hx Hh. assert (Hx' : x ∈ stable_sort older l) by by rewrite stable_sort_perm.
  apply elem_of_list_In in Hx'. apply (find_none _ _ H) in Hx'. rewrite Hh in Hx'. done.
Qed.

End order.

Section heart.
Variable min_date max_date max_duration : Z.
Variable cf : hconfig.
Context {C : Type}.
Variable rhash : N -> string -> string -> option Z -> N.
Variable search : list N -> N -> nat.
Variable self : N.
Notation hstep := (hstep min_date max_date max_duration cf (C := C) rhash search self).
Notation hrun := (hrun min_date max_date max_duration cf (C := C) rhash search self).
Notation tick := (tick min_date max_date max_duration cf (C := C) rhash search self).
Notation judge := (judge max_date max_duration cf self).
Notation choose := (choose min_date).
Notation older := (older min_date).
Notation new_heart := (new_heart (C := C) rhash self).
Notation first := (comes_first min_date).
Implicit Types (h : heart C).

Lemma hrun_app h l1 l2 : hrun h (l1 ++ l2) = h' ← hrun h l1; hrun h' l2.
Proof.
  revert h. induction l1 as [|o l1 IH]; intros h; [done|]. simpl. destruct (hstep h o); simpl; [apply IH|done].
Qed.
Lemma hrun_snoc h (l : list (hop C)) o h' : hrun h (l ++ [o]) = Some h' -> exists h1, hrun h l = Some h1 /\ hstep h1 o = Some h'.
Proof.
  rewrite hrun_app. destruct (hrun h l) as [h1|]; simpl; [|done]. destruct (hstep h1 o) eqn:E; simpl; [|done].
  intros [= <-]. eauto.
Qed.

(** *** One heartbeat *)
Definition elect h (judged : list rstate) : option N :=
  if h_beaten h then
    match choose judged with
    | Some s => if decide (Some (s_id s) = current_leader h) then None else Some (s_id s)
    | None => None
    end
  else None.

Definition news h h' (n : option N) (nodes : list rnode) : Prop :=
  match n with
  | None => h_leader h' = h_leader h /\ h_up h' = h_up h /\ h_waiting h' = h_waiting h /\ h_told h' = h_told h /\
            h_sent h' = h_sent h
  | Some n => h_leader h' = as_i64 n /\ h_up h' = h_up h || size_reached cf h /\ h_waiting h' = [] /\
              h_told h' = h_told h ++ ((fun c => (c, n)) <$> h_waiting h) /\
              h_sent h' = h_sent h ++ (if negb (h_up h) && size_reached cf h then [EMemberUp n nodes] else []) ++ [ELeader n]
  end.

Lemma tick_inv h ord clock mid h' : tick h ord clock mid = Some h' ->
  exists judged, mapM (judge clock (h_pings h)) (get_all ord (h_store h)) = Some judged /\
    h_store h' = update_nodes (fold_left (dstep rhash search) mid (h_store h)) (stable_sort older judged) /\
    h_pings h' = h_pings h /\ h_beaten h' = true /\ news h h' (elect h judged) (s_node <$> stable_sort older judged).
Proof.
  unfold Heart_Model.tick. destruct (mapM _ _) as [judged|] eqn:E; [|done]. cbn [mbind option_bind].
  intros [= <-]. exists judged. split; [done|]. unfold elect.
  destruct (h_beaten h) eqn:Eb; [|split_and!; done].
  destruct (choose judged) as [s|] eqn:Ec; [|split_and!; done].
  destruct (decide _) as [Hd|Hd]; [split_and!; done|].
  unfold news, size_reached. cbn. destruct (h_up h) eqn:Eu; cbn; rewrite ?Eu; [split_and!; done|].
  destruct (cf_min_size cf) as [m|]; cbn.
  - destruct (N.of_nat (size (h_pings h)) <=? m)%N; cbn; split_and!; try done. by rewrite <- app_assoc.
  - split_and!; try done. by rewrite <- app_assoc.
Qed.

Definition same_ids (d d' : store) : Prop := forall k, is_Some (d_nodes d' !! k) <-> is_Some (d_nodes d !! k).

Lemma judge_id clock ps s s' : judge clock ps s = Some s' -> s_node s' = s_node s.
Proof.
  unfold Heart_Model.judge, update_node. destruct (s_id s =? self)%N; [by intros [= <-]|].
  destruct (ps !! s_id s) as [[]|]; cbn -[node_status];
    (match goal with |- context [node_status ?a ?b ?c ?d ?e ?f ?g] => destruct (node_status a b c d e f g) end;
     [|done]); by intros [= <-].
Qed.

Lemma keyed_hstep h o h' : keyed (h_store h) -> hstep h o = Some h' -> keyed (h_store h').
Proof.
  assert (Ht : forall h ord clock mid h', keyed (h_store h) -> tick h ord clock mid = Some h' -> keyed (h_store h')).
  { intros h0 ord clock mid h0' Hk H. apply tick_inv in H as (judged & _ & -> & _).
    apply (keyed_step rhash search _ (DUpdate _)).
    generalize (h_store h0) Hk. clear -C. induction mid as [|o mid IH]; intros d Hd; simpl; [done|].
    apply IH. by apply keyed_step. }
  intros Hk. destruct o; simpl.
  - by intros [= <-].
  - by apply Ht.
  - apply Ht. cbn [h_store]. by apply (keyed_step rhash search _ (DTerminated n)).
  - by intros [= <-].
  - intros [= <-]. cbn [h_store]. by apply keyed_step.
Qed.
Lemma keyed_new b : keyed (h_store (new_heart b)).
Proof. intros k s. simpl. by rewrite lookup_empty. Qed.
Lemma keyed_hrun b l h : hrun (new_heart b) l = Some h -> keyed (h_store h).
Proof.
  revert h. induction l as [|o l IH] using rev_ind; intros h.
  - intros [= <-]. apply keyed_new.
  - intros (h1 & H1 & H2)%hrun_snoc. eapply keyed_hstep; [|done]. auto.
Qed.

Lemma mapM_judge_in clock ps (l1 l2 : list rstate) s : mapM (judge clock ps) l1 = Some l2 -> s ∈ l1 ->
  exists s', s' ∈ l2 /\ judge clock ps s = Some s'.
Proof.
  intros H%mapM_Some Hs. apply elem_of_list_lookup in Hs as [i Hi].
  destruct (Forall2_lookup_l _ _ _ _ _ H Hi) as (s' & H1 & H2). exists s'. split; [|done]. by eapply elem_of_list_lookup_2.
Qed.
Lemma mapM_judge_from clock ps (l1 l2 : list rstate) s' : mapM (judge clock ps) l1 = Some l2 -> s' ∈ l2 ->
  exists s, s ∈ l1 /\ judge clock ps s = Some s'.
Proof.
  intros H%mapM_Some Hs. apply elem_of_list_lookup in Hs as [i Hi].
  destruct (Forall2_lookup_r _ _ _ _ _ H Hi) as (s & H1 & H2). exists s. split; [|done]. by eapply elem_of_list_lookup_2.
Qed.

Lemma tick_record h ord clock mid h' n s : keyed (h_store h) -> tick h ord clock mid = Some h' ->
  record (h_store h) n = Some s -> exists s', judge clock (h_pings h) s = Some s' /\ record (h_store h') n = Some s'.
Proof.
  intros Hk H Hs. apply tick_inv in H as (judged & Hm & -> & _).
  assert (Hin : s ∈ get_all ord (h_store h)). { apply elem_get_all; [done|]. rewrite (Hk _ _ Hs). done. }
  destruct (mapM_judge_in _ _ _ _ _ Hm Hin) as (s' & Hs' & Hj). exists s'. split; [done|].
  rewrite update_record. destruct (find _ _) as [x|] eqn:E.
  - apply find_some in E as [E1 E2%N.eqb_eq]. apply in_rev, elem_of_list_In in E1. rewrite stable_sort_perm in E1.
    destruct (mapM_judge_from _ _ _ _ _ Hm E1) as (y & Hy & Hjy). apply elem_get_all in Hy; [|done].
    assert (Hid : s_id y = n) by (rewrite <- E2; unfold s_id; by rewrite (judge_id _ _ _ _ Hjy)).
    rewrite Hid in Hy. unfold record in Hs. congruence.
  - exfalso. assert (Hx : In s' (rev (stable_sort older judged))).
    { apply in_rev. rewrite rev_involutive. apply elem_of_list_In. by rewrite stable_sort_perm. }
    apply (find_none _ _ E) in Hx. apply N.eqb_neq in Hx. apply Hx. rewrite <- (Hk _ _ Hs).
    unfold s_id. by rewrite (judge_id _ _ _ _ Hj).
Qed.

Lemma tick_viewed h ord clock mid h' judged s : keyed (h_store h) -> tick h ord clock mid = Some h' ->
  mapM (judge clock (h_pings h)) (get_all ord (h_store h)) = Some judged -> s ∈ judged <-> viewed h h' s.
Proof.
  intros Hk Ht Hm. unfold viewed. split.
  - intros Hs. destruct (mapM_judge_from _ _ _ _ _ Hm Hs) as (y & Hy & Hj).
    apply elem_get_all in Hy; [|done]. assert (Hid : s_id s = s_id y) by (unfold s_id; by rewrite (judge_id _ _ _ _ Hj)).
    rewrite Hid. split; [by eexists|]. destruct (tick_record _ _ _ _ _ _ _ Hk Ht Hy) as (s' & Hj' & ->). congruence.
  - intros [[y Hy] Hs]. destruct (tick_record _ _ _ _ _ _ _ Hk Ht Hy) as (s' & Hj' & Hs').
    assert (s' = s) as -> by congruence.
    assert (Hin : y ∈ get_all ord (h_store h)). { apply elem_get_all; [done|]. rewrite (Hk _ _ Hy). done. }
    destruct (mapM_judge_in _ _ _ _ _ Hm Hin) as (s'' & Hs'' & Hj''). congruence.
Qed.

(** *** Histories *)
Definition before_tick h (o : hop C) : heart C :=
  match o with
  | HTerminated n _ _ _ => Heart (node_terminated (h_store h) n) (delete n (h_pings h)) (h_leader h) (h_beaten h) (h_up h)
                  (h_waiting h) (h_told h) (h_sent h)
  | _ => h
  end.

(** Every step is a heartbeat or leaves leadership alone. *)
Lemma hstep_cases h o h' : hstep h o = Some h' ->
  (exists ord clock mid, beats o = Some clock /\ tick (before_tick h o) ord clock mid = Some h') \/
  (beats o = None /\ h_leader h' = h_leader h /\ h_beaten h' = h_beaten h /\ h_up h' = h_up h /\
   h_told h' = h_told h /\ h_sent h' = h_sent h /\
   h_waiting h' = h_waiting h ++ match o with HWait c => [c] | _ => [] end).
Proof.
  destruct o; simpl; intros H; try (left; by eauto); right; injection H as <-; simpl; rewrite ?app_nil_r; done.
Qed.
Lemma before_tick_same h o : h_leader (before_tick h o) = h_leader h /\ h_beaten (before_tick h o) = h_beaten h /\
  h_up (before_tick h o) = h_up h /\ h_told (before_tick h o) = h_told h /\ h_sent (before_tick h o) = h_sent h /\
  h_waiting (before_tick h o) = h_waiting h.
Proof. by destruct o. Qed.
Lemma before_tick_keyed h o : keyed (h_store h) -> keyed (h_store (before_tick h o)).
Proof. intros Hk. destruct o; try done. simpl. by apply (keyed_step rhash search _ (DTerminated n)). Qed.
Lemma before_tick_ids h o k : is_Some (record (h_store (before_tick h o)) k) <-> is_Some (record (h_store h) k).
Proof.
  destruct o; try done. simpl. unfold record. simpl. destruct (decide (n = k)) as [->|Hne].
  - rewrite lookup_alter. by rewrite fmap_is_Some.
  - by rewrite lookup_alter_ne.
Qed.

Lemma pings_run b l h n : hrun (new_heart b) l = Some h -> h_pings h !! n = last_ping l n.
Proof.
  revert h. induction l as [|o l IH] using rev_ind; intros h.
  - intros [= <-]. done.
  - intros (h1 & H1 & H2)%hrun_snoc. unfold last_ping. rewrite rev_app_distr. simpl.
    specialize (IH _ H1). unfold last_ping in IH. destruct o as [m p|ord clock mid|m ord clock mid|c|d]; simpl in H2.
    + injection H2 as <-. simpl. destruct (m =? n)%N eqn:E.
      * apply N.eqb_eq in E as ->. by rewrite lookup_insert.
      * apply N.eqb_neq in E. by rewrite lookup_insert_ne.
    + apply tick_inv in H2 as (j & _ & _ & -> & _). done.
    + apply tick_inv in H2 as (j & _ & _ & -> & _). simpl. destruct (m =? n)%N eqn:E.
      * apply N.eqb_eq in E as ->. by rewrite lookup_delete.
      * apply N.eqb_neq in E. by rewrite lookup_delete_ne.
    + by injection H2 as <-.
    + by injection H2 as <-.
Qed.

Lemma beaten_run b l h : hrun (new_heart b) l = Some h -> h_beaten h = true <-> beaten l.
Proof.
  revert h. induction l as [|o l IH] using rev_ind; intros h.
  - intros [= <-]. split; [done|]. intros (o & ?%elem_of_nil & _). done.
  - intros (h1 & H1 & H2)%hrun_snoc. specialize (IH _ H1). unfold beaten in *. setoid_rewrite elem_of_app.
    destruct (hstep_cases _ _ _ H2) as [(ord & clock & mid & Hb & Ht)|(Hb & _ & E & _)].
    + apply tick_inv in Ht as (j & _ & _ & _ & -> & _). split; [|done]. intros _. exists o.
      split; [right; by left|]. rewrite Hb. by eexists.
    + rewrite E, IH. split.
      * intros (o' & Ho & Hs). eauto.
      * intros (o' & [Ho|Ho%elem_of_list_singleton] & Hs); [eauto|]. subst o'. rewrite Hb in Hs. by destruct Hs.
Qed.

(** *** The status after a heartbeat *)
(** A node other than this one, as it was when the heartbeat looked at it: a node reported
    gone was marked at once. *)
Definition seen (o : hop C) (s : rstate) : rstate :=
  match o with
  | HTerminated m _ _ _ => if (m =? s_id s)%N then RState (s_node s) (s_latency s) (s_beat s) Terminated else s
  | _ => s
  end.
Lemma step_record b l h o h' clock n s : hrun (new_heart b) l = Some h -> hstep h o = Some h' -> beats o = Some clock ->
  record (h_store h) n = Some s -> n <> self ->
  exists s', update_node max_date max_duration cf (clock n) (seen o s) (last_ping (l ++ [o]) n) = Some s' /\
             record (h_store h') n = Some s'.
Proof.
  intros Hr Hs Hb Hrec Hn. pose proof (keyed_hrun _ _ _ Hr) as Hk.
  assert (Hp : h_pings h' !! n = last_ping (l ++ [o]) n).
  { apply (pings_run b). rewrite hrun_app, Hr. simpl. by rewrite Hs. }
  destruct (hstep_cases _ _ _ Hs) as [(ord & clock' & mid & Hb' & Ht)|(Hb' & _)]; [|congruence].
  assert (clock' = clock) as -> by congruence.
  assert (Hrec' : record (h_store (before_tick h o)) n = Some (seen o s)).
  { destruct o; try done. simpl. unfold record. simpl. rewrite <- (Hk _ _ Hrec). destruct (n0 =? s_id s)%N eqn:E.
    - apply N.eqb_eq in E as ->. rewrite lookup_alter. unfold record in Hrec. rewrite (Hk _ _ Hrec), Hrec. done.
    - apply N.eqb_neq in E. rewrite lookup_alter_ne by done. unfold record in Hrec. by rewrite (Hk _ _ Hrec). }
  destruct (tick_record _ _ _ _ _ _ _ (before_tick_keyed _ o Hk) Ht Hrec') as (s' & Hj & Hs').
  exists s'. split; [|done]. apply tick_inv in Ht as (j & _ & _ & Hpe & _). rewrite <- Hp, Hpe.
  assert (Hid : s_id (seen o s) = n).
  { rewrite <- (Hk _ _ Hrec). destruct o; try done. simpl. by destruct (_ =? _)%N. }
  unfold Heart_Model.judge in Hj. rewrite Hid in Hj. by destruct (N.eqb_spec n self).
Qed.

Lemma step_self b l h o h' clock s : hrun (new_heart b) l = Some h -> hstep h o = Some h' -> beats o = Some clock ->
  record (h_store h) self = Some s -> 
  exists s', record (h_store h') self = Some s' /\ s_status s' = Healthy /\ s_beat s' = Some (clock self).
Proof.
  intros Hr Hs Hb Hrec. pose proof (keyed_hrun _ _ _ Hr) as Hk.
  destruct (hstep_cases _ _ _ Hs) as [(ord & clock' & mid & Hb' & Ht)|(Hb' & _)]; [|congruence].
  assert (clock' = clock) as -> by congruence.
  destruct (proj2 (before_tick_ids h o self) (ex_intro _ _ Hrec)) as [s0 Hs0].
  pose proof (before_tick_keyed _ o Hk) as Hk'.
  destruct (tick_record _ _ _ _ _ _ _ Hk' Ht Hs0) as (s' & Hj & Hs').
  exists s'. split; [done|]. unfold Heart_Model.judge in Hj. rewrite (Hk' _ _ Hs0), N.eqb_refl in Hj. by injection Hj as <-.
Qed.

(** *** Leadership *)
(** What a heartbeat publishes. *)
Lemma step_events h o h' : keyed (h_store h) -> hstep h o = Some h' ->
  (published h h' [] /\ h_leader h' = h_leader h /\ h_up h' = h_up h /\ h_told h' = h_told h /\
   h_waiting h' = h_waiting h ++ match o with HWait c => [c] | _ => [] end /\
   (is_Some (beats o) -> h_beaten h = true ->
     forall s, oldest_healthy min_date (viewed h h') s -> current_leader h = Some (s_id s))) \/
  (exists n e, published h h' (e ++ [ELeader n]) /\ h_leader h' = as_i64 n /\ h_beaten h = true /\ is_Some (beats o) /\
   h_waiting h' = [] /\ h_told h' = h_told h ++ ((fun c => (c, n)) <$> h_waiting h) /\ current_leader h <> Some n /\
   (exists s, oldest_healthy min_date (viewed h h') s /\ s_id s = n) /\
   ((h_up h = false /\ size_reached cf h' = true /\ h_up h' = true /\
     exists nodes, e = [EMemberUp n nodes] /\ forall m, m ∈ nodes <-> exists s, viewed h h' s /\ s_node s = m) \/
    ((h_up h = true \/ size_reached cf h' = false) /\ h_up h' = h_up h /\ e = []))).
Proof.
  intros Hk Hs. unfold published.
  destruct (hstep_cases _ _ _ Hs) as [(ord & clock & mid & Hb & Ht)|(Hb & E1 & E2 & E3 & E4 & E5 & E6)].
  2:{ left. rewrite app_nil_r. split_and!; try done. rewrite Hb. by intros [? ?]. }
  pose proof (before_tick_keyed _ o Hk) as Hk'. destruct (before_tick_same h o) as (B1 & B2 & B3 & B4 & B5 & B6).
  pose proof Ht as Ht'. apply tick_inv in Ht' as (judged & Hm & Hst & Hpe & Hbe & Hn).
  assert (HV : forall s, s ∈ judged <-> viewed h h' s).
  { intros s. rewrite (tick_viewed _ _ _ _ _ _ s Hk' Ht Hm). unfold viewed. by rewrite before_tick_ids. }
  assert (HO : forall s, choose judged = Some s -> oldest_healthy min_date (viewed h h') s).
  { intros s (H1 & H2 & H3)%choose_oldest. split_and!; [by apply HV|done|]. intros x Hx. apply H3. by apply HV. }
  unfold elect in Hn. unfold current_leader in Hn. rewrite B1, B2 in Hn. unfold news in Hn.
  rewrite B1, B3, B4, B5, B6 in Hn.
  assert (Hsz : size_reached cf (before_tick h o) = size_reached cf h') by (unfold size_reached; by rewrite Hpe).
  rewrite Hsz in Hn. clear Hsz.
  destruct (h_beaten h) eqn:Eb.
  2:{ left. destruct Hn as (? & ? & ? & ? & ?). rewrite app_nil_r. split_and!; try done.
      destruct o; simpl in *; rewrite ?app_nil_r; done. }
  destruct (choose judged) as [s|] eqn:Ec.
  2:{ left. destruct Hn as (? & ? & ? & ? & ?). rewrite app_nil_r. split_and!; try done.
      - destruct o; simpl in *; rewrite ?app_nil_r; done.
      - intros _ _ x (Hx & Hh & _). apply HV in Hx. by destruct (choose_none _ _ Ec x Hx). }
  destruct (decide (Some (s_id s) = read_leader (h_leader h))) as [Hd|Hd].
  { left. destruct Hn as (? & ? & ? & ? & ?). rewrite app_nil_r. split_and!; try done.
    - destruct o; simpl in *; rewrite ?app_nil_r; done.
    - intros _ _ x (Hx & Hh & Hx'). unfold current_leader. rewrite <- Hd. f_equal.
      destruct (HO s eq_refl) as (W1 & W2 & W3). apply (first_antisym min_date); [by apply W3|by apply Hx']. }
  right. exists (s_id s). destruct Hn as (N1 & N2 & N3 & N4 & N5). eexists. split; [exact N5|].
  split; [done|]. split; [done|]. split; [by rewrite Hb|]. split; [done|]. split; [done|].
  split; [unfold current_leader; congruence|]. split; [by exists s; auto|].
  destruct (h_up h) eqn:Eu; simpl; [right; split_and!; try done; by left|].
  destruct (size_reached cf h') eqn:Er; [left|right; split_and!; try done; by right]. split_and!; try done.
  eexists. split; [done|]. intros m. rewrite elem_of_list_fmap. setoid_rewrite stable_sort_perm. setoid_rewrite HV.
  split; intros (x & ? & ?); exists x; auto.
Qed.

Lemma omap_app' {A B} (f : A -> option B) (l1 l2 : list A) : omap f (l1 ++ l2) = omap f l1 ++ omap f l2.
Proof. apply omap_app. Qed.
Lemma leaders_app l1 l2 : leaders (l1 ++ l2) = leaders l1 ++ leaders l2.
Proof. apply omap_app. Qed.
Lemma ups_app l1 l2 : ups (l1 ++ l2) = ups l1 ++ ups l2.
Proof. apply omap_app. Qed.

Lemma waiting_run b l h : hrun (new_heart b) l = Some h -> (h_told h).*1 ++ h_waiting h = waits l.
Proof.
  revert h. induction l as [|o l IH] using rev_ind; intros h.
  - by intros [= <-].
  - intros (h1 & H1 & H2)%hrun_snoc. specialize (IH _ H1). unfold waits in *. rewrite omap_app, <- IH. simpl.
    destruct (step_events _ _ _ (keyed_hrun _ _ _ H1) H2) as [(_ & _ & _ & -> & -> & _)|(n & e & _ & _ & _ & Hb & -> & -> & _)].
    + rewrite app_assoc. f_equal. by destruct o.
    + rewrite fmap_app, <- list_fmap_compose. simpl. rewrite app_nil_r.
      assert (((fun x : C => x) <$> h_waiting h1) = h_waiting h1) as E by apply list_fmap_id.
      unfold compose. cbn [fst]. rewrite E. destruct o; simpl in Hb |- *; rewrite ?app_nil_r; try done; by destruct Hb.
Qed.

Lemma leader_run l h : hrun (new_heart false) l = Some h -> Forall small (leaders (h_sent h)) ->
  current_leader h = last (leaders (h_sent h)).
Proof.
  revert h. induction l as [|o l IH] using rev_ind; intros h.
  - by intros [= <-] _.
  - intros (h1 & H1 & H2)%hrun_snoc HF. specialize (IH _ H1).
    destruct (step_events _ _ _ (keyed_hrun _ _ _ H1) H2) as [(P & L & _)|(n & e & P & L & _)]; unfold published in P.
    + unfold current_leader. rewrite app_nil_r in P. rewrite P in *. rewrite L. by apply IH.
    + rewrite P, leaders_app, leaders_app in *. simpl in *. rewrite app_assoc, last_snoc. unfold current_leader. rewrite L.
      apply small_leader. rewrite !Forall_app, Forall_singleton in HF. apply HF.
Qed.

Lemma leader_run_single l h : hrun (new_heart true) l = Some h -> small self -> Forall small (leaders (h_sent h)) ->
  current_leader h = last (self :: leaders (h_sent h)).
Proof.
  revert h. induction l as [|o l IH] using rev_ind; intros h.
  - intros [= <-] Hs _. by apply small_leader.
  - intros (h1 & H1 & H2)%hrun_snoc Hsm HF. specialize (IH _ H1 Hsm).
    destruct (step_events _ _ _ (keyed_hrun _ _ _ H1) H2) as [(P & L & _)|(n & e & P & L & _)]; unfold published in P.
    + unfold current_leader. rewrite app_nil_r in P. rewrite P in *. rewrite L. by apply IH.
    + rewrite P, leaders_app, leaders_app in *. simpl in *. rewrite app_assoc, app_comm_cons, last_snoc. unfold current_leader. rewrite L.
      apply small_leader. rewrite !Forall_app, Forall_singleton in HF. apply HF.
Qed.

Lemma leaders_up n nodes : leaders [EMemberUp n nodes] = [].
Proof. done. Qed.

Lemma leaders_change l h : hrun (new_heart false) l = Some h -> Forall small (leaders (h_sent h)) ->
  forall l1 a b l2, leaders (h_sent h) = l1 ++ a :: b :: l2 -> a <> b.
Proof.
  revert h. induction l as [|o l IH] using rev_ind; intros h.
  - intros [= <-] _ [|] ? ? ? ?; done.
  - intros (h1 & H1 & H2)%hrun_snoc HF. specialize (IH _ H1).
    destruct (step_events _ _ _ (keyed_hrun _ _ _ H1) H2) as [(P & _)|(n & e & P & L & Hb & _ & _ & _ & Hne & _ & He)];
      unfold published in P.
    + rewrite app_nil_r in P. rewrite P in *. by apply IH.
    + assert (El : leaders (h_sent h) = leaders (h_sent h1) ++ [n]).
      { rewrite P, !leaders_app. destruct He as [(_ & _ & _ & nodes & -> & _)|(_ & _ & ->)]; done. }
      rewrite El in *. apply Forall_app in HF as [HF _]. intros l1 a b l2 E.
      destruct l2 as [|c l2 _] using rev_ind.
      * assert (leaders (h_sent h1) = l1 ++ [a] /\ n = b) as [E1 ->].
        { replace (l1 ++ [a; b]) with ((l1 ++ [a]) ++ [b]) in E by by rewrite <- app_assoc. by apply app_inj_2 in E as [? [= ->]]. }
        pose proof (leader_run _ _ H1 HF) as HL. rewrite E1, last_snoc in HL. congruence.
      * replace (l1 ++ a :: b :: l2 ++ [c]) with ((l1 ++ a :: b :: l2) ++ [c]) in E by by rewrite <- app_assoc.
        apply app_inj_2 in E as [E _]; [|done]. by apply (IH HF l1 a b l2).
Qed.

Lemma up_run b l h : hrun (new_heart b) l = Some h -> length (ups (h_sent h)) = if h_up h then 1%nat else 0%nat.
Proof.
  revert h. induction l as [|o l IH] using rev_ind; intros h.
  - by intros [= <-].
  - intros (h1 & H1 & H2)%hrun_snoc. specialize (IH _ H1).
    destruct (step_events _ _ _ (keyed_hrun _ _ _ H1) H2) as [(P & _ & -> & _)|(n & e & P & _ & _ & _ & _ & _ & _ & _ & He)];
      unfold published in P.
    + rewrite app_nil_r in P. by rewrite P.
    + rewrite P, !ups_app. simpl. destruct He as [(E1 & _ & E2 & nodes & -> & _)|(_ & -> & ->)].
      * rewrite E1 in IH. rewrite E2. simpl. rewrite app_length, IH. done.
      * simpl. rewrite !app_nil_r. done.
Qed.

Lemma no_minimum b l h : cf_min_size cf = None -> hrun (new_heart b) l = Some h ->
  take 1 (leaders (h_sent h)) = ups (h_sent h).
Proof.
  intros Hc. revert h. induction l as [|o l IH] using rev_ind; intros h.
  - by intros [= <-].
  - intros (h1 & H1 & H2)%hrun_snoc. specialize (IH _ H1). pose proof (up_run _ _ _ H1) as Hu.
    destruct (step_events _ _ _ (keyed_hrun _ _ _ H1) H2) as [(P & _ & _)|(n & e & P & _ & _ & _ & _ & _ & _ & _ & He)];
      unfold published in P.
    + rewrite app_nil_r in P. by rewrite P.
    + rewrite P, !ups_app, !leaders_app. simpl. destruct He as [(E1 & _ & E2 & nodes & -> & _)|([E|E] & _ & ->)].
      * rewrite E1 in Hu. destruct (ups (h_sent h1)); [|done]. simpl.
        destruct (leaders (h_sent h1)); [done|]. done.
      * rewrite E in Hu. simpl. rewrite app_nil_r, <- IH. destruct (leaders (h_sent h1)); [|done]. rewrite <- IH in Hu. done.
      * unfold size_reached in E. by rewrite Hc in E.
Qed.

(** *** A cluster of one, started as such *)
Definition only_self (d : store) : Prop := forall k s, d_nodes d !! k = Some s -> k = self.
Definition about_self (o : dop) : Prop :=
  match o with DAdd _ n => r_id n = self | DUpdate u => Forall (fun s => s_id s = self) u | _ => True end.
Lemma only_self_step d o : keyed d -> only_self d -> about_self o -> only_self (dstep rhash search d o).
Proof.
  intros Hk H Ho. destruct o as [ord n|u|n|n]; simpl in *; intros k s Hs.
  - pose proof (add_record rhash ord d n k Hk) as Ha. unfold record in Ha. rewrite Hs in Ha.
    destruct (decide (k = r_id n)) as [->|]; [done|]. symmetry in Ha. by apply H in Ha.
  - destruct (update_cases d u k s Hs) as [[Hin Hid]|[H' _]]; [|by eapply H].
    rewrite Forall_forall in Ho. rewrite <- Hid. by apply Ho.
  - unfold node_terminated in Hs. cbn [d_nodes] in Hs. destruct (decide (n = k)) as [->|].
    + rewrite lookup_alter in Hs. apply fmap_Some in Hs as (x & Hx & _). by eapply H.
    + rewrite lookup_alter_ne in Hs by done. by eapply H.
  - unfold remove_node in Hs. destruct (d_nodes d !! n) eqn:E; [|by eapply H]. simpl in Hs.
    apply lookup_delete_Some in Hs as [_ Hs]. by eapply H.
Qed.
Lemma only_self_fold l d : keyed d -> only_self d -> Forall about_self l -> only_self (fold_left (dstep rhash search) l d).
Proof.
  revert d. induction l as [|o l IH]; intros d Hk H HF; [done|]. apply Forall_cons in HF as [H1 H2]. simpl.
  apply IH; [by apply keyed_step|by apply only_self_step|done].
Qed.
Definition lonely (o : hop C) : Prop :=
  match o with HTick _ _ mid | HTerminated _ _ _ mid => Forall about_self mid | HRegistry o => about_self o | _ => True end.

Lemma lonely_run l h : small self -> hrun (new_heart true) l = Some h -> Forall lonely l ->
  only_self (h_store h) /\ h_sent h = [] /\ h_told h = [] /\ current_leader h = Some self.
Proof.
  intros Hsm. revert h. induction l as [|o l IH] using rev_ind; intros h.
  - intros [= <-] _. split; [intros k s; simpl; by rewrite lookup_empty|]. split_and!; try done. by apply small_leader.
  - intros (h1 & H1 & H2)%hrun_snoc [HF [Ho _]%Forall_cons]%Forall_app.
    destruct (IH _ H1 HF) as (I1 & I2 & I3 & I4). pose proof (keyed_hrun _ _ _ H1) as Hk.
    assert (HS : only_self (h_store h)).
    { assert (Ht : forall h0 ord clock mid, keyed (h_store h0) -> only_self (h_store h0) -> Forall about_self mid ->
        tick h0 ord clock mid = Some h -> only_self (h_store h)).
      { intros h0 ord clock mid Hk0 Hs0 Hm Ht. apply tick_inv in Ht as (j & Hj & -> & _).
        apply (only_self_step _ (DUpdate _)); [| |].
        - clear -Hk0. revert Hk0. generalize (h_store h0). induction mid as [|x mid IHm]; intros d Hd; [done|]. simpl.
          apply IHm. by apply keyed_step.
        - by apply only_self_fold.
        - simpl. apply Forall_forall. intros x Hx. rewrite stable_sort_perm in Hx.
          destruct (mapM_judge_from _ _ _ _ _ Hj Hx) as (y & Hy & Hjy). apply elem_get_all in Hy; [|done].
          apply Hs0 in Hy. unfold s_id. rewrite (judge_id _ _ _ _ Hjy). done. }
      destruct o as [m p|ord clock mid|m ord clock mid|c|d]; simpl in H2, Ho.
      - by injection H2 as <-.
      - eapply Ht; [exact Hk|exact I1|exact Ho|exact H2].
      - eapply Ht; [| | |exact H2]; [| |done]; cbn [h_store].
        + by apply (keyed_step rhash search _ (DTerminated m)).
        + by apply (only_self_step _ (DTerminated m)).
      - by injection H2 as <-.
      - injection H2 as <-. cbn [h_store]. by apply only_self_step. }
    split; [done|].
    destruct (step_events _ _ _ Hk H2) as [(P & L & _ & T & _)|(n & e & P & L & _ & _ & _ & _ & Hne & (s & (Hv & _) & <-) & _)];
      unfold published in P.
    + rewrite P, T. unfold current_leader. rewrite L. by rewrite I2, I3.
    + exfalso. apply Hne. rewrite I4. f_equal. destruct Hv as [_ Hv]. by apply HS in Hv.
Qed.
End heart.

(** ** Health *)
Section health.
Variable answer : checked -> option N.

Lemma examine_spec (l : list (string * option N)) e s :
  (fst (examine l e s) = true <-> e = true \/ exists x, x ∈ l /\ snd x = None) /\
  ((forall x, x ∈ l -> snd x <> None) ->
   snd (examine l e s) = true <-> s = true \/ exists x t, x ∈ l /\ snd x = Some t /\ (slow < t)%N).
Proof using.
  revert e s. induction l as [|[k [t|]] l IH]; intros e s; simpl.
  - split; [|intros _]; (split; [auto|]); intros [?|?]; try done.
    + destruct H as (x & ?%elem_of_nil & _). done.
    + destruct H as (x & t & ?%elem_of_nil & _). done.
  - destruct (IH e (if (slow <? t)%N then true else s)) as [H1 H2]. split.
    + rewrite H1. apply or_iff_compat_l. split; intros (x & Hx & Hn); exists x; [split; [by right|done]|].
      apply elem_of_cons in Hx as [->|]; [done|auto].
    + intros Hl. rewrite H2 by (intros x Hx; apply Hl; by right). split.
      * intros [Hs|(x & t' & Hx & He & Ht)].
        -- destruct (slow <? t)%N eqn:E; [|by left]. right. exists (k, Some t), t. split_and!; [by left|done|by apply N.ltb_lt].
        -- right. exists x, t'. split_and!; [by right|done..].
      * intros [->|(x & t' & Hx & He & Ht)]; [left; by destruct (_ <? _)%N|].
        apply elem_of_cons in Hx as [->|Hx]; [|right; by exists x, t'].
        simpl in He. injection He as ->. left. by rewrite (proj2 (N.ltb_lt _ _) Ht).
  - split.
    + split; [|done]. intros _. right. exists (k, None). split; [by left|done].
    + intros Hl. by destruct (Hl (k, None) (elem_of_list_here _ _)).
Qed.

Lemma elem_checks (l : list checked) x : x ∈ checks answer l <-> exists a, a ∈ l /\ x = (report_key a, answer a).
Proof using. unfold checks. rewrite elem_of_list_fmap. split; intros (a & ? & ?); eauto. Qed.

Lemma health_status l :
  (fst (health answer l) = SysUnhealthy <-> exists a, a ∈ l /\ answer a = None) /\
  (fst (health answer l) = SysDegraded <->
     (forall a, a ∈ l -> answer a <> None) /\ exists a t, a ∈ l /\ answer a = Some t /\ (slow < t)%N) /\
  (fst (health answer l) = SysHealthy <-> forall a, a ∈ l -> exists t, answer a = Some t /\ (t <= slow)%N).
Proof using.
  destruct (examine_spec (checks answer l) false false) as [H1 H2].
  assert (H1' : (examine (checks answer l) false false).1 = true <-> exists a, a ∈ l /\ answer a = None).
  { rewrite H1. split.
    - intros [?|(x & (a & Ha & ->)%elem_checks & Hn)]; [done|]. eauto.
    - intros (a & Ha & Hn). right. exists (report_key a, answer a). split; [|done]. apply elem_checks. eauto. }
  assert (H2' : (forall a, a ∈ l -> answer a <> None) -> (examine (checks answer l) false false).2 = true <->
     exists a t, a ∈ l /\ answer a = Some t /\ (slow < t)%N).
  { intros Hl. rewrite H2 by (intros x (a & Ha & ->)%elem_checks; by apply Hl). split.
    - intros [?|(x & t & (a & Ha & ->)%elem_checks & Hn & Ht)]; [done|]. eauto.
    - intros (a & t & Ha & Hn & Ht). right. exists (report_key a, answer a), t. split_and!; try done. apply elem_checks. eauto. }
  clear H1 H2. unfold health. destruct (examine _ _ _) as [e s]. simpl in *.
  destruct e.
  - destruct (proj1 H1' eq_refl) as (a & Ha & Hn). split; [split; [by eauto|done]|]. split; (split; [done|]).
    + intros [Hl _]. by destruct (Hl a Ha).
    + intros Hl. destruct (Hl a Ha) as (t & Ht & _). congruence.
  - assert (Hl : forall a, a ∈ l -> answer a <> None).
    { intros a Ha Hn. assert (false = true) as HH by (apply H1'; eauto). done. }
    specialize (H2' Hl). destruct s.
    + destruct (proj1 H2' eq_refl) as (a & t & Ha & Hn & Ht). split; [split; [done|]|split; [split; [by eauto 10|done]|split; [done|]]].
      * intros (b & Hb & Hbn). by destruct (Hl b Hb).
      * intros Hg. destruct (Hg a Ha) as (t' & Ht' & ?). assert (t' = t) by congruence. lia.
    + split; [split; [done|]|split; [split; [done|]|split; [|done]]].
      * intros (b & Hb & Hbn). by destruct (Hl b Hb).
      * intros [_ Hd]. by apply H2' in Hd.
      * intros _ a Ha. destruct (answer a) as [t|] eqn:E; [|by destruct (Hl a Ha)]. exists t. split; [done|].
        destruct (N.le_gt_cases t slow) as [|Hg]; [done|]. assert (false = true) as HH by (apply H2'; eauto). done.
Qed.

Lemma health_report l k r : snd (health answer l) !! k = Some r <->
  exists l1 a l2, l = l1 ++ a :: l2 /\ report_key a = k /\ answer a = r /\ forall b, b ∈ l2 -> report_key b <> k.
Proof using.
  unfold health. destruct (examine _ _ _) as [e0 s0]. simpl. clear e0 s0. unfold checks. induction l as [|a l IH] using rev_ind.
  - simpl. rewrite lookup_empty. split; [done|]. intros ([|] & ? & ? & ? & _); done.
  - rewrite fmap_app, rev_app_distr. simpl. destruct (decide (report_key a = k)) as [<-|Hne].
    + rewrite lookup_insert. split.
      * intros [= <-]. exists l, a, []. split_and!; [done..|]. by intros b ?%elem_of_nil.
      * intros (l1 & a' & l2 & He & Hk & <- & Hl). destruct l2 as [|c l2 _] using rev_ind.
        -- apply app_inj_2 in He as [_ [= ->]]; done.
        -- rewrite app_comm_cons, app_assoc in He. apply app_inj_2 in He as [_ [= ->]]; [|done].
           destruct (Hl c); [|done]. apply elem_of_app. right. by left.
    + rewrite lookup_insert_ne by done. rewrite IH. split.
      * intros (l1 & a' & l2 & -> & Hk & Ha & Hl). exists l1, a', (l2 ++ [a]). split_and!; [by rewrite <- app_assoc|done..|].
        intros b [Hb|Hb%elem_of_list_singleton]%elem_of_app; [by apply Hl|by subst b].
      * intros (l1 & a' & l2 & He & Hk & Ha & Hl). destruct l2 as [|c l2 _] using rev_ind.
        -- apply app_inj_2 in He as [_ [= ->]]; done.
        -- rewrite app_comm_cons, app_assoc in He. apply app_inj_2 in He as [-> _]; [|done].
           exists l1, a', l2. split_and!; try done. intros b Hb. apply Hl. apply elem_of_app. by left.
Qed.

Lemma registered_run sys l a : a ∈ krun (KStart sys :: l) <-> (KStart sys :: l) = KStart sys :: l /\ a ∈ fold_left kstep l sys.
Proof using. unfold krun. simpl. split; [auto|]. by intros [_ ?]. Qed.

Lemma registered_spec sys l a : (forall s, KStart s ∉ l) -> a ∈ krun (KStart sys :: l) <-> registered sys l a.
Proof using.
  intros Hl. unfold krun. simpl. induction l as [|o l IH] using rev_ind.
  - simpl. unfold registered. split.
    + intros Ha. exists [], []. split; [left; done|]. by apply not_elem_of_nil.
    + intros (l1 & l2 & [(_ & _ & ?)|He] & _); [done|]. by destruct l1.
  - rewrite fold_left_app. cbn [fold_left]. 
    assert (Hl' : forall s, KStart s ∉ l) by (intros s Hs; apply (Hl s); apply elem_of_app; by left).
    specialize (IH Hl'). destruct o as [s|b|id]; simpl.
    + destruct (Hl s). apply elem_of_app. right. by left.
    + rewrite elem_of_app, IH, elem_of_list_singleton. unfold registered. split.
      * intros [(l1 & l2 & HH & Hn)| -> ].
        -- exists l1, (l2 ++ [KRegister b]). split.
           ++ destruct HH as [(-> & -> & ?)| -> ]; [left; done|right; by rewrite <- app_assoc].
           ++ intros [?|?%elem_of_list_singleton]%elem_of_app; done.
        -- exists l, []. split; [by right|]. apply not_elem_of_nil.
      * intros (l1 & l2 & [(-> & -> & ?)|He] & Hn).
        -- left. exists [], l. split; [by left|]. intros ?. apply Hn. apply elem_of_app. by left.
        -- destruct l2 as [|c l2 _] using rev_ind.
           ++ apply app_inj_2 in He as [_ [= ->]]; [|done]. by right.
           ++ rewrite app_comm_cons, app_assoc in He. apply app_inj_2 in He as [-> [= <-]]; [|done].
              left. exists l1, l2. split; [by right|]. intros ?. apply Hn. apply elem_of_app. by left.
    + rewrite elem_of_list_In, filter_In, <- elem_of_list_In, IH. unfold registered. split.
      * intros [(l1 & l2 & HH & Hn) Hid]. exists l1, (l2 ++ [KRemove id]). split.
        -- destruct HH as [(-> & -> & ?)| -> ]; [left; done|right; by rewrite <- app_assoc].
        -- intros [?|Hx%elem_of_list_singleton]%elem_of_app; [done|]. injection Hx as Hx. 
           rewrite bool_decide_eq_true_2 in Hid; done.
      * intros (l1 & l2 & [(-> & -> & ?)|He] & Hn).
        -- split.
           ++ exists [], l. split; [by left|]. intros ?. apply Hn. apply elem_of_app. by left.
           ++ rewrite bool_decide_eq_false_2; [done|]. intros <-. apply Hn. apply elem_of_app. right. by left.
        -- destruct l2 as [|c l2 _] using rev_ind; [by apply app_inj_2 in He as [_ ?]|].
           rewrite app_comm_cons, app_assoc in He. apply app_inj_2 in He as [-> [= <-]]; [|done]. split.
           ++ exists l1, l2. split; [by right|]. intros ?. apply Hn. apply elem_of_app. by left.
           ++ rewrite bool_decide_eq_false_2; [done|]. intros <-. apply Hn. apply elem_of_app. right. by left.
Qed.
End health.
