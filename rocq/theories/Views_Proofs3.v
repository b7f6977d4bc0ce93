(** The list of nodes, and the server. *)
From Verif Require Export Views_Spec.
From Verif Require Import Nodes_Spec Nodes_Proofs Heart_Spec Heart_Proofs.

Local Open Scope N_scope.

(** * The list of nodes *)
Lemma get_all_ids ord d : keyed d -> NoDup (s_id <$> get_all ord d).
Proof.
  intros Hk. unfold get_all. rewrite <- list_fmap_compose.
  assert (E : (s_id ∘ snd) <$> arrange ord (d_nodes d) = (arrange ord (d_nodes d)).*1).
  { apply list_fmap_ext. intros i [k s] H. apply elem_of_list_lookup_2, elem_of_arrange in H. by apply Hk in H. }
  rewrite E. apply arrange_NoDup.
Qed.
Definition sorted_nodes ord d := stable_sort (fun a b => s_id a <=? s_id b) (get_all ord d).
Lemma sorted_nodes_le ord d : StronglySorted (fun a b => (s_id a <=? s_id b) = true) (sorted_nodes ord d).
Proof. apply stable_sort_sorted; intros; lia. Qed.
Theorem nodes_ascending ord d : keyed d -> ascending (sorted_nodes ord d).
Proof.
  intros Hk. pose proof (sorted_nodes_le ord d) as Hs.
  assert (Hn : NoDup (s_id <$> sorted_nodes ord d)).
  { unfold sorted_nodes. rewrite stable_sort_perm. by apply get_all_ids. }
  unfold ascending. induction Hs as [|a l Hs IH Ha]; [constructor|]. apply NoDup_cons in Hn as [Hn1 Hn2].
  constructor; [by apply IH|]. rewrite Forall_forall in *. intros b Hb. specialize (Ha b Hb). simpl in Ha.
  assert (s_id a <> s_id b); [|lia]. intros E. apply Hn1. rewrite E. apply elem_of_list_fmap. by exists b.
Qed.
Theorem nodes_listed ord d s : keyed d -> s ∈ sorted_nodes ord d <-> record d (s_id s) = Some s.
Proof. intros Hk. unfold sorted_nodes. rewrite stable_sort_perm. by apply elem_get_all. Qed.
Theorem nodes_same ord ord' d : keyed d -> sorted_nodes ord d = sorted_nodes ord' d.
Proof.
  intros Hk. apply sorted_unique.
  - unfold sorted_nodes. rewrite !stable_sort_perm. unfold get_all. by rewrite !arrange_perm.
  - unfold sorted_nodes. rewrite stable_sort_perm. by apply get_all_ids.
  - apply sorted_nodes_le.
  - apply sorted_nodes_le.
Qed.

Section leader.
Variable min_date max_date max_duration : Z.
Variable cf : hconfig.
Context {C : Type}.
Variable rhash : N -> string -> string -> option Z -> N.
Variable search : list N -> N -> nat.
Variable self : N.
Notation hstep := (hstep min_date max_date max_duration cf (C := C) rhash search self).
Notation hrun := (hrun min_date max_date max_duration cf (C := C) rhash search self).
Notation tick := (tick min_date max_date max_duration cf (C := C) rhash search self).
Notation new_heart := (new_heart (C := C) rhash self).

Lemma update_known d l n : is_Some (record d n) -> is_Some (record (update_nodes d l) n).
Proof. intros H. rewrite update_record. destruct (find _ _); [by eexists|done]. Qed.
Lemma known_dstep d o n : keyed d -> no_removal_op o -> is_Some (record d n) -> is_Some (record (dstep rhash search d o) n).
Proof.
  intros Hk Ho Hn. destruct o as [ord m|l|m|m]; cbn [dstep].
  - rewrite add_record by done. destruct (decide (n = r_id m)); [by eexists|done].
  - by apply update_known.
  - unfold record, node_terminated. cbn [d_nodes]. destruct (decide (m = n)) as [->|].
    + rewrite lookup_alter. by apply fmap_is_Some.
    + by rewrite lookup_alter_ne.
  - done.
Qed.
Lemma known_fold l d n : keyed d -> Forall no_removal_op l -> is_Some (record d n) ->
  is_Some (record (fold_left (dstep rhash search) l d) n).
Proof.
  intros Hk Hl. revert d Hk. induction Hl as [|o l Ho _ IH]; intros d Hk Hn; [done|]. cbn [fold_left].
  apply IH; [by apply keyed_step|by apply known_dstep].
Qed.
Lemma known_tick h ord clock mid h' n : keyed (h_store h) -> Forall no_removal_op mid -> tick h ord clock mid = Some h' ->
  is_Some (record (h_store h) n) -> is_Some (record (h_store h') n).
Proof.
  intros Hk Hm Ht Hn. apply tick_inv in Ht as (judged & _ & -> & _). by apply update_known, known_fold.
Qed.
Lemma known_step h o h' n : keyed (h_store h) -> no_removal o -> hstep h o = Some h' ->
  is_Some (record (h_store h) n) -> is_Some (record (h_store h') n).
Proof.
  intros Hk Ho Hs Hn. destruct o as [m p|ord clock mid|m ord clock mid|c|o]; cbn [Heart_Model.hstep] in Hs.
  - by injection Hs as <-.
  - by eapply known_tick.
  - eapply known_tick; [| |exact Hs|]; [|exact Ho|].
    + cbn [h_store]. by apply (keyed_step rhash search _ (DTerminated m)).
    + cbn [h_store]. by apply (known_dstep _ (DTerminated m)).
  - by injection Hs as <-.
  - injection Hs as <-. cbn [h_store]. by apply known_dstep.
Qed.
Lemma hrun_keyed_from h l h' : keyed (h_store h) -> hrun h l = Some h' -> keyed (h_store h').
Proof.
  revert h. induction l as [|o l IH]; intros h Hk; [by intros [= <-]|]. cbn [Heart_Model.hrun].
  destruct (hstep h o) as [h1|] eqn:E; [|done]. cbn [mbind option_bind]. intros H.
  eapply IH; [|done]. by eapply keyed_hstep.
Qed.
Lemma known_run h l h' n : keyed (h_store h) -> Forall no_removal l -> hrun h l = Some h' ->
  is_Some (record (h_store h) n) -> is_Some (record (h_store h') n).
Proof.
  intros Hk Hl. revert h Hk. induction Hl as [|o l Ho _ IH]; intros h Hk; [by intros [= <-]|]. cbn [Heart_Model.hrun].
  destruct (hstep h o) as [h1|] eqn:E; [|done]. cbn [mbind option_bind]. intros H Hn.
  eapply IH; [|done|]; [by eapply keyed_hstep|by eapply known_step].
Qed.

(** The leader is this node from the start, or a node of the registry. *)
Definition leader_known b (h : heart C) : Prop :=
  h_leader h = (-1)%Z \/ (b = true /\ h_leader h = as_i64 self) \/
  exists n, h_leader h = as_i64 n /\ is_Some (record (h_store h) n).
Lemma leader_known_run b l h : Forall no_removal l -> hrun (new_heart b) l = Some h -> leader_known b h.
Proof.
  revert h. induction l as [|o l IH] using rev_ind; intros h Hl.
  - intros [= <-]. destruct b; [right; left; done|by left].
  - apply Forall_app in Hl as [Hl Ho]. apply Forall_cons in Ho as [Ho _]. intros (h1 & H1 & H2)%hrun_snoc.
    specialize (IH h1 Hl H1). assert (Hk : keyed (h_store h1)) by (by eapply keyed_hrun).
    destruct (step_events _ _ _ _ _ _ _ _ _ _ Hk H2) as [(_ & E & _)|(n & e & _ & E & _ & _ & _ & _ & _ & (s & Hs & <-) & _)].
    + destruct IH as [IH|[[-> IH]|(n & IH & Hn)]].
      * left. congruence.
      * right; left. split; [done|congruence].
      * right; right. exists n. split; [congruence|]. by eapply known_step.
    + right; right. exists (s_id s). split; [done|]. destruct Hs as [[_ Hs] _]. by eexists.
Qed.

Lemma read_known b l h n : self < 2 ^ 64 -> (forall m, is_Some (record (h_store h) m) -> m < 2 ^ 64) ->
  Forall no_removal l -> hrun (new_heart b) l = Some h -> current_leader h = Some n ->
  n = self \/ is_Some (record (h_store h) n).
Proof.
  intros Hself Hids Hl Hr Hc. unfold current_leader in Hc.
  assert (Hread : forall m, m < 2 ^ 64 -> read_leader (as_i64 m) = Some n -> m = n).
  { intros m Hm H. destruct (decide (small m)) as [Hs|Hs]; [rewrite small_leader in H by done; congruence|].
    by rewrite large_leader in H. }
  destruct (leader_known_run b l h Hl Hr) as [E|[[_ E]|(m & E & Hm)]]; rewrite E in Hc.
  - done.
  - left. symmetry. by apply Hread.
  - right. apply Hread in Hc; [by subst|by apply Hids].
Qed.

Theorem leader_listed b l1 l2 h1 h2 n tag ord : self < 2 ^ 64 ->
  (forall m, is_Some (record (h_store h1) m) -> m < 2 ^ 64) ->
  Forall no_removal (l1 ++ l2) -> hrun (new_heart b) l1 = Some h1 -> hrun h1 l2 = Some h2 ->
  current_leader h1 = Some n -> n <> self ->
  exists s, record (h_store h2) n = Some s /\ s_id s = n /\
    cn_leader_tag (get_nodes self tag (current_leader h1) ord (h_store h2)) = Some (r_tag (s_node s)).
Proof.
  intros Hself Hids [Hl1 Hl2]%Forall_app H1 H2 Hn Hne.
  destruct (read_known b l1 h1 n Hself Hids Hl1 H1 Hn) as [?|Hk]; [done|].
  assert (Hk1 : keyed (h_store h1)) by (by eapply keyed_hrun).
  pose proof (hrun_keyed_from _ _ _ Hk1 H2) as Hk2.
  destruct (known_run _ _ _ n Hk1 Hl2 H2 Hk) as [s Hs]. exists s. split; [done|]. pose proof (Hk2 _ _ Hs) as Hid. split; [done|].
  cbn [get_nodes cn_leader_tag]. rewrite Hn. rewrite decide_False by congruence.
  change (stable_sort _ (get_all ord (h_store h2))) with (sorted_nodes ord (h_store h2)).
  assert (Hin : s ∈ sorted_nodes ord (h_store h2)) by (apply nodes_listed; [done|by rewrite Hid]).
  destruct (find _ _) as [x|] eqn:E.
  - apply find_some in E as [E1 E2%bool_decide_eq_true]. apply elem_of_list_In, nodes_listed in E1; [|done].
    assert (s_id x = n) as Ex by congruence. rewrite Ex in E1. unfold record in *. cbn. congruence.
  - apply elem_of_list_In in Hin. apply (find_none _ _ E) in Hin. apply bool_decide_eq_false in Hin. congruence.
Qed.
End leader.

(** * The server *)
Section server.
Context {A : Type} `{EqDecision A}.
Variable valid : string -> bool.
Variable overlap : string -> string -> bool.
Notation astep := (astep (A := A) valid overlap).
Notation add_routes := (add_routes valid overlap).
Implicit Types (s : list (server A)) (v : server A).

Lemma add_routes_from app l : add_routes app l = true <->
  Forall (fun p => valid p = true) l /\ (forall p q, p ∈ app -> q ∈ l -> overlap q p = false) /\
  forall i j p q, (i < j)%nat -> l !! i = Some p -> l !! j = Some q -> overlap q p = false.
Proof.
  revert app. induction l as [|p l IH]; intros app.
  - split; [|done]. intros _. split_and!; [constructor|by intros ? ? _ ?%elem_of_nil|done].
  - cbn [Views_Model.add_routes]. rewrite !andb_true_iff, IH, Forall_cons, negb_true_iff. split.
    + intros [[H1 H2] (H3 & H4 & H5)]. split_and!; [done|done| |].
      * intros a q Ha [->|Hq]%elem_of_cons; [|apply H4; [by right|done]].
        destruct (overlap p a) eqn:E; [|done]. rewrite <- H2. symmetry. apply existsb_exists. exists a. split; [by apply elem_of_list_In|done].
      * intros [|i] [|j] a q Hij Ha Hq; [lia| |lia|by eapply (H5 i j); [lia| |]].
        injection Ha as <-. apply H4; [constructor|by eapply elem_of_list_lookup_2].
    + intros ([H1 H2] & H3 & H4). split_and!; [done| |done| |].
      * apply not_true_iff_false. intros (a & Ha & E)%existsb_exists. apply elem_of_list_In in Ha.
        rewrite (H3 a p) in E; [done|done|constructor].
      * intros a q [->|Ha]%elem_of_cons Hq; [|by apply H3; [|right]].
        apply elem_of_list_lookup in Hq as [j Hj]. by apply (H4 0%nat (S j)); [lia| |].
      * intros i j a q Hij Ha Hq. by apply (H4 (S i) (S j)); [lia| |].
Qed.
Lemma add_routes_good l : add_routes [] l = true <-> good_routes valid overlap l.
Proof.
  rewrite add_routes_from. unfold good_routes. split; [by intros (? & _ & ?)|]. intros [? ?]. split_and!; [done| |done].
  by intros ? ? ?%elem_of_nil.
Qed.

(** At most one server at an address. *)
Definition one_each s : Prop := forall i j v w, s !! i = Some v -> s !! j = Some w ->
  v_phase v = Serving -> v_phase w = Serving -> v_addr v = v_addr w -> i = j.
Lemma serving_at_spec (a : A) v : serving_at a v = true <-> v_phase v = Serving /\ v_addr v = a.
Proof.
  unfold serving_at. destruct (v_phase v); [split; [done|by intros [? _]]| |split; [done|by intros [? _]]].
  rewrite bool_decide_eq_true. tauto.
Qed.
Lemma one_each_step s o : one_each s -> one_each (astep s o).1.
Proof.
  intros H. destruct o as [[a|] routes|i held|i]; cbn [Views_Model.astep fst].
  - intros j k v w Hv Hw Pv Pw E.
    assert (Hold : forall j v, (s ++ [Server a (concat routes) Pending false]) !! j = Some v -> v_phase v = Serving -> s !! j = Some v).
    { intros j' v' Hj Hp. apply lookup_app_Some in Hj as [Hj|[_ Hj]]; [done|].
      apply list_lookup_singleton_Some in Hj as [_ <-]. done. }
    by eapply H; eauto.
  - done.
  - destruct (s !! i) as [x|] eqn:Ei; [|done]. destruct (v_phase x) eqn:Ex; [|done|done].
    destruct (_ && _) eqn:Eu.
    + apply andb_true_iff in Eu as [[_ Eu]%andb_true_iff _]. apply negb_true_iff in Eu.
      assert (Hfree : forall j w, s !! j = Some w -> v_phase w = Serving -> v_addr w = v_addr x -> False).
      { intros j w Hw Pw Ew. rewrite <- not_true_iff_false in Eu. apply Eu. apply existsb_exists. exists w.
        split; [by apply elem_of_list_In; eapply elem_of_list_lookup_2|]. by apply serving_at_spec. }
      intros j k v w Hv Hw Pv Pw E.
      apply list_lookup_insert_Some in Hv as [(-> & <- & _)|[Nj Hv]];
        apply list_lookup_insert_Some in Hw as [(-> & <- & _)|[Nk Hw]]; cbn [v_addr v_phase] in *; try done.
      * by destruct (Hfree k w).
      * by destruct (Hfree j v).
      * by eapply H.
    + intros j k v w Hv Hw Pv Pw E.
      apply list_lookup_insert_Some in Hv as [(-> & <- & _)|[Nj Hv]];
        apply list_lookup_insert_Some in Hw as [(-> & <- & _)|[Nk Hw]]; cbn [v_addr v_phase] in *; try done. by eapply H.
  - destruct (s !! i) as [x|] eqn:Ei; [|done]. intros j k v w Hv Hw Pv Pw E.
    apply list_lookup_insert_Some in Hv as [(<- & <- & _)|[Nj Hv]];
      apply list_lookup_insert_Some in Hw as [(<- & <- & _)|[Nk Hw]]; cbn [v_addr v_phase] in *; try done.
    + by destruct (v_phase x).
    + by destruct (v_phase x).
    + by eapply H.
Qed.
Lemma one_each_run l s : one_each s -> one_each (run astep s l).1.
Proof.
  revert s. induction l as [|o l IH]; intros s H; [done|]. cbn [run]. pose proof (one_each_step s o H) as H1.
  destruct (astep s o) as [s1 r]. specialize (IH s1 H1). by destruct (run astep s1 l).
Qed.

Lemma served_spec s a p i : one_each s -> served s a p = Some i <->
  exists v, s !! i = Some v /\ v_phase v = Serving /\ v_addr v = a /\ p ∈ v_paths v.
Proof.
  intros H1. unfold served.
  assert (Hp : forall v, serving_at a v && existsb (String.eqb p) (v_paths v) = true <-> v_phase v = Serving /\ v_addr v = a /\ p ∈ v_paths v).
  { intros v. rewrite andb_true_iff, serving_at_spec, existsb_exists. split.
    - intros [[H2 H3] (q & Hq & ->%String.eqb_eq)]. split_and!; [done|done|by apply elem_of_list_In].
    - intros (H2 & H3 & H4). split; [done|]. exists p. split; [by apply elem_of_list_In|by apply String.eqb_eq]. }
  assert (Hi : forall x, In x (imap pair s) <-> s !! x.1 = Some x.2).
  { intros [j v]. rewrite <- elem_of_list_In. rewrite elem_of_lookup_imap. cbn [fst snd]. split.
    - intros (j' & v' & [= -> ->] & Hj). done.
    - intros Hj. by exists j, v. }
  destruct (find _ _) as [[j v]|] eqn:E; cbn [fmap option_fmap option_map fst].
  - apply find_some in E as [E1%Hi E2%Hp]. cbn [fst snd] in *. destruct E2 as (P1 & P2 & P3). split.
    + intros [= ->]. by exists v.
    + intros (w & Hw & W1 & W2 & W3). f_equal. eapply H1; eauto. congruence.
  - split; [done|]. intros (w & Hw & W). exfalso. apply (Hi (i, w)) in Hw.
    pose proof (find_none _ _ E _ Hw) as Hf. cbn [snd] in Hf. rewrite <- not_true_iff_false in Hf. by apply Hf, Hp.
Qed.

(** What happens to one server. *)
Lemma server_step s o i v : s !! i = Some v -> exists v', (astep s o).1 !! i = Some v' /\
  v_addr v' = v_addr v /\ v_paths v' = v_paths v /\
  (v_phase v = Serving -> o <> AStop i -> v_phase v' = Serving) /\
  (v_phase v = Gone -> v_phase v' = Gone) /\
  (v_phase v = Pending -> o <> ARun i false -> v_phase v' <> Serving) /\
  (v_phase v = Pending -> ~ good_routes valid overlap (v_paths v) -> v_phase v' <> Serving) /\
  (v_stop v = true -> v_stop v' = true) /\
  (v_stop v = true -> v_phase v <> Serving -> v_phase v' <> Serving) /\
  (o = AStop i -> v_stop v' = true /\ v_phase v' <> Serving).
Proof.
  intros Hv. assert (Hkeep : exists v', Some v = Some v' /\
    v_addr v' = v_addr v /\ v_paths v' = v_paths v /\
    (v_phase v = Serving -> o <> AStop i -> v_phase v' = Serving) /\
    (v_phase v = Gone -> v_phase v' = Gone) /\
    (v_phase v = Pending -> o <> ARun i false -> v_phase v' <> Serving) /\
    (v_phase v = Pending -> ~ good_routes valid overlap (v_paths v) -> v_phase v' <> Serving) /\
    (v_stop v = true -> v_stop v' = true) /\
    (v_stop v = true -> v_phase v <> Serving -> v_phase v' <> Serving)).
  { exists v. split_and!; try done; congruence. }
  destruct Hkeep as (v' & [= <-] & K1 & K2 & K3 & K4 & K5 & K6 & K7 & K8).
  destruct o as [[a|] routes|j held|j]; cbn [Views_Model.astep fst].
  - exists v. split; [by apply lookup_app_l_Some|]. split_and!; done.
  - exists v. split_and!; done.
  - destruct (decide (j = i)) as [->|Hne].
    2:{ exists v. split; [|split_and!; done]. destruct (s !! j) as [x|]; [|done]. destruct (v_phase x); try done.
        by rewrite list_lookup_insert_ne. }
    rewrite Hv. destruct (v_phase v) eqn:Ep; [|by exists v; rewrite Ep in *; split_and!|by exists v; rewrite Ep in *; split_and!].
    rewrite list_lookup_insert by (by eapply lookup_lt_Some). eexists. split; [done|]. cbn [v_addr v_paths v_phase v_stop].
    destruct (add_routes [] (v_paths v)) eqn:Eg; cbn [andb].
    + apply add_routes_good in Eg. destruct held; cbn [andb negb]; [split_and!; done|].
      destruct (existsb _ s); cbn [andb negb]; [split_and!; done|].
      destruct (v_stop v); cbn [negb]; split_and!; try done.
    + split_and!; done.
  - destruct (decide (j = i)) as [->|Hne].
    2:{ exists v. split; [|split_and!; try done; by intros [= ->]]. destruct (s !! j) as [x|]; [|done]. by rewrite list_lookup_insert_ne. }
    rewrite Hv. rewrite list_lookup_insert by (by eapply lookup_lt_Some). eexists. split; [done|]. cbn [v_addr v_paths v_phase v_stop].
    destruct (v_phase v) eqn:Ep; split_and!; try done.
Qed.

Lemma run_cons_fst s o l : (run astep s (o :: l)).1 = (run astep (astep s o).1 l).1.
Proof. cbn [run]. destruct (astep s o) as [s1 r]. cbn [fst]. by destruct (run astep s1 l). Qed.

Lemma stays_serving l : forall s i v, s !! i = Some v -> v_phase v = Serving -> AStop i ∉ l ->
  exists v', (run astep s l).1 !! i = Some v' /\ v_phase v' = Serving /\ v_addr v' = v_addr v /\ v_paths v' = v_paths v.
Proof.
  induction l as [|o l IH]; intros s i v Hv Hp Hl; [by exists v|].
  apply not_elem_of_cons in Hl as [Ho Hl]. rewrite run_cons_fst.
  destruct (server_step s o i v Hv) as (v1 & Hv1 & A1 & A2 & A3 & _).
  destruct (IH _ i v1 Hv1) as (v2 & B1 & B2 & B3 & B4); [by apply A3|done|]. exists v2. split_and!; congruence.
Qed.
Lemma never_serving (P : server A -> Prop) l : forall s i v,
  (forall s o v v', s !! i = Some v -> o ∈ l -> P v -> (astep s o).1 !! i = Some v' -> P v') ->
  s !! i = Some v -> P v -> exists v', (run astep s l).1 !! i = Some v' /\ P v'.
Proof.
  induction l as [|o l IH]; intros s i v H Hv Hp; [by exists v|]. rewrite run_cons_fst.
  destruct (server_step s o i v Hv) as (v1 & Hv1 & _). eapply IH; [|exact Hv1|].
  - intros s' o' w w' Hw Ho. apply H; [done|by constructor].
  - eapply H; [exact Hv| |done|exact Hv1]. constructor.
Qed.

Lemma empty_one_each : one_each ([] : list (server A)).
Proof. by intros i j v w H. Qed.

(** Bad routes: nobody ever answers. *)
Lemma bad_never l : forall s i v, s !! i = Some v -> v_phase v <> Serving -> ~ good_routes valid overlap (v_paths v) ->
  exists v', (run astep s l).1 !! i = Some v' /\ v_phase v' <> Serving.
Proof.
  intros s i v Hv Hp Hg.
  destruct (never_serving (fun v => v_phase v <> Serving /\ ~ good_routes valid overlap (v_paths v)) l s i v) as (v' & H1 & H2 & _); try done.
  2:{ by exists v'. }
  intros s' o w w' Hw _ [P1 P2] Hw'. destruct (server_step s' o i w Hw) as (w1 & Hw1 & _ & E & _ & A4 & _ & A6 & _).
  assert (w1 = w') as -> by congruence. rewrite E. split; [|done].
  destruct (v_phase w) eqn:Ew; [by apply A6|done|]. by rewrite A4.
Qed.
Lemma waits_until_run l : forall s i v, s !! i = Some v -> v_phase v <> Serving -> ARun i false ∉ l ->
  exists v', (run astep s l).1 !! i = Some v' /\ v_phase v' <> Serving.
Proof.
  intros s i v Hv Hp Hl. destruct (never_serving (fun v => v_phase v <> Serving) l s i v) as (v' & H1 & H2); try done.
  2:{ by exists v'. }
  intros s' o w w' Hw Ho P1 Hw'. destruct (server_step s' o i w Hw) as (w1 & Hw1 & _ & _ & _ & A4 & A5 & _).
  assert (w1 = w') as -> by congruence. destruct (v_phase w) eqn:Ew; [apply A5; [done|]|done|by rewrite A4].
  intros ->. done.
Qed.
Lemma stopped_never l : forall s i v, s !! i = Some v -> v_phase v <> Serving -> v_stop v = true ->
  exists v', (run astep s l).1 !! i = Some v' /\ v_phase v' <> Serving.
Proof.
  intros s i v Hv Hp Hs. destruct (never_serving (fun v => v_stop v = true /\ v_phase v <> Serving) l s i v) as (v' & H1 & H2 & H3); try done.
  2:{ by exists v'. }
  intros s' o w w' Hw Ho [P1 P2] Hw'. destruct (server_step s' o i w Hw) as (w1 & Hw1 & _ & _ & _ & _ & _ & _ & A7 & A8 & _).
  assert (w1 = w') as -> by congruence. split; [by apply A7|by apply A8].
Qed.
End server.
