(** Proofs about the shard coordinator. *)
From Verif Require Import Coord_Model Coord_Spec.
Local Open Scope N_scope.

Lemma fewer_total x y : fewer_shards x y = true \/ fewer_shards y x = true.
Proof. unfold fewer_shards. lia. Qed.
Lemma fewer_trans x y z : fewer_shards x y = true -> fewer_shards y z = true -> fewer_shards x z = true.
Proof. unfold fewer_shards. lia. Qed.

Lemma elem_ready ord c n h :
  (n, h) ∈ List.filter (fun x : N * chost => is_ready x.2) (arrange ord (c_hosts c)) <-> c_hosts c !! n = Some h /\ is_ready h = true.
Proof. rewrite elem_of_list_In, filter_In, <- elem_of_list_In, elem_of_arrange. done. Qed.

Lemma NoDup_filter_fst {A B} (f : A * B -> bool) l : NoDup l.*1 -> NoDup (List.filter f l).*1.
Proof.
  induction l as [|[a b] l IH]; simpl; [done|]. intros [Hn Hd]%NoDup_cons. destruct (f (a, b)); [|auto].
  simpl. apply NoDup_cons. split; [|auto]. intros [[a' b'] [Ha Hx]]%elem_of_list_fmap. simpl in Ha. subst a'.
  apply Hn. apply elem_of_list_fmap. exists (a, b'). split; [done|].
  apply elem_of_list_In in Hx. apply filter_In in Hx as [Hx _]. by apply elem_of_list_In.
Qed.

(** What allocation does. *)
Lemma allocate_vacant ord c s : c_shards c !! s = None ->
  (allocate_shard ord c s = (c, NotAllocated, []) /\ forall n h, c_hosts c !! n = Some h -> is_ready h = false) \/
  exists n h rest,
    c_hosts c !! n = Some h /\ is_ready h = true /\
    (forall n' h', c_hosts c !! n' = Some h' -> is_ready h' = true -> (size (h_shards h) <= size (h_shards h'))%nat) /\
    NoDup (n :: rest) /\
    (forall n', n' ∈ n :: rest <-> exists h', c_hosts c !! n' = Some h' /\ is_ready h' = true) /\
    allocate_shard ord c s =
      (Coord (c_self c) (<[n := CHost (h_status h) ({[s]} ∪ h_shards h)]> (c_hosts c)) (<[s := n]> (c_shards c)),
       Allocated s n, if decide (s ∈ h_shards h) then [] else [CTell s n (n :: rest)]).
Proof.
  intros Hs. unfold allocate_shard. rewrite Hs.
  pose proof (stable_sort_perm fewer_shards (List.filter (fun x => is_ready x.2) (arrange ord (c_hosts c)))) as Hp.
  pose proof (stable_sort_sorted fewer_shards fewer_total fewer_trans (List.filter (fun x => is_ready x.2) (arrange ord (c_hosts c)))) as Hsort.
  pose proof (elem_ready ord c) as Hel.
  pose proof (NoDup_filter_fst (fun x : N * chost => is_ready x.2) _ (arrange_NoDup ord (c_hosts c))) as Hnd.
  set (L := List.filter _ _) in *. destruct (stable_sort fewer_shards L) as [|[n h] rest] eqn:E.
  - left. split; [done|]. intros n h Hn. apply Permutation_nil in Hp. destruct (is_ready h) eqn:Er; [|done].
    assert (Hx : (n, h) ∈ L) by (by apply Hel). rewrite Hp in Hx. by apply elem_of_nil in Hx.
  - right. exists n, h, (map fst rest).
    assert (Hnh : c_hosts c !! n = Some h /\ is_ready h = true) by (apply Hel; rewrite <- Hp; constructor).
    destruct Hnh as [Hn Hr]. split_and!; try done.
    + intros n' h' Hn' Hr'. assert (Hx : (n', h') ∈ (n, h) :: rest) by (rewrite Hp; by apply Hel).
      apply elem_of_cons in Hx as [[= -> ->]|Hx]; [done|].
      apply StronglySorted_inv in Hsort as [_ HF]. rewrite Forall_forall in HF. specialize (HF _ Hx).
      unfold fewer_shards in HF. simpl in HF. lia.
    + change (n :: map fst rest) with (((n, h) :: rest).*1). by rewrite Hp.
    + intros n'. change (n :: map fst rest) with (((n, h) :: rest).*1). rewrite elem_of_list_fmap. split.
      * intros [[m h'] [Hm Hx]]. rewrite Hp in Hx. apply Hel in Hx. simpl in Hm. subst m. eauto.
      * intros [h' Hh]. exists (n', h'). split; [done|]. rewrite Hp. by apply Hel.
Qed.

(** Consistency except for the shards [l], which no node holds. *)
Definition semi (l : list N) (c : coord) : Prop :=
  (forall s n, s ∉ l -> (c_shards c !! s = Some n <-> exists h, c_hosts c !! n = Some h /\ s ∈ h_shards h)) /\
  (forall s n h, s ∈ l -> c_hosts c !! n = Some h -> s ∉ h_shards h).

Lemma semi_nil c : semi [] c <-> consistent c.
Proof.
  unfold semi, consistent. split.
  - intros [H _] s n. apply H. apply not_elem_of_nil.
  - intros H. split; [intros; apply H|]. by intros s n h ?%elem_of_nil.
Qed.

Lemma allocate_semi ord c s l : semi l c -> c_shards c !! s = None -> s ∉ l -> semi l (allocate_shard ord c s).1.1.
Proof.
  intros [H1 H2] Hs Hl. destruct (allocate_vacant ord c s Hs) as [[-> _]|(n & h & rest & Hn & Hr & _ & _ & _ & ->)]; [done|].
  simpl. split; simpl.
  - intros s' n' Hl'. destruct (decide (s' = s)) as [->|Hne].
    + rewrite lookup_insert. split.
      * intros [= <-]. exists (CHost (h_status h) ({[s]} ∪ h_shards h)). rewrite lookup_insert. simpl. set_solver.
      * intros (h' & Hh' & Hin). apply lookup_insert_Some in Hh' as [[-> _]|[_ Hh']]; [done|].
        assert (c_shards c !! s = Some n') by (apply H1; eauto). congruence.
    + rewrite lookup_insert_ne by done. rewrite H1 by done. destruct (decide (n' = n)) as [->|Hn'].
      * rewrite lookup_insert. rewrite Hn. split; intros (h' & [= <-] & Hin); eexists; (split; [done|]); simpl in *; set_solver.
      * by rewrite lookup_insert_ne.
  - intros s' n' h' Hin Hh'. apply lookup_insert_Some in Hh' as [[<- <-]|[_ Hh']]; [simpl|by eapply H2].
    specialize (H2 _ _ _ Hin Hn). assert (s' <> s) by congruence. set_solver.
Qed.

(** Allocation keeps the state of the nodes and adds at most the shard. *)
Lemma allocate_frame ord c s :
  let c' := (allocate_shard ord c s).1.1 in
  c_self c' = c_self c /\
  (forall n, status c' n = status c n) /\
  (forall s', s' <> s -> c_shards c' !! s' = c_shards c !! s') /\
  (forall n, holds c n ⊆ holds c' n) /\
  (forall n, status c n <> Some SReady -> c_hosts c' !! n = c_hosts c !! n) /\
  (forall n, c_hosts c' !! n = c_hosts c !! n \/ exists h, c_hosts c !! n = Some h /\ c_hosts c' !! n = Some (CHost (h_status h) ({[s]} ∪ h_shards h))).
Proof.
  destruct (c_shards c !! s) as [n|] eqn:Hs.
  { unfold allocate_shard. rewrite Hs. simpl. split_and!; auto. }
  destruct (allocate_vacant ord c s Hs) as [[-> _]|(n & h & rest & Hn & Hr & _ & _ & _ & ->)]; simpl; [split_and!; auto|].
  split_and!; [done|..].
  - intros n'. unfold status. simpl. destruct (decide (n' = n)) as [->|]; [by rewrite lookup_insert, Hn|by rewrite lookup_insert_ne].
  - intros s' Hne. by rewrite lookup_insert_ne.
  - intros n'. unfold holds. simpl. destruct (decide (n' = n)) as [->|]; [rewrite lookup_insert, Hn; simpl; set_solver|by rewrite lookup_insert_ne].
  - intros n' Hn'. destruct (decide (n' = n)) as [->|]; [|by rewrite lookup_insert_ne].
    exfalso. apply Hn'. unfold status. rewrite Hn. simpl. unfold is_ready in Hr. apply bool_decide_eq_true in Hr. by rewrite Hr.
  - intros n'. destruct (decide (n' = n)) as [->|]; [right; exists h; by rewrite lookup_insert|left; by rewrite lookup_insert_ne].
Qed.

Lemma ready_iff c n : ready c n <-> exists h, c_hosts c !! n = Some h /\ is_ready h = true.
Proof.
  unfold ready, status, is_ready. destruct (c_hosts c !! n) as [h|]; simpl.
  - split; [intros [= E]; exists h; split; [done|by apply bool_decide_eq_true]|].
    intros (h' & [= <-] & E%bool_decide_eq_true). by rewrite E.
  - split; [done|]. intros (? & ? & _). done.
Qed.

Lemma allocate_allocates ord c s : c_shards c !! s = None -> (exists n, ready c n) ->
  exists n, c_shards (allocate_shard ord c s).1.1 !! s = Some n /\ ready c n.
Proof.
  intros Hs [n Hn]. destruct (allocate_vacant ord c s Hs) as [[_ H]|(m & h & rest & Hm & Hr & _ & _ & _ & ->)].
  - apply ready_iff in Hn as (h & Hh & Hr). specialize (H _ _ Hh). congruence.
  - exists m. simpl. rewrite lookup_insert. split; [done|]. apply ready_iff. eauto.
Qed.

Lemma allocate_not_ready ord c s : c_shards c !! s = None -> (forall n, ~ ready c n) -> allocate_shard ord c s = (c, NotAllocated, []).
Proof.
  intros Hs Hn. destruct (allocate_vacant ord c s Hs) as [[E _]|(m & h & rest & Hm & Hr & _)]; [done|].
  exfalso. apply (Hn m). apply ready_iff. eauto.
Qed.

(** * Unavailable nodes *)
Lemma reallocate_spec ord l : forall c, NoDup l -> semi l c ->
  let c' := (reallocate ord c l).1 in
  consistent c' /\ c_self c' = c_self c /\
  (forall n, status c' n = status c n) /\
  (forall s, s ∉ l -> c_shards c' !! s = c_shards c !! s) /\
  (forall s, s ∈ l -> (exists n, ready c n) -> exists n, c_shards c' !! s = Some n /\ ready c n) /\
  (forall s, s ∈ l -> (forall n, ~ ready c n) -> c_shards c' !! s = None) /\
  (forall n, holds c n ⊆ holds c' n) /\
  (forall n, status c n <> Some SReady -> c_hosts c' !! n = c_hosts c !! n).
Proof.
  induction l as [|s l IH]; intros c Hnd Hsemi; simpl.
  - split_and!; try done; try by intros ? ?%elem_of_nil. by apply semi_nil.
  - apply NoDup_cons in Hnd as [Hs Hnd]. set (d := Coord (c_self c) (c_hosts c) (delete s (c_shards c))).
    assert (Hd : semi l d).
    { destruct Hsemi as [H1 H2]. split.
      - intros s' n Hl. unfold d. simpl. destruct (decide (s' = s)) as [->|Hne].
        + rewrite lookup_delete. split; [done|]. intros (h & Hh & Hin). exfalso. eapply H2; [constructor|exact Hh|exact Hin].
        + rewrite lookup_delete_ne by done. apply H1. by intros [|]%elem_of_cons.
      - intros s' n h Hl. apply H2. by constructor. }
    assert (Hds : c_shards d !! s = None) by apply lookup_delete.
    pose proof (allocate_semi ord d s l Hd Hds Hs) as Hsemi'.
    destruct (allocate_frame ord d s) as (F0 & F1 & F2 & F3 & F4 & _).
    pose proof (allocate_allocates ord d s Hds) as F5. pose proof (allocate_not_ready ord d s Hds) as F6.
    destruct (allocate_shard ord d s) as [[c1 r] eff]. simpl in *.
    destruct (IH c1 Hnd Hsemi') as (I0 & I1 & I2 & I3 & I4 & I5 & I6 & I7). destruct (reallocate ord c1 l) as [c2 eff'].
    simpl in *. assert (Hrd : forall n, ready c1 n <-> ready c n) by (intros n; unfold ready; by rewrite F1).
    split_and!.
    + done.
    + by rewrite I1, F0.
    + intros n. by rewrite I2, F1.
    + intros s' Hl. rewrite I3, F2; [apply lookup_delete_ne|..]; intros ?; apply Hl; subst; by constructor.
    + intros s' [->|Hl]%elem_of_cons Hex.
      * destruct (F5 Hex) as (n & Hn & Hr). exists n. rewrite I3 by done. done.
      * destruct (I4 s' Hl) as (n & Hn & Hr); [destruct Hex as [m Hm]; exists m; by apply Hrd|]. exists n. split; [done|by apply Hrd].
    + intros s' [->|Hl]%elem_of_cons Hno.
      * rewrite I3 by done. specialize (F6 Hno). injection F6 as -> -> ->. done.
      * apply I5; [done|]. intros n Hn. apply Hrd in Hn. by eapply Hno.
    + intros n. etrans; [|apply I6]. apply F3.
    + intros n Hn. rewrite I7 by (by rewrite F1). by apply F4.
Qed.

Lemma unavailable_semi c n h l : consistent c -> c_hosts c !! n = Some h -> (forall s, s ∈ l <-> s ∈ h_shards h) ->
  semi l (Coord (c_self c) (<[n := CHost SUnavailable ∅]> (c_hosts c)) (c_shards c)).
Proof.
  intros Hc Hn Hl. split; simpl.
  - intros s m Hs. rewrite (Hc s m). destruct (decide (m = n)) as [->|Hne].
    + rewrite lookup_insert, Hn. split; intros (h' & [= <-] & Hin); [|simpl in Hin; set_solver]. by apply Hl in Hin.
    + by rewrite lookup_insert_ne.
  - intros s m h' Hs Hm. apply lookup_insert_Some in Hm as [[<- <-]|[Hne Hm]]; [simpl; set_solver|].
    intros Hin. apply Hl in Hs. assert (E1 : c_shards c !! s = Some m) by (apply Hc; eauto).
    assert (E2 : c_shards c !! s = Some n) by (apply Hc; eauto). congruence.
Qed.

Theorem node_unavailable_spec ord sord c n h : consistent c -> c_hosts c !! n = Some h ->
  let c' := (node_unavailable ord sord c n).1 in
  consistent c' /\ c_self c' = c_self c /\
  c_hosts c' !! n = Some (CHost SUnavailable ∅) /\
  (forall m, m <> n -> status c' m = status c m) /\
  (forall s, c_shards c !! s <> Some n -> c_shards c' !! s = c_shards c !! s) /\
  (forall s, c_shards c !! s = Some n -> (exists m, m <> n /\ ready c m) -> exists m, c_shards c' !! s = Some m /\ m <> n /\ ready c m) /\
  (forall s, c_shards c !! s = Some n -> (forall m, m <> n -> ~ ready c m) -> c_shards c' !! s = None).
Proof.
  intros Hc Hn. unfold node_unavailable. rewrite Hn.
  set (d := Coord (c_self c) (<[n := CHost SUnavailable ∅]> (c_hosts c)) (c_shards c)).
  assert (Hl : forall s, s ∈ arrange_set sord (h_shards h) <-> s ∈ h_shards h) by (intros; apply elem_of_arrange_set).
  assert (Hown : forall s, s ∈ arrange_set sord (h_shards h) <-> c_shards c !! s = Some n).
  { intros s. rewrite Hl, (Hc s n). split; [eauto|]. intros (h' & E & Hin). congruence. }
  destruct (reallocate_spec ord (arrange_set sord (h_shards h)) d (arrange_set_NoDup _ _) (unavailable_semi c n h _ Hc Hn Hl))
    as (I0 & I1 & I2 & I3 & I4 & I5 & I6 & I7).
  assert (Hst : forall m, m <> n -> status d m = status c m) by (intros m Hm; unfold status, d; simpl; by rewrite lookup_insert_ne).
  assert (Hsn : status d n = Some SUnavailable) by (unfold status, d; simpl; by rewrite lookup_insert).
  assert (Hrd : forall m, ready d m <-> m <> n /\ ready c m).
  { intros m. unfold ready. destruct (decide (m = n)) as [->|Hm]; [rewrite Hsn; split; [done|by intros []]|rewrite Hst by done; tauto]. }
  split_and!.
  - exact I0.
  - exact I1.
  - rewrite I7 by (by rewrite Hsn). unfold d. simpl. apply lookup_insert.
  - intros m Hm. rewrite I2. by apply Hst.
  - intros s Hs. apply I3. by rewrite Hown.
  - intros s Hs [m [Hm Hr]]. destruct (I4 s) as (m' & E & Hr'); [by apply Hown|exists m; by apply Hrd|].
    exists m'. apply Hrd in Hr' as []. done.
  - intros s Hs Hno. apply I5; [by apply Hown|]. intros m [Hm Hr]%Hrd. by eapply Hno.
Qed.

(** * Rebalancing *)
Theorem rebalance_shards_spec ord l : forall c, consistent c ->
  exists c' eff, rebalance_shards ord c l = Some (c', eff) /\ consistent c' /\ c_self c' = c_self c /\
    (forall s, c_shards c' !! s = if decide (s ∈ l) then None else c_shards c !! s) /\
    (forall n, c_hosts c' !! n = (fun h => CHost (h_status h) (h_shards h ∖ list_to_set l)) <$> c_hosts c !! n) /\
    (forall s n, (s, n) ∈ stops eff <-> s ∈ l /\ c_shards c !! s = Some n) /\
    NoDup (stops eff) /\ tells eff = [] /\ persisted_shards eff = [].
Proof.
  induction l as [|s l IH]; intros c Hc; simpl.
  - exists c, []. split_and!; try done.
    + intros n. destruct (c_hosts c !! n) as [[st sh]|]; simpl; [|done]. f_equal. f_equal. set_solver.
    + intros s n. split; [by intros ?%elem_of_nil|intros [?%elem_of_nil _]; done].
    + constructor.
  - unfold rebalance_shard. destruct (c_shards c !! s) as [n|] eqn:Es.
    + destruct (proj1 (Hc s n) Es) as (h & Hh & Hin). rewrite Hh.
      set (c1 := Coord (c_self c) (<[n:=CHost (h_status h) (h_shards h ∖ {[s]})]> (c_hosts c)) (delete s (c_shards c))).
      assert (Hc1 : consistent c1).
      { intros s' n'. unfold c1. simpl. destruct (decide (s' = s)) as [->|Hne].
        - rewrite lookup_delete. split; [done|]. intros (h' & Hh' & Hin').
          apply lookup_insert_Some in Hh' as [[<- <-]|[Hne Hh']]; [simpl in Hin'; set_solver|].
          assert (c_shards c !! s = Some n') by (apply Hc; eauto). congruence.
        - rewrite lookup_delete_ne by done. rewrite (Hc s' n'). destruct (decide (n' = n)) as [->|Hn'].
          + rewrite lookup_insert, Hh. split; intros (h' & [= <-] & Hin'); eexists; (split; [done|]); simpl in *; set_solver.
          + by rewrite lookup_insert_ne. }
      destruct (IH c1 Hc1) as (c' & eff & -> & I1 & I0 & I2 & I3 & I4 & I5 & I6 & I7).
      eexists c', _. split; [done|]. split_and!; try done.
      * intros s'. rewrite I2. unfold c1. simpl. destruct (decide (s' = s)) as [->|Hne].
        -- rewrite lookup_delete. destruct (decide (s ∈ l)) as [|], (decide (s ∈ s :: l)) as [|Hj]; try done. all: exfalso; apply Hj; by constructor.
        -- rewrite lookup_delete_ne by done. destruct (decide (s' ∈ l)) as [Hi|Hi], (decide (s' ∈ s :: l)) as [Hj|Hj]; try done.
           ++ exfalso. apply Hj. by constructor.
           ++ apply elem_of_cons in Hj as [|]; done.
      * intros n'. rewrite I3. unfold c1. simpl. destruct (decide (n' = n)) as [->|Hn'].
        -- rewrite lookup_insert, Hh. simpl. f_equal. f_equal. set_solver.
        -- rewrite lookup_insert_ne by done. destruct (c_hosts c !! n') as [h'|] eqn:Hn; simpl; [|done]. f_equal. f_equal.
           assert (s ∉ h_shards h'). { intros Hx. assert (c_shards c !! s = Some n') by (apply Hc; eauto). congruence. }
           set_solver.
      * intros s' n'. simpl. rewrite elem_of_cons, I4. unfold c1. simpl. split.
        -- intros [[= -> ->]|[Hl Hx]]; [split; [constructor|done]|]. apply lookup_delete_Some in Hx as [Hne Hx].
           split; [by constructor|done].
        -- intros [Hl Hx]. destruct (decide (s' = s)) as [->|Hne]; [left; congruence|].
           right. rewrite lookup_delete_ne by done. apply elem_of_cons in Hl as [|]; done.
      * simpl. apply NoDup_cons. split; [|done]. rewrite I4. unfold c1. simpl. rewrite lookup_delete. by intros [_ ?].
    + destruct (IH c Hc) as (c' & eff & -> & I1 & I0 & I2 & I3 & I4 & I5 & I6 & I7).
      eexists c', _. split; [done|]. split_and!; try done.
      * intros s'. rewrite I2. destruct (decide (s' = s)) as [->|Hne].
        -- rewrite Es. by destruct (decide (s ∈ l)), (decide (s ∈ s :: l)).
        -- destruct (decide (s' ∈ l)) as [Hi|Hi], (decide (s' ∈ s :: l)) as [Hj|Hj]; try done.
           ++ exfalso. apply Hj. by constructor.
           ++ apply elem_of_cons in Hj as [|]; done.
      * intros n'. rewrite I3. destruct (c_hosts c !! n') as [h'|] eqn:Hn; simpl; [|done]. f_equal. f_equal.
        assert (s ∉ h_shards h'). { intros Hx. assert (c_shards c !! s = Some n') by (apply Hc; eauto). congruence. }
        set_solver.
      * intros s' n'. simpl. rewrite I4. split; [intros [? ?]; split; [by constructor|done]|].
        intros [[->|Hl]%elem_of_cons Hx]; [congruence|done].
Qed.

(** * All histories *)

Record cwf (c : coord) : Prop := {
  cw_consistent : consistent c;
  cw_self : is_Some (c_hosts c !! c_self c);
}.

Lemma cstep_wf c o : cwf c -> exists c' eff, cstep c o = Some (c', eff) /\ cwf c' /\ c_self c' = c_self c /\
  (forall n, is_Some (c_hosts c !! n) -> is_Some (c_hosts c' !! n)).
Proof.
  intros [Hc Hself].
  assert (Hall : forall ord s, cwf (allocate_shard ord c s).1.1 /\ c_self (allocate_shard ord c s).1.1 = c_self c /\
     (forall n, is_Some (c_hosts c !! n) -> is_Some (c_hosts (allocate_shard ord c s).1.1 !! n))).
  { intros ord s. destruct (allocate_frame ord c s) as (F0 & F1 & _).
    assert (Hd : forall n, is_Some (c_hosts c !! n) -> is_Some (c_hosts (allocate_shard ord c s).1.1 !! n)).
    { intros n Hn. specialize (F1 n). unfold status in F1. destruct (c_hosts _ !! n); [done|]. destruct (c_hosts c !! n); [done|by destruct Hn]. }
    split_and!; [|done|done]. split.
    - destruct (c_shards c !! s) as [n|] eqn:Hs.
      + unfold allocate_shard. by rewrite Hs.
      + apply semi_nil. apply allocate_semi; [by apply semi_nil|done|apply not_elem_of_nil].
    - rewrite F0. auto. }
  assert (Hwf : cwf c) by by split.
  destruct o as [s rb p ord|ord sord|l ord|n ord sord|n|s ord]; simpl.
  - unfold on_allocate. destruct (c_shards c !! s) as [n|] eqn:Hs; [by eexists _, _|].
    destruct (Hall ord s) as (H1 & H2 & H3). destruct (allocate_shard ord c s) as [[c1 r] eff]. simpl in *.
    destruct rb; [by eexists _, _|]. destruct p; by eexists _, _.
  - unfold rebalance_all, shards_to_rebalance. destruct (size (c_hosts c)) as [|k] eqn:Ek.
    + apply map_size_empty_inv in Ek. rewrite Ek, lookup_empty in Hself. by destruct Hself.
    + edestruct (rebalance_shards_spec ord) as (c' & eff & -> & I1 & I0 & I2 & I3 & _); [exact Hc|].
      eexists _, _. split; [done|]. assert (Hd : forall n, is_Some (c_hosts c !! n) -> is_Some (c_hosts c' !! n)).
      { intros m Hm. rewrite I3. by apply fmap_is_Some. }
      split_and!; [split; [done|rewrite I0; auto]|done|done].
  - edestruct (rebalance_shards_spec ord l) as (c' & eff & -> & I1 & I0 & I2 & I3 & _); [exact Hc|].
    eexists _, _. split; [done|]. assert (Hd : forall n, is_Some (c_hosts c !! n) -> is_Some (c_hosts c' !! n)).
    { intros m Hm. rewrite I3. by apply fmap_is_Some. }
    split_and!; [split; [done|rewrite I0; auto]|done|done].
  - eexists _, _. split; [by rewrite <- surjective_pairing|]. destruct (c_hosts c !! n) as [h|] eqn:Hn.
    + destruct (node_unavailable_spec ord sord c n h Hc Hn) as (I0 & I1 & I2 & I3 & _).
      assert (Hd : forall m, is_Some (c_hosts c !! m) -> is_Some (c_hosts (node_unavailable ord sord c n).1 !! m)).
      { intros m Hm. destruct (decide (m = n)) as [->|Hne]; [by rewrite I2|].
        specialize (I3 m Hne). unfold status in I3. destruct (c_hosts _ !! m); [done|]. destruct (c_hosts c !! m); [done|by destruct Hm]. }
      split_and!; [split; [done|rewrite I1; auto]|done|done].
    + unfold node_unavailable. by rewrite Hn.
  - unfold node_discovered. destruct (c_hosts c !! n) as [h|] eqn:Hn.
    + destruct (is_ready h); [by eexists _, _|]. eexists _, _. split; [done|].
      assert (Hd : forall m, is_Some (c_hosts c !! m) -> is_Some (<[n:=CHost SReady (h_shards h)]> (c_hosts c) !! m)).
      { intros m Hm. destruct (decide (m = n)) as [->|Hne]; [by rewrite lookup_insert|by rewrite lookup_insert_ne]. }
      split_and!; [split; simpl; [|auto]|done|done].
      intros s m. rewrite (Hc s m). simpl. destruct (decide (m = n)) as [->|Hne].
      * rewrite lookup_insert, Hn. split; intros (h' & [= <-] & Hin); eexists; (split; [done|]); simpl in *; done.
      * by rewrite lookup_insert_ne.
    + eexists _, _. split; [done|].
      assert (Hd : forall m, is_Some (c_hosts c !! m) -> is_Some (<[n:=CHost SReady ∅]> (c_hosts c) !! m)).
      { intros m Hm. destruct (decide (m = n)) as [->|Hne]; [by rewrite lookup_insert|by rewrite lookup_insert_ne]. }
      split_and!; [split; simpl; [|auto]|done|done].
      intros s m. rewrite (Hc s m). simpl. destruct (decide (m = n)) as [->|Hne].
      * rewrite lookup_insert, Hn. split; intros (h' & ? & Hin); [done|]. simplify_eq. simpl in Hin. set_solver.
      * by rewrite lookup_insert_ne.
  - destruct (Hall ord s) as (H1 & H2 & H3). destruct (allocate_shard ord c s) as [[c1 r] eff]. simpl in *. by eexists _, _.
Qed.

Lemma coord_init_spec self nodes :
  is_Some (c_hosts (coord_init self nodes) !! self) /\ ready (coord_init self nodes) self /\
  forall n h, c_hosts (coord_init self nodes) !! n = Some h -> h_shards h = ∅.
Proof.
  unfold coord_init, ready, status. simpl.
  assert (H : forall m : gmap N chost, h_status <$> m !! self = Some SReady -> (forall n h, m !! n = Some h -> h_shards h = ∅) ->
    let m' := fold_left (fun m (x : N * bool) => if x.1 =? self then m else <[x.1 := CHost (if x.2 then SReady else SUnavailable) ∅]> m) nodes m in
    h_status <$> m' !! self = Some SReady /\ forall n h, m' !! n = Some h -> h_shards h = ∅).
  { induction nodes as [|[n b] nodes IH]; intros m Hs Hall; simpl; [done|]. destruct (N.eqb_spec n self) as [->|Hne]; [by apply IH|].
    apply IH; [by rewrite lookup_insert_ne|]. intros n' h'. intros [[<- <-]|[_ ?]]%lookup_insert_Some; [done|eauto]. }
  specialize (H {[self := CHost SReady ∅]}). rewrite lookup_singleton in H. destruct (H eq_refl) as [H1 H2].
  { intros n h [<- <-]%lookup_singleton_Some. done. }
  split_and!; [|exact H1|exact H2]. destruct (_ !! self); [done|done].
Qed.

Lemma coord_init_wf self nodes : cwf (coord_init self nodes).
Proof.
  destruct (coord_init_spec self nodes) as (H1 & _ & H2). split; [|exact H1].
  intros s n. simpl. rewrite lookup_empty. split; [done|]. intros (h & Hh & Hin). rewrite (H2 _ _ Hh) in Hin. set_solver.
Qed.

Lemma crun_wf ops : forall c, cwf c -> exists c' eff, crun c ops = Some (c', eff) /\ cwf c' /\ c_self c' = c_self c.
Proof.
  induction ops as [|o ops IH]; intros c Hc; simpl; [by eexists _, _|].
  destruct (cstep_wf c o Hc) as (c1 & e1 & -> & H1 & H2 & _). destruct (IH c1 H1) as (c2 & e2 & -> & H3 & H4).
  eexists _, _. split; [done|]. split; [done|congruence].
Qed.

(** * Counting *)
Lemma size_union_list (l : list (N * chost)) : NoDup l.*1 ->
  (forall n h n' h' s, (n, h) ∈ l -> (n', h') ∈ l -> s ∈ h_shards h -> s ∈ h_shards h' -> n = n') ->
  size (⋃ (map (fun x => h_shards x.2) l)) = sum_list (map (fun x => size (h_shards x.2)) l).
Proof.
  induction l as [|[n h] l IH]; simpl; [done|]. intros [Hn Hnd]%NoDup_cons Hd.
  rewrite size_union, IH; [done|done| |].
  - intros n1 h1 n2 h2 s H1 H2. eapply Hd; by constructor.
  - intros s Hs Hu. apply elem_of_union_list in Hu as (X & HX & Hin).
    apply elem_of_list_fmap in HX as ([n' h'] & -> & Hin'). simpl in *.
    apply Hn. rewrite (Hd n h n' h' s) by (done || by constructor). apply elem_of_list_fmap. by exists (n', h').
Qed.

Theorem consistent_total c : consistent c -> size (c_shards c) = total_held c.
Proof.
  intros Hc. unfold total_held. rewrite <- size_union_list.
  - rewrite <- size_dom. f_equal. apply set_eq. intros s. rewrite elem_of_dom, elem_of_union_list. split.
    + intros [n Hn]. apply Hc in Hn as (h & Hh & Hin). exists (h_shards h). split; [|done].
      apply elem_of_list_fmap. exists (n, h). split; [done|by apply elem_of_map_to_list].
    + intros (X & HX & Hin). apply elem_of_list_fmap in HX as ([n h] & -> & Hx%elem_of_map_to_list).
      exists n. apply Hc. eauto.
  - apply NoDup_fst_map_to_list.
  - intros n h n' h' s Hx%elem_of_map_to_list Hy%elem_of_map_to_list H1 H2.
    assert (c_shards c !! s = Some n) by (apply Hc; eauto). assert (c_shards c !! s = Some n') by (apply Hc; eauto). congruence.
Qed.

(** * Full rebalance *)
Lemma take_in {A} k (l : list A) x : x ∈ take k l -> x ∈ l.
Proof. intros (i & Hi & _)%elem_of_take. by eapply elem_of_list_lookup_2. Qed.

Lemma elem_of_concat {A} (x : A) (l : list (list A)) : x ∈ concat l <-> exists t, x ∈ t /\ t ∈ l.
Proof.
  rewrite elem_of_list_In, in_concat. split; intros (t & H1 & H2); exists t; rewrite elem_of_list_In in *; rewrite elem_of_list_In in *; done.
Qed.

Theorem rebalance_all_spec ord sord c : cwf c ->
  exists l c' eff, shards_to_rebalance ord sord c = Some l /\ rebalance_all ord sord c = Some (c', eff) /\ NoDup l /\
    (forall n h, c_hosts c !! n = Some h ->
       exists h', c_hosts c' !! n = Some h' /\ h_status h' = h_status h /\ h_shards h' ⊆ h_shards h /\
                  size (h_shards h') = Nat.min (size (h_shards h)) (fair_share c)) /\
    (forall s, c_shards c' !! s = None \/ c_shards c' !! s = c_shards c !! s) /\
    (forall s n, (s, n) ∈ stops eff <-> c_shards c !! s = Some n /\ c_shards c' !! s = None) /\
    NoDup (stops eff) /\ tells eff = [] /\ consistent c'.
Proof.
  intros [Hc Hself]. unfold rebalance_all.
  assert (Hk : exists k, size (c_hosts c) = S k).
  { destruct (size (c_hosts c)) as [|k] eqn:Ek; [|by exists k]. apply map_size_empty_inv in Ek. rewrite Ek, lookup_empty in Hself. by destruct Hself. }
  destruct Hk as [k Hk].
  set (l := concat (map (fun x : N * chost => take (size (h_shards x.2) - fair_share c)%nat (arrange_set sord (h_shards x.2))) (arrange ord (c_hosts c)))).
  assert (El : shards_to_rebalance ord sord c = Some l).
  { unfold shards_to_rebalance, l, fair_share. by rewrite Hk. }
  rewrite El. exists l.
  assert (Hin : forall s, s ∈ l <-> exists n h, c_hosts c !! n = Some h /\ s ∈ take (size (h_shards h) - fair_share c)%nat (arrange_set sord (h_shards h))).
  { intros s. unfold l. rewrite elem_of_concat. split.
    - intros (t & Ht & ([n h] & -> & Hx)%elem_of_list_fmap). apply elem_of_arrange in Hx. eauto.
    - intros (n & h & Hx & Ht). eexists. split; [exact Ht|]. apply elem_of_list_fmap. exists (n, h). split; [done|by apply elem_of_arrange]. }
  assert (Hof : forall s n h, c_hosts c !! n = Some h -> s ∈ h_shards h ->
     (s ∈ l <-> s ∈ take (size (h_shards h) - fair_share c)%nat (arrange_set sord (h_shards h)))).
  { intros s n h Hn Hs. rewrite Hin. split; [|eauto]. intros (n' & h' & Hn' & Ht).
    assert (Hs' : s ∈ h_shards h') by (eapply elem_of_arrange_set, take_in, Ht).
    assert (c_shards c !! s = Some n) by (apply Hc; eauto). assert (c_shards c !! s = Some n') by (apply Hc; eauto). congruence. }
  assert (Hnd : NoDup l).
  { unfold l. assert (Hd : forall n h n' h' s, (n, h) ∈ arrange ord (c_hosts c) -> (n', h') ∈ arrange ord (c_hosts c) -> s ∈ h_shards h -> s ∈ h_shards h' -> n = n').
    { intros n h n' h' s Hx%elem_of_arrange Hy%elem_of_arrange H1 H2.
      assert (c_shards c !! s = Some n) by (apply Hc; eauto). assert (c_shards c !! s = Some n') by (apply Hc; eauto). congruence. }
    pose proof (arrange_NoDup ord (c_hosts c)) as Hand. revert Hd Hand. generalize (arrange ord (c_hosts c)). intros L Hd.
    induction L as [|[n h] L IH]; simpl; [constructor|]. intros [HnL HL]%NoDup_cons. apply NoDup_app. split_and!.
    - pose proof (arrange_set_NoDup sord (h_shards h)) as Ha.
      rewrite <- (take_drop (size (h_shards h) - fair_share c)%nat (arrange_set sord (h_shards h))) in Ha. by apply NoDup_app in Ha as [? _].
    - intros s Hs Hs'. apply elem_of_concat in Hs' as (t & Ht & ([n' h'] & -> & Hx)%elem_of_list_fmap).
      apply take_in, elem_of_arrange_set in Hs. apply take_in, elem_of_arrange_set in Ht. simpl in *.
      apply HnL. rewrite (Hd n h n' h' s) by (done || by constructor). apply elem_of_list_fmap. by exists (n', h').
    - apply IH; [|done]. intros. eapply Hd; by try apply elem_of_cons; eauto. }
  destruct (rebalance_shards_spec ord l c Hc) as (c' & eff & -> & I1 & I0 & I2 & I3 & I4 & I5 & I6 & _).
  exists c', eff. split_and!; try done.
  - intros n h Hn. rewrite I3, Hn. simpl. eexists. split; [done|]. simpl. split_and!; [done|set_solver|].
    assert (E : h_shards h ∖ list_to_set l = list_to_set (drop (size (h_shards h) - fair_share c)%nat (arrange_set sord (h_shards h)))).
    { apply set_eq. intros s. rewrite elem_of_difference, !elem_of_list_to_set.
      pose proof (arrange_set_NoDup sord (h_shards h)) as Ha.
      rewrite <- (take_drop (size (h_shards h) - fair_share c)%nat (arrange_set sord (h_shards h))) in Ha. apply NoDup_app in Ha as (_ & Ha & _).
      split.
      - intros [Hs Hl]. rewrite (Hof s n h Hn Hs) in Hl. apply (elem_of_arrange_set sord) in Hs.
        rewrite <- (take_drop (size (h_shards h) - fair_share c)%nat (arrange_set sord (h_shards h))) in Hs. apply elem_of_app in Hs as [|]; done.
      - intros Hd. assert (Hs : s ∈ h_shards h).
        { apply (elem_of_arrange_set sord). rewrite <- (take_drop (size (h_shards h) - fair_share c)%nat (arrange_set sord (h_shards h))). apply elem_of_app. by right. }
        split; [done|]. rewrite (Hof s n h Hn Hs). intros Ht. by eapply Ha. }
    rewrite E, size_list_to_set.
    + rewrite drop_length, arrange_set_length. lia.
    + pose proof (arrange_set_NoDup sord (h_shards h)) as Ha.
      rewrite <- (take_drop (size (h_shards h) - fair_share c)%nat (arrange_set sord (h_shards h))) in Ha. by apply NoDup_app in Ha as (_ & _ & ?).
  - intros s. rewrite I2. destruct (decide (s ∈ l)); auto.
  - intros s n. rewrite I4, I2. split; [intros [Hl Hs]; split; [done|by destruct (decide (s ∈ l))]|].
    intros [Hs Hx]. destruct (decide (s ∈ l)); [done|congruence].
Qed.

Lemma crun_snoc c ops o : crun c (ops ++ [o]) =
  match crun c ops with
  | None => None
  | Some (c1, e1) => match cstep c1 o with None => None | Some (c2, e2) => Some (c2, e1 ++ e2) end
  end.
Proof.
  revert c. induction ops as [|o' ops IH]; intros c; simpl.
  - destruct (cstep c o) as [[c2 e2]|]; [by rewrite app_nil_r|done].
  - destruct (cstep c o') as [[c1 e1]|]; [|done]. rewrite IH. destruct (crun c1 ops) as [[c2 e2]|]; [|done].
    destruct (cstep c2 o) as [[c3 e3]|]; [by rewrite app_assoc|done].
Qed.

(** An unavailable node gets nothing until it comes back. *)
Lemma unavailable_step c o n c' eff : cwf c -> c_hosts c !! n = Some (CHost SUnavailable ∅) -> adds n o = false ->
  cstep c o = Some (c', eff) -> c_hosts c' !! n = Some (CHost SUnavailable ∅).
Proof.
  intros [Hc Hself] Hn Ha.
  assert (Hst : status c n <> Some SReady) by (unfold status; by rewrite Hn).
  assert (Hall : forall ord s, c_hosts (allocate_shard ord c s).1.1 !! n = Some (CHost SUnavailable ∅)).
  { intros ord s. destruct (allocate_frame ord c s) as (_ & _ & _ & _ & F & _). by rewrite F. }
  destruct o as [s rb p ord|ord sord|l ord|m ord sord|m|s ord]; simpl in *.
  - unfold on_allocate. specialize (Hall ord s). destruct (c_shards c !! s) as [k|]; [by intros [= <- <-]|].
    destruct (allocate_shard ord c s) as [[c1 r] e]. simpl in *. destruct rb; [by intros [= <- <-]|]. destruct p; by intros [= <- <-].
  - unfold rebalance_all. destruct (shards_to_rebalance ord sord c) as [l|]; [|done].
    destruct (rebalance_shards_spec ord l c Hc) as (c1 & e & -> & _ & _ & _ & I3 & _). intros [= <- <-]. rewrite I3, Hn. simpl. f_equal. f_equal. set_solver.
  - destruct (rebalance_shards_spec ord l c Hc) as (c1 & e & -> & _ & _ & _ & I3 & _). intros [= <- <-]. rewrite I3, Hn. simpl. f_equal. f_equal. set_solver.
  - intros [= E]. destruct (c_hosts c !! m) as [h|] eqn:Hm; [|unfold node_unavailable in E; rewrite Hm in E; by injection E as <- _].
    destruct (decide (m = n)) as [->|Hne].
    + destruct (node_unavailable_spec ord sord c n h Hc Hm) as (_ & _ & H & _). by rewrite E in H.
    + unfold node_unavailable in E. rewrite Hm in E.
      assert (Hl : forall s, s ∈ arrange_set sord (h_shards h) <-> s ∈ h_shards h) by (intros; apply elem_of_arrange_set).
      destruct (reallocate_spec ord _ _ (arrange_set_NoDup sord (h_shards h)) (unavailable_semi c m h _ Hc Hm Hl))
        as (_ & _ & _ & _ & _ & _ & _ & I7).
      rewrite E in I7. simpl in I7. rewrite I7; [by rewrite lookup_insert_ne|].
      unfold status. simpl. rewrite lookup_insert_ne by done. by rewrite Hn.
  - apply N.eqb_neq in Ha. intros [= E]. unfold node_discovered in E. destruct (c_hosts c !! m) as [h|].
    + destruct (is_ready h); injection E as <- _; [done|]. simpl. by rewrite lookup_insert_ne.
    + injection E as <- _. simpl. by rewrite lookup_insert_ne.
  - specialize (Hall ord s). destruct (allocate_shard ord c s) as [[c1 r] e]. simpl in *. by intros [= <- <-].
Qed.

Lemma unavailable_run ops : forall c n c' eff, cwf c -> c_hosts c !! n = Some (CHost SUnavailable ∅) ->
  Forall (fun o => adds n o = false) ops -> crun c ops = Some (c', eff) -> c_hosts c' !! n = Some (CHost SUnavailable ∅).
Proof.
  induction ops as [|o ops IH]; intros c n c' eff Hc Hn Ha; simpl; [by intros [= <- _]|].
  apply Forall_cons in Ha as [Ho Ha]. destruct (cstep c o) as [[c1 e1]|] eqn:E; [|done].
  destruct (crun c1 ops) as [[c2 e2]|] eqn:E2; [|done]. intros [= <- _].
  destruct (cstep_wf c o Hc) as (c1' & e1' & E' & Hc1 & _). rewrite E in E'. injection E' as <- <-.
  eapply IH; [exact Hc1| |exact Ha|exact E2]. exact (unavailable_step c o n _ _ Hc Hn Ho E).
Qed.

(** * Recovery *)
Lemma reallocate_dom ord l : forall c s, is_Some (c_shards (reallocate ord c l).1 !! s) -> s ∈ l \/ is_Some (c_shards c !! s).
Proof.
  induction l as [|x l IH]; intros c s; simpl; [auto|].
  set (d := Coord (c_self c) (c_hosts c) (delete x (c_shards c))).
  destruct (allocate_frame ord d x) as (_ & _ & F & _). destruct (allocate_shard ord d x) as [[c1 r] e]. simpl in F.
  specialize (IH c1 s). destruct (reallocate ord c1 l) as [c2 e2]. simpl in *. intros H. destruct (IH H) as [Hl|Hs]; [left; by constructor|].
  destruct (decide (s = x)) as [->|Hne]; [left; constructor|]. right. rewrite (F s Hne) in Hs. by rewrite lookup_delete_ne in Hs.
Qed.

Lemma allocate_no_persist ord c s : persisted_shards (allocate_shard ord c s).2 = [].
Proof.
  unfold allocate_shard. destruct (c_shards c !! s); [done|]. destruct (stable_sort _ _) as [|[n h] rest]; [done|].
  simpl. by destruct (decide (s ∈ h_shards h)).
Qed.

Lemma persisted_step c o c' eff : cwf c -> is_recover o = false -> cstep c o = Some (c', eff) ->
  forall s, is_Some (c_shards c' !! s) -> is_Some (c_shards c !! s) \/ s ∈ persisted_shards eff \/
     exists p ord, o = COAllocate s true p ord.
Proof.
  intros [Hc Hself] Hr.
  destruct o as [s rb p ord|ord sord|l ord|m ord sord|m|s ord]; simpl in *; try done.
  - intros [= E] s' Hs'. unfold on_allocate in E. destruct (c_shards c !! s) as [k|] eqn:Es; [injection E as <- <-; auto|].
    destruct (allocate_frame ord c s) as (_ & _ & F & _).
    destruct (allocate_shard ord c s) as [[c1 r] e]. simpl in F.
    destruct (decide (s' = s)) as [->|Hne].
    + destruct rb; [right; right; eauto|]. destruct p; injection E as <- <-; [right; left; simpl; constructor|auto].
    + destruct rb; [injection E as <- <-; rewrite F in Hs' by done; auto|].
      destruct p; injection E as <- <-; [rewrite F in Hs' by done; auto|auto].
  - unfold rebalance_all. destruct (shards_to_rebalance ord sord c) as [l|]; [|done].
    destruct (rebalance_shards_spec ord l c Hc) as (c1 & e & -> & _ & _ & I2 & _). intros [= <- <-] s. rewrite I2.
    destruct (decide (s ∈ l)); [by intros [? ?]|auto].
  - destruct (rebalance_shards_spec ord l c Hc) as (c1 & e & -> & _ & _ & I2 & _). intros [= <- <-] s. rewrite I2.
    destruct (decide (s ∈ l)); [by intros [? ?]|auto].
  - intros [= E] s Hs. left. unfold node_unavailable in E. destruct (c_hosts c !! m) as [h|] eqn:Hm; [|by injection E as <- _].
    pose proof (reallocate_dom ord (arrange_set sord (h_shards h)) (Coord (c_self c) (<[m:=CHost SUnavailable ∅]> (c_hosts c)) (c_shards c)) s) as H.
    rewrite E in H. destruct (H Hs) as [Hl|]; [|done]. apply elem_of_arrange_set in Hl. exists m. apply Hc. eauto.
  - intros [= E] s Hs. left. unfold node_discovered in E. destruct (c_hosts c !! m) as [h|].
    + destruct (is_ready h); injection E as <- _; done.
    + by injection E as <- _.
Qed.

Lemma persisted_run self nodes ops : forall c eff,
  Forall (fun o => is_recover o = false) ops -> honest_rebalancing (coord_init self nodes) ops ->
  crun (coord_init self nodes) ops = Some (c, eff) ->
  forall s, is_Some (c_shards c !! s) -> s ∈ persisted_shards eff.
Proof.
  induction ops as [|o ops IH] using rev_ind; intros c eff Hr Hh.
  - simpl. intros [= <- <-] s. simpl. rewrite lookup_empty. by intros [? ?].
  - rewrite crun_snoc. apply Forall_app in Hr as [Hr Ho]. apply Forall_cons in Ho as [Ho _].
    destruct (crun_wf ops _ (coord_init_wf self nodes)) as (c1 & e1 & E1 & Hc1 & _). rewrite E1.
    destruct (cstep c1 o) as [[c2 e2]|] eqn:E2; [|done]. intros [= <- <-] s Hs.
    unfold persisted_shards. rewrite omap_app. apply elem_of_app.
    destruct (persisted_step c1 o c2 e2 Hc1 Ho E2 s Hs) as [H|[H|(p & ord & ->)]]; [left|by right|left].
    + apply (IH c1 e1 Hr); [|done|done]. intros pre s' p ord post c' eff' E. apply (Hh pre s' p ord (post ++ [o])). rewrite E, <- app_assoc. done.
    + eapply Hh; [done|exact E1].
Qed.

Lemma recover_spec self nodes journal ords :
  consistent (recover self nodes journal ords) /\
  forall s, s ∈ journal -> exists n, c_shards (recover self nodes journal ords) !! s = Some n.
Proof.
  unfold recover.
  set (f := fun (x : coord * nat) s => ((allocate_shard (ords x.2) x.1 s).1.1, S x.2)).
  assert (H : forall l c k, cwf c -> ready c (c_self c) ->
     let c' := (fold_left f l (c, k)).1 in
     cwf c' /\ (forall s, is_Some (c_shards c !! s) -> is_Some (c_shards c' !! s)) /\ (forall s, s ∈ l -> is_Some (c_shards c' !! s))).
  { induction l as [|x l IH]; intros c k Hc Hrd; simpl.
    - split_and!; [done|auto|by intros ? ?%elem_of_nil].
    - set (c1 := (allocate_shard (ords k) c x).1.1).
      destruct (allocate_frame (ords k) c x) as (F0 & F1 & F2 & _). fold c1 in F0, F1, F2.
      assert (Hc1 : cwf c1).
      { destruct (cstep_wf c (CORecover x (ords k)) Hc) as (c2 & e2 & E & H & _). simpl in E. unfold c1.
        destruct (allocate_shard (ords k) c x) as [[? ?] ?]. simpl. by injection E as -> _. }
      assert (Hx : is_Some (c_shards c1 !! x)).
      { unfold c1. destruct (c_shards c !! x) as [n|] eqn:E.
        - unfold allocate_shard. rewrite E. simpl. by rewrite E.
        - destruct (allocate_allocates (ords k) c x E) as (n & Hn & _); [by exists (c_self c)|by rewrite Hn]. }
      assert (Hm : forall s, is_Some (c_shards c !! s) -> is_Some (c_shards c1 !! s)).
      { intros s Hs. destruct (decide (s = x)) as [->|Hne]; [done|by rewrite F2]. }
      destruct (IH c1 (S k) Hc1) as (I1 & I2 & I3); [unfold ready; by rewrite F1, F0|].
      split_and!; [done|auto|]. intros s [->|Hs]%elem_of_cons; auto. }
  destruct (coord_init_spec self nodes) as (_ & Hrd & _).
  destruct (H journal (coord_init self nodes) O (coord_init_wf self nodes) Hrd) as ([H1 _] & _ & H3). split; [done|].
  intros s Hs. destruct (H3 s Hs) as [n Hn]. by exists n.
Qed.
