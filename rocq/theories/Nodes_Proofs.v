(** Node store and ring: proofs. *)
From Verif Require Import Nodes_Model Nodes_Spec.
Local Open Scope N_scope.

Section proofs.
Variable rhash : N -> string -> string -> option Z -> N.
Context {K : Type}.
Variable khash : K -> N.
Variable search : list N -> N -> nat.
Hypothesis Hsearch : searches search.
Notation hash := (node_hash rhash).
Notation le_hash := (fun a b => hash a <=? hash b).
Notation le_id := (fun a b => s_id a <=? s_id b).
Notation sorted := (StronglySorted (fun a b : rnode => (hash a <=? hash b) = true)).
Notation ring_get := (ring_get rhash khash search).
Notation get_by_key := (get_by_key rhash khash search).
Notation next_on_ring := (next_on_ring rhash).
Notation add_node := (add_node rhash).
Notation dstep := (dstep rhash search).
Notation drun := (drun rhash search).

Lemma hash_total : forall a b, le_hash a b = true \/ le_hash b a = true.
Proof using. intros a b. rewrite !N.leb_le. lia. Qed.
Lemma hash_trans : forall a b c, le_hash a b = true -> le_hash b c = true -> le_hash a c = true.
Proof using. intros a b c. rewrite !N.leb_le. lia. Qed.
Lemma id_total : forall a b, le_id a b = true \/ le_id b a = true.
Proof using. intros a b. rewrite !N.leb_le. lia. Qed.
Lemma id_trans : forall a b c, le_id a b = true -> le_id b c = true -> le_id a c = true.
Proof using. intros a b c. rewrite !N.leb_le. lia. Qed.

Lemma ring_add_perm r n : ring_add rhash r n ≡ₚ r ++ [n].
Proof using. apply stable_sort_perm. Qed.
Lemma ring_add_sorted r n : sorted (ring_add rhash r n).
Proof using. apply (stable_sort_sorted _ hash_total hash_trans). Qed.

Lemma ring_of_perm l r : fold_left (ring_add rhash) l r ≡ₚ r ++ l.
Proof using.
  revert r. induction l as [|n l IH]; intros r; simpl; [by rewrite app_nil_r|].
  rewrite IH, ring_add_perm, <-app_assoc. done.
Qed.
Lemma ring_of_sorted l r : sorted r -> sorted (fold_left (ring_add rhash) l r).
Proof using.
  revert r. induction l as [|n l IH]; intros r Hr; simpl; [done|]. apply IH, ring_add_sorted.
Qed.

Lemma sorted_keys r : sorted r -> StronglySorted N.le (hash <$> r).
Proof using.
  induction 1 as [|a r Hs IH Ha]; simpl; constructor; [done|]. rewrite Forall_fmap. eapply Forall_impl; [exact Ha|].
  simpl. intros b Hb%N.leb_le. done.
Qed.

Lemma sorted_lookup r i j a b : sorted r -> r !! i = Some a -> r !! j = Some b -> (i <= j)%nat -> hash a <= hash b.
Proof using.
  intros Hs. revert i j. induction Hs as [|c r Hs IH Hc]; intros i j Hi Hj Hij; [done|].
  destruct i as [|i], j as [|j]; simpl in *; simplify_eq.
  - lia.
  - rewrite Forall_forall in Hc. specialize (Hc b (elem_of_list_lookup_2 _ _ _ Hj)). simpl in Hc. by apply N.leb_le in Hc.
  - lia.
  - apply (IH i j); try done. lia.
Qed.

Lemma count_below r h i n : sorted r -> length (List.filter (fun x => x <? h) (hash <$> r)) = i ->
  (r !! i = Some n -> h <= hash n) /\ (forall j m, r !! j = Some m -> (j < i)%nat -> hash m < h).
Proof using.
  intros Hs. revert i. induction Hs as [|c r Hs IH Hc]; intros i; rewrite ?fmap_cons; cbn [List.filter].
  { simpl. intros <-. split; [done|]. intros [|j] m; done. }
  destruct (hash c <? h) eqn:E; cbn [length].
  - intros <-. destruct (IH _ eq_refl) as [I1 I2]. split; [done|].
    intros [|j] m; simpl; [intros [= <-] _; by apply N.ltb_lt|]. intros Hj Hlt. apply (I2 j m Hj). by apply Nat.succ_lt_mono.
  - apply N.ltb_ge in E. assert (List.filter (fun x => x <? h) (hash <$> r) = []) as ->.
    { clear -Hc E. induction r as [|d r IH]; simpl; [done|]. apply Forall_cons in Hc as [Hd Hc]. simpl in Hd.
      apply N.leb_le in Hd. assert ((hash d <? h) = false) as -> by (apply N.ltb_ge; lia). by apply IH. }
    intros <-. split; [by intros [= <-]|]. intros j m _ H. simpl in H. lia.
Qed.

(** ** Looking up a key *)
Lemma ring_get_next r k n : sorted r -> ring_get r k = Some n -> next_on_ring (fun m => m ∈ r) (khash k) n.
Proof using Hsearch.
  intros Hs. unfold Nodes_Model.ring_get. destruct r as [|f r']; [done|]. set (r := f :: r') in *.
  destruct (Hsearch (hash <$> r) (khash k) (sorted_keys r Hs)) as [S1 S2].
  destruct (decide (khash k ∈ (hash <$> r))) as [Hin|Hin].
  - specialize (S1 Hin). rewrite list_lookup_fmap in S1.
    destruct (r !! search (hash <$> r) (khash k)) as [m|] eqn:Em; [|done]. simpl in S1. injection S1 as S1.
    rewrite decide_False by (apply lookup_lt_Some in Em; lia). intros [= <-].
    split; [by eapply elem_of_list_lookup_2|]. left. split; [lia|]. intros; lia.
  - specialize (S2 Hin). destruct (count_below r (khash k) _ n Hs (eq_sym S2)) as [C1 C2].
    case_decide as Hl.
    + intros [= <-]. split; [by left|]. right. rewrite Hl in C2. split.
      * intros m [j Hj]%elem_of_list_lookup. apply (C2 j m Hj). by eapply lookup_lt_Some.
      * intros m [j Hj]%elem_of_list_lookup. apply (sorted_lookup r 0 j); [done|done|done|lia].
    + intros Hn. split; [by eapply elem_of_list_lookup_2|]. left. split; [by apply C1|].
      intros m [j Hj]%elem_of_list_lookup Hm. 
      destruct (decide (j < search (hash <$> r) (khash k))%nat) as [Hlt|Hge].
      * specialize (C2 j m Hj Hlt). lia.
      * apply (sorted_lookup r (search (hash <$> r) (khash k)) j); [done|done|done|lia].
Qed.

Lemma ring_get_some r k : r <> [] -> sorted r -> exists n, ring_get r k = Some n.
Proof using Hsearch.
  intros Hr Hs. unfold Nodes_Model.ring_get. destruct r as [|f r']; [done|]. set (r := f :: r') in *.
  case_decide as Hl; [by eexists|].
  destruct (Hsearch (hash <$> r) (khash k) (sorted_keys r Hs)) as [S1 S2].
  destruct (r !! search (hash <$> r) (khash k)) as [m|] eqn:Em; [by eexists|]. exfalso.
  destruct (decide (khash k ∈ (hash <$> r))) as [Hin|Hin].
  - specialize (S1 Hin). rewrite list_lookup_fmap, Em in S1. done.
  - specialize (S2 Hin). apply lookup_ge_None in Em.
    assert (forall l : list N, (length (List.filter (fun x => (x <? khash k)%N) l) <= length l)%nat) as Hf.
    { induction l as [|x l IH]; simpl; [lia|]. destruct (x <? khash k); simpl; lia. }
    specialize (Hf (hash <$> r)). rewrite <-S2, fmap_length in Hf. lia.
Qed.

Lemma next_unique P h a b : no_collision rhash P -> next_on_ring P h a -> next_on_ring P h b -> a = b.
Proof using.
  intros HC [Pa Ha] [Pb Hb]. apply HC; try done.
  destruct Ha as [[Ha1 Ha2]|[Ha1 Ha2]], Hb as [[Hb1 Hb2]|[Hb1 Hb2]].
  - specialize (Ha2 b Pb Hb1). specialize (Hb2 a Pa Ha1). lia.
  - specialize (Hb1 a Pa). lia.
  - specialize (Ha1 b Pb). lia.
  - specialize (Ha2 b Pb). specialize (Hb2 a Pa). lia.
Qed.
Lemma next_iff (P Q : rnode -> Prop) h a : (forall n, P n <-> Q n) -> next_on_ring P h a -> next_on_ring Q h a.
Proof using.
  intros HPQ [Pa Ha]. split; [by apply HPQ|]. destruct Ha as [[H1 H2]|[H1 H2]]; [left|right]; split; try done;
    intros m Hm%HPQ; auto.
Qed.

(** ** Adding *)
Lemma add_list ord d n : exists l,
  l = stable_sort le_id (get_all ord d ++ [new_state n]) /\ l ≡ₚ get_all ord d ++ [new_state n].
Proof using. eexists. split; [done|]. apply stable_sort_perm. Qed.

Lemma elem_get_all ord d s : (forall k s, d_nodes d !! k = Some s -> s_id s = k) ->
  s ∈ get_all ord d <-> d_nodes d !! s_id s = Some s.
Proof using.
  intros Hk. unfold get_all. rewrite elem_of_list_fmap. split.
  - intros ([k s'] & -> & H). apply elem_of_arrange in H. simpl. by rewrite (Hk _ _ H).
  - intros H. exists (s_id s, s). split; [done|]. by apply elem_of_arrange.
Qed.

Lemma add_ring ord d n m : m ∈ d_ring (add_node ord d n) <-> m = n \/ exists s, s ∈ get_all ord d /\ s_node s = m.
Proof using.
  unfold Nodes_Model.add_node. cbn [d_ring]. rewrite ring_of_perm. simpl. rewrite elem_of_list_fmap. split.
  - intros (s & -> & Hs). rewrite stable_sort_perm in Hs. apply elem_of_app in Hs as [Hs|Hs%elem_of_list_singleton].
    + right. eauto.
    + left. by rewrite Hs.
  - intros [->|(s & Hs & <-)]; [exists (new_state n)|exists s]; (split; [done|]); rewrite stable_sort_perm, elem_of_app; [right|by left].
    by apply elem_of_list_singleton.
Qed.
Lemma add_ring_sorted ord d n : sorted (d_ring (add_node ord d n)).
Proof using. unfold Nodes_Model.add_node. cbn [d_ring]. apply ring_of_sorted. constructor. Qed.

Lemma map_rev_lookup (l : list rstate) k s :
  list_to_map (M := gmap N rstate) (rev ((fun s => (s_id s, s)) <$> l)) !! k = Some s <->
  exists l1 l2, l = l1 ++ s :: l2 /\ s_id s = k /\ forall y, y ∈ l2 -> s_id y <> k.
Proof using.
  revert s. induction l as [|x l IH] using rev_ind; intros s.
  - simpl. rewrite lookup_empty. split; [done|]. intros ([|] & ? & ? & ?); done.
  - rewrite fmap_app, rev_app_distr. simpl. rewrite lookup_insert_Some, IH. split.
    + intros [[Hk <-]|(Hk & l1 & l2 & -> & Hs & Hl)].
      * exists l, []. split; [done|]. split; [done|]. by intros y ?%elem_of_nil.
      * exists l1, (l2 ++ [x]). rewrite <-app_assoc. split; [done|]. split; [done|].
        intros y [Hy|Hy%elem_of_list_singleton]%elem_of_app; [by apply Hl|by subst].
    + intros (l1 & l2 & He & Hs & Hl). destruct l2 as [|z l2 _] using rev_ind.
      * apply app_inj_tail in He as [-> ->]. by left.
      * rewrite app_comm_cons, app_assoc in He. apply app_inj_tail in He as [-> ->]. right. split.
        { apply Hl. apply elem_of_app. right. by apply elem_of_list_singleton. }
        exists l1, l2. split; [done|]. split; [done|]. intros y Hy. apply Hl. apply elem_of_app. by left.
Qed.

(** A stable sort keeps what comes last of its equals. *)
Lemma insert_sorted_last (x z : rstate) l :
  forall l1 l2, l = l1 ++ z :: l2 -> (forall y, y ∈ l2 -> s_id y <> s_id z) -> StronglySorted (fun a b => le_id a b = true) l ->
  exists k1 k2, insert_sorted le_id x l = k1 ++ z :: k2 /\ forall y, y ∈ k2 -> s_id y <> s_id z.
Proof using.
  induction l as [|y l IH]; intros l1 l2 He Hl Hs; [by destruct l1|]. simpl.
  destruct (s_id x <=? s_id y) eqn:E.
  - exists (x :: l1), l2. by rewrite He.
  - apply StronglySorted_inv in Hs as [Hs Hy]. destruct l1 as [|y' l1]; simpl in He; injection He as -> ->.
    + exists [], (insert_sorted le_id x l2). split; [done|]. intros w. rewrite insert_sorted_perm.
      intros [->|Hw]%elem_of_cons; [|by apply Hl]. apply N.leb_gt in E. lia.
    + destruct (IH l1 l2 eq_refl Hl Hs) as (k1 & k2 & -> & Hk). exists (y' :: k1), k2. done.
Qed.
Lemma stable_sort_last (z : rstate) l :
  exists k1 k2, stable_sort le_id (l ++ [z]) = k1 ++ z :: k2 /\ forall y, y ∈ k2 -> s_id y <> s_id z.
Proof using.
  induction l as [|x l IH]; simpl.
  - exists [], []. split; [done|]. by intros y ?%elem_of_nil.
  - destruct IH as (k1 & k2 & He & Hk). apply (insert_sorted_last x z _ k1 k2); [done|done|].
    apply (stable_sort_sorted _ id_total id_trans).
Qed.

Lemma add_record ord d n k : (forall k s, d_nodes d !! k = Some s -> s_id s = k) ->
  record (add_node ord d n) k = if decide (k = r_id n) then Some (new_state n) else record d k.
Proof using.
  intros Hk. unfold record, Nodes_Model.add_node. cbn [d_nodes].
  destruct (decide (k = r_id n)) as [->|Hne].
  - apply map_rev_lookup. destruct (stable_sort_last (new_state n) (get_all ord d)) as (k1 & k2 & He & Hl).
    exists k1, k2. done.
  - apply option_eq. intros s. rewrite map_rev_lookup. split.
    + intros (l1 & l2 & He & Hs & Hl).
      assert (s ∈ get_all ord d ++ [new_state n]) as Hin.
      { rewrite <-(stable_sort_perm le_id), He. apply elem_of_app. right. by left. }
      apply elem_of_app in Hin as [Hin|Hin%elem_of_list_singleton].
      * apply elem_get_all in Hin; [|done]. congruence.
      * subst s. done.
    + intros Hs. pose proof (Hk _ _ Hs) as Hid.
      assert (s ∈ stable_sort le_id (get_all ord d ++ [new_state n])) as Hin.
      { rewrite stable_sort_perm. apply elem_of_app. left. apply elem_get_all; [done|congruence]. }
      apply elem_of_list_split in Hin as (l1 & l2 & He). exists l1, l2. split; [done|]. split; [done|].
      intros y Hy Hyk.
      pose proof (stable_sort_perm le_id (get_all ord d ++ [new_state n])) as Hp. rewrite He in Hp.
      assert (NoDup (get_all ord d)) as Hnd.
      { unfold get_all. apply NoDup_fmap_2_strong; [|by eapply NoDup_fmap_1, arrange_NoDup].
        intros [k1 s1] [k2 s2] H1 H2 E. simpl in E. subst s2. apply elem_of_arrange in H1, H2.
        apply Hk in H1. apply Hk in H2. congruence. }
      assert (s ∈ get_all ord d) as Hin by (apply elem_get_all; [done|congruence]).
      apply elem_of_Permutation in Hin as [rest Hr]. rewrite Hr in Hnd. apply NoDup_cons in Hnd as [Hnot _].
      rewrite Hr, <-Permutation_middle in Hp. simpl in Hp. apply Permutation_cons_inv in Hp.
      assert (y ∈ rest ++ [new_state n]) as Hyr by (rewrite <-Hp; apply elem_of_app; by right).
      apply elem_of_app in Hyr as [Hyr|Hyr%elem_of_list_singleton]; [|by subst].
      assert (y ∈ get_all ord d) as Hyg by (rewrite Hr; by right).
      apply elem_get_all in Hyg; [|done]. rewrite Hyk in Hyg. rewrite Hs in Hyg. injection Hyg as <-. done.
Qed.

(** ** Histories *)
Definition keyed (d : store) : Prop := forall k s, d_nodes d !! k = Some s -> s_id s = k.

Lemma update_record d l k : record (update_nodes d l) k =
  match find (fun s => s_id s =? k) (rev l) with Some s => Some s | None => record d k end.
Proof using.
  unfold record, update_nodes. cbn [d_nodes]. induction l as [|x l IH] using rev_ind; [done|].
  rewrite fold_left_app, rev_app_distr. simpl. destruct (s_id x =? k) eqn:E.
  - apply N.eqb_eq in E as <-. by rewrite lookup_insert.
  - apply N.eqb_neq in E. by rewrite lookup_insert_ne.
Qed.
Lemma update_cases d l k s : record (update_nodes d l) k = Some s ->
  (s ∈ l /\ s_id s = k) \/ (record d k = Some s /\ forall x, x ∈ l -> s_id x <> k).
Proof using.
  rewrite update_record. destruct (find _ _) as [x|] eqn:E.
  - intros [= <-]. left. apply find_some in E as [E1 E2]. split; [|by apply N.eqb_eq].
    apply elem_of_list_In. by apply in_rev.
  - intros H. right. split; [done|]. intros x Hx%elem_of_list_In Hk. apply in_rev in Hx. pose proof (find_none _ _ E x Hx) as Hx'.
    simpl in Hx'. apply N.eqb_neq in Hx'. done.
Qed.

Lemma keyed_step d o : keyed d -> keyed (dstep d o).
Proof using.
  intros Hk. destruct o as [ord n|l|n|n]; simpl.
  - intros k s H. pose proof (add_record ord d n k Hk) as Ha. unfold record in Ha. rewrite H in Ha.
    case_decide; [by injection Ha as ->|]. by apply Hk.
  - intros k s H. destruct (update_cases d l k s H) as [[_ ?]|[H' _]]; [done|by apply Hk].
  - intros k s. unfold node_terminated. cbn [d_nodes]. rewrite lookup_alter_Some.
    intros [(-> & s' & Hs & ->)|[_ Hs]]; [|by apply Hk]. by apply Hk in Hs.
  - unfold remove_node. destruct (d_nodes d !! n) eqn:E; [|done]. intros k s'. cbn [d_nodes].
    intros [_ H]%lookup_delete_Some. by apply Hk.
Qed.
Lemma keyed_run l : keyed (drun l).
Proof using.
  induction l as [|o l IH] using rev_ind; [by intros k s; simpl; rewrite lookup_empty|].
  unfold Nodes_Model.drun in *. rewrite fold_left_app. by apply keyed_step.
Qed.

Record tidy (l : list dop) (d : store) : Prop := {
  t_ring : forall n, n ∈ d_ring d <-> member l n;
  t_sorted : sorted (d_ring d);
  t_known : forall k s, d_nodes d !! k = Some s -> member l (s_node s);
  t_record : forall n, member l n -> exists s, d_nodes d !! r_id n = Some s /\ s_node s = n
}.

Lemma member_snoc l o n : member (l ++ [o]) n <-> member l n \/ exists ord, o = DAdd ord n.
Proof using.
  unfold member. split.
  - intros (ord & [H|H%elem_of_list_singleton]%elem_of_app); eauto.
  - intros [[ord H]|[ord ->]]; exists ord; apply elem_of_app; [by left|right; by apply elem_of_list_singleton].
Qed.
Lemma consistent_snoc l o : consistent (l ++ [o]) -> consistent l.
Proof using.
  intros (H1 & H2 & H3). split_and!.
  - intros a b Ha Hb. apply H1; apply member_snoc; by left.
  - intros l1 u l2 s ->. apply (H2 l1 u (l2 ++ [o])). by rewrite <-app_assoc.
  - intros n Hn. apply (H3 n). apply elem_of_app. by left.
Qed.

Lemma tidy_run l : consistent l -> tidy l (drun l).
Proof using.
  induction l as [|o l IH] using rev_ind; intros HC.
  { split; simpl; try done.
    - intros n. split; [by intros ?%elem_of_nil|by intros [ord ?%elem_of_nil]].
    - constructor.
    - intros n [ord ?%elem_of_nil]. done. }
  specialize (IH (consistent_snoc _ _ HC)). pose proof (keyed_run l) as Hk.
  unfold Nodes_Model.drun in *. rewrite fold_left_app. simpl. set (d := fold_left dstep l _) in *.
  destruct IH as [T1 T2 T3 T4]. destruct HC as (C1 & C2 & C3).
  destruct o as [ord n|u|n|n]; simpl.
  - split.
    + intros m. rewrite add_ring, member_snoc. split.
      * intros [->|(s & Hs & <-)]; [by eauto|]. left. apply elem_get_all in Hs; [|done]. by eapply T3.
      * intros [Hm|[ord' [= -> ->]]]; [|by left]. right. destruct (T4 m Hm) as (s & Hs & <-).
        exists s. split; [|done]. by apply elem_get_all.
    + apply add_ring_sorted.
    + intros k s H. pose proof (add_record ord d n k Hk) as Ha. unfold record in Ha. rewrite H in Ha.
      apply member_snoc. case_decide; [injection Ha as ->; eauto|]. left. by eapply T3.
    + intros m Hm. pose proof (add_record ord d n (r_id m) Hk) as Ha. unfold record in Ha. rewrite Ha.
      case_decide as Hid.
      * eexists. split; [done|]. simpl. symmetry. apply C1; [done|apply member_snoc; eauto|done].
      * apply member_snoc in Hm as [Hm|[ord' [= -> ->]]]; [by apply T4|done].
  - assert (forall m, member (l ++ [DUpdate u]) m <-> member l m) as Hm.
    { intros m. rewrite member_snoc. split; [|by left]. by intros [?|[? ?]]. }
    split; try done; cbn [update_nodes d_ring].
    + intros m. by rewrite Hm.
    + intros k s H. rewrite Hm. destruct (update_cases d u k s H) as [[Hs _]|[H' _]]; [|by eapply T3].
      by eapply (C2 l u []).
    + intros m H%Hm. destruct (T4 m H) as (s & Hs & Hs').
      pose proof (update_record d u (r_id m)) as Hu. unfold record in Hu. rewrite Hu.
      destruct (find _ _) as [x|] eqn:E; [|by eauto]. exists x. split; [done|].
      apply find_some in E as [E1 E2]. apply N.eqb_eq in E2. apply C1; [|by apply Hm|done].
      apply Hm. eapply (C2 l u []); [done|]. apply elem_of_list_In. by apply in_rev.
  - assert (forall m, member (l ++ [DTerminated n]) m <-> member l m) as Hm.
    { intros m. rewrite member_snoc. split; [|by left]. by intros [?|[? ?]]. }
    split; try done; cbn [node_terminated d_ring d_nodes].
    + intros m. by rewrite Hm.
    + intros k s. rewrite Hm, lookup_alter_Some. intros [(-> & s' & Hs & ->)|[_ Hs]]; [apply (T3 _ _ Hs)|by eapply T3].
    + intros m H%Hm. destruct (T4 m H) as (s & Hs & Hs'). destruct (decide (n = r_id m)) as [->|Hne].
      * rewrite lookup_alter, Hs. simpl. by eexists.
      * rewrite lookup_alter_ne by done. eauto.
  - destruct (C3 n). apply elem_of_app. right. by apply elem_of_list_singleton.
Qed.

(** A key belongs to the next node on the ring. *)
Lemma assigned l k n : consistent l -> get_by_key (drun l) k = Some n -> next_on_ring (member l) (khash k) n.
Proof using Hsearch.
  intros HC H. destruct (tidy_run l HC) as [T1 T2 _ _]. apply (next_iff _ _ _ _ T1). by apply ring_get_next.
Qed.
Lemma assigned_some l k : consistent l -> (exists n, member l n) -> exists n, get_by_key (drun l) k = Some n.
Proof using Hsearch.
  intros HC [n Hn]. destruct (tidy_run l HC) as [T1 T2 _ _]. apply ring_get_some; [|done].
  intros E. apply T1 in Hn. rewrite E in Hn. by apply elem_of_nil in Hn.
Qed.
Lemma assigned_none l k : consistent l -> (forall n, ~ member l n) -> get_by_key (drun l) k = None.
Proof using.
  intros HC Hn. destruct (tidy_run l HC) as [T1 T2 _ _]. unfold Nodes_Model.get_by_key, Nodes_Model.ring_get.
  destruct (d_ring (drun l)) as [|f r] eqn:E; [done|]. destruct (Hn f). apply T1. by left.
Qed.

Lemma agreement l1 l2 k : consistent l1 -> consistent l2 -> (forall n, member l1 n <-> member l2 n) ->
  no_collision rhash (member l1) -> get_by_key (drun l1) k = get_by_key (drun l2) k.
Proof using Hsearch.
  intros C1 C2 Hm HC. destruct (get_by_key (drun l1) k) as [a|] eqn:E1.
  - destruct (assigned_some l2 k C2) as [b E2].
    { exists a. apply Hm. by apply assigned in E1 as [? _]. }
    rewrite E2. f_equal. eapply (next_unique (member l1) (khash k)); [done|by apply assigned|].
    eapply next_iff; [|by apply assigned]. intros n. by rewrite Hm.
  - destruct (get_by_key (drun l2) k) as [b|] eqn:E2; [|done].
    destruct (assigned_some l1 k C1) as [a E]; [|congruence]. exists b. apply Hm. by apply assigned in E2 as [? _].
Qed.

(** ** Each node added once: the same ring, whatever the hashes *)
Lemma sorted_unique (l1 l2 : list rstate) : l1 ≡ₚ l2 -> NoDup (s_id <$> l1) ->
  StronglySorted (fun a b => le_id a b = true) l1 -> StronglySorted (fun a b => le_id a b = true) l2 -> l1 = l2.
Proof using.
  intros Hp Hn H1. revert l2 Hp Hn. induction H1 as [|a l1 Hs IH Ha]; intros l2 Hp Hn H2.
  { by apply Permutation_nil in Hp. }
  destruct l2 as [|b l2]; [by symmetry in Hp; apply Permutation_nil in Hp|].
  apply StronglySorted_inv in H2 as [H2 Hb].
  assert (a = b) as ->.
  { assert (a ∈ b :: l2) as Hin by (rewrite <-Hp; by left). assert (b ∈ a :: l1) as Hin' by (rewrite Hp; by left).
    apply elem_of_cons in Hin as [|Hin]; [done|]. apply elem_of_cons in Hin' as [|Hin']; [done|].
    rewrite Forall_forall in Ha, Hb. specialize (Ha b Hin'). specialize (Hb a Hin). simpl in *.
    apply N.leb_le in Ha, Hb. assert (s_id a = s_id b) as E by lia.
    simpl in Hn. apply NoDup_cons in Hn as [Hn _]. destruct Hn. rewrite E. apply elem_of_list_fmap. by exists b. }
  f_equal. apply IH; [by eapply Permutation_cons_inv|by apply NoDup_cons in Hn as [_ ?]|done].
Qed.

Lemma get_all_perm ord d : get_all ord d ≡ₚ (map_to_list (d_nodes d)).*2.
Proof using. unfold get_all. by rewrite arrange_perm. Qed.

Lemma adds_all (l : list (list N * rnode)) ord : NoDup (r_id <$> l.*2) ->
  get_all ord (drun ((fun p => DAdd p.1 p.2) <$> l)) ≡ₚ new_state <$> l.*2.
Proof using.
  induction l as [|[o n] l IH] using rev_ind; intros Hn.
  { simpl. rewrite get_all_perm. unfold Nodes_Model.drun. simpl. by rewrite map_to_list_empty. }
  rewrite !fmap_app in Hn. simpl in Hn. apply NoDup_app in Hn as (Hn & Hd & _). 
  rewrite !fmap_app. simpl. rewrite get_all_perm. unfold Nodes_Model.drun in *. rewrite fold_left_app. cbn [fold_left Nodes_Model.dstep fst snd].
  set (d := fold_left dstep _ _) in *. pose proof (keyed_run ((fun p => DAdd p.1 p.2) <$> l)) as Hk. 
  assert (d_nodes (add_node o d n) = <[r_id n := new_state n]> (d_nodes d)) as ->.
  { apply map_eq. intros k. pose proof (add_record o d n k Hk) as Ha. unfold record in Ha. rewrite Ha.
    case_decide as E; [subst k; by rewrite lookup_insert|by rewrite lookup_insert_ne]. }
  assert (d_nodes d !! r_id n = None) as Hnone.
  { destruct (d_nodes d !! r_id n) as [s|] eqn:E; [|done]. exfalso.
    assert (s ∈ get_all [] d) as Hin.
    { apply elem_get_all; [done|]. by rewrite (Hk _ _ E). }
    rewrite get_all_perm, <-(get_all_perm ord), (IH Hn) in Hin. apply elem_of_list_fmap in Hin as (m & -> & Hm).
    apply Hk in E. apply (Hd (r_id n)); [|by apply elem_of_list_singleton].
    rewrite <-E. unfold s_id. simpl. apply elem_of_list_fmap. by exists m. }
  rewrite (map_to_list_insert _ _ _ Hnone). simpl. rewrite <-(get_all_perm ord), (IH Hn).
  rewrite Permutation_app_comm. done.
Qed.

Lemma adds_ring (l : list (list N * rnode)) : NoDup (r_id <$> l.*2) ->
  d_ring (drun ((fun p => DAdd p.1 p.2) <$> l)) =
  fold_left (ring_add rhash) (s_node <$> stable_sort le_id (new_state <$> l.*2)) [].
Proof using.
  destruct l as [|[o n] l _] using rev_ind; intros Hn; [done|].
  pose proof Hn as Hn'. rewrite !fmap_app in Hn. simpl in Hn. apply NoDup_app in Hn as (Hn & _ & _).
  rewrite !fmap_app. simpl. pose proof (adds_all l o Hn) as Ha. unfold Nodes_Model.drun in *.
  rewrite fold_left_app. simpl. unfold Nodes_Model.add_node. cbn [d_ring]. f_equal. f_equal.
  assert (get_all o (fold_left dstep ((fun p => DAdd p.1 p.2) <$> l) (new_store rhash [])) ++ [new_state n]
          ≡ₚ (new_state <$> l.*2) ++ [new_state n]) as Hp by (by rewrite Ha).
  apply sorted_unique.
  - by rewrite !stable_sort_perm.
  - rewrite stable_sort_perm, Hp. rewrite <-(fmap_app new_state l.*2 [n]).
    rewrite <-list_fmap_compose. rewrite !fmap_app in Hn'. rewrite fmap_app. exact Hn'.
  - apply (stable_sort_sorted _ id_total id_trans).
  - apply (stable_sort_sorted _ id_total id_trans).
Qed.

Lemma adds_same_ring (l1 l2 : list (list N * rnode)) : NoDup (r_id <$> l1.*2) -> l1.*2 ≡ₚ l2.*2 ->
  d_ring (drun ((fun p => DAdd p.1 p.2) <$> l1)) = d_ring (drun ((fun p => DAdd p.1 p.2) <$> l2)).
Proof using.
  intros Hn Hp. rewrite (adds_ring l1 Hn), (adds_ring l2) by (by rewrite <-Hp). f_equal. f_equal.
  apply sorted_unique.
  - rewrite !stable_sort_perm. by rewrite Hp.
  - rewrite stable_sort_perm, <-list_fmap_compose. exact Hn.
  - apply (stable_sort_sorted _ id_total id_trans).
  - apply (stable_sort_sorted _ id_total id_trans).
Qed.

(** ** Removal *)
Lemma remove_ring r n : sorted r -> n ∈ r -> NoDup (hash <$> r) ->
  forall m, m ∈ ring_remove rhash search r n <-> m ∈ r /\ m <> n.
Proof using Hsearch.
  intros Hs Hin Hnd m. unfold ring_remove.
  destruct (Hsearch (hash <$> r) (hash n) (sorted_keys r Hs)) as [S1 _].
  assert (hash n ∈ (hash <$> r)) as Hh by (apply elem_of_list_fmap; by exists n).
  specialize (S1 Hh). set (i := search _ _) in *. rewrite list_lookup_fmap in S1.
  destruct (r !! i) as [c|] eqn:Ei; [|done]. simpl in S1. injection S1 as S1. rewrite S1, N.eqb_refl.
  assert (forall a b, a ∈ r -> b ∈ r -> hash a = hash b -> a = b) as Hinj.
  { clear -Hnd. induction r as [|x r IH]; intros a b Ha Hb E; [by apply elem_of_nil in Ha|].
    simpl in Hnd. apply NoDup_cons in Hnd as [Hx Hnd].
    apply elem_of_cons in Ha. apply elem_of_cons in Hb. destruct Ha as [->|Ha], Hb as [->|Hb]; [done| | |by apply IH].
    - destruct Hx. rewrite E. apply elem_of_list_fmap. by exists b.
    - destruct Hx. rewrite <-E. apply elem_of_list_fmap. by exists a. }
  assert (c = n) as -> by (apply Hinj; [by eapply elem_of_list_lookup_2|done|done]).
  pose proof (delete_Permutation r i n Ei) as Hp.
  assert (n ∉ delete i r) as Hn'.
  { rewrite Hp in Hnd. simpl in Hnd. apply NoDup_cons in Hnd as [Hnd _]. intros H. apply Hnd.
    apply elem_of_list_fmap. by exists n. }
  assert (m ∈ r <-> m = n \/ m ∈ delete i r) as -> by (rewrite <-elem_of_cons; by rewrite <-Hp). split.
  - intros H. split; [by right|]. intros ->. done.
  - intros [[->|H] Hne]; done.
Qed.

Lemma sorted_delete r i : sorted r -> sorted (delete i r).
Proof using.
  intros Hs. revert i. induction Hs as [|a r Hs IH Ha]; intros [|i]; simpl; try done; [constructor|constructor|].
  constructor; [apply IH|]. rewrite Forall_forall in *. intros x Hx. apply Ha.
  apply elem_of_list_lookup in Hx as [j Hj]. destruct (decide (j < i)%nat).
  - rewrite lookup_delete_lt in Hj by done. by eapply elem_of_list_lookup_2.
  - rewrite lookup_delete_ge in Hj by lia. by eapply elem_of_list_lookup_2.
Qed.
Lemma remove_adds (l : list (list N * rnode)) n :
  NoDup (r_id <$> l.*2) -> NoDup (hash <$> l.*2) -> n ∈ l.*2 ->
  let d := dstep (drun ((fun p => DAdd p.1 p.2) <$> l)) (DRemove (r_id n)) in
  record d (r_id n) = None /\ (forall m, m ∈ d_ring d <-> m ∈ l.*2 /\ m <> n) /\ sorted (d_ring d).
Proof using Hsearch.
  intros Hn Hh Hin. cbn [Nodes_Model.dstep]. unfold remove_node, record.
  set (d := drun _). 
  assert (d_nodes d !! r_id n = Some (new_state n)) as Hd.
  { assert (new_state n ∈ get_all [] d) as H.
    { unfold d. rewrite (adds_all l [] Hn). apply elem_of_list_fmap. by exists n. }
    apply elem_get_all in H; [done|apply keyed_run]. }
  assert (d_ring d ≡ₚ l.*2) as Hr.
  { unfold d. rewrite (adds_ring l Hn), ring_of_perm. simpl. rewrite stable_sort_perm, <-list_fmap_compose.
    by rewrite (list_fmap_id l.*2). }
  assert (sorted (d_ring d)) as Hs.
  { unfold d. rewrite (adds_ring l Hn). apply ring_of_sorted. constructor. }
  rewrite Hd. cbn [d_nodes d_ring]. split; [by rewrite lookup_delete|]. split.
  - intros m. rewrite (remove_ring _ _ Hs); [by rewrite Hr|by rewrite Hr|by rewrite Hr].
  - unfold ring_remove. destruct (d_ring d !! _) as [c|]; [|done]. destruct (_ =? _); [by apply sorted_delete|done].
Qed.
End proofs.
