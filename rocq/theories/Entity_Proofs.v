(** Proofs about the entities of a shard. *)
From Verif Require Import Entity_Model Entity_Spec.
Local Open Scope N_scope.

Section proofs.
Context {R : Type}.
Implicit Types (v : esys R) (l : list (vop R)) (log : list (eeffect R)).

Lemma vrun_snoc v l o : vrun v (l ++ [o]) = vstep (vrun v l) o.
Proof using. unfold vrun. by rewrite fold_left_app. Qed.

Lemma outcomes_app id (l1 l2 : list (eeffect R)) : outcomes (R:=R) id (l1 ++ l2) = outcomes id l1 ++ outcomes id l2.
Proof using. apply omap_app. Qed.
Lemma forwarded_app id (l1 l2 : list (eeffect R)) : forwarded (R:=R) id (l1 ++ l2) = forwarded id l1 ++ forwarded id l2.
Proof using. apply omap_app. Qed.
Lemma creations_app id (l1 l2 : list (eeffect R)) : creations (R:=R) id (l1 ++ l2) = creations id l1 ++ creations id l2.
Proof using. apply omap_app. Qed.
Lemma outcomes_drop id id' buf : outcomes (R:=R) id (map (EDrop id') buf) = if id' =? id then buf else [].
Proof using. destruct (id' =? id) eqn:E; induction buf as [|r buf IH]; simpl; rewrite ?E; try done. by f_equal. Qed.
Lemma outcomes_fwd id id' a buf : outcomes (R:=R) id (map (EForward id' a) buf) = if id' =? id then buf else [].
Proof using. destruct (id' =? id) eqn:E; induction buf as [|r buf IH]; simpl; rewrite ?E; try done. by f_equal. Qed.
Lemma forwarded_fwd id id' a buf : forwarded (R:=R) id (map (EForward id' a) buf) = if id' =? id then buf else [].
Proof using. destruct (id' =? id) eqn:E; induction buf as [|r buf IH]; simpl; rewrite ?E; try done. by f_equal. Qed.
Lemma forwarded_drop id id' buf : forwarded (R:=R) id (map (EDrop id') buf) = [].
Proof using. by induction buf. Qed.
Lemma creations_fwd id id' a buf : creations (R:=R) id (map (EForward id' a) buf) = [].
Proof using. by induction buf. Qed.
Lemma creates_fwd id a buf : creates (R:=R) (map (EForward id a) buf) = [].
Proof using. by induction buf. Qed.
Lemma creates_drop id x : creates (R:=R) (drop_buffer id x) = [].
Proof using. destruct x as [[rc [|buf| |]]|]; try done. simpl. by induction buf. Qed.
Lemma creates_app (l1 l2 : list (eeffect R)) : creates (R:=R) (l1 ++ l2) = creates l1 ++ creates l2.
Proof using. apply omap_app. Qed.

(** ** Accounting *)

Definition buf_of (x : option (N * estate R)) : list R := match x with Some (_, EStarting buf) => buf | _ => [] end.
Lemma outcomes_drop_buffer id id' x : outcomes (R:=R) id (drop_buffer id' x) = if id' =? id then buf_of x else [].
Proof using. destruct x as [[rc [|buf| |]]|]; simpl; try (by destruct (_ =? _)). apply outcomes_drop. Qed.

Lemma outcomes_all (m : gmap N (N * estate R)) id :
  outcomes id (flat_map (fun x => drop_buffer x.1 (Some x.2)) (map_to_list m)) = buf_of (m !! id).
Proof using.
  assert (H : forall l : list (N * (N * estate R)), NoDup l.*1 ->
     outcomes id (flat_map (fun x => drop_buffer x.1 (Some x.2)) l) = buf_of ((list_to_map l : gmap N (N * estate R)) !! id)).
  { intros l. induction l as [|[k x] l IH]; intros Hnd; [done|]. simpl in Hnd. apply NoDup_cons in Hnd as [Hk Hnd].
    cbn [flat_map]. rewrite outcomes_app, IH, outcomes_drop_buffer by done. simpl. destruct (N.eqb_spec k id) as [->|Hne].
    - rewrite lookup_insert. rewrite not_elem_of_list_to_map_1 by done. simpl. by rewrite app_nil_r.
    - by rewrite lookup_insert_ne. }
  rewrite H by apply NoDup_fst_map_to_list. by rewrite list_to_map_to_list.
Qed.

Lemma step_accounted id v o : outcomes id (v_log (vstep v o)) ++ buffered (vstep v o) id ≡ₚ
  outcomes id (v_log v) ++ buffered v id ++ arrived id [o].
Proof using.
  destruct o as [q p|id' rc p|i ok|j|k|id' a|ord]; cbn [vstep arrived omap list_omap].
  - unfold on_entity_request, buffered. destruct (q_known q).
    + destruct (v_ents v !! q_id q) as [[rc st]|] eqn:E.
      * destruct st as [|buf|a|]; simpl; rewrite outcomes_app; simpl;
          (destruct (N.eqb_spec (q_id q) id) as [<-|Hne]; [rewrite lookup_insert, E|rewrite lookup_insert_ne by done]); solve_Permutation.
      * destruct (q_recipe q) as [rc|]; simpl; rewrite outcomes_app; simpl;
          (destruct (N.eqb_spec (q_id q) id) as [<-|Hne]); rewrite ?lookup_insert, ?E, ?lookup_insert_ne by done; try solve_Permutation.
    + simpl. rewrite outcomes_app. simpl. destruct (N.eqb_spec (q_id q) id) as [<-|Hne]; solve_Permutation.
  - unfold on_start_entity, buffered. simpl. rewrite !outcomes_app, outcomes_drop_buffer. simpl.
    destruct (N.eqb_spec id' id) as [->|Hne]; [rewrite lookup_insert|rewrite lookup_insert_ne by done]; [|solve_Permutation].
    unfold buf_of. destruct (v_ents v !! id) as [[rc' []]|]; solve_Permutation.
  - destruct (v_tasks v !! i) as [[[mine id'] rc]|]; simpl; unfold buffered; simpl; solve_Permutation.
  - destruct (v_results v !! j) as [[id' [a|]]|]; simpl; unfold buffered; simpl; [|rewrite app_nil_r; solve_Permutation|solve_Permutation].
    destruct (v_ents v !! id') as [[rc st]|] eqn:E; simpl; [|rewrite app_nil_r; solve_Permutation].
    rewrite outcomes_app. destruct (decide (id' = id)) as [->|Hne].
    + rewrite lookup_insert, E. destruct st as [|buf|b|]; simpl; rewrite ?outcomes_fwd, ?N.eqb_refl; solve_Permutation.
    + rewrite lookup_insert_ne by done. destruct st as [|buf|b|]; simpl; rewrite ?outcomes_fwd, ?(proj2 (N.eqb_neq id' id)) by done; solve_Permutation.
  - destruct (v_fwd v !! k) as [[[id' a] r]|]; simpl; unfold buffered; simpl; solve_Permutation.
  - destruct (existsb (is_ent id' a) (v_live v)); simpl; unfold buffered; simpl; solve_Permutation.
  - simpl. rewrite outcomes_app, outcomes_all. unfold buffered at 2. change (match v_ents v !! id with Some (_, EStarting buf) => buf | _ => [] end) with (buf_of (v_ents v !! id)).
    assert (buffered (ESys (recover_log (v_journal v) ∅) ∅ (v_persistent v) (v_journal v)
           (map (fun x => (false, x.1.2, x.2)) (v_tasks v) ++ map (fun x => (true, x.1, x.2)) (recover_entities ord (recover_log (v_journal v) ∅)))
           [] (List.filter (fun x => negb (is_child (v_children v) x)) (v_live v)) (v_fwd v) (v_got v)
           (v_log v ++ flat_map (fun x => drop_buffer x.1 (Some x.2)) (map_to_list (v_ents v))) (v_next v)) id = ([] : list R)) as ->; [|solve_Permutation].
    unfold buffered. simpl.
    assert (H : forall (l : list eentry) (m : gmap N (N * estate R)), buf_of (m !! id) = [] -> buf_of (recover_log l m !! id) = []).
    { intros l. induction l as [|e l IH]; intros m Hm; [done|]. simpl. apply IH. destruct e as [k rc|k|k]; simpl.
      - destruct (decide (k = id)) as [->|]; [by rewrite lookup_insert|by rewrite lookup_insert_ne].
      - destruct (m !! k) as [[rc st]|]; [|done]. destruct (decide (k = id)) as [->|]; [by rewrite lookup_insert|by rewrite lookup_insert_ne].
      - destruct (decide (k = id)) as [->|]; [by rewrite lookup_delete|by rewrite lookup_delete_ne]. }
    apply H. by rewrite lookup_empty.
Qed.

Theorem run_accounted id l v :
  outcomes id (v_log (vrun v l)) ++ buffered (vrun v l) id ≡ₚ outcomes id (v_log v) ++ buffered v id ++ arrived id l.
Proof using.
  induction l as [|o l IH] using rev_ind; [simpl; by rewrite app_nil_r|].
  rewrite vrun_snoc, step_accounted. unfold arrived in *. rewrite omap_app.
  rewrite (app_assoc _ _ (omap _ [o])), IH. solve_Permutation.
Qed.

(** ** Order *)

(** A fresh entity: absent, starting or active; [known]: not absent. *)
Definition fresh_ent (x : option (N * estate R)) : Prop :=
  match x with None | Some (_, EStarting _) | Some (_, EActive _) => True | _ => False end.
Definition known_ent (x : option (N * estate R)) : bool := match x with None => false | _ => true end.

Lemma served_app b id l1 l2 : served (R:=R) b id (l1 ++ l2) =
  served b id l1 ++ served (b || match served b id l1 with [] => false | _ => true end) id l2.
Proof using.
  revert b. induction l1 as [|o l1 IH]; intros b; simpl; [by rewrite orb_false_r|].
  destruct o as [q p| | | | | |]; try apply IH.
  destruct ((q_id q =? id) && q_known q); [|apply IH].
  destruct (b || match q_recipe q with Some _ => true | None => false end); [|apply IH].
  simpl. rewrite IH. rewrite orb_true_r. done.
Qed.

Record ord_inv id v l : Prop := {
  oi_fresh : fresh_ent (v_ents v !! id);
  oi_known : known_ent (v_ents v !! id) = match served false id l with [] => false | _ => true end;
  oi_order : forwarded id (v_log v) ++ buffered v id = served false id l;
  oi_created : length (creations id (v_log v)) = if known_ent (v_ents v !! id) then 1%nat else 0%nat;
}.

Lemma ord_inv_other id v v' l o : ord_inv id v l -> served (known_ent (v_ents v !! id)) id [o] = [] ->
  v_ents v' !! id = v_ents v !! id -> forwarded id (v_log v') = forwarded id (v_log v) -> creations id (v_log v') = creations id (v_log v) ->
  ord_inv id v' (l ++ [o]).
Proof using.
  intros [H1 H2 H3 H4] Hs He Hf Hc. assert (E : served false id (l ++ [o]) = served false id l).
  { rewrite served_app. simpl orb. rewrite <- H2, Hs. by rewrite app_nil_r. }
  split; rewrite ?E, ?He, ?Hf, ?Hc; try done. unfold buffered. rewrite He. exact H3.
Qed.

Lemma ord_step id v l o : ord_inv id v l -> undisturbed id o = true -> ord_inv id (vstep v o) (l ++ [o]).
Proof using.
  intros I Hu. destruct o as [q p|id' rc p|i ok|j|k|id' a|ord]; cbn [vstep].
  - destruct (decide (q_id q = id)) as [Hq|Hne].
    2:{ assert (Hs : served (known_ent (v_ents v !! id)) id [VRequest q p] = []) by (simpl; by rewrite (proj2 (N.eqb_neq _ _))).
        unfold on_entity_request.
        destruct (q_known q); [destruct (v_ents v !! q_id q) as [[rc st]|] eqn:E; [destruct st|destruct (q_recipe q) as [rc|] eqn:Er]|];
          simpl; (eapply ord_inv_other; [done|done|..]); simpl;
          rewrite ?forwarded_app, ?creations_app; simpl; rewrite ?(proj2 (N.eqb_neq (q_id q) id)) by done; rewrite ?app_nil_r, ?lookup_insert_ne by done; done. }
    subst id. destruct I as [H1 H2 H3 H4]. unfold on_entity_request. destruct (q_known q) eqn:Ek.
    + destruct (v_ents v !! q_id q) as [[rc st]|] eqn:E.
      * destruct st as [|buf|a|]; try done; unfold buffered in H3; rewrite E in H3;
          (split; simpl; rewrite ?served_app, ?lookup_insert; simpl in H2 |- *; rewrite <- ?H2, ?N.eqb_refl, ?Ek; simpl; try done).
        -- by destruct (served false (q_id q) l).
        -- rewrite !forwarded_app. unfold buffered. simpl. rewrite lookup_insert. simpl. rewrite <- H3, app_nil_r. by rewrite app_assoc.
        -- rewrite creations_app, app_length, H4. simpl. lia.
        -- by destruct (served false (q_id q) l).
        -- rewrite !forwarded_app. unfold buffered. simpl. rewrite lookup_insert. simpl. rewrite <- H3, N.eqb_refl, !app_nil_r. done.
        -- rewrite creations_app, app_length, H4. simpl. lia.
      * unfold buffered in H3. rewrite E, app_nil_r in H3. simpl in H2.
        destruct (served false (q_id q) l) eqn:Es; [|done].
        destruct (q_recipe q) as [rc|] eqn:Er.
        -- split; simpl; rewrite ?served_app, ?lookup_insert, ?Es; simpl; rewrite ?N.eqb_refl, ?Ek, ?Er; simpl; try done.
           ++ rewrite forwarded_app, H3. unfold buffered. simpl. by rewrite lookup_insert.
           ++ rewrite creations_app, app_length, H4. simpl. rewrite N.eqb_refl. simpl. done.
        -- split; simpl; rewrite ?served_app, ?E, ?Es; simpl; rewrite ?N.eqb_refl, ?Ek, ?Er; simpl; try done.
           ++ rewrite forwarded_app, H3. unfold buffered. simpl. by rewrite E.
           ++ rewrite creations_app, app_length, H4. done.
    + eapply ord_inv_other; [by split|simpl; by rewrite N.eqb_refl, Ek|done|..]; simpl; rewrite ?forwarded_app, ?creations_app; simpl; by rewrite app_nil_r.
  - simpl in Hu. apply negb_true_iff, N.eqb_neq in Hu. unfold on_start_entity. simpl.
    eapply ord_inv_other; [done|done|..]; simpl; rewrite ?lookup_insert_ne by done; try done.
    + rewrite !forwarded_app. simpl. rewrite app_nil_r. destruct (v_ents v !! id') as [[? [|buf| |]]|]; simpl; rewrite ?forwarded_drop, ?app_nil_r; done.
    + rewrite !creations_app. simpl. rewrite (proj2 (N.eqb_neq id' id)) by done. rewrite app_nil_r.
      assert (creations id (drop_buffer id' (v_ents v !! id')) = []) as ->; [|by rewrite app_nil_r].
      destruct (v_ents v !! id') as [[? [|buf| |]]|]; simpl; try done. by induction buf.
  - destruct (v_tasks v !! i) as [[[mine id'] rc]|]; simpl; eapply ord_inv_other; done.
  - destruct (v_results v !! j) as [[id' [a|]]|]; simpl; [| |by eapply ord_inv_other].
    2:{ eapply ord_inv_other; simpl; rewrite ?app_nil_r; done. }
    destruct (v_ents v !! id') as [[rc st]|] eqn:E; [|eapply ord_inv_other; simpl; rewrite ?app_nil_r; done].
    destruct (decide (id' = id)) as [->|Hne].
    + destruct I as [H1 H2 H3 H4]. rewrite E in *. unfold buffered in H3. rewrite E in H3.
      assert (Es : served false id (l ++ [VResult j]) = served false id l) by (rewrite served_app; simpl; by rewrite app_nil_r).
      split; simpl; rewrite ?lookup_insert, ?Es; try done.
      * rewrite forwarded_app. unfold buffered. simpl. rewrite lookup_insert. simpl. rewrite app_nil_r.
        destruct st as [|buf|b|]; try done; rewrite ?forwarded_fwd, ?N.eqb_refl; simpl; rewrite ?app_nil_r in *; done.
      * rewrite creations_app. destruct st as [|buf|b|]; rewrite ?creations_fwd, ?app_nil_r; simpl in *; rewrite ?app_nil_r; done.
    + eapply ord_inv_other; simpl; rewrite ?lookup_insert_ne by done; try done.
      * rewrite forwarded_app. destruct st as [|buf|b|]; rewrite ?forwarded_fwd, ?(proj2 (N.eqb_neq id' id)) by done; simpl; by rewrite app_nil_r.
      * rewrite creations_app. destruct st as [|buf|b|]; rewrite ?creations_fwd; simpl; by rewrite app_nil_r.
  - destruct (v_fwd v !! k) as [[[id' a] r]|]; simpl; eapply ord_inv_other; done.
  - destruct (existsb (is_ent id' a) (v_live v)); simpl; eapply ord_inv_other; done.
  - done.
Qed.

Theorem run_order id p l : forallb (undisturbed id) l = true -> ord_inv id (vrun (esys_init p) l) l.
Proof using.
  induction l as [|o l IH] using rev_ind; intros Hu.
  - split; simpl; rewrite ?lookup_empty; done.
  - rewrite forallb_app in Hu. apply andb_true_iff in Hu as [Hu Ho]. simpl in Ho. rewrite andb_true_r in Ho.
    rewrite vrun_snoc. apply ord_step; auto.
Qed.


(** ** At most one actor *)

(** How the tables fit together for entity [id]. *)
Definition tasks_of id v := List.filter (fun x : bool * N * N => x.1.2 =? id) (v_tasks v).
Definition results_of id v := List.filter (fun x : N * option N => x.1 =? id) (v_results v).
Record one_inv id v : Prop := {
  n_mine : forall x, x ∈ v_tasks v -> x.1.1 = true;
  n_one : (length (tasks_of id v) + length (results_of id v) <= 1)%nat;
  n_start : (0 < length (tasks_of id v) + length (results_of id v))%nat -> exists rc buf, v_ents v !! id = Some (rc, EStarting buf);
  n_live : forall a, (id, a) ∈ v_live v -> (id, Some a) ∈ v_results v \/ (v_children v !! id = Some a /\ exists rc, v_ents v !! id = Some (rc, EActive a));
  n_child : forall a, v_children v !! id = Some a -> exists rc, v_ents v !! id = Some (rc, EActive a);
}.

Lemma elem_filterb {A} (f : A -> bool) (l : list A) x : x ∈ List.filter f l <-> x ∈ l /\ f x = true.
Proof using. rewrite !elem_of_list_In. apply filter_In. Qed.
Lemma nth_split {A} (l : list A) i x : l !! i = Some x -> exists (l1 l2 : list A), l = l1 ++ x :: l2 /\ remove_nth i l = l1 ++ l2.
Proof using. intros H. exists (take i l), (drop (S i) l). split; [|done]. symmetry. by apply take_drop_middle. Qed.

Lemma results_le1 id v a b : one_inv id v -> (id, a) ∈ v_results v -> (id, b) ∈ v_results v -> a = b.
Proof using.
  intros I Ha Hb. assert (Ha' : (id, a) ∈ results_of id v) by (apply elem_filterb; simpl; by rewrite N.eqb_refl).
  assert (Hb' : (id, b) ∈ results_of id v) by (apply elem_filterb; simpl; by rewrite N.eqb_refl).
  pose proof (n_one _ _ I). destruct (results_of id v) as [|x [|]]; simpl in *; [by apply elem_of_nil in Ha'| |lia].
  apply elem_of_list_singleton in Ha', Hb'. congruence.
Qed.

Theorem one_live id v a b : one_inv id v -> (id, a) ∈ v_live v -> (id, b) ∈ v_live v -> a = b.
Proof using.
  intros I Ha Hb. destruct (n_live _ _ I _ Ha) as [Ha'|[Ha' _]], (n_live _ _ I _ Hb) as [Hb'|[Hb' (rc & Hb'')]]; try congruence.
  - pose proof (results_le1 _ _ _ _ I Ha' Hb'). congruence.
  - exfalso. destruct (n_start _ _ I) as (rc' & buf & E); [|congruence].
    assert (H : (id, Some a) ∈ results_of id v) by (apply elem_filterb; simpl; by rewrite N.eqb_refl).
    destruct (results_of id v); [by apply elem_of_nil in H|]. simpl. lia.
  - exfalso. destruct (n_start _ _ I) as (rc' & buf & E).
    + assert (H : (id, Some b) ∈ results_of id v) by (apply elem_filterb; simpl; by rewrite N.eqb_refl).
      destruct (results_of id v); [by apply elem_of_nil in H|]. simpl. lia.
    + destruct (n_child _ _ I _ Ha'). congruence.
Qed.

Lemma no_results id v a : one_inv id v -> (forall rc buf, v_ents v !! id <> Some (rc, EStarting buf)) -> (id, a) ∉ v_results v.
Proof using.
  intros I Hn H. destruct (n_start _ _ I) as (rc & buf & E); [|by apply Hn in E].
  assert (H' : (id, a) ∈ results_of id v) by (apply elem_filterb; simpl; by rewrite N.eqb_refl).
  destruct (results_of id v); [by apply elem_of_nil in H'|]. simpl. lia.
Qed.

(** An entry may change if it keeps its kind. *)
Definition same_kind (x y : option (N * estate R)) : Prop :=
  match x, y with
  | None, None => True
  | Some (_, EStarting _), Some (_, EStarting _) | Some (_, EIdle), Some (_, EIdle) | Some (_, EPassivated), Some (_, EPassivated) => True
  | Some (_, EActive a), Some (_, EActive b) => a = b
  | _, _ => False
  end.
Lemma same_kind_refl x : same_kind x x.
Proof using. by destruct x as [[? []]|]. Qed.

Lemma one_frame id v v' : one_inv id v -> same_kind (v_ents v !! id) (v_ents v' !! id) ->
  (forall x, x ∈ v_tasks v' -> x.1.1 = true) -> tasks_of id v' = tasks_of id v -> results_of id v' = results_of id v ->
  (forall a, (id, a) ∈ v_live v' -> (id, a) ∈ v_live v) -> v_children v' !! id = v_children v !! id -> one_inv id v'.
Proof using.
  intros [H1 H2 H3 H4 H5] Hk Hm Ht Hr Hl Hc. split; rewrite ?Ht, ?Hr; try done.
  - intros H. destruct (H3 H) as (rc & buf & E). rewrite E in Hk. destruct (v_ents v' !! id) as [[rc' []]|]; try done. eauto.
  - intros a Ha. destruct (H4 a (Hl a Ha)) as [Hx|[Hx (rc & E)]].
    + left. assert (Hx' : (id, Some a) ∈ results_of id v) by (apply elem_filterb; simpl; by rewrite N.eqb_refl).
      rewrite <- Hr in Hx'. by apply elem_filterb in Hx' as [? _].
    + right. rewrite Hc. split; [done|]. rewrite E in Hk. destruct (v_ents v' !! id) as [[rc' []]|]; simpl in Hk; try done. subst. eauto.
  - intros a. rewrite Hc. intros Ha. destruct (H5 a Ha) as (rc & E). rewrite E in Hk. destruct (v_ents v' !! id) as [[rc' []]|]; simpl in Hk; try done. subst. eauto.
Qed.

Lemma forwards_creates_create id rc : forwards (R:=R) [ECreate id rc] = [] /\ creates (R:=R) [ECreate id rc] = [(id, rc)].
Proof using. done. Qed.

(** Starting an unknown entity. *)
Lemma one_create id v v' id0 rc buf : one_inv id v -> v_ents v !! id0 = None ->
  v_ents v' = <[id0 := (rc, EStarting buf)]> (v_ents v) -> v_tasks v' = v_tasks v ++ [(true, id0, rc)] ->
  v_results v' = v_results v -> v_live v' = v_live v -> v_children v' = v_children v -> one_inv id v'.
Proof using.
  intros I E0 He Ht Hr Hl Hc.
  assert (Hm : forall x, x ∈ v_tasks v' -> x.1.1 = true).
  { rewrite Ht. intros x [Hx|Hx]%elem_of_app; [by apply I|]. apply elem_of_list_singleton in Hx. by subst. }
  assert (Hr' : results_of id v' = results_of id v) by (unfold results_of; by rewrite Hr).
  destruct (decide (id0 = id)) as [->|Hne].
  - assert (Hn : forall rc buf, v_ents v !! id <> Some (rc, EStarting buf)) by (by rewrite E0).
    pose proof I as [H1 H2 H3 H4 H5].
    assert (Hz : tasks_of id v = [] /\ results_of id v = []).
    { destruct (tasks_of id v), (results_of id v); try done; (destruct H3 as (? & ? & Ex); [simpl; lia|congruence]). }
    destruct Hz as [Hz1 Hz2].
    assert (Ht' : tasks_of id v' = [(true, id, rc)]).
    { unfold tasks_of in *. rewrite Ht, List.filter_app, Hz1. simpl. by rewrite N.eqb_refl. }
    split; try done.
    + rewrite Ht', Hr', Hz2. simpl. lia.
    + intros _. rewrite He, lookup_insert. eauto.
    + rewrite Hl. intros a Ha. exfalso. destruct (H4 a Ha) as [Hx|[_ (? & Hx)]]; [|congruence]. by eapply no_results.
    + rewrite Hc. intros a Ha. destruct (H5 a Ha). congruence.
  - eapply one_frame; [exact I|..].
    + rewrite He, lookup_insert_ne by done. apply same_kind_refl.
    + done.
    + unfold tasks_of. rewrite Ht, List.filter_app. simpl. rewrite (proj2 (N.eqb_neq id0 id)) by done. by rewrite app_nil_r.
    + done.
    + by rewrite Hl.
    + by rewrite Hc.
Qed.

Lemma recovered_starting (l : list eentry) (m : gmap N (N * estate R)) id rc st :
  (forall id rc st, m !! id = Some (rc, st) -> st = EStarting [] \/ st = EPassivated) ->
  recover_log l m !! id = Some (rc, st) -> st = EStarting [] \/ st = EPassivated.
Proof using.
  revert m. induction l as [|e l IH]; intros m Hm; simpl; [apply Hm|]. apply IH. clear IH id rc st. intros id rc st.
  destruct e as [k rc'|k|k]; simpl.
  - intros [[<- [= <- <-]]|[_ ?]]%lookup_insert_Some; [by left|by eapply Hm].
  - destruct (m !! k) as [[rc' st']|]; [|by apply Hm]. intros [[<- [= <- <-]]|[_ ?]]%lookup_insert_Some; [by right|by eapply Hm].
  - intros [_ ?]%lookup_delete_Some. by eapply Hm.
Qed.

Lemma elem_recover_entities ord (m : gmap N (N * estate R)) id rc : (id, rc) ∈ recover_entities ord m <-> exists buf, m !! id = Some (rc, EStarting buf).
Proof using.
  unfold recover_entities. rewrite elem_of_list_omap. split.
  - intros ([k [rc' st]] & Hin & E). simpl in E. destruct st as [|buf| |]; try done. simpl in E. injection E as -> ->.
    apply elem_of_arrange in Hin. eauto.
  - intros [buf Hb]. exists (id, (rc, EStarting buf)). split; [by apply elem_of_arrange|done].
Qed.
Lemma recover_entities_NoDup ord (m : gmap N (N * estate R)) : NoDup (recover_entities ord m).*1.
Proof using.
  unfold recover_entities. pose proof (arrange_NoDup ord m) as H. induction (arrange ord m) as [|[k [rc st]] l IH]; simpl; [constructor|].
  simpl in H. apply NoDup_cons in H as [H1 H2]. specialize (IH H2). destruct (is_starting st); [|exact IH]. simpl. apply NoDup_cons. split; [|exact IH].
  intros Hin. apply H1. apply elem_of_list_fmap in Hin as ([k' rc'] & Ek & Hin). simpl in Ek. subst k'. apply elem_of_list_omap in Hin as ([k' [rc'' st']] & Hin & E).
  simpl in E. destruct (is_starting st'); [|done]. injection E as -> ->. apply elem_of_list_fmap. exists (k, (rc', st')). split; done.
Qed.

Lemma one_step id v o : one_inv id v -> orderly v o -> one_inv id (vstep v o).
Proof using.
  intros I Ho. destruct o as [q p|id' rc p|i ok|j|k|id' a|ord]; cbn [vstep].
  - assert (Hframe : forall m eff, creates eff = [] -> same_kind (v_ents v !! id) (m !! id) -> one_inv id (apply v m eff p)).
    { intros m eff Hc Hk. eapply one_frame; [exact I|done|..]; simpl; try done; unfold tasks_of, results_of; simpl; rewrite Hc; simpl.
      - rewrite app_nil_r. apply I.
      - by rewrite app_nil_r. }
    unfold on_entity_request. destruct (q_known q); [|by apply Hframe; [|apply same_kind_refl]].
    destruct (v_ents v !! q_id q) as [[rc st]|] eqn:E.
    + destruct st as [|buf|a|]; simpl; apply Hframe; try done;
        (destruct (decide (q_id q = id)) as [<-|Hne]; [rewrite E, lookup_insert; done|rewrite lookup_insert_ne by done; apply same_kind_refl]).
    + destruct (q_recipe q) as [rc|]; [|by apply Hframe; [|apply same_kind_refl]]. by eapply one_create.
  - simpl in Ho. unfold on_start_entity. rewrite Ho. simpl. by eapply one_create.
  - destruct (v_tasks v !! i) as [[[mine id'] rc]|] eqn:Ei; [|done].
    destruct (nth_split _ _ _ Ei) as (l1 & l2 & Et & Er). rewrite Er.
    assert (mine = true) as ->. { apply (n_mine _ _ I (mine, id', rc)). rewrite Et. apply elem_of_app. right. constructor. }
    assert (Hm : forall x, x ∈ l1 ++ l2 -> x.1.1 = true).
    { intros x Hx. apply I. rewrite Et. rewrite elem_of_app in *. rewrite elem_of_cons. tauto. }
    destruct (decide (id' = id)) as [->|Hne].
    + pose proof I as [H1 H2 H3 H4 H5]. unfold tasks_of in *. rewrite Et, List.filter_app in H2, H3. simpl in H2, H3. rewrite N.eqb_refl in H2, H3.
      rewrite app_length in H2, H3. simpl in H2, H3. assert (results_of id v = []) as Hr0 by (destruct (results_of id v); simpl in *; [done|lia]).
      destruct H3 as (rc' & buf & Hst); [lia|].
      split; try done; unfold tasks_of, results_of in *; simpl; rewrite ?List.filter_app; simpl; rewrite ?N.eqb_refl.
      * rewrite Hr0, !app_length. simpl. lia.
      * eauto.
      * intros a Ha. assert (Hcase : (id, a) ∈ v_live v \/ (ok = true /\ a = v_next v)).
        { destruct ok; [|by left]. apply elem_of_app in Ha as [?|Ha]; [by left|]. apply elem_of_list_singleton in Ha. injection Ha as ->. by right. }
        rewrite elem_of_app, elem_of_list_singleton. destruct Hcase as [Ha'|[-> ->]]; [|left; by right].
        destruct (H4 a Ha') as [?|?]; [left; by left|by right].
    + eapply one_frame; [exact I|apply same_kind_refl|..]; simpl; try done.
      * unfold tasks_of. simpl. rewrite Et, !List.filter_app. simpl. by rewrite (proj2 (N.eqb_neq id' id)).
      * unfold results_of. simpl. rewrite List.filter_app. simpl. rewrite (proj2 (N.eqb_neq id' id)) by done. by rewrite app_nil_r.
      * intros a. destruct ok; [|done]. intros [?|Hx]%elem_of_app; [done|]. apply elem_of_list_singleton in Hx. congruence.
  - destruct (v_results v !! j) as [[id' res]|] eqn:Ej; [|done].
    destruct (nth_split _ _ _ Ej) as (l1 & l2 & Et & Er). rewrite Er.
    destruct (decide (id' = id)) as [->|Hne].
    + pose proof I as [H1 H2 H3 H4 H5]. unfold results_of in *. rewrite Et, List.filter_app in H2, H3. simpl in H2, H3. rewrite N.eqb_refl in H2, H3.
      rewrite app_length in H2, H3. simpl in H2, H3. destruct H3 as (rc' & buf & Hst); [lia|].
      assert (Ht0 : tasks_of id v = []) by (destruct (tasks_of id v); simpl in *; [done|lia]).
      assert (Hr0 : List.filter (fun x : N * option N => x.1 =? id) (l1 ++ l2) = []).
      { rewrite List.filter_app. destruct (List.filter _ l1), (List.filter _ l2); simpl in *; try done; lia. }
      destruct res as [a|]; simpl.
      * rewrite Hst. split; unfold results_of, tasks_of in *; simpl; rewrite ?Hr0, ?Ht0; simpl; try done; try lia.
        -- intros b Hb. right. rewrite !lookup_insert. assert (b = a) as ->; [|eauto].
           destruct (H4 b Hb) as [Hx|[_ (? & ?)]]; [|congruence].
           assert (Some b = Some a) as E; [|by injection E]. apply (results_le1 id v); [exact I|done|]. rewrite Et. apply elem_of_app. right. constructor.
        -- intros b. rewrite !lookup_insert. intros [= <-]. eauto.
      * split; unfold results_of, tasks_of in *; simpl; rewrite ?Hr0, ?Ht0; simpl; try done; try lia.
        intros b Hb. destruct (H4 b Hb) as [Hx|Hx]; [|by right]. exfalso.
        assert (Some b = None) as E; [|done]. apply (results_le1 id v); [exact I|done|]. rewrite Et. apply elem_of_app. right. constructor.
    + assert (Hr : List.filter (fun x : N * option N => x.1 =? id) (l1 ++ l2) = results_of id v).
      { unfold results_of. rewrite Et, !List.filter_app. simpl. by rewrite (proj2 (N.eqb_neq id' id)). }
      destruct res as [a|]; simpl.
      * destruct (v_ents v !! id') as [[rc st]|] eqn:E; simpl; (eapply one_frame; [exact I|..]); simpl; try done;
          rewrite ?lookup_insert_ne by done; try done; try apply same_kind_refl; apply I.
      * eapply one_frame; [exact I|..]; simpl; try done; try apply same_kind_refl; apply I.
  - destruct (v_fwd v !! k) as [[[id' a] r]|]; [|done]. eapply one_frame; [exact I|apply same_kind_refl|..]; simpl; try done; apply I.
  - destruct (existsb (is_ent id' a) (v_live v)) eqn:Ex; [|done]. destruct (decide (id' = id)) as [->|Hne].
    + apply existsb_exists in Ex as ([k1 k2] & Hx & E). unfold is_ent in E. simpl in E.
      destruct (N.eqb_spec k1 id) as [->|]; [|done]. destruct (N.eqb_spec k2 a) as [->|]; [|done]. apply elem_of_list_In in Hx.
      assert (Hgone : forall b, (id, b) ∉ List.filter (fun x => negb (is_ent id a x)) (v_live v)).
      { intros b [Hb Hb']%elem_filterb. assert (b = a) as -> by (by eapply one_live). unfold is_ent in Hb'. simpl in Hb'. by rewrite !N.eqb_refl in Hb'. }
      destruct I as [H1 H2 H3 H4 H5]. split; simpl; try done.
      * intros b Hb. by apply Hgone in Hb.
      * intros b. by rewrite lookup_delete.
    + eapply one_frame; [exact I|apply same_kind_refl|..]; simpl; try done; [apply I| |by rewrite lookup_delete_ne].
      intros b [? _]%elem_filterb. done.
  - destruct Ho as [Ht Hr]. set (m := recover_log (v_journal v) ∅). rewrite Ht. simpl.
    assert (Hst : forall rc st, m !! id = Some (rc, st) -> st = EStarting [] \/ st = EPassivated).
    { intros rc st. apply recovered_starting. intros ? ? ?. by rewrite lookup_empty. }
    assert (Hlen : (length (List.filter (fun x : bool * N * N => (x.1.2 =? id)%N) (map (fun x : N * N => (true, x.1, x.2)) (recover_entities ord m))) <= 1%nat)%nat).
    { pose proof (recover_entities_NoDup ord m) as Hnd. induction (recover_entities ord m) as [|[k rc] l IH]; simpl in *; [lia|].
      apply NoDup_cons in Hnd as [Hk Hnd]. destruct (N.eqb_spec k id) as [->|]; [|by apply IH]. simpl.
      assert (List.filter (fun x : bool * N * N => x.1.2 =? id) (map (fun x : N * N => (true, x.1, x.2)) l) = []) as ->; [|simpl; lia].
      clear -Hk. induction l as [|[k rc'] l IH]; [done|]. simpl in *. apply not_elem_of_cons in Hk as [H1 H2].
      rewrite (proj2 (N.eqb_neq k id)) by done. by apply IH. }
    split; unfold tasks_of, results_of; simpl; try done.
    + intros x Hx. apply elem_of_list_fmap in Hx as ([? ?] & -> & _). done.
    + lia.
    + intros Hpos. assert (Hex : exists x, x ∈ List.filter (fun x : bool * N * N => x.1.2 =? id) (map (fun x : N * N => (true, x.1, x.2)) (recover_entities ord m))).
      { destruct (List.filter _ _) as [|x l]; simpl in Hpos; [lia|]. exists x. constructor. }
      destruct Hex as (x & Hx). apply elem_filterb in Hx as [Hx E]. apply elem_of_list_fmap in Hx as ([k rc] & -> & Hx). simpl in E. apply N.eqb_eq in E. subst k.
      apply elem_recover_entities in Hx as [buf Hb]. eauto.
    + intros a [Ha Hn]%elem_filterb. exfalso. destruct (n_live _ _ I a Ha) as [Hx|[Hx _]].
      * rewrite Hr in Hx. by apply elem_of_nil in Hx.
      * unfold is_child in Hn. simpl in Hn. by rewrite bool_decide_true in Hn.
Qed.

Theorem run_one p l : orderly_run (esys_init p) l -> forall id, one_inv id (vrun (esys_init p) l).
Proof using.
  assert (H : forall l v, (forall id, one_inv id v) -> orderly_run v l -> forall id, one_inv id (vrun v l)).
  { clear. intros l. induction l as [|o l IH]; intros v Hv; simpl; [done|]. intros [H1 H2]. apply IH; [|done].
    intros id. by apply one_step. }
  apply H. intros id. split; simpl; try (intros *; intros Hx; by apply elem_of_nil in Hx); try lia; try (intros a; by rewrite lookup_empty).
Qed.

(** ** Recovery *)

Definition is_jstart (e : eentry) : bool := match e with JStart _ _ => true | _ => false end.
Definition rec_inv v : Prop :=
  v_persistent v = true /\ forallb is_jstart (v_journal v) = true /\
  forall id, fst <$> v_ents v !! id = fst <$> recover_log (R:=R) (v_journal v) ∅ !! id.

Lemma recover_log_app (j1 j2 : list eentry) (m : gmap N (N * estate R)) : recover_log (j1 ++ j2) m = recover_log j2 (recover_log j1 m).
Proof using. apply fold_left_app. Qed.

Lemma jstart_starting (j : list eentry) id rc st : forallb is_jstart j = true -> recover_log (R:=R) j ∅ !! id = Some (rc, st) -> st = EStarting [].
Proof using.
  assert (H : forall (m : gmap N (N * estate R)), (forall id rc st, m !! id = Some (rc, st) -> st = EStarting []) ->
     forallb is_jstart j = true -> forall id rc st, recover_log j m !! id = Some (rc, st) -> st = EStarting []).
  { clear. induction j as [|e j IH]; intros m Hm Hj; [done|]. simpl in Hj. apply andb_true_iff in Hj as [He Hj]. simpl. apply IH; [|done].
    intros id rc st. destruct e as [k rc'|k|k]; try done. simpl. intros [[<- [= <- <-]]|[_ ?]]%lookup_insert_Some; [done|by eapply Hm]. }
  intros Hj. eapply H; [|done]. intros ? ? ?. by rewrite lookup_empty.
Qed.

Lemma rec_step v o : rec_inv v -> stored o = true -> rec_inv (vstep v o).
Proof using.
  intros (Hp & Hj & He) Hs. destruct o as [q p|id' rc p|i ok|j|k|id' a|ord]; cbn [vstep]; simpl in Hs.
  - subst p. unfold on_entity_request. destruct (q_known q); [|unfold rec_inv; simpl; rewrite Hp; simpl; rewrite app_nil_r; done].
    destruct (v_ents v !! q_id q) as [[rc st]|] eqn:E.
    + destruct st as [|buf|a|]; unfold rec_inv; simpl; rewrite Hp; simpl; rewrite app_nil_r; (split_and!; [done|done|]); intros id; rewrite <- He;
        (destruct (decide (q_id q = id)) as [<-|Hne]; [rewrite lookup_insert, E; done|by rewrite lookup_insert_ne]).
    + destruct (q_recipe q) as [rc|]; unfold rec_inv; simpl; rewrite Hp; simpl; [|by rewrite app_nil_r].
      rewrite forallb_app, Hj. split_and!; [done|done|]. intros id. rewrite recover_log_app. simpl.
      destruct (decide (q_id q = id)) as [<-|Hne]; [by rewrite !lookup_insert|by rewrite !lookup_insert_ne].
  - subst p. unfold rec_inv. simpl. rewrite creates_app, creates_drop, Hp. simpl. rewrite forallb_app, Hj. split_and!; [done|done|].
    intros id. rewrite recover_log_app. simpl. destruct (decide (id' = id)) as [->|Hne]; [by rewrite !lookup_insert|by rewrite !lookup_insert_ne].
  - destruct (v_tasks v !! i) as [[[mine id'] rc]|]; by split_and!.
  - destruct (v_results v !! j) as [[id' [a|]]|]; simpl; [|by split_and!|by split_and!].
    destruct (v_ents v !! id') as [[rc st]|] eqn:E; [|by split_and!]. unfold rec_inv. simpl. split_and!; [done|done|].
    intros id. rewrite <- He. destruct (decide (id' = id)) as [->|Hne]; [by rewrite lookup_insert, E|by rewrite lookup_insert_ne].
  - destruct (v_fwd v !! k) as [[[id' a] r]|]; by split_and!.
  - destruct (existsb (is_ent id' a) (v_live v)); by split_and!.
  - by split_and!.
Qed.

Lemma run_rec l : forallb stored l = true -> rec_inv (vrun (esys_init true) l).
Proof using.
  induction l as [|o l IH] using rev_ind; [done|]. rewrite forallb_app. intros [H1 H2]%andb_true_iff. simpl in H2. rewrite andb_true_r in H2.
  rewrite vrun_snoc. apply rec_step; auto.
Qed.

Lemma restart_tasks v ord id rc : rec_inv v ->
  (true, id, rc) ∈ v_tasks (vstep v (VRestart ord)) <-> exists st, v_ents v !! id = Some (rc, st).
Proof using.
  intros (Hp & Hj & He). specialize (He id). cbn [vstep v_tasks]. rewrite elem_of_app.
  assert (Hold : (true, id, rc) ∉ map (fun x : bool * N * N => (false, x.1.2, x.2)) (v_tasks v)).
  { intros (x & E & _)%elem_of_list_fmap. done. }
  assert (Hnew : (true, id, rc) ∈ map (fun x : N * N => (true, x.1, x.2)) (recover_entities ord (recover_log (R:=R) (v_journal v) ∅)) <->
                 exists buf, recover_log (R:=R) (v_journal v) ∅ !! id = Some (rc, EStarting buf)).
  { rewrite <- elem_recover_entities with (ord := ord). split.
    - intros ([k rc'] & E & Hx)%elem_of_list_fmap. by injection E as -> ->.
    - intros Hx. apply elem_of_list_fmap. by exists (id, rc). }
  rewrite Hnew. split.
  - intros [?|[buf Hb]]; [done|]. rewrite Hb in He. destruct (v_ents v !! id) as [[rc' st]|]; [|done]. injection He as ->. eauto.
  - intros [st Hst]. right. rewrite Hst in He. destruct (recover_log (v_journal v) ∅ !! id) as [[rc' st']|] eqn:E; [|done].
    injection He as ->. apply jstart_starting in E as ->; [|done]. eauto.
Qed.
Lemma restart_once v ord id : (length (List.filter (fun x : bool * N * N => x.1.1 && (x.1.2 =? id)%N) (v_tasks (vstep v (VRestart ord)))) <= 1%nat)%nat.
Proof using.
  cbn [vstep v_tasks]. rewrite List.filter_app, app_length.
  assert (List.filter (fun x : bool * N * N => x.1.1 && (x.1.2 =? id)%N) (map (fun x : bool * N * N => (false, x.1.2, x.2)) (v_tasks v)) = []) as ->.
  { induction (v_tasks v) as [|x l IH]; done. }
  simpl. pose proof (recover_entities_NoDup ord (recover_log (R:=R) (v_journal v) ∅)) as Hnd.
  induction (recover_entities ord (recover_log (R:=R) (v_journal v) ∅)) as [|[k rc] l IH]; simpl in *; [lia|].
  apply NoDup_cons in Hnd as [Hk Hnd]. destruct (N.eqb_spec k id) as [->|]; [|by apply IH]. simpl.
  assert (List.filter (fun x : bool * N * N => x.1.1 && (x.1.2 =? id)%N) (map (fun x : N * N => (true, x.1, x.2)) l) = []) as ->; [|simpl; lia].
  clear -Hk. induction l as [|[k rc'] l IH]; [done|]. simpl in *. apply not_elem_of_cons in Hk as [H1 H2].
  rewrite (proj2 (N.eqb_neq k id)) by done. by apply IH.
Qed.

(** ** Entities that failed to start, and entities that stopped *)

Definition idle_id id v : Prop := (forall b rc, (b, id, rc) ∉ v_tasks v) /\ (forall x, (id, x) ∉ v_results v).

Lemma in_remove_nth {A} (l : list A) i x : x ∈ remove_nth i l -> x ∈ l.
Proof using.
  unfold remove_nth. rewrite elem_of_app. intros [H|H]; [by eapply elem_of_take in H as (? & H & _); apply elem_of_list_lookup_2 in H|].
  apply elem_of_list_lookup in H as [j Hj]. rewrite lookup_drop in Hj. by apply elem_of_list_lookup_2 in Hj.
Qed.

(** Nothing is created for a known entity. *)
Lemma idle_step id v o rc st : idle_id id v -> undisturbed id o = true -> v_ents v !! id = Some (rc, st) ->
  idle_id id (vstep v o) /\ creations id (v_log (vstep v o)) = creations id (v_log v) /\
  v_ents (vstep v o) !! id = Some (rc, match st with EStarting buf => EStarting (buf ++ served true id [o]) | _ => st end) /\
  forwarded id (v_log (vstep v o)) = forwarded id (v_log v) ++ match st with EActive _ => served true id [o] | _ => [] end.
Proof using.
  intros [H1 H2] Hu He.
  assert (Hst : Some (rc, st) = Some (rc, match st with EStarting buf => EStarting (buf ++ []) | _ => st end)) by (destruct st; rewrite ?app_nil_r; done).
  assert (Hf : forwarded id (v_log v) = forwarded id (v_log v) ++ match st with EActive _ => [] | _ => [] end) by (destruct st; by rewrite app_nil_r).
  destruct o as [q p|id' rc' p|i ok|j|k|id' a|ord]; cbn [vstep].
  - unfold on_entity_request. destruct (q_known q) eqn:Ek.
    + destruct (decide (q_id q = id)) as [Hq|Hne].
      * subst id. rewrite He. destruct st as [|buf|a|]; simpl; rewrite ?N.eqb_refl, ?Ek; simpl; rewrite !lookup_insert, creations_app, forwarded_app; simpl;
          rewrite ?N.eqb_refl, ?app_nil_r; unfold idle_id; simpl; rewrite ?app_nil_r; done.
      * assert (served true id [VRequest q p] = []) as -> by (simpl; by rewrite (proj2 (N.eqb_neq _ _))).
        destruct (v_ents v !! q_id q) as [[rc' st']|] eqn:E; [destruct st' as [|buf|a|]|destruct (q_recipe q) as [rc'|]]; simpl;
          rewrite ?lookup_insert_ne, creations_app, forwarded_app by done; simpl; rewrite ?(proj2 (N.eqb_neq _ _)) by done; rewrite ?app_nil_r, ?He;
          unfold idle_id; simpl; rewrite ?app_nil_r; split_and!; try done.
        intros b rc'' [Hx|Hx]%elem_of_app; [by apply H1 in Hx|]. apply elem_of_list_singleton in Hx. congruence.
    + assert (served true id [VRequest q p] = []) as -> by (simpl; rewrite Ek; by rewrite andb_false_r).
      simpl. rewrite creations_app, forwarded_app. simpl. rewrite !app_nil_r, He. unfold idle_id. simpl. rewrite app_nil_r. done.
  - simpl in Hu. apply negb_true_iff, N.eqb_neq in Hu. unfold on_start_entity. simpl served. unfold idle_id. simpl.
    rewrite lookup_insert_ne, !creations_app, !forwarded_app, He, creates_app, creates_drop by done. simpl. rewrite (proj2 (N.eqb_neq id' id)) by done.
    assert (creations id (drop_buffer id' (v_ents v !! id')) = []) as ->.
    { destruct (v_ents v !! id') as [[? [|buf| |]]|]; simpl; try done. by induction buf. }
    assert (forwarded id (drop_buffer id' (v_ents v !! id')) = []) as ->.
    { destruct (v_ents v !! id') as [[? [|buf| |]]|]; simpl; try done. apply forwarded_drop. }
    simpl. rewrite !app_nil_r. split_and!; try done.
    intros b rc'' [Hx|Hx]%elem_of_app; [by apply H1 in Hx|]. apply elem_of_list_singleton in Hx. congruence.
  - simpl served. destruct (v_tasks v !! i) as [[[mine id'] rc']|] eqn:Ei; simpl; rewrite ?He; [|done]. split_and!; try done.
    assert (Hne : id' <> id). { intros ->. apply elem_of_list_lookup_2 in Ei. by apply H1 in Ei. }
    split; simpl.
    + intros b rc'' Hx%in_remove_nth. by apply H1 in Hx.
    + intros x Hx. destruct mine; [|by apply H2 in Hx]. apply elem_of_app in Hx as [Hx|Hx]; [by apply H2 in Hx|]. apply elem_of_list_singleton in Hx. congruence.
  - simpl served. destruct (v_results v !! j) as [[id' res]|] eqn:Ej; simpl; rewrite ?He; [|done].
    assert (Hne : id' <> id). { intros ->. apply elem_of_list_lookup_2 in Ej. by apply H2 in Ej. }
    assert (Hi : forall x, (id, x) ∉ remove_nth j (v_results v)). { intros x Hx%in_remove_nth. by apply H2 in Hx. }
    destruct res as [a|]; simpl; [|rewrite !app_nil_r, He; by split_and!].
    destruct (v_ents v !! id') as [[rc' st']|] eqn:E; simpl; [|rewrite !app_nil_r, He; by split_and!].
    rewrite lookup_insert_ne, He, creations_app, forwarded_app by done.
    assert (creations id match st' with EStarting buf => map (EForward id' a) buf | _ => [] end = []) as -> by (destruct st'; try done; apply creations_fwd).
    assert (forwarded id match st' with EStarting buf => map (EForward id' a) buf | _ => [] end = []) as ->.
    { destruct st'; try done. rewrite forwarded_fwd. by rewrite (proj2 (N.eqb_neq id' id)). }
    rewrite !app_nil_r. by split_and!.
  - simpl served. destruct (v_fwd v !! k) as [[[id' a] r]|]; simpl; rewrite ?He; by split_and!.
  - simpl served. destruct (existsb (is_ent id' a) (v_live v)); simpl; rewrite ?He; by split_and!.
  - done.
Qed.

Lemma served_true_app id (l1 l2 : list (vop R)) : served true id (l1 ++ l2) = served true id l1 ++ served true id l2.
Proof using. rewrite served_app. done. Qed.

Lemma idle_run id v l rc st : idle_id id v -> forallb (undisturbed id) l = true -> v_ents v !! id = Some (rc, st) ->
  idle_id id (vrun v l) /\ creations id (v_log (vrun v l)) = creations id (v_log v) /\
  v_ents (vrun v l) !! id = Some (rc, match st with EStarting buf => EStarting (buf ++ served true id l) | _ => st end) /\
  forwarded id (v_log (vrun v l)) = forwarded id (v_log v) ++ match st with EActive _ => served true id l | _ => [] end.
Proof using.
  intros Hi Hu He. induction l as [|o l IH] using rev_ind.
  - simpl. split_and!; try done; destruct st; rewrite ?app_nil_r; done.
  - rewrite forallb_app in Hu. apply andb_true_iff in Hu as [Hu Ho]. simpl in Ho. rewrite andb_true_r in Ho.
    destruct (IH Hu) as (I1 & I2 & I3 & I4). rewrite vrun_snoc. destruct (idle_step id _ o _ _ I1 Ho I3) as (J1 & J2 & J3 & J4).
    split_and!; try done; [congruence|..].
    + rewrite J3. destruct st; rewrite ?served_true_app, ?app_assoc; done.
    + rewrite J4, I4, served_true_app, <- app_assoc. destruct st; done.
Qed.

(** A dead actor receives nothing. *)
Lemma got_step id v o a : idle_id id v -> (id, a) ∉ v_live v -> a < v_next v ->
  (id, a) ∉ v_live (vstep v o) /\ a < v_next (vstep v o) /\
  List.filter (fun x : N * N * R => is_ent id a x.1) (v_got (vstep v o)) = List.filter (fun x => is_ent id a x.1) (v_got v).
Proof using.
  intros [H1 H2] Hl Hn. destruct o as [q p|id' rc' p|i ok|j|k|id' b|ord]; cbn [vstep].
  - by destruct (on_entity_request (v_ents v) q).
  - done.
  - destruct (v_tasks v !! i) as [[[mine id'] rc']|] eqn:Ei; [|done]. simpl. split_and!; [|lia|done].
    destruct ok; [|done]. intros [?|Hx]%elem_of_app; [done|]. apply elem_of_list_singleton in Hx. injection Hx as -> ->. lia.
  - destruct (v_results v !! j) as [[id' res]|]; [|done]. by destruct (on_start_result (v_ents v) id' res).
  - destruct (v_fwd v !! k) as [[[id' b] r]|]; [|done]. simpl. split_and!; [done|done|]. destruct (existsb (is_ent id' b) (v_live v)) eqn:E; [|done].
    rewrite List.filter_app. simpl. destruct (is_ent id a (id', b)) eqn:Ee; [|by rewrite app_nil_r].
    unfold is_ent in Ee. simpl in Ee. apply andb_true_iff in Ee as [->%N.eqb_eq ->%N.eqb_eq]. exfalso. apply Hl.
    apply existsb_exists in E as ([k1 k2] & Hx%elem_of_list_In & Ee). unfold is_ent in Ee. simpl in Ee. apply andb_true_iff in Ee as [->%N.eqb_eq ->%N.eqb_eq]. done.
  - destruct (existsb (is_ent id' b) (v_live v)); [|done]. simpl. split_and!; [|done|done]. by intros [? _]%elem_filterb.
  - simpl. split_and!; [|done|done]. by intros [? _]%elem_filterb.
Qed.

Lemma dead_run id v l rc a : idle_id id v -> forallb (undisturbed id) l = true -> v_ents v !! id = Some (rc, EActive a) ->
  (id, a) ∉ v_live v -> a < v_next v ->
  List.filter (fun x : N * N * R => is_ent id a x.1) (v_got (vrun v l)) = List.filter (fun x => is_ent id a x.1) (v_got v).
Proof using.
  intros Hi Hu He Hl Hn.
  assert (H : (id, a) ∉ v_live (vrun v l) /\ a < v_next (vrun v l) /\
    List.filter (fun x : N * N * R => is_ent id a x.1) (v_got (vrun v l)) = List.filter (fun x => is_ent id a x.1) (v_got v)); [|by destruct H as (_ & _ & ?)].
  induction l as [|o l IH] using rev_ind; [done|]. rewrite forallb_app in Hu. apply andb_true_iff in Hu as [Hu Ho].
  destruct (IH Hu) as (I1 & I2 & I3). destruct (idle_run id v l _ _ Hi Hu He) as (J1 & _). rewrite vrun_snoc.
  destruct (got_step id _ o a J1 I1 I2) as (K1 & K2 & K3). split_and!; try done. congruence.
Qed.

End proofs.
