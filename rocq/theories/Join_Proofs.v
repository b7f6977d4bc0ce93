(** Proofs about workers that join a cluster: they form a mesh (Mesh_Proofs.v), and their
    handshakes a tree. *)
From Verif Require Import Mesh_Model Mesh_Spec Mesh_Proofs Join_Model Join_Spec.

(** * The mesh of the nodes *)
Definition way (t : ticket) : bool := match t_arr t with AWay => true | _ => false end.
Definition ways (ts : list ticket) : list shake := map t_shake (List.filter way ts).
Definition mesh_of (j : jstate) : mesh := Mesh (j_nodes j) (ways (j_tickets j)).

Lemma ways_app l1 l2 : ways (l1 ++ l2) = ways l1 ++ ways l2.
Proof. unfold ways. by rewrite List.filter_app, map_app. Qed.
Lemma ways_new c ks : ways (map (fun k => Ticket k c AWay None) ks) = ks.
Proof. unfold ways. induction ks as [|k ks IH]; cbn; [done|by f_equal]. Qed.
Lemma ways_split (ts : list ticket) i t : ts !! i = Some t ->
  exists l1 l2, ts = l1 ++ t :: l2 /\ length l1 = i /\ forall t' : ticket, <[i := t']> ts = l1 ++ t' :: l2.
Proof.
  intros E. exists (take i ts), (drop (S i) ts).
  pose proof (take_drop_middle ts i t E) as H. pose proof (lookup_lt_Some _ _ _ E) as Hl.
  split_and!; [done|rewrite take_length; lia|].
  intros t'. rewrite <- H at 1. rewrite insert_app_r_alt by (rewrite take_length; lia).
  rewrite take_length. replace (i - i `min` length ts)%nat with 0%nat by lia. done.
Qed.
Lemma ways_handled (ts : list ticket) i t t' : ts !! i = Some t -> way t = true -> way t' = false ->
  exists p, ways ts !! p = Some (t_shake t) /\ ways (<[i := t']> ts) = delete p (ways ts).
Proof.
  intros E W W'. destruct (ways_split _ _ _ E) as (l1 & l2 & E1 & _ & E2).
  exists (length (ways l1)). rewrite E2, E1, !ways_app.
  assert (H : ways (t :: l2) = t_shake t :: ways l2) by (unfold ways; cbn; by rewrite W).
  assert (H' : ways (t' :: l2) = ways l2) by (unfold ways; cbn; by rewrite W').
  rewrite H, H'. split; [by rewrite list_lookup_middle|].
  rewrite delete_middle. done.
Qed.
Lemma ways_same (ts : list ticket) i t t' : ts !! i = Some t -> way t = way t' -> t_shake t = t_shake t' ->
  ways (<[i := t']> ts) = ways ts.
Proof.
  intros E W S. destruct (ways_split _ _ _ E) as (l1 & l2 & E1 & _ & E2).
  rewrite E2, E1, !ways_app. f_equal. unfold ways; cbn. rewrite <- W. destruct (way t); cbn; [by rewrite S|done].
Qed.

Lemma spread_mesh j x c down l j' : spread j x c down l = Some j' ->
  discover (mesh_of j) x down l = Some (mesh_of j') /\ j_phase j' = j_phase j.
Proof.
  unfold spread, discover. cbn [h_nodes mesh_of h_flight].
  destruct (j_nodes j !! x) as [m|]; [|done]. cbn [mbind option_bind].
  destruct (meet_nodes _ _ _ _ _) as [m' ks]. intros [= <-]. unfold mesh_of. cbn [j_nodes j_tickets j_phase]. by rewrite ways_app, ways_new.
Qed.

(** What a step does to the mesh. *)
Definition follows (j : jstate) (o : jop) (ml : list mop) : Prop :=
  (fine o = true -> forallb smooth ml = true) /\
  (forall x s, o = JStart x s -> MStart x ∈ ml) /\
  (forall x, MStart x ∈ ml -> exists s, o = JStart x s) /\
  (forall x s l, o = JAsk x (Some l) -> j_phase j !! x = Some (PAsk s) -> MSeed x s l ∈ ml).

Lemma follows_nil j o : (forall x s, o <> JStart x s) -> (forall x l, o <> JAsk x (Some l)) -> follows j o [].
Proof.
  intros H1 H2. split_and!; [done| | |].
  - intros x s E. by apply H1 in E.
  - intros x Hx. by apply elem_of_nil in Hx.
  - intros x s l E. by apply H2 in E.
Qed.
Lemma follows_one j o mo : (fine o = true -> smooth mo = true) -> (forall x s, o <> JStart x s) ->
  (forall x l, o <> JAsk x (Some l)) -> (forall x, mo <> MStart x) -> follows j o [mo].
Proof.
  intros H0 H1 H2 H3. split_and!.
  - intros Hf. cbn. by rewrite H0.
  - intros x s E. by apply H1 in E.
  - intros x Hx. apply elem_of_list_singleton in Hx. by destruct (H3 x).
  - intros x s l E. by apply H2 in E.
Qed.

Lemma step_mesh j o j' : jstep j o = Some j' ->
  exists ml, mruns (mesh_of j) ml = Some (mesh_of j') /\ follows j o ml.
Proof.
  intros E. destruct o as [x seed|x ok|x [l|]|i l down|i|i|i|i|x|x y]; cbn [jstep] in E.
  - destruct (j_nodes j !! x) eqn:Ex; [done|]. injection E as <-. exists [MStart x]. split.
    + cbn. rewrite Ex. done.
    + split_and!; [done| | |done].
      * intros y s [= -> _]. by left.
      * intros y Hy. apply elem_of_list_singleton in Hy. injection Hy as ->. by exists seed.
  - destruct (j_phase j !! x) as [[]|]; try done. injection E as <-. exists []. split; [done|by apply follows_nil].
  - destruct (j_phase j !! x) as [[|s| |]|] eqn:Ep; try done.
    destruct (bool_decide _ && _) eqn:Eb; [|done]. apply spread_mesh in E as [E _].
    exists [MSeed x s l]. split.
    + cbn [mruns mstep]. change (h_nodes (mesh_of j)) with (j_nodes j). rewrite Eb.
      change (mesh_of (set_phase j x PWait)) with (mesh_of j) in E. rewrite E. done.
    + split_and!; [done|done| |].
      * intros y Hy. by apply elem_of_list_singleton in Hy.
      * intros y s' l' [= <- <-] E'. rewrite Ep in E'. injection E' as <-. by left.
  - destruct (j_phase j !! x) as [[]|]; try done. injection E as <-. exists []. split; [done|by apply follows_nil].
  - destruct (j_tickets j !! i) as [t|] eqn:Et; [|done]. cbn [mbind option_bind] in E.
    destruct (t_arr t) eqn:Ea; try done. destruct (bool_decide _) eqn:Eb; [|done].
    apply spread_mesh in E as [E _].
    destruct (ways_handled (j_tickets j) i t (Ticket (t_shake t) (t_cause t) AHandled (t_end t)) Et) as (p & Ep & Ed);
      [by unfold way; rewrite Ea|done|].
    exists [MHandle p l down]. split.
    + cbn [mruns mstep]. change (h_flight (mesh_of j)) with (ways (j_tickets j)). rewrite Ep. cbn [mbind option_bind].
      rewrite Eb. unfold mesh_of at 1 in E. cbn [set_ticket j_nodes j_tickets] in E. rewrite Ed in E.
      change (h_nodes (mesh_of j)) with (j_nodes j). rewrite E. done.
    + by apply follows_one.
  - destruct (j_tickets j !! i) as [t|] eqn:Et; [|done]. cbn [mbind option_bind] in E.
    destruct (t_arr t) eqn:Ea; try done. destruct (t_end t) eqn:Ee; [done|].
    destruct (through j (CShake i)); [|done]. injection E as <-. exists []. split; [|by apply follows_nil].
    cbn [mruns]. unfold mesh_of, set_ticket. cbn [j_nodes j_tickets j_phase]. rewrite (ways_same _ _ _ _ Et); [done|unfold way; by rewrite Ea|done].
  - destruct (j_tickets j !! i) as [t|] eqn:Et; [|done]. cbn [mbind option_bind] in E.
    destruct (t_end t) as [[]|] eqn:Ee; try done.
    destruct (j_nodes j !! _) as [m|] eqn:Em; [|done]. cbn [mbind option_bind] in E. injection E as <-.
    exists [MDone (k_from (t_shake t)) (k_to (t_shake t))]. split; [|by apply follows_one].
    cbn. rewrite Em. done.
  - destruct (j_tickets j !! i) as [t|] eqn:Et; [|done]. cbn [mbind option_bind] in E.
    destruct (t_end t) eqn:Ee; [done|]. injection E as <-. exists []. split; [|by apply follows_nil].
    cbn [mruns]. unfold mesh_of, set_ticket. cbn [j_nodes j_tickets j_phase]. rewrite (ways_same _ _ _ _ Et); done.
  - destruct (j_tickets j !! i) as [t|] eqn:Et; [|done]. cbn [mbind option_bind] in E.
    destruct (t_arr t) eqn:Ea; try done. injection E as <-.
    destruct (ways_handled (j_tickets j) i t (Ticket (t_shake t) (t_cause t) ALost (t_end t)) Et) as (p & Ep & Ed);
      [by unfold way; rewrite Ea|done|].
    exists [MFail p]. split; [|by apply follows_one].
    cbn [mruns mstep]. change (h_flight (mesh_of j)) with (ways (j_tickets j)). rewrite Ep. cbn [mbind option_bind h_nodes mesh_of].
    unfold mesh_of, set_ticket. cbn [j_nodes j_tickets j_phase]. by rewrite Ed.
  - destruct (j_phase j !! x) as [[]|]; try done. destruct (through _ _); [|done]. injection E as <-.
    exists []. split; [done|by apply follows_nil].
  - destruct (j_nodes j !! x) as [m|] eqn:Em; [|done]. cbn [mbind option_bind] in E. injection E as <-.
    exists [MGone x y]. split; [|by apply follows_one]. cbn. rewrite Em. done.
Qed.

Lemma jruns_app j l1 l2 : jruns j (l1 ++ l2) = j' ← jruns j l1; jruns j' l2.
Proof.
  revert j. induction l1 as [|o l1 IH]; intros j; [done|]. cbn [jruns app].
  destruct (jstep j o) as [j1|]; [|done]. cbn [mbind option_bind]. apply IH.
Qed.
Lemma jruns_snoc j l o : jruns j (l ++ [o]) = j' ← jruns j l; jstep j' o.
Proof.
  rewrite jruns_app. destruct (jruns j l) as [j1|]; [|done]. cbn. by destruct (jstep j1 o).
Qed.

(** * The handshakes form a tree *)
Definition tail_ok (j : jstate) (k : nat) (t : ticket) : Prop :=
  match t_cause t with
  | CShake i => (i < k)%nat /\ exists t', j_tickets j !! i = Some t' /\ t_arr t' = AHandled
  | CStart x => exists p, j_phase j !! x = Some p /\ (p = PWait \/ p = PBack ODone)
  end.
Record tree (j : jstate) : Prop := {
  tree_cause : forall k t, j_tickets j !! k = Some t -> tail_ok j k t;
  tree_acked : forall k t, j_tickets j !! k = Some t -> t_end t = Some true ->
    t_arr t = AHandled /\ forall k' t', j_tickets j !! k' = Some t' -> t_cause t' = CShake k -> ended t' = true;
  tree_back : forall k t x r, j_tickets j !! k = Some t -> t_cause t = CStart x -> j_phase j !! x = Some (PBack r) -> ended t = true
}.

Lemma caused_spec c t : caused_by c t = true <-> t_cause t = c.
Proof.
  unfold caused_by. destruct c as [x|i], (t_cause t) as [y|k]; split; try done.
  - intros ->%N.eqb_eq. done.
  - intros [= ->]. apply N.eqb_refl.
  - intros ->%Nat.eqb_eq. done.
  - intros [= ->]. apply Nat.eqb_refl.
Qed.
Lemma through_spec j c : through j c = true <-> forall k t, j_tickets j !! k = Some t -> t_cause t = c -> ended t = true.
Proof.
  unfold through. rewrite forallb_forall. split.
  - intros H k t Ek Ec. apply elem_of_list_lookup_2, elem_of_list_In, H in Ek.
    apply orb_true_iff in Ek as [Ek|Ek]; [|done]. apply negb_true_iff in Ek.
    apply caused_spec in Ec. congruence.
  - intros H t Ht. apply elem_of_list_In, elem_of_list_lookup in Ht as [k Ek].
    destruct (caused_by c t) eqn:Ec; [|done]. apply caused_spec in Ec. cbn. by eapply H.
Qed.

(** A step that changes one ticket. *)
Lemma tree_set j i t t' : tree j -> j_tickets j !! i = Some t -> t_cause t' = t_cause t ->
  (t_arr t = AHandled -> t_arr t' = AHandled) -> (ended t = true -> ended t' = true) ->
  (t_end t' = Some true -> t_arr t' = AHandled /\
     (t_end t = Some true \/ forall k u, j_tickets j !! k = Some u -> t_cause u = CShake i -> ended u = true)) ->
  tree (set_ticket j i t').
Proof.
  intros [T1 T2 T3] Ei Ec Ea Ee Et.
  assert (L : forall k u, <[i:=t']> (j_tickets j) !! k = Some u ->
    (k = i /\ u = t') \/ (k <> i /\ j_tickets j !! k = Some u)).
  { intros k u H. destruct (decide (i = k)) as [<-|Hk].
    - rewrite list_lookup_insert in H by by eapply lookup_lt_Some. injection H as <-. by left.
    - rewrite list_lookup_insert_ne in H by done. by right. }
  assert (Hold : forall k u, j_tickets j !! k = Some u -> exists u', <[i:=t']> (j_tickets j) !! k = Some u' /\
    t_cause u' = t_cause u /\ (t_arr u = AHandled -> t_arr u' = AHandled) /\ (ended u = true -> ended u' = true)).
  { intros k u H. destruct (decide (i = k)) as [<-|Hk].
    - rewrite Ei in H. injection H as <-. exists t'. rewrite list_lookup_insert by by eapply lookup_lt_Some. done.
    - exists u. by rewrite list_lookup_insert_ne. }
  assert (Hback : forall k u, <[i:=t']> (j_tickets j) !! k = Some u -> exists u0, j_tickets j !! k = Some u0 /\
    t_cause u = t_cause u0 /\ (ended u0 = true -> ended u = true)).
  { intros k u [[-> ->]|[Hk H]]%L; [by exists t|by exists u]. }
  constructor; unfold set_ticket; cbn [j_tickets j_phase].
  - intros k u H. destruct (Hback _ _ H) as (u0 & H0 & Hc & _). apply T1 in H0. unfold tail_ok in *. rewrite Hc.
    cbn [j_tickets j_phase]. destruct (t_cause u0) as [x|i']; [done|]. destruct H0 as (Hlt & t0 & E0 & A0).
    split; [done|]. apply Hold in E0 as (u' & E' & _ & A' & _). exists u'. auto.
  - intros k u [[-> ->]|[Hk H]]%L Hend.
    + destruct (Et Hend) as [Ha Hch]. split; [done|]. intros k' u' H' Hc'.
      destruct (Hback _ _ H') as (u0 & H0 & Hc & He). apply He. rewrite Hc in Hc'. destruct Hch as [Hch|Hch].
      * by apply (proj2 (T2 _ _ Ei Hch) _ _ H0).
      * by eapply Hch.
    + destruct (T2 _ _ H Hend) as [Ha Hch]. split; [done|]. intros k' u' H' Hc'.
      destruct (Hback _ _ H') as (u0 & H0 & Hc & He). apply He. rewrite Hc in Hc'. by eapply Hch.
  - intros k u x r H Hcu Hp. destruct (Hback _ _ H) as (u0 & H0 & Hc & He). apply He. rewrite Hc in Hcu. by eapply T3.
Qed.

Lemma tree_spread j x c down l j' : tree j -> spread j x c down l = Some j' ->
  match c with
  | CShake i => exists t, j_tickets j !! i = Some t /\ t_arr t = AHandled /\ t_end t <> Some true
  | CStart x => j_phase j !! x = Some PWait
  end -> tree j'.
Proof.
  intros [T1 T2 T3] E Hc. unfold spread in E.
  destruct (j_nodes j !! x) as [m|]; [|done]. cbn [mbind option_bind] in E.
  destruct (meet_nodes _ _ _ _ _) as [m' ks]. injection E as <-.
  assert (L : forall k u, (j_tickets j ++ map (fun k => Ticket k c AWay None) ks) !! k = Some u ->
    j_tickets j !! k = Some u \/ ((length (j_tickets j) <= k)%nat /\ t_cause u = c /\ t_arr u = AWay /\ t_end u = None)).
  { intros k u H. apply lookup_app_Some in H as [H|[Hl H]]; [by left|right].
    apply list_lookup_fmap_inv in H as (k' & -> & _). done. }
  constructor; cbn [j_tickets j_phase].
  - intros k u [H|(Hl & Ec & _)]%L.
    + apply T1 in H. unfold tail_ok in *. cbn [j_tickets j_phase]. destruct (t_cause u); [done|].
      destruct H as (? & t' & E' & A'). split; [done|]. exists t'. split; [by apply lookup_app_l_Some|done].
    + unfold tail_ok. rewrite Ec. cbn [j_tickets j_phase]. destruct c as [y|i].
      * exists PWait. auto.
      * destruct Hc as (t & Et & At & _). split; [apply lookup_lt_Some in Et; lia|]. exists t. split; [by apply lookup_app_l_Some|done].
  - intros k u [H|(_ & _ & _ & Hn)]%L Hend; [|by rewrite Hn in Hend].
    destruct (T2 _ _ H Hend) as [Ha Hch]. split; [done|].
    intros k' u' [H'|(_ & Ec & _ & _)]%L Hc'; [by eapply Hch|].
    rewrite Ec in Hc'. rewrite Hc' in Hc. destruct Hc as (t & Et & _ & Hne). rewrite H in Et. injection Et as <-. done.
  - intros k u y r [H|(_ & Ec & _ & _)]%L Hcu Hp; [by eapply T3|].
    rewrite Ec in Hcu. rewrite Hcu in Hc. rewrite Hc in Hp. done.
Qed.

(** Phases only go from [PWait] on to [PBack ODone]. *)
Lemma tree_phase j x p : tree j ->
  (forall q, j_phase j !! x = Some q -> (q = PWait \/ q = PBack ODone) -> p = PWait \/ p = PBack ODone) ->
  (forall r, p = PBack r -> forall k t, j_tickets j !! k = Some t -> t_cause t = CStart x -> ended t = true) ->
  tree (set_phase j x p).
Proof.
  intros [T1 T2 T3] H1 H2. constructor; unfold set_phase; cbn [j_tickets j_phase].
  - intros k t E. apply T1 in E. unfold tail_ok in *. cbn [j_tickets j_phase]. destruct (t_cause t) as [y|]; [|done].
    destruct E as (q & Eq & Hq). destruct (decide (x = y)) as [<-|Hy].
    + rewrite lookup_insert. exists p. split; [done|]. by eapply H1.
    + rewrite lookup_insert_ne by done. eauto.
  - done.
  - intros k t y r E Ec Ep. destruct (decide (x = y)) as [<-|Hy].
    + rewrite lookup_insert in Ep. injection Ep as ->. by eapply H2.
    + rewrite lookup_insert_ne in Ep by done. by eapply T3.
Qed.
(** A node whose call is not waiting has sent no handshake for it. *)
Lemma tree_none j x k t : tree j -> j_tickets j !! k = Some t -> t_cause t = CStart x ->
  (j_phase j !! x = Some PWait \/ j_phase j !! x = Some (PBack ODone)).
Proof.
  intros [T1 _ _] E Ec. apply T1 in E. unfold tail_ok in E. rewrite Ec in E.
  destruct E as (p & Ep & [-> | ->]); auto.
Qed.

(** A step that leaves the tickets and the phases alone, apart from new nodes. *)
Lemma tree_nodes j ns : tree j -> tree (JState ns (j_tickets j) (j_phase j)).
Proof. intros [T1 T2 T3]. by constructor. Qed.

(** Every node has a phase and every phase a node. *)
Definition dom_ok (j : jstate) : Prop := forall x, is_Some (j_nodes j !! x) <-> is_Some (j_phase j !! x).

Lemma dom_insert j x m ts : dom_ok j -> is_Some (j_nodes j !! x) -> dom_ok (JState (<[x:=m]> (j_nodes j)) ts (j_phase j)).
Proof.
  intros D H y. cbn [j_nodes j_phase]. rewrite <- (D y). destruct (decide (x = y)) as [<-|Hy].
  - rewrite lookup_insert. by split; eauto.
  - by rewrite lookup_insert_ne.
Qed.
Lemma dom_phase j x p : dom_ok j -> is_Some (j_phase j !! x) -> dom_ok (set_phase j x p).
Proof.
  intros D H y. unfold set_phase. cbn [j_nodes j_phase]. rewrite (D y). destruct (decide (x = y)) as [<-|Hy].
  - rewrite lookup_insert. by split; eauto.
  - by rewrite lookup_insert_ne.
Qed.
Lemma dom_spread j x c down l j' : dom_ok j -> spread j x c down l = Some j' -> dom_ok j'.
Proof.
  intros D E. unfold spread in E. destruct (j_nodes j !! x) as [m|] eqn:Ex; [|done]. cbn [mbind option_bind] in E.
  destruct (meet_nodes _ _ _ _ _) as [m' ks]. injection E as <-. apply dom_insert; [done|by eauto].
Qed.

Lemma tree_step j o j' : dom_ok j -> tree j -> jstep j o = Some j' -> tree j' /\ dom_ok j'.
Proof.
  intros D T E. destruct o as [x seed|x ok|x [l|]|i l down|i|i|i|i|x|x y]; cbn [jstep] in E.
  - destruct (j_nodes j !! x) eqn:Ex; [done|]. injection E as <-.
    assert (Hp : j_phase j !! x = None).
    { destruct (j_phase j !! x) eqn:Ep; [|done]. destruct (proj2 (D x)) as [? E']; [by eauto|]. by rewrite Ex in E'. }
    split.
    + refine (tree_nodes (set_phase j x (begin_phase seed)) _ _). apply tree_phase; [done|by rewrite Hp|].
      intros r _ k t Ek Ec. by destruct (tree_none j x k t T Ek Ec) as [H|H]; rewrite Hp in H.
    + intros y. cbn [j_nodes j_phase]. destruct (decide (x = y)) as [<-|Hy].
      * rewrite !lookup_insert. by split; eauto.
      * rewrite !lookup_insert_ne by done. apply D.
  - destruct (j_phase j !! x) as [[s a| | |]|] eqn:Ep; try done. injection E as <-.
    split; [|by apply dom_phase; eauto]. apply tree_phase; [done| |].
    + intros q Eq [-> | ->]; congruence.
    + intros r _ k t Ek Ec. by destruct (tree_none j x k t T Ek Ec) as [H|H]; rewrite Ep in H.
  - destruct (j_phase j !! x) as [[|s| |]|] eqn:Ep; try done. destruct (_ && _); [|done].
    split; [|eapply dom_spread; [|exact E]; by apply dom_phase; eauto].
    refine (tree_spread _ _ _ _ _ _ _ E _); [|unfold set_phase; cbn [j_phase]; by rewrite lookup_insert].
    apply tree_phase; [done|auto|]. intros r H; done.
  - destruct (j_phase j !! x) as [[|s| |]|] eqn:Ep; try done. injection E as <-.
    split; [|by apply dom_phase; eauto]. apply tree_phase; [done| |].
    + intros q Eq [-> | ->]; congruence.
    + intros r _ k t Ek Ec. by destruct (tree_none j x k t T Ek Ec) as [H|H]; rewrite Ep in H.
  - destruct (j_tickets j !! i) as [t|] eqn:Et; [|done]. cbn [mbind option_bind] in E.
    destruct (t_arr t) eqn:Ea; try done. destruct (bool_decide _) eqn:Eb; [|done].
    split; [|by eapply dom_spread; [|exact E]].
    refine (tree_spread _ _ _ _ _ _ _ E _).
    + apply (tree_set j i t); [done|done|done|done|done|]. cbn. intros He. split; [done|by left].
    + eexists. cbn [set_ticket j_tickets]. split; [apply list_lookup_insert; by eapply lookup_lt_Some|].
      cbn. split; [done|]. intros He. destruct T as [_ T2 _]. apply (T2 _ _ Et) in He as [He _]. congruence.
  - destruct (j_tickets j !! i) as [t|] eqn:Et; [|done]. cbn [mbind option_bind] in E.
    destruct (t_arr t) eqn:Ea; try done. destruct (t_end t) eqn:Ee; [done|].
    destruct (through j (CShake i)) eqn:Eth; [|done]. injection E as <-. split; [|done].
    apply (tree_set j i t); [done|done|done|done|done|]. intros _. split; [done|right]. by apply through_spec.
  - destruct (j_tickets j !! i) as [t|] eqn:Et; [|done]. cbn [mbind option_bind] in E.
    destruct (t_end t) as [[]|] eqn:Ee; try done.
    destruct (j_nodes j !! _) as [m|] eqn:Em; [|done]. cbn [mbind option_bind] in E. injection E as <-.
    split; [by apply tree_nodes|]. apply dom_insert; [done|by eauto].
  - destruct (j_tickets j !! i) as [t|] eqn:Et; [|done]. cbn [mbind option_bind] in E.
    destruct (t_end t) eqn:Ee; [done|]. injection E as <-. split; [|done].
    by apply (tree_set j i t).
  - destruct (j_tickets j !! i) as [t|] eqn:Et; [|done]. cbn [mbind option_bind] in E.
    destruct (t_arr t) eqn:Ea; try done. injection E as <-. split; [|done].
    apply (tree_set j i t); [done|done|done|by rewrite Ea|done|]. cbn. intros He. destruct T as [_ T2 _].
    apply (T2 _ _ Et) in He as [He _]. congruence.
  - destruct (j_phase j !! x) as [[]|] eqn:Ep; try done. destruct (through _ _) eqn:Eth; [|done]. injection E as <-.
    split; [|by apply dom_phase; eauto]. apply tree_phase; [done|auto|].
    intros r _ k t Ek Ec. apply (proj1 (through_spec _ _) Eth _ _ Ek Ec).
  - destruct (j_nodes j !! x) as [m|] eqn:Em; [|done]. cbn [mbind option_bind] in E. injection E as <-.
    split; [by apply tree_nodes|]. apply dom_insert; [done|by eauto].
Qed.
Lemma tree_init : tree join_init /\ dom_ok join_init.
Proof.
  split; [constructor|]; cbn.
  - intros k t E. by rewrite lookup_nil in E.
  - intros k t E. by rewrite lookup_nil in E.
  - intros k t x r E. by rewrite lookup_nil in E.
  - intros x. cbn. rewrite !lookup_empty. by split; intros [? ?].
Qed.
Lemma tree_runs j ops j' : tree j -> dom_ok j -> jruns j ops = Some j' -> tree j' /\ dom_ok j'.
Proof.
  revert j. induction ops as [|o ops IH]; intros j T D E; cbn [jruns] in E; [by injection E as <-|].
  destruct (jstep j o) as [j1|] eqn:E1; [|done]. cbn [mbind option_bind] in E.
  destruct (tree_step _ _ _ D T E1). by eapply IH.
Qed.
