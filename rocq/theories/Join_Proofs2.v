(** Proofs about workers that join a cluster: who knows whom when the calls have returned, and
    that they return. *)
From Verif Require Import Mesh_Model Mesh_Spec Mesh_Proofs Join_Model Join_Spec Join_Proofs.

(** * The run as a run of the mesh *)
Definition seed_state (ml : list mop) (x s : N) (p : phase) : Prop :=
  match p with
  | PLook s' _ | PAsk s' => s' = s
  | PWait | PBack ODone => exists l, MSeed x s l ∈ ml
  | PBack OUnresolved | PBack OUnknown => True
  | PBack OAlone => False
  end.

Record tracks (ops : list jop) (j : jstate) (ml : list mop) : Prop := {
  tr_run : mruns mesh_init ml = Some (mesh_of j);
  tr_smooth : forallb fine ops = true -> forallb smooth ml = true;
  tr_start : forall x, calls_start ops x <-> started ml x;
  tr_seed : forall x s, has_seed ops x s -> exists p, j_phase j !! x = Some p /\ seed_state ml x s p;
  tr_known : forallb fine ops = true -> forall x, j_phase j !! x <> Some (PBack OUnknown)
}.

Lemma seed_state_mono ml ml' x s p : seed_state ml x s p -> seed_state (ml ++ ml') x s p.
Proof.
  unfold seed_state. destruct p as [| | |[]]; try done; intros (l & Hl); exists l; apply elem_of_app; by left.
Qed.

Lemma tracks_runs ops j : jruns join_init ops = Some j -> exists ml, tracks ops j ml.
Proof.
  revert j. induction ops as [|o ops IH] using rev_ind; intros j' E.
  - injection E as <-. exists []. constructor; try done.
    + intros x. unfold calls_start, started. split; [intros (s & H)|intros H]; by apply elem_of_nil in H.
    + intros x s H. by apply elem_of_nil in H.
  - rewrite jruns_snoc in E. destruct (jruns join_init ops) as [j|] eqn:Er; [|done]. cbn [mbind option_bind] in E.
    destruct (IH j eq_refl) as (ml & [R1 R2 R3 R4 R5]).
    destruct (tree_runs _ _ _ (proj1 tree_init) (proj2 tree_init) Er) as [T D].
    destruct (step_mesh _ _ _ E) as (ml' & R' & F1 & F2 & F3 & F4).
    exists (ml ++ ml').
    assert (Hph : forall x, (exists seed, o = JStart x seed) \/ (forall seed, o <> JStart x seed)).
    { intros x. destruct o as [y seed| | | | | | | | |]; try (by right). destruct (decide (y = x)) as [->|Hy]; [left; eauto|right; congruence]. }
    constructor.
    + rewrite mruns_app, R1. done.
    + rewrite !forallb_app. intros [H1 H2]%andb_true_iff. cbn in H2. rewrite andb_true_r in H2.
      rewrite R2, F1 by done. done.
    + intros x. unfold calls_start, started in *. split.
      * intros (s & [H|H]%elem_of_app); apply elem_of_app; [left; apply R3; eauto|right].
        apply elem_of_list_singleton in H. symmetry in H. by eapply F2.
      * intros [H|H]%elem_of_app.
        -- apply R3 in H as (s & H). exists s. apply elem_of_app. by left.
        -- apply F3 in H as (s & ->). exists s. apply elem_of_app. right. by left.
    + intros x s [H|H]%elem_of_app.
      * destruct (R4 x s H) as (p & Ep & Hs). clear R4 IH R2 R5.
        assert (Hn : is_Some (j_nodes j !! x)) by (apply D; eauto).
        destruct o as [y seed|y ok|y [l|]|i l down|i|i|i|i|y|y z]; cbn [jstep] in E.
        -- destruct (j_nodes j !! y) eqn:Ey; [done|]. injection E as <-. cbn [j_phase].
           rewrite lookup_insert_ne by (intros ->; rewrite Ey in Hn; by destruct Hn).
           exists p. split; [done|by apply seed_state_mono].
        -- destruct (j_phase j !! y) as [[s' a| | |]|] eqn:Epy; try done. injection E as <-. unfold set_phase. cbn [j_phase].
           destruct (decide (y = x)) as [->|Hy].
           ++ rewrite lookup_insert. rewrite Ep in Epy. injection Epy as ->. cbn in Hs. subst s'.
              eexists. split; [done|]. unfold lookup_phase. destruct (_ <=? _)%N; [done|]. by destruct ok.
           ++ rewrite lookup_insert_ne by done. exists p. split; [done|by apply seed_state_mono].
        -- destruct (j_phase j !! y) as [[|s'| |]|] eqn:Epy; try done. destruct (_ && _); [|done].
           apply spread_mesh in E as [_ ->]. unfold set_phase. cbn [j_phase].
           destruct (decide (y = x)) as [->|Hy].
           ++ rewrite lookup_insert. rewrite Ep in Epy. injection Epy as ->. cbn in Hs. subst s'.
              eexists. split; [done|]. cbn. exists l. apply elem_of_app. right. by eapply F4.
           ++ rewrite lookup_insert_ne by done. exists p. split; [done|by apply seed_state_mono].
        -- destruct (j_phase j !! y) as [[|s'| |]|] eqn:Epy; try done. injection E as <-. unfold set_phase. cbn [j_phase].
           destruct (decide (y = x)) as [->|Hy].
           ++ rewrite lookup_insert. eexists. split; done.
           ++ rewrite lookup_insert_ne by done. exists p. split; [done|by apply seed_state_mono].
        -- destruct (j_tickets j !! i) as [t|] eqn:Et; [|done]. cbn [mbind option_bind] in E.
           destruct (t_arr t) eqn:Ea; try done. destruct (bool_decide _) eqn:Eb; [|done].
           apply spread_mesh in E as [_ ->]. exists p. split; [done|by apply seed_state_mono].
        -- destruct (j_tickets j !! i) as [t|] eqn:Et; [|done]. cbn [mbind option_bind] in E.
           destruct (t_arr t), (t_end t), (through j (CShake i)); try done. injection E as <-.
           exists p. split; [done|by apply seed_state_mono].
        -- destruct (j_tickets j !! i) as [t|] eqn:Et; [|done]. cbn [mbind option_bind] in E.
           destruct (t_end t) as [[]|] eqn:Ee; try done.
           destruct (j_nodes j !! _) as [m|] eqn:Em; [|done]. cbn [mbind option_bind] in E. injection E as <-.
           exists p. split; [done|by apply seed_state_mono].
        -- destruct (j_tickets j !! i) as [t|] eqn:Et; [|done]. cbn [mbind option_bind] in E.
           destruct (t_end t); [done|]. injection E as <-. exists p. split; [done|by apply seed_state_mono].
        -- destruct (j_tickets j !! i) as [t|] eqn:Et; [|done]. cbn [mbind option_bind] in E.
           destruct (t_arr t); try done. injection E as <-. exists p. split; [done|by apply seed_state_mono].
        -- destruct (j_phase j !! y) as [[| | |]|] eqn:Epy; try done. destruct (through _ _); [|done]. injection E as <-.
           unfold set_phase. cbn [j_phase]. destruct (decide (y = x)) as [->|Hy].
           ++ rewrite lookup_insert. rewrite Ep in Epy. injection Epy as ->. eexists. split; [done|].
              exact (seed_state_mono _ _ _ _ _ Hs).
           ++ rewrite lookup_insert_ne by done. exists p. split; [done|by apply seed_state_mono].
        -- destruct (j_nodes j !! y) as [m|] eqn:Em; [|done]. cbn [mbind option_bind] in E. injection E as <-.
           exists p. split; [done|by apply seed_state_mono].
      * apply elem_of_list_singleton in H. subst o. cbn [jstep] in E.
        destruct (j_nodes j !! x) eqn:Ey; [done|]. injection E as <-. cbn [j_phase]. rewrite lookup_insert.
        eexists. split; [done|]. done.
    + rewrite forallb_app. intros [H1 H2]%andb_true_iff x. cbn in H2. rewrite andb_true_r in H2.
      specialize (R5 H1 x). clear R4 IH R2.
      destruct o as [y seed|y ok|y [l|]|i l down|i|i|i|i|y|y z]; cbn [jstep] in E; try done.
      * destruct (j_nodes j !! y) eqn:Ey; [done|]. injection E as <-. cbn [j_phase].
        destruct (decide (y = x)) as [->|Hy]; [rewrite lookup_insert; by destruct seed|by rewrite lookup_insert_ne].
      * destruct (j_phase j !! y) as [[s' a| | |]|] eqn:Epy; try done. injection E as <-. unfold set_phase. cbn [j_phase].
        destruct (decide (y = x)) as [->|Hy]; [|by rewrite lookup_insert_ne]. rewrite lookup_insert.
        unfold lookup_phase. destruct (_ <=? _)%N; [done|]. by destruct ok.
      * destruct (j_phase j !! y) as [[|s'| |]|] eqn:Epy; try done. destruct (_ && _); [|done].
        apply spread_mesh in E as [_ ->]. unfold set_phase. cbn [j_phase].
        destruct (decide (y = x)) as [->|Hy]; [|by rewrite lookup_insert_ne]. by rewrite lookup_insert.
      * destruct (j_tickets j !! i) as [t|] eqn:Et; [|done]. cbn [mbind option_bind] in E.
        destruct (t_arr t) eqn:Ea; try done. destruct (bool_decide _) eqn:Eb; [|done].
        by apply spread_mesh in E as [_ ->].
      * destruct (j_tickets j !! i) as [t|] eqn:Et; [|done]. cbn [mbind option_bind] in E.
        destruct (t_arr t), (t_end t), (through j (CShake i)); try done. by injection E as <-.
      * destruct (j_tickets j !! i) as [t|] eqn:Et; [|done]. cbn [mbind option_bind] in E.
        destruct (t_end t) as [[]|] eqn:Ee; try done.
        destruct (j_nodes j !! _) as [m|] eqn:Em; [|done]. cbn [mbind option_bind] in E. by injection E as <-.
      * destruct (j_phase j !! y) as [[| | |]|] eqn:Epy; try done. destruct (through _ _); [|done]. injection E as <-.
        unfold set_phase. cbn [j_phase]. destruct (decide (y = x)) as [->|Hy]; [|by rewrite lookup_insert_ne].
        by rewrite lookup_insert.
Qed.

(** * Runs in which nothing fails *)
(** A handshake that is over was handled; and what it told is known. *)
Definition plain (j : jstate) : Prop := forall k t, j_tickets j !! k = Some t ->
  t_end t <> Some false /\ t_arr t <> ALost /\
  (t_arr t = AHandled -> forall z, z ∈ k_nodes (t_shake t) -> jknows j (k_to (t_shake t)) z).

Lemma jknows_mesh j x y : jknows j x y <-> knows (mesh_of j) x y.
Proof. done. Qed.

Lemma spread_tickets j x c down l j' : spread j x c down l = Some j' ->
  exists ks, j_tickets j' = j_tickets j ++ map (fun k => Ticket k c AWay None) ks.
Proof.
  unfold spread. destruct (j_nodes j !! x) as [m|]; [|done]. cbn [mbind option_bind].
  destruct (meet_nodes _ _ _ _ _) as [m' ks]. intros [= <-]. by exists ks.
Qed.

Lemma good_fine j ops : jruns join_init ops = Some j -> forallb fine ops = true -> good (mesh_of j).
Proof.
  intros E Hf. destruct (tracks_runs _ _ E) as (ml & [R1 R2 _ _ _]).
  exact (proj1 (good_runs _ _ _ good_init (R2 Hf) R1)).
Qed.
Lemma fine_mono j o j' : good (mesh_of j) -> fine o = true -> jstep j o = Some j' ->
  forall x y, jknows j x y -> jknows j' x y.
Proof.
  intros G Hf E. destruct (step_mesh _ _ _ E) as (ml & R & F & _).
  exact (proj1 (proj2 (good_runs _ _ _ G (F Hf) R))).
Qed.

Lemma plain_step j o j' : good (mesh_of j) -> plain j -> fine o = true -> jstep j o = Some j' -> plain j'.
Proof.
  intros G P Hf E. pose proof (fine_mono _ _ _ G Hf E) as Hm.
  assert (Same : forall k t, j_tickets j !! k = Some t -> t_end t <> Some false /\ t_arr t <> ALost /\
    (t_arr t = AHandled -> forall z, z ∈ k_nodes (t_shake t) -> jknows j' (k_to (t_shake t)) z)).
  { intros k t Ek. destruct (P k t Ek) as (P1 & P2 & P3). split_and!; auto. }
  destruct o as [y seed|y ok|y [l|]|i l down|i|i|i|i|y|y z]; cbn [jstep] in E; try done.
  - destruct (j_nodes j !! y) eqn:Ey; [done|]. injection E as <-. exact Same.
  - destruct (j_phase j !! y) as [[s' a| | |]|] eqn:Epy; try done. injection E as <-. exact Same.
  - destruct (j_phase j !! y) as [[|s'| |]|] eqn:Epy; try done. destruct (_ && _); [|done].
    apply spread_tickets in E as (ks & E). intros k t Ek. rewrite E in Ek.
    apply lookup_app_Some in Ek as [Ek|[_ Ek]]; [by apply (Same k)|].
    apply list_lookup_fmap_inv in Ek as (k' & -> & _). done.
  - destruct (j_tickets j !! i) as [t|] eqn:Et; [|done]. cbn [mbind option_bind] in E.
    destruct (t_arr t) eqn:Ea; try done. destruct (bool_decide _) eqn:Eb; [|done].
    apply bool_decide_eq_true in Eb. cbn [fine] in Hf. apply bool_decide_eq_true in Hf. subst down.
    pose proof E as E0. apply spread_tickets in E as (ks & E). intros k u Ek. rewrite E in Ek.
    apply lookup_app_Some in Ek as [Ek|[_ Ek]].
    + cbn [set_ticket j_tickets] in Ek. destruct (decide (i = k)) as [<-|Hk].
      * rewrite list_lookup_insert in Ek by by eapply lookup_lt_Some. injection Ek as <-. cbn.
        destruct (P i t Et) as (P1 & _ & _). split_and!; [done|done|]. intros _ z Hz.
        (* what is discovered is known *)
        destruct (ways_handled (j_tickets j) i t (Ticket (t_shake t) (t_cause t) AHandled (t_end t)) Et) as (p & Ep & Ed);
          [by unfold way; rewrite Ea|done|].
        apply spread_mesh in E0 as [E0 _]. unfold mesh_of at 1 in E0. cbn [set_ticket j_nodes j_tickets] in E0. rewrite Ed in E0.
        assert (HG : good (Mesh (j_nodes j) (delete p (ways (j_tickets j)) ++ [t_shake t]))).
        { refine (good_ext (mesh_of j) _ G _). cbn [mesh_of h_flight]. intros q. split.
          - intros Hq. apply elem_of_app. destruct (elem_of_delete_other _ _ q _ Ep Hq) as [->|Hq']; [right; by left|by left].
          - intros [Hq|Hq]%elem_of_app; [by eapply elem_of_delete_list|].
            apply elem_of_list_singleton in Hq as ->. by eapply elem_of_list_lookup_2. }
        destruct (good_discover (Mesh (j_nodes j) (delete p (ways (j_tickets j)))) (k_to (t_shake t)) l (mesh_of j') [t_shake t]) as (G' & K1 & K2);
          [exact HG| |exact E0|].
        { intros q Hq. apply elem_of_list_singleton in Hq as ->. split; [done|]. intros w Hw.
          destruct (decide (w = k_to (t_shake t))) as [->|Hne]; [by left|right].
          assert (w ∈ (list_to_set l : gset N)) as H by (rewrite Eb; set_solver). by apply elem_of_list_to_set in H. }
        destruct (decide (z = k_to (t_shake t))) as [->|Hne].
        -- apply Hm. unfold discover in E0. cbn [h_nodes] in E0.
           destruct (j_nodes j !! k_to (t_shake t)) as [m|] eqn:Em; [|done].
           exists m. split; [done|]. exact (proj1 (good_self _ G (k_to (t_shake t)) m Em)).
        -- apply K2. assert (z ∈ (list_to_set l : gset N)) as H by (rewrite Eb; set_solver). by apply elem_of_list_to_set in H.
      * rewrite list_lookup_insert_ne in Ek by done. by apply (Same k).
    + apply list_lookup_fmap_inv in Ek as (k' & -> & _). done.
  - destruct (j_tickets j !! i) as [t|] eqn:Et; [|done]. cbn [mbind option_bind] in E.
    destruct (t_arr t) eqn:Ea, (t_end t) eqn:Ee, (through j (CShake i)); try done. injection E as <-.
    intros k u Ek. cbn [set_ticket j_tickets] in Ek. destruct (decide (i = k)) as [<-|Hk].
    + rewrite list_lookup_insert in Ek by by eapply lookup_lt_Some. injection Ek as <-. cbn.
      split_and!; [done|done|]. intros _. by apply (Same i t Et).
    + rewrite list_lookup_insert_ne in Ek by done. by apply (Same k).
  - destruct (j_tickets j !! i) as [t|] eqn:Et; [|done]. cbn [mbind option_bind] in E.
    destruct (t_end t) as [[]|] eqn:Ee; try done.
    destruct (j_nodes j !! _) as [m|] eqn:Em; [|done]. cbn [mbind option_bind] in E. injection E as <-. exact Same.
  - destruct (j_phase j !! y) as [[| | |]|] eqn:Epy; try done. destruct (through _ _); [|done]. injection E as <-. exact Same.
Qed.
Lemma plain_runs ops j : jruns join_init ops = Some j -> forallb fine ops = true -> plain j.
Proof.
  revert j. induction ops as [|o ops IH] using rev_ind; intros j' E Hf.
  - injection E as <-. intros k t Ek. cbn [join_init j_tickets] in Ek. by rewrite lookup_nil in Ek.
  - rewrite jruns_snoc in E. destruct (jruns join_init ops) as [j|] eqn:Er; [|done]. cbn [mbind option_bind] in E.
    rewrite forallb_app in Hf. apply andb_true_iff in Hf as [H1 H2]. cbn in H2. rewrite andb_true_r in H2.
    refine (plain_step _ _ _ _ _ H2 E); [by eapply good_fine|by apply IH].
Qed.

(** When all calls have returned, all handshakes are over. *)
Lemma returned_settled ops j : jruns join_init ops = Some j -> forallb fine ops = true ->
  (forall x, is_Some (j_phase j !! x) -> returned j x) -> settled (mesh_of j).
Proof.
  intros E Hf Hr. destruct (tree_runs _ _ _ (proj1 tree_init) (proj2 tree_init) E) as [[T1 T2 T3] D].
  pose proof (plain_runs _ _ E Hf) as P.
  assert (Hend : forall k t, j_tickets j !! k = Some t -> t_end t = Some true).
  { intros k. induction k as [k IH] using (well_founded_induction lt_wf). intros t Ek.
    assert (ended t = true) as He.
    { pose proof (T1 _ _ Ek) as Hc. unfold tail_ok in Hc. destruct (t_cause t) as [x|i] eqn:Ec.
      - destruct Hc as (p & Ep & _). destruct (Hr x) as (r & Er); [by eauto|]. by eapply T3.
      - destruct Hc as (Hlt & t' & Et' & _). pose proof (IH i Hlt t' Et') as He'. by apply (proj2 (T2 _ _ Et' He') k t). }
    unfold ended in He. destruct (P _ _ Ek) as (P1 & _). destruct (t_end t) as [[]|]; done. }
  unfold settled, mesh_of, ways. cbn [h_flight].
  assert (List.filter way (j_tickets j) = []) as ->; [|done].
  assert (forall l, (forall t, t ∈ l -> way t = false) -> List.filter way l = []) as Hnil.
  { induction l as [|t l IH]; intros H; [done|]. cbn. rewrite (H t) by by left. apply IH. intros u Hu. apply H. by right. }
  apply Hnil. intros t [k Ek]%elem_of_list_lookup. apply Hend in Ek as He.
  unfold way. by rewrite (proj1 (T2 _ _ Ek He)).
Qed.

Lemma phase_start ops j x : jruns join_init ops = Some j -> is_Some (j_phase j !! x) -> calls_start ops x.
Proof.
  intros E H. destruct (tracks_runs _ _ E) as (ml & [R1 _ R3 _ _]).
  destruct (tree_runs _ _ _ (proj1 tree_init) (proj2 tree_init) E) as [_ D].
  apply D in H. apply R3. destruct (nodes_started (mesh_of j) x mesh_init ml R1 H) as [[m Hm]|H1]; [|done].
  cbn in Hm. by rewrite lookup_empty in Hm.
Qed.

Lemma joined_linked ops j ml x y : tracks ops j ml -> forallb fine ops = true ->
  all_returned ops j -> resolved ops j -> linked ops x y -> joined ml x y.
Proof.
  intros [R1 R2 R3 R4 R5] Hf Hall Hres Hl.
  assert (Hs : forall a b, has_seed ops a b -> seeded ml a b).
  { intros a b Hab. destruct (R4 a b Hab) as (p & Ep & Hp).
    assert (Hc : calls_start ops a) by (exists (Some b); exact Hab).
    destruct (Hall a Hc) as (r & Er). rewrite Ep in Er. injection Er as ->.
    destruct r; cbn in Hp; [done| | |done].
    - by apply Hres in Hc.
    - by apply R5 in Ep. }
  unfold linked, joined in *. induction Hl as [|a b c Hab Hbc IH]; [apply rtc_refl|].
  eapply rtc_l; [|exact IH]. destruct Hab as [Hab|Hab]; [left|right]; by apply Hs.
Qed.

Lemma all_know ops j x y : jruns join_init ops = Some j -> forallb fine ops = true ->
  all_returned ops j -> resolved ops j -> linked ops x y -> calls_start ops x -> jknows j x y /\ jknows j y x.
Proof.
  intros E Hf Hall Hres Hl Hx. destruct (tracks_runs _ _ E) as (ml & Tr).
  pose proof (joined_linked _ _ _ _ _ Tr Hf Hall Hres Hl) as Hj. destruct Tr as [R1 R2 R3 _ _].
  assert (Hset : settled (mesh_of j)).
  { apply (returned_settled ops j E Hf). intros z Hz. by apply Hall, (phase_start ops j z E). }
  rewrite !jknows_mesh.
  assert (Hk : knows (mesh_of j) x y) by exact (full_mesh ml _ x y R1 (R2 Hf) Hset Hj (proj1 (R3 x) Hx)).
  split; [exact Hk|]. refine (full_mesh ml _ y x R1 (R2 Hf) Hset _ _).
  - unfold joined in *. by symmetry.
  - exact (proj2 (known_started ml _ x y R1 Hk)).
Qed.

(** * A node that nobody knew before *)
Lemma ticket_kept j o j' k t : jstep j o = Some j' -> j_tickets j !! k = Some t ->
  exists t', j_tickets j' !! k = Some t' /\ t_shake t' = t_shake t /\ t_cause t' = t_cause t.
Proof.
  intros E Ek.
  assert (Hset : forall i t0 a e, j_tickets j !! i = Some t0 ->
    exists t', <[i := Ticket (t_shake t0) (t_cause t0) a e]> (j_tickets j) !! k = Some t' /\ t_shake t' = t_shake t /\ t_cause t' = t_cause t).
  { intros i t0 a e Ei. destruct (decide (i = k)) as [<-|Hk].
    - rewrite Ek in Ei. injection Ei as <-. rewrite list_lookup_insert by by eapply lookup_lt_Some. eexists. done.
    - rewrite list_lookup_insert_ne by done. eauto. }
  destruct o as [y seed|y ok|y [l|]|i l down|i|i|i|i|y|y z]; cbn [jstep] in E.
  - destruct (j_nodes j !! y); [done|]. injection E as <-. eauto.
  - destruct (j_phase j !! y) as [[]|]; try done. injection E as <-. eauto.
  - destruct (j_phase j !! y) as [[]|]; try done. destruct (_ && _); [|done].
    apply spread_tickets in E as (ks & E). exists t. rewrite E. split; [by apply lookup_app_l_Some|done].
  - destruct (j_phase j !! y) as [[]|]; try done. injection E as <-. eauto.
  - destruct (j_tickets j !! i) as [t0|] eqn:Et; [|done]. cbn [mbind option_bind] in E.
    destruct (t_arr t0); try done. destruct (bool_decide _); [|done].
    apply spread_tickets in E as (ks & E). destruct (Hset i t0 AHandled (t_end t0) Et) as (t' & E' & H').
    exists t'. rewrite E. split; [by apply lookup_app_l_Some|done].
  - destruct (j_tickets j !! i) as [t0|] eqn:Et; [|done]. cbn [mbind option_bind] in E.
    destruct (t_arr t0), (t_end t0), (through j (CShake i)); try done. injection E as <-. by apply Hset.
  - destruct (j_tickets j !! i) as [t0|] eqn:Et; [|done]. cbn [mbind option_bind] in E.
    destruct (t_end t0) as [[]|]; try done.
    destruct (j_nodes j !! _) as [m|]; [|done]. cbn [mbind option_bind] in E. injection E as <-. eauto.
  - destruct (j_tickets j !! i) as [t0|] eqn:Et; [|done]. cbn [mbind option_bind] in E.
    destruct (t_end t0); [done|]. injection E as <-. by apply Hset.
  - destruct (j_tickets j !! i) as [t0|] eqn:Et; [|done]. cbn [mbind option_bind] in E.
    destruct (t_arr t0); try done. injection E as <-. by apply Hset.
  - destruct (j_phase j !! y) as [[]|]; try done. destruct (through _ _); [|done]. injection E as <-. eauto.
  - destruct (j_nodes j !! y) as [m|]; [|done]. cbn [mbind option_bind] in E. injection E as <-. eauto.
Qed.
Lemma ticket_kept_runs j ops j' k t : jruns j ops = Some j' -> j_tickets j !! k = Some t ->
  exists t', j_tickets j' !! k = Some t' /\ t_shake t' = t_shake t /\ t_cause t' = t_cause t.
Proof.
  revert j t. induction ops as [|o ops IH]; intros j t E Ek; cbn [jruns] in E; [injection E as <-; eauto|].
  destruct (jstep j o) as [j1|] eqn:E1; [|done]. cbn [mbind option_bind] in E.
  destruct (ticket_kept _ _ _ _ _ E1 Ek) as (t1 & E2 & Hs & Hc).
  destruct (IH j1 t1 E E2) as (t2 & E3 & Hs' & Hc'). exists t2. split; [done|]. by rewrite Hs', Hc'.
Qed.

Lemma newcomer_known ops1 j1 x l ops2 j :
  jruns join_init ops1 = Some j1 -> (forall y, jknows j1 x y -> y = x) ->
  jruns j1 (JAsk x (Some l) :: ops2) = Some j ->
  forallb fine (ops1 ++ JAsk x (Some l) :: ops2) = true -> returned j x ->
  forall n, n ∈ l -> jknows j x n /\ jknows j n x.
Proof.
  intros E1 Honly E Hf (r & Hr) n Hn.
  assert (Eall : jruns join_init (ops1 ++ JAsk x (Some l) :: ops2) = Some j).
  { rewrite jruns_app, E1. exact E. }
  destruct (tree_runs _ _ _ (proj1 tree_init) (proj2 tree_init) Eall) as [[T1 T2 T3] _].
  pose proof (plain_runs _ _ Eall Hf) as P.
  rewrite forallb_app in Hf. apply andb_true_iff in Hf as [Hf1 Hf2]. cbn [forallb] in Hf2.
  apply andb_true_iff in Hf2 as [_ Hf2].
  pose proof (good_fine _ _ E1 Hf1) as G1.
  cbn [jruns] in E. destruct (jstep j1 (JAsk x (Some l))) as [j2|] eqn:E2; [|done]. cbn [mbind option_bind] in E.
  pose proof E2 as E2'. cbn [jstep] in E2.
  destruct (j_phase j1 !! x) as [[|s| |]|] eqn:Ep; try done. destruct (_ && _) eqn:Eb; [|done].
  unfold spread in E2. cbn [set_phase j_nodes j_tickets j_phase] in E2.
  destruct (j_nodes j1 !! x) as [m|] eqn:Em; [|done]. cbn [mbind option_bind] in E2.
  destruct (meet_nodes x [] (m_known m) m l) as [m' ks] eqn:Emeet. injection E2 as E2.
  destruct (good_self _ G1 x m Em) as [Hxm Him].
  assert (Hself : m_known m ⊆ {[ x ]}).
  { intros y Hy. apply elem_of_singleton, Honly. exists m. done. }
  pose proof (meet_all _ _ _ _ _ _ Emeet ltac:(done) Him n Hn) as Hkn.
  pose proof (meet_known _ _ _ _ _ _ _ Emeet) as (H1 & _ & H3).
  assert (G2 : good (mesh_of j2)).
  { destruct (step_mesh _ _ _ E2') as (ml & R & F & _). exact (proj1 (good_runs _ _ _ G1 (F eq_refl) R)). }
  assert (Kmono : forall a b, jknows j2 a b -> jknows j a b).
  { clear - G2 E Hf2. revert j2 G2 E. induction ops2 as [|o ops2 IH]; intros j2 G2 E a b Hab; cbn [jruns] in E; [by injection E as <-|].
    cbn [forallb] in Hf2. apply andb_true_iff in Hf2 as [Ho Hf2].
    destruct (jstep j2 o) as [j3|] eqn:E3; [|done]. cbn [mbind option_bind] in E.
    refine (IH Hf2 j3 _ E a b (fine_mono _ _ _ G2 Ho E3 a b Hab)).
    destruct (step_mesh _ _ _ E3) as (ml & R & F & _). exact (proj1 (good_runs _ _ _ G2 (F Ho) R)). }
  assert (Kx : jknows j x n).
  { apply Kmono. exists m'. rewrite <- E2. cbn [j_nodes]. by rewrite lookup_insert. }
  split; [exact Kx|]. destruct (decide (n = x)) as [->|Hnx]; [exact Kx|].
  destruct (meet_told _ _ _ _ _ _ _ n x Emeet Hkn (H1 _ Hxm)) as [(k & Hk & Ekt & Hin)|[Hbad _]];
    [intros H; apply Hself, elem_of_singleton in H; done| |done].
  apply elem_of_list_lookup in Hk as [i Hi].
  assert (Hi2 : j_tickets j2 !! (length (j_tickets j1) + i)%nat = Some (Ticket k (CStart x) AWay None)).
  { rewrite <- E2. cbn [j_tickets]. rewrite lookup_app_r by lia.
    replace (length (j_tickets j1) + i - length (j_tickets j1))%nat with i by lia.
    change (map ?f ks) with (f <$> ks). by rewrite list_lookup_fmap, Hi. }
  destruct (ticket_kept_runs _ _ _ _ _ E Hi2) as (t' & Et' & Hs & Hc). cbn in Hs, Hc.
  pose proof (T3 _ _ x r Et' Hc Hr) as Hend. destruct (P _ _ Et') as (P1 & _ & P3).
  assert (t_end t' = Some true) as He. { unfold ended in Hend. by destruct (t_end t') as [[]|]. }
  destruct (T2 _ _ Et' He) as [Ha _]. rewrite Hs, Ekt in P3. by apply P3.
Qed.

(** * The calls return *)
Definition phase_weight (p : phase) : nat :=
  match p with
  | PLook _ a => 3 + (N.to_nat seed_attempts - N.to_nat a)
  | PAsk _ => 2
  | PWait => 1
  | PBack _ => 0
  end.
Definition phases_weight (j : jstate) : nat := sum_list_with (fun p => phase_weight p.2) (map_to_list (j_phase j)).
Definition open_tickets (ts : list ticket) : nat := length (List.filter (fun t => negb (ended t)) ts).
Definition weight (j : jstate) : nat :=
  2 * missing (mesh_of j) + length (ways (j_tickets j)) + open_tickets (j_tickets j) + phases_weight j.

Lemma sum_phase (M : gmap N phase) x p p' :
  M !! x = Some p ->
  (sum_list_with (fun q => phase_weight q.2) (map_to_list (<[x:=p']> M)) + phase_weight p =
   sum_list_with (fun q => phase_weight q.2) (map_to_list M) + phase_weight p')%nat.
Proof.
  intros E.
  assert (P1 : map_to_list (<[x:=p']> M) ≡ₚ (x, p') :: map_to_list (delete x M)).
  { rewrite <- insert_delete_insert. apply map_to_list_insert, lookup_delete. }
  assert (P2 : map_to_list M ≡ₚ (x, p) :: map_to_list (delete x M)).
  { rewrite <- (insert_delete M x p E) at 1. apply map_to_list_insert, lookup_delete. }
  assert (Hp : forall l1 l2, l1 ≡ₚ l2 -> sum_list_with (fun q : N * phase => phase_weight q.2) l1 = sum_list_with (fun q => phase_weight q.2) l2).
  { intros l1 l2 H. induction H; cbn; lia. }
  rewrite (Hp _ _ P1), (Hp _ _ P2). cbn. lia.
Qed.
Lemma phases_set j x p p' : j_phase j !! x = Some p ->
  (phases_weight (set_phase j x p') + phase_weight p = phases_weight j + phase_weight p')%nat.
Proof. intros E. exact (sum_phase _ _ _ p' E). Qed.

Lemma open_app l1 l2 : open_tickets (l1 ++ l2) = (open_tickets l1 + open_tickets l2)%nat.
Proof. unfold open_tickets. by rewrite List.filter_app, app_length. Qed.
Lemma open_new c ks : open_tickets (map (fun k => Ticket k c AWay None) ks) = length ks.
Proof. unfold open_tickets. induction ks as [|k ks IH]; cbn; [done|by f_equal]. Qed.
Lemma open_set (ts : list ticket) i t t' : ts !! i = Some t ->
  (open_tickets (<[i := t']> ts) + (if ended t then 0 else 1) = open_tickets ts + (if ended t' then 0 else 1))%nat.
Proof.
  intros E. destruct (ways_split _ _ _ E) as (l1 & l2 & E1 & _ & E2).
  rewrite E2, E1, !open_app. unfold open_tickets; cbn. destruct (ended t), (ended t'); cbn; lia.
Qed.
Lemma spread_weight j x c down l j' : Mesh_Proofs.wf (mesh_of j) -> (forall n, n ∈ l -> is_Some (j_nodes j !! n)) ->
  spread j x c down l = Some j' -> weight j' = weight j.
Proof.
  intros W Hl E. pose proof (spread_mesh _ _ _ _ _ _ E) as [Em Ep].
  pose proof (discover_missing _ _ _ _ _ W Hl Em) as Hm. cbn [mesh_of h_flight] in Hm.
  pose proof (spread_tickets _ _ _ _ _ _ E) as (ks & Et).
  unfold weight, phases_weight. rewrite Ep. rewrite Et in *. rewrite open_app, open_new, ways_app, ways_new, app_length in *. lia.
Qed.

Lemma weight_step j o j' : Mesh_Proofs.wf (mesh_of j) -> goes_on o = true -> jstep j o = Some j' -> (weight j' < weight j)%nat.
Proof.
  intros W Ho E.
  destruct o as [y seed|y ok|y [l|]|i l down|i|i|i|i|y|y z]; cbn [jstep] in E; try done.
  - destruct (j_phase j !! y) as [[s a| | |]|] eqn:Ep; try done. injection E as <-.
    pose proof (phases_set j y _ (lookup_phase s a ok) Ep) as Hp. unfold weight.
    change (mesh_of (set_phase j y (lookup_phase s a ok))) with (mesh_of j). cbn [set_phase j_tickets] in *.
    assert (phase_weight (lookup_phase s a ok) < phase_weight (PLook s a))%nat; [|lia].
    unfold lookup_phase. destruct (seed_attempts <=? a)%N eqn:El; cbn [phase_weight]; [lia|].
    apply N.leb_gt in El. destruct ok; cbn [phase_weight]; lia.
  - destruct (j_phase j !! y) as [[|s| |]|] eqn:Ep; try done. destruct (_ && _) eqn:Eb; [|done].
    pose proof (phases_set j y _ PWait Ep) as Hp. cbn [phase_weight] in Hp.
    apply andb_true_iff in Eb as [_ Eb]. rewrite forallb_forall in Eb.
    assert (weight j' = weight (set_phase j y PWait)) as ->.
    2: { unfold weight. change (mesh_of (set_phase j y PWait)) with (mesh_of j). cbn [set_phase j_tickets] in *. lia. }
    refine (spread_weight (set_phase j y PWait) _ _ _ _ _ W _ E).
    intros n Hn. apply elem_of_list_In, Eb, bool_decide_eq_true in Hn. done.
  - destruct (j_phase j !! y) as [[|s| |]|] eqn:Ep; try done. injection E as <-.
    pose proof (phases_set j y _ (PBack OUnknown) Ep) as Hp. cbn [phase_weight] in Hp. unfold weight.
    change (mesh_of (set_phase j y (PBack OUnknown))) with (mesh_of j). cbn [set_phase j_tickets] in *. lia.
  - destruct (j_tickets j !! i) as [t|] eqn:Et; [|done]. cbn [mbind option_bind] in E.
    destruct (t_arr t) eqn:Ea; try done. destruct (bool_decide _) eqn:Eb; [|done]. apply bool_decide_eq_true in Eb.
    set (t' := Ticket (t_shake t) (t_cause t) AHandled (t_end t)) in *.
    destruct (ways_handled (j_tickets j) i t t' Et) as (p & Ep & Ed); [by unfold way; rewrite Ea|done|].
    pose proof (open_set _ _ _ t' Et) as Hop.
    assert (Hw : forall k, k ∈ ways (<[i:=t']> (j_tickets j)) -> k ∈ ways (j_tickets j)).
    { intros k. rewrite Ed. apply elem_of_delete_list. }
    assert (weight j' = weight (set_ticket j i t')) as ->.
    2: { unfold weight, phases_weight, missing. cbn [set_ticket mesh_of j_nodes j_tickets j_phase h_nodes].
      assert (ended t' = ended t) as He by done. rewrite He in Hop.
      assert (length (ways (<[i:=t']> (j_tickets j))) < length (ways (j_tickets j)))%nat; [|destruct (ended t); lia].
      rewrite Ed, length_delete by eauto. apply lookup_lt_Some in Ep. lia. }
    refine (spread_weight _ _ _ _ _ _ _ _ E).
    + destruct W as [W1 W2]. split; cbn [mesh_of set_ticket j_nodes j_tickets h_nodes h_flight]; [done|]. intros k z Hk. by apply W2, Hw.
    + intros n Hn. destruct W as [_ W2]. apply (W2 (t_shake t)); [by eapply elem_of_list_lookup_2|]. right.
      assert (n ∈ (list_to_set l : gset N)) as Hn' by by apply elem_of_list_to_set.
      rewrite Eb in Hn'. set_solver.
  - destruct (j_tickets j !! i) as [t|] eqn:Et; [|done]. cbn [mbind option_bind] in E.
    destruct (t_arr t) eqn:Ea; try done. destruct (t_end t) eqn:Ee; [done|].
    destruct (through j (CShake i)); [|done]. injection E as <-.
    set (t' := Ticket _ _ _ _). pose proof (open_set _ _ _ t' Et) as Hop. unfold ended in Hop. rewrite Ee in Hop. cbn in Hop.
    unfold weight, phases_weight, missing. cbn [set_ticket mesh_of j_nodes j_tickets j_phase h_nodes].
    rewrite (ways_same _ _ _ t' Et); [lia|unfold way; by rewrite Ea|done].
  - destruct (j_tickets j !! i) as [t|] eqn:Et; [|done]. cbn [mbind option_bind] in E.
    destruct (t_end t) eqn:Ee; [done|]. injection E as <-.
    set (t' := Ticket _ _ _ _). pose proof (open_set _ _ _ t' Et) as Hop. unfold ended in Hop. rewrite Ee in Hop. cbn in Hop.
    unfold weight, phases_weight, missing. cbn [set_ticket mesh_of j_nodes j_tickets j_phase h_nodes].
    rewrite (ways_same _ _ _ t' Et); [lia|done|done].
  - destruct (j_phase j !! y) as [[| | |]|] eqn:Ep; try done. destruct (through _ _); [|done]. injection E as <-.
    pose proof (phases_set j y _ (PBack ODone) Ep) as Hp. cbn [phase_weight] in Hp. unfold weight.
    change (mesh_of (set_phase j y (PBack ODone))) with (mesh_of j). cbn [set_phase j_tickets] in *. lia.
Qed.

(** What every reachable state satisfies. *)
Record reach (j : jstate) : Prop := { re_tree : tree j; re_dom : dom_ok j; re_wf : Mesh_Proofs.wf (mesh_of j) }.
Lemma reach_step j o j' : reach j -> jstep j o = Some j' -> reach j'.
Proof.
  intros [T D W] E. destruct (tree_step _ _ _ D T E) as [T' D']. constructor; [done|done|].
  destruct (step_mesh _ _ _ E) as (ml & R & _). by eapply wf_runs.
Qed.
Lemma reach_runs j ops j' : reach j -> jruns j ops = Some j' -> reach j'.
Proof.
  revert j. induction ops as [|o ops IH]; intros j R E; cbn [jruns] in E; [by injection E as <-|].
  destruct (jstep j o) as [j1|] eqn:E1; [|done]. cbn [mbind option_bind] in E.
  refine (IH j1 _ E). by eapply reach_step.
Qed.
Lemma reach_init : reach join_init.
Proof. constructor; [apply tree_init|apply tree_init|exact wf_init]. Qed.

Lemma goes_on_length j ops j' : reach j -> forallb goes_on ops = true -> jruns j ops = Some j' ->
  (length ops + weight j' <= weight j)%nat.
Proof.
  revert j. induction ops as [|o ops IH]; intros j R Ho E; cbn [jruns] in E; [by injection E as <-|].
  cbn [forallb] in Ho. apply andb_true_iff in Ho as [H1 H2].
  destruct (jstep j o) as [j1|] eqn:E1; [|done]. cbn [mbind option_bind] in E.
  pose proof (weight_step _ _ _ (re_wf _ R) H1 E1). pose proof (IH j1 (reach_step _ _ _ R E1) H2 E). cbn [length]. lia.
Qed.

(** The last handshake that is not over. *)
Lemma last_open (ts : list ticket) : (exists k t, ts !! k = Some t /\ ended t = false) ->
  exists k t, ts !! k = Some t /\ ended t = false /\ forall k' t', (k < k')%nat -> ts !! k' = Some t' -> ended t' = true.
Proof.
  induction ts as [|t ts IH] using rev_ind; [intros (k & t & E & _); by rewrite lookup_nil in E|].
  intros (k & u & E & He). destruct (ended t) eqn:Et.
  - destruct IH as (k1 & t1 & E1 & He1 & Hl).
    + apply lookup_app_Some in E as [E|[_ E]]; [eauto|]. apply list_lookup_singleton_Some in E as [_ <-]. congruence.
    + exists k1, t1. split_and!; [by apply lookup_app_l_Some|done|].
      intros k' t' Hk E'. apply lookup_app_Some in E' as [E'|[_ E']]; [by eapply Hl|].
      apply list_lookup_singleton_Some in E' as [_ <-]. done.
  - exists (length ts), t. split_and!; [by apply list_lookup_middle|done|].
    intros k' t' Hk E'. apply lookup_lt_Some in E'. rewrite app_length in E'. cbn in E'. lia.
Qed.

Lemma goes_on_enabled j x : reach j -> is_Some (j_phase j !! x) -> ~ returned j x ->
  exists o j', goes_on o = true /\ harmless j o /\ jstep j o = Some j'.
Proof.
  intros [T D W] [p Ep] Hn. destruct p as [s a|s| |r]; [| | |by destruct Hn; exists r].
  - exists (JLookup x true). eexists. cbn [jstep]. rewrite Ep. done.
  - destruct (j_nodes j !! s) as [ms|] eqn:Es.
    + exists (JAsk x (Some [s])). cbn [jstep]. rewrite Ep. cbn [forallb].
      rewrite !bool_decide_eq_true_2 by (set_solver || rewrite Es; eauto). cbn [andb].
      unfold spread. cbn [set_phase j_nodes]. destruct (proj2 (D x)) as [m Em]; [by eauto|]. rewrite Em. cbn [mbind option_bind].
      destruct (meet_nodes _ _ _ _ _). eexists. done.
    + exists (JAsk x None). eexists. cbn [jstep]. rewrite Ep. split_and!; [done| |done]. exists s. done.
  - destruct (through j (CStart x)) eqn:Eth.
    + exists (JReturn x). eexists. cbn [jstep]. rewrite Ep, Eth. done.
    + destruct (last_open (j_tickets j)) as (k & t & Ek & He & Hl).
      { destruct (forallb ended (j_tickets j)) eqn:Ef.
        - exfalso. assert (through j (CStart x) = true); [|congruence]. apply through_spec. intros k t Ek _.
          rewrite forallb_forall in Ef. by apply Ef, elem_of_list_In, (elem_of_list_lookup_2 _ k).
        - clear - Ef. induction (j_tickets j) as [|t ts IH]; [done|]. cbn in Ef. destruct (ended t) eqn:Et.
          + destruct IH as (k & u & Eu & Hu); [done|]. by exists (S k), u.
          + by exists 0%nat, t. }
      assert (Hend : t_end t = None) by (unfold ended in He; by destruct (t_end t)).
      destruct (t_arr t) eqn:Ea.
      * exists (JHandle k (elements (k_nodes (t_shake t) ∖ {[ k_to (t_shake t) ]})) []).
        cbn [jstep]. rewrite Ek. cbn [mbind option_bind]. rewrite Ea.
        rewrite list_to_set_elements_L, bool_decide_eq_true_2 by done.
        unfold spread. cbn [set_ticket j_nodes].
        destruct W as [_ W2]. destruct (W2 (t_shake t) (k_to (t_shake t))) as [m Em]; [|by left|].
        { cbn [mesh_of h_flight]. destruct (ways_handled (j_tickets j) k t (Ticket (t_shake t) (t_cause t) AHandled None) Ek) as (p & Ep' & _);
            [by unfold way; rewrite Ea|done|]. by eapply elem_of_list_lookup_2. }
        cbn [mesh_of h_nodes] in Em. rewrite Em. cbn [mbind option_bind]. destruct (meet_nodes _ _ _ _ _). eexists. done.
      * exists (JAck k). cbn [jstep]. rewrite Ek. cbn [mbind option_bind]. rewrite Ea, Hend.
        assert (through j (CShake k) = true) as ->; [|eexists; done].
        apply through_spec. intros k' t' Ek' Ec. apply (Hl k' t'); [|done].
        destruct T as [T1 _ _]. apply T1 in Ek'. unfold tail_ok in Ek'. rewrite Ec in Ek'. by destruct Ek'.
      * exists (JGiveUp k). cbn [jstep]. rewrite Ek. cbn [mbind option_bind]. rewrite Hend. eexists. split_and!; [done| |done].
        exists t. done.
Qed.

Lemma phases_done j : reach j -> {forall x, is_Some (j_phase j !! x) -> returned j x} + {exists x, is_Some (j_phase j !! x) /\ ~ returned j x}.
Proof.
  intros _.
  destruct (decide (map_Forall (fun _ p => match p with PBack _ => true | _ => false end = true) (j_phase j))) as [H|H].
  - left. intros x [p Ep]. pose proof (H x p Ep) as Hp. cbn in Hp. destruct p as [| | |r]; try done. by exists r.
  - right. apply map_not_Forall in H as (x & p & Ep & Hp); [|intros; apply _]. exists x. split; [by eauto|].
    intros (r & Er). rewrite Ep in Er. by injection Er as ->.
Qed.

Lemma all_return j : reach j -> exists ops j', forallb goes_on ops = true /\ patient j ops /\ jruns j ops = Some j' /\
  (forall x, is_Some (j_phase j' !! x) -> returned j' x).
Proof.
  remember (weight j) as n eqn:En. revert j En. induction n as [n IH] using (well_founded_induction lt_wf). intros j En R.
  destruct (phases_done j R) as [H|(x & Hx & Hn)].
  - exists [], j. done.
  - destruct (goes_on_enabled j x R Hx Hn) as (o & j1 & Ho & Hh & E1).
    pose proof (weight_step _ _ _ (re_wf _ R) Ho E1) as Hw.
    destruct (IH (weight j1)) with j1 as (ops & j' & H1 & H2 & H3 & H4); [lia|done|by eapply reach_step|].
    exists (o :: ops), j'. split_and!; [cbn [forallb]; by rewrite Ho| |cbn [jruns]; by rewrite E1|done].
    cbn [patient]. split; [done|]. by rewrite E1.
Qed.

Lemma filter_le {A} (f : A -> bool) (l : list A) : (length (List.filter f l) <= length l)%nat.
Proof. induction l as [|a l IH]; cbn [List.filter length]; [lia|]. destruct (f a); cbn [length]; lia. Qed.

Lemma weight_bound j : reach j ->
  (weight j <= 2 * (size (j_nodes j) * size (j_nodes j)) + 2 * length (j_tickets j) + 15 * size (j_nodes j))%nat.
Proof.
  intros [_ D _]. unfold weight. pose proof (missing_bound (mesh_of j)) as Hm. cbn [mesh_of h_nodes] in Hm.
  assert (length (ways (j_tickets j)) <= length (j_tickets j))%nat as H1.
  { unfold ways. rewrite map_length. apply filter_le. }
  assert (open_tickets (j_tickets j) <= length (j_tickets j))%nat as H2.
  { apply filter_le. }
  assert (phases_weight j <= 15 * size (j_nodes j))%nat as H3; [|lia].
  assert (size (j_nodes j) = size (j_phase j)) as ->.
  { rewrite <- !size_dom. f_equal. apply set_eq. intros x. rewrite !elem_of_dom. apply D. }
  unfold phases_weight. assert (forall l, (sum_list_with (fun q : N * phase => phase_weight q.2) l <= 15 * length l)%nat) as H.
  { intros l. induction l as [|[y q] l IH]; cbn [sum_list_with length snd]; [lia|].
    assert (phase_weight q <= 15)%nat as Hq by (unfold phase_weight; destruct q; cbn; lia). lia. }
  exact (H (map_to_list (j_phase j))).
Qed.

Lemma phase_kept j o j' x : jstep j o = Some j' -> is_Some (j_phase j !! x) -> is_Some (j_phase j' !! x).
Proof.
  intros E Hx.
  assert (Hins : forall y p, is_Some (<[y := p]> (j_phase j) !! x)).
  { intros y p. destruct (decide (y = x)) as [->|Hy]; [rewrite lookup_insert; by eauto|by rewrite lookup_insert_ne]. }
  destruct o as [y seed|y ok|y [l|]|i l down|i|i|i|i|y|y z]; cbn [jstep] in E.
  - destruct (j_nodes j !! y); [done|]. injection E as <-. apply Hins.
  - destruct (j_phase j !! y) as [[]|]; try done. injection E as <-. apply Hins.
  - destruct (j_phase j !! y) as [[]|]; try done. destruct (_ && _); [|done].
    apply spread_mesh in E as [_ ->]. apply Hins.
  - destruct (j_phase j !! y) as [[]|]; try done. injection E as <-. apply Hins.
  - destruct (j_tickets j !! i) as [t0|] eqn:Et; [|done]. cbn [mbind option_bind] in E.
    destruct (t_arr t0); try done. destruct (bool_decide _); [|done]. by apply spread_mesh in E as [_ ->].
  - destruct (j_tickets j !! i) as [t0|] eqn:Et; [|done]. cbn [mbind option_bind] in E.
    destruct (t_arr t0), (t_end t0), (through j (CShake i)); try done. by injection E as <-.
  - destruct (j_tickets j !! i) as [t0|] eqn:Et; [|done]. cbn [mbind option_bind] in E.
    destruct (t_end t0) as [[]|]; try done.
    destruct (j_nodes j !! _) as [m|]; [|done]. cbn [mbind option_bind] in E. by injection E as <-.
  - destruct (j_tickets j !! i) as [t0|] eqn:Et; [|done]. cbn [mbind option_bind] in E.
    destruct (t_end t0); [done|]. by injection E as <-.
  - destruct (j_tickets j !! i) as [t0|] eqn:Et; [|done]. cbn [mbind option_bind] in E.
    destruct (t_arr t0); try done. by injection E as <-.
  - destruct (j_phase j !! y) as [[]|]; try done. destruct (through _ _); [|done]. injection E as <-. apply Hins.
  - destruct (j_nodes j !! y) as [m|]; [|done]. cbn [mbind option_bind] in E. by injection E as <-.
Qed.
Lemma phase_kept_runs j ops j' x : jruns j ops = Some j' -> is_Some (j_phase j !! x) -> is_Some (j_phase j' !! x).
Proof.
  revert j. induction ops as [|o ops IH]; intros j E Hx; cbn [jruns] in E; [by injection E as <-|].
  destruct (jstep j o) as [j1|] eqn:E1; [|done]. cbn [mbind option_bind] in E.
  apply (IH j1 E). by eapply phase_kept.
Qed.

Lemma lookups_fail j x s a n : j_phase j !! x = Some (PLook s a) -> (N.to_nat a + n <= 12)%nat ->
  exists j', jruns j (repeat (JLookup x false) n) = Some j' /\ j_phase j' !! x = Some (PLook s (a + N.of_nat n)).
Proof.
  revert j a. induction n as [|n IH]; intros j a Ep Hn.
  - exists j. split; [done|]. by rewrite N.add_0_r.
  - cbn [repeat jruns jstep]. rewrite Ep. cbn [mbind option_bind].
    unfold lookup_phase. assert (seed_attempts <=? a = false)%N as -> by (apply N.leb_gt; unfold seed_attempts; lia).
    destruct (IH (set_phase j x (PLook s (a + 1))) (a + 1)%N) as (j' & E' & Ep'); [by unfold set_phase; cbn [j_phase]; rewrite lookup_insert|lia|].
    exists j'. split; [done|]. rewrite Ep'. do 2 f_equal. lia.
Qed.
Lemma lookups j x s n : j_phase j !! x = Some (PLook s 1) -> (n <= 11)%nat ->
  exists j', jruns j (repeat (JLookup x false) n ++ [JLookup x true]) = Some j' /\
    j_phase j' !! x = Some (if (n <? 11)%nat then PAsk s else PBack OUnresolved).
Proof.
  intros Ep Hn. destruct (lookups_fail j x s 1 n Ep) as (j1 & E1 & Ep1); [lia|].
  eexists. rewrite jruns_snoc, E1. cbn [mbind option_bind jstep]. rewrite Ep1. split; [reflexivity|].
  unfold set_phase. cbn [j_phase]. rewrite lookup_insert. f_equal. unfold lookup_phase, seed_attempts.
  destruct (n <? 11)%nat eqn:El.
  - apply Nat.ltb_lt in El. assert ((12 <=? 1 + N.of_nat n)%N = false) as -> by (apply N.leb_gt; lia). done.
  - apply Nat.ltb_ge in El. assert ((12 <=? 1 + N.of_nat n)%N = true) as -> by (apply N.leb_le; lia). done.
Qed.
