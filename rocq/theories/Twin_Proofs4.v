(** Proofs about several singletons of one actor type: one kind alone behaves as a singleton. *)
From Verif Require Import Twin_Spec Twin_Proofs Twin_Proofs2 Twin_Proofs3.

Local Open Scope N_scope.

Section twin.
Variable includes : N -> bool.
Variables (ns : list N) (k : N).
Notation step := (tstep includes).
Notation trun := (trun includes).

Definition agree (n : N) (x : snode) (o : option tslot) : Prop :=
  match o with
  | Some s => n_mgr x = t_mgr s /\ n_tasks x = t_tasks s /\ n_results x = t_results s /\ n_live x = t_live s
  | None => x = new_node n
  end.

(** Same nodes, same managers; and only kind [k] is there. *)
Definition nodes_agree (tn : gmap N tnode) (yn : gmap N snode) : Prop :=
  (forall n nd, tn !! n = Some nd -> exists x, yn !! n = Some x /\ agree n x (t_slots nd !! k)) /\
  (forall n, n ∈ ns -> is_Some (tn !! n)) /\
  (forall n nd k', tn !! n = Some nd -> is_Some (t_slots nd !! k') -> k' = k) /\
  (forall n nd k', tn !! n = Some nd -> t_mreg nd = Some k' -> is_Some (t_slots nd !! k')) /\
  (forall n nd, tn !! n = Some nd -> is_Some (t_slots nd !! k) -> t_mreg nd = Some k).

Definition sim (t : tsys) (y : ssys) : Prop :=
  y_net y = t_net t /\ y_next y = t_next t /\ nodes_agree (t_nodes t) (y_nodes y).

Lemma agree_put tn yn n nd nd' x' s' :
  nodes_agree tn yn -> tn !! n = Some nd -> is_Some (t_slots nd !! k) ->
  t_slots nd' = <[k := s']> (t_slots nd) -> t_mreg nd' = t_mreg nd -> agree n x' (Some s') ->
  nodes_agree (<[n := nd']> tn) (<[n := x']> yn).
Proof.
  intros (A1 & A2 & A3 & A4 & A5) Hn Hk Hsl Hmr Ha. split; [|split; [|split; [|split]]].
  - intros m nd1 H. destruct (decide (n = m)) as [<-|Hne].
    + rewrite lookup_insert in H. injection H as <-. exists x'. rewrite lookup_insert, Hsl, lookup_insert. done.
    + rewrite lookup_insert_ne in H by done. rewrite lookup_insert_ne by done. exact (A1 m nd1 H).
  - intros m Hm. destruct (decide (n = m)) as [<-|Hne]; [rewrite lookup_insert; eexists; done|].
    rewrite lookup_insert_ne by done. exact (A2 m Hm).
  - intros m nd1 k' H Hk'. destruct (decide (n = m)) as [<-|Hne].
    + rewrite lookup_insert in H. injection H as <-. rewrite Hsl in Hk'.
      destruct (decide (k' = k)) as [|Hkk]; [done|]. rewrite lookup_insert_ne in Hk' by done. exact (A3 n nd k' Hn Hk').
    + rewrite lookup_insert_ne in H by done. exact (A3 m nd1 k' H Hk').
  - intros m nd1 k' H Hk'. destruct (decide (n = m)) as [<-|Hne].
    + rewrite lookup_insert in H. injection H as <-. rewrite Hsl, Hmr in *.
      destruct (decide (k' = k)) as [->|Hkk]; [rewrite lookup_insert; eexists; done|].
      rewrite lookup_insert_ne by done. exact (A4 n nd k' Hn Hk').
    + rewrite lookup_insert_ne in H by done. exact (A4 m nd1 k' H Hk').
  - intros m nd1 H Hk'. destruct (decide (n = m)) as [<-|Hne].
    + rewrite lookup_insert in H. injection H as <-. rewrite Hmr. exact (A5 n nd Hn Hk).
    + rewrite lookup_insert_ne in H by done. exact (A5 m nd1 H Hk').
Qed.

(** Only the proxy's part of a kind changes. *)
Lemma agree_proxy tn yn n nd s s' :
  nodes_agree tn yn -> tn !! n = Some nd -> t_slots nd !! k = Some s ->
  t_mgr s' = t_mgr s -> t_tasks s' = t_tasks s -> t_results s' = t_results s -> t_live s' = t_live s ->
  nodes_agree (<[n := put_slot nd k s']> tn) yn.
Proof.
  intros A Hn Hs E1 E2 E3 E4. destruct A as (A1 & A2 & A3 & A4 & A5).
  destruct (A1 n nd Hn) as (x & Hx & Ha). rewrite Hs in Ha. cbn [agree] in Ha.
  rewrite <- (insert_id yn n x Hx).
  refine (agree_put tn yn n nd _ x s' (conj A1 (conj A2 (conj A3 (conj A4 A5)))) Hn _ _ _ _).
  - exists s. done.
  - done.
  - done.
  - cbn [agree]. destruct Ha as (? & ? & ? & ?). repeat split; congruence.
Qed.

Lemma sim_step t y o t' : sim t y -> step t o = Some t' -> one_kind k o ->
  exists l y', srun includes y l = Some y' /\ sim t' y'.
Proof.
  intros (Hnet & Hnext & A) Hs Ho. pose proof A as (A1 & A2 & A3 & A4 & A5).
  destruct o as [m k'|m k' i|j|j|m k' ok|m k' j|m k' a|m k' q b|m k'|m k' j|j|j]; cbn [tstep] in Hs;
    try (destruct (t_nodes t !! m) as [nd|] eqn:E; [|done]; cbn [mbind option_bind] in Hs);
    try (destruct (t_slots nd !! k') as [s|] eqn:Ex; [|done]; cbn [mbind option_bind] in Hs;
         assert (k' = k) as -> by (refine (A3 m nd k' E _); exists s; exact Ex);
         destruct (A1 m nd E) as (x & Hx & Ha); rewrite Ex in Ha; cbn [agree] in Ha; destruct Ha as (Ha1 & Ha2 & Ha3 & Ha4)).
  - (* start: nothing happens *)
    destruct (t_slots nd !! k') as [s|] eqn:Ex; [done|]. injection Hs as <-. cbn [one_kind] in Ho. subst k'.
    exists [], y. split; [done|]. split; [done|]. split; [done|]. cbn [put_node t_nodes].
    destruct (A1 m nd E) as (x & Hx & Ha). rewrite Ex in Ha. cbn [agree] in Ha. subst x.
    split; [|split; [|split; [|split]]].
    + intros n nd1 H. destruct (decide (m = n)) as [<-|Hne].
      * rewrite lookup_insert in H. injection H as <-. exists (new_node m). split; [done|]. cbn [t_slots]. rewrite lookup_insert. done.
      * rewrite lookup_insert_ne in H by done. exact (A1 n nd1 H).
    + intros n Hn. destruct (decide (m = n)) as [<-|Hne]; [rewrite lookup_insert; eexists; done|].
      rewrite lookup_insert_ne by done. exact (A2 n Hn).
    + intros n nd1 k' H Hk'. destruct (decide (m = n)) as [<-|Hne].
      * rewrite lookup_insert in H. injection H as <-. cbn [t_slots] in Hk'.
        destruct (decide (k' = k)) as [|Hkk]; [done|]. rewrite lookup_insert_ne in Hk' by done. exact (A3 m nd k' E Hk').
      * rewrite lookup_insert_ne in H by done. exact (A3 n nd1 k' H Hk').
    + intros n nd1 k' H Hk'. destruct (decide (m = n)) as [<-|Hne].
      * rewrite lookup_insert in H. injection H as <-. cbn [t_slots t_mreg] in *. injection Hk' as <-. rewrite lookup_insert. eexists. done.
      * rewrite lookup_insert_ne in H by done. exact (A4 n nd1 k' H Hk').
    + intros n nd1 H Hk'. destruct (decide (m = n)) as [<-|Hne].
      * rewrite lookup_insert in H. injection H as <-. done.
      * rewrite lookup_insert_ne in H by done. exact (A5 n nd1 H Hk').
  - (* an event *)
    destruct (is_event i) eqn:Ei; [|done]. destruct (thandle includes s i) as [s' out] eqn:Eh. injection Hs as <-.
    destruct (handle_thandle includes x s i s' out Ha1 Ha2 Ha3 Ha4 Eh) as (x' & Hh & Hb).
    exists [YEvent m i]. eexists. split.
    { cbn [srun sstep]. rewrite Hx. cbn [mbind option_bind]. rewrite Ei, Hh. reflexivity. }
    split; [cbn; rewrite Hnet; done|]. split; [done|]. cbn [add_net put_node t_nodes y_nodes].
    refine (agree_put _ _ m nd _ x' s' A E _ _ _ Hb); [exists s; done|done|done].
  - (* a message between managers *)
    destruct (t_net t !! j) as [p|] eqn:Ej; [|done]. cbn [mbind option_bind] in Hs.
    assert (Hlose : t' = del_net t j -> exists l y', srun includes y l = Some y' /\ sim t' y').
    { intros ->. exists [YLose j]. eexists. split.
      { cbn [srun sstep]. rewrite Hnet, Ej. reflexivity. }
      split; [cbn; rewrite ?Hnet; done|]. split; [done|]. exact A. }
    destruct (t_nodes t !! p.1) as [nd|] eqn:E; cbn [mbind option_bind] in Hs; [|injection Hs as <-; apply Hlose; done].
    destruct (t_mreg nd) as [k'|] eqn:Em; cbn [mbind option_bind] in Hs; [|injection Hs as <-; apply Hlose; done].
    destruct (t_slots nd !! k') as [s|] eqn:Ex; cbn [mbind option_bind] in Hs; [|injection Hs as <-; apply Hlose; done].
    assert (k' = k) as -> by (refine (A3 p.1 nd k' E _); exists s; exact Ex).
    destruct (A1 p.1 nd E) as (x & Hx & Ha). rewrite Ex in Ha. cbn [agree] in Ha. destruct Ha as (Ha1 & Ha2 & Ha3 & Ha4).
    destruct (thandle includes s (IMsg p.2)) as [s' out] eqn:Eh. injection Hs as <-.
    destruct (handle_thandle includes x s (IMsg p.2) s' out Ha1 Ha2 Ha3 Ha4 Eh) as (x' & Hh & Hb).
    exists [YDeliver j]. eexists. split.
    { cbn [srun sstep]. rewrite Hnet, Ej. cbn [mbind option_bind]. rewrite Hx, Hh. reflexivity. }
    split; [cbn; rewrite ?Hnet; done|]. split; [done|]. cbn [add_net put_node del_net t_nodes y_nodes].
    refine (agree_put _ _ p.1 nd _ x' s' A E _ _ _ Hb); [exists s; done|done|done].
  - destruct (t_net t !! j) as [p|] eqn:Ej; [|done]. injection Hs as <-.
    exists [YLose j]. eexists. split.
    { cbn [srun sstep]. rewrite Hnet, Ej. reflexivity. }
    split; [cbn; rewrite ?Hnet; done|]. split; [done|]. exact A.
  - (* a creation *)
    destruct (t_tasks s) as [|tk] eqn:Et; [done|]. injection Hs as <-.
    exists [YCreate m ok]. eexists. split.
    { cbn [srun sstep]. rewrite Hx. cbn [mbind option_bind]. rewrite Ha2. reflexivity. }
    destruct ok.
    + split; [cbn; rewrite ?Hnet; done|]. split; [cbn; rewrite ?Hnext; done|]. cbn [next_actor put_node t_nodes y_nodes mbind option_bind].
      eapply (agree_put _ _ m nd _ _ _ A E); [exists s; exact Ex|reflexivity|reflexivity|].
      cbn. rewrite Ha1, Ha3, Ha4, Hnext. done.
    + split; [cbn; rewrite ?Hnet; done|]. split; [done|]. cbn [put_node t_nodes y_nodes mbind option_bind].
      eapply (agree_put _ _ m nd _ _ _ A E); [exists s; exact Ex|reflexivity|reflexivity|].
      cbn. rewrite Ha1, Ha3, Ha4. done.
  - (* a result *)
    destruct (t_results s !! j) as [r|] eqn:Er; [|done]. cbn [mbind option_bind] in Hs.
    destruct (thandle includes _ _) as [s' out] eqn:Eh. injection Hs as <-.
    assert (Hb0 : exists x', handle includes (SNode (n_mgr x) (n_tasks x) (delete j (n_results x)) (n_live x) (n_proxy x)) (IResult r) = (x', out) /\
      n_mgr x' = t_mgr s' /\ n_tasks x' = t_tasks s' /\ n_results x' = t_results s' /\ n_live x' = t_live s').
    { eapply handle_thandle; [..|exact Eh]; cbn; [done|done|rewrite Ha3; done|done]. }
    destruct Hb0 as (x' & Hh & Hb).
    exists [YResult m j]. eexists. split.
    { cbn [srun sstep]. rewrite Hx. cbn [mbind option_bind]. rewrite Ha3, Er. cbn [mbind option_bind].
      rewrite Ha3 in Hh. rewrite Hh. reflexivity. }
    split; [cbn; rewrite Hnet; done|]. split; [done|]. cbn [add_net put_node t_nodes y_nodes].
    refine (agree_put _ _ m nd _ x' s' A E _ _ _ Hb); [exists s; done|done|done].
  - (* a stop *)
    destruct (decide (a ∈ t_live s)) as [Hin|]; [|done]. injection Hs as <-.
    exists [YStopped m a]. eexists. split.
    { cbn [srun sstep]. rewrite Hx. cbn [mbind option_bind]. rewrite decide_True by (rewrite Ha4; done). reflexivity. }
    split; [done|]. split; [done|]. cbn [put_node t_nodes y_nodes].
    eapply (agree_put _ _ m nd _ _ _ A E); [exists s; exact Ex|reflexivity|reflexivity|].
    cbn. rewrite Ha1, Ha2, Ha3, Ha4. done.
  - exists [], y. split; [done|]. destruct (t_px s) eqn:Ep; injection Hs as <-; [|split; [done|]; split; done].
    split; [done|]. split; [done|]. refine (agree_proxy _ _ m nd s _ A E Ex _ _ _ _); done.
  - exists [], y. split; [done|]. destruct (t_px s) as [px|]; [|done]. cbn [mbind option_bind] in Hs.
    destruct (t_box s); [done|]. destruct (pxstep _ _). injection Hs as <-.
    split; [done|]. split; [done|]. refine (agree_proxy _ _ m nd s _ A E Ex _ _ _ _); done.
  - exists [], y. split; [done|]. destruct (t_todo s !! j) as [[q r]|] eqn:Er; [|done]. cbn [mbind option_bind snd fst] in Hs. injection Hs as <-.
    destruct r as [a|m']; [destruct (decide (a ∈ t_live s))|];
      (split; [done|]; split; [done|]; refine (agree_proxy _ _ m nd s _ A E Ex _ _ _ _); done).
  - destruct (t_calls t !! j) as [[m [[n' k'] q]]|] eqn:Ej; [|done]. cbn [mbind option_bind] in Hs. injection Hs as <-.
    exists [], y. split; [done|].
    destruct (t_nodes t !! m) as [nd|]; cbn [mbind option_bind]; [|split; [done|]; split; done].
    destruct (t_areg nd) as [[k2 a]|]; (split; [done|]; split; done).
  - destruct (t_calls t !! j); [|done]. injection Hs as <-. exists [], y. split; [done|]. split; [done|]. split; done.
Qed.

Lemma srun_app y l l' : srun includes y (l ++ l') = y' ← srun includes y l; srun includes y' l'.
Proof.
  revert y. induction l as [|o l IH]; intros y; [done|].
  cbn. destruct (sstep includes y o) as [y1|]; cbn; [apply IH|done].
Qed.

Lemma alone l t : trun (tnew ns) l = Some t -> Forall (one_kind k) l ->
  exists l' y, srun includes (new_sys ns) l' = Some y /\ sim t y.
Proof.
  intros Hr. revert l t Hr.
  refine (trun_ind includes (fun l t => Forall (one_kind k) l -> exists l' y, srun includes (new_sys ns) l' = Some y /\ sim t y) _ _ _).
  - intros _. exists [], (new_sys ns). split; [done|]. split; [done|]. split; [done|].
    assert (Hnew : forall n nd, t_nodes (tnew ns) !! n = Some nd -> n ∈ ns /\ nd = TNode ∅ None None).
    { intros n nd H. unfold tnew in H. cbn [t_nodes] in H. apply elem_of_list_to_map_2 in H.
      apply elem_of_list_fmap in H as (m & [= -> ->] & Hm). done. }
    split; [|split; [|split; [|split]]].
    + intros n nd H. destruct (Hnew n nd H) as [Hn ->]. exists (new_node n). split; [|done].
      unfold new_sys. cbn [y_nodes].
      assert (Hin : (n, new_node n) ∈ ((fun n => (n, new_node n)) <$> ns)) by (apply elem_of_list_fmap; exists n; done).
      destruct (list_to_map ((fun n => (n, new_node n)) <$> ns) !! n) as [z|] eqn:Ez.
      * apply elem_of_list_to_map_2, elem_of_list_fmap in Ez as (m & [= -> ->] & _). done.
      * exfalso. apply not_elem_of_list_to_map in Ez. apply Ez. apply elem_of_list_fmap. exists (n, new_node n). done.
    + intros n Hn. unfold tnew. cbn [t_nodes].
      destruct (list_to_map ((fun n => (n, TNode ∅ None None)) <$> ns) !! n) as [z|] eqn:Ez; [eexists; done|].
      exfalso. apply not_elem_of_list_to_map in Ez. apply Ez. apply elem_of_list_fmap. exists (n, TNode ∅ None None).
      split; [done|]. apply elem_of_list_fmap. exists n. done.
    + intros n nd k' H Hk. destruct (Hnew n nd H) as [_ ->]. destruct Hk as [z Hz]. cbn [t_slots] in Hz. rewrite lookup_empty in Hz. done.
    + intros n nd k' H Hk. destruct (Hnew n nd H) as [_ ->]. done.
    + intros n nd H Hk. destruct (Hnew n nd H) as [_ ->]. destruct Hk as [z Hz]. cbn [t_slots] in Hz. rewrite lookup_empty in Hz. done.
  - intros l t o t' Hr IH Hs Hall. apply Forall_app in Hall as [Ha1 Ha2]. destruct (IH Ha1) as (l1 & y1 & Hy1 & Hsim).
    rewrite Forall_singleton in Ha2. destruct (sim_step t y1 o t' Hsim Hs Ha2) as (l2 & y2 & Hy2 & Hsim2).
    exists (l1 ++ l2), y2. split; [|done]. rewrite srun_app, Hy1. exact Hy2.
Qed.

Lemma sim_same t y : sim t y -> same_singleton ns k t y.
Proof.
  intros (H1 & H2 & A1 & A2 & _). split; [done|]. split; [done|]. intros n Hn. destruct (A2 n Hn) as [nd Hnd].
  destruct (A1 n nd Hnd) as (x & Hx & Ha). exists x. split; [done|]. rewrite (slot_of_node t n nd k Hnd).
  destruct (t_slots nd !! k); exact Ha.
Qed.
End twin.
