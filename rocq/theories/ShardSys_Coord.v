(** What a step of the coordinator means for one shard. *)
From Verif Require Import Coord_Model Coord_Spec Coord_Proofs.
Local Open Scope N_scope.

Inductive cev := EvTell (owner : N) (targets : list N) | EvStop (n : N).
Definition cev_of (s : N) (e : ceffect) : option cev :=
  match e with
  | CTell s' o ts => if s' =? s then Some (EvTell o ts) else None
  | CStop s' n => if s' =? s then Some (EvStop n) else None
  | _ => None
  end.
Definition cevs (s : N) (eff : list ceffect) : list cev := omap (cev_of s) eff.

Lemma cevs_app s e1 e2 : cevs s (e1 ++ e2) = cevs s e1 ++ cevs s e2.
Proof. apply omap_app. Qed.

(** The shard goes from no owner to an owner, who is told, or nothing happens. *)
Definition gains (s : N) (o o' : option N) (e : list cev) : Prop :=
  (o' = None /\ e = []) \/ exists m ts, o' = Some m /\ e = [EvTell m ts].

Lemma allocate_view ord c s : c_shards c !! s = None -> (forall n h, c_hosts c !! n = Some h -> s ∉ h_shards h) ->
  gains s None (c_shards (allocate_shard ord c s).1.1 !! s) (cevs s (allocate_shard ord c s).2) /\
  forall s', s' <> s -> c_shards (allocate_shard ord c s).1.1 !! s' = c_shards c !! s' /\ cevs s' (allocate_shard ord c s).2 = [].
Proof.
  intros Hs Hn. destruct (allocate_vacant ord c s Hs) as [[-> _]|(n & h & rest & Hh & _ & _ & _ & _ & ->)]; simpl.
  - split; [left; done|done].
  - rewrite decide_False by eauto. split.
    + right. exists n, (n :: rest). rewrite lookup_insert. simpl. by rewrite N.eqb_refl.
    + intros s' Hne. rewrite lookup_insert_ne by done. simpl. by rewrite (proj2 (N.eqb_neq s s')) by done.
Qed.

Lemma consistent_fresh c s : consistent c -> c_shards c !! s = None -> forall n h, c_hosts c !! n = Some h -> s ∉ h_shards h.
Proof. intros Hc Hs n h Hh Hin. assert (c_shards c !! s = Some n) by (apply Hc; eauto). congruence. Qed.

Lemma reallocate_view ord l : forall c, NoDup l -> semi l c -> forall s,
  (s ∉ l -> c_shards (reallocate ord c l).1 !! s = c_shards c !! s /\ cevs s (reallocate ord c l).2 = []) /\
  (s ∈ l -> gains s None (c_shards (reallocate ord c l).1 !! s) (cevs s (reallocate ord c l).2)).
Proof.
  induction l as [|x l IH]; intros c Hnd Hsemi s; simpl.
  - split; [done|by intros ?%elem_of_nil].
  - apply NoDup_cons in Hnd as [Hx Hnd]. set (d := Coord (c_self c) (c_hosts c) (delete x (c_shards c))).
    assert (Hd : semi l d).
    { destruct Hsemi as [H1 H2]. split.
      - intros s' n Hl. unfold d. simpl. destruct (decide (s' = x)) as [->|Hne].
        + rewrite lookup_delete. split; [done|]. intros (h & Hh & Hin). exfalso. eapply H2; [constructor|exact Hh|exact Hin].
        + rewrite lookup_delete_ne by done. apply H1. by intros [|]%elem_of_cons.
      - intros s' n h Hl. apply H2. by constructor. }
    assert (Hdx : c_shards d !! x = None) by apply lookup_delete.
    pose proof (allocate_semi ord d x l Hd Hdx Hx) as Hsemi'.
    destruct (allocate_view ord d x Hdx) as [V1 V2].
    { intros n h Hh Hin. destruct Hsemi as [_ H2]. eapply H2; [constructor|exact Hh|exact Hin]. }
    destruct (allocate_shard ord d x) as [[c1 r] eff]. cbn [fst snd] in *.
    destruct (IH c1 Hnd Hsemi' s) as [I1 I2]. destruct (reallocate ord c1 l) as [c2 eff']. cbn [fst snd] in *.
    rewrite cevs_app. split.
    + intros Hs. destruct I1 as [E1 E2]; [intros ?; apply Hs; by constructor|].
      assert (s <> x) by (intros ->; apply Hs; constructor). destruct (V2 s) as [E3 E4]; [done|].
      rewrite E1, E2, E3, E4. split; [|done]. unfold d. simpl. by rewrite lookup_delete_ne.
    + intros [->|Hl]%elem_of_cons.
      * destruct I1 as [E1 E2]; [done|]. by rewrite E1, E2, app_nil_r.
      * destruct (V2 s) as [E3 E4]; [congruence|]. rewrite E4. by apply I2.
Qed.

Lemma rebalance_view ord l c : consistent c -> forall s c' eff, rebalance_shards ord c l = Some (c', eff) ->
  (c_shards c' !! s = c_shards c !! s /\ cevs s eff = []) \/
  (exists n, c_shards c !! s = Some n /\ c_shards c' !! s = None /\ cevs s eff = [EvStop n]).
Proof.
  intros Hc s c' eff E. destruct (rebalance_shards_spec ord l c Hc) as (c1 & e1 & E1 & _ & _ & I2 & _ & I4 & I5 & I6 & _).
  rewrite E in E1. injection E1 as <- <-.
  assert (Hev : cevs s eff = omap (fun x => if x.1 =? s then Some (EvStop x.2) else None) (stops eff)).
  { clear -I6. induction eff as [|e eff IH]; [done|]. destruct e; simpl in *; try (by apply IH); [done|].
    destruct (s0 =? s); [f_equal|]; by apply IH. }
  destruct (c_shards c !! s) as [n|] eqn:Es.
  - rewrite (I2 s). destruct (decide (s ∈ l)) as [Hl|Hl].
    + right. exists n. split_and!; try done. rewrite Hev.
      assert (Hin : (s, n) ∈ stops eff) by (apply I4; done).
      assert (Hun : forall x, x ∈ stops eff -> x.1 = s -> x = (s, n)).
      { intros [s1 n1] H1 Hs1. simpl in Hs1. subst s1. apply I4 in H1 as [_ H1]. congruence. }
      clear -Hin Hun I5. induction (stops eff) as [|x t IH]; [by apply elem_of_nil in Hin|].
      apply NoDup_cons in I5 as [Hx Hnd]. apply elem_of_cons in Hin as [<-|Hin].
      * simpl. rewrite N.eqb_refl. f_equal.
        assert (Hall : forall x, x ∈ t -> x.1 <> s). { intros x Hin' Hs. rewrite (Hun x) in Hin' by (done || by constructor). done. }
        clear -Hall. induction t as [|y t IH]; [done|]. simpl. rewrite (proj2 (N.eqb_neq _ _) (Hall y ltac:(constructor))).
        apply IH. intros x Hx. apply Hall. by constructor.
      * simpl. destruct (N.eqb_spec x.1 s) as [Hs|Hs].
        -- rewrite (Hun x) in Hx by (done || constructor). done.
        -- apply IH; try done. intros y Hy. apply Hun. by constructor.
    + left. rewrite Es. split; [done|]. rewrite Hev.
      assert (Hno : forall x, x ∈ stops eff -> x.1 <> s). { intros [s1 n1] [H1 _]%I4 ?. simpl in *. by subst. }
      clear -Hno. induction (stops eff) as [|y t IH]; [done|]. simpl. rewrite (proj2 (N.eqb_neq _ _) (Hno y ltac:(constructor))).
      apply IH. intros x Hx. apply Hno. by constructor.
  - left. rewrite (I2 s), Es. split; [by destruct (decide (s ∈ l))|]. rewrite Hev.
    assert (Hno : forall x, x ∈ stops eff -> x.1 <> s). { intros [s1 n1] [_ H1]%I4 ?. simpl in *. subst. congruence. }
    clear -Hno. induction (stops eff) as [|y t IH]; [done|]. simpl. rewrite (proj2 (N.eqb_neq _ _) (Hno y ltac:(constructor))).
    apply IH. intros x Hx. apply Hno. by constructor.
Qed.

(** The four things that can happen to a shard. *)
Definition cview (o : cop) (s : N) (ow ow' : option N) (e : list cev) : Prop :=
  (ow' = ow /\ e = []) \/
  (exists n, ow = Some n /\ ow' = None /\ e = [EvStop n] /\ match o with CORebalanceAll _ _ | CORebalanceShards _ _ => True | _ => False end) \/
  (exists m ts, ow = None /\ ow' = Some m /\ e = [EvTell m ts] /\
                match o with COAllocate s' _ _ _ | CORecover s' _ => s' = s | _ => False end) \/
  (exists n ord sord, o = CONodeUnavailable n ord sord /\ ow = Some n /\
     ((ow' = None /\ e = []) \/ exists m ts, ow' = Some m /\ e = [EvTell m ts])).

Lemma cstep_view c o c' eff s : cwf c -> cstep c o = Some (c', eff) ->
  cview o s (c_shards c !! s) (c_shards c' !! s) (cevs s eff).
Proof.
  intros [Hc Hself] E. unfold cview.
  assert (Hal : forall ord x c1 r e1, allocate_shard ord c x = (c1, r, e1) ->
     (c_shards c1 !! s = c_shards c !! s /\ cevs s e1 = []) \/
     (exists m ts, c_shards c !! s = None /\ c_shards c1 !! s = Some m /\ cevs s e1 = [EvTell m ts] /\ x = s)).
  { intros ord x c1 r e1 Ea. destruct (c_shards c !! x) as [k|] eqn:Ex.
    - unfold allocate_shard in Ea. rewrite Ex in Ea. injection Ea as <- <- <-. auto.
    - destruct (allocate_view ord c x Ex (consistent_fresh c x Hc Ex)) as [V1 V2]. rewrite Ea in *. cbn [fst snd] in *.
      destruct (decide (s = x)) as [->|Hne]; [|left; by apply V2].
      destruct V1 as [[-> ->]|(m & ts & -> & ->)]; [left; by rewrite Ex|]. right. eauto 8. }
  destruct o as [x rb p ord|ord sord|l ord|n ord sord|n|x ord]; cbn [cstep] in E.
  - unfold on_allocate in E. destruct (c_shards c !! x) as [k|] eqn:Ex; [injection E as <- <-; left; done|].
    destruct rb; [|destruct p; [|injection E as <- <-; left; done]];
      (destruct (allocate_shard ord c x) as [[c1 r] e1] eqn:Ea; injection E as <- <-; simpl;
       rewrite ?cevs_app; unfold cevs at 2 4; simpl; rewrite ?app_nil_r;
       destruct (Hal _ _ _ _ _ Ea) as [?|(m & ts & ? & ? & ? & ?)]; [left; done|right; right; left; exists m, ts; done]).
  - unfold rebalance_all in E. destruct (shards_to_rebalance ord sord c) as [l|]; [|done].
    destruct (rebalance_view ord l c Hc s _ _ E) as [?|(n & ? & ? & ?)]; [left; done|right; left; exists n; done].
  - destruct (rebalance_view ord l c Hc s _ _ E) as [?|(n & ? & ? & ?)]; [left; done|right; left; exists n; done].
  - injection E as E. unfold node_unavailable in E. destruct (c_hosts c !! n) as [h|] eqn:Hn; [|injection E as <- <-; left; done].
    set (d := Coord (c_self c) (<[n := CHost SUnavailable ∅]> (c_hosts c)) (c_shards c)) in *.
    assert (Hl : forall s, s ∈ arrange_set sord (h_shards h) <-> s ∈ h_shards h) by (intros; apply elem_of_arrange_set).
    assert (Hown : forall s, s ∈ arrange_set sord (h_shards h) <-> c_shards c !! s = Some n).
    { intros s'. rewrite Hl, (Hc s' n). split; [eauto|]. intros (h' & E' & Hin). congruence. }
    destruct (reallocate_view ord (arrange_set sord (h_shards h)) d (arrange_set_NoDup _ _) (unavailable_semi c n h _ Hc Hn Hl) s) as [V1 V2].
    rewrite E in *. cbn [fst snd] in *. destruct (decide (s ∈ arrange_set sord (h_shards h))) as [Hi|Hi].
    + right; right; right. exists n, ord, sord. split_and!; [done|by apply Hown|]. by apply V2.
    + left. by apply V1.
  - injection E as E. unfold node_discovered in E. left.
    destruct (c_hosts c !! n) as [h|]; [destruct (is_ready h)|]; injection E as <- <-; done.
  - destruct (allocate_shard ord c x) as [[c1 r] e1] eqn:Ea. injection E as <- <-.
    destruct (Hal _ _ _ _ _ Ea) as [?|(m & ts & ? & ? & ? & ?)]; [left; done|right; right; left; exists m, ts; done].
Qed.
