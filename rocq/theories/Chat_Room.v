(** Proofs about the chat: members of rooms. *)
From Verif Require Import Chat_Model Chat_Spec Chat_Proofs Chat_Live.

(** ** Who is subscribed *)
Record active (w : world) : Prop := {
  ac_live : forall k s, w_subs w !! k = Some s -> s_live s = true ->
    exists p, w_peers w !! s_peer s = Some p /\ p_alive p = true /\
      (p_in p !! s_room s = Some k \/ exists h, p_do p = Subscribed (s_room s) h k);
  ac_in : forall i p r k, w_peers w !! i = Some p -> p_in p !! r = Some k ->
    exists s, w_subs w !! k = Some s /\ s_peer s = i /\ s_room s = r;
  ac_do : forall i p r h k, w_peers w !! i = Some p -> p_do p = Subscribed r h k ->
    exists s, w_subs w !! k = Some s /\ s_peer s = i /\ s_room s = r;
  ac_busy : forall i p, w_peers w !! i = Some p -> p_do p <> Idle -> p_alive p = true
}.

Definition subs_less (m m' : gmap N csub) : Prop :=
  (forall k s', m' !! k = Some s' -> exists s, m !! k = Some s /\ s_peer s' = s_peer s /\ s_room s' = s_room s /\ (s_live s' = true -> s_live s = true)) /\
  (forall k s, m !! k = Some s -> exists s', m' !! k = Some s' /\ s_peer s' = s_peer s /\ s_room s' = s_room s).
Lemma subs_less_refl m : subs_less m m.
Proof. split; intros k s ?; exists s; done. Qed.
Lemma subs_less_ended m k0 : subs_less m (alter ended k0 m).
Proof.
  split; intros k s; destruct (decide (k = k0)) as [->|Hne].
  - rewrite lookup_alter. intros (s0 & Es & ->)%fmap_Some. by exists s0.
  - rewrite lookup_alter_ne by done. eauto 10.
  - rewrite lookup_alter. intros ->. cbn. by eexists.
  - rewrite lookup_alter_ne by done. eauto.
Qed.
Lemma subs_less_died m i : subs_less m ((fun s => if (s_peer s =? i)%N then ended s else s) <$> m).
Proof.
  split; intros k s; rewrite lookup_fmap.
  - intros (s0 & Es & ->)%fmap_Some. exists s0. split; [done|]. case_match; cbn; done.
  - intros ->. cbn. eexists. split; [done|]. by case_match.
Qed.
Lemma subs_less_next m k0 s0 s1 : m !! k0 = Some s0 -> s_peer s1 = s_peer s0 -> s_room s1 = s_room s0 -> s_live s0 = true -> subs_less m (<[k0 := s1]> m).
Proof.
  intros H0 H1 H2 H3. split; intros k s; destruct (decide (k = k0)) as [->|Hne].
  - rewrite lookup_insert. intros [= <-]. exists s0. done.
  - rewrite lookup_insert_ne by done. eauto 10.
  - rewrite H0, lookup_insert. intros [= <-]. eauto.
  - rewrite lookup_insert_ne by done. eauto.
Qed.

(** One peer changes. *)
Lemma active_peer w w' i p' : active w -> w_peers w' = <[i := p']> (w_peers w) -> subs_less (w_subs w) (w_subs w') ->
  (forall k s, w_subs w' !! k = Some s -> s_live s = true -> s_peer s = i ->
     p_alive p' = true /\ (p_in p' !! s_room s = Some k \/ exists h, p_do p' = Subscribed (s_room s) h k)) ->
  (forall r k, p_in p' !! r = Some k -> exists s, w_subs w !! k = Some s /\ s_peer s = i /\ s_room s = r) ->
  (forall r h k, p_do p' = Subscribed r h k -> exists s, w_subs w !! k = Some s /\ s_peer s = i /\ s_room s = r) ->
  (p_do p' <> Idle -> p_alive p' = true) -> active w'.
Proof.
  intros [A1 A2 A3 A4] Hw [L1 L2] Hlive Hin Hdo Hbusy.
  assert (Hfw : forall k i r, (exists s, w_subs w !! k = Some s /\ s_peer s = i /\ s_room s = r) ->
                              exists s, w_subs w' !! k = Some s /\ s_peer s = i /\ s_room s = r).
  { intros k j r (s & Hs & <- & <-). destruct (L2 _ _ Hs) as (s' & ? & ? & ?). eauto. }
  split.
  - intros k s' Hs' Hl. rewrite Hw. destruct (decide (s_peer s' = i)) as [He|He].
    + rewrite He, lookup_insert. destruct (Hlive _ _ Hs' Hl He) as [??]. eauto.
    + rewrite lookup_insert_ne by done. destruct (L1 _ _ Hs') as (s & Hs & -> & -> & Hls). eauto.
  - intros j q r k. rewrite Hw. destruct (decide (j = i)) as [->|Hne].
    + rewrite lookup_insert. intros [= <-]. eauto.
    + rewrite lookup_insert_ne by done. intros ??. eauto.
  - intros j q r h k. rewrite Hw. destruct (decide (j = i)) as [->|Hne].
    + rewrite lookup_insert. intros [= <-]. eauto.
    + rewrite lookup_insert_ne by done. intros ??. eauto.
  - intros j q. rewrite Hw. destruct (decide (j = i)) as [->|Hne].
    + rewrite lookup_insert. by intros [= <-].
    + rewrite lookup_insert_ne by done. eauto.
Qed.
Lemma active_same w w' : active w -> w_peers w' = w_peers w -> subs_less (w_subs w) (w_subs w') -> active w'.
Proof.
  intros [A1 A2 A3 A4] Hw [L1 L2]. split; [| | |by rewrite Hw].
  - intros k s' Hs' Hl. rewrite Hw. destruct (L1 _ _ Hs') as (s & Hs & -> & -> & Hls). eauto.
  - intros i p r k. rewrite Hw. intros Hp Hk. destruct (A2 _ _ _ _ Hp Hk) as (s & Hs & <- & <-). destruct (L2 _ _ Hs) as (s' & ? & ? & ?). eauto.
  - intros i p r h k. rewrite Hw. intros Hp Hk. destruct (A3 _ _ _ _ _ Hp Hk) as (s & Hs & <- & <-). destruct (L2 _ _ Hs) as (s' & ? & ? & ?). eauto.
Qed.
(** A peer whose subscriptions do not change. *)
Lemma active_still w w' i p p' : active w -> w_peers w !! i = Some p -> w_peers w' = <[i := p']> (w_peers w) ->
  subs_less (w_subs w) (w_subs w') -> p_alive p' = p_alive p -> p_in p' = p_in p ->
  (forall r h k, p_do p' = Subscribed r h k <-> p_do p = Subscribed r h k) -> (p_do p' <> Idle -> p_do p <> Idle \/ p_alive p = true) -> active w'.
Proof.
  intros A Hp Hw Hl Ha Hi Hd Hb. eapply active_peer; [exact A|exact Hw|exact Hl| | | |].
  - intros k s' Hs' Hls He. destruct Hl as [L1 _]. destruct (L1 _ _ Hs') as (s & Hs & E1 & E2 & Hl').
    destruct (ac_live _ A _ _ Hs (Hl' Hls)) as (q & Hq & Hqa & Hor). rewrite <- E1, He in Hq. assert (q = p) as -> by congruence.
    rewrite Ha, Hi, E2. split; [done|]. destruct Hor as [?|[h Hh]]; [by left|right; exists h; by apply Hd].
  - intros r k. rewrite Hi. by eapply ac_in.
  - intros r h k Hk. apply Hd in Hk. by eapply ac_do.
  - rewrite Ha. intros [?|?]%Hb; [by eapply ac_busy|done].
Qed.

Lemma end_sub_less w k : subs_less (w_subs w) (w_subs (end_sub w k)).
Proof. destruct k; [apply subs_less_ended|apply subs_less_refl]. Qed.

Lemma active_die w i p : active w -> w_peers w !! i = Some p -> active (die w i p).
Proof.
  intros A Hp. eapply active_peer; [exact A|reflexivity|apply subs_less_died| | |done|done].
  - intros k s. cbn. rewrite lookup_fmap. intros (s0 & Hs & ->)%fmap_Some Hl He.
    case_match eqn:E; [done|]. apply N.eqb_neq in E. done.
  - intros r k. cbn. by eapply ac_in.
Qed.

Lemma active_step w o w' : active w -> cstep w o = Some w' -> active w'.
Proof.
  intros A E. destruct o; cbn in E.
  - destruct (w_peers w !! i) eqn:Ei; [done|]. injection E as <-.
    eapply active_peer; [exact A|reflexivity|apply subs_less_refl| | |done|done].
    + intros k s Hs Hl <-. destruct (ac_live _ A _ _ Hs Hl) as (p & Hp & _). congruence.
    + intros r k. cbn. by rewrite lookup_empty.
  - apply bind_Some in E as (p & Ep & E). unfold on_frame in E. repeat case_match; simplify_eq; try done;
      (eapply active_still; [exact A|exact Ep|reflexivity|apply subs_less_refl|done|done|done|intros Hx; first [by left|by right]]).
  - apply bind_Some in E as (p & Ep & E). unfold on_mail in E.
    destruct (p_alive p) eqn:Ea; [|done]. destruct (p_do p) eqn:Ed; try done. destruct (p_mail p) as [|m rest] eqn:Em; [done|].
    destruct m as [[r|c|r|]|sid c|]; apply (inj Some) in E; subst w'.
    + eapply active_still; [exact A|exact Ep|reflexivity|apply subs_less_refl|done|done|cbn; by rewrite Ed|intros _; (by (left; rewrite Ed)) || by right].
    + eapply active_still; [exact A|exact Ep|reflexivity|apply subs_less_refl| | | |intros _; by right].
      * by case_match.
      * by case_match.
      * case_match; cbn; by rewrite Ed.
    + eapply active_peer; [exact A|rewrite end_sub_peers; reflexivity|apply (end_sub_less (set_peer w i _))| | |cbn; by rewrite Ed|done].
      * intros k s Hs Hl He. cbn in Hs. cbn [p_alive p_in p_do set_mail]. 
        pose proof (end_sub_less w (p_in p !! r)) as [L1 _].
        assert (Hs2 : w_subs (end_sub w (p_in p !! r)) !! k = Some s) by (by destruct (p_in p !! r)).
        destruct (L1 _ _ Hs2) as (s0 & Hs0 & E1 & E2 & Hl').
        destruct (ac_live _ A _ _ Hs0 (Hl' Hl)) as (q & Hq & Hqa & Hor). rewrite <- E1, He in Hq. assert (q = p) as -> by congruence.
        split; [done|]. destruct Hor as [Hor|[h Hh]]; [|congruence]. left. rewrite E2. rewrite lookup_delete_ne; [done|].
        intros ->. rewrite Hor in Hs2. cbn in Hs2. rewrite lookup_alter, Hs0 in Hs2. cbn in Hs2. injection Hs2 as <-. done.
      * intros r' k. cbn. rewrite lookup_delete_Some. intros [_ ?]. by eapply ac_in.
    + eapply active_still; [exact A|exact Ep|reflexivity|apply subs_less_refl|done|done|done|intros Hx; first [by left|by right]].
    + eapply active_still; [exact A|exact Ep|reflexivity|apply subs_less_refl|done|done|done|intros Hx; first [by left|by right]].
    + assert (A' : active (set_peer w i (set_mail p rest))).
      { eapply active_still; [exact A|exact Ep|reflexivity|apply subs_less_refl|done|done|done|intros Hx; first [by left|by right]]. }
      pose proof (active_die _ i (set_mail p rest) A' (lookup_insert _ _ _)) as H. unfold die in *. cbn in *.
      eapply active_same; [exact H| |apply subs_less_refl]. cbn. by rewrite insert_insert.
  - apply bind_Some in E as (p & Ep & E). unfold on_room in E. destruct (p_do p) eqn:Ed; try done.
    + apply (inj Some) in E; subst w'. eapply active_still; [exact A|exact Ep|reflexivity|apply subs_less_refl|done|done|cbn; by rewrite Ed|intros _; (by (left; rewrite Ed)) || by right].
    + destruct k; apply (inj Some) in E; subst w';
        (eapply active_still; [exact A|exact Ep|reflexivity|apply subs_less_refl|done|done|cbn; by rewrite Ed|intros _; left; by rewrite Ed]).
  - apply bind_Some in E as (p & Ep & E). unfold on_subscribe in E.
    destruct (p_do p) as [| |r h| | | |] eqn:Ed; try done. destruct (w_subs w !! sid) eqn:Es; [done|]. apply (inj Some) in E. subst w'.
    destruct A as [A1 A2 A3 A4].
    assert (Hal : p_alive p = true) by (eapply A4; [exact Ep|by rewrite Ed]).
    split; cbn.
    + intros k s. destruct (decide (k = sid)) as [->|Hne].
      * rewrite lookup_insert. intros [= <-] _. cbn. rewrite lookup_insert. eexists. split_and!; [done|done|]. right. by exists h.
      * rewrite lookup_insert_ne by done. intros Hs Hl. destruct (A1 _ _ Hs Hl) as (q & Hq & Hqa & Hor).
        destruct (decide (s_peer s = i)) as [He|He].
        -- rewrite He, lookup_insert in *. assert (q = p) as -> by congruence. eexists. split_and!; [done|done|]. cbn.
           destruct Hor as [?|[h' Hh]]; [by left|congruence].
        -- rewrite lookup_insert_ne by done. eauto.
    + intros j q r' k. destruct (decide (j = i)) as [->|Hne].
      * rewrite lookup_insert. intros [= <-] Hk. cbn in Hk. destruct (A2 _ _ _ _ Ep Hk) as (s & Hs & H1 & H2). exists s. rewrite lookup_insert_ne by congruence. done.
      * rewrite lookup_insert_ne by done. intros Hq Hk. destruct (A2 _ _ _ _ Hq Hk) as (s & Hs & H1 & H2). exists s. rewrite lookup_insert_ne by congruence. done.
    + intros j q r' h' k. destruct (decide (j = i)) as [->|Hne].
      * rewrite lookup_insert. intros [= <-] [= <- <- <-]. rewrite lookup_insert. by eexists.
      * rewrite lookup_insert_ne by done. intros Hq Hk. destruct (A3 _ _ _ _ _ Hq Hk) as (s & Hs & H1 & H2). exists s. rewrite lookup_insert_ne by congruence. done.
    + intros j q. destruct (decide (j = i)) as [->|Hne]; [rewrite lookup_insert; by intros [= <-]|rewrite lookup_insert_ne by done; apply A4].
  - apply bind_Some in E as (p & Ep & E). unfold on_resume in E. destruct (p_do p) as [| | |r h sid| |c|] eqn:Ed; try done; apply (inj Some) in E; subst w'.
    + assert (Hal : p_alive p = true) by (eapply ac_busy; [exact A|exact Ep|by rewrite Ed]).
      destruct (ac_do _ A _ _ _ _ _ Ep Ed) as (s1 & Hs1 & Hp1 & Hr1).
      eapply active_peer; [exact A|rewrite end_sub_peers; reflexivity|apply (end_sub_less (set_peer w i _))| | |done|done].
      * intros k s Hs Hl He. cbn [p_alive p_in p_do]. split; [done|]. left.
        assert (Hs2 : w_subs (end_sub w (p_in p !! r)) !! k = Some s) by (by destruct (p_in p !! r)).
        pose proof (end_sub_less w (p_in p !! r)) as [L1 _]. destruct (L1 _ _ Hs2) as (s0 & Hs0 & E1 & E2 & Hl').
        destruct (ac_live _ A _ _ Hs0 (Hl' Hl)) as (q & Hq & Hqa & Hor). rewrite <- E1, He in Hq. assert (q = p) as -> by congruence.
        destruct Hor as [Hor|[h' Hh]].
        -- rewrite E2. rewrite lookup_insert_ne; [done|].
           intros Hr. rewrite Hr, Hor in Hs2. cbn in Hs2. rewrite lookup_alter, Hs0 in Hs2. cbn in Hs2. injection Hs2 as <-. done.
        -- rewrite Hh in Ed. injection Ed as Er Eh Ek. rewrite E2, Er, Ek. by rewrite lookup_insert.
      * intros r' k. cbn. destruct (decide (r' = r)) as [->|Hne].
        -- rewrite lookup_insert. intros [= <-]. eauto.
        -- rewrite lookup_insert_ne by done. by eapply ac_in.
    + eapply active_still; [exact A|exact Ep|reflexivity|apply subs_less_refl|done|done|cbn; by rewrite Ed|done].
  - apply bind_Some in E as (p & Ep & E). unfold on_fail in E. destruct (p_do p) eqn:Ed; try done; apply (inj Some) in E; subst w';
      try (by apply active_die); (eapply active_still; [exact A|exact Ep|reflexivity|apply subs_less_refl|done|done|cbn; by rewrite Ed|intros _; left; by rewrite Ed]).
  - unfold on_deliver in E. apply bind_Some in E as (s & Es & E). apply bind_Some in E as (p & Ep & E).
    destruct (s_live s) eqn:El; [|done].
    assert (Hend : active (end_sub w (Some sid))) by (eapply active_same; [exact A|done|apply subs_less_ended]).
    destruct (_ <? _)%nat; [injection E as <-; done|].
    destruct (_ !! s_next s) as [c|] eqn:Ec; [|done]. destruct (p_alive p) eqn:Ea; [|by injection E as <-]. apply (inj Some) in E. subst w'.
    eapply active_still; [exact A|exact Ep|reflexivity| |done|done|done|intros Hx; first [by left|by right]]. cbn. by eapply subs_less_next.
  - apply bind_Some in E as ([[d r] c] & Ef & E). injection E as <-. eapply active_same; [exact A|done|apply subs_less_refl].
  - apply bind_Some in E as (x & Ef & E). injection E as <-. eapply active_same; [exact A|done|apply subs_less_refl].
  - apply bind_Some in E as (x & Ef & E). injection E as <-. eapply active_same; [exact A|done|apply subs_less_refl].
  - injection E as <-. eapply active_same; [exact A|done|apply subs_less_refl].
Qed.
Lemma active_runs l w : cruns new_world l = Some w -> active w.
Proof. intros E. eapply (runs_inv active active_step); [|exact E]. split; cbn; intros *; by rewrite lookup_empty. Qed.
