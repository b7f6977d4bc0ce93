(** Proofs about the chat: publications and subscriptions. *)
From Verif Require Import Chat_Model Chat_Spec Chat_Proofs.

(** ** No more publications than accepted messages *)
Definition fly_to (n : N) (r : string) (f : list (N * string * chat)) : list chat :=
  omap (fun '(d, r', c) => if bool_decide (d = n /\ r' = r) then Some c else None) f.
Definition chan (w : world) (n : N) (r : string) : list chat := default [] (w_chans w !! (n, r)).
Definition counted (w : world) : Prop :=
  (forall n r, chan w n r ++ fly_to n r (w_fly w) ⊆+ accepted w r) /\
  (forall n, n ∉ default ∅ (w_known w !! n)).

Lemma counted_same w w' : counted w -> w_log w' = w_log w -> (forall n r, chan w' n r = chan w n r) -> w_fly w' = w_fly w ->
  w_known w' = w_known w -> counted w'.
Proof.
  intros [H1 H2] Hl Hc Hf Hk. split; [|by rewrite Hk]. intros n r. rewrite Hc, Hf. unfold accepted. rewrite Hl. apply H1.
Qed.

Lemma fly_to_app n r f1 f2 : fly_to n r (f1 ++ f2) = fly_to n r f1 ++ fly_to n r f2.
Proof. apply omap_app. Qed.
Lemma fly_to_delete n r f k : fly_to n r (delete k f) ⊆+ fly_to n r f.
Proof.
  revert k. induction f as [|x f IH]; intros [|k]; cbn; try done.
  - destruct x as [[d r'] c]. case_bool_decide; [by apply submseteq_cons|done].
  - destruct x as [[d r'] c]. case_bool_decide; [apply submseteq_skip|]; apply IH.
Qed.
Lemma fly_to_take n r f k d r' c : f !! k = Some (d, r', c) ->
  fly_to n r f ≡ₚ (if bool_decide (d = n /\ r' = r) then [c] else []) ++ fly_to n r (delete k f).
Proof.
  intros Hk. assert (Hp : f ≡ₚ (d, r', c) :: delete k f) by (by apply delete_Permutation).
  transitivity (fly_to n r ((d, r', c) :: delete k f)).
  - unfold fly_to. by rewrite Hp at 1.
  - cbn. by case_bool_decide.
Qed.
(** What a publication sends to one node. *)
Lemma fly_to_known n r c r0 (s : gset N) :
  fly_to n r ((fun d => (d, r0, c)) <$> elements s) = if bool_decide (n ∈ s /\ r0 = r) then [c] else [].
Proof.
  assert (Hg : forall l : list N, NoDup l -> fly_to n r ((fun d => (d, r0, c)) <$> l) = if bool_decide (n ∈ l /\ r0 = r) then [c] else []).
  { intros l. induction 1 as [|d l Hd Hl IH]; cbn.
    - rewrite bool_decide_eq_false_2; [done|]. intros [Hn _]. by apply elem_of_nil in Hn.
    - fold (fly_to n r ((fun d => (d, r0, c)) <$> l)). destruct (decide (d = n /\ r0 = r)) as [H1|H1].
      + destruct H1 as [-> ->]. rewrite (bool_decide_eq_true_2 (n = n /\ r = r)) by done. rewrite IH, (bool_decide_eq_false_2 (n ∈ l /\ r = r)) by tauto.
        rewrite bool_decide_eq_true_2; [done|]. split; [by left|done].
      + rewrite (bool_decide_eq_false_2 (d = n /\ r0 = r)) by done. rewrite IH. assert (Hiff : (n ∈ l /\ r0 = r) <-> (n ∈ d :: l /\ r0 = r)) by (rewrite elem_of_cons; naive_solver).
        by rewrite (bool_decide_ext _ _ Hiff). }
  rewrite Hg by apply NoDup_elements. assert (Hiff : (n ∈ elements s /\ r0 = r) <-> (n ∈ s /\ r0 = r)) by (by rewrite elem_of_elements).
  by rewrite (bool_decide_ext _ _ Hiff).
Qed.

Lemma chan_end_sub w k n r : chan (end_sub w k) n r = chan w n r.
Proof. unfold end_sub. by case_match. Qed.

Lemma counted_step w o w' : counted w -> cstep w o = Some w' -> counted w'.
Proof.
  intros C E. destruct o; cbn in E.
  - repeat case_match; simplify_eq. by eapply counted_same.
  - apply bind_Some in E as (p & Ep & E). unfold on_frame in E. repeat case_match; simplify_eq; done.
  - apply bind_Some in E as (p & Ep & E). unfold on_mail in E.
    repeat case_match; simplify_eq; try by eapply counted_same.
    unfold end_sub. case_match; by eapply counted_same.
  - apply bind_Some in E as (p & Ep & E). unfold on_room in E.
    destruct (p_do p) as [|r| | |c| |] eqn:Ed; try done; [by injection E as <-|]. destruct k; [|by injection E as <-|].
    + apply (inj Some) in E. subst w'. destruct C as [C1 C2]. set (home := o_home _). set (r0 := c_room c). split; [|exact C2].
      intros n' r. set (w1 := publish _ _ _ _).
      change (chan w1 n' r ++ fly_to n' r (w_fly w ++ ((fun d => (d, r0, c)) <$> elements (default ∅ (w_known w !! home)))) ⊆+ accepted (keep w r0 c) r).
      rewrite accepted_keep, fly_to_app, fly_to_known.
      pose proof (C2 home) as Hn.
      assert (Hch : chan w1 n' r = chan w n' r ++ if bool_decide ((n', r) = (home, r0) /\ is_Some (w_chans w !! (n', r))) then [c] else []).
      { change (default [] (alter (fun l => l ++ [c]) (home, r0) (w_chans w) !! (n', r)) = chan w n' r ++ if bool_decide ((n', r) = (home, r0) /\ is_Some (w_chans w !! (n', r))) then [c] else []).
        unfold chan. destruct (decide ((n', r) = (home, r0))) as [He|He].
        - rewrite He, lookup_alter. destruct (w_chans w !! (home, r0)) as [L|] eqn:EL; cbn.
          + by rewrite bool_decide_eq_true_2 by eauto.
          + rewrite bool_decide_eq_false_2; [done|]. intros [_ Hs]. by apply is_Some_None in Hs.
        - rewrite lookup_alter_ne by done. rewrite bool_decide_eq_false_2 by tauto. by rewrite app_nil_r. }
      rewrite Hch. clear Hch.
      specialize (C1 n' r). case_decide as Hr.
      * subst r. etrans; [|exact (submseteq_app _ _ _ _ C1 (reflexivity [c]))].
        case_bool_decide as B1; case_bool_decide as B2.
        -- destruct B1 as [[= ->] _]. by destruct B2.
        -- rewrite app_nil_r. rewrite <- !app_assoc. apply submseteq_app; [done|]. apply Permutation_submseteq. apply Permutation_app_comm.
        -- by rewrite app_nil_r, <- app_assoc.
        -- rewrite !app_nil_r. by apply submseteq_inserts_r.
      * rewrite (bool_decide_eq_false_2 (_ /\ is_Some _)) by naive_solver. rewrite (bool_decide_eq_false_2 (_ /\ r0 = r)) by naive_solver.
        by rewrite !app_nil_r.
    + apply (inj Some) in E. subst w'. destruct C as [C1 C2]. split; [|exact C2]. intros n' r. 
      change (chan w n' r ++ fly_to n' r (w_fly w) ⊆+ accepted (keep w (c_room c) c) r). rewrite accepted_keep. 
      case_decide; [subst; by apply submseteq_inserts_r|done].
  - apply bind_Some in E as (p & Ep & E). unfold on_subscribe in E. repeat case_match; simplify_eq.
    eapply counted_same; [exact C|try done..]. intros n r'. unfold chan. cbn.
    destruct (decide ((n, r') = (p_node p, r))) as [He|He].
    + injection He as -> ->. by rewrite lookup_insert.
    + by rewrite lookup_insert_ne.
  - apply bind_Some in E as (p & Ep & E). unfold on_resume in E. repeat case_match; simplify_eq; try by eapply counted_same.
    unfold end_sub. case_match; by eapply counted_same.
  - apply bind_Some in E as (p & Ep & E). unfold on_fail in E. repeat case_match; simplify_eq; by eapply counted_same.
  - unfold on_deliver in E. apply bind_Some in E as (s & Es & E). apply bind_Some in E as (p & Ep & E).
    repeat case_match; simplify_eq; by eapply counted_same.
  - apply bind_Some in E as ([[d r] c] & Ef & E). injection E as <-. destruct C as [C1 C2]. split; [|exact C2].
    intros n' r'. change (accepted _ r') with (accepted w r'). cbn. specialize (C1 n' r').
    rewrite (fly_to_take n' r' _ _ _ _ _ Ef) in C1. etrans; [|exact C1]. unfold chan. cbn.
    destruct (decide ((n', r') = (d, r))) as [He|He].
    + injection He as -> ->. rewrite lookup_alter. rewrite bool_decide_eq_true_2 by done.
      destruct (w_chans w !! (d, r)) as [L|]; cbn; [by rewrite <- app_assoc|by apply submseteq_cons].
    + rewrite lookup_alter_ne by done. rewrite bool_decide_eq_false_2 by naive_solver. done.
  - apply bind_Some in E as (x & Ef & E). injection E as <-. destruct C as [C1 C2]. split; [|exact C2].
    intros n r. cbn. change (accepted _ r) with (accepted w r). etrans; [|exact (C1 n r)]. apply submseteq_app; [done|apply fly_to_delete].
  - apply bind_Some in E as (x & Ef & E). injection E as <-. by eapply counted_same.
  - injection E as <-. destruct C as [C1 C2]. split; [exact C1|]. intros n'. cbn. destruct (decide (n' = n)) as [->|Hne].
    + rewrite lookup_insert. cbn. pose proof (C2 n) as Hn. destruct b.
      * destruct (N.eqb_spec d n) as [->|Hd]; [done|]. rewrite not_elem_of_union, not_elem_of_singleton. split; congruence.
      * set_solver.
    + rewrite lookup_insert_ne by done. apply C2.
Qed.

Lemma runs_inv (P : world -> Prop) : (forall w o w', P w -> cstep w o = Some w' -> P w') ->
  forall l w w', P w -> cruns w l = Some w' -> P w'.
Proof.
  intros Hs l. induction l as [|o l IH]; intros w w' Hw E; [cbn in E; by simplify_eq|].
  cbn in E. destruct (cstep w o) as [w1|] eqn:E1; [|done]. cbn in E. eapply IH; [|exact E]. by eapply Hs.
Qed.

Lemma counted_runs l w : cruns new_world l = Some w -> counted w.
Proof.
  intros E. eapply (runs_inv counted counted_step); [|exact E]. split.
  - intros n r. cbn. unfold chan. cbn. rewrite lookup_empty. apply submseteq_nil_l.
  - intros n. cbn. rewrite lookup_empty. cbn. apply not_elem_of_empty.
Qed.

(** ** What a subscription passed on *)
Definition lo (k : N) (l : list wrote) : list chat :=
  omap (fun x => match x with Live j c => if (j =? k)%N then Some c else None | _ => None end) l.
Definition lm (k : N) (l : list pmail) : list chat :=
  omap (fun x => match x with MLive j c => if (j =? k)%N then Some c else None | _ => None end) l.
Local Arguments lo _ !_ /.
Local Arguments lm _ !_ /.
Definition passed (k : N) (p : peer) : list chat := lo k (p_out p) ++ lm k (p_mail p).
Local Arguments passed : simpl never.
Lemma lo_app k a b : lo k (a ++ b) = lo k a ++ lo k b. Proof. apply omap_app. Qed.
Lemma lm_app k a b : lm k (a ++ b) = lm k a ++ lm k b. Proof. apply omap_app. Qed.
Lemma lo_past k h : lo k (Past <$> h) = [].
Proof. by induction h. Qed.

Definition sub_ok (w : world) (k : N) (s : csub) : Prop :=
  exists p L, w_peers w !! s_peer s = Some p /\ p_node p = s_node s /\ w_chans w !! (s_node s, s_room s) = Some L /\
    s_first s <= s_next s <= length L /\ passed k p = take (s_next s - s_first s) (drop (s_first s) L).
Definition subs_ok (w : world) : Prop :=
  (forall k s, w_subs w !! k = Some s -> sub_ok w k s) /\
  (forall i p k, w_peers w !! i = Some p -> passed k p <> [] -> exists s, w_subs w !! k = Some s /\ s_peer s = i).

Record quietly (w w' : world) : Prop := {
  qu_peers : forall i p', w_peers w' !! i = Some p' ->
    (exists p, w_peers w !! i = Some p /\ p_node p' = p_node p /\ forall k, passed k p' = passed k p) \/
    (w_peers w !! i = None /\ p_out p' = [] /\ p_mail p' = []);
  qu_keep : forall i p, w_peers w !! i = Some p -> is_Some (w_peers w' !! i);
  qu_chans : forall x L, w_chans w !! x = Some L -> exists L', w_chans w' !! x = Some L' /\ L `prefix_of` L';
  qu_subs : forall k s', w_subs w' !! k = Some s' ->
    exists s, w_subs w !! k = Some s /\ s_peer s' = s_peer s /\ s_node s' = s_node s /\ s_room s' = s_room s /\
      s_first s' = s_first s /\ s_next s' = s_next s;
  qu_subs_keep : forall k s, w_subs w !! k = Some s -> exists s', w_subs w' !! k = Some s' /\ s_peer s' = s_peer s
}.

Lemma subs_quietly w w' : subs_ok w -> quietly w w' -> subs_ok w'.
Proof.
  intros [H1 H2] [Q1 Q2 Q3 Q4 Q5]. split.
  - intros k s' Hk. destruct (Q4 _ _ Hk) as (s & Hs & E1 & E2 & E3 & E4 & E5).
    destruct (H1 _ _ Hs) as (p & L & Hp & Hn & HL & Hle & Hpass).
    destruct (Q2 _ _ Hp) as [p' Hp']. destruct (Q3 _ _ HL) as (L' & HL' & [z ->]).
    exists p', (L ++ z). rewrite E1, E2, E3, E4, E5.
    destruct (Q1 _ _ Hp') as [(p0 & Hp0 & En & Ek)|(? & _)]; [|congruence].
    assert (p0 = p) as -> by congruence. rewrite app_length. split_and!; [done|congruence|done|lia|lia|].
    rewrite Ek, Hpass, drop_app_le by lia. rewrite take_app_le; [done|]. rewrite drop_length. lia.
  - intros i p' k Hp' Hne. destruct (Q1 _ _ Hp') as [(p & Hp & _ & Ek)|(_ & E1 & E2)].
    + rewrite Ek in Hne. destruct (H2 _ _ _ Hp Hne) as (s & Hs & <-). eauto.
    + unfold passed in Hne. by rewrite E1, E2 in Hne.
Qed.

Lemma quietly_peer w w' i p p' : w_peers w !! i = Some p -> p_node p' = p_node p -> (forall k, passed k p' = passed k p) ->
  w_peers w' = <[i := p']> (w_peers w) ->
  (forall x L, w_chans w !! x = Some L -> exists L', w_chans w' !! x = Some L' /\ L `prefix_of` L') ->
  (forall k s', w_subs w' !! k = Some s' ->
    exists s, w_subs w !! k = Some s /\ s_peer s' = s_peer s /\ s_node s' = s_node s /\ s_room s' = s_room s /\
      s_first s' = s_first s /\ s_next s' = s_next s) ->
  (forall k s, w_subs w !! k = Some s -> exists s', w_subs w' !! k = Some s' /\ s_peer s' = s_peer s) ->
  quietly w w'.
Proof.
  intros Hp Hn Hk Hw Hc Hs Hs'. split; [| |done..].
  - intros j q. rewrite Hw. destruct (decide (j = i)) as [->|Hne].
    + rewrite lookup_insert. intros [= <-]. left. eauto.
    + rewrite lookup_insert_ne by done. left. eauto.
  - intros j q. rewrite Hw. destruct (decide (j = i)) as [->|Hne]; [by rewrite lookup_insert|rewrite lookup_insert_ne by done; eauto].
Qed.

Definition sub_same (w w' : world) : Prop :=
  (forall k s', w_subs w' !! k = Some s' ->
    exists s, w_subs w !! k = Some s /\ s_peer s' = s_peer s /\ s_node s' = s_node s /\ s_room s' = s_room s /\
      s_first s' = s_first s /\ s_next s' = s_next s) /\
  (forall k s, w_subs w !! k = Some s -> exists s', w_subs w' !! k = Some s' /\ s_peer s' = s_peer s).
Lemma sub_same_eq w w' : w_subs w' = w_subs w -> sub_same w w'.
Proof. intros E. split; rewrite E; intros k s H; exists s; done. Qed.
Lemma sub_same_ended w w' k0 : w_subs w' = alter ended k0 (w_subs w) -> sub_same w w'.
Proof.
  intros E. split; rewrite E; intros k s; destruct (decide (k = k0)) as [->|Hne].
  - rewrite lookup_alter. intros (s0 & Es & ->)%fmap_Some. by exists s0.
  - rewrite lookup_alter_ne by done. eauto 10.
  - rewrite lookup_alter. intros ->. cbn. by eexists.
  - rewrite lookup_alter_ne by done. eauto.
Qed.
Lemma sub_same_end w w1 k0 : w_subs w1 = w_subs w -> sub_same w (end_sub w1 k0).
Proof. intros E. destruct k0 as [k0|]; cbn; [apply (sub_same_ended _ _ k0); cbn; by rewrite E|by apply sub_same_eq]. Qed.
Lemma sub_same_died w w' i : w_subs w' = ((fun s => if (s_peer s =? i)%N then ended s else s) <$> w_subs w) -> sub_same w w'.
Proof.
  intros E. split; rewrite E; intros k s; rewrite lookup_fmap.
  - intros (s0 & Es & ->)%fmap_Some. exists s0. split; [done|]. by case_match.
  - intros ->. cbn. eexists. split; [done|]. by case_match.
Qed.

Lemma quietly_peer' w w' i p p' : w_peers w !! i = Some p -> w_peers w' = <[i := p']> (w_peers w) ->
  p_node p' = p_node p -> (forall k, passed k p' = passed k p) -> w_chans w' = w_chans w -> sub_same w w' -> quietly w w'.
Proof.
  intros Hp Hw Hn Hk Hc [Hs Hs']. eapply quietly_peer; [exact Hp|exact Hn|exact Hk|exact Hw| |exact Hs|exact Hs'].
  rewrite Hc. eauto.
Qed.
Lemma quietly_none w w' : w_peers w' = w_peers w ->
  (forall x L, w_chans w !! x = Some L -> exists L', w_chans w' !! x = Some L' /\ L `prefix_of` L') -> sub_same w w' -> quietly w w'.
Proof. intros Hp Hc [Hs Hs']. split; [rewrite Hp; left; eauto|rewrite Hp; eauto|done..]. Qed.

Lemma chans_alter (m : gmap (N * string) (list chat)) x0 c :
  forall x L, m !! x = Some L -> exists L', alter (fun l => l ++ [c]) x0 m !! x = Some L' /\ L `prefix_of` L'.
Proof.
  intros x L HL. destruct (decide (x = x0)) as [->|Hne].
  - rewrite lookup_alter, HL. cbn. eexists. split; [done|by eexists].
  - rewrite lookup_alter_ne by done. eauto.
Qed.

Lemma passed_mail k p m : passed k (set_mail p (p_mail p ++ m)) = passed k p ++ lm k m.
Proof. unfold passed. cbn. by rewrite lm_app, app_assoc. Qed.

Lemma end_sub_peers w k : w_peers (end_sub w k) = w_peers w. Proof. by destruct k. Qed.
Lemma end_sub_chans w k : w_chans (end_sub w k) = w_chans w. Proof. by destruct k. Qed.

(** All steps but two do not change what subscriptions passed on. *)
Lemma quietly_step w o w' : subs_ok w -> cstep w o = Some w' ->
  quietly w w' \/ (exists i sid, o = CSubscribe i sid) \/
  (exists sid s p c, o = CDeliver sid /\ w_subs w !! sid = Some s /\ w_peers w !! s_peer s = Some p /\
     s_live s = true /\ p_alive p = true /\ chan w (s_node s) (s_room s) !! s_next s = Some c /\
     w' = set_subs (set_peer w (s_peer s) (set_mail p (p_mail p ++ [MLive sid c])))
            (<[sid := CSub (s_peer s) (s_node s) (s_room s) (s_first s) (S (s_next s)) true]> (w_subs w))).
Proof.
  intros S E. destruct o; cbn in E.
  - left. destruct (w_peers w !! i) eqn:Ei; [done|]. injection E as <-. split; cbn; [| |eauto|eauto 10|eauto].
    + intros j q. destruct (decide (j = i)) as [->|Hne]; [rewrite lookup_insert; intros [= <-]; right; done|rewrite lookup_insert_ne by done; left; eauto].
    + intros j q. destruct (decide (j = i)) as [->|Hne]; [by rewrite Ei|rewrite lookup_insert_ne by done; eauto].
  - left. apply bind_Some in E as (p & Ep & E). unfold on_frame in E.
    assert (Hid : quietly w w) by (apply quietly_none; [done|eauto|by apply sub_same_eq]).
    repeat case_match; simplify_eq; try done.
    + eapply quietly_peer'; [exact Ep|reflexivity|done| |done|by apply sub_same_eq]. intros k. rewrite passed_mail. by rewrite app_nil_r.
    + eapply quietly_peer'; [exact Ep|reflexivity|done| |done|by apply sub_same_eq]. done.
    + eapply quietly_peer'; [exact Ep|reflexivity|done| |done|by apply sub_same_eq]. intros k. unfold passed. cbn. rewrite lm_app. cbn. by rewrite app_nil_r.
  - left. apply bind_Some in E as (p & Ep & E). unfold on_mail in E.
    destruct (p_alive p) eqn:Ea; [|done]. destruct (p_do p) eqn:Ed; try done. destruct (p_mail p) as [|m rest] eqn:Em; [done|].
    destruct m as [[r|c|r|]|sid c|]; apply (inj Some) in E; subst w'.
    + eapply quietly_peer'; [exact Ep|reflexivity|done| |done|by apply sub_same_eq]. intros k. unfold passed. cbn. by rewrite Em.
    + eapply quietly_peer'; [exact Ep|reflexivity| | |done|by apply sub_same_eq]; [by case_match|]. intros k. unfold passed. rewrite Em. by case_match.
    + eapply quietly_peer'; [exact Ep|rewrite end_sub_peers; reflexivity|done| |by rewrite end_sub_chans|by apply sub_same_end]. intros k. unfold passed. cbn. by rewrite Em.
    + eapply quietly_peer'; [exact Ep|reflexivity|done| |done|by apply sub_same_eq]. intros k. unfold passed. cbn. rewrite Em, lm_app. cbn. by rewrite app_nil_r.
    + eapply quietly_peer'; [exact Ep|reflexivity|done| |done|by apply sub_same_eq]. intros k. unfold passed. cbn. rewrite Em, lo_app, <- app_assoc. cbn.
      by destruct (sid =? k)%N.
    + eapply quietly_peer'; [exact Ep|reflexivity|done| |done|by eapply sub_same_died]. intros k. unfold passed. cbn. by rewrite Em.
  - left. apply bind_Some in E as (p & Ep & E). unfold on_room in E. destruct (p_do p) eqn:Ed; try done.
    + apply (inj Some) in E; subst w'. eapply quietly_peer'; [exact Ep|reflexivity|done|done|done|by apply sub_same_eq].
    + destruct k; apply (inj Some) in E; subst w'.
      * eapply quietly_peer; [exact Ep|..|reflexivity|apply chans_alter| |]; cbn; try done; eauto 10.
      * eapply quietly_peer'; [exact Ep|reflexivity|done|done|done|by apply sub_same_eq].
      * eapply quietly_peer'; [exact Ep|reflexivity|done|done|done|by apply sub_same_eq].
  - right; left. eauto.
  - left. apply bind_Some in E as (p & Ep & E). unfold on_resume in E. destruct (p_do p) eqn:Ed; try done; apply (inj Some) in E; subst w'.
    + eapply quietly_peer'; [exact Ep|rewrite end_sub_peers; reflexivity|done| |by rewrite end_sub_chans|by apply sub_same_end].
      intros k. unfold passed. cbn. rewrite !lo_app, lo_past. cbn. by rewrite app_nil_r.
    + eapply quietly_peer'; [exact Ep|reflexivity|done|done|done|by apply sub_same_eq].
  - left. apply bind_Some in E as (p & Ep & E). unfold on_fail in E. destruct (p_do p) eqn:Ed; try done; apply (inj Some) in E; subst w';
      (eapply quietly_peer'; [exact Ep|reflexivity|done|done|done|]); (by apply sub_same_eq) || (by eapply sub_same_died).
  - unfold on_deliver in E. apply bind_Some in E as (s & Es & E). apply bind_Some in E as (p & Ep & E).
    destruct (s_live s) eqn:El; [|done].
    assert (Hend : quietly w (end_sub w (Some sid))) by (apply quietly_none; [done|eauto|by apply sub_same_end]).
    destruct (_ <? _)%nat; [injection E as <-; by left|]. fold (chan w (s_node s) (s_room s)) in E.
    destruct (chan w _ _ !! s_next s) as [c|] eqn:Ec; [|done].
    destruct (p_alive p) eqn:Ea; [|injection E as <-; by left]. apply (inj Some) in E. right; right. by exists sid, s, p, c.
  - left. apply bind_Some in E as ([[d r] c] & Ef & E). injection E as <-. apply quietly_none; [done| |by apply sub_same_eq]. apply chans_alter.
  - left. apply bind_Some in E as (x & Ef & E). injection E as <-. apply quietly_none; [done|eauto|by apply sub_same_eq].
  - left. apply bind_Some in E as (x & Ef & E). injection E as <-. apply quietly_none; [done|eauto|by apply sub_same_eq].
  - left. injection E as <-. apply quietly_none; [done|eauto|by apply sub_same_eq].
Qed.

Lemma subs_step w o w' : subs_ok w -> cstep w o = Some w' -> subs_ok w'.
Proof.
  intros S E. destruct (quietly_step _ _ _ S E) as [Q|[(i & sid & ->)|(sid & s & p & c & -> & Es & Ep & El & Ea & Ec & ->)]];
    [by eapply subs_quietly|..].
  - cbn in E. apply bind_Some in E as (p & Ep & E). unfold on_subscribe in E.
    destruct (p_do p) as [| |r h| | | |] eqn:Ed; try done. destruct (w_subs w !! sid) eqn:Es; [done|]. apply (inj Some) in E.
    destruct S as [S1 S2].
    assert (Hnone : forall j q, w_peers w !! j = Some q -> passed sid q = []).
    { intros j q Hq. destruct (passed sid q) eqn:Eq; [done|]. destruct (S2 _ _ sid Hq) as (s & Hs & _); [by rewrite Eq|congruence]. }
    subst w'. split; cbn.
    + intros k s. destruct (decide (k = sid)) as [->|Hne].
      * rewrite lookup_insert. intros [= <-]. eexists _, _. cbn. rewrite !lookup_insert. split_and!; [done|done|done|lia|lia|].
        rewrite Nat.sub_diag. cbn. exact (Hnone _ _ Ep).
      * rewrite lookup_insert_ne by done. intros Hk. destruct (S1 _ _ Hk) as (q & L & Hq & Hn & HL & Hle & Hpass).
        assert (HL' : <[(p_node p, r) := default [] (w_chans w !! (p_node p, r))]> (w_chans w) !! (s_node s, s_room s) = Some L).
        { destruct (decide ((s_node s, s_room s) = (p_node p, r))) as [He|He].
          - rewrite He in *. rewrite lookup_insert. by rewrite HL.
          - by rewrite lookup_insert_ne. }
        destruct (decide (s_peer s = i)) as [He|He].
        -- rewrite He in Hq. assert (q = p) as -> by congruence. exists (set_do p (Subscribed r h sid)), L. cbn. rewrite He, lookup_insert. split_and!; try done; lia.
        -- exists q, L. cbn. rewrite lookup_insert_ne by done. split_and!; try done; lia.
    + intros j q k Hq Hne. destruct (decide (j = i)) as [->|Hne'].
      * rewrite lookup_insert in Hq. injection Hq as <-. change (passed k p <> []) in Hne.
        destruct (S2 _ _ _ Ep Hne) as (s & Hs & Hi). exists s. split; [|done]. rewrite lookup_insert_ne; [done|]. congruence.
      * rewrite lookup_insert_ne in Hq by done. destruct (S2 _ _ _ Hq Hne) as (s & Hs & Hi). exists s. split; [|done]. rewrite lookup_insert_ne; [done|]. congruence.
  - destruct S as [S1 S2]. destruct (S1 _ _ Es) as (p0 & L & Hp & Hn & HL & Hle & Hpass). assert (p0 = p) as -> by congruence.
    unfold chan in Ec. rewrite HL in Ec. cbn in Ec. pose proof (lookup_lt_Some _ _ _ Ec) as Hlt.
    split.
    + intros k s'. cbn. destruct (decide (k = sid)) as [->|Hne].
      * rewrite lookup_insert. intros [= <-]. exists (set_mail p (p_mail p ++ [MLive sid c])), L. cbn. rewrite lookup_insert.
        split_and!; [done|done|done|lia|lia|]. rewrite passed_mail, Hpass. cbn. rewrite N.eqb_refl. cbn.
        rewrite Nat.sub_succ_l by lia. symmetry. apply take_S_r. rewrite lookup_drop. replace (s_first s + (s_next s - s_first s)) with (s_next s) by lia. done.
      * rewrite lookup_insert_ne by done. intros Hk. destruct (S1 _ _ Hk) as (q & L' & Hq & Hn' & HL' & Hle' & Hpass').
        destruct (decide (s_peer s' = s_peer s)) as [He|He].
        -- exists (set_mail p (p_mail p ++ [MLive sid c])), L'. cbn. rewrite He, lookup_insert. rewrite He in Hq. assert (q = p) as -> by congruence.
           split_and!; try done; try lia. rewrite passed_mail, Hpass'. cbn. apply N.eqb_neq in Hne. rewrite N.eqb_sym, Hne. cbn. by rewrite app_nil_r.
        -- exists q, L'. cbn. rewrite lookup_insert_ne by done. split_and!; try done; lia.
    + cbn. intros j q k Hq Hne. destruct (decide (k = sid)) as [->|Hk].
      * rewrite lookup_insert. eexists. split; [done|]. cbn. destruct (decide (j = s_peer s)) as [->|Hj]; [done|].
        rewrite lookup_insert_ne in Hq by done. destruct (S2 _ _ _ Hq Hne) as (s' & Hs' & Hi). congruence.
      * rewrite lookup_insert_ne by done. destruct (decide (j = s_peer s)) as [->|Hj].
        -- rewrite lookup_insert in Hq. injection Hq as <-. rewrite passed_mail in Hne. cbn in Hne. apply N.eqb_neq in Hk. rewrite N.eqb_sym, Hk in Hne. cbn in Hne. rewrite app_nil_r in Hne. by eapply S2.
        -- rewrite lookup_insert_ne in Hq by done. by eapply S2.
Qed.

Lemma subs_ok_new : subs_ok new_world.
Proof. split; cbn; intros *; by rewrite lookup_empty. Qed.
Lemma subs_ok_runs l w : cruns new_world l = Some w -> subs_ok w.
Proof. intros E. eapply (runs_inv subs_ok subs_step); [apply subs_ok_new|exact E]. Qed.
