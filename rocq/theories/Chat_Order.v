(** Proofs about the chat: the messages of one client, in order. *)
From Verif Require Import Chat_Model Chat_Spec Chat_Proofs Chat_Live Chat_Room Chat_Member.

Lemma connected l w i : cruns new_world l = Some w -> (exists n name, CConnect i n name ∈ l) -> is_Some (w_peers w !! i).
Proof.
  revert l w. apply (hist_ind (fun l w => (exists n name, CConnect i n name ∈ l) -> is_Some (w_peers w !! i))).
  - intros (n & name & H). by apply elem_of_nil in H.
  - intros l w o w' _ IH E (n & name & H). apply elem_of_app in H as [H|H%elem_of_list_singleton].
    + destruct IH as [p Hp]; [eauto|]. destruct (pchange_step _ _ _ _ _ E Hp) as (p' & Hp' & _). eauto.
    + subst o. cbn in E. repeat case_match; simplify_eq. cbn. rewrite lookup_insert. eauto.
Qed.

Lemma name_kept w o w' i p p' : cstep w o = Some w' -> w_peers w !! i = Some p -> w_peers w' !! i = Some p' -> p_name p' = p_name p.
Proof.
  intros E Hp Hp'. destruct (pchange_step _ _ _ _ _ E Hp) as (q & Hq & Hc). assert (q = p') as -> by congruence. by destruct Hc.
Qed.

Lemma peer_new w o w' i p' : cstep w o = Some w' -> w_peers w !! i = None -> w_peers w' !! i = Some p' ->
  exists n name, o = CConnect i n name /\ p' = Peer n name true true [] Idle ∅ [].
Proof.
  intros E Hp Hp'.
  assert (Hone : forall j q q', w_peers w !! j = Some q -> w_peers w' = <[j := q']> (w_peers w) -> False).
  { intros j q q' Hq He. rewrite He, lookup_insert_ne in Hp'; congruence. }
  assert (Hsame : w_peers w' = w_peers w -> False) by congruence.
  destruct o; cbn in E; [|exfalso..].
  - destruct (w_peers w !! i0) eqn:Ei; [done|]. injection E as <-. cbn in Hp'. destruct (decide (i = i0)) as [->|Hne].
    + rewrite lookup_insert in Hp'. injection Hp' as <-. eauto.
    + rewrite lookup_insert_ne in Hp' by done. congruence.
  - apply bind_Some in E as (q & Ep & E). unfold on_frame in E. repeat case_match; simplify_eq; by eapply Hone.
  - apply bind_Some in E as (q & Ep & E). unfold on_mail in E. repeat case_match; simplify_eq;
      (eapply Hone; [exact Ep|try rewrite end_sub_peers; reflexivity]).
  - apply bind_Some in E as (q & Ep & E). unfold on_room in E. repeat case_match; simplify_eq; (eapply Hone; [exact Ep|reflexivity]).
  - apply bind_Some in E as (q & Ep & E). unfold on_subscribe in E. repeat case_match; simplify_eq; (eapply Hone; [exact Ep|reflexivity]).
  - apply bind_Some in E as (q & Ep & E). unfold on_resume in E. repeat case_match; simplify_eq; (eapply Hone; [exact Ep|try rewrite end_sub_peers; reflexivity]).
  - apply bind_Some in E as (q & Ep & E). unfold on_fail in E. repeat case_match; simplify_eq; (eapply Hone; [exact Ep|reflexivity]).
  - unfold on_deliver in E. apply bind_Some in E as (s & Es & E). apply bind_Some in E as (q & Ep & E).
    repeat case_match; simplify_eq; first [by apply Hsame|eapply Hone; [exact Ep|reflexivity]].
  - apply bind_Some in E as ([[d r] c] & Ef & E). injection E as <-. by apply Hsame.
  - apply bind_Some in E as (x & Ef & E). injection E as <-. by apply Hsame.
  - apply bind_Some in E as (x & Ef & E). injection E as <-. by apply Hsame.
  - injection E as <-. by apply Hsame.
Qed.

(** A request is under the name of its peer. *)
Definition under_name (w : world) : Prop := forall i p c, w_peers w !! i = Some p -> p_do p = ChatSent c -> c_sender c = Some (p_name p).
Lemma under_name_runs l w : cruns new_world l = Some w -> under_name w.
Proof.
  intros E. eapply (runs_inv under_name) with (w := new_world); [|intros i p c Hp; cbn in Hp; by rewrite lookup_empty in Hp|exact E]. clear l w E. intros w o w' IH E i p' c Hp' Hd.
  destruct (w_peers w !! i) as [p|] eqn:Hp.
  - destruct (pchange_step _ _ _ _ _ E Hp) as (q & Hq & Hc). assert (q = p') as -> by congruence.
    destruct Hc; cbn in Hd |- *; try done; try (by eapply (IH i p)); try congruence.
    + injection Hd as <-. done.
    + destruct H1 as [->| ->]; done.
  - destruct (peer_new _ _ _ _ _ E Hp Hp') as (n & name & -> & ->). done.
Qed.

(** Messages of a client on their way. *)
Definition doing_chat (r : string) (d : doing) : list chat := match d with ChatSent c => to_room r [c] | _ => [] end.
Definition mail_chat (m : list pmail) : list chat := omap (fun x => match x with MEvent (EChat c) => Some c | _ => None end) m.
Definition on_way (r name : string) (p : peer) : list chat :=
  doing_chat r (p_do p) ++ (signed name <$> to_room r (mail_chat (p_mail p))).
Definition sent_in (l : list cop) (i : N) (r name : string) : list chat := signed name <$> to_room r (said l i).

Lemma mail_chat_app a b : mail_chat (a ++ b) = mail_chat a ++ mail_chat b. Proof. apply omap_app. Qed.
Lemma to_room_app r a b : to_room r (a ++ b) = to_room r a ++ to_room r b. Proof. apply List.filter_app. Qed.
Lemma said_app l o i : said (l ++ [o]) i = said l i ++ said [o] i. Proof. apply omap_app. Qed.

Lemma sent_in_mono l o i r name a : a `sublist_of` sent_in l i r name -> a `sublist_of` sent_in (l ++ [o]) i r name.
Proof. intros H. unfold sent_in. rewrite said_app, to_room_app, fmap_app. by apply sublist_inserts_r. Qed.

Lemma on_way_step w i o p p' r name : pchange w i o p p' -> p_name p = name ->
  (exists e, o = CFrame i (FEvent (EChat e)) /\ on_way r name p' = on_way r name p ++ (signed name <$> to_room r [e])) \/
  on_way r name p' `sublist_of` on_way r name p.
Proof.
  intros Hc Hn. unfold on_way.
  destruct Hc as [|b m Hrd Hm|r0 rest Hd Hm|c k rest Hd Hm Hk|c rest Hd Hm Hk|r0 rest Hd Hm|rest Hd Hm|k c rest Hd Hm|m Hm Hd|r0 n0 k Hd Ho|c n0 k d Hd Ho Hdd|r0 h0 sid0 Hd Ho Hs0|r0 h0 sid0 Hd Ho|c Hd|r0 Hd|k s0 c Ho Hs0 Hpe Hl Hch];
      cbn [p_node p_mail p_do p_in p_out set_do set_mail].
  - by right.
  - destruct Hm as [->|[->|(e & -> & ->)]]; [right; by rewrite app_nil_r|right; rewrite mail_chat_app; cbn; by rewrite app_nil_r|].
    destruct e; [right; rewrite mail_chat_app; cbn; by rewrite app_nil_r| |right; rewrite mail_chat_app; cbn; by rewrite app_nil_r..].
    left. eexists. split; [done|]. rewrite mail_chat_app, to_room_app, fmap_app. by rewrite app_assoc.
  - right. by rewrite Hd, Hm.
  - right. rewrite Hd, Hm. cbn. rewrite Hn. by case_bool_decide.
  - right. rewrite Hd, Hm. cbn. case_bool_decide; cbn; [by constructor|done].
  - right. by rewrite Hd, Hm.
  - right. rewrite Hd, Hm. rewrite mail_chat_app. cbn. by rewrite app_nil_r.
  - right. by rewrite Hd, Hm.
  - right. apply sublist_inserts_l. destruct Hm as [[<- _]|Hm]; [done|]. by rewrite Hm.
  - right. by rewrite Hd.
  - right. apply sublist_app; [|done]. destruct Hdd as [->| ->]; apply sublist_nil_l.
  - right. by rewrite Hd.
  - right. by rewrite Hd.
  - right. by rewrite Hd.
  - right. destruct Hd as [Hd|[h Hd]]; by rewrite Hd.
  - right. rewrite mail_chat_app. cbn. by rewrite app_nil_r.
Qed.

Lemma in_order l w i r name : cruns new_world l = Some w -> (forall j n, CConnect j n name ∈ l -> j = i) ->
  forall p, w_peers w !! i = Some p -> p_name p = name ->
  of_sender name (accepted w r) ++ on_way r name p `sublist_of` sent_in l i r name.
Proof.
  revert l w. apply (hist_ind (fun l w => (forall j n, CConnect j n name ∈ l -> j = i) ->
    forall p, w_peers w !! i = Some p -> p_name p = name -> of_sender name (accepted w r) ++ on_way r name p `sublist_of` sent_in l i r name)).
  { intros _ p Hp. cbn in Hp. by rewrite lookup_empty in Hp. }
  intros l w o w' Hrun IH E Huniq p' Hp' Hn.
  assert (Hu0 : forall j n, CConnect j n name ∈ l -> j = i).
  { intros j n Hin. apply (Huniq j n). rewrite elem_of_app. by left. }
  assert (So := sound_runs _ _ Hrun).
  destruct (w_peers w !! i) as [p|] eqn:Hp; cycle 1.
  { destruct (peer_new _ _ _ _ _ E Hp Hp') as (n & name' & -> & ->). cbn in Hn. subst name'.
    assert (Ha : accepted w' r = accepted w r).
    { destruct (acc_step _ _ _ E) as [Hl|(i0 & n0 & k0 & p0 & c0 & H0 & _)]; [|done]. unfold accepted. by rewrite Hl. }
    rewrite Ha. assert (Hz : of_sender name (accepted w r) = []); [|rewrite Hz; apply sublist_nil_l].
    assert (Hno : forall c, c ∈ accepted w r -> c_sender c <> Some name).
    { intros c Hc Hs. destruct (or_acc _ _ (so_or _ _ So) _ _ Hc) as (_ & j & nm & c0 & [n1 Hj] & _ & -> & _). cbn in Hs. injection Hs as ->.
      assert (j = i) as -> by eauto. destruct (connected _ _ i Hrun) as [q Hq]; [eauto|]. congruence. }
    revert Hno. generalize (accepted w r). intros L. induction L as [|c L IHL]; intros Hno; [done|]. unfold of_sender. cbn.
    rewrite bool_decide_eq_false_2 by (apply Hno; by left). apply IHL. intros c' Hc'. apply Hno. by right. }
  destruct (pchange_step _ _ _ _ _ E Hp) as (q & Hq & Hc). assert (q = p') as -> by congruence.
  assert (Hpn : p_name p = name) by (by rewrite <- (name_kept _ _ _ _ _ _ E Hp Hp')).
  specialize (IH Hu0 p eq_refl Hpn).
  destruct (acc_step _ _ _ E) as [Hl|(i0 & n0 & k0 & p0 & c0 & -> & Hp0 & Hd0 & Hk0 & Hl)].
  - assert (Ha : accepted w' r = accepted w r) by (unfold accepted; by rewrite Hl). rewrite Ha.
    destruct (on_way_step _ _ _ _ _ r name Hc Hpn) as [(e & -> & He)|Hsub].
    + rewrite He, app_assoc. unfold sent_in. rewrite said_app, to_room_app, fmap_app. apply sublist_app; [exact IH|]. cbn. by rewrite N.eqb_refl.
    + apply sent_in_mono. etrans; [|exact IH]. by apply sublist_app.
  - apply sent_in_mono. etrans; [|exact IH].
    assert (Ha : accepted w' r = accepted (keep w (c_room c0) c0) r) by (unfold accepted; by rewrite Hl).
    rewrite Ha, accepted_keep. destruct (decide (i0 = i)) as [->|Hne].
    + assert (p0 = p) as -> by congruence.
      assert (Hout : on_way r name p' = signed name <$> to_room r (mail_chat (p_mail p))).
      { cbn in E. rewrite Hp in E. cbn in E. unfold on_room in E. rewrite Hd0 in E. destruct k0; [|done|]; apply (inj Some) in E; subst w';
          cbn in Hp'; rewrite lookup_insert in Hp'; injection Hp' as <-; done. }
      rewrite Hout. unfold on_way. rewrite Hd0. cbn [doing_chat].
      assert (Hs0 := under_name_runs _ _ Hrun _ _ _ Hp Hd0). rewrite Hpn in Hs0.
      case_decide as Hr.
      * subst r. unfold of_sender at 1. rewrite List.filter_app. cbn. rewrite !bool_decide_eq_true_2 by done. by rewrite <- app_assoc.
      * apply sublist_app; [done|]. by apply sublist_inserts_l.
    + assert (Hpp : p' = p).
      { cbn in E. rewrite Hp0 in E. cbn in E. unfold on_room in E. rewrite Hd0 in E. destruct k0; [|done|]; apply (inj Some) in E; subst w';
          cbn in Hp'; rewrite lookup_insert_ne in Hp' by done; congruence. }
      subst p'. apply sublist_app; [|done]. case_decide as Hr; [|done]. subst r.
      assert (Hs0 := under_name_runs _ _ Hrun _ _ _ Hp0 Hd0).
      unfold of_sender. rewrite List.filter_app. cbn. rewrite bool_decide_eq_false_2; [by rewrite app_nil_r|].
      rewrite Hs0. intros [= Hs1]. apply Hne. destruct (or_peers _ _ (so_or _ _ So) _ _ Hp0) as [Hcn _]. rewrite Hs1 in Hcn. eauto.
Qed.
