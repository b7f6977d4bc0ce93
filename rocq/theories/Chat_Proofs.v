(** Proofs about the chat. *)
From Verif Require Import Chat_Model Chat_Spec.

Lemma cruns_app w l1 l2 : cruns w (l1 ++ l2) = (w1 ← cruns w l1; cruns w1 l2).
Proof. revert w. induction l1 as [|o l1 IH]; intros w; [done|]. cbn. destruct (cstep w o); cbn; [apply IH|done]. Qed.

Lemma cruns_snoc w l o w' : cruns w (l ++ [o]) = Some w' -> exists w1, cruns w l = Some w1 /\ cstep w1 o = Some w'.
Proof.
  rewrite cruns_app. destruct (cruns w l) as [w1|]; cbn; [|done].
  destruct (cstep w1 o) eqn:E; cbn; [|done]. intros [= <-]. eauto.
Qed.

(** Invariants that may mention what happened so far. *)
Lemma hist_ind (P : list cop -> world -> Prop) w0 :
  P [] w0 -> (forall l w o w', cruns w0 l = Some w -> P l w -> cstep w o = Some w' -> P (l ++ [o]) w') ->
  forall l w, cruns w0 l = Some w -> P l w.
Proof.
  intros H0 Hs l. induction l as [|o l IH] using rev_ind; intros w E.
  - cbn in E. injection E as <-. done.
  - apply cruns_snoc in E as (w1 & E1 & E2). eauto.
Qed.

(** ** The journal *)
Lemma accepted_keep w r c r' : accepted (keep w r c) r' = if decide (r' = r) then accepted w r ++ [c] else accepted w r'.
Proof. unfold accepted, keep. cbn. case_decide as E; [subst; by rewrite lookup_insert|by rewrite lookup_insert_ne]. Qed.

(** The step changes the journal: a message is accepted. *)
Lemma acc_step w o w' : cstep w o = Some w' ->
  w_log w' = w_log w \/
  exists i n k p c, o = CRoom i n k /\ w_peers w !! i = Some p /\ p_do p = ChatSent c /\ k <> NotKept /\ w_log w' = w_log (keep w (c_room c) c).
Proof.
  intros E. destruct o; cbn in E; try (left; congruence).
  - repeat case_match; simplify_eq. by left.
  - apply bind_Some in E as (p & Ep & E). unfold on_frame in E. repeat case_match; simplify_eq; by left.
  - apply bind_Some in E as (p & Ep & E). unfold on_mail in E.
    repeat case_match; simplify_eq; try by left.
    unfold end_sub. case_match; by left.
  - apply bind_Some in E as (p & Ep & E). unfold on_room in E. repeat case_match; simplify_eq; try by left.
    + right. by exists i, n, Kept, p, c.
    + right. by exists i, n, Crashed, p, c.
  - apply bind_Some in E as (p & Ep & E). unfold on_subscribe in E. repeat case_match; simplify_eq. by left.
  - apply bind_Some in E as (p & Ep & E). unfold on_resume in E. repeat case_match; simplify_eq; try by left. unfold end_sub. case_match; by left.
  - apply bind_Some in E as (p & Ep & E). unfold on_fail in E. repeat case_match; simplify_eq; by left.
  - unfold on_deliver in E. apply bind_Some in E as (s & Es & E). apply bind_Some in E as (p & Ep & E).
    repeat case_match; simplify_eq; by left.
  - apply bind_Some in E as ([[d r] c] & Ep & E). simplify_eq. by left.
  - apply bind_Some in E as (x & Ep & E). simplify_eq. by left.
  - apply bind_Some in E as (x & Ep & E). simplify_eq. by left.
  - simplify_eq. by left.
Qed.

Lemma accepted_step w o w' r : cstep w o = Some w' -> accepted w r `prefix_of` accepted w' r.
Proof.
  intros [H|(i & n & k & p & c & -> & _ & _ & _ & H)]%acc_step; unfold accepted; rewrite H; [done|].
  change (accepted w r `prefix_of` accepted (keep w (c_room c) c) r). rewrite accepted_keep. case_decide; subst; [by eexists|done].
Qed.
Lemma accepted_runs w l w' r : cruns w l = Some w' -> accepted w r `prefix_of` accepted w' r.
Proof.
  revert w. induction l as [|o l IH]; intros w E; [cbn in E; by simplify_eq|].
  cbn in E. destruct (cstep w o) as [w1|] eqn:E1; [|done]. cbn in E.
  etrans; [by eapply accepted_step|by eapply IH].
Qed.

Definition mine (l : list cop) (w : world) (i : N) (c : chat) : Prop :=
  exists r, asked_join l i r /\ c ∈ accepted w r.

Definition mail_ok l w i (m : pmail) : Prop :=
  match m with MEvent e => CFrame i (FEvent e) ∈ l | MLive _ c => mine l w i c | MStop => True end.
Definition do_ok l w i (d : doing) : Prop :=
  match d with
  | JoinSent r => asked_join l i r
  | JoinAnswered r h | Subscribed r h _ => asked_join l i r /\ past_log l i r h /\ h `prefix_of` accepted w r
  | ChatSent c => genuine l c
  | _ => True
  end.
Definition out_ok l w i (x : wrote) : Prop :=
  match x with Past c | Live _ c => mine l w i c | Welcome r => asked_join l i r end.
Definition peer_ok l w i (p : peer) : Prop :=
  CConnect i (p_node p) (p_name p) ∈ l /\ Forall (mail_ok l w i) (p_mail p) /\ do_ok l w i (p_do p) /\
  (forall r k, p_in p !! r = Some k -> asked_join l i r) /\ Forall (out_ok l w i) (p_out p).

Record origin (l : list cop) (w : world) : Prop := {
  or_peers : forall i p, w_peers w !! i = Some p -> peer_ok l w i p;
  or_acc : forall r c, c ∈ accepted w r -> c_room c = r /\ genuine l c;
  or_rooms : forall r o, w_rooms w !! r = Some o -> o_msgs o = accepted w r;
  or_chans : forall n r L c, w_chans w !! (n, r) = Some L -> c ∈ L -> c ∈ accepted w r;
  or_fly : forall d r c, (d, r, c) ∈ w_fly w -> c ∈ accepted w r;
  or_subs : forall k s, w_subs w !! k = Some s -> asked_join l (s_peer s) (s_room s)
}.

Section mono.
Context (l : list cop) (o : cop) (w w' : world).
Hypothesis Hacc : forall r, accepted w r `prefix_of` accepted w' r.
Lemma asked_mono i r : asked_join l i r -> asked_join (l ++ [o]) i r.
Proof. unfold asked_join. rewrite elem_of_app. by left. Qed.
Lemma genuine_mono c : genuine l c -> genuine (l ++ [o]) c.
Proof.
  intros (j & name & c0 & [n Hn] & Hs & -> & Ha). exists j, name, c0. split_and!; [|..|done|by apply asked_mono].
  - exists n. rewrite elem_of_app. by left.
  - unfold said. rewrite omap_app, elem_of_app. by left.
Qed.
Lemma past_mono i r h : past_log l i r h -> past_log (l ++ [o]) i r h.
Proof. intros (l1 & l2 & w0 & -> & ? & ? & ?). exists l1, (l2 ++ [o]), w0. by rewrite app_assoc. Qed.
Lemma mine_mono i c : mine l w i c -> mine (l ++ [o]) w' i c.
Proof. intros (r & Ha & Hc). exists r. split; [by apply asked_mono|]. destruct (Hacc r) as [z ->]. rewrite elem_of_app. by left. Qed.
Lemma mail_mono i m : mail_ok l w i m -> mail_ok (l ++ [o]) w' i m.
Proof. destruct m; cbn; [rewrite elem_of_app; by left|apply mine_mono|done]. Qed.
Lemma do_mono i d : do_ok l w i d -> do_ok (l ++ [o]) w' i d.
Proof.
  assert (H3 : forall r h, asked_join l i r /\ past_log l i r h /\ h `prefix_of` accepted w r ->
    asked_join (l ++ [o]) i r /\ past_log (l ++ [o]) i r h /\ h `prefix_of` accepted w' r).
  { intros r h (H1 & H2 & H3). split_and!; [by apply asked_mono|by apply past_mono|by etrans]. }
  destruct d; cbn; try done; [apply asked_mono|apply H3|apply H3|apply genuine_mono].
Qed.
Lemma out_mono i x : out_ok l w i x -> out_ok (l ++ [o]) w' i x.
Proof. destruct x; cbn; [apply mine_mono|apply asked_mono|apply mine_mono]. Qed.
Lemma peer_mono i p : peer_ok l w i p -> peer_ok (l ++ [o]) w' i p.
Proof.
  intros (H1 & H2 & H3 & H4 & H5). split_and!.
  - rewrite elem_of_app. by left.
  - eapply Forall_impl; [exact H2|]. apply mail_mono.
  - by apply do_mono.
  - intros r k Hr. by eapply asked_mono, H4.
  - eapply Forall_impl; [exact H5|]. apply out_mono.
Qed.
Lemma peers_mono i p' : (forall j p, w_peers w !! j = Some p -> peer_ok l w j p) -> peer_ok (l ++ [o]) w' i p' ->
  w_peers w' = <[i := p']> (w_peers w) -> forall j p, w_peers w' !! j = Some p -> peer_ok (l ++ [o]) w' j p.
Proof.
  intros HP Hp -> j p. destruct (decide (j = i)) as [->|Hne].
  - rewrite lookup_insert. by intros [= <-].
  - rewrite lookup_insert_ne by done. intros Hj. by apply peer_mono, HP.
Qed.
Lemma peers_same : (forall j p, w_peers w !! j = Some p -> peer_ok l w j p) ->
  w_peers w' = w_peers w -> forall j p, w_peers w' !! j = Some p -> peer_ok (l ++ [o]) w' j p.
Proof. intros HP -> j p Hj. by apply peer_mono, HP. Qed.
End mono.

(** The parts of the invariant that are not about peers, when no message is accepted and only
    peers and the liveness of subscriptions change. *)
Lemma origin_peers l o w w' : origin l w -> cstep w o = Some w' ->
  w_rooms w' = w_rooms w -> w_log w' = w_log w -> w_chans w' = w_chans w -> w_fly w' ⊆ w_fly w ->
  (forall k s', w_subs w' !! k = Some s' -> exists s, w_subs w !! k = Some s /\ s_peer s' = s_peer s /\ s_room s' = s_room s) ->
  (forall i p, w_peers w' !! i = Some p -> peer_ok (l ++ [o]) w' i p) -> origin (l ++ [o]) w'.
Proof.
  intros [O1 O2 O3 O4 O5 O6] Hs Hr Hl Hc Hf Hsub HP.
  assert (Ha : forall r, accepted w' r = accepted w r) by (intros r; unfold accepted; by rewrite Hl).
  split.
  - done.
  - intros r c. rewrite Ha. intros H. destruct (O2 _ _ H). split; [done|by apply genuine_mono].
  - intros r o'. rewrite Hr, Ha. apply O3.
  - intros n r L c. rewrite Hc, Ha. apply O4.
  - intros d r c Hin. rewrite Ha. eapply O5, Hf, Hin.
  - intros k s' Hk. destruct (Hsub _ _ Hk) as (s & Es & -> & ->). by eapply asked_mono, O6.
Qed.

Lemma subs_same w w' : w_subs w' = w_subs w ->
  forall k s', w_subs w' !! k = Some s' -> exists s, w_subs w !! k = Some s /\ s_peer s' = s_peer s /\ s_room s' = s_room s.
Proof. intros -> k s' H. eauto. Qed.
Lemma subs_ended w k0 : forall k s', alter ended k0 (w_subs w) !! k = Some s' ->
  exists s, w_subs w !! k = Some s /\ s_peer s' = s_peer s /\ s_room s' = s_room s.
Proof.
  intros k s'. destruct (decide (k = k0)) as [->|Hne].
  - rewrite lookup_alter. intros (s & Es & ->)%fmap_Some. by exists s.
  - rewrite lookup_alter_ne by done. eauto.
Qed.
Lemma subs_died w i : forall k s', ((fun s => if (s_peer s =? i)%N then ended s else s) <$> w_subs w) !! k = Some s' ->
  exists s, w_subs w !! k = Some s /\ s_peer s' = s_peer s /\ s_room s' = s_room s.
Proof.
  intros k s'. rewrite lookup_fmap. intros (s & Es & ->)%fmap_Some. exists s. split; [done|]. by case_match.
Qed.

Lemma elem_del {A} (x : A) (k : nat) (L : list A) : x ∈ delete k L -> x ∈ L.
Proof. intros H. eapply elem_of_submseteq; [exact H|]. apply submseteq_delete. Qed.
Lemma elem_head {A} (P : A -> Prop) m rest : Forall P (m :: rest) -> P m /\ Forall P rest.
Proof. by intros ?%Forall_cons_1. Qed.

Lemma origin_step l w o w' : cruns new_world l = Some w -> origin l w -> cstep w o = Some w' -> origin (l ++ [o]) w'.
Proof.
  intros Hrun O E. pose proof E as Est. pose proof (fun r => accepted_step w o w' r E) as Hacc.
  pose proof (or_peers _ _ O) as OP.
  destruct o; cbn in E.
  - (* connect *)
    destruct (w_peers w !! i) as [?|] eqn:Ei; [done|]. injection E as <-.
    eapply origin_peers; [exact O|exact Est|done|done|done|done|by apply subs_same|].
    eapply (peers_mono l _ w); [exact Hacc|exact OP| |reflexivity].
    split_and!; cbn; [|constructor|done|intros r k; by rewrite lookup_empty|constructor].
    rewrite elem_of_app. right. by left.
  - (* frame *)
    apply bind_Some in E as (p & Ep & E). unfold on_frame in E.
    pose proof (OP _ _ Ep) as HP. apply (peer_mono l (CFrame i f) w w' Hacc) in HP as (H1 & H2 & H3 & H4 & H5).
    destruct (p_reader p); [|done].
    destruct f as [e| | |].
    + injection E as <-. destruct (p_alive p) eqn:Ea.
      * eapply origin_peers; [exact O|exact Est|done|done|done|done|by apply subs_same|].
        eapply (peers_mono l _ w); [exact Hacc|exact OP| |reflexivity].
        split_and!; cbn; try done. apply Forall_app; split; [done|]. constructor; [|constructor]. cbn. rewrite elem_of_app. right. by left.
      * eapply origin_peers; [exact O|exact Est|done|done|done|done|by apply subs_same|].
        eapply (peers_same l _ w); [exact Hacc|exact OP|done].
    + injection E as <-. eapply origin_peers; [exact O|exact Est|done|done|done|done|by apply subs_same|].
      eapply (peers_same l _ w); [exact Hacc|exact OP|done].
    + injection E as <-. eapply origin_peers; [exact O|exact Est|done|done|done|done|by apply subs_same|].
      eapply (peers_mono l _ w); [exact Hacc|exact OP| |reflexivity]. split_and!; done.
    + injection E as <-. eapply origin_peers; [exact O|exact Est|done|done|done|done|by apply subs_same|].
      eapply (peers_mono l _ w); [exact Hacc|exact OP| |reflexivity]. split_and!; cbn; try done.
      apply Forall_app; split; [done|]. constructor; [done|constructor].
  - (* handle *)
    apply bind_Some in E as (p & Ep & E). unfold on_mail in E.
    pose proof (OP _ _ Ep) as HP0. pose proof HP0 as HP. apply (peer_mono l (CHandle i) w w' Hacc) in HP as (H1 & H2 & H3 & H4 & H5).
    destruct (p_alive p) eqn:Ea; [|done]. destruct (p_do p) eqn:Ed; try done.
    destruct (p_mail p) as [|m rest] eqn:Em; [done|].
    apply elem_head in H2 as [Hm Hrest].
    destruct m as [[r|c|r|]|sid c|].
    + injection E as <-. eapply origin_peers; [exact O|exact Est|done|done|done|done|by apply subs_same|].
      eapply (peers_mono l _ w); [exact Hacc|exact OP| |reflexivity]. split_and!; cbn; done.
    + injection E as <-. eapply origin_peers; [exact O|exact Est|done|done|done|done|by apply subs_same|].
      eapply (peers_mono l _ w); [exact Hacc|exact OP| |reflexivity].
      destruct (p_in p !! c_room c) eqn:Ei.
      * split_and!; cbn; try done. exists i, (p_name p), c. split_and!; [by exists (p_node p)| |done|by eapply H4].
        unfold said. apply elem_of_list_omap. exists (CFrame i (FEvent (EChat c))). split; [exact Hm|]. by rewrite N.eqb_refl.
      * split_and!; cbn; try done. by rewrite Ed.
    + injection E as <-.
      assert (HP' : peer_ok (l ++ [CHandle i]) (end_sub (set_peer w i (Peer (p_node p) (p_name p) (p_alive p) (p_reader p) rest (p_do p) (delete r (p_in p)) (p_out p))) (p_in p !! r)) i
                      (Peer (p_node p) (p_name p) (p_alive p) (p_reader p) rest (p_do p) (delete r (p_in p)) (p_out p))).
      { cbn in *. rewrite Ed in *. split_and!; cbn; try done. intros r' k. rewrite lookup_delete_Some. intros [_ ?]. by eapply H4. }
      eapply origin_peers; [exact O|exact Est|..]; cbn; unfold end_sub; try (by case_match).
      * destruct (p_in p !! r); [exact (subs_ended w _)|by apply subs_same].
      * eapply (peers_mono l _ w); [exact Hacc|exact OP|exact HP'|]. unfold end_sub. by case_match.
    + injection E as <-. eapply origin_peers; [exact O|exact Est|done|done|done|done|by apply subs_same|].
      eapply (peers_mono l _ w); [exact Hacc|exact OP| |reflexivity]. split_and!; cbn; try done; [|by rewrite Ed].
      apply Forall_app; split; [done|]. constructor; [done|constructor].
    + injection E as <-. eapply origin_peers; [exact O|exact Est|done|done|done|done|by apply subs_same|].
      eapply (peers_mono l _ w); [exact Hacc|exact OP| |reflexivity]. split_and!; cbn; try done; [by rewrite Ed|].
      apply Forall_app; split; [done|]. constructor; [done|constructor].
    + injection E as <-. eapply origin_peers; [exact O|exact Est|done|done|done|done|apply subs_died|].
      eapply (peers_mono l _ w); [exact Hacc|exact OP| |reflexivity]. split_and!; cbn; done.
  - (* room *)
    apply bind_Some in E as (p & Ep & E). unfold on_room in E.
    pose proof (OP _ _ Ep) as HP0. pose proof HP0 as HP. apply (peer_mono l (CRoom i n k) w w' Hacc) in HP as (H1 & H2 & H3 & H4 & H5).
    assert (Hroom : forall r, o_msgs (the_room w r n) = accepted w r).
    { intros r. unfold the_room. destruct (w_rooms w !! r) as [o|] eqn:Er; [by apply (or_rooms _ _ O)|done]. }
    destruct (p_do p) as [|r| | |c| |] eqn:Ed; try done.
    + injection E as <-. split.
      * eapply (peers_mono l _ w); [exact Hacc|exact OP| |reflexivity]. split_and!; cbn; try done. split_and!; [done|..].
        -- exists l, [CRoom i n k], w. split_and!; [done|done|by rewrite Hroom|]. destruct HP0 as (_ & _ & Hd & _). by rewrite Ed in Hd.
        -- by rewrite Hroom.
      * intros r' c Hc. destruct (or_acc _ _ O r' c Hc). split; [done|by apply genuine_mono].
      * intros r' o. cbn. destruct (decide (r' = r)) as [->|Hne].
        -- rewrite lookup_insert. intros [= <-]. apply Hroom.
        -- rewrite lookup_insert_ne by done. apply (or_rooms _ _ O).
      * apply (or_chans _ _ O).
      * apply (or_fly _ _ O).
      * intros k' s Hk. by eapply asked_mono, (or_subs _ _ O).
    + assert (Hgen : genuine (l ++ [CRoom i n k]) c) by (exact H3).
      assert (HA : forall r' c' w2, w_log w2 = w_log (keep w (c_room c) c) -> c' ∈ accepted w2 r' -> c_room c' = r' /\ genuine (l ++ [CRoom i n k]) c').
      { intros r' c' w2 El. unfold accepted. rewrite El. change (default [] (w_log (keep w (c_room c) c) !! r')) with (accepted (keep w (c_room c) c) r').
        rewrite accepted_keep. case_decide as Hd.
        - subst r'. rewrite elem_of_app, elem_of_list_singleton. intros [Hc| ->].
          + destruct (or_acc _ _ O _ _ Hc). split; [done|by apply genuine_mono].
          + done.
        - intros Hc. destruct (or_acc _ _ O _ _ Hc). split; [done|by apply genuine_mono]. }
      destruct k.
      * injection E as <-. split.
        -- eapply (peers_mono l _ w); [exact Hacc|exact OP| |reflexivity]. split_and!; cbn; done.
        -- intros r' c'. by apply HA.
        -- intros r' o. cbn. destruct (decide (r' = c_room c)) as [->|Hne].
           ++ rewrite lookup_insert. intros [= <-]. cbn. rewrite Hroom.
              change (accepted w (c_room c) ++ [c] = accepted (keep w (c_room c) c) (c_room c)). rewrite accepted_keep. by case_decide.
           ++ rewrite lookup_insert_ne by done. intros Hr. rewrite (or_rooms _ _ O _ _ Hr).
              change (accepted w r' = accepted (keep w (c_room c) c) r'). rewrite accepted_keep. by case_decide.
        -- intros n' r' L c' HL Hc.
           change (c' ∈ accepted (keep w (c_room c) c) r'). rewrite accepted_keep.
           cbn in HL. destruct (decide ((n', r') = (o_home (the_room w (c_room c) n), c_room c))) as [He|Hne].
           ++ injection He as -> ->. rewrite lookup_alter in HL. apply fmap_Some in HL as (L0 & HL0 & ->).
              case_decide; [|done]. rewrite elem_of_app in *. destruct Hc as [Hc|Hc]; [left; by eapply (or_chans _ _ O)|by right].
           ++ rewrite lookup_alter_ne in HL by done. pose proof (or_chans _ _ O _ _ _ _ HL Hc). case_decide; [|done]. subst. rewrite elem_of_app. by left.
        -- intros d r' c' Hin. change (c' ∈ accepted (keep w (c_room c) c) r'). rewrite accepted_keep.
           cbn in Hin. rewrite elem_of_app in Hin. destruct Hin as [Hin|Hin].
           ++ pose proof (or_fly _ _ O _ _ _ Hin). case_decide; [|done]. subst. rewrite elem_of_app. by left.
           ++ apply elem_of_list_fmap in Hin as (d' & He & _). injection He as -> -> ->. case_decide; [|done]. rewrite elem_of_app. right. by left.
        -- intros k' s Hk. by eapply asked_mono, (or_subs _ _ O).
      * injection E as <-. split.
        -- eapply (peers_mono l _ w); [exact Hacc|exact OP| |reflexivity]. split_and!; cbn; done.
        -- intros r' c' Hc. destruct (or_acc _ _ O r' c' Hc). split; [done|by apply genuine_mono].
        -- intros r' o. cbn. destruct (decide (r' = c_room c)) as [->|Hne].
           ++ rewrite lookup_insert. intros [= <-]. apply Hroom.
           ++ rewrite lookup_insert_ne by done. apply (or_rooms _ _ O).
        -- apply (or_chans _ _ O).
        -- apply (or_fly _ _ O).
        -- intros k' s Hk. by eapply asked_mono, (or_subs _ _ O).
      * injection E as <-. split.
        -- eapply (peers_mono l _ w); [exact Hacc|exact OP| |reflexivity]. split_and!; cbn; done.
        -- intros r' c'. by apply HA.
        -- intros r' o. cbn. rewrite lookup_delete_Some. intros [Hne Hr]. rewrite (or_rooms _ _ O _ _ Hr).
           change (accepted w r' = accepted (keep w (c_room c) c) r'). rewrite accepted_keep. case_decide; congruence.
        -- intros n' r' L c' HL Hc. change (c' ∈ accepted (keep w (c_room c) c) r'). rewrite accepted_keep.
           pose proof (or_chans _ _ O _ _ _ _ HL Hc). case_decide; [|done]. subst. rewrite elem_of_app. by left.
        -- intros d r' c' Hin. change (c' ∈ accepted (keep w (c_room c) c) r'). rewrite accepted_keep.
           pose proof (or_fly _ _ O _ _ _ Hin). case_decide; [|done]. subst. rewrite elem_of_app. by left.
        -- intros k' s Hk. by eapply asked_mono, (or_subs _ _ O).
  - (* subscribe *)
    apply bind_Some in E as (p & Ep & E). unfold on_subscribe in E.
    pose proof (OP _ _ Ep) as HP0. pose proof HP0 as HP. apply (peer_mono l (CSubscribe i sid) w w' Hacc) in HP as (H1 & H2 & H3 & H4 & H5).
    destruct (p_do p) as [| |r h| | | |] eqn:Ed; try done. destruct (w_subs w !! sid) eqn:Es; [done|]. injection E as <-.
    split.
    + eapply (peers_mono l _ w); [exact Hacc|exact OP| |reflexivity]. split_and!; cbn; try done; apply H3.
    + intros r' c Hc. destruct (or_acc _ _ O r' c Hc). split; [done|by apply genuine_mono].
    + apply (or_rooms _ _ O).
    + intros n' r' L c' HL Hc. cbn in HL. destruct (decide ((n', r') = (p_node p, r))) as [He|Hne].
      * injection He as -> ->. rewrite lookup_insert in HL. injection HL as <-.
        destruct (w_chans w !! (p_node p, r)) as [L|] eqn:EL; cbn in Hc; [|by apply elem_of_nil in Hc].
        by eapply (or_chans _ _ O).
      * rewrite lookup_insert_ne in HL by done. by eapply (or_chans _ _ O).
    + apply (or_fly _ _ O).
    + intros k s. cbn. destruct (decide (k = sid)) as [->|Hne].
      * rewrite lookup_insert. intros [= <-]. cbn. apply H3.
      * rewrite lookup_insert_ne by done. intros Hk. by eapply asked_mono, (or_subs _ _ O).
  - (* resume *)
    apply bind_Some in E as (p & Ep & E). unfold on_resume in E.
    pose proof (OP _ _ Ep) as HP0. pose proof HP0 as HP. apply (peer_mono l (CResume i) w w' Hacc) in HP as (H1 & H2 & H3 & H4 & H5).
    destruct (p_do p) as [| | |r h sid| | |] eqn:Ed; try done.
    + injection E as <-. destruct H3 as (Ha & Hp & Hh).
      set (p' := Peer _ _ _ _ _ _ _ _) in *.
      assert (HP' : peer_ok (l ++ [CResume i]) (end_sub (set_peer w i p') (p_in p !! r)) i p').
      { split_and!; cbn; try done.
        - intros r' k. destruct (decide (r' = r)) as [->|Hne]; [done|]. rewrite lookup_insert_ne by done. apply H4.
        - apply Forall_app; split; [done|]. apply Forall_app; split; [|by repeat constructor].
          apply Forall_fmap, Forall_forall. intros c Hc. cbn. exists r. split; [done|]. destruct Hh as [z ->]. rewrite elem_of_app. by left. }
      eapply origin_peers; [exact O|exact Est|..]; cbn; unfold end_sub; try (by case_match).
      * destruct (p_in p !! r); [exact (subs_ended w _)|by apply subs_same].
      * eapply (peers_mono l _ w); [exact Hacc|exact OP|exact HP'|]. unfold end_sub. by case_match.
    + injection E as <-. eapply origin_peers; [exact O|exact Est|done|done|done|done|by apply subs_same|].
      eapply (peers_mono l _ w); [exact Hacc|exact OP| |reflexivity]. split_and!; cbn; done.
  - (* fail *)
    apply bind_Some in E as (p & Ep & E). unfold on_fail in E.
    pose proof (OP _ _ Ep) as HP0. pose proof HP0 as HP. apply (peer_mono l (CFail i) w w' Hacc) in HP as (H1 & H2 & H3 & H4 & H5).
    assert (Hcase : w' = set_peer w i (set_do p Idle) \/ w' = die w i p).
    { destruct (p_do p); simplify_eq; eauto. }
    clear E. destruct Hcase as [-> | ->].
    + eapply origin_peers; [exact O|exact Est|done|done|done|done|by apply subs_same|].
      eapply (peers_mono l _ w); [exact Hacc|exact OP| |reflexivity]. split_and!; cbn; done.
    + eapply origin_peers; [exact O|exact Est|done|done|done|done|apply subs_died|].
      eapply (peers_mono l _ w); [exact Hacc|exact OP| |reflexivity]. split_and!; cbn; done.
  - (* deliver *)
    unfold on_deliver in E. apply bind_Some in E as (s & Es & E). apply bind_Some in E as (p & Ep & E).
    destruct (s_live s); [|done].
    assert (Hend : w' = end_sub w (Some sid) -> origin (l ++ [CDeliver sid]) w').
    { intros ->. eapply origin_peers; [exact O|exact Est|done|done|done|done|apply subs_ended|].
      eapply (peers_same l _ w); [exact Hacc|exact OP|done]. }
    destruct (_ <? _)%nat; [apply Hend; by injection E as <-|].
    destruct (_ !! s_next s) as [c|] eqn:Ec; [|done].
    destruct (p_alive p); [|apply Hend; by injection E as <-].
    pose proof (OP _ _ Ep) as HP. apply (peer_mono l (CDeliver sid) w w' Hacc) in HP as (H1 & H2 & H3 & H4 & H5).
    injection E as <-. clear Hend.
    eapply origin_peers; [exact O|exact Est|done|done|done|done| |].
    + intros k s'. cbn. destruct (decide (k = sid)) as [->|Hne].
      * rewrite lookup_insert. intros [= <-]. by exists s.
      * rewrite lookup_insert_ne by done. eauto.
    + eapply (peers_mono l _ w); [exact Hacc|exact OP| |reflexivity]. split_and!; cbn; try done.
      apply Forall_app; split; [done|]. constructor; [|constructor]. cbn. exists (s_room s). split; [by eapply asked_mono, (or_subs _ _ O)|].
      destruct (w_chans w !! (s_node s, s_room s)) as [L|] eqn:EL; cbn in Ec; [|done].
      change (c ∈ accepted w (s_room s)). eapply (or_chans _ _ O); [done|]. by eapply elem_of_list_lookup_2.
  - (* arrive *)
    apply bind_Some in E as ([[d r] c] & Ef & E). injection E as <-. split.
    + eapply (peers_same l _ w); [exact Hacc|exact OP|done].
    + intros r' c' Hc. destruct (or_acc _ _ O r' c' Hc). split; [done|by apply genuine_mono].
    + apply (or_rooms _ _ O).
    + intros n' r' L c' HL Hc. change (c' ∈ accepted w r'). cbn in HL. destruct (decide ((n', r') = (d, r))) as [He|Hne].
      * injection He as -> ->. rewrite lookup_alter in HL. apply fmap_Some in HL as (L0 & HL0 & ->).
        rewrite elem_of_app, elem_of_list_singleton in Hc. destruct Hc as [Hc| ->]; [by eapply (or_chans _ _ O)|].
        eapply (or_fly _ _ O). by eapply elem_of_list_lookup_2.
      * rewrite lookup_alter_ne in HL by done. by eapply (or_chans _ _ O).
    + intros d' r' c' Hin. eapply (or_fly _ _ O). cbn in Hin. by eapply elem_del.
    + intros k' s Hk. by eapply asked_mono, (or_subs _ _ O).
  - (* drop *)
    apply bind_Some in E as (x & Ef & E). injection E as <-.
    eapply origin_peers; [exact O|exact Est|done|done|done| |by apply subs_same|].
    + intros y Hy. by eapply elem_del.
    + eapply (peers_same l _ w); [exact Hacc|exact OP|done].
  - (* room stops *)
    apply bind_Some in E as (x & Ef & E). injection E as <-. split.
    + eapply (peers_same l _ w); [exact Hacc|exact OP|done].
    + intros r' c' Hc. destruct (or_acc _ _ O r' c' Hc). split; [done|by apply genuine_mono].
    + intros r' o. cbn. rewrite lookup_delete_Some. intros [_ Hr]. by apply (or_rooms _ _ O).
    + apply (or_chans _ _ O).
    + apply (or_fly _ _ O).
    + intros k' s Hk. by eapply asked_mono, (or_subs _ _ O).
  - (* member *)
    injection E as <-. eapply origin_peers; [exact O|exact Est|done|done|done|done|by apply subs_same|].
    eapply (peers_same l _ w); [exact Hacc|exact OP|done].
Qed.

Lemma origin_runs l w : cruns new_world l = Some w -> origin l w.
Proof.
  revert l w. apply (hist_ind origin).
  - split; cbn; try (intros *; by rewrite lookup_empty).
    + intros r c Hc. by apply elem_of_nil in Hc.
    + intros d r c Hc. by apply elem_of_nil in Hc.
  - intros l w o w' Hr Ho Hs. exact (origin_step l w o w' Hr Ho Hs).
Qed.
