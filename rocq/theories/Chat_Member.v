(** Proofs about the chat: what a member of a room is shown. *)
From Verif Require Import Chat_Model Chat_Spec Chat_Proofs Chat_Live Chat_Room.

(** ** How one peer changes *)
Inductive pchange (w : world) (i : N) (o : cop) (p : peer) : peer -> Prop :=
| pc_same : pchange w i o p p
| pc_frame b m : p_reader p = true -> m = [] \/ m = [MStop] \/ (exists e, m = [MEvent e] /\ o = CFrame i (FEvent e)) ->
    pchange w i o p (Peer (p_node p) (p_name p) (p_alive p) b (p_mail p ++ m) (p_do p) (p_in p) (p_out p))
| pc_join r rest : p_do p = Idle -> p_mail p = MEvent (EJoin r) :: rest -> pchange w i o p (set_do (set_mail p rest) (JoinSent r))
| pc_chat c k rest : p_do p = Idle -> p_mail p = MEvent (EChat c) :: rest -> p_in p !! c_room c = Some k ->
    pchange w i o p (set_do (set_mail p rest) (ChatSent (signed (p_name p) c)))
| pc_chat_no c rest : p_do p = Idle -> p_mail p = MEvent (EChat c) :: rest -> p_in p !! c_room c = None -> pchange w i o p (set_mail p rest)
| pc_leave r rest : p_do p = Idle -> p_mail p = MEvent (ELeave r) :: rest ->
    pchange w i o p (Peer (p_node p) (p_name p) (p_alive p) (p_reader p) rest (p_do p) (delete r (p_in p)) (p_out p))
| pc_close rest : p_do p = Idle -> p_mail p = MEvent EClose :: rest -> pchange w i o p (set_mail p (rest ++ [MStop]))
| pc_live k c rest : p_do p = Idle -> p_mail p = MLive k c :: rest ->
    pchange w i o p (Peer (p_node p) (p_name p) (p_alive p) (p_reader p) rest (p_do p) (p_in p) (p_out p ++ [Live k c]))
| pc_dead m : (p_mail p = m /\ p_do p <> Idle) \/ p_mail p = MStop :: m -> (forall r h k, p_do p <> Subscribed r h k) ->
    pchange w i o p (Peer (p_node p) (p_name p) false (p_reader p) m Idle (p_in p) (p_out p))
| pc_answer r n k : p_do p = JoinSent r -> o = CRoom i n k -> pchange w i o p (set_do p (JoinAnswered r (o_msgs (the_room w r n))))
| pc_room c n k d : p_do p = ChatSent c -> o = CRoom i n k -> d = ChatAnswered c \/ d = Unanswered -> pchange w i o p (set_do p d)
| pc_sub r h sid : p_do p = JoinAnswered r h -> o = CSubscribe i sid -> w_subs w !! sid = None -> pchange w i o p (set_do p (Subscribed r h sid))
| pc_resume r h sid : p_do p = Subscribed r h sid -> o = CResume i ->
    pchange w i o p (Peer (p_node p) (p_name p) (p_alive p) (p_reader p) (p_mail p) Idle (<[r := sid]> (p_in p)) (p_out p ++ (Past <$> h) ++ [Welcome r]))
| pc_done c : p_do p = ChatAnswered c -> pchange w i o p (set_do p Idle)
| pc_refused r : p_do p = JoinSent r \/ (exists h, p_do p = JoinAnswered r h) -> pchange w i o p (set_do p Idle)
| pc_deliver k s c : o = CDeliver k -> w_subs w !! k = Some s -> s_peer s = i -> s_live s = true ->
    chan w (s_node s) (s_room s) !! s_next s = Some c -> pchange w i o p (set_mail p (p_mail p ++ [MLive k c])).

Lemma set_peer_lookup w i p' j p : w_peers w !! j = Some p ->
  exists q, w_peers (set_peer w i p') !! j = Some q /\ (q = p \/ j = i /\ q = p').
Proof. intros Hp. cbn. destruct (decide (j = i)) as [->|Hne]; [rewrite lookup_insert|rewrite lookup_insert_ne by done]; eauto. Qed.

Lemma pchange_step w o w' i p : cstep w o = Some w' -> w_peers w !! i = Some p ->
  exists p', w_peers w' !! i = Some p' /\ pchange w i o p p'.
Proof.
  intros E Hp.
  assert (Hone : forall j q q', w_peers w !! j = Some q -> w_peers w' = <[j := q']> (w_peers w) -> (j = i -> pchange w i o p q') ->
            exists p', w_peers w' !! i = Some p' /\ pchange w i o p p').
  { intros j q q' Hq -> Hc. destruct (decide (i = j)) as [->|Hne].
    - exists q'. rewrite lookup_insert. eauto.
    - exists p. rewrite lookup_insert_ne by done. split; [done|constructor]. }
  assert (Hsame : w_peers w' = w_peers w -> exists p', w_peers w' !! i = Some p' /\ pchange w i o p p').
  { intros ->. exists p. split; [done|constructor]. }
  destruct o; cbn in E.
  - destruct (w_peers w !! i0) eqn:Ei; [done|]. injection E as <-. exists p. cbn. rewrite lookup_insert_ne by congruence. split; [done|constructor].
  - apply bind_Some in E as (q & Ep & E). unfold on_frame in E. repeat case_match; simplify_eq; try (by apply Hsame);
      (eapply Hone; [exact Ep|reflexivity|]; intros ->; assert (q = p) as -> by congruence).
    + apply (pc_frame _ _ _ _ (p_reader p)); eauto.
    + pose proof (pc_frame w i (CFrame i FBad) p false []) as Hx. rewrite app_nil_r in Hx. apply Hx; [done|by left].
    + apply (pc_frame _ _ _ _ false); eauto.
  - apply bind_Some in E as (q & Ep & E). unfold on_mail in E.
    destruct (p_alive q) eqn:Ea; [|done]. destruct (p_do q) eqn:Ed; try done. destruct (p_mail q) as [|m rest] eqn:Em; [done|].
    destruct m as [[r|c|r|]|sid c|]; apply (inj Some) in E; subst w';
      (eapply Hone; [exact Ep|try rewrite end_sub_peers; reflexivity|]; intros ->; assert (q = p) as -> by congruence).
    + by apply pc_join.
    + destruct (p_in p !! c_room c) eqn:Ei; [by eapply (pc_chat _ _ _ _ c)|by eapply pc_chat_no].
    + exact (pc_leave _ _ _ _ r rest Ed Em).
    + exact (pc_close _ _ _ _ rest Ed Em).
    + exact (pc_live _ _ _ _ sid c rest Ed Em).
    + refine (pc_dead _ _ _ _ rest _ _); [by right|intros ???; congruence].
  - apply bind_Some in E as (q & Ep & E). unfold on_room in E. destruct (p_do q) eqn:Ed; try done.
    + apply (inj Some) in E; subst w'. eapply Hone; [exact Ep|reflexivity|]; intros ->; assert (q = p) as -> by congruence. by eapply pc_answer.
    + destruct k; apply (inj Some) in E; subst w'; (eapply Hone; [exact Ep|reflexivity|]; intros ->; assert (q = p) as -> by congruence); eapply pc_room; eauto.
  - apply bind_Some in E as (q & Ep & E). unfold on_subscribe in E.
    destruct (p_do q) as [| |r h| | | |] eqn:Ed; try done. destruct (w_subs w !! sid) eqn:Es; [done|]. apply (inj Some) in E. subst w'.
    eapply Hone; [exact Ep|reflexivity|]; intros ->; assert (q = p) as -> by congruence. by apply pc_sub.
  - apply bind_Some in E as (q & Ep & E). unfold on_resume in E. destruct (p_do q) as [| | |r h sid| |c|] eqn:Ed; try done; apply (inj Some) in E; subst w';
      (eapply Hone; [exact Ep|try rewrite end_sub_peers; reflexivity|]; intros ->; assert (q = p) as -> by congruence).
    + by apply pc_resume.
    + by eapply pc_done.
  - apply bind_Some in E as (q & Ep & E). unfold on_fail in E. destruct (p_do q) eqn:Ed; try done; apply (inj Some) in E; subst w';
      (eapply Hone; [exact Ep|reflexivity|]; intros ->; assert (q = p) as -> by congruence);
      first [refine (pc_dead _ _ _ _ (p_mail p) _ _); [left; split; [done|congruence]|intros ???; congruence]|eapply pc_refused; eauto].
  - unfold on_deliver in E. apply bind_Some in E as (s & Es & E). apply bind_Some in E as (q & Ep & E).
    destruct (s_live s) eqn:El; [|done]. destruct (_ <? _)%nat; [injection E as <-; by apply Hsame|].
    fold (chan w (s_node s) (s_room s)) in E.
    destruct (chan w _ _ !! s_next s) as [c|] eqn:Ec; [|done]. destruct (p_alive q) eqn:Ea; [|injection E as <-; by apply Hsame]. apply (inj Some) in E. subst w'.
    eapply Hone; [exact Ep|reflexivity|]. intros <-. assert (q = p) as -> by congruence. by eapply pc_deliver.
  - apply bind_Some in E as ([[d r] c] & Ef & E). injection E as <-. by apply Hsame.
  - apply bind_Some in E as (x & Ef & E). injection E as <-. by apply Hsame.
  - apply bind_Some in E as (x & Ef & E). injection E as <-. by apply Hsame.
  - injection E as <-. by apply Hsame.
Qed.

(** ** A room that keeps running *)
Lemma room_track w o w' r n ro ro' L : counted w -> cstep w o = Some w' ->
  w_rooms w !! r = Some ro -> o_home ro = n -> w_rooms w' !! r = Some ro' ->
  (forall c, (n, r, c) ∉ w_fly w) -> w_chans w !! (n, r) = Some L ->
  o_home ro' = n /\ (forall c, (n, r, c) ∉ w_fly w') /\
  exists y, accepted w' r = accepted w r ++ y /\ w_chans w' !! (n, r) = Some (L ++ y).
Proof.
  intros [_ C2] E Hr Hn Hr' Hf HL.
  assert (Hid : w_rooms w' = w_rooms w -> w_fly w' = w_fly w -> w_log w' = w_log w -> w_chans w' !! (n, r) = w_chans w !! (n, r) ->
    o_home ro' = n /\ (forall c, (n, r, c) ∉ w_fly w') /\ exists y, accepted w' r = accepted w r ++ y /\ w_chans w' !! (n, r) = Some (L ++ y)).
  { intros H1 H2 H3 H4. rewrite H1, Hr in Hr'. injection Hr' as <-. rewrite H2, H4. split_and!; [done|done|]. exists []. unfold accepted. by rewrite H3, !app_nil_r. }
  destruct o; cbn in E.
  - repeat case_match; simplify_eq. by apply Hid.
  - apply bind_Some in E as (p & Ep & E). unfold on_frame in E. repeat case_match; simplify_eq; by apply Hid.
  - apply bind_Some in E as (p & Ep & E). unfold on_mail in E. repeat case_match; simplify_eq; try by apply Hid.
    apply Hid; unfold end_sub; by case_match.
  - apply bind_Some in E as (p & Ep & E). unfold on_room in E. destruct (p_do p) as [|r0| | |c| |] eqn:Ed; try done.
    + apply (inj Some) in E; subst w'. cbn in Hr'. split_and!; [|done|exists []; by rewrite !app_nil_r].
      destruct (decide (r = r0)) as [->|Hne]; [rewrite lookup_insert in Hr'|rewrite lookup_insert_ne in Hr' by done; congruence].
      injection Hr' as <-. unfold the_room. by rewrite Hr.
    + destruct k; apply (inj Some) in E; subst w'.
      * cbn in Hr'. destruct (decide (r = c_room c)) as [He|Hne].
        -- assert (Ht : the_room w (c_room c) n0 = ro) by (unfold the_room; by rewrite <- He, Hr).
           rewrite Ht in *. rewrite He, lookup_insert in Hr'. injection Hr' as <-. split_and!; [done| |].
           ++ intros c'. cbn. rewrite elem_of_app. intros [Hin|Hin]; [by eapply Hf|].
              apply elem_of_list_fmap in Hin as (d & Hd & Hin). injection Hd as -> _ _. apply elem_of_elements in Hin. rewrite Hn in Hin. by eapply C2.
           ++ exists [c]. split.
              ** change (accepted (keep w (c_room c) c) r = accepted w r ++ [c]). rewrite accepted_keep. case_decide; [|done]. by rewrite He.
              ** cbn. rewrite Hn, <- He, lookup_alter, HL. done.
        -- rewrite lookup_insert_ne in Hr' by done. assert (ro' = ro) as -> by congruence. split_and!; [done| |].
           ++ intros c'. cbn. rewrite elem_of_app. intros [Hin|Hin]; [by eapply Hf|].
              apply elem_of_list_fmap in Hin as (d & Hd & Hin). injection Hd as -> Hx _. by apply Hne.
           ++ exists []. rewrite !app_nil_r. split.
              ** change (accepted (keep w (c_room c) c) r = accepted w r). rewrite accepted_keep. by case_decide.
              ** cbn. rewrite lookup_alter_ne; [done|]. congruence.
      * cbn in Hr'. split_and!; [|done|exists []; by rewrite !app_nil_r].
        destruct (decide (r = c_room c)) as [He|Hne]; [rewrite He, lookup_insert in Hr'|rewrite lookup_insert_ne in Hr' by done; congruence].
        injection Hr' as <-. unfold the_room. by rewrite <- He, Hr.
      * cbn in Hr'. rewrite lookup_delete_Some in Hr'. destruct Hr' as [Hne Hr']. assert (ro' = ro) as -> by congruence. split_and!; [done|done|].
        exists []. rewrite !app_nil_r. split; [|done]. change (accepted (keep w (c_room c) c) r = accepted w r). rewrite accepted_keep. case_decide; congruence.
  - apply bind_Some in E as (p & Ep & E). unfold on_subscribe in E. repeat case_match; simplify_eq. apply Hid; try done. cbn.
    destruct (decide ((o_home ro, r) = (p_node p, r0))) as [He|Hne].
    + rewrite He in *. by rewrite lookup_insert, HL.
    + by rewrite lookup_insert_ne.
  - apply bind_Some in E as (p & Ep & E). unfold on_resume in E. repeat case_match; simplify_eq; try by apply Hid. apply Hid; unfold end_sub; by case_match.
  - apply bind_Some in E as (p & Ep & E). unfold on_fail in E. repeat case_match; simplify_eq; by apply Hid.
  - unfold on_deliver in E. apply bind_Some in E as (s & Es & E). apply bind_Some in E as (p & Ep & E).
    repeat case_match; simplify_eq; by apply Hid.
  - apply bind_Some in E as ([[d r0] c] & Ef & E). injection E as <-. cbn in Hr'. assert (ro' = ro) as -> by congruence. split_and!; [done| |].
    + intros c' Hin. cbn in Hin. apply elem_del in Hin. by eapply Hf.
    + exists []. rewrite !app_nil_r. split; [done|]. cbn. rewrite lookup_alter_ne; [done|]. intros He. injection He as He1 He2.
      eapply (Hf c). subst. by eapply elem_of_list_lookup_2.
  - apply bind_Some in E as (x & Ef & E). injection E as <-. cbn in Hr'. assert (ro' = ro) as -> by congruence. split_and!; [done| |].
    + intros c' Hin. cbn in Hin. apply elem_del in Hin. by eapply Hf.
    + exists []. by rewrite !app_nil_r.
  - apply bind_Some in E as (x & Ef & E). injection E as <-. cbn in Hr'. rewrite lookup_delete_Some in Hr'. destruct Hr' as [Hne Hr'].
    assert (ro' = ro) as -> by congruence. split_and!; [done|done|]. exists []. by rewrite !app_nil_r.
  - injection E as <-. by apply Hid.
Qed.

Lemma alive_step w o w' i p' : cstep w o = Some w' -> is_Some (w_peers w !! i) -> w_peers w' !! i = Some p' -> p_alive p' = true ->
  exists p, w_peers w !! i = Some p /\ p_alive p = true.
Proof.
  intros E [p Hp] Hp' Ha. exists p. split; [done|]. destruct (pchange_step _ _ _ _ _ E Hp) as (q & Hq & Hc).
  assert (q = p') as -> by congruence. destruct Hc; cbn in Ha; done.
Qed.
Lemma alive_runs l w w' i p' : cruns w l = Some w' -> is_Some (w_peers w !! i) -> w_peers w' !! i = Some p' -> p_alive p' = true ->
  exists p, w_peers w !! i = Some p /\ p_alive p = true.
Proof.
  revert w. induction l as [|o l IH]; intros w E Hs Hp' Ha; [cbn in E; simplify_eq; eauto|].
  cbn in E. destruct (cstep w o) as [w1|] eqn:E1; [|done]. cbn in E.
  destruct Hs as [p Hp]. destruct (pchange_step _ _ _ _ _ E1 Hp) as (p1 & Hp1 & _).
  destruct (IH w1 E) as (q & Hq & Hqa); [eauto..|]. eapply alive_step; eauto.
Qed.

(** ** What is shown of one room *)
Definition in_room (r : string) (l : list wrote) : list chat := List.filter (fun c => bool_decide (c_room c = r)) (seen_of <$> l).
Lemma in_room_app r a b : in_room r (a ++ b) = in_room r a ++ in_room r b.
Proof. unfold in_room. by rewrite fmap_app, List.filter_app. Qed.
Lemma in_room_all r h : (forall c, c ∈ h -> c_room c = r) -> in_room r (Past <$> h) = h.
Proof.
  intros H. induction h as [|c h IH]; [done|]. unfold in_room in *. cbn. rewrite bool_decide_eq_true_2 by (apply H; by left).
  f_equal. apply IH. intros c' Hc. apply H. by right.
Qed.
Lemma in_room_none r r' h : r' <> r -> (forall c, c ∈ h -> c_room c = r') -> in_room r (Past <$> h) = [].
Proof.
  intros Hne H. induction h as [|c h IH]; [done|]. unfold in_room in *. cbn. rewrite bool_decide_eq_false_2 by (rewrite (H c); [done|by left]).
  apply IH. intros c' Hc. apply H. by right.
Qed.

Lemma sub_keeps w o w' k s : cstep w o = Some w' -> w_subs w !! k = Some s ->
  exists s', w_subs w' !! k = Some s' /\ s_peer s' = s_peer s /\ s_node s' = s_node s /\ s_room s' = s_room s /\ s_first s' = s_first s.
Proof.
  intros E Hs.
  assert (Hsame : forall m : gmap N csub, m = w_subs w ->
    exists s', m !! k = Some s' /\ s_peer s' = s_peer s /\ s_node s' = s_node s /\ s_room s' = s_room s /\ s_first s' = s_first s).
  { intros m ->. exists s. done. }
  assert (Hend : forall k0, exists s', w_subs (end_sub w k0) !! k = Some s' /\ s_peer s' = s_peer s /\ s_node s' = s_node s /\ s_room s' = s_room s /\ s_first s' = s_first s).
  { intros [k0|]; [|by apply Hsame]. cbn. destruct (decide (k = k0)) as [->|Hne]; [rewrite lookup_alter|rewrite lookup_alter_ne by done]; rewrite Hs; cbn; by eexists. }
  assert (Hend' : forall w1 k0, w_subs w1 = w_subs w ->
    exists s', w_subs (end_sub w1 k0) !! k = Some s' /\ s_peer s' = s_peer s /\ s_node s' = s_node s /\ s_room s' = s_room s /\ s_first s' = s_first s).
  { intros w1 k0 H1. destruct (Hend k0) as (s' & Hs' & H). exists s'. split; [|done]. destruct k0; cbn in *; by rewrite H1. }
  assert (Hdie : forall i p, exists s', w_subs (die w i p) !! k = Some s' /\ s_peer s' = s_peer s /\ s_node s' = s_node s /\ s_room s' = s_room s /\ s_first s' = s_first s).
  { intros i p. cbn. rewrite lookup_fmap, Hs. cbn. case_match; by eexists. }
  destruct o; cbn in E.
  - repeat case_match; simplify_eq. by apply Hsame.
  - apply bind_Some in E as (p & Ep & E). unfold on_frame in E. repeat case_match; simplify_eq; by apply Hsame.
  - apply bind_Some in E as (p & Ep & E). unfold on_mail in E. repeat case_match; simplify_eq; first [by apply Hsame|apply Hdie|by apply Hend'].
  - apply bind_Some in E as (p & Ep & E). unfold on_room in E. repeat case_match; simplify_eq; by apply Hsame.
  - apply bind_Some in E as (p & Ep & E). unfold on_subscribe in E. repeat case_match; simplify_eq. cbn.
    rewrite lookup_insert_ne by congruence. by apply Hsame.
  - apply bind_Some in E as (p & Ep & E). unfold on_resume in E. repeat case_match; simplify_eq; first [by apply Hsame|by apply Hend'].
  - apply bind_Some in E as (p & Ep & E). unfold on_fail in E. repeat case_match; simplify_eq; first [by apply Hsame|apply Hdie].
  - unfold on_deliver in E. apply bind_Some in E as (s0 & Es & E). apply bind_Some in E as (p & Ep & E).
    repeat case_match; simplify_eq; try apply (Hend (Some _)). cbn. destruct (decide (k = sid)) as [->|Hne].
    + rewrite lookup_insert. assert (s0 = s) as -> by congruence. by eexists.
    + rewrite lookup_insert_ne by done. by apply Hsame.
  - apply bind_Some in E as ([[d r0] c] & Ef & E). injection E as <-. by apply Hsame.
  - apply bind_Some in E as (x & Ef & E). injection E as <-. by apply Hsame.
  - apply bind_Some in E as (x & Ef & E). injection E as <-. by apply Hsame.
  - injection E as <-. by apply Hsame.
Qed.

(** ** A member on the node of the room *)
Record sound (l : list cop) (w : world) : Prop := {
  so_run : cruns new_world l = Some w; so_or : origin l w; so_cnt : counted w; so_subs : subs_ok w; so_act : active w
}.
Lemma sound_runs l w : cruns new_world l = Some w -> sound l w.
Proof. intros E. split; [done|by apply origin_runs|by eapply counted_runs|by eapply subs_ok_runs|by eapply active_runs]. Qed.
Lemma sound_step l w o w' : sound l w -> cstep w o = Some w' -> sound (l ++ [o]) w'.
Proof. intros S E. apply sound_runs. rewrite cruns_app, (so_run _ _ S). cbn. by rewrite E. Qed.

Definition mail_quiet (r : string) (sid : N) (m : pmail) : Prop :=
  match m with
  | MEvent (EJoin r') | MEvent (ELeave r') => r' <> r
  | MLive k c => k = sid <-> c_room c = r
  | _ => True
  end.
Definition quiet_op (i : N) (r : string) (o : cop) : Prop := o <> CFrame i (FEvent (EJoin r)) /\ o <> CFrame i (FEvent (ELeave r)).

Record track (i : N) (r : string) (sid : N) (n : N) (h S0 L0 : list chat) (w : world) (p : peer) : Prop := {
  tr_peer : w_peers w !! i = Some p;
  tr_node : p_node p = n;
  tr_room : exists ro, w_rooms w !! r = Some ro /\ o_home ro = n;
  tr_fly : forall c, (n, r, c) ∉ w_fly w;
  tr_acc : exists z, accepted w r = h ++ z /\ w_chans w !! (n, r) = Some (L0 ++ z);
  tr_sub : exists s, w_subs w !! sid = Some s /\ s_peer s = i /\ s_node s = n /\ s_room s = r /\ s_first s = length L0;
  tr_mail : Forall (mail_quiet r sid) (p_mail p);
  tr_phase : (p_do p = Subscribed r h sid /\ p_in p !! r = None /\ in_room r (p_out p) = S0 /\ lo sid (p_out p) = []) \/
             (not_joining r (p_do p) /\ p_in p !! r = Some sid /\ in_room r (p_out p) = S0 ++ h ++ welcome r :: lo sid (p_out p))
}.

Lemma chan_room l w n r c : origin l w -> c ∈ chan w n r -> c_room c = r.
Proof.
  intros O Hc. unfold chan in Hc. destruct (w_chans w !! (n, r)) as [L|] eqn:HL; [|by apply elem_of_nil in Hc].
  by apply (or_acc _ _ O), (or_chans _ _ O n r L).
Qed.

Lemma track_step i r sid n h S0 L0 l w p o w' : sound l w -> track i r sid n h S0 L0 w p -> cstep w o = Some w' ->
  quiet_op i r o -> is_Some (w_rooms w' !! r) -> exists p', track i r sid n h S0 L0 w' p'.
Proof.
  intros S [T1 T2 (ro & T3 & T3') T4 (z & T5 & T5') (s & T6 & T6a & T6b & T6c & T6d) T7 T8] E Hq [ro' Hro'].
  destruct (pchange_step _ _ _ _ _ E T1) as (p' & Hp' & Hc). exists p'.
  destruct (room_track _ _ _ _ _ _ _ _ (so_cnt _ _ S) E T3 T3' Hro' T4 T5') as (Hh & Hf & y & Hy & Hy').
  destruct (sub_keeps _ _ _ _ _ E T6) as (s' & Hs' & G1 & G2 & G3 & G4).
  assert (Hpk : p_node p' = n /\ Forall (mail_quiet r sid) (p_mail p') /\
    ((p_do p' = Subscribed r h sid /\ p_in p' !! r = None /\ in_room r (p_out p') = S0 /\ lo sid (p_out p') = []) \/
     (not_joining r (p_do p') /\ p_in p' !! r = Some sid /\ in_room r (p_out p') = S0 ++ h ++ welcome r :: lo sid (p_out p')))).
  { clear -S T1 T2 T5 T6 T6a T6b T6c T7 T8 Hq Hc.
    destruct Hc as [|b m Hrd Hm|r0 rest Hd Hm|c k rest Hd Hm Hk|c rest Hd Hm Hk|r0 rest Hd Hm|rest Hd Hm|k c rest Hd Hm|m Hm Hd|r0 n0 k Hd Ho|c n0 k d Hd Ho Hdd|r0 h0 sid0 Hd Ho Hs0|r0 h0 sid0 Hd Ho|c Hd|r0 Hd|k s0 c Ho Hs0 Hpe Hl Hch];
      cbn [p_node p_mail p_do p_in p_out set_do set_mail].
    - done.
    - split_and!; [done| |done]. apply Forall_app. split; [done|]. destruct Hm as [->|[->|(e & -> & ->)]]; [by constructor|by repeat constructor|].
      constructor; [|by constructor]. destruct Hq as [Q1 Q2]. destruct e; cbn; try done; intros ->; done.
    - rewrite Hm in T7. apply Forall_cons_1 in T7 as [T7 T7']. split_and!; [done..|]. right. cbn in T7. destruct T8 as [[T8 _]|(T8 & T9 & T10)]; [congruence|]. done.
    - rewrite Hm in T7. apply Forall_cons_1 in T7 as [_ T7']. split_and!; [done..|]. right. destruct T8 as [[T8 _]|(T8 & T9 & T10)]; [congruence|]. done.
    - rewrite Hm in T7. apply Forall_cons_1 in T7 as [_ T7']. done.
    - rewrite Hm in T7. apply Forall_cons_1 in T7 as [T7 T7']. split_and!; [done..|]. right. cbn in T7. destruct T8 as [[T8 _]|(T8 & T9 & T10)]; [congruence|].
      split_and!; [done| |done]. by rewrite lookup_delete_ne.
    - rewrite Hm in T7. apply Forall_cons_1 in T7 as [T7 T7']. split_and!; [done| |done]. apply Forall_app. split; [done|]. by repeat constructor.
    - rewrite Hm in T7. apply Forall_cons_1 in T7 as [T7 T7']. split_and!; [done..|]. right. cbn in T7. destruct T8 as [[T8 _]|(T8 & T9 & T10)]; [congruence|].
      split_and!; [done|done|]. rewrite in_room_app, T10, lo_app. unfold in_room, lo. cbn.
      destruct (decide (k = sid)) as [->|Hne].
      + rewrite (bool_decide_eq_true_2 _ (proj1 T7 eq_refl)), N.eqb_refl. cbn. by rewrite <- !app_assoc.
      + rewrite bool_decide_eq_false_2 by (by rewrite <- T7). rewrite (proj2 (N.eqb_neq _ _) Hne). cbn. by rewrite !app_nil_r.
    - split_and!; [done| |].
      + destruct Hm as [[<- _]|Hm]; [done|]. rewrite Hm in T7. by apply Forall_cons_1 in T7 as [_ T7'].
      + destruct T8 as [[T8 _]|(T8 & T9 & T10)]; [by apply Hd in T8|]. by right.
    - split_and!; [done..|]. right. destruct T8 as [[T8 _]|(T8 & T9 & T10)]; [congruence|]. split_and!; [|done..]. rewrite Hd in T8. done.
    - split_and!; [done..|]. right. destruct T8 as [[T8 _]|(T8 & T9 & T10)]; [congruence|]. split_and!; [|done..]. by destruct Hdd as [->| ->].
    - split_and!; [done..|]. right. destruct T8 as [[T8 _]|(T8 & T9 & T10)]; [congruence|]. split_and!; [|done..]. rewrite Hd in T8. done.
    - split_and!; [done..|]. right. destruct (or_peers _ _ (so_or _ _ S) _ _ T1) as (_ & _ & Hdo & _). rewrite Hd in Hdo. cbn in Hdo.
      destruct Hdo as (_ & _ & Hpre).
      assert (Hrooms : forall c, c ∈ h0 -> c_room c = r0).
      { intros c Hc. destruct Hpre as [y Hy]. apply (or_acc _ _ (so_or _ _ S) r0 c). rewrite Hy, elem_of_app. by left. }
      rewrite !in_room_app, !lo_app, lo_past. destruct T8 as [(T8 & T9 & T10 & T11)|(T8 & T9 & T10)].
      + assert (r0 = r /\ h0 = h /\ sid0 = sid) as (-> & -> & ->) by (rewrite Hd in T8; by injection T8).
        rewrite lookup_insert, in_room_all by done. split_and!; [done|done|]. rewrite T10, T11. unfold in_room. cbn.
        rewrite bool_decide_eq_true_2 by done. done.
      + rewrite Hd in T8. cbn in T8. rewrite lookup_insert_ne by done. split_and!; [done|done|]. rewrite T10, (in_room_none r r0) by done.
        unfold in_room, lo. cbn. rewrite bool_decide_eq_false_2 by done. cbn. by rewrite !app_nil_r.
    - split_and!; [done..|]. right. destruct T8 as [[T8 _]|(T8 & T9 & T10)]; [congruence|]. done.
    - split_and!; [done..|]. right. destruct T8 as [[T8 _]|(T8 & T9 & T10)]; [|done]. destruct Hd as [Hd|[h0 Hd]]; congruence.
    - split_and!; [done| |done]. apply Forall_app. split; [done|]. constructor; [|by constructor]. cbn.
      assert (Hcr : c_room c = s_room s0) by (eapply chan_room; [exact (so_or _ _ S)|by eapply elem_of_list_lookup_2]). rewrite Hcr.
      split; [intros ->; congruence|]. intros Hr.
      destruct (ac_live _ (so_act _ _ S) _ _ Hs0 Hl) as (q & Hq0 & _ & Hin). rewrite Hpe in Hq0. assert (q = p) as -> by congruence.
      rewrite Hr in Hin. destruct T8 as [(T8 & T9 & _)|(T8 & T9 & _)]; destruct Hin as [Hin|[h1 Hin]]; [congruence| |congruence|].
      + rewrite T8 in Hin. by injection Hin.
      + rewrite Hin in T8. done. }
  destruct Hpk as (K1 & K2 & K3). split; try done.
  - eauto.
  - exists (z ++ y). by rewrite Hy, Hy', T5, <- !app_assoc.
  - exists s'. split_and!; congruence.
Qed.

Lemma track_runs i r sid n h S0 L0 l' : forall l w p w', sound l w -> track i r sid n h S0 L0 w p -> cruns w l' = Some w' ->
  Forall (quiet_op i r) l' -> (forall l1 l2 w1, l' = l1 ++ l2 -> cruns w l1 = Some w1 -> is_Some (w_rooms w1 !! r)) ->
  exists p', track i r sid n h S0 L0 w' p'.
Proof.
  induction l' as [|o l' IH]; intros l w p w' S T E Hq Hr.
  { cbn in E. injection E as <-. eauto. }
  cbn in E. destruct (cstep w o) as [w1|] eqn:E1; [|done]. cbn in E. apply Forall_cons_1 in Hq as [Hq Hq'].
  destruct (track_step _ _ _ _ _ _ _ _ _ _ _ _ S T E1 Hq) as [p1 T1].
  { apply (Hr [o] l' w1); [done|]. cbn. by rewrite E1. }
  eapply (IH (l ++ [o]) w1 p1); [by eapply sound_step|done..|].
  intros l1 l2 w2 -> E2. apply (Hr (o :: l1) l2 w2); [done|]. cbn. by rewrite E1.
Qed.

(** ** After leaving *)
Lemma waiting_app r a b : waiting r (a ++ b) = waiting r a ++ waiting r b. Proof. apply omap_app. Qed.
Record gone (i : N) (r : string) (X : list chat) (w : world) (p : peer) : Prop := {
  go_peer : w_peers w !! i = Some p;
  go_in : p_in p !! r = None;
  go_do : not_joining r (p_do p);
  go_mail : MEvent (EJoin r) ∉ p_mail p;
  go_out : in_room r (p_out p) ++ waiting r (p_mail p) = X
}.
Lemma gone_step i r X l w p o w' : sound l w -> gone i r X w p -> cstep w o = Some w' ->
  o <> CFrame i (FEvent (EJoin r)) -> exists p', gone i r X w' p'.
Proof.
  intros S [T1 T2 T3 T4 T5] E Hq. destruct (pchange_step _ _ _ _ _ E T1) as (p' & Hp' & Hc). exists p'. split; [done|..].
  all: clear Hp' E; destruct Hc as [|b m Hrd Hm|r0 rest Hd Hm|c k rest Hd Hm Hk|c rest Hd Hm Hk|r0 rest Hd Hm|rest Hd Hm|k c rest Hd Hm|m Hm Hd|r0 n0 k Hd Ho|c n0 k d Hd Ho Hdd|r0 h0 sid0 Hd Ho Hs0|r0 h0 sid0 Hd Ho|c Hd|r0 Hd|k s0 c Ho Hs0 Hpe Hl Hch];
    cbn [p_node p_mail p_do p_in p_out set_do set_mail]; try done.
  - by rewrite lookup_delete_None, T2; right.
  - rewrite Hd in T3. cbn in T3. by rewrite lookup_insert_ne.
  - cbn. intros ->. apply T4. rewrite Hm. by left.
  - by rewrite Hd in T3.
  - by destruct Hdd as [->| ->].
  - by rewrite Hd in T3.
  - rewrite elem_of_app. intros [?|Hin]; [done|]. destruct Hm as [->|[->|(e & -> & ->)]]; [by apply elem_of_nil in Hin|by apply elem_of_list_singleton in Hin|].
    apply elem_of_list_singleton in Hin. injection Hin as <-. done.
  - intros Hin. apply T4. rewrite Hm. by right.
  - intros Hin. apply T4. rewrite Hm. by right.
  - intros Hin. apply T4. rewrite Hm. by right.
  - intros Hin. apply T4. rewrite Hm. by right.
  - rewrite elem_of_app. intros [Hin|Hin%elem_of_list_singleton]; [|done]. apply T4. rewrite Hm. by right.
  - intros Hin. apply T4. rewrite Hm. by right.
  - intros Hin. apply T4. destruct Hm as [[-> _]|Hm]; [done|]. rewrite Hm. by right.
  - rewrite elem_of_app. intros [Hin|Hin%elem_of_list_singleton]; done.
  - rewrite waiting_app. destruct Hm as [->|[->|(e & -> & ->)]]; cbn; by rewrite app_nil_r.
  - rewrite Hm in T5. exact T5.
  - rewrite Hm in T5. exact T5.
  - rewrite Hm in T5. exact T5.
  - rewrite Hm in T5. exact T5.
  - rewrite Hm in T5. rewrite waiting_app. cbn. by rewrite app_nil_r.
  - rewrite Hm in T5. rewrite in_room_app, <- app_assoc. rewrite <- T5. f_equal. unfold in_room. cbn. by case_bool_decide.
  - destruct Hm as [[<- _]|Hm]; [done|]. rewrite Hm in T5. exact T5.
  - destruct (or_peers _ _ (so_or _ _ S) _ _ T1) as (_ & _ & Hdo & _). rewrite Hd in Hdo. cbn in Hdo. destruct Hdo as (_ & _ & Hpre).
    assert (Hrooms : forall c, c ∈ h0 -> c_room c = r0).
    { intros c Hc. destruct Hpre as [y Hy]. apply (or_acc _ _ (so_or _ _ S) r0 c). rewrite Hy, elem_of_app. by left. }
    rewrite Hd in T3. cbn in T3. rewrite !in_room_app, (in_room_none r r0) by done. unfold in_room at 2. cbn.
    rewrite bool_decide_eq_false_2 by done. cbn. by rewrite app_nil_r.
  - assert (Hcr : c_room c = s_room s0) by (eapply chan_room; [exact (so_or _ _ S)|by eapply elem_of_list_lookup_2]).
    rewrite waiting_app. cbn. rewrite bool_decide_eq_false_2; [by rewrite app_nil_r|]. rewrite Hcr. intros Hr.
    destruct (ac_live _ (so_act _ _ S) _ _ Hs0 Hl) as (q & Hq0 & _ & Hin). rewrite Hpe in Hq0. assert (q = p) as -> by congruence.
    rewrite Hr in Hin. destruct Hin as [Hin|[h1 Hin]]; [congruence|]. by rewrite Hin in T3.
Qed.
Lemma gone_runs i r X l' : forall l w p w', sound l w -> gone i r X w p -> cruns w l' = Some w' ->
  CFrame i (FEvent (EJoin r)) ∉ l' -> exists p', gone i r X w' p'.
Proof.
  induction l' as [|o l' IH]; intros l w p w' S T E Hq.
  { cbn in E. injection E as <-. eauto. }
  cbn in E. destruct (cstep w o) as [w1|] eqn:E1; [|done]. cbn in E. apply not_elem_of_cons in Hq as [Hq Hq'].
  destruct (gone_step _ _ _ _ _ _ _ _ S T E1) as [p1 T1]; [congruence|].
  eapply (IH (l ++ [o]) w1 p1); [by eapply sound_step|done..].
Qed.
