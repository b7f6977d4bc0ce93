(** Properties of the sharded chat: C69, C70, C71. *)
From Verif Require Import Chat_Model Chat_Spec Chat_Proofs Chat_Live Chat_Room Chat_Member Chat_Order.

(** ** C69: what the members of a room are shown *)

(** Through one subscription no message is shown more often than the room accepted it. *)
Theorem C69_once_partial l w sid s : cruns new_world l = Some w -> w_subs w !! sid = Some s ->
  live_of w sid ⊆+ accepted w (s_room s).
Proof.
  intros E Hs. destruct (subs_ok_runs _ _ E) as [H1 _]. destruct (H1 _ _ Hs) as (p & L & Hp & _ & HL & _ & Hpass).
  destruct (counted_runs _ _ E) as [HC _]. specialize (HC (s_node s) (s_room s)). unfold chan in HC. rewrite HL in HC. cbn in HC.
  assert (Hlo : live_of w sid = lo sid (p_out p)).
  { unfold live_of. rewrite Hs. cbn. rewrite Hp. cbn. by rewrite !app_nil_r. }
  rewrite Hlo. transitivity (passed sid p); [unfold passed; apply submseteq_inserts_r; done|]. rewrite Hpass.
  transitivity L; [|transitivity (L ++ fly_to (s_node s) (s_room s) (w_fly w)); [apply submseteq_inserts_r; done|done]].
  apply sublist_submseteq. etrans; [apply sublist_take|apply sublist_drop].
Qed.

(** A client on the node of a room that runs there all the time, with no message accepted between
    the answer of the room and the subscription, is shown the history, the welcome, and then
    every later message once and in order. *)
Theorem C69_all_partial l w i sid w1 l' w' p r h ro p' s' :
  cruns new_world l = Some w -> w_peers w !! i = Some p -> p_do p = JoinAnswered r h -> h = accepted w r ->
  p_in p !! r = None -> Forall (unrelated r) (p_mail p) ->
  w_rooms w !! r = Some ro -> o_home ro = p_node p -> (forall c, (p_node p, r, c) ∉ w_fly w) ->
  cstep w (CSubscribe i sid) = Some w1 -> cruns w1 l' = Some w' -> stays i r l' ->
  (forall l1 l2 w2, l' = l1 ++ l2 -> cruns w1 l1 = Some w2 -> is_Some (w_rooms w2 !! r)) ->
  w_peers w' !! i = Some p' -> p_do p' = Idle -> p_mail p' = [] ->
  w_subs w' !! sid = Some s' -> s_live s' = true -> cstep w' (CDeliver sid) = None ->
  shown_in w' i r = shown_in w i r ++ h ++ welcome r :: drop (length h) (accepted w' r).
Proof.
  intros E Hp Hd Hh Hin Hm Hro Hhome Hfly E1 E' [Hst1 Hst2] Hrun Hp' Hd' Hm' Hs' Hl' Hdel.
  assert (So := sound_runs _ _ E). assert (So1 := sound_step _ _ _ _ So E1).
  set (L0 := chan w (p_node p) r).
  assert (Hw1 : w_subs w !! sid = None /\
    w1 = World (<[i := set_do p (Subscribed r h sid)]> (w_peers w)) (w_rooms w) (w_log w)
              (<[(p_node p, r) := L0]> (w_chans w))
              (<[sid := CSub i (p_node p) r (length L0) (length L0) true]> (w_subs w)) (w_fly w) (w_known w)).
  { cbn in E1. rewrite Hp in E1. cbn in E1. unfold on_subscribe in E1. rewrite Hd in E1. destruct (w_subs w !! sid); [done|].
    apply (inj Some) in E1. done. }
  destruct Hw1 as [Hfresh Hw1].
  assert (T : track i r sid (p_node p) h (in_room r (p_out p)) L0 w1 (set_do p (Subscribed r h sid))).
  { assert (Hnone : passed sid p = []).
    { destruct (passed sid p) eqn:Hpa; [done|]. destruct (proj2 (so_subs _ _ So) i p sid Hp) as (s & Hs & _); congruence. }
    unfold passed in Hnone. apply app_eq_nil in Hnone as [Hlo Hlm].
    rewrite Hw1. split; cbn [w_peers w_rooms w_fly w_chans w_subs p_node p_mail p_do p_in p_out set_do].
    - by rewrite lookup_insert.
    - done.
    - eauto.
    - done.
    - exists []. rewrite !app_nil_r. split; [done|]. by rewrite lookup_insert.
    - eexists. rewrite lookup_insert. done.
    - revert Hm Hlm. clear. induction (p_mail p) as [|m ms IH]; intros Hm Hlm; [constructor|]. apply Forall_cons_1 in Hm as [Hm Hms].
      unfold lm in Hlm. cbn in Hlm. constructor.
      + destruct m as [[]|k c|]; cbn in *; try done. split; [|done]. intros ->. by rewrite N.eqb_refl in Hlm.
      + apply IH; [done|]. destruct m as [|k c|]; cbn in Hlm; try done. by destruct (k =? sid)%N.
    - left. done. }
  destruct (track_runs _ _ _ _ _ _ _ l' _ _ _ _ So1 T E') as [q T'].
  { apply Forall_forall. intros o Ho. split; intros ->; done. }
  { done. }
  destruct T' as [T1 T2 _ _ (z & T5 & T5') (s & T6 & T6a & T6b & T6c & T6d) _ T8]. assert (q = p') as -> by congruence. assert (s = s') as -> by congruence.
  destruct T8 as [[T8 _]|(_ & _ & T8)]; [congruence|].
  unfold shown_in, shown. rewrite Hp, Hp'. cbn. fold (in_room r (p_out p')). fold (in_room r (p_out p)). rewrite T8, T5, drop_app.
  do 3 f_equal.
  assert (Er : cruns new_world (l ++ CSubscribe i sid :: l') = Some w') by (rewrite cruns_app, E; change (cruns w (CSubscribe i sid :: l') = Some w'); cbn [cruns]; rewrite E1; exact E').
  destruct (proj1 (subs_ok_runs _ _ Er) _ _ Hs') as (p2 & L & Hp2 & _ & HL & Hle & Hpass).
  rewrite T6a in Hp2. assert (p2 = p') as -> by congruence. rewrite T6b, T6c in HL. assert (L = L0 ++ z) as -> by congruence.
  change (on_deliver w' sid = None) in Hdel. unfold on_deliver in Hdel. rewrite Hs' in Hdel. cbn -[Nat.ltb Nat.sub] in Hdel. rewrite T6a, Hp' in Hdel.
  cbn -[Nat.ltb Nat.sub] in Hdel. rewrite Hl', T6b, T6c, T5' in Hdel. cbn -[Nat.ltb Nat.sub] in Hdel.
  destruct (1024 <? _)%nat in Hdel; [done|]. destruct ((L0 ++ z) !! s_next s') eqn:Hnx in Hdel; [by destruct (p_alive p')|].
  apply lookup_ge_None_1 in Hnx. rewrite T6d, drop_app in Hpass. unfold passed in Hpass. rewrite Hm' in Hpass. cbn in Hpass. rewrite app_nil_r in Hpass.
  rewrite Hpass. apply take_ge. rewrite app_length in Hnx. lia.
Qed.

(** After leaving, a client is shown only what was already waiting in its mailbox. *)
Theorem C69_left_partial l w i p r l' w' : cruns new_world l = Some w -> w_peers w !! i = Some p ->
  p_in p !! r = None -> not_joining r (p_do p) -> MEvent (EJoin r) ∉ p_mail p ->
  cruns w l' = Some w' -> ~ asked_join l' i r ->
  shown_in w' i r `prefix_of` shown_in w i r ++ waiting r (p_mail p).
Proof.
  intros E Hp Hin Hd Hm E' Hn.
  destruct (gone_runs i r (in_room r (p_out p) ++ waiting r (p_mail p)) l' l w p w' (sound_runs _ _ E)) as [p' G]; [by split|done|exact Hn|].
  unfold shown_in, shown. rewrite Hp, (go_peer _ _ _ _ _ G). cbn. fold (in_room r (p_out p')). fold (in_room r (p_out p)).
  rewrite <- (go_out _ _ _ _ _ G). by eexists.
Qed.

Definition ann : list cop := [CConnect 1 1 "ann"; CFrame 1 (FEvent (EJoin "a")); CHandle 1; CRoom 1 1 Kept; CSubscribe 1 1; CResume 1].
Definition bob (n : N) : list cop := [CConnect 2 n "bob"; CFrame 2 (FEvent (EJoin "a")); CHandle 2; CRoom 2 1 Kept].
Definition hi : chat := Chat "a" None None "hi".
Definition ho : chat := Chat "a" None None "ho".
Definition says (c : chat) : list cop := [CFrame 1 (FEvent (EChat c)); CHandle 1; CRoom 1 1 Kept; CResume 1].

(** The message that is accepted between the answer of the room and the subscription is never shown. *)
Theorem C69_gap_refuted :
  match cruns new_world (ann ++ bob 1 ++ says hi ++ [CSubscribe 2 2; CResume 2]) with
  | Some w => accepted w "a" = [signed "ann" hi] /\ shown w 2 = [welcome "a"] /\
      w_fly w = [] /\ cstep w (CDeliver 2) = None /\ cstep w (CHandle 2) = None /\
      match w_peers w !! 2%N with Some p => p_alive p = true /\ p_do p = Idle /\ p_in p !! "a" = Some 2%N | None => False end
  | None => False
  end.
Proof. vm_compute. done. Qed.

(** A message is shown twice: in the history, and when its publication arrives at another node. *)
Theorem C69_twice_refuted :
  match cruns new_world (CMember 1 2 true :: ann ++ says hi ++ bob 2 ++ [CSubscribe 2 2; CResume 2; CArrive 0; CDeliver 2; CHandle 2]) with
  | Some w => accepted w "a" = [signed "ann" hi] /\ shown w 2 = [signed "ann" hi; welcome "a"; signed "ann" hi]
  | None => False
  end.
Proof. vm_compute. done. Qed.

(** Two messages are shown in the other order on another node. *)
Theorem C69_order_refuted :
  match cruns new_world (CMember 1 2 true :: ann ++ bob 2 ++ [CSubscribe 2 2; CResume 2] ++ says hi ++ says ho ++
                         [CArrive 1; CArrive 0; CDeliver 2; CDeliver 2; CHandle 2; CHandle 2]) with
  | Some w => accepted w "a" = [signed "ann" hi; signed "ann" ho] /\ shown w 2 = [welcome "a"; signed "ann" ho; signed "ann" hi]
  | None => False
  end.
Proof. vm_compute. done. Qed.

(** A message is shown after the client has left. *)
Theorem C69_after_leaving_refuted :
  let l := ann ++ bob 1 ++ [CSubscribe 2 2; CResume 2; CFrame 2 (FEvent (ELeave "a"))] ++ says hi ++ [CDeliver 2; CHandle 2] in
  match cruns new_world l, cruns new_world (l ++ [CHandle 2]) with
  | Some w, Some w' => match w_peers w !! 2%N with Some p => p_in p !! "a" = None | None => False end /\
      shown w 2 = [welcome "a"] /\ shown w' 2 = [welcome "a"; signed "ann" hi]
  | _, _ => False
  end.
Proof. vm_compute. done. Qed.

(** Members on a node that the node of the room does not know yet are not shown the message. *)
Theorem C69_unknown_refuted :
  match cruns new_world (ann ++ bob 2 ++ [CSubscribe 2 2; CResume 2] ++ says hi) with
  | Some w => accepted w "a" = [signed "ann" hi] /\ shown w 2 = [welcome "a"] /\
      w_fly w = [] /\ cstep w (CDeliver 2) = None /\ cstep w (CHandle 2) = None /\
      match w_peers w !! 2%N with Some p => p_alive p = true /\ p_do p = Idle /\ p_in p !! "a" = Some 2%N | None => False end
  | None => False
  end.
Proof. vm_compute. done. Qed.

(** A message that could not be stored is dropped without a word to the client. *)
Theorem C69_silent_refuted :
  match cruns new_world (ann ++ [CFrame 1 (FEvent (EChat hi)); CHandle 1; CRoom 1 1 NotKept; CResume 1]) with
  | Some w => accepted w "a" = [] /\ shown w 1 = [welcome "a"] /\
      match w_peers w !! 1%N with Some p => p_alive p = true /\ p_do p = Idle /\ p_mail p = [] | None => False end
  | None => False
  end.
Proof. vm_compute. done. Qed.

(** After a frame that cannot be parsed nothing of the client is read again, not even the end of
    the connection: its peer stays and is a member for ever. *)
Theorem C69_undead_refuted :
  match cruns new_world (ann ++ [CFrame 1 FBad]) with
  | Some w => (forall f, cstep w (CFrame 1 f) = None) /\
      forall l w', cruns w l = Some w' ->
        match w_peers w' !! 1%N with Some p => p_alive p = true /\ p_in p !! "a" = Some 1%N | None => False end
  | None => False
  end.
Proof.
  destruct (cruns new_world (ann ++ [CFrame 1 FBad])) as [w|] eqn:E; [|by vm_compute in E].
  assert (Hp : w_peers w !! 1%N = Some (Peer 1 "ann" true false [] Idle {[ "a"%string := 1%N ]} [Welcome "a"])).
  { clear -E. vm_compute in E. injection E as <-. vm_compute. done. }
  split. { intros f. cbn. rewrite Hp. done. }
  intros l w' E'.
  assert (Hinv : exists p, w_peers w' !! 1%N = Some p /\ p_alive p = true /\ p_reader p = false /\ p_do p = Idle /\ p_in p !! "a"%string = Some 1%N /\
            Forall (fun m => match m with MLive _ _ => True | _ => False end) (p_mail p)).
  { assert (H0 : exists p, w_peers w !! 1%N = Some p /\ p_alive p = true /\ p_reader p = false /\ p_do p = Idle /\ p_in p !! "a"%string = Some 1%N /\
            Forall (fun m => match m with MLive _ _ => True | _ => False end) (p_mail p)).
    { eexists. split; [exact Hp|]. cbn. split_and!; [done|done|done|by vm_compute|constructor]. }
    clear E Hp. revert w H0 E'. induction l as [|o l IH]; intros w (p & Hp & Ha & Hr & Hd & Hi & Hm) E'.
    { cbn in E'. injection E' as <-. eauto 10. }
    cbn in E'. destruct (cstep w o) as [w1|] eqn:E1; [|done]. cbn in E'.
    apply (IH w1); [|done]. destruct (pchange_step _ _ _ _ _ E1 Hp) as (p1 & Hp1 & Hc). exists p1. split; [done|].
    destruct Hc as [|b m Hrd Hb|r0 rest Hd0 Hm0|c k rest Hd0 Hm0 Hk|c rest Hd0 Hm0 Hk|r0 rest Hd0 Hm0|rest Hd0 Hm0|k c rest Hd0 Hm0|m Hm0 Hd0|r0 n0 k Hd0 Ho|c n0 k d Hd0 Ho Hdd|r0 h0 sid0 Hd0 Ho Hs0|r0 h0 sid0 Hd0 Ho|c Hd0|r0 Hd0|k s0 c Ho Hs0 Hpe Hl Hch];
      cbn; try congruence; try (rewrite Hm0 in Hm; apply Forall_cons_1 in Hm as [Hm Hm']; done).
    - done.
    - destruct Hm0 as [[_ Hm0]|Hm0]; [done|]. rewrite Hm0 in Hm. by apply Forall_cons_1 in Hm as [Hm _].
    - destruct Hd0 as [Hd0|[h0 Hd0]]; congruence.
    - split_and!; [done..|]. apply Forall_app. split; [done|]. by repeat constructor. }
  destruct Hinv as (p & -> & Ha & _ & _ & Hi & _). done.
Qed.

(** The hypotheses of [C69_all_partial] are met: a room with a history, a second client that joins
    and then two messages. *)
Example C69_ex_all :
  match cruns new_world (ann ++ says hi ++ bob 1) with
  | Some w =>
      match w_peers w !! 2%N, w_rooms w !! "a"%string with
      | Some p, Some ro => p_do p = JoinAnswered "a" (accepted w "a") /\ accepted w "a" = [signed "ann" hi] /\ p_in p !! "a"%string = None /\
          p_mail p = [] /\ o_home ro = p_node p /\ w_fly w = []
      | _, _ => False
      end /\
      match cruns w ([CSubscribe 2 2; CResume 2] ++ says ho ++ [CDeliver 2] ++ says hi ++ [CDeliver 2; CHandle 2; CHandle 2]) with
      | Some w' => cstep w' (CDeliver 2) = None /\
          match w_peers w' !! 2%N, w_subs w' !! 2%N with
          | Some p, Some s => p_do p = Idle /\ p_mail p = [] /\ s_live s = true
          | _, _ => False
          end /\
          shown_in w' 2 "a" = [signed "ann" hi; welcome "a"; signed "ann" ho; signed "ann" hi]
      | None => False
      end
  | None => False
  end.
Proof. vm_compute. done. Qed.

(** ** C70: everything that is shown was sent *)

(** Everything that a client is shown is the welcome of a room it asked to join, or a message that
    this room accepted, sent under this name by a client that connected with it and itself asked
    to join the room. *)
Theorem C70_genuine l w i c : cruns new_world l = Some w -> c ∈ shown w i ->
  (exists r, c = welcome r /\ asked_join l i r) \/
  (c ∈ accepted w (c_room c) /\ asked_join l i (c_room c) /\ genuine l c).
Proof.
  intros E Hc. assert (O := origin_runs _ _ E). unfold shown in Hc. destruct (w_peers w !! i) as [p|] eqn:Hp; cbn in Hc; [|by apply elem_of_nil in Hc].
  apply elem_of_list_fmap in Hc as (x & -> & Hx). destruct (or_peers _ _ O _ _ Hp) as (_ & _ & _ & _ & Hout).
  rewrite Forall_forall in Hout. specialize (Hout _ Hx).
  assert (Hm : forall c, mine l w i c -> c ∈ accepted w (c_room c) /\ asked_join l i (c_room c) /\ genuine l c).
  { intros c (r & Ha & Hr). destruct (or_acc _ _ O _ _ Hr) as [Hcr Hg]. subst r. done. }
  destruct x; cbn in *; [right; by apply Hm|left; eauto|right; by apply Hm].
Qed.

(** No one is shown anything of a room before asking to join it. *)
Theorem C70_private l w i r : cruns new_world l = Some w -> ~ asked_join l i r -> shown_in w i r = [].
Proof.
  intros E Hn. unfold shown_in. assert (Hall : forall c, c ∈ shown w i -> c_room c <> r).
  { intros c Hc Hr. destruct (C70_genuine _ _ _ _ E Hc) as [(r' & -> & Ha)|(_ & Ha & _)]; cbn in Hr; subst; done. }
  revert Hall. generalize (shown w i). intros L. induction L as [|c L IH]; intros Hall; [done|]. cbn.
  rewrite bool_decide_eq_false_2 by (apply Hall; by left). apply IH. intros c' Hc'. apply Hall. by right.
Qed.

(** A room accepts only what was sent by its members, under the name they connected with. *)
Theorem C70_accepted l w r c : cruns new_world l = Some w -> c ∈ accepted w r -> c_room c = r /\ genuine l c.
Proof. intros E Hc. exact (or_acc _ _ (origin_runs _ _ E) _ _ Hc). Qed.

(** The client cannot choose the name: what it writes as the sender is replaced. *)
Example C70_ex :
  match cruns new_world (ann ++ bob 1 ++ [CSubscribe 2 2; CResume 2] ++ says (Chat "a" None (Some "bob"%string) "hi") ++ [CDeliver 2; CHandle 2; CFrame 1 (FEvent (EChat (Chat "b" None None "x"))); CHandle 1]) with
  | Some w => shown w 2 = [welcome "a"; signed "ann" hi] /\ accepted w "a" = [signed "ann" hi] /\ accepted w "b" = []
  | None => False
  end.
Proof. vm_compute. done. Qed.

(** ** C71: the history of a room *)

(** Messages that a room accepted stay, in their order, when rooms stop and crash. *)
Theorem C71_kept w l w' r : cruns w l = Some w' -> accepted w r `prefix_of` accepted w' r.
Proof. apply accepted_runs. Qed.

(** The history that a client is shown is that of a moment after it asked to join. *)
Theorem C71_history l w i p r h sid w' : cruns new_world l = Some w -> w_peers w !! i = Some p ->
  p_do p = Subscribed r h sid -> cstep w (CResume i) = Some w' ->
  shown w' i = shown w i ++ h ++ [welcome r] /\ past_log l i r h.
Proof.
  intros E Hp Hd E'. split.
  - cbn in E'. rewrite Hp in E'. cbn in E'. unfold on_resume in E'. rewrite Hd in E'. apply (inj Some) in E'. subst w'.
    unfold shown. rewrite end_sub_peers. cbn. rewrite lookup_insert, Hp. cbn. rewrite !fmap_app, <- list_fmap_compose. cbn.
    do 2 f_equal. clear. induction h; cbn; by f_equal.
  - destruct (or_peers _ _ (origin_runs _ _ E) _ _ Hp) as (_ & _ & Hdo & _). rewrite Hd in Hdo. cbn in Hdo. by destruct Hdo as (_ & Hpast & _).
Qed.

(** It begins with everything that was accepted before the client asked, whatever stopped or
    crashed in between. *)
Theorem C71_complete l0 w0 l w i p r h sid w' : cruns new_world l0 = Some w0 -> ~ asked_join l0 i r -> cruns new_world (l0 ++ l) = Some w ->
  w_peers w !! i = Some p -> p_do p = Subscribed r h sid -> cstep w (CResume i) = Some w' ->
  exists h', shown w' i = shown w i ++ accepted w0 r ++ h' ++ [welcome r].
Proof.
  intros E0 Hn E Hp Hd E'. destruct (C71_history _ _ _ _ _ _ _ _ E Hp Hd E') as [-> (l1 & l2 & w1 & Hl & E1 & -> & Ha)].
  assert (Hpre : exists l3, l1 = l0 ++ l3).
  { destruct (prefix_weak_total l0 l1 (l0 ++ l)) as [[l3 H]|[l3 H]]; [by eexists|by eexists|by exists l3|].
    exfalso. apply Hn. rewrite H. unfold asked_join in *. rewrite elem_of_app. by left. }
  destruct Hpre as [l3 ->]. rewrite cruns_app, E0 in E1. cbn in E1. destruct (accepted_runs _ _ _ r E1) as [h' ->]. exists h'. by rewrite <- app_assoc.
Qed.

(** The messages of a client are accepted in the order in which it sent them, each at most once,
    if no other client has the same name. *)
Theorem C71_order l w i r name n : cruns new_world l = Some w -> CConnect i n name ∈ l -> (forall j n', CConnect j n' name ∈ l -> j = i) ->
  of_sender name (accepted w r) `sublist_of` signed name <$> to_room r (said l i).
Proof.
  intros E Hc Hu. destruct (connected _ _ i E) as [p Hp]; [eauto|].
  assert (Hn : p_name p = name).
  { clear Hu. revert l w E Hc p Hp. apply (hist_ind (fun l w => CConnect i n name ∈ l -> forall p, w_peers w !! i = Some p -> p_name p = name)).
    - intros H. by apply elem_of_nil in H.
    - intros l w o w' Hr IH E Hin p' Hp'. apply elem_of_app in Hin as [Hin|Hin%elem_of_list_singleton].
      + destruct (connected _ _ i Hr) as [p Hp]; [eauto|]. rewrite (name_kept _ _ _ _ _ _ E Hp Hp'). eauto.
      + subst o. cbn in E. repeat case_match; simplify_eq. cbn in Hp'. rewrite lookup_insert in Hp'. by injection Hp' as <-. }
  etrans; [|exact (in_order _ _ i r name E Hu p Hp Hn)]. by apply sublist_inserts_r.
Qed.

(** The room stops after one message and crashes after storing the second; a client that joins
    later is shown both. *)
Example C71_ex :
  match cruns new_world (ann ++ says hi ++ [CRoomStop "a"; CFrame 1 (FEvent (EChat ho)); CHandle 1; CRoom 1 3 Crashed; CFail 1] ++
                         bob 2 ++ [CSubscribe 2 2; CResume 2]) with
  | Some w => shown w 2 = [signed "ann" hi; signed "ann" ho; welcome "a"] /\ of_sender "ann" (accepted w "a") = signed "ann" <$> [hi; ho]
  | None => False
  end.
Proof. vm_compute. done. Qed.

Print Assumptions C69_once_partial.
Print Assumptions C69_all_partial.
Print Assumptions C69_left_partial.
Print Assumptions C69_gap_refuted.
Print Assumptions C69_twice_refuted.
Print Assumptions C69_order_refuted.
Print Assumptions C69_after_leaving_refuted.
Print Assumptions C69_unknown_refuted.
Print Assumptions C69_silent_refuted.
Print Assumptions C69_undead_refuted.
Print Assumptions C70_genuine.
Print Assumptions C70_private.
Print Assumptions C70_accepted.
Print Assumptions C71_kept.
Print Assumptions C71_history.
Print Assumptions C71_complete.
Print Assumptions C71_order.
