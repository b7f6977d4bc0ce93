(** C106: requests for the identity of a node and for handshakes. *)
From Verif Require Import Client_Model Client_Proofs Client_Props ClientAsk_Spec ClientAsk_Proofs.

(** A request for the identity is never answered twice, and while the client is connected none is left. *)
Theorem C106_identity_once {M} (frame_ok : M -> bool) (len : M -> N) (l : list (cop M)) c :
  crun frame_ok len new_client l = Some c ->
  (exists waiting, asked_id l ≡ₚ told_id (c_out c) ++ waiting) /\ (NoDup (asked_id l) -> NoDup (told_id (c_out c))) /\
  (forall n, connected c n -> asked_id l ≡ₚ told_id (c_out c)).
Proof.
  intros H. destruct (identity_count _ _ _ _ H) as [E Hc]. split; [by exists (c_identify c)|]. split.
  - rewrite E. by intros [? _]%NoDup_app.
  - intros n Hn. by rewrite E, (Hc n Hn), app_nil_r.
Qed.
Print Assumptions C106_identity_once.

(** The answer is the node the client has a connection to when it answers; there is no identity only when an attempt to
    connect has just failed. *)
Theorem C106_identity {M} (frame_ok : M -> bool) (len : M -> N) (l : list (cop M)) c o c' es i x :
  crun frame_ok len new_client l = Some c -> cstep frame_ok len c o = Some c' -> c_out c' = c_out c ++ es -> OIdentity i x ∈ es ->
  match x with
  | Some n => exists b, connected_since frame_ok len (l ++ [o]) n b
  | None => (exists r, o = AConnect r /\ forall n link, r <> Identified n link) /\ forall n, ~ connected c' n
  end.
Proof.
  intros H Ho Hes Hi.
  assert (Hrun : crun frame_ok len new_client (l ++ [o]) = Some c').
  { rewrite crun_app, H. cbn [mbind option_bind crun]. rewrite Ho. done. }
  pose proof (on_connection_run _ _ _ _ Hrun) as Hon.
  assert (Hin : i ∈ told_id es) by (apply elem_of_list_omap; by eexists).
  assert (Hno : forall e2, c_out c' = c_out c ++ e2 -> told_id e2 = [] -> False).
  { intros e2 E2 E3. rewrite Hes in E2. apply app_inv_head in E2 as ->. rewrite E3 in Hin. by apply elem_of_nil in Hin. }
  pose proof (step_did _ _ _ _ _ Ho) as D. destruct D as [Q E1 E2|j -> Hn Ei Ea Eo Es|j n hs -> Es Es' Ei Ea Eo|n link -> Es Ei Ea Eo|
    r -> Hr Hn Ei Ea (e2 & Eo & T1 & T2)|j link -> Hn ->|j n -> Es Es' Q|j link n hs hs' -> Es Es' Hh Ei Ea Eo|j link n -> Es Es' Ei Ea Eo|
    n hs -> Es Es' Ei Ea Eo].
  - destruct Q as (_ & _ & _ & e2 & Q3 & Q4 & _). by destruct (Hno e2).
  - destruct (Hno []); [by rewrite app_nil_r|done].
  - rewrite Hes in Eo. apply app_inv_head in Eo as ->. apply elem_of_list_singleton in Hi. injection Hi as -> ->.
    destruct (Hon n hs) as (b & Hb & _); [by rewrite Es'|]. by exists b.
  - rewrite Hes in Eo. apply app_inv_head in Eo as ->. apply elem_of_cons in Hi as [Hi|Hi]; [done|].
    apply elem_of_list_fmap in Hi as (k & Hk & _). injection Hk as -> ->. destruct (Hon n HNone Es) as (b & Hb & _). by exists b.
  - rewrite Hes, <- app_assoc in Eo. apply app_inv_head in Eo as ->. apply elem_of_app in Hi as [Hi|Hi].
    + apply elem_of_list_fmap in Hi as (k & Hk & _). injection Hk as -> ->. split; [by exists r|done].
    + exfalso. assert (Hx : i ∈ told_id e2) by (apply elem_of_list_omap; by eexists). rewrite T1 in Hx. by apply elem_of_nil in Hx.
  - destruct (Hno []); [by rewrite app_nil_r|done].
  - destruct Q as (_ & _ & _ & e2 & Q3 & Q4 & _). by destruct (Hno e2).
  - destruct (Hno []); [by rewrite app_nil_r|done].
  - by destruct (Hno [OHandshakeDone j]).
  - destruct (Hno _ Eo). apply told_id_done.
Qed.
Print Assumptions C106_identity.

(** A request for a handshake is never answered twice. *)
Theorem C106_handshake_once {M} (frame_ok : M -> bool) (len : M -> N) (l : list (cop M)) c :
  crun frame_ok len new_client l = Some c ->
  (exists rest, asked_hs l ≡ₚ told_hs (c_out c) ++ rest) /\ (NoDup (asked_hs l) -> NoDup (told_hs (c_out c))).
Proof.
  intros H. destruct (handshake_count _ _ _ _ H) as [away E]. split; [by eexists|]. rewrite E. by intros [? _]%NoDup_app.
Qed.
Print Assumptions C106_handshake_once.

(** And it is answered by the next acknowledgement that finds the client connected, if it found the client connected itself. *)
Lemma taken_kept {M} (frame_ok : M -> bool) (len : M -> N) (l : list (cop M)) c c' i :
  crun frame_ok len c l = Some c' -> i ∈ told_hs (c_out c) ++ c_acks c -> i ∈ told_hs (c_out c') ++ c_acks c'.
Proof.
  revert c. induction l as [|o l IH]; intros c H Hi; [by injection H as <-|].
  cbn [crun] in H. destruct (cstep frame_ok len c o) as [c1|] eqn:Ho; [|done]. cbn [mbind option_bind] in H. apply (IH c1 H). clear IH H.
  destruct (out_mono _ _ _ _ _ Ho) as [e He]. rewrite He, told_hs_app.
  pose proof (step_did _ _ _ _ _ Ho) as D. destruct D as [Q E1 E2|j -> Hn Ei Ea Eo Es|j n hs -> Es Es' Ei Ea Eo|n link -> Es Ei Ea Eo|
    r -> Hr Hn Ei Ea (e2 & Eo & T1 & T2)|j link -> Hn ->|j n -> Es Es' Q|j link n hs hs' -> Es Es' Hh Ei Ea Eo|j link n -> Es Es' Ei Ea Eo|
    n hs -> Es Es' Ei Ea Eo].
  1, 7: destruct Q as (_ & Q2 & _); rewrite Q2; set_solver.
  1-4, 6, 7: rewrite Ea; set_solver.
  - set_solver.
  - rewrite Ea, app_nil_r. rewrite He in Eo. apply app_inv_head in Eo as ->. rewrite told_hs_done, <- (Permutation_rev (c_acks c)). done.
Qed.
Theorem C106_acknowledged {M} (frame_ok : M -> bool) (len : M -> N) (l1 l2 : list (cop M)) c1 c c' i link n k :
  crun frame_ok len new_client l1 = Some c1 -> connected c1 k -> crun frame_ok len c1 (AHandshake i link :: l2) = Some c ->
  connected c n -> cstep frame_ok len c AAck = Some c' -> OHandshakeDone i ∈ c_out c'.
Proof.
  intros _ [h1 Hk] H [h Hn] Ha. cbn [crun] in H. destruct (cstep frame_ok len c1 (AHandshake i link)) as [c2|] eqn:Ho; [|done].
  cbn [mbind option_bind] in H.
  assert (Hi : i ∈ told_hs (c_out c2) ++ c_acks c2 \/ c_life c2 = LPanicked).
  { unfold cstep in Ho. destruct (c_life c1); try done. injection Ho as <-. unfold begin_handshake. rewrite Hk.
    destruct h1; [destruct link|..]; cbn; [left; set_solver|by right|left; set_solver|].
    left. rewrite told_hs_app. set_solver. }
  destruct Hi as [Hi|Hp].
  - pose proof (taken_kept _ _ _ _ _ i H Hi) as Hx. unfold cstep in Ha. destruct (c_life c); try done. injection Ha as <-.
    unfold acknowledge. rewrite Hn. cbn. apply elem_of_app in Hx as [Hx|Hx].
    + apply elem_of_list_omap in Hx as (e & He & Hx). destruct e; simplify_eq. apply elem_of_app. by left.
    + apply elem_of_app. right. apply elem_of_list_fmap. exists i. split; [done|]. by rewrite <- (Permutation_rev (c_acks c)).
  - destruct l2 as [|o l2]; cbn [crun] in H.
    + injection H as <-. unfold cstep in Ha. by rewrite Hp in Ha.
    + unfold cstep in H at 1. by rewrite Hp in H.
Qed.
Print Assumptions C106_acknowledged.
Example C106_acknowledged_case :
  match crun ok8 (fun m => m) new_client [AConnect (Identified 7%N all_up); AHandshake 4 true; AHandshake 5 true; AWrite 1%N true] with
  | Some c => connected c 7 /\ match cstep ok8 (fun m => m) c AAck with Some c' => told_hs (c_out c') = [5; 4] | None => False end
  | None => False
  end.
Proof. vm_compute. split; [by eexists|done]. Qed.

(** If acknowledgements come on the connection their handshake was written on, success is reported only when, on the
    connection the client has then, a handshake was written and acknowledged. *)
Theorem C106_handshake_partial {M} (frame_ok : M -> bool) (len : M -> N) (l : list (cop M)) c o c' es i :
  crun frame_ok len new_client l = Some c -> cstep frame_ok len c o = Some c' -> c_out c' = c_out c ++ es -> OHandshakeDone i ∈ es ->
  own_acks frame_ok len (l ++ [o]) ->
  exists n b j, connected_since frame_ok len (l ++ [o]) n b /\ AHandshake j true ∈ b /\ AAck ∈ b.
Proof.
  intros H Ho Hes Hi Hown.
  assert (Hrun : crun frame_ok len new_client (l ++ [o]) = Some c').
  { rewrite crun_app, H. cbn [mbind option_bind crun]. rewrite Ho. done. }
  pose proof (on_connection_run _ _ _ _ Hrun) as Hon.
  assert (Hin : i ∈ told_hs es) by (apply elem_of_list_omap; by eexists).
  assert (Hno : forall e2, c_out c' = c_out c ++ e2 -> told_hs e2 = [] -> False).
  { intros e2 E2 E3. rewrite Hes in E2. apply app_inv_head in E2 as ->. rewrite E3 in Hin. by apply elem_of_nil in Hin. }
  assert (Hyes : forall n, c_state c' = CConnected n HAcknowledged ->
    exists n b j, connected_since frame_ok len (l ++ [o]) n b /\ AHandshake j true ∈ b /\ AAck ∈ b).
  { intros n Hn. destruct (Hon n _ Hn) as (b & Hb & Hw). destruct (Hw Hown) as [H1 H2]. destruct H1 as [j Hj]; [done|].
    exists n, b, j. split; [done|]. split; [done|]. by apply H2. }
  pose proof (step_did _ _ _ _ _ Ho) as D. destruct D as [Q E1 E2|j -> Hn Ei Ea Eo Es|j n hs -> Es Es' Ei Ea Eo|n link -> Es Ei Ea Eo|
    r -> Hr Hn Ei Ea (e2 & Eo & T1 & T2)|j link -> Hn ->|j n -> Es Es' Q|j link n hs hs' -> Es Es' Hh Ei Ea Eo|j link n -> Es Es' Ei Ea Eo|
    n hs -> Es Es' Ei Ea Eo].
  - destruct Q as (_ & _ & _ & e2 & Q3 & _ & Q4). by destruct (Hno e2).
  - destruct (Hno []); [by rewrite app_nil_r|done].
  - by destruct (Hno _ Eo).
  - destruct (Hno _ Eo). cbn. apply told_hs_ids.
  - rewrite <- app_assoc in Eo. destruct (Hno _ Eo). by rewrite told_hs_app, told_hs_ids, T2.
  - destruct (Hno []); [by rewrite app_nil_r|done].
  - destruct Q as (_ & _ & _ & e2 & Q3 & _ & Q4). by destruct (Hno e2).
  - destruct (Hno []); [by rewrite app_nil_r|done].
  - apply (Hyes n). by rewrite Es'.
  - by apply (Hyes n).
Qed.
Print Assumptions C106_handshake_partial.

(** Not in general. The acknowledgement of a lost connection arrives when there is a new one, to another node at the same
    address: the old request and the next one are told that the handshake is done, and none was written on the new one. *)
Definition stale_run : list (cop N) :=
  [AConnect (Identified 2%N all_up); AHandshake 0 true; AWrite 1%N false; AConnect (Identified 3%N all_up); AAck; AHandshake 1 true].
Theorem C106_stale_refuted :
  match crun ok8 (fun m => m) new_client stale_run with
  | Some c => c_out c = [OConnected 2%N; OConnected 3%N; OHandshakeDone 0; OHandshakeDone 1] /\ c_readers c = 2
  | None => False
  end.
Proof. vm_compute. done. Qed.
Print Assumptions C106_stale_refuted.

(** A handshake that was written on a connection that is lost before the acknowledgement is not written again: until somebody
    asks for another one, nothing is acknowledged and the request is not answered. *)
Theorem C106_lost_refuted {M} (frame_ok : M -> bool) (len : M -> N) (l l' : list (cop M)) c c' :
  crun frame_ok len new_client l = Some c -> crun frame_ok len c l' = Some c' -> asked_hs l' = [] -> AAck ∉ l' ->
  told_hs (c_out c') = told_hs (c_out c) /\ c_acks c' = c_acks c.
Proof.
  intros _. revert c. induction l' as [|o l' IH]; intros c H Ha Hk; [by injection H as <-|].
  cbn [crun] in H. destruct (cstep frame_ok len c o) as [c1|] eqn:Ho; [|done]. cbn [mbind option_bind] in H.
  change (o :: l') with ([o] ++ l') in Ha. rewrite asked_hs_app in Ha. apply app_eq_nil in Ha as [Ha1 Ha2].
  destruct (IH c1 H Ha2) as [-> ->]; [set_solver|].
  pose proof (step_did _ _ _ _ _ Ho) as D. destruct D as [Q E1 E2|j -> Hn Ei Ea Eo Es|j n hs -> Es Es' Ei Ea Eo|n link -> Es Ei Ea Eo|
    r -> Hr Hn Ei Ea (e2 & Eo & T1 & T2)|j link -> Hn ->|j n -> Es Es' Q|j link n hs hs' -> Es Es' Hh Ei Ea Eo|j link n -> Es Es' Ei Ea Eo|
    n hs -> Es Es' Ei Ea Eo]; try done.
  - destruct Q as (_ & Q2 & _ & e2 & Q3 & _ & Q4). by rewrite Q3, told_hs_app, Q4, app_nil_r.
  - by rewrite Eo.
  - rewrite Eo, told_hs_app. cbn. by rewrite app_nil_r.
  - rewrite Eo, told_hs_app. split; [|done]. cbn [told_hs omap list_omap].
    fold (told_hs ((fun i => OIdentity i (Some n)) <$> rev (c_identify c))). by rewrite told_hs_ids, app_nil_r.
  - by rewrite Eo, !told_hs_app, told_hs_ids, T2, !app_nil_r.
  - set_solver.
Qed.
Print Assumptions C106_lost_refuted.

Example C106_lost_case :
  match crun ok8 (fun m => m) new_client [AConnect (Identified 2%N all_up); AHandshake 0 true; ALost] with
  | Some c => c_acks c = [0] /\
      match crun ok8 (fun m => m) c [AConnect (Identified 2%N all_up); AWrite 1%N true; APing 1%N true] with
      | Some c' => connected c' 2 /\ told_hs (c_out c') = []
      | None => False
      end
  | None => False
  end.
Proof. vm_compute. split; [done|]. split; [by eexists|done]. Qed.

(** A request for a handshake that finds the client without a connection is not answered, whatever happens later (its caller
    is told at once that nobody will answer). *)
Theorem C106_unconnected_refuted {M} (frame_ok : M -> bool) (len : M -> N) (l l' : list (cop M)) c i link c' :
  crun frame_ok len new_client l = Some c -> (forall n, ~ connected c n) -> NoDup (asked_hs (l ++ AHandshake i link :: l')) ->
  crun frame_ok len new_client (l ++ AHandshake i link :: l') = Some c' -> OHandshakeDone i ∉ c_out c'.
Proof.
  intros H Hn Hd H' Hi.
  assert (Hlife : cstep frame_ok len c (AHandshake i link) = Some c).
  { rewrite crun_app, H in H'. cbn [mbind option_bind crun] in H'. destruct (cstep frame_ok len c (AHandshake i link)) as [d|] eqn:E; [|done].
    pose proof (step_did _ _ _ _ _ E) as D. destruct D as [Q E1 E2|j ? ? ? ? ? ?|j n hs ? ? ? ? ? ?|n k ? ? ? ? ?|
      r ? ? ? ? ? ?|j k ? ? ->|j n ? Es ? ?|j k n hs hs' ? Es ? ? ? ? ?|j k n ? Es ? ? ? ?|n hs ? ? ? ? ? ?]; try done.
    all: destruct (Hn n); by eexists. }
  rewrite crun_app, H in H'. cbn [mbind option_bind crun] in H'. rewrite Hlife in H'. cbn [mbind option_bind] in H'.
  assert (Hrun : crun frame_ok len new_client (l ++ l') = Some c') by (by rewrite crun_app, H).
  destruct (handshake_count _ _ _ _ Hrun) as [away E].
  assert (Hx : i ∈ asked_hs (l ++ l')).
  { rewrite E. apply elem_of_app. left. apply elem_of_list_omap. by eexists. }
  rewrite asked_hs_app in Hd, Hx. change (AHandshake i link :: l') with ([AHandshake i link] ++ l') in Hd. rewrite asked_hs_app in Hd.
  change (asked_hs [AHandshake i link]) with [i] in Hd. rewrite (Permutation_app_comm [i]), app_assoc in Hd.
  apply NoDup_app in Hd as (_ & Hd & _). by apply (Hd i Hx), elem_of_list_singleton.
Qed.
Print Assumptions C106_unconnected_refuted.

(** Two requests wait, the first attempt fails, a third is answered by the second attempt, and a fourth at once; two
    handshakes are asked for before the acknowledgement and one after it. *)
Definition ask_run : list (cop N) :=
  [AIdentify 0; AIdentify 1; AConnect Refused; AIdentify 2; AHandshake 9 true; AConnect (Identified 7%N all_up); AIdentify 3;
   AHandshake 4 true; AHandshake 5 false; AAck; AHandshake 6 true].
Example C106_case :
  match crun ok8 (fun m => m) new_client ask_run with
  | Some c => c_out c = [OIdentity 1 None; OIdentity 0 None; OConnected 7%N; OIdentity 2 (Some 7%N); OIdentity 3 (Some 7%N);
                         OHandshakeDone 5; OHandshakeDone 4; OHandshakeDone 6] /\ connected c 7
  | None => False
  end /\ asked_id ask_run = [0; 1; 2; 3] /\ asked_hs ask_run = [9; 4; 5; 6].
Proof. split; [|done]. vm_compute. split; [done|]. by eexists. Qed.

(** All acknowledgements of this run are of its own connection. *)
Example C106_own_case : own_acks ok8 (fun m => m) ask_run.
Proof.
  intros l1 l2 c n Hl Hr. unfold ask_run in Hl.
  do 9 (destruct l1 as [|? l1]; [discriminate Hl|]; cbn [app] in Hl; injection Hl as <- Hl).
  destruct l1 as [|? l1].
  - vm_compute in Hr. injection Hr as <-. done.
  - cbn [app] in Hl. injection Hl as <- Hl. destruct l1 as [|? l1]; [discriminate Hl|]. cbn [app] in Hl. injection Hl as <- Hl.
    by destruct l1.
Qed.
