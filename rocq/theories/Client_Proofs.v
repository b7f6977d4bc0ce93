(** Proofs about clients and their registry. *)
From Verif Require Import Client_Model Client_Spec.

Section client.
Context {M : Type}.
Variable frame_ok : M -> bool.
Variable len : M -> N.
Notation cstep := (cstep frame_ok len).
Notation crun := (crun frame_ok len).
Notation writes := (writes frame_ok len).
Notation orderly := (orderly frame_ok len).
Notation flush := (flush frame_ok).
Implicit Types (c : client M) (o : cop M) (l : list (cop M)).

Lemma crun_app c l1 l2 : crun c (l1 ++ l2) = c' ← crun c l1; crun c' l2.
Proof.
  revert c. induction l1 as [|o l1 IH]; intros c; [done|]. simpl. destruct (cstep c o); simpl; [apply IH|done].
Qed.
Lemma crun_snoc c l o c' : crun c (l ++ [o]) = Some c' -> exists c1, crun c l = Some c1 /\ cstep c1 o = Some c'.
Proof.
  rewrite crun_app. destruct (crun c l) as [c1|]; simpl; [|done]. destruct (cstep c1 o) eqn:E; simpl; [|done].
  intros [= <-]. eauto.
Qed.
Lemma writes_run l c : crun new_client l = Some c <-> exists ms, writes l c ms.
Proof.
  split.
  - revert c. induction l as [|o l IH] using rev_ind; intros c.
    + intros [= <-]. exists []. constructor.
    + intros (c1 & H1 & H2)%crun_snoc. destruct (IH _ H1) as [ms Hm]. eexists. by econstructor.
  - intros [ms H]. induction H as [|l c o c' ms _ IH Hs]; [done|]. rewrite crun_app, IH. simpl. by rewrite Hs.
Qed.

Lemma flush_split buf link i sent kept : flush buf link i = (sent, kept) -> buf = sent ++ kept.
Proof.
  revert i sent kept. induction buf as [|m buf IH]; intros i sent kept; simpl; [by intros [= <- <-]|].
  destruct (frame_ok m && link i).
  - destruct (flush buf link (S i)) as [s k] eqn:E. intros [= <- <-]. simpl. f_equal. by eapply IH.
  - by intros [= <- <-].
Qed.
Lemma flush_ok buf link i sent kept : flush buf link i = (sent, kept) -> Forall (fun m => frame_ok m = true) sent.
Proof.
  revert i sent kept. induction buf as [|m buf IH]; intros i sent kept; simpl; [by intros [= <- <-]|].
  destruct (frame_ok m) eqn:Em; simpl.
  - destruct (link i).
    + destruct (flush buf link (S i)) as [s k] eqn:E. intros [= <- <-]. constructor; [done|]. by eapply IH.
    + by intros [= <- <-].
  - by intros [= <- <-].
Qed.
Lemma flush_all buf link i : Forall (fun m => frame_ok m = true) buf -> (forall i, link i = true) -> flush buf link i = (buf, []).
Proof.
  intros HF Hl. revert i. induction HF as [|m buf Hm HF IH]; intros i; simpl; [done|]. by rewrite Hm, Hl, IH.
Qed.

(** The parts that [disconnected] leaves alone. *)
Lemma disconnected_same c : let c' := disconnected c in
  c_buffer c' = c_buffer c /\ c_total c' = c_total c /\ c_handed c' = c_handed c /\ c_lost c' = c_lost c /\
  c_life c' = c_life c /\ c_readers c' = c_readers c /\ c_node c' = c_node c.
Proof. destruct c as [[n| |] ? ? ? ? ? ? ? ? ? ? ? ?]; unfold disconnected; simpl; [|done..]. by destruct (10 <? S n)%nat. Qed.

(** How a step acts on the messages. *)
Inductive moved c c' o : Prop :=
| moved_none : written1 c o = [] -> c_buffer c' = c_buffer c -> c_handed c' = c_handed c -> c_lost c' = c_lost c ->
    c_total c' = c_total c -> moved c c' o
| moved_buffer m : written1 c o = [m] -> c_buffer c' = c_buffer c ++ [m] -> c_handed c' = c_handed c ->
    c_lost c' = c_lost c -> c_total c' = (c_total c + len m)%N ->
    ((exists n, c_state c = CIdle n) \/ (exists link, frame_ok m && link = false)) -> moved c c' o
| moved_hand m : written1 c o = [m] -> c_buffer c' = c_buffer c -> c_handed c' = c_handed c ++ [m] ->
    c_lost c' = c_lost c -> c_total c' = c_total c -> (exists n hs, c_state c = CConnected n hs) ->
    frame_ok m = true -> moved c c' o
| moved_lose m : written1 c o = [m] -> c_buffer c' = c_buffer c -> c_handed c' = c_handed c ->
    c_lost c' = c_lost c ++ [m] -> c_total c' = c_total c -> c_state c = CTerminated -> moved c c' o
| moved_flush n link sent : o = AConnect (Identified n link) -> flush (c_buffer c) link 0 = (sent, c_buffer c') ->
    c_handed c' = c_handed c ++ sent -> c_lost c' = c_lost c ->
    c_total c' = (c_total c - foldr (fun m n => len m + n) 0 sent)%N -> c_state c' = CConnected n HNone -> moved c c' o.

Lemma cstep_running c o c' : cstep c o = Some c' -> c_life c = LRunning.
Proof. unfold Client_Model.cstep. by destruct (c_life c). Qed.

Lemma write_moved c o m link : written1 c o = [m] -> moved c (write frame_ok len c m link) o.
Proof.
  intros Hw. unfold write. destruct (c_state c) as [n|n hs|] eqn:Es.
  - eapply moved_buffer; try done. left. by eexists.
  - destruct (frame_ok m && link) eqn:E.
    + eapply moved_hand; try done; [by eauto|]. by apply andb_true_iff in E as [? _].
    + destruct (disconnected_same (buffer_message len c m)) as (H1 & H2 & H3 & H4 & _).
      eapply moved_buffer; [done| | | | |]; [by rewrite H1|by rewrite H3|by rewrite H4|by rewrite H2|]. right. by exists link.
  - destruct (disconnected_same (lose c m)) as (H1 & H2 & H3 & H4 & _).
    eapply moved_lose; [done| | | | |done]; [by rewrite H1|by rewrite H3|by rewrite H4|by rewrite H2].
Qed.
Lemma step_moved c o c' : cstep c o = Some c' -> moved c c' o.
Proof.
  intros H. pose proof (cstep_running _ _ _ H) as Hl. unfold Client_Model.cstep in H. rewrite Hl in H.
  destruct o as [r| | |m link|m link|i link| |i|].
  - destruct (c_scheduled c) as [|k]; [done|]. injection H as <-. unfold connect. simpl.
    assert (HA : moved c (attempt frame_ok len (with_scheduled c k) r) (AConnect r)).
    { destruct r as [| | | |node link];
        try (destruct (disconnected_same (answer_identify (with_scheduled c k) None)) as (H1 & H2 & H3 & H4 & _);
             apply moved_none; cbn [attempt]; [done|by rewrite H1|by rewrite H3|by rewrite H4|by rewrite H2]);
        try by apply moved_none.
      simpl; unfold flush_buffered; simpl. destruct (flush (c_buffer c) link 0) as [sent kept] eqn:E.
      eapply moved_flush; simpl; done. }
    destruct (c_state c) as [n|n hs|] eqn:Es; [done|by apply moved_none|done].
  - destruct (c_readers c) as [|k]; [done|]. injection H as <-.
    destruct (disconnected_same (with_readers c k)) as (H1 & H2 & H3 & H4 & _).
    apply moved_none; [done|by rewrite H1|by rewrite H3|by rewrite H4|by rewrite H2].
  - destruct (c_readers c) as [|k]; [done|]. injection H as <-. by apply moved_none.
  - injection H as <-. by apply write_moved.
  - injection H as <-. unfold ping_tick. destruct (c_state c) as [n|n hs|] eqn:Es.
    + apply moved_none; simpl; by rewrite ?Es.
    + apply write_moved. simpl. by rewrite Es.
    + apply moved_none; simpl; by rewrite ?Es.
  - injection H as <-. unfold begin_handshake. destruct (c_state c) as [n|n [| |]|]; try by apply moved_none.
    destruct link; by apply moved_none.
  - injection H as <-. unfold acknowledge. destruct (c_state c) as [n|n hs|]; by apply moved_none.
  - injection H as <-. unfold identify. destruct (c_state c) as [n|n hs|]; by apply moved_none.
  - injection H as <-. by apply moved_none.
Qed.

(** *** C27 *)
Lemma accounted l c ms : writes l c ms -> c_handed c ++ c_buffer c ++ c_lost c ≡ₚ ms.
Proof.
  induction 1 as [|l c o c' ms _ IH Hs]; [done|].
  destruct (step_moved _ _ _ Hs) as [-> -> -> -> _|m -> -> -> -> _ _|m -> -> -> -> _ _ _|m -> -> -> -> _ _|n link sent -> E -> -> _ _].
  - by rewrite app_nil_r.
  - rewrite <- IH. rewrite <- !app_assoc. apply Permutation_app_head, Permutation_app_head. apply Permutation_app_comm.
  - rewrite <- IH. rewrite <- !app_assoc. apply Permutation_app_head. rewrite app_assoc. rewrite (app_assoc (c_buffer c)).
    rewrite (Permutation_app_comm (c_buffer c ++ c_lost c) [m]). by rewrite <- !app_assoc.
  - rewrite <- IH. by rewrite !app_assoc.
  - rewrite app_nil_r. rewrite <- IH. rewrite (flush_split _ _ _ _ _ E). by rewrite !app_assoc.
Qed.

Lemma out_mono c o c' : cstep c o = Some c' -> exists e, c_out c' = c_out c ++ e.
Proof.
  intros H. pose proof (cstep_running _ _ _ H) as Hl. unfold Client_Model.cstep in H. rewrite Hl in H.
  assert (HD : forall d, exists e, c_out (disconnected d) = c_out (M:=M) d ++ e).
  { intros [[n| |] ? ? ? ? ? ? ? ? ? ? ? ?]; unfold disconnected; simpl; [|exists []; by rewrite app_nil_r..].
    destruct (10 <? S n)%nat; simpl; [by eexists|]. exists []. by rewrite app_nil_r. }
  assert (HN : exists e, c_out c = c_out c ++ e) by (exists []; by rewrite app_nil_r).
  assert (HW : forall m link, exists e, c_out (write frame_ok len c m link) = c_out c ++ e).
  { intros m link. unfold write. destruct (c_state c); [done| |by apply (HD (lose c m))].
    destruct (frame_ok m && link); [done|]. by apply (HD (buffer_message len c m)). }
  destruct o as [r| | |m link|m link|i link| |i|].
  - destruct (c_scheduled c) as [|k]; [done|]. injection H as <-. unfold connect. simpl.
    assert (HF : forall r, failed r = true -> r <> ClosedEarly -> exists e, c_out (attempt frame_ok len (with_scheduled c k) r) = c_out c ++ e).
    { intros r' Hr Hn. destruct (HD (answer_identify (with_scheduled c k) None)) as [e He]. simpl in He.
      destruct r'; try done; simpl; rewrite He, <- app_assoc; by eexists. }
    assert (HI : forall node link, exists e, c_out (attempt frame_ok len (with_scheduled c k) (Identified node link)) = c_out c ++ e).
    { intros node link. simpl. unfold flush_buffered. simpl. destruct (flush _ _ _). simpl. rewrite <- app_assoc. by eexists. }
    destruct (c_state c); [|done|]; (destruct r; try (by apply HF); try (by apply HI); done).
  - destruct (c_readers c) as [|k]; [done|]. injection H as <-. apply (HD (with_readers c k)).
  - destruct (c_readers c) as [|k]; [done|]. by injection H as <-.
  - injection H as <-. apply HW.
  - injection H as <-. unfold ping_tick. destruct (c_state c); [by eexists|apply HW|by eexists].
  - injection H as <-. unfold begin_handshake. destruct (c_state c) as [n|n [| |]|]; try done; [|by eexists].
    by destruct link.
  - injection H as <-. unfold acknowledge. destruct (c_state c) as [n|n hs|]; [done|by eexists|done].
  - injection H as <-. unfold identify. destruct (c_state c) as [n|n hs|]; [done|by eexists|done].
  - by injection H as <-.
Qed.
Lemma given_up_mono c o c' : cstep c o = Some c' -> given_up c -> given_up c'.
Proof. intros (e & He)%out_mono [n Hn]. exists n. rewrite He. apply elem_of_app. by left. Qed.

Definition stop_inv c : Prop :=
  (c_stopping c = true <-> given_up c) /\ (c_state c = CTerminated -> given_up c) /\ (c_lost c <> [] -> given_up c) /\
  (c_life c = LRunning -> forall n, c_state c = CIdle n -> (n <= 10 /\ 1 <= c_scheduled c)%nat).

Lemma disconnected_inv c : (forall n, c_state c = CIdle n -> (n <= 10)%nat) -> (c_stopping c = true <-> given_up c) -> (c_state c = CTerminated -> given_up c) ->
  (c_lost c <> [] -> given_up c) -> stop_inv (disconnected c).
Proof.
  destruct c as [[n|n hs|] nd ? ? ? ? ? ? ? ? ? ? out]; unfold disconnected, stop_inv, given_up; simpl; intros H0 H1 H2 H3.
  - destruct (Nat.ltb_spec 10 (S n)) as [Hlt|Hlt]; simpl.
    + assert (HG : exists n0, ORemove n0 ∈ out ++ [ORemove nd]) by (eexists; apply elem_of_app; right; by left).
      split_and!; done.
    + split_and!; try done; try apply H1. intros _ n' [= <-]. lia.
  - split_and!; try done; try apply H1. intros _ n' [= <-]. lia.
  - split_and!; try done; try apply H1.
Qed.
Lemma stop_inv_same c c' : c_stopping c' = c_stopping c -> c_state c' = c_state c -> c_lost c' = c_lost c ->
  (c_life c' = LRunning -> c_life c = LRunning /\ (c_scheduled c <= c_scheduled c')%nat) ->
  (forall n, ORemove n ∈ c_out c' <-> ORemove n ∈ c_out c) -> stop_inv c -> stop_inv c'.
Proof.
  unfold stop_inv, given_up. intros -> -> -> E4 E5 (H1 & H2 & H3 & H4). setoid_rewrite E5.
  split_and!; try done; try apply H1. intros [Hl Hle]%E4 n Hn. specialize (H4 Hl n Hn). lia.
Qed.
Lemma no_remove_nil (out : list cout) n : ORemove n ∈ out ++ [] <-> ORemove n ∈ out.
Proof. by rewrite app_nil_r. Qed.
Lemma no_remove_app (out e : list cout) n : (forall n, ORemove n ∉ e) -> ORemove n ∈ out ++ e <-> ORemove n ∈ out.
Proof. intros H. rewrite elem_of_app. split; [|by left]. intros [?|?]; [done|by destruct (H n)]. Qed.
Lemma no_remove_ids (l : list nat) x n : ORemove n ∉ ((fun i => OIdentity i x) <$> l).
Proof. intros (i & ? & _)%elem_of_list_fmap. done. Qed.
Lemma no_remove_acks (l : list nat) n : ORemove n ∉ (OHandshakeDone <$> l).
Proof. intros (i & ? & _)%elem_of_list_fmap. done. Qed.

Lemma write_inv c m link : c_life c = LRunning -> stop_inv c -> stop_inv (write frame_ok len c m link).
Proof.
  intros Hl (H1 & H2 & H3 & H4). unfold write. destruct (c_state c) as [n|n hs|] eqn:Es.
  - apply (stop_inv_same c); try done. unfold stop_inv. rewrite Es. done.
  - destruct (frame_ok m && link).
    + apply (stop_inv_same c); try done. unfold stop_inv. by rewrite Es.
    + apply disconnected_inv; simpl; rewrite ?Es; auto; done.
  - apply disconnected_inv; simpl; rewrite ?Es; auto; done.
Qed.

Lemma stop_inv_step c o c' : stop_inv c -> cstep c o = Some c' -> stop_inv c'.
Proof.
  intros HI H. pose proof (cstep_running _ _ _ H) as Hl. unfold Client_Model.cstep in H. rewrite Hl in H.
  pose proof HI as (H1 & H2 & H3 & H4). specialize (H4 Hl).
  destruct o as [r| | |m link|m link|i link| |i|].
  - destruct (c_scheduled c) as [|k] eqn:Ek; [done|]. injection H as <-. unfold connect. simpl.
    assert (HF : (forall n hs, c_state c <> CConnected n hs) -> forall r, failed r = true -> r <> ClosedEarly -> stop_inv (attempt frame_ok len (with_scheduled c k) r)).
    { intros Hnc r' Hr Hn.
      assert (stop_inv (disconnected (answer_identify (with_scheduled c k) None))) as HX; [|by destruct r'].
      assert (HO : given_up (answer_identify (with_scheduled c k) None) <-> given_up c).
      { unfold given_up. simpl. setoid_rewrite no_remove_app; [done|]. intros. apply no_remove_ids. }
      apply disconnected_inv; simpl; rewrite ?HO; try done. intros n Hs. by apply H4. }
    assert (HC : stop_inv (with_life (with_scheduled c k) LHung)).
    { unfold stop_inv, given_up. simpl. split_and!; try done; try apply H1. }
    assert (HN : forall node link, stop_inv (attempt frame_ok len (with_scheduled c k) (Identified node link))).
    { intros node link. simpl. unfold flush_buffered. simpl. destruct (flush _ _ _) as [s kp]. simpl.
      assert (HO : forall n, ORemove n ∈ (c_out c ++ [OConnected node]) ++ ((fun i => OIdentity i (Some node)) <$> rev (c_identify c)) <-> ORemove n ∈ c_out c).
      { intros n. rewrite <- app_assoc. apply no_remove_app. intros n' [Hx|Hx]%elem_of_app; [by apply elem_of_list_singleton in Hx|].
        by apply no_remove_ids in Hx. }
      unfold stop_inv, given_up. simpl. setoid_rewrite HO. split_and!; try done; try apply H1. }
    destruct (c_state c) as [n|n hs|] eqn:Es.
    + destruct r; try (by apply HF); [done|apply HN].
    + unfold stop_inv, given_up. simpl. rewrite Es. split_and!; try done; try apply H1.
    + destruct r; try (by apply HF); [done|apply HN].
  - destruct (c_readers c) as [|k]; [done|]. injection H as <-.
    apply disconnected_inv; simpl; try done. intros n Hn. by apply H4.
  - destruct (c_readers c) as [|k]; [done|]. injection H as <-. by apply (stop_inv_same c).
  - injection H as <-. by apply write_inv.
  - injection H as <-. unfold ping_tick. destruct (c_state c) eqn:Es; [|by apply write_inv|]; (apply (stop_inv_same c); try done; simpl;
      intros n'; apply no_remove_app; intros n'' [Hx|Hx%elem_of_list_singleton]%elem_of_app; [|done];
      destruct (c_node c); [by apply elem_of_list_singleton in Hx|by apply elem_of_nil in Hx]).
  - injection H as <-. unfold begin_handshake. destruct (c_state c) as [n|n [| |]|] eqn:Es; try done.
    + destruct link; unfold stop_inv, given_up; simpl; rewrite ?Es; split_and!; try done; try apply H1.
    + apply (stop_inv_same c); try done. simpl. intros n'. apply no_remove_app. by intros n'' ?%elem_of_list_singleton.
  - injection H as <-. unfold acknowledge. destruct (c_state c) as [n|n hs|] eqn:Es; try done.
    assert (HO : forall n, ORemove n ∈ c_out c ++ (OHandshakeDone <$> rev (c_acks c)) <-> ORemove n ∈ c_out c)
      by (intros; apply no_remove_app, no_remove_acks).
    unfold stop_inv, given_up. simpl. setoid_rewrite HO. split_and!; try done; try apply H1.
  - injection H as <-. unfold identify. destruct (c_state c) as [n|n hs|] eqn:Es.
    + apply (stop_inv_same c); done.
    + apply (stop_inv_same c); try done. simpl. intros n'. apply no_remove_app. by intros n'' ?%elem_of_list_singleton.
    + apply (stop_inv_same c); done.
  - injection H as <-. apply (stop_inv_same c); try done.
Qed.
Lemma stop_inv_run l c : crun new_client l = Some c -> stop_inv c.
Proof.
  revert c. induction l as [|o l IH] using rev_ind; intros c.
  - intros [= <-]. unfold stop_inv, given_up. simpl.
    assert (~ exists n : option N, ORemove n ∈ []) by by intros [? ?%elem_of_nil].
    split_and!; try done. intros _ n [= <-]. lia.
  - intros (c1 & H1 & H2)%crun_snoc. eapply stop_inv_step; [|done]. auto.
Qed.

(** The state after a step that keeps a client connected. *)
Lemma connected_step c o c' n hs : cstep c o = Some c' -> c_state c' = CConnected n hs ->
  (exists n' hs', c_state c = CConnected n' hs' /\ forall m, c_buffer c' <> c_buffer c ++ [m]) \/
  (exists link, o = AConnect (Identified n link)).
Proof.
  intros H Hc. pose proof (cstep_running _ _ _ H) as Hl. unfold Client_Model.cstep in H. rewrite Hl in H.
  assert (HD : forall d : client M, c_state (disconnected d) <> CConnected n hs).
  { intros d Hd. unfold disconnected in Hd. destruct (c_state d) as [k|k h|] eqn:E; simpl in Hd; [|done|by rewrite E in Hd].
    destruct (10 <? S k)%nat; done. }
  assert (HN : forall m : M, c_buffer c <> c_buffer c ++ [m]).
  { intros m Hm. apply (f_equal length) in Hm. rewrite app_length in Hm. simpl in Hm. lia. }
  assert (HW : forall m link, c_state (write frame_ok len c m link) = CConnected n hs ->
    exists n' hs', c_state c = CConnected n' hs' /\ forall m', c_buffer (write frame_ok len c m link) <> c_buffer c ++ [m']).
  { intros m link Hw. unfold write in *. destruct (c_state c) as [k|k h|] eqn:Es; [simpl in Hw; by rewrite Es in Hw| |by apply HD in Hw].
    destruct (frame_ok m && link); [|by apply HD in Hw]. by eauto. }
  destruct o as [r| | |m link|m link|i link| |i|].
  - destruct (c_scheduled c) as [|k]; [done|]. injection H as <-. unfold connect in *. simpl in *.
    destruct (c_state c) as [j|j h|] eqn:Es; [|left; by eauto|];
      (destruct r as [| | | |node link]; simpl in Hc; try (by apply HD in Hc); [by rewrite Es in Hc|]; right; exists link;
       unfold flush_buffered in Hc; simpl in Hc; destruct (flush _ _ _); simpl in Hc; by injection Hc as -> _).
  - destruct (c_readers c) as [|k]; [done|]. injection H as <-. by apply HD in Hc.
  - destruct (c_readers c) as [|k]; [done|]. injection H as <-. left. eauto.
  - injection H as <-. left. by apply HW.
  - injection H as <-. left. unfold ping_tick in *. destruct (c_state c) eqn:Es; simpl in Hc; rewrite ?Es in Hc; try done.
    by apply HW.
  - injection H as <-. left. unfold begin_handshake in *. destruct (c_state c) as [j|j [| |]|] eqn:Es; simpl in Hc; rewrite ?Es in Hc; try done; try by eauto.
    destruct link; simpl; by eauto.
  - injection H as <-. left. unfold acknowledge in *. destruct (c_state c) as [j|j h|] eqn:Es; simpl in Hc; rewrite ?Es in Hc; try done; by eauto.
  - injection H as <-. left. unfold identify in *. destruct (c_state c) as [j|j h|] eqn:Es; simpl in Hc; rewrite ?Es in Hc; try done; by eauto.
  - injection H as <-. left. by eauto.
Qed.

Lemma in_order l c ms : writes l c ms -> Forall flushes l -> Forall (fun m => frame_ok m = true) ms -> ~ given_up c ->
  c_handed c ++ c_buffer c = ms /\ (forall n hs, c_state c = CConnected n hs -> c_buffer c = []).
Proof.
  induction 1 as [|l c o c' ms Hw IH Hs]; [done|].
  intros [Hfl [Ho _]%Forall_cons]%Forall_app [HF HF']%Forall_app Hg.
  assert (Hg0 : ~ given_up c) by (intros Hg0; apply Hg; by eapply given_up_mono).
  destruct (IH Hfl HF Hg0) as [I1 I2]. clear IH.
  assert (Hinv : stop_inv c). { apply (stop_inv_run l). apply writes_run. by exists ms. }
  destruct (step_moved _ _ _ Hs) as [W B Hh _ _|m W B Hh _ _ Hc|m W B Hh _ _ (n & hs & Hc) _|m W B Hh _ _ Hc|n link sent -> E Hh _ _ Hc].
  - rewrite W, B, Hh, app_nil_r. split; [done|]. intros n hs Hc.
    destruct (connected_step _ _ _ _ _ Hs Hc) as [(n' & hs' & Hc' & _)|(link & ->)]; [by eapply I2|].
    (* an attempt while connected *)
    destruct (c_state c) as [k|k h|] eqn:Es; [|by eapply I2|].
    + pose proof (cstep_running _ _ _ Hs) as Hl. unfold Client_Model.cstep in Hs. rewrite Hl in Hs.
      destruct (c_scheduled c) as [|j]; [done|]. injection Hs as <-. unfold connect in *. simpl in *. rewrite Es in *.
      assert (HA : flush (c_buffer c) link 0 = (c_buffer c, [])).
      { apply flush_all; [|done]. rewrite <- I1 in HF. by apply Forall_app in HF as [_ HF]. }
      unfold flush_buffered in *. simpl in *. rewrite HA in *. done.
    + destruct Hg0. by apply (proj1 (proj2 Hinv)).
  - rewrite W, B, Hh, app_assoc, I1. split; [done|]. intros n hs Hcc.
    destruct (connected_step _ _ _ _ _ Hs Hcc) as [(n' & hs' & Hc' & Hne)|(link & ->)]; [by destruct (Hne m)|].
    unfold written1 in W. done.
  - rewrite W, B, Hh. rewrite (I2 _ _ Hc) in *. rewrite app_nil_r in *. rewrite I1. done.
  - destruct Hg0. by apply (proj1 (proj2 Hinv)).
  - rewrite Hh. simpl. rewrite app_nil_r. rewrite <- I1. rewrite flush_all in E; [|by rewrite <- I1 in HF; apply Forall_app in HF as [_ HF]|done].
    injection E as <- <-. by rewrite app_nil_r.
Qed.

(** A frame that the codec rejects stays in the buffer for ever, with all that is behind it. *)
Lemma blocked l c c' m b1 b2 : crun c l = Some c' -> frame_ok m = false -> c_buffer c = b1 ++ m :: b2 ->
  exists k more, k `suffix_of` b1 /\ c_buffer c' = k ++ m :: b2 ++ more.
Proof.
  intros Hr Hm. revert c b1 b2 Hr. induction l as [|o l IH]; intros c b1 b2 Hr Hb.
  - injection Hr as <-. exists b1, []. rewrite app_nil_r. done.
  - simpl in Hr. destruct (cstep c o) as [c1|] eqn:E; [|done]. simpl in Hr.
    assert (HS : exists k more, k `suffix_of` b1 /\ c_buffer c1 = k ++ m :: b2 ++ more).
    { destruct (step_moved _ _ _ E) as [_ B _ _ _|m' _ B _ _ _ _|m' _ B _ _ _ _ _|m' _ B _ _ _ _|n link sent -> Ef _ _ _ _].
      - exists b1, []. rewrite app_nil_r, B. done.
      - exists b1, [m']. rewrite B, Hb. split; [done|]. by rewrite <- app_assoc.
      - exists b1, []. rewrite app_nil_r, B. done.
      - exists b1, []. rewrite app_nil_r, B. done.
      - pose proof (flush_ok _ _ _ _ _ Ef) as Hok. pose proof (flush_split _ _ _ _ _ Ef) as Hsp. rewrite Hb in Hsp.
        apply app_eq_inv in Hsp as [(k & Hk1 & Hk2)|(k & Hk1 & Hk2)].
        + exists k, []. rewrite app_nil_r. split; [by exists sent|done].
        + destruct k as [|y k].
          * exists [], []. rewrite app_nil_r. simpl in *. split; [by exists b1; rewrite app_nil_r|done].
          * simpl in Hk2. injection Hk2 as <- _. rewrite Hk1 in Hok. apply Forall_app in Hok as [_ [Hok _]%Forall_cons]. congruence. }
    destruct HS as (k & more & Hk & Hb1). destruct (IH _ _ _ Hr Hb1) as (k2 & more2 & Hk2 & Hb2).
    exists k2, (more ++ more2). split; [by etrans|]. rewrite Hb2. by rewrite <- !app_assoc.
Qed.

Lemma bytes l c ms : writes l c ms -> c_total c = foldr (fun m n => len m + n)%N 0%N (c_buffer c).
Proof.
  assert (HA : forall l1 l2 : list M, foldr (fun m n => len m + n)%N 0%N (l1 ++ l2) =
    (foldr (fun m n => len m + n) 0 l1 + foldr (fun m n => len m + n) 0 l2)%N).
  { intros l1 l2. induction l1 as [|x l1 IH]; simpl; [lia|]. rewrite IH. lia. }
  induction 1 as [|l c o c' ms _ IH Hs]; [done|].
  destruct (step_moved _ _ _ Hs) as [_ -> _ _ ->|m _ -> _ _ -> _|m _ -> _ _ -> _ _|m _ -> _ _ -> _|n link sent -> E _ _ -> _]; try done.
  - rewrite HA, IH. simpl. lia.
  - rewrite IH. apply flush_split in E. rewrite E at 1. rewrite HA. lia.
Qed.

(** *** C28 *)
Lemma existsb_snoc (f : cop M -> bool) l o : existsb f (l ++ [o]) = existsb f l || f o.
Proof. rewrite existsb_app. simpl. by rewrite orb_false_r. Qed.
Lemma fails_snoc l o : fails_since (l ++ [o]) = match o with AConnect r => if failed r then S (fails_since l) else 0%nat | _ => fails_since l end.
Proof. unfold fails_since. rewrite rev_app_distr. simpl. by destruct o. Qed.

Definition idle_count l : nat := (fails_since l + if ever_connected l then 1 else 0)%nat.
Definition orderly_inv l c : Prop :=
  c_life c = LRunning -> ~ given_up c ->
  (forall n, c_state c = CIdle n -> n = idle_count l /\ c_scheduled c = 1%nat) /\
  (forall n hs, c_state c = CConnected n hs -> fails_since l = 0%nat /\ ever_connected l = true /\ c_scheduled c = 0%nat).

Lemma orderly_run l c : orderly l c -> crun new_client l = Some c.
Proof. induction 1 as [|l c o c' _ IH Hs _ _]; [done|]. rewrite crun_app, IH. simpl. by rewrite Hs. Qed.

Lemma disconnected_given_up c : ~ given_up (disconnected c) -> (forall n, c_state c = CIdle n -> (n < 10)%nat).
Proof.
  intros H n Hn. destruct (le_lt_dec 10 n) as [Hle|]; [|done]. exfalso. apply H. unfold disconnected. rewrite Hn.
  assert ((10 <? S n)%nat = true) as -> by (apply Nat.ltb_lt; lia). unfold given_up. simpl. eexists. apply elem_of_app. right. by left.
Qed.
Lemma disconnected_next c : ~ given_up (disconnected c) ->
  (c_state c = CTerminated -> False) ->
  c_scheduled (disconnected c) = S (c_scheduled c) /\
  c_state (disconnected c) = CIdle (match c_state c with CIdle n => S n | _ => 1 end).
Proof.
  intros Hg Ht. pose proof (disconnected_given_up c Hg) as Hn. unfold disconnected. destruct (c_state c) as [n|n hs|]; [|done|by destruct Ht].
  assert ((10 <? S n)%nat = false) as -> by (apply Nat.ltb_ge; specialize (Hn n eq_refl); lia). done.
Qed.

Lemma orderly_invariant l c : orderly l c -> orderly_inv l c.
Proof.
  induction 1 as [|l c o c' Ho IH Hs Hg Hlost]; intros Hl' Hg'.
  { split; [|done]. intros n [= <-]. done. }
  pose proof (cstep_running _ _ _ Hs) as Hl. destruct (IH Hl Hg) as [I1 I2].
  destruct (stop_inv_run _ _ (orderly_run _ _ Ho)) as (S1 & S2 & S3 & S4).
  assert (HT : c_state c <> CTerminated) by (intros ?; by apply Hg, S2).
  unfold Client_Model.cstep in Hs. rewrite Hl in Hs. unfold idle_count, ever_connected in *. rewrite fails_snoc, existsb_snoc.
  assert (HW : forall m link, o = AWrite m link \/ o = APing m link -> c' = write frame_ok len c m link ->
    (forall n, c_state c' = CIdle n -> n = (fails_since l + (if existsb made l then 1 else 0))%nat /\ c_scheduled c' = 1%nat) /\
    (forall n hs, c_state c' = CConnected n hs -> fails_since l = 0%nat /\ existsb made l = true /\ c_scheduled c' = 0%nat)).
  { intros m link _ Hc'. rewrite Hc' in Hg' |- *. clear Hc'. unfold write in *. destruct (c_state c) as [n|n hs|] eqn:Es; [| |done].
    - simpl. rewrite Es. split; [|done]. intros n' [= <-]. by apply I1.
    - destruct (I2 _ _ eq_refl) as (F1 & F2 & F3). rewrite F1, F2. destruct (frame_ok m && link).
      + simpl. rewrite Es. done.
      + destruct (disconnected_next (buffer_message len c m)) as [D1 D2]; [done|by simpl; rewrite Es|].
        rewrite D1, D2. simpl. rewrite Es, F3. split; [|done]. by intros n' [= <-]. }
  destruct o as [r| | |m link|m link|i link| |i|].
  - destruct (c_scheduled c) as [|k] eqn:Ek; [done|]. injection Hs as Hs. subst c'. unfold connect in *. simpl in *.
    destruct (c_state c) as [n|n hs|] eqn:Es; [| |done].
    2:{ destruct (I2 _ _ eq_refl) as (_ & _ & ?). done. }
    destruct (I1 _ eq_refl) as [-> Hk]. assert (k = 0%nat) as -> by lia.
    assert (HF : failed r = true -> r <> ClosedEarly -> attempt frame_ok len (with_scheduled c 0) r = disconnected (answer_identify (with_scheduled c 0) None)) by (by intros; destruct r).
    destruct (failed r) eqn:Ef.
    + assert (Hn : r <> ClosedEarly) by by intros ->. rewrite (HF eq_refl Hn) in *. simpl.
      destruct (disconnected_next (answer_identify (with_scheduled c 0) None) Hg') as [D1 D2]; [simpl; by rewrite Es|].
      rewrite D1, D2. simpl. rewrite Es. split; [|done]. intros n' [= <-]. split; [|done].
      destruct r; try done; by rewrite orb_false_r.
    + destruct r as [| | | |node link]; try done. simpl in *. unfold flush_buffered in *. simpl in *.
      destruct (flush _ _ _). simpl. split; [done|]. intros n' hs [= <- <-]. rewrite orb_true_r. done.
  - destruct (c_readers c) as [|k]; [done|]. injection Hs as Hs. subst c'. simpl. rewrite orb_false_r.
    destruct (Hlost eq_refl) as (n & hs & Es). destruct (I2 _ _ Es) as (F1 & F2 & F3). rewrite F1, F2.
    destruct (disconnected_next (with_readers c k) Hg') as [D1 D2]; [simpl; by rewrite Es|].
    rewrite D1, D2. simpl. rewrite Es, F3. split; [|done]. by intros n' [= <-].
  - destruct (c_readers c) as [|k]; [done|]. injection Hs as <-. simpl in *. rewrite orb_false_r. done.
  - injection Hs as Hs. simpl. rewrite orb_false_r. apply (HW m link); [by left|done].
  - injection Hs as Hs. simpl. rewrite orb_false_r. unfold ping_tick in Hs. destruct (c_state c) as [n|n hs|] eqn:Es; [| |done].
    + subst c'. simpl. rewrite Es. done.
    + apply (HW m link); [by right|done].
  - injection Hs as Hs. simpl. rewrite orb_false_r. subst c'. unfold begin_handshake in *. destruct (c_state c) as [n|n [| |]|] eqn:Es; try done; simpl in *; rewrite ?Es.
    + done.
    + destruct link; [|done]. simpl. split; [done|]. intros n' hs' _. by eapply I2.
    + done.
    + done.
  - injection Hs as Hs. simpl. rewrite orb_false_r. subst c'. unfold acknowledge in *. destruct (c_state c) as [n|n hs|] eqn:Es; simpl in *; rewrite ?Es; try done.
    split; [done|]. intros n' hs' _. by eapply I2.
  - injection Hs as Hs. simpl. rewrite orb_false_r. subst c'. unfold identify in *. destruct (c_state c) as [n|n hs|] eqn:Es; simpl in *; rewrite ?Es; try done.
  - injection Hs as <-. done.
Qed.
(** Giving up. *)
Lemma gives_up l c o c' : orderly l c -> ~ given_up c -> cstep c o = Some c' -> given_up c' ->
  (o = ALost -> exists n hs, c_state c = CConnected n hs) ->
  exists r, o = AConnect r /\ failed r = true /\ fails_since (l ++ [o]) = (if ever_connected l then 10 else 11)%nat /\
    c_state c' = CTerminated /\ c_stopping c' = true /\ last (c_out c') = Some (ORemove (c_node c)) /\ c_scheduled c' = 0%nat.
Proof.
  intros Ho Hg Hs Hg' Hlost. pose proof (cstep_running _ _ _ Hs) as Hl.
  destruct (orderly_invariant _ _ Ho Hl Hg) as [I1 I2].
  destruct (stop_inv_run _ _ (orderly_run _ _ Ho)) as (S1 & S2 & S3 & S4). specialize (S4 Hl).
  assert (HT : c_state c <> CTerminated) by (intros ?; by apply Hg, S2).
  unfold Client_Model.cstep in Hs. rewrite Hl in Hs.
  assert (HD : forall d, (forall n, c_state d <> CIdle n) -> given_up (disconnected d) -> given_up (M:=M) d).
  { intros d Hd. unfold given_up, disconnected. destruct (c_state d) as [n|n hs|] eqn:E; [by destruct (Hd n)|done|done]. }
  assert (HW : forall m link, given_up (write frame_ok len c m link) -> given_up c).
  { intros m link. unfold write. destruct (c_state c) as [n|n hs|] eqn:Es; [done| |done].
    destruct (frame_ok m && link); [done|]. intros Hx. apply HD in Hx; [done|]. simpl. by rewrite Es. }
  assert (HO : forall d e, (forall n, ORemove n ∉ e) -> given_up (tell d e) -> given_up (M:=M) d).
  { intros d e He [n Hn]. exists n. simpl in Hn. by apply no_remove_app in Hn. }
  destruct o as [r| | |m link|m link|i link| |i|].
  - exists r. split; [done|]. destruct (c_scheduled c) as [|k] eqn:Ek; [done|]. injection Hs as Hs. unfold connect in Hs. simpl in Hs.
    destruct (c_state c) as [n|n hs|] eqn:Es; [| |done].
    2:{ destruct (I2 _ _ eq_refl) as (_ & _ & ?). done. }
    destruct (I1 _ eq_refl) as [-> Hk]. assert (k = 0%nat) as -> by lia.
    assert (HX : given_up (answer_identify (with_scheduled c 0) None) -> False).
    { intros [n Hn]. apply Hg. exists n. simpl in Hn. apply no_remove_app in Hn; [done|]. intros; apply no_remove_ids. }
    assert (HF : disconnected (answer_identify (with_scheduled c 0) None) = c' -> failed r = true -> 
       failed r = true /\ fails_since (l ++ [AConnect r]) = (if ever_connected l then 10 else 11)%nat /\
       c_state c' = CTerminated /\ c_stopping c' = true /\ last (c_out c') = Some (ORemove (c_node c)) /\ c_scheduled c' = 0%nat).
    { intros E Ef. split; [done|]. rewrite fails_snoc, Ef. specialize (S4 _ eq_refl). clear Hs. subst c'. unfold disconnected in *. cbn [c_state answer_identify with_scheduled] in *.
      rewrite Es in *. unfold idle_count in *. destruct (Nat.ltb_spec 10 (S (fails_since l + (if ever_connected l then 1 else 0)))) as [Hlt|Hge].
      - simpl. rewrite last_snoc. split_and!; try done. destruct (ever_connected l); lia.
      - exfalso. apply HX. by destruct Hg' as [n Hn]; exists n. }
    destruct r as [| | | |node link]; try (by apply HF).
    + exfalso. subst c'. by apply Hg.
    + exfalso. subst c'. apply Hg. simpl in Hg'. unfold flush_buffered in Hg'. simpl in Hg'. destruct (flush _ _ _). 
      destruct Hg' as [n Hn]. exists n. simpl in Hn. rewrite <- app_assoc in Hn. apply no_remove_app in Hn; [done|].
      intros n' [Hx|Hx]%elem_of_app; [by apply elem_of_list_singleton in Hx|by apply no_remove_ids in Hx].
  - exfalso. destruct (c_readers c) as [|k]; [done|]. injection Hs as Hs. subst c'. destruct (Hlost eq_refl) as (n & hs & Es).
    apply HD in Hg'; [done|]. simpl. by rewrite Es.
  - exfalso. destruct (c_readers c) as [|k]; [done|]. injection Hs as Hs. subst c'. done.
  - exfalso. injection Hs as Hs. subst c'. by apply HW in Hg'.
  - exfalso. injection Hs as Hs. subst c'. unfold ping_tick in Hg'. destruct (c_state c) as [n|n hs|]; [|by apply HW in Hg'|];
      (apply HO in Hg'; [done|]; intros n' [Hx|Hx%elem_of_list_singleton]%elem_of_app; [|done];
       destruct (c_node c); [by apply elem_of_list_singleton in Hx|by apply elem_of_nil in Hx]).
  - exfalso. injection Hs as Hs. subst c'. unfold begin_handshake in Hg'. destruct (c_state c) as [n|n [| |]|]; try done.
    + by destruct link.
    + apply HO in Hg'; [done|]. by intros n' ?%elem_of_list_singleton.
  - exfalso. injection Hs as Hs. subst c'. unfold acknowledge in Hg'. destruct (c_state c) as [n|n hs|]; try done.
    apply Hg. destruct Hg' as [n' Hn]. exists n'. simpl in Hn. apply no_remove_app in Hn; [done|]. intros; apply no_remove_acks.
  - exfalso. injection Hs as Hs. subst c'. unfold identify in Hg'. destruct (c_state c) as [n|n hs|]; try done.
    apply HO in Hg'; [done|]. by intros n' ?%elem_of_list_singleton.
  - exfalso. injection Hs as Hs. subst c'. done.
Qed.
Lemma gives_up_conv l c r c' : orderly l c -> ~ given_up c -> cstep c (AConnect r) = Some c' ->
  failed r = true -> r <> ClosedEarly -> fails_since (l ++ [AConnect r]) = (if ever_connected l then 10 else 11)%nat -> given_up c'.
Proof.
  intros Ho Hg Hs Hf Hr He. pose proof (cstep_running _ _ _ Hs) as Hl.
  destruct (orderly_invariant _ _ Ho Hl Hg) as [I1 I2].
  destruct (stop_inv_run _ _ (orderly_run _ _ Ho)) as (_ & S2 & _ & _).
  unfold Client_Model.cstep in Hs. rewrite Hl in Hs. destruct (c_scheduled c) as [|k] eqn:Ek; [done|]. injection Hs as Hs. unfold connect in Hs. simpl in Hs.
  destruct (c_state c) as [n|n hs|] eqn:Es.
  - destruct (I1 _ eq_refl) as [-> Hk]. rewrite fails_snoc, Hf in He.
    assert (E : attempt frame_ok len (with_scheduled c k) r = disconnected (answer_identify (with_scheduled c k) None)) by (by destruct r).
    rewrite E in Hs. subst c'. unfold disconnected. simpl. rewrite Es.
    assert ((10 <? S (idle_count l))%nat = true) as ->.
    { apply Nat.ltb_lt. unfold idle_count. destruct (ever_connected l); lia. }
    eexists. simpl. apply elem_of_app. right. by left.
  - destruct (I2 _ _ eq_refl) as (_ & _ & ?). done.
  - by destruct Hg; apply S2.
Qed.

(** A connection that nobody reads from. *)
Definition takes o : Prop := match o with AWrite m link | APing m link => frame_ok m && link = true | _ => True end.
Lemma unnoticed l c c' n hs : crun c l = Some c' -> c_state c = CConnected n hs -> c_readers c = 0%nat -> Forall takes l ->
  (exists hs', c_state c' = CConnected n hs') /\ c_readers c' = 0%nat.
Proof.
  intros Hr Hc Hz HF. revert c hs Hc Hz Hr. induction HF as [|o l Ho _ IH]; intros c hs Hc Hz Hr.
  - injection Hr as <-. by eauto.
  - simpl in Hr. destruct (cstep c o) as [c1|] eqn:E; [|done]. simpl in Hr.
    pose proof (cstep_running _ _ _ E) as Hl. unfold Client_Model.cstep in E. rewrite Hl, Hz in E.
    assert (HX : (exists hs1, c_state c1 = CConnected n hs1) /\ c_readers c1 = 0%nat).
    { destruct o as [r| | |m link|m link|i link| |i|]; simpl in Ho.
      - destruct (c_scheduled c); [done|]. injection E as <-. unfold connect. simpl. rewrite Hc. simpl. by eauto.
      - done.
      - done.
      - injection E as <-. unfold write. rewrite Hc, Ho. simpl. by eauto.
      - injection E as <-. unfold ping_tick, write. rewrite Hc, Ho. simpl. by eauto.
      - injection E as <-. unfold begin_handshake. rewrite Hc. destruct hs; simpl; [|by eauto..]. destruct link; simpl; by eauto.
      - injection E as <-. unfold acknowledge. rewrite Hc. simpl. by eauto.
      - injection E as <-. unfold identify. rewrite Hc. simpl. by eauto.
      - injection E as <-. simpl. by eauto. }
    destruct HX as [[hs1 Hc1] Hz1]. by eapply IH.
Qed.
End client.

(** *** Registry *)
Section registry.
Context {M : Type}.
Implicit Types (g : registry M) (l : list (gop M)).
Lemma grun_app g l1 l2 : grun g (l1 ++ l2) = g' ← grun g l1; grun g' l2.
Proof.
  revert g. induction l1 as [|o l1 IH]; intros g; [done|]. simpl. destruct (gstep g o) as [[g1 r]|]; simpl; [apply IH|done].
Qed.
Lemma grun_snoc g l o g' : grun g (l ++ [o]) = Some g' -> exists g1 r, grun g l = Some g1 /\ gstep g1 o = Some (g', r).
Proof.
  rewrite grun_app. destruct (grun g l) as [g1|]; simpl; [|done]. destruct (gstep g1 o) as [[g2 r]|] eqn:E; simpl; [|done].
  intros [= <-]. eauto.
Qed.
Lemma routes l g n : grun new_registry l = Some g -> g_node g !! n = connected_client l n.
Proof.
  revert g. induction l as [|o l IH] using rev_ind; intros g; [by intros [= <-]|].
  intros (g1 & r & H1 & H2)%grun_snoc. specialize (IH _ H1). unfold connected_client in *. rewrite rev_app_distr. simpl.
  destruct o as [a|a [m|]|m c|m x|c]; simpl in H2.
  - destruct (g_addr g1 !! a); by injection H2 as <- <-.
  - injection H2 as <- <-. simpl. destruct (N.eqb_spec m n) as [->|Hne]; [by rewrite lookup_delete|by rewrite lookup_delete_ne].
  - by injection H2 as <- <-.
  - injection H2 as <- <-. simpl. destruct (N.eqb_spec m n) as [->|Hne]; [by rewrite lookup_insert|by rewrite lookup_insert_ne].
  - destruct (g_node g1 !! m); [destruct (decide _); [done|]|]; by injection H2 as <- <-.
  - by injection H2 as <- <-.
Qed.
Lemma routed_snoc past l o : routed past (l ++ [o]) = routed past l ++
  match o with GWrite n m => match latest_client (rev l ++ past) n with Some c => [(c, m)] | None => [] end | _ => [] end.
Proof.
  revert past. induction l as [|x l IH]; intros past; simpl.
  - destruct o; try done. by rewrite app_nil_r.
  - rewrite <- (app_assoc (rev l)). destruct x; simpl; try apply IH. rewrite IH. by rewrite <- app_assoc.
Qed.
Lemma inbox l g : grun new_registry l = Some g -> g_inbox g = routed [] l.
Proof.
  revert g. induction l as [|o l IH] using rev_ind; intros g; [by intros [= <-]|].
  intros (g1 & r & H1 & H2)%grun_snoc. specialize (IH _ H1). rewrite routed_snoc, app_nil_r, <- IH.
  destruct o as [a|a [m|]|m c|m x|c]; simpl in H2; rewrite ?app_nil_r.
  - destruct (g_addr g1 !! a); by injection H2 as <- <-.
  - by injection H2 as <- <-.
  - by injection H2 as <- <-.
  - by injection H2 as <- <-.
  - pose proof (routes _ _ m H1) as Hr. unfold connected_client in Hr. rewrite <- Hr.
    destruct (g_node g1 !! m); [destruct (decide _); [done|]|]; injection H2 as <- <-; simpl; rewrite ?app_nil_r; done.
  - by injection H2 as <- <-.
Qed.

(** One client per address. *)
Definition addr_inv g : Prop :=
  (forall a c, g_addr g !! a = Some c -> (c < g_next g)%nat) /\
  (forall a b c, g_addr g !! a = Some c -> g_addr g !! b = Some c -> a = b).
Lemma addr_inv_run l g : grun new_registry l = Some g -> addr_inv g.
Proof.
  revert g. induction l as [|o l IH] using rev_ind; intros g; [by intros [= <-]|].
  intros (g1 & r & H1 & H2)%grun_snoc. destruct (IH _ H1) as [I1 I2].
  destruct o as [a|a [m|]|m c|m x|c]; simpl in H2.
  - destruct (g_addr g1 !! a) as [c|] eqn:E; injection H2 as <- <-; [done|]. split; simpl.
    + intros b c. destruct (decide (a = b)) as [->|Hne]; [rewrite lookup_insert; intros [= <-]; lia|].
      rewrite lookup_insert_ne by done. intros ?%I1. lia.
    + intros b b' c. rewrite !lookup_insert_Some. intros [[<- <-]|[Hne Hb]] [[<- Hx]|[Hne' Hb']]; [done| | |].
      * apply I1 in Hb'. lia.
      * apply I1 in Hb. lia.
      * by eapply I2.
  - injection H2 as <- <-. split; simpl.
    + intros b c [_ ?]%lookup_delete_Some. by eapply I1.
    + intros b b' c [_ ?]%lookup_delete_Some [_ ?]%lookup_delete_Some. by eapply I2.
  - injection H2 as <- <-. split; simpl.
    + intros b c [_ ?]%lookup_delete_Some. by eapply I1.
    + intros b b' c [_ ?]%lookup_delete_Some [_ ?]%lookup_delete_Some. by eapply I2.
  - by injection H2 as <- <-.
  - destruct (g_node g1 !! m); [destruct (decide _); [done|]|]; by injection H2 as <- <-.
  - by injection H2 as <- <-.
Qed.
Lemma addr_stays l g g' a c : g_addr g !! a = Some c -> grun g l = Some g' -> (forall n, GRemove a n ∉ l) -> g_addr g' !! a = Some c.
Proof.
  intros Ha Hr Hn. revert g Ha Hr. induction l as [|o l IH]; intros g Ha Hr; [by injection Hr as <-|].
  simpl in Hr. destruct (gstep g o) as [[g1 r]|] eqn:E; [|done]. simpl in Hr.
  assert (Hn' : forall n, GRemove a n ∉ l) by (intros n Hx; apply (Hn n); by right).
  assert (Ho : forall n, o <> GRemove a n) by (intros n ->; apply (Hn n); by left).
  apply (IH Hn' g1); [|done]. clear IH.
  destruct o as [b|b m|m d|m x|d]; simpl in E.
  - destruct (g_addr g !! b) eqn:Eb; injection E as <- <-; [done|]. simpl. rewrite lookup_insert_ne; [done|congruence].
  - injection E as <- <-. simpl. rewrite lookup_delete_ne; [done|]. intros ->. by destruct (Ho m).
  - by injection E as <- <-.
  - destruct (g_node g !! m); [destruct (decide _); [done|]|]; by injection E as <- <-.
  - by injection E as <- <-.
Qed.
Lemma new_once l1 g a g1 c l2 g2 : grun new_registry l1 = Some g -> gstep g (GNew a) = Some (g1, c) -> grun g1 l2 = Some g2 ->
  (forall n, GRemove a n ∉ l2) -> gstep g2 (GNew a) = Some (g2, c).
Proof.
  intros _ Hs Hr Hn. simpl in Hs. destruct (g_addr g !! a) as [d|] eqn:E; injection Hs as <- <-.
  - simpl. by rewrite (addr_stays _ _ _ _ _ E Hr Hn).
  - simpl. erewrite addr_stays; [done| |done|done]. simpl. by rewrite lookup_insert.
Qed.
Lemma new_distinct l g a b g1 g2 c d : grun new_registry l = Some g -> gstep g (GNew a) = Some (g1, Some c) -> gstep g1 (GNew b) = Some (g2, Some d) ->
  a <> b -> c <> d.
Proof.
  intros Hr H1 H2 Hab ->.
  assert (E1 : grun new_registry (l ++ [GNew a; GNew b]) = Some g2). { rewrite grun_app, Hr. simpl in *. rewrite H1. simpl. by rewrite H2. }
  destruct (addr_inv_run _ _ E1) as [_ I]. apply Hab. apply (I a b d).
  - apply (addr_stays [GNew b] g1 g2); [|simpl in *; by rewrite H2|by intros n ?%elem_of_list_singleton].
    simpl in H1. destruct (g_addr g !! a) eqn:E; injection H1 as <- <-; simpl; [done|]. by rewrite lookup_insert.
  - simpl in H2. destruct (g_addr g1 !! b) eqn:E; injection H2 as <- <-; simpl; [done|]. by rewrite lookup_insert.
Qed.

(** Removal of a client that only ever connected to one node. *)
Lemma latest_in (l : list (gop M)) n c : latest_client l n = Some c -> GConnected n c ∈ l.
Proof.
  induction l as [|o l IH]; simpl; [done|]. destruct o as [b|b [m|]|m d|m x|d].
  - intros ?. right. auto.
  - destruct (m =? n)%N; [done|]. intros ?. right. auto.
  - intros ?. right. auto.
  - destruct (N.eqb_spec m n) as [->|]; [intros [= ->]; by left|]. intros ?. right. auto.
  - intros ?. right. auto.
  - intros ?. right. auto.
Qed.
Lemma latest_skip (l1 l2 : list (gop M)) n c : (forall m, GConnected m c ∉ l1) -> latest_client (l1 ++ l2) n = Some c -> latest_client l2 n = Some c.
Proof.
  intros Hn. induction l1 as [|o l1 IH]; simpl; [done|].
  assert (Hn' : forall m, GConnected m c ∉ l1) by (intros m Hx; apply (Hn m); by right). specialize (IH Hn').
  destruct o as [b|b [m|]|m d|m x|d]; auto.
  - destruct (m =? n)%N; [done|auto].
  - destruct (N.eqb_spec m n) as [->|]; [|auto]. intros [= ->]. destruct (Hn n). by left.
Qed.
Lemma removed l1 l2 n c a m : (forall k, GConnected k c ∈ l1 -> k = n) -> (forall k, GConnected k c ∉ l2) ->
  connected_client (l1 ++ GRemove a (Some n) :: l2) m <> Some c.
Proof.
  intros H1 H2. unfold connected_client. rewrite rev_app_distr. simpl. rewrite <- app_assoc. simpl. intros E.
  apply latest_skip in E; [|intros k Hk; apply (H2 k); rewrite <- elem_of_reverse; unfold reverse; by rewrite rev_append_rev, app_nil_r].
  simpl in E. destruct (N.eqb_spec n m) as [->|Hne]; [done|]. apply latest_in in E.
  apply Hne. symmetry. apply H1. rewrite <- elem_of_reverse. unfold reverse. by rewrite rev_append_rev, app_nil_r.
Qed.
Lemma routed_app past l1 l2 : routed past (l1 ++ l2) = routed past l1 ++ routed (rev l1 ++ past) l2.
Proof.
  revert past. induction l1 as [|x l IH]; intros past; simpl; [done|]. rewrite <- (app_assoc (rev l)). 
  destruct x; simpl; try apply IH. rewrite IH. by rewrite <- app_assoc.
Qed.
(** What is put in the mailbox of a client that cannot be found any more. *)
Lemma routed_none past l c : (forall m, latest_client past m <> Some c) -> (forall k, GConnected k c ∉ l) -> Forall (fun p => fst p <> c) (routed past l).
Proof.
  revert past. induction l as [|o l IH]; intros past Hp Hl; simpl; [constructor|].
  assert (Hl' : forall m, GConnected m c ∉ l) by (intros m Hx; apply (Hl m); by right).
  assert (HI : Forall (fun p => fst p <> c) (routed (o :: past) l)).
  { apply IH; [|done]. intros m Hm. apply (latest_skip [o]) in Hm; [by destruct (Hp m)|]. intros k Hk%elem_of_list_singleton. apply (Hl k). subst o. by left. }
  destruct o as [b|b m|m d|m x|d]; try done. apply Forall_app. split; [|done].
  destruct (latest_client past m) as [d|] eqn:E; [|constructor]. constructor; [|constructor]. simpl. intros ->. by destruct (Hp m).
Qed.
End registry.
