(** Properties of discovery. *)
From Verif Require Import Discovery_Model Discovery_Spec Discovery_Proofs.
Open Scope string_scope.
Open Scope list_scope.

Section props.
Variable self : N.
Variable net : nat -> string -> option ident.
Variable conn : nat -> string -> bool.
Notation qstep := (qstep self net conn).
Notation qruns := (qruns self net conn).
Notation handle_msg := (handle_msg self net conn).

(** In every history, after a node was contacted successfully at an address, neither this address
    nor the address it claims is contacted again before it has been forgotten. *)
Theorem C36_contacted_once reg l d l1 a i l2 b r l3 : qruns (new_disc reg) l = Some d ->
  g_log d = l1 ++ VContact a (Some i) :: l2 ++ VContact b r :: l3 ->
  b = a \/ b = r_addr (i_node i) -> VForgot b ∈ l2.
Proof.
  intros H Hl. eapply sound_contact; [|exact Hl]. eapply kn_sound.
  eapply (runs_ind self net conn knowledge); [apply knowledge_step|apply new_knowledge|exact H].
Qed.

(** While an address is known, asking for it uses no network: the callback is answered at once. *)
Theorem C36_known_answered reg l d l1 a i l2 b cb rest o1 o2 : qruns (new_disc reg) l = Some d ->
  g_log d = l1 ++ VContact a (Some i) :: l2 -> VForgot b ∉ l2 -> b = a \/ b = r_addr (i_node i) ->
  g_mail d = MAddr b cb :: rest ->
  exists d', qstep d (QHandle o1 o2) = Some d' /\ g_time d' = g_time d /\ g_mail d' = rest /\
    g_log d' = g_log d ++ match cb with Some c => [VAnswer c true] | None => [] end.
Proof.
  intros H Hl Hf Hb Hm.
  assert (K : knowledge d) by (eapply (runs_ind self net conn knowledge); [apply knowledge_step|apply new_knowledge|exact H]).
  assert (Hk : b ∈ dom (g_addr d)).
  { rewrite (kn_addr _ K), Hl. unfold known. rewrite fold_left_app. simpl. apply learned_stays; [|done]. set_solver. }
  simpl. rewrite Hm. eexists. split; [done|]. unfold Discovery_Model.handle_msg, Discovery_Model.handle_addr. cbn.
  apply elem_of_dom in Hk as [j Hj]. rewrite Hj. destruct cb; cbn; split_and!; try done. by rewrite app_nil_r.
Qed.

(** Between two announcements that a node was removed it was contacted successfully. *)
Theorem C36_removed_once reg l d l1 n l2 m l3 : qruns (new_disc reg) l = Some d ->
  g_log d = l1 ++ VRemoved n :: l2 ++ VRemoved m :: l3 -> r_id m = r_id n ->
  exists a i, VContact a (Some i) ∈ l2 /\ r_id (i_node i) = r_id n.
Proof.
  intros H Hl. eapply sound_removed; [|exact Hl]. eapply kn_sound.
  eapply (runs_ind self net conn knowledge); [apply knowledge_step|apply new_knowledge|exact H].
Qed.

(** No callback is answered twice, and when nothing is left to do every callback ever passed to
    discovery has been answered exactly once. *)
Theorem C36_callbacks_once reg l d : qruns (new_disc reg) l = Some d ->
  NoDup (answered (g_log d)) /\ (quiet d -> answered (g_log d) ≡ₚ seq 0 (g_next d)).
Proof.
  intros H. assert (K : callbacks d) by (eapply (runs_ind self net conn callbacks); [apply callbacks_step|apply new_callbacks|exact H]).
  unfold callbacks in K. split.
  - assert (Hn : NoDup (seq 0 (g_next d))) by apply NoDup_seq. rewrite <- K in Hn. by apply NoDup_app in Hn as [? _].
  - intros [Hm Hg]. rewrite Hm, Hg in K. cbn in K. by rewrite app_nil_r in K.
Qed.

(** However the actor and its tasks are scheduled, without further requests they come to an end,
    and as long as something is left to do some step is possible. *)
Theorem C36_ends d : Acc (fun d' d => exists o, internal o = true /\ qstep d o = Some d') d.
Proof. apply internal_ends. Qed.
Theorem C36_goes_on d : ~ quiet d -> exists o, internal o = true /\ is_Some (qstep d o).
Proof. apply internal_enabled. Qed.

(** A node is announced as added once for every successful handshake: the handshakes that began
    are those that succeeded, failed, or are going on, and no two are going on with one node. *)
Theorem C36_handshakes reg l d : qruns (new_disc reg) l = Some d -> quiet d ->
  shaken (g_log d) ≡ₚ added (g_log d) ++ failed (g_log d).
Proof.
  intros H. apply quiet_shakes.
  eapply (runs_ind self net conn shakes); [apply shakes_step|apply new_shakes|exact H].
Qed.

(** When a seed address that is not known answers, then at the end the seed and every node it
    reported either did not answer, or was found: it was in the registry (and not terminated) or
    had been started on before, or no client could be had for it, or its handshake took place
    and its result was reported. *)
Theorem C36_reported_partial reg l0 d addr cb rest seed o1 o2 l d' es :
  qruns (new_disc reg) l0 = Some d -> g_mail d = MAddr addr cb :: rest ->
  g_addr d !! addr = None -> net (g_time d) addr = Some seed -> reports_right net ->
  qruns d (QHandle o1 o2 :: l) = Some d' -> quiet d' -> g_log d' = g_log d ++ es ->
  forall p, p = i_node seed \/ (p ∈ i_peers seed /\ r_id p <> self) ->
    VContact (r_addr p) None ∈ es \/
    exists n l1 l2 d1, r_id n = r_id p /\ l = l1 ++ l2 /\ qruns d (QHandle o1 o2 :: l1) = Some d1 /\
      (is_current (g_reg d1) (r_id n) = true \/ r_id n ∈ g_ing d1 \/
       (exists k, (g_time d1 <= k)%nat /\ conn k (r_addr n) = false) \/
       exists m es1, r_id m = r_id n /\ g_log d' = g_log d1 ++ es1 /\ m ∈ added es1 ++ failed es1).
Proof.
  intros H0 Hm Ha Hn R Hr Hq Hes p Hp.
  assert (G : genuine net d).
  { eapply (runs_ind self net conn (genuine net)); [apply genuine_step| |exact H0]. intros a i Hi. cbn in Hi. by rewrite lookup_empty in Hi. }
  pose proof Hr as Hr'. simpl in Hr. rewrite Hm in Hr. cbn in Hr.
  destruct (handle_addr_seed self net conn (with_mail d rest) o1 o2 addr cb seed Ha Hn) as (nodes & Hmail & Hseed & Hpeers).
  set (d0 := handle_addr self net (with_mail d rest) o1 o2 addr cb) in *.
  assert (Hc : VContact (r_addr p) None ∈ es \/ exists n, n ∈ nodes /\ r_id n = r_id p).
  { destruct Hp as [->|[Hp Hs]]; [by right; exists (i_node seed)|].
    destruct (Hpeers G R p Hp Hs) as [Hmi|(j & Hj & Hid & _)]; [|right; eauto]. left.
    unfold missed in Hmi. cbn in Hmi. destruct (runs_log _ _ _ _ _ _ Hr) as [e2 He2].
    assert (Hst : exists e1, g_log d0 = g_log d ++ e1).
    { eapply (step_log self net conn d (QHandle o1 o2)). simpl. by rewrite Hm. }
    destruct Hst as [e1 He1]. rewrite He1 in Hmi. rewrite drop_app in Hmi.
    assert (es = e1 ++ e2) as ->; [|set_solver]. apply (app_inv_head (g_log d)). by rewrite <- Hes, He2, He1, app_assoc. }
  destruct Hc as [Hc|(n & Hnn & Hid)]; [by left|]. right.
  destruct (mail_handled _ _ _ _ _ _ _ _ _ Hr Hq Hmail) as (l1 & p1 & p2 & l2 & d1 & rest' & -> & H1 & Hm1 & H2).
  exists n, l1, (QHandle p1 p2 :: l2), d1. split_and!; [done|done| |].
  { simpl. rewrite Hm. done. }
  cbn in H2. unfold handle_nodes in H2. destruct (handle_list _ _ _ _) as [d2 ls] eqn:E. 
  destruct (handle_list_complete self net conn _ _ _ _ _ n E Hnn) as [?|[?|[Hin|(k & Hk & Hk')]]]; [by left|by right; left| |].
  2:{ right; right; left. exists k. split; [|done]. cbn in Hk'. lia. }
  right; right; right. apply elem_of_list_fmap in Hin as (m & Hmid & Hml).
  apply (handle_list_frame self) in E as (_ & _ & _ & _ & _ & Hlog & _). cbn in Hlog.
  destruct (runs_log _ _ _ _ _ _ H2) as [e2 He2]. cbn in He2. rewrite Hlog in He2.
  exists m, ((VShake <$> ls) ++ e2). split; [done|]. split; [by rewrite He2, app_assoc|].
  assert (K1 : shakes d1).
  { eapply (runs_ind self net conn shakes); [apply shakes_step| |exact H1].
    eapply (shakes_step self net conn d (QHandle o1 o2)); [|simpl; by rewrite Hm].
    eapply (runs_ind self net conn shakes); [apply shakes_step|apply new_shakes|exact H0]. }
  assert (K2 : shakes d').
  { eapply (runs_ind self net conn shakes); [apply shakes_step| |exact Hr'].
    eapply (runs_ind self net conn shakes); [apply shakes_step|apply new_shakes|exact H0]. }
  pose proof (quiet_shakes _ K2 Hq) as Hp2. pose proof (sh_all _ K1) as Hp1.
  set (e := (VShake <$> ls) ++ e2). assert (He : g_log d' = g_log d1 ++ e) by (subst e; by rewrite He2, app_assoc). rewrite He in Hp2.
  rewrite !shaken_app, !added_app, !failed_app in Hp2. rewrite Hp1 in Hp2.
  assert (Hx : pending d1 ++ shaken e ≡ₚ added e ++ failed e).
  { apply (Permutation_app_inv_l (added (g_log d1) ++ failed (g_log d1))).
    rewrite <- !app_assoc in Hp2 |- *. rewrite Hp2. rewrite <- (app_assoc (added (g_log d1))). apply Permutation_app; [done|].
    rewrite !app_assoc. apply Permutation_app; [apply Permutation_app_comm|done]. }
  rewrite <- Hx. apply elem_of_app. right. subst e. rewrite shaken_app, shaken_shakes. set_solver.
Qed.

(** Once the handshake with a node has failed, no handshake with this node takes place any more
    and it is never announced, whatever happens. *)
Theorem C36_failed_refuted reg l d n l' d' es : qruns (new_disc reg) l = Some d -> VFailed n ∈ g_log d ->
  qruns d l' = Some d' -> g_log d' = g_log d ++ es ->
  forall m, r_id m = r_id n -> VShake m ∉ es /\ VAdded m ∉ es.
Proof.
  intros H Hn H' Hes m Hid.
  assert (K : shakes d) by (eapply (runs_ind self net conn shakes); [apply shakes_step|apply new_shakes|exact H]).
  assert (Hf : n ∈ failed (g_log d)).
  { unfold failed. apply elem_of_list_omap. by exists (VFailed n). }
  split; intros He; (eapply (failed_stuck self net conn d l' d' n es K Hf H' Hes m); [|done]); apply elem_of_app.
  - left. unfold shaken. apply elem_of_list_omap. by exists (VShake m).
  - right. unfold added. apply elem_of_list_omap. by exists (VAdded m).
Qed.

(** After an address was forgotten, until a node answers at it or claims it, asking for it
    contacts it again. *)
Theorem C36_forgotten_partial reg l d l1 a l2 cb rest o1 o2 : qruns (new_disc reg) l = Some d ->
  g_log d = l1 ++ VForgot a :: l2 ->
  (forall b i, VContact b (Some i) ∈ l2 -> b <> a /\ r_addr (i_node i) <> a) ->
  g_mail d = MAddr a cb :: rest ->
  exists d' es, qstep d (QHandle o1 o2) = Some d' /\ g_log d' = g_log d ++ VContact a (net (g_time d) a) :: es.
Proof.
  intros H Hl Hf Hm.
  assert (K : knowledge d) by (eapply (runs_ind self net conn knowledge); [apply knowledge_step|apply new_knowledge|exact H]).
  assert (Hk : g_addr d !! a = None).
  { apply not_elem_of_dom. rewrite (kn_addr _ K), Hl. unfold known. rewrite fold_left_app. simpl.
    assert (Hgo : forall k, a ∉ k -> a ∉ fold_left learn l2 k); [|apply Hgo; set_solver].
    clear Hl. induction l2 as [|e l2 IH]; intros k Hk; simpl; [done|]. apply IH.
    - intros b i Hi. apply (Hf b i). set_solver.
    - destruct e as [b [i|]|b|?|?|?|?|c r]; simpl; set_solver. }
  simpl. rewrite Hm. simpl. unfold handle_addr. cbn. rewrite Hk.
  unfold get_node_identity. cbn. rewrite Hk. destruct (net (g_time d) a) as [seed|] eqn:En.
  - match goal with |- context [discover_nodes self net ?d1 ?p ?f] =>
      pose proof (discover_nodes_looks self net d1 p f) as L2; destruct (discover_nodes self net d1 p f) as [d2 found] end.
    apply looks_frame in L2 as [_ _ _ _ _ (c2 & Hc2 & _)]. cbn in Hc2.
    destruct (size found) as [|[|sz]]; cbn.
    1, 2: eexists _, c2; (split; [done|]); cbn; by rewrite Hc2, <- app_assoc.
    match goal with |- context [discover_all self net ?d1 ?p ?f] =>
      pose proof (discover_all_looks self net d1 p f) as L3; destruct (discover_all self net d1 p f) as [d3 found'] end.
    apply looks_frame in L3 as [_ _ _ _ _ (c3 & Hc3 & _)]. cbn in Hc3.
    eexists _, (c2 ++ c3). split; [done|]. cbn. by rewrite Hc3, Hc2, <- !app_assoc.
  - destruct cb as [c|]; eexists _, _; (split; [done|]); cbn; rewrite <- ?app_assoc; done.
Qed.
(** A node that the registry takes for terminated, and whose handshakes all succeeded, gets another handshake when it is
    named again. *)
Theorem C36_again_partial reg l d nodes cb n o1 o2 : qruns (new_disc reg) l = Some d -> quiet d ->
  (forall m, VFailed m ∈ g_log d -> r_id m <> r_id n) -> n ∈ nodes -> (forall k, conn k (r_addr n) = true) ->
  exists d' es m, qruns d [QReg (r_id n) Terminated; QAsk (ANodes nodes) cb; QHandle o1 o2] = Some d' /\
    g_log d' = g_log d ++ es /\ VShake m ∈ es /\ r_id m = r_id n.
Proof.
  intros H [Hm Hg] Hf Hn Hc.
  assert (K : shakes d) by (eapply (runs_ind self net conn shakes); [apply shakes_step|apply new_shakes|exact H]).
  cbn [Discovery_Model.qruns Discovery_Model.qstep mbind option_bind]. cbn. rewrite Hm. cbn. unfold handle_nodes.
  destruct (handle_list _ _ _ _) as [d2 ls] eqn:E.
  pose proof (handle_list_complete self net conn _ _ _ _ _ n E Hn) as Hx.
  apply (handle_list_frame self) in E as (_ & _ & _ & _ & _ & Hlog & _). cbn in Hlog, Hx.
  assert (Hl : r_id n ∈ r_id <$> ls).
  { destruct Hx as [Hx|[Hx|[Hx|(k & Hk & _)]]]; [| |done|by rewrite Hc in Hk].
    - unfold is_current in Hx. by rewrite lookup_insert in Hx.
    - exfalso. apply (sh_ing _ K) in Hx. unfold pending in Hx. rewrite Hm, Hg in Hx. cbn in Hx. rewrite app_nil_r in Hx.
      apply elem_of_list_fmap in Hx as (m & Hid & Hx). apply elem_of_list_omap in Hx as (e & He & Hx).
      destruct e; simplify_eq. by eapply Hf. }
  apply elem_of_list_fmap in Hl as (m & Hid & Hml).
  eexists _, (VShake <$> ls), m. split; [done|]. split; [cbn; by rewrite Hlog|]. split; [|done].
  apply elem_of_list_fmap. by exists m.
Qed.
End props.

(** A cluster: this node is 1; node 2 is at "b", known as "alias" too, and reports 1, 3 and 4; 3
    reports 5, 5 reports 6; 4 does not answer. *)
Definition nd (n : N) (a : string) : rnode := RNode n a "" None ∅.
Definition net1 (k : nat) (a : string) : option ident :=
  if String.eqb a "b" || String.eqb a "alias" then Some (Ident (nd 2 "b") [nd 1 "a"; nd 3 "c"; nd 4 "d"])
  else if String.eqb a "c" then Some (Ident (nd 3 "c") [nd 5 "e"])
  else if String.eqb a "e" then Some (Ident (nd 5 "e") [nd 6 "f"])
  else if String.eqb a "f" then Some (Ident (nd 6 "f") [])
  else None.
Definition all_ok : nat -> string -> bool := fun _ _ => true.

(** The node behind a forgotten address stays registered: asked for again, it answers, but no
    handshake takes place and it is not announced, and from then on it counts as known. *)
Definition net2 (k : nat) (a : string) : option ident := if String.eqb a "b" then Some (Ident (nd 2 "b") []) else None.
Definition h : qop := QHandle [] [].
Theorem C36_forgotten_refuted : 
  match qruns 1 net2 all_ok (new_disc {[ 1%N := Joining ]})
    [QAsk (AAddr "b") true; h; h; QShake 0 0 true; h; QJoin 0; QAsk (AForget "b") false; h;
     QAsk (AAddr "b") true; h; h; QJoin 0; QAsk (AAddr "b") true; h] with
  | Some d => g_mail d = [] /\ g_groups d = [] /\
     g_log d = [VContact "b" (Some (Ident (nd 2 "b") [])); VShake (nd 2 "b"); VAdded (nd 2 "b"); VAnswer 0 true;
                VForgot "b"; VRemoved (nd 2 "b"); VContact "b" (Some (Ident (nd 2 "b") [])); VAnswer 1 true; VAnswer 2 true]
  | None => False
  end.
Proof. vm_compute. done. Qed.

(** When an address is forgotten, the other address of the same node still counts as known: the
    callback reports success and the node is not contacted. *)
Theorem C36_alias_refuted :
  match qruns 1 net1 all_ok (new_disc {[ 1%N := Joining ]})
    [QAsk (AAddr "alias") false; h; h; QAsk (AForget "alias") false; h; QReg 2 Terminated; QAsk (AAddr "b") true; h] with
  | Some d => g_mail d = [] /\ (exists l1, g_log d = l1 ++ [VForgot "alias"; VRemoved (nd 2 "b"); VAnswer 0 true])
  | None => False
  end.
Proof. vm_compute. split; [done|]. eexists. match goal with |- ?l = _ => instantiate (1 := take (length l - 3) l) end. vm_compute. done. Qed.

(** A node for which no client could be had is not discovered by asking for it again. *)
Theorem C36_no_client_refuted :
  match qruns 1 net2 (fun k _ => negb (Nat.eqb k 1)) (new_disc {[ 1%N := Joining ]})
    [QAsk (AAddr "b") true; h; h; QJoin 0; QAsk (AAddr "b") true; h] with
  | Some d => g_mail d = [] /\ g_groups d = [] /\
      g_log d = [VContact "b" (Some (Ident (nd 2 "b") [])); VAnswer 0 true; VAnswer 1 true]
  | None => False
  end.
Proof. vm_compute. done. Qed.

(** A node is announced, terminates, and is announced again. *)
Example C36_again_case :
  match qruns 1 net2 all_ok (new_disc {[ 1%N := Joining ]})
    [QAsk (AAddr "b") true; h; h; QShake 0 0 true; h; QJoin 0] with
  | Some d => g_mail d = [] /\ g_groups d = [] /\ is_current (g_reg d) 2 = true /\
      match qruns 1 net2 all_ok d [QReg 2 Terminated; QAsk (ANodes [nd 2 "b"]) false; h; QShake 0 0 true; h] with
      | Some d' => g_log d' = g_log d ++ [VShake (nd 2 "b"); VAdded (nd 2 "b")]
      | None => False
      end
  | None => False
  end.
Proof. vm_compute. repeat split; reflexivity. Qed.

(** A failed handshake is reached. *)
Example C36_failed_example :
  match qruns 1 net2 all_ok (new_disc {[ 1%N := Joining ]})
    [QAsk (AAddr "b") true; h; h; QShake 0 0 false; h; QJoin 0; QAsk (AForget "b") false; h; QReg 2 Terminated;
     QAsk (AAddr "b") true; h; h; QJoin 0] with
  | Some d => g_mail d = [] /\ g_groups d = [] /\
      g_log d = [VContact "b" (Some (Ident (nd 2 "b") [])); VShake (nd 2 "b"); VFailed (nd 2 "b"); VAnswer 0 true;
                 VForgot "b"; VRemoved (nd 2 "b"); VContact "b" (Some (Ident (nd 2 "b") [])); VAnswer 1 true]
  | None => False
  end.
Proof. vm_compute. done. Qed.

(** The hypotheses of [C36_reported_partial] are met: the seed, what it reports, and what these
    report is discovered; node 6, which only node 5 reports, is not. *)
Example C36_reported_example :
  match qruns 1 net1 all_ok (new_disc {[ 1%N := Joining ]}) [QAsk (AAddr "alias") true; h; h] with
  | Some d => g_mail d = [] /\ List.map (fun g => (List.map r_id (fst g), snd g)) (g_groups d) = [([3; 5; 2]%N, Some 0)]
  | None => False
  end.
Proof. vm_compute. done. Qed.
Example C36_reports_right_example : reports_right net1.
Proof.
  intros k a i p k' a' j. unfold net1.
  destruct (String.eqb_spec a "b"), (String.eqb_spec a "alias"), (String.eqb_spec a "c"), (String.eqb_spec a "e"), (String.eqb_spec a "f"); subst;
    try discriminate; cbn; intros [= <-] Hp; cbn in Hp.
  all: destruct (String.eqb_spec a' "b"), (String.eqb_spec a' "alias"), (String.eqb_spec a' "c"), (String.eqb_spec a' "e"), (String.eqb_spec a' "f"); subst;
    try discriminate; cbn; intros [= <-] Ha; cbn in *.
  all: repeat (apply elem_of_cons in Hp as [->|Hp]); try (apply elem_of_nil in Hp; done); cbn in *; destruct Ha; try discriminate; done.
Qed.

Print Assumptions C36_again_partial.
Print Assumptions C36_contacted_once.
Print Assumptions C36_known_answered.
Print Assumptions C36_removed_once.
Print Assumptions C36_callbacks_once.
Print Assumptions C36_ends.
Print Assumptions C36_goes_on.
Print Assumptions C36_handshakes.
Print Assumptions C36_reported_partial.
Print Assumptions C36_failed_refuted.
Print Assumptions C36_forgotten_partial.
Print Assumptions C36_forgotten_refuted.
Print Assumptions C36_alias_refuted.
Print Assumptions C36_no_client_refuted.
