(** Property C31: deploying actors. *)
From Verif Require Import Locate_Model Locate_Spec Locate_Proofs Locate_Props Deploy_Model Deploy_Spec Deploy_Proofs Nodes_Props.
Local Open Scope string_scope.
Local Open Scope list_scope.
Local Open Scope N_scope.

Lemma event_of s k e : e ∈ ps_log s -> of_call k e = true -> e ∈ events k s.
Proof. intros H1 H2. apply elem_of_list_In, List.filter_In. split; [by apply elem_of_list_In|done]. Qed.
Lemma of_events s k e : e ∈ events k s -> e ∈ ps_log s.
Proof. intros H. apply elem_of_list_In, List.filter_In in H as [H _]. by apply elem_of_list_In. Qed.
(** The events of a deployment that failed have no other answer in them. *)
Lemma failure_events hs s k c e ev : failure hs s k c e ev ->
  (forall n i, PRef k n i ∉ ev) /\ (forall e', PErr k e' ∉ ev) /\ (forall e', PFailed k e' ∉ ev) /\
  (forall n i, PMade k n i ∈ ev -> PDied k ∈ ev).
Proof.
  intros H. split_and!; intros; inversion H; subst;
    repeat match goal with |- ~ _ => intros ? | H : _ ∈ [] |- _ => by apply elem_of_nil in H
      | H : _ ∈ _ :: _ |- _ => apply elem_of_cons in H as [?|H]; try done end.
  right. by left.
Qed.

(** In every history: a caller that gets a reference gets one to an actor of its own deployment, with the id
    that it asked for, on the node that it asked for, which knows the type and decodes the recipe; that
    actor was created there and started; the caller gets nothing else. *)
Theorem C31_reference rhash khash search hs l s k n id :
  prun rhash khash search hs new_psys l = Some s -> PRef k n id ∈ ps_log s ->
  exists c, ps_calls s !! k = Some c /\ n = p_to c /\ id = p_id c /\ fit hs c /\
    events k s = [PMade k n id; PUp k; PRef k n id] /\ LCreated n id ∈ w_log (ps_world s).
Proof.
  intros Hr Hin. pose proof (ok_run _ _ _ _ _ _ Hr) as Hi.
  pose proof (oi_log _ _ Hi k _ Hin (Nat.eqb_refl k)) as Hlt. destruct (ps_calls s !! k) as [c|] eqn:Hc; [|by apply (oi_all _ _ Hi) in Hlt].
  pose proof (event_of s k _ Hin (Nat.eqb_refl k)) as Hev.
  assert (HM : PMade k (p_to c) (p_id c) ∈ ps_log s -> LCreated (p_to c) (p_id c) ∈ w_log (ps_world s)) by (eapply made_created; exact Hr).
  exists c. split; [done|]. destruct (oi_story _ _ Hi _ _ Hc) as [_ Hs]. destruct (p_phase c).
  1-3: (destruct Hs as [He _]; rewrite He in Hev; by apply elem_of_nil in Hev).
  - destruct Hs as [He _]. rewrite He in Hev. by apply elem_of_list_singleton in Hev.
  - destruct Hs as [He _]. rewrite He in Hev. rewrite !elem_of_cons, elem_of_nil in Hev. by destruct Hev as [?|[?|?]].
  - destruct Hs as (_ & e & ev & Hf & He). rewrite He in Hev. apply elem_of_app in Hev as [Hev|Hev]; [|by apply elem_of_list_singleton in Hev].
    by apply (failure_events _ _ _ _ _ _ Hf) in Hev.
  - destruct Hs as (_ & [He|[He _]]); rewrite He in Hev; [by apply elem_of_nil in Hev|].
    rewrite !elem_of_cons, elem_of_nil in Hev. by destruct Hev as [?|[?|?]].
  - destruct Hs as [[He _]|[[He Hfit]|(_ & e & ev & Hf & He)]].
    + rewrite He in Hev. by apply elem_of_list_singleton in Hev.
    + pose proof He as He'. rewrite He in Hev. rewrite !elem_of_cons, elem_of_nil in Hev. destruct Hev as [?|[?|[[= -> ->]|?]]]; try done.
      split_and!; try done. apply HM, (of_events s k). rewrite He'. by left.
    + rewrite He in Hev. apply elem_of_app in Hev as [Hev|Hev]; [by apply (failure_events _ _ _ _ _ _ Hf) in Hev|].
      rewrite !elem_of_cons, elem_of_nil in Hev. by destruct Hev as [?|[?|?]].
Qed.
Print Assumptions C31_reference.

(** A caller that gets an error gets the one that fits what went wrong, and nothing else. *)
Theorem C31_error rhash khash search hs l s k e :
  prun rhash khash search hs new_psys l = Some s -> PErr k e ∈ ps_log s ->
  exists c, ps_calls s !! k = Some c /\
    ((e = PRecipe /\ p_recipe c = None /\ events k s = [PErr k PRecipe]) \/
     exists ev, failure hs s k c e ev /\ events k s = ev ++ [PFailed k e; PErr k e]).
Proof.
  intros Hr Hin. pose proof (ok_run _ _ _ _ _ _ Hr) as Hi.
  pose proof (oi_log _ _ Hi k _ Hin (Nat.eqb_refl k)) as Hlt. destruct (ps_calls s !! k) as [c|] eqn:Hc; [|by apply (oi_all _ _ Hi) in Hlt].
  pose proof (event_of s k _ Hin (Nat.eqb_refl k)) as Hev.
  exists c. split; [done|]. destruct (oi_story _ _ Hi _ _ Hc) as [_ Hs]. destruct (p_phase c).
  1-3: (destruct Hs as [He _]; rewrite He in Hev; by apply elem_of_nil in Hev).
  - destruct Hs as [He _]. rewrite He in Hev. by apply elem_of_list_singleton in Hev.
  - destruct Hs as [He _]. rewrite He in Hev. rewrite !elem_of_cons, elem_of_nil in Hev. by destruct Hev as [?|[?|?]].
  - destruct Hs as (_ & e' & ev & Hf & He). rewrite He in Hev. apply elem_of_app in Hev as [Hev|Hev]; [|by apply elem_of_list_singleton in Hev].
    by apply (failure_events _ _ _ _ _ _ Hf) in Hev.
  - destruct Hs as (_ & [He|[He _]]); rewrite He in Hev; [by apply elem_of_nil in Hev|].
    rewrite !elem_of_cons, elem_of_nil in Hev. by destruct Hev as [?|[?|?]].
  - destruct Hs as [[He Hn]|[[He Hfit]|(_ & e' & ev & Hf & He)]].
    + left. split_and!; [|done|done]. rewrite He in Hev. by apply elem_of_list_singleton in Hev as [= ->].
    + rewrite He in Hev. rewrite !elem_of_cons, elem_of_nil in Hev. destruct Hev as [?|[?|[?|?]]]; done.
    + right. exists ev. assert (e = e') as <-; [|done]. rewrite He in Hev. apply elem_of_app in Hev as [Hev|Hev]; [by apply (failure_events _ _ _ _ _ _ Hf) in Hev|].
      rewrite !elem_of_cons, elem_of_nil in Hev. destruct Hev as [?|[[= ?]|?]]; done.
Qed.
Print Assumptions C31_error.

(** A deployment that fails on its target makes no actor, unless the actor fails to start; deployments whose
    recipe has no bytes make none either. *)
Theorem C31_nothing_made_partial rhash khash search hs l s k e n id :
  prun rhash khash search hs new_psys l = Some s -> PFailed k e ∈ ps_log s \/ PErr k e ∈ ps_log s -> PDied k ∉ ps_log s ->
  PMade k n id ∉ ps_log s.
Proof.
  intros Hr Hfe Hd Hm. pose proof (ok_run _ _ _ _ _ _ Hr) as Hi.
  pose proof (oi_log _ _ Hi k _ Hm (Nat.eqb_refl k)) as Hlt. destruct (ps_calls s !! k) as [c|] eqn:Hc; [|by apply (oi_all _ _ Hi) in Hlt].
  pose proof (event_of s k _ Hm (Nat.eqb_refl k)) as Hev.
  assert (Hfe' : PFailed k e ∈ events k s \/ PErr k e ∈ events k s) by (destruct Hfe; [left|right]; (apply event_of; [done|apply Nat.eqb_refl])).
  assert (Hd' : PDied k ∉ events k s) by (intros ?%of_events; done). clear Hfe Hm.
  destruct (oi_story _ _ Hi _ _ Hc) as [_ Hs]. destruct (p_phase c).
  1-3: (destruct Hs as [He _]; rewrite He in Hev; by apply elem_of_nil in Hev).
  - destruct Hs as [He _]. rewrite He in Hfe'. rewrite !elem_of_list_singleton in Hfe'. by destruct Hfe'.
  - destruct Hs as [He _]. rewrite He in Hfe'. rewrite !elem_of_cons, !elem_of_nil in Hfe'. by destruct Hfe' as [[?|[?|?]]|[?|[?|?]]].
  - destruct Hs as (_ & e' & ev & Hf & He). rewrite He in Hev, Hd'. apply elem_of_app in Hev as [Hev|Hev]; [|by apply elem_of_list_singleton in Hev].
    apply (failure_events _ _ _ _ _ _ Hf) in Hev. apply Hd'. apply elem_of_app. by left.
  - destruct Hs as (_ & [He|[He _]]); rewrite He in Hev, Hfe'; [by apply elem_of_nil in Hev|].
    rewrite !elem_of_cons, !elem_of_nil in Hfe'. by destruct Hfe' as [[?|[?|?]]|[?|[?|?]]].
  - destruct Hs as [[He Hn]|[[He Hfit]|(_ & e' & ev & Hf & He)]].
    + rewrite He in Hev. by apply elem_of_list_singleton in Hev.
    + rewrite He in Hfe'. rewrite !elem_of_cons, !elem_of_nil in Hfe'. by destruct Hfe' as [[?|[?|[?|?]]]|[?|[?|[?|?]]]].
    + rewrite He in Hev, Hd'. apply elem_of_app in Hev as [Hev|Hev].
      * apply (failure_events _ _ _ _ _ _ Hf) in Hev. apply Hd'. apply elem_of_app. by left.
      * rewrite !elem_of_cons, elem_of_nil in Hev. by destruct Hev as [?|[?|?]].
Qed.
Print Assumptions C31_nothing_made_partial.

(** A deployment on the node of the caller is answered: as long as it was not, a step of it can be taken
    (for every result of the factory and of the start, and the lookup can at least time out), and it
    takes no more than five. *)
Theorem C31_local_answered_partial rhash khash search hs l s k c :
  prun rhash khash search hs new_psys l = Some s -> ps_calls s !! k = Some c -> p_from c = p_to c ->
  (length (List.filter (own k None) l) <= 5)%nat /\
  (answered k s \/
   (exists q, pstep rhash khash search hs s (PWorld (LTimeout q)) <> None /\ p_phase c = Looking q) \/
   pstep rhash khash search hs s (PChecked k) <> None \/
   (forall ok, pstep rhash khash search hs s (PCreate k ok) <> None) \/
   (forall ok, pstep rhash khash search hs s (PStart k ok) <> None)).
Proof.
  intros Hr Hk He. split.
  - pose proof (left_run rhash khash search hs new_psys l s k (ok_new rhash khash search hs) Hr) as H. unfold left at 2 in H. cbn in H. rewrite lookup_empty in H. lia.
  - exact (local_enabled rhash khash search hs s k c (ok_run _ _ _ _ _ _ Hr) Hk He).
Qed.
Print Assumptions C31_local_answered_partial.

(** A deployment that failed on another node is never answered. *)
Theorem C31_remote_failure_refuted rhash khash search hs l1 s1 k c e l2 s2 :
  prun rhash khash search hs new_psys l1 = Some s1 -> ps_calls s1 !! k = Some c -> p_from c <> p_to c -> PFailed k e ∈ ps_log s1 ->
  prun rhash khash search hs s1 l2 = Some s2 -> ~ answered k s2.
Proof.
  intros Hr1 Hk Hne Hin Hr2 (a & Ha & Hak). pose proof (ok_run _ _ _ _ _ _ Hr1) as Hi1.
  destruct (call_run rhash khash search hs _ _ _ _ _ Hi1 Hr2 Hk) as (c' & Hk' & E1 & E2 & _).
  assert (Hi2 : okinv hs s2) by (apply (ok_run rhash khash search hs (l1 ++ l2)); by rewrite prun_app, Hr1).
  apply (pevents_run rhash khash search hs _ _ _ _ Hr2) in Hin.
  pose proof (event_of s2 k _ Hin (Nat.eqb_refl k)) as Hev.
  assert (Hao : of_call k a = true) by (destruct a; cbn in *; try done; subst; apply Nat.eqb_refl).
  pose proof (event_of s2 k _ Ha Hao) as Hea.
  destruct (oi_story _ _ Hi2 _ _ Hk') as [_ Hs]. destruct (p_phase c').
  1-3: (destruct Hs as [He _]; rewrite He in Hev; by apply elem_of_nil in Hev).
  - destruct Hs as [He _]. rewrite He in Hev. by apply elem_of_list_singleton in Hev.
  - destruct Hs as [He _]. rewrite He in Hev. rewrite !elem_of_cons, elem_of_nil in Hev. by destruct Hev as [?|[?|?]].
  - destruct Hs as (_ & e' & ev & Hf & He). rewrite He in Hea. apply failure_events in Hf as (F1 & F2 & _).
    apply elem_of_app in Hea as [Hea|Hea]; [|apply elem_of_list_singleton in Hea; by subst a].
    destruct a; cbn in Hak; try done; subst; [by eapply F1|by eapply F2].
  - destruct Hs as (_ & [He|[He _]]); rewrite He in Hev; [by apply elem_of_nil in Hev|].
    rewrite !elem_of_cons, elem_of_nil in Hev. by destruct Hev as [?|[?|?]].
  - destruct Hs as [[He _]|[[He _]|(Heq & _)]]; [| |congruence]; rewrite He in Hev; rewrite !elem_of_cons, elem_of_nil in Hev.
    + by destruct Hev as [?|?].
    + by destruct Hev as [?|[?|[?|?]]].
Qed.
Print Assumptions C31_remote_failure_refuted.

(** What exists is not made again, as long as lookups are answered in time: in a stable cluster whose nodes agree, with an
    actor on node [n] whose registration has arrived (as for [C30_located_partial], with deployments and
    all else going on), a later deployment of that id on any of the nodes makes an actor only if
    a lookup of its target timed out. *)
Theorem C31_exists_partial rhash khash search hs X id o n l1 l2 l3 s1 s2 s3 k c m i :
  prun rhash khash search hs new_psys l1 = Some s1 -> (forall m, LCreated m id ∉ w_log (ps_world s1)) ->
  agree rhash khash search (ps_world s1) X id o ->
  prun rhash khash search hs s1 l2 = Some s2 ->
  (forall p, PWorld p ∈ l2 -> is_store p = false /\ is_lose p = false) ->
  n ∈ X -> LCreated n id ∈ w_log (ps_world s2) -> arrived (ps_world s2) id ->
  prun rhash khash search hs s2 l3 = Some s3 -> (forall p, PWorld p ∈ l3 -> is_store p = false) ->
  (forall m, LCreated m id ∈ w_log (ps_world s3) -> m = n) ->
  (forall k f, PArrive k f ∈ l3 -> f <> id) ->
  (ps_next s2 <= k)%nat -> ps_calls s3 !! k = Some c -> p_to c ∈ X -> p_id c = id -> PMade k m i ∈ ps_log s3 ->
  exists q, LAnswer q (p_to c) id None true ∈ w_log (ps_world s3).
Proof.
  intros R1 N1 Ha R2 P2 Hn C2 Har R3 P3 N3 Hf Hk Hc Hx Hid Hm.
  destruct (proj rhash khash search hs _ _ _ R1) as (wl1 & W1 & _).
  destruct (proj rhash khash search hs _ _ _ R2) as (wl2 & W2 & Q2).
  assert (Hi2 : okinv hs s2).
  { apply (ok_run rhash khash search hs (l1 ++ l2)). by rewrite prun_app, R1. }
  assert (HW : forall m, LCreate m id ∈ wl2 -> LCreated m id ∈ w_log (ps_world s2)).
  { clear -W2. intros m Hin. revert Hin W2. generalize (ps_world s1) as w. induction wl2 as [|p wl IH]; intros w; [by intros ?%elem_of_nil|].
    cbn [lrun]. destruct (lstep rhash khash search w p) as [w1|] eqn:E; [|done]. cbn [mbind option_bind]. intros [<-|Hin]%elem_of_cons Hr.
    - apply (created_step rhash khash search) in E. clear IH. revert Hr.
      apply (lruns_ind rhash khash search (fun w => LCreated m id ∈ w_log w)); [|done]. intros ? ? ? _ H1 H2. by eapply (log_step rhash khash search).
    - by eapply IH. }
  assert (Hlo : located rhash khash search X id o n (w_next (ps_world s2)) (ps_world s2)).
  { destruct (created_run rhash khash search _ _ _ _ _ W2 C2) as [Hin|Hin]; [by apply N1 in Hin|].
    eapply (located_run rhash khash search X id o n Hn wl1 wl2 (ps_world s1)); try done.
    - intros m' Hin'. apply (N1 m').
      clear -Hin' W1. revert Hin' W1. change (ps_world new_psys) with new_world. generalize new_world as w.
      induction wl1 as [|p wl IH]; intros w; [by intros ?%elem_of_nil|].
      cbn [lrun]. destruct (lstep rhash khash search w p) as [w1|] eqn:E; [|done]. cbn [mbind option_bind]. intros [<-|Hin]%elem_of_cons Hr.
      + apply (created_step rhash khash search) in E. clear IH. revert Hr.
        apply (lruns_ind rhash khash search (fun w => LCreated m' id ∈ w_log w)); [|done]. intros ? ? ? _ H1 H2. by eapply (log_step rhash khash search).
      + by eapply IH.
    - intros p Hp. destruct (Q2 p Hp) as [Hp'|[(? & ? & ->)|(? & ? & -> & _)]]; [by apply P2|done|done].
    - intros m' Hm'. apply N3. eapply plog_run; [exact R3|]. by apply HW. }
  destruct (exists_run rhash khash search hs X id o n (w_next (ps_world s2)) (ps_next s2) s2 l3 s3 Hn Hi2 Hlo) as [Hla Hi3]; [|lia| |done|done|done|].
  - intros k' c' Hk' Hc'. apply (oi_calls _ _ Hi2) in Hc'. lia.
  - intros p Hp. destruct p; cbn; try done. by apply P3.
  - specialize (Hla k c Hk Hc Hx Hid). destruct (made_phase hs s3 k c m i Hi3 Hc Hm) as (_ & _ & P1 & P4 & P5).
    destruct (p_phase c); try done; try (by eapply Hla). by destruct (P5 q).
Qed.
Print Assumptions C31_exists_partial.

(** ** Cases *)
Definition hs (n : N) (ty : string) : option (bytes -> bool) :=
  if String.eqb ty "T" then Some (fun b => match b with [] => false | _ => true end) else None.
Notation prun := (prun time_hash key_hash search_first hs new_psys).
Definition two : list pop := PWorld <$> (knows 1 ++ knows 2).
(** Node 1 deploys "a" on itself, then node 2 and node 1 deploy it again on node 1; a deployment of an
    unknown type, of an undecodable recipe and of a recipe without bytes. *)
Example C31_example :
  match prun (two ++ [PDeploy 1 "a" "T" (Some [7]) 1; PWorld (LHop 0); PWorld (LHop 0); PChecked 0; PCreate 0 true; PStart 0 true;
    PWorld (LRegister 0); PWorld (LArrive 0);
    PDeploy 1 "a" "T" (Some [7]) 1; PWorld (LHop 1); PWorld (LHop 1); PChecked 1;
    PDeploy 1 "b" "U" (Some [7]) 1; PWorld (LHop 2); PChecked 2; PCreate 2 true;
    PDeploy 1 "b" "T" (Some []) 1; PWorld (LHop 3); PChecked 3; PCreate 3 true;
    PDeploy 1 "b" "T" None 1]) with
  | Some s => ps_log s = [PMade 0 1 "a"; PUp 0; PRef 0 1 "a"; PFailed 1 PExists; PErr 1 PExists; PFailed 2 PNotSupported; PErr 2 PNotSupported;
      PFailed 3 PUnavailable; PErr 3 PUnavailable; PErr 4 PRecipe]
  | None => False
  end.
Proof. by vm_compute. Qed.
(** A remote deployment that succeeds. *)
Example C31_remote :
  match prun (two ++ [PDeploy 2 "a" "T" (Some [7]) 1; PArrive 0 "x"; PWorld (LHop 0); PWorld (LHop 0); PChecked 0; PCreate 0 true; PStart 0 true; PReply 0]) with
  | Some s => ps_log s = [PMade 0 1 "a"; PUp 0; PRef 0 1 "a"]
  | None => False
  end.
Proof. by vm_compute. Qed.
(** Remote deployments of an id that exists, of an unknown type and of an undecodable recipe: the target refuses, the
    caller hears nothing, now or later ([C31_remote_failure_refuted]). *)
Theorem C31_silent_refuted :
  match prun (two ++ [PWorld (LCreate 1 "a"); PWorld (LRegister 0); PWorld (LArrive 0);
    PDeploy 2 "a" "T" (Some [7]) 1; PArrive 0 "x"; PWorld (LHop 0); PWorld (LHop 0); PChecked 0;
    PDeploy 2 "b" "U" (Some [7]) 1; PArrive 1 "x"; PWorld (LHop 1); PChecked 1; PCreate 1 true;
    PDeploy 2 "b" "T" (Some []) 1; PArrive 2 "x"; PWorld (LHop 2); PChecked 2; PCreate 2 true]) with
  | Some s => ps_log s = [PFailed 0 PExists; PFailed 1 PNotSupported; PFailed 2 PUnavailable] /\
      forall l s', Deploy_Model.prun time_hash key_hash search_first hs s l = Some s' -> ~ answered 0 s' /\ ~ answered 1 s' /\ ~ answered 2 s'
  | None => False
  end.
Proof.
  set (ops := two ++ _).
  assert (H : match prun ops with Some s => ps_log s = [PFailed 0 PExists; PFailed 1 PNotSupported; PFailed 2 PUnavailable] /\
     (exists c, ps_calls s !! 0%nat = Some c /\ p_from c = 2 /\ p_to c = 1) /\ (exists c, ps_calls s !! 1%nat = Some c /\ p_from c = 2 /\ p_to c = 1) /\
     (exists c, ps_calls s !! 2%nat = Some c /\ p_from c = 2 /\ p_to c = 1) | None => False end) by (vm_compute; repeat split; eexists; repeat split; reflexivity).
  clearbody ops. destruct (prun ops) as [s|] eqn:E; [|done]. destruct H as (Hl & (c0 & C0 & F0 & T0) & (c1 & C1 & F1 & T1) & (c2 & C2 & F2 & T2)).
  split; [done|]. intros l s' Hr. split_and!; eapply C31_remote_failure_refuted; try exact E; try exact Hr; try eassumption; try congruence; rewrite Hl.
  - by left.
  - right. by left.
  - right. right. by left.
Qed.
Print Assumptions C31_silent_refuted.
(** An actor that fails to start: the caller gets an error, but the id is registered with the cluster, and can
    never be deployed again, although no such actor runs. *)
Theorem C31_failed_start_refuted :
  match prun (two ++ [PDeploy 1 "a" "T" (Some [7]) 1; PWorld (LHop 0); PWorld (LHop 0); PChecked 0; PCreate 0 true; PStart 0 false;
    PWorld (LRegister 0); PWorld (LArrive 0); PDeploy 2 "a" "T" (Some [7]) 2; PWorld (LHop 1); PChecked 1]) with
  | Some s => ps_log s = [PMade 0 1 "a"; PDied 0; PFailed 0 PUnavailable; PErr 0 PUnavailable; PFailed 1 PExists; PErr 1 PExists] /\
      w_log (ps_world s) = [LAnswer 0 1 "a" None false; LCreated 1 "a"; LAnswer 1 2 "a" (Some 1) false]
  | None => False
  end.
Proof. vm_compute. done. Qed.
Print Assumptions C31_failed_start_refuted.
(** Two deployments of one id at the same time both succeed, on two nodes. *)
Theorem C31_twice_refuted :
  match prun (two ++ [PDeploy 1 "a" "T" (Some [7]) 1; PDeploy 2 "a" "T" (Some [7]) 2; PWorld (LHop 0); PWorld (LHop 0); PWorld (LHop 1);
    PChecked 0; PChecked 1; PCreate 0 true; PStart 0 true; PCreate 1 true; PStart 1 true]) with
  | Some s => ps_log s = [PMade 0 1 "a"; PUp 0; PRef 0 1 "a"; PMade 1 2 "a"; PUp 1; PRef 1 2 "a"]
  | None => False
  end.
Proof. by vm_compute. Qed.
Print Assumptions C31_twice_refuted.
(** A lookup that times out counts as not found: the actor is made a second time. *)
Theorem C31_timeout_refuted :
  match prun (two ++ [PWorld (LCreate 1 "a"); PWorld (LRegister 0); PWorld (LArrive 0);
    PDeploy 1 "a" "T" (Some [7]) 1; PWorld (LTimeout 0); PChecked 0; PCreate 0 true; PStart 0 true]) with
  | Some s => ps_log s = [PMade 0 1 "a"; PUp 0; PRef 0 1 "a"] /\ w_log (ps_world s) = [LCreated 1 "a"; LAnswer 0 1 "a" None true; LCreated 1 "a"]
  | None => False
  end.
Proof. vm_compute. done. Qed.
Print Assumptions C31_timeout_refuted.
(** The empty id is an id on the own node; another node takes it for none and makes a new one. *)
Example C31_empty_id :
  match prun (two ++ [PDeploy 1 "" "T" (Some [7]) 1; PWorld (LHop 0); PChecked 0; PCreate 0 true; PStart 0 true;
    PDeploy 2 "" "T" (Some [7]) 1; PArrive 1 "new"; PCreate 1 true; PStart 1 true; PReply 1]) with
  | Some s => ps_log s = [PMade 0 1 ""; PUp 0; PRef 0 1 ""; PMade 1 1 "new"; PUp 1; PRef 1 1 "new"]
  | None => False
  end.
Proof. by vm_compute. Qed.
