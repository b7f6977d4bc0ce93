(** C65: messages sent through references, from the call to the answer. *)
From Verif Require Import Refs_Model Refs_Spec Refs_Proofs Config_Spec Config_Proofs.

Section props.
Variable conf : N -> config.
Variable enc : N -> N -> option bytes.
Variable dec : N -> bytes -> option N.
Variable renc : N -> N -> option bytes.
Variable rdec : N -> bytes -> option N.
Notation run := (run conf enc dec renc rdec).
Notation step := (step conf enc dec renc rdec).

Lemma reach l s : run new_sys l = Some s -> inv conf enc dec renc rdec s /\ linv s.
Proof.
  intros E. split; [exact (inv_run _ _ _ _ _ _ _ _ (inv_new _ _ _ _ _) E)|].
  exact (linv_run _ _ _ _ _ _ _ _ (inv_new _ _ _ _ _) linv_new E).
Qed.

Lemma find_call s k from r t v reply : inv conf enc dec renc rdec s -> ECalled k from r t v reply ∈ y_log s ->
  exists c, y_calls s !! k = Some c /\ from = c_from c /\ r = c_ref c /\ t = c_type c /\ v = c_val c /\ reply = c_reply c /\
    cinv conf enc dec renc rdec (y_insts s) c (handled k (y_log s)) (returned k (y_log s)).
Proof.
  intros [I1 I2] Hin. destruct (y_calls s !! k) as [c|] eqn:Ek.
  - destruct (I1 _ _ Ek) as (_ & Hcall & Hci). destruct (proj1 (Hcall _ _ _ _ _) Hin) as (-> & -> & -> & -> & ->). by exists c.
  - exfalso. by eapply none_called; [apply I2|].
Qed.
Lemma find_other s k : inv conf enc dec renc rdec s -> handled k (y_log s) <> [] \/ returned k (y_log s) <> [] ->
  exists c, y_calls s !! k = Some c /\ ECalled k (c_from c) (c_ref c) (c_type c) (c_val c) (c_reply c) ∈ y_log s /\
    cinv conf enc dec renc rdec (y_insts s) c (handled k (y_log s)) (returned k (y_log s)).
Proof.
  intros [I1 I2] H. destruct (y_calls s !! k) as [c|] eqn:Ek.
  - destruct (I1 _ _ Ek) as (_ & Hcall & Hci). exists c. split; [done|]. split; [|done]. by apply Hcall.
  - specialize (I2 _ Ek). rewrite none_handled, none_returned in H by done. naive_solver.
Qed.

(** What the state of a call says about its handling: at most once, and then as given. *)
Lemma cinv_handled insts c H R : cinv conf enc dec renc rdec insts c H R -> H = [] \/ once conf enc dec insts c H (fun _ => True).
Proof.
  assert (HW : forall P, once conf enc dec insts c H P -> once conf enc dec insts c H (fun _ => True)).
  { intros P (a & t & v & x & ? & ? & _). by exists a, t, v, x. }
  assert (HF : forall e, failed conf enc dec insts c e H -> H = [] \/ once conf enc dec insts c H (fun _ => True)).
  { intros []; simpl; naive_solver. }
  unfold cinv. destruct (c_phase c) as [| | | |[b|e]| |].
  - intros (_ & _ & ? & _). by left.
  - intros (_ & _ & ? & _). by left.
  - intros (_ & _ & ? & _). by left.
  - intros (_ & ? & _). by left.
  - intros (_ & _ & _ & a & t & v & r & ? & ? & _). right. by exists a, t, v, (Some r).
  - intros (_ & _ & _ & _ & Hf). by eapply HF.
  - by intros (_ & _ & ?).
  - unfold over. destruct R as [|[|x|e] [|? ?]]; try done.
    + by intros (_ & ?).
    + intros (_ & a & t & v & r & ? & ? & _). right. by exists a, t, v, (Some r).
    + intros (? & _). by eapply HF.
Qed.
Lemma cinv_returned insts c H R : cinv conf enc dec renc rdec insts c H R -> (length R <= 1)%nat.
Proof.
  unfold cinv, early. destruct (c_phase c).
  - intros (_ & _ & _ & ->). by destruct (c_reply c); simpl; lia.
  - intros (_ & _ & _ & ->). by destruct (c_reply c); simpl; lia.
  - intros (_ & _ & _ & ->). by destruct (c_reply c); simpl; lia.
  - intros (_ & _ & ->). by destruct (c_reply c); simpl; lia.
  - intros (_ & _ & -> & _). simpl. lia.
  - intros (_ & -> & _). by destruct (c_reply c); simpl; lia.
  - unfold over. destruct R as [|[|x|e] [|? ?]]; simpl; done || lia.
Qed.

Lemma cinv_accepted insts c H : cinv conf enc dec renc rdec insts c H [RAccepted] -> c_reply c = false.
Proof.
  unfold cinv, early. destruct (c_phase c), (c_reply c) eqn:Ec; try done.
  - by intros (_ & _ & _ & ?).
  - by intros (_ & _ & _ & ?).
  - by intros (_ & _ & _ & ?).
  - by intros (_ & _ & ?).
  - by intros (_ & _ & ? & _).
  - by intros (_ & ? & _).
  - unfold over. intros (? & _). congruence.
Qed.

(** No call is handled twice, or returns twice, and only calls that were made are handled or return. *)
Theorem C65_once l s k :
  run new_sys l = Some s ->
  (length (handled k (y_log s)) <= 1)%nat /\ (length (returned k (y_log s)) <= 1)%nat /\
  (handled k (y_log s) <> [] \/ returned k (y_log s) <> [] -> exists from r t v reply, ECalled k from r t v reply ∈ y_log s).
Proof.
  intros E. destruct (reach _ _ E) as [HI _].
  assert (HE : handled k (y_log s) = [] /\ returned k (y_log s) = [] \/ (handled k (y_log s) <> [] \/ returned k (y_log s) <> [])).
  { destruct (handled k (y_log s)), (returned k (y_log s)); auto; right; naive_solver. }
  destruct HE as [[-> ->]|HE]; [simpl; split; [lia|]; split; [lia|]; naive_solver|].
  destruct (find_other _ _ HI HE) as (c & _ & Hin & Hci). split; [|split].
  - destruct (cinv_handled _ _ _ _ Hci) as [->|(a & t & v & x & -> & _)]; simpl; lia.
  - by eapply cinv_returned.
  - intros _. eauto 10.
Qed.

(** What is handled: through a local reference the very message, by the very actor it refers to; through
    a remote one, by an actor with that id on that node, of the type that the name used by the caller
    stands for on that node, the message decoded as such. *)
Theorem C65_handled l s k from r t v reply a t' v' x :
  run new_sys l = Some s -> ECalled k from r t v reply ∈ y_log s -> EHandled k a t' v' x ∈ y_log s ->
  match r with
  | Local b => a = b /\ t' = t /\ v' = v
  | Remote m id =>
      y_insts s !! a = Some (Inst m id t'.1) /\
      exists name body, handler_name (conf from) t.1 t.2 = Some name /\ enc t.2 v = Some body /\
        message_handler (conf m) name = Some t' /\ dec t'.2 body = Some v'
  end.
Proof.
  intros E Hc Hh. destruct (reach _ _ E) as [HI _].
  destruct (find_call _ _ _ _ _ _ _ HI Hc) as (c & _ & -> & -> & -> & -> & -> & Hci).
  assert (Hin : (a, t', v', x) ∈ handled k (y_log s)).
  { apply elem_of_list_omap. exists (EHandled k a t' v' x). split; [done|]. by rewrite decide_True. }
  destruct (cinv_handled _ _ _ _ Hci) as [HH|(a1 & t1 & v1 & x1 & HH & Hg & _)]; rewrite HH in Hin.
  { by apply elem_of_nil in Hin. }
  apply elem_of_list_singleton in Hin. injection Hin as -> -> -> ->. unfold given in Hg.
  destruct (c_ref c); [done|]. destruct Hg as (name & body & [? ?] & ? & ? & ?). split; [done|]. by exists name, body.
Qed.

(** A failed call: for three of the errors nothing was handled, nor will it be, as this holds in every state. *)
Theorem C65_never l s k e :
  run new_sys l = Some s -> EReturned k (RFailed e) ∈ y_log s ->
  e = EInvalidRef \/ e = ENotFound \/ e = ENotSupported -> handled k (y_log s) = [].
Proof.
  intros E Hr He. destruct (reach _ _ E) as [HI _].
  assert (Hin : RFailed e ∈ returned k (y_log s)).
  { apply elem_of_list_omap. exists (EReturned k (RFailed e)). split; [done|]. by rewrite decide_True. }
  destruct (find_other s k HI) as (c & _ & _ & Hci); [right; by intros HN; rewrite HN in Hin; apply elem_of_nil in Hin|].
  pose proof (cinv_returned _ _ _ _ Hci) as Hle.
  destruct (returned k (y_log s)) as [|y [|? ?]] eqn:ER; [by apply elem_of_nil in Hin| |simpl in Hle; lia].
  apply elem_of_list_singleton in Hin. subst y. unfold cinv in Hci.
  assert (Hea : early c <> [RFailed e]) by (unfold early; by destruct (c_reply c)).
  destruct (c_phase c).
  1-4: naive_solver.
  - naive_solver.
  - naive_solver.
  - destruct Hci as [Hf _]. destruct He as [->|[->| ->]]; done.
Qed.

(** Through a local reference there are two errors: the actor had stopped; or it stopped before it got to the
    message, or its handler panicked. *)
Theorem C65_local_error l s k from a t v reply e :
  run new_sys l = Some s -> ECalled k from (Local a) t v reply ∈ y_log s -> EReturned k (RFailed e) ∈ y_log s ->
  (e = EInvalidRef /\ handled k (y_log s) = []) \/
  (e = EClosed /\ reply = true /\ (handled k (y_log s) = [] /\ a ∉ y_open s \/ handled k (y_log s) = [(a, t, v, None)])).
Proof.
  intros E Hc Hr. destruct (reach _ _ E) as [HI HL].
  destruct (find_call _ _ _ _ _ _ _ HI Hc) as (c & Hk & -> & Er & -> & -> & -> & Hci). symmetry in Er.
  destruct HL as (_ & _ & HL). destruct (HL _ _ _ Hk Er) as [HP HF]. clear HL.
  assert (Hin : RFailed e ∈ returned k (y_log s)).
  { apply elem_of_list_omap. exists (EReturned k (RFailed e)). split; [done|]. by rewrite decide_True. }
  rewrite Forall_forall in HF. specialize (HF _ Hin). simpl in HF.
  pose proof (cinv_returned _ _ _ _ Hci) as Hle.
  destruct HF as [->|[-> Ec]].
  { left. split; [done|]. refine (C65_never _ _ _ _ E Hr _). by left. }
  right. split; [done|].
  destruct (returned k (y_log s)) as [|y [|? ?]] eqn:ER; [by apply elem_of_nil in Hin| |simpl in Hle; lia].
  apply elem_of_list_singleton in Hin. subst y. unfold cinv in Hci.
  assert (Hea : early c <> [RFailed EClosed]) by (unfold early; by destruct (c_reply c)).
  destruct (c_phase c).
  1-4: exfalso; naive_solver.
  - exfalso; naive_solver.
  - exfalso; naive_solver.
  - destruct Hci as [Hf Hn]. destruct HP as [HP|[[HP _]|HP]]; [| |done].
    + split; [done|].
      destruct Hf as [?|(a' & t' & v' & x & HH & Hg & ->)]; [done|]. right. rewrite HH. unfold given in Hg. rewrite Er in Hg.
      by destruct Hg as (-> & -> & ->).
    + split; [done|]. destruct Hf as [?|(a' & t' & v' & x & HH & Hg & ->)]; [by left|]. right. rewrite HH. unfold given in Hg. rewrite Er in Hg.
      by destruct Hg as (-> & -> & ->).
Qed.

(** Through a local reference: what is returned by [send] is what the handler returned; a message that
    [notify] accepted is handled unless the actor stops first. *)
Theorem C65_local l s k from a t v reply x :
  run new_sys l = Some s -> ECalled k from (Local a) t v reply ∈ y_log s -> EReturned k x ∈ y_log s ->
  match x with
  | RResult r => handled k (y_log s) = [(a, t, v, Some r)]
  | RAccepted => reply = false /\ ((exists r, handled k (y_log s) = [(a, t, v, r)]) \/ a ∉ y_open s \/
                   (handled k (y_log s) = [] /\ forall r, exists s', step s (OHandle k r) = Some s' /\ handled k (y_log s') = [(a, t, v, r)]))
  | RFailed _ => True
  end.
Proof.
  intros E Hc Hr. destruct (reach _ _ E) as [HI HL].
  destruct (find_call _ _ _ _ _ _ _ HI Hc) as (c & Hk & -> & Er & -> & -> & -> & Hci). symmetry in Er.
  destruct HL as (_ & _ & HL). destruct (HL _ _ _ Hk Er) as [HP _]. clear HL.
  assert (Hin : x ∈ returned k (y_log s)).
  { apply elem_of_list_omap. exists (EReturned k x). split; [done|]. by rewrite decide_True. }
  pose proof (cinv_returned _ _ _ _ Hci) as Hle.
  destruct (returned k (y_log s)) as [|y [|? ?]] eqn:ER; [by apply elem_of_nil in Hin| |simpl in Hle; lia].
  apply elem_of_list_singleton in Hin. subst y. destruct x as [|r|e]; [| |done].
  - destruct (cinv_handled _ _ _ _ Hci) as [HH|(a1 & t1 & v1 & x1 & HH & Hg & _)].
    2: { unfold given in Hg. rewrite Er in Hg. destruct Hg as (-> & -> & ->). split; [by eapply cinv_accepted|left; by exists x1]. }
    unfold cinv in Hci. destruct (c_phase c) as [| | |t' v' a'| | |] eqn:Ep.
    { exfalso. destruct Hci as ((? & ? & ?) & _). congruence. }
    1-2: exfalso; destruct Hci as ((? & ? & ? & ? & _) & _); congruence.
    + destruct Hci as (Hg & _ & He). unfold given in Hg. rewrite Er in Hg. destruct Hg as (-> & -> & ->).
      unfold early in He. destruct (c_reply c) eqn:Ec; [done|]. split; [done|]. right.
      destruct (decide (a ∈ y_open s)) as [Ha|Ha]; [|by left]. right. split; [done|]. intros r. cbn [Refs_Model.step].
      rewrite Hk, Ep, decide_True, Er, Ec by done. eexists. split; [done|]. simpl. rewrite handled_app, HH. simpl. by rewrite decide_True.
    + exfalso. destruct Hci as ((? & ? & ?) & _). congruence.
    + exfalso. destruct Hci as ((? & ? & ?) & _). congruence.
    + destruct Hci as (Hf & _). split; [done|]. right. left. rewrite HH in HP. naive_solver.
  - assert (Hea : early c <> [RResult r]) by (unfold early; by destruct (c_reply c)).
    unfold cinv in Hci. destruct (c_phase c).
    1-6: exfalso; naive_solver.
    destruct Hci as (_ & a1 & t1 & v1 & r1 & HH & Hg & Hx). unfold given in Hg. rewrite Er in Hg, Hx. destruct Hg as (-> & -> & ->). by subst r1.
Qed.

(** Every call gets an answer unless it is lost: what happens to calls that were made is bounded by the
    state; as long as a call has not returned and is not lost, something may happen to it. *)
Theorem C65_bounded l s : run new_sys l = Some s ->
  exists bound, forall l' s', forallb progress l' = true -> run s l' = Some s' -> (length l' <= bound)%nat.
Proof. intros E. exists (measure s). intros l' s'. apply run_bounded. by apply (reach _ _ E). Qed.

Theorem C65_settled l s k from r t v reply :
  run new_sys l = Some s -> ECalled k from r t v reply ∈ y_log s ->
  (forall o, match o with OLose _ => False | _ => progress o = true end -> step s o = None) ->
  (exists x, returned k (y_log s) = [x]) \/ (reply = true /\ returned k (y_log s) = [] /\ OLose k ∈ l).
Proof.
  intros E Hc Hno. destruct (reach _ _ E) as [HI HL].
  destruct (find_call _ _ _ _ _ _ _ HI Hc) as (c & Hk & -> & -> & -> & -> & -> & Hci).
  destruct (can_step _ _ _ _ _ _ _ _ HI HL Hk) as [Hp|[Hp|(o & s' & _ & Ho & Hp & Hs)]].
  - left. unfold cinv in Hci. rewrite Hp in Hci. unfold over in Hci.
    destruct (returned k (y_log s)) as [|x [|? ?]]; [done|by exists x|]. by destruct x.
  - unfold cinv in Hci. rewrite Hp in Hci. destruct Hci as (_ & HR & _). rewrite HR. unfold early.
    destruct (c_reply c); [right|left; by exists RAccepted]. repeat (split; [done|]).
    assert (lost s k) as Hl by (by exists c). destruct (lost_run _ _ _ _ _ _ _ _ _ E Hl) as [(c' & Hc' & _)|?]; [done|done].
  - exfalso. rewrite Hno in Hs; [done|]. by destruct o.
Qed.

(** A [send] that is lost never returns, whatever happens later. *)
Theorem C65_lost_refuted l s k from r t v s1 :
  run new_sys l = Some s -> ECalled k from r t v true ∈ y_log s -> step s (OLose k) = Some s1 ->
  forall l' s', run s1 l' = Some s' -> returned k (y_log s') = [].
Proof.
  intros E Hc Es l' s' E'. destruct (reach _ _ E) as [HI HL].
  destruct (find_call _ _ _ _ _ _ _ HI Hc) as (c & Hk & -> & -> & -> & -> & Ec & Hci).
  pose proof (inv_step _ _ _ _ _ _ _ _ HI Es) as HI1.
  cbn [Refs_Model.step] in Es. rewrite Hk in Es. unfold cinv, early in Hci. rewrite <- Ec in Hci.
  assert (HR : returned k (y_log s) = [] /\ s1 = put s k (at_phase c QLost) []).
  { destruct (c_phase c); try done; injection Es as <-; split; try done; naive_solver. }
  destruct HR as [HR ->].
  refine (_ (settled_run conf enc dec renc rdec (put s k (at_phase c QLost) []) l' s' k (at_phase c QLost) _ (or_intror eq_refl) HI1 E')).
  - intros (_ & _ & ->). simpl. by rewrite app_nil_r.
  - simpl. by rewrite lookup_insert.
Qed.

(** [notify] through a remote reference says that the message was accepted when it was written to the
    connection: there need not be any such actor, nor any node. *)
Theorem C65_notify_refuted n m id t v l s s1 body name :
  run new_sys l = Some s -> enc t.2 v = Some body -> handler_name (conf n) t.1 t.2 = Some name ->
  step s (OCall n (Remote m id) t v false) = Some s1 ->
  returned (y_next s) (y_log s1) = [RAccepted] /\
  exists l' s', run s1 l' = Some s' /\ forall l'' s'', run s' l'' = Some s'' -> handled (y_next s) (y_log s'') = [].
Proof.
  intros E He Hn Es. destruct (reach _ _ E) as [HI _]. pose proof (inv_step _ _ _ _ _ _ _ _ HI Es) as HI1.
  cbn [Refs_Model.step] in Es. rewrite He, Hn in Es. cbv beta iota zeta in Es. apply (inj Some) in Es.
  set (k := y_next s) in *.
  assert (HN : y_calls s !! k = None).
  { destruct (y_calls s !! k) as [c|] eqn:Ek; [|done]. destruct (proj1 HI _ _ Ek) as [Hlt _]. unfold k in Hlt. lia. }
  assert (H0 : handled k (y_log s) = [] /\ returned k (y_log s) = []).
  { split; [apply none_handled|apply none_returned]; by apply HI. }
  destruct H0 as [Hh Hr].
  assert (Hh1 : handled k (y_log s1) = []) by (subst s1; simpl; by rewrite !handled_app, Hh).
  split. { subst s1. simpl. rewrite !returned_app, Hr. simpl. by rewrite decide_True. }
  assert (Hk1 : y_calls s1 !! k = Some (Call n (Remote m id) t v false (QNet name body))).
  { subst s1. simpl. by rewrite lookup_insert. }
  clear Es. exists [OLose k], (put s1 k (at_phase (Call n (Remote m id) t v false (QNet name body)) QLost) []).
  assert (Es2 : step s1 (OLose k) = Some (put s1 k (at_phase (Call n (Remote m id) t v false (QNet name body)) QLost) [])).
  { cbn [Refs_Model.step]. by rewrite Hk1. }
  pose proof (inv_step _ _ _ _ _ _ _ _ HI1 Es2) as HI2.
  split. { cbn [Refs_Model.run]. rewrite Es2. done. }
  intros l'' s'' E''.
  refine (_ (settled_run _ _ _ _ _ _ l'' s'' k _ _ (or_intror _) HI2 E'')).
  - intros (_ & -> & _). simpl. by rewrite handled_app, Hh1.
  - simpl. by rewrite lookup_insert.
  - done.
Qed.
End props.

(** With nodes that agree on the names, and codecs that undo each other, references to actors of other
    nodes act like local ones: what is handled is the message that was sent, as what it is, by an actor with
    that id and type on that node. *)
Section agreeing.
Variable tn : N -> bytes.
Variable regs : N -> list reg.
Variables oh oa : N -> list bytes.
Variable enc : N -> N -> option bytes.
Variable dec : N -> bytes -> option N.
Variable renc : N -> N -> option bytes.
Variable rdec : N -> bytes -> option N.
Notation conf := (fun n => configured tn (regs n) (oh n) (oa n)).
Notation run := (run conf enc dec renc rdec).

Lemma same_type from m t name t' :
  agree (regs from) (regs m) ->
  handler_name (conf from) t.1 t.2 = Some name -> message_handler (conf m) name = Some t' -> t' = t.
Proof.
  intros Ha Hn Hm. apply name_sound, in_force_in in Hn.
  destruct t as [a0 m0], t' as [a1 m1]. unfold message_handler, configured, build in Hm. cbn [c_handlers] in Hm.
  apply handlers_force, in_force_in in Hm. cbn [fst snd] in Hn. destruct (Ha _ _ _ _ _ Hn Hm) as [-> ->]. done.
Qed.

Theorem C65_right l s k from m id t v reply a t' v' x :
  agree (regs from) (regs m) -> round_trip enc dec ->
  run new_sys l = Some s -> ECalled k from (Remote m id) t v reply ∈ y_log s -> EHandled k a t' v' x ∈ y_log s ->
  t' = t /\ v' = v /\ y_insts s !! a = Some (Inst m id t.1).
Proof.
  intros Ha Hrt E Hc Hh. destruct (C65_handled _ _ _ _ _ _ _ _ _ _ _ _ _ _ _ _ _ E Hc Hh) as (Hi & name & body & Hn & He & Hm & Hd).
  pose proof (same_type _ _ _ _ _ Ha Hn Hm) as ->. rewrite (Hrt _ _ _ He) in Hd. injection Hd as ->. done.
Qed.

(** What [send] returns is what the handler returned. *)
Theorem C65_result l s k from m id t v reply r :
  agree (regs from) (regs m) -> round_trip enc dec -> round_trip renc rdec ->
  run new_sys l = Some s -> ECalled k from (Remote m id) t v reply ∈ y_log s -> EReturned k (RResult r) ∈ y_log s ->
  exists a, handled k (y_log s) = [(a, t, v, Some r)] /\ y_insts s !! a = Some (Inst m id t.1).
Proof.
  intros Ha Hrt Hrr E Hc Hr. destruct (reach _ _ _ _ _ _ _ E) as [HI _].
  destruct (find_call _ _ _ _ _ _ _ _ _ _ _ _ HI Hc) as (c & Hk & -> & Er & -> & -> & -> & Hci). symmetry in Er.
  assert (Hin : RResult r ∈ returned k (y_log s)).
  { apply elem_of_list_omap. exists (EReturned k (RResult r)). split; [done|]. by rewrite decide_True. }
  pose proof (cinv_returned _ _ _ _ _ _ _ _ _ Hci) as Hle.
  destruct (returned k (y_log s)) as [|y [|? ?]] eqn:ER; [by apply elem_of_nil in Hin| |simpl in Hle; lia].
  apply elem_of_list_singleton in Hin. subst y.
  assert (Hea : early c <> [RResult r]) by (unfold early; by destruct (c_reply c)).
  unfold cinv in Hci. destruct (c_phase c).
  1-6: exfalso; naive_solver.
  destruct Hci as (_ & a1 & t1 & v1 & r1 & HH & Hg & Hx). unfold given, sent in Hg. rewrite Er in Hg, Hx.
  destruct Hg as (name & body & [Hn He] & Hm & Hd & Hi). destruct Hx as (b & Hb & Hb').
  pose proof (same_type _ _ _ _ _ Ha Hn Hm) as ->. rewrite (Hrt _ _ _ He) in Hd. injection Hd as ->.
  rewrite (Hrr _ _ _ Hb) in Hb'. injection Hb' as ->. by exists a1.
Qed.
End agreeing.

(** Concrete programs: a type is its number, messages and results are their own bytes. *)
Section cases.
Open Scope N_scope.
Definition ex_enc (m v : N) : option bytes := if m =? 9 then None else Some [v].
Definition ex_dec (m : N) (b : bytes) : option N := match b with [v] => Some v | _ => None end.
Definition ex_renc (m v : N) : option bytes := if v =? 99 then None else Some [v].
Definition ex_rdec (m : N) (b : bytes) : option N := match b with [v] => if v =? 98 then None else Some v | _ => None end.
Definition ex_tn (a : N) : bytes := [a].
(** Actors of type 1 take messages of types 5 and 6. *)
Definition ex_regs : list reg := [RHandler 1 5 [50]; RHandler 1 6 [60]].
Definition ex_conf (n : N) : config := configured ex_tn ex_regs [] [].
Notation ex_run := (run ex_conf ex_enc ex_dec ex_renc ex_rdec).

(** A call through a remote reference, and one through a local one, that come out the same. *)
Example C65_example :
  match ex_run new_sys
    [ OStart 2 7 1; OCall 1 (Remote 2 7) (1, 5) 33 true; OArrive 0; OTry 0 (Some 0%nat); OSend 0; OHandle 0 (Some 34); OAnswer 0;
      OCall 2 (Local 0) (1, 5) 33 true; OHandle 1 (Some 34) ] with
  | Some s => handled 0 (y_log s) = [(0%nat, (1, 5), 33, Some 34)] /\ returned 0 (y_log s) = [RResult 34] /\
              handled 1 (y_log s) = [(0%nat, (1, 5), 33, Some 34)] /\ returned 1 (y_log s) = [RResult 34]
  | None => False
  end.
Proof. vm_compute. auto. Qed.
Example C65_agree_example : agree ex_regs ex_regs.
Proof.
  intros k a m a' m' H H'. unfold ex_regs in *. rewrite !elem_of_cons in H, H'. rewrite elem_of_nil in H, H'.
  destruct H as [H|[H|[]]], H' as [H'|[H'|[]]]; injection H; injection H'; intros; subst; done.
Qed.
Example C65_round_trip_example : round_trip ex_enc ex_dec.
Proof. intros m v b. unfold ex_enc. destruct (m =? 9); [done|]. by intros [= <-]. Qed.
Example C65_settled_example :
  match ex_run new_sys [ OStart 2 7 1; OCall 1 (Remote 2 8) (1, 5) 33 true; OArrive 0;
      OTry 0 None; OTry 0 None; OTry 0 None; OTry 0 None; OTry 0 None; OTry 0 None; OTry 0 None; OTry 0 None; OTry 0 None; OAnswer 0 ] with
  | Some s => handled 0 (y_log s) = [] /\ returned 0 (y_log s) = [RFailed ENotFound]
  | None => False
  end.
Proof. vm_compute. auto. Qed.
Example C65_local_error_example :
  match ex_run new_sys [ OStart 2 7 1; OCall 2 (Local 0) (1, 5) 33 true; OCall 2 (Local 0) (1, 5) 34 false; OHandle 1 None; OClose 0; ODrop 0;
     OCall 2 (Local 0) (1, 6) 1 true ] with
  | Some s => returned 0 (y_log s) = [RFailed EClosed] /\ handled 1 (y_log s) = [(0%nat, (1, 5), 34, None)] /\
              returned 2 (y_log s) = [RFailed EInvalidRef]
  | None => False
  end.
Proof. vm_compute. auto. Qed.

(** With the other three errors the message may well have been handled, so that to try again is to have it handled twice. *)
Theorem C65_error_refuted : forall e, e = EClosed \/ e = ESerialisation \/ e = EDeserialisation ->
  exists l s x, ex_run new_sys l = Some s /\ returned 0 (y_log s) = [RFailed e] /\ handled 0 (y_log s) = [(0%nat, (1, 5), 33, x)].
Proof.
  assert (H : forall e x, match ex_run new_sys [OStart 2 7 1; OCall 1 (Remote 2 7) (1, 5) 33 true; OArrive 0; OTry 0 (Some 0%nat); OSend 0; OHandle 0 x; OAnswer 0] with
    | Some s => returned 0 (y_log s) = [RFailed e] /\ handled 0 (y_log s) = [(0%nat, (1, 5), 33, x)] | None => False end ->
    exists l s x, ex_run new_sys l = Some s /\ returned 0 (y_log s) = [RFailed e] /\ handled 0 (y_log s) = [(0%nat, (1, 5), 33, x)]).
  { intros e x. destruct (ex_run _ _) as [s|] eqn:E; [|done]. intros [? ?]. eexists _, s, x. done. }
  intros e [->|[->| ->]]; [apply (H EClosed None)|apply (H ESerialisation (Some 99))|apply (H EDeserialisation (Some 98))]; vm_compute; auto.
Qed.

(** An actor stops and another starts under its id: the local reference no longer works, the remote one
    reaches the new actor, which is not the one it was made for. *)
Theorem C65_identity_refuted :
  exists l s, ex_run new_sys (OStart 2 7 1 :: l) = Some s /\
    ECalled 0 2 (Local 0) (1, 5) 33 true ∈ y_log s /\ returned 0 (y_log s) = [RFailed EInvalidRef] /\
    ECalled 1 1 (Remote 2 7) (1, 5) 33 true ∈ y_log s /\ returned 1 (y_log s) = [RResult 34] /\
    handled 1 (y_log s) = [(1%nat, (1, 5), 33, Some 34)].
Proof.
  set (l := [OClose 0; OForget 2 7; OStart 2 7 1; OCall 2 (Local 0) (1, 5) 33 true;
             OCall 1 (Remote 2 7) (1, 5) 33 true; OArrive 1; OTry 1 (Some 1%nat); OSend 1; OHandle 1 (Some 34); OAnswer 1]).
  assert (H : match ex_run new_sys (OStart 2 7 1 :: l) with
    | Some s => y_log s = [ECalled 0 2 (Local 0) (1, 5) 33 true; EReturned 0 (RFailed EInvalidRef);
                           ECalled 1 1 (Remote 2 7) (1, 5) 33 true; EHandled 1 1 (1, 5) 33 (Some 34); EReturned 1 (RResult 34)] | None => False end) by (by vm_compute).
  exists l. destruct (ex_run new_sys (OStart 2 7 1 :: l)) as [s|]; [|done]. exists s. rewrite H. split; [done|].
  split; [by left|]. split; [done|]. split; [right; right; by left|]. done.
Qed.

Example C65_notify_example :
  match ex_run new_sys [OCall 1 (Remote 2 8) (1, 5) 33 false; OArrive 0; OTry 0 None; OTry 0 None; OTry 0 None; OTry 0 None;
     OTry 0 None; OTry 0 None; OTry 0 None; OTry 0 None; OTry 0 None] with
  | Some s => returned 0 (y_log s) = [RAccepted] /\ handled 0 (y_log s) = [] /\ c_phase <$> y_calls s !! 0%nat = Some QOver
  | None => False
  end.
Proof. vm_compute. auto. Qed.

(** Nodes that use a name for different types: a message is handled as one of another type, and the
    caller gets that handler's result as its own. *)
Definition ex_regs' : list reg := [RHandler 1 6 [50]; RHandler 1 5 [60]].
Definition ex_mixed (n : N) : config := configured ex_tn (if n =? 1 then ex_regs else ex_regs') [] [].
Theorem C65_confused_refuted :
  exists l s, run ex_mixed ex_enc ex_dec ex_renc ex_rdec new_sys l = Some s /\
    ECalled 0 1 (Remote 2 7) (1, 5) 33 true ∈ y_log s /\ handled 0 (y_log s) = [(0%nat, (1, 6), 33, Some 34)] /\
    returned 0 (y_log s) = [RResult 34].
Proof.
  set (l := [OStart 2 7 1; OCall 1 (Remote 2 7) (1, 5) 33 true; OArrive 0; OTry 0 (Some 0%nat); OSend 0; OHandle 0 (Some 34); OAnswer 0]).
  assert (H : match run ex_mixed ex_enc ex_dec ex_renc ex_rdec new_sys l with
    | Some s => y_log s = [ECalled 0 1 (Remote 2 7) (1, 5) 33 true; EHandled 0 0 (1, 6) 33 (Some 34); EReturned 0 (RResult 34)] | None => False end) by (by vm_compute).
  exists l. destruct (run ex_mixed ex_enc ex_dec ex_renc ex_rdec new_sys l) as [s|]; [|done]. exists s. rewrite H. split; [done|].
  split; [by left|]. done.
Qed.
End cases.

Print Assumptions C65_once.
Print Assumptions C65_handled.
Print Assumptions C65_never.
Print Assumptions C65_local_error.
Print Assumptions C65_local.
Print Assumptions C65_bounded.
Print Assumptions C65_settled.
Print Assumptions C65_lost_refuted.
Print Assumptions C65_right.
Print Assumptions C65_result.
Print Assumptions C65_error_refuted.
Print Assumptions C65_identity_refuted.
Print Assumptions C65_notify_refuted.
Print Assumptions C65_confused_refuted.
