(** Theorems about the delivery of remote messages: C26, C41. *)
From Verif Require Import Delivery_Model Delivery_Spec Delivery_Proofs.
Open Scope string_scope.
Open Scope list_scope.
Open Scope nat_scope.

(** Identifier 1 is for actors of type 5; messages of one byte. *)
Definition handler1 (ident : N) : option N := if (ident =? 1)%N then Some 5%N else None.
Definition decode1 (ident : N) (b : bytes) : option N := match b with [x] => Some x | _ => None end.

Section props.
Variable handler : N -> option N.
Variable M : Type.
Variable decode : N -> bytes -> option M.
Notation wrun := (wrun handler M decode).
Notation wstep := (wstep handler M decode).

(** ** C26: the order of messages *)
(** Every order: whatever the order in which messages for an actor arrive over a connection, there
    is a schedule of the tasks of the session with which the actor gets them in the order [p]. *)
Theorem C26_any_order_refuted ident id ty bs p :
  handler ident = Some ty -> Forall (fun b => decode ident b <> None) bs -> p ≡ₚ seq 0 (length bs) ->
  exists w, wrun new_world (WStart 0 id ty :: (WArrive 0 ident id <$> bs) ++ deliver_in p) = Some w /\ order w = p /\
  Forall (fun x => fst (fst x) = 0) (w_mail M w).
Proof. exact (any_order handler M decode ident id ty bs p). Qed.

(** A message whose task is over when another one arrives is not handled after it. *)
Theorem C26_settled_partial l1 w1 sys ident id b l2 w n k :
  wrun new_world l1 = Some w1 -> w_tasks M w1 !! n = Some k -> over k = true ->
  wrun w1 (WArrive sys ident id b :: l2) = Some w ->
  exists d1 d2, order w = d1 ++ d2 /\ n ∉ d2 /\ length (w_tasks M w1) ∉ d1.
Proof.
  intros H1 Hk Ho Hr. destruct (over_run handler M decode _ _ _ _ _ Hr Hk Ho) as (d & Hd & Hn).
  exists (order w1), ((fun x => snd (fst x)) <$> d). unfold order. rewrite Hd, fmap_app. split_and!; [done| |].
  - intros ([[a n'] m] & -> & Hx)%elem_of_list_fmap. by apply (Hn a m).
  - intros ([[a n'] m] & Hx1 & Hx)%elem_of_list_fmap. simpl in Hx1. subst n'. destruct (winv_run handler M decode _ _ H1) as (_ & _ & I3).
    apply I3 in Hx. lia.
Qed.

(** If each message arrives after those before it are over (a sender that waits for the answer to
    each message), they are handled in the order of their arrival. *)
Theorem C26_one_by_one_partial l w :
  wrun new_world l = Some w -> one_by_one handler decode new_world l -> StronglySorted lt (order w).
Proof. intros Hr Ho. by destruct (oinv_run handler M decode _ _ _ (oinv_new M) Ho Hr) as (_ & ? & _). Qed.

(** Nothing is handled twice, in whatever order. *)
Theorem C26_no_duplicates l w n : wrun new_world l = Some w -> length (deliveries w n) <= 1.
Proof.
  intros Hr. destruct (winv_run handler M decode _ _ Hr) as (I1 & _ & I3). destruct (w_tasks M w !! n) as [k|] eqn:Ek.
  - specialize (I1 _ _ Ek). unfold tinv in I1. destruct (k_state k) as [| | |[b|[]]]; try done;
      repeat match goal with H : _ /\ _ |- _ => destruct H | H : exists _, _ |- _ => destruct H | H : _ \/ _ |- _ => destruct H end;
      match goal with H : deliveries w n = _ |- _ => rewrite H; simpl; lia end.
  - rewrite deliveries_none; [simpl; lia|]. intros a m Hx%I3. apply lookup_ge_None in Ek. lia.
Qed.

(** ** C41: delivery to an actor that may not be there yet *)
(** At most nine lookups, of which only the last may find an actor. *)
Theorem C41_bounded l w n k : wrun new_world l = Some w -> w_tasks M w !! n = Some k ->
  length (lookups w n) <= 9 /\ exists j, lookups w n = replicate j None \/ exists a, lookups w n = replicate j None ++ [Some a].
Proof.
  intros Hr Hk. destruct (winv_run handler M decode _ _ Hr) as (I1 & _ & _). specialize (I1 _ _ Hk).
  assert (HF : forall a, found_at (lookups w n) a -> length (lookups w n) <= 9 /\ exists j, lookups w n = replicate j None \/ exists a, lookups w n = replicate j None ++ [Some a]).
  { intros a (j & Hj & ->). rewrite app_length, replicate_length. simpl. split; [lia|]. exists j. eauto. }
  unfold tinv in I1. destruct (k_state k) as [a|a|a|[b|[]]].
  - destruct I1 as (_ & Ha & -> & _). rewrite replicate_length. split; [lia|]. eauto.
  - destruct I1 as (_ & HH & _). eauto.
  - destruct I1 as (_ & HH & _). eauto.
  - destruct I1 as (_ & a & m & HH & _). eauto.
  - destruct I1 as (_ & -> & _). rewrite replicate_length. split; [lia|]. eauto.
  - destruct I1 as (_ & _ & [a HH] & _). eauto.
  - destruct I1 as (_ & a & m & HH & _). eauto.
  - destruct I1 as (_ & a & m & HH & _). eauto.
  - destruct I1 as (_ & -> & _). split; [simpl; lia|]. exists 0. by left.
  - done.
Qed.

(** No lookup found it: exactly nine were made, the caller gets a not-found error, and nothing was
    handled. And only then is there such an error. *)
Theorem C41_not_found l w n k r : wrun new_world l = Some w -> w_tasks M w !! n = Some k -> finished k = Some r ->
  (r = DErr DNotFound <-> handler (k_ident k) <> None /\ Forall (fun x => x = None) (lookups w n)) /\
  (r = DErr DNotFound -> length (lookups w n) = 9 /\ deliveries w n = []).
Proof.
  intros Hr Hk Hf. destruct (winv_run handler M decode _ _ Hr) as (I1 & _ & _). specialize (I1 _ _ Hk).
  unfold finished in Hf. destruct (k_state k) as [| | |r'] eqn:Es; try done. injection Hf as ->. unfold tinv in I1. rewrite Es in I1.
  assert (HF : forall a, found_at (lookups w n) a -> ~ Forall (fun x => x = None) (lookups w n)).
  { intros a (j & _ & ->) HF. apply Forall_app in HF as [_ HF]. apply Forall_cons in HF as [? _]. done. }
  destruct r as [b|[]].
  - destruct I1 as (_ & a & m & HH & _). split; [|done]. split; [done|]. intros [_ ?]. exfalso. by eapply HF.
  - destruct I1 as (? & -> & ?). split; [|by rewrite replicate_length]. split; [|done]. intros _. split; [done|]. apply Forall_replicate_eq || (apply Forall_forall; intros x [? ?]%elem_of_replicate; done).
  - destruct I1 as (_ & _ & [a HH] & _). split; [|done]. split; [done|]. intros [_ ?]. exfalso. by eapply HF.
  - destruct I1 as (_ & a & m & HH & _). split; [|done]. split; [done|]. intros [_ ?]. exfalso. by eapply HF.
  - destruct I1 as (_ & a & m & HH & _). split; [|done]. split; [done|]. intros [_ ?]. exfalso. by eapply HF.
  - destruct I1 as (? & _). split; [|done]. split; [done|]. by intros [? _].
  - done.
Qed.

(** A lookup found it. If the message can be decoded, it goes to the actor found, once, and the
    result is that of the actor, unless the actor stopped meanwhile; else it is reported as
    undecodable. *)
Theorem C41_found l w n k r a : wrun new_world l = Some w -> w_tasks M w !! n = Some k -> finished k = Some r -> Some a ∈ lookups w n ->
  match decode (k_ident k) (k_body k) with
  | Some m => (deliveries w n = [(a, m)] /\ ((exists b, r = DOk b) \/ r = DErr DSerialisation \/ r = DErr DClosed)) \/
              (deliveries w n = [] /\ r = DErr DClosed)
  | None => deliveries w n = [] /\ r = DErr DDeserialisation
  end.
Proof.
  intros Hr Hk Hf Ha. destruct (winv_run handler M decode _ _ Hr) as (I1 & _ & _). specialize (I1 _ _ Hk).
  unfold finished in Hf. destruct (k_state k) as [| | |r'] eqn:Es; try done. injection Hf as ->. unfold tinv in I1. rewrite Es in I1.
  assert (HF : forall a', found_at (lookups w n) a' -> a' = a).
  { intros a' (j & _ & E). rewrite E in Ha. apply elem_of_app in Ha as [[? ?]%elem_of_replicate|Ha%elem_of_list_singleton]; congruence. }
  destruct r as [b|[]].
  - destruct I1 as (_ & a' & m & HH%HF & -> & ->). subst a'. left. eauto.
  - destruct I1 as (_ & E & _). rewrite E in Ha. by apply elem_of_replicate in Ha as [? _].
  - destruct I1 as (_ & -> & _ & ->). done.
  - destruct I1 as (_ & a' & m & HH%HF & -> & ->). subst a'. left. eauto.
  - destruct I1 as (_ & a' & m & HH%HF & -> & [-> | ->]); subst a'; [by right|]. left. auto.
  - destruct I1 as (_ & E & _). rewrite E in Ha. by apply elem_of_nil in Ha.
  - done.
Qed.

(** An unknown type of message: reported, never handled nor looked up. *)
Theorem C41_unknown_type l w n k : wrun new_world l = Some w -> w_tasks M w !! n = Some k -> handler (k_ident k) = None ->
  k_state k = Finished (DErr DNotSupported) /\ deliveries w n = [] /\ lookups w n = [].
Proof.
  intros Hr Hk Hh. destruct (winv_run handler M decode _ _ Hr) as (I1 & _ & _). specialize (I1 _ _ Hk).
  unfold tinv in I1. destruct (k_state k) as [| | |[b|[]]]; naive_solver.
Qed.
(** A message that cannot be decoded is never handled. *)
Theorem C41_undecodable l w n k : wrun new_world l = Some w -> w_tasks M w !! n = Some k -> decode (k_ident k) (k_body k) = None ->
  deliveries w n = [] /\ forall b, k_state k <> Finished (DOk b).
Proof.
  intros Hr Hk Hh. destruct (winv_run handler M decode _ _ Hr) as (I1 & _ & _). specialize (I1 _ _ Hk).
  unfold tinv in I1. destruct (k_state k) as [| | |[b|[]]]; naive_solver.
Qed.

(** A task that is not finished can go on. *)
Theorem C41_goes_on l w n k : wrun new_world l = Some w -> w_tasks M w !! n = Some k -> finished k = None ->
  exists o w', wstep w o = Some w' /\ (o = WTry n \/ o = WSend n \/ o = WDropped n).
Proof.
  intros Hr Hk Hf. destruct (winv_run handler M decode _ _ Hr) as (I1 & _ & _). specialize (I1 _ _ Hk). unfold tinv in I1. unfold finished in Hf.
  destruct (k_state k) as [a|a|a|] eqn:Es; [| | |done].
  - destruct I1 as (Hh & _). destruct (handler (k_ident k)) as [ty|] eqn:Eh; [|done]. exists (WTry n).
    simpl. rewrite Hk, Es, Eh. destruct (get_actor_ref M w (k_sys k) ty (k_id k)). eauto.
  - exists (WSend n). simpl. rewrite Hk, Es. destruct (decode (k_ident k) (k_body k)); [destruct (decide _)|]; eauto.
  - exists (WDropped n). simpl. rewrite Hk, Es. eauto.
Qed.

(** A lookup finds an actor whenever the system has one with this id and of the type. *)
Theorem C41_registered_found (w : world M) sys id ty a : w_tracked M w !! (sys, id) = Some a -> of_type M w ty a = true ->
  exists a', fst (get_actor_ref M w sys ty id) = Some a'.
Proof.
  intros Ht Ho. unfold get_actor_ref. rewrite Ht, Ho. destruct (w_cache M w !! id) as [a1|]; [destruct (of_type M w ty a1 && _)|]; eauto.
Qed.

(** What is handled: the message that was sent, by an actor with the id it was sent to, of the
    right type, in the right system if no other system of the process has actors with this id. *)
Theorem C41_right_actor_partial l w n k a m : wrun new_world l = Some w -> w_tasks M w !! n = Some k ->
  (a, m) ∈ deliveries w n -> Forall (alone (k_sys k) (k_id k)) l ->
  exists i, w_insts M w !! a = Some i /\ i_id i = k_id k /\ Some (i_type i) = handler (k_ident k) /\ i_sys i = k_sys k /\
  decode (k_ident k) (k_body k) = Some m.
Proof.
  intros Hr Hk Hd Ha. destruct (cinv_run handler M decode _ _ _ _ _ (cinv_new handler M decode (k_sys k) (k_id k)) Ha Hr) as (_ & _ & _ & C4 & C5).
  unfold deliveries in Hd. apply elem_of_list_fmap in Hd as ([[a' n'] m'] & [= -> ->] & Hx).
  apply elem_of_list_In, List.filter_In in Hx as [Hx Hn]. simpl in Hn. apply Nat.eqb_eq in Hn as ->. apply elem_of_list_In in Hx.
  destruct (C4 _ _ _ Hx) as (i & k' & Hi & Hk' & H1 & H2 & H3). rewrite Hk in Hk'. injection Hk' as <-. exists i. split_and!; try done. by eapply C5.
Qed.

(** Delivery through a reference. *)
Theorem C41_direct ty ident b s waits : handle_direct M decode ty ident b s waits =
  match decode ident b with
  | None => (None, if waits then Some (DErr DDeserialisation) else None)
  | Some m =>
      if ty then (match s with Handled _ => Some m | _ => None end,
                  if waits then Some (match s with Handled (Some r) => DOk r | Handled None => DErr DSerialisation | Dropped => DErr DClosed | Refused => DErr DInvalidRef end) else None)
      else (None, if waits then Some (DErr DInvalidRef) else None)
  end.
Proof. unfold handle_direct. destruct ty, (decode ident b), waits; try done; by destruct s as [[]| |]. Qed.
End props.
Print Assumptions C26_any_order_refuted.
Print Assumptions C26_settled_partial.
Print Assumptions C26_one_by_one_partial.
Print Assumptions C26_no_duplicates.
Print Assumptions C41_bounded.
Print Assumptions C41_not_found.
Print Assumptions C41_found.
Print Assumptions C41_unknown_type.
Print Assumptions C41_undecodable.
Print Assumptions C41_goes_on.
Print Assumptions C41_registered_found.
Print Assumptions C41_right_actor_partial.
Print Assumptions C41_direct.

(** Three messages in the reverse order. *)
Example C26_reversed : exists w,
  wrun handler1 N decode1 new_world (WStart 0 9 5 :: (WArrive 0 1 9 <$> [[1]; [2]; [3]]%N) ++ deliver_in [2; 1; 0]) = Some w /\
  w_mail N w = [(0, 2, 3%N); (0, 1, 2%N); (0, 0, 1%N)].
Proof. eexists. split; [vm_compute; reflexivity|]. done. Qed.
(** Messages that wait for one another; the second one is for an actor that starts late, another
    one fails. *)
Definition run41 : list wop :=
  [WStart 0 9 5; WArrive 0 1 9 [1]; WTry 0; WSend 0; WReply 0 (Some [7]);
   WArrive 0 1 8 [2]; WTry 1; WTry 1; WStart 0 8 5; WTry 1; WSend 1; WReply 1 None;
   WArrive 0 1 9 [1; 1]; WTry 2; WSend 2; WArrive 0 2 9 [1];
   WArrive 0 1 6 [1]]%N ++ replicate 9 (WTry 4).
Fixpoint one_by_oneb (w : world N) (l : list wop) : bool :=
  match l with
  | [] => true
  | o :: l' => (negb (is_arrival o) || forallb over (w_tasks N w)) &&
               match wstep handler1 N decode1 w o with Some w' => one_by_oneb w' l' | None => true end
  end.
Lemma one_by_oneb_true l : forall w, one_by_oneb w l = true -> one_by_one handler1 decode1 w l.
Proof.
  induction l as [|o l IH]; intros w H; [done|]. cbn [one_by_oneb] in H. apply andb_true_iff in H as [H1 H2]. split.
  - intros Ha n k Hk. rewrite Ha in H1. simpl in H1. rewrite forallb_forall in H1. apply H1. apply elem_of_list_In. by eapply elem_of_list_lookup_2.
  - destruct (wstep handler1 N decode1 w o); [by apply IH|done].
Qed.
Example C26_one_by_one_case : one_by_one handler1 decode1 new_world run41.
Proof. apply one_by_oneb_true. vm_compute. done. Qed.
Example C41_case :
  match wrun handler1 N decode1 new_world run41 with
  | Some w => w_mail N w = [(0, 0, 1%N); (1, 1, 2%N)] /\
      k_state <$> w_tasks N w = [Finished (DOk [7%N]); Finished (DErr DSerialisation); Finished (DErr DDeserialisation); Finished (DErr DNotSupported); Finished (DErr DNotFound)] /\
      lookups w 1 = [None; None; Some 1] /\ lookups w 4 = replicate 9 None
  | None => False
  end.
Proof. vm_compute. done. Qed.

(** Two systems in one process: a message for the actor of the second one goes to the actor of
    the first one, which has the same id and was the first to get a message. *)
Definition run41b : list wop := [WStart 0 9 5; WStart 1 9 5; WArrive 0 1 9 [1]; WTry 0; WArrive 1 1 9 [2]; WTry 1; WSend 1]%N.
Theorem C41_other_system_refuted : exists w k i,
  wrun handler1 N decode1 new_world run41b = Some w /\ w_tasks N w !! 1 = Some k /\ deliveries w 1 = [(0, 2%N)] /\
  w_insts N w !! 0 = Some i /\ k_sys k = 1%N /\ i_sys i = 0%N /\ w_tracked N w !! (1, 9)%N = Some 1.
Proof. eexists _, _, _. split; [vm_compute; reflexivity|]. vm_compute. done. Qed.
Print Assumptions C41_other_system_refuted.

(** An actor that has stopped and is still registered: the message is neither handled nor retried,
    though the actor is there again before the retries would have ended. *)
Definition run41c : list wop := [WStart 0 9 5; WClose 0; WArrive 0 1 9 [1]; WTry 0; WForget 0 9; WStart 0 9 5; WSend 0]%N.
Theorem C41_stopped_refuted : exists w k,
  wrun handler1 N decode1 new_world run41c = Some w /\ w_tasks N w !! 0 = Some k /\ finished k = Some (DErr DClosed) /\ deliveries w 0 = [] /\
  lookups w 0 = [Some 0] /\ w_tracked N w !! (0, 9)%N = Some 1 /\ bool_decide (1 ∈ w_open N w) = true.
Proof.
  eexists _, _. split; [vm_compute; reflexivity|]. vm_compute. done.
Qed.
Print Assumptions C41_stopped_refuted.
