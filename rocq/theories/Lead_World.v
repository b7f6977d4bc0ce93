(** Proofs about leader election in time: what holds of the nodes together. *)
From Verif Require Import Nodes_Model Nodes_Spec Nodes_Proofs Heart_Model Heart_Spec Heart_Proofs Lead_Model Lead_Spec Lead_Proofs.

Local Arguments Heart_Model.hstep : simpl never.

Section world.
Variable min_date max_date max_duration : Z.
Variable cf : hconfig.
Variable rhash : N -> string -> string -> option Z -> N.
Variable search : list N -> N -> nat.
Variable ping_timeout : Z.
Variable skew : N -> Z.
Notation hstep := (hstep min_date max_date max_duration cf (C := unit) rhash search).
Notation lstep := (lstep min_date max_date max_duration cf rhash search ping_timeout skew).
Notation lrun := (lrun min_date max_date max_duration cf rhash search ping_timeout skew).
Notation clock := (clock skew).
Implicit Types (h : heart unit) (w : world).

Record wgood w : Prop := {
  wg_started : forall i r, l_started w !! i = Some r -> r_id r = i;
  wg_live : forall i, i ∈ l_live w -> is_Some (l_started w !! i);
  wg_heart : forall i h, l_hearts w !! i = Some h -> hgood (l_started w) (clock w i) h;
  wg_heart_mail : forall i h j lat rec t, l_hearts w !! i = Some h -> h_pings h !! j = Some (POk lat rec) ->
    t ∈ mail w i -> (rec <= t_at t + skew i)%Z;
  wg_beaten : forall i h, l_hearts w !! i = Some h -> is_Some (l_ticked w !! i) -> h_beaten h = true;
  wg_ticked : forall i t, l_ticked w !! i = Some t -> is_Some (l_started w !! i) /\ (t <= l_now w)%Z;
  wg_sorted : forall i, StronglySorted (fun a b => (t_at a <= t_at b)%Z) (mail w i);
  wg_mail : forall i t, t ∈ mail w i -> (t_at t <= l_now w)%Z /\
    forall lat rec, t_what t = Some (POk lat rec) -> rec = (t_at t + skew i)%Z;
  wg_calls : forall k, k ∈ l_calls w -> (k_start k <= l_now w)%Z /\
    forall r, k_state k = Done r -> (k_start k <= r <= l_now w)%Z
}.

Lemma wgood_start t : wgood (start_world t).
Proof.
  split; simpl.
  - intros i r. by rewrite lookup_empty.
  - intros i. set_solver.
  - intros i h. by rewrite lookup_empty.
  - intros i h j lat rec n. by rewrite lookup_empty.
  - intros i h. by rewrite lookup_empty.
  - intros i n. by rewrite lookup_empty.
  - intros i. unfold mail. simpl. rewrite lookup_empty. constructor.
  - intros i n. unfold mail. simpl. rewrite lookup_empty. by intros ?%elem_of_nil.
  - by intros k ?%elem_of_nil.
Qed.

Lemma mail_set w i m j : mail (set_mail w i m) j = if decide (i = j) then m else mail w j.
Proof. unfold mail, set_mail. simpl. case_decide; subst; [by rewrite lookup_insert|by rewrite lookup_insert_ne]. Qed.
Lemma hearts_set w i (h : option (heart unit)) j : l_hearts (set_heart w i h) !! j = if decide (i = j) then h else l_hearts w !! j.
Proof. unfold set_heart. simpl. case_decide; subst; [by rewrite lookup_partial_alter|by rewrite lookup_partial_alter_ne]. Qed.

Lemma wgood_set_heart w i h o : wgood w -> l_hearts w !! i = Some h -> opok (l_started w) (clock w i) o ->
  (forall j lat rec, o = HPing j (POk lat rec) -> forall t, t ∈ mail w i -> (rec <= t_at t + skew i)%Z) ->
  wgood (set_heart w i (hstep i h o)).
Proof.
  intros [H1 H2 H3 H4 H5 H6 H7 H8 H9] Hh Ho Hm. split; try done.
  - intros j h'. rewrite hearts_set. case_decide; subst; [|apply H3]. intros Hs. eapply hgood_step; [|done..]. by apply H3.
  - intros j h' n lat rec t. rewrite hearts_set. case_decide; subst; [|by eapply H4]. intros Hs.
    rewrite (pings_step _ _ _ _ _ _ _ _ _ _ _ Hs). change (mail (set_heart w j (hstep j h o)) j) with (mail w j).
    destruct o as [m p|ord c mid|m ord c mid|c|d]; try (by eapply H4); case_decide; try (by eapply H4); [|done].
    intros [= ->]. by eapply Hm.
  - intros j h'. rewrite hearts_set. case_decide; subst; [|apply H5]. intros Hs Ht.
    eapply beaten_step; [done|]. left. by eapply H5.
Qed.
Lemma wgood_pop w i t rest : wgood w -> mail w i = t :: rest -> wgood (set_mail w i rest).
Proof.
  intros [H1 H2 H3 H4 H5 H6 H7 H8 H9] Hm. split; try done.
  - intros j h n lat rec t'. rewrite mail_set. case_decide; subst; [|by eapply H4]. intros Hh Hp Ht. eapply H4; [done..|].
    rewrite Hm. by right.
  - intros j. rewrite mail_set. case_decide; subst; [|done]. specialize (H7 j). rewrite Hm in H7. by inversion H7.
  - intros j t'. rewrite mail_set. case_decide; subst; [|apply H8]. intros Ht. apply H8. rewrite Hm. by right.
Qed.
Lemma wgood_did_tick w i : wgood w -> is_Some (l_started w !! i) ->
  (forall h, l_hearts w !! i = Some h -> h_beaten h = true) -> wgood (did_tick w i).
Proof.
  intros [H1 H2 H3 H4 H5 H6 H7 H8 H9] Hs Hb. split; try done.
  - intros j h Hh. simpl. destruct (decide (i = j)) as [->|]; [by auto|]. rewrite lookup_insert_ne by done. by apply H5.
  - intros j t. simpl. destruct (decide (i = j)) as [->|].
    + rewrite lookup_insert. intros [= <-]. split; [done|lia].
    + rewrite lookup_insert_ne by done. apply H6.
Qed.
Lemma sorted_snoc (l : list note) t : StronglySorted (fun a b => (t_at a <= t_at b)%Z) l -> (forall a, a ∈ l -> (t_at a <= t_at t)%Z) ->
  StronglySorted (fun a b => (t_at a <= t_at b)%Z) (l ++ [t]).
Proof.
  induction 1 as [|a l Hs IH Ha]; intros Hl; simpl; [by repeat constructor|]. constructor.
  - apply IH. intros b Hb. apply Hl. by right.
  - apply Forall_app. split; [done|]. constructor; [|constructor]. apply Hl. by left.
Qed.
Lemma wgood_tell w i t : wgood w -> t_at t = l_now w ->
  (forall lat rec, t_what t = Some (POk lat rec) -> rec = (t_at t + skew i)%Z) -> wgood (tell w i t).
Proof.
  intros [H1 H2 H3 H4 H5 H6 H7 H8 H9] Hat Hw. unfold tell. split; try done.
  - intros j h n lat rec t'. rewrite mail_set. case_decide; subst; [|by eapply H4]. intros Hh Hp.
    intros [Ht|Ht%elem_of_list_singleton]%elem_of_app; [by eapply H4|]. subst t'.
    specialize (hg_ping _ _ _ (H3 _ _ Hh) _ _ _ Hp). unfold Lead_Model.clock. simpl. lia.
  - intros j. rewrite mail_set. case_decide; subst; [|done]. apply sorted_snoc; [done|].
    intros a Ha. destruct (H8 _ _ Ha). lia.
  - intros j t'. rewrite mail_set. case_decide; subst; [|apply H8].
    intros [Ht|Ht%elem_of_list_singleton]%elem_of_app; [by apply H8|]. subst t'. simpl. split; [lia|done].
Qed.
Lemma wgood_set_call w n k s : wgood w -> l_calls w !! n = Some k -> (forall r, s = Done r -> r = l_now w) ->
  wgood (set_call w n (set_state k s)).
Proof.
  intros [H1 H2 H3 H4 H5 H6 H7 H8 H9] Hk Hs. split; try done.
  simpl. intros k' [m Hm]%elem_of_list_lookup. apply list_lookup_insert_Some in Hm as [(-> & <- & _)|[_ Hm]].
  - simpl. destruct (H9 k) as [Ha _]; [by eapply elem_of_list_lookup_2|]. split; [done|]. intros r ->.
    rewrite (Hs r eq_refl). lia.
  - apply H9. by eapply elem_of_list_lookup_2.
Qed.

Lemma learns_ok w mid : wgood w -> Forall (addof (l_started w)) (learns w mid).
Proof.
  intros Hw. apply Forall_forall. unfold learns. intros d ([ord j] & Hin & Hd)%elem_of_list_omap.
  destruct (l_started w !! j) as [r|] eqn:E; [|done]. injection Hd as <-. exists ord, r. split; [done|].
  by rewrite (wg_started _ Hw _ _ E).
Qed.

(** The message that is handled, as a step of the heartbeat. *)
Definition handles w (i : N) (t : note) (ord : list N) (mid : list (list N * N)) : hop unit :=
  match t_what t with
  | Some p => HPing (t_about t) p
  | None => HTerminated (t_about t) ord (fun _ => clock w i) (learns w mid)
  end.
Lemma deliver_inv w i ord mid w' : lstep w (LDeliver i ord mid) = Some w' ->
  exists h t rest, i ∈ l_live w /\ l_hearts w !! i = Some h /\ mail w i = t :: rest /\
    let w1 := set_heart (set_mail w i rest) i (hstep i h (handles w i t ord mid)) in
    w' = match t_what t with Some _ => w1 | None => did_tick w1 i end.
Proof.
  simpl. case_decide as Hl; [|done]. destruct (l_hearts w !! i) as [h|] eqn:Eh; [|done]. simpl.
  destruct (mail w i) as [|[ta tb [p|]] rest] eqn:Em; [done|..]; intros [= <-]; by eexists _, _, _.
Qed.
Lemma handles_ok w i t ord mid : wgood w -> t ∈ mail w i -> opok (l_started w) (clock w i) (handles w i t ord mid).
Proof.
  intros Hw Ht. destruct (wg_mail _ Hw _ _ Ht) as [Ha Hb]. unfold handles. destruct (t_what t) as [[lat rec| | |]|]; simpl; try done.
  - rewrite (Hb _ _ eq_refl). unfold Lead_Model.clock. lia.
  - split; [done|by apply learns_ok].
Qed.

Lemma wgood_step w o w' : wgood w -> lstep w o = Some w' -> wgood w'.
Proof.
  intros Hw Hs. pose proof Hw as [H1 H2 H3 H4 H5 H6 H7 H8 H9]. destruct o as [d|i r|i|i j ord|i j|n|n|n|i j|i j|i ord mid|i ord mid].
  - apply (inj Some) in Hs; subst w'. split; simpl; try done.
    + intros i h Hh. refine (hgood_mono _ _ _ _ h _ _ (H3 _ _ Hh)); [done|]. unfold Lead_Model.clock. simpl. lia.
    + intros i t Ht. destruct (H6 _ _ Ht). split; [done|lia].
    + intros i t Ht. destruct (H8 _ _ Ht). split; [lia|done].
    + intros k Hk. destruct (H9 _ Hk) as [Ha Hb]. split; [lia|]. intros r Hr. specialize (Hb _ Hr). lia.
  - simpl in Hs. case_decide as Hd; [|done]. destruct Hd as [Hi Hr].
    set (h0 := hstep i (new_heart rhash i false) (HRegistry (DAdd [] r))) in Hs. unfold Heart_Model.hstep in h0.
    simpl in Hs. apply (inj Some) in Hs; subst w' h0.
    assert (Hsub : l_started w ⊆ <[i:=r]> (l_started w)) by by apply insert_subseteq.
    split; simpl; try done.
    + intros j r'. rewrite lookup_insert_Some. intros [[<- <-]|[_ Hj]]; [done|by apply H1].
    + intros j. rewrite elem_of_union, elem_of_singleton. rewrite lookup_insert_is_Some. intros [Hj| ->]; [|by left].
      destruct (decide (i = j)); [by left|]. right. auto.
    + intros j h. rewrite lookup_insert_Some. intros [[<- <-]|[_ Hj]].
      * eapply (hgood_step min_date max_date max_duration cf rhash search _ _ i (new_heart rhash i false) (HRegistry (DAdd [] r)));
          [apply new_good| |reflexivity]. exists [], r. split; [done|]. rewrite Hr. by rewrite lookup_insert.
      * refine (hgood_mono _ _ _ _ h Hsub _ (H3 _ _ Hj)). reflexivity.
    + intros j h n lat rec t. rewrite lookup_insert_Some. intros [[<- <-]|[_ Hj]]; [|by eapply H4].
      simpl. by rewrite lookup_empty.
    + intros j h. rewrite lookup_insert_Some. intros [[<- <-]|[_ Hj]]; [|by apply H5]. intros [t Ht].
      destruct (H6 _ _ Ht) as [[? ?] _]. congruence.
    + intros j t Ht. destruct (H6 _ _ Ht). split; [|done]. apply lookup_insert_is_Some.
      destruct (decide (i = j)); [by left|by right].
  - simpl in Hs. case_decide; [|done]. apply (inj Some) in Hs; subst w'. split; simpl; try done.
    intros j. set_solver.
  - simpl in Hs. case_decide; [|done]. destruct (l_hearts w !! i) as [h|] eqn:Eh; [|done]. simpl in Hs.
    destruct (l_started w !! j) as [r|] eqn:Er; [|done]. cbn -[Heart_Model.hstep] in Hs. apply (inj Some) in Hs; subst w'.
    apply wgood_set_heart; [done|done| |done]. exists ord, r. split; [done|]. by rewrite (H1 _ _ Er).
  - simpl in Hs. case_decide; [|done]. apply (inj Some) in Hs; subst w'. split; simpl; try done.
    intros k [Hk|Hk%elem_of_list_singleton]%elem_of_app; [by apply H9|]. subst k. simpl. split; [lia|done].
  - simpl in Hs. destruct (l_calls w !! n) as [k|] eqn:Ek; [|done]. simpl in Hs. destruct (k_state k) eqn:Es; try done.
    case_decide; [|done]. apply (inj Some) in Hs; subst w'. by apply wgood_set_call.
  - simpl in Hs. destruct (l_calls w !! n) as [k|] eqn:Ek; [|done]. simpl in Hs. destruct (k_state k) eqn:Es; try done.
    case_decide; [|done]. apply (inj Some) in Hs; subst w'. apply wgood_tell; [|done|].
    + apply wgood_set_call; [done..|]. by intros r [= <-].
    + simpl. by intros lat rec [= _ <-].
  - simpl in Hs. destruct (l_calls w !! n) as [k|] eqn:Ek; [|done]. simpl in Hs.
    destruct (k_state k) eqn:Es; try done; (case_decide; [|done]); apply (inj Some) in Hs; subst w'.
    all: apply wgood_tell; [|done|done]; apply wgood_set_call; [done..|]; by intros r [= <-].
  - simpl in Hs. case_decide; [|done]. apply (inj Some) in Hs; subst w'. by apply wgood_tell.
  - simpl in Hs. case_decide; [|done]. apply (inj Some) in Hs; subst w'. by apply wgood_tell.
  - apply deliver_inv in Hs as (h & t & rest & Hl & Hh & Hm & Hw').
    assert (Hin : t ∈ mail w i) by (rewrite Hm; by left).
    assert (Hg : wgood (set_heart (set_mail w i rest) i (hstep i h (handles w i t ord mid)))).
    { apply wgood_set_heart; [by eapply wgood_pop|done|exact (handles_ok w i t ord mid Hw Hin)|].
      intros j lat rec Ho t'. rewrite mail_set, decide_True by done. intros Ht'.
      unfold handles in Ho. destruct (t_what t) as [p|] eqn:Et; [|done]. injection Ho as _ ->.
      destruct (H8 _ _ Hin) as [_ Hr]. rewrite (Hr _ _ Et). specialize (H7 i). rewrite Hm in H7. inversion H7 as [|? ? _ HF]; subst.
      rewrite Forall_forall in HF. specialize (HF _ Ht'). simpl in HF. lia. }
    simpl in Hw'. destruct (t_what t) as [p|] eqn:Et; subst w'; [done|].
    apply wgood_did_tick; [done|by apply H2|]. intros h'. rewrite hearts_set, decide_True by done. intros Hs.
    eapply beaten_step; [exact Hs|]. right. unfold handles. rewrite Et. by eexists.
  - simpl in Hs. case_decide; [|done]. destruct (l_hearts w !! i) as [h|] eqn:Eh; [|done]. cbn [mbind option_bind] in Hs.
    apply (inj Some) in Hs; subst w'. apply wgood_did_tick; [|by apply H2|].
    + apply (wgood_set_heart w i h (HTick ord (fun _ => clock w i) (learns w mid))); [done|done| |done].
      split; [done|by apply learns_ok].
    + intros h'. rewrite hearts_set, decide_True by done. intros Hs.
      refine (beaten_step _ _ _ _ _ _ i h (HTick ord (fun _ => clock w i) (learns w mid)) h' Hs _). right. by eexists.
Qed.
Lemma wgood_run w l w' : wgood w -> lrun w l = Some w' -> wgood w'.
Proof.
  revert w. induction l as [|o l IH]; intros w Hw Hr; [by injection Hr as <-|].
  cbn [Lead_Model.lrun] in Hr. destruct (lstep w o) as [w1|] eqn:E; [|done]. eapply IH; [|done]. by eapply wgood_step.
Qed.

(** Time does not go back. *)
Lemma now_step w o w' : lstep w o = Some w' -> (l_now w <= l_now w')%Z.
Proof.
  destruct o; cbn -[Heart_Model.hstep]; intros H; repeat (case_match; try done); simplify_option_eq; simpl; try lia;
    repeat (case_match; simplify_eq; simpl); try lia.
Qed.

(** No heartbeat panics as long as dates do not overflow. *)
Definition fits w (i : N) : Prop :=
  (Z.of_N (cf_terminated cf) <= max_duration)%Z /\ (clock w i + Z.of_N (cf_terminated cf) <= max_date)%Z.
Lemma fits_back w o w' i : lstep w o = Some w' -> fits w' i -> fits w i.
Proof.
  intros Hs [H1 H2]. split; [done|]. pose proof (now_step _ _ _ Hs). unfold Lead_Model.clock in *. lia.
Qed.

(** What a step does to a heartbeat. *)
Definition hears w (i : N) (o : lop) (ho : hop unit) : Prop :=
  match o with
  | LLearn j k ord => j = i /\ exists r, l_started w !! k = Some r /\ ho = HRegistry (DAdd ord r)
  | LDeliver j ord mid => j = i /\ exists t rest, mail w i = t :: rest /\ ho = handles w i t ord mid
  | LTick j ord mid => j = i /\ ho = HTick ord (fun _ => clock w i) (learns w mid)
  | _ => False
  end.
Lemma hears_ok w i o ho : wgood w -> hears w i o ho -> opok (l_started w) (clock w i) ho.
Proof.
  intros Hw. destruct o as [d|j r|j|j k ord|j k|n|n|n|j k|j k|j ord mid|j ord mid]; try done; simpl.
  - intros (-> & r & Hr & ->). exists ord, r. split; [done|]. by rewrite (wg_started _ Hw _ _ Hr).
  - intros (-> & t & rest & Hm & ->). apply handles_ok; [done|]. rewrite Hm. by left.
  - intros (-> & ->). split; [done|by apply learns_ok].
Qed.
Lemma heart_step w o w' i : lstep w o = Some w' ->
  ((forall r, o <> LStart i r) /\ l_hearts w' !! i = l_hearts w !! i /\ l_ticked w' !! i = l_ticked w !! i) \/
  (exists h ho, l_hearts w !! i = Some h /\ hears w i o ho /\ i ∈ l_live w /\ l_hearts w' !! i = hstep i h ho /\
     l_ticked w' !! i = match beats ho with Some _ => Some (l_now w) | None => l_ticked w !! i end) \/
  (exists r, o = LStart i r /\ l_started w !! i = None /\ l_hearts w' !! i = hstep i (new_heart rhash i false) (HRegistry (DAdd [] r))).
Proof.
  intros Hs. destruct o as [d|j r|j|j k ord|j k|n|n|n|j k|j k|j ord mid|j ord mid].
  - left. split; [done|]. apply (inj Some) in Hs; by subst w'.
  - simpl in Hs. case_decide as Hd; [|done]. destruct Hd as [Hi Hr].
    destruct (decide (j = i)) as [->|Hne].
    + right; right. exists r. split_and!; try done. unfold Heart_Model.hstep in *. apply (inj Some) in Hs; subst w'. simpl.
      by rewrite lookup_insert.
    + left. split; [by intros r' [= ? _]|]. unfold Heart_Model.hstep in *. apply (inj Some) in Hs; subst w'. simpl.
      by rewrite lookup_insert_ne.
  - left. split; [done|]. simpl in Hs. case_decide; [|done]. apply (inj Some) in Hs; by subst w'.
  - simpl in Hs. case_decide; [|done]. destruct (l_hearts w !! j) as [h|] eqn:Eh; [|done]. simpl in Hs.
    destruct (l_started w !! k) as [r|] eqn:Er; [|done]. simpl in Hs. apply (inj Some) in Hs; subst w'.
    rewrite hearts_set. case_decide; [|left; by split]. subst j. right; left. exists h, (HRegistry (DAdd ord r)).
    split_and!; try done. split; [done|]. by exists r.
  - left. split; [done|]. simpl in Hs. case_decide; [|done]. apply (inj Some) in Hs; by subst w'.
  - left. split; [done|]. simpl in Hs. repeat (case_match || simplify_option_eq); done.
  - left. split; [done|]. simpl in Hs. repeat (case_match || simplify_option_eq); done.
  - left. split; [done|]. simpl in Hs. repeat (case_match || simplify_option_eq); done.
  - left. split; [done|]. simpl in Hs. repeat (case_match || simplify_option_eq); done.
  - left. split; [done|]. simpl in Hs. repeat (case_match || simplify_option_eq); done.
  - apply deliver_inv in Hs as (h & t & rest & Hl & Hh & Hm & Hw').
    destruct (decide (j = i)) as [->|Hne].
    + right; left. exists h, (handles w i t ord mid). split_and!; try done.
      * split; [done|]. by exists t, rest.
      * simpl in Hw'. destruct (t_what t); subst w'; simpl; by rewrite lookup_partial_alter.
      * unfold handles in *. simpl in Hw'. destruct (t_what t); subst w'; simpl; by rewrite ?lookup_insert.
    + left. split; [done|]. simpl in Hw'. destruct (t_what t); subst w'; simpl;
        rewrite lookup_partial_alter_ne by done; by rewrite ?lookup_insert_ne.
  - simpl in Hs. case_decide; [|done]. destruct (l_hearts w !! j) as [h|] eqn:Eh; [|done]. simpl in Hs.
    apply (inj Some) in Hs; subst w'. simpl. destruct (decide (j = i)) as [->|Hne].
    + right; left. exists h, (HTick ord (fun _ => clock w i) (learns w mid)). rewrite lookup_partial_alter, lookup_insert. split_and!; try done.
    + left. split; [done|]. by rewrite lookup_partial_alter_ne, lookup_insert_ne.
Qed.
Lemma live_step w o w' i : lstep w o = Some w' -> i ∈ l_live w' -> i ∈ l_live w \/ exists r, o = LStart i r.
Proof.
  intros Hs. destruct o; simpl in Hs; repeat (case_match || simplify_option_eq); simpl; try (by left);
    rewrite ?elem_of_union, ?elem_of_difference, ?elem_of_singleton; try naive_solver.
Qed.

Lemma beating_step w o w' i : wgood w -> lstep w o = Some w' -> fits w' i ->
  (i ∈ l_live w -> is_Some (l_hearts w !! i)) -> i ∈ l_live w' -> is_Some (l_hearts w' !! i).
Proof.
  intros Hw Hs Hf HB Hl. pose proof (fits_back _ _ _ _ Hs Hf) as [Hf1 Hf2].
  destruct (heart_step _ _ _ i Hs) as [(Hn & -> & _)|[(h & ho & Hh & Hho & _ & -> & _)|(r & -> & _ & ->)]].
  - destruct (live_step _ _ _ _ Hs Hl) as [?|[r ->]]; [by auto|]. by destruct (Hn r).
  - eapply hstep_some; [by eapply wg_heart|by eapply hears_ok|done|done].
  - by eexists.
Qed.
Lemma beating_run w l w' i : wgood w -> lrun w l = Some w' -> fits w' i ->
  (i ∈ l_live w -> is_Some (l_hearts w !! i)) -> i ∈ l_live w' -> is_Some (l_hearts w' !! i).
Proof.
  revert w. induction l as [|o l IH]; intros w Hw Hr Hf HB Hl; [injection Hr as <-; auto|].
  cbn [Lead_Model.lrun] in Hr. destruct (lstep w o) as [w1|] eqn:E; [|done]. simpl in Hr.
  refine (IH w1 (wgood_step _ _ _ Hw E) Hr Hf _ Hl). intros Hl1. refine (beating_step w o w1 i Hw E _ HB Hl1).
  revert Hr Hf. clear. revert w1. induction l as [|o l IH]; intros w1 Hr Hf; [by injection Hr as <-|].
  cbn [Lead_Model.lrun] in Hr. destruct (lstep w1 o) as [w2|] eqn:E; [|done]. refine (fits_back _ _ _ _ E _). by eapply IH.
Qed.
End world.
