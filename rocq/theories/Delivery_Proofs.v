(** Proofs about the delivery of remote messages. *)
From Verif Require Import Delivery_Model Delivery_Spec.

Local Arguments Nat.leb : simpl never.
Local Opaque Nat.leb.
Section proofs.
Variable handler : N -> option N.
Variable M : Type.
Variable decode : N -> bytes -> option M.
Notation world := (world M).
Notation wstep := (wstep handler M decode).
Notation wrun := (wrun handler M decode).
Notation w_tasks := (w_tasks M). Notation w_mail := (w_mail M). Notation w_seen := (w_seen M).
Notation w_insts := (w_insts M). Notation w_open := (w_open M). Notation w_tracked := (w_tracked M). Notation w_cache := (w_cache M).
Implicit Types (w : world).

Lemma wrun_app w l1 l2 : wrun w (l1 ++ l2) = w' ← wrun w l1; wrun w' l2.
Proof. revert w. induction l1 as [|o l1 IH]; intros w; [done|]. simpl. destruct (wstep w o); simpl; [apply IH|done]. Qed.
Lemma wrun_snoc w l o w' : wrun w (l ++ [o]) = Some w' -> exists w1, wrun w l = Some w1 /\ wstep w1 o = Some w'.
Proof.
  rewrite wrun_app. destruct (wrun w l) as [w1|]; simpl; [|done]. destruct (wstep w1 o) eqn:E; simpl; [|done]. intros [= <-]. eauto.
Qed.
Lemma wrun_ind (P : world -> Prop) : (forall w o w', P w -> wstep w o = Some w' -> P w') ->
  forall l w w', P w -> wrun w l = Some w' -> P w'.
Proof.
  intros HS l. induction l as [|o l IH]; intros w w' HP Hr; simpl in Hr; [by injection Hr as <-|].
  destruct (wstep w o) as [w1|] eqn:E; simpl in Hr; [|done]. eapply IH; [|done]. by eapply HS.
Qed.

(** ** What is known of a task in each state *)
Definition found_at (s : list (option nat)) (a : nat) : Prop := exists j, (j <= 8)%nat /\ s = replicate j None ++ [Some a].
Definition tinv (k : task) (s : list (option nat)) (d : list (nat * M)) : Prop :=
  match k_state k with
  | Trying a => handler (k_ident k) <> None /\ (1 <= a <= 9)%nat /\ s = replicate (a - 1) None /\ d = []
  | Found a => handler (k_ident k) <> None /\ found_at s a /\ d = []
  | Sent a => handler (k_ident k) <> None /\ found_at s a /\ exists m, decode (k_ident k) (k_body k) = Some m /\ d = [(a, m)]
  | Finished r =>
      match r with
      | DErr DNotSupported => handler (k_ident k) = None /\ s = [] /\ d = []
      | DErr DNotFound => handler (k_ident k) <> None /\ s = replicate 9 None /\ d = []
      | DErr DDeserialisation => handler (k_ident k) <> None /\ decode (k_ident k) (k_body k) = None /\ (exists a, found_at s a) /\ d = []
      | DErr DClosed => handler (k_ident k) <> None /\ exists a m, found_at s a /\ decode (k_ident k) (k_body k) = Some m /\ (d = [] \/ d = [(a, m)])
      | DErr DInvalidRef => False
      | DErr DSerialisation | DOk _ =>
          handler (k_ident k) <> None /\ exists a m, found_at s a /\ decode (k_ident k) (k_body k) = Some m /\ d = [(a, m)]
      end
  end.
Definition winv (w : world) : Prop :=
  (forall n k, w_tasks w !! n = Some k -> tinv k (lookups w n) (deliveries w n)) /\
  (forall n x, (n, x) ∈ w_seen w -> (n < length (w_tasks w))%nat) /\
  (forall a n m, (a, n, m) ∈ w_mail w -> (n < length (w_tasks w))%nat).

Lemma lookups_snoc (w w' : world) n n' x : w_seen w' = w_seen w ++ [(n', x)] ->
  lookups w' n = lookups w n ++ (if (n' =? n)%nat then [x] else []).
Proof. intros E. unfold lookups. rewrite E, List.filter_app, fmap_app. simpl. by destruct (n' =? n)%nat. Qed.
Lemma deliveries_snoc (w w' : world) n a n' m : w_mail w' = w_mail w ++ [(a, n', m)] ->
  deliveries w' n = deliveries w n ++ (if (n' =? n)%nat then [(a, m)] else []).
Proof. intros E. unfold deliveries. rewrite E, List.filter_app, fmap_app. simpl. by destruct (n' =? n)%nat. Qed.
Lemma lookups_none (w : world) n : (forall x, (n, x) ∉ w_seen w) -> lookups w n = [].
Proof.
  unfold lookups. generalize (w_seen w). intros l H. induction l as [|[n' x] l IH]; [done|]. simpl.
  destruct (Nat.eqb_spec n' n) as [->|]; [|apply IH; intros y ?; apply (H y); by right]. exfalso. apply (H x). left.
Qed.
Lemma deliveries_none (w : world) n : (forall a m, (a, n, m) ∉ w_mail w) -> deliveries w n = [].
Proof.
  unfold deliveries. generalize (w_mail w). intros l H. induction l as [|[[a n'] m] l IH]; [done|]. simpl.
  destruct (Nat.eqb_spec n' n) as [->|]; [|apply IH; intros b y ?; apply (H b y); by right]. exfalso. apply (H a m). left.
Qed.

Lemma winv_set w w' n k s : winv w -> w_tasks w !! n = Some k -> w_tasks w' = set_task M w n k s ->
  (forall n', n' <> n -> lookups w' n' = lookups w n' /\ deliveries w' n' = deliveries w n') ->
  tinv (Task (k_sys k) (k_ident k) (k_id k) (k_body k) s) (lookups w' n) (deliveries w' n) ->
  (forall n' x, (n', x) ∈ w_seen w' -> (n', x) ∈ w_seen w \/ n' = n) ->
  (forall a n' m, (a, n', m) ∈ w_mail w' -> (a, n', m) ∈ w_mail w \/ n' = n) -> winv w'.
Proof.
  intros (I1 & I2 & I3) Hk Ht Hf Hn Hs Hm.
  assert (Hl : length (w_tasks w') = length (w_tasks w)) by (rewrite Ht; apply insert_length).
  pose proof (lookup_lt_Some _ _ _ Hk) as Hlt. split_and!.
  - intros n' k'. rewrite Ht. unfold set_task. intros [(<- & <- & _)|[Hne Hk']]%list_lookup_insert_Some; [done|].
    destruct (Hf n') as [-> ->]; [done|]. by apply I1.
  - intros n' x [Hx| ->]%Hs; rewrite Hl; eauto.
  - intros a n' m [Hx| ->]%Hm; rewrite Hl; eauto.
Qed.
Lemma winv_step w o w' : winv w -> wstep w o = Some w' -> winv w'.
Proof.
  intros HI H. pose proof HI as (I1 & I2 & I3). destruct o as [sys id ty|a|sys id|sys ident id b|n|n|n r|n]; cbn [Delivery_Model.wstep] in H.
  - injection H as <-. done.
  - injection H as <-. done.
  - injection H as <-. done.
  - injection H as <-. split_and!; cbn [Delivery_Model.w_tasks Delivery_Model.w_seen Delivery_Model.w_mail].
    + intros n k. rewrite lookup_app_Some. intros [Hk|[Hn Hk]].
      * apply (I1 _ _ Hk).
      * apply list_lookup_singleton_Some in Hk as [Hk <-]. assert (n = length (w_tasks w)) as -> by lia.
        match goal with |- tinv _ (lookups ?x ?y) _ => assert (E1 : lookups x y = []); [apply lookups_none; intros z Hz; apply I2 in Hz; lia|];
          assert (E2 : deliveries x y = []); [apply deliveries_none; intros c z Hz; apply I3 in Hz; lia|]; rewrite E1, E2 end.
        unfold tinv. simpl. destruct (handler ident) eqn:Eh; simpl; [|done]. split_and!; [done|lia|lia|done|done].
    + intros n x Hx%I2. rewrite app_length. lia.
    + intros a n m Hx%I3. rewrite app_length. lia.
  - destruct (w_tasks w !! n) as [k|] eqn:Ek; [|done]. destruct (k_state k) as [a| | |] eqn:Es; try done.
    destruct (handler (k_ident k)) as [ty|] eqn:Eh; [|done]. destruct (get_actor_ref M w (k_sys k) ty (k_id k)) as [found cache].
    injection H as <-. pose proof (I1 _ _ Ek) as HT. unfold tinv in HT. rewrite Es in HT. destruct HT as (_ & Ha & HL & HD).
    eapply winv_set; [done|done|done| | | |by auto].
    + intros n' Hne. split; [|done]. erewrite (lookups_snoc w); [|done]. rewrite (proj2 (Nat.eqb_neq n n')) by done. by rewrite app_nil_r.
    + match goal with |- tinv _ (lookups ?x n) (deliveries ?x n) => assert (E1 : lookups x n = lookups w n ++ [found]);
        [erewrite (lookups_snoc w); [|done]; by rewrite Nat.eqb_refl|]; change (deliveries x n) with (deliveries w n) end.
      rewrite E1, HL, HD. unfold tinv. cbn [k_state k_ident]. destruct found as [f|].
      * rewrite Eh. split_and!; [done| |done]. exists (a - 1)%nat. split; [lia|done].
      * destruct (Nat.leb_spec max_retries (S a)) as [Hm|Hm]; unfold max_retries in Hm.
        -- rewrite Eh. split_and!; [done| |done]. assert (a = 9)%nat as -> by lia. done.
        -- rewrite Eh. split_and!; [done|lia|lia| |done]. replace (S a - 1)%nat with (a - 1 + 1)%nat by lia. by rewrite replicate_add.
    + intros n' x. cbn [Delivery_Model.w_seen]. intros [?|Hx%elem_of_list_singleton]%elem_of_app; [by left|]. injection Hx. auto.
  - destruct (w_tasks w !! n) as [k|] eqn:Ek; [|done]. destruct (k_state k) as [|a| |] eqn:Es; try done.
    pose proof (I1 _ _ Ek) as HT. unfold tinv in HT. rewrite Es in HT. destruct HT as (Hh & HF & HD).
    destruct (decode (k_ident k) (k_body k)) as [m|] eqn:Ed; [destruct (decide (a ∈ w_open w))|]; injection H as <-.
    + eapply winv_set; [done|done|done| | |by auto|].
      * intros n' Hne. split; [done|]. erewrite (deliveries_snoc w); [|done]. rewrite (proj2 (Nat.eqb_neq n n')) by done. by rewrite app_nil_r.
      * match goal with |- tinv _ (lookups ?x n) (deliveries ?x n) => assert (E1 : deliveries x n = deliveries w n ++ [(a, m)]);
          [erewrite (deliveries_snoc w); [|done]; by rewrite Nat.eqb_refl|]; change (lookups x n) with (lookups w n) end.
        rewrite E1, HD. unfold tinv. cbn [k_state k_ident k_body]. split_and!; [done|done|]. by exists m.
      * intros a' n' m'. cbn [Delivery_Model.w_mail]. intros [?|Hx%elem_of_list_singleton]%elem_of_app; [by left|]. injection Hx. auto.
    + eapply winv_set; [done|done|done|done| |by auto|by auto]. 
      unfold tinv. cbn [k_state k_ident k_body]. split; [done|]. exists a, m. split_and!; [done|done|by left].
    + eapply winv_set; [done|done|done|done| |by auto|by auto]. 
      unfold tinv. cbn [k_state k_ident k_body]. split_and!; [done|done|by exists a|done].
  - destruct (w_tasks w !! n) as [k|] eqn:Ek; [|done]. destruct (k_state k) as [| |a|] eqn:Es; try done. injection H as <-.
    pose proof (I1 _ _ Ek) as HT. unfold tinv in HT. rewrite Es in HT. destruct HT as (Hh & HF & m & Hd & HD).
    eapply winv_set; [done|done|done|done| |by auto|by auto]. unfold tinv. cbn [k_state k_ident k_body]. destruct r; (split; [done|]); by exists a, m.
  - destruct (w_tasks w !! n) as [k|] eqn:Ek; [|done]. destruct (k_state k) as [| |a|] eqn:Es; try done. injection H as <-.
    pose proof (I1 _ _ Ek) as HT. unfold tinv in HT. rewrite Es in HT. destruct HT as (Hh & HF & m & Hd & HD).
    eapply winv_set; [done|done|done|done| |by auto|by auto]. unfold tinv. cbn [k_state k_ident k_body]. split; [done|]. exists a, m. split_and!; [done|done|by right].
Qed.
Lemma winv_new : winv new_world.
Proof. split_and!; [done|by intros n x ?%elem_of_nil|by intros a n x ?%elem_of_nil]. Qed.
Lemma winv_run l w : wrun new_world l = Some w -> winv w.
Proof. apply wrun_ind; [by apply winv_step|apply winv_new]. Qed.

(** ** Tasks that are over *)
Lemma over_step w o w' n k : wstep w o = Some w' -> w_tasks w !! n = Some k -> over k = true ->
  (exists k', w_tasks w' !! n = Some k' /\ over k' = true) /\
  exists d, w_mail w' = w_mail w ++ d /\ (d = [] \/ exists a n' m, d = [(a, n', m)] /\ n' <> n).
Proof.
  intros H Hk Ho. destruct o as [sys id ty|a|sys id|sys ident id b|n'|n'|n' r|n']; simpl in H.
  - injection H as <-. split; [by eauto|]. exists []. rewrite app_nil_r. auto.
  - injection H as <-. split; [by eauto|]. exists []. rewrite app_nil_r. auto.
  - injection H as <-. split; [by eauto|]. exists []. rewrite app_nil_r. auto.
  - injection H as <-. cbn [Delivery_Model.w_tasks Delivery_Model.w_mail]. split.
    + exists k. split; [|done]. by apply lookup_app_l_Some.
    + exists []. rewrite app_nil_r. auto.
  - destruct (w_tasks w !! n') as [k'|] eqn:Ek; [|done]. destruct (k_state k') as [a| | |] eqn:Es; try done.
    destruct (handler (k_ident k')) as [ty|] eqn:Eh; [|done]. destruct (get_actor_ref M w (k_sys k') ty (k_id k')) as [found cache].
    injection H as <-. assert (n' <> n). { intros ->. rewrite Hk in Ek. injection Ek as <-. unfold over in Ho. by rewrite Es in Ho. }
    cbn [Delivery_Model.w_tasks Delivery_Model.w_mail]. unfold set_task. rewrite list_lookup_insert_ne by done. split; [by eauto|]. exists []. rewrite app_nil_r. auto.
  - destruct (w_tasks w !! n') as [k'|] eqn:Ek; [|done]. destruct (k_state k') as [|a| |] eqn:Es; try done.
    assert (n' <> n). { intros ->. rewrite Hk in Ek. injection Ek as <-. unfold over in Ho. by rewrite Es in Ho. }
    destruct (decode (k_ident k') (k_body k')) as [m|]; [destruct (decide (a ∈ w_open w))|]; injection H as <-;
      cbn [Delivery_Model.w_tasks Delivery_Model.w_mail]; unfold set_task; rewrite list_lookup_insert_ne by done; (split; [by eauto|]).
    + eexists. split; [done|]. right. by exists a, n', m.
    + exists []. rewrite app_nil_r. auto.
    + exists []. rewrite app_nil_r. auto.
  - destruct (w_tasks w !! n') as [k'|] eqn:Ek; [|done]. destruct (k_state k') as [| |a|] eqn:Es; try done. injection H as <-.
    cbn [Delivery_Model.w_tasks Delivery_Model.w_mail]. split; [|exists []; rewrite app_nil_r; auto].
    unfold set_task. destruct (decide (n' = n)) as [->|]; [|rewrite list_lookup_insert_ne by done; eauto].
    rewrite list_lookup_insert by (by eapply lookup_lt_Some). eauto.
  - destruct (w_tasks w !! n') as [k'|] eqn:Ek; [|done]. destruct (k_state k') as [| |a|] eqn:Es; try done. injection H as <-.
    cbn [Delivery_Model.w_tasks Delivery_Model.w_mail]. split; [|exists []; rewrite app_nil_r; auto].
    unfold set_task. destruct (decide (n' = n)) as [->|]; [|rewrite list_lookup_insert_ne by done; eauto].
    rewrite list_lookup_insert by (by eapply lookup_lt_Some). eauto.
Qed.
Lemma over_run l w w' n k : wrun w l = Some w' -> w_tasks w !! n = Some k -> over k = true ->
  exists d, w_mail w' = w_mail w ++ d /\ forall a m, (a, n, m) ∉ d.
Proof.
  revert w k. induction l as [|o l IH]; intros w k Hr Hk Ho; simpl in Hr.
  - injection Hr as <-. exists []. rewrite app_nil_r. split; [done|]. intros a m ?%elem_of_nil. done.
  - destruct (wstep w o) as [w1|] eqn:E; simpl in Hr; [|done]. destruct (over_step _ _ _ _ _ E Hk Ho) as [(k' & Hk' & Ho') (d & Hd & Hn)].
    destruct (IH _ _ Hr Hk' Ho') as (d' & Hd' & Hn'). exists (d ++ d'). rewrite Hd', Hd, app_assoc. split; [done|].
    intros a m [Hx|Hx]%elem_of_app; [|by eapply Hn']. destruct Hn as [->|(a' & n' & m' & -> & Hne)]; [by apply elem_of_nil in Hx|].
    apply elem_of_list_singleton in Hx. congruence.
Qed.

Lemma step_tasks w o w' : wstep w o = Some w' ->
  (is_arrival o = true /\ (exists k, w_tasks w' = w_tasks w ++ [k]) /\ w_mail w' = w_mail w) \/ (is_arrival o = false /\ length (w_tasks w') = length (w_tasks w)).
Proof.
  intros H. destruct o as [sys id ty|a|sys id|sys ident id b|n|n|n r|n]; cbn [Delivery_Model.wstep] in H.
  - injection H as <-. auto.
  - injection H as <-. auto.
  - injection H as <-. auto.
  - injection H as <-. left. eauto.
  - right. destruct (w_tasks w !! n) as [k|] eqn:Ek; [|done]. destruct (k_state k) as [a| | |] eqn:Es; try done.
    destruct (handler (k_ident k)) as [ty|] eqn:Eh; [|done]. destruct (get_actor_ref M w (k_sys k) ty (k_id k)) as [found cache].
    injection H as <-. cbn [Delivery_Model.w_tasks]. unfold set_task. by rewrite insert_length.
  - right. destruct (w_tasks w !! n) as [k|] eqn:Ek; [|done]. destruct (k_state k) as [|a| |] eqn:Es; try done.
    destruct (decode (k_ident k) (k_body k)) as [m|]; [destruct (decide (a ∈ w_open w))|]; injection H as <-; cbn [Delivery_Model.w_tasks]; unfold set_task; by rewrite insert_length.
  - right. destruct (w_tasks w !! n) as [k|] eqn:Ek; [|done]. destruct (k_state k) as [| |a|] eqn:Es; try done. injection H as <-.
    cbn [Delivery_Model.w_tasks]. unfold set_task. by rewrite insert_length.
  - right. destruct (w_tasks w !! n) as [k|] eqn:Ek; [|done]. destruct (k_state k) as [| |a|] eqn:Es; try done. injection H as <-.
    cbn [Delivery_Model.w_tasks]. unfold set_task. by rewrite insert_length.
Qed.
Lemma step_mail w o w' : wstep w o = Some w' -> w_mail w' = w_mail w \/
  exists a n m k, w_mail w' = w_mail w ++ [(a, n, m)] /\ w_tasks w !! n = Some k /\ over k = false /\ decode (k_ident k) (k_body k) = Some m /\ k_state k = Found a.
Proof.
  intros H. destruct o as [sys id ty|a|sys id|sys ident id b|n|n|n r|n]; simpl in H; try (injection H as <-; by left).
  - left. destruct (w_tasks w !! n) as [k|] eqn:Ek; [|done]. destruct (k_state k) as [a| | |] eqn:Es; try done.
    destruct (handler (k_ident k)) as [ty|] eqn:Eh; [|done]. destruct (get_actor_ref M w (k_sys k) ty (k_id k)) as [found cache]. by injection H as <-.
  - destruct (w_tasks w !! n) as [k|] eqn:Ek; [|done]. destruct (k_state k) as [|a| |] eqn:Es; try done.
    destruct (decode (k_ident k) (k_body k)) as [m|] eqn:Ed; [destruct (decide (a ∈ w_open w))|]; injection H as <-; [|by left..].
    right. exists a, n, m, k. split_and!; try done. unfold over. by rewrite Es.
  - left. destruct (w_tasks w !! n) as [k|] eqn:Ek; [|done]. destruct (k_state k) as [| |a|] eqn:Es; try done. by injection H as <-.
  - left. destruct (w_tasks w !! n) as [k|] eqn:Ek; [|done]. destruct (k_state k) as [| |a|] eqn:Es; try done. by injection H as <-.
Qed.

(** One by one: only the last task is not over, and deliveries are in order of arrival. *)
Definition oinv (w : world) : Prop :=
  (forall n k, w_tasks w !! n = Some k -> S n <> length (w_tasks w) -> over k = true) /\
  StronglySorted lt (order w) /\ (forall n, n ∈ order w -> (n < length (w_tasks w))%nat) /\
  (forall n k, w_tasks w !! n = Some k -> over k = false -> n ∉ order w).
Lemma sorted_snoc (l : list nat) x : StronglySorted lt l -> (forall y, y ∈ l -> (y < x)%nat) -> StronglySorted lt (l ++ [x]).
Proof.
  induction l as [|y l IH]; intros Hs Hx; simpl; [by repeat constructor|]. apply StronglySorted_inv in Hs as [Hs Hy]. constructor.
  - apply IH; [done|]. intros z Hz. apply Hx. by right.
  - apply Forall_app. split; [done|]. constructor; [|done]. apply Hx. left.
Qed.
Lemma over_back w o w' n k' : wstep w o = Some w' -> w_tasks w' !! n = Some k' -> over k' = false -> is_arrival o = false ->
  exists k, w_tasks w !! n = Some k /\ over k = false.
Proof.
  intros H Hk' Ho Ha. destruct (step_tasks _ _ _ H) as [[? _]|[_ Hl]]; [congruence|].
  destruct (lookup_lt_is_Some_2 (w_tasks w) n) as [k Hk]. { rewrite <- Hl. by eapply lookup_lt_Some. }
  exists k. split; [done|]. destruct (over k) eqn:Eo; [|done]. destruct (over_step _ _ _ _ _ H Hk Eo) as [(k1 & Hk1 & Ho1) _]. congruence.
Qed.
Lemma oinv_step w o w' : oinv w -> (is_arrival o = true -> forall n k, w_tasks w !! n = Some k -> over k = true) ->
  wstep w o = Some w' -> oinv w'.
Proof.
  intros (O1 & O2 & O3 & O4) Ha H. destruct (step_tasks _ _ _ H) as [(Hi & (k0 & Ht) & Hm)|[Hi Hl]].
  - unfold oinv, order. rewrite Hm, Ht, app_length. simpl. split_and!.
    + intros n k. rewrite lookup_app_Some. intros [Hk|[Hn Hk]] Hne; [by eapply Ha|]. apply list_lookup_singleton_Some in Hk as [? <-]. lia.
    + done.
    + intros n Hn%O3. lia.
    + intros n k. rewrite lookup_app_Some. intros [Hk|[Hn Hk]] Hno Hx; [by apply (O4 _ _ Hk)|]. apply O3 in Hx. lia.
  - assert (HO1 : forall n k, w_tasks w' !! n = Some k -> S n <> length (w_tasks w') -> over k = true).
    { intros n k' Hk' Hne. destruct (over k') eqn:Eo; [done|]. destruct (over_back _ _ _ _ _ H Hk' Eo Hi) as (k & Hk & Ho).
      rewrite (O1 _ _ Hk) in Ho; [done|]. by rewrite <- Hl. }
    destruct (step_mail _ _ _ H) as [Hm|(a & n & m & k & Hm & Hk & Ho & _ & _)].
    + split; [done|]. unfold order. rewrite Hm, Hl. split_and!; [done|done|].
      intros n k' Hk' Ho'. destruct (over_back _ _ _ _ _ H Hk' Ho' Hi) as (k & Hk & Ho). by eapply O4.
    + assert (Hn : S n = length (w_tasks w)). { destruct (decide (S n = length (w_tasks w))); [done|]. rewrite (O1 _ _ Hk) in Ho; done. }
      split; [done|]. unfold order. rewrite Hm, fmap_app, Hl. simpl. fold (order w). split_and!.
      * apply sorted_snoc; [done|]. intros y Hy. pose proof (O3 _ Hy). assert (y <> n) by (intros ->; by apply (O4 _ _ Hk)). lia.
      * intros n' [?| ->%elem_of_list_singleton]%elem_of_app; [by apply O3|lia].
      * intros n' k' Hk' Ho' [Hx| ->%elem_of_list_singleton]%elem_of_app.
        -- destruct (over_back _ _ _ _ _ H Hk' Ho' Hi) as (k1 & Hk1 & Ho1). by apply (O4 _ _ Hk1).
        -- clear O1. destruct o as [|?|?|?|n1|n1|n1|n1]; simpl in H; try (injection H as <-; cbn [Delivery_Model.w_mail] in Hm; by apply (f_equal length) in Hm; rewrite app_length in Hm; simpl in Hm; lia).
           ++ destruct (w_tasks w !! n1) as [k1|]; [|done]. destruct (k_state k1); try done. destruct (handler _); [|done].
              destruct (get_actor_ref _ _ _ _ _). injection H as <-. cbn [Delivery_Model.w_mail] in Hm. apply (f_equal length) in Hm; rewrite app_length in Hm; simpl in Hm; lia.
           ++ destruct (w_tasks w !! n1) as [k1|] eqn:E1; [|done]. destruct (k_state k1); try done. destruct (decode _ _); [destruct (decide _)|]; injection H as <-; cbn [Delivery_Model.w_mail] in Hm;
                try (apply (f_equal length) in Hm; rewrite app_length in Hm; simpl in Hm; lia).
              apply app_inv_head in Hm. injection Hm as -> -> ->. cbn [Delivery_Model.w_tasks] in Hk'. unfold set_task in Hk'.
              rewrite list_lookup_insert in Hk' by (by eapply lookup_lt_Some). injection Hk' as <-. done.
           ++ destruct (w_tasks w !! n1) as [k1|]; [|done]. destruct (k_state k1); try done. injection H as <-. cbn [Delivery_Model.w_mail] in Hm. apply (f_equal length) in Hm; rewrite app_length in Hm; simpl in Hm; lia.
           ++ destruct (w_tasks w !! n1) as [k1|]; [|done]. destruct (k_state k1); try done. injection H as <-. cbn [Delivery_Model.w_mail] in Hm. apply (f_equal length) in Hm; rewrite app_length in Hm; simpl in Hm; lia.
Qed.
Lemma oinv_run l w w' : oinv w -> one_by_one handler decode w l -> wrun w l = Some w' -> oinv w'.
Proof.
  revert w. induction l as [|o l IH]; intros w HO HH Hr; simpl in Hr; [by injection Hr as <-|]. destruct HH as [Ha HH].
  destruct (wstep w o) as [w1|] eqn:E; simpl in Hr; [|done]. eapply IH; [|done|done]. by eapply oinv_step.
Qed.
Lemma oinv_new : oinv new_world.
Proof. split_and!; [done|by repeat constructor|by intros n ?%elem_of_nil|done]. Qed.

(** ** Any order *)
Definition ready (w : world) (ident id : N) (ty : N) : Prop :=
  w_insts w !! 0%nat = Some (Inst 0 id ty) /\ 0%nat ∈ w_open w /\ w_tracked w !! (0, id)%N = Some 0%nat /\
  (w_cache w !! id = None \/ w_cache w !! id = Some 0%nat) /\ handler ident = Some ty.
Lemma get_ready w ident id ty : ready w ident id ty -> exists c, get_actor_ref M w 0 ty id = (Some 0%nat, c) /\ c !! id = Some 0%nat.
Proof.
  intros (H1 & H2 & H3 & H4 & H5). unfold get_actor_ref, of_type. rewrite H3, H1. cbn [i_type]. rewrite N.eqb_refl.
  destruct H4 as [E|E]; rewrite E.
  - eexists. split; [done|]. apply lookup_insert.
  - rewrite H1. cbn [i_type]. rewrite N.eqb_refl, bool_decide_true by done. simpl. eauto.
Qed.
Lemma deliver_one w ident id ty n b m : ready w ident id ty -> w_tasks w !! n = Some (Task 0 ident id b (Trying 1)) -> decode ident b = Some m ->
  exists w', wrun w [WTry n; WSend n] = Some w' /\ ready w' ident id ty /\ w_mail w' = w_mail w ++ [(0%nat, n, m)] /\
  forall n', n' <> n -> w_tasks w' !! n' = w_tasks w !! n'.
Proof.
  intros HR Hk Hd. pose proof (get_ready _ _ _ _ HR) as (c & Hg & Hc). pose proof HR as (H1 & H2 & H3 & H4 & H5).
  pose proof (lookup_lt_Some _ _ _ Hk) as Hlt.
  assert (E1 : wstep w (WTry n) = Some (World M (w_insts w) (w_open w) (w_tracked w) c (<[n:=Task 0 ident id b (Found 0)]> (w_tasks w)) (w_mail w) (w_seen w ++ [(n, Some 0%nat)]))).
  { simpl. rewrite Hk. cbn [k_state k_ident k_sys k_id]. rewrite H5, Hg. done. }
  set (w1 := World M (w_insts w) (w_open w) (w_tracked w) c (<[n:=Task 0 ident id b (Found 0)]> (w_tasks w)) (w_mail w) (w_seen w ++ [(n, Some 0%nat)])) in *.
  assert (E2 : wstep w1 (WSend n) = Some (World M (w_insts w) (w_open w) (w_tracked w) c (<[n:=Task 0 ident id b (Sent 0)]> (w_tasks w)) (w_mail w ++ [(0%nat, n, m)]) (w_seen w ++ [(n, Some 0%nat)]))).
  { cbn [Delivery_Model.wstep]. unfold w1 at 1. cbn [Delivery_Model.w_tasks]. rewrite list_lookup_insert by done. cbn [k_state k_ident k_body]. rewrite Hd.
    rewrite decide_True by done. unfold set_task, w1. cbn [Delivery_Model.w_tasks k_sys k_ident k_id k_body]. by rewrite list_insert_insert. }
  eexists. split; [cbn [Delivery_Model.wrun]; rewrite E1; cbn [mbind option_bind]; rewrite E2; done|]. split_and!.
  - split_and!; try done. by right.
  - done.
  - intros n' Hne. cbn [Delivery_Model.w_tasks]. by rewrite list_lookup_insert_ne.
Qed.
Definition deliver_in (p : list nat) : list wop := flat_map (fun n => [WTry n; WSend n]) p.
Lemma deliver_all p : forall w ident id ty, ready w ident id ty -> NoDup p ->
  (forall n, n ∈ p -> exists b m, w_tasks w !! n = Some (Task 0 ident id b (Trying 1)) /\ decode ident b = Some m) ->
  exists w', wrun w (deliver_in p) = Some w' /\ order w' = order w ++ p /\ Forall (fun x => fst (fst x) = 0%nat) (drop (length (w_mail w)) (w_mail w')).
Proof.
  induction p as [|n p IH]; intros w ident id ty HR Hnd Hp.
  - exists w. split_and!; [done|by rewrite app_nil_r|]. by rewrite drop_all.
  - apply NoDup_cons in Hnd as [Hn Hnd]. destruct (Hp n) as (b & m & Hk & Hd); [left|].
    destruct (deliver_one _ _ _ _ _ _ _ HR Hk Hd) as (w1 & Hr & HR1 & Hm & Hf).
    destruct (IH w1 ident id ty HR1 Hnd) as (w2 & Hr2 & Hm2 & HF).
    { intros n' Hn'. rewrite Hf; [|by intros ->]. apply Hp. by right. }
    exists w2. split_and!.
    + change (deliver_in (n :: p)) with ([WTry n; WSend n] ++ deliver_in p). rewrite wrun_app, Hr. done.
    + rewrite Hm2. unfold order. rewrite Hm, fmap_app. simpl. by rewrite <- app_assoc.
    + assert (HP : w_mail w1 `prefix_of` w_mail w2).
      { clear -Hr2. revert Hr2. generalize (deliver_in p). intros l. apply (wrun_ind (fun w => w_mail w1 `prefix_of` w_mail w)); [|done].
        intros w o w' Hp H. etrans; [done|]. destruct (step_mail _ _ _ H) as [->|(?&?&?&?& -> & _)]; [done|by apply prefix_app_r]. }
      destruct HP as [x Hx]. rewrite Hx, Hm in *. rewrite drop_app in HF. rewrite <- app_assoc, drop_app. simpl. by constructor.
Qed.
Lemma arrive_all ident id bs : handler ident <> None -> forall w,
  exists w', wrun w (WArrive 0 ident id <$> bs) = Some w' /\ w_tasks w' = w_tasks w ++ ((fun b => Task 0 ident id b (Trying 1)) <$> bs) /\
  w_insts w' = w_insts w /\ w_open w' = w_open w /\ w_tracked w' = w_tracked w /\ w_cache w' = w_cache w /\ w_mail w' = w_mail w.
Proof.
  intros Hh. destruct (handler ident) as [ty|] eqn:Eh; [|done]. induction bs as [|b bs IH]; intros w.
  - exists w. simpl. by rewrite app_nil_r.
  - cbn [fmap list_fmap Delivery_Model.wrun Delivery_Model.wstep]. rewrite Eh. cbn [mbind option_bind].
    match goal with |- context [Delivery_Model.wrun _ _ _ ?x _] => destruct (IH x) as (w' & Hr & Ht & H1 & H2 & H3 & H4 & H5) end.
    exists w'. split; [done|]. rewrite Ht. cbn [Delivery_Model.w_tasks]. rewrite <- app_assoc. done.
Qed.
Lemma any_order ident id ty bs p : handler ident = Some ty -> Forall (fun b => decode ident b <> None) bs -> p ≡ₚ seq 0 (length bs) ->
  exists w, wrun new_world (WStart 0 id ty :: (WArrive 0 ident id <$> bs) ++ deliver_in p) = Some w /\ order w = p /\
  Forall (fun x => fst (fst x) = 0%nat) (w_mail w).
Proof.
  intros Hh Hd Hp. cbn [Delivery_Model.wrun Delivery_Model.wstep mbind option_bind]. rewrite wrun_app.
  match goal with |- context [Delivery_Model.wrun _ _ _ ?x (_ <$> _)] => destruct (arrive_all ident id bs ltac:(by rewrite Hh) x) as (w' & Hr & Ht & H1 & H2 & H3 & H4 & H5) end.
  rewrite Hr. cbn [mbind option_bind]. cbn in Ht, H1, H2, H3, H4, H5.
  destruct (deliver_all p w' ident id ty) as (w2 & Hr2 & Ho & HF).
  - split_and!; [by rewrite H1|rewrite H2; set_solver|rewrite H3; apply lookup_insert|left; by rewrite H4|done].
  - rewrite Hp. apply NoDup_ListNoDup, seq_NoDup.
  - intros n Hn. rewrite Hp in Hn. apply elem_of_seq in Hn. destruct (lookup_lt_is_Some_2 bs n) as [b Hb]; [lia|].
    pose proof (Forall_lookup_1 _ _ _ _ Hd Hb) as Hdb. destruct (decode ident b) as [m|] eqn:E; [|done]. exists b, m. split; [|done].
    rewrite Ht. by rewrite list_lookup_fmap, Hb.
  - exists w2. split_and!; [done| |].
    + rewrite Ho. unfold order. by rewrite H5.
    + rewrite H5 in HF. done.
Qed.

(** ** The actor that is found *)
Definition cinv (sys id : N) (w : world) : Prop :=
  (forall s i a, w_tracked w !! (s, i) = Some a -> exists x, w_insts w !! a = Some x /\ i_sys x = s /\ i_id x = i) /\
  (forall i a, w_cache w !! i = Some a -> exists x, w_insts w !! a = Some x /\ i_id x = i) /\
  (forall n k, w_tasks w !! n = Some k -> match k_state k with Found a | Sent a => exists x, w_insts w !! a = Some x /\ i_id x = k_id k /\ Some (i_type x) = handler (k_ident k) | _ => True end) /\
  (forall a n m, (a, n, m) ∈ w_mail w -> exists x k, w_insts w !! a = Some x /\ w_tasks w !! n = Some k /\ i_id x = k_id k /\ Some (i_type x) = handler (k_ident k) /\ decode (k_ident k) (k_body k) = Some m) /\
  (forall a x, w_insts w !! a = Some x -> i_id x = id -> i_sys x = sys).
Lemma get_sound sys id w s ty i a c : cinv sys id w -> get_actor_ref M w s ty i = (Some a, c) ->
  (exists x, w_insts w !! a = Some x /\ i_id x = i /\ i_type x = ty) /\ (forall j b, c !! j = Some b -> exists x, w_insts w !! b = Some x /\ i_id x = j).
Proof.
  intros (C1 & C2 & _). unfold get_actor_ref.
  assert (HT : forall a c, match w_tracked w !! (s, i) with Some a => if of_type M w ty a then (Some a, <[i := a]> (w_cache w)) else (None, w_cache w) | None => (None, w_cache w) end = (Some a, c) ->
    (exists x, w_insts w !! a = Some x /\ i_id x = i /\ i_type x = ty) /\ (forall j b, c !! j = Some b -> exists x, w_insts w !! b = Some x /\ i_id x = j)).
  { intros a' c'. destruct (w_tracked w !! (s, i)) as [a1|] eqn:E; [|done]. destruct (C1 _ _ _ E) as (x & Hx & _ & Hi).
    unfold of_type. rewrite Hx. destruct (N.eqb_spec (i_type x) ty); [|done]. intros [= <- <-]. split; [by eauto|].
    intros j b [[<- <-]|[_ Hj]]%lookup_insert_Some; [by eauto|]. by apply C2. }
  destruct (w_cache w !! i) as [a1|] eqn:E; [|apply HT]. destruct (of_type M w ty a1) eqn:Eo; simpl; [|apply HT].
  destruct (bool_decide _); [|apply HT]. intros [= <- <-]. split; [|apply C2]. destruct (C2 _ _ E) as (x & Hx & Hi). unfold of_type in Eo. rewrite Hx in Eo.
  exists x. split_and!; [done|done|by apply N.eqb_eq].
Qed.
Lemma get_none sys id w s ty i c : cinv sys id w -> get_actor_ref M w s ty i = (None, c) -> c = w_cache w.
Proof.
  intros _. unfold get_actor_ref. destruct (w_cache w !! i) as [a|]; [destruct (of_type M w ty a && _)|];
    try done; destruct (w_tracked w !! (s, i)); try (intros [= <-]; done); destruct (of_type _ _ _ _); congruence.
Qed.
Lemma cinv_set sys id w w' n k s : cinv sys id w -> w_tasks w !! n = Some k -> w_tasks w' = set_task M w n k s ->
  w_insts w' = w_insts w -> w_tracked w' = w_tracked w -> w_mail w' = w_mail w ->
  (forall i a, w_cache w' !! i = Some a -> exists x, w_insts w !! a = Some x /\ i_id x = i) ->
  match s with Found a | Sent a => exists x, w_insts w !! a = Some x /\ i_id x = k_id k /\ Some (i_type x) = handler (k_ident k) | _ => True end ->
  cinv sys id w'.
Proof.
  intros (C1 & C2 & C3 & C4 & C5) Hk Ht Hi Htr Hm Hc Hs. unfold cinv. rewrite Hi, Htr, Hm, Ht. unfold set_task.
  pose proof (lookup_lt_Some _ _ _ Hk) as Hlt. split_and!; [done|done| | |done].
  - intros n' k' [(<- & <- & _)|[Hne Hk']]%list_lookup_insert_Some; [done|]. by apply (C3 n').
  - intros a n' m Hx. destruct (C4 _ _ _ Hx) as (x & k' & ? & Hk' & ? & ? & ?). destruct (decide (n = n')) as [<-|Hne].
    + rewrite list_lookup_insert by done. exists x. eexists. split; [done|]. split; [done|]. rewrite Hk in Hk'. injection Hk' as <-. done.
    + rewrite list_lookup_insert_ne by done. by exists x, k'.
Qed.
Lemma cinv_step sys id w o w' : cinv sys id w -> alone sys id o -> wstep w o = Some w' -> cinv sys id w'.
Proof.
  intros HC Ha H. pose proof HC as (C1 & C2 & C3 & C4 & C5).
  destruct o as [s i ty|a|s i|s ident i b|n|n|n r|n]; cbn [Delivery_Model.wstep] in H.
  - injection H as <-. assert (HX : forall a x, w_insts w !! a = Some x -> (w_insts w ++ [Inst s i ty]) !! a = Some x) by (intros; by apply lookup_app_l_Some).
    split_and!; cbn [Delivery_Model.w_tracked Delivery_Model.w_insts Delivery_Model.w_cache Delivery_Model.w_tasks Delivery_Model.w_mail].
    + intros s' i' a [[[= <- <-] <-]|[_ Hl]]%lookup_insert_Some.
      * eexists. split; [apply list_lookup_middle; done|done].
      * destruct (C1 _ _ _ Hl) as (x & ? & ?). eauto.
    + intros i' a Hl. destruct (C2 _ _ Hl) as (x & ? & ?). eauto.
    + intros n k Hk. pose proof (C3 _ _ Hk) as HK. destruct (k_state k); try done; destruct HK as (x & ? & ?); eauto.
    + intros a n m Hx. destruct (C4 _ _ _ Hx) as (x & k & ? & ? & ?). exists x, k. auto.
    + intros a x. rewrite lookup_app_Some. intros [Hx|[_ Hx]] Hid; [by eapply C5|]. apply list_lookup_singleton_Some in Hx as [_ <-]. simpl in *. auto.
  - injection H as <-. done.
  - injection H as <-. split_and!; try done. cbn [Delivery_Model.w_tracked Delivery_Model.w_insts]. intros s' i' a [_ Hl]%lookup_delete_Some. by apply C1.
  - injection H as <-. split_and!; try done; cbn [Delivery_Model.w_tracked Delivery_Model.w_insts Delivery_Model.w_tasks Delivery_Model.w_mail].
    + intros n k. rewrite lookup_app_Some. intros [Hk|[_ Hk]]; [by apply (C3 n)|]. apply list_lookup_singleton_Some in Hk as [_ <-]. simpl. by destruct (handler ident).
    + intros a n m Hx. destruct (C4 _ _ _ Hx) as (x & k & ? & ? & ?). exists x, k. split_and!; try done. by apply lookup_app_l_Some. all: tauto.
  - destruct (w_tasks w !! n) as [k|] eqn:Ek; [|done]. destruct (k_state k) as [a| | |] eqn:Es; try done.
    destruct (handler (k_ident k)) as [ty|] eqn:Eh; [|done]. destruct (get_actor_ref M w (k_sys k) ty (k_id k)) as [[f|] cache] eqn:Eg; injection H as <-.
    + destruct (get_sound _ _ _ _ _ _ _ _ HC Eg) as [(x & Hx & Hi & Hty) Hc]. eapply cinv_set; [done|done|done|done|done|done|done|].
      exists x. rewrite Eh, Hty. done.
    + apply (get_none _ _ _ _ _ _ _ HC) in Eg as ->. eapply cinv_set; [done|done|done|done|done|done|done|]. by destruct (max_retries <=? S a)%nat.
  - destruct (w_tasks w !! n) as [k|] eqn:Ek; [|done]. destruct (k_state k) as [|a| |] eqn:Es; try done.
    pose proof (C3 _ _ Ek) as HK. rewrite Es in HK.
    destruct (decode (k_ident k) (k_body k)) as [m|] eqn:Ed; [destruct (decide (a ∈ w_open w))|]; injection H as <-.
    + assert (HC' : cinv sys id (World M (w_insts w) (w_open w) (w_tracked w) (w_cache w) (set_task M w n k (Sent a)) (w_mail w) (w_seen w))).
      { eapply cinv_set; [done|done|done|done|done|done|done|done]. }
      destruct HC' as (D1 & D2 & D3 & D4 & D5). split_and!; try done. cbn [Delivery_Model.w_mail Delivery_Model.w_insts Delivery_Model.w_tasks] in *.
      intros a' n' m' [Hx|Hx%elem_of_list_singleton]%elem_of_app; [by apply D4|]. injection Hx as -> -> ->. destruct HK as (x & ? & ? & ?).
      unfold set_task. exists x. eexists. rewrite list_lookup_insert by (by eapply lookup_lt_Some). split_and!; try done.
    + eapply cinv_set; done.
    + eapply cinv_set; done.
  - destruct (w_tasks w !! n) as [k|] eqn:Ek; [|done]. destruct (k_state k) as [| |a|] eqn:Es; try done. injection H as <-. eapply cinv_set; done.
  - destruct (w_tasks w !! n) as [k|] eqn:Ek; [|done]. destruct (k_state k) as [| |a|] eqn:Es; try done. injection H as <-. eapply cinv_set; done.
Qed.
Lemma cinv_run sys id l : forall w w', cinv sys id w -> Forall (alone sys id) l -> wrun w l = Some w' -> cinv sys id w'.
Proof.
  induction l as [|o l IH]; intros w w' HC Ha Hr; simpl in Hr; [by injection Hr as <-|]. apply Forall_cons in Ha as [Ho Ha].
  destruct (wstep w o) as [w1|] eqn:E; simpl in Hr; [|done]. eapply IH; [|done|done]. by eapply cinv_step.
Qed.
Lemma cinv_new sys id : cinv sys id new_world.
Proof. split_and!; try done. by intros a n m ?%elem_of_nil. Qed.
End proofs.
