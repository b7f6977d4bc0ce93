(** Invariants of a pool of workers. *)
From Verif Require Export Pool_Spec.

Section proofs.
Context {S M R E : Type}.
Variable hdl : E -> S -> M -> option (S * R).
Notation pool := (pool S M R E).
Notation pop := (pop M E).
Notation pstep := (pstep hdl).
Notation prun := (prun hdl).
Global Arguments drop_all : simpl never.
Global Arguments set_task : simpl never.
Global Arguments set_caller : simpl never.
Implicit Types (w : pool) (x : call M R) (l : list (call M R)).

#[local] Instance life_eq_dec : EqDecision life.
Proof using. solve_decision. Defined.

Lemma lookup_set_task t c l c' : set_task t c l !! c' =
  if decide (c' = c) then (fun x => Call (c_msg x) t (c_caller x)) <$> l !! c' else l !! c'.
Proof.
  unfold set_task. case_decide as H; [subst; by rewrite list_lookup_alter|by rewrite list_lookup_alter_ne].
Qed.
Lemma lookup_set_caller t c l c' : set_caller t c l !! c' =
  if decide (c' = c) then (fun x => Call (c_msg x) (c_task x) t) <$> l !! c' else l !! c'.
Proof.
  unfold set_caller. case_decide as H; [subst; by rewrite list_lookup_alter|by rewrite list_lookup_alter_ne].
Qed.
Lemma lookup_drop_all cs l c' : drop_all cs l !! c' =
  if decide (c' ∈ cs) then (fun x => Call (c_msg x) (TEnd None) (c_caller x)) <$> l !! c' else l !! c'.
Proof.
  unfold drop_all. induction cs as [|c cs IH]; cbn [foldr]; [by rewrite decide_False by apply not_elem_of_nil|].
  rewrite lookup_set_task, IH. destruct (decide (c' = c)) as [->|Hne].
  - rewrite (decide_True (P := c ∈ c :: cs)) by apply elem_of_list_here. case_decide; [|done]. by destruct (l !! c).
  - destruct (decide (c' ∈ cs)).
    + by rewrite decide_True by (apply elem_of_cons; auto).
    + by rewrite decide_False by (rewrite elem_of_cons; tauto).
Qed.
Lemma length_set_task t c l : length (set_task t c l) = length l.
Proof. apply alter_length. Qed.
Lemma length_set_caller t c l : length (set_caller t c l) = length l.
Proof. apply alter_length. Qed.
Lemma length_drop_all cs l : length (drop_all cs l) = length l.
Proof. unfold drop_all. induction cs as [|c cs IH]; simpl; [done|]. by rewrite length_set_task. Qed.

(** The worker whose turn it is at the [i]-th message. *)
Definition turn (n : nat) (asked : list nat) (c k : nat) : Prop := exists i, asked !! i = Some c /\ k = i mod n.

(** What holds of dispatch [c]. *)
Record cinv (n : nat) w (c : nat) x : Prop := {
  ci_sbox : c_task x = TAsked <-> c ∈ p_sbox w;
  ci_send k : c_task x = TToSend k -> k < n /\ turn n (p_asked w) c k;
  ci_sent k : c_task x = TSent k <-> exists y, p_workers w !! k = Some y /\ c ∈ k_box y;
  ci_sent_turn k : c_task x = TSent k -> turn n (p_asked w) c k;
  ci_got k r : c_task x = TGot k r -> exists h, h ∈ p_log w /\ h_call h = c /\ h_result h = r;
  ci_end r : c_task x = TEnd (Some r) -> exists h, h ∈ p_log w /\ h_call h = c /\ h_result h = r;
  ci_log h : h ∈ p_log w -> h_call h = c -> h_msg h = c_msg x /\ turn n (p_asked w) c (h_worker h) /\
    (c_task x = TGot (h_worker h) (h_result h) \/ c_task x = TEnd (Some (h_result h)));
  ci_ret : match c_caller x with
           | Returned (inl r) => c_task x = TEnd (Some r) | Returned (inr _) => c_task x = TEnd None | _ => True end;
}.
Record pinv (s : S) (n : nat) w : Prop := {
  pi_calls c x : p_calls w !! c = Some x -> cinv n w c x;
  pi_asked c : c ∈ p_asked w -> c < length (p_calls w);
  pi_asked_nodup : NoDup (p_asked w);
  pi_sbox c : c ∈ p_sbox w -> c < length (p_calls w);
  pi_box k y c : p_workers w !! k = Some y -> c ∈ k_box y -> c < length (p_calls w);
  pi_log h : h ∈ p_log w -> h_call h < length (p_calls w);
  pi_sbox_nodup : NoDup (p_sbox w);
  pi_box_nodup k y : p_workers w !! k = Some y -> NoDup (k_box y);
  pi_log_nodup : NoDup (h_call <$> p_log w);
  pi_ring : p_sup w = Closed /\ p_sbox w = [] \/
    exists taken, p_asked w = taken ++ p_sbox w /\ p_ring w = (fun j => (length taken + j) mod n) <$> seq 0 n;
  pi_workers : length (p_workers w) = n;
  pi_closed k y : p_workers w !! k = Some y -> k_life y = Closed -> k_box y = [];
  pi_state k y : p_workers w !! k = Some y ->
    works hdl s (filter (fun h => h_worker h = k) (p_log w)) (k_state y);
  pi_sup : p_sup w = Closed -> p_sbox w = [];
}.

Lemma pinv_new s n : pinv s n (pool_new s n).
Proof.
  split; simpl.
  - done.
  - by intros c ?%elem_of_nil.
  - apply NoDup_nil_2.
  - by intros c ?%elem_of_nil.
  - intros k y c H. apply lookup_replicate in H as [-> _]. simpl. by intros ?%elem_of_nil.
  - by intros h ?%elem_of_nil.
  - apply NoDup_nil_2.
  - intros k y H. apply lookup_replicate in H as [-> _]. apply NoDup_nil_2.
  - apply NoDup_nil_2.
  - right. exists []. split; [done|]. simpl. 
    rewrite <- (list_fmap_id (seq 0 n)) at 1. apply list_fmap_ext. intros i j Hj.
    apply lookup_seq in Hj as [-> Hj]. simpl. rewrite Nat.mod_small by done. done.
  - apply replicate_length.
  - intros k y H. by apply lookup_replicate in H as [-> _].
  - intros k y H. apply lookup_replicate in H as [-> _]. constructor.
  - done.
Qed.

Lemma turn_app n asked a c k : turn n asked c k -> turn n (asked ++ a) c k.
Proof. intros (i & Hi & ->). exists i. split; [by apply lookup_app_l_Some|done]. Qed.
Lemma turn_fun n asked c k k' : NoDup asked -> turn n asked c k -> turn n asked c k' -> k = k'.
Proof. intros Hnd (i & Hi & ->) (j & Hj & ->). by rewrite (NoDup_lookup _ _ _ _ Hnd Hi Hj). Qed.
Lemma works_app s (l1 l2 : list (handled M R E)) s1 s2 : works hdl s l1 s1 -> works hdl s1 l2 s2 -> works hdl s (l1 ++ l2) s2.
Proof. induction 1; simpl; [done|]. intros. econstructor; eauto. Qed.
Lemma ring_next n t : n <> 0 -> (fun j => (t + j) mod n) <$> seq 0 n = t mod n :: ((fun j => (t + j) mod n) <$> seq 1 (n - 1)).
Proof. destruct n as [|n]; [done|]. intros _. simpl. rewrite Nat.sub_0_r, Nat.add_0_r. done. Qed.
Lemma ring_rotate n t k ring : (fun j => (t + j) mod n) <$> seq 0 n = k :: ring ->
  k = t mod n /\ n <> 0 /\ ring ++ [k] = (fun j => (t + 1 + j) mod n) <$> seq 0 n.
Proof.
  intros H. assert (n <> 0) as Hn by (intros ->; done). rewrite ring_next in H by done. injection H as <- <-. split_and!; [done|done|].
  destruct n as [|n]; [done|]. replace (Datatypes.S n - 1) with n by lia.
  replace (seq 0 (Datatypes.S n)) with (seq 0 n ++ [n]) by (by rewrite <- seq_S).
  rewrite fmap_app. f_equal.
  - rewrite <- fmap_S_seq, <- list_fmap_compose. apply list_fmap_ext. intros i j _. unfold compose. f_equal. lia.
  - cbn [fmap list_fmap]. f_equal. replace (t + 1 + n) with (t + 1 * Datatypes.S n) by lia. symmetry. by apply Nat.mod_add.
Qed.

Lemma cinv_same n w w' c x : cinv n w c x -> (c ∈ p_sbox w' <-> c ∈ p_sbox w) ->
  (forall k, (exists y, p_workers w' !! k = Some y /\ c ∈ k_box y) <-> (exists y, p_workers w !! k = Some y /\ c ∈ k_box y)) ->
  (exists a, p_asked w' = p_asked w ++ a) -> (forall h, h_call h = c -> h ∈ p_log w' <-> h ∈ p_log w) -> cinv n w' c x.
Proof.
  intros [A1 A2 A3 A4 A5 A6 A7 A8] Hs Hb [a Ha] Hl. split.
  - by rewrite Hs.
  - intros k Hk. destruct (A2 k Hk). split; [done|]. rewrite Ha. by apply turn_app.
  - intros k. rewrite Hb. apply A3.
  - intros k Hk. rewrite Ha. by apply turn_app, A4.
  - intros k r Hk. destruct (A5 k r Hk) as (h & ? & ? & ?). exists h. by rewrite Hl.
  - intros r Hk. destruct (A6 r Hk) as (h & ? & ? & ?). exists h. by rewrite Hl.
  - intros h Hh Hc. apply Hl in Hh; [|done]. destruct (A7 h Hh Hc) as (? & ? & ?). split_and!; [done|rewrite Ha; by apply turn_app|done].
  - done.
Qed.

(** A dispatch whose message is dropped, or that was not handled. *)
Lemma cinv_dropped n w w' c x : cinv n w c x -> c ∉ p_sbox w' ->
  (forall k y, p_workers w' !! k = Some y -> c ∉ k_box y) -> (forall h, h_call h = c -> h ∉ p_log w') ->
  (forall r, c_caller x <> Returned r) -> cinv n w' c (Call (c_msg x) (TEnd None) (c_caller x)).
Proof.
  intros A Hs Hb Hl Hr. split; simpl; try done.
  - intros k. split; [done|]. intros (y & Hy & Hc). by destruct (Hb k y Hy).
  - intros h Hh Hc. by destruct (Hl h Hc).
  - destruct (c_caller x) as [|[r|r]|] eqn:E1; try done. by destruct (Hr (inl r)).
Qed.
(** A waiting message has not been handled and its caller has no answer. *)
Lemma not_done n w c x : cinv n w c x -> (c_task x = TAsked \/ (exists k, c_task x = TToSend k) \/ exists k, c_task x = TSent k) ->
  (forall r, c_caller x <> Returned r) /\ forall h, h_call h = c -> h ∉ p_log w.
Proof.
  intros A Ht. split.
  - intros r Hr. pose proof (ci_ret _ _ _ _ A) as H. rewrite Hr in H.
    destruct r; destruct Ht as [E1|[[k E1]|[k E1]]]; by rewrite E1 in H.
  - intros h Hc Hh. destruct (ci_log _ _ _ _ A h Hh Hc) as (_ & _ & [E2|E2]);
      destruct Ht as [E1|[[k E1]|[k E1]]]; by rewrite E1 in E2.
Qed.

Lemma pinv_step s n w o w' : pinv s n w -> pstep w o = Some w' -> pinv s n w'.
Proof.
  intros HI Hst. destruct w as [cs sup ring sbox ws asked log].
  destruct HI as [Hcall Has Hasn Hsb Hbx Hlg Hsbn Hbxn Hlgn Hring Hws Hcl Hstate Hsc]. cbn [p_calls p_sup p_ring p_sbox p_workers p_asked p_log] in *.
  destruct o as [m| |c|k e|c|c|c|k|k| |]; cbn [Pool_Model.pstep] in Hst.
  - (* dispatch *)
    destruct (decide (sup = Closed)) as [->|Hns].
    { injection Hst as <-. split; cbn [p_calls p_sup p_ring p_sbox p_workers p_asked p_log]; try done.
      - intros c x Hx. apply lookup_app_Some in Hx as [Hx|[Hc Hx]].
        + eapply cinv_same; [apply Hcall, Hx|done|done|exists []; by rewrite app_nil_r|done].
        + apply list_lookup_singleton_Some in Hx as [Hi <-]. assert (c = length cs) as -> by lia. split; simpl; try done.
          * split; [done|]. intros H%Hsb. lia.
          * intros k. split; [done|]. intros (y & Hy & H%(Hbx k y)); [lia|done].
          * intros h Hh Hc'. specialize (Hlg h Hh). lia.
      - intros c H%Has. rewrite app_length. lia.
      - intros c H%Hsb. rewrite app_length. lia.
      - intros k y c Hy H%(Hbx k y); [|done]. rewrite app_length. lia.
      - intros h H%Hlg. rewrite app_length. lia. }
    assert (w' = Pool (cs ++ [Call m TAsked Waiting]) sup ring (sbox ++ [length cs]) ws (asked ++ [length cs]) log) as ->.
    { destruct sup; congruence. }
    clear Hst. split; cbn [p_calls p_sup p_ring p_sbox p_workers p_asked p_log]; try done.
    + intros c x Hx. apply lookup_app_Some in Hx as [Hx|[Hc Hx]].
      * eapply cinv_same; [apply Hcall, Hx|cbn|done|by eexists|done]. apply lookup_lt_Some in Hx. rewrite elem_of_app, elem_of_list_singleton. split; [|tauto]. intros [?|?]; [done|lia].
      * apply list_lookup_singleton_Some in Hx as [Hi <-]. assert (c = length cs) as -> by lia. split; simpl; try done.
        -- split; [|done]. intros _. rewrite elem_of_app, elem_of_list_singleton. auto.
        -- intros k. split; [done|]. intros (y & Hy & H%(Hbx k y)); [lia|done].
        -- intros h Hh Hc'. specialize (Hlg h Hh). lia.
    + intros c. rewrite app_length, elem_of_app, elem_of_list_singleton. simpl. intros [H%Has|H]; lia.
    + apply NoDup_app. split_and!; [done| |apply NoDup_singleton]. intros c H%Has. rewrite elem_of_list_singleton. lia.
    + intros c. rewrite app_length, elem_of_app, elem_of_list_singleton. simpl. intros [H%Hsb|H]; lia.
    + intros k y c Hy H%(Hbx k y); [|done]. rewrite app_length. lia.
    + intros h H%Hlg. rewrite app_length. lia.
    + apply NoDup_app. split_and!; [done| |apply NoDup_singleton]. intros c H%Hsb. rewrite elem_of_list_singleton. lia.
    + destruct Hring as [[? ?]|(taken & E1 & E2)]; [done|]. right. exists taken. by rewrite E1, (assoc (++)).
  - (* take *)
    destruct sup; try done. destruct sbox as [|c sbox]; [done|].
    destruct Hring as [[? ?]|(taken & E1 & E2)]; [done|].
    apply NoDup_cons in Hsbn as [Hc Hsbn].
    assert (Hcl' : c < length cs) by (apply Hsb, elem_of_list_here). destruct (lookup_lt_is_Some_2 cs c Hcl') as [x Hx].
    pose proof (Hcall c x Hx) as A. assert (Hxt : c_task x = TAsked) by (apply (ci_sbox _ _ _ _ A), elem_of_list_here).
    destruct (not_done _ _ _ _ A) as [Hnr Hnl]; [auto|].
    assert (Hnb : forall k y, ws !! k = Some y -> c ∉ k_box y).
    { intros k y Hy H. assert (c_task x = TSent k) by (apply (ci_sent _ _ _ _ A); by exists y). congruence. }
    assert (Hother : forall (t : task R) ring', c_task x = TAsked ->
      cinv n (Pool (set_task t c cs) Running ring' sbox ws asked log) c (Call (c_msg x) t (c_caller x)) ->
      forall c' x', set_task t c cs !! c' = Some x' -> cinv n (Pool (set_task t c cs) Running ring' sbox ws asked log) c' x').
    { intros t ring' _ Hn c' x'. rewrite lookup_set_task. case_decide as Hd; [subst c'; rewrite Hx; by intros [= <-]|].
      intros Hx'. eapply cinv_same; [apply Hcall, Hx'|cbn|done|exists []; by rewrite app_nil_r|done]. rewrite elem_of_cons. tauto. }
    destruct ring as [|k ring]; apply (inj Some) in Hst; subst w'.
    + split; cbn [p_calls p_sup p_ring p_sbox p_workers p_asked p_log]; rewrite ?length_set_task; try done.
      * apply Hother; [done|]. apply cinv_dropped with (1 := A); cbn; [done|done|done|done].
      * intros c' H. apply Hsb. by apply elem_of_list_further.
      * right. exists (taken ++ [c]). split; [by rewrite <- (assoc (++))|]. destruct n; [done|]. by apply (f_equal length) in E2.
    + destruct (ring_rotate _ _ _ _ (eq_sym E2)) as (Hk & Hn0 & Hrot).
      split; cbn [p_calls p_sup p_ring p_sbox p_workers p_asked p_log]; rewrite ?length_set_task; try done.
      * apply Hother; [done|]. split; simpl; try done.
        -- intros k' [= <-]. split; [subst k; by apply Nat.mod_upper_bound|]. exists (length taken). split; [|done].
           rewrite E1. by apply list_lookup_middle.
        -- intros k'. split; [done|]. intros (y & Hy & H). by destruct (Hnb k' y).
        -- intros h Hh Hhc. by destruct (Hnl h Hhc).
        -- destruct (c_caller x) as [|[r|r]|]; try done; [by destruct (Hnr (inl r))|by destruct (Hnr (inr r))].
      * intros c' H. apply Hsb. by apply elem_of_list_further.
      * right. exists (taken ++ [c]). split; [by rewrite <- (assoc (++))|]. rewrite app_length. simpl. done.
  - (* send *)
    destruct (cs !! c) as [x|] eqn:Hx; [|done]. cbn in Hst. destruct (c_task x) as [|k| | |] eqn:Ht; try done.
    destruct (ws !! k) as [y|] eqn:Hy; [|done]. cbn in Hst. pose proof (Hcall c x Hx) as A.
    destruct (not_done _ _ _ _ A) as [Hnr Hnl]; [right; left; by exists k|].
    assert (Hnb : forall k y, ws !! k = Some y -> c ∉ k_box y).
    { intros k' y' Hy' H. assert (c_task x = TSent k') by (apply (ci_sent _ _ _ _ A); by exists y'). congruence. }
    assert (Hns : c ∉ sbox) by (intros H; apply (ci_sbox _ _ _ _ A) in H; congruence).
    destruct (decide (k_life y = Closed)) as [Hlc|Hlc].
    { rewrite Hlc in Hst. apply (inj Some) in Hst; subst w'.
      split; cbn [p_calls p_sup p_ring p_sbox p_workers p_asked p_log]; rewrite ?length_set_task; try done.
      intros c' x'. rewrite lookup_set_task. case_decide as Hd.
      - subst c'. rewrite Hx. intros [= <-]. by apply cinv_dropped with (1 := A).
      - intros Hx'. eapply cinv_same; [apply Hcall, Hx'|done|done|exists []; by rewrite app_nil_r|done]. }
    assert (w' = Pool (set_task (TSent k) c cs) sup ring sbox (<[k:=Wk (k_state y) (k_box y ++ [c]) (k_life y)]> ws) asked log) as ->.
    { destruct (k_life y); congruence. } clear Hst.
    assert (Hk : k < length ws) by (by eapply lookup_lt_Some).
    assert (Hlook : forall k' y', <[k:=Wk (k_state y) (k_box y ++ [c]) (k_life y)]> ws !! k' = Some y' ->
      (k' = k /\ y' = Wk (k_state y) (k_box y ++ [c]) (k_life y)) \/ (k' <> k /\ ws !! k' = Some y')).
    { intros k' y'. rewrite list_lookup_insert_Some. intros [(-> & <- & _)|[? ?]]; [by left|right; split; [congruence|done]]. }
    split; cbn [p_calls p_sup p_ring p_sbox p_workers p_asked p_log]; rewrite ?length_set_task; try done.
    + intros c' x'. rewrite lookup_set_task. case_decide as Hd.
      * subst c'. rewrite Hx. intros [= <-]. split; simpl; try done.
        -- intros k'. split.
           ++ intros [= <-]. eexists. split; [by apply list_lookup_insert|]. simpl. rewrite elem_of_app, elem_of_list_singleton. auto.
           ++ intros (y' & Hy' & H). destruct (Hlook _ _ Hy') as [[-> _]|[_ Hy2]]; [done|]. by destruct (Hnb k' y').
        -- intros k' [= <-]. by apply (ci_send _ _ _ _ A).
        -- intros h Hh Hhc. by destruct (Hnl h Hhc).
        -- destruct (c_caller x) as [|[r|r]|]; try done; [by destruct (Hnr (inl r))|by destruct (Hnr (inr r))].
      * intros Hx'. eapply cinv_same; [apply Hcall, Hx'|done| |exists []; by rewrite app_nil_r|done].
        intros k'. cbn. split.
        -- intros (y' & Hy' & H). destruct (Hlook _ _ Hy') as [[-> ->]|[_ Hy2]]; [|by exists y'].
           exists y. split; [done|]. simpl in H. rewrite elem_of_app, elem_of_list_singleton in H. by destruct H.
        -- intros (y' & Hy' & H). destruct (decide (k' = k)) as [->|Hkk].
           ++ eexists. split; [by apply list_lookup_insert|]. simpl. rewrite elem_of_app. left. congruence.
           ++ exists y'. by rewrite list_lookup_insert_ne by done.
    + intros k' y' c' Hy'. destruct (Hlook _ _ Hy') as [[-> ->]|[_ Hy2]]; [|by eapply Hbx].
      simpl. rewrite elem_of_app, elem_of_list_singleton. intros [H| ->]; [by eapply Hbx|by eapply lookup_lt_Some].
    + intros k' y' Hy'. destruct (Hlook _ _ Hy') as [[-> ->]|[_ Hy2]]; [|by eapply Hbxn].
      simpl. apply NoDup_app. split_and!; [by eapply Hbxn| |apply NoDup_singleton].
      intros c' H. rewrite elem_of_list_singleton. intros ->. by destruct (Hnb k y).
    + by rewrite insert_length.
    + intros k' y' Hy' H. destruct (Hlook _ _ Hy') as [[-> ->]|[_ Hy2]]; [done|by eapply Hcl].
    + intros k' y' Hy'. destruct (Hlook _ _ Hy') as [[-> ->]|[_ Hy2]]; [|by apply Hstate]. simpl. by apply Hstate.
  - (* work *)
    destruct (ws !! k) as [y|] eqn:Hy; [|done]. cbn in Hst. destruct (k_life y) eqn:Hly; try done.
    destruct (k_box y) as [|c box] eqn:Hbox; [done|]. destruct (cs !! c) as [x|] eqn:Hx; [|done]. cbn in Hst.
    pose proof (Hcall c x Hx) as A. assert (Hxt : c_task x = TSent k).
    { apply (ci_sent _ _ _ _ A). exists y. split; [done|]. rewrite Hbox. apply elem_of_list_here. }
    destruct (not_done _ _ _ _ A) as [Hnr Hnl]; [right; right; by exists k|].
    pose proof (Hbxn k y Hy) as Hnd. rewrite Hbox in Hnd. apply NoDup_cons in Hnd as [Hcb Hnd].
    assert (Hns : c ∉ sbox) by (intros H; apply (ci_sbox _ _ _ _ A) in H; congruence).
    assert (Hk : k < length ws) by (by eapply lookup_lt_Some).
    assert (Hlook : forall z k' y', <[k:=z]> ws !! k' = Some y' ->
      (k' = k /\ y' = z) \/ (k' <> k /\ ws !! k' = Some y')).
    { intros z k' y'. rewrite list_lookup_insert_Some. intros [(-> & <- & _)|[? ?]]; [by left|right; split; [congruence|done]]. }
    destruct (hdl e (k_state y) (c_msg x)) as [[s1 r]|] eqn:Hh; apply (inj Some) in Hst; subst w'.
    + split; cbn [p_calls p_sup p_ring p_sbox p_workers p_asked p_log]; rewrite ?length_set_task; try done.
      * intros c' x'. rewrite lookup_set_task. case_decide as Hd.
        -- subst c'. rewrite Hx. intros [= <-]. split; simpl; try done.
           ++ intros k'. split; [done|]. intros (y' & Hy' & H). exfalso. destruct (Hlook _ _ _ Hy') as [[-> ->]|[Hkk Hy2]]; [done|].
              assert (c_task x = TSent k') by (apply (ci_sent _ _ _ _ A); by exists y'). congruence.
           ++ intros k' r' [= -> ->]. eexists. split; [apply elem_of_app; right; apply elem_of_list_here|done].
           ++ intros h [Hh'| ->%elem_of_list_singleton]%elem_of_app Hhc; [by destruct (Hnl h Hhc)|]. simpl.
              split_and!; [done| |by left]. by apply (ci_sent_turn _ _ _ _ A).
           ++ destruct (c_caller x) as [|[r'|r']|]; try done; [by destruct (Hnr (inl r'))|by destruct (Hnr (inr r'))].
        -- intros Hx'. eapply cinv_same; [apply Hcall, Hx'|done| |exists []; by rewrite app_nil_r|].
           ++ intros k'. cbn. split.
              ** intros (y' & Hy' & H). destruct (Hlook _ _ _ Hy') as [[-> ->]|[_ Hy2]]; [|by exists y'].
                 exists y. split; [done|]. rewrite Hbox. by apply elem_of_list_further.
              ** intros (y' & Hy' & H). destruct (decide (k' = k)) as [->|Hkk].
                 --- eexists. split; [by apply list_lookup_insert|]. simpl. rewrite Hy in Hy'. injection Hy' as <-.
                     rewrite Hbox in H. apply elem_of_cons in H as [?|?]; done.
                 --- exists y'. by rewrite list_lookup_insert_ne by done.
           ++ intros h Hhc. cbn. rewrite elem_of_app, elem_of_list_singleton. split; [|auto]. intros [?| ->]; [done|]. simpl in Hhc. congruence.
      * intros k' y' c' Hy' H. destruct (Hlook _ _ _ Hy') as [[-> ->]|[_ Hy2]]; [|by eapply Hbx]. eapply (Hbx k y); [done|].
        rewrite Hbox. by apply elem_of_list_further.
      * intros h [H| ->%elem_of_list_singleton]%elem_of_app; [by apply Hlg|]. simpl. by eapply lookup_lt_Some.
      * intros k' y' Hy'. destruct (Hlook _ _ _ Hy') as [[-> ->]|[_ Hy2]]; [done|by eapply Hbxn].
      * rewrite fmap_app. apply NoDup_app. split_and!; [done| |apply NoDup_singleton]. simpl.
        intros c' (h & -> & Hh')%elem_of_list_fmap. rewrite elem_of_list_singleton. intros Hhc. by destruct (Hnl h Hhc).
      * by rewrite insert_length.
      * intros k' y' Hy' H. destruct (Hlook _ _ _ Hy') as [[-> ->]|[_ Hy2]]; [done|by eapply Hcl].
      * intros k' y' Hy'. rewrite filter_app. destruct (Hlook _ _ _ Hy') as [[-> ->]|[Hkk Hy2]]; simpl.
        -- eapply works_app; [by apply Hstate|]. rewrite filter_cons_True by done. econstructor; [exact Hh|constructor].
        -- rewrite filter_cons_False by done. rewrite filter_nil, app_nil_r. by apply Hstate.
    + split; cbn [p_calls p_sup p_ring p_sbox p_workers p_asked p_log]; rewrite ?length_drop_all; try done.
      * intros c' x'. rewrite lookup_drop_all. case_decide as Hd.
        -- destruct (cs !! c') as [x0|] eqn:Hx0; [|done]. intros [= <-]. pose proof (Hcall c' x0 Hx0) as A0.
           assert (Ht0 : c_task x0 = TSent k) by (apply (ci_sent _ _ _ _ A0); exists y; by rewrite Hbox).
           destruct (not_done _ _ _ _ A0) as [Hnr0 Hnl0]; [right; right; by exists k|].
           apply cinv_dropped with (1 := A0); cbn; [|  |done|done].
           ++ intros H. apply (ci_sbox _ _ _ _ A0) in H. congruence.
           ++ intros k' y' Hy'. destruct (Hlook _ _ _ Hy') as [[-> ->]|[Hkk Hy2]]; [apply not_elem_of_nil|]. intros H.
              assert (c_task x0 = TSent k') by (apply (ci_sent _ _ _ _ A0); by exists y'). congruence.
        -- intros Hx'. eapply cinv_same; [apply Hcall, Hx'|done| |exists []; by rewrite app_nil_r|done].
           intros k'. cbn. split.
           ++ intros (y' & Hy' & H). destruct (Hlook _ _ _ Hy') as [[-> ->]|[_ Hy2]]; [by apply elem_of_nil in H|by exists y'].
           ++ intros (y' & Hy' & H). destruct (decide (k' = k)) as [->|Hkk].
              ** rewrite Hy in Hy'. injection Hy' as <-. rewrite Hbox in H. done.
              ** exists y'. by rewrite list_lookup_insert_ne by done.
      * intros k' y' c' Hy' H. destruct (Hlook _ _ _ Hy') as [[-> ->]|[_ Hy2]]; [by apply elem_of_nil in H|by eapply Hbx].
      * intros k' y' Hy'. destruct (Hlook _ _ _ Hy') as [[-> ->]|[_ Hy2]]; [apply NoDup_nil_2|by eapply Hbxn].
      * by rewrite insert_length.
      * intros k' y' Hy' H. destruct (Hlook _ _ _ Hy') as [[-> ->]|[_ Hy2]]; [done|by eapply Hcl].
      * intros k' y' Hy'. destruct (Hlook _ _ _ Hy') as [[-> ->]|[Hkk Hy2]]; simpl; by apply Hstate.
  - (* forward *)
    destruct (cs !! c) as [x|] eqn:Hx; [|done]. cbn in Hst. destruct (c_task x) as [| | |k r|] eqn:Ht; try done.
    apply (inj Some) in Hst; subst w'. pose proof (Hcall c x Hx) as A.
    split; cbn [p_calls p_sup p_ring p_sbox p_workers p_asked p_log]; rewrite ?length_set_task; try done.
    intros c' x'. rewrite lookup_set_task. case_decide as Hd.
    + subst c'. rewrite Hx. intros [= <-]. destruct A as [A1 A2 A3 A4 A5 A6 A7 A8]. split; simpl; try done.
      * split; [done|]. intros H. apply A1 in H. congruence.
      * intros k'. split; [done|]. intros H. apply A3 in H. congruence.
      * intros r' [= <-]. by eapply A5.
      * intros h Hh Hc. destruct (A7 h Hh Hc) as (H1 & H2 & [H3|H3]); [|congruence]. split_and!; [done|done|]. right. congruence.
      * destruct (c_caller x) as [|[r'|r']|]; try done; rewrite Ht in A8; done.
    + intros Hx'. eapply cinv_same; [apply Hcall, Hx'|done|done|exists []; by rewrite app_nil_r|done].
  - (* return *)
    destruct (cs !! c) as [x|] eqn:Hx; [|done]. cbn in Hst. destruct (c_caller x) eqn:Hca; try done.
    destruct (c_task x) as [| | | |o] eqn:Ht; try done. pose proof (Hcall c x Hx) as A.
    assert (exists a, w' = Pool (set_caller (Returned a) c cs) sup ring sbox ws asked log /\
      match a with inl r => o = Some r | inr _ => o = None end) as (a & -> & Ha).
    { destruct o as [r|]; apply (inj Some) in Hst; subst w'; [by exists (inl r)|by exists (inr ResultChannelClosed)]. }
    clear Hst. split; cbn [p_calls p_sup p_ring p_sbox p_workers p_asked p_log]; rewrite ?length_set_caller; try done.
    intros c' x'. rewrite lookup_set_caller. case_decide as Hd.
    + subst c'. rewrite Hx. intros [= <-]. destruct A as [A1 A2 A3 A4 A5 A6 A7 A8]. split; simpl; try done.
      destruct a; congruence.
    + intros Hx'. eapply cinv_same; [apply Hcall, Hx'|done|done|exists []; by rewrite app_nil_r|done].
  - (* cancel *)
    destruct (cs !! c) as [x|] eqn:Hx; [|done]. cbn in Hst. destruct (c_caller x) eqn:Hca; try done.
    pose proof (Hcall c x Hx) as A. apply (inj Some) in Hst; subst w'.
    split; cbn [p_calls p_sup p_ring p_sbox p_workers p_asked p_log]; rewrite ?length_set_caller; try done.
    intros c' x'. rewrite lookup_set_caller. case_decide as Hd.
    + subst c'. rewrite Hx. intros [= <-]. destruct A as [A1 A2 A3 A4 A5 A6 A7 A8]. by split.
    + intros Hx'. eapply cinv_same; [apply Hcall, Hx'|done|done|exists []; by rewrite app_nil_r|done].
  - (* end *)
    destruct (ws !! k) as [y|] eqn:Hy; [|done]. cbn in Hst. destruct (k_life y) eqn:Hly; try done. apply (inj Some) in Hst; subst w'.
    assert (Hlook : forall z k' y', <[k:=z]> ws !! k' = Some y' ->
      (k' = k /\ y' = z) \/ (k' <> k /\ ws !! k' = Some y')).
    { intros z k' y'. rewrite list_lookup_insert_Some. intros [(-> & <- & _)|[? ?]]; [by left|right; split; [congruence|done]]. }
    assert (Hk : k < length ws) by (by eapply lookup_lt_Some).
    split; cbn [p_calls p_sup p_ring p_sbox p_workers p_asked p_log]; try done.
    + intros c' x' Hx'. eapply cinv_same; [apply Hcall, Hx'|done| |exists []; by rewrite app_nil_r|done]. intros k'. cbn. split.
      * intros (y' & Hy' & H). destruct (Hlook _ _ _ Hy') as [[-> ->]|[_ Hy2]]; [by exists y|by exists y'].
      * intros (y' & Hy' & H). destruct (decide (k' = k)) as [->|Hkk].
        -- eexists. split; [by apply list_lookup_insert|]. simpl. congruence.
        -- exists y'. by rewrite list_lookup_insert_ne by done.
    + intros k' y' c' Hy' H. destruct (Hlook _ _ _ Hy') as [[-> ->]|[_ Hy2]]; by eapply Hbx.
    + intros k' y' Hy'. destruct (Hlook _ _ _ Hy') as [[-> ->]|[_ Hy2]]; [apply (Hbxn k y Hy)|by eapply Hbxn].
    + by rewrite insert_length.
    + intros k' y' Hy' H. destruct (Hlook _ _ _ Hy') as [[-> ->]|[_ Hy2]]; [done|by eapply Hcl].
    + intros k' y' Hy'. destruct (Hlook _ _ _ Hy') as [[-> ->]|[Hkk Hy2]]; simpl; by apply Hstate.
  - (* close *)
    destruct (ws !! k) as [y|] eqn:Hy; [|done]. cbn in Hst. destruct (k_life y) eqn:Hly; try done. apply (inj Some) in Hst; subst w'.
    assert (Hlook : forall z k' y', <[k:=z]> ws !! k' = Some y' ->
      (k' = k /\ y' = z) \/ (k' <> k /\ ws !! k' = Some y')).
    { intros z k' y'. rewrite list_lookup_insert_Some. intros [(-> & <- & _)|[? ?]]; [by left|right; split; [congruence|done]]. }
    assert (Hk : k < length ws) by (by eapply lookup_lt_Some).
    split; cbn [p_calls p_sup p_ring p_sbox p_workers p_asked p_log]; rewrite ?length_drop_all; try done.
    + intros c' x'. rewrite lookup_drop_all. case_decide as Hd.
      * destruct (cs !! c') as [x0|] eqn:Hx0; [|done]. intros [= <-]. pose proof (Hcall c' x0 Hx0) as A0.
        assert (Ht0 : c_task x0 = TSent k) by (apply (ci_sent _ _ _ _ A0); by exists y).
        destruct (not_done _ _ _ _ A0) as [Hnr0 Hnl0]; [right; right; by exists k|].
        apply cinv_dropped with (1 := A0); cbn; [|  |done|done].
        -- intros H. apply (ci_sbox _ _ _ _ A0) in H. congruence.
        -- intros k' y' Hy'. destruct (Hlook _ _ _ Hy') as [[-> ->]|[Hkk Hy2]]; [apply not_elem_of_nil|]. intros H.
           assert (c_task x0 = TSent k') by (apply (ci_sent _ _ _ _ A0); by exists y'). congruence.
      * intros Hx'. eapply cinv_same; [apply Hcall, Hx'|done| |exists []; by rewrite app_nil_r|done].
        intros k'. cbn. split.
        -- intros (y' & Hy' & H). destruct (Hlook _ _ _ Hy') as [[-> ->]|[_ Hy2]]; [by apply elem_of_nil in H|by exists y'].
        -- intros (y' & Hy' & H). destruct (decide (k' = k)) as [->|Hkk].
           ++ rewrite Hy in Hy'. injection Hy' as <-. done.
           ++ exists y'. by rewrite list_lookup_insert_ne by done.
    + intros k' y' c' Hy' H. destruct (Hlook _ _ _ Hy') as [[-> ->]|[_ Hy2]]; [by apply elem_of_nil in H|by eapply Hbx].
    + intros k' y' Hy'. destruct (Hlook _ _ _ Hy') as [[-> ->]|[_ Hy2]]; [apply NoDup_nil_2|by eapply Hbxn].
    + by rewrite insert_length.
    + intros k' y' Hy' H. destruct (Hlook _ _ _ Hy') as [[-> ->]|[_ Hy2]]; [done|by eapply Hcl].
    + intros k' y' Hy'. destruct (Hlook _ _ _ Hy') as [[-> ->]|[Hkk Hy2]]; simpl; by apply Hstate.
  - (* the supervisor ends *)
    destruct sup; try done. apply (inj Some) in Hst; subst w'.
    split; cbn [p_calls p_sup p_ring p_sbox p_workers p_asked p_log]; try done.
    + intros c' x' Hx'. eapply cinv_same; [apply Hcall, Hx'|done|done|exists []; by rewrite app_nil_r|done].
    + destruct Hring as [[? ?]|?]; [done|by right].
  - (* its mailbox goes *)
    destruct sup; try done. apply (inj Some) in Hst; subst w'.
    split; cbn [p_calls p_sup p_ring p_sbox p_workers p_asked p_log]; rewrite ?length_drop_all; try done.
    + intros c' x'. rewrite lookup_drop_all. case_decide as Hd.
      * destruct (cs !! c') as [x0|] eqn:Hx0; [|done]. intros [= <-]. pose proof (Hcall c' x0 Hx0) as A0.
        assert (Ht0 : c_task x0 = TAsked) by (by apply (ci_sbox _ _ _ _ A0)).
        destruct (not_done _ _ _ _ A0) as [Hnr0 Hnl0]; [by left|].
        apply cinv_dropped with (1 := A0); cbn; [apply not_elem_of_nil|  |done|done].
        intros k' y' Hy' H. assert (c_task x0 = TSent k') by (apply (ci_sent _ _ _ _ A0); by exists y'). congruence.
      * intros Hx'. eapply cinv_same; [apply Hcall, Hx'|cbn|done|exists []; by rewrite app_nil_r|done].
        split; [by intros ?%elem_of_nil|]. done.
    + by intros c' ?%elem_of_nil.
    + apply NoDup_nil_2.
    + by left.
Qed.
Lemma pinv_run s n w (l : list pop) w' : pinv s n w -> prun w l = Some w' -> pinv s n w'.
Proof.
  revert w. induction l as [|o l IH]; intros w HI H; simpl in H; [by simplify_eq|].
  destruct (pstep w o) as [w1|] eqn:E1; [|done]. eapply IH; [by eapply pinv_step|done].
Qed.

(** What is handled stays in the log; a worker that does not run handles nothing; the numbering of the
    messages stays. *)
Lemma grow_step w o w' : pstep w o = Some w' ->
  (exists a, p_log w' = p_log w ++ a /\ forall h, h ∈ a -> life_of w (h_worker h) = Some Running) /\
  (exists a, p_asked w' = p_asked w ++ a) /\
  (forall k, life_of w k = Some Closed -> life_of w' k = Some Closed) /\
  (forall k, life_of w k = Some Ending -> life_of w' k <> Some Running) /\
  length (p_calls w) <= length (p_calls w') /\
  (p_sup w = Closed -> p_sup w' = Closed).
Proof.
  intros Hst. destruct w as [cs sup ring sbox ws asked log].
  assert (Hsame : forall l1 : list (handled M R E), exists a, l1 = l1 ++ a /\ forall h, h ∈ a -> life_of (Pool cs sup ring sbox ws asked log) (h_worker h) = Some Running).
  { intros l1. exists []. split; [by rewrite app_nil_r|]. by intros h ?%elem_of_nil. }
  assert (Hsame' : forall l1 : list nat, exists a, l1 = l1 ++ a) by (intros; exists []; by rewrite app_nil_r).
  assert (Hlife : forall k y z k', ws !! k = Some y -> k_life <$> <[k:=z]> ws !! k' = if decide (k' = k) then Some (k_life z) else k_life <$> ws !! k').
  { intros k y z k' Hy. case_decide as Hd; [subst; rewrite list_lookup_insert by (by eapply lookup_lt_Some); done|].
    by rewrite list_lookup_insert_ne by done. }
  unfold life_of in *.
  destruct o as [m| |c|k e|c|c|c|k|k| |]; cbn [Pool_Model.pstep] in Hst.
  - destruct sup; apply (inj Some) in Hst; subst w'; cbn -[length]; rewrite app_length; split_and!; auto; try lia; try (by eexists); intros; congruence.
  - destruct sup; try done. destruct sbox as [|c sbox]; [done|]. destruct ring as [|k ring]; apply (inj Some) in Hst; subst w'; cbn; rewrite length_set_task; split_and!; auto; intros; congruence.
  - destruct (cs !! c) as [x|] eqn:Hx; [|done]. cbn in Hst. destruct (c_task x) as [|k| | |] eqn:Ht; try done.
    destruct (ws !! k) as [y|] eqn:Hy; [|done]. cbn in Hst. 
    destruct (k_life y) eqn:Hl; apply (inj Some) in Hst; subst w'; cbn; rewrite length_set_task; split_and!; auto; intros k';
      rewrite ?(Hlife _ _ _ _ Hy); try case_decide; subst; rewrite ?Hy; cbn; congruence.
  - destruct (ws !! k) as [y|] eqn:Hy; [|done]. cbn in Hst. destruct (k_life y) eqn:Hl; try done.
    destruct (k_box y) as [|c box] eqn:Hbox; [done|]. destruct (cs !! c) as [x|] eqn:Hx; [|done]. cbn in Hst.
    destruct (hdl e (k_state y) (c_msg x)) as [[s1 r]|] eqn:Hh; apply (inj Some) in Hst; subst w'; cbn;
      rewrite ?length_set_task, ?length_drop_all; split_and!; auto.
    + eexists. split; [done|]. intros h ->%elem_of_list_singleton. simpl. by rewrite Hy, <- Hl.
    + intros k'. rewrite (Hlife _ _ _ _ Hy). case_decide; subst; rewrite ?Hy; cbn; congruence.
    + intros k'. rewrite (Hlife _ _ _ _ Hy). case_decide; subst; rewrite ?Hy; cbn; congruence.
    + intros k'. rewrite (Hlife _ _ _ _ Hy). case_decide; subst; rewrite ?Hy; cbn; congruence.
    + intros k'. rewrite (Hlife _ _ _ _ Hy). case_decide; subst; rewrite ?Hy; cbn; congruence.
  - destruct (cs !! c) as [x|] eqn:Hx; [|done]. cbn in Hst. destruct (c_task x) as [| | |k r|] eqn:Ht; try done.
    apply (inj Some) in Hst; subst w'; cbn; rewrite length_set_task; split_and!; auto; intros; congruence.
  - destruct (cs !! c) as [x|] eqn:Hx; [|done]. cbn in Hst. destruct (c_caller x); try done. destruct (c_task x) as [| | | |[r|]] eqn:Ht; try done;
    apply (inj Some) in Hst; subst w'; cbn; rewrite length_set_caller; split_and!; auto; intros; congruence.
  - destruct (cs !! c) as [x|] eqn:Hx; [|done]. cbn in Hst. destruct (c_caller x); try done. 
    apply (inj Some) in Hst; subst w'; cbn; rewrite length_set_caller; split_and!; auto; intros; congruence.
  - destruct (ws !! k) as [y|] eqn:Hy; [|done]. cbn in Hst. destruct (k_life y) eqn:Hl; try done.
    apply (inj Some) in Hst; subst w'; cbn; split_and!; auto; intros k'; rewrite (Hlife _ _ _ _ Hy); case_decide; subst; rewrite ?Hy; cbn; congruence.
  - destruct (ws !! k) as [y|] eqn:Hy; [|done]. cbn in Hst. destruct (k_life y) eqn:Hl; try done.
    apply (inj Some) in Hst; subst w'; cbn; rewrite length_drop_all; split_and!; auto; intros k'; rewrite (Hlife _ _ _ _ Hy); case_decide; subst; rewrite ?Hy; cbn; congruence.
  - destruct sup; try done. apply (inj Some) in Hst; subst w'; cbn; split_and!; auto; intros; congruence.
  - destruct sup; try done. apply (inj Some) in Hst; subst w'; cbn; rewrite length_drop_all; split_and!; auto; intros; congruence.
Qed.
Lemma grow_run w (l : list pop) w' : prun w l = Some w' ->
  (exists a, p_log w' = p_log w ++ a) /\ (exists a, p_asked w' = p_asked w ++ a) /\ length (p_calls w) <= length (p_calls w').
Proof.
  revert w. induction l as [|o l IH]; intros w H; simpl in H.
  { simplify_eq. split_and!; [exists []; by rewrite app_nil_r|exists []; by rewrite app_nil_r|done]. }
  destruct (pstep w o) as [w1|] eqn:E1; [|done]. destruct (grow_step _ _ _ E1) as ((a & Ea & _) & (b & Eb) & _ & _ & ? & _).
  destruct (IH _ H) as ((a1 & E2) & (b1 & E3) & ?).
  split_and!; [|  |lia].
  - exists (a ++ a1). by rewrite E2, Ea, (assoc (++)).
  - exists (b ++ b1). by rewrite E3, Eb, (assoc (++)).
Qed.
Lemma dead_run s n w (l : list pop) w' k : pinv s n w -> prun w l = Some w' -> life_of w k = Some Closed \/ life_of w k = Some Ending ->
  exists a, p_log w' = p_log w ++ a /\ forall h, h ∈ a -> h_worker h <> k.
Proof.
  revert w. induction l as [|o l IH]; intros w HI H Hk; simpl in H.
  { simplify_eq. exists []. split; [by rewrite app_nil_r|]. by intros h ?%elem_of_nil. }
  destruct (pstep w o) as [w1|] eqn:E1; [|done]. destruct (grow_step _ _ _ E1) as ((a & Ea & Ha) & _ & H1 & H2 & _).
  assert (HI1 : pinv s n w1) by (by eapply pinv_step).
  assert (Hk1 : life_of w1 k = Some Closed \/ life_of w1 k = Some Ending).
  { destruct Hk as [Hk|Hk]; [by left; apply H1|]. specialize (H2 k Hk). specialize (H1 k).
    assert (is_Some (life_of w1 k)) as [[]?]; [|done|by right|by left].
    unfold life_of in *. apply fmap_is_Some, lookup_lt_is_Some_2. rewrite (pi_workers _ _ _ HI1), <- (pi_workers _ _ _ HI).
    destruct (p_workers w !! k) eqn:E2; [by eapply lookup_lt_Some|done]. }
  destruct (IH _ HI1 H Hk1) as (a1 & E2 & Ha1). exists (a ++ a1). split; [by rewrite E2, Ea, (assoc (++))|].
  intros h [Hh|Hh]%elem_of_app; [|by apply Ha1]. intros <-. rewrite (Ha h Hh) in Hk. destruct Hk; done.
Qed.

(** The steps that are left. *)
Definition task_weight (t : task R) : nat :=
  match t with TAsked => 4 | TToSend _ => 3 | TSent _ => 2 | TGot _ _ => 1 | TEnd _ => 0 end.
Definition call_weight x : nat := task_weight (c_task x) + match c_caller x with Waiting => 1 | _ => 0 end.
Definition life_weight (y : life) : nat := match y with Ending => 1 | _ => 0 end.
Definition work (w : pool) : nat :=
  sum_list_with call_weight (p_calls w) + sum_list_with (fun y => life_weight (k_life y)) (p_workers w) + life_weight (p_sup w).

Lemma sum_alter {A} (f : A -> nat) (g : A -> A) i (l : list A) (x : A) : l !! i = Some x ->
  sum_list_with f (alter g i l) + f x = sum_list_with f l + f (g x).
Proof.
  revert i. induction l as [|a l IH]; intros [|i] H; try done.
  - injection H as ->. simpl. lia.
  - simpl in H. specialize (IH i H). simpl. unfold alter in IH. lia.
Qed.
Lemma sum_insert {A} (f : A -> nat) i (l : list A) (x y : A) : l !! i = Some x ->
  sum_list_with f (<[i:=y]> l) + f x = sum_list_with f l + f y.
Proof.
  intros H. rewrite <- (sum_alter f (fun _ => y) i l x H). f_equal. f_equal.
  apply list_eq. intros j. destruct (decide (j = i)) as [->|Hne].
  - rewrite list_lookup_alter, list_lookup_insert by (by eapply lookup_lt_Some). by rewrite H.
  - by rewrite list_lookup_alter_ne, list_lookup_insert_ne.
Qed.
Lemma set_task_weight t c l x : l !! c = Some x ->
  sum_list_with call_weight (set_task t c l) + task_weight (c_task x) = sum_list_with call_weight l + task_weight t.
Proof.
  intros H. pose proof (sum_alter call_weight (fun x => Call (c_msg x) t (c_caller x)) c l x H) as E1.
  unfold set_task. unfold call_weight in *. simpl in *. lia.
Qed.
Lemma set_caller_weight y c l x : l !! c = Some x -> c_caller x = Waiting -> y <> Waiting ->
  sum_list_with call_weight (set_caller y c l) + 1 = sum_list_with call_weight l.
Proof.
  intros H Hc Hy. pose proof (sum_alter call_weight (fun x => Call (c_msg x) (c_task x) y) c l x H) as E1.
  unfold set_caller. unfold call_weight in *. simpl in *. rewrite Hc in E1. destruct y; [done|lia|lia].
Qed.
Lemma drop_all_weight cs l : sum_list_with call_weight (drop_all cs l) <= sum_list_with call_weight l.
Proof.
  induction cs as [|c cs IH]; [done|]. change (drop_all (c :: cs) l) with (set_task (TEnd None) c (drop_all cs l)).
  destruct (drop_all cs l !! c) as [x|] eqn:Hx.
  - pose proof (set_task_weight (TEnd None) c _ x Hx) as E1. simpl in E1. lia.
  - replace (set_task (TEnd None) c (drop_all cs l)) with (drop_all cs l); [done|].
    apply list_eq. intros j. rewrite lookup_set_task. case_decide; [subst; by rewrite Hx|done].
Qed.

Lemma work_step s n w o w' : pinv s n w -> pstep w o = Some w' -> inner o = true -> work w' < work w.
Proof.
  intros HI Hst Ho. destruct w as [cs sup ring sbox ws asked log].
  destruct HI as [Hcall Has Hasn Hsb Hbx Hlg Hsbn Hbxn Hlgn Hring Hws Hcl Hstate Hsc]. cbn [p_calls p_sup p_ring p_sbox p_workers p_asked p_log] in *.
  unfold work. destruct o as [m| |c|k e|c|c|c|k|k| |]; try done; cbn [Pool_Model.pstep] in Hst.
  - destruct sup; try done. destruct sbox as [|c sbox]; [done|].
    assert (Hcl' : c < length cs) by (apply Hsb, elem_of_list_here). destruct (lookup_lt_is_Some_2 cs c Hcl') as [x Hx].
    pose proof (Hcall c x Hx) as A. assert (Hxt : c_task x = TAsked) by (apply (ci_sbox _ _ _ _ A), elem_of_list_here).
    destruct ring as [|k ring]; apply (inj Some) in Hst; subst w'; cbn [p_calls p_sup p_workers].
    + pose proof (set_task_weight (TEnd None) c cs x Hx) as E1. rewrite Hxt in E1. simpl in E1. lia.
    + pose proof (set_task_weight (TToSend k) c cs x Hx) as E1. rewrite Hxt in E1. simpl in E1. lia.
  - destruct (cs !! c) as [x|] eqn:Hx; [|done]. cbn in Hst. destruct (c_task x) as [|k| | |] eqn:Ht; try done.
    destruct (ws !! k) as [y|] eqn:Hy; [|done]. cbn in Hst.
    assert (E0 : forall z, k_life z = k_life y -> sum_list_with (fun y => life_weight (k_life y)) (<[k:=z]> ws) = sum_list_with (fun y => life_weight (k_life y)) ws).
    { intros z Hz. pose proof (sum_insert (fun y => life_weight (k_life y)) k ws y z Hy) as E1. cbv beta in E1. rewrite Hz in E1. lia. }
    pose proof (set_task_weight (TEnd None) c cs x Hx) as E1. pose proof (set_task_weight (TSent k) c cs x Hx) as E2.
    rewrite Ht in E1, E2. simpl in E1, E2.
    destruct (k_life y) eqn:Hl; apply (inj Some) in Hst; subst w'; cbn [p_calls p_sup p_workers]; rewrite ?E0 by done; lia.
  - destruct (ws !! k) as [y|] eqn:Hy; [|done]. cbn in Hst. destruct (k_life y) eqn:Hl; try done.
    destruct (k_box y) as [|c box] eqn:Hbox; [done|]. destruct (cs !! c) as [x|] eqn:Hx; [|done]. cbn in Hst.
    pose proof (Hcall c x Hx) as A. assert (Hxt : c_task x = TSent k).
    { apply (ci_sent _ _ _ _ A). exists y. split; [done|]. rewrite Hbox. apply elem_of_list_here. }
    destruct (hdl e (k_state y) (c_msg x)) as [[s1 r]|] eqn:Hh; apply (inj Some) in Hst; subst w'; cbn [p_calls p_sup p_workers].
    + pose proof (sum_insert (fun y => life_weight (k_life y)) k ws y (Wk s1 box Running) Hy) as E1. cbv beta in E1. rewrite Hl in E1. simpl in E1.
      pose proof (set_task_weight (TGot k r) c cs x Hx) as E2. rewrite Hxt in E2. simpl in E2. lia.
    + pose proof (sum_insert (fun y => life_weight (k_life y)) k ws y (Wk (k_state y) [] Closed) Hy) as E1. cbv beta in E1. rewrite Hl in E1. simpl in E1.
      assert (Hnd : c ∉ box) by (pose proof (Hbxn k y Hy) as H; rewrite Hbox in H; by apply NoDup_cons in H as [? _]).
      change (drop_all (c :: box) cs) with (set_task (TEnd None) c (drop_all box cs)).
      assert (Hx' : drop_all box cs !! c = Some x) by (rewrite lookup_drop_all; by rewrite decide_False).
      pose proof (set_task_weight (TEnd None) c _ x Hx') as E2. rewrite Hxt in E2. simpl in E2.
      pose proof (drop_all_weight box cs). lia.
  - destruct (cs !! c) as [x|] eqn:Hx; [|done]. cbn in Hst. destruct (c_task x) as [| | |k r|] eqn:Ht; try done.
    apply (inj Some) in Hst; subst w'; cbn [p_calls p_sup p_workers]. pose proof (set_task_weight (TEnd (Some r)) c cs x Hx) as E1. rewrite Ht in E1. simpl in E1. lia.
  - destruct (cs !! c) as [x|] eqn:Hx; [|done]. cbn in Hst. destruct (c_caller x) eqn:Hcx; try done. destruct (c_task x) as [| | | |[r|]] eqn:Ht; try done;
    apply (inj Some) in Hst; subst w'; cbn [p_calls p_sup p_workers].
    + pose proof (set_caller_weight (Returned (inl r)) c cs x Hx Hcx ltac:(done)). lia.
    + pose proof (set_caller_weight (Returned (inr ResultChannelClosed)) c cs x Hx Hcx ltac:(done)). lia.
  - destruct (ws !! k) as [y|] eqn:Hy; [|done]. cbn in Hst. destruct (k_life y) eqn:Hl; try done.
    apply (inj Some) in Hst; subst w'; cbn [p_calls p_sup p_workers].
    pose proof (sum_insert (fun y => life_weight (k_life y)) k ws y (Wk (k_state y) [] Closed) Hy) as E1. cbv beta in E1. rewrite Hl in E1. simpl in E1.
    pose proof (drop_all_weight (k_box y) cs). lia.
  - destruct sup; try done. apply (inj Some) in Hst; subst w'; cbn [p_calls p_sup p_workers life_weight]. pose proof (drop_all_weight sbox cs). lia.
Qed.

(** A dispatch is lost only with the supervisor, in an empty pool, or with the worker whose turn it is. *)
Definition lost_ok (n : nat) w : Prop := forall c x, p_calls w !! c = Some x -> c_task x = TEnd None ->
  p_sup w = Closed \/ n = 0 \/ exists k, turn n (p_asked w) c k /\ life_of w k = Some Closed.
Lemma lost_step s n w o w' : pinv s n w -> lost_ok n w -> pstep w o = Some w' -> lost_ok n w'.
Proof.
  intros HI HL Hst. destruct (grow_step _ _ _ Hst) as (_ & (a & Ea) & Hlife & _ & _ & Hsup).
  assert (Hold : forall c, (p_sup w = Closed \/ n = 0 \/ exists k, turn n (p_asked w) c k /\ life_of w k = Some Closed) ->
    p_sup w' = Closed \/ n = 0 \/ exists k, turn n (p_asked w') c k /\ life_of w' k = Some Closed).
  { intros c [?|[?|(k & Hk & Hl)]]; [left; auto|auto|]. right. right. exists k. split; [rewrite Ea; by apply turn_app|by apply Hlife]. }
  assert (Hkeep : forall c x, p_calls w !! c = Some x -> c_task x = TEnd None ->
    p_sup w' = Closed \/ n = 0 \/ exists k, turn n (p_asked w') c k /\ life_of w' k = Some Closed).
  { intros c x Hx Ht. apply Hold. by eapply HL. }
  intros c' x' Hx' Ht'. destruct w as [cs sup ring sbox ws asked log].
  destruct HI as [Hcall Has Hasn Hsb Hbx Hlg Hsbn Hbxn Hlgn Hring Hws Hcl Hstate Hsc]. cbn [p_calls p_sup p_ring p_sbox p_workers p_asked p_log] in *.
  assert (Htask : forall t c, set_task t c cs !! c' = Some x' -> t <> TEnd None \/ c' <> c ->
    p_sup w' = Closed \/ n = 0 \/ exists k, turn n (p_asked w') c' k /\ life_of w' k = Some Closed).
  { intros t c. rewrite lookup_set_task. case_decide as Hd; [|intros H _; by eapply Hkeep]. subst c. destruct (cs !! c') as [x|] eqn:Hx; [|done].
    intros [= <-]. simpl in Ht'. intros [?|?]; done. }
  destruct o as [m| |c|k e|c|c|c|k|k| |]; cbn [Pool_Model.pstep] in Hst.
  - destruct sup; apply (inj Some) in Hst; subst w'; cbn [p_calls] in Hx'; apply lookup_app_Some in Hx' as [Hx'|[_ Hx']];
      try (by eapply Hkeep); try (by left); apply list_lookup_singleton_Some in Hx' as [_ <-]; done.
  - destruct sup; try done. destruct sbox as [|c sbox]; [done|]. destruct ring as [|k ring]; apply (inj Some) in Hst; subst w'; cbn [p_calls] in Hx'.
    + right. left. destruct Hring as [[? _]|(tk & _ & E2)]; [done|]. destruct n; [done|]. by apply (f_equal length) in E2.
    + eapply Htask; [done|]. by left.
  - destruct (cs !! c) as [x|] eqn:Hx; [|done]. cbn in Hst. destruct (c_task x) as [|k| | |] eqn:Ht; try done.
    destruct (ws !! k) as [y|] eqn:Hy; [|done]. cbn in Hst. destruct (ci_send _ _ _ _ (Hcall c x Hx) k Ht) as [_ Htn].
    destruct (k_life y) eqn:Hl; apply (inj Some) in Hst; subst w'; cbn [p_calls] in Hx'; try (eapply Htask; [done|by left]).
    destruct (decide (c' = c)) as [->|Hne]; [|eapply Htask; [done|by right]]. right. right. exists k. split; [done|].
    unfold life_of. cbn. by rewrite Hy, <- Hl.
  - destruct (ws !! k) as [y|] eqn:Hy; [|done]. cbn in Hst. destruct (k_life y) eqn:Hl; try done.
    destruct (k_box y) as [|c box] eqn:Hbox; [done|]. destruct (cs !! c) as [x|] eqn:Hx; [|done]. cbn in Hst.
    destruct (hdl e (k_state y) (c_msg x)) as [[s1 r]|] eqn:Hh; apply (inj Some) in Hst; subst w'; cbn [p_calls] in Hx'.
    + eapply Htask; [done|by left].
    + rewrite lookup_drop_all in Hx'. case_decide as Hd; [|by eapply Hkeep]. destruct (cs !! c') as [x0|] eqn:Hx0; [|done].
      right. right. exists k. pose proof (Hcall c' x0 Hx0) as A. split.
      * apply (ci_sent_turn _ _ _ _ A). apply (ci_sent _ _ _ _ A). exists y. by rewrite Hbox.
      * unfold life_of. cbn. rewrite list_lookup_insert; [done|]. by eapply lookup_lt_Some.
  - destruct (cs !! c) as [x|] eqn:Hx; [|done]. cbn in Hst. destruct (c_task x) as [| | |k r|] eqn:Ht; try done.
    apply (inj Some) in Hst; subst w'. eapply Htask; [done|by left].
  - destruct (cs !! c) as [x|] eqn:Hx; [|done]. cbn in Hst. destruct (c_caller x) eqn:Hcx; try done.
    assert (exists a, p_calls w' = set_caller a c cs) as [y Hy].
    { destruct (c_task x) as [| | | |[r|]] eqn:Ht; try done; apply (inj Some) in Hst; subst w'; by eexists. }
    rewrite Hy, lookup_set_caller in Hx'. case_decide as Hd; [|by eapply Hkeep]. subst c'. rewrite Hx in Hx'. injection Hx' as <-. by eapply Hkeep.
  - destruct (cs !! c) as [x|] eqn:Hx; [|done]. cbn in Hst. destruct (c_caller x) eqn:Hcx; try done.
    apply (inj Some) in Hst; subst w'. cbn [p_calls] in Hx'. rewrite lookup_set_caller in Hx'. case_decide as Hd; [|by eapply Hkeep]. subst c'. rewrite Hx in Hx'. injection Hx' as <-. by eapply Hkeep.
  - destruct (ws !! k) as [y|] eqn:Hy; [|done]. cbn in Hst. destruct (k_life y) eqn:Hl; try done. apply (inj Some) in Hst; subst w'. by eapply Hkeep.
  - destruct (ws !! k) as [y|] eqn:Hy; [|done]. cbn in Hst. destruct (k_life y) eqn:Hl; try done. apply (inj Some) in Hst; subst w'. cbn [p_calls] in Hx'.
    rewrite lookup_drop_all in Hx'. case_decide as Hd; [|by eapply Hkeep]. destruct (cs !! c') as [x0|] eqn:Hx0; [|done].
    right. right. exists k. pose proof (Hcall c' x0 Hx0) as A. split.
    + apply (ci_sent_turn _ _ _ _ A). apply (ci_sent _ _ _ _ A). by exists y.
    + unfold life_of. cbn. rewrite list_lookup_insert; [done|]. by eapply lookup_lt_Some.
  - destruct sup; try done. apply (inj Some) in Hst; subst w'. by eapply Hkeep.
  - destruct sup; try done. apply (inj Some) in Hst; subst w'. by left.
Qed.
Lemma lost_run s n w (l : list pop) w' : pinv s n w -> lost_ok n w -> prun w l = Some w' -> lost_ok n w'.
Proof.
  revert w. induction l as [|o l IH]; intros w HI HL H; simpl in H; [by simplify_eq|].
  destruct (pstep w o) as [w1|] eqn:E1; [|done]. eapply IH; [by eapply pinv_step|by eapply lost_step|done].
Qed.
End proofs.
