(** Properties C72 and C73: the nodes of a cluster and their leader. *)
From Verif Require Import Nodes_Model Nodes_Spec Nodes_Proofs Heart_Model Heart_Spec Heart_Proofs
  Lead_Model Lead_Spec Lead_Proofs Lead_World Lead_Calm Lead_Elect.
Local Open Scope Z_scope.

Section props.
Variable min_date max_date max_duration : Z.
Variable cf : hconfig.
Variable rhash : N -> string -> string -> option Z -> N.
Variable search : list N -> N -> nat.
Variable ping_timeout : Z.
Variable skew : N -> Z.
Notation lstep := (lstep min_date max_date max_duration cf rhash search ping_timeout skew).
Notation run t l := (lrun min_date max_date max_duration cf rhash search ping_timeout skew (start_world t) l).
Notation unhealthy := (Z.of_N (cf_unhealthy cf)).
Notation oldest_live := (oldest_live min_date).
Notation dates_fit := (dates_fit max_date max_duration cf skew).
Implicit Types (w : world).

(** ** C72 *)

(** In every execution no heartbeat panics, however the clocks of the nodes are off, as long as
    dates do not overflow. *)
Theorem C72_alive t l w i :
  run t l = Some w -> dates_fit w -> i ∈ l_live w -> is_Some (l_hearts w !! i).
Proof.
  intros Hr [H1 H2] Hi.
  refine (beating_run _ _ _ _ _ _ _ _ (start_world t) l w i (wgood_start skew t) Hr _ _ Hi); [|set_solver].
  split; [done|]. by apply H2.
Qed.

Section calm.
(** An execution, then a period in which pings are prompt and no node starts or stops. *)
Variable t : Z.
Variable l0 l : list lop.
Variable w0 w : world.
Variable lat han int_ : Z.
Hypothesis Hrun : run t l0 = Some w0.
Hypothesis Hmargins : margins cf ping_timeout lat han int_.
Hypothesis Hknown : acquainted w0.
Hypothesis Hsmall : forall i, i ∈ l_live w0 -> small i.
Hypothesis Hperiod : period lstep (timely (l_now w0) lat han int_) calm w0 l w.
Hypothesis Hdates : dates_fit w.

Lemma settled_end : settled min_date cf skew (l_now w0) lat int_ (l_live w0) w /\ timely (l_now w0) lat han int_ w /\
  l_live w = l_live w0 /\ l_started w = l_started w0 /\
  forall i n, i ∈ l_live w0 -> l_ticked w0 !! i = Some n -> l_now w0 + lat + unhealthy <= n ->
    (exists n, oldest_live w0 n) -> announced w i = announced w0 i.
Proof.
  destruct Hmargins as (M1 & M2 & M3 & M4 & M5 & M6). destruct Hdates as [D1 D2].
  assert (Hw : wgood skew w0) by (eapply wgood_run; [apply wgood_start|done]).
  assert (Hlive : forall P Q w l w', period lstep P Q w l w' -> (forall w o, Q w o -> calm w o) -> l_live w' = l_live w).
  { intros P Q w1 l1. revert w1. induction l1 as [|o l1 IH]; intros w1 w2 [_ H] HQ; [by subst|].
    destruct H as (Hc & w3 & Hs & H). rewrite (IH _ _ H HQ).
    by destruct (calm_same _ _ _ _ _ _ _ _ _ _ _ (HQ _ _ Hc) Hs). }
  pose proof (Hlive _ _ _ _ _ Hperiod (fun _ _ H => H)) as HL.
  assert (Hf : forall i, i ∈ l_live w0 -> fits max_date max_duration cf skew w i).
  { intros i Hi. split; [done|]. apply D2. by rewrite HL. }
  apply (settled_period min_date max_date max_duration cf rhash search ping_timeout skew (l_now w0) lat han int_ (l_live w0)
    M1 M2 M3 M4 ltac:(lia) M6 w0 l w); [|done|done].
  eapply settled_start; try done.
  intros i Hi. refine (beating_run _ _ _ _ _ _ _ _ (start_world t) l0 w0 i (wgood_start skew t) Hrun _ _ Hi); [|set_solver].
  eapply fits_period; [exact Hperiod|]. auto.
Qed.

(** Then, once that has lasted for long enough, the running nodes all report the same leader:
    the running node that was started first. *)
Theorem C72_agreement i n :
  l_now w0 + lat + unhealthy + int_ <= l_now w -> i ∈ l_live w -> oldest_live w n -> leader_of w i = Some n.
Proof.
  intros Hnow Hi Hn. destruct settled_end as ([Hp Hw Hq Hs Hl] & Ht & HL & _). rewrite HL in Hi.
  destruct Hmargins as (M1 & M2 & M3 & M4 & M5 & M6).
  destruct (tm_ticks _ _ _ _ _ Ht i) as (tk & Htk & Hge); [by rewrite HL|lia|]. eapply Hl; [done|done|lia|done].
Qed.
End calm.

(** There is such a node. *)
Theorem C72_oldest t l w : run t l = Some w -> l_live w <> ∅ -> exists n, oldest_live w n.
Proof.
  intros Hr Hne. assert (Hw : wgood skew w) by (eapply wgood_run; [apply wgood_start|done]).
  pose proof (wg_live _ _ Hw) as Hst. clear Hr Hw.
  set (start n := default min_date (l_started w !! n ≫= r_started)).
  assert (HS : forall X : gset N, X ⊆ l_live w -> X <> ∅ -> exists n, n ∈ X /\ forall m, m ∈ X ->
    start n < start m \/ (start n = start m /\ (n <= m)%N)).
  { intros X. induction X as [|x X Hx IH] using set_ind_L; [done|]. intros Hsub _.
    destruct (decide (X = ∅)) as [->|HX].
    { exists x. split; [set_solver|]. intros m Hm. assert (m = x) as -> by set_solver. right. split; [done|lia]. }
    destruct IH as (n & Hn & Hmin); [set_solver|done|].
    destruct (decide (start n < start x \/ (start n = start x /\ (n <= x)%N))) as [Hle|Hgt].
    - exists n. split; [set_solver|]. intros m [->%elem_of_singleton|Hm]%elem_of_union; [done|by apply Hmin].
    - exists x. split; [set_solver|]. intros m [->%elem_of_singleton|Hm]%elem_of_union; [right; split; [done|lia]|].
      specialize (Hmin m Hm). lia. }
  destruct (HS (l_live w)) as (n & Hn & Hmin); [done|done|]. exists n. split; [done|].
  intros r m r' Hr Hm Hr'. specialize (Hmin m Hm). unfold start in Hmin. rewrite Hr, Hr' in Hmin. done.
Qed.

(** From then on no node announces another leader, as long as the period lasts. *)
Theorem C72_stable t l0 l1 l2 w0 w1 w2 lat han int_ i :
  run t l0 = Some w0 -> margins cf ping_timeout lat han int_ -> acquainted w0 ->
  (forall i, i ∈ l_live w0 -> small i) ->
  period lstep (timely (l_now w0) lat han int_) calm w0 l1 w1 ->
  period lstep (timely (l_now w0) lat han int_) calm w1 l2 w2 -> dates_fit w2 ->
  l_now w0 + lat + unhealthy + int_ <= l_now w1 -> i ∈ l_live w2 ->
  announced w2 i = announced w1 i /\ leader_of w2 i = leader_of w1 i.
Proof.
  intros Hr Hm Hq Hs H1 H2 Hd Hnow Hi.
  assert (Hnow2 : l_now w1 <= l_now w2).
  { clear -H2. revert w1 H2. induction l2 as [|o l IH]; intros w [_ H]; [by subst|]. destruct H as (_ & w3 & Hs & H).
    pose proof (now_step _ _ _ _ _ _ _ _ _ _ _ Hs). specialize (IH _ H). lia. }
  assert (Hlive : forall l w w', period lstep (timely (l_now w0) lat han int_) calm w l w' -> l_live w' = l_live w).
  { clear. intros l. induction l as [|o l IH]; intros w w' [_ H]; [by subst|]. destruct H as (Hc & w3 & Hs & H).
    rewrite (IH _ _ H). by destruct (calm_same _ _ _ _ _ _ _ _ _ _ _ Hc Hs). }
  pose proof (Hlive _ _ _ H1) as L1. pose proof (Hlive _ _ _ H2) as L2.
  assert (Hd1 : dates_fit w1).
  { destruct Hd as [D1 D2]. split; [done|]. intros j Hj. rewrite <- L2 in Hj. specialize (D2 j Hj). lia. }
  pose proof (settled_end t l0 l1 w0 w1 lat han int_ Hr Hm Hq Hs H1 Hd1) as (S1 & T1 & _ & E1 & _).
  pose proof Hm as (M1 & M2 & M3 & M4 & M5 & M6). destruct Hd as [D1 D2].
  assert (Hf : forall i, i ∈ l_live w0 -> fits max_date max_duration cf skew w2 i).
  { intros j Hj. split; [done|]. apply D2. by rewrite L2, L1. }
  pose proof (settled_period min_date max_date max_duration cf rhash search ping_timeout skew (l_now w0) lat han int_ (l_live w0)
    M1 M2 M3 M4 ltac:(lia) M6 w1 l2 w2 S1 H2 Hf) as (S2 & T2 & _ & E2 & Ha).
  rewrite L2 in Hi. destruct (tm_ticks _ _ _ _ _ T1 i) as (tk & Htk & Hge); [done|lia|].
  assert (Hold : exists n, oldest_live w1 n).
  { destruct (C72_oldest t l0 w0 Hr) as [n Hn]; [rewrite <- L1; set_solver|]. exists n.
    unfold Lead_Spec.oldest_live in *. by rewrite L1, E1. }
  rewrite L1 in Hi. split; [eapply Ha; [done|done|lia|done]|].
  destruct Hold as [n Hn].
  rewrite (sd_leader _ _ _ _ _ _ _ _ S1 i n tk Hi Htk ltac:(lia) Hn).
  destruct (tm_ticks _ _ _ _ _ T2 i) as (tk2 & Htk2 & Hge2); [by rewrite L2, L1|lia|].
  refine (sd_leader _ _ _ _ _ _ _ _ S2 i n tk2 Hi Htk2 _ _); [lia|].
  unfold Lead_Spec.oldest_live in *. by rewrite L2, E2.
Qed.

(** And a heartbeat finds exactly the running nodes healthy. *)
Theorem C72_view t l0 l w0 w lat han int_ i j ord mid w' :
  run t l0 = Some w0 -> margins cf ping_timeout lat han int_ -> acquainted w0 ->
  (forall i, i ∈ l_live w0 -> small i) ->
  period lstep (timely (l_now w0) lat han int_) calm w0 l w -> dates_fit w ->
  l_now w0 + lat + unhealthy <= l_now w -> lstep w (LTick i ord mid) = Some w' -> is_Some (seen_as w i j) ->
  seen_as w' i j = Some Healthy <-> j ∈ l_live w.
Proof.
  intros Hr Hm Hq Hs H1 Hd Hnow Hst Hj.
  pose proof (settled_end t l0 l w0 w lat han int_ Hr Hm Hq Hs H1 Hd) as ([Sp Sw Sq _ _] & T1 & HL & E1 & _).
  destruct Hm as (M1 & M2 & M3 & M4 & M5 & M6).
  assert (Hi : i ∈ l_live w) by (cbn [Lead_Model.lstep] in Hst; by case_decide).
  rewrite HL in Hi |- *.
  assert (Hf : forall i, i ∈ l_live w0 -> fits max_date max_duration cf skew w' i).
  { intros k Hk. destruct Hd as [D1 D2]. split; [done|].
    assert (l_now w' = l_now w) as E.
    { cbn [Lead_Model.lstep] in Hst. case_decide; [|done]. destruct (l_hearts w !! i); [|done]. cbn [mbind option_bind] in Hst.
      apply (inj Some) in Hst; by subst w'. }
    unfold clock. rewrite E. apply D2. by rewrite HL. }
  assert (Sp' : pinged skew (l_now w0) lat int_ (l_live w0) w') by (by eapply (pinged_step min_date max_date max_duration cf rhash search ping_timeout skew (l_now w0) lat han int_ (l_live w0) M6 w (LTick i ord mid) w')).
  destruct (pg_hearts _ _ _ _ _ _ Sp' i Hi) as [h' Hh'].
  cbn [Lead_Model.lstep] in Hst. case_decide; [|done]. destruct (l_hearts w !! i) as [h|] eqn:Eh; [|done].
  cbn [mbind option_bind] in Hst. apply (inj Some) in Hst. rewrite <- Hst in Hh'. cbn [did_tick set_heart l_hearts] in Hh'.
  rewrite lookup_partial_alter in Hh'.
  assert (Hrec : is_Some (record (h_store h) j)).
  { destruct Hj as [st Hj]. unfold seen_as in Hj. rewrite Eh in Hj. cbn [mbind option_bind] in Hj.
    destruct (record (h_store h) j); [by eexists|done]. }
  pose proof (wg_heart _ _ Sw _ _ Eh) as Hg.
  assert (Hok : opok (l_started w) (clock skew w i) (HTick ord (fun _ => clock skew w i) (learns w mid))).
  { split; [done|by apply (learns_ok skew)]. }
  destruct (known_step _ _ _ _ _ _ _ _ _ _ _ _ j Hg Hok Hh' Hrec) as [s Hr'].
  pose proof (hgood_step _ _ _ _ _ _ _ _ _ _ _ _ Hg Hok Hh') as Hg'.
  assert (Hid : s_id s = j) by exact (hg_keyed _ _ _ Hg' _ _ Hr').
  assert (Hv : viewed h h' s) by (unfold viewed; by rewrite Hid).
  assert (Es : seen_as w' i j = Some (s_status s)).
  { unfold seen_as. rewrite <- Hst. cbn [did_tick set_heart l_hearts]. rewrite lookup_partial_alter, Hh'. cbn [mbind option_bind].
    by rewrite Hr'. }
  rewrite Es. rewrite <- Hid at 1.
  pose proof (tick_view min_date max_date max_duration cf rhash search skew (l_now w0) lat han int_ (l_live w0) M1 M2 M3 M4 ltac:(lia)
    w i (LTick i ord mid) h _ h' s Sp Sw T1 Hi Eh (conj eq_refl eq_refl) ltac:(by eexists) Hh' ltac:(lia) Hv) as HV.
  rewrite Hid in *. rewrite <- HV. split; [by intros [= ->]|by intros ->].
Qed.

(** ** C73 *)

(** As long as such a period lasts, from the same moment on, only one node takes itself for
    the leader. *)
Theorem C73_unique_partial t l0 l w0 w lat han int_ i j :
  run t l0 = Some w0 -> margins cf ping_timeout lat han int_ -> acquainted w0 ->
  (forall i, i ∈ l_live w0 -> small i) ->
  period lstep (timely (l_now w0) lat han int_) calm w0 l w -> dates_fit w ->
  l_now w0 + lat + unhealthy + int_ <= l_now w ->
  i ∈ l_live w -> j ∈ l_live w -> leader_of w i = Some i -> leader_of w j = Some j -> i = j.
Proof.
  intros Hr Hm Hq Hs H1 Hd Hnow Hi Hj Li Lj.
  pose proof (settled_end t l0 l w0 w lat han int_ Hr Hm Hq Hs H1 Hd) as (_ & _ & HL & E1 & _).
  assert (Hold : exists n, oldest_live w n).
  { destruct (C72_oldest t l0 w0 Hr) as [n Hn]; [rewrite <- HL; set_solver|]. exists n.
    unfold Lead_Spec.oldest_live in *. by rewrite HL, E1. }
  destruct Hold as [n Hn].
  rewrite (C72_agreement t l0 l w0 w lat han int_ Hr Hm Hq Hs H1 Hd i n Hnow Hi Hn) in Li.
  rewrite (C72_agreement t l0 l w0 w lat han int_ Hr Hm Hq Hs H1 Hd j n Hnow Hj Hn) in Lj. congruence.
Qed.
End props.

Print Assumptions C72_alive.
Print Assumptions C72_agreement.
Print Assumptions C72_oldest.
Print Assumptions C72_stable.
Print Assumptions C72_view.
Print Assumptions C73_unique_partial.

(** ** Examples *)
(** The conditions of a calm period, computed. *)
Definition timelyb (t0 lat han int_ : Z) (w : world) : bool :=
  forallb (fun k => negb (bool_decide (k_src k ∈ l_live w)) ||
    match k_state k with
    | Flying => negb (bool_decide (k_dst k ∈ l_live w)) || (l_now w <=? k_start k + lat)
    | Answered => l_now w <=? k_start k + lat
    | Done _ => true
    end) (l_calls w) &&
  forallb (fun i => forallb (fun t => l_now w <=? t_at t + han) (mail w i)) (elements (l_live w)) &&
  (negb (t0 + int_ <=? l_now w) ||
   (forallb (fun i => forallb (fun j => (i =? j)%N ||
       existsb (fun k => (k_src k =? i)%N && (k_dst k =? j)%N && (l_now w - int_ <=? k_start k)) (l_calls w))
     (elements (l_live w))) (elements (l_live w)) &&
    forallb (fun i => match l_ticked w !! i with Some t => l_now w - int_ <=? t | None => false end) (elements (l_live w)))).
Lemma forallb_elem {A} (f : A -> bool) (l : list A) x : forallb f l = true -> x ∈ l -> f x = true.
Proof. intros H Hx%elem_of_list_In. rewrite forallb_forall in H. by apply H. Qed.
Lemma timelyb_ok t0 lat han int_ w : timelyb t0 lat han int_ w = true -> timely t0 lat han int_ w.
Proof.
  intros H. apply andb_true_iff in H as [H H3]. apply andb_true_iff in H as [H1 H2]. split.
  - intros k Hk Hs. pose proof (forallb_elem _ _ _ H1 Hk) as E. cbv beta in E. rewrite bool_decide_eq_true_2 in E by done. simpl in E.
    destruct (k_state k); [|by apply Z.leb_le|done]. intros Hd. rewrite bool_decide_eq_true_2 in E by done. simpl in E. by apply Z.leb_le.
  - intros i n Hi Hn. apply elem_of_elements in Hi. pose proof (forallb_elem _ _ _ H2 Hi) as E. cbv beta in E.
    pose proof (forallb_elem _ _ _ E Hn) as E'. cbv beta in E'. by apply Z.leb_le.
  - intros i j Hi Hj Hne Hle. apply Z.leb_le in Hle. rewrite Hle in H3. simpl in H3. apply andb_true_iff in H3 as [H3 _].
    apply elem_of_elements in Hi, Hj. pose proof (forallb_elem _ _ _ H3 Hi) as E. cbv beta in E.
    pose proof (forallb_elem _ _ _ E Hj) as E'. cbv beta in E'. apply orb_true_iff in E' as [E'%N.eqb_eq|E']; [done|].
    apply existsb_exists in E' as (k & Hk & E'). apply andb_true_iff in E' as [E' Ec]. apply andb_true_iff in E' as [Ea Eb].
    exists k. split_and!; [by apply elem_of_list_In|by apply N.eqb_eq|by apply N.eqb_eq|by apply Z.leb_le].
  - intros i Hi Hle. apply Z.leb_le in Hle. rewrite Hle in H3. simpl in H3. apply andb_true_iff in H3 as [_ H3].
    apply elem_of_elements in Hi. pose proof (forallb_elem _ _ _ H3 Hi) as E. cbv beta in E.
    destruct (l_ticked w !! i) as [n|]; [|done]. exists n. split; [done|by apply Z.leb_le].
Qed.
Definition calmb (w : world) (o : lop) : bool :=
  match o with LStart _ _ | LCrash _ => false | LDisconnect _ j => negb (bool_decide (j ∈ l_live w)) | _ => true end.
Definition acquaintedb (w : world) : bool :=
  forallb (fun i => forallb (fun j => match l_hearts w !! i with
    | Some h => match record (h_store h) j with Some _ => true | None => false end
    | None => true end) (elements (l_live w))) (elements (l_live w)).
Lemma acquaintedb_ok w : acquaintedb w = true -> acquainted w.
Proof.
  intros H i j h Hi Hj Hh. apply elem_of_elements in Hi, Hj. pose proof (forallb_elem _ _ _ H Hi) as E. cbv beta in E.
  pose proof (forallb_elem _ _ _ E Hj) as E'. cbv beta in E'. rewrite Hh in E'. destruct (record (h_store h) j); [by eexists|done].
Qed.
Section check.
Variable step : world -> lop -> option world.
Variable t0 lat han int_ : Z.
Fixpoint check (w : world) (l : list lop) : option world :=
  if timelyb t0 lat han int_ w then
    match l with
    | [] => Some w
    | o :: l' => if calmb w o then w1 ← step w o; check w1 l' else None
    end
  else None.
Lemma check_ok w l w' : check w l = Some w' -> period step (timely t0 lat han int_) calm w l w'.
Proof.
  revert w. induction l as [|o l IH]; intros w; simpl; destruct (timelyb _ _ _ _ w) eqn:E; try done; intros H.
  - injection H as <-. split; [by apply timelyb_ok|done].
  - destruct (calmb w o) eqn:Ec; [|done]. destruct (step w o) as [w1|] eqn:Es; [|done]. split; [by apply timelyb_ok|].
    split; [|exists w1; split; [done|by apply IH]]. destruct o; try done. simpl in Ec. intros Hd.
    by rewrite bool_decide_eq_true_2 in Ec by done.
Qed.
End check.

Section example.
Let cf := HConfig 150 3000 None.
Let skew (i : N) : Z := if (i =? 3)%N then 1000 else if (i =? 9)%N then -500 else 0.
Let rhash (_ : N) (_ _ : string) (_ : option Z) : N := 0.
Let search (_ : list N) (_ : N) : nat := O.
Let step := lstep (-1000000) 1000000 1000000 cf rhash search 1000 skew.
Let run := lrun (-1000000) 1000000 1000000 cf rhash search 1000 skew.
Let node (i : N) (z : Z) : rnode := RNode i "" "" (Some z) ∅.

(** One round of pings between [pairs], of which the first is number [n]; [who] ticks. *)
Let round (n : nat) (pairs : list (N * N)) (who : list N) : list lop :=
  (((fun '(i, j) => LPing i j) <$> pairs) ++ [LPass 5] ++ (LAnswer <$> seq n (length pairs)) ++ [LPass 5] ++
   (LPong <$> seq n (length pairs)) ++ [LPass 5] ++ ((fun '(i, _) => LDeliver i [] []) <$> pairs) ++ [LPass 35] ++
   ((fun i => LTick i [] []) <$> who))%list.
Let all := [(5, 3); (5, 9); (3, 5); (3, 9); (9, 5); (9, 3)]%N.
Let rest := [(3, 9); (9, 3)]%N.
(** Three nodes; 5 is the oldest, and becomes the leader. Then it stops. *)
Let before : list lop :=
  ([LStart 5 (node 5 10); LStart 3 (node 3 20); LStart 9 (node 9 30)] ++ ((fun '(i, j) => LLearn i j []) <$> all) ++
   round 0 all [5; 3; 9]%N ++ round 6 all [5; 3; 9]%N ++ round 12 all [5; 3; 9]%N ++ [LPing 3 5; LCrash 5])%list.
Let period_ : list lop :=
  (round 19 rest [3; 9]%N ++ round 21 rest [3; 9]%N ++ [LDisconnect 9 5; LGone 3 5] ++ [LDeliver 3 [] []; LDeliver 9 [] []] ++
   round 23 rest [3; 9]%N ++ round 25 rest [3; 9]%N ++ round 27 rest [3; 9]%N)%list.

Example C72_case : exists w0 w,
  run (start_world 100) before = Some w0 /\ margins cf 1000 15 5 60 /\ acquainted w0 /\ (forall i, i ∈ l_live w0 -> small i) /\
  period step (timely (l_now w0) 15 5 60) calm w0 period_ w /\ dates_fit 1000000 1000000 cf skew w /\
  l_now w0 + 15 + 150 + 60 <= l_now w /\
  leader_of w0 3 = Some 5%N /\ leader_of w0 9 = Some 5%N /\ elements (l_live w) = [3; 9]%N /\
  leader_of w 3 = Some 3%N /\ leader_of w 9 = Some 3%N.
Proof.
  assert (H : match run (start_world 100) before with
    | Some w0 =>
        acquaintedb w0 = true /\ elements (l_live w0) = [3; 9]%N /\ leader_of w0 3 = Some 5%N /\ leader_of w0 9 = Some 5%N /\
        match check step (l_now w0) 15 5 60 w0 period_ with
        | Some w => l_now w0 + 15 + 150 + 60 <= l_now w /\ l_now w <= 10000 /\ elements (l_live w) = [3; 9]%N /\
                    leader_of w 3 = Some 3%N /\ leader_of w 9 = Some 3%N
        | None => False
        end
    | None => False
    end) by (vm_compute; repeat split; done).
  clearbody before period_.
  destruct (run (start_world 100) before) as [w0|] eqn:E0; [|done].
  destruct H as (Hq & Hl0 & HA & HB & H). destruct (check step (l_now w0) 15 5 60 w0 period_) as [w|] eqn:E1; [|done].
  destruct H as (H1 & H2 & H3 & H4 & H5). exists w0, w.
  split; [done|]. split; [done|]. split; [by apply acquaintedb_ok|]. split.
  { intros i Hi%elem_of_elements. rewrite Hl0 in Hi. unfold small.
    apply elem_of_cons in Hi as [->|[->|[]%elem_of_nil]%elem_of_cons]; done. }
  split; [exact (check_ok step _ _ _ _ _ _ _ E1)|]. split; [|by split_and!].
  split; [done|]. intros i Hi. subst cf skew. simpl. destruct (i =? 3)%N, (i =? 9)%N; lia.
Qed.

(** Two running nodes that take themselves for the leader: the connection from 3 to 5 is lost. *)
Theorem C73_refuted : exists l w,
  run (start_world 100) l = Some w /\ acquainted w /\ 3%N ∈ l_live w /\ 5%N ∈ l_live w /\
  leader_of w 3 = Some 3%N /\ leader_of w 5 = Some 5%N.
Proof.
  set (l := ([LStart 5 (node 5 10); LStart 3 (node 3 20); LLearn 5 3 []; LLearn 3 5 []] ++
    round 0 [(5, 3); (3, 5)]%N [5; 3]%N ++ round 2 [(5, 3); (3, 5)]%N [5; 3]%N ++
    [LDisconnect 3 5; LDeliver 3 [] []; LTick 3 [] []; LTick 5 [] []])%list).
  assert (H : match run (start_world 100) l with
    | Some w => acquaintedb w = true /\ bool_decide (3%N ∈ l_live w) = true /\ bool_decide (5%N ∈ l_live w) = true /\
                leader_of w 3 = Some 3%N /\ leader_of w 5 = Some 5%N
    | None => False
    end) by (vm_compute; repeat split; done).
  clearbody l. destruct (run (start_world 100) l) as [w|] eqn:E; [|done]. exists l, w. destruct H as (H1 & H2 & H3 & H4 & H5).
  split; [done|]. split; [by apply acquaintedb_ok|]. apply bool_decide_eq_true in H2, H3. by split_and!.
Qed.
End example.
Print Assumptions C73_refuted.
