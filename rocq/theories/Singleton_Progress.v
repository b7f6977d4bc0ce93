(** Progress of the singleton managers: steps come to an end, and a lone leader starts. *)
From Verif Require Import Singleton_Model Singleton_Spec Singleton_Manager Singleton_Sys Singleton_Proofs.
Local Open Scope N_scope.

Lemma filter_len {A} (f : A -> bool) (l : list A) : (length (List.filter f l) <= length l)%nat.
Proof. induction l as [|x l IH]; simpl; [lia|]. destruct (f x); simpl; lia. Qed.

(** ** Without cluster events every run ends *)
Section measure.
Variable includes : N -> bool.
Variable K : nat.
Definition wmsg (m : smsg) : nat :=
  match m with QRequest _ => K + 5 | QAck _ => K + 4 | _ => 1 end.
Definition wnet (l : list (N * smsg)) : nat := sum_list_with (fun p => wmsg p.2) l.
Definition wnode (x : snode) : nat :=
  (n_tasks x * (K + 3) + length (n_results x) * (K + 1) + length (n_live x))%nat.
Definition wnodes (m : gmap N snode) : nat := sum_list_with (fun kx => wnode kx.2) (map_to_list m).
Definition wsys (y : ssys) : nat := (wnet (y_net y) + wnodes (y_nodes y))%nat.

Lemma sum_perm {A} (f : A -> nat) (l k : list A) : l ≡ₚ k -> sum_list_with f l = sum_list_with f k.
Proof. induction 1; simpl; lia. Qed.
Lemma wnodes_insert m n x x' : m !! n = Some x ->
  (wnodes (<[n := x']> m) + wnode x = wnodes m + wnode x')%nat.
Proof.
  intros H. unfold wnodes.
  rewrite <-(insert_delete_insert m n x').
  rewrite (sum_perm _ _ _ (map_to_list_insert (delete n m) n x' (lookup_delete _ _))).
  assert (m = <[n := x]> (delete n m)) as E by (by rewrite insert_delete).
  rewrite E at 2. rewrite (sum_perm _ _ _ (map_to_list_insert (delete n m) n x (lookup_delete _ _))).
  simpl. lia.
Qed.
Lemma wnet_app l1 l2 : wnet (l1 ++ l2) = (wnet l1 + wnet l2)%nat.
Proof. apply sum_list_with_app. Qed.
Lemma wnet_delete l k p : l !! k = Some p -> (wnet l = wmsg p.2 + wnet (delete k l))%nat.
Proof.
  revert k. induction l as [|q l IH]; intros [|k]; simpl; try done.
  - by intros [= ->].
  - intros H. unfold wnet in *. simpl. rewrite (IH _ H). lia.
Qed.
Lemma wnet_all g m : (forall s, m <> QRequest s /\ m <> QAck s) -> (size (g_managers g) <= K)%nat ->
  (wnet (packets (notify_managers g m)) <= K)%nat.
Proof.
  intros Hm HK. rewrite packets_all. unfold size, set_size in HK. simpl in HK.
  assert (wmsg m = 1%nat) as Hw by (destruct m as [s|s|s|s]; destruct (Hm s); done).
  assert (forall l : list N, wnet ((fun n => (n, m)) <$> l) = length l) as E; [|rewrite E; lia].
  induction l as [|a l IH]; [done|]. rewrite fmap_cons. unfold wnet in *. cbn [sum_list_with snd length]. rewrite IH, Hw. lia.
Qed.
Lemma wnet_one g n m : (wnet (packets (notify_manager g n m)) <= wmsg m)%nat.
Proof. unfold notify_manager. case_decide; unfold wnet; simpl; lia. Qed.

Lemma msg_weight g m g' eff : (size (g_managers g) <= K)%nat ->
  mstep includes g (IMsg m) = (g', eff) ->
  (wnet (packets eff) + creates eff * (K + 3) < wmsg m)%nat /\ g_managers g' = g_managers g.
Proof.
  intros HK H. destruct m as [n|n|n|n]; simpl in H.
  - unfold on_request_lease, begin_stopping, grant_lease in H.
    destruct (g_state g) as [p| |A|a|a w] eqn:Eg; simpl in H; injection H as <- <-; (split; [|done]).
    + unfold creates, wnet. simpl. lia.
    + rewrite creates_notify. pose proof (wnet_one g n (QAck (g_node g))) as Hw. simpl in *. lia.
    + unfold creates, wnet. simpl. lia.
    + change (packets (FStop a :: ?l)) with (packets l). change (creates (FStop a :: ?l)) with (creates l).
      rewrite creates_notify_all. pose proof (wnet_all g (QStopped (g_node g)) ltac:(done) HK). simpl. lia.
    + rewrite creates_notify. pose proof (wnet_one g n (QAck (g_node g))) as Hw. simpl in *. lia.
  - unfold on_lease_ack in H. destruct (g_state g); injection H as <- <-; (split; [|done]);
      try case_decide; unfold creates, wnet; simpl; lia.
  - injection H as <- <-. split; [|done]. unfold creates, wnet. simpl. lia.
  - injection H as <- <-. split; [|done]. unfold creates, wnet. simpl. lia.
Qed.
Lemma result_weight g r g' eff : (size (g_managers g) <= K)%nat ->
  mstep includes g (IResult r) = (g', eff) ->
  (wnet (packets eff) + creates eff * (K + 3) < K + 1)%nat /\ g_managers g' = g_managers g.
Proof.
  intros HK H. simpl in H. unfold on_start_result in H. destruct r as [a|]; injection H as <- <-; (split; [|done]).
  - change (packets (FProxyStarted ?r :: ?l)) with (packets l). change (creates (FProxyStarted ?r :: ?l)) with (creates l).
    rewrite creates_notify_all. pose proof (wnet_all g (QStarted (g_node g)) ltac:(done) HK). lia.
  - unfold creates, wnet. simpl. lia.
Qed.

Definition small (y : ssys) : Prop :=
  forall n x, y_nodes y !! n = Some x -> (size (g_managers (n_mgr x)) <= K)%nat.

Lemma step_decreases y o y' :
  small y -> internal o = true -> sstep includes y o = Some y' -> small y' /\ (wsys y' < wsys y)%nat.
Proof.
  intros HK Hi H. destruct o as [n i|k|k|n ok|n k|n a]; simpl in H; [done|..].
  - destruct (y_net y !! k) as [[n m]|] eqn:Ek; simpl in H; [|done].
    pose proof (wnet_delete _ _ _ Ek) as Hd. cbn [snd] in Hd.
    destruct (y_nodes y !! n) as [x|] eqn:El.
    + unfold handle in H. destruct (mstep includes (n_mgr x) (IMsg m)) as [g' eff] eqn:Em. injection H as <-.
      destruct (msg_weight _ _ _ _ (HK n x El) Em) as [Hw Hm]. split.
      * intros k' x'; cbn [y_nodes]; intros [[<- <-]|[_ Hx']]%lookup_insert_Some; [|by eapply HK]. cbn [n_mgr]. rewrite Hm. by eapply HK.
      * unfold wsys. cbn [y_net y_nodes]. rewrite wnet_app.
        match goal with |- context [<[n := ?x']> _] => pose proof (wnodes_insert _ _ _ x' El) as Hins end.
        unfold wnode in Hins. cbn [n_tasks n_results n_live] in Hins. lia.
    + injection H as <-. split; [done|]. unfold wsys. cbn [y_net y_nodes].
      assert (1 <= wmsg m)%nat by (destruct m; simpl; lia). lia.
  - destruct (y_net y !! k) as [[n m]|] eqn:Ek; simpl in H; [|done]. injection H as <-.
    pose proof (wnet_delete _ _ _ Ek) as Hd. cbn [snd] in Hd. split; [done|]. unfold wsys. cbn [y_net y_nodes].
    assert (1 <= wmsg m)%nat by (destruct m; simpl; lia). lia.
  - destruct (y_nodes y !! n) as [x|] eqn:El; simpl in H; [|done].
    destruct (n_tasks x) as [|t] eqn:Et; [done|]. injection H as <-.
    destruct ok; cbn [y_nodes y_net]; unfold wsys; cbn [y_nodes y_net].
    all: match goal with |- context [<[_ := ?x']> _] => pose proof (wnodes_insert _ _ _ x' El) as Hins end.
    all: unfold wnode in Hins; cbn [n_tasks n_results n_live] in Hins; rewrite ?app_length, Et in Hins; simpl in Hins.
    all: split; [|lia].
    all: intros k' x'; cbn [y_nodes]; intros [[<- <-]|[_ Hx']]%lookup_insert_Some; [|by eapply HK]; cbn [n_mgr]; by eapply HK.
  - destruct (y_nodes y !! n) as [x|] eqn:El; simpl in H; [|done].
    destruct (n_results x !! k) as [r|] eqn:Er; simpl in H; [|done]. unfold handle in H. cbn [n_mgr] in H.
    destruct (mstep includes (n_mgr x) (IResult r)) as [g' eff] eqn:Em. injection H as <-.
    destruct (result_weight _ _ _ _ (HK n x El) Em) as [Hw Hm]. split.
    + intros k' x'; cbn [y_nodes]; intros [[<- <-]|[_ Hx']]%lookup_insert_Some; [|by eapply HK]. cbn [n_mgr]. rewrite Hm. by eapply HK.
    + unfold wsys. cbn [y_net y_nodes]. rewrite wnet_app.
      match goal with |- context [<[n := ?x']> _] => pose proof (wnodes_insert _ _ _ x' El) as Hins end.
      unfold wnode in Hins. cbn [n_tasks n_results n_live] in Hins.
      rewrite length_delete in Hins by eauto. apply lookup_lt_Some in Er.
      destruct (length (n_results x)) as [|q] eqn:Eq; [lia|]. simpl in Hins. rewrite Nat.sub_0_r in Hins. lia.
  - destruct (y_nodes y !! n) as [x|] eqn:El; simpl in H; [|done].
    case_decide as Ha; [|done]. injection H as <-. split.
    + intros k' x'; cbn [y_nodes]; intros [[<- <-]|[_ Hx']]%lookup_insert_Some; [|by eapply HK]. cbn [n_mgr]. by eapply HK.
    + unfold wsys. cbn [y_net y_nodes].
      match goal with |- context [<[n := ?x']> _] => pose proof (wnodes_insert _ _ _ x' El) as Hins end.
      unfold wnode in Hins. cbn [n_tasks n_results n_live] in Hins.
      assert (length (List.filter (fun b => negb (b =? a)%N) (n_live x)) < length (n_live x))%nat; [|lia].
      clear -Ha. induction (n_live x) as [|b l IH]; [by apply elem_of_nil in Ha|]. simpl.
      destruct (N.eqb_spec b a) as [->|Hb]; simpl.
      * pose proof (filter_len (fun b => negb (b =? a)%N) l). lia.
      * apply elem_of_cons in Ha as [->|Ha]; [done|]. specialize (IH Ha). lia.
Qed.

Lemma run_ends y l y' :
  small y -> Forall (fun o => internal o = true) l -> srun includes y l = Some y' -> (length l <= wsys y)%nat.
Proof.
  revert y. induction l as [|o l IH]; intros y HK Hl H; simpl in *; [lia|].
  apply Forall_cons in Hl as [Ho Hl]. destruct (sstep includes y o) as [y1|] eqn:E; simpl in H; [|done].
  destruct (step_decreases _ _ _ HK Ho E) as [HK1 Hlt]. specialize (IH _ HK1 Hl H). lia.
Qed.
End measure.

(** ** A lone leader *)
Section leader.
Variable includes : N -> bool.
Variable nl : list N.
Hypothesis Hincl : forall n, n ∈ nl -> includes n = true.
Variable L : N.
Let ns : gset N := list_to_set nl.
Hypothesis HL : L ∈ ns.

Record linv (y : ssys) : Prop := LInv {
  l_other : forall n, n <> L -> is_joining (mst y n) = true \/ mst y n = SIdle;
  l_pend : forall n p, mst y n = SJoining (Some p) -> p = L;
  l_self : is_joining (mst y L) = true \/ (exists A, mst y L = SStarting A) \/ (exists a, mst y L = SRunning a);
  l_src : forall n m, (n, QRequest m) ∈ y_net y -> m = L;
  l_exact : starting (mst y L) = true -> forall x, x ∈ ns -> x <> L -> pend y L x = 1%nat;
  l_full : forall x, y_nodes y !! L = Some x -> g_state (n_mgr x) = SStarting (ns ∖ {[L]}) ->
    (1 <= n_tasks x + length (n_results x))%nat;
  l_res : forall n x, y_nodes y !! n = Some x -> None ∉ n_results x
}.

(** The input does not name another leader, and no failed creation. *)
Definition lone (i : sinput) : Prop :=
  match i with
  | IMemberUp n _ | ILeader n => n = L
  | IResult r => r <> None
  | _ => True
  end.

Lemma linv_handles y n i y' u g' eff net0 rs px :
  inv ns y -> linv y -> handles includes ns y n i y' u g' eff net0 rs px ->
  lone i -> (forall r, r ∈ rs -> r ∈ n_results u) -> linv y'.
Proof using Hincl HL.
  intros HI HLI HH Hlone Hrs. pose proof HH as [Hl Hs Hi Hc Hsub Hr Hy].
  destruct (mstep_trans includes ns (ns_incl includes nl Hincl) n (n_mgr u) i g' eff) as (Wg' & r & a & c & Ht & [E1 E2 E3 E4 E5]); try done.
  { by apply (i_wf _ _ HI). }
  { intros p Hp. apply (i_join _ _ HI n p). by rewrite (mst_lookup _ _ _ Hl). }
  assert (n ∈ ns) as Hn by (apply (i_dom _ _ HI); eauto).
  pose proof (mst_lookup _ _ _ Hl) as Hmn.
  assert (mst y' n = g_state g') as Hmn'.
  { subst y'. unfold mst, state_of. cbn [y_nodes]. by rewrite lookup_insert. }
  assert (forall k, k <> n -> mst y' k = mst y k) as Hmk.
  { intros k Hk. subst y'. unfold mst, state_of. cbn [y_nodes]. by rewrite lookup_insert_ne. }
  assert (forall P, cnt P (y_net y') = (cnt P net0 + cnt P (packets eff))%nat) as Hnet.
  { intros P. subst y'. cbn [y_net]. by rewrite cnt_app. }
  assert (forall m, i = IMsg (QRequest m) -> m = L /\ n <> L) as Hreq.
  { intros m ->. simpl in Hi. assert (m = L) as ->; [|split; [done|]; destruct Hi; congruence].
    apply (l_src _ HLI n). assert (1 <= cnt (is_req m n) (y_net y))%nat as H1.
    { rewrite (Hc (is_req m n)). simpl. rewrite !N.eqb_refl. simpl. lia. }
    apply cnt_le_elem in H1 as ([k q] & Hin & Hp). destruct q; try done. simpl in Hp.
    apply andb_true_iff in Hp as [Hp1%N.eqb_eq Hp2%N.eqb_eq]. by subst. }
  assert (n <> L -> is_joining (g_state (n_mgr u)) = true \/ g_state (n_mgr u) = SIdle) as Hoth.
  { intros H. rewrite <-Hmn. by apply (l_other _ HLI). }
  assert (n = L -> is_joining (g_state (n_mgr u)) = true \/ (exists A, g_state (n_mgr u) = SStarting A) \/ (exists a, g_state (n_mgr u) = SRunning a)) as Hself.
  { intros E. rewrite <-Hmn, E. apply (l_self _ HLI). }
  unfold reqs_to, acks_to in *.
  (* a node other than the leader stays idle *)
  assert (n <> L -> (g_state g' = g_state (n_mgr u) /\ r = false /\
       ((a = None /\ forall m, i <> IMsg (QRequest m)) \/ (i = IMsg (QRequest L) /\ a = Some L /\ g_state g' = SIdle))) \/
     (exists p, g_state (n_mgr u) = SJoining p /\ g_state g' = SIdle /\ r = false /\ a = p /\ forall m, i <> IMsg m) \/
     (exists p, g_state (n_mgr u) = SJoining p /\ g_state g' = SJoining (Some L) /\ r = false /\ a = None /\ i = IMsg (QRequest L))) as Hother.
  { intros HnL. specialize (Hoth HnL). clear Hs HH E1 E2 E3 E4 E5. inversion Ht; subst.
    - left. split_and!; try done. left. split; [done|]. done.
    - exfalso. apply HnL. match goal with K : (exists b, i = IMemberUp _ b) \/ _ |- _ => destruct K as [[? ->]| ->]; done end.
    - right. left. eauto 10.
    - right. right. destruct (Hreq m eq_refl) as [-> _]. eauto 10.
    - left. destruct (Hreq m eq_refl) as [-> _]. split_and!; try done. right. split_and!; try done.
      destruct Hoth; congruence.
    - match goal with K : _ = g_state (n_mgr u) |- _ => rewrite <-K in Hoth; by destruct Hoth end.
    - match goal with K : _ = g_state (n_mgr u) |- _ => rewrite <-K in Hoth; by destruct Hoth end.
    - match goal with K : _ = g_state (n_mgr u) |- _ => rewrite <-K in Hoth; by destruct Hoth end.
    - match goal with K : _ = g_state (n_mgr u) |- _ => rewrite <-K in Hoth; by destruct Hoth end. }
  (* the leader *)
  assert (n = L ->
     (g_state g' = g_state (n_mgr u) /\ r = false /\ a = None /\ c = 0%nat /\ (forall m, i <> IMsg (QAck m) \/ forall A, g_state (n_mgr u) <> SStarting A) /\ (forall rr, i <> IResult rr)) \/
     (g_state g' = SStarting ∅ /\ r = true /\ starting (g_state (n_mgr u)) = false /\ c = (if decide (ns = {[n]}) then 1 else 0)%nat) \/
     (exists A m, g_state (n_mgr u) = SStarting A /\ i = IMsg (QAck m) /\ g_state g' = SStarting ({[m]} ∪ A) /\ r = false /\ a = None /\ c = (if decide ({[m]} ∪ A = ns ∖ {[n]}) then 1 else 0)%nat) \/
     (exists b, g_state g' = SRunning b)) as Hlead.
  { intros HnL. specialize (Hself HnL). clear Hs HH E1 E2 E3 E4 E5. inversion Ht; subst.
    - left. split_and!; try done. intros [rr|] ->; [naive_solver|done].
    - right. left. split_and!; try done. by destruct (g_state (n_mgr u)).
    - match goal with K : exists a b, i = IMemberUp a b /\ _ |- _ => destruct K as (? & ? & -> & ?); done end.
    - destruct (Hreq m eq_refl) as [_ ?]. done.
    - destruct (Hreq m eq_refl) as [_ ?]. done.
    - destruct (Hreq m eq_refl) as [_ ?]. done.
    - destruct (Hreq m eq_refl) as [_ ?]. done.
    - right. right. left. eauto 10.
    - right. right. right. eauto. }
  split.
  - intros k Hk. destruct (decide (k = n)) as [->|Hkn].
    + rewrite Hmn'. destruct (Hother Hk) as [(-> & _)|[(p & _ & -> & _)|(p & _ & -> & _)]]; auto.
    + rewrite Hmk by done. by apply (l_other _ HLI).
  - intros k p. destruct (decide (k = n)) as [->|Hkn].
    + rewrite Hmn'. destruct (decide (n = L)) as [HnL|HnL].
      * destruct (Hlead HnL) as [(-> & _)|[(-> & _)|[(A & m & _ & _ & -> & _)|(b & ->)]]]; try done.
        rewrite <-Hmn. apply (l_pend _ HLI n p).
      * destruct (Hother HnL) as [(-> & _)|[(q & _ & -> & _)|(q & _ & -> & _)]]; try congruence.
        rewrite <-Hmn. apply (l_pend _ HLI n p).
    + rewrite Hmk by done. apply (l_pend _ HLI k p).
  - destruct (decide (n = L)) as [HnL|HnL].
    + rewrite <-HnL, Hmn'. destruct (Hlead HnL) as [(-> & _)|[(-> & _)|[(A & m & _ & _ & -> & _)|(b & ->)]]]; eauto.
    + rewrite Hmk by done. apply (l_self _ HLI).
  - intros k m Hk. subst y'. cbn [y_net] in Hk. apply elem_of_app in Hk as [Hk|Hk].
    + apply (l_src _ HLI k). by apply Hsub.
    + assert (1 <= cnt (is_req m k) (packets eff))%nat as H1.
      { apply cnt_le_elem. exists (k, QRequest m). split; [done|]. simpl. by rewrite !N.eqb_refl. }
      destruct (decide (m = n)) as [->|Hmn2]; [|rewrite E2 in H1 by done; lia].
      destruct (decide (n = L)) as [|HnL]; [done|]. rewrite E1 in H1.
      destruct (Hother HnL) as [(_ & -> & _)|[(p & _ & _ & -> & _)|(p & _ & _ & -> & _)]]; lia.
  - intros Hst x Hx HxL. unfold pend.
    rewrite !Hnet. pose proof (Hc (is_req L x)) as C1. pose proof (Hc (is_ack L x)) as C2.
    destruct (decide (n = L)) as [HnL|HnL].
    + rewrite <-HnL in Hst |- *. rewrite Hmn' in *. rewrite (Hmk x) by congruence. rewrite <-HnL in C1, C2, HxL.
      rewrite E1, E4 by done.
      assert (match i with IMsg m => if is_req n x (n, m) then 1%nat else 0%nat | _ => 0%nat end = 0%nat) as Hreq0.
      { destruct i as [| | | |[]| |]; try done. simpl. destruct (N.eqb_spec n x); done. }
      rewrite Hreq0 in C1.
      destruct (Hlead HnL) as [(Eg & -> & _ & _ & Hna & _)|[(Eg & -> & Hns & _)|[(A & m & Eu & -> & Eg & -> & _)|(b & Eg)]]].
      * rewrite Eg in *. pose proof (l_exact _ HLI) as Hex. rewrite <-HnL, Hmn in Hex. specialize (Hex Hst x Hx HxL).
        unfold pend in Hex. rewrite Hmn in Hex.
        assert (match i with IMsg m => if is_ack n x (n, m) then 1%nat else 0%nat | _ => 0%nat end = 0%nat) as Hack0; [|rewrite Hack0 in C2; lia].
        destruct (g_state (n_mgr u)) as [| |A| |]; try done.
        destruct i as [| | | |[|m| |]| |]; try done. exfalso. destruct (Hna m) as [?|H]; [done|]. by apply (H A).
      * pose proof (i_pend0 _ _ HI n x Hn Hx ltac:(done)) as Hp0. rewrite Hmn in Hp0. specialize (Hp0 Hns).
        unfold pend in Hp0. rewrite Eg. cbn [got]. rewrite (decide_False (P := x ∈ ∅)) by set_solver.
        rewrite decide_True by set_solver. lia.
      * pose proof (l_exact _ HLI) as Hex. rewrite <-HnL, Hmn, Eu in Hex. specialize (Hex eq_refl x Hx HxL).
        unfold pend in Hex. rewrite Hmn, Eu in Hex. rewrite Eg. cbn [got] in *.
        cbn [is_ack] in C2. rewrite N.eqb_refl in C2. cbn [andb] in C2.
        destruct (N.eqb_spec m x) as [->|Hmx].
        -- rewrite (decide_True (P := x ∈ {[x]} ∪ A)) by (apply elem_of_union; left; by apply elem_of_singleton). destruct (decide (x ∈ A)); lia.
        -- destruct (decide (x ∈ A)) as [HxA|HxA].
           ++ rewrite (decide_True (P := x ∈ {[m]} ∪ A)) by (apply elem_of_union; by right). lia.
           ++ rewrite (decide_False (P := x ∈ {[m]} ∪ A)) by set_solver. lia.
      * rewrite Eg in Hst. done.
    + rewrite (Hmk L) in * by done. pose proof (l_exact _ HLI Hst x Hx HxL) as Hex. unfold pend in Hex.
      rewrite E2 by done. 
      assert (match i with IMsg m => if is_ack L x (n, m) then 1%nat else 0%nat | _ => 0%nat end = 0%nat) as Hack0.
      { destruct i as [| | | |[]| |]; try done. simpl. destruct (N.eqb_spec n L); done. }
      rewrite Hack0 in C2.
      destruct (decide (x = n)) as [->|Hxn].
      * rewrite E3, Hmn'. rewrite Hmn in Hex.
        destruct (Hother HnL) as [(Eg & _ & [[-> Hnr]|(-> & -> & Ei)])|[(p & Eu & Eg & _ & -> & Hnm)|(p & Eu & Eg & _ & -> & ->)]].
        -- rewrite Eg. assert (match i with IMsg m => if is_req L n (n, m) then 1%nat else 0%nat | _ => 0%nat end = 0%nat) as Hreq0; [|lia].
           destruct i as [| | | |[]| |]; try done. naive_solver.
        -- rewrite Eg. simpl in C1. rewrite !N.eqb_refl in *. simpl in C1. lia.
        -- rewrite Eg. rewrite Eu in Hex. cbn [held] in *.
           assert (match i with IMsg m => if is_req L n (n, m) then 1%nat else 0%nat | _ => 0%nat end = 0%nat) as Hreq0.
           { destruct i; try done. naive_solver. }
           rewrite Hreq0 in C1. destruct p as [p|]; [|lia].
           assert (p = L) as -> by (apply (l_pend _ HLI n p); congruence). rewrite N.eqb_refl in *. lia.
        -- rewrite Eg. rewrite Eu in Hex. cbn [held is_req] in *. rewrite !N.eqb_refl in *. cbn [andb] in *.
           destruct p as [p|]; [|lia].
           assert (p = L) as -> by (apply (l_pend _ HLI n p); congruence). rewrite N.eqb_refl in *. lia.
      * rewrite E4 by done. rewrite (Hmk x) by done.
        assert (match i with IMsg m => if is_req L x (n, m) then 1%nat else 0%nat | _ => 0%nat end = 0%nat) as Hreq0; [|lia].
        destruct i as [| | | |[]| |]; try done. simpl. destruct (N.eqb_spec n x); done.
  - intros x. subst y'. cbn [y_nodes]. intros [[HnL <-]|[Hk Hu]]%lookup_insert_Some; [|by apply (l_full _ HLI)].
    cbn [n_mgr n_tasks n_results]. intros Hg. rewrite E5.
    pose proof (l_full _ HLI u ltac:(by rewrite <-HnL)) as Hfull. rewrite <-HnL in Hg, Hfull.
    destruct (Hlead HnL) as [(Eg & _ & _ & -> & _ & Hnr)|[(Eg & _ & _ & ->)|[(A & m & _ & _ & Eg & _ & _ & ->)|(b & Eg)]]].
    + rewrite Eg in Hg. specialize (Hfull Hg). destruct Hr as [[-> _]|(rr & -> & _)]; [lia|]. by destruct (Hnr rr).
    + rewrite Hg in Eg. injection Eg as Eg. rewrite decide_True; [lia|].
      apply leibniz_equiv. intros z. rewrite elem_of_singleton. split; [|by intros ->].
      intros Hz. destruct (decide (z = n)) as [|Hzn]; [done|]. exfalso.
      apply (not_elem_of_empty (C := gset N) z). rewrite <-Eg. set_solver.
    + rewrite Hg in Eg. injection Eg as Eg. rewrite decide_True by done. lia.
    + congruence.
  - intros k x. subst y'. cbn [y_nodes]. intros [[<- <-]|[Hk Hu]]%lookup_insert_Some; [|by apply (l_res _ HLI k)].
    cbn [n_results]. intros H. by apply (l_res _ HLI n u Hl), Hrs.
Qed.

Lemma linv_same y y' :
  linv y ->
  (forall n, n_mgr <$> y_nodes y' !! n = n_mgr <$> y_nodes y !! n) ->
  (forall w x, w ∈ ns -> x ∈ ns -> cnt (is_req w x) (y_net y') = cnt (is_req w x) (y_net y) /\
     cnt (is_ack w x) (y_net y') = cnt (is_ack w x) (y_net y)) ->
  (forall p, p ∈ y_net y' -> p ∈ y_net y) ->
  (forall n x', y_nodes y' !! n = Some x' -> exists x, y_nodes y !! n = Some x /\
     (n_tasks x' + length (n_results x') = n_tasks x + length (n_results x))%nat /\
     (None ∉ n_results x -> None ∉ n_results x')) ->
  linv y'.
Proof using HL.
  intros HLI Hm Hc Hsub Hn.
  assert (forall n, mst y' n = mst y n) as Hmst.
  { intros n. unfold mst, state_of. specialize (Hm n). destruct (y_nodes y' !! n), (y_nodes y !! n); simpl in *; try done.
    injection Hm as ->. done. }
  split.
  - intros n. rewrite Hmst. apply (l_other _ HLI).
  - intros n p. rewrite Hmst. apply (l_pend _ HLI).
  - rewrite Hmst. apply (l_self _ HLI).
  - intros n m H. apply (l_src _ HLI n), Hsub, H.
  - rewrite Hmst. intros Hs x Hx HxL. unfold pend. rewrite !Hmst.
    destruct (Hc L x HL Hx) as [-> ->]. by apply (l_exact _ HLI).
  - intros x Hx Hg. destruct (Hn L x Hx) as (u & Hu & E & _). specialize (Hm L). rewrite Hx, Hu in Hm.
    injection Hm as Hm. rewrite E. apply (l_full _ HLI u Hu). by rewrite <-Hm.
  - intros n x Hx. destruct (Hn n x Hx) as (u & Hu & _ & E). apply E, (l_res _ HLI n u Hu).
Qed.

Lemma linv_step y o y' :
  inv ns y -> linv y -> steady nl y o -> one_leader L o -> sstep includes y o = Some y' -> linv y'.
Proof using Hincl HL.
  intros HI HLI Hst Hone H. destruct o as [n i|k|k|n ok|n k|n a]; simpl in H; try done.
  - destruct (y_nodes y !! n) as [x|] eqn:El; simpl in H; [|done].
    destruct (is_event i) eqn:Ei; [|done]. unfold handle in H.
    destruct (mstep includes (n_mgr x) i) as [g' eff] eqn:Em. injection H as <-.
    apply (linv_handles y n i _ x g' eff (y_net y) (n_results x) (n_proxy x ++ proxied eff) HI HLI); [|by destruct i|done].
    split; try done.
    + destruct i as [leader nodes|leader|m|m| | |]; simpl in *; try done.
      * destruct Hst as [[p Hp] Hnodes]. unfold state_of in Hp. rewrite El in Hp. simpl in Hp.
        injection Hp as Hp. rewrite Hp. split; [done|]. intros m. rewrite Hnodes. apply ns_spec.
      * by apply ns_spec.
    + intros P. by destruct i.
    + left. split; [done|]. intros r ->. done.
  - destruct (y_net y !! k) as [[n m]|] eqn:Ek; simpl in H; [|done].
    assert ((n, m) ∈ y_net y) as Hin by (by eapply elem_of_list_lookup_2).
    destruct (y_nodes y !! n) as [x|] eqn:El.
    + unfold handle in H. destruct (mstep includes (n_mgr x) (IMsg m)) as [g' eff] eqn:Em. injection H as <-.
      apply (linv_handles y n (IMsg m) _ x g' eff (delete k (y_net y)) (n_results x) (n_proxy x ++ proxied eff) HI HLI); [|done|done].
      split; try done.
      * destruct m as [m|m|m|m]; simpl; try done; destruct (i_net _ _ HI n m) as (? & ? & ?); auto.
      * intros P. by apply cnt_delete.
      * intros p. apply delete_sub.
      * by left.
    + injection H as <-. apply (linv_same y); try done; cbn [y_nodes y_net].
      * intros w x Hw Hx. assert (n ∉ ns) as Hnn.
        { intros Hnn. apply (i_dom _ _ HI) in Hnn as [? ?]. congruence. }
        rewrite (cnt_delete (is_req w x) _ _ _ Ek), (cnt_delete (is_ack w x) _ _ _ Ek).
        assert (n <> w /\ n <> x) as [Hnw Hnx] by (split; congruence).
        destruct m as [m|m|m|m]; cbn [is_req is_ack]; try done.
        -- destruct (N.eqb_spec n x); done.
        -- destruct (N.eqb_spec n w); done.
      * intros p. apply delete_sub.
      * eauto.
  - destruct (y_nodes y !! n) as [x|] eqn:El; simpl in H; [|done].
    destruct (n_tasks x) as [|t] eqn:Et; [done|]. simpl in Hone. subst ok. injection H as <-.
    apply (linv_same y); try done; cbn [y_nodes y_net].
    + intros n0. destruct (decide (n0 = n)) as [->|]; [rewrite lookup_insert, El; done|by rewrite lookup_insert_ne].
    + intros n0 x' [[<- <-]|[? ?]]%lookup_insert_Some; [|eauto].
      exists x. cbn [n_tasks n_results]. rewrite app_length, Et. simpl. split_and!; [done|lia|].
      intros Hn [Hn'|Hn'%elem_of_list_singleton]%elem_of_app; done.
  - destruct (y_nodes y !! n) as [x|] eqn:El; simpl in H; [|done].
    destruct (n_results x !! k) as [r|] eqn:Er; simpl in H; [|done]. unfold handle in H. cbn [n_mgr] in H.
    destruct (mstep includes (n_mgr x) (IResult r)) as [g' eff] eqn:Em. injection H as <-.
    apply (linv_handles y n (IResult r) _ x g' eff (y_net y) (delete k (n_results x)) (n_proxy x ++ proxied eff) HI HLI).
    + split; try done.
      * destruct r as [a|]; simpl; [|done]. eexists. apply (i_start _ _ HI n x El).
        apply lookup_lt_Some in Er. lia.
      * right. exists r. split; [done|]. rewrite length_delete by eauto. apply lookup_lt_Some in Er. lia.
    + simpl. intros ->. apply (l_res _ HLI n x El). by eapply elem_of_list_lookup_2.
    + intros q. apply delete_sub.
  - destruct (y_nodes y !! n) as [x|] eqn:El; simpl in H; [|done].
    case_decide as Ha; [|done]. injection H as <-. apply (linv_same y); try done; cbn [y_nodes y_net].
    + intros n0. destruct (decide (n0 = n)) as [->|]; [rewrite lookup_insert, El; done|by rewrite lookup_insert_ne].
    + intros n0 x' [[<- <-]|[? ?]]%lookup_insert_Some; [|eauto]. exists x. done.
Qed.

Lemma new_sys_linv : linv (new_sys nl).
Proof using HL.
  assert (forall n, mst (new_sys nl) n = SIdle \/ mst (new_sys nl) n = SJoining None) as Hm.
  { intros n. unfold mst, state_of. destruct (y_nodes (new_sys nl) !! n) as [x|] eqn:E; [|by left].
    apply new_sys_lookup in E as [_ ->]. by right. }
  assert (mst (new_sys nl) L = SJoining None) as HmL.
  { apply ns_spec in HL. unfold mst, state_of. by rewrite (proj2 (new_sys_lookup nl L _) (conj HL eq_refl)). }
  split.
  - intros n _. destruct (Hm n) as [->| ->]; auto.
  - intros n p H. destruct (Hm n); congruence.
  - left. by rewrite HmL.
  - by intros n m ?%elem_of_nil.
  - by rewrite HmL.
  - intros x [_ ->]%new_sys_lookup. done.
  - intros n x [_ ->]%new_sys_lookup. by intros ?%elem_of_nil.
Qed.

Lemma run_linv y l y' :
  inv ns y -> linv y -> always includes (fun y o => steady nl y o /\ one_leader L o) y l ->
  srun includes y l = Some y' -> inv ns y' /\ linv y'.
Proof using Hincl HL.
  revert y. induction l as [|o l IH]; intros y HI HLI Ha H; simpl in *; [by simplify_eq|].
  destruct Ha as [[Ho Hp] Ha]. destruct (sstep includes y o) as [y1|] eqn:E; simpl in H; [|done].
  apply (IH y1); try done.
  - apply (sstep_inv includes ns (ns_incl includes nl Hincl) nl y o y1 HI); try done. apply ns_spec.
  - by apply (linv_step y o y1).
Qed.

Lemma lone_leader_starts l y :
  always includes (fun y o => steady nl y o /\ one_leader L o) (new_sys nl) l ->
  srun includes (new_sys nl) l = Some y -> at_rest y ->
  (forall n, n ∈ nl -> exists s, state_of y n = Some s /\ is_joining s = false) ->
  exists a, state_of y L = Some (SRunning a).
Proof using Hincl HL.
  intros Ha H [Hnet Hrest] Hup.
  destruct (run_linv _ _ _ (new_sys_inv includes nl Hincl) new_sys_linv Ha H) as [HI HLI].
  destruct (Hup L) as (s & Hs & Hj); [by apply ns_spec|].
  assert (mst y L = s) as HmL by (unfold mst; by rewrite Hs).
  destruct (l_self _ HLI) as [Hj'|[[A HA]|[a Ha']]].
  - congruence.
  - exfalso. destruct (y_nodes y !! L) as [u|] eqn:El; [|unfold state_of in Hs; by rewrite El in Hs].
    pose proof (wf_acked _ _ _ (i_wf _ _ HI L u El)) as Hsub. rewrite (mst_lookup _ _ _ El) in HA.
    specialize (Hsub A HA).
    assert (A = ns ∖ {[L]}) as EA.
    { apply leibniz_equiv. intros x. split; [apply Hsub|]. intros [Hx HxL]%elem_of_difference.
      rewrite elem_of_singleton in HxL.
      pose proof (l_exact _ HLI) as Hex. rewrite (mst_lookup _ _ _ El), HA in Hex. specialize (Hex eq_refl x Hx HxL).
      unfold pend in Hex. rewrite (mst_lookup _ _ _ El), HA, Hnet in Hex. cbn [got] in Hex.
      destruct (decide (x ∈ A)); [done|]. exfalso.
      assert (held (mst y x) L = 0%nat) as Hh; [|rewrite Hh in Hex; done].
      destruct (Hup x) as (sx & Hsx & Hjx); [by apply ns_spec|].
      destruct (l_other _ HLI x HxL) as [Hjx'|Hix].
      - unfold mst in Hjx'. rewrite Hsx in Hjx'. simpl in Hjx'. congruence.
      - by rewrite Hix. }
    rewrite EA in HA. pose proof (l_full _ HLI u El HA) as Hf. destruct (Hrest L u El) as [HT HR].
    rewrite HT, HR in Hf. simpl in Hf. lia.
  - exists a. rewrite Hs. congruence.
Qed.
End leader.
