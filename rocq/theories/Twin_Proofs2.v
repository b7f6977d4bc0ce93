(** Proofs about several singletons of one actor type: who handles a request. *)
From Verif Require Import Twin_Spec Twin_Proofs.

Local Open Scope N_scope.

Section twin.
Variable includes : N -> bool.
Notation step := (tstep includes).
Notation trun := (trun includes).
Notation trun_ind := (trun_ind includes).
Notation step_moves := (step_moves includes).
Notation step_calls := (step_calls includes).
Notation step_log := (step_log includes).

(** ** Handled by an actor that was created *)

Lemma thandle_live x i x' out : thandle includes x i = (x', out) -> t_live x' = t_live x /\ t_px x' = t_px x /\ t_todo x' = t_todo x.
Proof. unfold thandle. destruct (mstep includes (t_mgr x) i). intros [= <- <-]. done. Qed.

Lemma live_created ns l y n k x a : trun (tnew ns) l = Some y ->
  slot_of y n k = Some x -> a ∈ t_live x -> TCreate n k true ∈ l.
Proof.
  intros Hr. revert l y Hr x a. refine (trun_ind (fun l y => forall x a, slot_of y n k = Some x -> a ∈ t_live x -> TCreate n k true ∈ l) _ _ _).
  { intros x a. rewrite slot_of_new. done. }
  intros l y o y' _ IH Hs x a Hx Ha. rewrite elem_of_app, elem_of_list_singleton.
  destruct (step_moves y o y' n k Hs) as [Hm _| -> _ Hm|x1 i x' out Hx1 _ Hh Hm|x1 t ok Hx1 -> _ Hm|x1 j r x' out Hx1 _ _ Hh Hm
    |x1 a' Hx1 _ _ Hm|x1 q b s Hx1 _ _ Hm|x1 s i box s' out Hx1 _ _ _ _ Hm|x1 j qr Hx1 _ _ Hm];
    rewrite Hx in Hm.
  - left. exact (IH x a (eq_sym Hm) Ha).
  - injection Hm as ->. apply elem_of_nil in Ha. done.
  - injection Hm as <-. destruct (thandle_live _ _ _ _ Hh) as [E _]. rewrite E in Ha. left. exact (IH x1 a Hx1 Ha).
  - injection Hm as ->. cbn [t_live] in Ha. destruct ok; [right; done|]. rewrite app_nil_r in Ha. left. exact (IH x1 a Hx1 Ha).
  - injection Hm as <-. destruct (thandle_live _ _ _ _ Hh) as [E _]. cbn [t_live] in E. rewrite E in Ha. left. exact (IH x1 a Hx1 Ha).
  - injection Hm as ->. cbn [t_live] in Ha. left. refine (IH x1 a Hx1 _). apply elem_of_list_In in Ha. apply filter_In in Ha as [Ha _].
    apply elem_of_list_In. done.
  - injection Hm as ->. left. exact (IH x1 a Hx1 Ha).
  - injection Hm as ->. left. exact (IH x1 a Hx1 Ha).
  - injection Hm as ->. left. exact (IH x1 a Hx1 Ha).
Qed.

(** The registry of a node after a step. *)
Lemma areg_step y o y' n nd' : step y o = Some y' -> t_nodes y' !! n = Some nd' ->
  exists nd, t_nodes y !! n = Some nd /\
    (t_areg nd' = t_areg nd /\ (forall k a, o <> TStopped n k a) \/
     (exists k, o = TCreate n k true /\ t_areg nd' = Some (k, t_next y)) \/
     (exists k a, o = TStopped n k a /\ t_areg nd' = None)).
Proof.
  intros Hs Hn.
  assert (Hput : forall m nd1 nd2, t_nodes y !! m = Some nd1 -> t_areg nd2 = t_areg nd1 ->
    (forall k a, o <> TStopped n k a) -> <[m := nd2]> (t_nodes y) !! n = Some nd' ->
    exists nd, t_nodes y !! n = Some nd /\
    (t_areg nd' = t_areg nd /\ (forall k a, o <> TStopped n k a) \/
     (exists k, o = TCreate n k true /\ t_areg nd' = Some (k, t_next y)) \/
     (exists k a, o = TStopped n k a /\ t_areg nd' = None))).
  { intros m nd1 nd2 H1 H2 H3 H4. destruct (decide (m = n)) as [->|Hm].
    - rewrite lookup_insert in H4. injection H4 as <-. exists nd1. split; [done|]. left. done.
    - rewrite lookup_insert_ne in H4 by done. exists nd'. split; [done|]. left. done. }
  assert (Hid : t_nodes y' = t_nodes y -> (forall k a, o <> TStopped n k a) ->
    exists nd, t_nodes y !! n = Some nd /\
    (t_areg nd' = t_areg nd /\ (forall k a, o <> TStopped n k a) \/
     (exists k, o = TCreate n k true /\ t_areg nd' = Some (k, t_next y)) \/
     (exists k a, o = TStopped n k a /\ t_areg nd' = None))).
  { intros E Ho. rewrite E in Hn. exists nd'. split; [done|]. left. done. }
  destruct o as [m k'|m k' i|j|j|m k' ok|m k' j|m k' a|m k' q b|m k'|m k' j|j|j]; cbn [tstep] in Hs;
    try (destruct (t_nodes y !! m) as [nd1|] eqn:E; [|done]; cbn [mbind option_bind] in Hs);
    try (destruct (t_slots nd1 !! k') as [x|] eqn:Ex; [|done]; cbn [mbind option_bind] in Hs).
  - destruct (t_slots nd1 !! k') as [x|] eqn:Ex; [done|]. injection Hs as <-. refine (Hput m nd1 _ E _ _ Hn); done.
  - destruct (is_event i); [|done]. destruct (thandle _ _ _). injection Hs as <-. refine (Hput m nd1 _ E _ _ Hn); done.
  - destruct (t_net y !! j) as [p|]; [|done]. cbn [mbind option_bind] in Hs.
    destruct (t_nodes y !! p.1) as [nd1|] eqn:E; cbn [mbind option_bind] in Hs; [|injection Hs as <-; apply Hid; done].
    destruct (t_mreg nd1) as [k'|] eqn:Em; cbn [mbind option_bind] in Hs; [|injection Hs as <-; apply Hid; done].
    destruct (t_slots nd1 !! k') as [x|]; cbn [mbind option_bind] in Hs; [|injection Hs as <-; apply Hid; done].
    destruct (thandle _ _ _). injection Hs as <-. refine (Hput p.1 nd1 _ E _ _ Hn); done.
  - destruct (t_net y !! j); [|done]. injection Hs as <-. apply Hid; done.
  - destruct (t_tasks x); [done|]. injection Hs as <-. destruct ok.
    + cbn [next_actor put_node t_nodes] in Hn. destruct (decide (m = n)) as [->|Hm].
      * rewrite lookup_insert in Hn. injection Hn as <-. exists nd1. split; [done|]. right. left. exists k'. done.
      * rewrite lookup_insert_ne in Hn by done. exists nd'. split; [done|]. left. done.
    + refine (Hput m nd1 _ E _ _ Hn); done.
  - destruct (t_results x !! j); [|done]. cbn [mbind option_bind] in Hs. destruct (thandle _ _ _).
    injection Hs as <-. refine (Hput m nd1 _ E _ _ Hn); done.
  - destruct (decide _); [|done]. injection Hs as <-. cbn [put_node t_nodes] in Hn.
    destruct (decide (m = n)) as [->|Hm].
    + rewrite lookup_insert in Hn. injection Hn as <-. exists nd1. split; [done|]. right. right. exists k', a. done.
    + rewrite lookup_insert_ne in Hn by done. exists nd'. split; [done|]. left. split; [done|]. intros k2 a2 [= -> _ _]. done.
  - destruct (t_px x); injection Hs as <-; [refine (Hput m nd1 _ E _ _ Hn); done|apply Hid; done].
  - destruct (t_px x); [|done]. cbn [mbind option_bind] in Hs. destruct (t_box x); [done|].
    destruct (pxstep _ _). injection Hs as <-. refine (Hput m nd1 _ E _ _ Hn); done.
  - destruct (t_todo x !! j) as [[q r]|] eqn:Er; [|done]. cbn [mbind option_bind snd fst] in Hs. injection Hs as <-.
    destruct r as [a|m']; [destruct (decide (a ∈ t_live x))|]; refine (Hput m nd1 _ E _ _ Hn); done.
  - destruct (t_calls y !! j) as [[m [[n' k'] q]]|] eqn:Ej; [|done]. cbn [mbind option_bind] in Hs.
    injection Hs as <-. apply Hid; [|done].
    destruct (t_nodes y !! m) as [nd1|] eqn:E; cbn [mbind option_bind]; [|done].
    destruct (t_areg nd1) as [[k2 a]|] eqn:Ea; done.
  - destruct (t_calls y !! j); [|done]. injection Hs as <-. apply Hid; done.
Qed.

Lemma areg_created ns l y n nd k a : trun (tnew ns) l = Some y ->
  t_nodes y !! n = Some nd -> t_areg nd = Some (k, a) -> TCreate n k true ∈ l.
Proof.
  intros Hr. revert l y Hr nd. refine (trun_ind (fun l y => forall nd, t_nodes y !! n = Some nd -> t_areg nd = Some (k, a) -> TCreate n k true ∈ l) _ _ _).
  { intros nd Hn Ha. unfold tnew in Hn. cbn [t_nodes] in Hn. apply elem_of_list_to_map_2 in Hn.
    apply elem_of_list_fmap in Hn as (m & [= -> ->] & _). done. }
  intros l y o y' _ IH Hs nd' Hn' Ha. rewrite elem_of_app, elem_of_list_singleton.
  destruct (areg_step y o y' n nd' Hs Hn') as (nd & Hn & [[E _]|[(k' & -> & E)|(k' & a' & -> & E)]]).
  - left. refine (IH nd Hn _). congruence.
  - right. congruence.
  - congruence.
Qed.

Lemma hit_created ns l y h : trun (tnew ns) l = Some y -> h ∈ t_log y ->
  TCreate (h_at h) (h_by h) true ∈ l.
Proof.
  intros Hr. revert l y Hr. refine (trun_ind (fun l y => h ∈ t_log y -> TCreate (h_at h) (h_by h) true ∈ l) _ _ _).
  { intros H%elem_of_nil. done. }
  intros l y o y' Hr IH Hs Hh. apply elem_of_app. left.
  destruct (step_log y o y' Hs) as [E|[(n' & k' & j & x1 & q & a & _ & Hx1 & Ht & Ha & E)|
      (j & m & n' & k' & q & nd & k2 & a & _ & Hj & Hn & Ha & E)]]; rewrite E in Hh.
  - exact (IH Hh).
  - apply elem_of_app in Hh as [Hh|Hh]; [exact (IH Hh)|]. apply elem_of_list_singleton in Hh. subst h.
    cbn [h_at h_by]. exact (live_created ns l y n' k' x1 a Hr Hx1 Ha).
  - apply elem_of_app in Hh as [Hh|Hh]; [exact (IH Hh)|]. apply elem_of_list_singleton in Hh. subst h.
    cbn [h_at h_by]. exact (areg_created ns l y m nd k2 a Hr Hn Ha).
Qed.

Lemma create_started ns l y n k ok : trun (tnew ns) l = Some y -> TCreate n k ok ∈ l -> TStart n k ∈ l.
Proof.
  intros Hr. revert l y Hr. refine (trun_ind (fun l y => TCreate n k ok ∈ l -> TStart n k ∈ l) _ _ _).
  { intros H%elem_of_nil. done. }
  intros l y o y' Hr IH Hs Hin. apply elem_of_app in Hin as [Hin|Hin]; [apply elem_of_app; left; exact (IH Hin)|].
  apply elem_of_list_singleton in Hin. subst o. apply elem_of_app. left.
  apply (started_iff includes ns l y n k Hr). cbn [tstep] in Hs.
  destruct (t_nodes y !! n) as [nd|] eqn:E; [|done]. cbn [mbind option_bind] in Hs.
  destruct (t_slots nd !! k) as [x|] eqn:Ex; [|done]. rewrite (slot_of_node y n nd k E). exists x. done.
Qed.

(** ** No request is handled more often than it was sent *)

Definition cnt {A} (f : A -> bool) (l : list A) : nat := length (List.filter f l).
Lemma cnt_app {A} (f : A -> bool) l l' : cnt f (l ++ l') = (cnt f l + cnt f l')%nat.
Proof. unfold cnt. rewrite List.filter_app, app_length. done. Qed.
Lemma cnt_nil {A} (f : A -> bool) : cnt f [] = 0%nat.
Proof. done. Qed.
Lemma cnt_delete {A} (f : A -> bool) l j x : l !! j = Some x ->
  cnt f l = (cnt f (delete j l) + if f x then 1 else 0)%nat.
Proof.
  intros H. pose proof (take_drop_middle l j x H) as E. rewrite delete_take_drop.
  rewrite <- E at 1. rewrite !cnt_app. unfold cnt at 2. cbn [List.filter]. destruct (f x); cbn [length]; unfold cnt; lia.
Qed.

Definition is_req (n k q : N) (c : N * (N * N * N)) : bool :=
  (c.2.1.1 =? n) && (c.2.1.2 =? k) && (c.2.2 =? q).
Definition box_req (q : N) (i : pxinput N) : bool := match i with XDeliver q' _ => q' =? q | _ => false end.
Definition px_count (q : N) (s : option (pxstate N)) : nat :=
  match s with Some s => cnt (fun x => x.1 =? q) (queue_of s) | None => 0 end.
Definition slot_count (q : N) (x : tslot) : nat :=
  (cnt (fun x => (x.1 =? q)%N) (t_todo x) + px_count q (t_px x) + cnt (box_req q) (t_box x))%nat.
Definition in_slot (y : tsys) (n k q : N) : nat :=
  match slot_of y n k with Some x => slot_count q x | None => 0 end.
Definition is_hit (n k q : N) (h : thit) : bool := (h_from h =? n) && (h_kind h =? k) && (h_req h =? q).
Definition total (y : tsys) (n k q : N) : nat :=
  (cnt (is_hit n k q) (t_log y) + cnt (is_req n k q) (t_calls y) + in_slot y n k q)%nat.

Lemma drain_count q l out ok : drain (R := N) l = (out, ok) ->
  (cnt (fun x => x =? q)%N out <= cnt (fun x => x.1 =? q)%N l)%nat.
Proof.
  revert out ok. induction l as [|[x b] l IH]; intros out ok H; cbn in H.
  - injection H as <- <-. done.
  - destruct b.
    + destruct (drain l) as [out' ok'] eqn:E. injection H as <- <-.
      specialize (IH out' ok' eq_refl). unfold cnt in *. cbn [List.filter fst]. destruct (x =? q); cbn [length]; lia.
    + injection H as <- <-. unfold cnt. cbn [List.filter length]. lia.
Qed.

Lemma cnt_fmap {A B} (f : B -> bool) (g : A -> B) l : cnt f (g <$> l) = cnt (fun x => f (g x)) l.
Proof.
  unfold cnt. induction l as [|x l IH]; [done|]. cbn [fmap list_fmap List.filter].
  destruct (f (g x)); cbn [length]; rewrite IH; done.
Qed.

Lemma pxstep_count q s i s' out : pxstep (R := N) s i = (s', out) ->
  (cnt (fun x => x.1 =? q)%N out + px_count q s' <= px_count q (Some s) + cnt (box_req q) [i])%nat.
Proof.
  intros H. destruct i as [x b|r|], s as [l|r']; cbn [pxstep] in H.
  - assert (H' : (Some (XBuffered (l ++ [(x, b)])), []) = (s', out)) by (destruct b; exact H).
    injection H' as <- <-. cbn [px_count queue_of]. rewrite cnt_app, cnt_nil. unfold cnt, box_req. cbn [List.filter fst].
    destruct (x =? q); cbn [length]; lia.
  - destruct b; injection H as <- <-; cbn [px_count queue_of]; unfold cnt, box_req; cbn [List.filter fst length]; [|lia].
    destruct (x =? q); cbn [length]; lia.
  - destruct (drain l) as [o ok] eqn:E. injection H as <- <-. rewrite cnt_fmap. cbn [fst].
    pose proof (drain_count q l o ok E) as Hd. cbn [px_count queue_of].
    assert (px_count q (if ok then Some (XActive r) else None) = 0%nat) as -> by (destruct ok; done).
    unfold cnt in *. lia.
  - injection H as <- <-. cbn. lia.
  - injection H as <- <-. cbn [px_count queue_of]. rewrite cnt_nil. lia.
  - injection H as <- <-. cbn. lia.
Qed.

Lemma tells_count q eff : cnt (box_req q) (tells eff) = 0%nat.
Proof.
  unfold tells. induction eff as [|e eff IH]; [done|]. cbn [omap list_omap].
  destruct e; try exact IH; unfold cnt in *; cbn [List.filter box_req]; exact IH.
Qed.
Lemma thandle_count q x i x' out : thandle includes x i = (x', out) -> slot_count q x' = slot_count q x.
Proof.
  unfold thandle. destruct (mstep includes (t_mgr x) i) as [g eff]. intros [= <- <-]. unfold slot_count.
  cbn [t_todo t_px t_box]. rewrite cnt_app, tells_count. lia.
Qed.

(** The requests under way and the log, exactly. *)
Lemma step_outside y o y' : step y o = Some y' ->
  (t_calls y' = t_calls y /\ t_log y' = t_log y /\ (forall n k j, o <> TRun n k j)) \/
  (exists n k j x q r, o = TRun n k j /\ slot_of y n k = Some x /\ t_todo x !! j = Some (q, r) /\
     (t_calls y' = t_calls y /\ t_log y' = t_log y \/
      (exists m, r = RRemote m /\ t_calls y' = t_calls y ++ [(m, (n, k, q))] /\ t_log y' = t_log y) \/
      (exists a, t_calls y' = t_calls y /\ t_log y' = t_log y ++ [THit n k q k n a]))) \/
  (exists j c, t_calls y !! j = Some c /\ t_calls y' = delete j (t_calls y) /\ (forall n k j, o <> TRun n k j) /\
     (t_log y' = t_log y \/ exists k' a, t_log y' = t_log y ++ [THit c.2.1.1 c.2.1.2 c.2.2 k' c.1 a])).
Proof.
  intros Hs. destruct o as [m k'|m k' i|j|j|m k' ok|m k' j|m k' a|m k' q b|m k'|m k' j|j|j]; cbn [tstep] in Hs;
    try (destruct (t_nodes y !! m) as [nd|] eqn:E; [|done]; cbn [mbind option_bind] in Hs);
    try (destruct (t_slots nd !! k') as [x|] eqn:Ex; [|done]; cbn [mbind option_bind] in Hs).
  - destruct (t_slots nd !! k'); [done|]. injection Hs as <-. left. done.
  - destruct (is_event i); [|done]. destruct (thandle _ _ _). injection Hs as <-. left. done.
  - destruct (t_net y !! j) as [p|]; [|done]. cbn [mbind option_bind] in Hs. left.
    destruct (t_nodes y !! p.1) as [nd|]; cbn [mbind option_bind] in Hs; [|injection Hs as <-; done].
    destruct (t_mreg nd) as [k'|]; cbn [mbind option_bind] in Hs; [|injection Hs as <-; done].
    destruct (t_slots nd !! k') as [x|]; cbn [mbind option_bind] in Hs; [|injection Hs as <-; done].
    destruct (thandle _ _ _). injection Hs as <-. done.
  - destruct (t_net y !! j); [|done]. injection Hs as <-. left. done.
  - destruct (t_tasks x); [done|]. injection Hs as <-. left. destruct ok; done.
  - destruct (t_results x !! j); [|done]. cbn [mbind option_bind] in Hs. destruct (thandle _ _ _).
    injection Hs as <-. left. done.
  - destruct (decide _); [|done]. injection Hs as <-. left. done.
  - destruct (t_px x); injection Hs as <-; left; done.
  - destruct (t_px x); [|done]. cbn [mbind option_bind] in Hs. destruct (t_box x); [done|].
    destruct (pxstep _ _). injection Hs as <-. left. done.
  - destruct (t_todo x !! j) as [[q r]|] eqn:Er; [|done]. cbn [mbind option_bind snd fst] in Hs. injection Hs as <-.
    right. left. exists m, k', j, x, q, r. rewrite (slot_of_node y m nd k' E). split; [done|]. split; [done|]. split; [done|].
    destruct r as [a|m'].
    + destruct (decide (a ∈ t_live x)) as [Ha|]; [|left; done]. right. right. exists a. done.
    + right. left. exists m'. done.
  - destruct (t_calls y !! j) as [[m [[n' k'] q]]|] eqn:Ej; [|done]. cbn [mbind option_bind] in Hs.
    injection Hs as <-. right. right. exists j, (m, (n', k', q)). split; [done|].
    destruct (t_nodes y !! m) as [nd|] eqn:E; cbn [mbind option_bind].
    + destruct (t_areg nd) as [[k2 a]|] eqn:Ea.
      * split; [done|]. split; [done|]. right. exists k2, a. done.
      * split; [done|]. split; [done|]. left. done.
    + split; [done|]. split; [done|]. left. done.
  - destruct (t_calls y !! j) as [c|] eqn:Ej; [|done]. injection Hs as <-. right. right. exists j, c.
    split; [done|]. split; [done|]. split; [done|]. left. done.
Qed.

Lemma in_slot_step y o y' n k q : step y o = Some y' ->
  (in_slot y' n k q <= in_slot y n k q + sends n k q [o])%nat /\
  (forall j x r q', o = TRun n k j -> slot_of y n k = Some x -> t_todo x !! j = Some (q', r) ->
     in_slot y n k q = (in_slot y' n k q + if (q' =? q)%N then 1 else 0)%nat).
Proof.
  intros Hs. unfold in_slot.
  destruct (step_moves y o y' n k Hs) as [Hm _| -> Hn Hm|x i x' out Hx Hor Hh Hm|x t ok Hx -> _ Hm|x j r x' out Hx -> _ Hh Hm
    |x a Hx -> _ Hm|x q1 b s Hx -> _ Hm|x s i box s' out Hx -> Hpx Hb Hp Hm|x j qr Hx -> Ht Hm].
  - rewrite Hm. split; [lia|]. intros j x r q' -> Hx Ht.
    cbn [tstep] in Hs. destruct (t_nodes y !! n) as [nd|] eqn:E; [|done]. cbn [mbind option_bind] in Hs.
    rewrite (slot_of_node y n nd k E) in Hx. rewrite Hx in Hs. cbn [mbind option_bind] in Hs.
    rewrite Ht in Hs. cbn [mbind option_bind snd fst] in Hs. injection Hs as Hs.
    assert (E' : slot_of y' n k = Some (TSlot (t_mgr x) (t_tasks x) (t_results x) (t_live x) (t_px x) (t_box x) (delete j (t_todo x)))).
    { rewrite <- Hs. pose proof (slot_of_put_slot y n nd k (TSlot (t_mgr x) (t_tasks x) (t_results x) (t_live x) (t_px x)
        (t_box x) (delete j (t_todo x))) n k E) as Hp. rewrite decide_True in Hp by done.
      destruct r as [a|m']; [destruct (decide (a ∈ t_live x))|]; exact Hp. }
    rewrite Hm, (slot_of_node y n nd k E), Hx in E'. injection E' as E'.
    exfalso. apply (f_equal t_todo) in E'. cbn [t_todo] in E'.
    apply (f_equal length) in E'. pose proof (lookup_lt_Some _ _ _ Ht) as Hlt.
    rewrite (length_delete (t_todo x) j) in E' by (exists (q', r); done). lia.
  - rewrite Hn, Hm. split; [|done]. unfold slot_count, new_slot. cbn. lia.
  - rewrite Hx, Hm, (thandle_count q x i x' out Hh). split; [lia|].
    intros j x1 r q' -> _ _. destruct Hor as [[[=] _]|(j' & m & nd & [=] & _)].
  - rewrite Hx, Hm. split; [|done]. unfold slot_count. cbn [t_todo t_px t_box]. lia.
  - rewrite Hx, Hm, (thandle_count q _ _ x' out Hh). split; [|done]. unfold slot_count. cbn [t_todo t_px t_box]. lia.
  - rewrite Hx, Hm. split; [|done]. unfold slot_count. cbn [t_todo t_px t_box]. lia.
  - rewrite Hx, Hm. split; [|done]. unfold slot_count. cbn [t_todo t_px t_box]. rewrite cnt_app.
    unfold sends. cbn [List.filter]. rewrite !N.eqb_refl. cbn [andb].
    assert (cnt (box_req q) [XDeliver q1 b] = if (q1 =? q)%N then 1 else 0)%nat as ->.
    { unfold cnt. cbn [List.filter box_req]. destruct (q1 =? q); done. }
    destruct (q1 =? q); cbn [length]; lia.
  - rewrite Hx, Hm. split; [|done]. unfold slot_count. cbn [t_todo t_px t_box]. rewrite cnt_app, Hpx, Hb.
    pose proof (pxstep_count q s i s' out Hp) as Hc. change (i :: box) with ([i] ++ box). rewrite cnt_app. lia.
  - rewrite Hx, Hm. split.
    + unfold slot_count. cbn [t_todo t_px t_box]. pose proof (cnt_delete (fun x => x.1 =? q) (t_todo x) j qr Ht) as Hc. cbn beta in Hc. destruct (qr.1 =? q); lia.
    + intros j1 x1 r q' [= <-] [= <-] Ht1. rewrite Ht1 in Ht. injection Ht as <-.
      unfold slot_count. cbn [t_todo t_px t_box]. pose proof (cnt_delete (fun x => x.1 =? q) (t_todo x) j _ Ht1) as Hc. cbn [fst] in Hc. destruct (q' =? q); lia.
Qed.

Lemma sends_app n k q l l' : sends n k q (l ++ l') = (sends n k q l + sends n k q l')%nat.
Proof. unfold sends. rewrite List.filter_app, app_length. done. Qed.

Lemma hits_sent ns l y n k q : trun (tnew ns) l = Some y -> (hits n k q (t_log y) <= sends n k q l)%nat.
Proof.
  intros Hr. assert (Ht : (total y n k q <= sends n k q l)%nat).
  { revert l y Hr. refine (trun_ind (fun l y => (total y n k q <= sends n k q l)%nat) _ _ _).
    { unfold total, in_slot. rewrite slot_of_new. cbn. lia. }
    intros l y o y' _ IH Hs. rewrite sends_app. destruct (in_slot_step y o y' n k q Hs) as [H1 H2]. unfold total in *.
    destruct (step_outside y o y' Hs) as [(Ec & El & _)|[(n' & k' & j & x & q' & r & -> & Hx & Hj & Hor)|(j & c & Hj & Ec & _ & Hor)]].
    - rewrite Ec, El. lia.
    - assert (Hcase : (n' = n /\ k' = k) \/ ((n' =? n) && (k' =? k))%bool = false).
      { destruct (N.eqb_spec n' n) as [->|]; [|right; done]. destruct (N.eqb_spec k' k) as [->|]; [left; done|right; done]. }
      destruct Hcase as [[-> ->]|Hne].
      + specialize (H2 j x r q' eq_refl Hx Hj).
        destruct Hor as [[-> ->]|[(m & -> & -> & ->)|(a & -> & ->)]].
        * lia.
        * rewrite cnt_app. assert (cnt (is_req n k q) [(m, (n, k, q'))] = if (q' =? q)%N then 1 else 0)%nat as ->.
          { unfold cnt, is_req. cbn [List.filter fst snd]. rewrite !N.eqb_refl. cbn [andb]. destruct (q' =? q); done. }
          lia.
        * rewrite cnt_app. assert (cnt (is_hit n k q) [THit n k q' k n a] = if (q' =? q)%N then 1 else 0)%nat as ->.
          { unfold cnt, is_hit. cbn [List.filter h_from h_kind h_req]. rewrite !N.eqb_refl. cbn [andb]. destruct (q' =? q); done. }
          lia.
      + destruct Hor as [[-> ->]|[(m & -> & -> & ->)|(a & -> & ->)]].
        * lia.
        * rewrite cnt_app. assert (cnt (is_req n k q) [(m, (n', k', q'))] = 0)%nat as ->.
          { unfold cnt, is_req. cbn [List.filter fst snd]. rewrite Hne. done. }
          lia.
        * rewrite cnt_app. assert (cnt (is_hit n k q) [THit n' k' q' k' n' a] = 0)%nat as ->.
          { unfold cnt, is_hit. cbn [List.filter h_from h_kind h_req]. rewrite Hne. done. }
          lia.
    - rewrite Ec. pose proof (cnt_delete (is_req n k q) (t_calls y) j c Hj) as Hd.
      destruct Hor as [->|(k' & a & ->)]; [lia|]. rewrite cnt_app.
      assert (cnt (is_hit n k q) [THit c.2.1.1 c.2.1.2 c.2.2 k' c.1 a] = if is_req n k q c then 1 else 0)%nat as ->.
      { unfold cnt, is_hit, is_req. cbn [List.filter h_from h_kind h_req]. destruct (_ && _); done. }
      lia. }
  unfold total in Ht. unfold hits. fold (is_hit n k q). unfold cnt in Ht. lia.
Qed.
End twin.
