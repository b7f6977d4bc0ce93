(** Proofs about locating actors. *)
From Verif Require Import Locate_Model Locate_Spec Nodes_Spec Nodes_Proofs.

Section locate.
Variable rhash : N -> string -> string -> option Z -> N.
Variable khash : string -> N.
Variable search : list N -> N -> nat.
Notation owner := (owner rhash khash search).
Notation lstep := (lstep rhash khash search).
Notation lrun := (lrun rhash khash search).
Notation agree := (agree rhash khash search).

Lemma lrun_app w l1 l2 : lrun w (l1 ++ l2) = lrun w l1 ≫= fun w' => lrun w' l2.
Proof. revert w. induction l1 as [|o l1 IH]; intros w; simpl; [done|]. destruct (lstep w o); [|done]. apply IH. Qed.

(** What a step does. *)
Inductive lchange (w : world) : lop -> world -> Prop :=
| lc_again n id : (n, id) ∈ w_live w -> lchange w (LCreate n id) (ltell w (LCreated n id))
| lc_create n id : (n, id) ∉ w_live w -> lchange w (LCreate n id)
    (World (w_stores w) (w_actors w) ({[ (n, id) ]} ∪ w_live w) (w_local w ++ [(n, id)]) (w_net w)
       (w_looks w) (w_next w) (w_log w ++ [LCreated n id]))
| lc_stop n id : (n, id) ∈ w_live w -> lchange w (LStop n id)
    (World (w_stores w) (w_actors w) (w_live w ∖ {[ (n, id) ]}) (w_local w) (w_net w)
       (w_looks w) (w_next w) (w_log w ++ [LStopped n id]))
| lc_own i n id : w_local w !! i = Some (n, id) -> owner w n id = n -> lchange w (LRegister i)
    (World (w_stores w) (<[(n, id) := n]> (w_actors w)) (w_live w) (delete i (w_local w)) (w_net w)
       (w_looks w) (w_next w) (w_log w))
| lc_send i n id : w_local w !! i = Some (n, id) -> owner w n id <> n -> lchange w (LRegister i)
    (World (w_stores w) (w_actors w) (w_live w) (delete i (w_local w)) (w_net w ++ [(owner w n id, id, n)])
       (w_looks w) (w_next w) (w_log w))
| lc_arrive i o id n : w_net w !! i = Some (o, id, n) -> lchange w (LArrive i)
    (World (w_stores w) (<[(o, id) := n]> (w_actors w)) (w_live w) (w_local w) (delete i (w_net w))
       (w_looks w) (w_next w) (w_log w))
| lc_lose i o id n : w_net w !! i = Some (o, id, n) -> lchange w (LLose i)
    (World (w_stores w) (w_actors w) (w_live w) (w_local w) (delete i (w_net w))
       (w_looks w) (w_next w) (w_log w))
| lc_store n o : lchange w (LStore n o)
    (World (<[n := dstep rhash search (default (new_store rhash []) (w_stores w !! n)) o]> (w_stores w))
       (w_actors w) (w_live w) (w_local w) (w_net w) (w_looks w) (w_next w) (w_log w))
| lc_look n id : lchange w (LLook n id)
    (World (w_stores w) (w_actors w) (w_live w) (w_local w) (w_net w)
       (<[w_next w := (n, [n], id)]> (w_looks w)) (S (w_next w)) (w_log w))
| lc_found k n x path id m : w_looks w !! k = Some (n, x :: path, id) -> w_actors w !! (x, id) = Some m ->
    lchange w (LHop k) (ltell (with_looks w (delete k (w_looks w))) (LAnswer k n id (Some m) false))
| lc_none k n x path id : w_looks w !! k = Some (n, x :: path, id) -> w_actors w !! (x, id) = None -> owner w x id = x ->
    lchange w (LHop k) (ltell (with_looks w (delete k (w_looks w))) (LAnswer k n id None false))
| lc_pass k n x path id : w_looks w !! k = Some (n, x :: path, id) -> w_actors w !! (x, id) = None -> owner w x id <> x ->
    lchange w (LHop k) (with_looks w (<[k := (n, owner w x id :: x :: path, id)]> (w_looks w)))
| lc_timeout k n path id : w_looks w !! k = Some (n, path, id) ->
    lchange w (LTimeout k) (ltell (with_looks w (delete k (w_looks w))) (LAnswer k n id None true)).
Lemma lstep_change w o w' : lstep w o = Some w' -> lchange w o w'.
Proof.
  destruct o as [n id|n id|i|i|i|n o|n id|k|k]; simpl.
  - case_decide; intros [= <-]; by constructor.
  - case_decide; [|done]. intros [= <-]; by constructor.
  - destruct (w_local w !! i) as [[n id]|] eqn:E; [|done]. cbn [mbind option_bind]. case_decide; intros [= <-]; by econstructor.
  - destruct (w_net w !! i) as [[[o id] n]|] eqn:E; [|done]. cbn [mbind option_bind]. intros [= <-]. by econstructor.
  - destruct (w_net w !! i) as [[[o id] n]|] eqn:E; [|done]. cbn [mbind option_bind]. intros [= <-]. by econstructor.
  - intros [= <-]. constructor.
  - intros [= <-]. constructor.
  - destruct (w_looks w !! k) as [[[n path] id]|] eqn:E; [|done]. cbn [mbind option_bind].
    destruct path as [|x path]; [done|]. cbn [head mbind option_bind].
    destruct (w_actors w !! (x, id)) as [m|] eqn:Ea; [intros [= <-]; by econstructor|].
    case_decide; intros [= <-]; by econstructor.
  - destruct (w_looks w !! k) as [[[n path] id]|] eqn:E; [|done]. cbn [mbind option_bind]. intros [= <-]. by econstructor.
Qed.
Ltac lcases H := apply lstep_change in H; inversion H; subst; clear H; cbn in *.

(** ** What is found was there *)
Record made (w : world) : Prop := Made {
  md_actors : forall x id m, w_actors w !! (x, id) = Some m -> LCreated m id ∈ w_log w;
  md_local : forall n id, (n, id) ∈ w_local w -> LCreated n id ∈ w_log w;
  md_net : forall o id n, (o, id, n) ∈ w_net w -> LCreated n id ∈ w_log w;
  md_live : forall n id, (n, id) ∈ w_live w -> LCreated n id ∈ w_log w;
  md_answer : forall k x id m t, LAnswer k x id (Some m) t ∈ w_log w -> LCreated m id ∈ w_log w
}.
Lemma elem_of_delete {A} (l : list A) i x : x ∈ delete i l -> x ∈ l.
Proof. revert i. induction l as [|y l IH]; intros [|i]; simpl; [done|done|intros; by right|]. intros [->|H]%elem_of_cons; [by left|]. right. by eapply IH. Qed.
Lemma stays_delete {A} (l : list A) i x y : l !! i = Some y -> x <> y -> x ∈ l -> x ∈ delete i l.
Proof.
  revert i. induction l as [|z l IH]; intros [|i] Hi Hne Hx; simpl in *; [done|done| |].
  - injection Hi as ->. by apply elem_of_cons in Hx as [->|Hx].
  - apply elem_of_cons in Hx as [->|Hx]; [by left|]. right. by eapply IH.
Qed.
Lemma elem_of_snoc {A} (l : list A) x y : x ∈ l ++ [y] <-> x ∈ l \/ x = y.
Proof. rewrite elem_of_app, elem_of_list_singleton. done. Qed.

Lemma made_step w o w' : made w -> lstep w o = Some w' -> made w'.
Proof.
  intros [H1 H2 H3 H4 H5] H. lcases H; constructor; cbn; intros.
  all: repeat match goal with
    | H : _ ∈ _ ++ [_] |- _ => apply elem_of_snoc in H as [H|H]; [|first [discriminate H|injection H as ?; subst]]
    | H : _ ∈ delete _ _ |- _ => apply elem_of_delete in H
    | H : _ ∈ _ ∪ _ |- _ => apply elem_of_union in H as [H|H]
    | H : _ ∈ {[ _ ]} |- _ => apply elem_of_singleton in H; injection H as ?; subst
    | H : _ ∈ _ ∖ _ |- _ => apply elem_of_difference in H as [H _]
    | H : <[_ := _]> _ !! _ = Some _ |- _ => apply lookup_insert_Some in H as [[[= <- <-] <-]|[_ H]]
    | H : w_local _ !! _ = Some _ |- _ => apply elem_of_list_lookup_2 in H
    | H : w_net _ !! _ = Some _ |- _ => apply elem_of_list_lookup_2 in H
    end; rewrite ?elem_of_snoc; eauto.
Qed.

Lemma running_snoc n id log e : running n id (log ++ [e]) =
  match e with
  | LCreated n' id' => if (n =? n')%N && String.eqb id id' then true else running n id log
  | LStopped n' id' => if (n =? n')%N && String.eqb id id' then false else running n id log
  | _ => running n id log
  end.
Proof. unfold running. rewrite foldl_app. by destruct e. Qed.
Lemma same_spec n n' id id' : ((n =? n')%N && String.eqb id id') = bool_decide ((n, id) = (n', id')).
Proof.
  destruct (bool_decide _) eqn:E.
  - apply bool_decide_eq_true in E. injection E as -> ->. by rewrite N.eqb_refl, String.eqb_refl.
  - apply bool_decide_eq_false in E. destruct (n =? n')%N eqn:E1; [|done]. destruct (String.eqb id id') eqn:E2; [|done].
    apply N.eqb_eq in E1. apply String.eqb_eq in E2. by subst.
Qed.
Definition live_right (w : world) : Prop := forall n id, (n, id) ∈ w_live w <-> running n id (w_log w) = true.
Lemma live_step w o w' : live_right w -> lstep w o = Some w' -> live_right w'.
Proof.
  intros Hl H. lcases H; intros n' id'; cbn [w_live w_log ltell with_looks]; rewrite ?running_snoc; cbv beta iota; try exact (Hl n' id').
  - rewrite same_spec. case_bool_decide as Hd; [|apply Hl]. by rewrite Hd.
  - rewrite same_spec. rewrite elem_of_union, elem_of_singleton. case_bool_decide as Hd.
    + split; [done|]. by left.
    + rewrite (Hl n' id'). split; [by intros [?|?]|by right].
  - rewrite same_spec. rewrite elem_of_difference, elem_of_singleton. case_bool_decide as Hd.
    + split; [by intros [_ ?]|done].
    + rewrite (Hl n' id'). split; [by intros [? _]|done].
Qed.

Lemma lruns_ind (P : world -> Prop) w l w' : (forall w o w', o ∈ l -> P w -> lstep w o = Some w' -> P w') ->
  P w -> lrun w l = Some w' -> P w'.
Proof.
  intros HP. assert (Hl : forall o, o ∈ l -> o ∈ l) by done. revert Hl. generalize l at 1 3. intros l0. revert w.
  induction l0 as [|o l0 IH]; intros w Hl Hw; simpl; [by intros [= <-]|].
  destruct (lstep w o) as [w1|] eqn:E; [|done]. cbn. apply IH.
  - intros o' Ho'. apply Hl. by right.
  - eapply HP; [|done|done]. apply Hl. by left.
Qed.
Lemma made_new : made new_world.
Proof. constructor; cbn; intros; first [by rewrite lookup_empty in *|match goal with H : _ ∈ [] |- _ => by apply elem_of_nil in H end|set_solver]. Qed.
Lemma made_run l w : lrun new_world l = Some w -> made w.
Proof. apply lruns_ind; [|apply made_new]. intros ? ? ? _. apply made_step. Qed.

(** Created events come from creations. *)
Lemma created_run w l w' n id : lrun w l = Some w' -> LCreated n id ∈ w_log w' -> LCreated n id ∈ w_log w \/ LCreate n id ∈ l.
Proof.
  revert w. induction l as [|o l IH]; intros w; simpl; [intros [= <-]; by left|].
  destruct (lstep w o) as [w1|] eqn:E; [|done]. cbn. intros Hr Hc. destruct (IH _ Hr Hc) as [H|H]; [|by right; right].
  lcases E; rewrite ?elem_of_snoc in H; first [by left|destruct H as [H|H]; [by left|first [discriminate H|injection H as -> ->; right; by left]]].
Qed.

Lemma stores_step w o w' : is_store o = false -> lstep w o = Some w' -> w_stores w' = w_stores w.
Proof. intros Ho H. lcases H; done. Qed.
Lemma owner_stores w w' x id : w_stores w' = w_stores w -> owner w' x id = owner w x id.
Proof. unfold Locate_Model.owner. by intros ->. Qed.
Lemma stores_run w l w' : (forall o, o ∈ l -> is_store o = false) -> lrun w l = Some w' -> w_stores w' = w_stores w.
Proof.
  intros Hl. apply (lruns_ind (fun w' => w_stores w' = w_stores w)); [|done].
  intros w1 o w2 Ho H E. rewrite <- H. eapply stores_step; [|done]. by apply Hl.
Qed.

(** ** An actor that lives on one node *)
Section one.
Variable X : gset N.
Variable id : string.
Variable o n : N.
Hypothesis Hn : n ∈ X.

Record only (w : world) : Prop := Only {
  on_agree : agree w X id o;
  on_actors : forall x m, w_actors w !! (x, id) = Some m -> m = n;
  on_local : forall m, (m, id) ∈ w_local w -> m = n;
  on_net : forall y m, (y, id, m) ∈ w_net w -> m = n /\ y = o
}.
Definition on_its_way (w : world) : Prop :=
  w_actors w !! (o, id) = Some n \/ (n, id) ∈ w_local w \/ (o, id, n) ∈ w_net w.

Lemma only_step w p w' : is_store p = false -> (forall m, creates id p = Some m -> m = n) ->
  only w -> lstep w p = Some w' -> only w'.
Proof.
  intros Hs Hc [H1 H2 H3 H4] H. pose proof (stores_step _ _ _ Hs H) as Hst.
  assert (Ha : agree w' X id o).
  { destruct H1 as [Ho Hx]. split; [done|]. intros x ?. rewrite (owner_stores w); [|done]. by apply Hx. }
  lcases H; constructor; cbn; try done; intros.
  all: repeat match goal with
    | H : _ ∈ _ ++ [_] |- _ => apply elem_of_snoc in H as [H|H]; [|first [discriminate H|injection H as ?; subst]]
    | H : _ ∈ delete _ _ |- _ => apply elem_of_delete in H
    | H : <[_ := _]> _ !! _ = Some _ |- _ => apply lookup_insert_Some in H as [[[= <- <-] <-]|[_ H]]
    | H : w_local _ !! _ = Some _ |- _ => apply elem_of_list_lookup_2 in H
    | H : w_net _ !! _ = Some _ |- _ => apply elem_of_list_lookup_2 in H
    end; eauto.
  - apply Hc. by rewrite String.eqb_refl.
  - split; [by apply H3|]. assert (n0 = n) as -> by (by apply H3). by apply H1.
  - by eapply H4.
Qed.

Lemma way_create w p w' m : only w -> creates id p = Some m -> m = n -> (n, id) ∉ w_live w \/ on_its_way w ->
  lstep w p = Some w' -> on_its_way w'.
Proof.
  intros Hw Hc -> Hl H. lcases H; try done.
  - destruct (String.eqb id id0) eqn:Eq; [|done]. apply String.eqb_eq in Eq. subst id0. injection Hc as ->. by destruct Hl.
  - destruct (String.eqb id id0) eqn:Eq; [|done]. apply String.eqb_eq in Eq. subst id0. injection Hc as ->. right; left. cbn. set_solver.
Qed.
Lemma way_step w p w' : is_store p = false -> is_lose p = false -> only w -> on_its_way w ->
  lstep w p = Some w' -> on_its_way w'.
Proof.
  intros Hs Hlo [H1 H2 H3 H4] Hw H. unfold on_its_way in *. lcases H; try done.
  - destruct Hw as [?|[?|?]]; set_solver.
  - destruct Hw as [Hw|[Hw|Hw]]; [|destruct (decide ((n, id) = (n0, id0))) as [[= <- <-]|Hne]|by right; right].
    + left. destruct (decide ((n0, id0) = (o, id))) as [[= -> ->]|Hne]; [|by rewrite lookup_insert_ne].
      rewrite lookup_insert. f_equal. apply H3. by eapply elem_of_list_lookup_2.
    + left. match goal with He : owner w n id = n |- _ => rewrite <- He at 1 end. destruct H1 as [_ H1]. rewrite (H1 n Hn).
      match goal with He : owner w n id = n |- _ => rewrite (H1 n Hn) in He; rewrite He end. by rewrite lookup_insert.
    + right; left. by eapply stays_delete.
  - destruct Hw as [Hw|[Hw|Hw]]; [by left| |right; right; set_solver].
    destruct (decide ((n, id) = (n0, id0))) as [[= <- <-]|Hne].
    + right; right. destruct H1 as [_ H1]. rewrite (H1 n Hn). set_solver.
    + right; left. by eapply stays_delete.
  - destruct Hw as [Hw|[Hw|Hw]]; [|by right; left|destruct (decide ((o, id, n) = (o0, id0, n0))) as [[= <- <- <-]|Hne]].
    + left. destruct (decide ((o0, id0) = (o, id))) as [[= -> ->]|Hne]; [|by rewrite lookup_insert_ne].
      rewrite lookup_insert. f_equal. eapply H4. by eapply elem_of_list_lookup_2.
    + left. by rewrite lookup_insert.
    + right; right. by eapply stays_delete.
Qed.

(** An actor that was never created leaves no trace. *)
Lemma only_fresh w : agree w X id o -> made w -> (forall m, LCreated m id ∉ w_log w) -> only w /\ forall m, (m, id) ∉ w_live w.
Proof.
  intros Ha [H1 H2 H3 H4 _] Hf. split; [constructor; [done|..]|].
  - intros x m H. by apply H1, Hf in H.
  - intros m H. by apply H2, Hf in H.
  - intros y m H. by apply H3, Hf in H.
  - intros m H. by apply H4, Hf in H.
Qed.
Lemma way_run w l w' : only w -> (n, id) ∉ w_live w \/ on_its_way w ->
  (forall p, p ∈ l -> is_store p = false /\ is_lose p = false) -> (forall p m, p ∈ l -> creates id p = Some m -> m = n) ->
  lrun w l = Some w' -> only w' /\ ((n, id) ∉ w_live w' \/ on_its_way w') /\ ((exists p, p ∈ l /\ creates id p <> None) -> on_its_way w').
Proof.
  revert w. induction l as [|p l IH]; intros w Hw Hl Hp Hc; simpl.
  { intros [= <-]. split_and!; try done. intros (p & Hin & _). by apply elem_of_nil in Hin. }
  destruct (lstep w p) as [w1|] eqn:E; [|done]. cbn. intros Hr.
  destruct (Hp p) as [Hp1 Hp2]; [by left|].
  assert (Hw1 : only w1) by (eapply only_step; [done| |done|done]; intros m; apply Hc; by left).
  assert (Hl1 : ((n, id) ∉ w_live w1 \/ on_its_way w1) /\ (creates id p <> None -> on_its_way w1)).
  { destruct (creates id p) as [m|] eqn:Ec.
    - assert (Hw' : on_its_way w1) by (eapply (way_create w p w1 m); try done; apply (Hc p); [by left|done]). by split; [right|].
    - split; [|done]. destruct Hl as [Hl|Hl]; [|right; exact (way_step w p w1 Hp1 Hp2 Hw Hl E)]. left.
      lcases E; try done; [|set_solver].
      destruct (String.eqb id id0) eqn:Eq; [done|]. apply String.eqb_neq in Eq. set_solver. }
  destruct Hl1 as [Hl1 Hcr].
  destruct (IH w1 Hw1 Hl1) as (I1 & I2 & I3); [intros; apply Hp; by right|intros ? ? ?; apply Hc; by right|done|].
  split_and!; [done|done|]. intros (q & Hq & Hcq). apply elem_of_cons in Hq as [->|Hq]; [|apply I3; eauto].
  specialize (Hcr Hcq). 
  assert (Hkeep : forall w l w', only w -> on_its_way w -> (forall p, p ∈ l -> is_store p = false /\ is_lose p = false) ->
     (forall p m, p ∈ l -> creates id p = Some m -> m = n) -> lrun w l = Some w' -> on_its_way w').
  { clear -Hn. intros w l. revert w. induction l as [|p l IH]; intros w w' Ho Hw Hp Hc; simpl; [by intros [= <-]|].
    destruct (lstep w p) as [w1|] eqn:E; [|done]. cbn. intros Hr. destruct (Hp p) as [Hp1 Hp2]; [by left|].
    eapply (IH w1); [| | | |done].
    - eapply only_step; [done| |done|done]. intros m. apply Hc. by left.
    - exact (way_step w p w1 Hp1 Hp2 Ho Hw E).
    - intros; apply Hp; by right.
    - intros ? ? ?; apply Hc; by right. }
  eapply (Hkeep w1 l); try done; [intros; apply Hp; by right|intros ? ? ?; apply Hc; by right].
Qed.

(** Lookups begun from then on. *)
Record located (k0 : nat) (w : world) : Prop := Located {
  lo_only : only w;
  lo_there : w_actors w !! (o, id) = Some n;
  lo_next : (k0 <= w_next w)%nat;
  lo_looks : forall k x path, (k0 <= k)%nat -> w_looks w !! k = Some (x, path, id) -> x ∈ X ->
    path = [x] \/ path = [o; x];
  lo_answers : forall k x r, (k0 <= k)%nat -> LAnswer k x id r false ∈ w_log w -> x ∈ X -> r = Some n
}.
(** What was begun has a smaller number than what comes. *)
Record numbered (w : world) : Prop := Numbered {
  nu_looks : forall k v, w_looks w !! k = Some v -> (k < w_next w)%nat;
  nu_log : forall k x i r t, LAnswer k x i r t ∈ w_log w -> (k < w_next w)%nat
}.
Lemma numbered_step w p w' : numbered w -> lstep w p = Some w' -> numbered w'.
Proof.
  intros [H1 H2] H. lcases H; constructor; cbn; intros.
  all: repeat match goal with
    | H : _ ∈ _ ++ [_] |- _ => apply elem_of_snoc in H as [H|H]; [|first [discriminate H|injection H as ?; subst]]
    | H : <[_ := _]> _ !! _ = Some _ |- _ => apply lookup_insert_Some in H as [[<- <-]|[_ H]]
    | H : delete _ _ !! _ = Some _ |- _ => apply lookup_delete_Some in H as [_ H]
    end; eauto using Nat.lt_lt_succ_r.
Qed.
Lemma numbered_run l w : lrun new_world l = Some w -> numbered w.
Proof.
  apply lruns_ind; [intros ? ? ? _; apply numbered_step|].
  constructor; cbn; intros; [by rewrite lookup_empty in *|]. match goal with H : _ ∈ [] |- _ => by apply elem_of_nil in H end.
Qed.

Lemma located_start w : only w -> w_actors w !! (o, id) = Some n -> numbered w -> located (w_next w) w.
Proof.
  intros H1 H2 [H3 H4]. constructor; try done.
  - intros k x path Hk Hl. apply H3 in Hl. lia.
  - intros k x r Hk Hl. apply H4 in Hl. lia.
Qed.
Lemma located_step k0 w p w' : is_store p = false -> (forall m, creates id p = Some m -> m = n) ->
  located k0 w -> lstep w p = Some w' -> located k0 w'.
Proof.
  intros Hs Hc [H1 H2 H3 H4 H5] H. pose proof (only_step _ _ _ Hs Hc H1 H) as H1'.
  lcases H; constructor; cbn; try done; try lia.
  all: intros; repeat match goal with
    | H : _ ∈ _ ++ [_] |- _ => apply elem_of_snoc in H as [H|H]; [|first [discriminate H|injection H as ?; subst]]
    | H : <[_ := _]> (w_looks _) !! _ = Some _ |- _ => apply lookup_insert_Some in H as [[<- H]|[_ H]]; [injection H as ?; subst|]
    | H : delete _ _ !! _ = Some _ |- _ => apply lookup_delete_Some in H as [_ H]
    end; eauto.
  - destruct (decide ((n0, id0) = (o, id))) as [[= -> ->]|Hne]; [|by rewrite lookup_insert_ne].
    rewrite lookup_insert. f_equal. eapply (on_actors _ H1' o). cbn. by rewrite lookup_insert.
  - destruct (decide ((o0, id0) = (o, id))) as [[= -> ->]|Hne]; [|by rewrite lookup_insert_ne].
    rewrite lookup_insert. f_equal. eapply (on_actors _ H1' o). cbn. by rewrite lookup_insert.
  - f_equal. by eapply (on_actors _ H1).
  - exfalso. destruct (on_agree _ H1) as [_ Ha].
    match goal with Hl : w_looks w !! ?k = Some (?y, _, id), Hk : (k0 <= ?k)%nat, Hx : ?y ∈ X, Ho : owner w _ id = _ |- _ =>
      destruct (H4 _ _ _ Hk Hl Hx) as [E|E]; injection E as -> ->; [rewrite (Ha y Hx) in Ho; congruence|congruence] end.
  - right. destruct (on_agree _ H1) as [_ Ha].
    match goal with Hl : w_looks w !! ?k = Some (?y, _, id), Hk : (k0 <= ?k)%nat, Hx : ?y ∈ X |- _ =>
      destruct (H4 _ _ _ Hk Hl Hx) as [E|E]; injection E as -> ->; [by rewrite (Ha y Hx)|congruence] end.
Qed.
Lemma located_stays k0 w l w' : located k0 w -> (forall p, p ∈ l -> is_store p = false) -> (forall m, LCreate m id ∈ l -> m = n) ->
  lrun w l = Some w' -> located k0 w'.
Proof.
  intros Hlo Hp Hc. apply (lruns_ind (located k0)); [|done]. intros w1 p w2 Hin H1 E.
  eapply located_step; [by apply Hp| |done|done].
  intros m Hm. destruct p as [? i|? ?|?|?|?|? ?|? ?|?|?]; try discriminate Hm. cbn in Hm.
  destruct (String.eqb id i) eqn:Eq; [|done]. apply String.eqb_eq in Eq. subst i. injection Hm as ->. by apply Hc.
Qed.
Lemma located_run l1 l2 w1 w2 :
  lrun new_world l1 = Some w1 -> (forall m, LCreate m id ∉ l1) -> agree w1 X id o ->
  lrun w1 l2 = Some w2 -> (forall p, p ∈ l2 -> is_store p = false /\ is_lose p = false) ->
  LCreate n id ∈ l2 -> (forall m, LCreate m id ∈ l2 -> m = n) -> arrived w2 id -> located (w_next w2) w2 /\ numbered w2.
Proof.
  intros R1 N1 Ha R2 P2 C2 N2 [Ar1 Ar2].
  assert (Hnu : numbered w2).
  { apply (numbered_run (l1 ++ l2)). rewrite lrun_app, R1. exact R2. }
  split; [|done].
  destruct (only_fresh w1 Ha (made_run _ _ R1)) as [Ho Hl].
  { intros m Hm. destruct (created_run _ _ _ _ _ R1 Hm) as [Hin|Hin]; [by apply elem_of_nil in Hin|by apply N1 in Hin]. }
  destruct (way_run w1 l2 w2 Ho (or_introl (Hl n)) P2) as (Ho2 & _ & Hw); [|done|].
  { intros p m Hin Hm. destruct p as [? i|? ?|?|?|?|? ?|? ?|?|?]; try discriminate Hm. cbn in Hm.
    destruct (String.eqb id i) eqn:Eq; [|done]. apply String.eqb_eq in Eq. subst i. injection Hm as ->. by apply N2. }
  apply located_start; [done| |done].
  destruct Hw as [Hw|[Hw|Hw]]; [|done|by apply Ar1 in Hw|by apply Ar2 in Hw].
  exists (LCreate n id). split; [done|]. cbn. by rewrite String.eqb_refl.
Qed.
(** Such a lookup is answered by at most two nodes. *)
Lemma located_hops k0 w k x path : located k0 w -> (k0 <= k)%nat -> w_looks w !! k = Some (x, path, id) -> x ∈ X ->
  exists j w', (j <= 2)%nat /\ lrun w (repeat (LHop k) j) = Some w' /\ LAnswer k x id (Some n) false ∈ w_log w'.
Proof.
  intros [H1 H2 H3 H4 H5] Hk Hl Hx.
  assert (Hown : forall w1 path, w_looks w1 !! k = Some (x, o :: path, id) -> w_actors w1 !! (o, id) = Some n ->
    exists w2, lrun w1 [LHop k] = Some w2 /\ LAnswer k x id (Some n) false ∈ w_log w2).
  { intros w1 path1 Hl1 Ha1. eexists. simpl. rewrite Hl1. cbn. rewrite Ha1. cbn. split; [done|]. cbn. set_solver. }
  destruct (H4 _ _ _ Hk Hl Hx) as [->| ->].
  - destruct (w_actors w !! (x, id)) as [m|] eqn:Ea.
    + assert (m = n) as -> by (by eapply (on_actors _ H1)). exists 1%nat. eexists. split; [lia|]. simpl. rewrite Hl. cbn. rewrite Ea. cbn.
      split; [done|]. cbn. set_solver.
    + destruct (on_agree _ H1) as [_ Ha]. 
      assert (Hne : owner w x id <> x) by (rewrite (Ha x Hx); congruence).
      destruct (Hown (with_looks w (<[k := (x, [owner w x id; x], id)]> (w_looks w))) [x]) as (w2 & Hr & Hin).
      { cbn. rewrite lookup_insert. by rewrite (Ha x Hx). }
      { done. }
      assert (Hst : lstep w (LHop k) = Some (with_looks w (<[k := (x, [owner w x id; x], id)]> (w_looks w)))).
      { simpl. rewrite Hl. cbn [mbind option_bind head]. rewrite Ea. by rewrite decide_False. }
      exists 2%nat, w2. split; [lia|]. split; [|done]. change (repeat (LHop k) 2) with ([LHop k] ++ [LHop k]).
      rewrite lrun_app. change (lrun w [LHop k]) with (lstep w (LHop k) ≫= fun w' => Some w'). rewrite Hst. exact Hr.
  - destruct (Hown w [x] Hl H2) as (w2 & Hr & Hin). exists 1%nat, w2. split; [lia|]. done.
Qed.
End one.

Lemma next_step w p w' : lstep w p = Some w' -> (w_next w <= w_next w')%nat.
Proof. intros H. lcases H; lia. Qed.

(** ** Lookups are not passed on for ever *)
Section closer.
Variable X : gset N.
Variable id : string.
Variable lt : N -> N -> Prop.
Hypothesis lt_irrefl : forall x, ~ lt x x.
Hypothesis lt_trans : forall x y z, lt x y -> lt y z -> lt x z.

Definition closer (w : world) : Prop := forall x, x ∈ X -> owner w x id <> x -> owner w x id ∈ X /\ lt (owner w x id) x.
Definition short (k : nat) (w : world) (h : nat) : Prop :=
  match w_looks w !! k with
  | Some (n, path, i) => i = id -> n ∈ X -> StronglySorted lt path /\ Forall (fun x => x ∈ X) path /\ length path = S h
  | None => True
  end.
Lemma sorted_NoDup l : StronglySorted lt l -> NoDup l.
Proof.
  induction 1 as [|x l _ IH Hx]; constructor; [|done]. intros Hin. rewrite Forall_forall in Hx. by apply (lt_irrefl x), Hx.
Qed.
Lemma closer_step k w p w' h : is_store p = false -> closer w -> numbered w -> (k < w_next w)%nat -> short k w h ->
  lstep w p = Some w' -> short k w' (h + (if hops_of k p then 1 else 0)).
Proof.
  intros Hs Hc Hnu Hk Hsh H. unfold short in *. lcases H.
  all: rewrite ?Nat.add_0_r; try done.
  - rewrite lookup_insert_ne by lia. done.
  - destruct (decide (k0 = k)) as [->|Hne]; [by rewrite lookup_delete|]. rewrite lookup_delete_ne by done.
    destruct (Nat.eqb_spec k k0); [congruence|]. by rewrite Nat.add_0_r.
  - destruct (decide (k0 = k)) as [->|Hne]; [by rewrite lookup_delete|]. rewrite lookup_delete_ne by done.
    destruct (Nat.eqb_spec k k0); [congruence|]. by rewrite Nat.add_0_r.
  - destruct (decide (k0 = k)) as [->|Hne].
    + rewrite lookup_insert. rewrite H0 in Hsh. intros -> Hx. destruct (Hsh eq_refl Hx) as (S1 & S2 & S3).
      rewrite Nat.eqb_refl. inversion S2 as [|? ? Hx0 S2']; subst. destruct (Hc x Hx0 H2) as [Ho1 Ho2].
      split_and!; [|by constructor|simpl in *; lia].
      inversion S1 as [|? ? S1' Hfa]; subst. constructor; [done|]. constructor; [done|].
      eapply Forall_impl; [exact Hfa|]. intros y Hy. by eapply lt_trans.
    + rewrite lookup_insert_ne by done. destruct (Nat.eqb_spec k k0); [congruence|]. by rewrite Nat.add_0_r.
  - destruct (decide (k0 = k)) as [->|Hne]; [by rewrite lookup_delete|]. rewrite lookup_delete_ne by done. done.
Qed.
Lemma closer_stores w w' : w_stores w' = w_stores w -> closer w -> closer w'.
Proof. unfold closer. intros Hs Hc x Hx. rewrite (owner_stores w) by done. by apply Hc. Qed.
Lemma closer_run k l w w' h : (forall p, p ∈ l -> is_store p = false) -> closer w -> numbered w -> (k < w_next w)%nat -> short k w h ->
  lrun w l = Some w' -> short k w' (h + length (List.filter (hops_of k) l)).
Proof.
  revert w h. induction l as [|p l IH]; intros w h Hp Hc Hnu Hk Hsh; simpl; [intros [= <-]; by rewrite Nat.add_0_r|].
  destruct (lstep w p) as [w1|] eqn:E; [|done]. cbn. intros Hr.
  assert (Hsp : is_store p = false) by (apply Hp; by left).
  pose proof (closer_step _ _ _ _ _ Hsp Hc Hnu Hk Hsh E) as Hsh1.
  apply IH in Hsh1; [|intros; apply Hp; by right| |by eapply numbered_step| |done].
  - destruct (hops_of k p); cbn in *; [by replace (h + S (length (List.filter (hops_of k) l)))%nat with (h + 1 + length (List.filter (hops_of k) l))%nat by lia|].
    by rewrite Nat.add_0_r in Hsh1.
  - eapply closer_stores; [|done]. by eapply stores_step.
  - apply next_step in E. lia.
Qed.
Lemma short_bound k w h n path : short k w h -> w_looks w !! k = Some (n, path, id) -> n ∈ X -> (h < size X)%nat.
Proof.
  unfold short. intros Hs Hl Hn. rewrite Hl in Hs. destruct (Hs eq_refl Hn) as (S1 & S2 & S3).
  assert (Hsub : list_to_set path ⊆ X).
  { intros y Hy. apply elem_of_list_to_set in Hy. rewrite Forall_forall in S2. by apply S2. }
  apply subseteq_size in Hsub. rewrite size_list_to_set in Hsub by (by apply sorted_NoDup). lia.
Qed.
End closer.

(** On a ring every node that a lookup is passed to is nearer to the key. *)
Definition nearer (h a b : N) : Prop :=
  ((h <= a /\ b < h) \/ (h <= a /\ h <= b /\ a < b) \/ (a < h /\ b < h /\ a < b))%N.
Lemma nearer_irrefl h a : ~ nearer h a a.
Proof. unfold nearer. lia. Qed.
Lemma nearer_trans h a b c : nearer h a b -> nearer h b c -> nearer h a c.
Proof. unfold nearer. lia. Qed.
Lemma next_nearer P h a b : next_on_ring rhash P h a -> P b -> node_hash rhash a <> node_hash rhash b ->
  nearer h (node_hash rhash a) (node_hash rhash b).
Proof.
  intros [Ha [[H1 H2]|[H1 H2]]] Hb Hne; unfold nearer.
  - destruct (decide (h <= node_hash rhash b)%N) as [Hh|Hh]; [specialize (H2 b Hb Hh)|]; lia.
  - pose proof (H1 b Hb). pose proof (H2 b Hb). pose proof (H1 a Ha). lia.
Qed.

Section right.
Hypothesis Hsearch : searches search.
Variable P : rnode -> Prop.
Hypothesis Pid : forall a b, P a -> P b -> r_id a = r_id b -> a = b.
Variable h : N.
Definition id_nearer (a b : N) : Prop :=
  exists na nb, P na /\ P nb /\ r_id na = a /\ r_id nb = b /\ nearer h (node_hash rhash na) (node_hash rhash nb).
Lemma id_nearer_irrefl a : ~ id_nearer a a.
Proof.
  intros (na & nb & Ha & Hb & E1 & E2 & Hn). assert (na = nb) as -> by (apply Pid; [done|done|congruence]). by apply nearer_irrefl in Hn.
Qed.
Lemma id_nearer_trans a b c : id_nearer a b -> id_nearer b c -> id_nearer a c.
Proof.
  intros (na & nb & Ha & Hb & E1 & E2 & Hn) (nb' & nc & Hb' & Hc & E3 & E4 & Hn').
  assert (nb' = nb) as -> by (apply Pid; [done|done|congruence]).
  exists na, nc. split_and!; try done. by eapply nearer_trans.
Qed.
End right.
Lemma rings_closer w X id : searches search -> rings_right rhash search w X ->
  exists lt : N -> N -> Prop, (forall x, ~ lt x x) /\ (forall x y z, lt x y -> lt y z -> lt x z) /\ closer X id lt w.
Proof.
  intros Hsearch (P & Pid & Hnc & HX). exists (id_nearer P (khash id)). split; [by apply id_nearer_irrefl|].
  split; [by apply id_nearer_trans|].
  intros x Hx. destruct (HX x Hx) as (l & Hl & Hcon & Hmem & n & Hn & <-).
  unfold owner. rewrite Hl. cbn [mbind option_bind].
  destruct (get_by_key rhash khash search (drun rhash search l) id) as [m|] eqn:E; [|done].
  intros Hne. apply (assigned rhash khash search Hsearch l id m Hcon) in E.
  destruct (Hmem n Hn) as [Pn _]. assert (Hm : member l m) by (by destruct E). destruct (Hmem m Hm) as [Pm Xm].
  split; [done|]. exists m, n. split_and!; try done.
  apply (next_nearer (member l)); [done|done|]. intros Heq. apply Hne. f_equal. by apply Hnc.
Qed.

(** A lookup stays until it is answered. *)
Definition pending (k : nat) (n : N) (id : string) (w : world) : Prop :=
  (exists r t, LAnswer k n id r t ∈ w_log w) \/ (exists path, w_looks w !! k = Some (n, path, id)).
Lemma pending_step k n id w p w' : (k < w_next w)%nat -> pending k n id w -> lstep w p = Some w' -> pending k n id w'.
Proof.
  intros Hk [(r & t & Hin)|(path & Hl)] H.
  - left. exists r, t. lcases H; try done; apply elem_of_app; by left.
  - lcases H; try (right; by exists path).
    + right. exists path. cbn. rewrite lookup_insert_ne; [done|lia].
    + destruct (decide (k0 = k)) as [->|Hne].
      * left. rewrite Hl in H0. injection H0 as -> -> ->. exists (Some m), false. apply elem_of_app; right; by apply elem_of_list_singleton.
      * right. exists path. cbn. by rewrite lookup_delete_ne.
    + destruct (decide (k0 = k)) as [->|Hne].
      * left. rewrite Hl in H0. injection H0 as -> -> ->. exists None, false. apply elem_of_app; right; by apply elem_of_list_singleton.
      * right. exists path. cbn. by rewrite lookup_delete_ne.
    + right. destruct (decide (k0 = k)) as [->|Hne].
      * rewrite Hl in H0. injection H0 as -> -> ->. eexists. cbn. by rewrite lookup_insert.
      * exists path. cbn. by rewrite lookup_insert_ne.
    + destruct (decide (k0 = k)) as [->|Hne].
      * left. rewrite Hl in H0. injection H0 as -> -> ->. exists None, true. apply elem_of_app; right; by apply elem_of_list_singleton.
      * right. exists path. cbn. by rewrite lookup_delete_ne.
Qed.
Lemma pending_run k n id w l w' : (k < w_next w)%nat -> pending k n id w -> lrun w l = Some w' -> pending k n id w'.
Proof.
  intros Hk Hp Hr. assert (HH : (k < w_next w')%nat /\ pending k n id w'); [|by destruct HH].
  revert Hr. apply (lruns_ind (fun w => (k < w_next w)%nat /\ pending k n id w)); [|done]. intros w1 p w2 _ [H1 H2] E. split; [apply next_step in E; lia|]. by eapply pending_step.
Qed.

(** A lookup is passed on fewer times than there are nodes. *)
Lemma lookup_ends w X id n l w1 w' : searches search -> rings_right rhash search w X -> numbered w ->
  n ∈ X -> lstep w (LLook n id) = Some w1 -> (forall p, p ∈ l -> is_store p = false) -> lrun w1 l = Some w' ->
  (exists r t, LAnswer (w_next w) n id r t ∈ w_log w') \/
  ((exists path, w_looks w' !! w_next w = Some (n, path, id)) /\ (length (List.filter (hops_of (w_next w)) l) < size X)%nat).
Proof.
  intros Hse Hri Hnu Hn Hs Hp Hr. pose proof (numbered_step _ _ _ Hnu Hs) as Hnu1.
  destruct (rings_closer _ _ id Hse Hri) as (lt & Hirr & Htr & Hcl). 
  pose proof (stores_step w (LLook n id) w1 eq_refl Hs) as Hst. pose proof (closer_stores X id lt _ _ Hst Hcl) as Hcl1.
  simpl in Hs. injection Hs as <-.
  assert (Hpe : pending (w_next w) n id w').
  { refine (pending_run _ _ _ _ _ _ _ _ Hr); [cbn; lia|]. right. exists [n]. cbn. by rewrite lookup_insert. }
  destruct Hpe as [?|[path Hl]]; [by left|]. right. split; [by exists path|].
  refine (short_bound X id lt Hirr Htr _ _ _ _ _ _ Hl Hn).
  match type of Hr with lrun ?w1 _ = _ => 
    apply (closer_run X id lt Hirr Htr (w_next w) l w1 w' 0 Hp Hcl1 Hnu1) end; [cbn; lia| |done].
  unfold short. cbn. rewrite lookup_insert. intros _ _. split_and!; [by repeat constructor|by repeat constructor|done].
Qed.
End locate.
