(** What the operations on handles keep: systems, actors and handles of a run. *)
From Verif Require Import Handles_Spec.
Local Open Scope N_scope.

(** * Creating an actor *)
#[local] Arguments start : simpl never.
Definition new_one (w : world) (s : asys) (id : string) (t : atype) (tracked : bool) (parent : option nat) : hactor :=
  let store := if t_persists t then with_persistence s else None in
  HActor id t tracked (match parent ≫= fun q => w_actors w !! q with Some a => a_root a | None => length (w_actors w) end)
    s (c_next (core_of w (s_core s))) None store
    (match store with Some p => default [] (w_stores w !! (p, id)) | None => [] end)
    (negb (t_persists t) || bool_decide (is_Some store)).

Lemma start_actors w s id t k p : w_actors (start w s id t k p).1 = w_actors w ++ [new_one w s id t k p].
Proof. unfold start; cbn [fst]. by destruct (_ && _). Qed.
Lemma start_handles w s id t k p : w_handles (start w s id t k p).1 = w_handles w.
Proof. unfold start; cbn [fst]. by destruct (_ && _). Qed.
Lemma start_stores w s id t k p : w_stores (start w s id t k p).1 = w_stores w.
Proof. unfold start; cbn [fst]. by destruct (_ && _). Qed.
Lemma start_ncores w s id t k p : length (w_cores (start w s id t k p).1) = length (w_cores w).
Proof. unfold start; cbn [fst]. destruct (_ && _); cbn; by rewrite ?alter_length. Qed.
Lemma start_ok w s id t k p : (start w s id t k p).2 = a_alive (new_one w s id t k p).
Proof. done. Qed.

#[global] Opaque start.

Lemma with_core_of w c d f : (N.to_nat d < length (w_cores w))%nat ->
  core_of (with_core w c f) d = if bool_decide (c = d) then f (core_of w d) else core_of w d.
Proof.
  intros Hd. unfold core_of, with_core; cbn [w_cores]. case_bool_decide as E.
  - subst d. rewrite list_lookup_alter. destruct (lookup_lt_is_Some_2 _ _ Hd) as [x ->]. done.
  - rewrite list_lookup_alter_ne; [done|]. intros H. apply E. lia.
Qed.

(** * What every step does to the lists *)
(** Actors keep what they are: only the system, the remote handle and life may change. *)
Definition same_actor (a b : hactor) : Prop :=
  a_id a = a_id b /\ a_type a = a_type b /\ a_tracked a = a_tracked b /\ a_root a = a_root b /\
  a_ctx a = a_ctx b /\ a_store a = a_store b /\ a_read a = a_read b /\ s_core (a_sys a) = s_core (a_sys b).
Definition kept (l l' : list hactor) : Prop :=
  forall r a, l !! r = Some a -> exists b, l' !! r = Some b /\ same_actor a b.

Lemma same_actor_refl a : same_actor a a.
Proof. by repeat split. Qed.
Lemma same_actor_trans a b c : same_actor a b -> same_actor b c -> same_actor a c.
Proof. intros (?&?&?&?&?&?&?&?) (?&?&?&?&?&?&?&?). repeat split; congruence. Qed.
Lemma kept_refl l : kept l l.
Proof. intros r a H. exists a. split; [done|apply same_actor_refl]. Qed.
Lemma kept_trans l1 l2 l3 : kept l1 l2 -> kept l2 l3 -> kept l1 l3.
Proof.
  intros H1 H2 r a Ha. destruct (H1 _ _ Ha) as (b & Hb & E1). destruct (H2 _ _ Hb) as (c & Hc & E2).
  exists c. split; [done|]. by eapply same_actor_trans.
Qed.
Lemma kept_app l l' : kept l (l ++ l').
Proof. intros r a H. exists a. split; [by apply lookup_app_l_Some|apply same_actor_refl]. Qed.
Lemma kept_alter l r f : (forall a, l !! r = Some a -> same_actor a (f a)) -> kept l (alter f r l).
Proof.
  intros Hf q a Ha. destruct (decide (q = r)) as [->|].
  - exists (f a). rewrite list_lookup_alter, Ha. split; [done|by apply Hf].
  - exists a. rewrite list_lookup_alter_ne by done. split; [done|apply same_actor_refl].
Qed.
Lemma kept_fmap l f : (forall a, same_actor a (f a)) -> kept l (f <$> l).
Proof. intros Hf r a H. exists (f a). by rewrite list_lookup_fmap, H. Qed.

Lemma same_dead a : same_actor a (dead a).
Proof. by repeat split. Qed.
Lemma same_given a x : same_actor a (given_remote x a).
Proof. by repeat split. Qed.

Definition end_in (l : list nat) (a : hactor) : hactor := if bool_decide (a_root a ∈ l) then dead a else a.
Lemma end_under_actors w l : w_actors (end_under w l) = end_in l <$> w_actors w.
Proof. done. Qed.
Lemma same_end l a : same_actor a (end_in l a).
Proof. unfold end_in. case_bool_decide; [apply same_dead|apply same_actor_refl]. Qed.

(** ** Building a remote system *)
Fixpoint news (w : world) (s : asys) (l : list string) : list hactor :=
  match l with
  | [] => []
  | id :: l' => new_one w s id (plain 0) true None :: news (start w s id (plain 0) true None).1 s l'
  end.
Lemma services_actors w s l : w_actors (start_services w s l) = w_actors w ++ news w s l.
Proof.
  revert w. induction l as [|id l IH]; intros w; [by rewrite app_nil_r|].
  change (start_services w s (id :: l)) with (start_services (start w s id (plain 0) true None).1 s l).
  rewrite IH, start_actors, <-(assoc_L (++)). done.
Qed.
Lemma services_handles w s l : w_handles (start_services w s l) = w_handles w.
Proof.
  revert w. induction l as [|id l IH]; intros w; [done|].
  change (start_services w s (id :: l)) with (start_services (start w s id (plain 0) true None).1 s l).
  by rewrite IH, start_handles.
Qed.
Lemma services_stores w s l : w_stores (start_services w s l) = w_stores w.
Proof.
  revert w. induction l as [|id l IH]; intros w; [done|].
  change (start_services w s (id :: l)) with (start_services (start w s id (plain 0) true None).1 s l).
  by rewrite IH, start_stores.
Qed.
Lemma services_ncores w s l : length (w_cores (start_services w s l)) = length (w_cores w).
Proof.
  revert w. induction l as [|id l IH]; intros w; [done|].
  change (start_services w s (id :: l)) with (start_services (start w s id (plain 0) true None).1 s l).
  by rewrite IH, start_ncores.
Qed.
Lemma news_sys w s l a : a ∈ news w s l -> a_sys a = s.
Proof.
  revert w. induction l as [|id l IH]; intros w; [by rewrite elem_of_nil|]. cbn [news].
  rewrite elem_of_cons. intros [->|H]; [done|]. by apply (IH _ H).
Qed.

Definition bv (w : world) : services :=
  let k := length (w_actors w) in Services k (S k) (S (S k)) (S (S (S k))) (S (S (S (S k)))).
Definition b_r1 (w : world) (s : asys) (n : N) : rsys := RSys n (bv w) s.
Definition b_s2 (w : world) (s : asys) (n : N) : asys := to_remote s (b_r1 w s n).
Definition b_r2 (w : world) (s : asys) (n : N) : rsys := RSys n (bv w) (b_s2 w s n).
Definition given (w : world) (s : asys) (n : N) (l : list hactor) : list hactor :=
  alter (given_remote (b_r2 w s n)) 4%nat (alter (given_remote (b_r2 w s n)) 2%nat (alter (given_remote (b_r2 w s n)) 3%nat
    (alter (fun a => given_system (b_s2 w s n) (given_remote (b_r2 w s n) a)) 0%nat l))).
Definition the_five_aux : seal (fun (w : world) (s : asys) (n : N) => given w s n (news w s service_names)).
Proof. by eexists. Qed.
Definition the_five : world -> asys -> N -> list hactor := the_five_aux.(unseal).
Lemma the_five_eq w s n : the_five w s n = given w s n (news w s service_names).
Proof. unfold the_five. by rewrite the_five_aux.(seal_eq). Qed.
Definition b_w9_aux : seal (fun (w : world) (s : asys) (n : N) => World (w_cores (start_services w s service_names)) (w_actors w ++ the_five w s n) (w_handles w) (w_stores w)).
Proof. by eexists. Qed.
Definition b_w9 : world -> asys -> N -> world := b_w9_aux.(unseal).
Lemma b_w9_eq w s n : b_w9 w s n = World (w_cores (start_services w s service_names)) (w_actors w ++ the_five w s n) (w_handles w) (w_stores w).
Proof. unfold b_w9. by rewrite b_w9_aux.(seal_eq). Qed.
Definition b_down_aux : seal (fun (w : world) (s : asys) => c_down (core_of (start_services w s service_names) (s_core s))).
Proof. by eexists. Qed.
Definition b_down : world -> asys -> bool := b_down_aux.(unseal).
Lemma b_down_eq w s : b_down w s = c_down (core_of (start_services w s service_names) (s_core s)).
Proof. unfold b_down. by rewrite b_down_aux.(seal_eq). Qed.

Lemma alter_app_at {A} (f : A -> A) (l l' : list A) i j : j = (length l + i)%nat -> alter f j (l ++ l') = l ++ alter f i l'.
Proof. intros ->. rewrite alter_app_r_alt by lia. by replace (length l + i - length l)%nat with i by lia. Qed.

Lemma finish_eq w w5 s n l : w_actors w5 = w_actors w ++ l ->
  finish w5 (bv w) s n =
  let w9 := World (w_cores w5) (w_actors w ++ given w s n l) (w_handles w5) (w_stores w5) in
  if c_down (core_of w5 (s_core s)) then (w9, None)
  else (with_core w9 (s_core s) (set_c_remote (b_r2 w s n)), Some (b_r2 w s n)).
Proof.
  intros E. unfold finish. fold (b_r1 w s n). fold (b_s2 w s n). fold (b_r2 w s n).
  unfold with_actor. cbn [w_actors w_cores w_handles w_stores]. rewrite E.
  rewrite (alter_app_at _ _ _ 0 (sv_registry (bv w))) by (cbn; lia).
  rewrite (alter_app_at _ _ _ 3 (sv_heartbeat (bv w))) by (cbn; lia).
  rewrite (alter_app_at _ _ _ 2 (sv_discovery (bv w))) by (cbn; lia).
  rewrite (alter_app_at _ _ _ 4 (sv_mediator (bv w))) by (cbn; lia).
  reflexivity.
Qed.
Lemma build_eq w s n :
  build w s n = if b_down w s then (b_w9 w s n, None)
                else (with_core (b_w9 w s n) (s_core s) (set_c_remote (b_r2 w s n)), Some (b_r2 w s n)).
Proof.
  unfold build. rewrite b_down_eq, b_w9_eq, the_five_eq. pose proof (services_actors w s service_names) as Ha.
  pose proof (services_handles w s service_names) as Hh. pose proof (services_stores w s service_names) as Hst.
  generalize dependent (start_services w s service_names). intros w5 Ha Hh Hst.
  change (finish w5 (bv w) s n = if c_down (core_of w5 (s_core s)) then (World (w_cores w5) (w_actors w ++ given w s n (news w s service_names)) (w_handles w) (w_stores w), None)
    else (with_core (World (w_cores w5) (w_actors w ++ given w s n (news w s service_names)) (w_handles w) (w_stores w)) (s_core s) (set_c_remote (b_r2 w s n)), Some (b_r2 w s n))).
  rewrite (finish_eq w w5 s n _ Ha), Hh, Hst. done.
Qed.
#[global] Opaque start_services.

Definition b_w10_aux : seal (fun (w : world) (s : asys) (n : N) => with_core (b_w9 w s n) (s_core s) (set_c_remote (b_r2 w s n))).
Proof. by eexists. Qed.
Definition b_w10 : world -> asys -> N -> world := b_w10_aux.(unseal).
Lemma b_w10_eq w s n : b_w10 w s n = with_core (b_w9 w s n) (s_core s) (set_c_remote (b_r2 w s n)).
Proof. unfold b_w10. by rewrite b_w10_aux.(seal_eq). Qed.
Lemma step_build_eq w h n : hstep w (HBuild h n) =
  match s_handle w h with
  | Some s => match build w s n with (w', Some x) => return_handle w' (HR x) | (w', None) => (w', RPanic) end
  | None => (w, RVoid)
  end.
Proof. reflexivity. Qed.
Lemma handles_World c a h st : w_handles (World c a h st) = h.
Proof. done. Qed.
Lemma handles_with_core w c f : w_handles (with_core w c f) = w_handles w.
Proof. done. Qed.
Lemma step_build w h s n : s_handle w h = Some s ->
  hstep w (HBuild h n) =
  if b_down w s then (b_w9 w s n, RPanic) else (add_handle (b_w10 w s n) (HR (b_r2 w s n)), RHandle (length (w_handles w))).
Proof.
  intros E. rewrite step_build_eq, E, build_eq, <-b_w10_eq. destruct (b_down w s); [done|].
  unfold return_handle. replace (w_handles (b_w10 w s n)) with (w_handles w); [done|].
  rewrite b_w10_eq, b_w9_eq. by rewrite handles_with_core, handles_World.
Qed.
Lemma no_build w h n : s_handle w h = None -> hstep w (HBuild h n) = (w, RVoid).
Proof. intros E. cbn [hstep]. by rewrite E. Qed.
Lemma b_w9_ncores w s n : length (w_cores (b_w9 w s n)) = length (w_cores w).
Proof. rewrite b_w9_eq. apply services_ncores. Qed.
Lemma b_w10_ncores w s n : length (w_cores (b_w10 w s n)) = length (w_cores w).
Proof. rewrite b_w10_eq. unfold with_core; cbn [w_cores]. rewrite alter_length. apply b_w9_ncores. Qed.
Lemma b_w9_actors w s n : w_actors (b_w9 w s n) = w_actors w ++ the_five w s n.
Proof. by rewrite b_w9_eq. Qed.
Lemma b_w10_actors w s n : w_actors (b_w10 w s n) = w_actors w ++ the_five w s n.
Proof. by rewrite b_w10_eq; cbn [with_core w_actors w_handles w_stores]; rewrite b_w9_eq. Qed.
Lemma b_w9_handles w s n : w_handles (b_w9 w s n) = w_handles w.
Proof. by rewrite b_w9_eq. Qed.
Lemma b_w10_handles w s n : w_handles (b_w10 w s n) = w_handles w.
Proof. by rewrite b_w10_eq; cbn [with_core w_actors w_handles w_stores]; rewrite b_w9_eq. Qed.
Lemma b_w9_stores w s n : w_stores (b_w9 w s n) = w_stores w.
Proof. by rewrite b_w9_eq. Qed.
Lemma b_w10_stores w s n : w_stores (b_w10 w s n) = w_stores w.
Proof. by rewrite b_w10_eq; cbn [with_core w_actors w_handles w_stores]; rewrite b_w9_eq. Qed.

Lemma elem_of_alter {A} (f : A -> A) (i : nat) (l : list A) x : x ∈ alter f i l -> exists y, y ∈ l /\ (x = y \/ x = f y).
Proof.
  intros H. apply elem_of_list_lookup_1 in H as [j H]. destruct (decide (j = i)) as [->|].
  - rewrite list_lookup_alter in H. destruct (l !! i) as [y|] eqn:E; [|done]. injection H as <-.
    exists y. split; [by eapply elem_of_list_lookup_2|auto].
  - rewrite list_lookup_alter_ne in H by done. exists x. split; [by eapply elem_of_list_lookup_2|auto].
Qed.

(** Each of them is a new one, which may have been given the remote system, and the registry the system too. *)
Lemma the_five_new w s n a : a ∈ the_five w s n ->
  exists b, b ∈ news w s service_names /\
  (a_id a = a_id b /\ a_type a = a_type b /\ a_store a = a_store b /\ a_ctx a = a_ctx b /\ a_alive a = a_alive b) /\ (a_sys a = s \/ a_sys a = b_s2 w s n).
Proof.
  intros H. rewrite the_five_eq in H. unfold given in H.
  apply elem_of_alter in H as (a1 & H & E1). apply elem_of_alter in H as (a2 & H & E2).
  apply elem_of_alter in H as (a3 & H & E3). apply elem_of_alter in H as (b & H & E4).
  exists b. split; [done|]. pose proof (news_sys _ _ _ _ H) as Hs.
  destruct E1 as [-> | ->], E2 as [-> | ->], E3 as [-> | ->], E4 as [-> | ->]; cbn; repeat split; auto.
Qed.
Lemma the_five_sys w s n a : a ∈ the_five w s n -> a_sys a = s \/ a_sys a = b_s2 w s n.
Proof. intros H. by destruct (the_five_new _ _ _ _ H) as (b & _ & _ & H'). Qed.


(** * Systems, remote systems and contexts obey what every step obeys *)
Section closed.
Variable P : nat -> asys -> Prop.
Variable Q : nat -> rsys -> Prop.
Variables k K : nat.
Hypothesis P_mono : forall n m s, (n <= m)%nat -> P n s -> P m s.
Hypothesis Q_mono : forall n m r, (n <= m)%nat -> Q n r -> Q m r.

Record obeys (w : world) : Prop := {
  ob_s : forall i s, (k <= i)%nat -> w_handles w !! i = Some (HS s) -> P (length (w_cores w)) s;
  ob_r : forall i r, (k <= i)%nat -> w_handles w !! i = Some (HR r) -> Q (length (w_cores w)) r;
  ob_a : forall i a, (K <= i)%nat -> w_actors w !! i = Some a -> P (length (w_cores w)) (a_sys a) }.

Definition lawful (o : hop) : Prop :=
  goes_through k K o /\
  match o with
  | HNew p => forall n, P (S n) (ASys (N.of_nat n) p None)
  | HPersist _ p => forall n s, P n s -> P n (to_persistent s p)
  | HBuild _ x => forall n v s, P n s -> P n (to_remote s (RSys x v s)) /\ Q n (RSys x v (to_remote s (RSys x v s)))
  | HReach _ => forall n s r, P n s -> s_remote s = Some r -> Q n r
  | HPeer _ _ _ => forall n s r, P n s -> s_remote s = Some r -> P n (r_actor_system r)
  | _ => True
  end.
Hypothesis Q_inner : forall n r, Q n r -> P n (r_actor_system r).

Lemma obeys_more w w' :
  obeys w -> (length (w_cores w) <= length (w_cores w'))%nat ->
  (forall i s, (k <= i)%nat -> w_handles w' !! i = Some (HS s) -> w_handles w !! i = Some (HS s) \/ P (length (w_cores w')) s) ->
  (forall i r, (k <= i)%nat -> w_handles w' !! i = Some (HR r) -> w_handles w !! i = Some (HR r) \/ Q (length (w_cores w')) r) ->
  (forall i a, (K <= i)%nat -> w_actors w' !! i = Some a ->
     (exists b, w_actors w !! i = Some b /\ a_sys a = a_sys b) \/ P (length (w_cores w')) (a_sys a)) ->
  obeys w'.
Proof.
  intros Ho Hn H1 H2 H3. split.
  - intros i s Hi Hs. destruct (H1 i s Hi Hs) as [H|]; [|done]. eapply P_mono; [done|]. by eapply ob_s.
  - intros i r Hi Hr. destruct (H2 i r Hi Hr) as [H|]; [|done]. eapply Q_mono; [done|]. by eapply ob_r.
  - intros i a Hi Ha. destruct (H3 i a Hi Ha) as [(b & Hb & ->)|]; [|done]. eapply P_mono; [done|]. by eapply ob_a.
Qed.

Lemma obeys_handle w h : obeys w ->
  match h with HS s => P (length (w_cores w)) s | HR r => Q (length (w_cores w)) r end -> obeys (add_handle w h).
Proof.
  intros Ho Hh. eapply obeys_more; [done|done|..]; cbn.
  - intros i s _ Hs. apply lookup_app_Some in Hs as [|[_ Hs]]; [by left|].
    apply list_lookup_singleton_Some in Hs as [_ ->]. by right.
  - intros i s _ Hs. apply lookup_app_Some in Hs as [|[_ Hs]]; [by left|].
    apply list_lookup_singleton_Some in Hs as [_ ->]. by right.
  - intros i a _ Ha. left. eauto.
Qed.

Lemma obeys_start w s id t tr p : obeys w -> P (length (w_cores w)) s -> obeys (start w s id t tr p).1.
Proof.
  intros Ho Hs. eapply obeys_more; [done|..]; rewrite ?start_ncores, ?start_handles, ?start_actors; try done; eauto.
  intros i a _ Ha. apply lookup_app_Some in Ha as [|[_ Ha]]; [left; eauto|].
  apply list_lookup_singleton_Some in Ha as [_ <-]. by right.
Qed.

Lemma obeys_alter w w' : obeys w -> length (w_cores w') = length (w_cores w) -> w_handles w' = w_handles w ->
  (forall i a, w_actors w' !! i = Some a -> exists b, w_actors w !! i = Some b /\ a_sys a = a_sys b) -> obeys w'.
Proof. intros Ho Hn Hh Ha. eapply obeys_more; [done|..]; rewrite ?Hn, ?Hh; eauto. Qed.

Lemma alter_dead (w : world) r i a : alter dead r (w_actors w) !! i = Some a -> exists b, w_actors w !! i = Some b /\ a_sys a = a_sys b.
Proof.
  destruct (decide (i = r)) as [->|].
  - rewrite list_lookup_alter. destruct (w_actors w !! r) as [b|]; [|done]. intros [= <-]. eauto.
  - rewrite list_lookup_alter_ne by done. eauto.
Qed.
Lemma end_sys (w : world) l i a : (end_in l <$> w_actors w) !! i = Some a -> exists b, w_actors w !! i = Some b /\ a_sys a = a_sys b.
Proof.
  rewrite list_lookup_fmap. destruct (w_actors w !! i) as [b|]; [|done]. intros [= <-]. exists b. split; [done|].
  unfold end_in. by case_bool_decide.
Qed.

Lemma obeys_shutdown w s : obeys w -> obeys (shutdown w s).
Proof.
  intros Ho. unfold shutdown.
  set (w1 := with_core w (s_core s) set_term).
  assert (H1 : obeys w1) by (eapply obeys_alter; [done|by cbn; rewrite alter_length|done|eauto]).
  match goal with |- context [if ?b then ?x else ?y] => set (w2 := if b then x else y) end.
  assert (H2 : obeys w2).
  { unfold w2. destruct (c_down _); [done|]. eapply obeys_alter; [exact H1|..].
    - cbn. by rewrite !alter_length.
    - done.
    - apply end_sys. }
  destruct (s_remote s); [|done]. eapply obeys_alter; [exact H2|done|done|apply end_sys].
Qed.

Lemma living_lookup w a x : living w a = Some x -> w_actors w !! a = Some x /\ a_alive x = true.
Proof. unfold living. destruct (w_actors w !! a) as [y|]; [|done]. destruct (a_alive y) eqn:E; [|done]. by intros [= <-]. Qed.
Lemma s_handle_lookup w h s : s_handle w h = Some s -> w_handles w !! h = Some (HS s).
Proof. unfold s_handle. destruct (w_handles w !! h) as [[]|]; try done. by intros [= <-]. Qed.
Lemma r_handle_lookup w h r : r_handle w h = Some r -> w_handles w !! h = Some (HR r).
Proof. unfold r_handle. destruct (w_handles w !! h) as [[]|]; try done. by intros [= <-]. Qed.

Lemma obeys_build w h x : obeys w -> lawful (HBuild h x) -> obeys (hstep w (HBuild h x)).1.
Proof.
  intros Ho [Hg Hl]. cbn [goes_through] in Hg.
  destruct (s_handle w h) as [s|] eqn:E; [|by rewrite no_build]. rewrite (step_build _ _ _ _ E). apply s_handle_lookup in E.
  assert (HP : P (length (w_cores w)) s) by (by eapply ob_s).
  destruct (Hl _ (bv w) _ HP) as [HP2 HQ2].
  assert (Hnew : forall i a, (w_actors w ++ the_five w s x) !! i = Some a ->
    (exists b, w_actors w !! i = Some b /\ a_sys a = a_sys b) \/ P (length (w_cores w)) (a_sys a)).
  { intros i a Ha. apply lookup_app_Some in Ha as [|[_ Ha]]; [left; eauto|]. right.
    apply elem_of_list_lookup_2, the_five_sys in Ha as [->| ->]; [exact HP|exact HP2]. }
  destruct (b_down w s); cbn [fst].
  - eapply obeys_more; [exact Ho|..]; rewrite ?b_w9_ncores, ?b_w9_handles, ?b_w9_actors; eauto.
  - eapply obeys_handle; [|rewrite b_w10_ncores; exact HQ2].
    eapply obeys_more; [exact Ho|..]; rewrite ?b_w10_ncores, ?b_w10_handles, ?b_w10_actors; eauto.
Qed.

Lemma obeys_step w o : obeys w -> lawful o -> obeys (hstep w o).1.
Proof.
  intros Ho Hlaw. pose proof Hlaw as [Hg Hl].
  assert (Hb : match o with HBuild h x => obeys (hstep w (HBuild h x)).1 | _ => True end) by (destruct o; try done; by apply obeys_build).
  destruct o; cbn [hstep goes_through] in *.
  - eapply obeys_handle; cbn; [|].
    + eapply obeys_more; [done|cbn; rewrite app_length; lia|..]; cbn; eauto.
    + rewrite app_length, Nat.add_1_r. apply Hl.
  - destruct (s_handle w h) as [s|] eqn:E; [|done]. apply s_handle_lookup in E.
    eapply obeys_handle; [done|]. apply Hl. by eapply ob_s.
  - exact Hb.
  - destruct (r_handle w h) as [s|] eqn:E; [|done]. apply r_handle_lookup in E.
    eapply obeys_handle; [done|]. apply Q_inner. by eapply ob_r.
  - destruct (s_handle w h) as [s|] eqn:E; [|done]. apply s_handle_lookup in E.
    destruct (s_remote s) as [r|] eqn:Er; [|done].
    eapply obeys_handle; [done|]. eapply Hl; [|done]. by eapply ob_s.
  - destruct (living w a) as [x|] eqn:E; [|done]. apply living_lookup in E as [E _].
    eapply obeys_handle; [done|]. by eapply ob_a.
  - destruct (s_handle w h) as [s|] eqn:E; [|done]. apply s_handle_lookup in E.
    eapply obeys_start; [done|]. by eapply ob_s.
  - destruct (living w a) as [x|] eqn:E; [|done]. apply living_lookup in E as [E _].
    eapply obeys_start; [done|]. by eapply ob_a.
  - destruct (r_handle w h) as [s|] eqn:E; [|done]. apply r_handle_lookup in E.
    eapply obeys_start; [done|]. apply Q_inner. by eapply ob_r.
  - destruct (r_handle w h) as [s|] eqn:E; [|done]. apply r_handle_lookup in E.
    eapply obeys_start; [done|]. apply Q_inner. by eapply ob_r.
  - destruct (living w a) as [x|] eqn:E; [|done]. apply living_lookup in E as [E _].
    assert (HP : P (length (w_cores w)) (a_sys x)) by (by eapply ob_a).
    assert (H1 : obeys (start w (a_sys x) "session" (plain 0) false (Some a)).1) by (by apply obeys_start).
    destruct (s_remote (a_sys x)) as [y|] eqn:Er.
    + eapply obeys_start; [done|]. rewrite start_ncores. by eapply Hl.
    + cbn [fst]. match goal with |- obeys (with_actor ?w1 _ _) => set (w2 := w1) end.
      assert (H2 : obeys w2) by (eapply obeys_alter; [exact H1|done|done|intros i b; apply alter_dead]).
      eapply obeys_alter; [exact H2|done|done|intros i b; apply alter_dead].
  - destruct (living w a) as [x|] eqn:E; [|done]. destruct (s_remote (a_sys x)); [done|].
    cbn [fst]. eapply obeys_alter; [exact Ho|..]; try done; try apply alter_dead.
  - destruct (living w a) as [y|] eqn:E; [|done]. destruct (a_store y); [|done].
    eapply obeys_alter; [exact Ho|..]; cbn; eauto.
  - destruct (living w a) as [x|] eqn:E; [|done]. case_bool_decide; [|done]. cbn [fst].
    destruct (_ && _).
    + eapply obeys_alter; [exact Ho|by cbn; rewrite alter_length|done|apply end_sys].
    + eapply obeys_alter; [exact Ho|done|done|apply end_sys].
  - by destruct (s_handle w h).
  - by destruct (s_handle w h).
  - destruct (s_handle w h); [|done]. by apply obeys_shutdown.
Qed.

Lemma obeys_run w l : obeys w -> Forall lawful l -> obeys (run hstep w l).1.
Proof.
  intros Ho Hl. revert w Ho. induction Hl as [|o l H Hl IH]; intros w Ho; [done|]. cbn [run].
  pose proof (obeys_step w o Ho H) as H1. destruct (hstep w o) as [w1 x]. cbn [fst] in H1.
  specialize (IH w1 H1). by destruct (run hstep w1 l).
Qed.
End closed.
