(** Proofs about the names of messages and actors. *)
From Verif Require Import Config_Model Config_Spec Redis_Proofs.

Lemma snoc_inv {A} (l pre post : list A) (x r : A) :
  l ++ [r] = pre ++ x :: post ->
  (post = [] /\ l = pre /\ r = x) \/ exists post', post = post' ++ [r] /\ l = pre ++ x :: post'.
Proof.
  destruct post as [|y post _] using rev_ind; intros H.
  - left. by apply app_inj_tail in H as [-> ->].
  - right. exists post. rewrite app_comm_cons, app_assoc in H. apply app_inj_tail in H as [-> ->]. done.
Qed.

Lemma builder_of_snoc tn l r : builder_of tn (l ++ [r]) = register tn (builder_of tn l) r.
Proof. unfold builder_of. by rewrite foldl_app. Qed.

Lemma in_force_snoc l r k a m :
  in_force (l ++ [r]) k a m <->
  (r = RHandler a m k \/ (in_force l k a m /\ forall a' m', r <> RHandler a' m' k)).
Proof.
  split.
  - intros (pre & post & E & Hno). apply snoc_inv in E as [(-> & -> & ->)|(post' & -> & ->)]; [by left|].
    right. split.
    + exists pre, post'. split; [done|]. intros a' m' Hin. apply (Hno a' m'), elem_of_app. by left.
    + intros a' m' ->. apply (Hno a' m'), elem_of_app. right. by apply elem_of_list_singleton.
  - intros [->|[(pre & post & -> & Hno) Hr]].
    + exists l, []. split; [done|]. intros a' m' H. by apply elem_of_nil in H.
    + exists pre, (post ++ [r]). split; [by rewrite <- app_assoc|]. intros a' m' [H|H]%elem_of_app.
      * by apply (Hno a' m').
      * apply elem_of_list_singleton in H. by apply (Hr a' m').
Qed.

Lemma handlers_force tn l k a m : b_handlers (builder_of tn l) !! k = Some (a, m) <-> in_force l k a m.
Proof.
  induction l as [|r l IH] using rev_ind.
  - split; [done|]. intros (pre & post & E & _). by destruct pre.
  - rewrite builder_of_snoc, in_force_snoc, <- IH. destruct r as [a0 m0 k0|a0 f0]; cbn [register b_handlers].
    + destruct (decide (k0 = k)) as [->|Hk].
      * rewrite lookup_insert. split; [intros [= -> ->]; by left|]. intros [[= -> ->]|[_ H]]; [done|]. by destruct (H a0 m0).
      * rewrite lookup_insert_ne by done. split; [intros H; right; split; [done|]; intros ? ? [=]; congruence|].
        intros [[= _ _ ?]|[? _]]; [congruence|done].
    + split; [intros H; by right|]. intros [?|[? _]]; done.
Qed.

Lemma factory_snoc tn l r k a f :
  factory_in_force tn (l ++ [r]) k a f <->
  ((r = RActor a f /\ tn a = k) \/ (factory_in_force tn l k a f /\ forall a' f', tn a' = k -> r <> RActor a' f')).
Proof.
  split.
  - intros (pre & post & E & Hk & Hno). apply snoc_inv in E as [(-> & -> & ->)|(post' & -> & ->)]; [by left|].
    right. split.
    + exists pre, post'. split; [done|]. split; [done|]. intros a' m' Ht Hin. apply (Hno a' m' Ht), elem_of_app. by left.
    + intros a' m' Ht ->. apply (Hno a' m' Ht), elem_of_app. right. by apply elem_of_list_singleton.
  - intros [[-> Hk]|[(pre & post & -> & Hk & Hno) Hr]].
    + exists l, []. split; [done|]. split; [done|]. intros a' m' _ H. by apply elem_of_nil in H.
    + exists pre, (post ++ [r]). split; [by rewrite <- app_assoc|]. split; [done|]. intros a' m' Ht [H|H]%elem_of_app.
      * by apply (Hno a' m' Ht).
      * apply elem_of_list_singleton in H. by apply (Hr a' m' Ht).
Qed.

Lemma actors_force tn l k a f : b_actors (builder_of tn l) !! k = Some (a, f) <-> factory_in_force tn l k a f.
Proof.
  induction l as [|r l IH] using rev_ind.
  - split; [done|]. intros (pre & post & E & _). by destruct pre.
  - rewrite builder_of_snoc, factory_snoc, <- IH. destruct r as [a0 m0 k0|a0 f0]; cbn [register b_actors].
    + split; [intros H; by right|]. intros [[? _]|[? _]]; done.
    + destruct (decide (tn a0 = k)) as [Hk|Hk].
      * rewrite Hk, lookup_insert. split; [intros [= -> ->]; by left|].
        intros [[[= -> ->] _]|[_ H]]; [done|]. by destruct (H a0 f0).
      * rewrite lookup_insert_ne by done. split; [intros H; right; split; [done|]; intros ? ? ? [=]; congruence|].
        intros [[[= -> ->] ?]|[? _]]; [congruence|done].
Qed.

(** Tables of types. *)
Lemma type_table_snoc id l x : type_table id (l ++ [x]) = <[id x.2 := x.1]> (type_table id l).
Proof. unfold type_table. by rewrite foldl_app. Qed.

Lemma type_table_sound id l t k : type_table id l !! t = Some k -> exists v, (k, v) ∈ l /\ id v = t.
Proof.
  induction l as [|[k0 v0] l IH] using rev_ind; [done|]. rewrite type_table_snoc. cbn [fst snd].
  destruct (decide (id v0 = t)) as [<-|Hn].
  - rewrite lookup_insert. intros [= ->]. exists v0. split; [|done]. apply elem_of_app. right. by apply elem_of_list_singleton.
  - rewrite lookup_insert_ne by done. intros (v & Hv & E)%IH. exists v. split; [|done]. apply elem_of_app. by left.
Qed.
Lemma type_table_complete id l k v : (k, v) ∈ l -> exists k', type_table id l !! id v = Some k'.
Proof.
  induction l as [|[k0 v0] l IH] using rev_ind; [by intros H%elem_of_nil|]. rewrite type_table_snoc. cbn [fst snd].
  intros H. destruct (decide (id v0 = id v)) as [E|Hn].
  - rewrite E, lookup_insert. by exists k0.
  - rewrite lookup_insert_ne by done. apply IH. apply elem_of_app in H as [H|H]; [done|].
    apply elem_of_list_singleton in H. congruence.
Qed.

Lemma name_sound tn l oh oa a m k : handler_name (configured tn l oh oa) a m = Some k -> in_force l k a m.
Proof.
  unfold handler_name, configured, build. cbn [c_handler_types]. intros ([a' m'] & Hin & E)%type_table_sound.
  apply elem_of_arrange in Hin. unfold message_handler_id in E. cbn [fst snd] in E. injection E as -> ->.
  by apply handlers_force in Hin.
Qed.
Lemma name_complete tn l oh oa a m k :
  in_force l k a m -> exists k', handler_name (configured tn l oh oa) a m = Some k'.
Proof.
  intros H. apply (handlers_force tn) in H. apply (elem_of_arrange oh) in H.
  exact (type_table_complete message_handler_id _ k (a, m) H).
Qed.
Lemma in_force_in l k a m : in_force l k a m -> RHandler a m k ∈ l.
Proof. intros (pre & post & -> & _). apply elem_of_app. right. by left. Qed.
Lemma in_force_exists l k a m : RHandler a m k ∈ l -> exists a' m', in_force l k a' m'.
Proof.
  induction l as [|r l IH] using rev_ind; [by intros H%elem_of_nil|]. intros H.
  destruct r as [a0 m0 k0|a0 f0].
  - destruct (decide (k0 = k)) as [->|Hk].
    + exists a0, m0. apply in_force_snoc. by left.
    + apply elem_of_app in H as [H|H]; [|apply elem_of_list_singleton in H; congruence].
      destruct (IH H) as (a' & m' & F). exists a', m'. apply in_force_snoc. right. split; [done|]. intros ? ? [=]. congruence.
  - apply elem_of_app in H as [H|H]; [|by apply elem_of_list_singleton in H].
    destruct (IH H) as (a' & m' & F). exists a', m'. apply in_force_snoc. right. by split.
Qed.

(** Any name in force may be the one that is used. *)
Lemma name_any tn l a m k : in_force l k a m -> exists oh, forall oa, handler_name (configured tn l oh oa) a m = Some k.
Proof.
  intros H. apply (handlers_force tn) in H. set (b := b_handlers (builder_of tn l)) in *.
  set (L := map_to_list (delete k b) ++ [(k, (a, m))]).
  assert (HL : L ≡ₚ map_to_list b).
  { unfold L. rewrite Permutation_app_comm. simpl. by apply map_to_list_delete. }
  exists L.*1. intros oa. unfold handler_name, configured, build. cbn [c_handler_types].
  fold b. rewrite (arrange_complete L b HL). unfold L. rewrite type_table_snoc. cbn [fst snd].
  unfold message_handler_id. cbn [fst snd]. apply lookup_insert.
Qed.

(** The lists of capabilities. *)
Lemma by_lower_total lower x y : by_lower lower x y = true \/ by_lower lower y x = true.
Proof. apply bytes_leb_total. Qed.
Lemma by_lower_trans lower x y z : by_lower lower x y = true -> by_lower lower y z = true -> by_lower lower x z = true.
Proof. apply bytes_leb_trans. Qed.

Lemma elem_of_values (o : list type_id) (t : gmap type_id bytes) lower k :
  k ∈ stable_sort (by_lower lower) (arrange o t).*2 <-> exists i, t !! i = Some k.
Proof.
  rewrite stable_sort_perm, elem_of_list_fmap. split.
  - intros ([i k'] & -> & H). exists i. by apply elem_of_arrange in H.
  - intros (i & H). exists (i, k). split; [done|]. by apply elem_of_arrange.
Qed.
Lemma values_NoDup (o : list type_id) (t : gmap type_id bytes) lower :
  (forall i j k, t !! i = Some k -> t !! j = Some k -> i = j) -> NoDup (stable_sort (by_lower lower) (arrange o t).*2).
Proof.
  intros Hinj. rewrite stable_sort_perm. apply NoDup_fmap_2_strong; [|exact (NoDup_fmap_1 _ _ (arrange_NoDup o t))].
  intros [i k] [j k'] H1 H2 E. cbn [snd] in E. subst k'. apply elem_of_arrange in H1, H2. f_equal. by eapply Hinj.
Qed.

Lemma sorted_unique (R : bytes -> bytes -> Prop) l1 l2 :
  (forall x y, x ∈ l1 -> y ∈ l1 -> R x y -> R y x -> x = y) ->
  StronglySorted R l1 -> StronglySorted R l2 -> l1 ≡ₚ l2 -> l1 = l2.
Proof.
  intros Hanti H1. revert l2 Hanti. induction H1 as [|x l1 Hs IH Hx]; intros l2 Hanti H2 Hp.
  - by apply Permutation_nil in Hp.
  - destruct H2 as [|y l2 Hs2 Hy].
    + symmetry in Hp. by apply Permutation_nil in Hp.
    + rewrite Forall_forall in Hx, Hy.
      assert (x = y) as ->.
      { assert (Hyin : y ∈ x :: l1) by (rewrite Hp; by left).
        assert (Hxin : x ∈ y :: l2) by (rewrite <- Hp; by left).
        apply elem_of_cons in Hyin as [->|Hyin]; [done|]. apply elem_of_cons in Hxin as [->|Hxin]; [done|].
        apply Hanti; [by left|by right|by apply Hx|by apply Hy]. }
      f_equal. apply IH; [|done|by apply Permutation_cons_inv in Hp].
      intros u v Hu Hv. apply Hanti; by right.
Qed.

Lemma handler_types_shape tn l oh oa i k :
  c_handler_types (configured tn l oh oa) !! i = Some k ->
  exists a m, i = TMessage a m /\ handler_name (configured tn l oh oa) a m = Some k.
Proof.
  intros H. pose proof H as H'. unfold configured, build in H'. cbn [c_handler_types] in H'.
  apply type_table_sound in H' as ([a m] & _ & <-). exists a, m. done.
Qed.
Lemma actor_types_shape tn l oh oa i k :
  c_actor_types (configured tn l oh oa) !! i = Some k <->
  exists a f, i = TFactory a f /\ factory_in_force tn l k a f.
Proof.
  split.
  - intros H. unfold configured, build in H. cbn [c_actor_types] in H.
    apply type_table_sound in H as ([a f] & Hin & <-). exists a, f. split; [done|].
    apply elem_of_arrange in Hin. by apply actors_force in Hin.
  - intros (a & f & -> & F). pose proof F as F'. apply actors_force in F'. apply (elem_of_arrange oa) in F'.
    destruct (type_table_complete actor_handler_id _ _ _ F') as [k' E].
    change (actor_handler_id (a, f)) with (TFactory a f) in E. unfold configured, build. cbn [c_actor_types].
    rewrite E. f_equal. apply type_table_sound in E as ([a' f'] & Hin & E).
    unfold actor_handler_id in E. cbn [fst snd] in E. injection E as -> ->.
    apply elem_of_arrange, actors_force in Hin. destruct Hin as (? & ? & _ & <- & _).
    by destruct F as (? & ? & _ & <- & _).
Qed.
