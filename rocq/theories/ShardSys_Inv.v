(** The invariant of orderly runs, for one shard. *)
From Verif Require Import Host_Model ShardSys_Host.
Local Open Scope N_scope.

(** What is under way about the shard; [mail] tells whether it is in a mailbox already. *)
Inductive vpk :=
| VAlloc (mail : bool) (t m : N)
| VStop (mail : bool) (n : N)
| VReady (n a : N)
| VStopped (n : N)
| VTask (n a : N)
| VMoved
| VOdd.
Global Instance vpk_eq_dec : EqDecision vpk. Proof. solve_decision. Defined.

Definition is_tok (v : vpk) : bool := match v with VStop _ _ | VTask _ _ | VMoved => true | _ => false end.
Definition is_once (v : vpk) : bool := match v with VReady _ _ | VStopped _ => true | _ => false end.

(** In a mailbox, the news that the shard has stopped comes before any news of its new owner. *)
Fixpoint ord_ok (pk : list vpk) : Prop :=
  match pk with
  | [] => True
  | v :: r => match v with VAlloc true n _ => VStopped n ∉ r | _ => True end /\ ord_ok r
  end.

Lemma ord_ok_app l1 l2 : ord_ok (l1 ++ l2) <-> ord_ok l1 /\ ord_ok l2 /\ forall n m, VAlloc true n m ∈ l1 -> VStopped n ∉ l2.
Proof.
  induction l1 as [|v l1 IH]; simpl.
  - split; [|by intros (_ & ? & _)]. intros H. split_and!; try done. by intros n m ?%elem_of_nil.
  - rewrite IH. split.
    + intros [H (H1 & H2 & H3)]. split_and!; try done.
      * destruct v as [[] ? ?| | | | | |]; try done. intros Hin. apply H. apply elem_of_app. by left.
      * intros n m [<-|Hin]%elem_of_cons; [|by eapply H3]. intros Hin. apply H. apply elem_of_app. by right.
    + intros ([H1 H2] & H3 & H4). split_and!; try done.
      * destruct v as [[] ? ?| | | | | |]; try done. intros [Hin|Hin]%elem_of_app; [done|]. eapply H4; [constructor|done].
      * intros n m Hin. eapply H4. by constructor.
Qed.
Lemma ord_ok_remove k1 p k2 : ord_ok (k1 ++ p :: k2) -> ord_ok (k1 ++ k2).
Proof.
  rewrite !ord_ok_app. intros (H1 & H2 & H3). split_and!; [done|by destruct H2|]. intros n m Hin Hs. eapply H3; [done|by constructor].
Qed.

Definition nd (pk : list vpk) : Prop := NoDup (List.filter is_once pk).
Lemma elem_filter {A} (f : A -> bool) l x : x ∈ List.filter f l <-> x ∈ l /\ f x = true.
Proof. rewrite !elem_of_list_In. apply filter_In. Qed.
Lemma nd_remove k1 p k2 : nd (k1 ++ p :: k2) -> nd (k1 ++ k2) /\ (is_once p = true -> p ∉ k1 ++ k2).
Proof.
  unfold nd. rewrite !List.filter_app. simpl. destruct (is_once p) eqn:E; [|done].
  intros H. assert (Hp : List.filter is_once k1 ++ p :: List.filter is_once k2 ≡ₚ p :: List.filter is_once (k1 ++ k2)).
  { rewrite List.filter_app. by rewrite Permutation_middle. }
  rewrite Hp in H. rewrite List.filter_app in H. apply NoDup_cons in H as [H1 H2]. split; [done|]. intros _ Hin. apply H1.
  rewrite <- List.filter_app. by apply elem_filter.
Qed.
Lemma nd_snoc pk v : nd pk -> (is_once v = true -> v ∉ pk) -> nd (pk ++ [v]).
Proof.
  unfold nd. rewrite List.filter_app. simpl. destruct (is_once v) eqn:E; [|by rewrite app_nil_r].
  intros H1 H2. apply NoDup_app. split_and!; [done| |apply NoDup_singleton].
  intros x Hx ->%elem_of_list_singleton. apply elem_filter in Hx as [Hx _]. by apply H2.
Qed.

Definition toks (pk : list vpk) : nat := length (List.filter is_tok pk).
Lemma toks_app l1 l2 : toks (l1 ++ l2) = (toks l1 + toks l2)%nat.
Proof. unfold toks. by rewrite List.filter_app, app_length. Qed.
Lemma toks_cons v l : toks (v :: l) = ((if is_tok v then 1 else 0) + toks l)%nat.
Proof. unfold toks. simpl. by destruct (is_tok v). Qed.
Lemma toks_0 l : toks l = 0%nat <-> forall v, v ∈ l -> is_tok v = false.
Proof.
  induction l as [|v l IH]; [split; [by intros _ v ?%elem_of_nil|done]|]. rewrite toks_cons. split.
  - intros H w [->|Hin]%elem_of_cons; [by destruct (is_tok v)|]. apply IH; [lia|done].
  - intros H. rewrite (H v) by constructor. simpl. apply IH. intros w Hw. apply H. by constructor.
Qed.

(** [ow]: the owner the coordinator records; [ent]: the states of the shard on the hosts;
    [lv]: its live actors; [al]: the live nodes. *)
Record sinv (ow : option N) (pk : list vpk) (ent : N -> option kind) (lv : list (N * N * bool)) (al : N -> Prop) : Prop := {
  s_odd : VOdd ∉ pk;
  s_alloc : forall b t m, VAlloc b t m ∈ pk -> ow = Some m;
  s_live : forall n a f, (n, a, f) ∈ lv ->
     ent n = Some (KStarting a) \/ (f = true /\ ent n = Some (KReady a)) \/ (f = true /\ ent n = Some KStopping /\ VTask n a ∈ pk);
  s_tok : (toks pk <= 1)%nat;
  s_tok_ow : forall v, v ∈ pk -> is_tok v = true -> ow = None;
  s_starting : forall n a, ent n = Some (KStarting a) -> ow = Some n;
  s_rdy : forall n a, ent n = Some (KReady a) -> ow = Some n \/ exists b, VStop b n ∈ pk;
  s_stopping : forall n, ent n = Some KStopping -> (exists a, VTask n a ∈ pk) \/ VStopped n ∈ pk;
  s_stop : forall b n, VStop b n ∈ pk -> al n -> exists a, ent n = Some (KReady a);
  s_task : forall n a, VTask n a ∈ pk -> ent n = Some KStopping;
  s_ready : forall n a, VReady n a ∈ pk -> ent n = Some (KStarting a) /\ (n, a, false) ∉ lv;
  s_stopped : forall n, VStopped n ∈ pk -> ent n = Some KStopping /\ forall a, VTask n a ∉ pk;
  s_nd : nd pk;
  s_ord : ord_ok pk;
  s_al : forall n k, ent n = Some k -> al n;
}.

Lemma sinv_ext ow pk ent ent' lv al al' : (forall n, ent' n = ent n) -> (forall n, al' n <-> al n) -> sinv ow pk ent lv al -> sinv ow pk ent' lv al'.
Proof.
  intros He Ha [H1 H2 H3 H4 H5 H6 H7 H8 H9 H10 H11 H12 H13 H14 H15].
  split; try done; intros *; rewrite ?He, ?Ha; eauto.
Qed.

Lemma in_rest (k1 k2 : list vpk) p v : v ∈ k1 ++ k2 -> v ∈ k1 ++ p :: k2.
Proof. rewrite !elem_of_app, elem_of_cons. tauto. Qed.
Lemma in_split (k1 k2 : list vpk) p v : v ∈ k1 ++ p :: k2 -> v = p \/ v ∈ k1 ++ k2.
Proof. rewrite !elem_of_app, elem_of_cons. tauto. Qed.
Lemma in_mid (k1 k2 : list vpk) p : p ∈ k1 ++ p :: k2.
Proof. rewrite !elem_of_app, elem_of_cons. tauto. Qed.

(** Two live actors are the same. *)
Lemma tok_unique pk v w : (toks pk <= 1)%nat -> v ∈ pk -> w ∈ pk -> is_tok v = true -> is_tok w = true -> v = w.
Proof.
  intros Ht Hv Hw Hv' Hw'. unfold toks in Ht.
  assert (Hv2 : v ∈ List.filter is_tok pk) by (by apply elem_filter).
  assert (Hw2 : w ∈ List.filter is_tok pk) by (by apply elem_filter).
  destruct (List.filter is_tok pk) as [|x [|]]; simpl in Ht; [by apply elem_of_nil in Hv2| |lia].
  apply elem_of_list_singleton in Hv2, Hw2. congruence.
Qed.

Lemma live_where ow pk ent lv al n a f : sinv ow pk ent lv al -> (n, a, f) ∈ lv ->
  ow = Some n \/ (ow = None /\ ((exists b, VStop b n ∈ pk /\ ent n = Some (KReady a)) \/ VTask n a ∈ pk)).
Proof.
  intros I Hl. destruct (s_live _ _ _ _ _ I _ _ _ Hl) as [E|[[_ E]|(_ & E & Ht)]].
  - left. by eapply s_starting.
  - destruct (s_rdy _ _ _ _ _ I _ _ E) as [->|[b Hb]]; [by left|]. right. split; [by eapply s_tok_ow|]. left. eauto.
  - right. split; [by eapply s_tok_ow|]. by right.
Qed.

Lemma live_unique ow pk ent lv al n a f n' a' f' : sinv ow pk ent lv al -> (n, a, f) ∈ lv -> (n', a', f') ∈ lv -> n = n' /\ a = a'.
Proof.
  intros I H1 H2. destruct (live_where _ _ _ _ _ _ _ _ I H1) as [E1|[E1 D1]], (live_where _ _ _ _ _ _ _ _ I H2) as [E2|[E2 D2]]; try congruence.
  - assert (n = n') by congruence. subst n'. split; [done|].
    assert (Ht : forall v, v ∈ pk -> is_tok v = false).
    { intros v Hv. destruct (is_tok v) eqn:E; [|done]. rewrite (s_tok_ow _ _ _ _ _ I v Hv E) in E1. done. }
    destruct (s_live _ _ _ _ _ I _ _ _ H1) as [F1|[[_ F1]|(_ & F1 & G1)]]; [| |by specialize (Ht _ G1)];
      (destruct (s_live _ _ _ _ _ I _ _ _ H2) as [F2|[[_ F2]|(_ & F2 & G2)]]; [| |by specialize (Ht _ G2)]); congruence.
  - destruct D1 as [(b1 & V1 & F1)|V1], D2 as [(b2 & V2 & F2)|V2].
    + assert (E : VStop b1 n = VStop b2 n') by (eapply tok_unique; eauto; by eapply s_tok). injection E as -> ->. split; congruence.
    + assert (E : VStop b1 n = VTask n' a') by (eapply tok_unique; eauto; by eapply s_tok). done.
    + assert (E : VTask n a = VStop b2 n') by (eapply tok_unique; eauto; by eapply s_tok). done.
    + assert (E : VTask n a = VTask n' a') by (eapply tok_unique; eauto; by eapply s_tok). by injection E.
Qed.

(** When the move waits for its new node, nobody runs the shard. *)
Lemma moved_dead ow pk ent lv al x : sinv ow pk ent lv al -> VMoved ∈ pk -> x ∉ lv.
Proof.
  intros I Hm Hl. destruct x as [[n a] f]. pose proof (s_tok_ow _ _ _ _ _ I _ Hm eq_refl) as Ho.
  destruct (live_where _ _ _ _ _ _ _ _ I Hl) as [E1|[_ [(b & V & _)|V]]]; [congruence|..].
  - assert (E : VStop b n = VMoved) by (eapply tok_unique; eauto; by eapply s_tok). done.
  - assert (E : VTask n a = VMoved) by (eapply tok_unique; eauto; by eapply s_tok). done.
Qed.

Section transitions.
Context (ow : option N) (ent : N -> option kind) (lv : list (N * N * bool)) (al : N -> Prop).

(** The coordinator asks to stop a settled shard. *)
Lemma t_stop n : sinv (Some n) [] ent lv al -> (al n -> exists a, ent n = Some (KReady a)) -> sinv None [VStop false n] ent lv al.
Proof using.
  intros [H1 H2 H3 H4 H5 H6 H7 H8 H9 H10 H11 H12 H13 H14 H15] Hr.
  assert (Hst : forall k a, ent k = Some (KStarting a) -> False).
  { intros k a Hk. pose proof (H6 _ _ Hk) as [= <-]. destruct (Hr (H15 _ _ Hk)) as [a' ?]. congruence. }
  assert (Hsp : forall k, ent k = Some KStopping -> False).
  { intros k Hk. destruct (H8 _ Hk) as [[a Hx]|Hx]; by apply elem_of_nil in Hx. }
  split.
  - intros Hx%elem_of_list_singleton. done.
  - intros b t m Hx%elem_of_list_singleton. done.
  - intros k a f Hk. destruct (H3 _ _ _ Hk) as [E|[E|(? & ? & Hx)]]; [by left|right; by left|by apply elem_of_nil in Hx].
  - done.
  - done.
  - intros k a Hk. destruct (Hst _ _ Hk).
  - intros k a Hk. right. destruct (H7 _ _ Hk) as [[= <-]|[b Hx]]; [exists false; by constructor|by apply elem_of_nil in Hx].
  - intros k Hk. destruct (Hsp _ Hk).
  - intros b k Hx%elem_of_list_singleton. injection Hx as -> ->. done.
  - intros k a Hx%elem_of_list_singleton. done.
  - intros k a Hx%elem_of_list_singleton. done.
  - intros k Hx%elem_of_list_singleton. done.
  - constructor.
  - done.
  - done.
Qed.

(** News of the owner. *)
Lemma t_news pk m ts : sinv ow pk ent lv al -> ow = Some m -> sinv ow (pk ++ map (fun t => VAlloc false t m) ts) ent lv al.
Proof using.
  intros [H1 H2 H3 H4 H5 H6 H7 H8 H9 H10 H11 H12 H13 H14 H15] Ho.
  assert (Hnew : forall v, v ∈ map (fun t => VAlloc false t m) ts -> exists t, v = VAlloc false t m).
  { intros v (t & -> & _)%elem_of_list_fmap. by exists t. }
  assert (Hold : forall v, v ∈ pk ++ map (fun t => VAlloc false t m) ts -> (exists t, v = VAlloc false t m) \/ v ∈ pk).
  { intros v [?|?%Hnew]%elem_of_app; auto. }
  assert (Hin : forall v, v ∈ pk -> v ∈ pk ++ map (fun t => VAlloc false t m) ts) by (intros; apply elem_of_app; by left).
  split.
  - intros [[t ?]|?]%Hold; done.
  - intros b t m' [[t' [= _ _ ->]]|?]%Hold; eauto.
  - intros k a f [E|[E|(? & ? & ?)]]%H3; auto 6.
  - rewrite toks_app. assert (toks (map (fun t => VAlloc false t m) ts) = 0%nat) as ->; [|lia].
    apply toks_0. by intros v [t ->]%Hnew.
  - intros v [[t ->]|?]%Hold ?; [done|eauto].
  - done.
  - intros k a [?|[b ?]]%H7; eauto.
  - intros k [[a ?]|?]%H8; eauto.
  - intros b k [[t ?]|?]%Hold ?; [done|eauto].
  - intros k a [[t ?]|?]%Hold; [done|eauto].
  - intros k a [[t ?]|?]%Hold; [done|eauto].
  - intros k [[t ?]|Hx]%Hold; [done|]. apply H12 in Hx as [? Hx]. split; [done|]. intros a [[t ?]|?]%Hold; [done|]. by eapply Hx.
  - unfold nd. rewrite List.filter_app. assert (List.filter is_once (map (fun t => VAlloc false t m) ts) = []) as ->; [|by rewrite app_nil_r].
    clear. induction ts; done.
  - apply ord_ok_app. split_and!; [done| |by intros ? ? ? [? ?]%Hnew]. clear. induction ts; simpl; done.
  - done.
Qed.

(** The shard gets an owner. *)
Lemma t_gain pk m : sinv None pk ent lv al -> toks pk = 0%nat -> sinv (Some m) pk ent lv al.
Proof using.
  intros [H1 H2 H3 H4 H5 H6 H7 H8 H9 H10 H11 H12 H13 H14 H15] Ht. rewrite toks_0 in Ht.
  split; try done.
  - intros b t m' ?%H2. done.
  - intros v Hv. by rewrite (Ht v).
  - intros n a ?%H6. done.
  - intros n a [?|?]%H7; [done|by right].
Qed.

(** The coordinator forgets the owner, a dead node. *)
Lemma t_forget pk n : sinv (Some n) pk ent lv al -> ~ al n -> (forall b t, VAlloc b t n ∉ pk) -> sinv None pk ent lv al /\ toks pk = 0%nat.
Proof using.
  intros [H1 H2 H3 H4 H5 H6 H7 H8 H9 H10 H11 H12 H13 H14 H15] Hd Hna.
  assert (Ht : toks pk = 0%nat). { apply toks_0. intros v Hv. destruct (is_tok v) eqn:E; [|done]. by apply H5 in E. }
  split; [|done]. split; try done.
  - intros b t m Hx. assert (m = n) as -> by (apply H2 in Hx; congruence). by apply Hna in Hx.
  - intros k a Hk. pose proof (H6 _ _ Hk) as [= <-]. by apply H15 in Hk.
  - intros k a Hk. destruct (H7 _ _ Hk) as [[= <-]|?]; [by apply H15 in Hk|by right].
Qed.

(** The reallocation request is handled: it is no longer under way. *)
Lemma t_moved k1 k2 : sinv ow (k1 ++ VMoved :: k2) ent lv al -> sinv ow (k1 ++ k2) ent lv al /\ toks (k1 ++ k2) = 0%nat.
Proof using.
  intros [H1 H2 H3 H4 H5 H6 H7 H8 H9 H10 H11 H12 H13 H14 H15].
  assert (Hin := in_rest k1 k2 VMoved). assert (Hsp := in_split k1 k2 VMoved).
  assert (Ht : toks (k1 ++ k2) = 0%nat). { rewrite !toks_app, toks_cons in *. simpl in *. lia. }
  split; [|done]. split.
  - eauto.
  - eauto.
  - intros k a f [E|[E|(? & ? & [?|?]%Hsp)]]%H3; auto 6. done.
  - lia.
  - eauto.
  - done.
  - intros k a [?|[b [?|?]%Hsp]]%H7; [auto|done|eauto].
  - intros k [[a [?|?]%Hsp]|[?|?]%Hsp]%H8; try done; eauto.
  - eauto.
  - eauto.
  - eauto.
  - intros k Hx. apply Hin, H12 in Hx as [? Hx]. split; [done|]. intros a ?%Hin. by eapply Hx.
  - by apply nd_remove in H13 as [? _].
  - by eapply ord_ok_remove.
  - done.
Qed.

(** A message reaches a mailbox. *)
Lemma t_arrive_alloc k1 k2 t m : sinv ow (k1 ++ VAlloc false t m :: k2) ent lv al -> sinv ow ((k1 ++ k2) ++ [VAlloc true t m]) ent lv al.
Proof using.
  intros [H1 H2 H3 H4 H5 H6 H7 H8 H9 H10 H11 H12 H13 H14 H15].
  assert (Hin : forall v, v ∈ (k1 ++ k2) ++ [VAlloc true t m] -> v = VAlloc true t m \/ v ∈ k1 ++ VAlloc false t m :: k2).
  { intros v [Hv|Hv%elem_of_list_singleton]%elem_of_app; [right; by apply in_rest|by left]. }
  assert (Hsp : forall v, v ∈ k1 ++ VAlloc false t m :: k2 -> v = VAlloc false t m \/ v ∈ (k1 ++ k2) ++ [VAlloc true t m]).
  { intros v [->|?]%in_split; [by left|]. right. apply elem_of_app. by left. }
  split.
  - intros [?|?]%Hin; done.
  - intros b t' m' [[= -> -> ->]|?]%Hin; [|eauto]. eapply H2, in_mid.
  - intros k a f [E|[E|(? & ? & [?|?]%Hsp)]]%H3; auto 6. done.
  - rewrite !toks_app, toks_cons in *. simpl in *. unfold toks in *. simpl. lia.
  - intros v [->|?]%Hin ?; [done|eauto].
  - done.
  - intros k a [?|[b [?|?]%Hsp]]%H7; [auto|done|eauto].
  - intros k [[a [?|?]%Hsp]|[?|?]%Hsp]%H8; try done; eauto.
  - intros b k [?|?]%Hin ?; [done|eauto].
  - intros k a [?|?]%Hin; [done|eauto].
  - intros k a [?|?]%Hin; [done|eauto].
  - intros k [?|Hx]%Hin; [done|]. apply H12 in Hx as [? Hx]. split; [done|]. intros a [?|?]%Hin; [done|]. by eapply Hx.
  - apply nd_snoc; [by apply nd_remove in H13 as [? _]|done].
  - apply ord_ok_app. split_and!; [by eapply ord_ok_remove|split; [by intros ?%elem_of_nil|done]|]. intros ? ? _ ?%elem_of_list_singleton. done.
  - done.
Qed.

Lemma t_arrive_stop k1 k2 t : sinv ow (k1 ++ VStop false t :: k2) ent lv al -> sinv ow ((k1 ++ k2) ++ [VStop true t]) ent lv al.
Proof using.
  intros [H1 H2 H3 H4 H5 H6 H7 H8 H9 H10 H11 H12 H13 H14 H15].
  assert (Hin : forall v, v ∈ (k1 ++ k2) ++ [VStop true t] -> v = VStop true t \/ v ∈ k1 ++ VStop false t :: k2).
  { intros v [Hv|Hv%elem_of_list_singleton]%elem_of_app; [right; by apply in_rest|by left]. }
  assert (Hsp : forall v, v ∈ k1 ++ VStop false t :: k2 -> v = VStop false t \/ v ∈ (k1 ++ k2) ++ [VStop true t]).
  { intros v [->|?]%in_split; [by left|]. right. apply elem_of_app. by left. }
  assert (Hnew : VStop true t ∈ (k1 ++ k2) ++ [VStop true t]) by (apply elem_of_app; right; constructor).
  assert (Hold : VStop false t ∈ k1 ++ VStop false t :: k2) by apply in_mid.
  split.
  - intros [?|?]%Hin; done.
  - intros b t' m' [?|?]%Hin; [done|eauto].
  - intros k a f [E|[E|(? & ? & [?|?]%Hsp)]]%H3; auto 6. done.
  - rewrite !toks_app, toks_cons in *. simpl in *. unfold toks in *. simpl. lia.
  - intros v [->|?]%Hin ?; eauto.
  - done.
  - intros k a [?|[b [[= -> ->]|?]%Hsp]]%H7; eauto.
  - intros k [[a [?|?]%Hsp]|[?|?]%Hsp]%H8; try done; eauto.
  - intros b k [[= -> ->]|?]%Hin ?; eauto.
  - intros k a [?|?]%Hin; [done|eauto].
  - intros k a [?|?]%Hin; [done|eauto].
  - intros k [?|Hx]%Hin; [done|]. apply H12 in Hx as [? Hx]. split; [done|]. intros a [?|?]%Hin; [done|]. by eapply Hx.
  - apply nd_snoc; [by apply nd_remove in H13 as [? _]|done].
  - apply ord_ok_app. split_and!; [by eapply ord_ok_remove|done|]. intros ? ? _ ?%elem_of_list_singleton. done.
  - done.
Qed.

(** A message is lost or has no effect. *)
Lemma t_drop k1 p k2 : sinv ow (k1 ++ p :: k2) ent lv al ->
  match p with VAlloc _ _ _ => True | VStop _ n => ~ al n | _ => False end -> sinv ow (k1 ++ k2) ent lv al.
Proof using.
  intros [H1 H2 H3 H4 H5 H6 H7 H8 H9 H10 H11 H12 H13 H14 H15] Hp.
  assert (Hin := in_rest k1 k2 p). assert (Hsp := in_split k1 k2 p).
  split.
  - eauto.
  - eauto.
  - intros k a f [E|[E|(? & ? & [<-|?]%Hsp)]]%H3; auto 6. done.
  - rewrite !toks_app, toks_cons in *. lia.
  - eauto.
  - done.
  - intros k a Hk. destruct (H7 _ _ Hk) as [?|[b [<-|?]%Hsp]]; eauto. by apply H15 in Hk.
  - intros k [[a [<-|?]%Hsp]|[<-|?]%Hsp]%H8; try done; eauto.
  - eauto.
  - eauto.
  - eauto.
  - intros k Hx. apply Hin, H12 in Hx as [? Hx]. split; [done|]. intros a ?%Hin. by eapply Hx.
  - by apply nd_remove in H13 as [? _].
  - by eapply ord_ok_remove.
  - done.
Qed.

(** The shard actor stops. *)
Lemma t_stopped k1 k2 n a : sinv ow (k1 ++ VTask n a :: k2) ent lv al ->
  sinv ow ((k1 ++ k2) ++ [VStopped n; VMoved]) ent (List.filter (fun x => negb ((x.1.1 =? n) && (x.1.2 =? a))) lv) al.
Proof using.
  intros I. assert (Ho : ow = None) by (eapply (s_tok_ow _ _ _ _ _ I); [apply in_mid|done]).
  assert (Hu : forall v, v ∈ k1 ++ k2 -> is_tok v = false).
  { apply toks_0. pose proof (s_tok _ _ _ _ _ I) as H4. rewrite !toks_app, toks_cons in *. simpl in *. lia. }
  destruct I as [H1 H2 H3 H4 H5 H6 H7 H8 H9 H10 H11 H12 H13 H14 H15].
  assert (Hin : forall v, v ∈ (k1 ++ k2) ++ [VStopped n; VMoved] -> v = VStopped n \/ v = VMoved \/ (v ∈ k1 ++ VTask n a :: k2 /\ is_tok v = false)).
  { intros v [Hv|[Hv|Hv%elem_of_list_singleton]%elem_of_cons]%elem_of_app; auto. right; right. split; [by apply in_rest|auto]. }
  assert (Hsp : forall v, v ∈ k1 ++ VTask n a :: k2 -> v = VTask n a \/ v ∈ (k1 ++ k2) ++ [VStopped n; VMoved]).
  { intros v [->|?]%in_split; [by left|]. right. apply elem_of_app. by left. }
  assert (Hold : VTask n a ∈ k1 ++ VTask n a :: k2) by apply in_mid.
  assert (HnewS : VStopped n ∈ (k1 ++ k2) ++ [VStopped n; VMoved]) by (apply elem_of_app; right; constructor).
  assert (Hdead : forall x, x ∉ List.filter (fun x : N * N * bool => negb ((x.1.1 =? n) && (x.1.2 =? a))) lv).
  { intros [[k a'] f] [Hx Hb]%elem_filter. simpl in Hb.
    destruct (H3 _ _ _ Hx) as [E|[[_ E]|(_ & _ & Ht)]].
    - apply H6 in E. congruence.
    - destruct (H7 _ _ E) as [?|[b Hs]]; [congruence|]. apply in_split in Hs as [?|Hs]; [done|]. by specialize (Hu _ Hs).
    - apply in_split in Ht as [[= -> ->]|Ht]; [|by specialize (Hu _ Ht)]. by rewrite !N.eqb_refl in Hb. }
  split.
  - intros [?|[?|[? _]]]%Hin; done.
  - intros b t m [?|[?|[? _]]]%Hin; try done. eauto.
  - by intros k a' f ?%Hdead.
  - rewrite toks_app. assert (toks (k1 ++ k2) = 0%nat) as -> by (by apply toks_0). done.
  - intros v Hv Ht. done.
  - done.
  - intros k a' [?|[b [?|?]%Hsp]]%H7; [auto|done|eauto].
  - intros k [[a' [[= -> ->]|?]%Hsp]|[?|?]%Hsp]%H8; try done; eauto.
  - intros b k [?|[?|[_ ?]]]%Hin; done.
  - intros k a' [?|[?|[_ ?]]]%Hin; done.
  - intros k a' [?|[?|[Hx _]]]%Hin; try done. apply H11 in Hx as [? _]. split; [done|apply Hdead].
  - intros k [[= ->]|[?|[Hx _]]]%Hin; try done.
    + split; [eauto|]. intros a' [?|[?|[_ ?]]]%Hin; done.
    + apply H12 in Hx as [? _]. split; [done|]. intros a' [?|[?|[_ ?]]]%Hin; done.
  - assert (Hnd : nd (((k1 ++ k2) ++ [VStopped n]) ++ [VMoved])); [|by rewrite <- app_assoc in Hnd].
    apply nd_snoc; [|done]. apply nd_snoc; [by apply nd_remove in H13 as [? _]|].
    intros _ Hx. apply (in_rest _ _ (VTask n a)) in Hx. apply H12 in Hx as [_ Hx]. by eapply Hx.
  - apply ord_ok_app. split_and!; [by eapply ord_ok_remove|done|]. intros k m Hx _. apply (in_rest _ _ (VTask n a)), H2 in Hx. congruence.
  - done.
Qed.

Definition upd (n : N) (k : option kind) : N -> option kind := fun n' => if decide (n' = n) then k else ent n'.
Lemma upd_same n k : upd n k n = k.
Proof using. unfold upd. by rewrite decide_True. Qed.
Lemma upd_other n k n' : n' <> n -> upd n k n' = ent n'.
Proof using. intros. unfold upd. by rewrite decide_False. Qed.

(** The host of the owner starts the shard. *)
Lemma t_start k1 k2 n a : sinv ow (k1 ++ VAlloc true n n :: k2) ent lv al -> ent n = None -> al n ->
  sinv ow (k1 ++ k2) (upd n (Some (KStarting a))) (lv ++ [(n, a, false)]) al.
Proof using.
  intros [H1 H2 H3 H4 H5 H6 H7 H8 H9 H10 H11 H12 H13 H14 H15] He Hal.
  assert (Ho : ow = Some n) by (eapply H2, in_mid).
  assert (Hin := in_rest k1 k2 (VAlloc true n n)). assert (Hsp := in_split k1 k2 (VAlloc true n n)).
  assert (Hu : forall k kd, ent k = Some kd -> upd n (Some (KStarting a)) k = Some kd).
  { intros k kd Hk. rewrite upd_other; [done|]. intros ->. congruence. }
  assert (Hu' : forall k kd, upd n (Some (KStarting a)) k = Some kd -> (k = n /\ kd = KStarting a) \/ ent k = Some kd).
  { intros k kd. destruct (decide (k = n)) as [->|Hne]; [rewrite upd_same; intros [= <-]; by left|rewrite upd_other by done; by right]. }
  split.
  - eauto.
  - eauto.
  - intros k a' f [Hl|Hl%elem_of_list_singleton]%elem_of_app.
    + destruct (H3 _ _ _ Hl) as [E|[[? E]|(? & E & [?|?]%Hsp)]]; try done; apply Hu in E; auto.
    + injection Hl as -> -> ->. left. apply upd_same.
  - rewrite !toks_app, toks_cons in *. lia.
  - eauto.
  - intros k a' [[-> _]|Hk]%Hu'; eauto.
  - intros k a' [[_ ?]|[?|[b [?|?]%Hsp]]%H7]%Hu'; try done; eauto.
  - intros k [[_ ?]|[[a' [?|?]%Hsp]|[?|?]%Hsp]%H8]%Hu'; try done; eauto.
  - intros b k Hx Hk. destruct (H9 b k (Hin _ Hx) Hk) as [a' E]. eauto.
  - intros k a' ?%Hin%H10. by apply Hu.
  - intros k a' Hx%Hin%H11. destruct Hx as [E Hx]. split; [by apply Hu|].
    intros [?|Hy%elem_of_list_singleton]%elem_of_app; [done|]. injection Hy as -> ->. congruence.
  - intros k Hx%Hin%H12. destruct Hx as [E Hx]. split; [by apply Hu|]. intros a' ?%Hin. by eapply Hx.
  - by apply nd_remove in H13 as [? _].
  - by eapply ord_ok_remove.
  - intros k kd [[-> _]|?]%Hu'; eauto.
Qed.

(** The host learns that the shard is ready. *)
Lemma t_ready k1 k2 n a : sinv ow (k1 ++ VReady n a :: k2) ent lv al -> sinv ow (k1 ++ k2) (upd n (Some (KReady a))) lv al.
Proof using.
  intros [H1 H2 H3 H4 H5 H6 H7 H8 H9 H10 H11 H12 H13 H14 H15].
  destruct (H11 n a (in_mid _ _ _)) as [He Hnl]. pose proof (H6 _ _ He) as Ho.
  assert (Hin := in_rest k1 k2 (VReady n a)). assert (Hsp := in_split k1 k2 (VReady n a)).
  destruct (nd_remove _ _ _ H13) as [Hnd Hn]. specialize (Hn eq_refl).
  assert (Hu' : forall k kd, upd n (Some (KReady a)) k = Some kd -> (k = n /\ kd = KReady a) \/ (k <> n /\ ent k = Some kd)).
  { intros k kd. destruct (decide (k = n)) as [->|Hne]; [rewrite upd_same; intros [= <-]; by left|rewrite upd_other by done; by right]. }
  split.
  - eauto.
  - eauto.
  - intros k a' f Hl. destruct (decide (k = n)) as [->|Hne].
    + right; left. rewrite upd_same. destruct (H3 _ _ _ Hl) as [E|[[? E]|(? & E & _)]]; [|congruence..].
      assert (a' = a) as -> by congruence. destruct f; [done|]. done.
    + rewrite upd_other by done. destruct (H3 _ _ _ Hl) as [E|[[? E]|(? & E & [?|?]%Hsp)]]; try done; auto.
  - rewrite !toks_app, toks_cons in *. lia.
  - eauto.
  - intros k a' [[_ ?]|[_ Hk]]%Hu'; [done|eauto].
  - intros k a' [[-> _]|[_ [?|[b [?|?]%Hsp]]%H7]]%Hu'; try done; eauto.
  - intros k [[_ ?]|[_ [[a' [?|?]%Hsp]|[?|?]%Hsp]%H8]]%Hu'; try done; eauto.
  - intros b k Hx Hk. pose proof (H5 _ (Hin _ Hx) eq_refl). congruence.
  - intros k a' Hx%Hin. pose proof (H5 _ Hx eq_refl). congruence.
  - intros k a' Hx. destruct (H11 k a' (Hin _ Hx)) as [E ?]. split; [|done]. destruct (decide (k = n)) as [->|Hne]; [|by rewrite upd_other].
    assert (a' = a) as -> by congruence. done.
  - intros k Hx%Hin%H12. destruct Hx as [E Hx]. split; [|intros a' ?%Hin; by eapply Hx].
    destruct (decide (k = n)) as [->|Hne]; [congruence|by rewrite upd_other].
  - done.
  - by eapply ord_ok_remove.
  - intros k kd [[-> _]|[_ ?]]%Hu'; eauto.
Qed.

(** The host begins to stop the shard. *)
Lemma t_stopping k1 k2 n a : sinv ow (k1 ++ VStop true n :: k2) ent lv al -> ent n = Some (KReady a) ->
  sinv ow ((k1 ++ k2) ++ [VTask n a]) (upd n (Some KStopping)) lv al.
Proof using.
  intros I He. assert (Ho : ow = None) by (eapply (s_tok_ow _ _ _ _ _ I); [apply in_mid|done]).
  assert (Hu : forall v, v ∈ k1 ++ k2 -> is_tok v = false).
  { apply toks_0. pose proof (s_tok _ _ _ _ _ I) as H4. rewrite !toks_app, toks_cons in *. simpl in *. lia. }
  destruct I as [H1 H2 H3 H4 H5 H6 H7 H8 H9 H10 H11 H12 H13 H14 H15].
  assert (Hin : forall v, v ∈ (k1 ++ k2) ++ [VTask n a] -> v = VTask n a \/ (v ∈ k1 ++ VStop true n :: k2 /\ is_tok v = false)).
  { intros v [Hv|Hv%elem_of_list_singleton]%elem_of_app; auto. right. split; [by apply in_rest|auto]. }
  assert (Hsp : forall v, v ∈ k1 ++ VStop true n :: k2 -> v = VStop true n \/ v ∈ (k1 ++ k2) ++ [VTask n a]).
  { intros v [->|?]%in_split; [by left|]. right. apply elem_of_app. by left. }
  assert (Hnew : VTask n a ∈ (k1 ++ k2) ++ [VTask n a]) by (apply elem_of_app; right; constructor).
  assert (Hu' : forall k kd, upd n (Some KStopping) k = Some kd -> (k = n /\ kd = KStopping) \/ (k <> n /\ ent k = Some kd)).
  { intros k kd. destruct (decide (k = n)) as [->|Hne]; [rewrite upd_same; intros [= <-]; by left|rewrite upd_other by done; by right]. }
  split.
  - intros [?|[? _]]%Hin; done.
  - intros b t m [?|[? _]]%Hin; [done|eauto].
  - intros k a' f Hl. destruct (decide (k = n)) as [->|Hne].
    + right; right. rewrite upd_same. destruct (H3 _ _ _ Hl) as [E|[[? E]|(? & E & _)]]; [congruence| |congruence].
      assert (a' = a) as -> by congruence. done.
    + rewrite upd_other by done. destruct (H3 _ _ _ Hl) as [E|[[? E]|(? & E & [?|?]%Hsp)]]; try done; auto 6.
  - rewrite toks_app. assert (toks (k1 ++ k2) = 0%nat) as -> by (by apply toks_0). done.
  - done.
  - intros k a' [[_ ?]|[_ Hk]]%Hu'; [done|eauto].
  - intros k a' [[_ ?]|[Hne [?|[b [?|?]%Hsp]]%H7]]%Hu'; try done; eauto. congruence.
  - intros k [[-> _]|[_ [[a' [?|?]%Hsp]|[?|?]%Hsp]%H8]]%Hu'; try done; eauto.
  - intros b k [?|[_ ?]]%Hin; done.
  - intros k a' [[= -> ->]|[_ ?]]%Hin; [|done]. apply upd_same.
  - intros k a' [?|[Hx _]]%Hin; [done|]. apply H11 in Hx as [E ?]. split; [|done].
    rewrite upd_other; [done|]. intros ->. congruence.
  - intros k [?|[Hx _]]%Hin; [done|]. apply H12 in Hx as [E ?].
    assert (k <> n) by congruence. split; [by rewrite upd_other|]. intros a' [?|[_ ?]]%Hin; [congruence|done].
  - apply nd_snoc; [by apply nd_remove in H13 as [? _]|done].
  - apply ord_ok_app. split_and!; [by eapply ord_ok_remove|done|]. intros ? ? _ ?%elem_of_list_singleton. done.
  - intros k kd [[-> _]|[_ ?]]%Hu'; eauto.
Qed.

(** The host learns that the shard has stopped. *)
Lemma t_gone k1 k2 n : sinv ow (k1 ++ VStopped n :: k2) ent lv al -> sinv ow (k1 ++ k2) (upd n None) lv al.
Proof using.
  intros [H1 H2 H3 H4 H5 H6 H7 H8 H9 H10 H11 H12 H13 H14 H15].
  destruct (H12 n (in_mid _ _ _)) as [He Hnt].
  assert (Hin := in_rest k1 k2 (VStopped n)). assert (Hsp := in_split k1 k2 (VStopped n)).
  destruct (nd_remove _ _ _ H13) as [Hnd Hn]. specialize (Hn eq_refl).
  assert (Hu' : forall k kd, upd n None k = Some kd -> k <> n /\ ent k = Some kd).
  { intros k kd. destruct (decide (k = n)) as [->|Hne]; [by rewrite upd_same|by rewrite upd_other]. }
  assert (Hu : forall k kd, kd <> KStopping -> ent k = Some kd -> upd n None k = Some kd).
  { intros k kd Hk E. rewrite upd_other; [done|]. intros ->. congruence. }
  split.
  - eauto.
  - eauto.
  - intros k a' f Hl. destruct (H3 _ _ _ Hl) as [E|[[? E]|(? & E & Hx)]].
    + left. by apply Hu.
    + right; left. split; [done|]. by apply Hu.
    + right; right. destruct (decide (k = n)) as [->|Hne]; [by apply Hnt in Hx|]. rewrite upd_other by done.
      apply Hsp in Hx as [?|?]; done.
  - rewrite !toks_app, toks_cons in *. lia.
  - eauto.
  - intros k a' [_ ?]%Hu'. eauto.
  - intros k a' [_ [?|[b [?|?]%Hsp]]%H7]%Hu'; try done; eauto.
  - intros k [Hne [[a' [?|?]%Hsp]|[?|?]%Hsp]%H8]%Hu'; try done; eauto. congruence.
  - intros b k Hx Hk. destruct (H9 b k (Hin _ Hx) Hk) as [a' E]. exists a'. by apply Hu.
  - intros k a' Hx%Hin. pose proof (H10 _ _ Hx) as E. rewrite upd_other; [done|]. intros ->. by apply Hnt in Hx.
  - intros k a' Hx%Hin%H11. destruct Hx as [E ?]. split; [by apply Hu|done].
  - intros k Hx. assert (k <> n) by (by intros ->). apply Hin, H12 in Hx as [E Hx]. split; [by rewrite upd_other|intros a' ?%Hin; by eapply Hx].
  - done.
  - by eapply ord_ok_remove.
  - intros k kd [_ ?]%Hu'; eauto.
Qed.

(** The shard actor completes its start. *)
Lemma t_up pk n a : sinv ow pk ent lv al -> (n, a, false) ∈ lv ->
  sinv ow (pk ++ [VReady n a]) ent (map (fun x => if (x.1.1 =? n) && (x.1.2 =? a) then (x.1, true) else x) lv) al.
Proof using.
  intros [H1 H2 H3 H4 H5 H6 H7 H8 H9 H10 H11 H12 H13 H14 H15] Hl.
  assert (He : ent n = Some (KStarting a)) by (destruct (H3 _ _ _ Hl) as [E|[[? ?]|[? ?]]]; done).
  assert (Hin : forall v, v ∈ pk ++ [VReady n a] -> v = VReady n a \/ v ∈ pk).
  { intros v [Hv|Hv%elem_of_list_singleton]%elem_of_app; auto. }
  assert (Hsp : forall v, v ∈ pk -> v ∈ pk ++ [VReady n a]) by (intros; apply elem_of_app; auto).
  assert (Hlv : forall k a' f, (k, a', f) ∈ map (fun x : N * N * bool => if (x.1.1 =? n) && (x.1.2 =? a) then (x.1, true) else x) lv ->
            (k = n /\ a' = a /\ f = true) \/ (k, a', f) ∈ lv /\ ~ (k = n /\ a' = a)).
  { intros k a' f ([[k1 a1] f1] & E & Hx)%elem_of_list_fmap. simpl in E.
    destruct (N.eqb_spec k1 n) as [->|], (N.eqb_spec a1 a) as [->|]; simpl in E; injection E as -> -> ->; auto; right; (split; [done|tauto]). }
  split.
  - intros [?|?]%Hin; done.
  - intros b t m [?|?]%Hin; [done|eauto].
  - intros k a' f [(-> & -> & ->)|[Hx _]]%Hlv; [by left|].
    destruct (H3 _ _ _ Hx) as [E|[[? E]|(? & E & ?)]]; auto 6.
  - rewrite toks_app. change (toks [VReady n a]) with 0%nat. lia.
  - intros v [->|?]%Hin ?; [done|eauto].
  - done.
  - intros k a' [?|[b ?]]%H7; eauto.
  - intros k [[a' ?]|?]%H8; eauto.
  - intros b k [?|?]%Hin ?; [done|eauto].
  - intros k a' [?|?]%Hin; [done|eauto].
  - intros k a' [[= -> ->]|Hx]%Hin.
    + split; [done|]. intros [(_ & _ & ?)|[_ Hno]]%Hlv; [done|]. by apply Hno.
    + apply H11 in Hx as [? Hx]. split; [done|]. intros [(_ & _ & ?)|[? _]]%Hlv; done.
  - intros k [?|Hx]%Hin; [done|]. apply H12 in Hx as [E Hx]. split; [done|]. intros a' [?|?]%Hin; [done|by eapply Hx].
  - apply nd_snoc; [done|]. intros _ Hx. apply H11 in Hx as [_ Hx]. done.
  - apply ord_ok_app. split_and!; try done. intros ? ? _ ?%elem_of_list_singleton. done.
  - done.
Qed.

Definition vof (n : N) (v : vpk) : bool :=
  match v with
  | VAlloc true t _ => t =? n
  | VStop true t => t =? n
  | VReady t _ | VStopped t | VTask t _ => t =? n
  | _ => false
  end.
Lemma ord_ok_filter f l : ord_ok l -> ord_ok (List.filter f l).
Proof using.
  induction l as [|v l IH]; simpl; [done|]. intros [H1 H2]. destruct (f v); [|auto]. split; [|auto].
  destruct v as [[] ? ?| | | | | |]; try done. rewrite elem_filter. by intros [? _].
Qed.

(** A node dies. *)
Lemma t_crash pk n : sinv ow pk ent lv al ->
  sinv ow (List.filter (fun v => negb (vof n v)) pk) (upd n None) (List.filter (fun x => negb (x.1.1 =? n)) lv) (fun k => k <> n /\ al k).
Proof using.
  intros [H1 H2 H3 H4 H5 H6 H7 H8 H9 H10 H11 H12 H13 H14 H15].
  assert (Hin : forall v, v ∈ List.filter (fun v => negb (vof n v)) pk <-> v ∈ pk /\ vof n v = false).
  { intros v. by rewrite elem_filter, negb_true_iff. }
  assert (Hu' : forall k kd, upd n None k = Some kd <-> k <> n /\ ent k = Some kd).
  { intros k kd. destruct (decide (k = n)) as [->|Hne]; [rewrite upd_same|rewrite upd_other by done]; intuition done. }
  assert (Hlv : forall k a f, (k, a, f) ∈ List.filter (fun x : N * N * bool => negb (x.1.1 =? n)) lv <-> (k, a, f) ∈ lv /\ k <> n).
  { intros k a f. rewrite elem_filter, negb_true_iff. simpl. by rewrite N.eqb_neq. }
  split.
  - by intros [? _]%Hin.
  - intros b t m [? _]%Hin. eauto.
  - intros k a f [Hl Hne]%Hlv. rewrite Hin, upd_other by done. simpl. rewrite (proj2 (N.eqb_neq k n)) by done.
    destruct (H3 _ _ _ Hl) as [E|[[? E]|(? & E & ?)]]; auto 6.
  - enough (forall l, toks (List.filter (fun v => negb (vof n v)) l) <= toks l)%nat as Hle by (specialize (Hle pk); lia).
    clear. induction l as [|v l IH]; simpl; [done|]. destruct (vof n v); simpl; rewrite ?toks_cons; lia.
  - intros v [? _]%Hin. eauto.
  - intros k a [_ ?]%Hu'. eauto.
  - intros k a [Hne [?|[b Hb]]%H7]%Hu'; [by left|]. right. exists b. apply Hin. split; [done|]. simpl. destruct b; [by apply N.eqb_neq|done].
  - intros k [Hne [[a Hx]|Hx]%H8]%Hu'; [left; exists a|right]; apply Hin; (split; [done|]); simpl; by apply N.eqb_neq.
  - intros b k [Hx _]%Hin [Hne Ha]. destruct (H9 _ _ Hx Ha) as [a ?]. exists a. by apply Hu'.
  - intros k a [Hx Hv]%Hin. apply Hu'. split; [|eauto]. simpl in Hv. by apply N.eqb_neq.
  - intros k a [Hx Hv]%Hin. apply H11 in Hx as [E Hx]. rewrite Hu', Hlv. simpl in Hv. apply N.eqb_neq in Hv. tauto.
  - intros k [Hx Hv]%Hin. apply H12 in Hx as [E Hx]. simpl in Hv. apply N.eqb_neq in Hv. split; [by apply Hu'|].
    intros a [? _]%Hin. by eapply Hx.
  - unfold nd in *. clear -H13. induction pk as [|v pk IH]; [done|]. simpl in *. destruct (is_once v) eqn:E.
    + apply NoDup_cons in H13 as [Hv Hnd]. destruct (vof n v); simpl; [auto|]. rewrite E. apply NoDup_cons. split; [|auto].
      rewrite elem_filter. intros [Hx _]. apply elem_filter in Hx as [Hx _]. apply Hv. by apply elem_filter.
    + destruct (vof n v); simpl; [auto|]. rewrite E. auto.
  - by apply ord_ok_filter.
  - intros k kd [? ?]%Hu'. eauto.
Qed.
End transitions.
