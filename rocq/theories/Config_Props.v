(** C64: the names of messages and actors. *)
From Verif Require Import Config_Model Config_Spec Config_Proofs Redis_Proofs.
From Coq Require Import String Ascii.

Section names.
Variable type_name : N -> bytes.
Variable lower : bytes -> bytes.
Notation conf := (configured type_name).

(** A message that arrives under a name is given to the handler that was registered last under it. *)
Theorem C64_dispatch l oh oa k a m :
  message_handler (conf l oh oa) k = Some (a, m) <-> in_force l k a m.
Proof. apply handlers_force. Qed.

(** The same for the factories of actors. *)
Theorem C64_factory l oh oa k a f :
  actor_handler (conf l oh oa) k = Some (a, f) <-> factory_in_force type_name l k a f.
Proof. apply actors_force. Qed.

(** A message is sent under a name that is in force for it, and can be sent iff there is one. *)
Theorem C64_name l oh oa a m :
  (forall k, handler_name (conf l oh oa) a m = Some k -> in_force l k a m) /\
  (handler_name (conf l oh oa) a m = None <-> forall k, ~ in_force l k a m).
Proof.
  split; [intros k; apply name_sound|]. split.
  - intros H k F. destruct (name_complete type_name l oh oa a m k F) as [k' E]. congruence.
  - intros H. destruct (handler_name (conf l oh oa) a m) as [k|] eqn:E; [|done].
    apply name_sound in E. by destruct (H k).
Qed.

(** Nodes with the same registrations: what one sends the others take for the same type, whatever the
    orders of their tables. *)
Theorem C64_same l oh oa oh' oa' a m k :
  handler_name (conf l oh oa) a m = Some k -> message_handler (conf l oh' oa') k = Some (a, m).
Proof. intros H. apply C64_dispatch. by apply name_sound in H. Qed.

(** Nodes with different registrations: if no name stands for different types on the two, a message
    is never taken for one of another type; it is handled if the other node knows each of its names. *)
Theorem C64_across l l' oh oa oh' oa' a m k :
  (forall k a m a' m', RHandler a m k ∈ l -> RHandler a' m' k ∈ l' -> a = a' /\ m = m') ->
  handler_name (conf l oh oa) a m = Some k ->
  (forall a' m', message_handler (conf l' oh' oa') k = Some (a', m') -> a' = a /\ m' = m) /\
  (RHandler a m k ∈ l' -> message_handler (conf l' oh' oa') k = Some (a, m)).
Proof.
  intros Hone H. apply name_sound, in_force_in in H.
  assert (H1 : forall a' m', message_handler (conf l' oh' oa') k = Some (a', m') -> a' = a /\ m' = m).
  { intros a' m' F. apply C64_dispatch, in_force_in in F. by destruct (Hone _ _ _ _ _ H F) as [-> ->]. }
  split; [exact H1|]. intros Hin. apply in_force_exists in Hin as (a' & m' & F).
  apply (C64_dispatch l' oh' oa') in F. by destruct (H1 _ _ F) as [-> ->].
Qed.

(** A type with one name, which stands for it only, is sent under this name. *)
Theorem C64_one l oh oa a m k :
  RHandler a m k ∈ l ->
  (forall a' m', RHandler a' m' k ∈ l -> a' = a /\ m' = m) ->
  (forall k', RHandler a m k' ∈ l -> k' = k) ->
  handler_name (conf l oh oa) a m = Some k.
Proof.
  intros Hin Ht Hn. destruct (in_force_exists _ _ _ _ Hin) as (a' & m' & F).
  destruct (Ht _ _ (in_force_in _ _ _ _ F)) as [-> ->].
  destruct (name_complete type_name l oh oa _ _ _ F) as [k' E]. rewrite E. f_equal.
  apply Hn. by apply name_sound, in_force_in in E.
Qed.

(** Refuted, for all registrations: that a registered message can be sent. If each of its names was used
    for another type later, it has no name, and nothing tells so before it is sent. *)
Theorem C64_shadowed_refuted l oh oa a m :
  (forall k pre post, l = pre ++ RHandler a m k :: post ->
     exists a' m', (a', m') <> (a, m) /\ RHandler a' m' k ∈ post) ->
  handler_name (conf l oh oa) a m = None.
Proof.
  intros H. apply C64_name. intros k (pre & post & E & Hno).
  destruct (H _ _ _ E) as (a' & m' & _ & Hin). by apply (Hno a' m').
Qed.

(** Refuted, for all registrations: that a message with two names is sent under one of them that one
    could tell: it depends on the order of the table. *)
Theorem C64_alias_refuted l a m k k' :
  in_force l k a m -> in_force l k' a m ->
  exists oh oh', forall oa,
    handler_name (conf l oh oa) a m = Some k /\ handler_name (conf l oh' oa) a m = Some k'.
Proof.
  intros H H'. destruct (name_any type_name _ _ _ _ H) as [oh E]. destruct (name_any type_name _ _ _ _ H') as [oh' E'].
  exists oh, oh'. auto.
Qed.

(** Refuted, for all registrations: that the name of an actor can be found. The table has the types of
    the handlers, the lookup asks for that of the marker. *)
Theorem C64_actor_name_refuted l oh oa a : actor_name (conf l oh oa) a = None.
Proof.
  unfold actor_name. destruct (c_actor_types (conf l oh oa) !! TActor a) as [k|] eqn:E; [|done].
  apply actor_types_shape in E as (? & ? & [=] & _).
Qed.

(** The messages that a node says it can handle: sorted, each once, exactly the names under which it
    sends; each of them is handled. *)
Theorem C64_messages l oh oa o :
  StronglySorted (fun x y => bytes_leb (lower x) (lower y) = true) (capable_messages lower o (conf l oh oa)) /\
  NoDup (capable_messages lower o (conf l oh oa)) /\
  (forall k, k ∈ capable_messages lower o (conf l oh oa) <-> exists a m, handler_name (conf l oh oa) a m = Some k) /\
  (forall k, k ∈ capable_messages lower o (conf l oh oa) -> exists a m, in_force l k a m).
Proof.
  assert (Hin : forall k, k ∈ capable_messages lower o (conf l oh oa) <-> exists a m, handler_name (conf l oh oa) a m = Some k).
  { intros k. unfold capable_messages. rewrite elem_of_values. split.
    - intros (i & H). by apply handler_types_shape in H as (a & m & _ & H); exists a, m.
    - intros (a & m & H). by exists (TMessage a m). }
  split; [exact (stable_sort_sorted (by_lower lower) (by_lower_total lower) (by_lower_trans lower) _)|].
  split; [|split; [exact Hin|]].
  - apply values_NoDup. intros i j k Hi Hj.
    apply handler_types_shape in Hi as (a & m & -> & Hi). apply handler_types_shape in Hj as (a' & m' & -> & Hj).
    apply name_sound, (handlers_force type_name) in Hi. apply name_sound, (handlers_force type_name) in Hj. congruence.
  - intros k (a & m & H)%Hin. exists a, m. by apply name_sound in H.
Qed.

(** If no type has two names in force, that is all the node handles. *)
Theorem C64_messages_all l oh oa o k :
  (forall a m k k', in_force l k a m -> in_force l k' a m -> k = k') ->
  k ∈ capable_messages lower o (conf l oh oa) <-> exists a m, message_handler (conf l oh oa) k = Some (a, m).
Proof.
  intros Hone. destruct (C64_messages l oh oa o) as (_ & _ & Hin & _). rewrite Hin. split.
  - intros (a & m & H). exists a, m. apply C64_dispatch. by apply name_sound in H.
  - intros (a & m & H). apply C64_dispatch in H. exists a, m.
    destruct (name_complete type_name l oh oa a m k H) as [k' E]. rewrite E. f_equal.
    apply name_sound in E. by eapply Hone.
Qed.

(** Refuted, for all registrations: of two names in force for a type one is not listed, although the
    node handles it. *)
Theorem C64_unlisted_refuted l oh oa o a m k k' :
  in_force l k a m -> in_force l k' a m -> k <> k' ->
  exists x, (x = k \/ x = k') /\ x ∉ capable_messages lower o (conf l oh oa) /\
    message_handler (conf l oh oa) x = Some (a, m).
Proof.
  intros H H' Hne. destruct (C64_messages l oh oa o) as (_ & _ & Hin & _).
  assert (Hx : forall x, in_force l x a m -> handler_name (conf l oh oa) a m <> Some x -> x ∉ capable_messages lower o (conf l oh oa)).
  { intros x F Hn (a' & m' & E)%Hin. pose proof E as E'. apply name_sound, (handlers_force type_name) in E'.
    apply (handlers_force type_name) in F. rewrite F in E'. injection E' as -> ->. congruence. }
  destruct (decide (handler_name (conf l oh oa) a m = Some k)) as [E|E].
  - exists k'. split; [by right|]. split; [apply Hx; [done|congruence]|]. by apply C64_dispatch.
  - exists k. split; [by left|]. split; [by apply Hx|]. by apply C64_dispatch.
Qed.

(** The actors that a node says it can create: sorted, each once, exactly those it has a factory for. *)
Theorem C64_actors l oh oa o :
  StronglySorted (fun x y => bytes_leb (lower x) (lower y) = true) (capable_actors lower o (conf l oh oa)) /\
  NoDup (capable_actors lower o (conf l oh oa)) /\
  (forall k, k ∈ capable_actors lower o (conf l oh oa) <-> exists a f, actor_handler (conf l oh oa) k = Some (a, f)).
Proof.
  split; [exact (stable_sort_sorted (by_lower lower) (by_lower_total lower) (by_lower_trans lower) _)|].
  split.
  - apply values_NoDup. intros i j k Hi Hj.
    apply actor_types_shape in Hi as (a & f & -> & Hi). apply actor_types_shape in Hj as (a' & f' & -> & Hj).
    apply actors_force in Hi. apply actors_force in Hj. congruence.
  - intros k. unfold capable_actors. rewrite elem_of_values. split.
    + intros (i & (a & f & _ & H)%actor_types_shape). exists a, f. by apply C64_factory.
    + intros (a & f & H). apply C64_factory in H. exists (TFactory a f). apply actor_types_shape. by exists a, f.
Qed.

(** The lists do not depend on the orders of the tables, unless names differ only in case (or, for
    messages, a type has two names). *)
Theorem C64_determined l oh oa o oh' oa' o' :
  (forall k k' a f a' f', factory_in_force type_name l k a f -> factory_in_force type_name l k' a' f' -> lower k = lower k' -> k = k') ->
  capable_actors lower o (conf l oh oa) = capable_actors lower o' (conf l oh' oa').
Proof.
  intros Hinj. destruct (C64_actors l oh oa o) as (S1 & N1 & I1). destruct (C64_actors l oh' oa' o') as (S2 & N2 & I2).
  apply (sorted_unique (fun x y => bytes_leb (lower x) (lower y) = true)); [|done|done|].
  - intros x y (a & f & Hx)%I1 (a' & f' & Hy)%I1 E1 E2. apply C64_factory in Hx, Hy.
    exact (Hinj _ _ _ _ _ _ Hx Hy (bytes_leb_antisym _ _ E1 E2)).
  - apply NoDup_Permutation; [done|done|]. intros k. by rewrite I1, I2.
Qed.
Theorem C64_messages_determined l oh oa o oh' oa' o' :
  (forall a m k k', in_force l k a m -> in_force l k' a m -> k = k') ->
  (forall k k' a m a' m', in_force l k a m -> in_force l k' a' m' -> lower k = lower k' -> k = k') ->
  capable_messages lower o (conf l oh oa) = capable_messages lower o' (conf l oh' oa').
Proof.
  intros Hone Hinj. destruct (C64_messages l oh oa o) as (S1 & N1 & _ & F1). destruct (C64_messages l oh' oa' o') as (S2 & N2 & _ & _).
  apply (sorted_unique (fun x y => bytes_leb (lower x) (lower y) = true)); [|done|done|].
  - intros x y (a & f & Hx)%F1 (a' & f' & Hy)%F1 E1 E2. exact (Hinj _ _ _ _ _ _ Hx Hy (bytes_leb_antisym _ _ E1 E2)).
  - apply NoDup_Permutation; [done|done|]. intros k. by rewrite !(C64_messages_all) by done.
Qed.

(** Singletons. *)
Variables mgr act : N -> N.
Notation mname := (manager_name type_name act).

Lemma manager_name_inj f g (s s' : string) :
  mname f s = mname g s' ->
  In s [">.RequestLease"; ">.LeaseAck"; ">.SingletonStarted"; ">.SingletonStopped"]%string ->
  In s' [">.RequestLease"; ">.LeaseAck"; ">.SingletonStarted"; ">.SingletonStopped"]%string ->
  type_name (act f) = type_name (act g) /\ s = s'.
Proof.
  unfold manager_name. intros E Hs Hs'. apply app_inv_head in E. apply (f_equal reverse) in E. rewrite !reverse_app in E.
  simpl in Hs, Hs'.
  repeat (destruct Hs as [<-|Hs]; [repeat (destruct Hs' as [<-|Hs']; [
     first [ split; [|done]; apply app_inv_head in E; by apply (inj reverse) in E
           | exfalso; vm_compute in E; injection E; intros; discriminate
           | exfalso; vm_compute in E; discriminate E ]
   |]); done|]). done.
Qed.

Lemma singleton_inv f a m k :
  RHandler a m k ∈ singleton type_name mgr act f ->
  a = mgr f /\ exists s, In (s, m) [(">.RequestLease", MRequestLease); (">.LeaseAck", MLeaseAck); (">.SingletonStarted", MStarted); (">.SingletonStopped", MStopped)]%string /\ k = mname f s.
Proof.
  unfold singleton. rewrite !elem_of_cons. intros [E|[E|[E|[E|E%elem_of_nil]]]]; [| | | |done];
    injection E as -> -> ->; (split; [done|]); eexists; (split; [|reflexivity]); simpl; auto.
Qed.

(** Singletons of actors whose types have different names: the managers send each message under a name of
    its own, and it arrives as this message of this manager, on each node with such registrations. *)
Theorem C64_singletons_partial (fs : list N) l l' oh oa oh' oa' f m k :
  (forall f g, f ∈ fs -> g ∈ fs -> type_name (act f) = type_name (act g) -> f = g) ->
  (forall x, x = l \/ x = l' ->
    (forall f, f ∈ fs -> singleton type_name mgr act f ⊆ x) /\
    (forall a m k, RHandler a m k ∈ x ->
      (exists f, f ∈ fs /\ RHandler a m k ∈ singleton type_name mgr act f) \/
      (forall f s, f ∈ fs -> a <> mgr f /\ k <> mname f s))) ->
  (forall f g, mgr f = mgr g -> f = g) ->
  f ∈ fs -> RHandler (mgr f) m k ∈ singleton type_name mgr act f ->
  handler_name (conf l oh oa) (mgr f) m = Some k /\
  message_handler (conf l' oh' oa') k = Some (mgr f, m).
Proof.
  intros Hdist Hl Hmgr Hf Hk. destruct (singleton_inv _ _ _ _ Hk) as (_ & s & Hs & ->).
  assert (Hname : forall x, x = l \/ x = l' -> forall a m', RHandler a m' (mname f s) ∈ x -> a = mgr f /\ m' = m).
  { intros x Hx a m' Hin. destruct (Hl x Hx) as [_ Honly]. destruct (Honly _ _ _ Hin) as [(g & Hg & Hin')|Hno].
    - destruct (singleton_inv _ _ _ _ Hin') as (-> & s' & Hs' & E).
      apply manager_name_inj in E as [E ->];
        [|by apply (in_map fst) in Hs|by apply (in_map fst) in Hs'].
      split; [by rewrite (Hdist _ _ Hg Hf (eq_sym E))|].
      simpl in Hs, Hs'. clear - Hs Hs'.
      repeat (destruct Hs as [[= <- <-]|Hs]; [repeat (destruct Hs' as [[= <-]|Hs']; [reflexivity|]); try done; by repeat (destruct Hs' as [[=]|Hs'])|]). done.
    - destruct (Hno f s Hf) as [_ Hne]. done. }
  assert (Hin : forall x, x = l \/ x = l' -> RHandler (mgr f) m (mname f s) ∈ x).
  { intros x Hx. destruct (Hl x Hx) as [Hsub _]. by apply (Hsub f Hf). }
  split.
  - apply C64_one; [by apply Hin; left|intros a' m'; apply (Hname l); by left|].
    intros k' Hk'. destruct (Hl l (or_introl eq_refl)) as [_ Honly]. destruct (Honly _ _ _ Hk') as [(g & Hg & Hin')|Hno].
    + destruct (singleton_inv _ _ _ _ Hin') as (E & s' & Hs' & ->). apply Hmgr in E as ->.
      f_equal. simpl in Hs, Hs'. clear - Hs Hs'.
      repeat (destruct Hs as [[= <- <-]|Hs]; [repeat (destruct Hs' as [[= <-]|Hs']; [reflexivity|]); try done; by repeat (destruct Hs' as [[=]|Hs'])|]). done.
    + by destruct (Hno f s Hf) as [[] _].
  - destruct (in_force_exists _ _ _ _ (Hin l' (or_intror eq_refl))) as (a' & m' & F).
    destruct (Hname l' (or_intror eq_refl) _ _ (in_force_in _ _ _ _ F)) as [-> ->]. by apply C64_dispatch.
Qed.

(** Refuted, for all registrations: that two singletons of one actor type work side by side. The names do
    not mention the factory, so the manager of the one registered first cannot send any message. *)
Theorem C64_singletons_refuted f g pre mid post oh oa m :
  type_name (act f) = type_name (act g) -> mgr f <> mgr g ->
  (forall m k, RHandler (mgr f) m k ∉ pre ++ mid ++ post) ->
  handler_name (conf (pre ++ singleton type_name mgr act f ++ mid ++ singleton type_name mgr act g ++ post) oh oa) (mgr f) m = None.
Proof.
  intros Et Hne Hno. apply C64_name. intros k F. pose proof (in_force_in _ _ _ _ F) as Hin.
  assert (Hk : RHandler (mgr f) m k ∈ singleton type_name mgr act f).
  { rewrite !elem_of_app in Hin. specialize (Hno m k). rewrite !elem_of_app in Hno.
    destruct Hin as [?|[?|[?|[H|?]]]]; [tauto|done|tauto| |tauto].
    apply singleton_inv in H as [E _]. done. }
  assert (Hg : RHandler (mgr g) m k ∈ singleton type_name mgr act g).
  { apply singleton_inv in Hk as (_ & s & Hs & ->). unfold singleton.
    assert (E : mname f s = mname g s) by (unfold manager_name; by rewrite Et). rewrite E. simpl in Hs.
    destruct Hs as [[= <- <-]|[[= <- <-]|[[= <- <-]|[[= <- <-]|[]]]]]; rewrite !elem_of_cons; auto. }
  apply (handlers_force type_name) in F. revert F.
  assert (HF : exists a' m', in_force (mid ++ singleton type_name mgr act g ++ post) k a' m').
  { eapply in_force_exists. rewrite !elem_of_app. right; left. exact Hg. }
  destruct HF as (a' & m' & HF).
  assert (HF' : in_force (pre ++ singleton type_name mgr act f ++ mid ++ singleton type_name mgr act g ++ post) k a' m').
  { destruct HF as (p & q & E & Hq). rewrite E. exists (pre ++ singleton type_name mgr act f ++ p), q.
    split; [by rewrite <- !app_assoc|done]. }
  apply (handlers_force type_name) in HF'. rewrite HF'. intros [= -> ->].
  apply in_force_in in HF. rewrite !elem_of_app in HF. specialize (Hno m k). rewrite !elem_of_app in Hno.
  destruct HF as [?|[H|?]]; [tauto| |tauto]. apply singleton_inv in H as [E _]. done.
Qed.
End names.

Print Assumptions C64_dispatch.
Print Assumptions C64_factory.
Print Assumptions C64_name.
Print Assumptions C64_same.
Print Assumptions C64_across.
Print Assumptions C64_one.
Print Assumptions C64_shadowed_refuted.
Print Assumptions C64_alias_refuted.
Print Assumptions C64_actor_name_refuted.
Print Assumptions C64_messages.
Print Assumptions C64_messages_all.
Print Assumptions C64_unlisted_refuted.
Print Assumptions C64_actors.
Print Assumptions C64_determined.
Print Assumptions C64_messages_determined.
Print Assumptions C64_singletons_partial.
Print Assumptions C64_singletons_refuted.

(** Actors 1, 2 with the type names "a", "b"; messages 5 and 6; names "x", "y", "X". *)
Definition ex_type_name (a : N) : bytes := [96 + a]%N.
Definition ex_lower : bytes -> bytes := map (fun c => if (c <? 97)%N then (c + 32)%N else c).
Definition ex_regs : list reg := [RHandler 1 5 [120]; RActor 1 7; RHandler 1 6 [121]; RHandler 2 5 [88]; RActor 2 8]%N.
Example C64_ex_run :
  let c := configured ex_type_name ex_regs [[121]; [120]]%N [] in
  handler_name c 1 5 = Some [120]%N /\ message_handler c [121]%N = Some (1, 6)%N /\
  handler_name c 2 6 = None /\ actor_handler c [98]%N = Some (2, 8)%N /\ actor_name c 1 = None /\
  capable_actors ex_lower [] c = [[97]; [98]]%N /\ List.length (capable_messages ex_lower [] c) = 3.
Proof. vm_compute. repeat split. Qed.
(** "x" and "X" are the same without case: the list depends on the order of the table. *)
Example C64_ex_case :
  let c := configured ex_type_name ex_regs [] [] in
  capable_messages ex_lower [TMessage 1 5] c <> capable_messages ex_lower [TMessage 2 5] c.
Proof. vm_compute. discriminate. Qed.
(** A name for two types: the first cannot be sent, and a node that knows only the second takes the
    messages of one that knows only the first for it. *)
Example C64_ex_shadowed :
  handler_name (configured ex_type_name [RHandler 1 5 [120]; RHandler 2 5 [120]]%N [] []) 1 5 = None /\
  exists k, handler_name (configured ex_type_name [RHandler 1 5 [120]]%N [] []) 1 5 = Some k /\
    message_handler (configured ex_type_name [RHandler 2 5 [120]]%N [] []) k = Some (2, 5)%N.
Proof. split; [reflexivity|]. exists [120]%N. split; reflexivity. Qed.
(** Two names for a type: both are in force; a node that knows one of them may be sent the other. *)
Example C64_ex_alias :
  let l := [RHandler 1 5 [120]; RHandler 1 5 [121]]%N in
  in_force l [120]%N 1 5 /\ in_force l [121]%N 1 5 /\
  handler_name (configured ex_type_name l [[120]%N] []) 1 5 = Some [121]%N /\
  message_handler (configured ex_type_name [RHandler 1 5 [120]]%N [] []) [121]%N = None.
Proof.
  split; [exists [], [RHandler 1 5 [121]]%N; split; [done|]; intros ? ? [[=]|H%elem_of_nil]%elem_of_cons; done|].
  split; [exists [RHandler 1 5 [120]]%N, []; split; [done|]; intros ? ? H%elem_of_nil; done|].
  split; reflexivity.
Qed.
(** Two singletons of different actors (3, 4), managers 13, 14; and of the same actor. *)
Example C64_ex_singletons :
  let c := configured ex_type_name (ex_regs ++ singleton ex_type_name (fun f => 10 + f)%N (fun f => f) 3 ++ singleton ex_type_name (fun f => 10 + f)%N (fun f => f) 4) [] [] in
  match handler_name c 13 MLeaseAck with Some k => message_handler c k = Some (13, MLeaseAck)%N | None => False end /\
  match handler_name c 14 MLeaseAck with Some k => message_handler c k = Some (14, MLeaseAck)%N | None => False end.
Proof. vm_compute. split; reflexivity. Qed.
Example C64_ex_singletons_refuted :
  let c := configured ex_type_name (singleton ex_type_name (fun f => 10 + f)%N (fun _ => 1%N) 3 ++ singleton ex_type_name (fun f => 10 + f)%N (fun _ => 1%N) 4) [] [] in
  handler_name c 13 MLeaseAck = None /\ handler_name c 14 MLeaseAck <> None.
Proof. vm_compute. split; [reflexivity|discriminate]. Qed.
