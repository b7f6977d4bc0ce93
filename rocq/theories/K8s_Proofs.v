(** The addresses that are discovered, the numbers of the nodes, and who comes to know whom. *)
From Verif Require Import K8s_Model K8s_Spec Mesh_Proofs.
From Coq Require Import Ascii DecimalString DecimalN DecimalPos DecimalFacts.
Local Open Scope string_scope.

(** ** Addresses *)

Lemma find_first (name : option string) (ports : list cport) p :
  List.find (fun p => bool_decide (cp_name p = name)) ports = Some p <->
  exists l1 l2, ports = (l1 ++ p :: l2)%list /\ cp_name p = name /\ Forall (fun q => cp_name q <> name) l1.
Proof.
  induction ports as [|q ports IH]; cbn [List.find].
  - split; [done|]. intros (l1 & l2 & H & _). by destruct l1.
  - destruct (bool_decide (cp_name q = name)) eqn:E.
    + apply bool_decide_eq_true_1 in E. split.
      * intros [= ->]. exists [], ports. done.
      * intros (l1 & l2 & H & Hp & Hn). destruct l1 as [|q' l1]; [by injection H as -> _|].
        injection H as <- _. by apply Forall_cons in Hn as [Hn _].
    + apply bool_decide_eq_false_1 in E. rewrite IH. split.
      * intros (l1 & l2 & -> & Hp & Hn). exists (q :: l1), l2. split; [done|]. split; [done|by constructor].
      * intros (l1 & l2 & H & Hp & Hn). destruct l1 as [|q' l1]; [by injection H as -> _|].
        injection H as <- ->. apply Forall_cons in Hn as [_ Hn]. eauto.
Qed.

Lemma port_of_find cfg c z : port_of cfg c z <->
  exists ports p, c_ports c = Some ports /\ List.find (fun p => bool_decide (cp_name p = kc_port_name cfg)) ports = Some p /\ cp_port p = z.
Proof.
  unfold port_of. split.
  - intros (l1 & p & l2 & H & Hn & Hz & Hf). exists (l1 ++ p :: l2)%list, p. split; [done|]. split; [|done]. apply find_first. eauto.
  - intros (ports & p & H & Hf & Hz). apply find_first in Hf as (l1 & l2 & -> & Hn & Hf). by exists l1, p, l2.
Qed.

Lemma containers_spec cfg addr cs r : containers_addrs cfg addr cs = Value r ->
  (forall a, a ∈ r <-> exists c z, c ∈ cs /\ port_of cfg c z /\ a = addr ++ ":" ++ show_i32 z).
Proof.
  revert r. induction cs as [|c cs IH]; intros r H a; cbn [containers_addrs] in H.
  - injection H as <-. split; [intros Ha; by apply elem_of_nil in Ha|intros (c & z & Hc & _); by apply elem_of_nil in Hc].
  - destruct (container_addr cfg addr c) as [l1|] eqn:E1; [|done]. destruct (containers_addrs cfg addr cs) as [l2|]; [|done].
    injection H as <-. rewrite elem_of_app, (IH l2 eq_refl a). unfold container_addr in E1.
    destruct (c_ports c) as [ports|] eqn:Ep; [|done].
    assert (Hc : a ∈ l1 <-> exists z, port_of cfg c z /\ a = addr ++ ":" ++ show_i32 z).
    { setoid_rewrite port_of_find. destruct (List.find _ ports) as [p|] eqn:Ef; injection E1 as <-.
      - rewrite elem_of_list_singleton. split.
        + intros ->. exists (cp_port p). split; [|done]. by exists ports, p.
        + intros (z & (ports' & p' & H1 & H2 & <-) & ->). rewrite Ep in H1. injection H1 as <-. rewrite Ef in H2. by injection H2 as <-.
      - split; [intros Ha; by apply elem_of_nil in Ha|]. intros (z & (ports' & p' & H1 & H2 & _) & _).
        rewrite Ep in H1. injection H1 as <-. by rewrite Ef in H2. }
    rewrite Hc. split.
    + intros [(z & Hz & ->)|(c' & z & Hc' & Hz & ->)].
      * exists c, z. split; [left|done].
      * exists c', z. split; [by right|done].
    + intros (c' & z & Hc' & Hz & ->). apply elem_of_cons in Hc' as [->|Hc']; [left; by exists z|right; by exists c', z].
Qed.

Lemma pod_spec_of cfg p r : pod_addrs cfg p = Value r -> forall a, a ∈ r <-> address_of cfg p a.
Proof.
  unfold pod_addrs, address_of, host_of. intros H a. destruct (pd_spec p) as [spec|] eqn:Es; [|done].
  destruct (pd_status p) as [ip|] eqn:Est; [|done]. destruct (kc_address cfg) eqn:Ea.
  - destruct ip as [ip|].
    + rewrite (containers_spec _ _ _ _ H a). split.
      * intros (c & z & Hc & Hz & ->). exists ip, spec, c, z. split; [|done]. by exists spec, (Some ip).
      * intros (host & spec' & c & z & (spec'' & ip' & H1 & H2 & ->) & H3 & Hc & Hz & ->). injection H2 as ->. injection H3 as <-.
        by exists c, z.
    + injection H as <-. split; [intros Ha; by apply elem_of_nil in Ha|].
      intros (host & spec' & c & z & (spec'' & ip' & H1 & H2 & ->) & _). done.
  - destruct (ps_hostname spec) as [hn|] eqn:Eh; [|done]. destruct (ps_subdomain spec) as [sd|] eqn:Ed; [|done].
    rewrite (containers_spec _ _ _ _ H a). split.
    + intros (c & z & Hc & Hz & ->). exists (hn ++ "." ++ sd), spec, c, z. split; [|done].
      exists spec, ip. split; [done|]. split; [done|]. by exists hn, sd.
    + intros (host & spec' & c & z & (spec'' & ip' & H1 & H2 & (h' & s' & H4 & H5 & ->)) & H3 & Hc & Hz & ->).
      injection H1 as <-. injection H3 as <-. rewrite Eh in H4. rewrite Ed in H5. injection H4 as <-. injection H5 as <-. by exists c, z.
Qed.

Lemma pods_spec cfg l r : pods_addrs cfg l = Value r -> forall a, a ∈ r <-> exists p, p ∈ l /\ address_of cfg p a.
Proof.
  revert r. induction l as [|p l IH]; intros r H a; cbn [pods_addrs] in H.
  - injection H as <-. split; [intros Ha; by apply elem_of_nil in Ha|intros (p & Hp & _); by apply elem_of_nil in Hp].
  - destruct (pod_addrs cfg p) as [l1|] eqn:E1; [|done]. destruct (pods_addrs cfg l) as [l2|]; [|done]. injection H as <-.
    rewrite elem_of_app, (IH l2 eq_refl a), (pod_spec_of cfg p l1 E1 a). split.
    + intros [H|(q & Hq & H)]; [exists p; split; [left|done]|exists q; split; [by right|done]].
    + intros (q & Hq & H). apply elem_of_cons in Hq as [->|Hq]; [by left|right; by exists q].
Qed.

Lemma pods_app cfg l1 l2 r : pods_addrs cfg (l1 ++ l2) = Value r ->
  exists r1 r2, pods_addrs cfg l1 = Value r1 /\ pods_addrs cfg l2 = Value r2 /\ r = (r1 ++ r2)%list.
Proof.
  revert r. induction l1 as [|p l1 IH]; intros r H; cbn [pods_addrs app] in *; [by exists [], r|].
  destruct (pod_addrs cfg p) as [a|]; [|done]. destruct (pods_addrs cfg (l1 ++ l2)) as [b|]; [|done]. injection H as <-.
  destruct (IH b eq_refl) as (r1 & r2 & -> & -> & ->). exists (a ++ r1)%list, r2. by rewrite (assoc_L (++)%list).
Qed.

Lemma first_head cfg l r a : pods_addrs cfg l = Value r -> first_address cfg l a -> exists r', r = a :: r'.
Proof.
  intros H (l1 & p & l2 & -> & Ha & Hu & Hn). apply pods_app in H as (r1 & r2 & H1 & H2 & ->).
  assert (r1 = []) as ->.
  { destruct r1 as [|b r1]; [done|]. exfalso. destruct (proj1 (pods_spec cfg l1 _ H1 b)) as (q & Hq & Hb); [left|]. by eapply Hn. }
  cbn [pods_addrs] in H2. destruct (pod_addrs cfg p) as [l3|] eqn:E3; [|done]. destruct (pods_addrs cfg l2) as [l4|]; [|done].
  injection H2 as <-. destruct l3 as [|b l3].
  - apply (pod_spec_of cfg p [] E3 a) in Ha. by apply elem_of_nil in Ha.
  - assert (b = a) as ->; [|by eexists]. apply Hu. apply (pod_spec_of cfg p _ E3). left.
Qed.

Lemma containers_complete cfg addr cs : Forall (fun c => c_ports c <> None) cs -> exists r, containers_addrs cfg addr cs = Value r.
Proof.
  induction 1 as [|c cs Hc _ [r IH]]; cbn [containers_addrs]; [by eexists|]. rewrite IH. unfold container_addr.
  destruct (c_ports c) as [ports|]; [|done]. destruct (List.find _ ports); by eexists.
Qed.

Lemma complete_value cfg l : Forall (complete cfg) l -> exists r, pods_addrs cfg l = Value r.
Proof.
  induction 1 as [|p l (spec & ip & H1 & H2 & H3 & H4) _ [r IH]]; cbn [pods_addrs]; [by eexists|]. rewrite IH.
  assert (exists b, pod_addrs cfg p = Value b) as [b ->]; [|by eexists]. unfold pod_addrs. rewrite H1, H2.
  destruct (kc_address cfg).
  - destruct ip as [ip|]; [by apply containers_complete|by eexists].
  - destruct (H3 eq_refl) as [H5 H6]. destruct (ps_hostname spec); [|done]. destruct (ps_subdomain spec); [|done]. by apply containers_complete.
Qed.

Lemma containers_panic cfg addr cs c : c ∈ cs -> c_ports c = None -> containers_addrs cfg addr cs = Panic.
Proof.
  intros Hin Hc. induction cs as [|c' cs IH]; [by apply elem_of_nil in Hin|]. cbn [containers_addrs].
  apply elem_of_cons in Hin as [<-|Hin].
  - unfold container_addr. by rewrite Hc.
  - rewrite (IH Hin). by destruct (container_addr cfg addr c').
Qed.

Lemma pods_panic cfg l p : p ∈ l -> pod_addrs cfg p = Panic -> pods_addrs cfg l = Panic.
Proof.
  intros Hin Hp. induction l as [|q l IH]; [by apply elem_of_nil in Hin|]. cbn [pods_addrs].
  apply elem_of_cons in Hin as [<-|Hin]; [by rewrite Hp|]. rewrite (IH Hin). by destruct (pod_addrs cfg q).
Qed.

(** ** The number of a pod *)

Lemma uint_no_dash d : has_dash (NilEmpty.string_of_uint d) = false.
Proof. induction d; simpl; done. Qed.

Lemma last_part_none s : has_dash s = false -> last_part s = s.
Proof. destruct s as [|c s]; [done|]. simpl. intros H. apply orb_false_iff in H as [H1 H2]. by rewrite H1, H2. Qed.

Lemma has_dash_app s t : has_dash (s ++ t) = has_dash s || has_dash t.
Proof.
  induction s as [|c s IH]; [done|]. change (has_dash (String c s ++ t)) with (Ascii.eqb c "-" || has_dash (s ++ t)).
  cbn [has_dash]. by rewrite IH, orb_assoc.
Qed.

Lemma last_part_app base d : has_dash d = false -> last_part (base ++ "-" ++ d) = d.
Proof.
  intros H. induction base as [|c base IH].
  - change (last_part (String "-" d) = d). simpl. by rewrite H.
  - change (last_part (String c (base ++ "-" ++ d)) = d). cbn [last_part].
    assert (has_dash (base ++ "-" ++ d) = true) as ->; [|done]. rewrite has_dash_app. apply orb_true_r.
Qed.

Lemma show_u_eq n : show_u n = NilEmpty.string_of_uint (N.to_uint n).
Proof.
  unfold show_u, NilZero.string_of_uint. destruct (N.to_uint n) eqn:E; try done.
  pose proof (DecimalN.Unsigned.of_to n) as H. rewrite E in H. simpl in H. subst. done.
Qed.

Lemma parse_show n : (n < 18446744073709551616)%N -> parse_u64 (show_u n) = Some n.
Proof.
  intros Hn. unfold parse_u64.
  assert (Hp : match show_u n with String "+" s' => s' | _ => show_u n end = show_u n).
  { rewrite show_u_eq. destruct (N.to_uint n); done. }
  rewrite Hp. destruct (show_u n) as [|c s] eqn:E.
  - exfalso. rewrite show_u_eq in E. destruct (N.to_uint n) eqn:E2; try done.
    pose proof (DecimalN.Unsigned.of_to n) as H. rewrite E2 in H. simpl in H. subst. done.
  - rewrite <-E, show_u_eq, NilEmpty.usu, DecimalN.Unsigned.of_to. apply N.ltb_lt in Hn. by rewrite Hn.
Qed.

Lemma ordinal base n : (n < 18446744073709551616)%N -> parse_u64 (last_part (base ++ "-" ++ show_u n)) = Some n.
Proof. intros Hn. rewrite last_part_app; [by apply parse_show|]. rewrite show_u_eq. apply uint_no_dash. Qed.

(** ** A node knows only nodes that it is joined to *)

Lemma meet_nodes_only x down cur m l m' ks : meet_nodes x down cur m l = (m', ks) ->
  (forall n, n ∈ m_known m' -> n ∈ m_known m \/ n ∈ l) /\
  (forall k, k ∈ ks -> k_from k = x /\ k_to k ∈ l /\ forall n, n ∈ k_nodes k -> n ∈ m_known m \/ n ∈ l).
Proof.
  revert m m' ks. induction l as [|n l IH]; intros m m' ks H; cbn [meet_nodes] in H.
  - injection H as <- <-. split; [by left|]. intros k Hk. by apply elem_of_nil in Hk.
  - destruct (bool_decide (n ∈ cur) || bool_decide (n ∈ m_ing m) || bool_decide (n ∈ down)).
    + destruct (IH _ _ _ H) as [H1 H2]. split.
      * intros q Hq. destruct (H1 q Hq); [by left|right; by right].
      * intros k Hk. destruct (H2 k Hk) as (Hf & Ht & Hn). split; [done|]. split; [by right|].
        intros q Hq. destruct (Hn q Hq); [by left|right; by right].
    + destruct (meet_nodes x down cur (MNode ({[n]} ∪ m_known m) ({[n]} ∪ m_ing m)) l) as [m1 ks1] eqn:E. injection H as <- <-.
      destruct (IH _ _ _ E) as [H1 H2]. cbn [m_known] in *.
      assert (Hw : forall q, q ∈ {[n]} ∪ m_known m \/ q ∈ l -> q ∈ m_known m \/ q ∈ n :: l).
      { intros q [Hq|Hq]; [|right; by right]. apply elem_of_union in Hq as [Hq|Hq]; [|by left]. apply elem_of_singleton in Hq as ->. right. left. }
      split; [intros q Hq; by apply Hw, H1|]. intros k Hk. apply elem_of_cons in Hk as [->|Hk].
      * cbn. split; [done|]. split; [left|]. intros q Hq. apply Hw. by left.
      * destruct (H2 k Hk) as (Hf & Ht & Hn). split; [done|]. split; [by right|]. intros q Hq. by apply Hw, Hn.
Qed.

Definition close (R : N -> N -> Prop) (h : mesh) : Prop :=
  (forall x y, knows h x y -> R x y) /\
  (forall k, k ∈ h_flight h -> R (k_from k) (k_to k) /\ forall n, n ∈ k_nodes k -> R (k_from k) n).

Lemma close_discover (R : N -> N -> Prop) h h' x down l :
  (forall a b c, R a b -> R b c -> R a c) -> close R h -> (forall n, n ∈ l -> R x n) ->
  discover h x down l = Some h' -> close R h'.
Proof.
  intros HT [C1 C2] Hl H. unfold discover in H. destruct (h_nodes h !! x) as [m|] eqn:Em; [|done]. cbn [mbind option_bind] in H.
  destruct (meet_nodes x down (m_known m) m l) as [m' ks] eqn:E. injection H as <-. destruct (meet_nodes_only _ _ _ _ _ _ _ E) as [H1 H2].
  assert (Hx : forall n, n ∈ m_known m \/ n ∈ l -> R x n).
  { intros n [Hn|Hn]; [|by apply Hl]. apply C1. by exists m. }
  split.
  - intros a b (ma & Ha & Hb). cbn in Ha. destruct (decide (a = x)) as [->|Hne].
    + rewrite lookup_insert in Ha. injection Ha as <-. by apply Hx, H1.
    + rewrite lookup_insert_ne in Ha by done. apply C1. by exists ma.
  - cbn. intros k Hk. apply elem_of_app in Hk as [Hk|Hk]; [by apply C2|]. destruct (H2 k Hk) as (-> & Ht & Hn). split.
    + apply Hx. by right.
    + intros n Hn'. by apply Hx, Hn.
Qed.

Lemma close_same (R : N -> N -> Prop) h h' : close R h ->
  (forall x m', h_nodes h' !! x = Some m' -> exists m, h_nodes h !! x = Some m /\ m_known m' ⊆ m_known m) ->
  (forall k, k ∈ h_flight h' -> k ∈ h_flight h) -> close R h'.
Proof.
  intros [C1 C2] H1 H2. split.
  - intros x y (m' & Hm & Hy). destruct (H1 _ _ Hm) as (m & Hm' & Hs). apply C1. exists m. split; [done|]. by apply Hs.
  - intros k Hk. by apply C2, H2.
Qed.

Lemma delete_in {A} (i : nat) (l : list A) x : x ∈ delete i l -> x ∈ l.
Proof.
  revert i. induction l as [|y l IH]; intros [|i] H; try done; [by right|]. apply elem_of_cons in H as [->|H]; [left|]. right. by eapply IH.
Qed.

Lemma close_step (R : N -> N -> Prop) h o h' :
  (forall a, R a a) -> (forall a b, R a b -> R b a) -> (forall a b c, R a b -> R b c -> R a c) ->
  close R h -> (forall x s l, o = MSeed x s l -> R x s /\ forall n, n ∈ l -> rtc (knows h) s n) ->
  mstep h o = Some h' -> close R h'.
Proof.
  intros HR HS HT HC Ho H. destruct o as [x|x s l|i l down|i|x y|x y]; cbn [mstep] in H.
  - destruct (h_nodes h !! x) eqn:E; [done|]. injection H as <-. destruct HC as [C1 C2]. split; [|done].
    intros a b (m & Ha & Hb). cbn in Ha. destruct (decide (a = x)) as [->|Hne].
    + rewrite lookup_insert in Ha. injection Ha as <-. cbn in Hb. apply elem_of_singleton in Hb as ->. apply HR.
    + rewrite lookup_insert_ne in Ha by done. apply C1. by exists m.
  - destruct (Ho x s l eq_refl) as [Hxs Hl]. destruct (bool_decide (s ∈ l) && _); [|done].
    refine (close_discover R h h' x [] l HT HC _ H). intros n Hn. apply HT with s; [done|]. specialize (Hl n Hn).
    clear -Hl HR HT HC. induction Hl as [|a b c Hab _ IH]; [apply HR|]. apply HT with b; [by apply (proj1 HC)|done].
  - destruct (h_flight h !! i) as [k|] eqn:Ek; [|done]. cbn [mbind option_bind] in H.
    destruct (bool_decide (list_to_set l = k_nodes k ∖ {[k_to k]})) eqn:E; [|done]. apply bool_decide_eq_true_1 in E.
    destruct (proj2 HC k) as [H1 H2]; [by eapply elem_of_list_lookup_2|].
    refine (close_discover R _ h' (k_to k) down l HT _ _ H).
    + refine (close_same R h _ HC _ _); [intros a m' Ha; exists m'; done|intros q Hq; by eapply delete_in].
    + intros n Hn. apply HT with (k_from k); [by apply HS|]. apply H2. apply elem_of_difference with {[k_to k]}. rewrite <-E. by apply elem_of_list_to_set.
  - destruct (h_flight h !! i) as [k|] eqn:Ek; [|done]. injection H as <-.
    refine (close_same R h _ HC _ _); [intros a m' Ha; exists m'; done|intros q Hq; by eapply delete_in].
  - destruct (h_nodes h !! x) as [m|] eqn:E; [|done]. injection H as <-. refine (close_same R h _ HC _ _); [|done].
    intros a m' Ha. cbn in Ha. destruct (decide (a = x)) as [->|Hne]; [rewrite lookup_insert in Ha; injection Ha as <-; by exists m|].
    rewrite lookup_insert_ne in Ha by done. by exists m'.
  - destruct (h_nodes h !! x) as [m|] eqn:E; [|done]. injection H as <-. refine (close_same R h _ HC _ _); [|done].
    intros a m' Ha. cbn in Ha. destruct (decide (a = x)) as [->|Hne].
    + rewrite lookup_insert in Ha. injection Ha as <-. exists m. split; [done|]. cbn. set_solver.
    + rewrite lookup_insert_ne in Ha by done. by exists m'.
Qed.

Lemma close_runs (R : N -> N -> Prop) h ops h' :
  (forall a, R a a) -> (forall a b, R a b -> R b a) -> (forall a b c, R a b -> R b c -> R a c) ->
  close R h -> (forall x s, seeded ops x s -> R x s) -> honest h ops -> mruns h ops = Some h' -> close R h'.
Proof.
  intros HR HS HT. revert h. induction ops as [|o ops IH]; intros h HC Hs Hh H; cbn [mruns] in H; [by injection H as <-|].
  destruct (mstep h o) as [h1|] eqn:E; [|done]. cbn [mbind option_bind] in H. destruct Hh as [H1 H2].
  apply (IH h1); [|intros x s (l & Hl); apply Hs; exists l; by right|by apply H2|done].
  refine (close_step R h o h1 HR HS HT HC _ E). intros x s l ->. split; [|done]. apply Hs. exists l. left.
Qed.

Lemma only_joined ops h x y : mruns mesh_init ops = Some h -> honest mesh_init ops -> knows h x y -> joined ops x y.
Proof.
  intros H Hh Hk. refine (proj1 (close_runs (joined ops) mesh_init ops h _ _ _ _ _ Hh H) x y Hk).
  - intros a. unfold joined. apply rtc_refl.
  - intros a b Hab. unfold joined in *. by symmetry.
  - intros a b c Hab Hbc. unfold joined in *. by etrans.
  - split; [intros a b (m & Ha & _); cbn in Ha; by rewrite lookup_empty in Ha|]. intros k Hk'. cbn in Hk'. by apply elem_of_nil in Hk'.
  - intros a s Ha. unfold joined. apply rtc_once. by left.
Qed.

(** ** What a pod chooses *)

Lemma info_seed e c l i a :
  is_Some (e_k8s e) -> get_node_info e c (Some l) = Value i -> first_address (default_config e) l a -> ni_seed i = Some a.
Proof.
  intros [k Hk] H Ha. unfold get_node_info in H. rewrite Hk in H. destruct (e_pod_name e) as [name|]; [|done].
  destruct (e_cluster_ip e) as [ip|]; [|done]. unfold k8s_discover in H.
  destruct (pods_addrs (default_config e) l) as [r|] eqn:Er; [|done].
  destruct (first_head _ _ _ _ Er Ha) as [r' ->]. destruct (parse_u64 (last_part name)) as [n|].
  - destruct (cf_port c); [|done]. by injection H as <-.
  - by injection H as <-.
Qed.

Lemma seeded_started ops h x s : mruns mesh_init ops = Some h -> seeded ops x s -> started ops x.
Proof.
  intros E (l & Hl). apply elem_of_list_split in Hl as (l1 & l2 & ->). rewrite mruns_app in E.
  destruct (mruns mesh_init l1) as [h1|] eqn:E1; [|done]. cbn [mbind option_bind mruns] in E.
  destruct (mstep h1 (MSeed x s l)) as [h2|] eqn:E2; [|done]. cbn [mstep] in E2.
  destruct (bool_decide (s ∈ l) && _); [|done]. unfold discover in E2. destruct (h_nodes h1 !! x) as [m|] eqn:Em; [|done].
  destruct (nodes_started h1 x mesh_init l1 E1) as [[? H]|H]; [by rewrite Em|cbn in H; by rewrite lookup_empty in H|].
  unfold started. apply elem_of_app. by left.
Qed.
