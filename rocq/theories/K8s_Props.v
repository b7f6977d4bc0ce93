(** C93, C94, C95: nodes that find each other through Kubernetes. *)
From Coq Require Import Ascii.
From Verif Require Import K8s_Model K8s_Spec K8s_Proofs Mesh_Proofs Mesh_Props.
Local Open Scope string_scope.

(** ** C93 *)

(** Whenever discovery returns, the list has exactly the addresses of the listed pods. *)
Theorem C93_addresses cfg l r :
  k8s_discover cfg (Some l) = Value r -> exists as_, r = Some as_ /\ forall a, a ∈ as_ <-> exists p, p ∈ l /\ address_of cfg p a.
Proof.
  unfold k8s_discover. destruct (pods_addrs cfg l) as [r'|] eqn:E; [|done]. intros [= <-]. exists r'. split; [done|].
  exact (pods_spec cfg l r' E).
Qed.

(** It returns if all pods have a specification, a status, ports for each container, and names if names are used. *)
Theorem C93_returns_partial cfg l : Forall (complete cfg) l -> exists r, k8s_discover cfg (Some l) = Value r.
Proof. intros H. unfold k8s_discover. destruct (complete_value cfg l H) as [r ->]. by eexists. Qed.

(** It panics if one pod with an address has a container that declares no ports, for instance a sidecar, whatever the
    other pods are. *)
Theorem C93_sidecar_refuted cfg l p spec ip c :
  kc_address cfg = PodIp -> p ∈ l -> pd_spec p = Some spec -> pd_status p = Some (Some ip) -> c ∈ ps_containers spec -> c_ports c = None ->
  k8s_discover cfg (Some l) = Panic.
Proof.
  intros Ha Hp Hs Hi Hc Hn. unfold k8s_discover. rewrite (pods_panic cfg l p Hp); [done|]. unfold pod_addrs. rewrite Hs, Hi, Ha.
  exact (containers_panic cfg ip _ c Hc Hn).
Qed.

(** With names in use it panics if one pod has none, for instance a pod of a Deployment, whatever the others are. *)
Theorem C93_hostname_refuted cfg l p spec :
  kc_address cfg = Hostname -> p ∈ l -> pd_spec p = Some spec -> ps_subdomain spec = None -> k8s_discover cfg (Some l) = Panic.
Proof.
  intros Ha Hp Hs Hn. unfold k8s_discover. rewrite (pods_panic cfg l p Hp); [done|]. unfold pod_addrs. rewrite Hs, Ha.
  destruct (pd_status p); [|done]. destruct (ps_hostname spec); [|done]. by rewrite Hn.
Qed.

(** An error of the API server is not told from an empty list. *)
Theorem C93_error_refuted cfg : k8s_discover cfg None = k8s_discover cfg (Some []).
Proof. done. Qed.

(** Names are used exactly if the variable says "hostname", each letter small or large. *)
Definition either_case (c : ascii) (p : ascii * ascii) : Prop := c = p.1 \/ c = p.2.
Lemma lower_is c :
  (lower c = "h"%char <-> either_case c ("h", "H")%char) /\ (lower c = "o"%char <-> either_case c ("o", "O")%char) /\
  (lower c = "s"%char <-> either_case c ("s", "S")%char) /\ (lower c = "t"%char <-> either_case c ("t", "T")%char) /\
  (lower c = "n"%char <-> either_case c ("n", "N")%char) /\ (lower c = "a"%char <-> either_case c ("a", "A")%char) /\
  (lower c = "m"%char <-> either_case c ("m", "M")%char) /\ (lower c = "e"%char <-> either_case c ("e", "E")%char).
Proof.
  unfold either_case. 
  destruct c as [[] [] [] [] [] [] [] []]; vm_compute; repeat split; (intros H; first [discriminate H|destruct H; discriminate|by auto]).
Qed.

Lemma lowercase_cons s c w :
  lowercase s = String c w <-> exists d s', s = String d s' /\ lower d = c /\ lowercase s' = w.
Proof.
  destruct s as [|d s']; cbn [lowercase]; [split; [done|by intros (? & ? & ? & _)]|]. split.
  - intros [= H1 H2]. by exists d, s'.
  - by intros (? & ? & [= <- <-] & -> & ->).
Qed.

Theorem C93_mode e :
  kc_address (default_config e) = Hostname <->
  exists s, e_addr_mode e = Some s /\
    Forall2 either_case (list_ascii_of_string s)
      (zip (list_ascii_of_string "hostname") (list_ascii_of_string "HOSTNAME")).
Proof.
  unfold default_config. cbn [kc_address]. destruct (e_addr_mode e) as [s|]; [|split; [done|by intros (? & ? & _)]].
  trans (lowercase s = "hostname").
  { destruct (String.eqb_spec (lowercase s) "hostname"); by split. }
  trans (Forall2 either_case (list_ascii_of_string s)
      (zip (list_ascii_of_string "hostname") (list_ascii_of_string "HOSTNAME"))).
  2: { split; [by exists s|]. by intros (? & [= <-] & ?). }
  cbn [list_ascii_of_string zip zip_with]. split.
  - intros H. do 8 (apply lowercase_cons in H as (? & ? & -> & ? & H); cbn [list_ascii_of_string]; constructor; [by apply lower_is|]).
    match type of H with lowercase ?w = _ => destruct w; [constructor|done] end.
  - intros H.
    do 8 (destruct s as [|? s]; cbn [list_ascii_of_string] in H; [by inversion H|]; apply Forall2_cons in H as [? H]).
    destruct s; [|by inversion H]. cbn [lowercase]. do 8 (apply (f_equal2 String); [by apply lower_is|]). done.
Qed.

Example C93_mode_case :
  kc_address (default_config (Env None None None None None (Some "HoStNAmE"))) = Hostname /\
  kc_address (default_config (Env None None None None None (Some "host"))) = PodIp.
Proof. split; vm_compute; reflexivity. Qed.

Definition a_port : cport := CPort (Some "coerce") 31101.
Definition a_pod (ip : option string) : pod :=
  Pod (Some (PodSpec None None [Container (Some [CPort None 80; CPort (Some "http") 8080; a_port])])) (Some ip).
Definition a_sidecar : pod := Pod (Some (PodSpec None None [Container (Some [a_port]); Container None])) (Some (Some "10.0.0.9")).
Definition an_env (name : string) : env := Env (Some "10.96.0.1") (Some name) (Some "10.0.0.1") None None None.
Definition a_config : chat_config := ChatConfig 7 (Some "localhost:1") (Some 31101%N).

Example C93_case :
  let cfg := default_config (an_env "chat-0") in
  Forall (complete cfg) [a_pod (Some "10.0.0.1"); a_pod None; a_pod (Some "10.0.0.2")] /\
  k8s_discover cfg (Some [a_pod (Some "10.0.0.1"); a_pod None; a_pod (Some "10.0.0.2")]) = Value (Some ["10.0.0.1:31101"; "10.0.0.2:31101"]) /\
  k8s_discover cfg (Some [a_pod (Some "10.0.0.1"); a_sidecar]) = Panic /\
  default_config (Env None None None (Some "app=x") None (Some "HostName")) = K8sConfig (Some "app=x") (Some "coerce") Hostname.
Proof.
  cbn zeta. split; [|split; [|split]; vm_compute; reflexivity].
  repeat (apply Forall_cons; split; [unfold complete; do 2 eexists; split; [reflexivity|]; split; [reflexivity|]; split; [by vm_compute|];
    apply Forall_cons; split; [done|constructor]|]). constructor.
Qed.

(** ** C94 *)

(** The pods of a StatefulSet, named after it and their numbers, get their numbers as node ids: no two the same. *)
Theorem C94_ordinals e c v base n i :
  (n < 18446744073709551616)%N -> is_Some (e_k8s e) -> e_pod_name e = Some (base ++ "-" ++ show_u n) ->
  get_node_info e c v = Value i -> ni_id i = n /\ ni_tag i = base ++ "-" ++ show_u n.
Proof.
  intros Hn [k Hk] Hp H. unfold get_node_info in H. rewrite Hk, Hp in H. destruct (e_cluster_ip e); [|done].
  destruct (k8s_discover (default_config e) v) as [t|]; [|done]. rewrite (ordinal base n Hn) in H.
  destruct (cf_port c); [|done]. by injection H as <-.
Qed.

Theorem C94_distinct_partial e1 e2 c1 c2 v1 v2 base n1 n2 i1 i2 :
  (n1 < 18446744073709551616)%N -> (n2 < 18446744073709551616)%N -> is_Some (e_k8s e1) -> is_Some (e_k8s e2) ->
  e_pod_name e1 = Some (base ++ "-" ++ show_u n1) -> e_pod_name e2 = Some (base ++ "-" ++ show_u n2) ->
  get_node_info e1 c1 v1 = Value i1 -> get_node_info e2 c2 v2 = Value i2 -> n1 <> n2 -> ni_id i1 <> ni_id i2.
Proof.
  intros H1 H2 K1 K2 P1 P2 I1 I2 Hne. destruct (C94_ordinals e1 c1 v1 base n1 i1 H1 K1 P1 I1) as [-> _].
  by destruct (C94_ordinals e2 c2 v2 base n2 i2 H2 K2 P2 I2) as [-> _].
Qed.

(** All pods whose names do not end in a number, as those of a Deployment, get the one id of the configuration. *)
Theorem C94_deployment_refuted :
  exists e1 e2 c v i1 i2, e_pod_name e1 <> e_pod_name e2 /\ get_node_info e1 c v = Value i1 /\ get_node_info e2 c v = Value i2 /\
    ni_id i1 = ni_id i2 /\ ni_tag i1 = ni_tag i2.
Proof.
  exists (an_env "chat-7d9f8c6b5-x2x7k"), (an_env "chat-7d9f8c6b5-q9zlw"), a_config, (Some [a_pod (Some "10.0.0.1")]).
  do 2 eexists. split; [done|]. split; [vm_compute; reflexivity|]. split; [vm_compute; reflexivity|]. split; reflexivity.
Qed.

(** And some of them get whatever number their random names end in. *)
Example C94_case :
  get_node_info (an_env "chat-12") a_config (Some [a_pod None; a_pod (Some "10.0.0.1")]) =
    Value (NodeInfo (Some "10.0.0.1:31101") 12 "chat-12" (Some "10.0.0.1:31101")) /\
  get_node_info (an_env "chat-7d9f8c6b5-44825") a_config None =
    Value (NodeInfo (Some "localhost:1") 44825 "chat-7d9f8c6b5-44825" (Some "10.0.0.1:31101")) /\
  get_node_info (an_env "chat-7d9f8c6b5-x2x7k") a_config (Some []) = Value (NodeInfo (Some "localhost:1") 7 "chat-server-7" None) /\
  "chat-12" = "chat" ++ "-" ++ show_u 12.
Proof. repeat split; vm_compute; reflexivity. Qed.

(** ** C95 *)

(** If every node finds the same first address, and it is that of one of them, they become one cluster: when all
    handshakes have been handled, every node knows every other. *)
Theorem C95_one_cluster_partial e c view addr ops h f :
  mruns mesh_init ops = Some h -> forallb smooth ops = true -> settled h ->
  follows (fun x => get_node_info (e x) (c x) (Some (view x))) addr ops ->
  (forall x, addr x = addr f -> x = f) ->
  (forall x, started ops x -> is_Some (e_k8s (e x)) /\ first_address (default_config (e x)) (view x) (addr f)) ->
  forall x y, started ops x -> started ops y -> knows h x y.
Proof.
  intros E Hs Hset Hf Hinj Hv x y Hx Hy.
  assert (Hseed : forall z, started ops z -> seeded ops z f).
  { intros z Hz. destruct (Hf z Hz) as (i & Hi & _ & H2). destruct (Hv z Hz) as [Hk Ha].
    destruct (H2 _ (info_seed _ _ _ _ _ Hk Hi Ha)) as (s & Hs' & Ea). by rewrite (Hinj s Ea) in Hs'. }
  refine (proj1 (C60_full_mesh_partial ops h x y E Hs Hset _ Hx)). unfold joined. trans f.
  - apply rtc_once. left. by apply Hseed.
  - apply rtc_once. right. by apply Hseed.
Qed.

(** Whatever else happens, nodes that are not connected by seeds never know each other. *)
Theorem C95_only_joined ops h x y : mruns mesh_init ops = Some h -> honest mesh_init ops -> knows h x y -> joined ops x y.
Proof. exact (only_joined ops h x y). Qed.

(** Hence a pod that is the first of its own list, and that no other pod finds first, stays alone, in every history:
    it takes itself for its seed. *)
Theorem C95_first_alone_refuted e c view addr ops h x :
  mruns mesh_init ops = Some h -> honest mesh_init ops ->
  follows (fun x => get_node_info (e x) (c x) (Some (view x))) addr ops ->
  (forall s, addr s = addr x -> s = x) ->
  (forall z, started ops z -> is_Some (e_k8s (e z))) ->
  first_address (default_config (e x)) (view x) (addr x) ->
  (forall z, started ops z -> z <> x -> exists a, first_address (default_config (e z)) (view z) a /\ a <> addr x) ->
  forall y, knows h x y -> y = x.
Proof.
  intros E Hh Hf Hinj Hk Hx Hz y Hy.
  pose proof (C60_only_started ops h x y E Hy) as [Hsx _].
  pose proof (only_joined ops h x y E Hh Hy) as Hj.
  assert (G : forall a b, rtsc (seeded ops) a b -> a = x -> b = x).
  { intros a b Hab. induction Hab as [|a b d Hab _ IH]; [done|]. intros ->. apply IH. destruct Hab as [Hab|Hab].
    - destruct (Hf x Hsx) as (i & Hi & H1 & _). specialize (H1 b Hab). rewrite (info_seed _ _ _ _ _ (Hk x Hsx) Hi Hx) in H1.
      injection H1 as H1. by apply Hinj.
    - destruct (decide (b = x)) as [|Hne]; [done|]. exfalso. pose proof (seeded_started ops h b x E Hab) as Hsb.
      destruct (Hz b Hsb Hne) as (a & Ha & Hna). destruct (Hf b Hsb) as (i & Hi & H1 & _). specialize (H1 x Hab).
      rewrite (info_seed _ _ _ _ _ (Hk b Hsb) Hi Ha) in H1. injection H1 as H1. done. }
  by apply (G x y).
Qed.

(** *** Histories *)

Definition ip_of (x : N) : string := "10.0.0." ++ show_u x.
Definition addr_of (x : N) : string := ip_of x ++ ":31101".

Lemma first_here ip rest : first_address (default_config (an_env "chat-0")) (a_pod (Some ip) :: rest) (ip ++ ":31101").
Proof.
  assert (Hp : pod_addrs (default_config (an_env "chat-0")) (a_pod (Some ip)) = Value [ip ++ ":31101"]) by done.
  exists [], (a_pod (Some ip)), rest. split; [done|]. split; [|split].
  - apply (pod_spec_of _ _ _ Hp). left.
  - intros b Hb. apply (pod_spec_of _ _ _ Hp) in Hb. by apply elem_of_list_singleton in Hb.
  - intros q b Hq. by apply elem_of_nil in Hq.
Qed.

(** The first pod runs before the others look: one cluster. *)
Definition good_view (x : N) : list pod :=
  match x with 1 => [a_pod (Some "10.0.0.1"); a_pod None] | _ => [a_pod (Some "10.0.0.1"); a_pod (Some "10.0.0.2"); a_pod None] end%N.
Definition good_ops : list mop := [MStart 1; MSeed 1 1 [1]; MStart 2; MSeed 2 1 [1]; MHandle 0 [2] []; MHandle 0 [1] []]%N.
Definition starts (ops : list mop) : list N := omap (fun o => match o with MStart x => Some x | _ => None end) ops.
Definition seedings (ops : list mop) : list (N * N) := omap (fun o => match o with MSeed x s _ => Some (x, s) | _ => None end) ops.
Lemma starts_in ops x : started ops x -> x ∈ starts ops.
Proof. intros H. apply elem_of_list_omap. by exists (MStart x). Qed.
Lemma seedings_in ops x s : seeded ops x s <-> (x, s) ∈ seedings ops.
Proof.
  split.
  - intros (l & Hl). apply elem_of_list_omap. by exists (MSeed x s l).
  - intros H. apply elem_of_list_omap in H as (o & Ho & E). destruct o; try discriminate E. injection E as -> ->. by eexists.
Qed.
Definition knowsb (h : mesh) (x y : N) : bool :=
  match h_nodes h !! x with Some m => bool_decide (y ∈ m_known m) | None => false end.
Lemma knowsb_spec h x y : knows h x y <-> knowsb h x y = true.
Proof.
  unfold knows, knowsb. destruct (h_nodes h !! x) as [m|].
  - rewrite bool_decide_eq_true. split; [by intros (m' & [= ->] & H)|by exists m].
  - split; [by intros (m' & [=] & _)|done].
Qed.

Example C95_case :
  exists h, mruns mesh_init good_ops = Some h /\ forallb smooth good_ops = true /\ settled h /\
  follows (fun x => get_node_info (an_env "chat-0") a_config (Some (good_view x))) addr_of good_ops /\
  (forall x, started good_ops x -> first_address (default_config (an_env "chat-0")) (good_view x) (addr_of 1)) /\
  knows h 1 2 /\ knows h 2 1.
Proof.
  assert (C : match mruns mesh_init good_ops with
    Some h => match h_flight h with [] => true | _ => false end && knowsb h 1 2 && knowsb h 2 1 | None => false end = true)
    by (vm_compute; reflexivity).
  destruct (mruns mesh_init good_ops) as [h|]; [|discriminate C].
  apply andb_true_iff in C as [C C21]. apply andb_true_iff in C as [C C12].
  exists h. split; [done|]. split; [reflexivity|]. split; [unfold settled; by destruct (h_flight h)|].
  assert (Hst : forall x, started good_ops x -> x = 1%N \/ x = 2%N).
  { intros x Hx. apply starts_in in Hx. change (starts good_ops) with [1%N; 2%N] in Hx.
    apply elem_of_cons in Hx as [->|Hx]; [by left|]. right. by apply elem_of_list_singleton in Hx. }
  assert (Hse : forall x s, seeded good_ops x s -> s = 1%N).
  { intros x s Hx. apply seedings_in in Hx. change (seedings good_ops) with [(1%N, 1%N); (2%N, 1%N)] in Hx.
    apply elem_of_cons in Hx as [Hx|Hx]; [congruence|]. apply elem_of_list_singleton in Hx. congruence. }
  split; [|split; [|split]].
  - intros x Hx. assert (Hi : exists i, get_node_info (an_env "chat-0") a_config (Some (good_view x)) = Value i /\ ni_seed i = Some (addr_of 1)).
    { destruct (Hst x Hx) as [->| ->]; eexists; split; vm_compute; reflexivity. }
    destruct Hi as (i & Hi & Hseed). exists i. split; [exact Hi|]. rewrite Hseed. split.
    + intros s Hs. by rewrite (Hse x s Hs).
    + intros a Ha. injection Ha as <-. exists 1%N. split; [|done]. apply seedings_in.
      change (seedings good_ops) with [(1%N, 1%N); (2%N, 1%N)]. destruct (Hst x Hx) as [->| ->]; [left|right; left].
  - intros x Hx. destruct (Hst x Hx) as [->| ->]; exact (first_here "10.0.0.1" _).
  - by apply knowsb_spec.
  - by apply knowsb_spec.
Qed.

(** The first pod is started again, with a new address: it finds itself first, asks itself, and is alone; the others
    know only its former incarnation. *)
Definition bad_view (x : N) : list pod :=
  match x with
  | 1 => [a_pod (Some "10.0.0.1"); a_pod None]
  | 2 => [a_pod (Some "10.0.0.1"); a_pod (Some "10.0.0.2")]
  | _ => [a_pod (Some "10.0.0.3"); a_pod (Some "10.0.0.2")]
  end%N.
Definition bad_ops : list mop := good_ops ++ [MGone 2 1; MStart 3; MSeed 3 3 [3]]%N.
Theorem C95_restart_refuted :
  exists h, mruns mesh_init bad_ops = Some h /\ honest mesh_init bad_ops /\ settled h /\
  follows (fun x => get_node_info (an_env "chat-0") a_config (Some (bad_view x))) addr_of bad_ops /\
  (forall y, knows h 3 y -> y = 3%N) /\ (forall y, knows h y 3 -> y = 3%N).
Proof.
  assert (C : match mruns mesh_init bad_ops with
    Some h => match h_flight h with [] => true | _ => false end &&
      forallb (fun y => negb (knowsb h 3 y) && negb (knowsb h y 3)) [1; 2]%N | None => false end = true) by (vm_compute; reflexivity).
  destruct (mruns mesh_init bad_ops) as [h|] eqn:E; [|discriminate C].
  apply andb_true_iff in C as [C1 C2]. rewrite forallb_forall in C2.
  exists h. split; [done|].
  assert (Hst : forall x, started bad_ops x -> x = 1%N \/ x = 2%N \/ x = 3%N).
  { intros x Hx. apply starts_in in Hx. change (starts bad_ops) with [1%N; 2%N; 3%N] in Hx.
    apply elem_of_cons in Hx as [->|Hx]; [by left|]. apply elem_of_cons in Hx as [->|Hx]; [by right; left|].
    right; right. by apply elem_of_list_singleton in Hx. }
  assert (Hse : forall x s, seeded bad_ops x s -> s = (if (x =? 3)%N then 3%N else 1%N)).
  { intros x s Hx. apply seedings_in in Hx. change (seedings bad_ops) with [(1%N, 1%N); (2%N, 1%N); (3%N, 3%N)] in Hx.
    apply elem_of_cons in Hx as [Hx|Hx]; [by injection Hx as -> ->|]. apply elem_of_cons in Hx as [Hx|Hx]; [by injection Hx as -> ->|].
    apply elem_of_list_singleton in Hx. by injection Hx as -> ->. }
  assert (Hh : honest mesh_init bad_ops).
  { unfold bad_ops, good_ops. cbn [app honest].
    repeat (split; [first [exact I | intros n Hn; apply elem_of_list_singleton in Hn as ->; apply rtc_refl]|]; intros ? _).
    exact I. }
  split; [exact Hh|].
  split; [unfold settled; by destruct (h_flight h)|]. split; [|split].
  - intros x Hx.
    assert (Hi : exists i, get_node_info (an_env "chat-0") a_config (Some (bad_view x)) = Value i /\
      ni_seed i = Some (addr_of (if (x =? 3)%N then 3%N else 1%N))).
    { destruct (Hst x Hx) as [->|[->| ->]]; eexists; split; vm_compute; reflexivity. }
    destruct Hi as (i & Hi & Hseed). exists i. split; [exact Hi|]. rewrite Hseed. split.
    + intros s Hs. by rewrite (Hse x s Hs).
    + intros a Ha. injection Ha as <-. eexists. split; [|reflexivity]. apply seedings_in.
      change (seedings bad_ops) with [(1%N, 1%N); (2%N, 1%N); (3%N, 3%N)].
      destruct (Hst x Hx) as [->|[->| ->]]; [left|right; left|right; right; left].
  - intros y Hy. destruct (C60_only_started bad_ops h 3 y E Hy) as [_ Hs]. apply knowsb_spec in Hy.
    assert (Hc : y = 3%N \/ In y [1; 2]%N) by (destruct (Hst y Hs) as [->|[->| ->]]; cbn; tauto).
    destruct Hc as [|Hc]; [done|]. specialize (C2 y Hc). rewrite Hy in C2. by rewrite ?andb_false_r in C2.
  - intros y Hy. destruct (C60_only_started bad_ops h y 3 E Hy) as [Hs _]. apply knowsb_spec in Hy.
    assert (Hc : y = 3%N \/ In y [1; 2]%N) by (destruct (Hst y Hs) as [->|[->| ->]]; cbn; tauto).
    destruct Hc as [|Hc]; [done|]. specialize (C2 y Hc). rewrite Hy in C2. by rewrite ?andb_false_r in C2.
Qed.

Print Assumptions C93_mode.
Print Assumptions C93_addresses.
Print Assumptions C93_returns_partial.
Print Assumptions C93_sidecar_refuted.
Print Assumptions C93_hostname_refuted.
Print Assumptions C93_error_refuted.
Print Assumptions C94_ordinals.
Print Assumptions C94_distinct_partial.
Print Assumptions C94_deployment_refuted.
Print Assumptions C95_one_cluster_partial.
Print Assumptions C95_only_joined.
Print Assumptions C95_first_alone_refuted.
Print Assumptions C95_restart_refuted.
