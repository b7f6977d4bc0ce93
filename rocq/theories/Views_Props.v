(** Properties C99 to C101: the list of nodes, the list of actors, and the HTTP server. *)
From Verif Require Import Views_Model Views_Spec Views_Proofs Views_Proofs2 Views_Proofs3 Nodes_Spec Heart_Spec Heart_Proofs.
From Verif Require ActorSys_Props.
Local Open Scope string_scope.
Local Open Scope list_scope.
Local Open Scope N_scope.

(** * C99 *)
Section nodes.
Variable min_date max_date max_duration : Z.
Variable cf : hconfig.
Context {C : Type}.
Variable rhash : N -> string -> string -> option Z -> N.
Variable search : list N -> N -> nat.
Variable self : N.
Notation hrun := (hrun min_date max_date max_duration cf (C := C) rhash search self).
Notation new_heart := (new_heart (C := C) rhash self).

(** Every node the registry knows is listed, as it is known, once, in ascending order of ids. *)
Theorem C99_nodes b l h tag leader ord : hrun (new_heart b) l = Some h ->
  let doc := get_nodes self tag leader ord (h_store h) in
  ascending (cn_nodes doc) /\ forall s, s ∈ cn_nodes doc <-> record (h_store h) (s_id s) = Some s.
Proof.
  intros H doc. assert (Hk : Nodes_Proofs.keyed (h_store h)) by (by eapply keyed_hrun).
  split; [by apply nodes_ascending|]. intros s. by apply nodes_listed.
Qed.

(** The answer does not depend on the order of the registry's table. *)
Theorem C99_same b l h tag leader ord ord' : hrun (new_heart b) l = Some h ->
  get_nodes self tag leader ord (h_store h) = get_nodes self tag leader ord' (h_store h).
Proof.
  intros H. assert (Hk : Nodes_Proofs.keyed (h_store h)) by (by eapply keyed_hrun).
  unfold get_nodes. pose proof (nodes_same ord ord' _ Hk) as E. unfold sorted_nodes in E. by rewrite E.
Qed.

(** If the answer names another node as leader, that node is listed and its tag is given, even if
    heartbeats and registrations come between the two readings. *)
Theorem C99_leader b l1 l2 h1 h2 n tag ord : self < 2 ^ 64 ->
  (forall m, is_Some (record (h_store h1) m) -> m < 2 ^ 64) ->
  Forall no_removal (l1 ++ l2) -> hrun (new_heart b) l1 = Some h1 -> hrun h1 l2 = Some h2 ->
  let doc := get_nodes self tag (current_leader h1) ord (h_store h2) in
  cn_leader doc = Some n -> n <> self ->
  exists s, s ∈ cn_nodes doc /\ s_id s = n /\ cn_leader_tag doc = Some (r_tag (s_node s)).
Proof.
  intros Hself Hids Hl H1 H2 doc Hn Hne.
  edestruct (leader_listed min_date max_date max_duration cf rhash search self b l1 l2 h1 h2 n tag ord) as (s & Hs & Hid & Ht); try done.
  exists s. split; [|done]. assert (Hk1 : Nodes_Proofs.keyed (h_store h1)) by (by eapply keyed_hrun).
  assert (Hk : Nodes_Proofs.keyed (h_store h2)) by (by eapply hrun_keyed_from).
  apply nodes_listed; [done|]. by rewrite Hid.
Qed.
(** If it names this node, its own tag is given. *)
Theorem C99_leader_self tag ord d leader : cn_leader (get_nodes self tag leader ord d) = Some self ->
  cn_leader_tag (get_nodes self tag leader ord d) = Some tag.
Proof. cbn [get_nodes cn_leader cn_leader_tag]. intros ->. by rewrite decide_True. Qed.
(** Without leader, no tag. *)
Theorem C99_no_leader tag ord d : cn_leader_tag (get_nodes self tag None ord d) = None.
Proof.
  cbn [get_nodes cn_leader_tag]. rewrite decide_False by done. destruct (find _ _) as [x|] eqn:E; [|done].
  apply find_some in E as [_ E%bool_decide_eq_true]. done.
Qed.
End nodes.
Print Assumptions C99_nodes.
Print Assumptions C99_same.
Print Assumptions C99_leader.
Print Assumptions C99_leader_self.
Print Assumptions C99_no_leader.

(** Node 7, whose peers 9 and 3 are registered in this order; 3 is the oldest. A fourth node
    registers between the two readings. *)
Definition ex_node (n : N) (tag : string) (started : Z) : rnode := RNode n "addr" tag (Some started) ∅.
Definition ex_run := hrun 0 1000000 1000000 (HConfig 100 1000 None) (C := N) (fun n _ _ _ => n) (fun _ _ => 0%nat) 7.
Definition ex_before : list (hop N) :=
  [HRegistry (DAdd [] (ex_node 7 "seven" 50)); HRegistry (DAdd [] (ex_node 9 "nine" 70)); HRegistry (DAdd [] (ex_node 3 "three" 10));
   HPing 9 (POk 5 1000); HPing 3 (POk 5 1000); HTick [] (fun _ => 1010%Z) []; HTick [9; 7] (fun _ => 1020%Z) []].
Definition ex_between : list (hop N) := [HRegistry (DAdd [] (ex_node 5 "five" 90)); HTick [] (fun _ => 1030%Z) []].
Example C99_case :
  match h1 ← ex_run (new_heart (fun n _ _ _ => n) 7 false) ex_before; h2 ← ex_run h1 ex_between; Some (h1, h2) with
  | Some (h1, h2) =>
      let doc := get_nodes 7 "seven" (current_leader h1) [9; 3] (h_store h2) in
      bool_decide (cn_leader doc = Some 3) && bool_decide (cn_leader_tag doc = Some "three") &&
      bool_decide ((fun s => (s_id s, r_tag (s_node s), s_status s)) <$> cn_nodes doc =
                   [(3, "three", Healthy); (5, "five", Joining); (7, "seven", Healthy); (9, "nine", Healthy)])
  | None => false
  end = true /\ Forall no_removal (ex_before ++ ex_between).
Proof. split; [by vm_compute|]. repeat constructor. Qed.

(** * C100 *)
Import ActorSys_Model.
Local Open Scope list_scope.
Local Open Scope N_scope.

(** Whatever way a query is written, the request is served with the options it asks for, and
    refused if it asks for none: the limits and the switch are given at most once, by numbers below
    2^64 and by "true" or "false"; other parameters do not matter. The exception is the time
    limit, below. *)
Theorem C100_options_partial ps q w top : spelled_query ps q ->
  (forall o, asks ps o -> get_actors w top q = Document (map (view w) (describe_top o top))) /\
  ((forall o, ~ asks ps o) -> get_actors w top q = BadRequest).
Proof.
  intros Hq. unfold get_actors. split.
  - intros o Ho. apply (query_options ps q o Hq) in Ho as (g & -> & <-). done.
  - intros Hno. destruct (read_query q) as [g|] eqn:E; [|done].
    destruct (Hno (to_options g)). apply (query_options ps q _ Hq). by exists g.
Qed.
Print Assumptions C100_options_partial.

(** Every list of parameters can be written. *)
Theorem C100_written ps : Forall (fun kv => is_bytes kv.1 /\ is_bytes kv.2) ps -> exists q, spelled_query ps q.
Proof. exact (spelled_query_all ps). Qed.
Print Assumptions C100_written.

(** A request that gives a time limit is refused, whatever the limit. *)
Theorem C100_timeout_refuted ps q v w top : spelled_query ps q -> (text "child_describe_timeout", v) ∈ ps ->
  get_actors w top q = BadRequest.
Proof.
  intros Hq Hv. apply (C100_options_partial ps q w top Hq). intros o (_ & _ & H & _).
  assert (Hin : v ∈ given "child_describe_timeout" ps); [|by rewrite H in Hin; apply elem_of_nil in Hin].
  unfold given. apply elem_of_list_fmap. exists (text "child_describe_timeout", v). split; [done|].
  by apply elem_of_list_filter.
Qed.
Print Assumptions C100_timeout_refuted.

(** The answer has a tree for each top-level actor, in which no more generations are shown than
    asked for (but the first always), *)
Theorem C100_depth ps q o m w top es : spelled_query ps q -> asks ps o -> max_depth o = Some m ->
  get_actors w top q = Document es -> length es = length top /\ Forall (fun e => (levels e <= Nat.max 1 m)%nat) es.
Proof.
  intros Hq Ho Hm. rewrite (proj1 (C100_options_partial ps q w top Hq) o Ho). intros [= <-].
  unfold describe_top. rewrite !map_length. split; [done|]. rewrite map_map. apply Forall_fmap, Forall_true. intros t.
  pose proof (listed_levels o m t Hm (describe_timeout 0) 1 w) as H. replace (S m - 1)%nat with m in H by lia. exact H.
Qed.
Print Assumptions C100_depth.
(** no actor has more children than asked for, *)
Theorem C100_children ps q o n w top es : spelled_query ps q -> asks ps o -> max_children o = Some n ->
  get_actors w top q = Document es -> Forall (narrow n) es.
Proof.
  intros Hq Ho Hn. rewrite (proj1 (C100_options_partial ps q w top Hq) o Ho). intros [= <-].
  unfold describe_top. rewrite map_map. apply Forall_fmap, Forall_true. intros t.
  apply (listed_narrow o n t Hn _ 1 w).
Qed.
Print Assumptions C100_children.
(** and the paths are those of actors of the tree, each at most once and parents first; without
    attached children if so asked. *)
Theorem C100_paths ps q o w top es : spelled_query ps q -> asks ps o -> get_actors w top q = Document es ->
  Forall2 (fun e t => fst <$> lines e `sublist_of` paths (describe_attached o) w t) es top.
Proof.
  intros Hq Ho. rewrite (proj1 (C100_options_partial ps q w top Hq) o Ho). intros [= <-].
  unfold describe_top. rewrite map_map. induction top as [|t top IH]; [constructor|]. constructor; [|done].
  apply (listed_paths o t _ 1 w).
Qed.
Print Assumptions C100_paths.
(** Without limits, and if nobody takes more than five seconds, counted along each branch,
    everybody is shown, with the right status. *)
Theorem C100_complete ps q o w top es : spelled_query ps q -> asks ps o -> unlimited o ->
  Forall (fun t => exists m, ActorSys_Spec.path_delay t = Some m /\ (m <= 5000)%N) top ->
  get_actors w top q = Document es -> lines <$> es = shown w <$> top.
Proof.
  intros Hq Ho Hu Ht. rewrite (proj1 (C100_options_partial ps q w top Hq) o Ho). intros [= <-].
  unfold describe_top. rewrite map_map. induction Ht as [|t top (m & Hm & Hle) _ IH]; [done|].
  cbn [map fmap list_fmap]. f_equal; [|done]. apply (listed_complete o t m _ 1 w); [done|done|done|].
  cbn. lia.
Qed.
Print Assumptions C100_complete.

Lemma sublist_once {A} (l k : list A) : sublist l k -> NoDup k -> NoDup l.
Proof.
  induction 1 as [|x l k H IH|x l k H IH]; intros Hk; [done| |].
  - apply NoDup_cons in Hk as [Hx Hk]. apply NoDup_cons. split; [|by apply IH]. intros Hl. apply Hx.
    eapply elem_of_submseteq; [exact Hl|]. by apply sublist_submseteq.
  - apply NoDup_cons in Hk as [_ Hk]. by apply IH.
Qed.
(** Nobody is listed twice if the trees of the top-level actors do not overlap; they do not if
    attached children are left out, as an actor is spawned by one parent. *)
Theorem C100_once_partial ps q o w top es : spelled_query ps q -> asks ps o -> get_actors w top q = Document es ->
  NoDup (concat (paths (describe_attached o) w <$> top)) -> NoDup (concat ((fun e => fst <$> lines e) <$> es)).
Proof.
  intros Hq Ho Hg Hnd. pose proof (C100_paths ps q o w top es Hq Ho Hg) as H.
  eapply sublist_once; [|exact Hnd]. clear -H.
  induction H as [|e t es top Hs _ IH]; [done|]. cbn [fmap list_fmap concat]. by apply sublist_app.
Qed.
Print Assumptions C100_once_partial.
(** A tracked actor that is attached to another one, as shards are to their host, is listed twice
    unless the request says otherwise (sharding/host/mod.rs:203-207). *)
Theorem C100_once_refuted w host shard :
  get_actors w [Tree host false (Handles 0) [Tree shard true (Handles 0) []]; Tree shard false (Handles 0) []] [] =
  Document [Entry (w host).1 (full_path w host) StOk [Entry (w shard).1 (full_path w shard) StOk []];
            Entry (w shard).1 (full_path w shard) StOk []].
Proof. reflexivity. Qed.
Print Assumptions C100_once_refuted.

(** "max_depth=2&x=%2f&child_describe_attached=false" *)
Definition ex_query : bytes := text "max_depth=%32&&x=a=%2fb+c&child_describe_attached=false".
Definition ex_params : list (bytes * bytes) :=
  [(text "max_depth", text "2"); (text "x", text "a=/b c"); (text "child_describe_attached", text "false")].
Definition ex_options : options := Options (Some 2%nat) None false.
Ltac spell_plain := repeat (apply SpPlain; [done|done|done|done|]).
Example C100_spelled : spelled_query ex_params ex_query.
Proof.
  apply (SqCons _ (text "max_depth=%32")).
  { apply (SpPair _ _ (text "max_depth") (text "%32")); [spell_plain; constructor|].
    apply (SpHex false 51 50 3 2 [] []); [by apply (HexDec 3)|by apply (HexDec 2)|constructor]. }
  apply SqAmp. apply (SqCons _ (text "x=a=%2fb+c")).
  { apply (SpPair _ _ (text "x") (text "a=%2fb+c")); [spell_plain; constructor|]. spell_plain.
    apply (SpHex false 50 102 2 15 (text "b c") (text "b+c")); [by apply (HexDec 2)|by apply (HexLower 5)|].
    spell_plain. apply SpSpace. spell_plain. constructor. }
  apply SqLast. apply (SpPair _ _ (text "child_describe_attached") (text "false")); spell_plain; constructor.
Qed.
Example C100_asked : asks ex_params ex_options.
Proof.
  split_and!.
  - exists (text "2"), 2. split_and!; [by vm_compute| |done|done]. left. by apply (DecOne 2).
  - by vm_compute.
  - by vm_compute.
  - by vm_compute.
Qed.
Local Instance astatus_eq_dec : EqDecision astatus.
Proof. solve_decision. Defined.
Definition ex_top : list tree := [ActorSys_Props.ex_tree2; Tree "scheduler" false Silent []].
(** Where the actors are: "a" was made by [new_supervised_actor], which does not put it below its parent. *)
Definition ex_where (k : string) : string * string :=
  (k, if bool_decide (k ∈ ["root"; "a"; "scheduler"]) then "sys" else "sys/root")%string.
Example C100_case :
  match get_actors ex_where ex_top ex_query with
  | Document es => bool_decide (lines <$> es =
      [[("sys/root", StOk); ("sys/a", StOk); ("sys/root/e", StErr); ("sys/root/f", StOk)]; [("sys/scheduler", StTimeout)]])
  | BadRequest => false
  end = true.
Proof. by vm_compute. Qed.
Example C100_once_case : NoDup (concat (paths (describe_attached ex_options) ex_where <$> ex_top)).
Proof. apply (bool_decide_unpack _). by vm_compute. Qed.
Example C100_refused :
  get_actors ex_where ex_top (text "child_describe_timeout=5") = BadRequest /\
  get_actors ex_where ex_top (text "max_depth=1&max_depth=1") = BadRequest /\
  get_actors ex_where ex_top (text "max_depth=-1") = BadRequest /\
  get_actors ex_where ex_top (text "max_depth=") = BadRequest.
Proof. by vm_compute. Qed.

(** * C101 *)
Section server.
Context {A : Type} `{EqDecision A}.
Variable valid : string -> bool.
Variable overlap : string -> string -> bool.
Notation astep := (astep (A := A) valid overlap).
Notation after l := ((run astep [] l).1).

(** If the routes do not overlap, and the address is free when the server's task runs, then every
    path is answered by the server, until it is stopped. *)
Theorem C101_served_partial l1 i v l2 p : after l1 !! i = Some v ->
  v_phase v = Pending -> v_stop v = false -> good_routes valid overlap (v_paths v) ->
  (forall w, w ∈ after l1 -> v_phase w = Serving -> v_addr w <> v_addr v) ->
  AStop i ∉ l2 -> p ∈ v_paths v ->
  served (after (l1 ++ ARun i false :: l2)) (v_addr v) p = Some i.
Proof.
  intros Hv Hp Hs Hg Hfree Hl Hin.
  apply served_spec; [apply one_each_run, empty_one_each|].
  assert (E : after (l1 ++ ARun i false :: l2) = (run astep (astep (after l1) (ARun i false)).1 l2).1).
  { rewrite run_app. destruct (run astep [] l1) as [s1 r1]. cbn [fst].
    rewrite <- run_cons_fst. by destruct (run astep s1 (ARun i false :: l2)). }
  rewrite E. set (s := after l1) in *.
  assert (H1 : (astep s (ARun i false)).1 !! i = Some (Server (v_addr v) (v_paths v) Serving (v_stop v))).
  { cbn [Views_Model.astep fst]. rewrite Hv, Hp. rewrite list_lookup_insert by (by eapply lookup_lt_Some).
    apply add_routes_good in Hg. rewrite Hg, Hs. cbn [andb negb].
    replace (existsb (serving_at (v_addr v)) s) with false; [done|]. symmetry. apply not_true_iff_false.
    intros (w & Hw & [Pw Aw]%serving_at_spec)%existsb_exists. apply elem_of_list_In in Hw. by apply (Hfree w). }
  destruct (stays_serving valid overlap l2 _ i _ H1 eq_refl Hl) as (v' & V1 & V2 & V3 & V4).
  exists v'. rewrite V3, V4. done.
Qed.

(** If two routes overlap, [start] returns all the same, and nobody ever answers. *)
Theorem C101_routes_refuted l1 a routes l2 p : ~ good_routes valid overlap (concat routes) ->
  exists i, (astep (after l1) (AStart (Some a) routes)).2 = RStarted i /\
  served (after (l1 ++ AStart (Some a) routes :: l2)) a p <> Some i.
Proof.
  intros Hg. exists (length (after l1)). split; [done|]. intros H. apply served_spec in H; [|apply one_each_run, empty_one_each].
  destruct H as (v & Hv & Hp & _).
  assert (E : after (l1 ++ AStart (Some a) routes :: l2) = (run astep (astep (after l1) (AStart (Some a) routes)).1 l2).1).
  { rewrite run_app. destruct (run astep [] l1) as [s1 r1]. cbn [fst].
    rewrite <- run_cons_fst. by destruct (run astep s1 (AStart (Some a) routes :: l2)). }
  rewrite E in Hv.
  destruct (bad_never valid overlap l2 (astep (after l1) (AStart (Some a) routes)).1 (length (after l1)) (Server a (concat routes) Pending false))
    as (v' & Hv' & Hn); [|done|done|congruence].
  cbn [Views_Model.astep fst]. rewrite lookup_app_r by lia. by rewrite Nat.sub_diag.
Qed.

(** The same if another program has the address; and in any case until the task has run. *)
Theorem C101_address_refuted l1 a routes l2 p : (forall i, ARun i false ∉ l2) ->
  exists i, (astep (after l1) (AStart (Some a) routes)).2 = RStarted i /\
  served (after (l1 ++ AStart (Some a) routes :: l2)) a p <> Some i.
Proof.
  intros Hl. exists (length (after l1)). split; [done|]. intros H. apply served_spec in H; [|apply one_each_run, empty_one_each].
  destruct H as (v & Hv & Hp & _).
  assert (E : after (l1 ++ AStart (Some a) routes :: l2) = (run astep (astep (after l1) (AStart (Some a) routes)).1 l2).1).
  { rewrite run_app. destruct (run astep [] l1) as [s1 r1]. cbn [fst].
    rewrite <- run_cons_fst. by destruct (run astep s1 (AStart (Some a) routes :: l2)). }
  rewrite E in Hv.
  destruct (waits_until_run valid overlap l2 (astep (after l1) (AStart (Some a) routes)).1 (length (after l1)) (Server a (concat routes) Pending false))
    as (v' & Hv' & Hn); [|done|done|congruence].
  cbn [Views_Model.astep fst]. rewrite lookup_app_r by lia. by rewrite Nat.sub_diag.
Qed.

(** Once stopped, a server never answers again. *)
Theorem C101_stopped l1 i v l2 a p : after l1 !! i = Some v -> served (after (l1 ++ AStop i :: l2)) a p <> Some i.
Proof.
  intros Hv H. apply served_spec in H; [|apply one_each_run, empty_one_each]. destruct H as (w & Hw & Hp & _).
  assert (E : after (l1 ++ AStop i :: l2) = (run astep (astep (after l1) (AStop i)).1 l2).1).
  { rewrite run_app. destruct (run astep [] l1) as [s1 r1]. cbn [fst].
    rewrite <- run_cons_fst. by destruct (run astep s1 (AStop i :: l2)). }
  rewrite E in Hw. destruct (server_step valid overlap (after l1) (AStop i) i v Hv) as (v1 & Hv1 & _ & _ & _ & _ & _ & _ & _ & _ & Hs).
  destruct (Hs eq_refl) as [S1 S2].
  destruct (stopped_never valid overlap l2 _ i v1 Hv1 S2 S1) as (v' & Hv' & Hn). congruence.
Qed.

(** At one address, at most one server answers. *)
Theorem C101_one l a p q i j : served (after l) a p = Some i -> served (after l) a q = Some j -> i = j.
Proof.
  assert (H1 : one_each (after l)) by apply one_each_run, empty_one_each.
  intros (v & V1 & V2 & V3 & _)%served_spec (w & W1 & W2 & W3 & _)%served_spec; [|done|done].
  eapply H1; [exact V1|exact W1|done|done|congruence].
Qed.
End server.
Print Assumptions C101_served_partial.
Print Assumptions C101_routes_refuted.
Print Assumptions C101_address_refuted.
Print Assumptions C101_stopped.
Print Assumptions C101_one.

Definition ex_valid (p : string) : bool := String.prefix "/" p.
Definition ex_server := astep (A := N) ex_valid String.eqb.
Example C101_case :
  let l := [AStart (Some 80) [["/health"; "/system/stats"]; ["/cluster/nodes"]]; AStart (Some 80) [["/x"]];
            AStart (Some 81) [["/health"]; ["/health"]]; ARun 0 false; ARun 1 false; ARun 2 false] in
  let s := (run ex_server [] l).1 in
  served s 80 "/cluster/nodes" = Some 0%nat /\ served s 80 "/x" = None /\ served s 81 "/health" = None /\
  served (run ex_server s [AStop 0; AStart (Some 80) [["/x"]]; ARun 3 false]).1 80 "/x" = Some 3%nat.
Proof. by vm_compute. Qed.
