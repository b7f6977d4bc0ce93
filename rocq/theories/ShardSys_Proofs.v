(** The invariant of orderly runs of a cluster. *)
From Verif Require Import ShardSys_Model ShardSys_Spec Coord_Spec Coord_Proofs Host_Spec ShardSys_Coord ShardSys_Host ShardSys_Inv.
Local Open Scope N_scope.

Section proofs.
Context {R : Type}.
Implicit Types (y : sys R) (p : packet R) (net : list (packet R)).

Definition proj_msg (mail : bool) (s n : N) (m : hmsg R) : option vpk :=
  match m with
  | MAllocated s' o => if s' =? s then Some (VAlloc mail n o) else None
  | MStop s' _ => if s' =? s then Some (VStop mail n) else None
  | MReady s' a => if s' =? s then Some (if mail then VReady n a else VOdd) else None
  | MStopped s' => if s' =? s then Some (if mail then VStopped n else VOdd) else None
  | MRequest _ _ | MReallocating _ => None
  end.
Definition proj (s : N) p : option vpk :=
  match p with
  | PSend n m => proj_msg false s n m
  | PMail n m => proj_msg true s n m
  | PStopTask n s' a req => if s' =? s then Some (match req with Some _ => VTask n a | None => VOdd end) else None
  | PNotifyStop n s' a => if s' =? s then Some VOdd else None
  | PMoved s' => if s' =? s then Some VMoved else None
  | PAsk _ _ | PTask _ _ _ _ => None
  end.
Definition pk (s : N) net : list vpk := omap (proj s) net.
Definition lvs (s : N) (live : list (N * N * N * bool)) : list (N * N * bool) :=
  omap (fun x : N * N * N * bool => if x.1.1.2 =? s then Some (x.1.1.1, x.1.2, x.2) else None) live.
Definition ents (hosts : gmap N (host R)) (s n : N) : option kind := hosts !! n ≫= fun h => hent h s.
Definition alive (hosts : gmap N (host R)) (n : N) : Prop := is_Some (hosts !! n).

Arguments pk : simpl never.
Arguments lvs : simpl never.

Record yinv y : Prop := {
  yi_coord : cwf (y_coord y);
  yi_hosts : forall n h, y_hosts y !! n = Some h -> hwf h /\ sh_node h = n;
  yi_shard : forall s, sinv (c_shards (y_coord y) !! s) (pk s (y_net y)) (ents (y_hosts y) s) (lvs s (y_live y)) (alive (y_hosts y));
}.

Lemma pk_app s l1 l2 : pk s (l1 ++ l2) = pk s l1 ++ pk s l2.
Proof using. apply omap_app. Qed.
Lemma pk_cons s p l : pk s (p :: l) = match proj s p with Some v => v :: pk s l | None => pk s l end.
Proof using. done. Qed.
Lemma lvs_app s l1 l2 : lvs s (l1 ++ l2) = lvs s l1 ++ lvs s l2.
Proof using. apply omap_app. Qed.
Lemma lvs_cons s n s' a f l : lvs s ((n, s', a, f) :: l) = if s' =? s then (n, a, f) :: lvs s l else lvs s l.
Proof using. unfold lvs. simpl. by destruct (s' =? s). Qed.
Lemma elem_pk s net v : v ∈ pk s net <-> exists p, p ∈ net /\ proj s p = Some v.
Proof using. apply elem_of_list_omap. Qed.
Lemma elem_lvs s live n a f : (n, a, f) ∈ lvs s live <-> (n, s, a, f) ∈ live.
Proof using.
  unfold lvs. rewrite elem_of_list_omap. split.
  - intros ([[[n' s'] a'] f'] & Hx & E). simpl in E. destruct (N.eqb_spec s' s) as [->|]; [|done]. by injection E as -> -> ->.
  - intros Hx. exists (n, s, a, f). simpl. by rewrite N.eqb_refl.
Qed.
Lemma remove_nth_split net i p : net !! i = Some p -> exists l1 l2, net = l1 ++ p :: l2 /\ remove_nth i net = l1 ++ l2.
Proof using. intros H. exists (take i net), (drop (S i) net). split; [|done]. symmetry. by apply take_drop_middle. Qed.

Definition vp_of_cev (e : cev) : list vpk :=
  match e with EvTell o ts => map (fun t => VAlloc false t o) ts | EvStop n => [VStop false n] end.
Lemma pk_coord_packets s self eff : forall id, pk s (coord_packets self id eff) = concat (map vp_of_cev (cevs s eff)).
Proof using.
  induction eff as [|e eff IH]; intros id; [done|]. destruct e as [x|x o ts|x ts|x n| |r]; simpl; try apply IH.
  - rewrite pk_app, IH. destruct (N.eqb_spec x s) as [->|Hne]; simpl.
    + f_equal. clear. induction ts as [|t ts IH]; [done|]. simpl. rewrite pk_cons. simpl. rewrite N.eqb_refl. by f_equal.
    + assert (pk s (map (fun t => PSend t (MAllocated x o)) ts) = []) as ->; [|done].
      clear -Hne. induction ts as [|t ts IH]; [done|]. simpl. rewrite pk_cons. simpl. by rewrite (proj2 (N.eqb_neq x s)).
  - rewrite pk_app, IH. assert (pk s (map (fun t => PSend t (MReallocating x)) ts) = []) as ->; [|done]. clear. by induction ts.
  - rewrite pk_cons. simpl. rewrite IH. by destruct (x =? s).
Qed.

Lemma answer_spec c s0 ps ord c' eff s o : cstep c (COAllocate s0 false ps ord) = Some (c', eff) ->
  CAnswer (Allocated s o) ∈ eff \/ CAnswer (AlreadyAllocated s o) ∈ eff -> c_shards c' !! s = Some o.
Proof using.
  cbn [cstep]. unfold on_allocate. destruct (c_shards c !! s0) as [k|] eqn:E.
  - intros [= <- <-]. intros [Hx|Hx]; apply elem_of_list_singleton in Hx; [done|]. by injection Hx as -> ->.
  - destruct ps.
    + destruct (allocate_vacant ord c s0 E) as [[-> _]|(n & h & rest & Hh & _ & _ & _ & _ & ->)].
      * intros [= <- <-]. intros [Hx|Hx]; apply elem_of_cons in Hx as [?|Hx]; try done; apply elem_of_list_singleton in Hx; done.
      * intros [= <- <-]. simpl.
        intros [Hx|Hx]; apply elem_of_cons in Hx as [?|Hx]; try done; apply elem_of_app in Hx as [Hx|Hx];
          try (by apply elem_of_list_singleton in Hx); try (destruct (decide (s0 ∈ h_shards h)); [by apply elem_of_nil in Hx|by apply elem_of_list_singleton in Hx]).
        apply elem_of_list_singleton in Hx. injection Hx as -> ->. apply lookup_insert.
    + intros [= <- <-]. intros [Hx|Hx]; apply elem_of_list_singleton in Hx; done.
Qed.

Lemma pk_answer c s0 ps ord c' eff s n : cstep c (COAllocate s0 false ps ord) = Some (c', eff) ->
  pk s (answer_packets n eff) = [] \/ exists o ts, c_shards c' !! s = Some o /\ pk s (answer_packets n eff) = map (fun t => VAlloc false t o) ts.
Proof using.
  intros E. assert (H : forall o, CAnswer (Allocated s o) ∈ eff \/ CAnswer (AlreadyAllocated s o) ∈ eff -> c_shards c' !! s = Some o).
  { intros o. by apply answer_spec with c s0 ps ord. }
  clear E. assert (Hx : exists ts, pk s (answer_packets n eff) = match c_shards c' !! s with Some o => map (fun t => VAlloc false t o) ts | None => [] end).
  { induction eff as [|e eff IH]; [exists []; by destruct (c_shards c' !! s)|].
    destruct IH as [ts IH]. { intros o [?|?]; apply H; [left|right]; by constructor. }
    destruct e as [| | | | |r]; try (by exists ts). destruct r as [x o|x o| |]; try (by exists ts).
    - unfold answer_packets. cbn [omap list_omap]. rewrite pk_cons. cbn [proj proj_msg].
      destruct (N.eqb_spec x s) as [->|]; [|by exists ts]. rewrite (H o) by (left; constructor).
      exists (n :: ts). simpl. f_equal. rewrite (H o) in IH by (left; constructor). done.
    - unfold answer_packets. cbn [omap list_omap]. rewrite pk_cons. cbn [proj proj_msg].
      destruct (N.eqb_spec x s) as [->|]; [|by exists ts]. rewrite (H o) by (right; constructor).
      exists (n :: ts). simpl. f_equal. rewrite (H o) in IH by (right; constructor). done. }
  destruct Hx as [ts Hx]. destruct (c_shards c' !! s) as [o|]; [right; eauto|by left].
Qed.

Lemma pk_host_packets s n eff : pk s (host_packets n eff) =
  omap (fun c => match c with CtStart _ => None | CtNotify _ => Some VOdd | CtTask a req => Some (match req with Some _ => VTask n a | None => VOdd end) end) (hctls s eff).
Proof using.
  induction eff as [|e eff IH]; [done|]. destruct e; simpl; rewrite ?pk_cons; simpl; try apply IH.
  - destruct (_ =? _); simpl; apply IH.
  - destruct (_ =? _); simpl; rewrite ?IH; done.
  - destruct (_ =? _); simpl; rewrite ?IH; done.
Qed.
Lemma lvs_started s n eff : lvs s (started (R:=R) n eff) = omap (fun c => match c with CtStart a => Some (n, a, false) | _ => None end) (hctls s eff).
Proof using.
  induction eff as [|e eff IH]; [done|]. destruct e; simpl; rewrite ?lvs_cons; try apply IH; destruct (_ =? _); simpl; rewrite ?IH; done.
Qed.

Lemma moving_tok s net : (exists p, p ∈ net /\ moving_packet s p = true) <-> exists v, v ∈ pk s net /\ is_tok v = true \/ v = VOdd /\ exists p, p ∈ net /\ moving_packet s p = true.
Proof using. split; [intros H; exists VOdd; by right|]. intros (v & [[(p & Hp & E)%elem_pk Ht]|[_ H]]); [|done].
  exists p. split; [done|]. destruct p as [n m|n m| | | | |]; simpl in *; try done; try (destruct m; simpl in *; try done); try (destruct (_ =? s) eqn:Es; [|done]); try done.
  all: injection E as <-; done.
Qed.
Lemma not_moving_toks y s : ~ moving y s -> toks (pk s (y_net y)) = 0%nat.
Proof using.
  intros H. apply toks_0. intros v Hv. destruct (is_tok v) eqn:E; [|done]. destruct H. apply moving_tok. exists v. by left.
Qed.

(** One coordinator step, given what it may do to each shard. *)
Lemma coord_step_inv y net o asker :
  cwf (y_coord y) -> (forall n h, y_hosts y !! n = Some h -> hwf h /\ sh_node h = n) ->
  (forall s, sinv (c_shards (y_coord y) !! s) (pk s net) (ents (y_hosts y) s) (lvs s (y_live y)) (alive (y_hosts y))) ->
  (forall s, match o with
     | COAllocate s' _ _ _ | CORecover s' _ => s' = s -> c_shards (y_coord y) !! s = None -> toks (pk s net) = 0%nat
     | CONodeUnavailable n _ _ => ~ alive (y_hosts y) n /\ forall b t, VAlloc b t n ∉ pk s net
     | _ => True end) ->
  (forall c eff s n, cstep (y_coord y) o = Some (c, eff) -> CStop s n ∈ eff -> pk s net = [] /\ (alive (y_hosts y) n -> exists a, ents (y_hosts y) s n = Some (KReady a))) ->
  match asker with Some _ => exists s ps ord, o = COAllocate s false ps ord | None => True end ->
  yinv (coord_step y net o asker).
Proof using.
  intros Hc Hh Hs Ho Hst Hask. unfold coord_step. destruct (cstep_wf (y_coord y) o Hc) as (c' & eff & E & Hc' & _ & _). rewrite E.
  split; simpl; [done|done|]. intros s. rewrite !pk_app, pk_coord_packets.
  pose proof (cstep_view _ _ _ _ s Hc E) as V. specialize (Hs s). specialize (Ho s).
  assert (Hmain : sinv (c_shards c' !! s) (pk s net ++ concat (map vp_of_cev (cevs s eff))) (ents (y_hosts y) s) (lvs s (y_live y)) (alive (y_hosts y))).
  { destruct V as [[-> ->]|[(n & Eo & -> & Ee & Hk)|[(m & ts & Eo & -> & -> & Hk)|(n & ord & sord & -> & Eo & V)]]].
    - simpl. by rewrite app_nil_r.
    - assert (Hin : CStop s n ∈ eff).
      { assert (Hx : EvStop n ∈ cevs s eff) by (rewrite Ee; constructor). apply elem_of_list_omap in Hx as (e & He & Hx).
        destruct e; simpl in Hx; try done; destruct (N.eqb_spec s0 s) as [->|]; try done. by injection Hx as ->. }
      destruct (Hst _ _ _ _ E Hin) as [Hp Hr]. rewrite Ee. simpl. rewrite Hp, Eo in *. by apply t_stop.
    - simpl. rewrite app_nil_r. apply t_news; [|done]. apply t_gain; [by rewrite Eo in Hs|].
      destruct o; try done; by apply Ho.
    - destruct Ho as [Hd Hna]. rewrite Eo in Hs. destruct (t_forget _ _ _ _ _ Hs Hd Hna) as [Hf Ht].
      destruct V as [[-> ->]|(m & ts & -> & ->)]; simpl; rewrite app_nil_r; [done|]. apply t_news; [|done]. by apply t_gain. }
  destruct asker as [n|]; [|simpl; by rewrite app_nil_r]. destruct Hask as (s0 & ps & ord & ->).
  destruct (pk_answer _ _ _ _ _ _ s n E) as [->|(o & ts & Eo & ->)]; [by rewrite app_nil_r|].
  rewrite app_assoc. by apply t_news.
Qed.

Lemma index_of_split {A} (f : A -> bool) l i : index_of f l = Some i ->
  exists x l1 l2, l = l1 ++ x :: l2 /\ f x = true /\ remove_nth i l = l1 ++ l2 /\ l !! i = Some x /\ forall z, z ∈ l1 -> f z = false.
Proof using.
  revert i. induction l as [|x l IH]; intros i; simpl; [done|]. destruct (f x) eqn:E.
  - intros [= <-]. exists x, [], l. split_and!; try done. by intros z ?%elem_of_nil.
  - destruct (index_of f l) as [j|]; [|done]. intros [= <-]. destruct (IH j eq_refl) as (z & l1 & l2 & -> & H1 & H2 & H3 & H4).
    exists z, (x :: l1), l2. split_and!; try done.
    + unfold remove_nth in *. simpl. f_equal. exact H2.
    + intros w [->|?]%elem_of_cons; auto.
Qed.

Lemma existsb_false_live n s a live : existsb (starting_actor n s a) live = false -> (n, a, false) ∉ lvs s live.
Proof using.
  intros H Hx. apply elem_lvs in Hx. assert (existsb (starting_actor n s a) live = true); [|congruence].
  apply existsb_exists. exists (n, s, a, false). split; [by apply elem_of_list_In|]. unfold starting_actor, is_actor. by rewrite !N.eqb_refl.
Qed.
Lemma existsb_true_live n s a live : existsb (starting_actor n s a) live = true -> (n, a, false) ∈ lvs s live.
Proof using.
  intros ([[[n' s'] a'] f] & Hx & E)%existsb_exists. apply elem_lvs. unfold starting_actor, is_actor in E. simpl in E.
  destruct (N.eqb_spec n' n) as [->|], (N.eqb_spec s' s) as [->|], (N.eqb_spec a' a) as [->|], f; try done. by apply elem_of_list_In.
Qed.
Lemma lvs_remove n s0 a s live : lvs s (remove_actor n s0 a live) =
  if s0 =? s then List.filter (fun x => negb ((x.1.1 =? n) && (x.1.2 =? a))) (lvs s live) else lvs s live.
Proof using.
  induction live as [|[[[n' s'] a'] f] live IH]; [by destruct (s0 =? s)|].
  unfold remove_actor in *. simpl List.filter. rewrite lvs_cons.
  destruct (N.eqb_spec s' s0) as [->|H1].
  - rewrite andb_true_r. destruct (s0 =? s) eqn:E1.
    + simpl. destruct ((n' =? n) && (a' =? a)) eqn:E2; simpl; [by rewrite IH|]. by rewrite lvs_cons, E1, IH.
    + destruct ((n' =? n) && (a' =? a)) eqn:E2; simpl; [by rewrite IH|]. by rewrite lvs_cons, E1, IH.
  - rewrite andb_false_r. simpl. rewrite lvs_cons, IH. destruct (N.eqb_spec s0 s) as [->|]; [|done].
    by rewrite (proj2 (N.eqb_neq s' s)).
Qed.
Lemma lvs_up n s0 a s live : lvs s (map (fun x => if is_actor n s0 a x then (x.1, true) else x) live) =
  if s0 =? s then map (fun x => if (x.1.1 =? n) && (x.1.2 =? a) then (x.1, true) else x) (lvs s live) else lvs s live.
Proof using.
  induction live as [|[[[n' s'] a'] f] live IH]; [by destruct (s0 =? s)|].
  simpl map. rewrite lvs_cons. destruct (N.eqb_spec s' s0) as [->|H1].
  - rewrite andb_true_r. destruct (s0 =? s) eqn:E1.
    + simpl. destruct ((n' =? n) && (a' =? a)) eqn:E2; simpl; by rewrite lvs_cons, E1, IH.
    + destruct ((n' =? n) && (a' =? a)) eqn:E2; simpl; by rewrite lvs_cons, E1, IH.
  - rewrite andb_false_r. simpl. rewrite lvs_cons, IH. destruct (N.eqb_spec s0 s) as [->|]; [|done].
    by rewrite (proj2 (N.eqb_neq s' s)).
Qed.
Lemma lvs_crash n s live : lvs s (List.filter (fun x => negb (x.1.1.1 =? n)) live) = List.filter (fun x => negb (x.1.1 =? n)) (lvs s live).
Proof using.
  induction live as [|[[[n' s'] a'] f] live IH]; [done|]. simpl List.filter. rewrite lvs_cons.
  destruct (n' =? n) eqn:En; simpl; rewrite ?lvs_cons; (destruct (s' =? s); simpl; rewrite ?En; simpl; rewrite IH; done).
Qed.
Lemma pk_crash n s net : VOdd ∉ pk s net -> pk s (List.filter (fun p => negb (of_node n p)) net) = List.filter (fun v => negb (vof n v)) (pk s net).
Proof using.
  induction net as [|p net IH]; [done|]. intros Hodd.
  assert (Hp : forall v, proj s p = Some v -> v <> VOdd).
  { intros v E ->. apply Hodd. rewrite pk_cons, E. constructor. }
  assert (Hodd' : VOdd ∉ pk s net). { intros H. apply Hodd. rewrite pk_cons. destruct (proj s p); [by constructor|done]. }
  specialize (IH Hodd'). simpl List.filter. rewrite pk_cons.
  assert (Hv : forall v, proj s p = Some v -> vof n v = of_node n p).
  { intros v E. specialize (Hp v E). destruct p as [k m|k m| | |? ? ? []| |]; simpl in *; try done;
      try (destruct m; simpl in *; try done); destruct (_ =? s); try done; injection E as <-; done. }
  destruct (proj s p) as [v|] eqn:E.
  - simpl. rewrite (Hv v eq_refl). destruct (of_node n p); simpl; [done|]. rewrite pk_cons, E. by f_equal.
  - destruct (of_node n p); simpl; [done|]. by rewrite pk_cons, E.
Qed.

Lemma settled_pk y n s : settled y n s -> VOdd ∉ pk s (y_net y) -> pk s (y_net y) = [] /\ (alive (y_hosts y) n -> exists a, ents (y_hosts y) s n = Some (KReady a)).
Proof using.
  intros [H1 H2] _. split.
  - destruct (pk s (y_net y)) as [|v l] eqn:E; [done|]. assert (Hv : v ∈ pk s (y_net y)) by (rewrite E; constructor).
    apply elem_pk in Hv as (p & Hp & Ep). destruct (H1 p Hp).
    destruct p as [k m|k m| | | | |]; simpl in *; try done; try (destruct m; simpl in *; try done);
      destruct (N.eqb_spec s0 s) as [->|]; done.
  - intros [h Hh]. destruct (H2 h Hh) as [a Ha]. exists a. unfold ents. rewrite Hh. simpl. unfold hent. by rewrite Ha.
Qed.

Theorem ystep_inv y o : yinv y -> orderly y o -> yinv (ystep y o).
Proof using.
  intros [Hc Hh Hs] Hord. destruct o as [o|i ps ord|n|n s0 a|n s0 r|n]; cbn [ystep].
  - assert (Hcoord : forall o, (forall c eff s n, cstep (y_coord y) o = Some (c, eff) -> CStop s n ∈ eff -> settled y n s) ->
       match o with COAllocate _ _ _ _ | CORecover _ _ => False | CONodeUnavailable n _ _ => y_hosts y !! n = None /\ forall s, ~ names_owner y s n | _ => True end ->
       yinv (coord_step y (y_net y) o None)).
    { intros o' Hst Ho'. apply coord_step_inv; try done.
      - intros s. destruct o'; try done. destruct Ho' as [Hn Hno]. split; [unfold alive; rewrite Hn; by intros [? ?]|].
        intros b t Hx. apply (Hno s). apply elem_pk in Hx as (p & Hp & E). exists t.
        destruct p as [k m|k m| | | | |]; simpl in E; try done; try (destruct m; simpl in E; try done);
          destruct (N.eqb_spec s0 s) as [->|]; try done; try (destruct req; done); injection E as <- <- <-; auto.
      - intros c eff s n E Hin. apply settled_pk; [by eapply Hst|]. exact (s_odd _ _ _ _ _ (Hs s)). }
    destruct o; try done; try (apply Hcoord; [exact Hord|done]).
    apply Hcoord; [|done]. intros c eff s n' E Hin. exfalso. pose proof (cstep_view _ _ _ _ s Hc E) as V.
    assert (Hx : EvStop n' ∈ cevs s eff). { apply elem_of_list_omap. exists (CStop s n'). simpl. by rewrite N.eqb_refl. }
    destruct V as [[_ V]|[(? & _ & _ & _ & [])|[(m & ts & _ & _ & V & _)|(? & ? & ? & _ & _ & [[_ V]|(m & ts & _ & V)])]]];
      rewrite V in Hx; [by apply elem_of_nil in Hx|by apply elem_of_list_singleton in Hx|by apply elem_of_nil in Hx|by apply elem_of_list_singleton in Hx].
  - unfold pick. destruct (y_net y !! i) as [p|] eqn:Ei; [|done].
    destruct (remove_nth_split _ _ _ Ei) as (l1 & l2 & En & ->).
    destruct p as [n m|n m|n s0|s0|n s0 a req|n s0 a|n s0 a r].
    + (* to a mailbox *)
      split; simpl; [done|done|]. intros s. specialize (Hs s). rewrite En, pk_app, pk_cons in Hs. cbn [proj] in Hs.
      destruct (y_hosts y !! n) as [h|] eqn:Eh.
      * rewrite pk_app, pk_cons. cbn [proj]. rewrite !pk_app. change (pk s []) with (@nil vpk).
        destruct m as [x r|x o|x a|x|x rq|x]; cbn [proj_msg] in *; try destruct (x =? s); try (by rewrite ?app_nil_r).
        -- by apply t_arrive_alloc.
        -- exfalso. apply (s_odd _ _ _ _ _ Hs). apply in_mid.
        -- by apply t_arrive_stop.
        -- exfalso. apply (s_odd _ _ _ _ _ Hs). apply in_mid.
      * rewrite pk_app. destruct m as [x r|x o|x a|x|x rq|x]; cbn [proj_msg] in *; try destruct (x =? s); try done.
        -- by eapply t_drop.
        -- exfalso. apply (s_odd _ _ _ _ _ Hs). apply in_mid.
        -- eapply t_drop; [done|]. simpl. unfold alive. rewrite Eh. by intros [? ?].
        -- exfalso. apply (s_odd _ _ _ _ _ Hs). apply in_mid.
    + by split.
    + (* a host asks *)
      assert (Hpk : forall s, pk s (l1 ++ l2) = pk s (y_net y)) by (intros s; by rewrite En, !pk_app, pk_cons).
      apply coord_step_inv; try done.
      * intros s. by rewrite Hpk.
      * intros s <- _. rewrite Hpk. apply not_moving_toks. by eapply Hord.
      * intros c eff s n' E Hin. exfalso. cbn [cstep] in E. injection E as E. unfold on_allocate in E.
        destruct (c_shards (y_coord y) !! s0) as [k|] eqn:Ek; [injection E as <- <-; by apply elem_of_list_singleton in Hin|].
        destruct ps; [|injection E as <- <-; by apply elem_of_list_singleton in Hin].
        destruct (allocate_vacant ord _ s0 Ek) as [[Ea _]|(m & h & rest & _ & _ & _ & _ & _ & Ea)]; rewrite Ea in E; injection E as <- <-; simpl in Hin.
        -- apply elem_of_cons in Hin as [?|Hin]; [done|by apply elem_of_list_singleton in Hin].
        -- apply elem_of_cons in Hin as [?|Hin]; [done|]. apply elem_of_app in Hin as [Hin|Hin]; [|by apply elem_of_list_singleton in Hin].
           destruct (decide (s0 ∈ h_shards h)); [by apply elem_of_nil in Hin|by apply elem_of_list_singleton in Hin].
      * eauto.
    + (* a move gets its new node *)
      assert (Hpk : forall s, s <> s0 -> pk s (l1 ++ l2) = pk s (y_net y)).
      { intros s Hne. rewrite En, !pk_app, pk_cons. simpl. by rewrite (proj2 (N.eqb_neq s0 s)). }
      assert (Hs0 : sinv (c_shards (y_coord y) !! s0) (pk s0 (l1 ++ l2)) (ents (y_hosts y) s0) (lvs s0 (y_live y)) (alive (y_hosts y)) /\ toks (pk s0 (l1 ++ l2)) = 0%nat).
      { specialize (Hs s0). rewrite En, pk_app, pk_cons in Hs. simpl in Hs. rewrite N.eqb_refl in Hs. rewrite pk_app. by apply t_moved. }
      apply coord_step_inv; try done.
      * intros s. destruct (decide (s = s0)) as [->|Hne]; [by destruct Hs0|by rewrite Hpk].
      * intros s <- _. by destruct Hs0.
      * intros c eff s n' E Hin. exfalso. cbn [cstep] in E. injection E as E. unfold on_allocate in E.
        destruct (c_shards (y_coord y) !! s0) as [k|] eqn:Ek; [injection E as <- <-; by apply elem_of_list_singleton in Hin|].
        destruct (allocate_vacant ord _ s0 Ek) as [[Ea _]|(m & h & rest & _ & _ & _ & _ & _ & Ea)]; rewrite Ea in E; injection E as <- <-; simpl in Hin.
        -- by apply elem_of_list_singleton in Hin.
        -- apply elem_of_app in Hin as [Hin|Hin]; [|by apply elem_of_list_singleton in Hin].
           destruct (decide (s0 ∈ h_shards h)); [by apply elem_of_nil in Hin|by apply elem_of_list_singleton in Hin].
    + (* a shard actor stops *)
      destruct (existsb (starting_actor n s0 a) (y_live y)) eqn:Ex; [by split|].
      split; simpl; [done|done|]. intros s. specialize (Hs s). rewrite lvs_remove, pk_app, pk_app, pk_cons. cbn [proj proj_msg].
      rewrite En, pk_app, pk_cons in Hs. cbn [proj] in Hs. destruct (N.eqb_spec s0 s) as [->|Hne].
      * destruct req as [rq|]; [|exfalso; apply (s_odd _ _ _ _ _ Hs); apply in_mid].
        rewrite pk_cons. cbn [proj]. rewrite N.eqb_refl. by apply t_stopped.
      * destruct req; [rewrite pk_cons; cbn [proj]; rewrite (proj2 (N.eqb_neq s0 s)) by done|]; by rewrite app_nil_r.
    + destruct (existsb (starting_actor n s0 a) (y_live y)) eqn:Ex; [by split|].
      exfalso. specialize (Hs s0). rewrite En, pk_app, pk_cons in Hs. cbn [proj] in Hs. rewrite N.eqb_refl in Hs.
      apply (s_odd _ _ _ _ _ Hs). apply in_mid.
    + split; simpl; [done|done|]. intros s. specialize (Hs s). rewrite En, pk_app, pk_cons in Hs. by rewrite pk_app.
  - destruct (y_hosts y !! n) as [h|] eqn:Eh; [|done]. destruct (index_of (mail_for n) (y_net y)) as [i|] eqn:Ei; [|done].
    destruct (index_of_split _ _ _ Ei) as (p & l1 & l2 & En & Hp & -> & -> & Hfirst).
    destruct p as [|n' m| | | | |]; try done. simpl in Hp. apply N.eqb_eq in Hp. subst n'.
    destruct (Hh _ _ Eh) as [Hw Hnode]. destruct (hstep_ctl h m Hw) as (W1 & N1 & Hoth & Hk & Hctl).
    destruct (hstep h m) as [h' eff]. cbn [fst snd] in *.
    split; simpl; [done| |].
    { intros k hk. intros [[<- <-]|[_ Hl]]%lookup_insert_Some; [split; [done|congruence]|by apply Hh]. }
    intros s. specialize (Hs s). rewrite pk_app, pk_app, lvs_app, pk_host_packets, lvs_started.
    rewrite En, pk_app, pk_cons in Hs. cbn [proj] in Hs.
    assert (Hal : forall k, alive (<[n := h']> (y_hosts y)) k <-> alive (y_hosts y) k).
    { intros k. unfold alive. destruct (decide (k = n)) as [->|]; [rewrite lookup_insert, Eh; by split; eexists|by rewrite lookup_insert_ne]. }
    assert (He : forall kd, hent h' s = kd -> forall k, ents (<[n := h']> (y_hosts y)) s k = upd (ents (y_hosts y) s) n kd k).
    { intros kd <- k. unfold ents, upd. destruct (decide (k = n)) as [->|]; [by rewrite lookup_insert|by rewrite lookup_insert_ne]. }
    assert (Hal0 : alive (y_hosts y) n) by (by exists h).
    assert (Een : ents (y_hosts y) s n = hent h s) by (unfold ents; by rewrite Eh).
    assert (Hsame : forall kd, hent h s = kd -> forall k, upd (ents (y_hosts y) s) n kd k = ents (y_hosts y) s k).
    { intros kd <- k. unfold upd. destruct (decide (k = n)) as [->|]; [by rewrite Een|done]. }
    destruct (decide (s = msg_shard m)) as [->|Hne].
    2:{ destruct (Hoth s Hne) as [E1 ->]. simpl. rewrite !app_nil_r.
        assert (Hpn : proj_msg true s n m = None).
        { destruct m; simpl in *; try done; by rewrite (proj2 (N.eqb_neq _ _)) by done. }
        rewrite Hpn in Hs. eapply sinv_ext; [|exact Hal|exact Hs]. intros k. rewrite (He _ E1). by apply Hsame. }
    rewrite Hctl. unfold step_kind in Hk. unfold step_ctl in *.
    destruct m as [x r|x o|x a|x|x rq|x]; cbn [msg_shard proj_msg] in *; rewrite ?N.eqb_refl in Hs.
    + simpl. rewrite !app_nil_r. eapply sinv_ext; [|exact Hal|exact Hs]. intros k. rewrite (He _ Hk). by apply Hsame.
    + (* ShardAllocated *)
      assert (Hnst : ents (y_hosts y) x n <> Some KStopping).
      { intros Est. pose proof (s_alloc _ _ _ _ _ Hs _ _ _ (in_mid _ _ _)) as Ho.
        destruct (s_stopping _ _ _ _ _ Hs _ Est) as [[a Ha]|Hst].
        - rewrite (s_tok_ow _ _ _ _ _ Hs _ Ha eq_refl) in Ho. done.
        - apply elem_of_app in Hst as [Hst|[Hst|Hst]%elem_of_cons].
          + apply elem_pk in Hst as (q & Hq & Eq). specialize (Hfirst q Hq). destruct q as [k m'|k m'| | |? ? ? []| |]; simpl in *; try done;
              try (destruct m'; simpl in *; try done); destruct (_ =? x); try done. injection Eq as ->. by rewrite N.eqb_refl in Hfirst.
          + done.
          + pose proof (s_ord _ _ _ _ _ Hs) as Hor. apply ord_ok_app in Hor as (_ & [Hor _] & _). by apply Hor. }
      assert (Hocc : forall k, ents (y_hosts y) x n = Some k -> o = n).
      { intros k Ek. pose proof (s_alloc _ _ _ _ _ Hs _ _ _ (in_mid _ _ _)) as Ho. destruct k as [a|a|]; [| |done].
        - pose proof (s_starting _ _ _ _ _ Hs _ _ Ek). congruence.
        - destruct (s_rdy _ _ _ _ _ Hs _ _ Ek) as [?|[b Hb]]; [congruence|]. rewrite (s_tok_ow _ _ _ _ _ Hs _ Hb eq_refl) in Ho. done. }
      rewrite Een in *. destruct (hent h x) as [k|] eqn:Ehx.
      * assert (o = n) as -> by eauto. rewrite Hnode, N.eqb_refl in *. simpl in Hk.
        assert (omap (fun c => match c with CtStart _ => None | CtNotify _ => Some VOdd | CtTask a req => Some (match req with Some _ => VTask n a | None => VOdd end) end)
          match k with KStarting a | KReady a => [] | KStopping => [] end = []) as -> by (by destruct k).
        assert (omap (fun c => match c with CtStart a => Some (n, a, false) | _ => None end)
          match k with KStarting a | KReady a => [] | KStopping => [] end = []) as -> by (by destruct k).
        rewrite !app_nil_r. eapply sinv_ext; [|exact Hal|eapply t_drop; [exact Hs|done]].
        intros j. rewrite (He _ Hk). by apply Hsame.
      * rewrite Hnode in *. destruct (N.eqb_spec o n) as [->|Hon].
        -- simpl in *. rewrite app_nil_r. eapply sinv_ext; [exact (He _ Hk)|exact Hal|]. by apply t_start.
        -- simpl in *. rewrite !app_nil_r. eapply sinv_ext; [|exact Hal|eapply t_drop; [exact Hs|done]].
           intros j. rewrite (He _ Hk). by apply Hsame.
    + simpl. rewrite !app_nil_r. eapply sinv_ext; [exact (He _ Hk)|exact Hal|]. by apply t_ready.
    + simpl. rewrite !app_nil_r. eapply sinv_ext; [|exact Hal|exact Hs]. intros k. rewrite (He _ Hk). by apply Hsame.
    + destruct (s_stop _ _ _ _ _ Hs _ _ (in_mid _ _ _) Hal0) as [a Ea]. rewrite Een in Ea. rewrite Ea in *. simpl. rewrite app_nil_r.
      eapply sinv_ext; [exact (He _ Hk)|exact Hal|]. apply t_stopping; [done|]. by rewrite Een.
    + simpl. rewrite !app_nil_r. eapply sinv_ext; [exact (He _ Hk)|exact Hal|]. by apply t_gone.
  - destruct (existsb (starting_actor n s0 a) (y_live y)) eqn:Ex; [|by split].
    split; simpl; [done|done|]. intros s. specialize (Hs s). rewrite lvs_up, pk_app, pk_cons. cbn [proj proj_msg].
    destruct (N.eqb_spec s0 s) as [->|Hne]; [|by rewrite app_nil_r]. apply t_up; [done|]. by apply existsb_true_live.
  - destruct (y_hosts y !! n) as [h|] eqn:Eh; [|by split]. split; simpl; [done|done|]. intros s. specialize (Hs s).
    rewrite pk_app, pk_cons. simpl. by rewrite app_nil_r.
  - split; simpl; [done| |].
    { intros k h [_ Hl]%lookup_delete_Some. by apply Hh. }
    intros s. specialize (Hs s). rewrite lvs_crash, pk_crash by exact (s_odd _ _ _ _ _ Hs).
    eapply sinv_ext; [| |by apply t_crash].
    + intros k. unfold ents, upd. destruct (decide (k = n)) as [->|]; [by rewrite lookup_delete|by rewrite lookup_delete_ne].
    + intros k. unfold alive. simpl. rewrite <- not_eq_None_Some. destruct (decide (k = n)) as [->|Hne]; [rewrite lookup_delete|rewrite lookup_delete_ne, not_eq_None_Some by done]; tauto.
Qed.

Lemma sys_init_inv self nodes : yinv (sys_init self nodes : sys R).
Proof using.
  assert (Hhost : forall n h, y_hosts (sys_init self nodes : sys R) !! n = Some h -> h = host_init n).
  { intros n h. unfold sys_init. cbn [y_hosts]. intros Hl. apply elem_of_list_to_map_2 in Hl.
    apply elem_of_list_fmap in Hl as (k & E & _). by injection E as -> ->. }
  split.
  - apply coord_init_wf.
  - intros n h ->%Hhost. split; [apply hwf_init|done].
  - intros s. assert (He : forall n k, ents (y_hosts (sys_init self nodes : sys R)) s n <> Some k).
    { intros n k. unfold ents. destruct (_ !! n) as [h|] eqn:E; [|done]. apply Hhost in E. subst h. unfold hent. simpl. by rewrite lookup_empty. }
    split; cbn [sys_init y_net y_live y_coord]; try (intros *; intros Hx; by apply elem_of_nil in Hx); try (intros *; intros Hx; by apply He in Hx); try done.
    all: unfold pk, toks, nd; simpl; first [lia | apply NoDup_nil_2].

Qed.

Theorem yrun_inv y l : yinv y -> orderly_run y l -> yinv (yrun y l).
Proof using.
  revert y. induction l as [|o l IH]; intros y Hy; simpl; [done|]. intros [Ho Hl]. apply IH; [by apply ystep_inv|done].
Qed.

Theorem one_actor y n1 n2 s a1 a2 f1 f2 : yinv y -> (n1, s, a1, f1) ∈ y_live y -> (n2, s, a2, f2) ∈ y_live y -> n1 = n2 /\ a1 = a2.
Proof using.
  intros [_ _ Hs] H1%elem_lvs H2%elem_lvs. by eapply live_unique.
Qed.
Theorem answered_stopped y n s : yinv y -> stop_answered y s -> ~ runs y n s.
Proof using.
  intros [_ _ Hs] Ha (a & f & Hl%elem_lvs). eapply moved_dead; [exact (Hs s)| |exact Hl].
  apply elem_pk. exists (PMoved s). split; [done|]. simpl. by rewrite N.eqb_refl.
Qed.

End proofs.
