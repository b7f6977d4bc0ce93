(** Requests to sharded entities are conserved: every step passes them on, answers them or loses
    them. *)
From Verif Require Import Sharded_Model Entity_Model Sharded_Spec.
Local Open Scope Z_scope.

(** Sums. *)
Fixpoint zsum {A} (f : A -> Z) (l : list A) : Z := match l with [] => 0 | x :: l => f x + zsum f l end.
Definition msum `{Countable K} {A} (f : K -> A -> Z) (m : gmap K A) : Z := zsum (fun x => f x.1 x.2) (map_to_list m).

Lemma zsum_app {A} (f : A -> Z) l l' : zsum f (l ++ l') = zsum f l + zsum f l'.
Proof. induction l; simpl; lia. Qed.
Lemma zsum_perm {A} (f : A -> Z) l l' : l ≡ₚ l' -> zsum f l = zsum f l'.
Proof. induction 1; simpl; lia. Qed.
Lemma zsum_map {A B} (f : B -> Z) (g : A -> B) l : zsum f (map g l) = zsum (fun x => f (g x)) l.
Proof. induction l; simpl; lia. Qed.
Lemma zsum_flat_map {A B} (f : B -> Z) (g : A -> list B) l : zsum f (flat_map g l) = zsum (fun x => zsum f (g x)) l.
Proof. induction l; simpl; [done|]. rewrite zsum_app. lia. Qed.
Lemma zsum_omap {A B} (f : B -> Z) (g : A -> option B) l :
  zsum f (omap g l) = zsum (fun x => match g x with Some y => f y | None => 0 end) l.
Proof.
  induction l as [|x l IH]; [done|]. change (omap g (x :: l)) with (match g x with Some y => y :: omap g l | None => omap g l end).
  cbn [zsum]. rewrite <-IH. by destruct (g x).
Qed.
Lemma zsum_filter {A} (f : A -> Z) (g : A -> bool) l : zsum f (List.filter g l) = zsum (fun x => if g x then f x else 0) l.
Proof. induction l as [|x l IH]; [done|]. simpl. destruct (g x); simpl; lia. Qed.
Lemma zsum_le {A} (f g : A -> Z) l : (forall x, x ∈ l -> f x <= g x) -> zsum f l <= zsum g l.
Proof.
  induction l as [|x l IH]; simpl; intros H; [lia|]. pose proof (H x (elem_of_list_here _ _)).
  assert (zsum f l <= zsum g l) by (apply IH; intros y Hy; apply H; by right). lia.
Qed.
Lemma zsum_ext {A} (f g : A -> Z) l : (forall x, f x = g x) -> zsum f l = zsum g l.
Proof. intros H. induction l; simpl; [done|]. rewrite H. lia. Qed.
Lemma zsum_plus {A} (f g : A -> Z) l : zsum (fun x => f x + g x) l = zsum f l + zsum g l.
Proof. induction l; simpl; lia. Qed.
Lemma zsum_nonneg {A} (f : A -> Z) l : (forall x, 0 <= f x) -> 0 <= zsum f l.
Proof. intros H. induction l as [|x l IH]; simpl; [lia|]. pose proof (H x). lia. Qed.
Lemma zsum_pos {A} (f : A -> Z) l : (forall x, 0 <= f x) -> 0 < zsum f l -> exists x, x ∈ l /\ 0 < f x.
Proof.
  intros H. induction l as [|x l IH]; simpl; [lia|]. intros Hp. destruct (decide (0 < f x)).
  - exists x. split; [by left|done].
  - destruct IH as (y & Hy & Hf); [pose proof (H x); lia|]. exists y. split; [by right|done].
Qed.
Lemma zsum_elem {A} (f : A -> Z) l x : (forall x, 0 <= f x) -> x ∈ l -> f x <= zsum f l.
Proof.
  intros H. induction l as [|y l IH]; intros Hx; [by apply elem_of_nil in Hx|]. simpl.
  apply elem_of_cons in Hx as [->|Hx]; [pose proof (zsum_nonneg f l H)|pose proof (IH Hx); pose proof (H y)]; lia.
Qed.
Lemma zsum_remove_nth {A} (f : A -> Z) l i x : l !! i = Some x -> zsum f l = f x + zsum f (remove_nth i l).
Proof.
  intros E. unfold remove_nth. rewrite <-(take_drop_middle l i x E) at 1. rewrite !zsum_app. simpl. lia.
Qed.

Section msum.
Context `{Countable K} {A : Type}.
Implicit Types (f : K -> A -> Z) (m : gmap K A).
Lemma msum_empty f : msum f ∅ = 0.
Proof. unfold msum. by rewrite map_to_list_empty. Qed.
Lemma msum_insert f m i x : m !! i = None -> msum f (<[i := x]> m) = f i x + msum f m.
Proof. intros E. unfold msum. by rewrite (zsum_perm _ _ _ (map_to_list_insert m i x E)). Qed.
Lemma msum_delete f m i x : m !! i = Some x -> msum f (delete i m) = msum f m - f i x.
Proof.
  intros E. rewrite <-(insert_delete m i x E) at 2. rewrite msum_insert; [lia|]. by apply lookup_delete.
Qed.
Lemma msum_replace f m i x y : m !! i = Some x -> msum f (<[i := y]> m) = msum f m - f i x + f i y.
Proof.
  intros E. rewrite <-insert_delete_insert, msum_insert; [|by apply lookup_delete]. rewrite (msum_delete _ _ _ _ E). lia.
Qed.
Lemma msum_set f m i y : msum f (<[i := y]> m) = msum f m - match m !! i with Some x => f i x | None => 0 end + f i y.
Proof. destruct (m !! i) as [x|] eqn:E; [by apply msum_replace|]. rewrite msum_insert; [lia|done]. Qed.
Lemma msum_remove f m i : msum f (delete i m) = msum f m - match m !! i with Some x => f i x | None => 0 end.
Proof. destruct (m !! i) as [x|] eqn:E; [by apply msum_delete|]. rewrite delete_notin; [lia|done]. Qed.
Lemma msum_filter f (P : K * A -> Prop) `{forall x, Decision (P x)} m :
  msum f (filter P m) = msum (fun i x => if decide (P (i, x)) then f i x else 0) m.
Proof.
  induction m as [|i x m E IH] using map_ind; [by rewrite map_filter_empty, !msum_empty|].
  rewrite (msum_insert _ m i x E). destruct (decide (P (i, x))) as [Hp|Hp].
  - rewrite map_filter_insert_True by done. rewrite msum_insert; [lia|]. apply map_filter_lookup_None. by left.
  - rewrite map_filter_insert_False by done. rewrite delete_notin by done. lia.
Qed.
Lemma msum_nonneg f m : (forall i x, 0 <= f i x) -> 0 <= msum f m.
Proof. intros Hf. apply zsum_nonneg. intros [i x]. apply Hf. Qed.
Lemma msum_pos f m : (forall i x, 0 <= f i x) -> 0 < msum f m -> exists i x, m !! i = Some x /\ 0 < f i x.
Proof.
  intros Hf Hp. destruct (zsum_pos _ _ (fun x => Hf x.1 x.2) Hp) as ([i x] & Hx & Hw). exists i, x. split; [|done].
  by apply elem_of_map_to_list.
Qed.
End msum.

Section weights.
Variable shard_of : N -> N.
Variable readable : bytes -> bool.
(** A weight for the requests, by call, entity and message, for the answers, and for the events. *)
Variable w : N -> N -> bytes -> Z.
Variable wa : N -> sresult -> Z.
Variable we : zevent -> Z.
Notation zstep := (zstep shard_of readable).
Notation zrun := (zrun shard_of readable).

Definition ticket_w (id : N) (t : ticket) : Z := w (t_call t) id (t_msg t).
Definition req_w (r : sreq) : Z := ticket_w (t_ent (r_ticket r)) (r_ticket r).
Definition hstate_w (_ : N) (st : hstate sreq) : Z := match st with HStarting _ buf _ => zsum req_w buf | _ => 0 end.
Definition host_w (_ : N) (h : host sreq) : Z := msum hstate_w (sh_hosted h) + msum (fun _ => zsum req_w) (sh_pending h).
Definition estate_w (id : N) (x : N * estate ticket) : Z := match x.2 with EStarting buf => zsum (ticket_w id) buf | _ => 0 end.
Definition ents_w (_ : N * N * N) (m : gmap N (N * estate ticket)) : Z := msum estate_w m.
Definition task_w (t : task) : Z :=
  match t with
  | TShard _ _ _ r | TRemote _ _ _ r => req_w r
  | TEntity _ _ _ id _ t => ticket_w id t
  | TAnswer _ k _ x => wa k x
  | TCreate _ _ _ _ _ => 0
  end.
Definition total (z : sys) : Z :=
  zsum (fun p => req_w p.2) (z_mail z) + msum host_w (z_hosts z) + zsum task_w (z_tasks z) + msum ents_w (z_shards z).

(** Hosts pass requests on, keep them or drop them. *)
Definition heff_w (e : heffect sreq) : Z := match e with HForward _ _ r | HRemote _ _ r | HLost _ r => req_w r | _ => 0 end.
Definition hmsg_w (c : hmsg sreq) : Z := match c with MRequest _ r => req_w r | _ => 0 end.

Lemma lost_w s buf : zsum heff_w (map (HLost s) buf) = zsum req_w buf.
Proof. rewrite zsum_map. by apply zsum_ext. Qed.
Lemma forward_w s a buf : zsum heff_w (map (HForward s a) buf) = zsum req_w buf.
Proof. rewrite zsum_map. by apply zsum_ext. Qed.
Lemma lost_buffer_w s st : zsum heff_w (lost_buffer s st) = hstate_w s st.
Proof. destruct st; simpl; try done. rewrite zsum_map. by apply zsum_ext. Qed.

Lemma on_request_w h s r n : host_w n (on_request h s r).1 + zsum heff_w (on_request h s r).2 = host_w n h + req_w r.
Proof.
  unfold on_request. destruct (sh_hosted h !! s) as [st|] eqn:E.
  - destruct st as [a buf req|a|]; simpl; unfold host_w; simpl; rewrite (msum_replace _ _ _ _ _ E); simpl; rewrite ?zsum_app; simpl; lia.
  - destruct (sh_remote h !! s); simpl; [lia|]. unfold host_w. simpl. rewrite msum_set.
    destruct (sh_pending h !! s); simpl; rewrite ?zsum_app; simpl; lia.
Qed.
Lemma on_requests_w s n l : forall h, host_w n (on_requests h s l).1 + zsum heff_w (on_requests h s l).2 = host_w n h + zsum req_w l.
Proof.
  induction l as [|r l IH]; intros h; simpl; [lia|].
  pose proof (on_request_w h s r n) as H1. destruct (on_request h s r) as [h1 e1]. cbn [fst snd] in H1.
  pose proof (IH h1) as H2. destruct (on_requests h1 s l) as [h2 e2]. cbn [fst snd] in *. rewrite zsum_app. lia.
Qed.
Lemma on_allocated_w h s m n : host_w n (on_allocated h s m).1 + zsum heff_w (on_allocated h s m).2 = host_w n h.
Proof.
  unfold on_allocated.
  set (p := if (m =? sh_node h)%N then _ else _).
  assert (Hp : host_w n p.1 + zsum heff_w p.2 = host_w n h).
  { unfold p. destruct (m =? sh_node h)%N.
    - simpl. destruct (sh_hosted h !! s) as [st|] eqn:E; simpl; [unfold host_w; simpl; lia|].
      unfold host_w. simpl. rewrite (msum_insert _ _ _ _ E). simpl. lia.
    - simpl. unfold host_w. simpl. rewrite msum_remove. destruct (sh_hosted h !! s) as [st|] eqn:E; simpl; [|lia].
      rewrite zsum_app, lost_buffer_w. destruct (state_ref st); simpl; lia. }
  destruct p as [h1 e1]. cbn [fst snd] in Hp. destruct (sh_pending h1 !! s) as [l|] eqn:E; [|exact Hp].
  pose proof (on_requests_w s n l (set_pending h1 (delete s (sh_pending h1)))) as H2.
  destruct (on_requests _ s l) as [h2 e2]. cbn [fst snd] in *. rewrite zsum_app.
  unfold host_w at 2 in H2. simpl in H2. rewrite (msum_delete _ _ _ _ E) in H2. unfold host_w in *. lia.
Qed.
Lemma hstep_w h c n : host_w n (hstep h c).1 + zsum heff_w (hstep h c).2 = host_w n h + hmsg_w c.
Proof.
  destruct c as [s r|s m|s a|s|s req|s]; cbn [hstep hmsg_w].
  - apply on_request_w.
  - rewrite on_allocated_w. lia.
  - unfold on_ready. unfold host_w. simpl. rewrite msum_set. destruct (sh_hosted h !! s) as [[a' buf [req|]|a'|]|]; simpl; rewrite ?lost_w, ?forward_w; lia.
  - simpl. unfold host_w. simpl. lia.
  - unfold on_stop. destruct (sh_hosted h !! s) as [st|] eqn:E; [|simpl; lia].
    unfold host_w. simpl. rewrite (msum_replace _ _ _ _ _ E). destruct st; simpl; rewrite ?lost_w; lia.
  - unfold on_stopped, host_w. simpl. rewrite msum_remove. destruct (sh_hosted h !! s) as [st|]; simpl; [|lia].
    rewrite lost_buffer_w. lia.
Qed.

(** So do shards. *)
Definition eeff_w (e : eeffect ticket) : Z := match e with EReply id t _ | EForward id _ t | EDrop id t => ticket_w id t | ECreate _ _ => 0 end.
Lemma eforward_w id a buf : zsum eeff_w (map (EForward id a) buf) = zsum (ticket_w id) buf.
Proof. rewrite zsum_map. by apply zsum_ext. Qed.
Lemma drop_buffer_w id x : zsum eeff_w (drop_buffer id (Some x)) = estate_w id x.
Proof. destruct x as [rc [|buf|a|]]; simpl; try done. rewrite zsum_map. by apply zsum_ext. Qed.
Lemma on_entity_request_w p m q :
  ents_w p (on_entity_request m q).1 + zsum eeff_w (on_entity_request m q).2 = ents_w p m + ticket_w (q_id q) (q_req q).
Proof.
  unfold on_entity_request, ents_w. destruct (q_known q); [|simpl; lia].
  destruct (m !! q_id q) as [[rc st]|] eqn:E.
  - destruct st as [|buf|a|]; simpl; rewrite (msum_replace _ _ _ _ _ E); unfold estate_w; simpl; rewrite ?zsum_app; simpl; lia.
  - destruct (q_recipe q); simpl; [|lia]. rewrite (msum_insert _ _ _ _ E). unfold estate_w. simpl. lia.
Qed.
Lemma on_start_entity_w p m id rc :
  ents_w p (on_start_entity m id rc).1 + zsum eeff_w (on_start_entity m id rc).2 = ents_w p m.
Proof.
  unfold on_start_entity, ents_w. cbn [fst snd]. rewrite zsum_app, msum_set.
  assert (estate_w id (rc, EStarting []) = 0) as H0 by done. assert (zsum eeff_w [ECreate id rc] = 0) as H1 by done.
  destruct (m !! id) as [x|]; [rewrite drop_buffer_w; lia|]. change (zsum eeff_w (drop_buffer id None)) with 0. lia.
Qed.
Lemma on_start_result_w p m id res :
  ents_w p (on_start_result m id res).1 + zsum eeff_w (on_start_result m id res).2 = ents_w p m.
Proof.
  unfold on_start_result, ents_w. destruct res as [a|]; [|simpl; lia]. destruct (m !! id) as [[rc st]|] eqn:E; [|simpl; lia].
  simpl. rewrite (msum_replace _ _ _ _ _ E). destruct st; unfold estate_w; simpl; rewrite ?eforward_w; lia.
Qed.

(** What the weights have to satisfy. *)
Hypothesis Hret : forall k x, we (ZReturned k (returned readable x)) <= wa k x.
Hypothesis Hans : forall k id m x, wa k x <= w k id m.
Hypothesis Hgone : forall k x, we (ZGone k) <= wa k x.
Hypothesis Hcall : forall k n id m, we (ZCalled k n id m) + w k id m <= 0.
Hypothesis Hhand : forall k id e m v x, we (ZHandled k id e m v) + wa k x <= w k id m.

Lemma resolve_w n t x id : zsum task_w (resolve readable n t x).1 + zsum we (resolve readable n t x).2 <= ticket_w id t.
Proof.
  unfold resolve, ticket_w. destruct (t_origin t); simpl; pose proof (Hans (t_call t) id (t_msg t) x); pose proof (Hret (t_call t) x); lia.
Qed.
Lemma resolve_a n t x : zsum task_w (resolve readable n t x).1 + zsum we (resolve readable n t x).2 <= wa (t_call t) x.
Proof. unfold resolve. destruct (t_origin t); simpl; pose proof (Hret (t_call t) x); lia. Qed.

Lemma host_dropped_w n eff :
  zsum task_w (host_tasks n eff) + zsum task_w (resolve_all readable n (host_dropped eff)).1 + zsum we (resolve_all readable n (host_dropped eff)).2
  <= zsum heff_w eff.
Proof.
  induction eff as [|e eff IH]; [done|]. unfold resolve_all in *. cbn [fst snd] in *.
  destruct e as [s a|s a r|s m r|s|s a|s a req|s r]; simpl; try lia.
  rewrite !zsum_app. pose proof (resolve_w n (r_ticket r) (SErr SClosed) (t_ent (r_ticket r))) as H. fold (req_w r) in H. lia.
Qed.
Lemma shard_replies_w n s a eff :
  zsum task_w (shard_tasks n s a eff) + zsum task_w (resolve_all readable n (shard_replies eff)).1 + zsum we (resolve_all readable n (shard_replies eff)).2
  <= zsum eeff_w eff.
Proof.
  induction eff as [|e eff IH]; [done|]. unfold resolve_all in *. cbn [fst snd] in *.
  destruct e as [id t e|id x t|id t|id rc]; simpl; try lia; rewrite !zsum_app.
  - pose proof (resolve_w n t (SErr (err_of e)) id). lia.
  - pose proof (resolve_w n t (SErr SClosed) id). lia.
Qed.

Lemma started_w (l : list (N * N * N)) (m : gmap (N * N * N) (gmap N (N * estate ticket))) :
  msum ents_w (fold_right (fun x (m : gmap (N * N * N) (gmap N (N * estate ticket))) => match m !! x with Some _ => m | None => <[x := ∅]> m end) m l) = msum ents_w m.
Proof.
  induction l as [|x l IH]; [done|]. simpl. destruct (_ !! x) eqn:E; [done|].
  rewrite (msum_insert _ _ _ _ E), IH. unfold ents_w. rewrite msum_empty. lia.
Qed.

Lemma do_host_w z n mail h h' eff : z_hosts z !! n = Some h ->
  total (do_host readable z n mail h' eff).1 + zsum we (do_host readable z n mail h' eff).2 <=
  zsum (fun p => req_w p.2) mail + msum host_w (z_hosts z) - host_w n h + host_w n h' + zsum task_w (z_tasks z) + msum ents_w (z_shards z) + zsum heff_w eff.
Proof.
  intros E. unfold do_host. pose proof (host_dropped_w n eff) as H. destruct (resolve_all _ _ _) as [ts evs]. cbn [fst snd] in *.
  unfold total. simpl. rewrite (msum_replace _ _ _ _ _ E), !zsum_app, started_w. lia.
Qed.
Lemma do_shard_w z n s a tasks m m' eff : z_shards z !! (n, s, a) = Some m ->
  total (do_shard readable z n s a tasks m' eff).1 + zsum we (do_shard readable z n s a tasks m' eff).2 <=
  zsum (fun p => req_w p.2) (z_mail z) + msum host_w (z_hosts z) + zsum task_w tasks + msum ents_w (z_shards z) - ents_w (n, s, a) m + ents_w (n, s, a) m' + zsum eeff_w eff.
Proof.
  intros E. unfold do_shard. pose proof (shard_replies_w n s a eff) as H. destruct (resolve_all _ _ _) as [ts evs]. cbn [fst snd] in *.
  unfold total. simpl. rewrite (msum_replace _ _ _ _ _ E), !zsum_app. lia.
Qed.
Lemma shard_request_w z n s a tasks m r t known : z_shards z !! (n, s, a) = Some m ->
  total (shard_request readable z n s a tasks m r t known).1 + zsum we (shard_request readable z n s a tasks m r t known).2 <=
  zsum (fun p => req_w p.2) (z_mail z) + msum host_w (z_hosts z) + zsum task_w tasks + msum ents_w (z_shards z) + ticket_w (t_ent t) t.
Proof.
  intros E. unfold shard_request. pose proof (on_entity_request_w (n, s, a) m (EReq (t_ent t) (r_recipe r) known t)) as H.
  destruct (on_entity_request _ _) as [m' eff]. cbn [fst snd q_id q_req] in H.
  pose proof (do_shard_w z n s a tasks m m' eff E). lia.
Qed.
Lemma kept_w n m p : zsum task_w (resolve_all readable n (kept_tickets m)).1 + zsum we (resolve_all readable n (kept_tickets m)).2 <= ents_w p m.
Proof.
  unfold resolve_all, kept_tickets, ents_w, msum. cbn [fst snd]. rewrite !zsum_flat_map, <-zsum_plus.
  apply zsum_le. intros [id [rc st]] _. cbn [fst snd]. unfold estate_w. cbn [snd].
  destruct st as [|buf|a|]; simpl; try lia. rewrite !zsum_map, <-zsum_plus. cbn [fst snd]. apply zsum_le. intros t _. apply resolve_w.
Qed.
Lemma gone_le k id m : we (ZGone k) <= w k id m.
Proof. pose proof (Hgone k (SErr SClosed)). pose proof (Hans k id m (SErr SClosed)). lia. Qed.

Lemma crash_host_w n h : zsum we (gone (hosted_tickets h)) <= host_w n h.
Proof.
  unfold gone, hosted_tickets, host_w, msum. rewrite map_app, zsum_app, !zsum_map, !zsum_flat_map.
  assert (zsum (fun x : N * hstate sreq => zsum (fun x0 => we (ZGone x0)) (match x.2 with HStarting _ buf _ => map (fun r => t_call (r_ticket r)) buf | _ => [] end)) (map_to_list (sh_hosted h))
          <= zsum (fun x => hstate_w x.1 x.2) (map_to_list (sh_hosted h))).
  { apply zsum_le. intros [s st] _. cbn [fst snd]. destruct st as [a buf req|a|]; simpl; try lia.
    rewrite zsum_map. apply zsum_le. intros r _. apply gone_le. }
  assert (zsum (fun x : N * list sreq => zsum (fun x0 => we (ZGone x0)) (map (fun r => t_call (r_ticket r)) x.2)) (map_to_list (sh_pending h))
          <= zsum (fun x => zsum req_w x.2) (map_to_list (sh_pending h))).
  { apply zsum_le. intros [s l] _. cbn [snd]. rewrite zsum_map. apply zsum_le. intros r _. apply gone_le. }
  lia.
Qed.
Lemma crash_w z n : total (zstep z (OCrash n)).1 + zsum we (zstep z (OCrash n)).2 <= total z.
Proof.
  unfold total, crashed_calls. cbn [zstep Sharded_Model.zstep fst snd z_mail z_hosts z_tasks z_shards].
  unfold gone, crashed_calls. rewrite !map_app, !zsum_app. rewrite !zsum_map.
  rewrite !zsum_filter, !zsum_omap, msum_remove, msum_filter.
  assert (H1 : zsum (fun p : N * sreq => if keep_node n p.1 then req_w p.2 else 0) (z_mail z) +
               zsum (fun p : N * sreq => match (if (p.1 =? n)%N then Some (t_call (r_ticket p.2)) else None) with Some k => we (ZGone k) | None => 0 end) (z_mail z)
               <= zsum (fun p => req_w p.2) (z_mail z)).
  { rewrite <-zsum_plus. apply zsum_le. intros [n' r] _. cbn [fst snd]. unfold keep_node. destruct (n' =? n)%N; simpl; [|lia].
    pose proof (gone_le (t_call (r_ticket r)) (t_ent (r_ticket r)) (t_msg (r_ticket r))). unfold req_w, ticket_w. lia. }
  assert (H2 : zsum (fun t => if keep_node n (task_node t) then task_w t else 0) (z_tasks z) +
               zsum (fun t => match (if (task_node t =? n)%N then task_call t else None) with Some k => we (ZGone k) | None => 0 end) (z_tasks z)
               <= zsum task_w (z_tasks z)).
  { rewrite <-zsum_plus. apply zsum_le. intros t _. unfold keep_node. destruct (task_node t =? n)%N; simpl; [|lia].
    destruct t as [n0 s a r|n0 m s r|n0 s a id e t|n0 k o x|n0 s a id rc]; simpl; try (unfold req_w, ticket_w).
    - pose proof (gone_le (t_call (r_ticket r)) (t_ent (r_ticket r)) (t_msg (r_ticket r))). lia.
    - pose proof (gone_le (t_call (r_ticket r)) (t_ent (r_ticket r)) (t_msg (r_ticket r))). lia.
    - pose proof (gone_le (t_call t) id (t_msg t)). lia.
    - pose proof (Hgone k x). lia.
    - lia. }
  assert (H3 : zsum (fun x => we (ZGone x)) (match z_hosts z !! n with Some h => hosted_tickets h | None => [] end) <=
               match z_hosts z !! n with Some x => host_w n x | None => 0 end).
  { destruct (z_hosts z !! n) as [h|]; [|done]. pose proof (crash_host_w n h) as H. unfold gone in H. by rewrite zsum_map in H. }
  assert (H4 : msum (fun i x => if decide (i.1.1 <> n) then ents_w i x else 0) (z_shards z) +
               zsum (fun x => we (ZGone x)) (flat_map (fun x => if (x.1.1.1 =? n)%N then map (fun p => t_call p.1) (kept_tickets x.2) else []) (map_to_list (z_shards z)))
               <= msum ents_w (z_shards z)).
  { unfold msum. rewrite zsum_flat_map, <-zsum_plus. apply zsum_le. intros [[[n' s] a] m] _. cbn [fst snd].
    destruct (N.eqb_spec n' n) as [->|Hne].
    - rewrite decide_False by naive_solver. rewrite zsum_map. unfold kept_tickets. rewrite zsum_flat_map. unfold ents_w, msum. simpl.
      apply zsum_le. intros [id [rc st]] _. cbn [fst snd]. unfold estate_w. cbn [snd]. destruct st as [|buf|e|]; simpl; try lia.
      rewrite zsum_map. apply zsum_le. intros t _. cbn [fst]. apply gone_le.
    - rewrite decide_True by done. simpl. lia. }
  cbn [fst] in *. lia.
Qed.

(** Every step: what is left, with what happened, weighs no more than before. *)
Lemma zstep_w z o : total (zstep z o).1 + zsum we (zstep z o).2 <= total z.
Proof.
  destruct o as [n id m recipe encodes typed|i|n c|i a known|i|i d|i|i ok|n s a id rc|n s a|n].
  - cbn [Sharded_Model.zstep]. pose proof (Hcall (z_next z) n id m) as H.
    assert (forall e, we (ZCalled (z_next z) n id m) + we (ZReturned (z_next z) (SErr e)) <= 0) as He.
    { intros e. pose proof (Hret (z_next z) (SErr e)). pose proof (Hans (z_next z) id m (SErr e)). simpl in *. lia. }
    pose proof (He SClosed). pose proof (He SNotSupported). pose proof (He SSerialisation).
    destruct encodes, typed; [destruct (z_hosts z !! n)|..]; unfold total; simpl; rewrite ?zsum_app; simpl; try lia.
    unfold req_w, ticket_w. simpl. lia.
  - cbn [Sharded_Model.zstep]. destruct (z_mail z !! i) as [[n r]|] eqn:E; [|simpl; lia].
    destruct (z_hosts z !! n) as [h|] eqn:Eh; [|simpl; lia].
    pose proof (hstep_w h (MRequest (shard_of (t_ent (r_ticket r))) r) n) as H. destruct (hstep h _) as [h' eff]. cbn [fst snd hmsg_w] in H.
    pose proof (do_host_w z n (remove_nth i (z_mail z)) h h' eff Eh) as H2.
    pose proof (zsum_remove_nth (fun p => req_w p.2) _ _ _ E) as H3. cbn [snd] in H3. unfold total at 2. lia.
  - assert (forall c, hmsg_w c = 0 -> forall h, z_hosts z !! n = Some h -> let '(h', eff) := hstep h c in
              total (do_host readable z n (z_mail z) h' eff).1 + zsum we (do_host readable z n (z_mail z) h' eff).2 <= total z) as Hc.
    { intros c0 Hc0 h Eh. pose proof (hstep_w h c0 n) as H. destruct (hstep h c0) as [h' eff]. cbn [fst snd] in H.
      pose proof (do_host_w z n (z_mail z) h h' eff Eh). unfold total at 2. lia. }
    cbn [Sharded_Model.zstep]. destruct c as [s r|s m|s a|s|s req|s]; [simpl; lia|..];
      (destruct (z_hosts z !! n) as [h|]; [|simpl; lia]); match goal with |- context [hstep h ?c] => specialize (Hc c eq_refl h eq_refl); destruct (hstep h c); exact Hc end.
  - cbn [Sharded_Model.zstep]. destruct (z_tasks z !! i) as [[n s a' r|n m s r| | | ]|] eqn:E; try (simpl; lia).
    + pose proof (zsum_remove_nth task_w _ _ _ E) as H3. cbn [task_w] in H3.
      destruct (z_shards z !! (n, s, a')) as [m|] eqn:Es.
      * pose proof (shard_request_w z n s a' (remove_nth i (z_tasks z)) m r (r_ticket r) known Es). unfold total at 2. fold (req_w r) in *. lia.
      * unfold do_resolve. pose proof (resolve_w n (r_ticket r) (SErr SClosed) (t_ent (r_ticket r))) as H. destruct (resolve _ _ _ _) as [ts evs].
        cbn [fst snd] in *. unfold total. simpl. rewrite zsum_app. fold (req_w r) in *. lia.
    + pose proof (zsum_remove_nth task_w _ _ _ E) as H3. cbn [task_w] in H3.
      destruct (z_shards z !! (m, s, a)) as [e|] eqn:Es.
      * pose proof (shard_request_w z m s a (remove_nth i (z_tasks z)) e r (Ticket (t_call (r_ticket r)) (t_ent (r_ticket r)) (t_msg (r_ticket r)) (Some n)) known Es) as H.
        unfold total at 2. unfold req_w, ticket_w in *. simpl in *. lia.
      * unfold total. simpl. pose proof (gone_le (t_call (r_ticket r)) (t_ent (r_ticket r)) (t_msg (r_ticket r))). unfold req_w, ticket_w in *. lia.
  - cbn [Sharded_Model.zstep]. destruct (z_tasks z !! i) as [[ |n m s r| |n k o x| ]|] eqn:E; try (simpl; lia);
      pose proof (zsum_remove_nth task_w _ _ _ E) as H3; cbn [task_w] in H3; unfold total; simpl.
    + pose proof (gone_le (t_call (r_ticket r)) (t_ent (r_ticket r)) (t_msg (r_ticket r))). unfold req_w, ticket_w in *. lia.
    + pose proof (Hgone k x). lia.
  - cbn [Sharded_Model.zstep]. destruct (z_tasks z !! i) as [[ | |n s a id e t| | ]|] eqn:E; try (simpl; lia).
    pose proof (zsum_remove_nth task_w _ _ _ E) as H3. cbn [task_w] in H3.
    unfold do_resolve. pose proof (resolve_a n t (entity_result d)) as H. pose proof (resolve_w n t (entity_result d) id) as H'.
    destruct (resolve _ _ _ _) as [ts evs]. cbn [fst snd] in *. unfold total. simpl. rewrite zsum_app.
    destruct (entity_handled d) as [v|]; simpl; [|lia]. pose proof (Hhand (t_call t) id e (t_msg t) v (entity_result d)).
    unfold ticket_w in *. lia.
  - cbn [Sharded_Model.zstep]. destruct (z_tasks z !! i) as [[ | | |n k o x| ]|] eqn:E; try (simpl; lia).
    pose proof (zsum_remove_nth task_w _ _ _ E) as H3. cbn [task_w] in H3.
    destruct (z_waiting z !! k); unfold total; simpl; [pose proof (Hret k x)|pose proof (Hgone k x)]; lia.
  - cbn [Sharded_Model.zstep]. destruct (z_tasks z !! i) as [[ | | | |n s a id rc]|] eqn:E; try (simpl; lia).
    pose proof (zsum_remove_nth task_w _ _ _ E) as H3. cbn [task_w] in H3.
    destruct (z_shards z !! (n, s, a)) as [m|] eqn:Es; [|unfold total; simpl; lia].
    match goal with |- context [on_start_result m id ?r] => pose proof (on_start_result_w (n, s, a) m id r) as H; destruct (on_start_result m id r) as [m' eff] end.
    cbn [fst snd] in H. set (z' := Sys _ _ _ _ _ _ _).
    pose proof (do_shard_w z' n s a (remove_nth i (z_tasks z)) m m' eff Es) as H2. unfold total at 2.
    change (z_mail z') with (z_mail z) in H2. change (z_hosts z') with (z_hosts z) in H2. change (z_shards z') with (z_shards z) in H2. lia.
  - cbn [Sharded_Model.zstep]. destruct (z_shards z !! (n, s, a)) as [m|] eqn:Es; [|simpl; lia].
    pose proof (on_start_entity_w (n, s, a) m id rc) as H. destruct (on_start_entity m id rc) as [m' eff]. cbn [fst snd] in H.
    pose proof (do_shard_w z n s a (z_tasks z) m m' eff Es). unfold total at 2. lia.
  - cbn [Sharded_Model.zstep]. destruct (z_shards z !! (n, s, a)) as [m|] eqn:Es; [|simpl; lia].
    pose proof (kept_w n m (n, s, a)) as H. destruct (resolve_all _ _ _) as [ts evs]. cbn [fst snd] in *.
    unfold total. simpl. rewrite zsum_app, (msum_delete _ _ _ _ Es). lia.
  - apply crash_w.
Qed.

Lemma init_w nodes : total (sys_init nodes) = 0.
Proof.
  unfold total, sys_init. simpl. rewrite msum_empty. enough (msum host_w (list_to_map (map (fun n => (n, host_init n)) nodes)) = 0) by lia.
  induction nodes as [|n l IH]; simpl; [apply msum_empty|]. rewrite msum_set.
  destruct (list_to_map _ !! n) as [h|] eqn:E.
  - apply elem_of_list_to_map_2 in E. apply elem_of_list_fmap in E as (n' & [= -> ->] & _). unfold host_w at 3. simpl.
    rewrite !msum_empty. rewrite IH. unfold host_w. simpl. rewrite !msum_empty. lia.
  - unfold host_w at 2. simpl. rewrite !msum_empty. lia.
Qed.

Lemma run_w nodes ops : total (zrun nodes ops).1 + zsum we (zrun nodes ops).2 <= 0.
Proof.
  enough (forall z, total (run zstep z ops).1 + zsum we (concat (run zstep z ops).2) <= total z) as H.
  { specialize (H (sys_init nodes)). rewrite init_w in H. unfold Sharded_Model.zrun. destruct (run zstep _ ops). exact H. }
  induction ops as [|o ops IH]; intros z; simpl; [lia|].
  pose proof (zstep_w z o) as H1. destruct (zstep z o) as [z' evs]. cbn [fst snd] in H1. specialize (IH z').
  destruct (run zstep z' ops) as [z'' evss]. cbn [fst snd concat] in *. rewrite zsum_app. lia.
Qed.

End weights.
