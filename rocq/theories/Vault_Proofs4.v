(** Persistent sharded entities: what handlers see. *)
From Verif Require Import Journal_Model Journal_Spec Durable_Model Durable_Spec Durable_Proofs.
From Verif Require Import Host_Model Entity_Model Sharded_Model Sharded_Spec Sharded_Results Vault_Model Vault_Spec Vault_Proofs Vault_Proofs2 Vault_Proofs3.
Local Open Scope N_scope.

(** ** The order of the events of an incarnation *)
Section order.
Context {St : Type} (S : storage St) (conf : string -> jtypes).
Implicit Types (d : dsys (St := St)).

Definition before (t1 : list devent) (e : devent) : Prop :=
  match e with
  | VStart i _ => forall p, VStart i p ∉ t1
  | VRecovered i p _ _ => VStart i p ∈ t1
  | VAnswer i p c _ => VStart i p ∈ t1 /\ VCall i p c ∈ t1
  | _ => True
  end.
Definition orderly (t : list devent) : Prop := forall t1 e t2, t = t1 ++ e :: t2 -> before t1 e.
Definition loaded d (t : list devent) : Prop :=
  forall i x, d_incs d !! i = Some x -> i_loading x = None -> exists snap ms, VRecovered i (i_pid x) snap ms ∈ t.

Definition asked d (t : list devent) : Prop :=
  forall i x k c, d_incs d !! i = Some x -> i_call x = Some (k, c) -> VCall i (i_pid x) c ∈ t.

Lemma orderly_one t e : orderly t -> before t e -> orderly (t ++ [e]).
Proof.
  intros H1 H2 t1 e' t2 E. apply split_app in E as [(u & -> & ->)|(u & E & ->)]; [by eapply H1|].
  destruct u as [|? u]; [|by destruct u]. injection E as -> <-. by rewrite app_nil_r.
Qed.
Lemma orderly_other t evs : orderly t -> Forall (fun e => match e with VCall _ _ _ | VGone _ _ => True | _ => False end) evs -> orderly (t ++ evs).
Proof.
  intros H1 H2 t1 e' t2 E. apply split_app in E as [(u & -> & ->)|(u & -> & ->)]; [by eapply H1|].
  rewrite Forall_app, Forall_cons in H2. destruct H2 as (_ & H & _). by destruct e'.
Qed.
Lemma orderly_step d t o : alive d t -> asked d t -> orderly t -> orderly (t ++ (dstep S conf d o).2).
Proof.
  intros A K O. assert (On : orderly (t ++ [])) by (by rewrite app_nil_r). destruct d as [st incs fl n].
  destruct o as [pid|i|i c|k|i ok|i]; cbn [dstep].
  - destruct (recover_snapshot S conf pid journal_new st). apply orderly_one; [done|]. intros p H. apply (al_next _ _ A) in H. cbn in H. lia.
  - destruct (incs !! i) as [[pid jn [snap|] call]|] eqn:Ei; try done. destruct (recover_messages S conf pid jn st).
    apply orderly_one; [done|]. cbn. exact (proj1 (al_incs _ _ A _ _ Ei)).
  - destruct (incs !! i) as [[pid jn [|] [|]]|] eqn:Ei; try done. pose proof (proj1 (al_incs _ _ A _ _ Ei)) as Hs. cbn [i_pid] in Hs.
    destruct (call_write conf pid c jn) as [[|]|]; cbn [snd]; [apply orderly_other; [done|]; by repeat constructor| |apply orderly_other; [done|]; by repeat constructor].
    change (orderly (t ++ [VCall i pid c] ++ [VAnswer i pid c (empty_answer c)])). rewrite app_assoc. apply orderly_one; [apply orderly_other; [done|]; by repeat constructor|].
    cbn. split; apply elem_of_app; [by left|right; by left].
  - destruct (fl !! k) as [[]|]; done.
  - destruct (incs !! i) as [[pid jn l [[k c]|]]|] eqn:Ei; try done. pose proof (proj1 (al_incs _ _ A _ _ Ei)) as Hs. pose proof (K _ _ _ _ Ei eq_refl) as Hk.
    destruct ok; [destruct (fl !! k)|]; try done; apply orderly_one; done.
  - destruct (incs !! i); [|done]. apply orderly_other; cbn; repeat constructor; done.
Qed.
Lemma loaded_step d t o : loaded d t -> loaded (dstep S conf d o).1 (t ++ (dstep S conf d o).2).
Proof.
  intros L. assert (Ln : forall evs j x, d_incs d !! j = Some x -> i_loading x = None -> exists snap ms, VRecovered j (i_pid x) snap ms ∈ t ++ evs).
  { intros evs j x Hx Hl. destruct (L _ _ Hx Hl) as (snap & ms & H). exists snap, ms. apply elem_of_app. by left. }
  destruct d as [st incs fl n]. cbn [d_incs] in Ln.
  destruct o as [pid|i|i c|k|i ok|i]; cbn [dstep].
  - destruct (recover_snapshot S conf pid journal_new st) as [j snap]. intros i x. cbn [d_incs fst snd]. destruct (decide (i = n)) as [->|Hne]; [rewrite lookup_insert; by intros [= <-]|].
    rewrite lookup_insert_ne by done. apply Ln.
  - destruct (incs !! i) as [[pid jn [snap|] call]|] eqn:Ei; try exact (Ln _). destruct (recover_messages S conf pid jn st) as [j' ms].
    intros i' x. cbn [d_incs fst snd]. destruct (decide (i' = i)) as [->|Hne]; [rewrite lookup_insert|rewrite lookup_insert_ne by done; apply Ln].
    intros [= <-] _. cbn. eexists _, _. apply elem_of_app. right. by left.
  - destruct (incs !! i) as [[pid jn [|] [|]]|] eqn:Ei; try exact (Ln _). destruct (call_write conf pid c jn) as [[|]|]; intros i' x; cbn [d_incs fst snd].
    + destruct (decide (i' = i)) as [->|Hne]; [rewrite lookup_insert|rewrite lookup_insert_ne by done; apply Ln]. intros [= <-] _. by apply (Ln _ _ _ Ei).
    + apply Ln.
    + intros [_ Hx]%lookup_delete_Some. by apply Ln.
  - destruct (fl !! k) as [[]|]; exact (Ln _).
  - destruct (incs !! i) as [[pid jn l [[k c]|]]|] eqn:Ei; try exact (Ln _). destruct ok; [destruct (fl !! k)|]; try exact (Ln _); intros i' x; cbn [d_incs fst snd];
      (destruct (decide (i' = i)) as [->|Hne]; [rewrite lookup_insert|rewrite lookup_insert_ne by done; apply Ln]); intros [= <-] Hl; by apply (Ln _ _ _ Ei).
  - destruct (incs !! i) eqn:Ei; [|exact (Ln _)]. intros i' x. cbn [d_incs fst snd]. intros [_ Hx]%lookup_delete_Some. by apply Ln.
Qed.
Lemma asked_step d t o : asked d t -> asked (dstep S conf d o).1 (t ++ (dstep S conf d o).2).
Proof.
  intros L. assert (Ln : forall evs j x k c, d_incs d !! j = Some x -> i_call x = Some (k, c) -> VCall j (i_pid x) c ∈ t ++ evs).
  { intros evs j x k c Hx Hl. apply elem_of_app. left. by eapply L. }
  destruct d as [st incs fl n]. cbn [d_incs] in Ln.
  destruct o as [pid|i|i c|k|i ok|i]; cbn [dstep].
  - destruct (recover_snapshot S conf pid journal_new st) as [j snap]. intros i x. cbn [d_incs fst snd]. destruct (decide (i = n)) as [->|Hne]; [rewrite lookup_insert; by intros ?? [= <-]|].
    rewrite lookup_insert_ne by done. apply Ln.
  - destruct (incs !! i) as [[pid jn [snap|] call]|] eqn:Ei; try exact (Ln _). destruct (recover_messages S conf pid jn st) as [j' ms].
    intros i' x. cbn [d_incs fst snd]. destruct (decide (i' = i)) as [->|Hne]; [rewrite lookup_insert|rewrite lookup_insert_ne by done; apply Ln].
    intros k c [= <-] Hc. exact (Ln _ _ _ _ _ Ei Hc).
  - destruct (incs !! i) as [[pid jn [|] [|]]|] eqn:Ei; try exact (Ln _). destruct (call_write conf pid c jn) as [[|]|]; intros i' x; cbn [d_incs fst snd].
    + destruct (decide (i' = i)) as [->|Hne]; [rewrite lookup_insert|rewrite lookup_insert_ne by done; apply Ln]. intros k' c' [= <-] [= <- <-]. apply elem_of_app. right. by left.
    + apply Ln.
    + intros k' c' [_ Hx]%lookup_delete_Some. by apply Ln.
  - destruct (fl !! k) as [[]|]; exact (Ln _).
  - destruct (incs !! i) as [[pid jn l [[k c]|]]|] eqn:Ei; try exact (Ln _). destruct ok; [destruct (fl !! k)|]; try exact (Ln _); intros i' x; cbn [d_incs fst snd];
      (destruct (decide (i' = i)) as [->|Hne]; [rewrite lookup_insert|rewrite lookup_insert_ne by done; apply Ln]); by intros k' c' [= <-] Hl.
  - destruct (incs !! i) eqn:Ei; [|exact (Ln _)]. intros i' x k' c'. cbn [d_incs fst snd]. intros [_ Hx]%lookup_delete_Some. by apply Ln.
Qed.
Lemma drun_orderly st l : alive (drun S conf (durable_init st) l).1 (drun S conf (durable_init st) l).2 /\
  orderly (drun S conf (durable_init st) l).2 /\ loaded (drun S conf (durable_init st) l).1 (drun S conf (durable_init st) l).2 /\
  asked (drun S conf (durable_init st) l).1 (drun S conf (durable_init st) l).2.
Proof.
  induction l as [|o l IH] using rev_ind.
  - cbn. split; [apply alive_init|]. split; [intros [] ? ? [=]|]. by split.
  - rewrite drun_app. destruct (drun S conf (durable_init st) l) as [d1 t1]. cbn [fst snd] in IH. destruct IH as (I1 & I2 & I3 & I4). pose proof (asked_step d1 t1 o I4) as H4.
    pose proof (alive_step S conf d1 t1 o I1) as H1. pose proof (orderly_step d1 t1 o I1 I4 I2) as H2. pose proof (loaded_step d1 t1 o I3) as H3.
    rewrite drun_one. by destruct (dstep S conf d1 o).
Qed.
End order.

Section served.
Context {St : Type} (S : storage St) (conf : string -> jtypes).
Variable shard_of : N -> N.
Variable readable : bytes -> bool.
Variable pid_of : N -> string.
Variable stored_as : bytes -> option (N * bytes).
Variable answer : list (N * bytes) -> bytes -> bytes.
Variable failure : bytes.
Notation wstep := (wstep S conf shard_of readable pid_of stored_as answer failure).
Notation wruns := (wruns S conf shard_of readable pid_of stored_as answer failure).
Notation act := (act S conf shard_of readable).
Notation keep := (keep S conf shard_of readable).
Notation zstep := (zstep shard_of readable).
Notation zrun := (zrun shard_of readable).
Notation drun := (drun S conf).
Notation link := (link S conf shard_of readable pid_of stored_as).
Implicit Types (w : wsys St) (d : dsys (St := St)) (tr : list wevent).

(** What is true when a handler ends with a result. *)
Definition served (tr : list wevent) (id e : N) (m v : bytes) : Prop := exists i,
  WUp e i ∈ tr /\ VStart i (pid_of id) ∈ journals tr /\ (forall p, VGone i p ∉ journals tr) /\
  (exists snap ms, VRecovered i (pid_of id) snap ms ∈ journals tr) /\
  match stored_as m with
  | None => v = answer (view i (journals tr)) m
  | Some x => v = failure \/ VAnswer i (pid_of id) (CPersist x.1 x.2) true ∈ journals tr /\ v = answer (view i (journals tr)) m
  end.

Lemma act_handled w ds zs new actors ups u k id e m v u' : ups = [] \/ (exists e' i', ups = [WUp e' i']) ->
  (act w ds zs new actors ups).2 = u ++ WZ (ZHandled k id e m v) :: u' ->
  exists z1 z2, (zruns shard_of readable (w_z w) zs).2 = z1 ++ ZHandled k id e m v :: z2 /\ u = map WD (drun (w_d w) ds).2 ++ ups ++ map WZ z1 /\ u' = map WZ z2.
Proof.
  intros Hu E. rewrite act_eq in E. cbn [snd] in E. apply split_app in E as [(x & E & _)|(x & E & ->)].
  { exfalso. assert (H : WZ (ZHandled k id e m v) ∈ map WD (drun (w_d w) ds).2) by (rewrite E; apply elem_of_app; right; by left). by apply elem_of_list_fmap in H as (? & ? & _). }
  apply split_app in E as [(y & E & _)|(y & E & ->)].
  { exfalso. assert (H : WZ (ZHandled k id e m v) ∈ ups) by (rewrite E; apply elem_of_app; right; by left). destruct Hu as [-> |(? & ? & ->)]; [by apply elem_of_nil in H|by apply elem_of_list_singleton in H]. }
  apply fmap_app_inv in E as (z1 & z2 & -> & E & ->). destruct z2 as [|? z2]; [done|]. injection E as <- ->. by exists z1, z2.
Qed.
Lemma keep_unhandled w ds zs u k id e m v u' : Forall (fun o => forall i x, o <> OEntity i x) zs -> length zs = 1%nat \/ zs = [] -> (keep w ds zs).2 <> u ++ WZ (ZHandled k id e m v) :: u'.
Proof.
  intros Hf Hl E. apply act_handled in E as (z1 & z2 & E & _); [|by left]. destruct Hl as [Hl|Hl]; [|subst zs; by destruct z1].
  destruct zs as [|o [|]]; try done. rewrite zruns_one in E. inversion_clear Hf as [|?? Ho _]. apply (step_unhandled shard_of readable (w_z w) o Ho k id e m v). rewrite E. apply elem_of_app. right. by left.
Qed.
Lemma entity_handled_at w ds t n s a id e k (d : outcome) new actors u kk id' e' m v u' : z_tasks (w_z w) !! t = Some (TEntity n s a id e k) ->
  (act w ds [OEntity t d] new actors []).2 = u ++ WZ (ZHandled kk id' e' m v) :: u' ->
  entity_handled d = Some v /\ kk = t_call k /\ id' = id /\ e' = e /\ m = t_msg k /\ u = map WD (drun (w_d w) ds).2 /\ journals u' = [].
Proof.
  intros Ht E. apply act_handled in E as (z1 & z2 & E & -> & ->); [|by left]. rewrite zruns_one in E.
  destruct (entity_step shard_of readable (w_z w) t n s a id e k d Ht) as (evs & Hn & Ev). rewrite Ev in E.
  assert (Hno : forall l, no_handled l -> l <> z1 ++ ZHandled kk id' e' m v :: z2).
  { intros l Hl ->. apply (Hl kk id' e' m v). apply elem_of_app. right. by left. }
  destruct (entity_handled d) as [v0|]; [|by destruct (Hno evs)]. destruct z1 as [|? z1].
  - cbn in E. injection E as -> -> -> -> -> <-. cbn. rewrite app_nil_r. split_and!; try done. apply journals_wz.
  - exfalso. injection E as _ E. apply (Hn kk id' e' m v). rewrite E. apply elem_of_app. right. by left.
Qed.

Lemma link_orderly nodes st0 w tr : link nodes st0 w tr -> orderly (journals tr) /\ loaded (w_d w) (journals tr).
Proof.
  intros L. destruct (lk_d _ _ _ _ _ _ _ _ _ _ L) as [ops E]. destruct (drun_orderly S conf st0 ops) as (_ & H1 & H2 & _). rewrite <- E in H1, H2. done.
Qed.

(** An actor that runs. *)
Lemma runs_served nodes st0 w tr e x : link nodes st0 w tr -> w_actors w !! e = Some x -> runs w (a_inc x) = true ->
  WUp e (a_inc x) ∈ tr /\ VStart (a_inc x) (pid_of (a_ent x)) ∈ journals tr /\ (forall p, VGone (a_inc x) p ∉ journals tr) /\
  (exists snap ms, VRecovered (a_inc x) (pid_of (a_ent x)) snap ms ∈ journals tr) /\ a_state x = view (a_inc x) (journals tr).
Proof.
  intros L Hx Hr. apply bool_decide_eq_true in Hr as [c Hc]. destruct (lk_act _ _ _ _ _ _ _ _ _ _ L _ _ Hx) as (_ & _ & Ok).
  destruct (Ok _ Hc) as (O1 & O2 & O3 & _). destruct (al_incs _ _ (lk_alive _ _ _ _ _ _ _ _ _ _ L) _ _ Hc) as (A1 & _ & A3). rewrite O1 in A1.
  split; [by apply (lk_ups _ _ _ _ _ _ _ _ _ _ L)|]. split; [done|]. split; [done|]. split; [|done].
  destruct (proj2 (link_orderly _ _ _ _ L) _ _ Hc O2) as (snap & ms & H). rewrite O1 in H. by exists snap, ms.
Qed.

Lemma step_served nodes st0 w tr o u k id e m v u' : link nodes st0 w tr ->
  (wstep w o).2 = u ++ WZ (ZHandled k id e m (Some v)) :: u' -> served (tr ++ u) id e m v.
Proof.
  intros L E. assert (Hnil : forall A (x : A) u u', [] <> u ++ x :: u') by (intros A ? [] ?; done).
  pose proof (link_step S conf shard_of readable pid_of stored_as answer failure nodes st0 w tr o L) as L'.
  destruct o as [o|t|i|t i|t|t|e0 t|e0|e0 t|t d|i|j|n]; cbn [Vault_Model.wstep] in E, L'.
  - destruct (passes o) eqn:Hp; [|by apply Hnil in E]. exfalso. eapply keep_unhandled; [| |exact E]; [|by left]. constructor; [|constructor]. intros i d ->. done.
  - exfalso. destruct (z_tasks (w_z w) !! t) as [[]|]; try by apply Hnil in E. apply act_handled in E as (z1 & z2 & E & _); [|by left]. by apply Hnil in E.
  - exfalso. destruct (w_new w !! i) as [[[n id'] [?|]]|]; try by apply Hnil in E. destruct (loads S conf w i); [|by apply Hnil in E].
    apply act_handled in E as (z1 & z2 & E & _); [|by left]. by apply Hnil in E.
  - exfalso. destruct (z_tasks (w_z w) !! t) as [[| | | |n s a id' rc]|]; try by apply Hnil in E. destruct (w_new w !! i) as [[[n' id''] [ms|]]|]; try by apply Hnil in E.
    destruct ((n' =? n) && (id'' =? id') && runs w i); [|by apply Hnil in E]. apply act_handled in E as (z1 & z2 & E & _); [|right; by eexists _, _].
    rewrite zruns_one in E. apply (step_unhandled shard_of readable (w_z w) (OCreated t true) ltac:(done) k id e m (Some v)). rewrite E. apply elem_of_app. right. by left.
  - exfalso. eapply keep_unhandled; [| |exact E]; [|by left]. by repeat constructor.
  - destruct (z_tasks (w_z w) !! t) as [[| |n s a id' e' k'| |]|] eqn:Et; try by apply Hnil in E. destruct (w_actors w !! e') as [[nn ent i st [|]]|] eqn:Ea; try by apply Hnil in E.
    destruct (runs w i) eqn:Er; [|by apply Hnil in E]. 
    assert (ent = id') as ->. { destruct (ow_tasks _ _ (lk_owned _ _ _ _ _ _ _ _ _ _ L) _ _ _ _ _ _ (elem_of_list_lookup_2 _ _ _ Et)) as [_ Ho]. by apply (Ho _ Ea). }
    destruct (stored_as (t_msg k')) as [[ty b]|] eqn:Es.
    { exfalso. apply act_handled in E as (z1 & z2 & E & _); [|by left]. by apply Hnil in E. }
    eapply entity_handled_at in E as (Ev & -> & -> & -> & -> & -> & _); [|exact Et]. cbn [map Durable_Model.drun snd]. rewrite app_nil_r. injection Ev as <-.
    destruct (runs_served _ _ _ _ _ _ L Ea Er) as (R1 & R2 & R3 & R4 & R5). cbn [a_inc a_ent a_state] in *. exists i. split_and!; try done. rewrite Es. by rewrite R5.
  - destruct (w_actors w !! e0) as [[nn ent i st [k0|]]|] eqn:Ea; try by apply Hnil in E. destruct (z_tasks (w_z w) !! t) as [[| |n s a id' e' k'| |]|] eqn:Et; try by apply Hnil in E.
    destruct ((e' =? e0) && bool_decide (k' = k0)) eqn:Eb; [|by apply Hnil in E]. apply andb_true_iff in Eb as [->%N.eqb_eq ->%bool_decide_eq_true].
    assert (ent = id') as ->. { destruct (ow_tasks _ _ (lk_owned _ _ _ _ _ _ _ _ _ _ L) _ _ _ _ _ _ (elem_of_list_lookup_2 _ _ _ Et)) as [_ Ho]. by apply (Ho _ Ea). }
    destruct (Durable_Model.drun S conf (w_d w) [DAnswer i true]).2 as [|dv [|]] eqn:Ed; try by apply Hnil in E. destruct (stored_as (t_msg k0)) as [x|] eqn:Es; [|by apply Hnil in E].
    pose proof E as E2. eapply entity_handled_at in E as (Ev & -> & -> & -> & -> & Eu & Eu'); [|exact Et]. injection Ev as <-. rewrite Ed in Eu.
    set (r := act w _ _ _ _ _) in *. assert (Ej : journals (tr ++ r.2) = journals (tr ++ u)).
    { rewrite E2. rewrite !journals_app. f_equal. transitivity (journals u ++ []); [f_equal; exact Eu'|apply app_nil_r]. }
    assert (Ea' : w_actors r.1 !! e0 = Some (EActor nn id' i (st ++ [x]) None)).
    { unfold r. rewrite act_eq. cbn. unfold set_actor. rewrite Ea. by rewrite lookup_insert. }
    assert (Hd : runs r.1 i = true /\ exists pid kk c, dv = VAnswer i pid c true /\ d_incs (w_d w) !! i = Some kk /\ i_pid kk = pid /\ exists yy, i_call kk = Some (yy, c)).
    { unfold r, runs. rewrite act_eq. cbn [fst w_d]. rewrite drun_one in Ed |- *. destruct (w_d w) as [st1 incs fl nx]. cbn [dstep] in *. destruct (incs !! i) as [[pid jn l [[kk c']|]]|] eqn:Ei; try done.
      destruct (fl !! kk); [done|]. cbn [fst snd d_incs] in *. injection Ed as <-. split; [apply bool_decide_eq_true; rewrite lookup_insert; by eexists|].
      cbn [d_incs]. rewrite Ei. eexists _, _, _. split; [done|]. split; [done|]. split; [done|]. by eexists. }
    destruct Hd as (Hr & pid & kk & c & -> & Hkk & Hp & (yy & Hc)).
    destruct (runs_served _ _ _ _ _ _ L' Ea' Hr) as (R1 & R2 & R3 & R4 & R5). cbn [a_inc a_ent a_state] in *. rewrite Ej in *.
    exists i. split.
    { apply elem_of_app. left. exact (lk_ups _ _ _ _ _ _ _ _ _ _ L _ _ Ea). }
    split; [done|]. split; [done|]. split; [done|]. rewrite Es. right. split; [|by rewrite R5].
    destruct (lk_act _ _ _ _ _ _ _ _ _ _ L _ _ Ea) as (_ & _ & Ok). destruct (Ok _ Hkk) as (O1 & _ & _ & (ty & b & n' & O4 & (y2 & O5) & _)). cbn [a_ent] in O1.
    rewrite Hc in O5. injection O5 as _ ->. rewrite Es in O4. injection O4 as ->. rewrite Eu, journals_app, <- Hp, O1. apply elem_of_app. right. by left.
  - exfalso. destruct (w_actors w !! e0) as [[nn ent i st [k0|]]|]; try by apply Hnil in E. destruct (stored_as (t_msg k0)) as [[ty b]|]; [|by apply Hnil in E].
    eapply keep_unhandled; [| |exact E]; [constructor|by right].
  - destruct (w_actors w !! e0) as [[nn ent i st [k0|]]|] eqn:Ea; try by apply Hnil in E. destruct (z_tasks (w_z w) !! t) as [[| |n s a id' e' k'| |]|] eqn:Et; try by apply Hnil in E.
    destruct ((e' =? e0) && bool_decide (k' = k0) && runs w i) eqn:Eb; [|by apply Hnil in E]. apply andb_true_iff in Eb as [[->%N.eqb_eq ->%bool_decide_eq_true]%andb_true_iff Er].
    assert (ent = id') as ->. { destruct (ow_tasks _ _ (lk_owned _ _ _ _ _ _ _ _ _ _ L) _ _ _ _ _ _ (elem_of_list_lookup_2 _ _ _ Et)) as [_ Ho]. by apply (Ho _ Ea). }
    destruct (runs_served _ _ _ _ _ _ L Ea Er) as (R1 & R2 & R3 & R4 & R5). cbn [a_inc a_ent a_state] in *.
    eapply entity_handled_at in E as (Ev & -> & -> & -> & -> & -> & _); [|exact Et]. injection Ev as <-. exists i.
    apply bool_decide_eq_true in Er as [c Hc]. destruct (lk_act _ _ _ _ _ _ _ _ _ _ L _ _ Ea) as (_ & _ & Ok). destruct (Ok _ Hc) as (_ & _ & _ & (ty & b & n' & O4 & _)).
    split; [apply elem_of_app; by left|]. rewrite journals_app, journals_wd. split; [apply elem_of_app; by left|]. split.
    { intros p. rewrite elem_of_app. intros [H|H]; [by apply R3 in H|]. rewrite drun_one in H. destruct (w_d w) as [st1 incs fl nx]. cbn [dstep] in H.
      destruct (incs !! i) as [[pid jn l [[kk c']|]]|]; cbn [snd] in H; try by apply elem_of_nil in H. by apply elem_of_list_singleton in H. }
    split; [destruct R4 as (snap & ms & R4); exists snap, ms; apply elem_of_app; by left|]. rewrite O4. by left.
  - exfalso. destruct (z_tasks (w_z w) !! t) as [[| |n s a id' e' k'| |]|] eqn:Et; try by apply Hnil in E.
    assert (Hk : entity_handled d <> Some (Some v) -> (keep w [] [OEntity t d]).2 <> u ++ WZ (ZHandled k id e m (Some v)) :: u').
    { intros Hd Hk. eapply entity_handled_at in Hk as (Ev & _); [|exact Et]. done. }
    destruct d; repeat case_match; first [by apply Hnil in E | by apply Hk in E].
  - exfalso. eapply keep_unhandled; [| |exact E]; [constructor|by right].
  - exfalso. eapply keep_unhandled; [| |exact E]; [constructor|by right].
  - exfalso. eapply keep_unhandled; [| |exact E]; [by repeat constructor|by left].
Qed.

(** Every handler run with a result. *)
Theorem handled_served nodes st0 ops t1 k id e m v t2 :
  (wruns (wsys_init nodes st0) ops).2 = t1 ++ WZ (ZHandled k id e m (Some v)) :: t2 -> served t1 id e m v.
Proof.
  revert t2. induction ops as [|o ops IH] using rev_ind; intros t2 E; [by destruct t1|]. rewrite wruns_snoc in E. cbn [snd] in E.
  apply split_app in E as [(u & E & ->)|(u & E & ->)]; [by eapply IH|].
  eapply step_served; [|exact E]. apply link_run.
Qed.

(** Storing calls are made for requests to the entity. *)
Theorem calls_genuine nodes st0 ops t1 i p c t2 :
  (wruns (wsys_init nodes st0) ops).2 = t1 ++ WD (VCall i p c) :: t2 ->
  exists k n id m x, p = pid_of id /\ stored_as m = Some x /\ c = CPersist x.1 x.2 /\ WZ (ZCalled k n id m) ∈ t1.
Proof.
  revert t2. induction ops as [|o ops IH] using rev_ind; intros t2 H; [by destruct t1|].
  pose proof (link_run S conf shard_of readable pid_of stored_as answer failure nodes st0 ops) as L. rewrite wruns_snoc in H. cbn [snd] in H.
  apply split_app in H as [(u & H & ->)|(u & H & ->)]; [by eapply IH|].
  clear IH. generalize dependent (wruns (wsys_init nodes st0) ops). intros [w tr] H' L. cbn [fst snd] in *.
  assert (H : VCall i p c ∈ journals (wstep w o).2) by (rewrite H', journals_app; apply elem_of_app; right; by left). clear H'.
  assert (Hact : forall ds zs new actors ups, VCall i p c ∈ journals (act w ds zs new actors ups).2 -> journals ups = [] -> VCall i p c ∈ (drun (w_d w) ds).2).
  { intros ds zs new actors ups Hin Hu. rewrite act_eq in Hin. cbn [snd] in Hin. by rewrite act_journals in Hin. }
  assert (Hcrash : forall l d, VCall i p c ∉ (drun d (map DCrash l)).2).
  { induction l as [|j l IHl]; intros d; cbn [map Durable_Model.drun]; [by intros ?%elem_of_nil|]. intros Hin.
    destruct (dstep S conf d (DCrash j)) as [d1 e1] eqn:E1. specialize (IHl d1). destruct (drun d1 (map DCrash l)) as [d2 e2]. cbn [snd] in *. apply elem_of_app in Hin as [Hin|Hin]; [|done].
    destruct d as [st1 incs fl nx]. cbn in E1. destruct (incs !! j); injection E1 as <- <-; [by apply elem_of_list_singleton in Hin|by apply elem_of_nil in Hin]. }
  assert (Hone : forall d o, (forall i' c', o <> DCall i' c') -> VCall i p c ∉ (drun d [o]).2).
  { intros [st1 incs fl nx] o' Ho. rewrite drun_one. destruct o'; cbn [dstep]; repeat case_match; cbn [snd]; intros Hin; rewrite ?elem_of_cons, ?elem_of_nil in Hin; destruct_or? Hin; try done. all: by eapply Ho. }
  assert (Hcall : forall d i' c', VCall i p c ∈ (dstep S conf d (DCall i' c')).2 -> i' = i /\ c' = c /\ exists x, d_incs d !! i = Some x /\ i_pid x = p).
  { intros [st1 incs fl nx] i' c' Hin. cbn [dstep d_incs] in *. destruct (incs !! i') as [[pid jn [|] [|]]|] eqn:Ei; try by apply elem_of_nil in Hin.
    assert (Hc : i' = i /\ pid = p /\ c' = c) by (destruct (call_write conf pid c' jn) as [[|]|]; cbn [snd] in Hin; rewrite ?elem_of_cons, ?elem_of_nil in Hin; destruct_or? Hin; simplify_eq; done).
    destruct Hc as (-> & -> & ->). split; [done|]. split; [done|]. rewrite Ei. by eexists. }
  destruct o as [o|t|i0|t i0|t|t|e0 t|e0|e0 t|t d|i0|j|n]; cbn [Vault_Model.wstep] in H |- *.

  - destruct (passes o); [|by apply elem_of_nil in H]. apply Hact in H; [|done]. by apply elem_of_nil in H.
  - destruct (z_tasks (w_z w) !! t) as [[]|]; try by apply elem_of_nil in H. apply Hact in H; [|done]. by apply Hone in H.
  - destruct (w_new w !! i0) as [[[n id'] [?|]]|]; try by apply elem_of_nil in H. destruct (loads S conf w i0); [|by apply elem_of_nil in H].
    apply Hact in H; [|done]. by apply Hone in H.
  - destruct (z_tasks (w_z w) !! t) as [[| | | |n s a id' rc]|]; try by apply elem_of_nil in H. destruct (w_new w !! i0) as [[[n' id''] [ms|]]|]; try by apply elem_of_nil in H.
    destruct ((n' =? n) && (id'' =? id') && runs w i0); [|by apply elem_of_nil in H]. apply Hact in H; [|done]. by apply elem_of_nil in H.
  - apply Hact in H; [|done]. by apply elem_of_nil in H.
  - destruct (z_tasks (w_z w) !! t) as [[| |n s a id' e' k'| |]|] eqn:Et; try by apply elem_of_nil in H. destruct (w_actors w !! e') as [[nn ent i1 st [|]]|] eqn:Ea; try by apply elem_of_nil in H.
    destruct (runs w i1) eqn:Er; [|by apply elem_of_nil in H]. destruct (stored_as (t_msg k')) as [[ty b]|] eqn:Es.
    2: { apply Hact in H; [|done]. by apply elem_of_nil in H. }
    apply Hact in H; [|done]. rewrite drun_one in H. apply Hcall in H as (-> & <- & (x & Hx & <-)).
    assert (ent = id') as ->. { destruct (ow_tasks _ _ (lk_owned _ _ _ _ _ _ _ _ _ _ L) _ _ _ _ _ _ (elem_of_list_lookup_2 _ _ _ Et)) as [_ Ho]. by apply (Ho _ Ea). }
    destruct (lk_act _ _ _ _ _ _ _ _ _ _ L _ _ Ea) as (_ & _ & Ok). destruct (Ok _ Hx) as (O1 & _). cbn [a_ent] in O1.
    destruct (lk_z _ _ _ _ _ _ _ _ _ _ L) as [zo Hzo]. assert (Hz1 : w_z w = (zrun nodes zo).1) by (by rewrite <- Hzo). assert (Hz2 : requests tr = (zrun nodes zo).2) by (by rewrite <- Hzo).
    rewrite Hz1 in Et. destruct (task_called _ _ _ _ _ _ _ _ _ _ _ Et) as [n' Hn']. rewrite <- Hz2 in Hn'. apply requests_elem in Hn'.
    exists (t_call k'), n', id', (t_msg k'), (ty, b). split_and!; try done. apply elem_of_app. by left.
  - destruct (w_actors w !! e0) as [[nn ent i1 st [k0|]]|]; try by apply elem_of_nil in H. destruct (z_tasks (w_z w) !! t) as [[| |n s a id' e' k'| |]|]; try by apply elem_of_nil in H.
    destruct ((e' =? e0) && bool_decide (k' = k0)); [|by apply elem_of_nil in H].
    destruct (Durable_Model.drun S conf (w_d w) [DAnswer i1 true]).2 as [|dv [|]] eqn:Ed; try by apply elem_of_nil in H. destruct (stored_as (t_msg k0)) as [x|]; [|by apply elem_of_nil in H].
    apply Hact in H; [|done]. by apply Hone in H.
  - destruct (w_actors w !! e0) as [[nn ent i1 st [k0|]]|] eqn:Ea; try by apply elem_of_nil in H. destruct (stored_as (t_msg k0)) as [[ty b]|] eqn:Es; [|by apply elem_of_nil in H].
    apply Hact in H; [|done]. rewrite drun_two in H. apply elem_of_app in H as [H|H]; [rewrite <- drun_one in H; by apply Hone in H|].
    apply Hcall in H as (-> & <- & (x & Hx & <-)).
    assert (Hx' : exists x', d_incs (w_d w) !! i = Some x' /\ i_pid x' = i_pid x).
    { destruct (w_d w) as [st1 incs fl nx]. cbn [dstep d_incs] in *. destruct (incs !! i) as [[pid jn l [[kk c']|]]|] eqn:Ei; cbn [fst d_incs] in Hx.
      - rewrite lookup_insert in Hx. injection Hx as <-. by eexists.
      - rewrite Ei in Hx. injection Hx as <-. by eexists.
      - congruence. }
    destruct Hx' as (x' & Hx' & <-). destruct (lk_act _ _ _ _ _ _ _ _ _ _ L _ _ Ea) as (_ & _ & Ok). destruct (Ok _ Hx') as (O1 & _ & _ & (ty' & b' & n' & O4 & _ & O6)). cbn [a_ent] in *.
    apply requests_elem in O6. exists (t_call k0), n', ent, (t_msg k0), (ty, b). split_and!; try done. apply elem_of_app. by left.
  - destruct (w_actors w !! e0) as [[nn ent i1 st [k0|]]|]; try by apply elem_of_nil in H. destruct (z_tasks (w_z w) !! t) as [[| |n s a id' e' k'| |]|]; try by apply elem_of_nil in H.
    destruct ((e' =? e0) && bool_decide (k' = k0) && runs w i1); [|by apply elem_of_nil in H]. apply Hact in H; [|done]. by apply Hone in H.
  - assert (Hk : VCall i p c ∉ journals (keep w [] [OEntity t d]).2). { intros Hin. apply Hact in Hin; [|done]. by apply elem_of_nil in Hin. }
    destruct (z_tasks (w_z w) !! t) as [[| |n s a id' e' k'| |]|]; try by apply elem_of_nil in H.
    destruct d; repeat case_match; first [by apply Hk in H | by apply elem_of_nil in H].
  - apply Hact in H; [|done]. by apply Hone in H.
  - apply Hact in H; [|done]. by apply Hone in H.
  - apply Hact in H; [|done]. by apply Hcrash in H.
Qed.
End served.
