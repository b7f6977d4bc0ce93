(** Proofs about incoming connections. *)
From Verif Require Import Session_Model Session_Spec.

Section proofs.
Variable verify : bytes -> option Z.
Variables max_ttl max_date : Z.
Variable crashes : session_event -> bool.
Variable a : auth.
Notation vstep := (vstep verify max_ttl max_date crashes a).
Notation vrun := (vrun verify max_ttl max_date crashes a).
Notation validate := (validate_session_token verify max_ttl max_date a).
Implicit Types (s : server) (l : list vop) (c : N).

Lemma vrun_app s l1 l2 : vrun s (l1 ++ l2) = s' ← vrun s l1; vrun s' l2.
Proof. revert s. induction l1 as [|o l1 IH]; intros s; [done|]. simpl. destruct (vstep s o); simpl; [apply IH|done]. Qed.
Lemma vrun_snoc s l o s' : vrun s (l ++ [o]) = Some s' -> exists s1, vrun s l = Some s1 /\ vstep s1 o = Some s'.
Proof.
  rewrite vrun_app. destruct (vrun s l) as [s1|]; simpl; [|done]. destruct (vstep s1 o) eqn:E; simpl; [|done]. intros [= <-]. eauto.
Qed.

(** ** What a step does *)
Inductive vchange s : vop -> server -> Prop :=
| ch_connect c : v_conns s !! c = None -> vchange s (VConnect c) (Server (set_conn s c Backlog) (v_backlog s ++ [c]) (v_loop s) (v_store s) (v_queue s) (v_effects s))
| ch_refuse c b : v_loop s = LAccept -> v_backlog s = c :: b -> v_store s = SDead ->
    vchange s VAccept (Server (set_conn s c Gone) b LAccept SDead (v_queue s) (v_effects s))
| ch_accept c b : v_loop s = LAccept -> v_backlog s = c :: b -> v_store s <> SDead ->
    vchange s VAccept (Server (set_conn s c Accepted) b (LWait c) (v_store s) (v_queue s ++ [MNew c]) (v_effects s))
| ch_new c q : v_store s = SIdle -> v_queue s = MNew c :: q ->
    vchange s VStore (Server (set_conn s c Starting) (v_backlog s) (v_loop s) (SBusy c) q (v_effects s))
| ch_closed c q : v_store s = SIdle -> v_queue s = MClosed c :: q ->
    vchange s VStore (Server (set_conn s c Gone) (v_backlog s) (v_loop s) SIdle q (v_effects s))
| ch_valid c now f : v_conns s !! c = Some Starting -> validate now f = Done true ->
    vchange s (VFirst c now f) (Server (set_conn s c Open) (v_backlog s) LAccept SIdle (v_queue s) (v_effects s ++ [EIdentity c]))
| ch_invalid c now f : v_conns s !! c = Some Starting -> validate now f <> Done true -> validate now f <> Panicked ->
    vchange s (VFirst c now f) (close_session s c)
| ch_crash c now f : v_conns s !! c = Some Starting -> validate now f = Panicked ->
    vchange s (VFirst c now f) (Server ((fun x => if is_stopping x then Gone else x) <$> set_conn s c Gone) (v_backlog s) LAccept SDead [] (v_effects s))
| ch_event c f e : v_conns s !! c = Some Open -> read_session_event f = Done e ->
    vchange s (VFrame c f) (Server (if crashes e then set_conn s c Deaf else v_conns s) (v_backlog s) (v_loop s) (v_store s) (v_queue s) (v_effects s ++ [EEvent c e]))
| ch_reject c f : v_conns s !! c = Some Open -> vchange s (VFrame c f) s
| ch_deaf c f : v_conns s !! c = Some Open ->
    vchange s (VFrame c f) (Server (set_conn s c Deaf) (v_backlog s) (v_loop s) (v_store s) (v_queue s) (v_effects s))
| ch_close c : v_conns s !! c = Some Open -> vchange s (VClose c) (close_session s c).
Lemma vstep_change s o s' : vstep s o = Some s' -> vchange s o s'.
Proof.
  destruct o as [c| | |c now f|c f|c]; simpl; intros H.
  - destruct (v_conns s !! c) eqn:E; [done|]. injection H as <-. by constructor.
  - destruct (v_loop s) eqn:E1; [|done]. destruct (v_backlog s) as [|c b] eqn:E2; [done|]. injection H as <-.
    destruct (v_store s) eqn:E3; [rewrite <- E3; constructor; congruence..|by constructor].
  - destruct (v_store s) eqn:E1; [|done..]. destruct (v_queue s) as [|[c|c] q] eqn:E2; [done|..]; injection H as <-; by constructor.
  - destruct (v_conns s !! c) as [[]|] eqn:E; try done. destruct (validate now f) as [[]| |] eqn:Ev; injection H as <-; constructor; congruence.
  - destruct (v_conns s !! c) as [[]|] eqn:E; try done. destruct (read_session_event f) as [e| |] eqn:Er; injection H as <-; by constructor.
  - destruct (v_conns s !! c) as [[]|] eqn:E; try done. injection H as <-. by constructor.
Qed.
Lemma close_fields s c : v_effects (close_session s c) = v_effects s /\ v_backlog (close_session s c) = v_backlog s /\ v_loop (close_session s c) = v_loop s /\
  v_store (close_session s c) = v_store s /\ exists x, v_conns (close_session s c) = set_conn s c x /\ (x = Stopping \/ x = Gone).
Proof. unfold close_session. destruct (v_store s) eqn:E; simpl; rewrite <- ?E; split_and!; try done; eauto. Qed.

(** ** Invariants *)
Definition vinv s : Prop :=
  (forall c, v_conns s !! c = Some Starting -> v_store s = SBusy c) /\
  (forall c, MNew c ∈ v_queue s -> v_conns s !! c = Some Accepted) /\
  (forall c, MClosed c ∈ v_queue s -> v_conns s !! c = Some Stopping) /\
  (forall c, v_store s = SBusy c -> v_loop s = LWait c /\ (v_conns s !! c = Some Starting \/ v_conns s !! c = Some Stopping)) /\
  (v_store s = SDead -> v_queue s = []) /\
  (forall c, c ∈ v_backlog s -> v_conns s !! c = Some Backlog) /\ NoDup (v_backlog s) /\ NoDup (v_queue s) /\
  (forall c, MNew c ∈ v_queue s -> v_loop s = LWait c).
Ltac close_case s E := unfold close_session; destruct (v_store s) eqn:E; unfold vinv, set_conn; cbn [v_conns v_backlog v_loop v_store v_queue v_effects].
Lemma vinv_close s c : vinv s -> (v_conns s !! c = Some Starting \/ v_conns s !! c = Some Open) -> vinv (close_session s c).
Proof.
  intros (I1 & I2 & I3 & I4 & I5 & I6 & I7 & I8 & I9) Hc.
  assert (HB : forall c', c' ∈ v_backlog s -> <[c:=Stopping]> (v_conns s) !! c' = Some Backlog).
  { intros c' Hb%I6. rewrite lookup_insert_ne; [done|]. intros <-. destruct Hc; congruence. }
  assert (HN : forall c', MNew c' ∈ v_queue s ++ [MClosed c] -> MNew c' ∈ v_queue s).
  { intros c' [?|?%elem_of_list_singleton]%elem_of_app; done. }
  assert (HQ : NoDup (v_queue s ++ [MClosed c])).
  { apply NoDup_app. split; [done|]. split; [|apply NoDup_singleton]. intros x Hx ->%elem_of_list_singleton. apply I3 in Hx. destruct Hc; congruence. }
  assert (H2 : forall c', MNew c' ∈ v_queue s ++ [MClosed c] -> <[c:=Stopping]> (v_conns s) !! c' = Some Accepted).
  { intros c' Hx%HN%I2. rewrite lookup_insert_ne; [done|]. intros <-. destruct Hc; congruence. }
  assert (H3 : forall c', MClosed c' ∈ v_queue s ++ [MClosed c] -> <[c:=Stopping]> (v_conns s) !! c' = Some Stopping).
  { intros c' [Hx%I3|Hx%elem_of_list_singleton]%elem_of_app.
    - destruct (decide (c = c')) as [<-|]; [by rewrite lookup_insert|by rewrite lookup_insert_ne].
    - injection Hx as ->. by rewrite lookup_insert. }
  close_case s E.
  - split_and!; try done; auto.
    + intros c' [[_ ?]|[_ Hx]]%lookup_insert_Some; [done|]. by apply I1.
  - split_and!; try done; auto.
    + intros c' [[_ ?]|[_ Hx]]%lookup_insert_Some; [done|]. by apply I1.
    + intros c' [= <-]. destruct (I4 _ eq_refl) as [? HH]. split; [done|]. destruct (decide (c = c0)) as [<-|].
      * rewrite lookup_insert. by right.
      * by rewrite lookup_insert_ne.
  - destruct Hc as [Hc|Hc]; [by apply I1 in Hc|]. split_and!; try done; auto.
    + intros c' [[_ ?]|[_ Hx]]%lookup_insert_Some; [done|]. by apply I1.
    + intros c' Hx%I2. rewrite lookup_insert_ne; [done|]. intros <-. congruence.
    + intros c' Hx%I3. rewrite lookup_insert_ne; [done|]. intros <-. congruence.
    + intros c' Hb%I6. rewrite lookup_insert_ne; [done|]. intros <-. congruence.
Qed.
Lemma vinv_step s o s' : vinv s -> vstep s o = Some s' -> vinv s'.
Proof.
  intros HI H%vstep_change. pose proof HI as (I1 & I2 & I3 & I4 & I5 & I6 & I7 & I8 & I9).
  inversion H as [c Hc|c b Hl Hb Hs|c b Hl Hb Hs|c q Hs Hq|c q Hs Hq|c now f Hc Hv|c now f Hc Hv Hp|c now f Hc Hv|c f e Hc He|c f Hc|c f Hc|c Hc]; subst o; subst s'; clear H.
  - unfold vinv, set_conn; cbn [v_conns v_backlog v_loop v_store v_queue v_effects].
    assert (HX : forall c' x, v_conns s !! c' = Some x -> <[c:=Backlog]> (v_conns s) !! c' = Some x).
    { intros c' x Hx. rewrite lookup_insert_ne; [done|]. congruence. }
    split_and!; try done; auto.
    + intros c' [[_ ?]|[_ Hx]]%lookup_insert_Some; [done|]. by apply I1.
    + intros c' Hx%I4. destruct Hx as [? [?|?]]; auto.
    + intros c' [Hx| ->%elem_of_list_singleton]%elem_of_app; [by apply HX, I6|apply lookup_insert].
    + apply NoDup_app. split; [done|]. split; [|apply NoDup_singleton]. intros x Hx ->%elem_of_list_singleton. apply I6 in Hx. congruence.
  - unfold vinv, set_conn; cbn [v_conns v_backlog v_loop v_store v_queue v_effects].
    assert (Hcb : v_conns s !! c = Some Backlog) by (apply I6; rewrite Hb; left).
    rewrite Hb in I6, I7. apply NoDup_cons in I7 as [Hn I7]. pose proof (I5 Hs) as Hq. rewrite Hq in *.
    split_and!; try done; auto.
    + intros c' [[_ ?]|[_ Hx]]%lookup_insert_Some; [done|]. rewrite <- Hs. by apply I1.
    + by intros c' ?%elem_of_nil.
    + by intros c' ?%elem_of_nil.
    + intros c' Hx. rewrite lookup_insert_ne; [apply I6; by right|]. intros <-. done.
    + by intros c' ?%elem_of_nil.
  - unfold vinv, set_conn; cbn [v_conns v_backlog v_loop v_store v_queue v_effects].
    assert (Hcb : v_conns s !! c = Some Backlog) by (apply I6; rewrite Hb; left).
    rewrite Hb in I6, I7. apply NoDup_cons in I7 as [Hn I7].
    assert (HX : forall c' x, v_conns s !! c' = Some x -> x <> Backlog -> <[c:=Accepted]> (v_conns s) !! c' = Some x).
    { intros c' x Hx ?. rewrite lookup_insert_ne; [done|]. congruence. }
    assert (HQ : forall c', MNew c' ∉ v_queue s). { intros c' Hx%I9. congruence. }
    assert (HSB : forall c', v_store s <> SBusy c'). { intros c' Hx%I4. destruct Hx as [? _]. congruence. }
    split_and!; try done; auto.
    + intros c' [[_ ?]|[_ Hx]]%lookup_insert_Some; [done|]. by apply I1.
    + intros c' [Hx|Hx%elem_of_list_singleton]%elem_of_app; [by apply HQ in Hx|]. injection Hx as ->. apply lookup_insert.
    + intros c' [Hx|Hx%elem_of_list_singleton]%elem_of_app; [|done]. apply HX; [by apply I3|done].
    + intros c' Hx. by apply HSB in Hx.
    + intros c' Hx. rewrite lookup_insert_ne; [apply I6; by right|]. intros <-. done.
    + apply NoDup_app. split; [done|]. split; [|apply NoDup_singleton]. intros x Hx ->%elem_of_list_singleton. by apply HQ in Hx.
    + intros c' [Hx|Hx%elem_of_list_singleton]%elem_of_app; [by apply HQ in Hx|]. by injection Hx as ->.
  - unfold vinv, set_conn; cbn [v_conns v_backlog v_loop v_store v_queue v_effects].
    assert (Hca : v_conns s !! c = Some Accepted) by (apply I2; rewrite Hq; left).
    assert (Hlw : v_loop s = LWait c) by (apply I9; rewrite Hq; left).
    rewrite Hq in I2, I3, I8, I9. apply NoDup_cons in I8 as [Hn I8].
    assert (HX : forall c' x, v_conns s !! c' = Some x -> x <> Accepted -> <[c:=Starting]> (v_conns s) !! c' = Some x).
    { intros c' x Hx ?. rewrite lookup_insert_ne; [done|]. congruence. }
    split_and!; try done; auto.
    + intros c' [[<- ?]|[_ Hx]]%lookup_insert_Some; [done|]. apply I1 in Hx. congruence.
    + intros c' Hx. rewrite lookup_insert_ne; [apply I2; by right|]. intros <-. done.
    + intros c' Hx. apply HX; [apply I3; by right|done].
    + intros c' [= <-]. split; [done|]. rewrite lookup_insert. by left.
    + intros c' Hx. apply I9. by right.
  - unfold vinv, set_conn; cbn [v_conns v_backlog v_loop v_store v_queue v_effects].
    assert (Hca : v_conns s !! c = Some Stopping) by (apply I3; rewrite Hq; left).
    rewrite Hq in I2, I3, I8, I9. apply NoDup_cons in I8 as [Hn I8].
    assert (HX : forall c' x, v_conns s !! c' = Some x -> x <> Stopping -> <[c:=Gone]> (v_conns s) !! c' = Some x).
    { intros c' x Hx ?. rewrite lookup_insert_ne; [done|]. congruence. }
    split_and!; try done; auto.
    + intros c' [[<- ?]|[_ Hx]]%lookup_insert_Some; [done|]. apply I1 in Hx. congruence.
    + intros c' Hx. apply HX; [apply I2; by right|done].
    + intros c' Hx. rewrite lookup_insert_ne; [apply I3; by right|]. intros <-. done.
    + intros c' Hx. apply I9. by right.
  - unfold vinv, set_conn; cbn [v_conns v_backlog v_loop v_store v_queue v_effects].
    pose proof (I1 _ Hc) as Hst. pose proof (I4 _ Hst) as [Hlw _].
    assert (HX : forall c' x, v_conns s !! c' = Some x -> x <> Starting -> <[c:=Open]> (v_conns s) !! c' = Some x).
    { intros c' x Hx ?. rewrite lookup_insert_ne; [done|]. congruence. }
    assert (HQ : forall c', MNew c' ∉ v_queue s).
    { intros c' Hx. pose proof (I9 _ Hx). assert (c' = c) by congruence. subst c'. apply I2 in Hx. congruence. }
    split_and!; try done; auto.
    + intros c' [[<- ?]|[Hne Hx]]%lookup_insert_Some; [done|]. apply I1 in Hx. congruence.
    + intros c' Hx. by apply HQ in Hx.
  - apply vinv_close; auto.
  - unfold vinv, set_conn; cbn [v_conns v_backlog v_loop v_store v_queue v_effects].
    pose proof (I1 _ Hc) as Hst. split_and!; try done; auto.
    + intros c'. rewrite lookup_fmap, fmap_Some. intros (x & [[_ <-]|[Hne Hx]]%lookup_insert_Some & Hy); [done|]. destruct x; simpl in Hy; try done. apply I1 in Hx. congruence.
    + by intros c' ?%elem_of_nil.
    + by intros c' ?%elem_of_nil.
    + intros c' Hx%I6. rewrite lookup_fmap, lookup_insert_ne by congruence. by rewrite Hx.
    + constructor.
    + by intros c' ?%elem_of_nil.
  - unfold vinv, set_conn; cbn [v_conns v_backlog v_loop v_store v_queue v_effects].
    destruct (crashes e); [|done].
    assert (HX : forall c' x, v_conns s !! c' = Some x -> x <> Open -> <[c:=Deaf]> (v_conns s) !! c' = Some x).
    { intros c' x Hx ?. rewrite lookup_insert_ne; [done|]. congruence. }
    split_and!; try done; auto.
    + intros c' [[<- ?]|[Hne Hx]]%lookup_insert_Some; [done|]. by apply I1.
    + intros c' Hx%I4. destruct Hx as [? [?|?]]; (split; [done|]); [left|right]; by apply HX.
  - done.
  - unfold vinv, set_conn; cbn [v_conns v_backlog v_loop v_store v_queue v_effects].
    assert (HX : forall c' x, v_conns s !! c' = Some x -> x <> Open -> <[c:=Deaf]> (v_conns s) !! c' = Some x).
    { intros c' x Hx ?. rewrite lookup_insert_ne; [done|]. congruence. }
    split_and!; try done; auto.
    + intros c' [[<- ?]|[Hne Hx]]%lookup_insert_Some; [done|]. by apply I1.
    + intros c' Hx%I4. destruct Hx as [? [?|?]]; (split; [done|]); [left|right]; by apply HX.
  - apply vinv_close; auto.
Qed.
Lemma vinv_new : vinv new_server.
Proof. split_and!; try done; try (by intros c ?%elem_of_nil); by constructor. Qed.
Lemma vinv_from s l s' : vinv s -> vrun s l = Some s' -> vinv s'.
Proof.
  revert s. induction l as [|o l IH]; intros s HI Hr; simpl in Hr; [by injection Hr as <-|].
  destruct (vstep s o) as [s1|] eqn:E; simpl in Hr; [|done]. eapply IH; [|done]. by eapply vinv_step.
Qed.
Lemma vinv_run l s : vrun new_server l = Some s -> vinv s.
Proof. apply vinv_from, vinv_new. Qed.

(** ** Authentication *)
Lemma validate_good now f : validate now f = Done true -> exists b, f = Some b /\ good_frame verify a now b.
Proof.
  unfold validate_session_token. destruct f as [b|]; [|done]. destruct (read_session_event b) as [e| |] eqn:E; try done. destruct e; try done.
  intros H. exists b. split; [done|]. exists e. split; [done|]. unfold validate_token in H. destruct a as [|ttl]; [done|].
  simpl. destruct (verify (ie_token e)) as [ts|]; [|done]. exists ts. split; [done|]. destruct ttl as [d|]; [|done].
  unfold is_token_still_valid in H. destruct (max_ttl <? d)%Z; [done|]. destruct (max_date <? ts + d)%Z; [done|]. injection H as H. by apply Z.leb_le.
Qed.
(** Connections before they are open. *)
Definition early (x : option conn) : Prop := match x with None | Some Backlog | Some Accepted | Some Starting => True | _ => False end.
Definition live (x : option conn) : Prop := match x with Some Open | Some Deaf => True | _ => False end.
Definition authd l c : Prop := exists l1 now f l2, l = l1 ++ VFirst c now (Some f) :: l2 /\ good_frame verify a now f /\
  forall s1, vrun new_server l1 = Some s1 -> untouched s1 c.
Lemma authd_snoc l c o : authd l c -> authd (l ++ [o]) c.
Proof. intros (l1 & now & f & l2 & -> & ? & ?). exists l1, now, f, (l2 ++ [o]). rewrite <- app_assoc. done. Qed.
Lemma touched_run l s : vrun new_server l = Some s ->
  (forall c, early (v_conns s !! c) -> untouched s c) /\ (forall c, live (v_conns s !! c) -> authd l c) /\
  (forall x, x ∈ v_effects s -> authd l (eff_conn x)).
Proof.
  revert s. induction l as [|o l IH] using rev_ind; intros s.
  { intros [= <-]. split_and!; [by intros c _ x ?%elem_of_nil|by intros c Hc; simpl in Hc; rewrite lookup_empty in Hc|by intros x ?%elem_of_nil]. }
  intros (s1 & Hr & Hs)%vrun_snoc. destruct (IH _ Hr) as (J1 & J2 & J3). pose proof (vinv_run _ _ Hr) as (_ & I2 & _ & _ & _ & I6 & _).
  assert (HK : forall c x (m : gmap N conn), m = <[c:=x]> (v_conns s1) -> v_conns s1 !! c <> None \/ early (Some x) ->
     (early (Some x) -> early (v_conns s1 !! c)) -> (live (Some x) -> live (v_conns s1 !! c)) ->
     forall c', (early (m !! c') -> early (v_conns s1 !! c')) /\ (live (m !! c') -> live (v_conns s1 !! c'))).
  { intros c x m -> _ H1 H2 c'. destruct (decide (c = c')) as [<-|]; [by rewrite lookup_insert|by rewrite lookup_insert_ne]. }
  assert (HD : forall s2, v_effects s2 = v_effects s1 -> (forall c, (early (v_conns s2 !! c) -> early (v_conns s1 !! c)) /\ (live (v_conns s2 !! c) -> live (v_conns s1 !! c))) ->
    (forall c, early (v_conns s2 !! c) -> untouched s2 c) /\ (forall c, live (v_conns s2 !! c) -> authd (l ++ [o]) c) /\ (forall x, x ∈ v_effects s2 -> authd (l ++ [o]) (eff_conn x))).
  { intros s2 He Hc. split_and!.
    - intros c Hx%Hc x. rewrite He. by apply J1.
    - intros c Hx%Hc. by apply authd_snoc, J2.
    - intros x. rewrite He. intros Hx. by apply authd_snoc, J3. }
  apply vstep_change in Hs.
  inversion Hs as [c Hc|c b Hl Hb Hst|c b Hl Hb Hst|c q Hst Hq|c q Hst Hq|c now f Hc Hv|c now f Hc Hv Hp|c now f Hc Hv|c f e Hc He|c f Hc|c f Hc|c Hc]; clear Hs; subst s o.
  - apply HD; [done|]. cbn [v_conns]. unfold set_conn. apply (HK c Backlog _ eq_refl); [by right|by rewrite Hc|done].
  - apply HD; [done|]. cbn [v_conns]. unfold set_conn. apply (HK c Gone _ eq_refl); [|done|done]. left. rewrite I6; [done|rewrite Hb; left].
  - apply HD; [done|]. cbn [v_conns]. unfold set_conn. apply (HK c Accepted _ eq_refl); [by right| |done]. rewrite I6; [done|rewrite Hb; left].
  - apply HD; [done|]. cbn [v_conns]. unfold set_conn. apply (HK c Starting _ eq_refl); [by right| |done]. rewrite I2; [done|rewrite Hq; left].
  - apply HD; [done|]. intros c'. cbn [v_conns]. unfold set_conn. destruct (decide (c = c')) as [<-|]; [by rewrite lookup_insert|by rewrite lookup_insert_ne].
  - destruct (validate_good _ _ Hv) as (b & -> & Hg).
    assert (HA : authd (l ++ [VFirst c now (Some b)]) c).
    { exists l, now, b, []. split_and!; [done|done|]. intros s2 Hr2. rewrite Hr in Hr2. injection Hr2 as <-. apply J1. by rewrite Hc. }
    split_and!; cbn [v_conns v_effects]; unfold set_conn.
    + intros c' Hx. destruct (decide (c = c')) as [<-|Hne]; [by rewrite lookup_insert in Hx|]. rewrite lookup_insert_ne in Hx by done.
      intros x. cbn [v_effects]. intros [Hy| ->%elem_of_list_singleton]%elem_of_app; [by apply J1|done].
    + intros c' Hx. destruct (decide (c = c')) as [<-|Hne]; [done|]. rewrite lookup_insert_ne in Hx by done. by apply authd_snoc, J2.
    + intros x [Hy| ->%elem_of_list_singleton]%elem_of_app; [by apply authd_snoc, J3|done].
  - destruct (close_fields s1 c) as (E1 & _ & _ & _ & x & E2 & Hx). apply HD; [done|]. rewrite E2. apply (HK c x _ eq_refl); [rewrite Hc; by left|by destruct Hx as [-> | ->]..].
  - apply HD; [done|]. intros c'. cbn [v_conns]. unfold set_conn. rewrite lookup_fmap. destruct (decide (c = c')) as [<-|]; [by rewrite lookup_insert|rewrite lookup_insert_ne by done].
    destruct (v_conns s1 !! c') as [[]|]; done.
  - assert (HA : authd (l ++ [VFrame c f]) c) by (apply authd_snoc, J2; by rewrite Hc).
    assert (HE : forall c', (early ((if crashes e then set_conn s1 c Deaf else v_conns s1) !! c') -> early (v_conns s1 !! c') /\ c' <> c) /\ (live ((if crashes e then set_conn s1 c Deaf else v_conns s1) !! c') -> live (v_conns s1 !! c'))).
    { intros c'. unfold set_conn. destruct (decide (c = c')) as [<-|].
      - rewrite Hc. destruct (crashes e); [by rewrite lookup_insert|by rewrite Hc].
      - destruct (crashes e); [rewrite lookup_insert_ne by done|]; done. }
    split_and!; cbn [v_conns v_effects].
    + intros c' [Hx Hne]%HE x. cbn [v_effects]. intros [Hy| ->%elem_of_list_singleton]%elem_of_app; [by apply J1|]. by intros <-.
    + intros c' Hx%HE. by apply authd_snoc, J2.
    + intros x [Hy| ->%elem_of_list_singleton]%elem_of_app; [by apply authd_snoc, J3|done].
  - by apply HD.
  - apply HD; [done|]. cbn [v_conns]. unfold set_conn. apply (HK c Deaf _ eq_refl); [by rewrite Hc; left|done|by rewrite Hc].
  - destruct (close_fields s1 c) as (E1 & _ & _ & _ & x & E2 & Hx). apply HD; [done|]. rewrite E2. apply (HK c x _ eq_refl); [rewrite Hc; by left|by destruct Hx as [-> | ->]..].
Qed.
(** A connection that was turned away. *)
Definition ended (x : option conn) : Prop := x = Some Stopping \/ x = Some Gone.
Lemma ended_step s o s' c : vinv s -> vstep s o = Some s' -> ended (v_conns s !! c) -> untouched s c -> ended (v_conns s' !! c) /\ untouched s' c.
Proof.
  intros (_ & I2 & _ & _ & _ & I6 & _) H%vstep_change Hc Hu.
  assert (HE : forall c' x, ended (Some x) \/ c' <> c -> ended (<[c':=x]> (v_conns s) !! c)).
  { intros c' x Hx. destruct (decide (c' = c)) as [<-|]; [rewrite lookup_insert; tauto|by rewrite lookup_insert_ne]. }
  inversion H as [c' Hc'|c' b Hl Hb Hst|c' b Hl Hb Hst|c' q Hst Hq|c' q Hst Hq|c' now f Hc' Hv|c' now f Hc' Hv Hp|c' now f Hc' Hv|c' f e Hc' He|c' f Hc'|c' f Hc'|c' Hc']; clear H; subst s' o;
    unfold untouched; cbn [v_conns v_effects]; unfold set_conn.
  - split; [|done]. apply HE. right. intros ->. destruct Hc; congruence.
  - split; [|done]. apply HE. left. by right.
  - split; [|done]. apply HE. right. intros ->. assert (v_conns s !! c = Some Backlog) by (apply I6; rewrite Hb; left). destruct Hc; congruence.
  - split; [|done]. apply HE. right. intros ->. assert (v_conns s !! c = Some Accepted) by (apply I2; rewrite Hq; left). destruct Hc; congruence.
  - split; [|done]. apply HE. left. by right.
  - assert (c' <> c) by (intros ->; destruct Hc; congruence). split; [apply HE; by right|].
    intros x [Hx| ->%elem_of_list_singleton]%elem_of_app; [by apply Hu|done].
  - destruct (close_fields s c') as (E1 & _ & _ & _ & x & E2 & Hx). rewrite E1, E2. split; [|done]. apply HE. left. destruct Hx as [-> | ->]; [by left|by right].
  - split; [|done]. rewrite lookup_fmap. destruct (HE c' Gone) as [E|E]; [left; by right|..]; rewrite E; simpl; by right.
  - assert (c' <> c) by (intros ->; destruct Hc; congruence). split.
    + destruct (crashes e); [apply HE; by right|done].
    + intros x [Hx| ->%elem_of_list_singleton]%elem_of_app; [by apply Hu|done].
  - done.
  - assert (c' <> c) by (intros ->; destruct Hc; congruence). split; [apply HE; by right|done].
  - destruct (close_fields s c') as (E1 & _ & _ & _ & x & E2 & Hx). rewrite E1, E2. split; [|done]. apply HE. left. destruct Hx as [-> | ->]; [by left|by right].
Qed.
Lemma ended_run l s s' c : vinv s -> vrun s l = Some s' -> ended (v_conns s !! c) -> untouched s c -> ended (v_conns s' !! c) /\ untouched s' c.
Proof.
  revert s. induction l as [|o l IH]; intros s HI Hr Hc Hu; simpl in Hr; [by injection Hr as <-|].
  destruct (vstep s o) as [s1|] eqn:E; simpl in Hr; [|done]. destruct (ended_step _ _ _ _ HI E Hc Hu). eapply IH; [by eapply vinv_step|done|done|done].
Qed.

(** ** Open sessions *)
Lemma open_step s o s' c : vinv s -> vstep s o = Some s' -> ends c o = false -> v_conns s !! c = Some Open -> v_conns s' !! c = Some Open.
Proof.
  intros (_ & I2 & I3 & _ & _ & I6 & _) H%vstep_change Ho Hc.
  assert (HE : forall c' x, c' <> c -> <[c':=x]> (v_conns s) !! c = Some Open) by (intros; by rewrite lookup_insert_ne).
  inversion H as [c' Hc'|c' b Hl Hb Hst|c' b Hl Hb Hst|c' q Hst Hq|c' q Hst Hq|c' now f Hc' Hv|c' now f Hc' Hv Hp|c' now f Hc' Hv|c' f e Hc' He|c' f Hc'|c' f Hc'|c' Hc']; clear H; subst s' o;
    cbn [v_conns]; unfold set_conn; simpl in Ho.
  - apply HE. congruence.
  - apply HE. intros ->. assert (v_conns s !! c = Some Backlog) by (apply I6; rewrite Hb; left). congruence.
  - apply HE. intros ->. assert (v_conns s !! c = Some Backlog) by (apply I6; rewrite Hb; left). congruence.
  - apply HE. intros ->. assert (v_conns s !! c = Some Accepted) by (apply I2; rewrite Hq; left). congruence.
  - apply HE. intros ->. assert (v_conns s !! c = Some Stopping) by (apply I3; rewrite Hq; left). congruence.
  - apply HE. congruence.
  - destruct (close_fields s c') as (E1 & _ & _ & _ & x & E2 & Hx). rewrite E2. apply HE. congruence.
  - rewrite lookup_fmap, HE by congruence. done.
  - apply N.eqb_neq in Ho. destruct (crashes e); [by apply HE|done].
  - done.
  - apply N.eqb_neq in Ho. by apply HE.
  - apply N.eqb_neq in Ho. destruct (close_fields s c') as (E1 & _ & _ & _ & x & E2 & Hx). rewrite E2. by apply HE.
Qed.
Lemma open_run l s s' c : vinv s -> vrun s l = Some s' -> forallb (fun o => negb (ends c o)) l = true -> v_conns s !! c = Some Open -> v_conns s' !! c = Some Open.
Proof.
  revert s. induction l as [|o l IH]; intros s HI Hr Hl Hc; simpl in Hr; [by injection Hr as <-|].
  simpl in Hl. apply andb_true_iff in Hl as [Ho Hl]. apply negb_true_iff in Ho.
  destruct (vstep s o) as [s1|] eqn:E; simpl in Hr; [|done]. eapply IH; [by eapply vinv_step|done|done|]. by eapply open_step.
Qed.

(** ** A store that is blocked *)
(** The store waits for a session: that does not start, or that waits for the store. *)
Definition stuck c s : Prop := v_store s = SBusy c /\ v_loop s = LWait c.
Lemma stuck_step c s o s' : vinv s -> stuck c s -> is_first c o = false \/ v_conns s !! c = Some Stopping -> vstep s o = Some s' ->
  stuck c s' /\ (v_conns s !! c = Some Stopping -> v_conns s' !! c = Some Stopping) /\
  (forall c', v_conns s' !! c' = Some Open -> v_conns s !! c' = Some Open) /\
  (forall c', v_conns s' !! c' = Some Gone -> v_conns s !! c' = Some Gone).
Proof.
  intros HI [Hst Hlw] Hf H%vstep_change. pose proof HI as (I1 & I2 & I3 & I4 & _ & I6 & _).
  assert (HE : forall c' x, x <> Open -> x <> Gone -> (v_conns s !! c' = Some Stopping -> x = Stopping) ->
     (v_conns s !! c = Some Stopping -> <[c':=x]> (v_conns s) !! c = Some Stopping) /\
     (forall c1, <[c':=x]> (v_conns s) !! c1 = Some Open -> v_conns s !! c1 = Some Open) /\
     (forall c1, <[c':=x]> (v_conns s) !! c1 = Some Gone -> v_conns s !! c1 = Some Gone)).
  { intros c' x H1 H2 H3. split_and!.
    - destruct (decide (c' = c)) as [<-|]; [rewrite lookup_insert; intros ?; f_equal; auto|by rewrite lookup_insert_ne].
    - intros c1 [[_ ?]|[_ ?]]%lookup_insert_Some; [done|done].
    - intros c1 [[_ ?]|[_ ?]]%lookup_insert_Some; [done|done]. }
  inversion H as [c' Hc'|c' b Hl Hb Hst'|c' b Hl Hb Hst'|c' q Hst' Hq|c' q Hst' Hq|c' now f Hc' Hv|c' now f Hc' Hv Hp|c' now f Hc' Hv|c' f e Hc' He|c' f Hc'|c' f Hc'|c' Hc']; clear H; subst s' o;
    try congruence.
  - split; [by split|]. apply HE; congruence.
  - exfalso. assert (c' = c) by (apply I1 in Hc'; congruence). subst c'. simpl in Hf. rewrite N.eqb_refl in Hf. destruct Hf; congruence.
  - exfalso. assert (c' = c) by (apply I1 in Hc'; congruence). subst c'. simpl in Hf. rewrite N.eqb_refl in Hf. destruct Hf; congruence.
  - exfalso. assert (c' = c) by (apply I1 in Hc'; congruence). subst c'. simpl in Hf. rewrite N.eqb_refl in Hf. destruct Hf; congruence.
  - split; [by split|]. cbn [v_conns]. destruct (crashes e); [|done]. apply HE; congruence.
  - done.
  - split; [by split|]. apply HE; congruence.
  - unfold close_session. rewrite Hst. split; [by split|]. cbn [v_conns]. apply HE; congruence.
Qed.
Lemma stuck_run c l s s' : vinv s -> stuck c s -> forallb (fun o => negb (is_first c o)) l = true \/ v_conns s !! c = Some Stopping -> vrun s l = Some s' ->
  stuck c s' /\ (forall c', v_conns s' !! c' = Some Open -> v_conns s !! c' = Some Open) /\
  (forall c', v_conns s' !! c' = Some Gone -> v_conns s !! c' = Some Gone).
Proof.
  revert s. induction l as [|o l IH]; intros s HI Hs Hl Hr; simpl in Hr; [by injection Hr as <-|].
  destruct (vstep s o) as [s1|] eqn:E; simpl in Hr; [|done].
  assert (Ho : is_first c o = false \/ v_conns s !! c = Some Stopping).
  { destruct Hl as [Hl|?]; [|by right]. left. simpl in Hl. apply andb_true_iff in Hl as [Ho _]. by apply negb_true_iff. }
  destruct (stuck_step _ _ _ _ HI Hs Ho E) as (H1 & H2 & H3 & H4).
  destruct (IH s1) as (H5 & H6 & H7); [by eapply vinv_step|done| |done|].
  - destruct Hl as [Hl|?]; [|auto]. left. simpl in Hl. by apply andb_true_iff in Hl as [_ Hl].
  - split_and!; [done|auto|auto].
Qed.
(** A store that is gone. *)
Lemma dead_step s o s' : vinv s -> v_store s = SDead -> vstep s o = Some s' ->
  v_store s' = SDead /\ (forall c', v_conns s' !! c' = Some Open -> v_conns s !! c' = Some Open).
Proof.
  intros (I1 & _) Hd H%vstep_change.
  assert (HE : forall c' x, x <> Open -> forall c1, <[c':=x]> (v_conns s) !! c1 = Some Open -> v_conns s !! c1 = Some Open).
  { intros c' x H1 c1 [[_ ?]|[_ ?]]%lookup_insert_Some; done. }
  inversion H as [c' Hc'|c' b Hl Hb Hst'|c' b Hl Hb Hst'|c' q Hst' Hq|c' q Hst' Hq|c' now f Hc' Hv|c' now f Hc' Hv Hp|c' now f Hc' Hv|c' f e Hc' He|c' f Hc'|c' f Hc'|c' Hc']; clear H; subst s' o; try congruence;
    try (apply I1 in Hc'; congruence); try (split; [done|by apply HE]).
  - split; [done|]. cbn [v_conns]. destruct (crashes e); [by apply HE|done].
  - done.
  - unfold close_session. rewrite Hd. split; [done|by apply HE].
Qed.
Lemma dead_run l s s' : vinv s -> v_store s = SDead -> vrun s l = Some s' ->
  v_store s' = SDead /\ (forall c', v_conns s' !! c' = Some Open -> v_conns s !! c' = Some Open).
Proof.
  revert s. induction l as [|o l IH]; intros s HI Hd Hr; simpl in Hr; [by injection Hr as <-|].
  destruct (vstep s o) as [s1|] eqn:E; simpl in Hr; [|done]. destruct (dead_step _ _ _ HI Hd E) as [H1 H2].
  destruct (IH s1) as [H3 H4]; [by eapply vinv_step|done|done|]. auto.
Qed.

(** ** Progress when all first frames are good *)
Variable first : N -> Z * bytes.
Hypothesis first_good : forall c, validate (fst (first c)) (Some (snd (first c))) = Done true.
Definition knock c : vop := VFirst c (fst (first c)) (Some (snd (first c))).
(** Only accepting, the store and good first frames. *)
Definition quiet (o : vop) : Prop := match o with VAccept | VStore => True | VFirst c now f => o = knock c | _ => False end.
Definition healthy s : Prop := vinv s /\ v_store s <> SDead /\ (forall c, v_store s = SBusy c -> v_conns s !! c = Some Starting) /\
  (forall c, v_loop s = LWait c -> v_store s = SBusy c \/ MNew c ∈ v_queue s).
Lemma quiet_open l s s' c : vinv s -> vrun s l = Some s' -> Forall quiet l -> v_conns s !! c = Some Open -> v_conns s' !! c = Some Open.
Proof.
  intros HI Hr Hq. eapply open_run; [done|done|]. apply forallb_forall. intros o Ho. rewrite Forall_forall in Hq. apply elem_of_list_In, Hq in Ho. by destruct o.
Qed.
(** The store can always become idle. *)
Lemma finish_busy s : healthy s -> exists l s', vrun s l = Some s' /\ Forall quiet l /\ healthy s' /\ v_store s' = SIdle /\ v_backlog s' = v_backlog s /\ v_queue s' = v_queue s /\
  (forall c, v_store s = SBusy c -> v_conns s' !! c = Some Open).
Proof.
  intros HH. pose proof HH as (HI & Hd & Hb & Hl). destruct (v_store s) as [|c|] eqn:Es; [| |done].
  - exists [], s. split_and!; try done.
  - pose proof (Hb _ eq_refl) as Hc. eexists [knock c], _. split.
    { cbn [Session_Model.vrun Session_Model.vstep knock]. rewrite Hc, first_good. cbn [mbind option_bind]. done. }
    split_and!; try done; cbn [v_conns v_backlog v_queue v_store v_loop].
    + repeat constructor.
    + split_and!; try done.
      eapply (vinv_step s (knock c)); [done|]. cbn [Session_Model.vstep knock]. by rewrite Hc, first_good.
    + intros c' [= <-]. unfold set_conn. apply lookup_insert.
Qed.
Lemma step_queue s m q : healthy s -> v_store s = SIdle -> v_queue s = m :: q -> exists l s', vrun s l = Some s' /\ Forall quiet l /\ healthy s' /\
  v_store s' = SIdle /\ v_backlog s' = v_backlog s /\ v_queue s' = q /\ (forall c, m = MNew c -> v_conns s' !! c = Some Open).
Proof.
  intros (HI & Hd & Hb & Hl) Hs Hq.
  assert (E : exists s1, vstep s VStore = Some s1 /\ healthy s1 /\ v_backlog s1 = v_backlog s /\ v_queue s1 = q /\ (forall c, m = MNew c -> v_store s1 = SBusy c)).
  { cbn [Session_Model.vstep]. rewrite Hs, Hq. destruct m as [c|c]; eexists; (split; [done|]); cbn [v_backlog v_queue v_store].
    - split_and!; try done; [|intros c' [= ->]; done]. split_and!; cbn [v_store v_conns v_loop v_queue].
      + eapply (vinv_step s VStore); [done|]. simpl. by rewrite Hs, Hq.
      + done.
      + intros c' [= <-]. unfold set_conn. apply lookup_insert.
      + intros c' Hx. destruct HI as (_ & _ & _ & _ & _ & _ & _ & _ & I9). left.
        assert (v_loop s = LWait c) by (apply I9; rewrite Hq; left). congruence.
    - split_and!; try done. split_and!; cbn [v_store v_conns v_loop v_queue].
      + eapply (vinv_step s VStore); [done|]. simpl. by rewrite Hs, Hq.
      + done.
      + done.
      + intros c' Hx. right. destruct (Hl _ Hx) as [?|Hy]; [congruence|]. rewrite Hq in Hy. apply elem_of_cons in Hy as [?|?]; done. }
  destruct E as (s1 & Hs1 & HH1 & Hb1 & Hq1 & Hm). destruct (finish_busy _ HH1) as (l & s2 & Hr & Hql & HH2 & Hst & Hb2 & Hq2 & Ho).
  exists (VStore :: l), s2. split_and!; try done; [|by constructor|congruence|congruence|auto].
  cbn [Session_Model.vrun]. rewrite Hs1. done.
Qed.
Lemma drain_queue q : forall s, healthy s -> v_store s = SIdle -> v_queue s = q -> exists l s', vrun s l = Some s' /\ Forall quiet l /\ healthy s' /\
  v_store s' = SIdle /\ v_backlog s' = v_backlog s /\ v_queue s' = [] /\ (forall c, MNew c ∈ q -> v_conns s' !! c = Some Open).
Proof.
  induction q as [|m q IH]; intros s HH Hs Hq.
  - exists [], s. split_and!; try done. by intros c ?%elem_of_nil.
  - destruct (step_queue _ _ _ HH Hs Hq) as (l1 & s1 & Hr1 & Hq1 & HH1 & Hs1 & Hb1 & Hqq & Ho1).
    destruct (IH _ HH1 Hs1 Hqq) as (l2 & s2 & Hr2 & Hq2 & HH2 & Hs2 & Hb2 & Hqq2 & Ho2).
    exists (l1 ++ l2), s2. split_and!; try done; [by rewrite vrun_app, Hr1|by apply Forall_app|congruence|].
    intros c [<-|Hx]%elem_of_cons; [|auto]. eapply quiet_open; [|done|done|by apply Ho1]. apply HH1.
Qed.
Lemma drain_backlog b : forall s, healthy s -> v_store s = SIdle -> v_queue s = [] -> v_backlog s = b -> exists l s', vrun s l = Some s' /\ Forall quiet l /\ healthy s' /\
  v_backlog s' = [] /\ v_store s' = SIdle /\ v_queue s' = [] /\ (forall c, c ∈ b -> v_conns s' !! c = Some Open).
Proof.
  induction b as [|c b IH]; intros s HH Hs Hq Hb.
  - exists [], s. split_and!; try done. by intros c ?%elem_of_nil.
  - pose proof HH as (HI & Hd & Hbu & Hl).
    assert (HLA : v_loop s = LAccept). { destruct (v_loop s) as [|c'] eqn:E; [done|]. destruct (Hl _ eq_refl) as [?|Hx]; [congruence|]. rewrite Hq in Hx. by apply elem_of_nil in Hx. }
    assert (E : exists s1, vstep s VAccept = Some s1 /\ healthy s1 /\ v_store s1 = SIdle /\ v_queue s1 = [MNew c] /\ v_backlog s1 = b).
    { assert (E0 : vstep s VAccept = Some (Server (set_conn s c Accepted) b (LWait c) SIdle ([] ++ [MNew c]) (v_effects s))).
      { cbn [Session_Model.vstep]. by rewrite HLA, Hb, Hs, Hq. }
      eexists. split; [done|]. cbn [v_store v_queue v_backlog]. split_and!; try done. split_and!; cbn [v_store v_queue v_loop v_conns]; try done.
      - eapply vinv_step; done.
      - intros c' [= <-]. right. left. }
    destruct E as (s1 & Hs1 & HH1 & Hst1 & Hq1 & Hb1).
    destruct (step_queue _ _ _ HH1 Hst1 Hq1) as (l2 & s2 & Hr2 & Hql2 & HH2 & Hst2 & Hb2 & Hqq2 & Ho2).
    destruct (IH s2 HH2 Hst2 Hqq2 ltac:(congruence)) as (l3 & s3 & Hr3 & Hql3 & HH3 & Hb3 & Hst3 & Hqq3 & Ho3).
    exists (VAccept :: l2 ++ l3), s3. split_and!; try done.
    + cbn [Session_Model.vrun]. rewrite Hs1. cbn [mbind option_bind]. by rewrite vrun_app, Hr2.
    + constructor; [done|]. by apply Forall_app.
    + intros c' [->|Hx]%elem_of_cons; [|auto]. eapply quiet_open; [|done|done|by apply Ho2]. apply HH2.
Qed.
Definition pending s c : Prop := match v_conns s !! c with Some Backlog | Some Accepted | Some Starting => True | _ => False end.

(** Good first frames only: the server stays healthy. *)
Definition polite (o : vop) : Prop := match o with VFirst _ now f => validate now f = Done true | _ => True end.
Lemma healthy_step s o s' : healthy s -> polite o -> vstep s o = Some s' -> healthy s'.
Proof.
  intros (HI & Hd & Hb & Hl) Hp H. pose proof (vinv_step _ _ _ HI H) as HI'. apply vstep_change in H.
  pose proof HI as (I1 & I2 & I3 & I4 & I5 & I6 & I7 & I8 & I9).
  inversion H as [c' Hc'|c' b Hlo Hba Hst'|c' b Hlo Hba Hst'|c' q Hst' Hq|c' q Hst' Hq|c' now f Hc' Hv|c' now f Hc' Hv Hpp|c' now f Hc' Hv|c' f e Hc' He|c' f Hc'|c' f Hc'|c' Hc']; clear H; subst s' o; simpl in Hp; try congruence;
    (split; [exact HI'|]); clear HI'; cbn [v_store v_conns v_loop v_queue]; unfold set_conn.
  - split_and!; [done| |done]. intros c Hx. rewrite lookup_insert_ne; [by apply Hb|]. intros <-. apply Hb in Hx. congruence.
  - split_and!; [done| |].
    + intros c Hx. apply I4 in Hx as [? _]. congruence.
    + intros c [= <-]. right. apply elem_of_app. right. left.
  - split_and!; [done| |].
    + intros c [= <-]. apply lookup_insert.
    + intros c Hx. left. assert (v_loop s = LWait c') by (apply I9; rewrite Hq; left). congruence.
  - split_and!; [done|done|]. intros c Hx. right. destruct (Hl _ Hx) as [?|Hy]; [congruence|]. rewrite Hq in Hy. apply elem_of_cons in Hy as [?|?]; done.
  - split_and!; done.
  - split_and!; [done| |done]. destruct (crashes e); [|done]. intros c Hx. rewrite lookup_insert_ne; [by apply Hb|]. intros <-. apply Hb in Hx. congruence.
  - split_and!; done.
  - split_and!; [done| |done]. intros c Hx. rewrite lookup_insert_ne; [by apply Hb|]. intros <-. apply Hb in Hx. congruence.
  - unfold close_session. destruct (v_store s) eqn:E; [..|done]; cbn [v_store v_conns v_loop v_queue]; unfold set_conn.
    + split_and!; [done|done|]. intros c Hx. right. destruct (Hl _ Hx) as [?|Hy]; [done|]. apply elem_of_app. by left.
    + split_and!; [done| |].
      * intros c0 [= <-]. pose proof (Hb _ eq_refl). rewrite lookup_insert_ne; [done|]. congruence.
      * intros c0 Hx. destruct (Hl _ Hx) as [?|Hy]; [by left|]. right. apply elem_of_app. by left.
Qed.
Lemma healthy_run l s s' : healthy s -> Forall polite l -> vrun s l = Some s' -> healthy s'.
Proof.
  revert s. induction l as [|o l IH]; intros s HI Hp Hr; simpl in Hr; [by injection Hr as <-|]. apply Forall_cons in Hp as [Ho Hp].
  destruct (vstep s o) as [s1|] eqn:E; simpl in Hr; [|done]. eapply IH; [|done|done]. by eapply healthy_step.
Qed.
Lemma healthy_new : healthy new_server.
Proof. split; [apply vinv_new|]. done. Qed.
(** Connections that are not yet open are in the backlog, or in the queue, or with the store. *)
Definition where_pending s : Prop :=
  (forall c, v_conns s !! c = Some Backlog -> c ∈ v_backlog s) /\ (forall c, v_conns s !! c = Some Accepted -> MNew c ∈ v_queue s).
Lemma where_step s o s' : vinv s -> where_pending s -> vstep s o = Some s' -> where_pending s' \/ v_store s' = SDead.
Proof.
  intros (I1 & I2 & I3 & I4 & I5 & I6 & I7 & I8 & I9) [W1 W2] H%vstep_change.
  inversion H as [c' Hc'|c' b Hlo Hba Hst'|c' b Hlo Hba Hst'|c' q Hst' Hq|c' q Hst' Hq|c' now f Hc' Hv|c' now f Hc' Hv Hpp|c' now f Hc' Hv|c' f e Hc' He|c' f Hc'|c' f Hc'|c' Hc']; clear H; subst s' o; try (by right); left;
    unfold where_pending; cbn [v_store v_conns v_loop v_queue v_backlog]; unfold set_conn.
  - split; intros c [[<- ?]|[_ Hx]]%lookup_insert_Some; try done; [apply elem_of_app; right; left|apply elem_of_app; left; by apply W1|by apply W2].
  - split; intros c [[<- ?]|[Hne Hx]]%lookup_insert_Some; try done.
    + apply W1 in Hx. rewrite Hba in Hx. apply elem_of_cons in Hx as [?|?]; congruence.
    + apply elem_of_app. right. left.
    + apply elem_of_app. left. by apply W2.
  - split; intros c [[<- ?]|[Hne Hx]]%lookup_insert_Some; try done; [by apply W1|].
    apply W2 in Hx. rewrite Hq in Hx. apply elem_of_cons in Hx as [?|?]; congruence.
  - split; intros c [[<- ?]|[Hne Hx]]%lookup_insert_Some; try done; [by apply W1|].
    apply W2 in Hx. rewrite Hq in Hx. apply elem_of_cons in Hx as [?|?]; congruence.
  - split; intros c [[<- ?]|[Hne Hx]]%lookup_insert_Some; try done; [by apply W1|by apply W2].
  - unfold close_session. destruct (v_store s) eqn:E; cbn [v_store v_conns v_loop v_queue v_backlog]; unfold set_conn;
      split; intros c9 [[<- ?]|[Hne Hx]]%lookup_insert_Some; try done; try (by apply W1); try (by apply W2); apply elem_of_app; left; by apply W2.
  - destruct (crashes e); [|done]. split; intros c [[<- ?]|[Hne Hx]]%lookup_insert_Some; try done; [by apply W1|by apply W2].
  - done.
  - split; intros c [[<- ?]|[Hne Hx]]%lookup_insert_Some; try done; [by apply W1|by apply W2].
  - unfold close_session. destruct (v_store s) eqn:E; cbn [v_store v_conns v_loop v_queue v_backlog]; unfold set_conn;
      split; intros c9 [[<- ?]|[Hne Hx]]%lookup_insert_Some; try done; try (by apply W1); try (by apply W2); apply elem_of_app; left; by apply W2.
Qed.
Lemma where_run l s s' : healthy s -> Forall polite l -> where_pending s -> vrun s l = Some s' -> where_pending s'.
Proof.
  revert s. induction l as [|o l IH]; intros s HI Hp Hw Hr; simpl in Hr; [by injection Hr as <-|]. apply Forall_cons in Hp as [Ho Hp].
  destruct (vstep s o) as [s1|] eqn:E; simpl in Hr; [|done]. pose proof (healthy_step _ _ _ HI Ho E) as HI1. eapply IH; [done|done| |done].
  destruct (where_step s o s1) as [?|Hd]; [apply HI|done|done|done|]. by destruct HI1 as (_ & ? & _).
Qed.
Lemma all_open l s : vrun new_server l = Some s -> Forall polite l -> exists l' s', vrun s l' = Some s' /\ Forall quiet l' /\ forall c, pending s c -> v_conns s' !! c = Some Open.
Proof.
  intros Hr Hp. pose proof (healthy_run _ _ _ healthy_new Hp Hr) as HH.
  assert (HW : where_pending s). { eapply where_run; [apply healthy_new|done| |done]. by split; intros c Hx; cbn in Hx; rewrite lookup_empty in Hx. }
  destruct (finish_busy _ HH) as (l1 & s1 & Hr1 & Hq1 & HH1 & Hs1 & Hb1 & Hqq1 & Ho1).
  destruct (drain_queue _ _ HH1 Hs1 eq_refl) as (l2 & s2 & Hr2 & Hq2 & HH2 & Hs2 & Hb2 & Hqq2 & Ho2).
  destruct (drain_backlog _ _ HH2 Hs2 Hqq2 eq_refl) as (l3 & s3 & Hr3 & Hq3 & HH3 & Hb3 & Hs3 & Hqq3 & Ho3).
  exists (l1 ++ l2 ++ l3), s3. split_and!.
  - rewrite vrun_app, Hr1. cbn [mbind option_bind]. by rewrite vrun_app, Hr2.
  - apply Forall_app. split; [done|]. by apply Forall_app.
  - intros c Hc. unfold pending in Hc. destruct (v_conns s !! c) as [[]|] eqn:E; try done.
    + apply Ho3. rewrite Hb2, Hb1. by apply HW.
    + eapply quiet_open; [apply HH2|done|done|]. apply Ho2. rewrite Hqq1. by apply HW.
    + eapply quiet_open; [apply HH2|done|done|]. eapply quiet_open; [apply HH1|done|done|]. apply Ho1. by apply HH.
Qed.
End proofs.
