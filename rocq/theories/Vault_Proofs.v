(** Persistent sharded entities: the two halves and what links them. *)
From Verif Require Import Journal_Model Journal_Spec Durable_Model Durable_Spec Durable_Proofs.
From Verif Require Import Entity_Model Sharded_Model Sharded_Spec Sharded_Results Vault_Model Vault_Spec.
Local Open Scope N_scope.

Lemma view_app i l l' : view i (l ++ l') = view i l ++ view i l'.
Proof. unfold view. by rewrite flat_map_app. Qed.
Lemma requests_app l l' : requests (l ++ l') = requests l ++ requests l'.
Proof. unfold requests. apply omap_app. Qed.
Lemma journals_app l l' : journals (l ++ l') = journals l ++ journals l'.
Proof. unfold journals. apply omap_app. Qed.
Lemma requests_elem e l : e ∈ requests l <-> WZ e ∈ l.
Proof.
  unfold requests. rewrite elem_of_list_omap. split.
  - intros (x & Hx & E). destruct x; try done. by injection E as ->.
  - intros H. by exists (WZ e).
Qed.
Lemma journals_elem e l : e ∈ journals l <-> WD e ∈ l.
Proof.
  unfold journals. rewrite elem_of_list_omap. split.
  - intros (x & Hx & E). destruct x; try done. by injection E as ->.
  - intros H. by exists (WD e).
Qed.
Lemma requests_wz l : requests (map WZ l) = l.
Proof. unfold requests. induction l as [|x l IH]; cbn; [done|]. by f_equal. Qed.
Lemma requests_wd l : requests (map WD l) = [].
Proof. unfold requests. induction l as [|x l IH]; cbn; done. Qed.
Lemma journals_wd l : journals (map WD l) = l.
Proof. unfold journals. induction l as [|x l IH]; cbn; [done|]. by f_equal. Qed.
Lemma journals_wz l : journals (map WZ l) = [].
Proof. unfold journals. induction l as [|x l IH]; cbn; done. Qed.

(** Where an event of two parts is. *)
Lemma split_app {A} (l l' t1 : list A) x t2 : l ++ l' = t1 ++ x :: t2 ->
  (exists u, l = t1 ++ x :: u /\ t2 = u ++ l') \/ (exists u, l' = u ++ x :: t2 /\ t1 = l ++ u).
Proof.
  intros E. apply app_eq_inv in E as [(u & -> & E)|(u & -> & E)].
  - destruct u as [|y u]; cbn in E.
    + right. exists []. by rewrite !app_nil_r.
    + left. injection E as -> ->. by exists u.
  - right. by exists u.
Qed.

(** ** Journals *)
Section journals.
Context {St : Type} (S : storage St) (conf : string -> jtypes).
Implicit Types (d : dsys (St := St)).

Definition touches (o : dop) (j : N) : Prop :=
  match o with DLoad i | DCall i _ | DAnswer i _ | DCrash i => i = j | DStart _ | DApply _ => False end.

(** Only the incarnation that takes part changes. *)
Lemma dstep_frame d o : (d_next d <= d_next (dstep S conf d o).1) /\
  forall j, j < d_next d -> ~ touches o j ->
    d_incs (dstep S conf d o).1 !! j = d_incs d !! j /\ view j (dstep S conf d o).2 = [] /\ forall p, VGone j p ∉ (dstep S conf d o).2.
Proof.
  destruct d as [st incs fl n]. cbn [d_next d_incs].
  destruct o as [pid|i|i c|k|i ok|i]; cbn [dstep touches].
  - destruct (recover_snapshot S conf pid journal_new st) as [jn snap]. cbn. split; [lia|]. intros j Hj _.
    rewrite lookup_insert_ne by lia. split; [done|]. split; [done|]. intros p. by rewrite elem_of_list_singleton.
  - destruct (incs !! i) as [[pid jn [snap|] call]|]; [|by split; [cbn; lia|intros; split; [done|split; [done|intros p H'; by apply elem_of_nil in H']]]..].
    destruct (recover_messages S conf pid jn st) as [j' ms]. cbn. split; [lia|]. intros j Hj Ht.
    rewrite lookup_insert_ne by done. apply N.eqb_neq in Ht. rewrite Ht. split; [done|]. split; [done|]. intros p. by rewrite elem_of_list_singleton.
  - destruct (incs !! i) as [[pid jn [snap|] [call|]]|]; try by split; [cbn; lia|intros; split; [done|split; [done|intros p H'; by apply elem_of_nil in H']]].
    destruct (call_write conf pid c jn) as [[w|]|]; cbn; (split; [lia|]); intros j Hj Ht.
    + rewrite lookup_insert_ne by done. split; [done|]. split; [done|]. intros p. by rewrite elem_of_list_singleton.
    + split; [done|]. apply N.eqb_neq in Ht. rewrite Ht. split; [by destruct (empty_answer c)|]. intros p. by rewrite !elem_of_cons, elem_of_nil; intros [?|[?|?]].
    + rewrite lookup_delete_ne by done. split; [done|]. split; [done|]. intros p. rewrite !elem_of_cons, elem_of_nil. intros [?|[[=]|?]]; done.
  - destruct (fl !! k) as [[p w]|]; cbn; (split; [lia|]); intros j Hj _; (split; [done|]); (split; [done|]); intros p' H'; by apply elem_of_nil in H'.
  - destruct (incs !! i) as [[pid jn l [[k c]|]]|]; try by split; [cbn; lia|intros; split; [done|split; [done|intros p H'; by apply elem_of_nil in H']]].
    destruct ok; [destruct (fl !! k)|]; cbn; (split; [lia|]); intros j Hj Ht.
    + split; [done|]. split; [done|]. intros p' H'; by apply elem_of_nil in H'.
    + rewrite lookup_insert_ne by done. apply N.eqb_neq in Ht. rewrite Ht. split; [done|]. split; [done|]. intros p. by rewrite elem_of_list_singleton.
    + rewrite lookup_insert_ne by done. split; [done|]. split; [done|]. intros p. by rewrite elem_of_list_singleton.
  - destruct (incs !! i) as [x|]; cbn; (split; [lia|]); intros j Hj Ht.
    + rewrite lookup_delete_ne by done. split; [done|]. split; [done|]. intros p. rewrite elem_of_list_singleton. intros [=]; done.
    + split; [done|]. split; [done|]. intros p' H'; by apply elem_of_nil in H'.
Qed.

Lemma drun_one d o : drun S conf d [o] = dstep S conf d o.
Proof. cbn. destruct (dstep S conf d o). by rewrite app_nil_r. Qed.
Lemma drun_two d o o' : drun S conf d [o; o'] = ((dstep S conf (dstep S conf d o).1 o').1, (dstep S conf d o).2 ++ (dstep S conf (dstep S conf d o).1 o').2).
Proof. cbn. destruct (dstep S conf d o) as [d1 e1]. cbn. destruct (dstep S conf d1 o') as [d2 e2]. cbn. by rewrite app_nil_r. Qed.

Lemma drun_frame l : forall d, d_next d <= d_next (drun S conf d l).1 /\
  forall j, j < d_next d -> Forall (fun o => ~ touches o j) l ->
    d_incs (drun S conf d l).1 !! j = d_incs d !! j /\ view j (drun S conf d l).2 = [] /\ forall p, VGone j p ∉ (drun S conf d l).2.
Proof.
  induction l as [|o l IH]; intros d; cbn [drun].
  { split; [cbn; lia|]. intros j Hj _. split; [done|]. split; [done|]. intros p H. by apply elem_of_nil in H. }
  destruct (dstep_frame d o) as [H1 H2]. destruct (dstep S conf d o) as [d1 e1]. cbn [fst snd] in *. specialize (IH d1).
  destruct (drun S conf d1 l) as [d2 e2]. cbn [fst snd] in *. destruct IH as [H3 H4]. split; [lia|].
  intros j Hj Hf. inversion_clear Hf as [|?? Ho Hl]. destruct (H2 j Hj Ho) as (Ei & Ev & Eg). destruct (H4 j ltac:(lia) Hl) as (Ei' & Ev' & Eg').
  rewrite Ei', Ei, view_app, Ev, Ev'. split; [done|]. split; [done|]. intros p. rewrite elem_of_app. intros [?|?]; [by apply (Eg p)|by apply (Eg' p)].
Qed.

(** Incarnations: started, recovered, gone. *)
Record alive (d : dsys (St := St)) (t : list devent) : Prop := {
  al_next : forall i p, VStart i p ∈ t -> i < d_next d;
  al_fresh : forall i, d_next d <= i -> d_incs d !! i = None /\ view i t = [] /\ forall p, VGone i p ∉ t;
  al_gone : forall i p, VGone i p ∈ t -> d_incs d !! i = None /\ VStart i p ∈ t;
  al_incs : forall i x, d_incs d !! i = Some x -> VStart i (i_pid x) ∈ t /\ i < d_next d /\ forall p, VGone i p ∉ t;
  al_started : forall i p, VStart i p ∈ t -> (exists x, d_incs d !! i = Some x /\ i_pid x = p) \/ VGone i p ∈ t;
  al_reading : forall i x, d_incs d !! i = Some x -> is_Some (i_loading x) -> view i t = [] /\ i_call x = None;
}.
Lemma alive_init st : alive (durable_init st) [].
Proof.
  split; cbn; try (intros i p H; by apply elem_of_nil in H).
  - intros i _. split; [done|]. split; [done|]. intros p H. by apply elem_of_nil in H.
  - done.
  - done.
Qed.

(** A step of one incarnation that goes on. *)
Lemma alive_go d d' t evs i x x' : alive d t -> d_incs d !! i = Some x -> d_incs d' = <[i := x']> (d_incs d) -> d_next d <= d_next d' ->
  i_pid x' = i_pid x -> (forall j p, VStart j p ∉ evs) -> (forall j p, VGone j p ∉ evs) -> (forall j, j <> i -> view j evs = []) ->
  (is_Some (i_loading x') -> is_Some (i_loading x) /\ view i evs = [] /\ i_call x' = None) -> alive d' (t ++ evs).
Proof.
  intros [A1 A2 A3 A4 A5 A6] Hx Hi Hn Hp Hs Hg Hv Hl. destruct (A4 _ _ Hx) as (Ax1 & Ax2 & Ax3). split.
  - intros j p. rewrite elem_of_app. intros [H|H]; [apply A1 in H; lia|by apply Hs in H].
  - intros j Hj. destruct (A2 j ltac:(lia)) as (B1 & B2 & B3). rewrite Hi, lookup_insert_ne by lia. split; [done|].
    rewrite view_app, B2, Hv by lia. split; [done|]. intros p. rewrite elem_of_app. intros [H|H]; [by apply B3 in H|by apply Hg in H].
  - intros j p. rewrite elem_of_app. intros [H|H]; [|by apply Hg in H]. destruct (A3 _ _ H) as [B1 B2]. rewrite Hi.
    split; [|apply elem_of_app; by left]. rewrite lookup_insert_ne; [done|]. intros ->. congruence.
  - intros j y. rewrite Hi. destruct (decide (j = i)) as [->|Hne].
    + rewrite lookup_insert. intros [= <-]. rewrite Hp. split; [apply elem_of_app; by left|]. split; [lia|]. intros p. rewrite elem_of_app. intros [H|H]; [by apply Ax3 in H|by apply Hg in H].
    + rewrite lookup_insert_ne by done. intros Hy. destruct (A4 _ _ Hy) as (B1 & B2 & B3). split; [apply elem_of_app; by left|]. split; [lia|]. intros p. rewrite elem_of_app. intros [H|H]; [by apply B3 in H|by apply Hg in H].
  - intros j p. rewrite elem_of_app. intros [H|H]; [|by apply Hs in H]. destruct (A5 _ _ H) as [(y & Hy & Hyp)|Hy].
    + left. rewrite Hi. destruct (decide (j = i)) as [->|Hne]; [|rewrite lookup_insert_ne by done; by exists y].
      rewrite lookup_insert. exists x'. split; [done|]. congruence.
    + right. apply elem_of_app. by left.
  - intros j y. rewrite Hi. destruct (decide (j = i)) as [->|Hne].
    + rewrite lookup_insert. intros [= <-] Hlo. destruct (Hl Hlo) as (B1 & B2 & B3). destruct (A6 _ _ Hx B1) as [B4 _]. by rewrite view_app, B4, B2.
    + rewrite lookup_insert_ne by done. intros Hy Hlo. destruct (A6 _ _ Hy Hlo) as [B1 B2]. by rewrite view_app, B1, Hv.
Qed.
(** An incarnation is gone. *)
Lemma alive_end d d' t evs i x : alive d t -> d_incs d !! i = Some x -> d_incs d' = delete i (d_incs d) -> d_next d <= d_next d' ->
  (forall j p, VStart j p ∉ evs) -> (forall j p, VGone j p ∈ evs <-> j = i /\ p = i_pid x) -> (forall j, view j evs = []) -> alive d' (t ++ evs).
Proof.
  intros [A1 A2 A3 A4 A5 A6] Hx Hi Hn Hs Hg Hv. destruct (A4 _ _ Hx) as (Ax1 & Ax2 & Ax3). split.
  - intros j p. rewrite elem_of_app. intros [H|H]; [apply A1 in H; lia|by apply Hs in H].
  - intros j Hj. destruct (A2 j ltac:(lia)) as (B1 & B2 & B3). rewrite Hi, lookup_delete_ne by lia. split; [done|].
    rewrite view_app, B2, Hv by lia. split; [done|]. intros p. rewrite elem_of_app. intros [H|H]; [by apply B3 in H|]. apply Hg in H as [-> _]. lia.
  - intros j p. rewrite elem_of_app. intros [H|H].
    + destruct (A3 _ _ H) as [B1 B2]. rewrite Hi. split; [|apply elem_of_app; by left]. rewrite lookup_delete_ne; [done|]. intros ->. congruence.
    + apply Hg in H as [-> ->]. rewrite Hi, lookup_delete. split; [done|]. apply elem_of_app. by left.
  - intros j y. rewrite Hi. destruct (decide (j = i)) as [->|Hne]; [by rewrite lookup_delete|].
    rewrite lookup_delete_ne by done. intros Hy. destruct (A4 _ _ Hy) as (B1 & B2 & B3). split; [apply elem_of_app; by left|]. split; [lia|].
    intros p. rewrite elem_of_app. intros [H|H]; [by apply B3 in H|]. by apply Hg in H as [-> _].
  - intros j p. rewrite elem_of_app. intros [H|H]; [|by apply Hs in H]. destruct (A5 _ _ H) as [(y & Hy & Hyp)|Hy].
    + destruct (decide (j = i)) as [->|Hne].
      * right. apply elem_of_app. right. apply Hg. split; [done|]. congruence.
      * left. rewrite Hi, lookup_delete_ne by done. by exists y.
    + right. apply elem_of_app. by left.
  - intros j y. rewrite Hi. destruct (decide (j = i)) as [->|Hne]; [by rewrite lookup_delete|].
    rewrite lookup_delete_ne by done. intros Hy Hlo. destruct (A6 _ _ Hy Hlo) as [B1 B2]. by rewrite view_app, B1, Hv.
Qed.
Lemma alive_same d d' t evs : alive d t -> d_incs d' = d_incs d -> d_next d' = d_next d -> evs = [] -> alive d' (t ++ evs).
Proof. intros [A1 A2 A3 A4 A5 A6] Hi Hn ->. rewrite app_nil_r. split; rewrite ?Hi, ?Hn; done. Qed.

Ltac not_in := let Hin := fresh in intros ?? Hin; cbn [snd] in Hin; rewrite ?elem_of_cons, ?elem_of_nil in Hin; destruct_or? Hin; done.

Lemma alive_step d t o : alive d t -> alive (dstep S conf d o).1 (t ++ (dstep S conf d o).2).
Proof.
  intros A. pose proof A as [A1 A2 A3 A4 A5 A6]. destruct d as [st incs fl n]. cbn [d_next d_incs] in *.
  destruct o as [pid|i|i c|k|i ok|i]; cbn [dstep].
  - destruct (recover_snapshot S conf pid journal_new st) as [jn snap]. cbn [fst snd]. destruct (A2 n ltac:(lia)) as (An1 & An2 & An3). split; cbn [d_next d_incs].
    + intros j p. rewrite elem_of_app, elem_of_list_singleton. intros [H|[= -> _]]; [apply A1 in H|]; lia.
    + intros j Hj. destruct (A2 j ltac:(lia)) as (B1 & B2 & B3). rewrite lookup_insert_ne by lia. split; [done|]. rewrite view_app, B2. split; [done|].
      intros p. rewrite elem_of_app, elem_of_list_singleton. intros [H|H]; [by apply B3 in H|done].
    + intros j p. rewrite elem_of_app, elem_of_list_singleton. intros [H|H]; [|done]. destruct (A3 _ _ H) as [B1 B2].
      rewrite lookup_insert_ne; [split; [done|apply elem_of_app; by left]|]. intros <-. by apply (An3 p).
    + intros j x. destruct (decide (j = n)) as [->|Hne].
      * rewrite lookup_insert. intros [= <-]. cbn. split; [apply elem_of_app; right; by left|]. split; [lia|]. intros p. rewrite elem_of_app, elem_of_list_singleton. intros [H|H]; [by apply An3 in H|done].
      * rewrite lookup_insert_ne by done. intros Hx. destruct (A4 _ _ Hx) as (B1 & B2 & B3). split; [apply elem_of_app; by left|]. split; [lia|]. intros p. rewrite elem_of_app, elem_of_list_singleton. intros [H|H]; [by apply B3 in H|done].
    + intros j p. rewrite elem_of_app, elem_of_list_singleton. intros [H|[= -> ->]].
      * destruct (A5 _ _ H) as [(y & Hy & Hyp)|Hy]; [|right; apply elem_of_app; by left]. left. rewrite lookup_insert_ne; [by exists y|]. intros <-. congruence.
      * left. rewrite lookup_insert. by eexists.
    + intros j x. destruct (decide (j = n)) as [->|Hne].
      * rewrite lookup_insert. intros [= <-] _. by rewrite view_app, An2.
      * rewrite lookup_insert_ne by done. intros Hx Hl. destruct (A6 _ _ Hx Hl) as [B1 B2]. by rewrite view_app, B1.
  - destruct (incs !! i) as [[pid jn [snap|] call]|] eqn:Ei; [|by eapply alive_same..].
    destruct (recover_messages S conf pid jn st) as [j' ms]. eapply alive_go; [exact A|exact Ei|done|cbn; lia|done|not_in|not_in| |].
    + intros j Hj. cbn. rewrite (proj2 (N.eqb_neq i j)) by done. done.
    + intros [? [=]].
  - destruct (incs !! i) as [[pid jn [snap|] [call|]]|] eqn:Ei; try by eapply alive_same.
    destruct (call_write conf pid c jn) as [[w|]|].
    + eapply alive_go; [exact A|exact Ei|done|cbn; lia|done|not_in|not_in|done|]. intros [? [=]].
    + eapply alive_go; [exact A|exact Ei|by cbn; rewrite insert_id|cbn; lia|done|not_in|not_in| |by intros [? [=]]].
      intros j Hj. cbn. destruct (empty_answer c); [|done]. by rewrite (proj2 (N.eqb_neq i j)).
    + eapply alive_end; [exact A|exact Ei|done|cbn; lia|not_in| |done].
      intros j p. cbn [snd]. rewrite !elem_of_cons, elem_of_nil. split; [intros [?|[[= -> ->]|?]]; done|]. intros [-> ->]. right. by left.
  - destruct (fl !! k) as [[p w]|]; by eapply alive_same.
  - destruct (incs !! i) as [[pid jn l [[k c]|]]|] eqn:Ei; try by eapply alive_same.
    assert (Hl : l = None). { destruct l as [l|]; [|done]. exfalso. destruct (A6 _ _ Ei ltac:(cbn; by eexists)) as [_ ?]. done. } subst l.
    destruct ok; [destruct (fl !! k)|].
    + by eapply alive_same.
    + eapply alive_go; [exact A|exact Ei|done|cbn; lia|done|not_in|not_in| |by intros [? [=]]].
      intros j Hj. cbn. by rewrite (proj2 (N.eqb_neq i j)).
    + eapply alive_go; [exact A|exact Ei|done|cbn; lia|done|not_in|not_in|done|by intros [? [=]]].
  - destruct (incs !! i) as [x|] eqn:Ei; [|by eapply alive_same].
    eapply alive_end; [exact A|exact Ei|done|cbn; lia|not_in| |done].
    intros j p. cbn [snd]. rewrite elem_of_list_singleton. split; [by intros [= -> ->]|by intros [-> ->]].
Qed.
Lemma alive_drun l : forall d t, alive d t -> alive (drun S conf d l).1 (t ++ (drun S conf d l).2).
Proof.
  induction l as [|o l IH]; intros d t A; cbn [drun]; [by rewrite app_nil_r|].
  pose proof (alive_step d t o A) as A'. destruct (dstep S conf d o) as [d1 e1]. cbn [fst snd] in A'. specialize (IH _ _ A').
  destruct (drun S conf d1 l) as [d2 e2]. cbn [fst snd] in *. by rewrite app_assoc.
Qed.
End journals.
