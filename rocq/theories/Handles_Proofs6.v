(** The storage providers of persistent actors. *)
From Verif Require Import Handles_Spec Handles_Proofs Handles_Proofs2 Handles_Proofs3 Handles_Proofs4 Handles_Proofs5.
Local Open Scope N_scope.

Lemma configured_snoc p l y : configured p (l ++ [y]) = actor_provider (configured p l) y.1 y.2.
Proof. unfold configured. by rewrite fold_left_app. Qed.
Lemma configured_default p l : provider (configured p l) TBoxedRef = p.
Proof.
  unfold provider. assert (H : p_default (configured p l) = p /\ p_own (configured p l) !! TBoxedRef = None).
  { induction l as [|y l [IH1 IH2]] using rev_ind; [done|]. rewrite configured_snoc. cbn. by rewrite lookup_insert_ne. }
  destruct H as [-> ->]. done.
Qed.
Lemma configured_meant p l t : provider (configured p l) (TActor t) = meant p l t.
Proof.
  unfold provider, meant. assert (H : p_default (configured p l) = p).
  { induction l as [|y l IH] using rev_ind; [done|]. by rewrite configured_snoc. }
  rewrite H. clear H. induction l as [|y l IH] using rev_ind; [done|]. rewrite configured_snoc, reverse_snoc. cbn.
  case_decide as E.
  - rewrite E, lookup_insert. done.
  - rewrite lookup_insert_ne by congruence. rewrite IH. by destruct (list_find _ (reverse l)) as [[? ?]|].
Qed.

(** Every handle and actor of a program with one system has the persistence given at the start. *)
Fixpoint pers_all (P : persistence) (s : asys) : Prop :=
  match s with ASys _ p r => p = Some P /\ match r with Some (RSys _ _ s') => pers_all P s' | None => True end end.
Lemma pers_all_pers P s : pers_all P s -> s_pers s = Some P.
Proof. destruct s. by intros [-> _]. Qed.
Definition all_have (P : persistence) (w : world) : Prop := obeys (fun _ => pers_all P) (fun _ r => pers_all P (r_actor_system r)) 0 0 w.

Lemma all_have_step P w o : match o with HNew p => p = Some P | HPersist _ p => p = P | _ => True end -> all_have P w -> all_have P (hstep w o).1.
Proof.
  intros Ho Hw. apply obeys_step; [done|done|done|done|].
  split; [destruct o; cbn; lia|]. destruct o; cbn in *; try done.
  - subst. intros _ [c q r] [_ H]. by split.
  - intros _ v s Hs. split; [|split]; destruct s as [c q r]; destruct Hs as [-> Hr]; by cbn.
  - intros _ s r Hs Hr. destruct s as [c q [[m v s']|]]; [|done]. destruct Hs as [_ Hs]. injection Hr as <-. done.
  - intros _ s r Hs Hr. destruct s as [c q [[m v s']|]]; [|done]. destruct Hs as [_ Hs]. injection Hr as <-. done.
Qed.

Lemma step_stores w o :
  w_stores (hstep w o).1 =
  match o with
  | HStore a x =>
      match living w a with
      | Some b => match a_store b with
                  | Some p => <[(p, a_id b) := default [] (w_stores w !! (p, a_id b)) ++ [(t_num (a_type b), x)]]> (w_stores w)
                  | None => w_stores w
                  end
      | None => w_stores w
      end
  | _ => w_stores w
  end.
Proof.
  assert (Hb : match o with HBuild h n => w_stores (hstep w (HBuild h n)).1 = w_stores w | _ => True end).
  { destruct o; try done. destruct (s_handle w h) as [s|] eqn:E; [|by rewrite no_build]. rewrite (step_build _ _ _ _ E).
    destruct (b_down w s); cbn [fst add_handle w_stores]; by rewrite ?b_w9_stores, ?b_w10_stores. }
  destruct o.
  - done.
  - cbn [hstep]. by destruct (s_handle w h).
  - exact Hb.
  - cbn [hstep]. by destruct (r_handle w h).
  - cbn [hstep]. destruct (s_handle w h) as [s|]; [|done]. by destruct (s_remote s).
  - cbn [hstep]. by destruct (living w a).
  - cbn [hstep]. destruct (s_handle w h); [|done]. cbn [started fst]. by rewrite start_stores.
  - cbn [hstep]. destruct (living w a); [|done]. cbn [started fst]. by rewrite start_stores.
  - cbn [hstep]. destruct (r_handle w h); [|done]. cbn [started fst]. by rewrite start_stores.
  - cbn [hstep]. destruct (r_handle w h); [|done]. cbn [started fst]. by rewrite start_stores.
  - cbn [hstep]. destruct (living w a) as [x|]; [|done]. destruct (s_remote (a_sys x)); cbn [started fst with_actor w_stores]; by rewrite ?start_stores.
  - cbn [hstep]. destruct (living w a) as [x|]; [|done]. by destruct (s_remote (a_sys x)).
  - cbn [hstep]. destruct (living w a) as [y|]; [|done]. by destruct (a_store y).
  - cbn [hstep]. destruct (living w a) as [x|]; [|done]. case_bool_decide; [|done]. cbn [fst]. by destruct (_ && _).
  - cbn [hstep]. by destruct (s_handle w h).
  - cbn [hstep]. by destruct (s_handle w h).
  - cbn [hstep]. destruct (s_handle w h) as [s|]; [|done]. cbn [fst]. unfold shutdown. by destruct (c_down _), (s_remote s).
Qed.

(** ** Every actor has the provider looked up for the type of its reference *)
Definition stores_ok (q : N) (l : list hactor) : Prop :=
  forall i a, l !! i = Some a -> a_store a = if t_persists (a_type a) then Some q else None.

Lemma stores_app q l l' : stores_ok q l -> (forall a, a ∈ l' -> a_store a = if t_persists (a_type a) then Some q else None) -> stores_ok q (l ++ l').
Proof.
  intros H1 H2 i a Ha. apply lookup_app_Some in Ha as [Ha|[_ Ha]]; [by eapply H1|].
  apply H2. by eapply elem_of_list_lookup_2.
Qed.
Lemma stores_kept q l l' : stores_ok q l -> length l' = length l -> kept l l' -> stores_ok q l'.
Proof.
  intros H Hl Hk i b Hb. destruct (l !! i) as [a|] eqn:E.
  - destruct (Hk _ _ E) as (b' & Hb' & Es). assert (b' = b) as -> by congruence.
    destruct Es as (_ & Et & _ & _ & _ & Es & _). rewrite <-Es, <-Et. by eapply H.
  - apply lookup_ge_None in E. apply lookup_lt_Some in Hb. lia.
Qed.

Section one.
Variable P : persistence.
Notation q := (provider P TBoxedRef).

Lemma stores_new w s id t tr p : pers_all P s -> a_store (new_one w s id t tr p) = if t_persists (a_type (new_one w s id t tr p)) then Some q else None.
Proof. intros Hs. cbn. unfold with_persistence. by rewrite (pers_all_pers _ _ Hs). Qed.
Lemma stores_start w s id t tr p : pers_all P s -> stores_ok q (w_actors w) -> stores_ok q (w_actors (start w s id t tr p).1).
Proof.
  intros Hs Hw. rewrite start_actors. apply stores_app; [done|]. intros a Ha. apply elem_of_list_singleton in Ha as ->. by apply stores_new.
Qed.
Lemma news_stores w s l a : a ∈ news w s l -> a_store a = None /\ t_persists (a_type a) = false.
Proof.
  revert w. induction l as [|id l IH]; intros w; [by rewrite elem_of_nil|]. cbn [news].
  rewrite elem_of_cons. intros [->|H]; [done|]. by apply (IH _ H).
Qed.

Lemma have_handle w h s : all_have P w -> s_handle w h = Some s -> pers_all P s.
Proof. intros Hw H. apply s_handle_lookup in H. eapply (ob_s _ _ _ _ _ Hw h s); [lia|done]. Qed.
Lemma have_rhandle w h r : all_have P w -> r_handle w h = Some r -> pers_all P (r_actor_system r).
Proof. intros Hw H. apply r_handle_lookup in H. eapply (ob_r _ _ _ _ _ Hw h r); [lia|done]. Qed.
Lemma have_living w a x : all_have P w -> living w a = Some x -> pers_all P (a_sys x).
Proof. intros Hw H. apply living_lookup in H as [H _]. eapply (ob_a _ _ _ _ _ Hw a x); [lia|done]. Qed.
Lemma pers_inner s r : pers_all P s -> s_remote s = Some r -> pers_all P (r_actor_system r).
Proof. destruct s as [c p [[m v s']|]]; [|done]. intros [_ Hs] [= <-]. done. Qed.

Lemma stores_step w o : all_have P w -> stores_ok q (w_actors w) -> stores_ok q (w_actors (hstep w o).1).
Proof.
  intros Hw Hs.
  assert (Hb : match o with HBuild h n => stores_ok q (w_actors (hstep w (HBuild h n)).1) | _ => True end).
  { destruct o; try done. destruct (s_handle w h) as [s|] eqn:E; [|by rewrite no_build]. rewrite (step_build _ _ _ _ E).
    assert (H5 : stores_ok q (w_actors w ++ the_five w s n)).
    { apply stores_app; [done|]. intros a Ha. destruct (the_five_new _ _ _ _ Ha) as (b & Hb & (_ & Et & Es & _) & _).
      destruct (news_stores _ _ _ _ Hb) as [H1 H2]. by rewrite Es, Et, H1, H2. }
    destruct (b_down w s); cbn [fst add_handle w_actors]; by rewrite ?b_w9_actors, ?b_w10_actors. }
  assert (Hal : forall l r, stores_ok q l -> stores_ok q (alter dead r l)).
  { intros l r Hl. eapply stores_kept; [exact Hl|by rewrite alter_length|]. apply kept_alter; intros ??; apply same_dead. }
  assert (Hen : forall l r, stores_ok q l -> stores_ok q (end_in r <$> l)).
  { intros l r Hl. eapply stores_kept; [exact Hl|by rewrite fmap_length|]. apply kept_fmap, same_end. }
  destruct o.
  - done.
  - cbn [hstep]. by destruct (s_handle w h).
  - exact Hb.
  - cbn [hstep]. by destruct (r_handle w h).
  - cbn [hstep]. destruct (s_handle w h) as [s|]; [|done]. by destruct (s_remote s).
  - cbn [hstep]. by destruct (living w a).
  - cbn [hstep]. destruct (s_handle w h) eqn:E; [|done]. apply stores_start; [|done]. by eapply have_handle.
  - cbn [hstep]. destruct (living w a) eqn:E; [|done]. apply stores_start; [|done]. by eapply have_living.
  - cbn [hstep]. destruct (r_handle w h) eqn:E; [|done]. apply stores_start; [|done]. by eapply have_rhandle.
  - cbn [hstep]. destruct (r_handle w h) eqn:E; [|done]. apply stores_start; [|done]. by eapply have_rhandle.
  - cbn [hstep]. destruct (living w a) as [x|] eqn:E; [|done]. pose proof (have_living _ _ _ Hw E) as Hx.
    pose proof (stores_start w (a_sys x) "session" (plain 0) false (Some a) Hx Hs) as H1.
    destruct (s_remote (a_sys x)) as [y|] eqn:Ey.
    + cbn [started fst]. apply stores_start; [|done]. by eapply pers_inner.
    + cbn [fst]. unfold with_actor; cbn [w_actors]. by apply Hal, Hal.
  - cbn [hstep]. destruct (living w a) as [x|]; [|done]. destruct (s_remote (a_sys x)); [done|]. by apply Hal.
  - cbn [hstep]. destruct (living w a) as [y|]; [|done]. by destruct (a_store y).
  - cbn [hstep]. destruct (living w a) as [x|]; [|done]. case_bool_decide; [|done]. cbn [fst].
    pose proof (Hen _ [a] Hs) as H1. by destruct (_ && _).
  - cbn [hstep]. by destruct (s_handle w h).
  - cbn [hstep]. by destruct (s_handle w h).
  - cbn [hstep]. destruct (s_handle w h) as [s|]; [|done]. cbn [fst]. unfold shutdown.
    match goal with |- context [if ?b then ?x else ?y] => set (w2 := if b then x else y) end.
    assert (H2 : stores_ok q (w_actors w2)).
    { unfold w2. destruct (c_down _); [done|]. by apply (Hen (w_actors w)). }
    destruct (s_remote s); [|done]. by apply (Hen (w_actors w2)).
Qed.

(** ** What is stored *)
Lemma stored_by_snoc w id l rs o r : length l = length rs ->
  stored_by w id (l ++ [o]) (rs ++ [r]) = stored_by w id l rs ++ stored_by w id [o] [r].
Proof.
  revert rs. induction l as [|o' l IH]; intros [|r' rs] Hl; [done|done|done|].
  cbn [length] in Hl. injection Hl as Hl. cbn [app stored_by].
  destruct o'; try (by apply IH). destruct r'; try (by apply IH).
  destruct (w_actors w !! a) as [b|]; [|by apply IH]. case_bool_decide; [|by apply IH]. cbn [app]. f_equal. by apply IH.
Qed.
Definition stores_done (w : world) (l : list hop) (rs : list hres) : Prop :=
  forall i a x, l !! i = Some (HStore a x) -> rs !! i = Some RDone -> exists b, w_actors w !! a = Some b /\ t_persists (a_type b) = true.
Lemma stored_by_kept w w' id l rs : kept (w_actors w) (w_actors w') -> stores_done w l rs -> stored_by w' id l rs = stored_by w id l rs.
Proof.
  intros Hk. revert rs. induction l as [|o l IH]; intros [|r rs] Hd; [done|done|by destruct o|].
  assert (Hd' : stores_done w l rs) by (intros i a x H1 H2; exact (Hd (S i) a x H1 H2)).
  specialize (IH rs Hd'). cbn [stored_by]. destruct o; try done. destruct r; try done.
  destruct (Hd 0%nat a x eq_refl eq_refl) as (b & Hb & _). destruct (Hk _ _ Hb) as (c & Hc & Es).
  destruct Es as (Ei & Et & _). by rewrite Hb, Hc, IH, Ei, Et.
Qed.

Lemma stored_by_from w id l rs t e : stores_done w l rs -> (t, e) ∈ stored_by w id l rs ->
  exists a b, w_actors w !! a = Some b /\ a_id b = id /\ t_persists (a_type b) = true /\ t_num (a_type b) = t.
Proof.
  revert rs. induction l as [|o l IH]; intros [|r rs] Hd; [by rewrite elem_of_nil..|destruct o; by rewrite elem_of_nil|].
  assert (Hd' : stores_done w l rs) by (intros i a x H1 H2; exact (Hd (S i) a x H1 H2)).
  specialize (IH rs Hd'). cbn [stored_by]. destruct o; try done. destruct r; try done.
  destruct (Hd 0%nat a x eq_refl eq_refl) as (b & Hb & Ht). rewrite Hb. case_bool_decide; [|done].
  rewrite elem_of_cons. intros [[= -> ->]|H']; [|by apply IH]. by exists a, b.
Qed.

Record told (l : list hop) : Prop := {
  to_have : all_have P (hrun l).1;
  to_ok : stores_ok q (w_actors (hrun l).1);
  to_done : stores_done (hrun l).1 l (hrun l).2;
  to_stores : forall p id, default [] (w_stores (hrun l).1 !! (p, id)) = if bool_decide (p = q) then stored_by (hrun l).1 id l (hrun l).2 else [] }.

Lemma kept_some l l' a : kept l l' -> (exists b, l !! a = Some b /\ t_persists (a_type b) = true) -> exists b, l' !! a = Some b /\ t_persists (a_type b) = true.
Proof. intros Hk (x & Hx & Ht). destruct (Hk _ _ Hx) as (y & Hy & (_ & E & _)). exists y. by rewrite <-E. Qed.

Lemma told_step l o : match o with HNew p => p = Some P | HPersist _ p => p = P | _ => True end -> told l -> told (l ++ [o]).
Proof.
  intros Ho [H1 H2 H3 H4]. assert (Hl : length (hrun l).2 = length l) by apply run_length.
  pose proof (step_kept (hrun l).1 o) as Hk.
  assert (Hso : forall a x, o = HStore a x -> (hstep (hrun l).1 o).2 = RDone -> exists b, living (hrun l).1 a = Some b /\ a_store b = Some q /\ (w_stores (hstep (hrun l).1 o).1 = <[(q, a_id b) := (default [] (w_stores (hrun l).1 !! (q, a_id b)) ++ [(t_num (a_type b), x)])]> (w_stores (hrun l).1))).
  { intros a x -> Hr. rewrite step_stores. cbn [hstep] in Hr. destruct (living (hrun l).1 a) as [b|] eqn:E; [|done]. exists b.
    destruct (a_store b) as [p|] eqn:Es; [|done]. split; [done|].
    assert (p = q) as ->; [|done]. apply living_lookup in E as [E _]. rewrite (H2 _ _ E) in Es. destruct (t_persists _); congruence. }
  split; rewrite hrun_snoc; cbn [fst snd].
  - by apply all_have_step.
  - by apply stores_step.
  - intros i a x Hi Hr. apply lookup_app_Some in Hi as [Hi|[Hi Hi']].
    + assert (Hlt : (i < length (hrun l).2)%nat) by (apply lookup_lt_Some in Hi; lia). rewrite lookup_app_l in Hr by done.
      eapply kept_some; [exact Hk|]. by eapply H3.
    + assert (Hz : (i - length l = 0)%nat) by (apply lookup_lt_Some in Hi'; cbn in Hi'; lia). rewrite Hz in Hi'. injection Hi' as ->.
      rewrite lookup_app_r in Hr by lia. replace (i - length (hrun l).2)%nat with 0%nat in Hr by lia. injection Hr as Hr.
      destruct (Hso _ _ eq_refl Hr) as (b & E & Eq & _). apply living_lookup in E as [E _]. eapply kept_some; [exact Hk|].
      exists b. split; [done|]. rewrite (H2 _ _ E) in Eq. by destruct (t_persists (a_type b)).
  - intros p id. rewrite stored_by_snoc by done. rewrite (stored_by_kept _ _ _ _ _ Hk H3).
    destruct (match o with HStore _ _ => match (hstep (hrun l).1 o).2 with RDone => true | _ => false end | _ => false end) eqn:Eb.
    + destruct o; try done. destruct (hstep (hrun l).1 (HStore a x)).2 eqn:Er; try done.
      destruct (Hso _ _ eq_refl eq_refl) as (b & E & Es & Ew). rewrite Ew. cbn [stored_by].
      apply living_lookup in E as [E _]. destruct (Hk _ _ E) as (b' & Eb' & (Ei & Et & _)). rewrite Eb', <-Ei, <-Et.
      destruct (decide (p = q)) as [->|Hp]; cycle 1.
      { rewrite bool_decide_eq_false_2 by done. rewrite lookup_insert_ne by congruence. rewrite H4. by rewrite bool_decide_eq_false_2. }
      rewrite bool_decide_eq_true_2 by done. case_bool_decide as Hid.
      * subst id. rewrite lookup_insert. cbn [default]. rewrite H4. by rewrite bool_decide_eq_true_2.
      * rewrite lookup_insert_ne by congruence. rewrite H4, bool_decide_eq_true_2 by done. by rewrite app_nil_r.
    + assert (Ew : w_stores (hstep (hrun l).1 o).1 = w_stores (hrun l).1).
      { rewrite step_stores. destruct o; try done. cbn [hstep] in Eb. destruct (living (hrun l).1 a) as [b|]; [|done]. by destruct (a_store b). }
      assert (En : stored_by (hstep (hrun l).1 o).1 id [o] [(hstep (hrun l).1 o).2] = []).
      { revert Eb. generalize (hstep (hrun l).1 o). intros [w' r]. cbn [fst snd]. destruct o; try done. by destruct r. }
      rewrite Ew, En, app_nil_r. apply H4.
Qed.

Lemma told_run l : one_system l -> told (HNew (Some P) :: l).
Proof.
  intros Hl. change (HNew (Some P) :: l) with ([HNew (Some P)] ++ l). induction l as [|o l IH] using rev_ind.
  - rewrite app_nil_r. change [HNew (Some P)] with ([] ++ [HNew (Some P)]). apply told_step; [done|]. split.
    + split; intros i ? _ H; done.
    + intros i a H. done.
    + intros i a x H. done.
    + intros p id. cbn. by case_bool_decide.
  - apply Forall_app in Hl as [Hl Ho]. rewrite (assoc_L (++)). apply told_step; [|by apply IH].
    apply Forall_cons in Ho as [Ho _]. by destruct o.
Qed.

(** What an actor that has just been created has read. *)
Lemma new_reads w s id t tr p : pers_all P s -> t_persists t = true ->
  a_read (new_one w s id t tr p) = default [] (w_stores w !! (q, id)).
Proof. intros Hs Ht. unfold new_one; cbn [a_read]. rewrite Ht. unfold with_persistence. by rewrite (pers_all_pers _ _ Hs). Qed.

Lemma step_reads w o a x : all_have P w -> (hstep w o).2 = RActor a -> w_actors (hstep w o).1 !! a = Some x -> t_persists (a_type x) = true ->
  a_read x = default [] (w_stores w !! (q, a_id x)).
Proof.
  intros Hw.
  assert (Hst : forall w' s id t tr p, pers_all P s -> w_stores w' = w_stores w -> w_actors (start w' s id t tr p).1 !! length (w_actors w') = Some x ->
    t_persists (a_type x) = true -> a_read x = default [] (w_stores w !! (q, a_id x))).
  { intros w' s id t tr p Hs Hww. rewrite start_actors, list_lookup_middle by done. intros [= <-] Ht. rewrite <-Hww. by apply new_reads. }
  assert (Hb : match o with HBuild h n => (hstep w (HBuild h n)).2 = RActor a -> False | _ => True end).
  { destruct o; try done. destruct (s_handle w h) as [s|] eqn:E; [|by rewrite no_build]. rewrite (step_build _ _ _ _ E). by destruct (b_down w s). }
  destruct o.
  - done.
  - cbn [hstep]. by destruct (s_handle w h).
  - intros H. by destruct (Hb H).
  - cbn [hstep]. by destruct (r_handle w h).
  - cbn [hstep]. destruct (s_handle w h) as [s|]; [|done]. by destruct (s_remote s).
  - cbn [hstep]. by destruct (living w a0).
  - cbn [hstep]. destruct (s_handle w h) eqn:E; [|done]. cbn [started fst snd]. destruct (start _ _ _ _ _ _).2; [|done]. intros [= <-].
    apply Hst; [by eapply have_handle|done].
  - cbn [hstep]. destruct (living w a0) eqn:E; [|done]. cbn [started fst snd]. destruct (start _ _ _ _ _ _).2; [|done]. intros [= <-].
    apply Hst; [by eapply have_living|done].
  - cbn [hstep]. destruct (r_handle w h) eqn:E; [|done]. cbn [started fst snd]. destruct (start _ _ _ _ _ _).2; [|done]. intros [= <-].
    apply Hst; [by eapply have_rhandle|done].
  - cbn [hstep]. destruct (r_handle w h) eqn:E; [|done]. cbn [started fst snd]. destruct (start _ _ _ _ _ _).2; [|done]. intros [= <-].
    apply Hst; [by eapply have_rhandle|done].
  - cbn [hstep]. destruct (living w a0) as [y|] eqn:E; [|done]. pose proof (have_living _ _ _ Hw E) as Hx.
    destruct (s_remote (a_sys y)) as [z|] eqn:Ey; [|done]. cbn [started fst snd].
    destruct (start (start _ _ _ _ _ _).1 _ _ _ _ _).2; [|done]. intros [= <-].
    replace (S (length (w_actors w))) with (length (w_actors (start w (a_sys y) "session" (plain 0) false (Some a0)).1)) by (rewrite start_actors, app_length; cbn; lia).
    apply Hst; [by eapply pers_inner|apply start_stores].
  - cbn [hstep]. destruct (living w a0) as [y|]; [|done]. by destruct (s_remote (a_sys y)).
  - cbn [hstep]. destruct (living w a0) as [y|]; [|done]. by destruct (a_store y).
  - cbn [hstep]. destruct (living w a0) as [y|]; [|done]. by case_bool_decide.
  - cbn [hstep]. by destruct (s_handle w h).
  - cbn [hstep]. by destruct (s_handle w h).
  - cbn [hstep]. by destruct (s_handle w h).
Qed.
End one.
