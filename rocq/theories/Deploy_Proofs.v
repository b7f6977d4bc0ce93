(** Proofs about deployments. *)
From Verif Require Import Locate_Spec Locate_Proofs Deploy_Model Deploy_Spec.

Section deploy.
Variable rhash : N -> string -> string -> option Z -> N.
Variable khash : string -> N.
Variable search : list N -> N -> nat.
Variable handlers : N -> string -> option (bytes -> bool).
Notation lstep := (lstep rhash khash search).
Notation lrun := (lrun rhash khash search).
Notation pstep := (pstep rhash khash search handlers).
Notation prun := (prun rhash khash search handlers).
Notation failure := (failure handlers).
Notation fit := (fit handlers).

Lemma prun_app s l1 l2 : prun s (l1 ++ l2) = prun s l1 ≫= fun s' => prun s' l2.
Proof. revert s. induction l1 as [|o l1 IH]; intros s; simpl; [done|]. destruct (pstep s o); [|done]. apply IH. Qed.
Lemma pruns_ind (P : psys -> Prop) s l s' : (forall s o s', o ∈ l -> P s -> pstep s o = Some s' -> P s') ->
  P s -> prun s l = Some s' -> P s'.
Proof.
  revert s. induction l as [|o l IH]; intros s Hstep Hs; simpl; [by intros [= <-]|].
  destruct (pstep s o) as [s1|] eqn:E; [|done]. cbn. intros Hr. eapply (IH s1); [|by eapply (Hstep s o); [left|..]|done].
  intros ? ? ? ?; apply Hstep. by right.
Qed.

(** ** The story of a deployment *)
(** A lookup has one origin and one id. *)
Definition asked (q : nat) (n : N) (i : string) (w : world) : Prop :=
  (forall n' i' r t, LAnswer q n' i' r t ∈ w_log w -> n' = n /\ i' = i) /\
  (forall n' path i', w_looks w !! q = Some (n', path, i') -> n' = n /\ i' = i).
Lemma asked_step q n i w o w' : (q < w_next w)%nat -> asked q n i w -> lstep w o = Some w' -> asked q n i w'.
Proof.
  intros Hq [H1 H2] H. apply lstep_change in H. inversion H; subst; cbn; split; cbn; intros; 
  repeat match goal with
    | H : _ ∈ _ ++ [_] |- _ => apply elem_of_snoc in H as [H|H]; [|first [discriminate H|injection H as ?; subst]]
    | H : <[_ := _]> (w_looks _) !! _ = Some _ |- _ => apply lookup_insert_Some in H as [[? H]|[_ H]]; [first [exfalso; lia|injection H as ?; subst]|]
    | H : delete _ _ !! _ = Some _ |- _ => apply lookup_delete_Some in H as [_ H]
    end; eauto.
Qed.
Definition phase_ok (s : psys) (k : nat) (c : pcall) (ev : list pevent) : Prop :=
  (p_phase c = Sent -> p_from c <> p_to c) /\
  match p_phase c with
  | Sent | Creating => ev = [] /\ p_recipe c <> None
  | Looking q => ev = [] /\ p_recipe c <> None /\ (q < w_next (ps_world s))%nat /\ pending q (p_to c) (p_id c) (ps_world s) /\
      asked q (p_to c) (p_id c) (ps_world s)
  | Starting => ev = [PMade k (p_to c) (p_id c)] /\ fit c
  | Replied => ev = [PMade k (p_to c) (p_id c); PUp k] /\ fit c /\ p_from c <> p_to c
  | Dropped => p_from c <> p_to c /\ (ev = [] \/ ev = [PMade k (p_to c) (p_id c); PUp k] /\ fit c)
  | Refused => p_from c <> p_to c /\ exists e ev', failure s k c e ev' /\ ev = ev' ++ [PFailed k e]
  | Answered =>
      (ev = [PErr k PRecipe] /\ p_recipe c = None) \/
      (ev = [PMade k (p_to c) (p_id c); PUp k; PRef k (p_to c) (p_id c)] /\ fit c) \/
      (p_from c = p_to c /\ exists e ev', failure s k c e ev' /\ ev = ev' ++ [PFailed k e; PErr k e])
  end.
(** The registries go on. *)
Record ext (w w' : world) : Prop := Ext {
  ex_log : forall e, e ∈ w_log w -> e ∈ w_log w';
  ex_next : (w_next w <= w_next w')%nat;
  ex_pending : forall q n i, (q < w_next w)%nat -> pending q n i w -> pending q n i w';
  ex_asked : forall q n i, (q < w_next w)%nat -> asked q n i w -> asked q n i w'
}.
Lemma ext_refl w : ext w w.
Proof. by constructor. Qed.
Lemma log_step w o w' e : lstep w o = Some w' -> e ∈ w_log w -> e ∈ w_log w'.
Proof.
  intros H He. apply lstep_change in H. inversion H; subst; cbn; try done; apply elem_of_app; by left.
Qed.
Lemma ext_step w o w' : lstep w o = Some w' -> ext w w'.
Proof.
  intros H. constructor; [intros e; by eapply log_step|by eapply next_step|intros q n i Hq Hp; by eapply pending_step|].
  intros q n i Hq Hp; by eapply asked_step.
Qed.
Lemma phase_ext s s' k c ev : ext (ps_world s) (ps_world s') -> phase_ok s k c ev -> phase_ok s' k c ev.
Proof.
  intros [E1 E2 E3 E4] [H1 H]. split; [done|].
  assert (HF : forall e ev, failure s k c e ev -> failure s' k c e ev).
  { intros e ev' []; [eapply f_exists; eauto|by eapply f_type|by eapply f_recipe|by eapply f_factory|by eapply f_start]. }
  destruct (p_phase c); try done.
  - destruct H as (-> & H2 & H3 & H4 & H5). split_and!; [done|done|lia|by apply E3|by apply E4].
  - destruct H as (H2 & e & ev' & H3 & ->). split; [done|]. exists e, ev'. eauto.
  - destruct H as [H|[H|(H2 & e & ev' & H3 & ->)]]; [by left|by right; left|]. right; right. split; [done|]. exists e, ev'. eauto.
Qed.

Record okinv (s : psys) : Prop := OkInv {
  oi_calls : forall k c, ps_calls s !! k = Some c -> (k < ps_next s)%nat;
  oi_log : forall k e, e ∈ ps_log s -> of_call k e = true -> (k < ps_next s)%nat;
  oi_story : forall k c, ps_calls s !! k = Some c -> phase_ok s k c (events k s);
  oi_all : forall k, (k < ps_next s)%nat -> ps_calls s !! k <> None;
  oi_made : made (ps_world s);
  oi_numbered : numbered (ps_world s)
}.
Lemma events_app k s w cs nx ev : events k (PSys w cs nx (ps_log s ++ ev)) = events k s ++ List.filter (of_call k) ev.
Proof. unfold events. cbn. by rewrite List.filter_app. Qed.
Lemma filter_all (f : pevent -> bool) l : (forall e, e ∈ l -> f e = true) -> List.filter f l = l.
Proof.
  induction l as [|x l IH]; [done|]. intros H. simpl. rewrite (H x) by (by left). f_equal. apply IH. intros e He. apply H. by right.
Qed.
Lemma filter_none (f : pevent -> bool) l : (forall e, e ∈ l -> f e = false) -> List.filter f l = [].
Proof. induction l as [|x l IH]; [done|]. intros H. simpl. rewrite (H x) by (by left). apply IH. intros e He. apply H. by right. Qed.
Lemma of_call_inj k k' e : of_call k e = true -> of_call k' e = true -> k = k'.
Proof. destruct e; cbn; intros H1%Nat.eqb_eq H2%Nat.eqb_eq; congruence. Qed.
Lemma ok_put s k c ev w nx : okinv s -> (forall e, e ∈ ev -> of_call k e = true) ->
  w = ps_world s \/ (exists o, lstep (ps_world s) o = Some w) ->
  (k < ps_next s)%nat /\ nx = ps_next s \/ k = ps_next s /\ nx = S k ->
  phase_ok (PSys w (<[k := c]> (ps_calls s)) nx (ps_log s ++ ev)) k c (events k s ++ ev) ->
  okinv (PSys w (<[k := c]> (ps_calls s)) nx (ps_log s ++ ev)).
Proof.
  intros [H1 H2 H3 H4 H5 H6] Hev Hw Hk Hc.
  assert (Hx : ext (ps_world s) w) by (destruct Hw as [->|[o Ho]]; [apply ext_refl|by eapply ext_step]).
  constructor; cbn [ps_calls ps_log ps_next ps_world].
  - intros k' c' [[<- <-]|[_ Hl]]%lookup_insert_Some; [lia|]. apply H1 in Hl. lia.
  - intros k' e [He|He]%elem_of_app Hk'; [specialize (H2 k' e He Hk'); lia|].
    rewrite (of_call_inj k' k e Hk' (Hev e He)). lia.
  - intros k' c' Hl. rewrite events_app. apply lookup_insert_Some in Hl as [[<- <-]|[Hne Hl]].
    + rewrite (filter_all _ ev) by done. done.
    + rewrite (filter_none _ ev), app_nil_r.
      * eapply phase_ext; [|by apply H3]. done.
      * intros e He. destruct (of_call k' e) eqn:E; [|done]. by rewrite (of_call_inj k' k e E (Hev e He)) in Hne.
  - intros k' Hk'. destruct (decide (k = k')) as [<-|Hne]; [by rewrite lookup_insert|]. rewrite lookup_insert_ne by done. apply H4. lia.
  - destruct Hw as [->|[o Ho]]; [done|]. by eapply made_step.
  - destruct Hw as [->|[o Ho]]; [done|]. by eapply numbered_step.
Qed.
Lemma fresh_events s : okinv s -> events (ps_next s) s = [].
Proof.
  intros [_ H2 _ _ _ _]. apply filter_none. intros e He. destruct (of_call _ e) eqn:E; [|done]. specialize (H2 _ _ He E). lia.
Qed.
Lemma look_ok s k c f : okinv s -> events k s = [] -> p_recipe c <> None ->
  phase_ok (PSys (World (w_stores (ps_world s)) (w_actors (ps_world s)) (w_live (ps_world s)) (w_local (ps_world s)) (w_net (ps_world s))
              (<[w_next (ps_world s) := (p_to c, [p_to c], p_id c)]> (w_looks (ps_world s))) (S (w_next (ps_world s))) (w_log (ps_world s)))
              f.1.1 f.1.2 f.2) k (with_phase c (Looking (w_next (ps_world s)))) (events k s ++ []).
Proof.
  intros [_ _ _ _ _ [N1 N2]] -> Hr. split; [done|]. cbn. split_and!; [done|done|lia| |].
  - right. exists [p_to c]. cbn. by rewrite lookup_insert.
  - split; cbn; [intros n' i' r t Hin; apply N2 in Hin; lia|]. intros n' path i'. rewrite lookup_insert. by intros [= <- <- <-].
Qed.
Lemma answer_of_some q l r : answer_of q l = Some r -> exists n i t, LAnswer q n i r t ∈ l.
Proof.
  unfold answer_of. induction l as [|e l IH]; [done|]. simpl. destruct e as [| |q' n i r' t].
  1,2: intros H; destruct (IH H) as (n' & i' & t & Hin); exists n', i', t; by right.
  destruct (q =? q')%nat eqn:E; simpl.
  - apply Nat.eqb_eq in E as ->. intros [= ->]. exists n, i, t. by left.
  - intros H; destruct (IH H) as (n' & i' & t' & Hin); exists n', i', t'; by right.
Qed.

Lemma ok_step s o s' : okinv s -> pstep s o = Some s' -> okinv s'.
Proof.
  intros Hi H. pose proof (oi_calls _ Hi) as Hlt. pose proof (oi_story _ Hi) as Hst.
  assert (Hput : forall k c ev, ps_calls s !! k <> None -> (forall e, e ∈ ev -> of_call k e = true) ->
    phase_ok s k c (events k s ++ ev) -> okinv (tell (put s k c) ev)).
  { intros k c ev Hk Hev Hc. apply (ok_put s); [done|done|by left| |].
    - left. split; [|done]. destruct (ps_calls s !! k) eqn:E; [by eapply Hlt|done].
    - eapply (phase_ext s); [|exact Hc]. apply ext_refl. }
  assert (Hput0 : forall k c, ps_calls s !! k <> None -> phase_ok s k c (events k s) -> okinv (put s k c)).
  { intros k c Hk Hc. specialize (Hput k c [] Hk). unfold tell, put in Hput. cbn in Hput. rewrite !app_nil_r in Hput. apply Hput.
    - by intros e He%elem_of_nil.
    - done. }
  assert (Hfail : forall k c e ev, ps_calls s !! k <> None -> (forall e, e ∈ ev -> of_call k e = true) ->
    failure s k c e (events k s ++ ev) -> okinv (pfail (tell s ev) k c e)).
  { intros k c e ev Hk Hev Hf. unfold pfail. destruct (decide (p_from c = p_to c)) as [He|He].
    - unfold tell, put. cbn. rewrite <- (assoc_L (++)). apply (Hput k (with_phase c Answered) (ev ++ [PFailed k e; PErr k e]) Hk).
      + intros e' [He'|He']%elem_of_app; [by apply Hev|]. apply elem_of_cons in He' as [->|He']; [cbn; apply Nat.eqb_refl|].
        apply elem_of_list_singleton in He' as ->. cbn. apply Nat.eqb_refl.
      + split; [done|]. cbn. right; right. split; [done|]. exists e, (events k s ++ ev). split; [|by rewrite <- (assoc_L (++))].
        destruct Hf; [by eapply f_exists|by eapply f_type|by eapply f_recipe|by eapply f_factory|by eapply (f_start _ _ _ (with_phase c Answered))].
    - unfold tell, put. cbn. rewrite <- (assoc_L (++)). apply (Hput k (with_phase c Refused) (ev ++ [PFailed k e]) Hk).
      + intros e' [He'|He']%elem_of_app; [by apply Hev|]. apply elem_of_list_singleton in He' as ->. cbn. apply Nat.eqb_refl.
      + split; [done|]. cbn. split; [done|]. exists e, (events k s ++ ev). split; [|by rewrite <- (assoc_L (++))].
        destruct Hf; [by eapply f_exists|by eapply f_type|by eapply f_recipe|by eapply f_factory|by eapply (f_start _ _ _ (with_phase c Refused))]. }
  assert (Hfail0 : forall k c e, ps_calls s !! k <> None -> failure s k c e (events k s) -> okinv (pfail s k c e)).
  { intros k c e Hk Hf. specialize (Hfail k c e [] Hk). unfold tell in Hfail at 1. rewrite !app_nil_r in Hfail.
    destruct s; apply Hfail; [by intros e' He%elem_of_nil|done]. }
  destruct o as [f i ty r t|k fresh|k|k|k ok|k ok|k|o]; cbn [Deploy_Model.pstep] in H.
  - destruct r as [b|]; [case_decide as Hft|].
    + unfold plook in H. cbn in H. injection H as <-. subst t.
      pose proof (look_ok s (ps_next s) (PCall f f i ty (Some b) Sent) (<[ps_next s := PCall f f i ty (Some b) (Looking (w_next (ps_world s)))]> (ps_calls s), S (ps_next s), ps_log s ++ []) Hi (fresh_events s Hi)) as Hl.
      rewrite <- (app_nil_r (ps_log s)). apply ok_put; [done|by intros e He%elem_of_nil| |by right|by apply Hl].
      right. by exists (LLook f i).
    + unfold put in H. cbn in H. injection H as <-. rewrite <- (app_nil_r (ps_log s)).
      apply ok_put; [done|by intros e He%elem_of_nil|by left|by right|]. rewrite (fresh_events s Hi). split; done.
    + unfold put, tell in H. cbn in H. injection H as <-. apply ok_put; [done| |by left|by right|].
      * intros e ->%elem_of_list_singleton. cbn. apply Nat.eqb_refl.
      * rewrite (fresh_events s Hi). split; [done|]. cbn. by left.
  - destruct (ps_calls s !! k) as [c|] eqn:Ec; [|done]. cbn [mbind option_bind] in H. specialize (Hst k c Ec).
    destruct (p_phase c) eqn:Ep; try done. destruct Hst as [Hs1 Hs2]. rewrite Ep in Hs2. destruct Hs2 as [Hs2 Hs3].
    destruct (String.eqb (p_id c) "").
    + injection H as <-. apply Hput0; [congruence|]. rewrite Hs2. split; [done|]. by cbn.
    + unfold plook in H. cbn in H. injection H as <-.
      pose proof (look_ok s k c (<[k := with_phase c (Looking (w_next (ps_world s)))]> (ps_calls s), ps_next s, ps_log s ++ []) Hi Hs2 Hs3) as Hl.
      rewrite <- (app_nil_r (ps_log s)). apply ok_put; [done|by intros e He%elem_of_nil| | |exact Hl].
      * right. by exists (LLook (p_to c) (p_id c)).
      * left. split; [by eapply Hlt|done].
  - destruct (ps_calls s !! k) as [c|] eqn:Ec; [|done]. cbn [mbind option_bind] in H. specialize (Hst k c Ec).
    destruct (p_phase c) eqn:Ep; try done; destruct Hst as [Hs1 Hs2]; rewrite Ep in Hs2; injection H as <-; (apply Hput0; [congruence|]);
      (split; [done|]); cbn.
    + split; [by apply Hs1|]. left. by destruct Hs2.
    + destruct Hs2 as (-> & Hs2 & Hs3). split; [done|]. by right.
  - destruct (ps_calls s !! k) as [c|] eqn:Ec; [|done]. cbn [mbind option_bind] in H. specialize (Hst k c Ec).
    destruct (p_phase c) as [|q| | | | | |] eqn:Ep; try done. destruct Hst as [Hs1 Hs2]. rewrite Ep in Hs2. destruct Hs2 as (Hs2 & Hs3 & Hs4 & Hs5 & [Hs6 _]).
    destruct (answer_of q (w_log (ps_world s))) as [[m|]|] eqn:Ea; [| |done]; injection H as <-.
    + apply answer_of_some in Ea as (n' & i' & t & Hin). destruct (Hs6 _ _ _ _ Hin) as [-> ->].
      apply Hfail0; [congruence|]. rewrite Hs2. eapply f_exists. by eapply (md_answer _ (oi_made _ Hi)).
    + apply Hput0; [congruence|]. rewrite Hs2. split; [done|]. by cbn.
  - destruct (ps_calls s !! k) as [c|] eqn:Ec; [|done]. cbn [mbind option_bind] in H. specialize (Hst k c Ec).
    destruct (p_phase c) as [|q| | | | | |] eqn:Ep; try done. destruct Hst as [Hs1 Hs2]. rewrite Ep in Hs2. destruct Hs2 as (Hs2 & Hs3).
    destruct (p_recipe c) as [b|] eqn:Er; [|done]. change (default [] (Some b)) with b in H.
    destruct (handlers (p_to c) (p_type c)) as [d|] eqn:Eh.
    2: { injection H as <-. apply Hfail0; [congruence|]. rewrite Hs2. by apply f_type. }
    destruct (d b) eqn:Ed.
    2: { injection H as <-. apply Hfail0; [congruence|]. rewrite Hs2. by eapply f_recipe. }
    destruct ok.
    2: { injection H as <-. apply Hfail; [congruence| |].
         - intros e ->%elem_of_list_singleton. cbn. apply Nat.eqb_refl.
         - rewrite Hs2. by eapply f_factory. }
    destruct (lstep (ps_world s) (LCreate (p_to c) (p_id c))) as [w|] eqn:Ew.
    2: { unfold Locate_Model.lstep in Ew. by case_decide. }
    cbn [mbind option_bind] in H. injection H as <-. apply ok_put; [done| |right; eauto|left; split; [by eapply Hlt|done]|].
    + intros e ->%elem_of_list_singleton. cbn. apply Nat.eqb_refl.
    + rewrite Hs2. split; [done|]. cbn. split; [done|]. exists d, b. done.
  - destruct (ps_calls s !! k) as [c|] eqn:Ec; [|done]. cbn [mbind option_bind] in H. specialize (Hst k c Ec).
    destruct (p_phase c) as [|q| | | | | |] eqn:Ep; try done. destruct Hst as [Hs1 Hs2]. rewrite Ep in Hs2. destruct Hs2 as (Hs2 & Hs3).
    injection H as <-. destruct ok.
    + unfold psucceed. case_decide as Hft; (apply Hput; [congruence| |]); rewrite ?Hs2.
      * intros e [He|He]%elem_of_cons; [|apply elem_of_list_singleton in He]; subst e; cbn; apply Nat.eqb_refl.
      * split; [done|]. cbn. right; left. done.
      * intros e ->%elem_of_list_singleton; cbn; apply Nat.eqb_refl.
      * split; [done|]. cbn. done.
    + apply Hfail; [congruence| |].
      * intros e ->%elem_of_list_singleton. cbn. apply Nat.eqb_refl.
      * rewrite Hs2. destruct Hs3 as (d & b & F1 & F2 & F3). by eapply f_start.
  - destruct (ps_calls s !! k) as [c|] eqn:Ec; [|done]. cbn [mbind option_bind] in H. specialize (Hst k c Ec).
    destruct (p_phase c) as [|q| | | | | |] eqn:Ep; try done. destruct Hst as [Hs1 Hs2]. rewrite Ep in Hs2. destruct Hs2 as (Hs2 & Hs3 & Hs4).
    injection H as <-. apply Hput; [congruence| |]; rewrite ?Hs2.
    * intros e ->%elem_of_list_singleton; cbn; apply Nat.eqb_refl.
    * split; [done|]. cbn. right; left. done.
  - destruct (lstep (ps_world s) o) as [w|] eqn:Ew; [|done]. cbn in H. injection H as <-.
    destruct Hi as [H1 H2 H3 H4 H5 H6]. constructor; try done.
    + intros k c Hk. eapply (phase_ext s); [by eapply ext_step|]. by apply H3.
    + by eapply made_step.
    + by eapply numbered_step.
Qed.
Lemma ok_new : okinv new_psys.
Proof.
  constructor; cbn; [intros k c; by rewrite lookup_empty|by intros k e He%elem_of_nil|intros k c; by rewrite lookup_empty|lia|apply made_new|].
  by apply (numbered_run rhash khash search []).
Qed.
Lemma ok_run l s : prun new_psys l = Some s -> okinv s.
Proof. apply pruns_ind; [|apply ok_new]. intros ? ? ? _. apply ok_step. Qed.

(** ** The registries under deployments *)
Lemma pfail_parts s k c e : ps_world (pfail s k c e) = ps_world s /\ ps_next (pfail s k c e) = ps_next s /\
  ps_calls (pfail s k c e) = <[k := with_phase c (if decide (p_from c = p_to c) then Answered else Refused)]> (ps_calls s) /\
  ps_log (pfail s k c e) = ps_log s ++ (if decide (p_from c = p_to c) then [PFailed k e; PErr k e] else [PFailed k e]).
Proof. unfold pfail. by case_decide. Qed.
Lemma psucceed_parts s k c : ps_world (psucceed s k c) = ps_world s /\ ps_next (psucceed s k c) = ps_next s /\
  ps_calls (psucceed s k c) = <[k := with_phase c (if decide (p_from c = p_to c) then Answered else Replied)]> (ps_calls s) /\
  ps_log (psucceed s k c) = ps_log s ++ (if decide (p_from c = p_to c) then [PUp k; PRef k (p_to c) (p_id c)] else [PUp k]).
Proof. unfold psucceed. by case_decide. Qed.

(** What a step does: one call changes, or the registries. *)
Definition target_call (s : psys) (o : pop) : option nat :=
  match o with
  | PDeploy _ _ _ _ _ => Some (ps_next s)
  | PArrive k _ | PLose k | PChecked k | PCreate k _ | PStart k _ | PReply k => Some k
  | PWorld _ => None
  end.
Inductive pchange (s : psys) : pop -> psys -> Prop :=
| pc_norecipe f i ty t : pchange s (PDeploy f i ty None t)
    (PSys (ps_world s) (<[ps_next s := PCall f t i ty None Answered]> (ps_calls s)) (S (ps_next s)) (ps_log s ++ [PErr (ps_next s) PRecipe]))
| pc_local f i ty b w : lstep (ps_world s) (LLook f i) = Some w -> pchange s (PDeploy f i ty (Some b) f)
    (PSys w (<[ps_next s := PCall f f i ty (Some b) (Looking (w_next (ps_world s)))]> (ps_calls s)) (S (ps_next s)) (ps_log s))
| pc_sent f i ty b t : f <> t -> pchange s (PDeploy f i ty (Some b) t)
    (PSys (ps_world s) (<[ps_next s := PCall f t i ty (Some b) Sent]> (ps_calls s)) (S (ps_next s)) (ps_log s))
| pc_noid k fresh c : ps_calls s !! k = Some c -> p_phase c = Sent -> p_id c = "" -> pchange s (PArrive k fresh)
    (PSys (ps_world s) (<[k := PCall (p_from c) (p_to c) fresh (p_type c) (p_recipe c) Creating]> (ps_calls s)) (ps_next s) (ps_log s))
| pc_arrive k fresh c w : ps_calls s !! k = Some c -> p_phase c = Sent -> p_id c <> "" -> lstep (ps_world s) (LLook (p_to c) (p_id c)) = Some w ->
    pchange s (PArrive k fresh) (PSys w (<[k := with_phase c (Looking (w_next (ps_world s)))]> (ps_calls s)) (ps_next s) (ps_log s))
| pc_lose k c : ps_calls s !! k = Some c -> p_phase c = Sent \/ p_phase c = Replied ->
    pchange s (PLose k) (PSys (ps_world s) (<[k := with_phase c Dropped]> (ps_calls s)) (ps_next s) (ps_log s))
| pc_free k c q : ps_calls s !! k = Some c -> p_phase c = Looking q -> answer_of q (w_log (ps_world s)) = Some None ->
    pchange s (PChecked k) (PSys (ps_world s) (<[k := with_phase c Creating]> (ps_calls s)) (ps_next s) (ps_log s))
| pc_make k c w : ps_calls s !! k = Some c -> p_phase c = Creating -> lstep (ps_world s) (LCreate (p_to c) (p_id c)) = Some w ->
    pchange s (PCreate k true) (PSys w (<[k := with_phase c Starting]> (ps_calls s)) (ps_next s) (ps_log s ++ [PMade k (p_to c) (p_id c)]))
| pc_end o k c p ev : ps_calls s !! k = Some c -> target_call s o = Some k ->
    (o = PChecked k /\ (exists q, p_phase c = Looking q) \/ (exists b, o = PCreate k b) /\ p_phase c = Creating \/
     (exists b, o = PStart k b) /\ p_phase c = Starting \/ o = PReply k /\ p_phase c = Replied) ->
    p = Answered \/ p = Refused \/ p = Replied /\ p_phase c = Starting ->
    (forall e, e ∈ ev -> of_call k e = true /\ forall n i, e <> PMade k n i) ->
    pchange s o (PSys (ps_world s) (<[k := with_phase c p]> (ps_calls s)) (ps_next s) (ps_log s ++ ev))
| pc_world o w : lstep (ps_world s) o = Some w -> pchange s (PWorld o) (PSys w (ps_calls s) (ps_next s) (ps_log s)).
Lemma pfail_change s o k c e ev : ps_calls s !! k = Some c -> target_call s o = Some k ->
  (o = PChecked k /\ (exists q, p_phase c = Looking q) \/ (exists b, o = PCreate k b) /\ p_phase c = Creating \/
     (exists b, o = PStart k b) /\ p_phase c = Starting \/ o = PReply k /\ p_phase c = Replied) ->
  (forall e, e ∈ ev -> of_call k e = true /\ forall n i, e <> PMade k n i) ->
  pchange s o (pfail (PSys (ps_world s) (ps_calls s) (ps_next s) (ps_log s ++ ev)) k c e).
Proof.
  intros Hk Ho Hp Hev. unfold pfail. case_decide; unfold tell, put; cbn; rewrite <- (assoc_L (++)); (apply pc_end; [done|done|done|by eauto|]);
    intros e' [He|He]%elem_of_app; try (by apply Hev).
  - apply elem_of_cons in He as [->|He]; [|apply elem_of_list_singleton in He as ->]; cbn; by rewrite Nat.eqb_refl.
  - apply elem_of_list_singleton in He as ->; cbn; by rewrite Nat.eqb_refl.
Qed.
Lemma pstep_change s o s' : pstep s o = Some s' -> pchange s o s'.
Proof.
  destruct o as [f i ty r t|k fresh|k|k|k ok|k ok|k|o]; cbn [Deploy_Model.pstep]; intros H.
  - destruct r as [b|]; [case_decide as Hft|].
    + subst t. unfold plook in H. cbn [ps_world p_to p_id] in H. destruct (lstep (ps_world s) (LLook f i)) as [w|] eqn:Ew; [|done].
      cbn [mbind option_bind] in H. injection H as <-. by apply pc_local.
    + injection H as <-. by apply pc_sent.
    + injection H as <-. apply pc_norecipe.
  - destruct (ps_calls s !! k) as [c|] eqn:Ec; [|done]. cbn [mbind option_bind] in H. destruct (p_phase c) eqn:Ep; try done.
    destruct (String.eqb (p_id c) "") eqn:Eq.
    + apply String.eqb_eq in Eq. injection H as <-. by apply pc_noid.
    + apply String.eqb_neq in Eq. unfold plook in H. destruct (lstep (ps_world s) (LLook (p_to c) (p_id c))) as [w|] eqn:Ew; [|done].
      cbn [mbind option_bind] in H. injection H as <-. by apply pc_arrive.
  - destruct (ps_calls s !! k) as [c|] eqn:Ec; [|done]. cbn [mbind option_bind] in H. destruct (p_phase c) eqn:Ep; try done; injection H as <-; (apply pc_lose; [done|]); auto.
  - destruct (ps_calls s !! k) as [c|] eqn:Ec; [|done]. cbn [mbind option_bind] in H. destruct (p_phase c) as [|q| | | | | |] eqn:Ep; try done.
    destruct (answer_of q (w_log (ps_world s))) as [[m|]|] eqn:Ea; [| |done]; injection H as <-; [|by eapply pc_free].
    destruct s as [w cs nx lg]; cbn [ps_log ps_world ps_calls ps_next] in *.
    rewrite <- (app_nil_r lg) at 2. apply (pfail_change (PSys w cs nx lg)); cbn; [done|done|eauto|by intros e He%elem_of_nil].
  - destruct (ps_calls s !! k) as [c|] eqn:Ec; [|done]. cbn [mbind option_bind] in H. destruct (p_phase c) as [|q| | | | | |] eqn:Ep; try done.
    assert (Hf0 : forall e, pchange s (PCreate k ok) (pfail s k c e)).
    { intros e. destruct s as [w cs nx lg]. cbn [ps_log ps_world ps_calls ps_next] in *. rewrite <- (app_nil_r lg) at 2.
      apply (pfail_change (PSys w cs nx lg)); cbn; [done|done|eauto|by intros e' He%elem_of_nil]. }
    destruct (handlers (p_to c) (p_type c)) as [d|] eqn:Eh; [|injection H as <-; apply Hf0].
    destruct (d (default [] (p_recipe c))); [|injection H as <-; apply Hf0].
    destruct ok.
    + destruct (lstep (ps_world s) (LCreate (p_to c) (p_id c))) as [w|] eqn:Ew; [|done]. cbn [mbind option_bind] in H. injection H as <-.
      by apply pc_make.
    + injection H as <-. apply pfail_change; [done|done|eauto|]. intros e ->%elem_of_list_singleton. cbn. by rewrite Nat.eqb_refl.
  - destruct (ps_calls s !! k) as [c|] eqn:Ec; [|done]. cbn [mbind option_bind] in H. destruct (p_phase c) as [|q| | | | | |] eqn:Ep; try done.
    injection H as <-. destruct ok.
    + unfold psucceed. case_decide; (apply (pc_end s); [done|done|eauto 6|by eauto|]); intros e He.
      * apply elem_of_cons in He as [->|He]; [|apply elem_of_list_singleton in He as ->]; cbn; by rewrite Nat.eqb_refl.
      * apply elem_of_list_singleton in He as ->; cbn; by rewrite Nat.eqb_refl.
    + apply pfail_change; [done|done|eauto 6|]. intros e ->%elem_of_list_singleton. cbn. by rewrite Nat.eqb_refl.
  - destruct (ps_calls s !! k) as [c|] eqn:Ec; [|done]. cbn [mbind option_bind] in H. destruct (p_phase c) as [|q| | | | | |] eqn:Ep; try done.
    injection H as <-. apply (pc_end s); [done|done|eauto 6|by eauto|]. intros e ->%elem_of_list_singleton. cbn. by rewrite Nat.eqb_refl.
  - destruct (lstep (ps_world s) o) as [w|] eqn:Ew; [|done]. cbn [mbind option_bind] in H. injection H as <-. by apply pc_world.
Qed.
Lemma pworld s o s' : pstep s o = Some s' ->
  ps_world s' = ps_world s \/
  exists p, lstep (ps_world s) p = Some (ps_world s') /\ (o = PWorld p \/ (exists n i, p = LLook n i) \/ (exists n i, p = LCreate n i)).
Proof. intros H. apply pstep_change in H. inversion H; subst; cbn; try (by left); right; eexists; (split; [eassumption|]); eauto. Qed.
Lemma created_step w n i w' : lstep w (LCreate n i) = Some w' -> LCreated n i ∈ w_log w'.
Proof.
  intros H. apply lstep_change in H. inversion H; subst; cbn; apply elem_of_app; right; by apply elem_of_list_singleton.
Qed.
Lemma plog_step s o s' e : pstep s o = Some s' -> e ∈ w_log (ps_world s) -> e ∈ w_log (ps_world s').
Proof. intros [->|(p & Hp & _)]%pworld He; [done|]. by eapply log_step. Qed.
Lemma plog_run s l s' e : prun s l = Some s' -> e ∈ w_log (ps_world s) -> e ∈ w_log (ps_world s').
Proof.
  intros Hr He. revert Hr. apply (pruns_ind (fun s => e ∈ w_log (ps_world s))); [|done]. intros ? ? ? _ H1 H2. by eapply plog_step.
Qed.
Lemma pevents_step s o s' e : pstep s o = Some s' -> e ∈ ps_log s -> e ∈ ps_log s'.
Proof.
  intros H He. apply pstep_change in H. inversion H; subst; cbn; try done; apply elem_of_app; by left.
Qed.
Lemma pevents_run s l s' e : prun s l = Some s' -> e ∈ ps_log s -> e ∈ ps_log s'.
Proof.
  intros Hr He. revert Hr. apply (pruns_ind (fun s => e ∈ ps_log s)); [|done]. intros ? ? ? _ H1 H2. by eapply pevents_step.
Qed.
(** Actors that deployments made were created. *)
Lemma made_created s l : prun new_psys l = Some s -> forall k n i, PMade k n i ∈ ps_log s -> LCreated n i ∈ w_log (ps_world s).
Proof.
  apply (pruns_ind (fun s => forall k n i, PMade k n i ∈ ps_log s -> LCreated n i ∈ w_log (ps_world s))); [|by intros k n i ?%elem_of_nil].
  intros s1 o s2 _ IH H k n i Hin. pose proof (plog_step _ _ _ (LCreated n i) H) as Hw.
  pose proof H as H'. apply pstep_change in H'. inversion H'; subst; cbn [ps_log] in Hin; try (by eapply Hw, IH).
  - apply elem_of_snoc in Hin as [Hin|Hin]; [by eapply Hw, IH|done].
  - apply elem_of_snoc in Hin as [Hin|Hin]; [by eapply Hw, IH|]. injection Hin as -> -> ->. by eapply created_step.
  - apply elem_of_app in Hin as [Hin|Hin]; [by eapply Hw, IH|]. 
    match goal with He : forall e, e ∈ ev -> _ |- _ => destruct (He _ Hin) as [Hk Hn] end. cbn in Hk. apply Nat.eqb_eq in Hk as ->. by destruct (Hn n i).
Qed.
(** Who deploys what where does not change. *)
Lemma call_step s o s' k c : okinv s -> pstep s o = Some s' -> ps_calls s !! k = Some c ->
  exists c', ps_calls s' !! k = Some c' /\ p_from c' = p_from c /\ p_to c' = p_to c /\ p_type c' = p_type c /\ p_recipe c' = p_recipe c /\
    (p_id c' = p_id c \/ exists f, o = PArrive k f /\ p_id c' = f /\ p_id c = "").
Proof.
  intros Hi H Hk. pose proof (oi_calls _ Hi _ _ Hk) as Hlt. apply pstep_change in H. inversion H; subst; cbn [ps_calls].
  all: try (exists c; rewrite lookup_insert_ne by lia; split_and!; auto; fail).
  all: try (by exists c; split_and!; auto).
  all: match goal with Hc : ps_calls _ !! ?k0 = Some ?c0 |- _ => destruct (decide (k0 = k)) as [->|Hne];
      [rewrite Hk in Hc; injection Hc as <-; eexists; rewrite lookup_insert; split_and!; cbn; eauto|
       exists c; rewrite lookup_insert_ne by done; split_and!; auto] end.
Qed.
Lemma call_run s l s' k c : okinv s -> prun s l = Some s' -> ps_calls s !! k = Some c ->
  exists c', ps_calls s' !! k = Some c' /\ p_from c' = p_from c /\ p_to c' = p_to c /\ p_type c' = p_type c /\ p_recipe c' = p_recipe c.
Proof.
  intros Hi Hr Hk. assert (HH : okinv s' /\ exists c', ps_calls s' !! k = Some c' /\ p_from c' = p_from c /\ p_to c' = p_to c /\ p_type c' = p_type c /\ p_recipe c' = p_recipe c); [|by destruct HH].
  revert Hr. apply (pruns_ind (fun s' => okinv s' /\ exists c', ps_calls s' !! k = Some c' /\ p_from c' = p_from c /\ p_to c' = p_to c /\ p_type c' = p_type c /\ p_recipe c' = p_recipe c)).
  - intros s1 o s2 _ (H1 & c1 & H2 & H3 & H4 & H5 & H6) E. split; [by eapply ok_step|].
    destruct (call_step _ _ _ _ _ H1 E H2) as (c2 & C1 & C2 & C3 & C4 & C5 & _). exists c2. split_and!; congruence.
  - split; [done|]. by exists c.
Qed.

(** ** Answers *)
Definition rank (p : phase) : nat :=
  match p with Sent => 5 | Looking _ => 4 | Creating => 3 | Starting => 2 | Replied => 1 | _ => 0 end.
Definition left (k : nat) (s : psys) : nat := match ps_calls s !! k with Some c => rank (p_phase c) | None => 5 end.
Lemma left_step s o s' k : okinv s -> pstep s o = Some s' -> (left k s' + (if own k None o then 1 else 0) <= left k s)%nat.
Proof.
  intros Hi H. pose proof (oi_calls _ Hi k) as Hlt.
  assert (Hn : ps_calls s !! ps_next s = None).
  { destruct (ps_calls s !! ps_next s) eqn:E; [|done]. apply (oi_calls _ Hi) in E. lia. }
  apply pstep_change in H. inversion H; subst; unfold left; cbn [ps_calls].
  1-3: (destruct (decide (ps_next s = k)) as [<-|Hne]; [rewrite lookup_insert, Hn; cbn; lia|rewrite lookup_insert_ne by done; cbn; lia]).
  1-5: (destruct (decide (k0 = k)) as [->|Hne]; [rewrite lookup_insert;
     match goal with Hc : ps_calls _ !! _ = Some _ |- _ => rewrite Hc end; cbn; rewrite Nat.eqb_refl; 
     repeat match goal with Hp : _ \/ _ |- _ => destruct Hp end;
     match goal with Hp : p_phase _ = _ |- _ => rewrite Hp end; cbn; lia
     |rewrite lookup_insert_ne by done; cbn; replace (k =? k0)%nat with false by (symmetry; apply Nat.eqb_neq; congruence); lia]).
  - assert (Ho : own k None o = (k =? k0)%nat).
    { repeat match goal with Hp : _ \/ _ |- _ => destruct Hp | Hp : _ /\ _ |- _ => destruct Hp | Hp : exists _, _ |- _ => destruct Hp end; subst; done. }
    rewrite Ho. destruct (decide (k0 = k)) as [->|Hne].
    + rewrite lookup_insert, Nat.eqb_refl. match goal with Hc : ps_calls s !! k = Some _ |- _ => rewrite Hc end. cbn.
      repeat match goal with Hp : _ \/ _ |- _ => destruct Hp | Hp : _ /\ _ |- _ => destruct Hp | Hp : exists _, _ |- _ => destruct Hp end; subst; cbn;
      match goal with Hp : p_phase _ = _ |- _ => rewrite Hp end; cbn; try lia; congruence.
    + rewrite lookup_insert_ne by done. replace (k =? k0)%nat with false by (symmetry; apply Nat.eqb_neq; congruence). lia.
  - cbn. destruct o0; cbn; try lia. rewrite bool_decide_false by done. lia.
Qed.
Lemma left_run s l s' k : okinv s -> prun s l = Some s' -> (length (List.filter (own k None) l) + left k s' <= left k s)%nat.
Proof.
  revert s. induction l as [|o l IH]; intros s Hi; cbn [Deploy_Model.prun]; [intros [= <-]; cbn; lia|].
  destruct (pstep s o) as [s1|] eqn:E; [|done]. cbn [mbind option_bind]. intros Hr.
  pose proof (left_step _ _ _ k Hi E). pose proof (IH s1 (ok_step _ _ _ Hi E) Hr). cbn [List.filter]. destruct (own k None o); cbn [length] in *; lia.
Qed.
Lemma answer_of_in q n i r t l : LAnswer q n i r t ∈ l -> answer_of q l <> None.
Proof.
  unfold answer_of. induction l as [|e l IH]; [by intros ?%elem_of_nil|]. intros [<-|Hin]%elem_of_cons.
  - simpl. rewrite Nat.eqb_refl. done.
  - simpl. destruct e as [| |q' ? ? ? ?]; try (by apply IH). destruct (q =? q')%nat; [done|]. by apply IH.
Qed.
(** A local deployment that was not answered can go on. *)
Lemma local_enabled s k c : okinv s -> ps_calls s !! k = Some c -> p_from c = p_to c ->
  answered k s \/
  (exists q, pstep s (PWorld (LTimeout q)) <> None /\ p_phase c = Looking q) \/
  pstep s (PChecked k) <> None \/
  (forall ok, pstep s (PCreate k ok) <> None) \/
  (forall ok, pstep s (PStart k ok) <> None).
Proof.
  intros Hi Hk Heq. destruct (oi_story _ Hi _ _ Hk) as [Hs1 Hs2].
  destruct (p_phase c) as [|q| | | | | |] eqn:Ep.
  - by destruct (Hs1 eq_refl).
  - destruct Hs2 as (_ & _ & _ & [(r & t & Hin)|(path & Hl)] & _).
    + right; right; left. cbn [Deploy_Model.pstep]. rewrite Hk. cbn [mbind option_bind]. rewrite Ep. apply answer_of_in in Hin.
      by destruct (answer_of q (w_log (ps_world s))) as [[m|]|].
    + right; left. exists q. split; [|done]. cbn [Deploy_Model.pstep Locate_Model.lstep]. rewrite Hl. done.
  - right; right; right; left. intros ok. cbn [Deploy_Model.pstep]. rewrite Hk. cbn [mbind option_bind]. rewrite Ep.
    destruct (handlers (p_to c) (p_type c)) as [d|]; [|done]. destruct (d (default [] (p_recipe c))); [|done]. destruct ok; [|done].
    cbn [Locate_Model.lstep]. by case_decide.
  - right; right; right; right. intros ok. cbn [Deploy_Model.pstep]. rewrite Hk. cbn [mbind option_bind]. by rewrite Ep.
  - by destruct Hs2 as (_ & _ & Hne).
  - by destruct Hs2 as (Hne & _).
  - by destruct Hs2 as (Hne & _).
  - left. assert (Hev : forall e, e ∈ events k s -> e ∈ ps_log s).
    { intros e He. apply elem_of_list_In, List.filter_In in He as [He _]. by apply elem_of_list_In. }
    destruct Hs2 as [[He _]|[[He _]|(_ & e & ev & _ & He)]]; rewrite He in Hev.
    + exists (PErr k PRecipe). split; [apply Hev; by left|done].
    + exists (PRef k (p_to c) (p_id c)). split; [apply Hev; right; right; by left|done].
    + exists (PErr k e). split; [|done]. apply Hev. apply elem_of_app. right. right. by left.
Qed.

(** ** Actors that exist *)
Lemma proj s l s' : prun s l = Some s' -> exists wl, lrun (ps_world s) wl = Some (ps_world s') /\
  forall p, p ∈ wl -> PWorld p ∈ l \/ (exists n i, p = LLook n i) \/ (exists n i, p = LCreate n i /\ LCreated n i ∈ w_log (ps_world s')).
Proof.
  revert s. induction l as [|o l IH]; intros s; cbn [Deploy_Model.prun].
  { intros [= <-]. exists []. split; [done|]. by intros p ?%elem_of_nil. }
  destruct (pstep s o) as [s1|] eqn:E; [|done]. cbn [mbind option_bind]. intros Hr. destruct (IH s1 Hr) as (wl & Hw & Hp).
  destruct (pworld _ _ _ E) as [He|(p & Hp1 & Hp2)].
  - exists wl. rewrite <- He. split; [done|]. intros p Hin. destruct (Hp p Hin) as [?|?]; [left; by right|by right].
  - exists (p :: wl). split; [cbn [Locate_Model.lrun]; rewrite Hp1; exact Hw|].
    intros p' [->|Hin]%elem_of_cons; [|destruct (Hp p' Hin) as [?|?]; [left; by right|by right]].
    destruct Hp2 as [->|[?|(n & i & ->)]]; [left; by left|right; by left|]. right; right. exists n, i. split; [done|].
    eapply plog_run; [exact Hr|]. by eapply created_step.
Qed.
Lemma creates_created id p m w w' : creates id p = Some m -> lstep w p = Some w' -> LCreated m id ∈ w_log w'.
Proof.
  destruct p as [n i|? ?|?|?|?|? ?|? ?|?|?]; try done. cbn [creates]. destruct (String.eqb id i) eqn:Eq; [|done].
  apply String.eqb_eq in Eq as <-. intros [= ->]. apply created_step.
Qed.
Section exists_.
Variable X : gset N.
Variable id : string.
Variable o n : N.
Hypothesis Hn : n ∈ X.
Variable q0 k0 : nat.
Definition timed_out (s : psys) (c : pcall) : Prop := exists q, LAnswer q (p_to c) id None true ∈ w_log (ps_world s).
Definition late (s : psys) : Prop := forall k c, (k0 <= k)%nat -> ps_calls s !! k = Some c -> p_to c ∈ X -> p_id c = id ->
  match p_phase c with
  | Sent => True
  | Looking q => (q0 <= q)%nat
  | Creating => timed_out s c
  | _ => forall m i, PMade k m i ∈ ps_log s -> timed_out s c
  end.
Lemma made_phase s k c m i : okinv s -> ps_calls s !! k = Some c -> PMade k m i ∈ ps_log s -> m = p_to c /\ i = p_id c /\
  p_phase c <> Sent /\ p_phase c <> Creating /\ (forall q, p_phase c <> Looking q).
Proof.
  intros Hi Hk Hin. assert (Hev : PMade k m i ∈ events k s).
  { unfold events. apply elem_of_list_In, List.filter_In. split; [by apply elem_of_list_In|]. cbn. apply Nat.eqb_refl. }
  destruct (oi_story _ Hi _ _ Hk) as [_ Hs]. destruct (p_phase c) eqn:Ep.
  1-3: (destruct Hs as [He _]; rewrite He in Hev; by apply elem_of_nil in Hev).
  - destruct Hs as [He _]. rewrite He in Hev. apply elem_of_list_singleton in Hev as [= -> ->]. done.
  - destruct Hs as [He _]. rewrite He in Hev. rewrite !elem_of_cons, elem_of_nil in Hev. destruct Hev as [[= -> ->]|[?|?]]; done.
  - destruct Hs as (_ & e & ev & Hf & He). rewrite He in Hev. apply elem_of_app in Hev as [Hev|Hev]; [|by apply elem_of_list_singleton in Hev].
    inversion Hf; subst; rewrite ?elem_of_cons, ?elem_of_nil in Hev; try done; [by destruct Hev as [?|?]|]. destruct Hev as [[= -> ->]|[?|?]]; done.
  - destruct Hs as (_ & [He|[He _]]); rewrite He in Hev; [by apply elem_of_nil in Hev|].
    rewrite !elem_of_cons, elem_of_nil in Hev. destruct Hev as [[= -> ->]|[?|?]]; done.
  - destruct Hs as [[He _]|[[He _]|(_ & e & ev & Hf & He)]]; rewrite He in Hev.
    + by apply elem_of_list_singleton in Hev.
    + rewrite !elem_of_cons, elem_of_nil in Hev. destruct Hev as [[= -> ->]|[?|[?|?]]]; done.
    + apply elem_of_app in Hev as [Hev|Hev].
      * inversion Hf; subst; rewrite ?elem_of_cons, ?elem_of_nil in Hev; try done; [by destruct Hev as [?|?]|]. destruct Hev as [[= -> ->]|[?|?]]; done.
      * rewrite !elem_of_cons, elem_of_nil in Hev. destruct Hev as [?|[?|?]]; done.
Qed.
Notation located := (located rhash khash search X id o n).
Lemma late_step s p s' : okinv s -> okinv s' -> located q0 (ps_world s) -> late s -> (k0 <= ps_next s)%nat ->
  (forall k f, p = PArrive k f -> f <> id) -> pstep s p = Some s' -> late s'.
Proof.
  intros Hi Hi' Hlo Hla Hk0 Hf H k c Hk Hc Hx Hid.
  pose proof (fun e => plog_step _ _ _ e H) as Hlog.
  assert (Hto : forall c, timed_out s c -> timed_out s' c) by (intros c' [q Hq]; exists q; by apply Hlog).
  assert (Hold : forall c0, ps_calls s !! k = Some c0 -> p_to c0 = p_to c -> p_id c0 = id ->
     forall m i, PMade k m i ∈ ps_log s -> timed_out s' c).
  { intros c0 Hc0 Ht Hi0 m i Hm. destruct (made_phase s k c0 m i Hi Hc0 Hm) as (-> & -> & P1 & P2 & P3).
    specialize (Hla k c0 Hk Hc0). rewrite Ht in Hla. specialize (Hla Hx Hi0). destruct (Hto c0) as [q Hq]; [|exists q; by rewrite Ht in Hq].
    destruct (p_phase c0); try done; try (eapply Hla; eauto). by destruct (P3 q). }
  pose proof H as H'. apply pstep_change in H'.
  inversion H'; subst; cbn [ps_calls ps_log ps_world] in Hc |- *.
  - apply lookup_insert_Some in Hc as [[<- <-]|[Hne Hc]].
    + intros mm ii Hm. exfalso. apply elem_of_snoc in Hm as [Hm|Hm]; [|done].
      assert (Hl : (ps_next s < ps_next s)%nat) by (eapply (oi_log _ Hi); [exact Hm|cbn; apply Nat.eqb_refl]). lia.
    + specialize (Hla k c Hk Hc Hx Hid). destruct (p_phase c); try done; intros mm ii Hm; (apply elem_of_snoc in Hm as [Hm|Hm]; [|done]); eapply Hla, Hm.
  - apply lookup_insert_Some in Hc as [[<- <-]|[Hne Hc]]; [cbn; apply (lo_next _ _ _ _ _ _ _ _ _ Hlo)|].
    specialize (Hla k c Hk Hc Hx Hid). destruct (p_phase c); try done; [by apply Hto|..]; intros mm ii Hm; eapply Hto, Hla, Hm.
  - apply lookup_insert_Some in Hc as [[<- <-]|[Hne Hc]]; [done|].
    specialize (Hla k c Hk Hc Hx Hid). destruct (p_phase c); try done.
  - apply lookup_insert_Some in Hc as [[<- <-]|[Hne Hc]]; [cbn in *; by destruct (Hf k1 fresh)|].
    specialize (Hla k c Hk Hc Hx Hid). destruct (p_phase c); try done.
  - apply lookup_insert_Some in Hc as [[<- <-]|[Hne Hc]]; [cbn; apply (lo_next _ _ _ _ _ _ _ _ _ Hlo)|].
    specialize (Hla k c Hk Hc Hx Hid). destruct (p_phase c); try done; [by apply Hto|..]; intros mm ii Hm; eapply Hto, Hla, Hm.
  - apply lookup_insert_Some in Hc as [[<- <-]|[Hne Hc]]; [cbn; by eapply Hold|].
    specialize (Hla k c Hk Hc Hx Hid). destruct (p_phase c); try done.
  - apply lookup_insert_Some in Hc as [[<- <-]|[Hne Hc]].
    + cbn in *. specialize (Hla _ _ Hk H0 Hx Hid). rewrite H1 in Hla.
      destruct (oi_story _ Hi _ _ H0) as [_ Hs]. rewrite H1 in Hs. destruct Hs as (_ & _ & _ & _ & [Has _]).
      apply answer_of_some in H2 as (n' & i' & t & Hin). destruct (Has _ _ _ _ Hin) as [-> ->]. rewrite Hid in Hin. destruct t; [by exists q|].
      pose proof (lo_answers _ _ _ _ _ _ _ _ _ Hlo q _ None Hla Hin Hx). done.
    + specialize (Hla k c Hk Hc Hx Hid). destruct (p_phase c); try done.
  - apply lookup_insert_Some in Hc as [[<- <-]|[Hne Hc]].
    + cbn in *. specialize (Hla _ _ Hk H0 Hx Hid). rewrite H1 in Hla. intros mm ii _. destruct (Hto _ Hla) as [q Hq]. by exists q.
    + specialize (Hla k c Hk Hc Hx Hid).
      assert (Hm' : forall m i, PMade k m i ∈ ps_log s ++ [PMade k1 (p_to c0) (p_id c0)] -> PMade k m i ∈ ps_log s).
      { intros mm ii Hm. apply elem_of_snoc in Hm as [Hm|[= ? ? ?]]; [done|congruence]. }
      destruct (p_phase c); try done; [by apply Hto|..]; intros mm ii Hm; apply Hm' in Hm; eapply Hto, Hla, Hm.
  - assert (Hm' : forall m i, PMade k m i ∈ ps_log s ++ ev -> PMade k m i ∈ ps_log s).
    { intros mm ii Hm. apply elem_of_app in Hm as [Hm|Hm]; [done|]. 
      match goal with He : forall e, e ∈ ev -> _ |- _ => destruct (He _ Hm) as [He1 He2] end.
      cbn in He1. apply Nat.eqb_eq in He1 as ->. by destruct (He2 mm ii). }
    apply lookup_insert_Some in Hc as [[<- <-]|[Hne Hc]].
    + cbn in *. match goal with Hp : _ = Answered \/ _ |- _ => destruct Hp as [->|[->|[-> _]]] end; intros mm ii Hm; apply Hm' in Hm; by eapply Hold.
    + specialize (Hla k c Hk Hc Hx Hid). destruct (p_phase c); try done; intros mm ii Hm; eapply Hla, Hm', Hm.
  - specialize (Hla k c Hk Hc Hx Hid). destruct (p_phase c); try done; [by apply Hto|..]; intros mm ii Hm; eapply Hto, Hla, Hm.
Qed.
End exists_.
Lemma exists_run X id o n q0 k0 s l s' : n ∈ X -> okinv s -> located rhash khash search X id o n q0 (ps_world s) ->
  late X id q0 k0 s -> (k0 <= ps_next s)%nat ->
  (forall p, p ∈ l -> from_option is_store false (world_op p) = false) -> (forall k f, PArrive k f ∈ l -> f <> id) ->
  (forall m, LCreated m id ∈ w_log (ps_world s') -> m = n) -> prun s l = Some s' -> late X id q0 k0 s' /\ okinv s'.
Proof.
  intros Hn. revert s. induction l as [|p l IH]; intros s Hi Hlo Hla Hk Hst Hf Hm; cbn [Deploy_Model.prun]; [by intros [= <-]|].
  destruct (pstep s p) as [s1|] eqn:E; [|done]. cbn [mbind option_bind]. intros Hr.
  pose proof (ok_step _ _ _ Hi E) as Hi1.
  apply (IH s1); [done| | | |intros; apply Hst; by right|intros ? ? ?; eapply Hf; by right|done|done].
  - destruct (pworld _ _ _ E) as [He|(p' & Hp1 & Hp2)]; [by rewrite He|].
    eapply (located_step rhash khash search X id o n Hn); [| |exact Hlo|exact Hp1].
    + destruct Hp2 as [->|[(? & ? & ->)|(? & ? & ->)]]; [|done|done]. apply (Hst (PWorld p')). by left.
    + intros m Hc. apply Hm. eapply plog_run; [exact Hr|]. by eapply creates_created.
  - refine (late_step X id o n q0 k0 s p s1 Hi Hi1 Hlo Hla Hk _ E). intros k f ->. apply (Hf k). by left.
  - pose proof (pstep_change _ _ _ E) as Hch. inversion Hch; subst; cbn; lia.
Qed.
End deploy.
