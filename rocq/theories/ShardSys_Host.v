(** What a step of a shard host means for the shard actors. *)
From Verif Require Import Host_Model Host_Spec Host_Proofs.
Local Open Scope N_scope.

Inductive kind := KStarting (a : N) | KReady (a : N) | KStopping.
Inductive hctl := CtStart (a : N) | CtNotify (a : N) | CtTask (a : N) (req : option stop_req).

Section host.
Context {R : Type}.
Implicit Types (h : host R) (m : hmsg R).

Definition kind_of (st : hstate R) : kind :=
  match st with HStarting a _ _ => KStarting a | HReady a => KReady a | HStopping => KStopping end.
Definition hent h (s : N) : option kind := kind_of <$> sh_hosted h !! s.
Definition hwf h : Prop := forall s a b req, sh_hosted h !! s = Some (HStarting a b req) -> req = None.

Definition hctl_of (s : N) (e : heffect R) : option hctl :=
  match e with
  | HStart s' a => if s' =? s then Some (CtStart a) else None
  | HNotifyStop s' a => if s' =? s then Some (CtNotify a) else None
  | HStopTask s' a req => if s' =? s then Some (CtTask a req) else None
  | _ => None
  end.
Definition hctls (s : N) (eff : list (heffect R)) : list hctl := omap (hctl_of s) eff.
Lemma hctls_app s e1 e2 : hctls s (e1 ++ e2) = hctls s e1 ++ hctls s e2.
Proof using. apply omap_app. Qed.
Lemma hctls_lost s s' q : hctls s (map (HLost s') q) = [].
Proof using. by induction q. Qed.
Lemma hctls_forward s s' a q : hctls s (map (HForward s' a) q) = [].
Proof using. by induction q. Qed.

(** Requests change neither the kinds nor the actors. *)
Lemma on_request_ctl h s r : hwf h ->
  hwf (on_request h s r).1 /\ sh_node (on_request h s r).1 = sh_node h /\
  (forall s', hent (on_request h s r).1 s' = hent h s') /\ (forall s', hctls s' (on_request h s r).2 = []).
Proof using.
  intros W. unfold on_request, hent, hwf. destruct (sh_hosted h !! s) as [st|] eqn:E.
  - destruct (handle_request s r st) as [st' eff] eqn:Er. simpl. split_and!.
    + intros s' a b req. destruct (decide (s' = s)) as [->|Hne]; [|rewrite lookup_insert_ne by done; apply W].
      rewrite lookup_insert. intros [= ->]. destruct st; simpl in Er; try done. injection Er as <- <- <- <-. by eapply W.
    + done.
    + intros s'. destruct (decide (s' = s)) as [->|Hne]; [|by rewrite lookup_insert_ne].
      rewrite lookup_insert, E. simpl. f_equal. destruct st; simpl in Er; injection Er as <- <-; done.
    + intros s'. destruct st; simpl in Er; injection Er as <- <-; done.
  - destruct (sh_remote h !! s); simpl; split_and!; try done.
Qed.
Lemma on_requests_ctl s q : forall h, hwf h ->
  hwf (on_requests h s q).1 /\ sh_node (on_requests h s q).1 = sh_node h /\
  (forall s', hent (on_requests h s q).1 s' = hent h s') /\ (forall s', hctls s' (on_requests h s q).2 = []).
Proof using.
  induction q as [|r q IH]; intros h W; simpl; [done|].
  destruct (on_request_ctl h s r W) as (W1 & N1 & E1 & C1). destruct (on_request h s r) as [h1 e1]. cbn [fst snd] in *.
  destruct (IH h1 W1) as (W2 & N2 & E2 & C2). destruct (on_requests h1 s q) as [h2 e2]. cbn [fst snd] in *.
  split_and!; try done; [congruence|intros; by rewrite E2|intros; by rewrite hctls_app, C1, C2].
Qed.

Definition step_kind h m : option kind :=
  let old := hent h (msg_shard m) in
  match m with
  | MRequest _ _ | MReallocating _ => old
  | MAllocated s n => if n =? sh_node h then Some (default (KStarting (sh_next h)) old) else None
  | MReady s a => Some (KReady a)
  | MStop s _ => match old with None => None | Some _ => Some KStopping end
  | MStopped s => None
  end.
Definition step_ctl h m : list hctl :=
  match m, hent h (msg_shard m) with
  | MAllocated s n, None => if n =? sh_node h then [CtStart (sh_next h)] else []
  | MAllocated s n, Some (KStarting a) | MAllocated s n, Some (KReady a) => if n =? sh_node h then [] else [CtNotify a]
  | MStop s req, Some (KReady a) => [CtTask a (Some req)]
  | _, _ => []
  end.

Lemma hstep_ctl h m : hwf h ->
  hwf (hstep h m).1 /\ sh_node (hstep h m).1 = sh_node h /\
  (forall s, s <> msg_shard m -> hent (hstep h m).1 s = hent h s /\ hctls s (hstep h m).2 = []) /\
  hent (hstep h m).1 (msg_shard m) = step_kind h m /\ hctls (msg_shard m) (hstep h m).2 = step_ctl h m.
Proof using.
  intros W. destruct m as [s r|s n|s a|s|s req|s]; cbn [hstep msg_shard].
  - destruct (on_request_ctl h s r W) as (W1 & N1 & E1 & C1). split_and!; try done; apply E1.
  - rewrite on_allocated_eq.
    assert (H1 : hwf (allocated_first h s n).1 /\ sh_node (allocated_first h s n).1 = sh_node h /\
       (forall s', s' <> s -> hent (allocated_first h s n).1 s' = hent h s' /\ hctls s' (allocated_first h s n).2 = []) /\
       hent (allocated_first h s n).1 s = step_kind h (MAllocated s n) /\ hctls s (allocated_first h s n).2 = step_ctl h (MAllocated s n)).
    { unfold allocated_first, hent, hwf, step_kind, step_ctl, hent; cbn [msg_shard].
      destruct (N.eqb_spec n (sh_node h)) as [->|Hne]; simpl.
      - destruct (sh_hosted h !! s) as [st|] eqn:E; simpl.
        + rewrite E. split_and!; try done. by destruct st.
        + rewrite N.eqb_refl. split_and!; try done.
          * intros s' a b req. destruct (decide (s' = s)) as [->|Hne]; [|rewrite lookup_insert_ne by done; apply W].
            rewrite lookup_insert. by intros [= _ _ <-].
          * intros s' Hne. rewrite lookup_insert_ne by done. split; [done|]. by rewrite (proj2 (N.eqb_neq s s')).
          * by rewrite lookup_insert.
      - split_and!; try done.
        + intros s' a b req. rewrite lookup_delete_Some. intros [_ ?]. by eapply W.
        + intros s' Hne'. rewrite lookup_delete_ne by done. split; [done|].
          destruct (sh_hosted h !! s) as [[a b req|a|]|]; simpl; rewrite ?(proj2 (N.eqb_neq s s')) by done; try done. apply hctls_lost.
        + by rewrite lookup_delete.
        + destruct (sh_hosted h !! s) as [[a b req|a|]|]; simpl; rewrite ?N.eqb_refl; try done. f_equal. apply hctls_lost. }
    destruct H1 as (W1 & N1 & E1 & E2 & C2). destruct (allocated_first h s n) as [h1 e1]. cbn [fst snd] in *.
    destruct (sh_pending h1 !! s) as [q|]; [|done].
    destruct (on_requests_ctl s q (set_pending h1 (delete s (sh_pending h1))) W1) as (W2 & N2 & E3 & C3).
    destruct (on_requests _ s q) as [h2 e2]. cbn [fst snd] in *. split_and!; try done.
    + rewrite N2. exact N1.
    + intros s' Hs'. rewrite E3, hctls_app, C3, app_nil_r. by apply E1.
    + rewrite E3. exact E2.
    + by rewrite hctls_app, C3, app_nil_r.
  - unfold on_ready, hwf, hent, step_kind, step_ctl; simpl. split_and!; try done.
    + intros s' a' b req. destruct (decide (s' = s)) as [->|Hne]; [by rewrite lookup_insert|rewrite lookup_insert_ne by done; apply W].
    + intros s' Hne. rewrite lookup_insert_ne by done. split; [done|].
      destruct (sh_hosted h !! s) as [[? b [req|]|?|]|] eqn:E; try done; [|apply hctls_forward].
      specialize (W _ _ _ _ E). done.
    + by rewrite lookup_insert.
    + unfold hent. destruct (sh_hosted h !! s) as [[? b [req|]|?|]|] eqn:E; try done; [|apply hctls_forward].
      specialize (W _ _ _ _ E). done.
  - done.
  - unfold on_stop, hwf, hent, step_kind, step_ctl, hent; cbn [msg_shard].
    destruct (sh_hosted h !! s) as [st|] eqn:E; simpl; [|rewrite E; done]. split_and!; try done.
    + intros s' a' b rq. destruct (decide (s' = s)) as [->|Hne]; [by rewrite lookup_insert|rewrite lookup_insert_ne by done; apply W].
    + intros s' Hne. rewrite lookup_insert_ne by done. split; [done|].
      destruct st; simpl; rewrite ?(proj2 (N.eqb_neq s s')) by done; try done. apply hctls_lost.
    + by rewrite lookup_insert.
    + destruct st; simpl; rewrite ?N.eqb_refl; try done. apply hctls_lost.
  - unfold on_stopped, hwf, hent, step_kind, step_ctl; simpl. split_and!; try done.
    + intros s' a' b rq. rewrite lookup_delete_Some. intros [_ ?]. by eapply W.
    + intros s' Hne. rewrite lookup_delete_ne by done. split; [done|].
      destruct (sh_hosted h !! s) as [[]|]; try done. apply hctls_lost.
    + by rewrite lookup_delete.
    + unfold hent. destruct (sh_hosted h !! s) as [[]|]; try done. apply hctls_lost.
Qed.

Lemma hwf_init n : hwf (host_init n : host R).
Proof using. intros s a b req. simpl. by rewrite lookup_empty. Qed.

End host.
