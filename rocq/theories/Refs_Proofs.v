(** Proofs about messages sent through references. *)
From Verif Require Import Refs_Model Refs_Spec.

Lemma handled_app k l l' : handled k (l ++ l') = handled k l ++ handled k l'.
Proof. apply omap_app. Qed.
Lemma returned_app k l l' : returned k (l ++ l') = returned k l ++ returned k l'.
Proof. apply omap_app. Qed.

Section proofs.
Variable conf : N -> config.
Variable enc : N -> N -> option bytes.
Variable dec : N -> bytes -> option N.
Variable renc : N -> N -> option bytes.
Variable rdec : N -> bytes -> option N.
Notation step := (step conf enc dec renc rdec).
Notation run := (run conf enc dec renc rdec).
Notation hrec := (nat * (N * N) * N * option N)%type.

Definition sent (c : call) (name body : bytes) : Prop :=
  handler_name (conf (c_from c)) (c_type c).1 (c_type c).2 = Some name /\ enc (c_type c).2 (c_val c) = Some body.
Definition chosen (c : call) (t : N * N) (body : bytes) : Prop :=
  exists m id name, c_ref c = Remote m id /\ sent c name body /\ message_handler (conf m) name = Some t.
(** The message that gets into the mailbox of [a]. *)
Definition given (insts : list inst) (c : call) (t : N * N) (v : N) (a : nat) : Prop :=
  match c_ref c with
  | Local b => a = b /\ t = c_type c /\ v = c_val c
  | Remote m id => exists name body, sent c name body /\ message_handler (conf m) name = Some t /\ dec t.2 body = Some v /\
      insts !! a = Some (Inst m id t.1)
  end.
Definition once (insts : list inst) (c : call) (H : list hrec) (r : option N -> Prop) : Prop :=
  exists a t v x, H = [(a, t, v, x)] /\ given insts c t v a /\ r x.
Definition early (c : call) : list outcome := if c_reply c then [] else [RAccepted].
Definition failed (insts : list inst) (c : call) (e : rerr) (H : list hrec) : Prop :=
  match e with
  | EInvalidRef | ENotFound | ENotSupported => H = []
  | EClosed => H = [] \/ once insts c H (fun x => x = None)
  | ESerialisation => H = [] \/ once insts c H (fun x => x <> None)
  | EDeserialisation => H = [] \/ once insts c H (fun x => x <> None)
  end.
Definition is_remote (c : call) : Prop := exists m id, c_ref c = Remote m id.
Definition over (insts : list inst) (c : call) (H : list hrec) (R : list outcome) : Prop :=
  match R with
  | [RAccepted] => c_reply c = false /\ (H = [] \/ once insts c H (fun _ => True))
  | [RResult x] =>
      c_reply c = true /\
      exists a t v r, H = [(a, t, v, Some r)] /\ given insts c t v a /\
        match c_ref c with
        | Local _ => r = x
        | Remote _ _ => exists b, renc t.2 r = Some b /\ rdec (c_type c).2 b = Some x
        end
  | [RFailed e] => failed insts c e H /\ (c_reply c = false -> H = [])
  | _ => False
  end.
Definition cinv (insts : list inst) (c : call) (H : list hrec) (R : list outcome) : Prop :=
  match c_phase c with
  | QNet name body => is_remote c /\ sent c name body /\ H = [] /\ R = early c
  | QTry t body attempt => chosen c t body /\ (attempt < max_retries)%nat /\ H = [] /\ R = early c
  | QFound t body a => chosen c t body /\ (exists m id, c_ref c = Remote m id /\ insts !! a = Some (Inst m id t.1)) /\ H = [] /\ R = early c
  | QMail t v a => given insts c t v a /\ H = [] /\ R = early c
  | QBack x => is_remote c /\ c_reply c = true /\ R = [] /\
      match x with
      | AOk b => exists a t v r, H = [(a, t, v, Some r)] /\ given insts c t v a /\ renc t.2 r = Some b
      | AErr e => e <> EInvalidRef /\ failed insts c e H
      end
  | QLost => is_remote c /\ R = early c /\ (H = [] \/ once insts c H (fun _ => True))
  | QOver => over insts c H R
  end.

Lemma given_mono i j c t v a : given i c t v a -> given (i ++ j) c t v a.
Proof.
  unfold given. destruct (c_ref c); [done|]. intros (name & body & ? & ? & ? & Ha). exists name, body.
  repeat (split; [done|]). by apply lookup_app_l_Some.
Qed.
Lemma once_mono i j c H r : once i c H r -> once (i ++ j) c H r.
Proof. intros (a & t & v & x & -> & Hg & Hr). exists a, t, v, x. split; [done|]. split; [by apply given_mono|done]. Qed.
Lemma failed_mono i j c e H : failed i c e H -> failed (i ++ j) c e H.
Proof. destruct e; simpl; try done; (intros [?|?]; [by left|right; by apply once_mono]). Qed.
Lemma cinv_mono i j c H R : cinv i c H R -> cinv (i ++ j) c H R.
Proof.
  unfold cinv. destruct (c_phase c) as [| | | |[b|e]| |].
  - done.
  - done.
  - intros (? & (m & id & ? & ?) & ?). split; [done|]. split; [|done]. exists m, id. split; [done|]. by apply lookup_app_l_Some.
  - intros (? & ?). split; [by apply given_mono|done].
  - intros (? & ? & ? & (a & t & v & r & ? & ? & ?)). repeat (split; [done|]). exists a, t, v, r. split; [done|]. split; [by apply given_mono|done].
  - intros (? & ? & ? & ? & ?). repeat (split; [done|]). by apply failed_mono.
  - intros (? & ? & [?|?]); (split; [done|]); (split; [done|]); [by left|right; by apply once_mono].
  - unfold over. destruct R as [|[|x|e] [|? ?]]; try done.
    + intros (? & [?|?]); (split; [done|]); [by left|right; by apply once_mono].
    + intros (? & a & t & v & r & ? & ? & ?). split; [done|]. exists a, t, v, r. split; [done|]. split; [by apply given_mono|done].
    + intros (? & ?). split; [by apply failed_mono|done].
Qed.

Definition event_of (e : event) : nat :=
  match e with ECalled k _ _ _ _ _ | EHandled k _ _ _ _ | EReturned k _ => k end.
Definition about (k : nat) (l : list event) : Prop := Forall (fun e => event_of e = k) l.
Lemma handled_other k k' l : about k l -> k' <> k -> handled k' l = [].
Proof.
  intros HF Hn. induction HF as [|e l He HF IH]; [done|]. destruct e; simpl in *; [done| |done].
  destruct (decide _); [congruence|done].
Qed.
Lemma returned_other k k' l : about k l -> k' <> k -> returned k' l = [].
Proof.
  intros HF Hn. induction HF as [|e l He HF IH]; [done|]. destruct e; simpl in *; [done|done|].
  destruct (decide _); [congruence|done].
Qed.

Definition called (s : sys) (k : nat) (c : call) : Prop :=
  forall from r t v reply, ECalled k from r t v reply ∈ y_log s <->
    from = c_from c /\ r = c_ref c /\ t = c_type c /\ v = c_val c /\ reply = c_reply c.
Definition inv (s : sys) : Prop :=
  (forall k c, y_calls s !! k = Some c -> (k < y_next s)%nat /\ called s k c /\
     cinv (y_insts s) c (handled k (y_log s)) (returned k (y_log s))) /\
  (forall k, y_calls s !! k = None -> Forall (fun e => event_of e <> k) (y_log s)).

Lemma inv_new : inv new_sys.
Proof. split; [done|]. intros k _. constructor. Qed.

Lemma none_handled k l : Forall (fun e => event_of e <> k) l -> handled k l = [].
Proof. induction 1 as [|e l He HF IH]; [done|]. destruct e; simpl in *; try done. by destruct (decide _). Qed.
Lemma none_returned k l : Forall (fun e => event_of e <> k) l -> returned k l = [].
Proof. induction 1 as [|e l He HF IH]; [done|]. destruct e; simpl in *; try done. by destruct (decide _). Qed.
Lemma none_called k l from r t v reply : Forall (fun e => event_of e <> k) l -> ECalled k from r t v reply ∉ l.
Proof. rewrite Forall_forall. intros HF Hin. by apply (HF _ Hin). Qed.

(** One call goes on. *)
Lemma inv_put s k c p l :
  inv s -> y_calls s !! k = Some c -> about k l -> Forall (fun e => match e with ECalled _ _ _ _ _ _ => False | _ => True end) l ->
  cinv (y_insts s) (at_phase c p) (handled k (y_log s) ++ handled k l) (returned k (y_log s) ++ returned k l) ->
  inv (put s k (at_phase c p) l).
Proof.
  intros [I1 I2] Hk Ha Hnc Hc. split; unfold put; cbn [y_calls y_next y_log y_insts].
  - intros k' c' H. destruct (decide (k' = k)) as [->|Hn].
    + rewrite lookup_insert in H. injection H as <-. destruct (I1 _ _ Hk) as (Hlt & Hcall & _). split; [done|]. split.
      * intros from r t v reply. unfold called in Hcall. cbn [y_log]. rewrite elem_of_app. rewrite (Hcall from r t v reply).
        split; [intros [?|Hin]; [done|]|by left]. rewrite Forall_forall in Hnc. by destruct (Hnc _ Hin).
      * by rewrite handled_app, returned_app.
    + rewrite lookup_insert_ne in H by done. destruct (I1 _ _ H) as (Hlt & Hcall & Hci). split; [done|]. split.
      * intros from r t v reply. unfold called in Hcall. cbn [y_log]. rewrite elem_of_app. rewrite (Hcall from r t v reply).
        split; [intros [?|Hin]; [done|]|by left]. rewrite Forall_forall in Hnc. by destruct (Hnc _ Hin).
      * rewrite handled_app, returned_app, (handled_other k k' l), (returned_other k k' l) by done. by rewrite !app_nil_r.
  - intros k' H. destruct (decide (k' = k)) as [->|Hn]; [by rewrite lookup_insert in H|].
    rewrite lookup_insert_ne in H by done. apply Forall_app. split; [by apply I2|].
    eapply Forall_impl; [exact Ha|]. intros e He. simpl in He. congruence.
Qed.

(** A new call. *)
Lemma inv_call s n r t v reply p l :
  inv s -> about (y_next s) l -> Forall (fun e => match e with ECalled _ _ _ _ _ _ => False | _ => True end) l ->
  cinv (y_insts s) (Call n r t v reply p) (handled (y_next s) l) (returned (y_next s) l) ->
  (forall k c, y_calls s !! k = Some c -> (k < y_next s)%nat) ->
  inv (put (Sys (y_insts s) (y_open s) (y_reg s) (y_calls s) (S (y_next s)) (y_log s ++ [ECalled (y_next s) n r t v reply]))
         (y_next s) (Call n r t v reply p) l).
Proof.
  intros [I1 I2] Ha Hnc Hc Hlt. set (k := y_next s) in *.
  assert (Hk : y_calls s !! k = None).
  { destruct (y_calls s !! k) as [c|] eqn:E; [|done]. specialize (Hlt _ _ E). lia. }
  pose proof (I2 _ Hk) as Hno.
  split; unfold put; cbn [y_calls y_next y_log y_insts].
  - intros k' c' H. destruct (decide (k' = k)) as [->|Hn].
    + rewrite lookup_insert in H. injection H as <-. split; [lia|]. split.
      * intros from r' t' v' reply'. cbn [y_log c_from c_ref c_type c_val c_reply]. rewrite !elem_of_app, elem_of_list_singleton. split.
        -- intros [[Hin|[= -> -> -> -> ->]]|Hin]; [|done|].
           ++ by apply none_called in Hin.
           ++ rewrite Forall_forall in Hnc. by destruct (Hnc _ Hin).
        -- intros (-> & -> & -> & -> & ->). left. by right.
      * rewrite !handled_app, !returned_app, none_handled, none_returned by done. done.
    + rewrite lookup_insert_ne in H by done. destruct (I1 _ _ H) as (Hlt' & Hcall & Hci). split; [lia|]. split.
      * intros from r' t' v' reply'. unfold called in Hcall. cbn [y_log]. rewrite !elem_of_app, elem_of_list_singleton.
        rewrite (Hcall from r' t' v' reply').
        split; [intros [[?|[= -> _ _ _ _ _]]|Hin]; [done|done|]|by left; left]. rewrite Forall_forall in Hnc. by destruct (Hnc _ Hin).
      * rewrite !handled_app, !returned_app, (handled_other k k' l), (returned_other k k' l) by done. simpl. by rewrite !app_nil_r.
  - intros k' H. destruct (decide (k' = k)) as [->|Hn]; [by rewrite lookup_insert in H|].
    rewrite lookup_insert_ne in H by done. rewrite !Forall_app. split; [split; [by apply I2|repeat constructor; simpl; congruence]|].
    eapply Forall_impl; [exact Ha|]. intros e He. simpl in He. congruence.
Qed.

(** Nothing happens to calls. *)
Lemma inv_env s i o r j : inv s -> i = y_insts s ++ j -> inv (Sys i o r (y_calls s) (y_next s) (y_log s)).
Proof.
  intros [I1 I2] ->. split; [|done]. intros k c Hk. destruct (I1 _ _ Hk) as (? & ? & ?). split; [done|]. split; [done|].
  by apply cinv_mono.
Qed.

Lemma inv_reply s k c x l :
  inv s -> y_calls s !! k = Some c -> about k l -> is_remote c ->
  Forall (fun e => match e with EHandled _ _ _ _ _ => True | _ => False end) l ->
  returned k (y_log s) = early c ->
  match x with
  | AOk b => exists a t v r, handled k (y_log s) ++ handled k l = [(a, t, v, Some r)] /\ given (y_insts s) c t v a /\ renc t.2 r = Some b
  | AErr e => e <> EInvalidRef /\ failed (y_insts s) c e (handled k (y_log s) ++ handled k l)
  end ->
  inv (reply_with s k c x l).
Proof.
  intros HI Hk Ha Hrem Hh HR Hx. unfold reply_with.
  assert (Hret : returned k l = []).
  { clear -Hh. induction Hh as [|e l He HF IH]; [done|]. by destruct e. }
  apply inv_put; [done|done|done| |].
  { eapply Forall_impl; [exact Hh|]. by intros []. }
  rewrite HR, Hret, app_nil_r. set (H := handled k (y_log s) ++ handled k l) in *.
  unfold early, cinv, at_phase. destruct (c_reply c) eqn:Er; cbn [c_phase c_ref c_type c_val c_reply c_from].
  - split; [exact Hrem|]. split; [done|]. split; [done|]. destruct x; exact Hx.
  - unfold over. split; [done|]. destruct x as [b|e].
    + destruct Hx as (a & t & v & r & -> & Hg & _). right. exists a, t, v, (Some r). split; [done|]. by split.
    + destruct Hx as [_ Hf]. destruct e; simpl in Hf; try (by left);
        (destruct Hf as [?|(a & t & v & r & -> & Hg & _)]; [by left|right; exists a, t, v, r; split; [done|]; by split]).
Qed.

Lemma inv_step s o s' : inv s -> step s o = Some s' -> inv s'.
Proof.
  intros HI. pose proof HI as [I1 I2]. destruct o as [n id ty|a|n id|n r t v reply|k|k found|k|k r|k|k|k]; cbn [Refs_Model.step].
  - intros [= <-]. eapply inv_env; [exact HI|reflexivity].
  - intros [= <-]. apply (inv_env _ _ _ _ []); [exact HI|by rewrite app_nil_r].
  - intros [= <-]. apply (inv_env _ _ _ _ []); [exact HI|by rewrite app_nil_r].
  - assert (Hlt : forall k c, y_calls s !! k = Some c -> (k < y_next s)%nat) by (intros k c Hk; by destruct (I1 _ _ Hk)).
    assert (HR : forall x, returned (y_next s) [EReturned (y_next s) x] = [x]).
    { intros x. simpl. by destruct (decide _). }
    destruct r as [a|m id].
    + case_decide as Ho; intros [= <-].
      * apply inv_call; [done|by destruct reply; repeat constructor|by destruct reply; repeat constructor| |done].
        unfold cinv. cbn [c_phase]. split; [done|]. split; [by destruct reply|]. unfold early. cbn [c_reply]. destruct reply; [done|apply HR].
      * apply inv_call; [done|by repeat constructor|by repeat constructor| |done].
        unfold cinv. cbn [c_phase]. rewrite HR. done.
    + destruct (enc t.2 v) as [body|] eqn:Ee; [destruct (handler_name (conf n) t.1 t.2) as [name|] eqn:En|]; intros [= <-].
      * apply inv_call; [done|by destruct reply; repeat constructor|by destruct reply; repeat constructor| |done].
        unfold cinv. cbn [c_phase]. split; [by exists m, id|]. split; [done|]. split; [by destruct reply|].
        unfold early. cbn [c_reply]. destruct reply; [done|apply HR].
      * apply inv_call; [done|by repeat constructor|by repeat constructor| |done].
        unfold cinv. cbn [c_phase]. rewrite HR. done.
      * apply inv_call; [done|by repeat constructor|by repeat constructor| |done].
        unfold cinv. cbn [c_phase]. rewrite HR. simpl. split; [by left|done].
  - destruct (y_calls s !! k) as [c|] eqn:Hk; [|done]. destruct (I1 _ _ Hk) as (Hlt & Hcall & Hc). unfold cinv in Hc.
    destruct (c_phase c) as [name body| | | | | |] eqn:Ep; try done. destruct (c_ref c) as [|m id] eqn:Er; [done|].
    destruct Hc as (_ & Hsent & HH & HR).
    destruct (message_handler (conf m) name) as [t|] eqn:Em; intros [= <-].
    + apply inv_put; [done|done|constructor|constructor|]. simpl. rewrite !app_nil_r. unfold cinv. cbn [at_phase c_phase].
      split; [exists m, id, name; by split|]. split; [unfold max_retries; lia|]. by split.
    + apply inv_reply; [done|done|constructor|by exists m, id|constructor|done|]. simpl. by rewrite app_nil_r.
  - destruct (y_calls s !! k) as [c|] eqn:Hk; [|done]. destruct (I1 _ _ Hk) as (Hlt & Hcall & Hc). unfold cinv in Hc.
    destruct (c_phase c) as [|t body attempt| | | | |] eqn:Ep; try done. destruct (c_ref c) as [|m id] eqn:Er; [done|].
    destruct Hc as (Hch & Hatt & HH & HR). destruct found as [a|].
    + destruct (decide _) as [[Hi _]|]; [|done]. intros [= <-].
      apply inv_put; [done|done|constructor|constructor|]. simpl. rewrite !app_nil_r. unfold cinv. cbn [at_phase c_phase].
      split; [done|]. split; [by exists m, id|]. by split.
    + destruct (decide _); [|done]. destruct (max_retries <=? S attempt)%nat eqn:El; intros [= <-].
      * apply inv_reply; [done|done|constructor|by exists m, id|constructor|done|]. simpl. by rewrite app_nil_r.
      * apply inv_put; [done|done|constructor|constructor|]. simpl. rewrite !app_nil_r. unfold cinv. cbn [at_phase c_phase].
        split; [done|]. split; [apply Nat.leb_gt in El; lia|]. by split.
  - destruct (y_calls s !! k) as [c|] eqn:Hk; [|done]. destruct (I1 _ _ Hk) as (Hlt & Hcall & Hc). unfold cinv in Hc.
    destruct (c_phase c) as [| |t body a| | | |] eqn:Ep; try done. destruct Hc as ((m & id & name & Er & Hsent & Hm) & (m' & id' & Er' & Hi) & HH & HR).
    rewrite Er in Er'. injection Er' as <- <-.
    destruct (dec t.2 body) as [v|] eqn:Ed; [destruct (decide _)|]; intros [= <-].
    + apply inv_put; [done|done|constructor|constructor|]. simpl. rewrite !app_nil_r. unfold cinv. cbn [at_phase c_phase].
      split; [|by split]. unfold given. cbn [c_ref at_phase]. rewrite Er. exists name, body. done.
    + apply inv_reply; [done|done|constructor|by exists m, id|constructor|done|]. simpl. rewrite app_nil_r. split; [done|by left].
    + apply inv_reply; [done|done|constructor|by exists m, id|constructor|done|]. simpl. rewrite app_nil_r. split; [done|by left].
  - destruct (y_calls s !! k) as [c|] eqn:Hk; [|done]. destruct (I1 _ _ Hk) as (Hlt & Hcall & Hc). unfold cinv in Hc.
    destruct (c_phase c) as [| | |t v a| | |] eqn:Ep; try done. destruct (decide _) as [Hopen|]; [|done]. intros Eq. apply (inj Some) in Eq. rewrite <- Eq. clear Eq. cbv zeta.
    destruct Hc as (Hg & HH & HR).
    assert (HE : handled k [EHandled k a t v r] = [(a, t, v, r)]) by (simpl; by destruct (decide _)).
    destruct (c_ref c) as [b|m id] eqn:Er.
    + apply inv_put; [done|done|by destruct (c_reply c); repeat constructor|by destruct (c_reply c); repeat constructor|].
      rewrite handled_app, returned_app, HE, HH, HR. unfold cinv. cbn [at_phase c_phase]. unfold early.
      destruct (c_reply c) eqn:Ey; simpl.
      * destruct (decide (k = k)); [|done]. destruct r as [x|]; simpl.
        -- split; [done|]. exists a, t, v, x. split; [done|]. split; [exact Hg|]. by rewrite Er.
        -- split; [|by rewrite Ey]. right. exists a, t, v, None. by split.
      * split; [done|]. right. exists a, t, v, r. by split.
    + apply inv_reply; [done|done|by repeat constructor|by exists m, id|by repeat constructor|done|]. rewrite HE, HH. simpl.
      destruct r as [x|]; [destruct (renc t.2 x) as [b|] eqn:Eb|].
      * exists a, t, v, x. done.
      * split; [done|]. right. exists a, t, v, (Some x). by split.
      * split; [done|]. right. exists a, t, v, None. by split.
  - destruct (y_calls s !! k) as [c|] eqn:Hk; [|done]. destruct (I1 _ _ Hk) as (Hlt & Hcall & Hc). unfold cinv in Hc.
    destruct (c_phase c) as [| | |t v a| | |] eqn:Ep; try done. destruct (decide _) as [|Hopen]; [done|]. intros [= <-].
    destruct Hc as (Hg & HH & HR). destruct (c_ref c) as [b|m id] eqn:Er.
    + apply inv_put; [done|done|by destruct (c_reply c); repeat constructor|by destruct (c_reply c); repeat constructor|].
      rewrite HH, HR. unfold cinv. cbn [at_phase c_phase]. unfold early. destruct (c_reply c) eqn:Ey; simpl.
      * destruct (decide (k = k)); [|done]. simpl. split; [by left|done].
      * split; [done|by left].
    + apply inv_reply; [done|done|constructor|by exists m, id|constructor|done|]. simpl. rewrite app_nil_r. split; [done|by left].
  - destruct (y_calls s !! k) as [c|] eqn:Hk; [|done]. destruct (I1 _ _ Hk) as (Hlt & Hcall & Hc). unfold cinv in Hc.
    destruct (c_phase c) as [| | | |x| |] eqn:Ep; try done. intros [= <-]. destruct Hc as (Hrem & Hy & HR & Hx).
    apply inv_put; [done|done|by repeat constructor|by repeat constructor|].
    rewrite HR. simpl. destruct (decide (k = k)) as [_|]; [|done]. unfold cinv. cbn [at_phase c_phase]. rewrite app_nil_r. simpl.
    destruct x as [b|e]; [destruct Hx as (a & t & v & r & -> & Hg & Hb); destruct (rdec (c_type c).2 b) as [y|] eqn:Ed|].
    + split; [done|]. exists a, t, v, r. split; [done|]. split; [exact Hg|]. destruct Hrem as (m & id & Er). cbn [at_phase c_ref c_type]. rewrite Er. by exists b.
    + split; [|by rewrite Hy]. right. exists a, t, v, (Some r). done.
    + destruct Hx as [_ Hf]. split; [exact Hf|by rewrite Hy].
  - destruct (y_calls s !! k) as [c|] eqn:Hk; [|done]. destruct (I1 _ _ Hk) as (Hlt & Hcall & Hc). unfold cinv in Hc.
    destruct (c_phase c) as [name body| | | |x| |] eqn:Ep; try done; intros [= <-].
    + destruct Hc as (Hrem & Hsent & HH & HR). apply inv_put; [done|done|constructor|constructor|]. simpl. rewrite !app_nil_r.
      unfold cinv. cbn [at_phase c_phase]. split; [exact Hrem|]. split; [exact HR|by left].
    + destruct Hc as (Hrem & Hy & HR & Hx). apply inv_put; [done|done|constructor|constructor|]. simpl. rewrite !app_nil_r.
      unfold cinv. cbn [at_phase c_phase]. split; [exact Hrem|]. split; [unfold early; cbn [c_reply at_phase]; by rewrite Hy|].
      destruct x as [b|e].
      * destruct Hx as (a & t & v & r & -> & Hg & _). right. exists a, t, v, (Some r). by split.
      * destruct Hx as [_ Hf]. destruct e; simpl in Hf; try (by left);
          (destruct Hf as [?|(a & t & v & r & -> & Hg & _)]; [by left|right; exists a, t, v, r; split; [done|]; by split]).
Qed.

Lemma inv_run s l s' : inv s -> run s l = Some s' -> inv s'.
Proof.
  revert s. induction l as [|o l IH]; intros s HI; cbn [Refs_Model.run]; [by intros [= <-]|].
  destruct (step s o) as [s1|] eqn:E; [|done]. cbn [mbind option_bind]. apply IH. by eapply inv_step.
Qed.
End proofs.

Section more.
Variable conf : N -> config.
Variable enc : N -> N -> option bytes.
Variable dec : N -> bytes -> option N.
Variable renc : N -> N -> option bytes.
Variable rdec : N -> bytes -> option N.
Notation step := (step conf enc dec renc rdec).
Notation run := (run conf enc dec renc rdec).

(** The schedulers know actors by their node and id; mailboxes that are open belong to actors; a
    local message is in the mailbox of an actor, and is dropped only if that is closed. *)
Definition local_error (reply : bool) (x : outcome) : Prop :=
  match x with RFailed e => e = EInvalidRef \/ (e = EClosed /\ reply = true) | _ => True end.
Definition linv (s : sys) : Prop :=
  (forall n id a, y_reg s !! (n, id) = Some a -> exists ty, y_insts s !! a = Some (Inst n id ty)) /\
  (forall a, a ∈ y_open s -> (a < length (y_insts s))%nat) /\
  (forall k c a, y_calls s !! k = Some c -> c_ref c = Local a ->
    match c_phase c with
    | QMail _ _ _ => (a < length (y_insts s))%nat
    | _ => handled k (y_log s) <> [] \/ (a ∉ y_open s /\ (a < length (y_insts s))%nat) \/ returned k (y_log s) = [RFailed EInvalidRef]
    end /\ Forall (local_error (c_reply c)) (returned k (y_log s))).

Lemma linv_new : linv new_sys.
Proof. split; [done|]. split; [|done]. intros a Ha. by apply elem_of_empty in Ha. Qed.

Definition target (o : op) : option nat :=
  match o with
  | OArrive k | OTry k _ | OSend k | OHandle k _ | ODrop k | OAnswer k | OLose k => Some k
  | _ => None
  end.
Lemma step_shape s o s' : step s o = Some s' ->
  ((match o with OStart _ _ _ | OClose _ | OForget _ _ => True | _ => False end) /\ y_calls s' = y_calls s /\ y_log s' = y_log s) \/
  exists k c l, y_insts s' = y_insts s /\ y_open s' = y_open s /\ y_reg s' = y_reg s /\ y_calls s' = <[k := c]> (y_calls s) /\
    y_log s' = y_log s ++ l /\ (forall k', k' <> k -> handled k' l = [] /\ returned k' l = []) /\
    ((exists n r t v reply p, o = OCall n r t v reply /\ k = y_next s /\ c = Call n r t v reply p) \/
     (exists c0 p, y_calls s !! k = Some c0 /\ c = at_phase c0 p /\ target o = Some k)).
Proof.
  assert (Hab : forall k l, about k l -> forall k', k' <> k -> handled k' l = [] /\ returned k' l = []).
  { intros k l Ha k' Hn. split; [by eapply handled_other|by eapply returned_other]. }
  assert (Hput : forall k c0 p l, y_calls s !! k = Some c0 -> about k l -> target o = Some k ->
     s' = put s k (at_phase c0 p) l -> exists k c l, y_insts s' = y_insts s /\ y_open s' = y_open s /\ y_reg s' = y_reg s /\ y_calls s' = <[k := c]> (y_calls s) /\
    y_log s' = y_log s ++ l /\ (forall k', k' <> k -> handled k' l = [] /\ returned k' l = []) /\
    ((exists n r t v reply p, o = OCall n r t v reply /\ k = y_next s /\ c = Call n r t v reply p) \/
     (exists c0 p, y_calls s !! k = Some c0 /\ c = at_phase c0 p /\ target o = Some k))).
  { intros k c0 p l Hk Ha Ho ->. exists k, (at_phase c0 p), l. simpl. split_and!; try done; [by apply Hab|]. right. by exists c0, p. }
  intros E. destruct o as [n id ty|a|n id|n r t v reply|k|k found|k|k r|k|k|k]; cbn [Refs_Model.step] in E.
  1-3: left; by injection E as <-.
  { right.
    assert (HC : forall p l, about (y_next s) l -> s' = put (Sys (y_insts s) (y_open s) (y_reg s) (y_calls s) (S (y_next s)) (y_log s ++ [ECalled (y_next s) n r t v reply])) (y_next s) (Call n r t v reply p) l ->
      exists k c l, y_insts s' = y_insts s /\ y_open s' = y_open s /\ y_reg s' = y_reg s /\ y_calls s' = <[k := c]> (y_calls s) /\
      y_log s' = y_log s ++ l /\ (forall k', k' <> k -> handled k' l = [] /\ returned k' l = []) /\
      ((exists n0 r0 t0 v0 reply0 p, OCall n r t v reply = OCall n0 r0 t0 v0 reply0 /\ k = y_next s /\ c = Call n0 r0 t0 v0 reply0 p) \/
       (exists c0 p, y_calls s !! k = Some c0 /\ c = at_phase c0 p /\ target (OCall n r t v reply) = Some k))).
    { intros p l Ha ->. exists (y_next s), (Call n r t v reply p), ([ECalled (y_next s) n r t v reply] ++ l). simpl.
      split_and!; try done; [by rewrite <- app_assoc|by apply Hab|]. left. by exists n, r, t, v, reply, p. }
    destruct r as [a|m id].
    - destruct (decide _); injection E as <-; (eapply HC; [|reflexivity]); [destruct reply|]; by repeat constructor.
    - destruct (enc t.2 v); [destruct (handler_name _ _ _)|]; injection E as <-; (eapply HC; [|reflexivity]); try destruct reply; by repeat constructor. }
  all: right; destruct (y_calls s !! k) as [c|] eqn:Hk; [|done].
  - destruct (c_phase c) as [name body| | | | | |] eqn:Ep; try done. destruct (c_ref c) as [|m id] eqn:Er; [done|].
    destruct (message_handler (conf m) name); injection E as <-; (eapply Hput; [exact Hk| |done|reflexivity]); constructor.
  - destruct (c_phase c) as [|t body attempt| | | | |] eqn:Ep; try done. destruct (c_ref c) as [|m id] eqn:Er; [done|]. destruct found.
    + destruct (decide _); [|done]. injection E as <-. (eapply Hput; [exact Hk| |done|reflexivity]); constructor.
    + destruct (decide _); [|done]. destruct (max_retries <=? S attempt)%nat; injection E as <-; (eapply Hput; [exact Hk| |done|reflexivity]); constructor.
  - destruct (c_phase c) as [| |t body a| | | |] eqn:Ep; try done.
    destruct (dec t.2 body); [destruct (decide _)|]; injection E as <-; (eapply Hput; [exact Hk| |done|reflexivity]); constructor.
  - destruct (c_phase c) as [| | |t v a| | |] eqn:Ep; try done. destruct (decide _); [|done]. apply (inj Some) in E. cbv zeta in E.
    destruct (c_ref c); subst s'; (eapply Hput; [exact Hk| |done|reflexivity]); [destruct (c_reply c)|]; by repeat constructor.
  - destruct (c_phase c) as [| | |t v a| | |] eqn:Ep; try done. destruct (decide _); [done|]. apply (inj Some) in E.
    destruct (c_ref c); subst s'; (eapply Hput; [exact Hk| |done|reflexivity]); [destruct (c_reply c)|]; by repeat constructor.
  - destruct (c_phase c) as [| | | |x| |] eqn:Ep; try done. injection E as <-. (eapply Hput; [exact Hk| |done|reflexivity]); by repeat constructor.
  - destruct (c_phase c) as [name body| | | |x| |] eqn:Ep; try done; injection E as <-; (eapply Hput; [exact Hk| |done|reflexivity]); by repeat constructor.
Qed.

Lemma linv_step s o s' : inv conf enc dec renc rdec s -> linv s -> step s o = Some s' -> linv s'.
Proof.
  intros HI (L1 & L2 & L3) E. pose proof (step_shape _ _ _ E) as [(Henv & Hc & Hl)|(k & c & l & Hi & Ho & Hr & Hc & Hl & Hoth & Hwho)].
  - destruct o as [n id ty|a|n id| | | | | | | |]; try done; cbn [Refs_Model.step] in E.
    all: injection E as <-; unfold linv; cbn [y_reg y_insts y_open y_calls y_log].
    + split; [|split].
      * intros n' id' a'. destruct (decide ((n, id) = (n', id'))) as [[= <- <-]|Hn].
        -- rewrite lookup_insert. intros [= <-]. exists ty. rewrite lookup_app_r by done. by rewrite Nat.sub_diag.
        -- rewrite lookup_insert_ne by done. intros (ty' & H)%L1. exists ty'. by apply lookup_app_l_Some.
      * intros a Ha. rewrite app_length. simpl. apply elem_of_union in Ha as [Ha%L2|Ha%elem_of_singleton]; lia.
      * intros k c a Hk Hr. destruct (L3 k c a Hk Hr) as [L3' LE]. split; [|done]. rewrite app_length. simpl. clear L3. rename L3' into L3.
        destruct (c_phase c); try lia; (destruct L3 as [?|[[? ?]|?]]; [by left|right; left|by right; right]; split; [|lia]; intros [?|Hx%elem_of_singleton]%elem_of_union; [done|lia]).
    + split; [done|]. split; [intros a' Ha'; apply L2; set_solver|]. intros k c a' Hk Hr. destruct (L3 k c a' Hk Hr) as [L3' LE]. split; [|done]. clear L3. rename L3' into L3.
      destruct (c_phase c); try done; (destruct L3 as [?|[[? ?]|?]]; [by left|right; left; split; [set_solver|done]|by right; right]).
    + split; [|done]. intros n' id' a' [_ H]%lookup_delete_Some. by apply L1.
  - unfold linv. rewrite Hi, Ho, Hr, Hc, Hl. split; [done|]. split; [done|]. intros k' c' a.
    destruct (decide (k' = k)) as [->|Hn].
    2: { rewrite lookup_insert_ne by done. intros Hk Hr'. specialize (L3 k' c' a Hk Hr').
      destruct (Hoth k' Hn) as [Hh Hrt]. rewrite handled_app, returned_app, Hh, Hrt, !app_nil_r. exact L3. }
    rewrite lookup_insert. intros Hcc Href. apply (inj Some) in Hcc. subst c'.
    destruct Hwho as [(n & r & t & v & reply & p & -> & -> & ->)|(c0 & p & Hk & -> & Hno)]; simpl in Href |- *.
    + subst r. cbn [Refs_Model.step y_open] in E.
      assert (HN : returned (y_next s) (y_log s) = []).
      { apply none_returned. apply HI. destruct (y_calls s !! y_next s) as [c|] eqn:Ek; [|done]. destruct (proj1 HI _ _ Ek) as [? _]. lia. }
      destruct (decide (a ∈ y_open s)) as [Ha|Ha]; injection E as <-; simpl in Hc, Hl.
      * apply (f_equal (fun m => m !! y_next s)) in Hc. rewrite !lookup_insert in Hc. injection Hc as <-. split; [by apply L2|].
        rewrite <- app_assoc in Hl. apply app_inv_head in Hl. subst l. rewrite returned_app, HN. destruct reply; simpl; [constructor|].
        rewrite decide_True by done. by repeat constructor.
      * rewrite <- app_assoc in Hl. apply app_inv_head in Hl. subst l.
        apply (f_equal (fun m => m !! y_next s)) in Hc. rewrite !lookup_insert in Hc. injection Hc as <-.
        rewrite returned_app, HN. simpl. rewrite decide_True by done. split; [by right; right|]. apply Forall_singleton. by left.
    + destruct (proj1 HI _ _ Hk) as (_ & _ & Hci). destruct (L3 k c0 a Hk Href) as [L3' LE]. clear L3. rename L3' into L3.
      assert (Hnr : ~ is_remote c0) by (intros (? & ? & ?); congruence).
      assert (Hnc : forall t body, ~ chosen conf enc c0 t body) by (intros t0 body (? & ? & ? & ? & ?); congruence).
      pose proof (f_equal (fun m => m !! k) Hc) as Hck. cbv beta in Hck. rewrite lookup_insert in Hck.
      unfold cinv in Hci.
      destruct o as [| | |n r t v reply|k0|k0 found|k0|k0 r|k0|k0|k0]; try done; injection Hno as ->; cbn [Refs_Model.step] in E; rewrite Hk in E.
      1-3: destruct (c_phase c0) eqn:Ep; try done; exfalso; naive_solver.
      3-4: destruct (c_phase c0) eqn:Ep; try done; exfalso; naive_solver.
      * destruct (c_phase c0) as [| | |t v b| | |] eqn:Ep; try done. destruct (decide (b ∈ y_open s)) as [Hb|Hb]; [|done].
        apply (inj Some) in E. rewrite Href in E. subst s'. simpl in Hck, Hl. rewrite lookup_insert in Hck. injection Hck as <-.
        apply app_inv_head in Hl. subst l. rewrite returned_app. split; [|apply Forall_app; split; [done|];
          destruct (c_reply c0) eqn:Ec0; simpl; [rewrite decide_True by done; destruct r; apply Forall_singleton; simpl; auto|constructor]].
        left. rewrite handled_app. simpl. rewrite decide_True by done. by destruct (handled k (y_log s)).
      * destruct (c_phase c0) as [| | |t v b| | |] eqn:Ep; try done. destruct (decide (b ∈ y_open s)) as [Hb|Hb]; [done|].
        apply (inj Some) in E. rewrite Href in E. subst s'. simpl in Hck, Hl. rewrite lookup_insert in Hck. injection Hck as <-.
        apply app_inv_head in Hl. subst l. rewrite returned_app. split; [|apply Forall_app; split; [done|];
          destruct (c_reply c0) eqn:Ec0; simpl; [rewrite decide_True by done; apply Forall_singleton; simpl; auto|constructor]].
        right. left. destruct Hci as [Hg _]. unfold given in Hg. rewrite Href in Hg. destruct Hg as [<- _]. done.
Qed.

Lemma linv_run s l s' : inv conf enc dec renc rdec s -> linv s -> run s l = Some s' -> linv s'.
Proof.
  revert s. induction l as [|o l IH]; intros s HI HL; cbn [Refs_Model.run]; [by intros [= <-]|].
  destruct (step s o) as [s1|] eqn:E; cbn [mbind option_bind]; [|done]. apply IH; [by eapply inv_step|by eapply linv_step].
Qed.

(** How much is left to do for a call. *)
Definition left (c : call) : nat :=
  match c_phase c with
  | QNet _ _ => 20
  | QTry _ _ attempt => 4 + (max_retries - attempt)
  | QFound _ _ _ => 3
  | QMail _ _ _ => 2
  | QBack _ => 1
  | QLost | QOver => 0
  end.
Definition measure (s : sys) : nat := map_fold (fun _ c n => left c + n)%nat 0%nat (y_calls s).

Lemma measure_insert (m : gmap nat call) k c c' : m !! k = Some c -> (left c' < left c)%nat ->
  (map_fold (fun _ c n => left c + n)%nat 0%nat (<[k := c']> m) < map_fold (fun _ c n => left c + n)%nat 0%nat m)%nat.
Proof.
  intros Hk Hlt. rewrite <- (insert_delete_insert m k c'). rewrite <- (insert_delete m k c) at 2 by done.
  rewrite !map_fold_insert_L; try lia; try (by rewrite lookup_delete); intros; lia.
Qed.

Lemma step_left s o s' : inv conf enc dec renc rdec s -> progress o = true -> step s o = Some s' ->
  exists k c c', y_calls s !! k = Some c /\ y_calls s' = <[k := c']> (y_calls s) /\ (left c' < left c)%nat.
Proof.
  intros [HI _] Hp E. destruct o as [| | |n r t v reply|k|k found|k|k r|k|k|k]; try done; cbn [Refs_Model.step] in E;
  (destruct (y_calls s !! k) as [c|] eqn:Hk; [|done]); destruct (HI _ _ Hk) as (_ & _ & Hci); unfold cinv in Hci; exists k, c;
  unfold left at 2; unfold reply_with in E.
  - destruct (c_phase c) as [name body| | | | | |] eqn:Ep; try done. destruct (c_ref c) as [|m id] eqn:Er; [done|].
    destruct (message_handler (conf m) name); injection E as <-; (eexists; split; [done|split; [reflexivity|]]); unfold left; simpl; try destruct (c_reply c); lia.
  - destruct (c_phase c) as [|t body attempt| | | | |] eqn:Ep; try done. destruct (c_ref c) as [|m id] eqn:Er; [done|].
    destruct Hci as (_ & Hat & _).
    destruct found; (destruct (decide _); [|done]).
    + injection E as <-; (eexists; split; [done|split; [reflexivity|]]). unfold left, max_retries in *; cbn [at_phase c_phase]; lia.
    + destruct (max_retries <=? S attempt)%nat; injection E as <-; (eexists; split; [done|split; [reflexivity|]]); unfold left, max_retries in *; cbn [at_phase c_phase]; try destruct (c_reply c); lia.
  - destruct (c_phase c) as [| |t body a| | | |] eqn:Ep; try done.
    destruct (dec t.2 body); [destruct (decide _)|]; injection E as <-; (eexists; split; [done|split; [reflexivity|]]); unfold left; cbn [at_phase c_phase]; try destruct (c_reply c); lia.
  - destruct (c_phase c) as [| | |t v a| | |] eqn:Ep; try done. destruct (decide _); [|done]. apply (inj Some) in E. cbv zeta in E.
    destruct (c_ref c); subst s'; (eexists; split; [done|split; [reflexivity|]]); unfold left; cbn [at_phase c_phase]; try destruct (c_reply c); lia.
  - destruct (c_phase c) as [| | |t v a| | |] eqn:Ep; try done. destruct (decide _); [done|]. apply (inj Some) in E.
    destruct (c_ref c); subst s'; (eexists; split; [done|split; [reflexivity|]]); unfold left; cbn [at_phase c_phase]; try destruct (c_reply c); lia.
  - destruct (c_phase c) as [| | | |x| |] eqn:Ep; try done. injection E as <-. (eexists; split; [done|split; [reflexivity|]]); unfold left; cbn [at_phase c_phase]; lia.
  - destruct (c_phase c) as [name body| | | |x| |] eqn:Ep; try done; injection E as <-; (eexists; split; [done|split; [reflexivity|]]); unfold left; cbn [at_phase c_phase]; lia.
Qed.

Lemma run_bounded s l s' : inv conf enc dec renc rdec s -> forallb progress l = true -> run s l = Some s' -> (length l <= measure s)%nat.
Proof.
  revert s. induction l as [|o l IH]; intros s HI; cbn [Refs_Model.run forallb length]; [lia|].
  intros [Hp Hl]%andb_true_iff. destruct (step s o) as [s1|] eqn:E; cbn [mbind option_bind]; [|done].
  intros Hr. specialize (IH s1 (inv_step _ _ _ _ _ _ _ _ HI E) Hl Hr).
  destruct (step_left _ _ _ HI Hp E) as (k & c & c' & Hk & Hc & Hlt). unfold measure in *. rewrite Hc in IH.
  pose proof (measure_insert _ _ _ _ Hk Hlt). lia.
Qed.

(** Some step is possible for every call that is under way. *)
Lemma can_step s k c : inv conf enc dec renc rdec s -> linv s -> y_calls s !! k = Some c ->
  c_phase c = QOver \/ c_phase c = QLost \/
  exists o s', target o = Some k /\ (match o with OLose _ => False | _ => True end) /\ progress o = true /\ step s o = Some s'.
Proof.
  intros [HI _] (L1 & _) Hk. destruct (HI _ _ Hk) as (_ & _ & Hci). unfold cinv in Hci.
  destruct (c_phase c) as [name body|t body attempt|t body a|t v a|x| |] eqn:Ep; [| | | | |by right; left|by left]; right; right.
  - destruct Hci as ((m & id & Er) & _). exists (OArrive k). cbn [Refs_Model.step]. rewrite Hk, Ep, Er.
    destruct (message_handler (conf m) name); eexists; repeat split.
  - destruct Hci as ((m & id & name & Er & _) & _).
    destruct (decide (may_miss s m id t.1)) as [Hm|Hm].
    + exists (OTry k None). cbn [Refs_Model.step]. rewrite Hk, Ep, Er. rewrite decide_True by done. eexists; repeat split.
    + unfold may_miss in Hm. destruct (y_reg s !! (m, id)) as [a|] eqn:Ea; [|by destruct Hm].
      destruct (L1 _ _ _ Ea) as (ty & Hi). rewrite Hi in Hm. simpl in Hm. assert (ty = t.1) as -> by (destruct (decide (ty = t.1)); tauto).
      exists (OTry k (Some a)). cbn [Refs_Model.step]. rewrite Hk, Ep, Er. rewrite decide_True by (split; [done|by right]). eexists; repeat split.
  - exists (OSend k). cbn [Refs_Model.step]. rewrite Hk, Ep. destruct (dec t.2 body); [destruct (decide _)|]; eexists; repeat split.
  - destruct (decide (a ∈ y_open s)) as [Ha|Ha].
    + exists (OHandle k None). cbn [Refs_Model.step]. rewrite Hk, Ep. rewrite decide_True by done. eexists; repeat split.
    + exists (ODrop k). cbn [Refs_Model.step]. rewrite Hk, Ep. rewrite decide_False by done. eexists; repeat split.
  - exists (OAnswer k). cbn [Refs_Model.step]. rewrite Hk, Ep. eexists; repeat split.
Qed.

Definition lost (s : sys) (k : nat) : Prop := exists c, y_calls s !! k = Some c /\ c_phase c = QLost.
Lemma lost_put s k c l k' : c_phase c <> QLost -> lost (put s k c l) k' -> lost s k'.
Proof.
  intros Hc (c' & Hk & Hp). simpl in Hk. destruct (decide (k' = k)) as [->|Hn].
  - rewrite lookup_insert in Hk. congruence.
  - rewrite lookup_insert_ne in Hk by done. by exists c'.
Qed.
Lemma lost_step s o s' k : step s o = Some s' -> lost s' k -> lost s k \/ o = OLose k.
Proof.
  assert (HR : forall k0 c x l, c_phase (at_phase c (if c_reply c then QBack x else QOver)) <> QLost -> lost (reply_with s k0 c x l) k -> lost s k).
  { intros k0 c x l H. by apply lost_put. }
  assert (HR' : forall k0 c x l, lost (reply_with s k0 c x l) k -> lost s k).
  { intros k0 c x l. apply HR. by simpl; destruct (c_reply c). }
  intros E Hl. destruct o as [n id ty|a|n id|n r t v reply|k0|k0 found|k0|k0 r|k0|k0|k0]; cbn [Refs_Model.step] in E.
  1-3: left; by injection E as <-.
  { left. destruct r as [a|m id]; [destruct (decide _)|destruct (enc t.2 v); [destruct (handler_name _ _ _)|]]; injection E as <-; by apply lost_put in Hl. }
  all: destruct (y_calls s !! k0) as [c|] eqn:Hk; [|done].
  - destruct (c_phase c); try done. destruct (c_ref c) as [|m id]; [done|].
    destruct (message_handler _ _); injection E as <-; left; [by apply lost_put in Hl|by apply HR' in Hl].
  - destruct (c_phase c); try done. destruct (c_ref c) as [|m id]; [done|]. destruct found; (destruct (decide _); [|done]).
    + injection E as <-; left; by apply lost_put in Hl.
    + destruct (max_retries <=? _)%nat; injection E as <-; left; [by apply HR' in Hl|by apply lost_put in Hl].
  - destruct (c_phase c); try done. destruct (dec _ _); [destruct (decide _)|]; injection E as <-; left; [by apply lost_put in Hl|by apply HR' in Hl|by apply HR' in Hl].
  - destruct (c_phase c); try done. destruct (decide _); [|done]. apply (inj Some) in E. cbv zeta in E. left.
    destruct (c_ref c); subst s'; [by apply lost_put in Hl|by apply HR' in Hl].
  - destruct (c_phase c); try done. destruct (decide _); [done|]. apply (inj Some) in E. left.
    destruct (c_ref c); subst s'; [by apply lost_put in Hl|by apply HR' in Hl].
  - destruct (c_phase c); try done. injection E as <-. left. by apply lost_put in Hl.
  - destruct (decide (k0 = k)) as [->|Hn]; [by right|]. left. destruct Hl as (c' & Hk' & Hp').
    destruct (c_phase c); try done; injection E as <-; simpl in Hk'; rewrite lookup_insert_ne in Hk' by done; by exists c'.
Qed.
Lemma lost_run s l s' k : run s l = Some s' -> lost s' k -> lost s k \/ OLose k ∈ l.
Proof.
  revert s. induction l as [|o l IH]; intros s; cbn [Refs_Model.run]; [intros [= <-]; by left|].
  destruct (step s o) as [s1|] eqn:E; cbn [mbind option_bind]; [|done]. intros Hr Hl.
  destruct (IH s1 Hr Hl) as [H1|H1]; [|right; by right]. destruct (lost_step _ _ _ _ E H1) as [?| ->]; [by left|right; by left].
Qed.

(** A call that is over, or lost, stays so. *)
Lemma settled_step s o s' k c : y_calls s !! k = Some c -> c_phase c = QOver \/ c_phase c = QLost ->
  inv conf enc dec renc rdec s -> step s o = Some s' ->
  y_calls s' !! k = Some c /\ handled k (y_log s') = handled k (y_log s) /\ returned k (y_log s') = returned k (y_log s).
Proof.
  intros Hk Hp HI E. pose proof (step_shape _ _ _ E) as [(_ & Hc & Hl)|(k0 & c' & l & _ & _ & _ & Hc & Hl & Hoth & Hwho)].
  - by rewrite Hc, Hl.
  - destruct (decide (k = k0)) as [->|Hn].
    + exfalso. destruct Hwho as [(n & r & t & v & reply & p & -> & -> & _)|(c0 & p & Hk' & _ & Ht)].
      * destruct (proj1 HI _ _ Hk) as [? _]. lia.
      * destruct o as [| | | |k|k found|k|k r|k|k|k]; try done; injection Ht as ->; cbn [Refs_Model.step] in E; rewrite Hk in E;
        destruct Hp as [Hp|Hp]; rewrite Hp in E; done.
    + rewrite Hc, Hl, lookup_insert_ne by done. destruct (Hoth k Hn) as [Hh Hr]. by rewrite handled_app, returned_app, Hh, Hr, !app_nil_r.
Qed.
Lemma settled_run s l s' k c : y_calls s !! k = Some c -> c_phase c = QOver \/ c_phase c = QLost ->
  inv conf enc dec renc rdec s -> run s l = Some s' ->
  y_calls s' !! k = Some c /\ handled k (y_log s') = handled k (y_log s) /\ returned k (y_log s') = returned k (y_log s).
Proof.
  revert s. induction l as [|o l IH]; intros s Hk Hp HI; cbn [Refs_Model.run]; [by intros [= <-]|].
  destruct (step s o) as [s1|] eqn:E; cbn [mbind option_bind]; [|done]. intros Hr.
  destruct (settled_step _ _ _ _ _ Hk Hp HI E) as (Hk1 & Hh1 & Hr1).
  destruct (IH s1 Hk1 Hp (inv_step _ _ _ _ _ _ _ _ HI E) Hr) as (Hk2 & Hh2 & Hr2). split; [done|]. by rewrite Hh2, Hr2, Hh1, Hr1.
Qed.
End more.
