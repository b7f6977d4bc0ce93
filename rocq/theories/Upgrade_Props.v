(** C90, C91, C92: persistent actors of a program that is upgraded and rolled back. *)
From Verif Require Import Upgrade_Model Upgrade_Spec Journal_Spec Upgrade_Proofs Upgrade_Proofs2.
From Verif Require Json_Props.

Lemma map_lookup {A B} (f : A -> B) (l : list A) k x : l !! k = Some x -> map f l !! k = Some (f x).
Proof. revert k. induction l as [|y l IH]; intros [|k] H; try done; simpl in *; [by injection H as ->|by apply IH]. Qed.

(** ** C90 *)

(** However often the program was stopped and started as another version: if the version that runs now
    registers every identifier the versions before it registered, for a type that reads it, a start
    replays what any of them acknowledged since the last clear, each message once and in order. *)
Theorem C90_upgrade conf v h pid (r : nat -> N -> N) :
  let w := version_after v h in
  no_snapshots pid h ->
  (forall u, In u (versions_of v h) -> keeps (r u) (jt_messages (conf u pid)) (jt_messages (conf w pid))) ->
  (ustart_after conf v h pid ≫= recovered) =
    Some (None, map (fun u : umsg => (r u.1.1 u.1.2, u.2)) (ux_after (must_survive v pid (uhistory conf (u_init v) h)))).
Proof. exact (upgrade_all conf v h pid r). Qed.

(** With snapshots: the latest one, of whichever version, and the messages acknowledged behind it but
    for those that C02 loses in every program, the first single message of an incarnation. *)
Theorem C90_snapshots conf v h pid (r rs : nat -> N -> N) :
  let w := version_after v h in
  let x := must_survive v pid (uhistory conf (u_init v) h) in
  let a := does_survive v pid (uhistory conf (u_init v) h) in
  (forall u, In u (versions_of v h) -> keeps (r u) (jt_messages (conf u pid)) (jt_messages (conf w pid))) ->
  (forall u, In u (versions_of v h) -> keeps (rs u) (jt_snapshots (conf u pid)) (jt_snapshots (conf w pid))) ->
  ux_after x = ua_lost a ++ ua_kept a /\ (ux_snapshot x = None -> ua_lost a = []) /\
  (ustart_after conf v h pid ≫= recovered) =
    Some ((fun u : umsg => (rs u.1.1 u.1.2, u.2)) <$> ux_snapshot x, map (fun u : umsg => (r u.1.1 u.1.2, u.2)) (ua_kept a)).
Proof.
  cbn zeta. intros Hm Hs. destruct (ua_ux v pid (uhistory conf (u_init v) h)) as (_ & E1 & E2 & E3).
  split; [done|]. rewrite <-E1. split; [exact E3|]. exact (upgrade_kept conf v h pid r rs Hm Hs).
Qed.

(** The values: types whose newer versions only gain optional fields and variants (C84). [mt v m] is the
    type [m] of version [v], its values are persisted as JSON. *)
Definition json_written (mt : nat -> N -> Json_Model.ty) (u : umsg) (x : Json_Model.xval) : Prop :=
  let t := mt u.1.1 u.1.2 in
  Json_Spec.rust_ty t /\ Json_Spec.told_apart t /\ Json_Spec.has_ty t x /\ (Json_Spec.levels x t < 128)%nat /\ u.2 = Json_Model.to_vec t x.

Theorem C90_values conf v h pid (r : nat -> N -> N) mt xs :
  let w := version_after v h in
  let acked := ux_after (must_survive v pid (uhistory conf (u_init v) h)) in
  no_snapshots pid h ->
  (forall u, In u (versions_of v h) -> keeps (r u) (jt_messages (conf u pid)) (jt_messages (conf w pid))) ->
  (forall u m i, In u (versions_of v h) -> In (m, i) (jt_messages (conf u pid)) -> Json_Spec.newer (mt w (r u m)) (mt u m) = true) ->
  Forall2 (json_written mt) acked xs ->
  exists ms, (ustart_after conf v h pid ≫= recovered) = Some (None, ms) /\ length ms = length acked /\
  forall k u x, acked !! k = Some u -> xs !! k = Some x ->
    exists m b y, ms !! k = Some (m, b) /\ m = r u.1.1 u.1.2 /\
      Json_Spec.migrate (mt w m) (mt u.1.1 u.1.2) x = Some y /\ Json_Model.from_slice (mt w m) b = Some y.
Proof.
  cbn zeta. intros Hn Hk Hnew Hw. destruct (survives_written conf v h pid) as [W1 _].
  eexists. split; [exact (C90_upgrade conf v h pid r Hn Hk)|]. split; [by rewrite map_length|].
  intros k u x Hu Hx. destruct (Forall2_lookup_l _ _ _ _ _ Hw Hu) as (x' & Hx' & (H1 & H2 & H3 & H4 & H5)).
  rewrite Hx in Hx'. injection Hx' as <-. pose proof (Forall_lookup_1 _ _ _ _ W1 Hu) as (Hv & i & Hi & _).
  destruct (Json_Props.C84_newer (mt (version_after v h) (r u.1.1 u.1.2)) (mt u.1.1 u.1.2) x H1 H2 H3 H4 (Hnew _ _ _ Hv Hi)) as (y & Y1 & Y2).
  exists (r u.1.1 u.1.2), u.2, y. split; [|split; [done|split; [exact Y1|by rewrite H5]]].
  exact (map_lookup (fun u : umsg => (r u.1.1 u.1.2, u.2)) _ k u Hu).
Qed.

(** Three versions of an account. The second gives its types other names and adds one; the third stores
    withdrawals under a new identifier and still reads the old one. *)
Definition acc_conf : versions := fun v _ =>
  match v with
  | 0%nat => JTypes [(1, "Deposit"); (2, "Withdraw")]%N [(9, "Account")]%N
  | 1%nat => JTypes [(11, "Deposit"); (12, "Withdraw"); (13, "Close")]%N [(19, "Account")]%N
  | 2%nat => JTypes [(21, "Deposit"); (22, "Withdraw"); (22, "Withdraw2"); (23, "Close")]%N [(29, "Account")]%N
  | 3%nat => JTypes [(31, "Deposit"); (32, "Withdrawal")]%N [(39, "AccountV2")]%N
  | _ => JTypes [(41, "Withdraw"); (42, "Deposit")]%N []
  end.
Definition acc_types (v : nat) (m : N) : N :=
  match v with
  | 0%nat => match m with 1 => 21 | _ => 22 end
  | 1%nat => match m with 11 => 21 | 12 => 22 | _ => 23 end
  | _ => m
  end%N.
Definition acc_h : list uop :=
  [UCall "a" JStart; UCall "a" (JPersist 1 [5] false); UCall "b" JStart; UCall "a" (JPersist 2 [3] false); UCall "a" (JPersist 2 [4] true);
   UBoot 1; UCall "a" JStart; UCall "b" JStart; UCall "b" (JPersist 11 [77] false); UCall "a" (JBatch [(11, [6]); (13, [])] false);
   UBoot 2; UCall "a" (JPersist 21 [50] false); UCall "a" JStart; UCall "a" (JPersist 22 [8] false);
   UBoot 0; UCall "a" JStart; UCall "a" (JPersist 1 [9] false); UBoot 2]%N.

Lemma keeps_dec r old new :
  forallb (fun x : N * string => existsb (fun y : N * string => (y.1 =? r x.1)%N && bool_decide (y.2 = x.2)) new &&
    forallb (fun y : N * string => negb (bool_decide (y.2 = x.2)) || (y.1 =? r x.1)%N) new) old = true -> keeps r old new.
Proof.
  intros H m i Hin. rewrite forallb_forall in H. specialize (H _ Hin). apply andb_true_iff in H as [H1 H2]. split.
  - apply existsb_exists in H1 as ([m' i'] & Hi & E). apply andb_true_iff in E as [E1 E2]. cbn [fst snd] in *.
    apply N.eqb_eq in E1. apply bool_decide_eq_true_1 in E2. by subst.
  - intros m' Hm'. rewrite forallb_forall in H2. specialize (H2 _ Hm'). cbn [fst snd] in H2. apply orb_true_iff in H2 as [H2|H2].
    + apply negb_true_iff, bool_decide_eq_false_1 in H2. done.
    + by apply N.eqb_eq.
Qed.

Example C90_case :
  version_after 0 acc_h = 2%nat /\ no_snapshots "a" acc_h /\
  (forall u, In u (versions_of 0 acc_h) -> keeps (acc_types u) (jt_messages (acc_conf u "a")) (jt_messages (acc_conf 2 "a"))) /\
  (ustart_after acc_conf 0 acc_h "a" ≫= recovered) =
    Some (None, [(21, [5]); (22, [3]); (21, [6]); (23, []); (22, [8]); (21, [9])])%N /\
  (ustart_after acc_conf 0 (take 15 acc_h) "a" ≫= recovered) = Some (None, [(1, [5]); (2, [3]); (1, [6])])%N.
Proof.
  split; [done|]. split.
  { intros s b f H. vm_compute in H. repeat (destruct H as [H|H]; [discriminate H|]). done. }
  split.
  { intros u Hu. apply keeps_dec. vm_compute in Hu. repeat (destruct Hu as [<-|Hu]; [vm_compute; reflexivity|]). done. }
  split; vm_compute; reflexivity.
Qed.

(** The values of the messages of two versions: [{"amount":n}], later with an optional note. *)
Definition note_ty : Json_Model.ty := Json_Model.TyStruct
  [([97; 109; 111; 117; 110; 116]%N, Json_Props.u64_ty); ([110; 111; 116; 101]%N, Json_Model.TyOpt Json_Model.TyStr)].
Definition amount_ty : Json_Model.ty := Json_Model.TyStruct [([97; 109; 111; 117; 110; 116]%N, Json_Props.u64_ty)].
Definition acc_mt (v : nat) (m : N) : Json_Model.ty := match v with 0%nat => amount_ty | _ => note_ty end.
Definition acc_hv : list uop :=
  [UCall "a" JStart; UCall "a" (JPersist 1 (Json_Model.to_vec amount_ty (Json_Model.XList [Json_Model.XInt 5])) false);
   UBoot 1; UCall "a" JStart;
   UCall "a" (JPersist 12 (Json_Model.to_vec note_ty (Json_Model.XList [Json_Model.XInt 7; Json_Model.XSome (Json_Model.XStr [104; 105]%N)])) false)]%N.
Example C90_values_case :
  (forall u m, In u (versions_of 0 acc_hv) -> Json_Spec.newer (acc_mt 1 m) (acc_mt u m) = true) /\
  match ustart_after acc_conf 0 acc_hv "a" ≫= recovered with
  | Some (None, [(11%N, b1); (12%N, b2)]) =>
      Json_Model.from_slice note_ty b1 = Some (Json_Model.XList [Json_Model.XInt 5; Json_Model.XNone]) /\
      Json_Model.from_slice note_ty b2 = Some (Json_Model.XList [Json_Model.XInt 7; Json_Model.XSome (Json_Model.XStr [104; 105]%N)])
  | _ => False
  end.
Proof.
  split.
  - intros u m Hu. vm_compute in Hu. destruct Hu as [<-|[<-|[]]]; vm_compute; reflexivity.
  - vm_compute. done.
Qed.

Definition acc_snaps (v : nat) (m : N) : N := match v with 0%nat => m + 20 | 1%nat => m + 10 | _ => m end%N.
Definition acc_hs : list uop :=
  [UCall "a" JStart; UCall "a" (JPersist 1 [5] false); UCall "a" (JSnapshot 9 [5] false); UBoot 1; UCall "a" JStart;
   UCall "a" (JPersist 12 [1] false); UCall "a" (JPersist 12 [2] false); UCall "a" (JPersist 11 [3] false); UBoot 2]%N.
Example C90_snapshots_case :
  (forall u, In u (versions_of 0 acc_hs) -> keeps (acc_types u) (jt_messages (acc_conf u "a")) (jt_messages (acc_conf 2 "a"))) /\
  (forall u, In u (versions_of 0 acc_hs) -> keeps (acc_snaps u) (jt_snapshots (acc_conf u "a")) (jt_snapshots (acc_conf 2 "a"))) /\
  (ustart_after acc_conf 0 acc_hs "a" ≫= recovered) = Some (Some (29, [5]), [(22, [2]); (21, [3])])%N.
Proof.
  split; [|split; [|vm_compute; reflexivity]]; intros u Hu; apply keeps_dec; vm_compute in Hu;
    repeat (destruct Hu as [<-|Hu]; [vm_compute; reflexivity|]); done.
Qed.

(** ** C91 *)

(** A version that does not register the identifier of a stored message starts the actor all the same,
    without the message: here a type is stored under a new identifier, and the money withdrawn is back. *)
Theorem C91_message_refuted :
  exists conf v h pid u, let x := must_survive v pid (uhistory conf (u_init v) h) in
    u ∈ ux_after x /\ seen_by conf jt_messages (version_after v h) pid u = None /\
    exists s ms, ustart_after conf v h pid = Some (JRecovered s ms).
Proof.
  exists acc_conf, 0%nat, [UCall "a" JStart; UCall "a" (JPersist 1 [5] false); UCall "a" (JPersist 2 [3] false); UBoot 3]%N, "a", ((0%nat, 2%N), [3%N]).
  cbn zeta. split; [vm_compute; right; left|]. split; [vm_compute; reflexivity|]. exists None, (Some [(31, [5])])%N. vm_compute. reflexivity.
Qed.

(** A version that does not register the identifier of the latest snapshot starts the actor without it,
    and without the messages before it as well. *)
Theorem C91_snapshot_refuted :
  exists conf v h pid u, let x := must_survive v pid (uhistory conf (u_init v) h) in
    ux_snapshot x = Some u /\ seen_by conf jt_snapshots (version_after v h) pid u = None /\
    ustart_after conf v h pid = Some (JRecovered None None).
Proof.
  exists acc_conf, 0%nat, [UCall "a" JStart; UCall "a" (JPersist 1 [5] false); UCall "a" (JSnapshot 9 [5] false); UBoot 3]%N, "a", ((0%nat, 9%N), [5%N]).
  cbn zeta. split; [vm_compute; reflexivity|]. split; vm_compute; reflexivity.
Qed.

(** An identifier that is given to another type: the bytes are handed to that type. Nothing stored says
    which type wrote them. *)
Theorem C91_reused_refuted :
  exists conf h m m' b, let x := must_survive 0 "a" (uhistory conf (u_init 0) h) in
    ux_after x = [((0%nat, m), b)] /\ In (m, "Deposit") (jt_messages (conf 0%nat "a")) /\
    In (m', "Deposit") (jt_messages (conf 1%nat "a")) /\ m' <> m /\ In (m, "Bonus") (jt_messages (conf 1%nat "a")) /\
    ustart_after conf 0 h "a" = Some (JRecovered None (Some [(m', b)])).
Proof.
  exists (fun v _ => match v with 0%nat => JTypes [(1, "Deposit")]%N [] | _ => JTypes [(1, "Bonus"); (2, "Deposit")]%N [] end),
    [UCall "a" JStart; UCall "a" (JPersist 1 [5] false); UBoot 1]%N, 1%N, 2%N, [5%N].
  cbn zeta. split; [vm_compute; reflexivity|]. split; [by left|]. split; [by right; left|]. split; [done|]. split; [by left|].
  vm_compute; reflexivity.
Qed.

(** Exactly what a start gives, for all versions and histories: of the latest snapshot and of the
    messages kept behind it those that the running version reads, each as the type it registers; the
    others are passed over. *)
Theorem C91_exact_partial conf v h pid :
  let a := does_survive v pid (uhistory conf (u_init v) h) in
  let w := version_after v h in
  (ustart_after conf v h pid ≫= recovered) =
    Some (ua_snapshot a ≫= seen_by conf jt_snapshots w pid, omap (seen_by conf jt_messages w pid) (ua_kept a)).
Proof. exact (upgrade_exact conf v h pid). Qed.

(** No start is refused, whatever is stored. *)
Theorem C91_started_partial conf v h pid : exists s ms, ustart_after conf v h pid = Some (JRecovered s ms).
Proof.
  pose proof (upgrade_exact conf v h pid) as H. cbn zeta in H. destruct (ustart_after conf v h pid) as [o|]; [|done].
  destruct o; try done. eauto.
Qed.

(** A snapshot that is not read: what is left is what was kept behind it. *)
Theorem C91_snapshot_partial conf v h pid u :
  let x := must_survive v pid (uhistory conf (u_init v) h) in
  ux_snapshot x = Some u -> seen_by conf jt_snapshots (version_after v h) pid u = None ->
  exists lost kept, ux_after x = lost ++ kept /\
    (ustart_after conf v h pid ≫= recovered) = Some (None, omap (seen_by conf jt_messages (version_after v h) pid) kept).
Proof.
  cbn zeta. intros Hu Hn. destruct (ua_ux v pid (uhistory conf (u_init v) h)) as (_ & E1 & E2 & E3).
  exists (ua_lost (does_survive v pid (uhistory conf (u_init v) h))), (ua_kept (does_survive v pid (uhistory conf (u_init v) h))).
  split; [done|]. rewrite upgrade_exact. rewrite E1, Hu. cbn [mbind option_bind]. by rewrite Hn.
Qed.

Example C91_case :
  (ustart_after acc_conf 0 (acc_h ++ [UBoot 3]) "a" ≫= recovered) = Some (None, [(31, [5]); (31, [6]); (31, [9])])%N /\
  (ustart_after acc_conf 0 (acc_h ++ [UBoot 4]) "a" ≫= recovered) = Some (None, [(42, [5]); (41, [3]); (42, [6]); (42, [9])])%N.
Proof. split; vm_compute; reflexivity. Qed.

(** ** C92 *)

(** Back and forth: the older version passes over what it cannot read, takes a snapshot of the state it
    came to, and what it passed over is gone for good. *)
Theorem C92_snapshot_refuted :
  exists conf h1 h2 pid,
    (forall u, In u (versions_of 1 (h1 ++ [UBoot 0] ++ h2 ++ [UBoot 1])) -> exists r, keeps r (jt_messages (conf u pid)) (jt_messages (conf 1%nat pid))) /\
    (ustart_after conf 1 h1 pid ≫= recovered) = Some (None, [(11, [5]); (13, [])])%N /\
    (exists b, (ustart_after conf 1 (h1 ++ [UBoot 0]) pid ≫= recovered) = Some (None, [(1, b)])%N) /\
    (ustart_after conf 1 (h1 ++ [UBoot 0] ++ h2 ++ [UBoot 1]) pid ≫= recovered) = Some (Some (19, [5]), [])%N.
Proof.
  exists acc_conf, [UCall "a" JStart; UCall "a" (JPersist 11 [5] false); UCall "a" (JPersist 13 [] false)]%N,
    [UCall "a" JStart; UCall "a" (JSnapshot 9 [5] false)]%N, "a".
  split.
  { intros u Hu. exists (fun m => match u with 0%nat => (m + 10)%N | _ => m end). apply keeps_dec. vm_compute in Hu.
    repeat (destruct Hu as [<-|Hu]; [vm_compute; reflexivity|]). done. }
  split; [vm_compute; reflexivity|]. split; [eexists; vm_compute; reflexivity|vm_compute; reflexivity].
Qed.

(** As long as no version takes a snapshot (nor clears): what the older version cannot read stays, in its
    place among what it writes, and the newer version reads it all when it is back. *)
Theorem C92_back_partial conf new old h1 h2 pid (r : nat -> N -> N) :
  let h := h1 ++ [UBoot old] ++ h2 ++ [UBoot new] in
  no_snapshots pid h -> (forall f, ~ In (UCall pid (JClear f)) h) ->
  (forall u, In u (versions_of new h) -> keeps (r u) (jt_messages (conf u pid)) (jt_messages (conf new pid))) ->
  exists ms1 ms2,
    ux_after (must_survive new pid (uhistory conf (u_init new) h1)) = ms1 /\
    ux_after (must_survive new pid (uhistory conf (u_init new) h)) = ms1 ++ ms2 /\
    (ustart_after conf new h pid ≫= recovered) = Some (None, map (fun u : umsg => (r u.1.1 u.1.2, u.2)) (ms1 ++ ms2)).
Proof.
  cbn zeta. intros Hn Hc Hk. set (h := h1 ++ [UBoot old] ++ h2 ++ [UBoot new]) in *.
  assert (Hw : version_after new h = new).
  { unfold version_after, h. rewrite !fold_left_app. done. }
  pose proof (C90_upgrade conf new h pid r Hn) as H. cbn zeta in H. rewrite Hw in H. specialize (H Hk).
  assert (G : exists t, uhistory conf (u_init new) h = uhistory conf (u_init new) h1 ++ t /\
    (forall e, In e t -> In e.1 h)).
  { unfold uhistory, urun, h. rewrite run_app. pose proof (run_length (ustep conf) (u_init new) h1) as L.
    destruct (run (ustep conf) (u_init new) h1) as [s1 r1]. destruct (run (ustep conf) s1 _) as [s2 r2]. cbn [snd] in *.
    rewrite combine_app_eq by done. eexists. split; [reflexivity|]. intros [x y] He. apply in_combine_l in He. apply in_or_app. by right. }
  destruct G as (t & Et & Ht). rewrite H, Et. unfold must_survive. rewrite fold_left_app.
  set (x1 := fold_left (ux_step pid) (uhistory conf (u_init new) h1) (UExpected new None [])).
  assert (G : forall x, exists ms2, ux_after (fold_left (ux_step pid) t x) = ux_after x ++ ms2).
  { clear -Ht Hn Hc. induction t as [|[y a] t IH]; intros x; [exists []; by rewrite app_nil_r|]. cbn [fold_left].
    destruct (IH ltac:(intros e He; apply Ht; by right) (ux_step pid x (y, a))) as [ms Hms]. rewrite Hms.
    destruct x as [v xs xa]. unfold ux_step. cbn [fst snd]. destruct y as [w|p o]; [by exists ms|].
    destruct a as [a|]; [|by exists ms]. destruct (decide (p = pid)) as [->|]; [|by exists ms].
    specialize (Ht _ (or_introl eq_refl)). cbn [fst] in Ht.
    destruct o; try (by exists ms).
    - destruct a; try (by exists ms). cbn. eexists. by rewrite <-(assoc_L (++)).
    - destruct a; try (by exists ms). cbn. eexists. by rewrite <-(assoc_L (++)).
    - exfalso. by eapply Hn.
    - exfalso. by eapply Hc. }
  destruct (G x1) as [ms2 E]. exists (ux_after x1), ms2. by rewrite E.
Qed.

Example C92_case :
  let h1 := [UCall "a" JStart; UCall "a" (JPersist 11 [5] false); UCall "a" (JPersist 13 [] false)]%N in
  let h2 := [UCall "a" JStart; UCall "a" (JPersist 1 [6] false)]%N in
  (ustart_after acc_conf 1 (h1 ++ [UBoot 0]) "a" ≫= recovered) = Some (None, [(1, [5])])%N /\
  (ustart_after acc_conf 1 (h1 ++ [UBoot 0] ++ h2 ++ [UBoot 1]) "a" ≫= recovered) = Some (None, [(11, [5]); (13, []); (11, [6])])%N.
Proof. split; vm_compute; reflexivity. Qed.

Print Assumptions C90_upgrade.
Print Assumptions C90_snapshots.
Print Assumptions C90_values.
Print Assumptions C91_message_refuted.
Print Assumptions C91_snapshot_refuted.
Print Assumptions C91_reused_refuted.
Print Assumptions C91_exact_partial.
Print Assumptions C91_started_partial.
Print Assumptions C91_snapshot_partial.
Print Assumptions C92_snapshot_refuted.
Print Assumptions C92_back_partial.
