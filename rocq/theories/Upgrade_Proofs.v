(** A program that is upgraded runs its journals as one program that knows all identifiers does. *)
From Verif Require Import Upgrade_Model Upgrade_Spec Journal_Spec Journal_Proofs Journal_Proofs2.
Local Open Scope Z_scope.

(** ** Registrations *)

Lemma written_as_reg r m : written_as r m = reg_types r !! m.
Proof.
  unfold written_as, reg_types.
  assert (H : forall (acc : gmap N string) o, acc !! m = o ->
    fold_left (fun acc (x : N * string) => if decide (x.1 = m) then Some x.2 else acc) r o =
    fold_left (fun acc (x : N * string) => <[x.1 := x.2]> acc) r acc !! m).
  { induction r as [|[m' i'] r IH]; intros acc o Ho; simpl; [done|]. apply IH.
    destruct (decide (m' = m)) as [->|Hne]; [by rewrite lookup_insert|]. by rewrite lookup_insert_ne. }
  apply H. by rewrite lookup_empty.
Qed.

Lemma read_as_reg r i : read_as r i = reg_handlers r !! i.
Proof.
  unfold read_as, reg_handlers.
  assert (H : forall (acc : gmap string N) o, acc !! i = o ->
    fold_left (fun acc (x : N * string) => if decide (x.2 = i) then Some x.1 else acc) r o =
    fold_left (fun acc (x : N * string) => <[x.2 := x.1]> acc) r acc !! i).
  { induction r as [|[m' i'] r IH]; intros acc o Ho; simpl; [done|]. apply IH.
    destruct (decide (i' = i)) as [->|Hne]; [by rewrite lookup_insert|]. by rewrite lookup_insert_ne. }
  apply H. by rewrite lookup_empty.
Qed.

Lemma combine_app_eq {A B} (a1 a2 : list A) (b1 b2 : list B) :
  length a1 = length b1 -> combine (a1 ++ a2) (b1 ++ b2) = combine a1 b1 ++ combine a2 b2.
Proof. revert b1. induction a1 as [|x a1 IH]; intros [|y b1] H; try done. simpl. rewrite IH; [done|]. simpl in H. lia. Qed.

(** ** The program that knows all identifiers: the type of a message is the number of its identifier *)

Definition encN (i : string) : N := N.pos (encode i).
Lemma encN_inj i j : encN i = encN j -> i = j.
Proof. unfold encN. intros [= H]. by apply encode_inj in H. Qed.

Definition decN (n : N) : option string := match n with N0 => None | N.pos p => decode p end.
Lemma decN_encN i : decN (encN i) = Some i.
Proof. unfold decN, encN. apply decode_encode. Qed.

Section upgrade.
  Context (conf : versions) (vs : list nat) (P : list string).

  Definition all_ids (part : jtypes -> regs) (pid : string) : list string :=
    concat (map (fun v => map snd (part (conf v pid))) vs).

  Definition all_regs (l : list string) : regs := map (fun i => (encN i, i)) l.

  Definition conf0 (pid : string) : jtypes :=
    JTypes (all_regs (all_ids jt_messages pid)) (all_regs (all_ids jt_snapshots pid)).

  Lemma all_regs_unambiguous l : unambiguous (all_regs l).
  Proof.
    intros m m' i H1 H2. apply in_map_iff in H1 as (x & [= <- <-] & _). apply in_map_iff in H2 as (y & [= <- ->] & _).
    done.
  Qed.

  Lemma conf0_unambiguous pid : unambiguous_types (conf0 pid).
  Proof. split; apply all_regs_unambiguous. Qed.

  Lemma all_ids_in part pid v m i :
    In v vs -> reg_types (part (conf v pid)) !! m = Some i -> In i (all_ids part pid).
  Proof.
    intros Hv H. apply reg_types_in in H. unfold all_ids. apply in_concat.
    exists (map snd (part (conf v pid))). split; [by apply (in_map (fun v => map snd (part (conf v pid))))|].
    by apply (in_map snd) in H.
  Qed.

  Lemma all_regs_types l i : In i l -> reg_types (all_regs l) !! encN i = Some i.
  Proof.
    intros H. unfold reg_types.
    assert (G : forall (acc : gmap N string), In i l \/ acc !! encN i = Some i ->
      (fold_left (fun acc (x : N * string) => <[x.1 := x.2]> acc) (all_regs l) acc !! encN i) = Some i).
    { clear H. induction l as [|j l IH]; intros acc H; simpl.
      - by destruct H.
      - apply IH. destruct (decide (j = i)) as [->|Hne]; [right; by rewrite lookup_insert|].
        destruct H as [[H|H]|H]; [done|by left|]. right. rewrite lookup_insert_ne; [done|].
        intros E. apply encN_inj in E. done. }
    apply G. by left.
  Qed.

  Lemma all_regs_zero l : reg_types (all_regs l) !! 0%N = None.
  Proof.
    destruct (reg_types (all_regs l) !! 0%N) eqn:E; [|done]. apply reg_types_in in E.
    apply in_map_iff in E as (x & [= H _] & _).
  Qed.

  Lemma all_regs_handlers l i : In i l -> reg_handlers (all_regs l) !! i = Some (encN i).
  Proof. intros H. eapply reg_handler_of_type; [apply all_regs_unambiguous|by apply all_regs_types]. Qed.

  (** The number of a type of version [v]: of its identifier, or 0, which is never registered. *)
  Definition num (part : jtypes -> regs) (v : nat) (pid : string) (m : N) : N :=
    match reg_types (part (conf v pid)) !! m with Some i => encN i | None => 0%N end.

  Lemma num_types part pid v m :
    In v vs -> reg_types (all_regs (all_ids part pid)) !! num part v pid m = reg_types (part (conf v pid)) !! m.
  Proof.
    intros Hv. unfold num. destruct (reg_types (part (conf v pid)) !! m) as [i|] eqn:E.
    - apply all_regs_types. by eapply all_ids_in.
    - apply all_regs_zero.
  Qed.

  (** An operation of version [v] as one of the program that knows everything. *)
  Definition er (v : nat) (pid : string) (o : jop) : jop :=
    match o with
    | JPersist m b f => JPersist (num jt_messages v pid m) b f
    | JBatch l f => JBatch (map (fun y => (num jt_messages v pid y.1, y.2)) l) f
    | JSnapshot s b f => JSnapshot (num jt_snapshots v pid s) b f
    | o => o
    end.

  Definition kills : list (string * jop) := map (fun p => (p, JPersist 0 [] false)) P.

  Fixpoint erh (v : nat) (h : list uop) : list (string * jop) :=
    match h with
    | [] => []
    | UBoot w :: h => kills ++ erh w h
    | UCall p o :: h => (p, er v p o) :: erh v h
    end.

  Lemma recover_loop_fst h1 h2 z l : (recover_loop h1 z l).1 = (recover_loop h2 z l).1.
  Proof.
    revert z. induction l as [|e l IH]; intros z; [done|]. cbn [recover_loop]. specialize (IH (e_seq e)).
    destruct (recover_loop h1 (e_seq e) l), (recover_loop h2 (e_seq e) l). exact IH.
  Qed.

  Lemma load_journal_fst c1 c2 pid (st : mem_store) :
    (load_journal mem_storage c1 pid st).1 = (load_journal mem_storage c2 pid st).1.
  Proof.
    unfold load_journal, recover_snapshot.
    destruct (s_read_latest_snapshot mem_storage pid st) as [raw|]; unfold recover_messages; cbn [j_last j_snap].
    - destruct (s_read_latest_messages mem_storage pid (e_seq raw) st) as [l|]; [|done].
      pose proof (recover_loop_fst (reg_handlers (jt_messages (c1 pid))) (reg_handlers (jt_messages (c2 pid))) (e_seq raw) l) as H.
      destruct (recover_loop (reg_handlers (jt_messages (c1 pid))) (e_seq raw) l),
        (recover_loop (reg_handlers (jt_messages (c2 pid))) (e_seq raw) l). simpl in *. by rewrite H.
    - destruct (s_read_latest_messages mem_storage pid (j_last journal_new) st) as [l|]; [|done].
      pose proof (recover_loop_fst (reg_handlers (jt_messages (c1 pid))) (reg_handlers (jt_messages (c2 pid))) (j_last journal_new) l) as H.
      destruct (recover_loop (reg_handlers (jt_messages (c1 pid))) (j_last journal_new) l),
        (recover_loop (reg_handlers (jt_messages (c2 pid))) (j_last journal_new) l). simpl in *. by rewrite H.
  Qed.

  Lemma er_batch v pid l : In v vs ->
    batch_types conf0 pid (map (fun y => (num jt_messages v pid y.1, y.2)) l) = batch_types (conf v) pid l.
  Proof.
    intros Hv. unfold batch_types. induction l as [|[m b] l IH]; [done|]. cbn [map mapM]. cbn [fst snd].
    cbn [conf0 jt_messages]. rewrite (num_types jt_messages pid v m Hv).
    destruct (reg_types (jt_messages (conf v pid)) !! m); [|done]. cbn [mbind option_bind].
    unfold mapM in IH. cbn [conf0 jt_messages] in IH. unfold mapM. rewrite IH. done.
  Qed.

  Lemma er_step v s pid o : In v vs ->
    (jstep mem_storage conf0 s (pid, er v pid o)).1 = (jstep mem_storage (conf v) s (pid, o)).1 /\
    (o <> JStart -> (jstep mem_storage conf0 s (pid, er v pid o)).2 = (jstep mem_storage (conf v) s (pid, o)).2).
  Proof.
    intros Hv. unfold jstep. destruct o; cbn [er].
    - split; [|done]. pose proof (load_journal_fst conf0 (conf v) pid (js_store s)) as H.
      destruct (load_journal mem_storage conf0 pid (js_store s)), (load_journal mem_storage (conf v) pid (js_store s)).
      simpl in *. by rewrite H.
    - destruct (js_journals s !! pid); [|done]. unfold persist_message. cbn [conf0 jt_messages].
      rewrite (num_types jt_messages pid v m Hv). by destruct (reg_types (jt_messages (conf v pid)) !! m).
    - destruct (js_journals s !! pid); [|done]. unfold persist_batch. rewrite (er_batch v pid l Hv). done.
    - destruct (js_journals s !! pid); [|done]. unfold persist_snapshot. cbn [conf0 jt_snapshots].
      rewrite (num_types jt_snapshots pid v s0 Hv). by destruct (reg_types (jt_snapshots (conf v pid)) !! s0).
    - done.
    - done.
  Qed.

  (** ** The end of a process *)

  Lemma kill_step s p :
    (jstep mem_storage conf0 s (p, JPersist 0 [] false)) = (JSys (js_store s) (delete p (js_journals s)), JPanic).
  Proof.
    unfold jstep. destruct (js_journals s !! p) as [j|] eqn:E.
    - unfold persist_message. cbn [conf0 jt_messages]. by rewrite all_regs_zero.
    - rewrite delete_notin by done. by destruct s.
  Qed.

  Lemma kills_run s (Q : list string) :
    jrun mem_storage conf0 s (map (fun p => (p, JPersist 0 [] false)) Q) =
    (JSys (js_store s) (foldl (fun m p => delete p m) (js_journals s) Q), map (fun _ => JPanic) Q).
  Proof.
    unfold jrun. revert s. induction Q as [|p Q IH]; intros s; [by destruct s|]. cbn [map run foldl].
    rewrite kill_step, IH. done.
  Qed.

  Lemma foldl_delete (m : gmap string journal) (Q : list string) p :
    foldl (fun m p => delete p m) m Q !! p = if decide (p ∈ Q) then None else m !! p.
  Proof.
    revert m. induction Q as [|q Q IH]; intros m; cbn [foldl]; [by rewrite decide_False by apply not_elem_of_nil|].
    rewrite IH. destruct (decide (p ∈ Q)) as [H|H].
    - rewrite decide_True; [done|]. by right.
    - destruct (decide (p = q)) as [->|Hne].
      + rewrite decide_True by left. by rewrite lookup_delete.
      + rewrite decide_False by (rewrite elem_of_cons; tauto). by rewrite lookup_delete_ne.
  Qed.

  Lemma kills_done s : (forall p, js_journals s !! p <> None -> p ∈ P) ->
    jrun mem_storage conf0 s kills = (JSys (js_store s) ∅, map (fun _ => JPanic) P).
  Proof.
    intros H. unfold kills. rewrite kills_run. f_equal. f_equal. apply map_eq. intros p. rewrite foldl_delete, lookup_empty.
    destruct (decide (p ∈ P)) as [|Hn]; [done|]. destruct (js_journals s !! p) eqn:E; [|done]. destruct Hn. apply H. by rewrite E.
  Qed.

  (** ** What is kept, in numbers *)

  Definition unum (part : jtypes -> regs) (pid : string) (u : umsg) : msg := (num part u.1.1 pid u.1.2, u.2).

  Definition matches (pid : string) (a : actual) (ua : uactual) : Prop :=
    a = Actual (unum jt_snapshots pid <$> ua_snapshot ua) (map (unum jt_messages pid) (ua_lost ua))
          (map (unum jt_messages pid) (ua_kept ua)) (ua_fresh ua).

  Lemma matches_kills pid a (Q : list string) :
    fold_left (actual_step pid) (combine (map (fun p => (p, JPersist 0 [] false)) Q) (map (fun _ => JPanic) Q)) a = a.
  Proof.
    induction Q as [|q Q IH]; [done|]. cbn [map combine fold_left].
    replace (actual_step pid a (q, JPersist 0 [] false, JPanic)) with a; [done|].
    unfold actual_step. destruct a. cbn [fst snd]. by destruct (decide (q = pid)).
  Qed.

  Lemma matches_call pid a ua p o r r0 :
    matches pid a ua -> (o <> JStart -> r0 = r) ->
    matches pid (actual_step pid a ((p, er (ua_version ua) p o), r0)) (ua_step pid ua (UCall p o, Some r)).
  Proof.
    intros -> Hr. destruct ua as [v sn lo ke fr]. unfold matches, actual_step, ua_step. cbn [ua_version ua_snapshot ua_lost ua_kept ua_fresh].
    cbn [fst snd]. destruct (decide (p = pid)) as [->|Hne]; [|by destruct o].
    destruct o; cbn [er].
    - done.
    - rewrite (Hr ltac:(done)). destruct r; try done.
      destruct sn as [sn|], ke as [|k ke], fr; simpl; rewrite ?map_app; done.
    - rewrite (Hr ltac:(done)). destruct r; try done. cbn [ua_snapshot ua_lost ua_kept ua_fresh]. rewrite map_app, !map_map. done.
    - rewrite (Hr ltac:(done)). destruct r; done.
    - by destruct r, r0.
    - rewrite (Hr ltac:(done)). destruct r; try done. destruct b; done.
  Qed.

  Lemma ua_step_version pid ua p o r : ua_version (ua_step pid ua (UCall p o, Some r)) = ua_version ua.
  Proof.
    destruct ua as [v sn lo ke fr]. unfold ua_step. cbn [fst snd]. destruct (decide (p = pid)); [|done].
    destruct o, r; try done; try (by destruct sn, ke, fr). by destruct b.
  Qed.

  Definition all_in (h : list uop) : Prop :=
    Forall (fun x => match x with UBoot w => In w vs | UCall p _ => p ∈ P end) h.

  Lemma jstep_dom c s p o q : js_journals (jstep mem_storage c s (p, o)).1 !! q <> None -> js_journals s !! q <> None \/ q = p.
  Proof.
    intros H. destruct (decide (q = p)) as [->|Hne]; [by right|]. left.
    destruct (jstep_frame c s p o q Hne) as [_ E]. by rewrite E in H.
  Qed.

  Lemma erh_run h s pid a ua :
    all_in h -> In (u_version s) vs -> (forall p, js_journals (u_sys s) !! p <> None -> p ∈ P) ->
    matches pid a ua -> ua_version ua = u_version s ->
    let r := urun conf s h in
    let r0 := jrun mem_storage conf0 (u_sys s) (erh (u_version s) h) in
    r0.1 = u_sys r.1 /\
    matches pid (fold_left (actual_step pid) (combine (erh (u_version s) h) r0.2) a)
      (fold_left (ua_step pid) (combine h r.2) ua) /\
    ua_version (fold_left (ua_step pid) (combine h r.2) ua) = u_version r.1 /\
    u_version r.1 = version_after (u_version s) h.
  Proof.
    revert s a ua. induction h as [|x h IH]; intros s a ua Hall Hv Hdom Hm Hver; cbn zeta.
    { unfold urun, jrun. simpl. by split_and!. }
    apply Forall_cons in Hall as [Hx Hall].
    destruct x as [w|p o].
    - cbn [erh]. unfold urun. cbn [run ustep].
      assert (Hm' : matches pid a (ua_step pid ua (UBoot w, None))) by (by destruct ua).
      specialize (IH (USys w (JSys (js_store (u_sys s)) ∅)) a (ua_step pid ua (UBoot w, None)) Hall Hx).
      cbn [u_sys u_version js_journals] in IH. cbn zeta in IH.
      destruct IH as (I1 & I2 & I3 & I4); [intros p Hp; by rewrite lookup_empty in Hp|done|by destruct ua|].
      unfold urun in *. destruct (run (ustep conf) (USys w (JSys (js_store (u_sys s)) ∅)) h) as [s2 rs] eqn:E2.
      cbn [fst snd] in *. cbn [combine fold_left].
      unfold jrun. rewrite run_app. change (run (jstep mem_storage conf0) (u_sys s) kills) with (jrun mem_storage conf0 (u_sys s) kills).
      rewrite kills_done by done. unfold jrun in I1, I2.
      destruct (run (jstep mem_storage conf0) (JSys (js_store (u_sys s)) ∅) (erh w h)) as [s3 rs3] eqn:E3.
      cbn [fst snd] in *. split; [done|]. split; [|by split].
      unfold kills. rewrite combine_app_eq; [|by rewrite !map_length]. rewrite fold_left_app, matches_kills. done.
    - cbn [erh]. unfold urun, jrun. cbn [run ustep].
      destruct (er_step (u_version s) (u_sys s) p o Hv) as [Est Eans].
      pose proof (jstep_dom (conf (u_version s)) (u_sys s) p o) as Hd.
      destruct (jstep mem_storage (conf (u_version s)) (u_sys s) (p, o)) as [s1 r1] eqn:E1.
      destruct (jstep mem_storage conf0 (u_sys s) (p, er (u_version s) p o)) as [s1' r1'] eqn:E1'.
      cbn [fst snd] in *. subst s1'.
      assert (Hm' : matches pid (actual_step pid a ((p, er (u_version s) p o), r1')) (ua_step pid ua (UCall p o, Some r1))).
      { rewrite <-Hver. by apply matches_call. }
      specialize (IH (USys (u_version s) s1) (actual_step pid a ((p, er (u_version s) p o), r1')) (ua_step pid ua (UCall p o, Some r1)) Hall Hv). cbn [u_sys u_version] in IH.
      specialize (IH ltac:(intros q Hq; destruct (Hd q Hq) as [Hq'| ->]; [by apply Hdom|done]) Hm').
      rewrite ua_step_version in IH. specialize (IH Hver). cbn zeta in IH. destruct IH as (I1 & I2 & I3 & I4).
      unfold urun, jrun in *. destruct (run (ustep conf) (USys (u_version s) s1) h) as [s2 rs] eqn:E2.
      destruct (run (jstep mem_storage conf0) s1 (erh (u_version s) h)) as [s3 rs3] eqn:E3.
      cbn [fst snd combine fold_left] in *. by split_and!.
  Qed.

  (** ** All stored entries have known identifiers *)

  Definition known_at (pid : string) (o : option actor_journal) : Prop :=
    Forall (fun e => In (e_type e) (all_ids jt_messages pid)) (msgs_of o) /\
    Forall (fun e => In (e_type e) (all_ids jt_snapshots pid)) (snaps_of o).

  Definition known (st : mem_store) : Prop := forall pid, known_at pid (st !! pid).

  Lemma known_set (st st' : mem_store) pid :
    known st -> (forall q, q <> pid -> st' !! q = st !! q) -> known_at pid (st' !! pid) -> known st'.
  Proof. intros H1 H2 H3 q. destruct (decide (q = pid)) as [->|Hne]; [done|]. rewrite H2 by done. apply H1. Qed.

  Lemma suffix_from_Forall p (Q : entry -> Prop) l : Forall Q l -> Forall Q (suffix_from p l).
  Proof. induction 1 as [|e l He Hl IH]; simpl; [constructor|]. destruct (p e); [by constructor|done]. Qed.

  Lemma known_step v s pid o : In v vs -> known (js_store s) -> known (js_store (jstep mem_storage (conf v) s (pid, o)).1).
  Proof.
    intros Hv H.
    refine (known_set (js_store s) _ pid H _ _).
    { intros q Hq. by destruct (jstep_frame (conf v) s pid o q Hq). }
    destruct (H pid) as [Hm Hs]. unfold jstep. destruct o.
    - destruct (load_journal mem_storage (conf v) pid (js_store s)). simpl. apply H.
    - destruct (js_journals s !! pid); [|apply H]. unfold persist_message.
      destruct (reg_types (jt_messages (conf v pid)) !! m) as [ty|] eqn:Et; [|apply H]. destruct fail; [apply H|].
      cbn [fst js_store s_write_message mem_storage]. rewrite mem_write_message_lookup. unfold known_at.
      rewrite msgs_of_Some, snaps_of_Some. split; [|done]. apply Forall_app. split; [done|]. constructor; [|constructor].
      simpl. by eapply all_ids_in.
    - destruct (js_journals s !! pid) as [j|]; [|apply H]. unfold persist_batch.
      destruct (batch_types (conf v) pid l) as [es|] eqn:Et; [|apply H].
      assert (Hes : Forall (fun e => In e.1 (all_ids jt_messages pid)) es).
      { unfold batch_types in Et. apply mapM_Some in Et. clear -Et Hv. induction Et as [|[m b] [ty b'] l es Hx _ IH]; constructor; [|done].
        simpl in *. destruct (reg_types (jt_messages (conf v pid)) !! m) eqn:E; [|done]. injection Hx as -> ->. by eapply all_ids_in. }
      destruct es as [|e es]; [apply H|]. destruct fail; [apply H|].
      cbn [fst js_store s_write_batch mem_storage]. rewrite mem_write_batch_lookup. unfold known_at.
      rewrite msgs_of_Some, snaps_of_Some. split; [|done]. apply Forall_app. split; [done|].
      clear -Hes. generalize (j_last j). induction Hes as [|[ty b] es' He _ IH]; intros z; cbn [batch_entries]; [constructor|].
      constructor; [done|apply IH].
    - destruct (js_journals s !! pid); [|apply H]. unfold persist_snapshot.
      destruct (reg_types (jt_snapshots (conf v pid)) !! s0) as [ty|] eqn:Et; [|apply H]. destruct fail; [apply H|].
      cbn [fst js_store s_write_snapshot mem_storage]. rewrite mem_write_snapshot_lookup. unfold known_at.
      rewrite msgs_of_Some, snaps_of_Some. split; [done|]. apply Forall_app. split; [done|]. constructor; [|constructor].
      simpl. by eapply all_ids_in.
    - destruct (js_journals s !! pid) as [j|]; [|apply H]. unfold clear_old_messages. destruct (j_snap j) as [z|]; [|apply H].
      destruct fail; [apply H|]. cbn [fst js_store s_delete_to mem_storage]. unfold mem_delete_to.
      destruct (js_store s !! pid) as [aj|] eqn:E; [|rewrite E; by split].
      rewrite lookup_insert. unfold known_at. rewrite msgs_of_Some, snaps_of_Some. split; [|exact Hs].
      unfold msgs_of in Hm. simpl in Hm. destruct (last (aj_messages aj)) as [e|]; [destruct (e_seq e <? z); [constructor|]|];
        by apply suffix_from_Forall.
    - destruct (js_journals s !! pid) as [j|]; [|apply H]. unfold journal_clear. destruct fail; [apply H|].
      cbn [fst js_store s_delete_all mem_storage]. unfold mem_delete_all. rewrite lookup_delete. split; constructor.
  Qed.

  Lemma known_run h s : all_in h -> In (u_version s) vs -> known (js_store (u_sys s)) ->
    known (js_store (u_sys (urun conf s h).1)) /\ In (u_version (urun conf s h).1) vs.
  Proof.
    unfold urun. revert s. induction h as [|x h IH]; intros s Hall Hv H; [done|]. apply Forall_cons in Hall as [Hx Hall]. cbn [run].
    destruct x as [w|p o]; cbn [ustep].
    - specialize (IH (USys w (JSys (js_store (u_sys s)) ∅)) Hall Hx H).
      by destruct (run (ustep conf) (USys w (JSys (js_store (u_sys s)) ∅)) h).
    - pose proof (known_step (u_version s) (u_sys s) p o Hv H) as Hk.
      destruct (jstep mem_storage (conf (u_version s)) (u_sys s) (p, o)) as [s1 r1]. cbn [fst] in Hk.
      specialize (IH (USys (u_version s) s1) Hall Hv Hk). by destruct (run (ustep conf) (USys (u_version s) s1) h).
  Qed.

  (** ** Reading *)

  (** What the registrations [r] make of a numbered message. *)
  Definition denum (r : regs) (n : msg) : option msg :=
    match decN n.1 with
    | Some i => match reg_handlers r !! i with Some m => Some (m, n.2) | None => None end
    | None => None
    end.

  Lemma recover_loop_denum r ids z l :
    Forall (fun e => In (e_type e) ids) l ->
    (recover_loop (reg_handlers r) z l).2 = omap (denum r) (recover_loop (reg_handlers (all_regs ids)) z l).2.
  Proof.
    intros H. revert z. induction H as [|e l He Hl IH]; intros z; [done|]. cbn [recover_loop]. specialize (IH (e_seq e)).
    destruct (recover_loop (reg_handlers r) (e_seq e) l) as [z1 r1].
    destruct (recover_loop (reg_handlers (all_regs ids)) (e_seq e) l) as [z2 r2]. cbn [fst snd] in *.
    rewrite (all_regs_handlers ids _ He). cbn [omap list_omap]. unfold denum at 1. cbn [fst snd]. rewrite decN_encN.
    destruct (reg_handlers r !! e_type e); by rewrite IH.
  Qed.

  Lemma omap_nil_case {A B} (l : list A) (f : A -> option B) :
    default [] (match omap f l with [] => None | _ => Some (omap f l) end) = omap f (default [] (match l with [] => None | _ => Some l end)).
  Proof.
    destruct l as [|x l]; [done|]. change (default [] (Some (x :: l))) with (x :: l).
    generalize (omap f (x :: l)). by intros [|y k].
  Qed.

  Lemma start_denum w pid (st : mem_store) : known st ->
    recovered (load_journal mem_storage (conf w) pid st).2 =
    match recovered (load_journal mem_storage conf0 pid st).2 with
    | Some (sn, ms) => Some (sn ≫= denum (jt_snapshots (conf w pid)), omap (denum (jt_messages (conf w pid))) ms)
    | None => None
    end.
  Proof.
    intros Hk. destruct (Hk pid) as [Hm Hs].
    assert (Hread : forall z l, s_read_latest_messages mem_storage pid z st = Some l ->
      Forall (fun e => In (e_type e) (all_ids jt_messages pid)) l).
    { intros z l. cbn [s_read_latest_messages mem_storage]. unfold mem_read_latest_messages. unfold msgs_of in Hm.
      destruct (st !! pid) as [aj|]; [|done]. intros [= <-]. simpl in Hm. destruct (z =? 0); [done|]. by apply suffix_from_Forall. }
    assert (Hmsg : forall j,
      default [] (recover_messages mem_storage (conf w) pid j st).2 =
      omap (denum (jt_messages (conf w pid))) (default [] (recover_messages mem_storage conf0 pid j st).2)).
    { intros j. unfold recover_messages. destruct (s_read_latest_messages mem_storage pid (j_last j) st) as [l|] eqn:El; [|done].
      pose proof (recover_loop_denum (jt_messages (conf w pid)) (all_ids jt_messages pid) (j_last j) l (Hread _ _ El)) as H.
      cbn [conf0 jt_messages]. destruct (recover_loop (reg_handlers (jt_messages (conf w pid))) (j_last j) l) as [z1 r1].
      destruct (recover_loop (reg_handlers (all_regs (all_ids jt_messages pid))) (j_last j) l) as [z2 r2]. cbn [fst snd] in *.
      rewrite H. exact (omap_nil_case r2 _). }
    assert (Hsnap : forall raw, s_read_latest_snapshot mem_storage pid st = Some raw -> In (e_type raw) (all_ids jt_snapshots pid)).
    { intros raw. cbn [s_read_latest_snapshot mem_storage]. unfold mem_read_latest_snapshot. unfold snaps_of in Hs.
      destruct (st !! pid) as [aj|]; [|done]. intros E. simpl in Hs. apply last_Some in E as [l' E]. rewrite E in Hs.
      apply Forall_app in Hs as [_ Hs]. by apply Forall_cons in Hs as [Hs _]. }
    unfold load_journal, recover_snapshot.
    destruct (s_read_latest_snapshot mem_storage pid st) as [raw|].
    - specialize (Hsnap raw eq_refl). specialize (Hmsg (Journal (e_seq raw) (Some (e_seq raw)))).
      cbn [conf0 jt_snapshots]. rewrite (all_regs_handlers _ _ Hsnap).
      destruct (recover_messages mem_storage (conf w) pid (Journal (e_seq raw) (Some (e_seq raw))) st) as [j1 m1].
      change (fun pid => conf0 pid) with conf0.
      destruct (recover_messages mem_storage conf0 pid (Journal (e_seq raw) (Some (e_seq raw))) st) as [j2 m2].
      cbn [fst snd recovered] in *. rewrite Hmsg. f_equal. f_equal. cbn [mbind option_bind]. unfold denum. cbn [fst snd].
      by rewrite decN_encN.
    - specialize (Hmsg journal_new).
      destruct (recover_messages mem_storage (conf w) pid journal_new st) as [j1 m1].
      destruct (recover_messages mem_storage conf0 pid journal_new st) as [j2 m2].
      cbn [fst snd recovered] in *. by rewrite Hmsg.
  Qed.

  Lemma denum_seen part w pid u :
    denum (part (conf w pid)) (unum part pid u) = seen_by conf part w pid u.
  Proof.
    unfold denum, unum, seen_by, num. cbn [fst snd]. rewrite written_as_reg.
    destruct (reg_types (part (conf u.1.1 pid)) !! u.1.2) as [i|]; [|done]. rewrite decN_encN, read_as_reg. done.
  Qed.

  Lemma omap_seen part w pid l :
    omap (denum (part (conf w pid))) (map (unum part pid) l) = omap (seen_by conf part w pid) l.
  Proof.
    induction l as [|u l IH]; [done|]. cbn [map]. 
    change (omap (denum (part (conf w pid))) (unum part pid u :: map (unum part pid) l)) with
      (match denum (part (conf w pid)) (unum part pid u) with
       | Some y => y :: omap (denum (part (conf w pid))) (map (unum part pid) l)
       | None => omap (denum (part (conf w pid))) (map (unum part pid) l) end).
    rewrite denum_seen, IH. done.
  Qed.
End upgrade.

(** ** Exactly what a start of the running version recovers *)
Definition pids_of (h : list uop) : list string :=
  omap (fun x => match x with UBoot _ => None | UCall p _ => Some p end) h.

Lemma all_in_own v h : all_in (versions_of v h) (pids_of h) h.
Proof.
  unfold all_in. apply Forall_forall. intros x Hx. apply elem_of_list_In in Hx. unfold versions_of, pids_of.
  destruct x as [w|p o].
  - right. apply elem_of_list_In. apply elem_of_list_omap. exists (UBoot w). split; [by apply elem_of_list_In|done].
  - apply elem_of_list_omap. exists (UCall p o). split; [by apply elem_of_list_In|done].
Qed.

Lemma upgrade_exact conf v h pid :
  let a := does_survive v pid (uhistory conf (u_init v) h) in
  let w := version_after v h in
  (ustart_after conf v h pid ≫= recovered) =
    Some (ua_snapshot a ≫= seen_by conf jt_snapshots w pid, omap (seen_by conf jt_messages w pid) (ua_kept a)).
Proof.
  cbn zeta. set (vs := versions_of v h). set (P := pids_of h).
  assert (Hv : In v vs) by (by left).
  destruct (erh_run conf vs P h (u_init v) pid actual_init (UActual v None [] [] true) (all_in_own v h) Hv) as (H1 & H2 & H3 & H4);
    [intros p Hp; cbn in Hp; by rewrite lookup_empty in Hp|done|done|].
  destruct (known_run conf vs P h (u_init v) (all_in_own v h) Hv) as [Hk Hw].
  { intros p. cbn. rewrite lookup_empty. split; constructor. }
  pose proof (mem_recovers_actual (conf0 conf vs) (conf0_unambiguous conf vs) (erh conf P v h) pid) as Hex. cbn zeta in Hex.
  change (history mem_storage (conf0 conf vs) mem_init (erh conf P v h)) with
    (combine (erh conf P v h) (jrun mem_storage (conf0 conf vs) mem_init (erh conf P v h)).2) in Hex.
  cbn [u_version u_sys u_init] in H1, H2, H4. unfold does_recover in Hex. unfold matches in H2. rewrite H2 in Hex.
  cbn [a_snapshot a_kept] in Hex.
  unfold start_after in Hex. rewrite H1 in Hex. unfold ustart_after, ustep. unfold jstep in Hex. unfold jstep.
  pose proof (start_denum conf vs (u_version (urun conf (u_init v) h).1) pid _ Hk) as Hs.
  destruct (load_journal mem_storage (conf0 conf vs) pid (js_store (u_sys (urun conf (u_init v) h).1))) as [j1 o1].
  destruct (load_journal mem_storage (conf (u_version (urun conf (u_init v) h).1)) pid (js_store (u_sys (urun conf (u_init v) h).1))) as [j2 o2].
  cbn [fst snd mbind option_bind] in *. rewrite Hs, Hex, H4.
  fold (uhistory conf (u_init v) h). fold (does_survive v pid (uhistory conf (u_init v) h)).
  rewrite omap_seen. f_equal. f_equal. destruct (ua_snapshot (does_survive v pid (uhistory conf (u_init v) h))) as [u|]; [|done].
  cbn [fmap option_fmap option_map mbind option_bind]. apply denum_seen.
Qed.
