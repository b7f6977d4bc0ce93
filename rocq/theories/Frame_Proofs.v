(** Frames do not depend on how the bytes are cut, and carry what was written. *)
From Verif Require Import Wire_Proofs Frame_Model Frame_Spec.
Local Open Scope N_scope.

(** ** Decoding *)

Definition work (st : dstate) (buf : bytes) : nat :=
  match st with Head => length buf | Data _ => S (length buf) end.

Lemma decode_work st buf f buf' : decode st buf = Frame f buf' -> (work Head buf' < work st buf)%nat.
Proof.
  assert (Hd : forall n b, decode_data n b = Frame f buf' -> (length buf' <= length b)%nat).
  { intros n b. unfold decode_data. destruct (_ <? _); [done|]. intros [= <- <-]. rewrite drop_length. lia. }
  destruct st as [|n]; simpl.
  - destruct (length buf <? 4)%nat eqn:E; [done|]. destruct (_ <? _); [done|]. intros H. apply Hd in H.
    rewrite drop_length in H. apply Nat.ltb_ge in E. lia.
  - intros H. apply Hd in H. lia.
Qed.

Lemma decode_all_fuel n1 : forall n2 st buf, (work st buf < n1)%nat -> (work st buf < n2)%nat ->
  decode_all n1 st buf = decode_all n2 st buf.
Proof.
  induction n1 as [|n1 IH]; intros [|n2] st buf H1 H2; try lia. cbn [decode_all].
  destruct (decode st buf) as [|f buf'|] eqn:E; [done| |done]. apply decode_work in E. cbn [work] in E.
  rewrite (IH n2 Head buf'); [done|simpl; lia..].
Qed.

Lemma decode_all_S n st buf : decode_all (S n) st buf =
  match decode st buf with
  | Need st' buf' => ([], Some (st', buf'))
  | TooLong => ([], None)
  | Frame f buf' => let '(fs, r) := decode_all n Head buf' in (f :: fs, r)
  end.
Proof. done. Qed.

Lemma decode_buffer_eq st buf : decode_buffer st buf =
  match decode st buf with
  | Need st' buf' => ([], Some (st', buf'))
  | TooLong => ([], None)
  | Frame f buf' => let '(fs, r) := decode_buffer Head buf' in (f :: fs, r)
  end.
Proof.
  unfold decode_buffer at 1. rewrite decode_all_S. destruct (decode st buf) as [|f buf'|] eqn:E; [done| |done].
  apply decode_work in E. assert (work st buf <= S (length buf))%nat by (destruct st; simpl; lia). simpl in E.
  unfold decode_buffer. rewrite (decode_all_fuel (S (length buf)) (S (S (length buf'))) Head buf'); [done|simpl; lia..].
Qed.

Lemma decode_app st b c :
  decode st (b ++ c) =
  match decode st b with
  | Need st' b' => decode st' (b' ++ c)
  | Frame f b' => Frame f (b' ++ c)
  | TooLong => TooLong
  end.
Proof.
  assert (Hd : forall n x, decode_data n (x ++ c) =
    match decode_data n x with Need st' b' => decode st' (b' ++ c) | Frame f b' => Frame f (b' ++ c) | TooLong => TooLong end).
  { intros n x. unfold decode_data at 2. destruct (_ <? _) eqn:E; [done|]. unfold decode_data.
    apply N.ltb_ge in E. rewrite app_length. destruct (_ <? _) eqn:E2; [lia|].
    rewrite take_app_le, drop_app_le by lia. done. }
  destruct st as [|n]; [|apply Hd]. simpl. destruct (length b <? 4)%nat eqn:E; [done|]. apply Nat.ltb_ge in E.
  rewrite app_length. destruct (_ <? 4)%nat eqn:E2; [lia|].
  rewrite take_app_le, drop_app_le by lia. destruct (_ <? _); [done|]. apply Hd.
Qed.

(** What waits for more bytes goes on as if they had come at once. *)
Lemma decode_buffer_app b : forall st c,
  decode_buffer st (b ++ c) =
  let '(fs, r) := decode_buffer st b in
  match r with
  | None => (fs, None)
  | Some (st', b') => let '(fs', r') := decode_buffer st' (b' ++ c) in (fs ++ fs', r')
  end.
Proof.
  assert (H : forall n st b c, (work st b < n)%nat -> decode_buffer st (b ++ c) =
    let '(fs, r) := decode_buffer st b in
    match r with None => (fs, None) | Some (st', b') => let '(fs', r') := decode_buffer st' (b' ++ c) in (fs ++ fs', r') end).
  { induction n as [|n IH]; intros st x c Hw; [lia|].
    rewrite (decode_buffer_eq st (x ++ c)), (decode_buffer_eq st x), decode_app.
    destruct (decode st x) as [st' x'|f x'|] eqn:E.
    - rewrite (decode_buffer_eq st' (x' ++ c)). destruct (decode st' (x' ++ c)) as [|f y|]; [done| |done].
      by destruct (decode_buffer Head y).
    - apply decode_work in E. rewrite (IH Head x' c) by (simpl in *; lia).
      destruct (decode_buffer Head x') as [fs [[st' y]|]]; [|done]. by destruct (decode_buffer st' (y ++ c)).
    - done. }
  intros st c. by apply (H (S (work st b))); lia.
Qed.

Lemma decode_buffer_rest st buf fs st' buf' :
  decode_buffer st buf = (fs, Some (st', buf')) -> decode st' buf' = Need st' buf'.
Proof.
  assert (H : forall n st buf fs, (work st buf < n)%nat -> decode_buffer st buf = (fs, Some (st', buf')) -> decode st' buf' = Need st' buf').
  { induction n as [|n IH]; intros s b fs' Hw; [lia|]. rewrite decode_buffer_eq. destruct (decode s b) as [s' b'|f b'|] eqn:E.
    - intros [= <- -> ->].
      assert (Hd : forall k x, decode_data k x = Need st' buf' -> decode st' buf' = Need st' buf').
      { intros k x H. unfold decode_data in H. destruct (_ <? _) eqn:E2; [|done]. injection H as <- <-. simpl. unfold decode_data. by rewrite E2. }
      destruct s as [|k]; simpl in E; [|by eapply Hd]. destruct (length b <? 4)%nat eqn:E1.
      + injection E as <- <-. simpl. by rewrite E1.
      + destruct (_ <? _); [done|]. by eapply Hd.
    - apply decode_work in E. destruct (decode_buffer Head b') as [fs2 r] eqn:Eb. intros [= <- ->].
      eapply IH; [|exact Eb]. simpl in *. lia.
    - done. }
  intros E. eapply H; [|exact E]. apply Nat.lt_succ_diag_r.
Qed.

(** The kept bytes are bounded. *)
Lemma need_bound st buf st' buf' : (forall n, st = Data n -> n <= max_frame) -> decode st buf = Need st' buf' ->
  (forall n, st' = Data n -> n <= max_frame) /\ N.of_nat (length buf') < max_frame.
Proof.
  assert (Hd : forall n b, n <= max_frame -> decode_data n b = Need st' buf' ->
    (forall n, st' = Data n -> n <= max_frame) /\ N.of_nat (length buf') < max_frame).
  { intros n b Hn. unfold decode_data. destruct (_ <? _) eqn:E; [|done]. intros [= <- <-]. apply N.ltb_lt in E.
    split; [|lia]. intros k [= <-]. done. }
  intros Hs. destruct st as [|n]; simpl; [|apply Hd; by apply Hs]. destruct (length buf <? 4)%nat eqn:E.
  - intros [= <- <-]. apply Nat.ltb_lt in E. split; [done|]. unfold max_frame. lia.
  - destruct (_ <? _) eqn:E2; [done|]. apply Hd. by apply N.ltb_ge in E2.
Qed.

Lemma rest_bound st buf fs st' buf' : (forall n, st = Data n -> n <= max_frame) ->
  decode_buffer st buf = (fs, Some (st', buf')) ->
  (forall n, st' = Data n -> n <= max_frame) /\ N.of_nat (length buf') < max_frame.
Proof.
  assert (H : forall n st buf fs, (work st buf < n)%nat -> (forall n, st = Data n -> n <= max_frame) ->
    decode_buffer st buf = (fs, Some (st', buf')) -> (forall n, st' = Data n -> n <= max_frame) /\ N.of_nat (length buf') < max_frame).
  { induction n as [|n IH]; intros s b fs' Hw Hs; [lia|]. rewrite decode_buffer_eq. destruct (decode s b) as [s' b'|f b'|] eqn:E.
    - intros [= <- -> ->]. by eapply need_bound.
    - apply decode_work in E. destruct (decode_buffer Head b') as [fs2 r] eqn:Eb. intros [= <- ->].
      apply (IH Head b' fs2); [|done|exact Eb]. simpl in *. lia.
    - done. }
  intros Hs E. eapply H; [apply Nat.lt_succ_diag_r|exact Hs|exact E].
Qed.

(** Only the bytes count, not the pieces. *)
Lemma read_frames_pieces pieces : forall st buf e, decode st buf = Need st buf ->
  read_frames st buf pieces e = read_frames st buf [concat pieces] e.
Proof.
  induction pieces as [|p ps IH]; intros st buf e Hn.
  - simpl. rewrite app_nil_r, decode_buffer_eq, Hn. done.
  - cbn [read_frames concat]. rewrite (assoc_L app), (decode_buffer_app (buf ++ p) st (concat ps)).
    destruct (decode_buffer st (buf ++ p)) as [fs [[st' buf']|]] eqn:E; [|done].
    rewrite (IH st' buf' e) by (by eapply decode_buffer_rest). cbn [read_frames].
    destruct (decode_buffer st' (buf' ++ concat ps)) as [fs' [[st2 buf2]|]]; [|done]. simpl.
    by rewrite (assoc_L app).
Qed.

(** ** Frames that were written *)

Lemma of_be32_be32 n : n < 4294967296 -> of_be32 (be32 n) = n.
Proof.
  intros H. unfold of_be32, be32. simpl.
  pose proof (N.div_mod n 256). pose proof (N.div_mod (n / 256) 256). pose proof (N.div_mod (n / 65536) 256).
  assert (n / 256 / 256 = n / 65536) as E1 by (rewrite N.div_div; [done|lia..]).
  assert (n / 65536 / 256 = n / 16777216) as E2 by (rewrite N.div_div; [done|lia..]).
  assert (n / 16777216 < 256) by (apply N.div_lt_upper_bound; lia).
  rewrite (N.mod_small (n / 16777216)) by done. lia.
Qed.

Lemma be32_bytes n : is_bytes (be32 n).
Proof. unfold be32. repeat constructor; apply N.mod_lt; lia. Qed.

Lemma frame_inv b x : frame b = Some x -> N.of_nat (length b) <= 8388608 /\ x = be32 (N.of_nat (length b)) ++ b.
Proof.
  unfold frame. destruct (_ <? _) eqn:E; [done|]. apply N.ltb_ge in E. unfold max_frame in E. intros H.
  apply (inj Some) in H. by rewrite <- H.
Qed.

Lemma decode_frame b x f : frame b = Some x -> decode Head (x ++ f) = Frame b f.
Proof.
  intros [E ->]%frame_inv.
  assert (H4 : (4 <= length ((be32 (N.of_nat (length b)) ++ b) ++ f))%nat) by (rewrite !app_length; simpl; lia).
  unfold decode. destruct (_ <? 4)%nat eqn:E2; [apply Nat.ltb_lt in E2; exfalso; exact (proj1 (Nat.lt_nge _ _) E2 H4)|]. rewrite <- (assoc_L app).
  change (take 4 (be32 (N.of_nat (length b)) ++ b ++ f)) with (be32 (N.of_nat (length b))).
  change (drop 4 (be32 (N.of_nat (length b)) ++ b ++ f)) with (b ++ f). rewrite of_be32_be32 by lia.
  destruct (N.ltb_spec max_frame (N.of_nat (length b))) as [H|H]; [unfold max_frame in H; lia|].
  unfold decode_data. rewrite app_length.
  destruct (N.ltb_spec (N.of_nat (length b + length f)) (N.of_nat (length b))); [lia|].
  rewrite Nat2N.id, take_app, drop_app. done.
Qed.

Lemma decode_cut b x p : frame b = Some x -> p `prefix_of` x -> p <> x ->
  exists st r, decode Head p = Need st r.
Proof.
  intros [E ->]%frame_inv [q Hq] Hne.
  unfold decode. destruct (_ <? 4)%nat eqn:E2; [by do 2 eexists|]. apply Nat.ltb_ge in E2.
  assert (take 4 p = be32 (N.of_nat (length b))) as ->.
  { transitivity (take 4 (p ++ q)); [by rewrite take_app_le|]. rewrite <- Hq. done. }
  rewrite of_be32_be32 by lia.
  destruct (N.ltb_spec max_frame (N.of_nat (length b))) as [H|H]; [unfold max_frame in H; lia|].
  unfold decode_data. rewrite drop_length.
  destruct (N.ltb_spec (N.of_nat (length p - 4)) (N.of_nat (length b))) as [H4|H4]; [by do 2 eexists|].
  exfalso. apply Hne. rewrite Hq. destruct q as [|y q]; [by rewrite app_nil_r|].
  apply (f_equal length) in Hq. rewrite !app_length in Hq. simpl in Hq. lia.
Qed.

Lemma frame_nonempty b x : frame b = Some x -> x <> [].
Proof. unfold frame. destruct (_ <? _); [done|]. intros [= <-]. done. Qed.

Section carried.
  Context {E : Type} (write : E -> option bytes).

  Lemma accepted_iff e : accepted write e <-> is_Some (wire_bytes write e).
  Proof using.
    unfold accepted, wire_bytes, frame. split.
    - intros (b & -> & Hl). destruct (_ <? _) eqn:H; [unfold max_frame in H; lia|by eexists].
    - intros [x H]. destruct (write e) as [b|]; [|done]. exists b. split; [done|].
      destruct (_ <? _) eqn:Hb; [done|]. unfold max_frame in Hb. lia.
  Qed.

  Lemma wire_cons e es x : wire_bytes write e = Some x -> wire write (e :: es) = x ++ wire write es.
  Proof using. intros H. unfold wire. simpl. by rewrite H. Qed.

  (** The frames of the events. *)
  Lemma decode_wire bs : forall es tail, Forall (accepted write) es -> bs ++ tail = wire write es ->
    exists got bodies st r, arrived write es bs got /\ Forall2 (fun e b => write e = Some b /\ is_Some (frame b)) got bodies /\
      decode_buffer Head bs = (bodies, Some (st, r)) /\ (tail = [] -> got = es /\ r = []).
  Proof using.
    intros es. revert bs. induction es as [|e es IH]; intros bs tail Ha Ht.
    - unfold wire in Ht. simpl in Ht. apply app_eq_nil in Ht as [-> ->].
      exists [], [], Head, []. split; [|by repeat split; try constructor].
      exists []. split; [done|]. split; [by exists []|done].
    - apply Forall_cons in Ha as [He Ha]. apply accepted_iff in He as [x Hx]. rewrite (wire_cons _ _ _ Hx) in Ht.
      pose proof Hx as Hw. unfold wire_bytes in Hw. destruct (write e) as [b|] eqn:Ew; [|done].
      destruct (decide (x `prefix_of` bs)) as [[bs' ->]|Hno].
      + rewrite <- (assoc_L app) in Ht. apply app_inv_head in Ht.
        destruct (IH bs' tail Ha Ht) as (got & bodies & st & r & Harr & Hb & Hd & Hfull).
        exists (e :: got), (b :: bodies), st, r. split; [|split; [|split]].
        * destruct Harr as (rest & -> & Hpre & Hmax). exists rest. split; [done|]. split.
          -- rewrite (wire_cons _ _ _ Hx). by apply prefix_app.
          -- intros e' more Hr Hp. apply (Hmax _ _ Hr). simpl in Hp. rewrite (wire_cons _ _ _ Hx) in Hp.
             by apply prefix_app_inv in Hp.
        * constructor; [|done]. split; [done|by eexists].
        * rewrite decode_buffer_eq, (decode_frame _ _ _ Hw), Hd. done.
        * intros Htail. destruct (Hfull Htail) as [-> ->]. done.
      + assert (Hpre : bs `prefix_of` x /\ bs <> x).
        { split; [|intros ->; by apply Hno]. destruct (decide (length bs <= length x)%nat) as [Hl|Hl].
          - exists (drop (length bs) x). apply (f_equal (take (length bs))) in Ht. rewrite take_app, take_app_le in Ht by done.
            rewrite Ht at 1. by rewrite take_drop.
          - exfalso. apply Hno. exists (drop (length x) bs). apply (f_equal (take (length x))) in Ht.
            rewrite take_app, take_app_le in Ht by lia. rewrite <- Ht at 1. by rewrite take_drop. }
        destruct Hpre as [Hpre Hne]. destruct (decode_cut _ _ _ Hw Hpre Hne) as (st & r & Hd).
        exists [], [], st, r. split; [|split; [constructor|split; [by rewrite decode_buffer_eq, Hd|]]].
        * exists (e :: es). split; [done|]. split; [by exists bs|]. intros e' more [= <- <-] Hp. apply Hno.
          simpl in Hp. rewrite (wire_cons _ _ _ Hx) in Hp. unfold wire in Hp. simpl in Hp. by rewrite app_nil_r in Hp.
        * intros ->. exfalso. rewrite app_nil_r in Ht. apply Hno. rewrite Ht. by exists (wire write es).
  Qed.

  (** Events that are not accepted leave no trace. *)
  Lemma wire_accepted es `{forall e, Decision (accepted write e)} : wire write es = wire write (filter (accepted write) es).
  Proof using.
    induction es as [|e es IH]; [done|]. rewrite filter_cons. destruct (decide _) as [Ha|Hn].
    - apply accepted_iff in Ha as [x Hx]. rewrite !(wire_cons _ _ _ Hx). by rewrite IH.
    - unfold wire in *. simpl. destruct (wire_bytes write e) as [x|] eqn:Hx; [|exact IH].
      exfalso. apply Hn, accepted_iff. by exists x.
  Qed.
  Context (read : bytes -> outcome E) (ok : E -> Prop).
  Hypothesis roundtrip : forall e b, ok e -> write e = Some b -> frame_fits b -> read b = Done e.

  Lemma receive_written got bodies io : Forall2 (fun e b => write e = Some b /\ is_Some (frame b)) got bodies -> Forall ok got ->
    forall acc, receive_loop read (fun s x => s ++ [x]) (fun s => s) (fun _ => false) bodies io acc =
      (acc ++ got, if io then StreamLost else Closed).
  Proof using roundtrip.
    induction 1 as [|e b got bodies [Hw Hf] _ IH]; intros Hok acc; cbn [receive_loop]; [by rewrite app_nil_r|].
    apply Forall_cons in Hok as [He Hok]. rewrite (roundtrip e b He Hw).
    - rewrite (IH Hok). by rewrite <- (assoc_L app).
    - unfold frame_fits, fits. destruct Hf as [x Hf]. unfold frame in Hf. destruct (_ <? _) eqn:El; [done|].
      apply N.ltb_ge in El. unfold max_frame in El. destruct b; simpl in *; lia.
  Qed.

  (** What arrives of the written events. *)
  Lemma carried es pieces tail e : Forall ok es -> Forall (accepted write) es ->
    concat pieces ++ tail = wire write es ->
    exists got fin, received read pieces e = (got, fin) /\ arrived write es (concat pieces) got /\ fin <> Crashed /\
      (tail = [] -> got = es /\ (e = Eof -> fin = Closed)).
  Proof using roundtrip.
    intros Hok Ha Ht. destruct (decode_wire _ _ _ Ha Ht) as (got & bodies & st & r & Harr & Hb & Hd & Hfull).
    assert (Hok' : Forall ok got). { destruct Harr as (rest & -> & _). by apply Forall_app in Hok as [? _]. }
    unfold received. rewrite (read_frames_pieces pieces Head [] e) by done. cbn [read_frames]. simpl app at 1.
    rewrite Hd, app_nil_r. rewrite (receive_written _ _ _ Hb Hok'). simpl.
    do 2 eexists. split; [reflexivity|]. split; [done|]. split.
    - destruct e; [destruct (negb _)|]; done.
    - intros H. destruct (Hfull H) as [-> ->]. split; [done|]. by intros ->.
  Qed.

End carried.

(** ** Any bytes *)

Lemma be32_of_be32 b : is_bytes b -> length b = 4%nat -> be32 (of_be32 b) = b.
Proof.
  intros Hb Hl. destruct b as [|a [|b [|c [|d [|? ?]]]]]; try done.
  apply Forall_cons in Hb as [Ha Hb]. apply Forall_cons in Hb as [Hb Hc]. apply Forall_cons in Hc as [Hc Hd].
  apply Forall_cons in Hd as [Hd _].
  assert (of_be32 [a; b; c; d] = ((a * 256 + b) * 256 + c) * 256 + d) as -> by (unfold of_be32; cbn [fold_left]; lia).
  unfold be32.
  assert (E1 : ((((a * 256 + b) * 256 + c) * 256 + d) / 256 = (a * 256 + b) * 256 + c)).
  { symmetry. apply (N.div_unique _ _ _ d); lia. }
  assert (E2 : ((((a * 256 + b) * 256 + c) * 256 + d) / 65536 = a * 256 + b)).
  { symmetry. apply (N.div_unique _ _ _ (c * 256 + d)); lia. }
  assert (E3 : ((((a * 256 + b) * 256 + c) * 256 + d) / 16777216 = a)).
  { symmetry. apply (N.div_unique _ _ _ (b * 65536 + c * 256 + d)); lia. }
  rewrite E1, E2, E3. rewrite (N.mod_small a) by done.
  assert ((a * 256 + b) mod 256 = b) as -> by (symmetry; apply (N.mod_unique _ _ a); lia).
  assert (((a * 256 + b) * 256 + c) mod 256 = c) as -> by (symmetry; apply (N.mod_unique _ _ (a * 256 + b)); lia).
  assert ((((a * 256 + b) * 256 + c) * 256 + d) mod 256 = d) as ->
    by (symmetry; apply (N.mod_unique _ _ ((a * 256 + b) * 256 + c)); lia).
  done.
Qed.

Lemma decode_head_frame bs f r : is_bytes bs -> decode Head bs = Frame f r ->
  exists x, frame f = Some x /\ bs = x ++ r.
Proof.
  intros Hb. unfold decode. destruct (Nat.ltb_spec (length bs) 4) as [H|H]; [done|].
  destruct (N.ltb_spec max_frame (of_be32 (take 4 bs))) as [H1|H1]; [done|]. unfold decode_data.
  destruct (N.ltb_spec (N.of_nat (length (drop 4 bs))) (of_be32 (take 4 bs))) as [H2|H2]; [done|].
  intros H3. assert (f = take (N.to_nat (of_be32 (take 4 bs))) (drop 4 bs) /\ r = drop (N.to_nat (of_be32 (take 4 bs))) (drop 4 bs)) as [-> ->] by (by injection H3).
  clear H3.
  assert (Hl : N.of_nat (length (take (N.to_nat (of_be32 (take 4 bs))) (drop 4 bs))) = of_be32 (take 4 bs)).
  { rewrite take_length. lia. }
  unfold frame. rewrite Hl. destruct (N.ltb_spec max_frame (of_be32 (take 4 bs))); [lia|].
  eexists. split; [reflexivity|]. rewrite be32_of_be32.
  - rewrite <- (assoc_L app). by rewrite !take_drop.
  - by apply Forall_take.
  - rewrite take_length. lia.
Qed.

Lemma decode_buffer_frames n bs : (length bs < n)%nat -> is_bytes bs ->
  exists rest, bs = concat (omap frame (decode_buffer Head bs).1) ++ rest /\ Forall (fun f => is_Some (frame f)) (decode_buffer Head bs).1.
Proof.
  revert bs. induction n as [|n IH]; intros bs Hn Hb; [lia|]. rewrite decode_buffer_eq.
  destruct (decode Head bs) as [st r|f r|] eqn:E;
    [exists bs; by split; [|constructor]| |exists bs; by split; [|constructor]].
  pose proof (decode_work _ _ _ _ E) as Hw. simpl in Hw.
  apply decode_head_frame in E as (x & Hx & ->); [|done]. apply Forall_app in Hb as [_ Hr].
  destruct (IH r) as (rest & Hrest & Hall); [lia|done|]. destruct (decode_buffer Head r) as [fs q]. simpl in *.
  rewrite Hx. exists rest. split; [simpl; rewrite <- (assoc_L app); by f_equal|]. constructor; [by eexists|done].
Qed.

(** The frames of any bytes are those that the bytes encode. *)
Lemma frames_found pieces e : is_bytes (concat pieces) ->
  exists rest, concat pieces = concat (omap frame (read_frames Head [] pieces e).1) ++ rest /\
    Forall (fun f => is_Some (frame f)) (read_frames Head [] pieces e).1.
Proof.
  intros Hb. rewrite (read_frames_pieces pieces Head [] e) by done. cbn [read_frames]. change ([] ++ concat pieces) with (concat pieces).
  destruct (decode_buffer_frames (S (length (concat pieces))) (concat pieces)) as (rest & H1 & H2); [lia|done|].
  destruct (decode_buffer Head (concat pieces)) as [fs [[st b]|]]; simpl in *; [rewrite app_nil_r|]; by exists rest.
Qed.

(** The bytes a reader keeps while it waits. *)
Fixpoint kept (st : dstate) (buf : bytes) (pieces : list bytes) : option bytes :=
  match pieces with
  | [] => Some buf
  | p :: ps => match (decode_buffer st (buf ++ p)).2 with Some (st', buf') => kept st' buf' ps | None => None end
  end.

Lemma kept_bound pieces : forall st buf b, (forall n, st = Data n -> n <= max_frame) -> N.of_nat (length buf) < max_frame ->
  kept st buf pieces = Some b -> N.of_nat (length b) < max_frame.
Proof.
  induction pieces as [|p ps IH]; intros st buf b Hs Hl; simpl; [by intros [= <-]|].
  destruct (decode_buffer st (buf ++ p)) as [fs [[st' buf']|]] eqn:E; [|done]. simpl.
  destruct (rest_bound _ _ _ _ _ Hs E). by apply IH.
Qed.
