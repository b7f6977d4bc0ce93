(** The bytes of the chat: runs, and the client program. *)
From Coq Require Import Ascii.
From Verif Require Export ChatWire_Proofs Json_Sound.
Local Open Scope N_scope.
Local Arguments sb : simpl never.
Local Arguments bs : simpl never.

Lemma handshake_rust hs name : handshake_of_json hs = Some name -> rust_string name.
Proof.
  unfold handshake_of_json. destruct (from_slice handshake_ty hs) as [v|] eqn:E; [|done]. destruct (from_slice_sound _ _ _ E) as [H _].
  destruct v as [| | | | | |[|[| |s| | | | | |] [|]]| |]; try done. intros [= <-]. destruct H as [H _]. unfold rust_string. by rewrite (sb_bs s H).
Qed.

Lemma wire_named l i name : named (omap wire_op l) i name -> connected_as l i name.
Proof.
  intros (n & H). apply elem_of_list_omap in H as (o & Hin & Ho). destruct o as [j m hs|j f|o]; [|done|by destruct o].
  cbn in Ho. destruct (handshake_of_json hs) as [nm|] eqn:E; [|done]. injection Ho as -> -> ->. by exists n, hs.
Qed.
Lemma wire_frame l i e : CFrame i (FEvent e) ∈ omap wire_op l -> sent_event l i e.
Proof.
  intros H. apply elem_of_list_omap in H as (o & Hin & Ho). destruct o as [j m hs|j f|o]; [|injection Ho as -> Hf; by exists f|by destruct o].
  cbn in Ho. by destruct (handshake_of_json hs).
Qed.
Lemma said_frame l i c : c ∈ said l i -> CFrame i (FEvent (EChat c)) ∈ l.
Proof.
  intros H. apply elem_of_list_omap in H as (o & Hin & Ho). destruct o; try done. destruct f as [[]| | |]; try done.
  destruct (i0 =? i) eqn:E; [|done]. apply N.eqb_eq in E. by simplify_eq.
Qed.
Lemma sent_rust l i e : sent_event l i e -> rust_event e.
Proof. intros (f & _ & H). exact (ws_rust f e H). Qed.
Lemma connected_rust l i name : connected_as l i name -> rust_string name.
Proof. intros (n & hs & _ & H). exact (handshake_rust hs name H). Qed.

Lemma signed_rust name c : rust_string name -> rust_chat c -> rust_chat (signed name c).
Proof. intros Hn (H1 & H2 & H3 & H4). split_and!; [done|done| |done]. cbn. by intros s [= <-]. Qed.
Lemma genuine_rust l c : genuine (omap wire_op l) c -> rust_chat c.
Proof.
  intros (j & name & c0 & Hn & Hs & -> & _). apply signed_rust; [exact (connected_rust _ _ _ (wire_named _ _ _ Hn))|].
  exact (sent_rust _ _ _ (wire_frame _ _ _ (said_frame _ _ _ Hs))).
Qed.
Lemma sb_app s t : sb (s +:+ t) = sb s ++ sb t.
Proof. induction s as [|a s IH]; [done|]. change (N_of_ascii a :: sb (s +:+ t) = N_of_ascii a :: sb s ++ sb t). by rewrite IH. Qed.
Lemma welcome_rust r : rust_string r -> rust_chat (welcome r).
Proof.
  intros H. unfold rust_chat, welcome, rust_string, unicode in *. cbn [c_room c_id c_sender c_text]. split_and!; [done|done| |].
  - intros s [= <-]. by vm_compute.
  - rewrite !sb_app. apply utf8_app; [by vm_compute|]. apply utf8_app; [exact H|by vm_compute].
Qed.

(** ** The client program *)
Lemma utf8_cut a b : utf8 (a ++ 32 :: b) = true -> utf8 a = true /\ utf8 b = true.
Proof.
  remember (length a) as n eqn:Hn. revert a Hn. induction (lt_wf n) as [n _ IH]. intros a -> H.
  assert (Hno : cont 32 = false) by done.
  destruct a as [|x a]; [done|]. cbn [app utf8] in H |- *. destruct (x <? 128); [exact (IH (length a) ltac:(cbn; lia) a eq_refl H)|].
  destruct a as [|x1 a].
  { cbn [app] in H. rewrite Hno in H. exfalso. destruct b as [|y1 [|y2 b]]; destruct ((194 <=? x) && (x <=? 223)); try done.
    - destruct ((224 <=? x) && (x <=? 239)); [|done]. by destruct (x =? 224), (x =? 237).
    - destruct ((224 <=? x) && (x <=? 239)); [by destruct (x =? 224), (x =? 237)|]. destruct ((240 <=? x) && (x <=? 244)); [|done]. by destruct (x =? 240), (x =? 244). }
  cbn [app] in H. destruct ((194 <=? x) && (x <=? 223)).
  { apply andb_true_iff in H as [H1 H2]. destruct (IH (length a) ltac:(cbn; lia) a eq_refl H2) as [H3 H4]. by rewrite H1, H3. }
  destruct a as [|x2 a].
  { cbn [app] in H. rewrite Hno in H. exfalso. destruct ((224 <=? x) && (x <=? 239)); [by rewrite !andb_false_r in H|].
    destruct b as [|y1 b]; [done|]. destruct ((240 <=? x) && (x <=? 244)); [by rewrite !andb_false_r in H|done]. }
  cbn [app] in H. destruct ((224 <=? x) && (x <=? 239)).
  { apply andb_true_iff in H as [H1 H2]. destruct (IH (length a) ltac:(cbn; lia) a eq_refl H2) as [H3 H4]. by rewrite H1, H3. }
  destruct a as [|x3 a].
  { cbn [app] in H. rewrite Hno in H. exfalso. destruct ((240 <=? x) && (x <=? 244)); [by rewrite !andb_false_r in H|done]. }
  cbn [app] in H. destruct ((240 <=? x) && (x <=? 244)); [|done].
  apply andb_true_iff in H as [H1 H2]. destruct (IH (length a) ltac:(cbn; lia) a eq_refl H2) as [H3 H4]. by rewrite H1, H3.
Qed.

Lemma split_cut b : split_space b = [b] \/ exists w r, b = w ++ 32 :: r /\ split_space b = w :: split_space r.
Proof.
  induction b as [|c b IH]; [by left|]. cbn [split_space]. destruct (c =? 32) eqn:E.
  - apply N.eqb_eq in E as ->. right. by exists [], b.
  - destruct IH as [-> |(w & r & -> & ->)]; [by left|]. right. by exists (c :: w), r.
Qed.
Lemma split_utf8 b : utf8 b = true -> Forall (fun w => utf8 w = true) (split_space b).
Proof.
  remember (length b) as n eqn:Hn. revert b Hn. induction (lt_wf n) as [n _ IH]. intros b -> H.
  destruct (split_cut b) as [-> |(w & r & -> & ->)]; [by repeat constructor|]. destruct (utf8_cut w r H) as [H1 H2].
  constructor; [done|]. refine (IH (length r) _ r eq_refl H2). rewrite app_length. cbn. lia.
Qed.
Lemma split_slash b : split_space b = sb "/join" :: tl (split_space b) -> command b = true.
Proof.
  destruct b as [|c b]; [done|]. cbn [split_space]. destruct (c =? 32); [done|]. destruct (split_space b) as [|w ws]; intros [= Hc _]; by subst.
Qed.

(** A line, read by the server. *)
Definition word_join (line : bytes) : option string :=
  match split_space line with
  | cmd :: room :: _ => if bool_decide (cmd = sb "/join") then Some (bs room) else None
  | _ => None
  end.
Lemma type_line_meant cur line cur' fs : utf8 line = true -> (forall r, cur = Some r -> rust_string r) ->
  type_line cur line = (cur', Sends fs) -> Forall frame_fits fs ->
  cur' = match word_join line with Some r => Some r | None => cur end /\ (forall r, cur' = Some r -> rust_string r) /\
  map parse_inbound fs = FEvent <$> (match word_join line with Some r => [EJoin r] | None => [] end ++
    (if command line || bool_decide (line = []) then [] else match cur with Some r => [EChat (Chat r None None (bs line))] | None => [] end)).
Proof.
  intros HU HC HT HF.
  assert (HP : forall r, cur = Some r -> frame_fits (chat_bytes r (bs line)) -> map parse_inbound [chat_bytes r (bs line)] = [FEvent (EChat (Chat r None None (bs line)))]).
  { intros r Hr Hf. unfold chat_bytes in *. cbn [map]. rewrite send_frame; [done| |exact Hf]. split_and!; [by apply HC|done|done|]. cbn. unfold rust_string. by rewrite (sb_bs line HU). }
  destruct line as [|c line].
  { cbn in HT. injection HT as <- <-. cbn. split_and!; [done|done|done]. }
  destruct (command (c :: line)) eqn:Ec.
  - assert (c = 47) as -> by (unfold command in Ec; destruct c as [|p]; [done|]; repeat (destruct p as [p|p|]; try done)).
    rewrite orb_true_l, app_nil_r. unfold type_line in HT. pose proof (split_utf8 _ HU) as HS. unfold word_join.
    destruct (split_space (47 :: line)) as [|cmd ws]; [injection HT as <- <-; done|].
    destruct (bool_decide (cmd = sb "/join")) eqn:Ej.
    + destruct ws as [|room ws]; [done|]. injection HT as <- <-. apply Forall_cons in HS as [_ HS]. apply Forall_cons in HS as [HR _].
      assert (rust_string (bs room)) by (unfold rust_string; by rewrite (sb_bs room HR)).
      split; [done|]. split; [by intros r [= <-]|]. apply Forall_cons in HF as [HF _]. cbn [map]. by rewrite join_frame.
    + assert (HN : (cur', fs) = (cur, [])) by (destruct (bool_decide (cmd = sb "/spam")); [destruct cur; [discriminate HT|by injection HT as <- <-]|by injection HT as <- <-]).
      injection HN as -> ->. destruct ws as [|room ws]; [done|]. done.
  - assert (Hw : word_join (c :: line) = None).
    { unfold word_join. destruct (split_space (c :: line)) as [|cmd [|room ws]] eqn:E; [done|done|]. case_bool_decide as Hj; [|done]. subst cmd.
      pose proof (split_slash (c :: line)) as HX. rewrite E in HX. specialize (HX eq_refl). congruence. }
    rewrite Hw. cbn [app]. rewrite (bool_decide_eq_false_2 (c :: line = [])) by done. cbn [orb].
    assert (HN : type_line cur (c :: line) = match cur with Some r => (cur, Sends [chat_bytes r (bs (c :: line))]) | None => (cur, Sends []) end).
    { unfold command in Ec. unfold type_line. destruct c as [|p]; [done|]. repeat (destruct p as [p|p|]; try done). }
    rewrite HN in HT. destruct cur as [r|]; injection HT as <- <-.
    + split; [done|]. split; [exact HC|]. apply Forall_cons in HF as [HF _]. by rewrite (HP r).
    + done.
Qed.
Lemma room_step cur line lines : in_room_after cur (line :: lines) = in_room_after (match word_join line with Some r => Some r | None => cur end) lines.
Proof. cbn [in_room_after]. unfold word_join. destruct (split_space line) as [|cmd [|room ws]]; [done|done|]. by destruct (bool_decide (cmd = sb "/join")). Qed.

(** The lines that are still to be typed, in a room. *)
Definition meant_from (cur : option string) (lines : list bytes) (k : nat) (line : bytes) : list event :=
  match word_join line with Some r => [EJoin r] | None => [] end ++
  (if command line || bool_decide (line = []) then []
   else match in_room_after cur (take k lines) with Some r => [EChat (Chat r None None (bs line))] | None => [] end).
Lemma type_lines_meant lines cur fs : Forall (fun l => utf8 l = true) lines -> (forall r, cur = Some r -> rust_string r) ->
  type_lines cur lines = Some fs -> Forall frame_fits fs ->
  map parse_inbound fs = FEvent <$> concat (imap (meant_from cur lines) lines).
Proof.
  revert cur fs. induction lines as [|line lines IH]; intros cur fs HU HC HT HF.
  - injection HT as <-. done.
  - apply Forall_cons in HU as [HU1 HU2]. cbn [type_lines] in HT. destruct (type_line cur line) as [cur' [fs1| |]] eqn:E; [|done|done].
    destruct (type_lines cur' lines) as [fs2|] eqn:E2; [|done]. injection HT as <-. apply Forall_app in HF as [HF1 HF2].
    destruct (type_line_meant cur line cur' fs1 HU1 HC E HF1) as (Hc & HC' & HM). rewrite map_app, HM, (IH cur' fs2 HU2 HC' E2 HF2).
    rewrite <- fmap_app. f_equal. cbn [imap concat]. unfold meant_from at 2. cbn [take in_room_after]. f_equal.
    f_equal. apply imap_ext. intros k x _. unfold compose, meant_from. cbn [take]. rewrite room_step, <- Hc. done.
Qed.
