(** C85, C86: the bytes of the chat. *)
From Coq Require Import Ascii.
From Verif Require Export ChatWire_Proofs2 Chat_Live Chat_Props.
Local Open Scope N_scope.

(** ** C85 *)

(** What a client asks for is what the server reads. *)
Theorem C85_client r c : rust_string r -> rust_chat c ->
  (frame_fits (join_bytes r) -> read_ws (WBinary (join_bytes r)) = FEvent (EJoin r)) /\
  (frame_fits (leave_bytes r) -> read_ws (WBinary (leave_bytes r)) = FEvent (ELeave r)) /\
  (frame_fits (send_bytes c) -> read_ws (WBinary (send_bytes c)) = FEvent (EChat c)) /\
  handshake_of_json (handshake_json r) = Some r.
Proof.
  intros Hr Hc. split_and!; [by apply join_frame|by apply leave_frame|by apply send_frame|by apply handshake_back].
Qed.

(** Whatever bytes clients send, everything that is stored or sent is read as it was: the frames
    to the clients, the journals, the publications, the requests to rooms and their answers. *)
Theorem C85_faithful l w : bruns l = Some w ->
  (forall i, mapM chat_of_json (written w i) = Some (shown w i)) /\
  (forall r, mapM chat_of_json (chat_json <$> accepted w r) = Some (accepted w r)) /\
  (forall d r c, (d, r, c) ∈ w_fly w -> receive_of_json (receive_json c) = Done (Some c)) /\
  (forall i p c, w_peers w !! i = Some p -> p_do p = ChatSent c -> chat_of_json (chat_json c) = Some c) /\
  (forall i p r h creator, w_peers w !! i = Some p -> p_do p = JoinAnswered r h -> rust_string creator ->
     history_of_json (answer_json creator h) = Some h).
Proof.
  intros E. unfold bruns in E. pose proof (origin_runs _ _ E) as O.
  assert (HA : forall r, Forall rust_chat (accepted w r)).
  { intros r. apply Forall_forall. intros c Hc. destruct (or_acc _ _ O _ _ Hc) as [_ Hg]. exact (genuine_rust _ _ Hg). }
  assert (HM : forall L, Forall rust_chat L -> mapM chat_of_json (chat_json <$> L) = Some L).
  { intros L HL. induction HL as [|c L Hc _ IH]; [done|]. change (mapM chat_of_json (chat_json <$> c :: L)) with (y ← chat_of_json (chat_json c); k ← mapM chat_of_json (chat_json <$> L); mret (y :: k)).
    by rewrite (chat_json_back c Hc), IH. }
  split_and!.
  - intros i. apply HM. apply Forall_forall. intros c Hc. destruct (C70_genuine _ _ _ _ E Hc) as [(r & -> & Ha)|(_ & _ & Hg)].
    + apply welcome_rust. exact (sent_rust _ _ _ (wire_frame _ _ _ Ha)).
    + exact (genuine_rust _ _ Hg).
  - intros r. apply HM, HA.
  - intros d r c H. apply receive_back. exact (proj1 (Forall_forall _ _) (HA r) c (or_fly _ _ O _ _ _ H)).
  - intros i p c Hp Hd. apply chat_json_back. destruct (or_peers _ _ O _ _ Hp) as (_ & _ & Hdo & _). rewrite Hd in Hdo. exact (genuine_rust _ _ Hdo).
  - intros i p r h creator Hp Hd Hc. apply answer_back; [done|]. destruct (or_peers _ _ O _ _ Hp) as (_ & _ & Hdo & _). rewrite Hd in Hdo.
    destruct Hdo as (_ & _ & [h' Hpre]). pose proof (HA r) as HAr. rewrite Hpre in HAr. by apply Forall_app in HAr as [HAr _].
Qed.

(** What is written to a client is a line of UTF-8 text, which bin/client.rs prints. *)
Theorem C85_line l w i b : bruns l = Some w -> b ∈ written w i -> utf8 b = true /\ Forall (fun c => 32 <= c) b.
Proof.
  intros E Hb. apply elem_of_list_fmap in Hb as (c & -> & Hc).
  assert (Hr : rust_chat c).
  { destruct (C70_genuine _ _ _ _ E Hc) as [(r & -> & Ha)|(_ & _ & Hg)].
    - apply welcome_rust. exact (sent_rust _ _ _ (wire_frame _ _ _ Ha)).
    - exact (genuine_rust _ _ Hg). }
  exact (text_line _ (clean_json chat_ty (chat_x c) (proj1 chat_rust_ty) (chat_has c Hr))).
Qed.

(** A frame that is not understood does not close the connection: the client of a message without
    content stays in its room for good, and nothing it sends is read any more, not even the end. *)
Definition hs (s : string) : bytes := handshake_json s.
Definition ann_joins : list bop :=
  [BConnect 1 1 (hs "ann"); BFrame 1 (WBinary (join_bytes "a")); BOther (CHandle 1); BOther (CRoom 1 1 Kept); BOther (CSubscribe 1 1); BOther (CResume 1)].
Theorem C85_bad_refuted :
  exists w, bruns (ann_joins ++ [BFrame 1 (WBinary [1])]) = Some w /\
    (forall l w', cruns w l = Some w' -> (forall f, cstep w' (CFrame 1 f) = None) /\
       match w_peers w' !! 1 with Some p => p_alive p = true /\ p_in p !! "a"%string = Some 1 | None => False end).
Proof.
  assert (E : omap wire_op (ann_joins ++ [BFrame 1 (WBinary [1])]) = ann ++ [CFrame 1 FBad]) by (vm_compute; reflexivity).
  pose proof C69_undead_refuted as H. unfold bruns. rewrite E.
  destruct (cruns new_world (ann ++ [CFrame 1 FBad])) as [w|] eqn:Ew; [|done]. exists w. split; [done|]. destruct H as [H1 H2].
  assert (H3 : forall p, w_peers w !! 1 = Some p -> p_reader p = false).
  { intros p Hp. specialize (H1 FOther). cbn in H1. rewrite Hp in H1. cbn in H1. unfold on_frame in H1. by destruct (p_reader p). }
  intros l w' HR. split; [|exact (H2 l w' HR)].
  assert (Hk : forall l w w', (forall p, w_peers w !! 1 = Some p -> p_reader p = false) -> is_Some (w_peers w !! 1) -> cruns w l = Some w' ->
                (forall p, w_peers w' !! 1 = Some p -> p_reader p = false)).
  { clear. intros l. induction l as [|o l IH]; intros w w' Hw HS HR; [cbn in HR; by simplify_eq|].
    cbn [cruns] in HR. destruct (cstep w o) as [w1|] eqn:E1; [|done]. cbn in HR.
    assert (HH : (forall p, w_peers w1 !! 1 = Some p -> p_reader p = false) /\ is_Some (w_peers w1 !! 1)); [|destruct HH; by eapply IH].
    clear IH HR. destruct HS as [p Hp]. pose proof (Hw p Hp) as Hrd.
    assert (Hset : forall i q, (i = 1 -> p_reader q = false) ->
      (forall p, <[i := q]> (w_peers w) !! 1 = Some p -> p_reader p = false) /\ is_Some (<[i := q]> (w_peers w) !! 1)).
    { intros i q Hq. destruct (decide (i = 1)) as [-> |Hne].
      - rewrite lookup_insert. split; [|by eexists]. intros p' [= <-]. by apply Hq.
      - rewrite lookup_insert_ne by done. split; [exact Hw|by eexists]. }
    destruct o as [i n name|i f|i|i n k|i sid|i|i|sid|k|k|r|n d b]; cbn [cstep] in E1.
    - destruct (w_peers w !! i) eqn:Ei; [done|]. injection E1 as <-. apply Hset. intros ->. congruence.
    - destruct (w_peers w !! i) as [q|] eqn:Ei; [|done]. cbn in E1. unfold on_frame in E1. destruct (p_reader q) eqn:Eq; [|done].
      assert (i <> 1) by (intros ->; simplify_eq; congruence).
      destruct f; [destruct (p_alive q)| | |]; injection E1 as <-; try (split; [exact Hw|by eexists]); apply Hset; intros; done.
    - destruct (w_peers w !! i) as [q|] eqn:Ei; [|done]. cbn in E1. unfold on_mail in E1.
      assert (Hq : i = 1 -> p_reader q = false) by (intros ->; by apply Hw).
      destruct (p_alive q); [|done]. destruct (p_do q); try done. destruct (p_mail q) as [|m rest]; [done|].
      destruct m as [[r|c|r|]|sid c|]; try (injection E1 as <-); try (apply Hset; exact Hq).
      + apply Hset. intros H. by destruct (p_in q !! c_room c); apply Hq.
      + rewrite end_sub_peers. apply Hset. exact Hq.
    - destruct (w_peers w !! i) as [q|] eqn:Ei; [|done]. cbn in E1. unfold on_room in E1.
      assert (Hq : i = 1 -> p_reader q = false) by (intros ->; by apply Hw).
      destruct (p_do q); try done; [injection E1 as <-; by apply Hset|]. destruct k; injection E1 as <-; by apply Hset.
    - destruct (w_peers w !! i) as [q|] eqn:Ei; [|done]. cbn in E1. unfold on_subscribe in E1.
      assert (Hq : i = 1 -> p_reader q = false) by (intros ->; by apply Hw).
      destruct (p_do q); try done. destruct (w_subs w !! sid); [done|]. injection E1 as <-. by apply Hset.
    - destruct (w_peers w !! i) as [q|] eqn:Ei; [|done]. cbn in E1. unfold on_resume in E1.
      assert (Hq : i = 1 -> p_reader q = false) by (intros ->; by apply Hw).
      destruct (p_do q); try done; injection E1 as <-; rewrite ?end_sub_peers; by apply Hset.
    - destruct (w_peers w !! i) as [q|] eqn:Ei; [|done]. cbn in E1. unfold on_fail in E1.
      assert (Hq : i = 1 -> p_reader q = false) by (intros ->; by apply Hw).
      destruct (p_do q); try done; injection E1 as <-; by apply Hset.
    - unfold on_deliver in E1. destruct (w_subs w !! sid) as [s|]; [|done]. cbn [mbind option_bind] in E1. destruct (w_peers w !! s_peer s) as [q|] eqn:Ei; [|done]. cbn [mbind option_bind] in E1.
      assert (Hq : s_peer s = 1 -> p_reader q = false) by (intros H; rewrite H in Ei; by apply Hw).
      destruct (s_live s); [|done]. match type of E1 with (if ?c then _ else _) = _ => destruct c end; [injection E1 as <-; rewrite ?end_sub_peers; split; [exact Hw|by eexists]|].
      match type of E1 with match ?c with _ => _ end = _ => destruct c; [|done] end. destruct (p_alive q); injection E1 as <-; [by apply Hset|]. rewrite ?end_sub_peers. split; [exact Hw|by eexists].
    - destruct (w_fly w !! k) as [[[d r] c]|]; [|done]. injection E1 as <-. split; [exact Hw|by eexists].
    - destruct (w_fly w !! k) as [x|]; [|done]. injection E1 as <-. split; [exact Hw|by eexists].
    - destruct (w_rooms w !! r); [|done]. injection E1 as <-. split; [exact Hw|by eexists].
    - injection E1 as <-. split; [exact Hw|by eexists]. }
  intros f. cbn [cstep]. pose proof (H2 l w' HR) as H4. destruct (w_peers w' !! 1) as [p|] eqn:Ep; [|done]. cbn. unfold on_frame.
  rewrite (Hk l w w' H3); [done| |exact HR|exact Ep].
  pose proof (H2 [] w eq_refl) as H5. destruct (w_peers w !! 1); [by eexists|done].
Qed.

(** ** C86 *)

(** Everything a client reads was sent, byte by byte, by a client that had joined that room, and
    carries the name of its handshake. *)
Theorem C86_genuine l w i b : bruns l = Some w -> b ∈ written w i ->
  exists c, chat_of_json b = Some c /\ sent_event l i (EJoin (c_room c)) /\
    (c = welcome (c_room c) \/
     exists j name c0, connected_as l j name /\ sent_event l j (EChat c0) /\ sent_event l j (EJoin (c_room c)) /\ c = signed name c0).
Proof.
  intros E Hb. apply elem_of_list_fmap in Hb as (c & -> & Hc). destruct (C70_genuine _ _ _ _ E Hc) as [(r & -> & Ha)|(_ & Ha & Hg)].
  - pose proof (wire_frame _ _ _ Ha) as Hj. exists (welcome r). split; [apply chat_json_back, welcome_rust; exact (sent_rust _ _ _ Hj)|].
    split; [exact Hj|by left].
  - exists c. split; [exact (chat_json_back c (genuine_rust _ _ Hg))|]. split; [exact (wire_frame _ _ _ Ha)|]. right.
    destruct Hg as (j & name & c0 & H1 & H2 & H3 & H4). exists j, name, c0. split_and!; [exact (wire_named _ _ _ H1)| | |done].
    + exact (wire_frame _ _ _ (said_frame _ _ _ H2)).
    + exact (wire_frame _ _ _ H4).
Qed.

(** With the client program: the server reads what was typed, line by line. *)
Theorem C86_typed_partial lines fs : Forall unicode lines -> type_lines None lines = Some fs -> Forall frame_fits fs ->
  read_ws <$> (WBinary <$> fs) = FEvent <$> meant_all lines.
Proof.
  intros HU HT HF. pose proof (type_lines_meant lines None fs HU ltac:(done) HT HF) as H.
  assert (HM : imap (meant_from None lines) lines = imap (meant lines) lines).
  { apply imap_ext. intros k x _. unfold meant_from, meant, word_join. f_equal. destruct (split_space x) as [|cmd [|room ws]]; [done|done|].
    by destruct (bool_decide (cmd = sb "/join")). }
  unfold meant_all. rewrite <- HM, <- H. clear. induction fs as [|f fs IH]; [done|]. cbn [fmap list_fmap map]. f_equal. exact IH.
Qed.
(** A session ends in a panic at "/join" without a room, and in an endless loop at "/spam"; nothing
    else stops it. *)
Theorem C86_stops cur line : (snd (type_line cur line) = Crash <-> line = sb "/join") /\
  (snd (type_line cur line) = Stuck <-> is_Some cur /\ head (split_space line) = Some (sb "/spam")).
Proof.
  assert (Hj : forall ws, split_space line = sb "/join" :: ws -> ws = [] -> line = sb "/join").
  { intros ws H ->. destruct (split_cut line) as [H'|(w & r & -> & H')]; [congruence|]. rewrite H in H'.
    assert (Hne : split_space r <> []) by (destruct (split_cut r) as [-> |(? & ? & _ & ->)]; done). injection H' as _ H'. by rewrite <- H' in Hne. }
  destruct line as [|c line]; [split; split; [done|done|done|intros [_ H]; done]|].
  destruct (decide (c = 47)) as [-> |Hc].
  - unfold type_line. destruct (split_space (47 :: line)) as [|cmd ws] eqn:E.
    { split; split; [done| |done|intros [_ H]; done]. intros H. rewrite H in E. by vm_compute in E. }
    cbn [head]. destruct (bool_decide (cmd = sb "/join")) eqn:Ej.
    + apply bool_decide_eq_true in Ej. subst cmd. split.
      * destruct ws as [|room ws]; cbn [snd].
        -- split; [intros _; exact (Hj [] eq_refl eq_refl)|done].
        -- split; [done|]. intros H. rewrite H in E. by vm_compute in E.
      * destruct ws as [|room ws]; cbn [snd]; (split; [done|intros [_ H]; by vm_compute in H]).
    + apply bool_decide_eq_false in Ej.
      assert (Hl : 47 :: line <> sb "/join"). { intros H. rewrite H in E. vm_compute in E. injection E as <- _. by apply Ej. }
      destruct (bool_decide (cmd = sb "/spam")) eqn:Es.
      * apply bool_decide_eq_true in Es. subst cmd. destruct cur as [r|]; cbn [snd].
        -- split; split; [done|done|by eexists|done].
        -- split; split; [done|done|done|]. intros [[x Hx] _]. done.
      * apply bool_decide_eq_false in Es. cbn [snd]. split; split; [done|done|done|]. intros [_ H]. injection H as ->. by destruct Es.
  - assert (HN : type_line cur (c :: line) = match cur with Some r => (cur, Sends [chat_bytes r (bs (c :: line))]) | None => (cur, Sends []) end).
    { unfold type_line. destruct c as [|p]; [done|]. repeat (destruct p as [p|p|]; try done). }
    rewrite HN. destruct cur as [r|]; cbn [snd]; (split; split; [done| |done|]).
    + intros H. injection H as H _. exfalso; by apply Hc.
    + intros [_ H]. exfalso. cbn [split_space] in H. destruct (c =? 32); [by vm_compute in H|]. destruct (split_space line) as [|w ws]; cbn in H; injection H as H; exfalso; by apply Hc.
    + intros H. injection H as H _. exfalso; by apply Hc.
    + intros [[x Hx] _]. done.
Qed.
(** Lines typed before a room was joined are not sent. *)
Theorem C86_dropped_refuted : exists lines fs, type_lines None lines = Some fs /\ fs = [] /\ Forall unicode lines /\ sb "hello" ∈ lines.
Proof. exists [sb "hello"], []. split_and!; [done|done|by repeat constructor|by left]. Qed.

Print Assumptions C85_client.
Print Assumptions C85_faithful.
Print Assumptions C85_line.
Print Assumptions C85_bad_refuted.
Print Assumptions C86_genuine.
Print Assumptions C86_typed_partial.
Print Assumptions C86_stops.
Print Assumptions C86_dropped_refuted.

(** ** Cases *)
Definition hi_e : chat := Chat "a" (Some 7) (Some "eve"%string) (bs [104; 195; 169; 10; 34]).
Definition talk : list bop :=
  ann_joins ++
  [BConnect 2 1 (sb " { ""x"": 1, ""name"": ""béb"" } "); BFrame 2 WPing; BFrame 2 (WText (join_bytes "a")); BOther (CHandle 2); BOther (CRoom 2 1 Kept);
   BOther (CSubscribe 2 2); BOther (CResume 2); BFrame 2 (WBinary (send_bytes hi_e)); BOther (CHandle 2); BOther (CRoom 2 1 Kept); BOther (CResume 2);
   BOther (CDeliver 1); BOther (CHandle 1); BFrame 2 (WBinary [9]); BOther (CHandle 2)].
Example C85_case :
  match bruns talk with
  | Some w =>
      written w 1 =
      [sb "{""chat_stream_id"":""a"",""message_id"":null,""sender"":""Coerce"",""message"":""Welcome to a, say hello!""}";
       sb "{""chat_stream_id"":""a"",""message_id"":7,""sender"":""b" ++ [195; 169] ++ sb "b"",""message"":""h" ++ [195; 169] ++ sb "\n\""""}"] /\
      mapM chat_of_json (written w 1) = Some [welcome "a"; signed (bs [98; 195; 169; 98]) hi_e] /\
      accepted w "a" = [signed (bs [98; 195; 169; 98]) hi_e]
  | None => False
  end.
Proof. vm_compute. done. Qed.
(** The sender is a [StringValue], the id a [UInt64Value]: messages whose first field is the value. *)
Example C85_wrapped :
  send_bytes (Chat "ab" (Some 7) (Some "x"%string) "hi") = [1; 10; 17; 10; 2; 97; 98; 18; 2; 8; 7; 26; 3; 10; 1; 120; 34; 2; 104; 105].
Proof. by vm_compute. Qed.
Example C85_bytes :
  chat_bytes "ab" "hi" = [1; 10; 8; 10; 2; 97; 98; 34; 2; 104; 105] /\ join_bytes "ab" = [0; 10; 2; 97; 98] /\
  frame_fits (chat_bytes "ab" "hi") /\ rust_chat (Chat "ab" None None "hi") /\ rust_chat hi_e.
Proof.
  split_and!; [by vm_compute..| |]; (split_and!; [by vm_compute| |  |by vm_compute]); cbn; try done.
  - by intros n [= <-].
  - intros s [= <-]. by vm_compute.
Qed.
(** Frames that are not understood, and bytes of other kinds. *)
Example C85_other :
  map parse_inbound [[]; [0]; [1]; [2; 10]; [1; 10; 3; 10; 1; 255]; [3]; [0; 10; 1; 97; 18; 2; 10; 0]] =
  [FEvent EClose; FEvent (EJoin ""); FBad; FBad; FBad; FEvent EClose; FEvent (EJoin "a")] /\
  handshake_of_json (sb "{}") = None /\ receive_of_json (sb "null") = Done None /\ receive_of_json (sb "{}") = Panicked.
Proof. vm_compute. done. Qed.
Definition session : list bytes := [sb "hello"; sb "/join a b"; sb "hi  all"; sb "/help"; []; sb "/spammer"; sb "/join "; sb " /join c"].
Example C86_case : exists fs, type_lines None session = Some fs /\ Forall frame_fits fs /\ Forall unicode session /\
  meant_all session = [EJoin "a"; EChat (Chat "a" None None "hi  all"); EJoin ""; EChat (Chat "" None None " /join c")].
Proof.
  eexists. split; [by vm_compute|]. split; [repeat constructor|]. split; [repeat constructor|]. by vm_compute.
Qed.
