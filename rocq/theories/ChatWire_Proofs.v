(** The bytes of the chat: codecs and hops. *)
From Coq Require Import Ascii.
From Verif Require Export ChatWire_Spec Json_Proofs3.
From Verif Require Export Wire_Proofs Codec_Sound Chat_Proofs.
Local Open Scope N_scope.

Lemma bs_sb s : bs (sb s) = s.
Proof.
  unfold bs, sb. rewrite map_map. rewrite (map_ext _ (fun x => x)) by (intros a; apply ascii_N_embedding). rewrite map_id.
  apply string_of_list_ascii_of_string.
Qed.
Lemma utf8_byte b : utf8 b = true -> Forall (fun x => x < 256) b.
Proof.
  remember (length b) as n eqn:Hn. revert b Hn. induction (lt_wf n) as [n _ IH]. intros b -> H.
  destruct b as [|a r]; [constructor|]. cbn [utf8] in H.
  assert (Hc : forall x, cont x = true -> x < 256) by (intros x Hx; unfold cont in Hx; apply andb_true_iff in Hx as [_ Hx%N.leb_le]; lia).
  destruct (a <? 128) eqn:Ea.
  { constructor; [lia|]. exact (IH (length r) ltac:(cbn; lia) r eq_refl H). }
  destruct r as [|x1 r1]; [done|]. destruct ((194 <=? a) && (a <=? 223)) eqn:E2.
  { apply andb_true_iff in H as [H1 H2]. constructor; [lia|]. constructor; [auto|]. exact (IH (length r1) ltac:(cbn; lia) r1 eq_refl H2). }
  destruct r1 as [|x2 r2]; [done|]. destruct ((224 <=? a) && (a <=? 239)) eqn:E3.
  { apply andb_true_iff in H as [H H3]. apply andb_true_iff in H as [H1 H2].
    constructor; [lia|]. constructor.
    { destruct (a =? 224); [lia|]. destruct (a =? 237); [lia|]. auto. }
    constructor; [auto|]. exact (IH (length r2) ltac:(cbn; lia) r2 eq_refl H3). }
  destruct r2 as [|x3 r3]; [done|]. destruct ((240 <=? a) && (a <=? 244)) eqn:E4; [|done].
  apply andb_true_iff in H as [H H4]. apply andb_true_iff in H as [H H3]. apply andb_true_iff in H as [H1 H2].
  constructor; [lia|]. constructor.
  { destruct (a =? 240); [lia|]. destruct (a =? 244); [lia|]. auto. }
  constructor; [auto|]. constructor; [auto|]. exact (IH (length r3) ltac:(cbn; lia) r3 eq_refl H4).
Qed.
Lemma sb_bs b : utf8 b = true -> sb (bs b) = b.
Proof.
  intros H%utf8_byte. unfold bs, sb. rewrite list_ascii_of_string_of_list_ascii, map_map.
  induction H as [|x b Hx _ IH]; [done|]. cbn [map]. rewrite IH. f_equal. by apply N_ascii_embedding.
Qed.

Local Arguments sb : simpl never.
Local Arguments bs : simpl never.
Local Arguments utf8 : simpl never.

(** ** Protobuf *)
Global Instance string_value_lawful : lawful_m string_value_codec.
Proof. apply as_struct_lawful; [typeclasses eauto|exact bs_sb]. Qed.
Global Instance chat_lawful : lawful_m chat_codec.
Proof. apply as_struct_lawful; [typeclasses eauto|]. intros []. cbn. by rewrite !bs_sb. Qed.
Global Instance join_lawful : lawful_m join_codec.
Proof. apply as_struct_lawful; [typeclasses eauto|]. intros []. cbn. by rewrite bs_sb. Qed.
Global Instance leave_lawful : lawful_m leave_codec.
Proof. apply as_struct_lawful; [typeclasses eauto|exact bs_sb]. Qed.
Global Instance send_lawful : lawful_m send_codec.
Proof. apply as_struct_lawful; [typeclasses eauto|done]. Qed.

Global Instance uint64_value_sound : sound_m uint64_value_codec.
Proof. apply as_struct_sound; [typeclasses eauto|]. by intros [? []]. Qed.
Global Instance string_value_sound : sound_m string_value_codec.
Proof. apply as_struct_sound; [typeclasses eauto|]. intros [b []] [H _]. cbn in *. by rewrite (sb_bs b H). Qed.
Global Instance chat_sound : sound_m chat_codec.
Proof.
  apply as_struct_sound; [typeclasses eauto|]. intros (r & i & s & t & []) (H1 & _ & _ & H4 & _). cbn in *. by rewrite (sb_bs r H1), (sb_bs t H4).
Qed.
Global Instance join_sound : sound_m join_codec.
Proof. apply as_struct_sound; [typeclasses eauto|]. intros (r & t & []) (H1 & _). cbn in *. by rewrite (sb_bs r H1). Qed.
Global Instance leave_sound : sound_m leave_codec.
Proof. apply as_struct_sound; [typeclasses eauto|]. intros [b []] [H _]. cbn in *. by rewrite (sb_bs b H). Qed.
Global Instance send_sound : sound_m send_codec.
Proof. apply as_struct_sound; [typeclasses eauto|]. by intros [? []]. Qed.

Lemma chat_ok c : m_ok chat_codec c <-> rust_chat c.
Proof.
  destruct c as [r i s t]. unfold rust_chat, rust_string, unicode. cbn. split.
  - intros (H1 & H2 & H3 & H4 & _). split_and!; [done| | |done].
    + intros n ->. by destruct H2.
    + intros n ->. by destruct H3.
  - intros (H1 & H2 & H3 & H4). split_and!; [done| | |done|done].
    + destruct i; [|done]. split; [by apply H2|done].
    + destruct s; [|done]. split; [by apply H3|done].
Qed.
Lemma send_ok c : m_ok send_codec (Some c) <-> rust_chat c.
Proof. rewrite <- chat_ok. cbn. tauto. Qed.
Lemma leave_ok r : m_ok leave_codec r <-> rust_string r.
Proof. cbn. unfold rust_string, unicode. tauto. Qed.
Lemma join_ok r : m_ok join_codec (r, None) <-> rust_string r.
Proof. cbn. unfold rust_string, unicode. tauto. Qed.

Lemma join_frame r : rust_string r -> frame_fits (join_bytes r) -> parse_inbound (join_bytes r) = FEvent (EJoin r).
Proof.
  intros H HF. unfold join_bytes, parse_inbound. rewrite parse_write; [done|typeclasses eauto|by vm_compute|by apply join_ok|exact HF].
Qed.
Lemma send_frame c : rust_chat c -> frame_fits (send_bytes c) -> parse_inbound (send_bytes c) = FEvent (EChat c).
Proof.
  intros H HF. unfold send_bytes, parse_inbound. rewrite parse_write; [done|typeclasses eauto|by vm_compute|by apply send_ok|exact HF].
Qed.
Lemma leave_frame r : rust_string r -> frame_fits (leave_bytes r) -> parse_inbound (leave_bytes r) = FEvent (ELeave r).
Proof.
  intros H HF. unfold leave_bytes, parse_inbound. rewrite parse_write; [done|typeclasses eauto|by vm_compute|by apply leave_ok|exact HF].
Qed.

(** Whatever arrives is a message of the Rust type. *)
Definition rust_event (e : event) : Prop :=
  match e with EJoin r | ELeave r => rust_string r | EChat c => rust_chat c | EClose => True end.
Lemma inbound_rust data e : parse_inbound data = FEvent e -> rust_event e.
Proof.
  destruct data as [|k m]; cbn [parse_inbound]; [by intros [= <-]|].
  destruct k as [|[[k|k|]|[k|k|]|]]; try (by intros [= <-]).
  - destruct (parse_msg join_codec m) as [[r t]|] eqn:E; [|done]. intros [= <-].
    apply parse_sound in E; [|typeclasses eauto|by vm_compute|by vm_compute]. by destruct E.
  - destruct (parse_msg leave_codec m) as [r|] eqn:E; [|done]. intros [= <-].
    apply parse_sound in E; [|typeclasses eauto|by vm_compute|by vm_compute]. exact (proj1 (leave_ok _) E).
  - destruct (parse_msg send_codec m) as [[c|]|] eqn:E; [|done|done]. intros [= <-].
    apply parse_sound in E; [|typeclasses eauto|by vm_compute|by vm_compute]. exact (proj1 (send_ok _) E).
Qed.
Lemma ws_rust f e : read_ws f = FEvent e -> rust_event e.
Proof. destruct f; cbn [read_ws]; try done; [apply inbound_rust..|]. by intros [= <-]. Qed.

(** ** JSON *)
Ltac nodup := apply (bool_decide_eq_true_1 (NoDup _)); vm_compute; reflexivity.
Lemma x_chat_x c : x_chat (chat_x c) = Some c.
Proof. destruct c as [r [i|] [s|] t]; cbn; rewrite ?bs_sb, ?N2Z.id; done. Qed.
Lemma chat_rust_ty : rust_ty chat_ty /\ told_apart chat_ty.
Proof.
  split; [|by repeat split]. unfold chat_ty. cbn [rust_ty]. split.
  - nodup.
  - split; [|by repeat split]. cbn [fmap list_fmap fst]. repeat constructor.
Qed.
Lemma chat_has c : rust_chat c -> has_ty chat_ty (chat_x c).
Proof.
  destruct c as [r i s t]. intros (H1 & H2 & H3 & H4). unfold chat_ty, chat_x. cbn [has_ty c_room c_id c_sender c_text] in *.
  split_and!; [done| | |done|done].
  - destruct i as [n|]; [|done]. cbn [opt_x]. specialize (H2 n eq_refl). unfold two64 in H2. lia.
  - destruct s as [n|]; [|done]. cbn [opt_x]. by apply H3.
Qed.
Lemma chat_json_back c : rust_chat c -> chat_of_json (chat_json c) = Some c.
Proof.
  intros H. unfold chat_of_json, chat_json. destruct chat_rust_ty as [H1 H2]. rewrite json_roundtrip; [apply x_chat_x|done|done|by apply chat_has|].
  pose proof (levels_bound chat_ty (chat_x c) (chat_has c H)) as HL. change (ty_levels chat_ty) with 1%nat in HL. lia.
Qed.

Lemma answer_rust_ty : rust_ty answer_ty /\ told_apart answer_ty.
Proof.
  destruct chat_rust_ty as [H1 H2]. unfold answer_ty. split.
  - cbn [rust_ty]. split; [|split; [|split; [|done]]].
    + nodup.
    + cbn [fmap list_fmap fst]. repeat constructor.
    + split; [|split; [|split; [done|split; [exact H1|done]]]].
      * nodup.
      * cbn [fmap list_fmap fst]. repeat constructor.
  - by repeat split.
Qed.
Lemma answer_back creator h : rust_string creator -> Forall rust_chat h -> history_of_json (answer_json creator h) = Some h.
Proof.
  intros Hc Hh. unfold history_of_json, answer_json. destruct answer_rust_ty as [H1 H2].
  assert (HV : has_ty answer_ty (XVar 0 (Some (XList [XStr (sb creator); XList (map chat_x h); XStr (sb "todo: join-token")])))).
  { unfold answer_ty. cbn [has_ty]. split_and!; [exact Hc| |by vm_compute|done].
    clear - Hh. induction Hh as [|c h H _ IH]; constructor; [by apply chat_has|exact IH]. }
  rewrite json_roundtrip; [|done|done|exact HV|].
  - clear. induction h as [|c h IH]; [done|]. cbn [map all_of]. rewrite x_chat_x. by rewrite IH.
  - pose proof (levels_bound _ _ HV) as HL. change (ty_levels answer_ty) with 4%nat in HL. lia.
Qed.

Lemma receive_rust_ty : rust_ty receive_ty /\ told_apart receive_ty.
Proof.
  destruct chat_rust_ty as [H1 H2]. unfold receive_ty. split; [|by repeat split]. cbn [rust_ty]. split; [|split; [|split; [exact H1|done]]].
  - nodup.
  - cbn [fmap list_fmap fst]. repeat constructor.
Qed.
Lemma receive_back c : rust_chat c -> receive_of_json (receive_json c) = Done (Some c).
Proof.
  intros H. unfold receive_of_json, receive_json. destruct receive_rust_ty as [H1 H2].
  assert (HV : has_ty receive_ty (XVar 0 (Some (chat_x c)))) by (apply (chat_has c H)).
  rewrite (json_reads (TyOpt receive_ty) receive_ty (XVar 0 (Some (chat_x c))) (XSome (XVar 0 (Some (chat_x c))))); [by rewrite x_chat_x|done|done|done| |].
  - pose proof (levels_bound _ _ HV) as HL. change (ty_levels receive_ty) with 2%nat in HL. lia.
  - change (XSome <$> migrate receive_ty receive_ty (XVar 0 (Some (chat_x c))) = Some (XSome (XVar 0 (Some (chat_x c))))).
    by rewrite (migrate_self receive_ty _ H1 HV).
Qed.

Lemma handshake_back name : rust_string name -> handshake_of_json (handshake_json name) = Some name.
Proof.
  intros H. unfold handshake_of_json, handshake_json.
  assert (HV : has_ty handshake_ty (XList [XStr (sb name)])) by (split; [exact H|done]).
  rewrite json_roundtrip; [by rewrite bs_sb| |done|done|].
  - unfold handshake_ty. cbn [rust_ty]. split; [|split; [|done]]; cbn [fmap list_fmap fst]; repeat constructor. by apply not_elem_of_nil.
  - pose proof (levels_bound _ _ HV) as HL. change (ty_levels handshake_ty) with 1%nat in HL. lia.
Qed.
