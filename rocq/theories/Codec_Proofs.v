(** Lawful codecs: what is written is read back. *)
From Verif Require Export Codec_Model Proto_Proofs.
Local Open Scope N_scope.

Class lawful_f {A} (f : fcodec A) := Lawful_f : forall a, f_ok f a ->
  wf_content (f_label f) (f_type f) (f_to f a) = true /\ f_from f (f_to f a) = a.

Class lawful_m {A} (m : mcodec A) := Lawful_m : forall a, m_ok m a ->
  wf_fields (m_desc m) (m_to m a) = true /\ m_from m (m_to m a) = a.

Global Instance u64f_lawful : lawful_f u64f.
Proof. intros a H. split; [by apply wf_num_u64|apply get_num_num]. Qed.
Global Instance u32f_lawful : lawful_f u32f.
Proof. intros a H. split; [by apply wf_num_u32|apply get_num_num]. Qed.
Global Instance enumf_lawful : lawful_f enumf.
Proof. intros a H. split; [by apply wf_num_i32|apply get_num_num]. Qed.
Global Instance i64f_lawful : lawful_f i64f.
Proof.
  intros a H. split; [apply wf_num_u64, u64_lt|].
  unfold i64f. cbn [f_from f_to]. rewrite get_num_num. by apply i64_u64.
Qed.
Global Instance boolf_lawful : lawful_f boolf.
Proof. intros a _. split; [apply wf_boolv|apply get_bool_boolv]. Qed.
Global Instance stringf_lawful : lawful_f stringf.
Proof. intros a H. split; [by apply wf_str_string|apply get_str_str]. Qed.
Global Instance bytesf_lawful : lawful_f bytesf.
Proof. intros a _. split; [apply wf_str_bytes|apply get_str_str]. Qed.
Global Instance keyf_lawful : lawful_f keyf.
Proof. intros a H. split; [exact H|done]. Qed.
Global Instance stringsf_lawful : lawful_f stringsf.
Proof.
  intros a H. unfold stringsf in *. cbn [f_ok f_label f_type f_from f_to wf_content] in *. split.
  - apply forallb_forall. intros v Hv. apply in_map_iff in Hv as (b & <- & Hb).
    rewrite Forall_forall in H. apply H. by apply elem_of_list_In.
  - rewrite map_map. apply map_id.
Qed.
Global Instance subf_lawful {A} (m : mcodec A) : lawful_m m -> lawful_f (subf m).
Proof.
  intros Hm [a|] H; [|done]. destruct (Hm a H) as [H1 H2].
  split; [by apply wf_msg_opt|]. unfold subf. cbn [f_from f_to]. by rewrite H2.
Qed.
Global Instance subsf_lawful {A} (m : mcodec A) : lawful_m m -> lawful_f (subsf m).
Proof.
  intros Hm l H. unfold subsf in *. cbn [f_ok f_label f_type f_from f_to wf_content] in *. split.
  - apply forallb_forall. intros v Hv. apply in_map_iff in Hv as (a & <- & Ha).
    rewrite Forall_forall in H. rewrite wf_msg. apply Hm. apply H. by apply elem_of_list_In.
  - rewrite map_map. induction H as [|a l Ha _ IH]; [done|]. cbn [map]. rewrite IH.
    f_equal. by apply Hm.
Qed.

Global Instance no_fields_lawful : lawful_m no_fields.
Proof. intros [] _. done. Qed.
Global Instance with_field_lawful {A B} no (f : fcodec A) (m : mcodec B) :
  lawful_f f -> lawful_m m -> lawful_m (with_field no f m).
Proof.
  intros Hf Hm [a b] [Ha Hb]. cbn [fst snd] in *. destruct (Hf a Ha) as [F1 F2], (Hm b Hb) as [M1 M2].
  unfold with_field. cbn [m_desc m_to m_from wf_fields hd tl fst snd].
  rewrite F1, F2, M2. split; [exact M1|done].
Qed.

Lemma as_struct_lawful {A B} (to : B -> A) (from : A -> B) (m : mcodec A) :
  lawful_m m -> (forall b, from (to b) = b) -> lawful_m (as_struct to from m).
Proof.
  intros Hm Hi b Hb. destruct (Hm _ Hb) as [H1 H2].
  unfold as_struct. cbn [m_desc m_to m_from]. rewrite H2. split; [exact H1|apply Hi].
Qed.

Ltac struct_lawful := apply as_struct_lawful; [typeclasses eauto|by intros []].

Global Instance entry_lawful : lawful_m entry_codec.
Proof. struct_lawful. Qed.
Global Instance mapf_lawful : lawful_f mapf.
Proof. unfold mapf. typeclasses eauto. Qed.

(** The round trip, for every message type. *)
Theorem parse_write {A} (m : mcodec A) a :
  lawful_m m -> wf_desc (FMsg (m_desc m)) = true -> m_ok m a -> fits (write_msg m a) ->
  parse_msg m (write_msg m a) = Some a.
Proof.
  intros Hm Hd Ha Hf. destruct (Hm a Ha) as [H1 H2].
  unfold parse_msg, write_msg in *. rewrite decode_encode; [by rewrite H2|done|by rewrite wf_msg|done].
Qed.

Theorem write_inj {A} (m : mcodec A) a b :
  lawful_m m -> wf_desc (FMsg (m_desc m)) = true -> m_ok m a -> m_ok m b -> fits (write_msg m a) ->
  write_msg m a = write_msg m b -> a = b.
Proof.
  intros Hm Hd Ha Hb Hf E.
  pose proof (parse_write m a Hm Hd Ha Hf) as P1.
  pose proof (parse_write m b Hm Hd Hb) as P2. rewrite <- E in P2. specialize (P2 Hf). congruence.
Qed.
