From Coq Require Import Ascii.
From Verif Require Export ShardWire_Model Wire_Proofs.
Local Open Scope N_scope.

Ltac struct_lawful1 := apply as_struct_lawful; [typeclasses eauto|done].

Global Instance allocate_shard_lawful : lawful_m allocate_shard_codec. Proof. struct_lawful. Qed.
Global Instance remote_shard_lawful : lawful_m remote_shard_codec. Proof. struct_lawful. Qed.
Global Instance p_shard_allocated_lawful : lawful_m p_shard_allocated_codec. Proof. struct_lawful1. Qed.
Global Instance p_shard_reallocating_lawful : lawful_m p_shard_reallocating_codec. Proof. struct_lawful1. Qed.
Global Instance p_stop_shard_lawful : lawful_m p_stop_shard_codec. Proof. struct_lawful. Qed.
Global Instance p_shard_stopped_lawful : lawful_m p_shard_stopped_codec. Proof. struct_lawful. Qed.
Global Instance p_allocate_result_lawful : lawful_m p_allocate_result_codec. Proof. struct_lawful. Qed.
Global Instance p_recipe_lawful : lawful_m p_recipe_codec. Proof. struct_lawful1. Qed.
Global Instance p_entity_request_lawful : lawful_m p_entity_request_codec. Proof. struct_lawful. Qed.
Global Instance start_entity_lawful : lawful_m start_entity_codec. Proof. struct_lawful. Qed.
Global Instance entity_id_lawful : lawful_m entity_id_codec. Proof. struct_lawful1. Qed.
Global Instance p_entity_lawful : lawful_m p_entity_codec. Proof. struct_lawful. Qed.
Global Instance p_snapshot_lawful : lawful_m p_snapshot_codec. Proof. struct_lawful. Qed.
Global Instance p_node_stats_lawful : lawful_m p_node_stats_codec. Proof. struct_lawful. Qed.
Global Instance p_sharding_stats_lawful : lawful_m p_sharding_stats_codec. Proof. struct_lawful. Qed.
Global Instance shard_stats_lawful : lawful_m shard_stats_codec. Proof. struct_lawful. Qed.
Global Instance source_lawful : lawful_m source_codec. Proof. struct_lawful1. Qed.
Global Instance p_status_lawful : lawful_m p_status_codec. Proof. struct_lawful1. Qed.

Lemma parse_or_reject_write {A} (m : mcodec A) a :
  lawful_m m -> wf_desc (FMsg (m_desc m)) = true -> m_ok m a -> fits (write_msg m a) ->
  parse_or_reject m (write_msg m a) = Done a.
Proof. intros. unfold parse_or_reject. by rewrite parse_write. Qed.

Ltac by_codec := rewrite parse_or_reject_write; [|typeclasses eauto|reflexivity| |assumption].

(** ** UUIDs *)

Lemma unhex_hex_digit n : n < 16 -> unhex_digit (hex_digit n) = Some n.
Proof.
  intros H. unfold hex_digit, unhex_digit.
  destruct (n <? 10) eqn:E1.
  - replace (48 <=? 48 + n) with true by lia. replace (48 + n <=? 57) with true by lia.
    cbn [andb]. f_equal. lia.
  - replace (87 + n <=? 57) with false by lia. rewrite andb_false_r.
    replace (97 <=? 87 + n) with true by lia. replace (87 + n <=? 102) with true by lia.
    cbn [andb]. f_equal. lia.
Qed.

Lemma unhex_hex b : is_bytes b -> unhex (hex b) = Some b.
Proof.
  unfold hex. induction 1 as [|x b Hx _ IH]; [done|]. cbn [map concat].
  change ([hex_digit (x / 16); hex_digit (x mod 16)] ++ concat (map (fun x => [hex_digit (x / 16); hex_digit (x mod 16)]) b))
    with (hex_digit (x / 16) :: hex_digit (x mod 16) :: concat (map (fun x => [hex_digit (x / 16); hex_digit (x mod 16)]) b)).
  cbn [unhex].
  rewrite !unhex_hex_digit, IH.
  - f_equal. f_equal. pose proof (N.div_mod x 16). lia.
  - apply N.mod_lt. done.
  - apply N.div_lt_upper_bound; lia.
Qed.

Lemma hex_length b : length (hex b) = (2 * length b)%nat.
Proof. unfold hex. induction b as [|x b IH]; [done|]. cbn [map concat]. rewrite app_length, IH. cbn. lia. Qed.

Definition is_uuid (u : bytes) : Prop := length u = 16%nat /\ is_bytes u.

Lemma uuid_roundtrip u : is_uuid u -> uuid_parse (uuid_to_string u) = Some u.
Proof.
  intros [Hl Hb].
  do 16 (destruct u as [|? u]; [discriminate Hl|]). destruct u; [|discriminate Hl]. clear Hl.
  rewrite <- (unhex_hex _ Hb). reflexivity.
Qed.

Lemma utf8_ascii b : Forall (fun x => x < 128) b -> utf8 b = true.
Proof.
  induction 1 as [|x b Hx _ IH]; [done|]. cbn [utf8]. apply N.ltb_lt in Hx. by rewrite Hx.
Qed.

Lemma hex_ascii b : is_bytes b -> Forall (fun x => x < 128) (hex b).
Proof.
  assert (Hd : forall n, n < 16 -> hex_digit n < 128).
  { intros n Hn. unfold hex_digit. destruct (n <? 10) eqn:E; lia. }
  unfold hex. induction 1 as [|x b Hx _ IH]; [constructor|]. cbn [map concat].
  apply Forall_app. split; [|done].
  constructor; [|constructor; [|constructor]]; apply Hd.
  - apply N.div_lt_upper_bound; lia.
  - apply N.mod_lt. done.
Qed.

Lemma uuid_utf8 u : is_bytes u -> utf8 (uuid_to_string u) = true.
Proof.
  intros Hb. apply utf8_ascii. unfold uuid_to_string.
  assert (H45 : Forall (fun x => x < 128) [45]) by (constructor; [lia|constructor]).
  repeat apply Forall_app_2; try exact H45; apply hex_ascii;
    repeat (apply Forall_take || apply Forall_drop); exact Hb.
Qed.

(** ** Sharding *)

Lemma allocate_roundtrip m :
  as_shard m < two32 -> fits (write_allocate m) -> read_allocate (write_allocate m) = Done m.
Proof. intros H Hf. unfold read_allocate, write_allocate in *. by_codec; done. Qed.

Definition allocate_result_ok (r : allocate_result) : Prop :=
  match r with
  | Allocated s n | AlreadyAllocated s n => s < two32 /\ n < two64
  | _ => True
  end.

Lemma allocate_result_roundtrip r :
  allocate_result_ok r -> fits (write_allocate_result r) ->
  read_allocate_result (write_allocate_result r) = Done r.
Proof.
  intros H Hf. unfold read_allocate_result, write_allocate_result in *.
  destruct r as [s n|s n| |[]]; rewrite parse_write;
    try (typeclasses eauto); try reflexivity; try exact Hf;
    repeat split; try apply H.
Qed.

Lemma shard_allocated_roundtrip s n :
  s < two32 -> n < two64 -> fits (write_shard_allocated s n) ->
  read_shard_allocated (write_shard_allocated s n) = Done (s, n).
Proof. intros Hs Hn Hf. unfold read_shard_allocated, write_shard_allocated in *. by_codec; done. Qed.

(** A [ShardReallocating] has the same bytes as a [StopShard] with empty other fields. *)
Lemma reallocating_as_stop s :
  write_shard_reallocating s = write_msg p_stop_shard_codec (PStopShard s 0 []).
Proof. reflexivity. Qed.

Lemma shard_reallocating_roundtrip s :
  s < two32 -> fits (write_shard_reallocating s) ->
  read_shard_reallocating (write_shard_reallocating s) = Done s.
Proof.
  intros Hs Hf. unfold read_shard_reallocating. rewrite reallocating_as_stop in *. by_codec; done.
Qed.

Lemma stop_shard_roundtrip m :
  ss_shard m < two32 -> is_uuid (ss_request m) -> ss_origin m < two64 -> fits (write_stop_shard m) ->
  read_stop_shard (write_stop_shard m) = Done m.
Proof.
  destruct m as [s u o]. cbn [ss_shard ss_request ss_origin]. intros Hs Hu Ho Hf.
  unfold read_stop_shard, write_stop_shard in *. cbn [ss_shard ss_request ss_origin] in *. by_codec.
  - cbn [obind pss_request]. rewrite uuid_roundtrip by done. done.
  - repeat split; [done|done|]. apply uuid_utf8, Hu.
Qed.

Lemma shard_stopped_roundtrip m :
  sd_shard m < two32 -> fits (write_shard_stopped m) ->
  read_shard_stopped (write_shard_stopped m) = Done m.
Proof.
  destruct m as [s b]. cbn [sd_shard]. intros Hs Hf.
  unfold read_shard_stopped, write_shard_stopped in *. by_codec; [done|]. repeat split; done.
Qed.

Definition entity_request_ok (m : entity_request) : Prop :=
  is_uuid (er_request m) /\ utf8 (er_actor m) = true /\ utf8 (er_type m) = true /\ er_origin m < two64.

Lemma entity_request_roundtrip m :
  entity_request_ok m -> fits (write_entity_request m) ->
  read_entity_request (write_entity_request m) = Done m.
Proof.
  destruct m as [u a t b r o]. intros (Hu & Ha & Ht & Ho) Hf.
  cbn [er_request er_actor er_type er_origin] in *.
  unfold read_entity_request, write_entity_request in *.
  cbn [er_request er_actor er_type er_origin er_message er_recipe] in *. by_codec.
  - cbn [obind per_request]. rewrite uuid_roundtrip by done. done.
  - repeat split; try done; [apply uuid_utf8, Hu|]. by destruct r.
Qed.

Lemma start_entity_roundtrip m :
  utf8 (se_actor m) = true -> fits (write_start_entity m) ->
  read_start_entity (write_start_entity m) = Done m.
Proof. intros H Hf. unfold read_start_entity, write_start_entity in *. by_codec; [done|]. repeat split; done. Qed.

Lemma remove_entity_roundtrip a :
  utf8 a = true -> fits (write_remove_entity a) -> read_remove_entity (write_remove_entity a) = Done a.
Proof. intros H Hf. unfold read_remove_entity, write_remove_entity in *. by_codec; [done|]. repeat split; done. Qed.
Lemma passivate_entity_roundtrip a :
  utf8 a = true -> fits (write_passivate_entity a) -> read_passivate_entity (write_passivate_entity a) = Done a.
Proof. intros H Hf. unfold read_passivate_entity, write_passivate_entity in *. by_codec; [done|]. repeat split; done. Qed.

Definition snapshot_ok (s : shard_snapshot) : Prop :=
  sn_shard s < two32 /\ sn_node s < two64 /\ Forall (fun e => utf8 (en_actor e) = true) (sn_entities s).

(** What survives of a snapshot: everything but the difference between idle, starting and
    active entities. *)
Definition settled (e : entity) : entity :=
  MkEntity (en_actor e) (en_recipe e) (match en_state e with EPassivated => EPassivated | _ => EIdle end).

Lemma shard_snapshot_roundtrip s :
  snapshot_ok s -> fits (write_shard_snapshot s) ->
  read_shard_snapshot (write_shard_snapshot s)
  = Done (ShardSnapshot (sn_shard s) (sn_node s) (map settled (sn_entities s))).
Proof.
  destruct s as [s n es]. intros (Hs & Hn & He) Hf. cbn [sn_shard sn_node sn_entities] in *.
  unfold read_shard_snapshot, write_shard_snapshot in *. cbn [sn_shard sn_node sn_entities] in *. by_codec.
  - cbn [obind psn_entities psn_shard psn_node]. clear He Hf.
    assert (H : all_done entity_of_proto
        (map (fun e => PEntity (en_actor e) (en_recipe e) (entity_state_code (en_state e))) es)
        = Done (map settled es)).
    { induction es as [|[a r st] es IH]; [done|]. cbn [map all_done]. rewrite IH. by destruct st. }
    by rewrite H.
  - repeat split; [done|done|]. cbn [fst snd psn_entities]. clear Hf.
    induction He as [|[a r st] es Ha _ IH]; cbn [map]; constructor; [|done].
    repeat split; [done|]. by destruct st.
Qed.

Definition sharding_stats_ok (s : sharding_stats) : Prop :=
  utf8 (st_entity s) = true /\ st_total s < two64 /\
  Forall (fun r => rs_shard r < two32 /\ rs_node r < two64) (st_shards s) /\
  Forall (fun n => ns_node n < two64 /\ ns_count n < two64) (st_nodes s).

Lemma sharding_stats_roundtrip s :
  sharding_stats_ok s -> fits (write_sharding_stats s) ->
  read_sharding_stats (write_sharding_stats s) = Done s.
Proof.
  destruct s as [e t ss ns]. intros (He & Ht & Hs & Hn) Hf.
  cbn [st_entity st_total st_shards st_nodes] in *.
  unfold read_sharding_stats, write_sharding_stats in *. cbn [st_entity st_total st_shards st_nodes] in *. by_codec.
  - cbn [obind pst_nodes pst_entity pst_total pst_shards]. clear Hn Hf.
    assert (H : all_done node_stats_of_proto
       (map (fun n => PNodeStats (ns_node n) (ns_count n) (host_status_code (ns_status n))) ns) = Done ns).
    { induction ns as [|[a r st] ns IH]; [done|]. cbn [map all_done]. rewrite IH. by destruct st. }
    by rewrite H.
  - repeat split; [done|done| |]; cbn [fst snd pst_shards pst_nodes]; clear Hf.
    + eapply Forall_impl; [exact Hs|]. intros [a b] [H1 H2]. by repeat split.
    + clear Hs. induction Hn as [|[a r st] ns [H1 H2] _ IH]; cbn [map]; constructor; [|done].
      repeat split; [done|done|]. by destruct st.
Qed.

Definition shard_stats_ok (s : shard_stats) : Prop :=
  sst_shard s < two32 /\ sst_node s < two64 /\ Forall (fun e => utf8 e = true) (sst_entities s).

Lemma shard_stats_roundtrip s :
  shard_stats_ok s -> fits (write_shard_stats s) -> read_shard_stats (write_shard_stats s) = Done s.
Proof.
  intros (H1 & H2 & H3) Hf. unfold read_shard_stats, write_shard_stats in *. by_codec; [done|].
  repeat split; done.
Qed.

(** ** Singletons *)

Lemma singleton_roundtrip k n :
  k <> KGetStatus -> n < two64 -> fits (write_singleton k n) ->
  read_singleton k (write_singleton k n) = Done n.
Proof.
  intros Hk Hn Hf. unfold read_singleton, write_singleton in *.
  destruct k; try done; by_codec; try done; by repeat split.
Qed.

Lemma status_roundtrip s : read_status (write_status s) = Done s.
Proof. by destruct s; vm_compute. Qed.

(** ** Journal entries *)

Lemma string_of_bytes_of_string s : string_of_bytes (bytes_of_string s) = s.
Proof. induction s as [|a s IH]; [done|]. cbn [bytes_of_string string_of_bytes]. by rewrite IH, ascii_N_embedding. Qed.

Global Instance journal_entry_lawful : lawful_m journal_entry_codec.
Proof.
  apply as_struct_lawful; [typeclasses eauto|]. intros [s t b]. cbn. by rewrite string_of_bytes_of_string.
Qed.

Definition entry_ok (e : entry) : Prop := is_i64 (e_seq e) /\ utf8 (bytes_of_string (e_type e)) = true.

Lemma entry_codec_ok e : entry_ok e -> m_ok journal_entry_codec e.
Proof. intros [H1 H2]. split; [exact H1|]. split; [exact H2|]. by split. Qed.

Lemma entry_roundtrip e b :
  entry_ok e -> write_entry e = Some b -> fits b -> read_entry b = Some e.
Proof.
  intros He [= <-] Hf. unfold read_entry.
  apply parse_write; [typeclasses eauto|reflexivity|by apply entry_codec_ok|done].
Qed.

Lemma entry_inj e1 e2 b :
  entry_ok e1 -> entry_ok e2 -> write_entry e1 = Some b -> write_entry e2 = Some b -> fits b -> e1 = e2.
Proof.
  intros H1 H2 W1 W2 Hf. assert (Some e1 = Some e2) as [= ->]; [|done].
  rewrite <- (entry_roundtrip e1 b), <- (entry_roundtrip e2 b); done.
Qed.
