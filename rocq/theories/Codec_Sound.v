(** Sound codecs: whatever bytes arrive, what is read from them is a value of the Rust type. *)
From Verif Require Export Codec_Proofs.
Local Open Scope N_scope.

(** The types in a descriptor; [FI32] also holds negative numbers, which the model leaves out. *)
Fixpoint no_i32 (t : ftype) : bool :=
  match t with FI32 => false | FMsg fs => forallb (fun f : field => no_i32 f.2) fs | _ => true end.

Definition small (w : wire) : Prop := match w with WVarint n => n < two64 | _ => True end.

Lemma unvarint_lt b n r : unvarint b = Some (n, r) -> n < two64.
Proof. unfold unvarint. destruct (unvarint_aux 10 b) as [[m r']|]; [|done]. intros [= <- _]. by apply N.mod_lt. Qed.

Lemma read_wire_small t b w r : read_wire t b = Some (w, r) -> small w.
Proof.
  unfold read_wire. intros H. repeat (match type of H with (if ?c then _ else _) = _ => destruct c end); try done.
  - destruct (unvarint b) as [[n r']|] eqn:E; [|done]. injection H as <- _. by eapply unvarint_lt.
  - destruct (take_exact 8 b) as [[x r']|]; [|done]. by injection H as <- _.
  - destruct (unvarint b) as [[n r']|]; [|done]. destruct (take_exact n r') as [[x r2]|]; [|done]. by injection H as <- _.
  - destruct (take_exact 4 b) as [[x r']|]; [|done]. by injection H as <- _.
Qed.

Lemma parse_small b ws : parse b = Some ws -> Forall (fun f => small f.2) ws.
Proof.
  unfold parse. generalize (length b). intros f. revert b ws. induction f as [|f IH]; intros b ws H.
  - destruct b; [|done]. injection H as <-. constructor.
  - destruct b as [|x b]; [injection H as <-; constructor|]. cbn [parse_aux] in H.
    destruct (unvarint (x :: b)) as [[tag r]|]; [|done]. destruct ((two32 <=? tag) || (tag / 8 =? 0)); [done|].
    destruct (read_wire (tag mod 8) r) as [[w r']|] eqn:E; [|done]. destruct (parse_aux f r') as [fs|] eqn:E'; [|done].
    injection H as <-. constructor; [exact (read_wire_small _ _ _ _ E)|exact (IH _ _ E')].
Qed.

Lemma all_some_all {A B} (f : A -> option B) (P : A -> Prop) (Q : B -> bool) l r :
  (forall x y, P x -> f x = Some y -> Q y = true) -> Forall P l -> all_some f l = Some r -> forallb Q r = true.
Proof.
  intros H HP. revert r. induction HP as [|x l Hx _ IH]; intros r E; cbn in E; [by injection E as <-|].
  destruct (f x) as [y|] eqn:Ey; [|done]. change ((fix go l := match l with
              | [] => Some []
              | x :: l' => match f x, go l' with Some y, Some r => Some (y :: r) | _, _ => None end
              end) l) with (all_some f l) in E.
  destruct (all_some f l) as [r'|]; [|done]. injection E as <-. cbn. rewrite (H x y Hx Ey). exact (IH r' eq_refl).
Qed.

Lemma occurrences_small no t ws : Forall (fun f => small f.2) ws -> Forall small (occurrences no t ws).
Proof.
  intros H. unfold occurrences. induction H as [|x ws Hx _ IH]; [constructor|]. cbn [List.filter].
  destruct ((x.1 =? no) && (wire_type x.2 =? type_wire t)); [|exact IH]. constructor; [exact Hx|exact IH].
Qed.


Definition never_always : ftype -> bool :=
  fix go t := match t with FMsg fs => forallb (fun f : field => match f.1.2, f.2 with Always, FMsg _ => false | _, _ => true end && go f.2) fs | _ => true end.

Lemma settle_sound lb t vs : match lb, t with Always, FMsg _ => False | _, _ => True end ->
  forallb (wf t) vs = true -> wf_content lb t (settle lb t vs) = true.
Proof.
  intros Ha H. assert (Hl : forall v, last vs = Some v -> wf t v = true).
  { intros v Hv. rewrite forallb_forall in H. apply H. apply elem_of_list_In. apply last_Some_elem_of. exact Hv. }
  destruct lb; cbn [settle].
  - destruct (last vs) as [v|]; [|done]. destruct (is_default v) eqn:E; [done|]. cbn [wf_content]. by rewrite E, Hl.
  - destruct (last vs) as [v|]; [exact (Hl v eq_refl)|]. by destruct t.
  - exact H.
Qed.

Lemma dec_sound t : no_i32 t = true -> never_always t = true -> forall w v, small w -> dec t w = Some v -> wf t v = true.
Proof.
  induction t as [| | | | | |fs IH] using ftype_ind'; intros HI HA w v Hs H.
  - destruct w; try done. injection H as <-. cbn [wf]. apply N.ltb_lt. by apply N.mod_lt.
  - destruct w; try done. injection H as <-. cbn [wf]. apply N.ltb_lt. exact Hs.
  - done.
  - destruct w; try done. injection H as <-. cbn [wf]. by destruct (n =? 0).
  - destruct w; try done. by injection H as <-.
  - destruct w; try done. cbn [dec] in H. destruct (utf8 b) eqn:E; [|done]. injection H as <-. exact E.
  - destruct w as [| |b|]; try done. rewrite dec_msg in H. destruct (parse b) as [ws|] eqn:E; [|done].
    destruct (dec_fields ws fs) as [ms|] eqn:E'; [|done]. injection H as <-. rewrite wf_msg. pose proof (parse_small _ _ E) as Hsm.
    clear E Hs. revert ms E'. induction IH as [|[[no lb] ty] fs H1 _ IHf]; intros ms E'; cbn [dec_fields] in E'; [by injection E' as <-|].
    cbn [no_i32 forallb snd] in HI. apply andb_true_iff in HI as [HI1 HI2].
    cbn [never_always forallb fst snd] in HA. apply andb_true_iff in HA as [HA1 HA2]. apply andb_true_iff in HA1 as [HA0 HA1].
    destruct (all_some (dec ty) (occurrences no ty ws)) as [vs|] eqn:Ev; [|done]. fold (dec_fields ws) in E'.
    destruct (dec_fields ws fs) as [r|] eqn:Er; [|done]. injection E' as <-. cbn [wf_fields]. fold wf_fields. apply andb_true_iff. split.
    + apply settle_sound.
      * destruct lb; [done| |done]. destruct ty; done.
      * refine (all_some_all (dec ty) small (wf ty) _ vs _ (occurrences_small no ty ws Hsm) Ev). intros x y Hx Hy. exact (H1 HI1 HA1 x y Hx Hy).
    + apply IHf; done.
Qed.

Theorem decode_sound d b m : no_i32 (FMsg d) = true -> never_always (FMsg d) = true -> decode d b = Some m -> wf_fields d m = true.
Proof.
  intros HI HA H. unfold decode in H. destruct (dec (FMsg d) (WLen b)) as [v|] eqn:E; [|done].
  pose proof (dec_sound (FMsg d) HI HA (WLen b) v I E) as Hw. destruct v as [| |ms]; try done. injection H as <-. exact Hw.
Qed.

Class sound_f {A} (f : fcodec A) := Sound_f : forall l, wf_content (f_label f) (f_type f) l = true -> f_ok f (f_from f l).
Class sound_m {A} (m : mcodec A) := Sound_m : forall l, wf_fields (m_desc m) l = true -> m_ok m (m_from m l).

Lemma implicit_cases t l : wf_content Implicit t l = true -> l = [] \/ exists v, l = [v] /\ wf t v = true.
Proof. destruct l as [|v [|]]; [by left| |done]. cbn. intros [_ H]%andb_true_iff. right. by exists v. Qed.

Global Instance u64f_sound : sound_f u64f.
Proof.
  intros l H. destruct (implicit_cases _ _ H) as [-> |(v & -> & Hv)]; [done|]. cbn. destruct v; try done. by apply N.ltb_lt.
Qed.
Global Instance u32f_sound : sound_f u32f.
Proof.
  intros l H. destruct (implicit_cases _ _ H) as [-> |(v & -> & Hv)]; [done|]. cbn. destruct v; try done. by apply N.ltb_lt.
Qed.
Global Instance boolf_sound : sound_f boolf. Proof. done. Qed.
Global Instance bytesf_sound : sound_f bytesf. Proof. done. Qed.
Global Instance stringf_sound : sound_f stringf.
Proof. intros l H. destruct (implicit_cases _ _ H) as [-> |(v & -> & Hv)]; [done|]. cbn. by destruct v. Qed.
Global Instance keyf_sound : sound_f keyf.
Proof. intros [|v [|]] H; try done. cbn in *. by destruct v. Qed.
Global Instance stringsf_sound : sound_f stringsf.
Proof.
  intros l H. cbn in *. rewrite forallb_forall in H. apply List.Forall_forall. intros b Hb. apply in_map_iff in Hb as (v & <- & Hv).
  specialize (H v Hv). by destruct v.
Qed.
Global Instance subf_sound {A} (m : mcodec A) : sound_m m -> sound_f (subf m).
Proof.
  intros Hm l H. destruct (implicit_cases _ _ H) as [-> |(v & -> & Hv)]; [done|]. destruct v as [| |c]; try done. cbn. apply Hm. exact Hv.
Qed.
Global Instance subsf_sound {A} (m : mcodec A) : sound_m m -> sound_f (subsf m).
Proof.
  intros Hm l H. cbn [subsf f_ok f_from f_label f_type wf_content] in *. rewrite forallb_forall in H. apply List.Forall_forall. intros a Ha.
  apply in_map_iff in Ha as (v & <- & Hv). specialize (H v Hv). destruct v as [| |c]; try done. unfold msg_of. apply Hm. exact H.
Qed.
Global Instance no_fields_sound : sound_m no_fields. Proof. done. Qed.
Global Instance with_field_sound {A B} no (f : fcodec A) (m : mcodec B) : sound_f f -> sound_m m -> sound_m (with_field no f m).
Proof.
  intros Hf Hm [|l ms] H; [done|]. unfold with_field in *. cbn [m_desc m_from m_ok wf_fields hd tl fst snd] in *.
  apply andb_true_iff in H as [H1 H2]. split; [exact (Hf l H1)|exact (Hm ms H2)].
Qed.
Lemma as_struct_sound {A B} (to : B -> A) (from : A -> B) (m : mcodec A) :
  sound_m m -> (forall a, m_ok m a -> to (from a) = a) -> sound_m (as_struct to from m).
Proof. intros Hm Hi l H. pose proof (Hm l H) as H1. unfold as_struct. cbn [m_from m_ok]. by rewrite (Hi _ H1). Qed.

Theorem parse_sound {A} (m : mcodec A) b a :
  sound_m m -> no_i32 (FMsg (m_desc m)) = true -> never_always (FMsg (m_desc m)) = true -> parse_msg m b = Some a -> m_ok m a.
Proof.
  intros Hm HI HA H. unfold parse_msg in H. destruct (decode (m_desc m) b) as [c|] eqn:E; [|done]. injection H as <-.
  apply Hm. exact (decode_sound _ _ _ HI HA E).
Qed.
