(** Property C105: JSON that another program wrote. *)
From Coq Require Import String Ascii.
From Verif Require Import Base.
From Verif Require Import Json_Proofs Json_Proofs2 JsonText_Proofs JsonText_Proofs2 JsonText_Sound.
Local Open Scope list_scope.
Local Open Scope N_scope.

(** Whatever the layout, the escapes and the order of the fields, the value is read. *)
Theorem C105_partial t v j b : rust_ty t -> shows t v j -> document j b -> (nesting j < 128)%nat -> from_slice t b = Some v.
Proof. intros HR HS HD HN. unfold from_slice. rewrite (document_reads j b HD HN). exact (proj1 all_shown t v j HS HR). Qed.
Print Assumptions C105_partial.

(** What is read is JSON text, and a text says one thing. *)
Theorem C105_only t b v : from_slice t b = Some v -> exists j, document j b /\ (nesting j < 128)%nat /\ forall j', document j' b -> (nesting j' < 128)%nat -> j' = j.
Proof.
  unfold from_slice. destruct (read_text b) as [j|] eqn:E; [|done]. intros _. exists j. destruct (reads_document j b E) as [H1 H2].
  split; [done|]. split; [done|]. intros j' H3 H4. pose proof (document_reads j' b H3 H4) as E'. rewrite E in E'. by injection E' as ->.
Qed.
Print Assumptions C105_only.
(** A text says one thing about the values of a type. *)
Theorem C105_one_partial t b v w j k : rust_ty t -> document j b -> document k b -> (nesting j < 128)%nat -> (nesting k < 128)%nat ->
  shows t v j -> shows t w k -> v = w.
Proof.
  intros HR Hj Hk Nj Nk Hv Hw. pose proof (C105_partial t v j b HR Hv Hj Nj) as E. rewrite (C105_partial t w k b HR Hw Hk Nk) in E.
  by injection E.
Qed.
Print Assumptions C105_one_partial.

(** What this code writes is such a text: other programs can read it. *)
Theorem C105_own_partial t v : rust_ty t -> told_apart t -> has_ty t v -> (levels v t < 128)%nat ->
  shows t v (to_json t v) /\ document (to_json t v) (to_vec t v).
Proof.
  intros HR HT HV HL. split; [by apply own_shown|]. unfold to_vec. apply reads_document. apply text_roundtrip.
  - by apply clean_json.
  - pose proof (depth_levels t v HV). lia.
Qed.
Print Assumptions C105_own_partial.

(** 128 levels of brackets are too much. *)
Fixpoint deep_ty (n : nat) : ty := match n with O => TyVec TyUnit | S n' => TyVec (deep_ty n') end.
Fixpoint deep_value (n : nat) : xval := match n with O => XList [] | S n' => XList [deep_value n'] end.
Fixpoint deep_tree (n : nat) : json := match n with O => JArr [] | S n' => JArr [deep_tree n'] end.
Fixpoint deep_text (n : nat) : bytes := match n with O => [91; 93] | S n' => 91 :: deep_text n' ++ [93] end.
Lemma deep_ok n : rust_ty (deep_ty n) /\ shows (deep_ty n) (deep_value n) (deep_tree n) /\ written (deep_tree n) (deep_text n).
Proof.
  induction n as [|n (IH1 & IH2 & IH3)].
  - split_and!; [done|constructor; constructor|apply (WrEmptyArr []); constructor].
  - split_and!; [exact IH1|constructor; constructor; [done|constructor]|].
    cbn [deep_tree deep_text]. apply WrArr. rewrite <- (app_nil_r (deep_text n)). apply (ItLast [] _ _ []); [constructor|done|constructor].
Qed.
Theorem C105_deep_refuted : exists t v j b, rust_ty t /\ shows t v j /\ document j b /\ from_slice t b = None.
Proof.
  exists (deep_ty 127), (deep_value 127), (deep_tree 127), (deep_text 127). destruct (deep_ok 127) as (H1 & H2 & H3).
  split_and!; [done|done| |by vm_compute]. exists [], (deep_text 127), []. split_and!; [by rewrite app_nil_r|constructor|done|constructor].
Qed.
Print Assumptions C105_deep_refuted.

(** { "b" : [1, -20 ], "a":"x\/\u00e9\uD83d\ude00", "other": {} } *)
Definition ascii_text (s : string) : bytes := N_of_ascii <$> list_ascii_of_string s.
Definition q : string := String (ascii_of_N 34) "".
Definition ex_text : bytes := ascii_text
  ("{ " ++ q ++ "b" ++ q ++ " : [1, -20 ], " ++ q ++ "a" ++ q ++ ":" ++ q ++ "x\/\u00e9\uD83d\ude00" ++ q ++ ", " ++ q ++ "other" ++ q ++ ": {} }")%string.
Definition ex_ty : ty := TyStruct [([97], TyStr); ([98], TyVec (TyInt (-128) 127)); ([99], TyOpt TyBool)].
Definition ex_word : bytes := [120; 47; 195; 169; 240; 159; 152; 128].
Definition ex_tree : json := JObj [([98], JArr [JInt 1; JInt (-20)]); ([97], JStr ex_word); (ascii_text "other", JObj [])].
Definition ex_value : xval := XList [XStr ex_word; XList [XInt 1; XInt (-20)]; XNone].
Example C105_case : rust_ty ex_ty /\ shows ex_ty ex_value ex_tree /\ document ex_tree ex_text /\ (nesting ex_tree < 128)%nat.
Proof.
  split_and!.
  - vm_compute. split_and!; try done; [apply (bool_decide_unpack _); by vm_compute|repeat constructor].
  - constructor.
    apply (ShfGiven [([98], JArr [JInt 1; JInt (-20)])] [97] (JStr ex_word) [(ascii_text "other", JObj [])]);
      [by apply (bool_decide_unpack _); vm_compute|by apply (bool_decide_unpack _); vm_compute|constructor|].
    apply (ShfGiven [] [98] (JArr [JInt 1; JInt (-20)]) [([97], JStr ex_word); (ascii_text "other", JObj [])]);
      [by apply (bool_decide_unpack _); vm_compute|by apply (bool_decide_unpack _); vm_compute|repeat constructor; lia|].
    apply ShfLeftOut; [by apply (bool_decide_unpack _); vm_compute|constructor].
  - apply reads_document. by vm_compute.
  - vm_compute. lia.
Qed.
Example C105_result : from_slice ex_ty ex_text = Some ex_value.
Proof. by vm_compute. Qed.
