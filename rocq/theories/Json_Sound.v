(** Whatever text arrives, what is read from it is a value of the type, nested less than 128
    levels deep. *)
From Verif Require Import Base.
From Verif Require Proto_Model.
From Verif Require Export Json_Proofs3.
Local Open Scope N_scope.

Lemma read_string_unicode b s r : read_string b = Some (s, r) -> unicode s.
Proof.
  unfold read_string. destruct (read_chars b) as [[s' r']|]; [|done]. destruct (Proto_Model.utf8 s') eqn:E; [|done]. by intros [= <- _].
Qed.
Lemma read_number_clean b j r : read_number b = Some (j, r) -> clean j /\ depth j = 0%nat.
Proof.
  unfold read_number. destruct b as [|c b]; [done|]. destruct (c =? 45).
  - destruct (read_integer b) as [[n r']|]; [|done]. destruct ((1 <=? n) && (n <=? 9223372036854775808)) eqn:E; [|done].
    intros [= <- _]. apply andb_true_iff in E as [E1%N.leb_le E2%N.leb_le]. split; [|done]. cbn. unfold fits. lia.
  - destruct (read_integer (c :: b)) as [[n r']|]; [|done]. destruct (n <? 18446744073709551616) eqn:E; [|done].
    intros [= <- _]. apply N.ltb_lt in E. split; [|done]. cbn. unfold fits. lia.
Qed.

Definition below (d : nat) (j : json) : Prop := clean j /\ (depth j < d)%nat.
Lemma depth_arr l d : Forall (below (S d)) l -> below (S (S d)) (JArr l).
Proof.
  intros H. split; [apply clean_arr; eapply Forall_impl; [exact H|]; by intros x []|]. cbn [depth].
  assert (fold_right (fun x m => Nat.max (depth x) m) 0%nat l < S d)%nat; [|lia].
  induction H as [|x l [_ Hx] _ IH]; cbn; lia.
Qed.
Lemma depth_obj l d : Forall (fun e => unicode e.1 /\ below (S d) e.2) l -> below (S (S d)) (JObj l).
Proof.
  intros H. split; [apply clean_obj; eapply Forall_impl; [exact H|]; by intros x (? & ? & ?)|]. cbn [depth].
  assert (fold_right (fun e m => Nat.max (depth e.2) m) 0%nat l < S d)%nat; [|lia].
  induction H as [|x l (_ & _ & Hx) _ IH]; cbn; lia.
Qed.

Lemma reader_sound f :
  (forall d b j r, value f d b = Some (j, r) -> (1 <= d)%nat -> below d j) /\
  (forall d first b l r, elements f d first b = Some (l, r) -> (1 <= d)%nat -> Forall (below d) l) /\
  (forall d first b l r, members f d first b = Some (l, r) -> (1 <= d)%nat -> Forall (fun e => unicode e.1 /\ below d e.2) l).
Proof.
  induction f as [|f (IV & IE & IM)]; [done|]. split_and!.
  - intros d b j r H Hd. cbn [value] in H. destruct (skip_white b) as [|c b']; [done|].
    destruct (c =? 110). { destruct (strip [117; 108; 108] b'); [|done]. injection H as <- _. split; [done|cbn; lia]. }
    destruct (c =? 116). { destruct (strip [114; 117; 101] b'); [|done]. injection H as <- _. split; [done|cbn; lia]. }
    destruct (c =? 102). { destruct (strip [97; 108; 115; 101] b'); [|done]. injection H as <- _. split; [done|cbn; lia]. }
    destruct (c =? 34). { destruct (read_string b') as [[s r']|] eqn:E; [|done]. injection H as <- _. split; [exact (read_string_unicode _ _ _ E)|cbn; lia]. }
    destruct (c =? 91).
    { destruct d as [|[|d]]; [done|done|]. destruct (elements f (S d) true b') as [[l r']|] eqn:E; [|done]. injection H as <- _.
      apply depth_arr. exact (IE _ _ _ _ _ E ltac:(lia)). }
    destruct (c =? 123).
    { destruct d as [|[|d]]; [done|done|]. destruct (members f (S d) true b') as [[l r']|] eqn:E; [|done]. injection H as <- _.
      apply depth_obj. exact (IM _ _ _ _ _ E ltac:(lia)). }
    destruct (read_number_clean _ _ _ H) as [H1 H2]. split; [done|lia].
  - intros d first b l r H Hd. cbn [elements] in H. destruct (skip_white b) as [|c b']; [done|].
    destruct (c =? 93). { injection H as <- _. constructor. }
    destruct (if first then Some (c :: b') else if c =? 44 then Some b' else None) as [b2|]; [|done].
    destruct (value f d b2) as [[j b3]|] eqn:E; [|done]. destruct (elements f d false b3) as [[l' b4]|] eqn:E'; [|done]. injection H as <- _.
    constructor; [exact (IV _ _ _ _ E Hd)|exact (IE _ _ _ _ _ E' Hd)].
  - intros d first b l r H Hd. cbn [members] in H. destruct (skip_white b) as [|c b']; [done|].
    destruct (c =? 125). { injection H as <- _. constructor. }
    destruct (if first then Some (c :: b') else if c =? 44 then Some b' else None) as [b2|]; [|done].
    destruct (strip [34] (skip_white b2)) as [b3|]; [|done]. destruct (read_string b3) as [[k b4]|] eqn:Es; [|done].
    destruct (strip [58] (skip_white b4)) as [b5|]; [|done].
    destruct (value f d b5) as [[j b6]|] eqn:E; [|done]. destruct (members f d false b6) as [[l' b7]|] eqn:E'; [|done]. injection H as <- _.
    constructor; [split; [exact (read_string_unicode _ _ _ Es)|exact (IV _ _ _ _ E Hd)]|exact (IM _ _ _ _ _ E' Hd)].
Qed.
Lemma read_text_sound b j : read_text b = Some j -> clean j /\ (depth j < 128)%nat.
Proof.
  unfold read_text. destruct (value (2 * length b + 2) 128 b) as [[j' r]|] eqn:E; [|done]. destruct (skip_white r); [|done]. intros [= <-].
  exact (proj1 (reader_sound _) _ _ _ _ E ltac:(lia)).
Qed.

(** ** From trees to values *)

Lemma both {A} (P Q : A -> Prop) l : Forall P l -> Forall Q l -> Forall (fun x => P x /\ Q x) l.
Proof. intros H. induction H as [|x l Hx _ IH]; intros HQ; [constructor|]. apply Forall_cons in HQ as [H1 H2]. constructor; [done|exact (IH H2)]. Qed.

Lemma put_keys {A} (l : list (bytes * A)) k x : NoDup l.*1 -> NoDup (put l k x).*1.
Proof.
  intros H. unfold put. destruct (existsb (fun e => same e.1 k) l) eqn:E.
  - assert (Hm : (map (fun e => if same e.1 k then (k, x) else e) l).*1 = l.*1); [|by rewrite Hm].
    clear. induction l as [|[m y] l IH]; [done|]. cbn [map fmap list_fmap fst]. f_equal; [|exact IH].
    destruct (same m k) eqn:Em; [|done]. apply same_spec in Em. by subst.
  - rewrite fmap_app. apply NoDup_app. split; [done|]. split; [|apply NoDup_singleton]. intros n Hn Hk. apply elem_of_list_singleton in Hk. subst n.
    apply elem_of_list_fmap in Hn as ([m y] & Hmk & Hin). cbn in Hmk. subst m.
    assert (existsb (fun e => same e.1 k) l = true); [|congruence]. apply existsb_exists. exists (k, y). split; [by apply elem_of_list_In|apply same_refl].
Qed.
Lemma put_forall {A} (P : bytes * A -> Prop) l k x : Forall P l -> P (k, x) -> Forall P (put l k x).
Proof.
  intros H Hx. unfold put. destruct (existsb (fun e => same e.1 k) l).
  - induction H as [|e l He _ IH]; [constructor|]. cbn [map]. constructor; [by destruct (same e.1 k)|exact IH].
  - apply Forall_app. split; [done|]. constructor; [done|constructor].
Qed.
Lemma puts_keys {A} (r m : list (bytes * A)) : NoDup m.*1 -> NoDup (foldl (fun m e => put m e.1 e.2) m r).*1.
Proof. revert m. induction r as [|e r IH]; intros m H; [done|]. cbn [foldl]. apply IH. by apply put_keys. Qed.
Lemma puts_forall {A} (P : bytes * A -> Prop) r m : Forall P r -> Forall P m -> Forall P (foldl (fun m e => put m e.1 e.2) m r).
Proof.
  intros H. revert m. induction H as [|[k x] r He _ IH]; intros m Hm; [done|]. cbn [foldl]. apply IH. by apply put_forall.
Qed.

Lemma all_of_forall {A B} (f : A -> option B) (P : A -> Prop) (Q : B -> Prop) l r :
  (forall x y, P x -> f x = Some y -> Q y) -> Forall P l -> all_of f l = Some r -> Forall Q r.
Proof.
  intros H HP. revert r. induction HP as [|x l Hx _ IH]; intros r E; [by injection E as <-|].
  change (match f x, all_of f l with Some y, Some r => Some (y :: r) | _, _ => None end = Some r) in E.
  destruct (f x) as [y|] eqn:Ey; [|done]. destruct (all_of f l) as [r'|]; [|done]. injection E as <-.
  constructor; [exact (H x y Hx Ey)|exact (IH r' eq_refl)].
Qed.

(** A value of the type with at most as many levels as the tree. *)
Definition good (t : ty) (n : nat) (v : xval) : Prop := has_ty t v /\ (levels v t <= n)%nat.
Lemma max_le {A} (g : A -> nat) l n : Forall (fun x => (g x <= n)%nat) l <-> (fold_right (fun x m => Nat.max (g x) m) 0%nat l <= n)%nat.
Proof.
  induction l as [|x l IH]; cbn; [split; [lia|constructor]|]. rewrite Forall_cons, IH. lia.
Qed.

Lemma tuple_good ts l : Forall (fun t => forall j v, clean j -> of_json t j = Some v -> good t (depth j) v) ts ->
  forall n, Forall (fun j => clean j /\ (depth j <= n)%nat) l -> forall r, tuple_of ts l = Some r ->
  has_tys ts r /\ ((fix go (l : list xval) (ts : list ty) : nat :=
            match l, ts with x :: l', t :: ts' => Nat.max (levels x t) (go l' ts') | _, _ => 0%nat end) r ts <= n)%nat.
Proof.
  intros IH n. revert l. induction IH as [|t ts Ht _ IHt]; intros l HL r E; destruct l as [|j l]; try done.
  - injection E as <-. split; [done|cbn; lia].
  - change (match of_json t j, tuple_of ts l with Some v, Some r => Some (v :: r) | _, _ => None end = Some r) in E.
    destruct (of_json t j) as [v|] eqn:Ev; [|done]. destruct (tuple_of ts l) as [r'|] eqn:Er; [|done]. injection E as <-.
    apply Forall_cons in HL as [[Hc Hd] HL]. destruct (Ht j v Hc Ev) as [H1 H2]. destruct (IHt l HL r' Er) as [H3 H4].
    split; [split; [exact H1|exact H3]|]. apply Nat.max_lub; [lia|exact H4].
Qed.
Definition fields_of_array : list (bytes * ty) -> list json -> option (list xval) :=
  fix go fs l :=
     match fs, l with
     | [], [] => Some []
     | (_, t) :: fs', x :: l' => match of_json t x, go fs' l' with Some v, Some r => Some (v :: r) | _, _ => None end
     | _, _ => None
     end.
Definition fields_levels : list xval -> list (bytes * ty) -> nat :=
  fix go l fs := match l, fs with x :: l', (_, t) :: fs' => Nat.max (levels x t) (go l' fs') | _, _ => 0%nat end.
Lemma array_good fs l : Forall (fun f => forall j v, clean j -> of_json f.2 j = Some v -> good f.2 (depth j) v) fs ->
  forall n, Forall (fun j => clean j /\ (depth j <= n)%nat) l -> forall r, fields_of_array fs l = Some r ->
  has_fields fs r /\ (fields_levels r fs <= n)%nat.
Proof.
  intros IH n. revert l. induction IH as [|[m t] fs Ht _ IHt]; intros l HL r E; destruct l as [|j l]; try done.
  - injection E as <-. split; [done|cbn; lia].
  - change (match of_json t j, fields_of_array fs l with Some v, Some r => Some (v :: r) | _, _ => None end = Some r) in E.
    destruct (of_json t j) as [v|] eqn:Ev; [|done]. destruct (fields_of_array fs l) as [r'|] eqn:Er; [|done]. injection E as <-.
    apply Forall_cons in HL as [[Hc Hd] HL]. destruct (Ht j v Hc Ev) as [H1 H2]. destruct (IHt l HL r' Er) as [H3 H4].
    split; [split; [exact H1|exact H3]|]. change (Nat.max (levels v t) (fields_levels r' fs) <= n)%nat. cbn [snd] in *. lia.
Qed.
Lemma struct_good fs l : Forall (fun f => forall j v, clean j -> of_json f.2 j = Some v -> good f.2 (depth j) v) fs ->
  forall n, Forall (fun e => clean e.2 /\ (depth e.2 <= n)%nat) l -> forall r, struct_of l fs = Some r ->
  has_fields fs r /\ (fields_levels r fs <= n)%nat.
Proof.
  intros IH n HL. induction IH as [|[m t] fs Ht _ IHt]; intros r E.
  - injection E as <-. split; [done|cbn; lia].
  - change (match (match List.filter (fun e => same e.1 m) l with
               | [] => if is_opt t then Some XNone else None
               | [(_, x)] => of_json t x
               | _ => None
               end), struct_of l fs with
        | Some v, Some r => Some (v :: r)
        | _, _ => None
        end = Some r) in E.
    match type of E with match ?a with _ => _ end = _ => destruct a as [v|] eqn:Ev; [|done] end.
    destruct (struct_of l fs) as [r'|] eqn:Er; [|done]. injection E as <-. destruct (IHt r' eq_refl) as [H3 H4].
    assert (Hv : good t n v).
    { destruct (List.filter (fun e => same e.1 m) l) as [|[k x] [|]] eqn:Ef; [| |done].
      - destruct t; try done. injection Ev as <-. split; [done|cbn; lia].
      - assert (Hin : (k, x) ∈ l).
        { apply elem_of_list_In. apply (proj1 (List.filter_In (fun e => same e.1 m) (k, x) l)). rewrite Ef. by left. }
        rewrite Forall_forall in HL. destruct (HL _ Hin) as [Hc Hd]. cbn [snd] in *. destruct (Ht x v Hc Ev) as [H1 H2]. split; [done|lia]. }
    destruct Hv as [H1 H2]. split; [split; [exact H1|exact H3]|]. change (Nat.max (levels v t) (fields_levels r' fs) <= n)%nat. lia.
Qed.

Lemma depths_arr l : Forall (fun j => (depth j <= fold_right (fun x m => Nat.max (depth x) m) 0%nat l)%nat) l.
Proof. by apply max_le. Qed.
Lemma depths_obj (l : list (bytes * json)) : Forall (fun e => (depth e.2 <= fold_right (fun e m => Nat.max (depth e.2) m) 0%nat l)%nat) l.
Proof. by apply (max_le (fun e : bytes * json => depth e.2)). Qed.

Lemma of_json_good t : forall j v, clean j -> of_json t j = Some v -> good t (depth j) v.
Proof.
  induction t as [|lo hi| | |t IH|t IH|t IH|ts IH|fs IH|vs IH] using ty_rec'; intros j v HC H.
  - destruct j; try done. injection H as <-. split; [done|cbn; lia].
  - destruct j; try done. cbn [of_json] in H. destruct ((lo <=? z)%Z && (z <=? hi)%Z) eqn:E; [|done]. injection H as <-.
    apply andb_true_iff in E as [E1%Z.leb_le E2%Z.leb_le]. split; [done|cbn; lia].
  - destruct j; try done. injection H as <-. split; [exact HC|cbn; lia].
  - destruct j; try done. injection H as <-. split; [done|cbn; lia].
  - assert (Hc : j = JNull \/ exists v', v = XSome v' /\ of_json t j = Some v').
    { cbn [of_json] in H. destruct j; try (destruct (of_json t _) as [v'|]; [|done]; injection H as <-; right; by exists v'). by left. }
    destruct Hc as [-> |(v' & -> & H')].
    + cbn [of_json] in H. injection H as <-. split; [done|cbn; lia].
    + destruct (IH j v' HC H') as [H1 H2]. split; [exact H1|exact H2].
  - destruct j as [| | | |l|]; try done. cbn [of_json] in H. destruct (all_of (of_json t) l) as [r|] eqn:E; [|done]. injection H as <-.
    apply clean_arr in HC. pose proof (both _ _ _ HC (depths_arr l)) as HF'. cbn [depth].
    assert (HG : Forall (good t (fold_right (fun x m => Nat.max (depth x) m) 0%nat l)) r).
    { refine (all_of_forall (of_json t) _ _ l r _ HF' E). intros x y [Hx1 Hx2] Hy. destruct (IH x y Hx1 Hy). split; [done|lia]. }
    split; [change (Forall (has_ty t) r); eapply Forall_impl; [exact HG|]; by intros y []|].
    cbn [levels]. apply le_n_S. apply max_le. eapply Forall_impl; [exact HG|]. by intros y [].
  - destruct j as [| | | | |l]; try done. cbn [of_json] in H.
    destruct (all_of (fun '(k, x) => match of_json t x with Some v => Some (k, v) | None => None end) l) as [r|] eqn:E; [|done]. injection H as <-.
    apply clean_obj in HC. set (n := fold_right (fun e m => Nat.max (depth e.2) m) 0%nat l).
    assert (HG : Forall (fun e => unicode e.1 /\ good t n e.2) r).
    { refine (all_of_forall _ (fun e => (unicode e.1 /\ clean e.2) /\ (depth e.2 <= n)%nat) _ l r _ _ E).
      - intros [k x] [k' y] [[Hk Hx] Hd] Hy. destruct (of_json t x) as [z|] eqn:Ez; [|done]. injection Hy as <- <-. cbn [fst snd] in *.
        destruct (IH x z Hx Ez). split; [done|split; [done|lia]].
      - apply both; [exact HC|exact (depths_obj l)]. }
    pose proof (puts_forall _ r [] HG (Forall_nil_2 _)) as HG'. split.
    + cbn [has_ty]. split; [apply puts_keys; constructor|]. eapply Forall_impl; [exact HG'|]. intros [k y] [H1 [H2 _]]. done.
    + cbn [levels depth]. apply le_n_S. apply (max_le (fun e : bytes * xval => levels e.2 t)). eapply Forall_impl; [exact HG'|]. intros [k y] [H1 [_ H2]]. exact H2.
  - destruct j as [| | | |l|]; try done. cbn [of_json] in H. fold tuple_of in H. destruct (tuple_of ts l) as [r|] eqn:E; [|done]. injection H as <-.
    apply clean_arr in HC.
    destruct (tuple_good ts l IH _ (both _ _ _ HC (depths_arr l)) r E) as [H1 H2]. split; [exact H1|]. cbn [levels depth]. lia.
  - assert (HG : exists r, v = XList r /\ has_fields fs r /\ (S (fields_levels r fs) <= depth j)%nat).
    { destruct j as [| | | |l|l]; try done; cbn [of_json] in H.
      - fold fields_of_array in H. destruct (fields_of_array fs l) as [r|] eqn:E; [|done]. injection H as <-. apply clean_arr in HC.
        destruct (array_good fs l IH _ (both _ _ _ HC (depths_arr l)) r E) as [H1 H2]. exists r. split; [done|]. split; [done|]. cbn [depth]. lia.
      - fold (struct_of l) in H. destruct (struct_of l fs) as [r|] eqn:E; [|done]. injection H as <-. apply clean_obj in HC.
        assert (HF : Forall (fun e => clean e.2 /\ (depth e.2 <= fold_right (fun e m => Nat.max (depth e.2) m) 0%nat l)%nat) l).
        { apply both; [eapply Forall_impl; [exact HC|]; by intros e []|exact (depths_obj l)]. }
        destruct (struct_good fs l IH _ HF r E) as [H1 H2]. exists r. split; [done|]. split; [done|]. cbn [depth]. lia. }
    destruct HG as (r & -> & H1 & H2). split; [exact H1|exact H2].
  - assert (HE : exists n o, match o with Some x => clean x /\ (S (depth x) <= depth j)%nat | None => True end /\
      (fix go (vs : list (bytes * option ty)) (i : nat) : option xval :=
             match vs with
             | [] => None
             | (m, p) :: vs' =>
                 if same m n then
                   match p, o with
                   | None, None | None, Some JNull => Some (XVar i None)
                   | Some t, Some x => match of_json t x with Some v => Some (XVar i (Some v)) | None => None end
                   | _, _ => None
                   end
                 else go vs' (S i)
             end) vs O = Some v).
    { destruct j as [| | |n| |[|[n x] [|]]]; try done; cbn [of_json] in H.
      - exists n, None. split; [done|exact H].
      - exists n, (Some x). apply clean_obj in HC. apply Forall_cons in HC as [[_ Hx] _]. split; [|exact H]. split; [exact Hx|]. cbn. lia. }
    destruct HE as (n & o & Ho & HG). clear H HC.
    assert (Hgo : forall k, (fix go (vs : list (bytes * option ty)) (i : nat) : option xval :=
             match vs with
             | [] => None
             | (m, p) :: vs' =>
                 if same m n then
                   match p, o with
                   | None, None | None, Some JNull => Some (XVar i None)
                   | Some t, Some x => match of_json t x with Some v => Some (XVar i (Some v)) | None => None end
                   | _, _ => None
                   end
                 else go vs' (S i)
             end) vs k = Some v -> exists i q, v = XVar (k + i) q /\
        match vs !! i with
        | Some (_, None) => q = None
        | Some (_, Some t) => exists x, q = Some x /\ has_ty t x /\ (S (levels x t) <= depth j)%nat
        | None => False
        end).
    { clear HG. induction IH as [|[m p] vs Hp _ IHv]; intros k HG; [done|]. destruct (same m n).
      - exists 0%nat. destruct p as [t|].
        + destruct o as [x|]; [|done]. destruct (of_json t x) as [y|] eqn:Ey; [|done]. injection HG as <-. exists (Some y).
          split; [by rewrite Nat.add_0_r|]. cbn. exists y. destruct Ho as [Hc Hd]. destruct (Hp x y Hc Ey) as [H1 H2]. split; [done|]. split; [done|lia].
        + exists None. split; [|done]. rewrite Nat.add_0_r. destruct o as [[]|]; try done; by injection HG as <-.
      - destruct (IHv (S k) HG) as (i & q & -> & Hi). exists (S i), q. split; [f_equal; lia|exact Hi]. }
    destruct (Hgo 0%nat HG) as (i & q & -> & Hi). cbn [Nat.add]. destruct (vs !! i) as [[m p]|] eqn:Ei; [|done]. split.
    + clear - Hi Ei. cbn [has_ty]. revert i Ei. induction vs as [|[m' p'] vs IH]; intros i Ei; [done|]. destruct i as [|i].
      * injection Ei as -> ->. destruct p as [t|]; [by destruct Hi as (x & -> & H & _)|by rewrite Hi].
      * exact (IH i Ei).
    + cbn [levels]. destruct p as [t|].
      * destruct Hi as (x & -> & _ & H). rewrite Ei. exact H.
      * rewrite Hi. lia.
Qed.

Theorem from_slice_sound t b v : from_slice t b = Some v -> has_ty t v /\ (levels v t < 128)%nat.
Proof.
  unfold from_slice. destruct (read_text b) as [j|] eqn:E; [|done]. intros H. destruct (read_text_sound b j E) as [H1 H2].
  destruct (of_json_good t j v H1 H) as [H3 H4]. split; [done|lia].
Qed.
