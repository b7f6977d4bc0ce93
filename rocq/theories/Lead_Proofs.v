(** Proofs about leader election in time: what holds of every execution. *)
From Verif Require Import Nodes_Model Nodes_Spec Nodes_Proofs Heart_Model Heart_Spec Heart_Proofs Lead_Model Lead_Spec.

Section heart.
Variable min_date max_date max_duration : Z.
Variable cf : hconfig.
Variable rhash : N -> string -> string -> option Z -> N.
Variable search : list N -> N -> nat.
Notation hstep := (hstep min_date max_date max_duration cf (C := unit) rhash search).
Notation tick := (tick min_date max_date max_duration cf (C := unit) rhash search).
Notation judge := (judge max_date max_duration cf).
Implicit Types (h : heart unit).

(** *** One node *)
Record hgood (S : gmap N rnode) (now : Z) h : Prop := {
  hg_keyed : keyed (h_store h);
  hg_node : forall k s, record (h_store h) k = Some s -> S !! k = Some (s_node s);
  hg_beat : forall k s b, record (h_store h) k = Some s -> s_beat s = Some b -> (b <= now)%Z;
  hg_ping : forall j lat rec, h_pings h !! j = Some (POk lat rec) -> (rec <= now)%Z
}.
Definition addof (S : gmap N rnode) (d : dop) : Prop := exists ord r, d = DAdd ord r /\ S !! r_id r = Some r.
Definition opok (S : gmap N rnode) (now : Z) (o : hop unit) : Prop :=
  match o with
  | HPing _ (POk _ rec) => (rec <= now)%Z
  | HPing _ _ | HWait _ => True
  | HTick _ clock mid | HTerminated _ _ clock mid => clock = (fun _ => now) /\ Forall (addof S) mid
  | HRegistry d => addof S d
  end.

Lemma hgood_mono S S' now now' h : S ⊆ S' -> (now <= now')%Z -> hgood S now h -> hgood S' now' h.
Proof using.
  clear.
  intros HS Hn [H1 H2 H3 H4]. split; [done|..].
  - intros k s Hs. eapply lookup_weaken; [|done]. eauto.
  - intros k s b Hs Hb. specialize (H3 _ _ _ Hs Hb). lia.
  - intros j lat rec Hj. specialize (H4 _ _ _ Hj). lia.
Qed.

Lemma fold_adds S mid (d : store) k s : Forall (addof S) mid -> keyed d ->
  record (fold_left (dstep rhash search) mid d) k = Some s ->
  record d k = Some s \/ exists r, S !! k = Some r /\ s = new_state r.
Proof.
  revert d. induction mid as [|o mid IH]; intros d HF Hk H; [by left|].
  apply Forall_cons in HF as [(ord & r & -> & Hr) HF]. simpl in H.
  destruct (IH _ HF (keyed_step rhash search _ (DAdd ord r) Hk) H) as [H'|H']; [|by right].
  simpl in H'. rewrite (add_record rhash) in H' by done. case_decide as Hd; [|by left].
  right. injection H' as <-. subst k. eauto.
Qed.
Lemma fold_adds_known S mid (d : store) k : Forall (addof S) mid -> keyed d ->
  is_Some (record d k) -> is_Some (record (fold_left (dstep rhash search) mid d) k).
Proof.
  revert d. induction mid as [|o mid IH]; intros d HF Hk H; [done|].
  apply Forall_cons in HF as [(ord & r & -> & Hr) HF]. simpl. apply IH; [done|by apply (keyed_step rhash search _ (DAdd ord r))|].
  simpl. rewrite (add_record rhash) by done. case_decide; [by eexists|done].
Qed.

Lemma judge_beat self now ps s s' b : judge self (fun _ => now) ps s = Some s' -> s_beat s' = Some b ->
  (forall b', s_beat s = Some b' -> (b' <= now)%Z) -> (forall j lat rec, ps !! j = Some (POk lat rec) -> (rec <= now)%Z) ->
  (b <= now)%Z.
Proof.
  unfold Heart_Model.judge, update_node. destruct (s_id s =? self)%N.
  { intros [= <-] [= <-] _ _. lia. }
  destruct (ps !! s_id s) as [[lat rec| | |]|] eqn:E; cbn -[node_status];
    (match goal with |- context [node_status ?a ?b ?c ?d ?e ?f ?g] => destruct (node_status a b c d e f g) end; [|done]);
    intros [= <-]; cbn; intros Hb H1 H2; try (by apply H1).
  injection Hb as <-. by eapply H2.
Qed.

Lemma tick_good S now self h ord mid h' : hgood S now h -> Forall (addof S) mid ->
  tick self h ord (fun _ => now) mid = Some h' -> hgood S now h'.
Proof.
  intros [H1 H2 H3 H4] HF Ht. pose proof Ht as Ht'.
  apply tick_inv in Ht as (judged & Hm & Hst & Hp & _ & _).
  assert (Hrec : forall k s, record (h_store h') k = Some s ->
    (exists s0, record (h_store h) k = Some s0 /\ judge self (fun _ => now) (h_pings h) s0 = Some s) \/
    record (h_store h) k = Some s \/ exists r, S !! k = Some r /\ s = new_state r).
  { intros k s. rewrite Hst. intros [[Hin Hid]|[Hr _]]%update_cases.
    - left. rewrite stable_sort_perm in Hin.
      destruct (mapM_judge_from _ _ _ _ _ _ _ _ _ Hm Hin) as (s0 & Hs0 & Hj). exists s0. split; [|done].
      apply elem_get_all in Hs0; [|done]. unfold record. rewrite <- Hid. unfold s_id in *.
      by rewrite (judge_id _ _ _ _ _ _ _ _ Hj).
    - right. by eapply fold_adds. }
  split.
  - eapply (keyed_hstep min_date max_date max_duration cf rhash search self h (HTick ord (fun _ => now) mid)); done.
  - intros k s Hs. destruct (Hrec _ _ Hs) as [(s0 & Hs0 & Hj)|[Hs0|(r & Hr & ->)]].
    + rewrite (judge_id _ _ _ _ _ _ _ _ Hj). by eauto.
    + eauto.
    + done.
  - intros k s b Hs Hb. destruct (Hrec _ _ Hs) as [(s0 & Hs0 & Hj)|[Hs0|(r & Hr & ->)]].
    + eapply judge_beat; [done..| |done]. intros b' Hb'. by eapply H3.
    + by eapply H3.
    + done.
  - intros j lat rec. rewrite Hp. apply H4.
Qed.

Lemma before_good S now h o : hgood S now h -> hgood S now (before_tick h o).
Proof.
  intros Hg. pose proof Hg as [H1 H2 H3 H4]. destruct o as [| |n| |]; try done. simpl. split; simpl.
  - by apply (keyed_step rhash search _ (DTerminated n)).
  - intros k s. unfold record. simpl. rewrite lookup_alter_Some. intros [(-> & s' & Hs & ->)|[_ Hs]]; simpl; by eauto.
  - intros k s b. unfold record. simpl. rewrite lookup_alter_Some. intros [(-> & s' & Hs & ->)|[_ Hs]]; simpl; by eauto.
  - intros j lat rec [_ Hj]%lookup_delete_Some. eauto.
Qed.

Lemma hgood_step S now self h o h' : hgood S now h -> opok S now o -> hstep self h o = Some h' -> hgood S now h'.
Proof.
  intros Hg Ho Hs. pose proof Hg as [H1 H2 H3 H4]. destruct o as [n p|ord clock mid|n ord clock mid|c|d]; simpl in Ho.
  - injection Hs as <-. split; simpl; try done. intros j lat rec. destruct (decide (n = j)) as [->|Hne].
    + rewrite lookup_insert. intros [= ->]. done.
    + rewrite lookup_insert_ne by done. apply H4.
  - destruct Ho as [-> HF]. by eapply tick_good.
  - destruct Ho as [-> HF]. eapply tick_good; [|done|exact Hs].
    exact (before_good S now h (HTerminated n ord (fun _ => now) mid) Hg).
  - injection Hs as <-. by split.
  - injection Hs as <-. destruct Ho as (ord & r & -> & Hr). split; simpl.
    + by apply (keyed_step rhash search _ (DAdd ord r)).
    + intros k s. rewrite (add_record rhash) by done. case_decide; [by intros [= <-]; subst|apply H2].
    + intros k s b. rewrite (add_record rhash) by done. case_decide; [by intros [= <-]|apply H3].
    + done.
Qed.

Lemma new_good S now self : hgood S now (new_heart rhash self false).
Proof.
  split; simpl.
  - apply (keyed_new (C := unit) rhash self false).
  - intros k s. unfold record. simpl. by rewrite lookup_empty.
  - intros k s b. unfold record. simpl. by rewrite lookup_empty.
  - intros j lat rec. by rewrite lookup_empty.
Qed.

(** Known nodes stay known. *)
Lemma known_tick S now self h ord mid h' k : hgood S now h -> Forall (addof S) mid ->
  tick self h ord (fun _ => now) mid = Some h' -> is_Some (record (h_store h) k) -> is_Some (record (h_store h') k).
Proof.
  intros [H1 _ _ _] HF Ht [s Hs]. destruct (tick_record _ _ _ _ _ _ _ _ _ _ _ _ _ _ H1 Ht Hs) as (s' & _ & ->). by eexists.
Qed.
Lemma known_step S now self h o h' k : hgood S now h -> opok S now o -> hstep self h o = Some h' ->
  is_Some (record (h_store h) k) -> is_Some (record (h_store h') k).
Proof.
  intros Hg Ho Hs Hk. destruct o as [n p|ord clock mid|n ord clock mid|c|d]; simpl in Ho.
  - by injection Hs as <-.
  - destruct Ho as [-> HF]. by eapply known_tick.
  - destruct Ho as [-> HF].
    refine (known_tick S now self _ ord mid h' k (before_good S now h (HTerminated n ord (fun _ => now) mid) Hg) HF Hs _).
    by apply before_tick_ids.
  - by injection Hs as <-.
  - injection Hs as <-. destruct Ho as (ord & r & -> & Hr). simpl. rewrite (add_record rhash) by apply Hg.
    case_decide; [by eexists|done].
Qed.

(** No panic as long as dates do not overflow. *)
Lemma judge_some S now self h s : hgood S now h -> record (h_store h) (s_id s) = Some s ->
  (Z.of_N (cf_terminated cf) <= max_duration)%Z -> (now + Z.of_N (cf_terminated cf) <= max_date)%Z ->
  is_Some (judge self (fun _ => now) (h_pings h) s).
Proof.
  intros [H1 H2 H3 H4] Hs Hd Hm. unfold Heart_Model.judge, update_node. destruct (s_id s =? self)%N; [by eexists|].
  destruct (h_pings h !! s_id s) as [[lat rec| | |]|] eqn:E; cbn; try by eexists.
  - specialize (H4 _ _ _ E). destruct (Z.ltb_spec (now - rec) 0); [lia|]. repeat case_match; cbn; by eexists.
  - destruct (s_beat s) as [b|] eqn:Eb; [|by eexists]. specialize (H3 _ _ _ Hs Eb).
    destruct (Z.ltb_spec max_duration (Z.of_N (cf_terminated cf))); [lia|].
    destruct (Z.ltb_spec max_date (b + Z.of_N (cf_terminated cf))); [lia|]. repeat case_match; cbn; by eexists.
Qed.
Lemma tick_some S now self h ord mid : hgood S now h ->
  (Z.of_N (cf_terminated cf) <= max_duration)%Z -> (now + Z.of_N (cf_terminated cf) <= max_date)%Z ->
  is_Some (tick self h ord (fun _ => now) mid).
Proof.
  intros Hg Hd Hm. unfold Heart_Model.tick.
  assert (Hj : is_Some (mapM (judge self (fun _ => now) (h_pings h)) (get_all ord (h_store h)))).
  { apply mapM_is_Some. apply Forall_forall. intros s Hs. eapply judge_some; [done| |done..].
    apply elem_get_all in Hs; [done|apply Hg]. }
  destruct Hj as [j ->]. by eexists.
Qed.
Lemma hstep_some S now self h o : hgood S now h -> opok S now o ->
  (Z.of_N (cf_terminated cf) <= max_duration)%Z -> (now + Z.of_N (cf_terminated cf) <= max_date)%Z ->
  is_Some (hstep self h o).
Proof.
  intros Hg Ho Hd Hm. destruct o as [n p|ord clock mid|n ord clock mid|c|d]; simpl in Ho; try by eexists.
  - destruct Ho as [-> HF]. by eapply tick_some.
  - destruct Ho as [-> HF]. refine (tick_some S now self _ ord mid (before_good S now h (HTerminated n ord (fun _ => now) mid) Hg) Hd Hm).
Qed.
Lemma beaten_step self h o h' : hstep self h o = Some h' -> h_beaten h = true \/ is_Some (beats o) -> h_beaten h' = true.
Proof.
  intros Hs Hb. destruct (hstep_cases _ _ _ _ _ _ _ _ _ _ Hs) as [(ord & clock & mid & _ & Ht)|(Hn & _ & -> & _)].
  - by apply tick_inv in Ht as (j & _ & _ & _ & ? & _).
  - destruct Hb as [?|[? ?]]; congruence.
Qed.
Lemma pings_step self h o h' j : hstep self h o = Some h' -> h_pings h' !! j =
  match o with
  | HPing n p => if decide (n = j) then Some p else h_pings h !! j
  | HTerminated n _ _ _ => if decide (n = j) then None else h_pings h !! j
  | _ => h_pings h !! j
  end.
Proof.
  intros Hs. destruct o as [n p|ord clock mid|n ord clock mid|c|d]; simpl in Hs.
  - injection Hs as <-. simpl. case_decide; subst; [by rewrite lookup_insert|by rewrite lookup_insert_ne].
  - by apply tick_inv in Hs as (? & _ & _ & -> & _).
  - apply tick_inv in Hs as (? & _ & _ & -> & _). simpl. case_decide; subst; [by rewrite lookup_delete|by rewrite lookup_delete_ne].
  - by injection Hs as <-.
  - by injection Hs as <-.
Qed.
End heart.
