(** Proofs about discovery. *)
From Verif Require Import Discovery_Model Discovery_Spec.

Global Instance rnode_eq_dec : EqDecision rnode.
Proof. solve_decision. Defined.
Global Instance ident_eq_dec : EqDecision ident.
Proof. solve_decision. Defined.
Global Instance devent_eq_dec : EqDecision devent.
Proof. solve_decision. Defined.

(** ** Lists of events *)
Lemma answered_app a b : answered (a ++ b) = answered a ++ answered b.
Proof. apply omap_app. Qed.
Lemma shaken_app a b : shaken (a ++ b) = shaken a ++ shaken b.
Proof. apply omap_app. Qed.
Lemma added_app a b : added (a ++ b) = added a ++ added b.
Proof. apply omap_app. Qed.
Lemma failed_app a b : failed (a ++ b) = failed a ++ failed b.
Proof. apply omap_app. Qed.

Definition is_contact (e : devent) : Prop := match e with VContact _ _ => True | _ => False end.
Lemma contacts_nothing l : Forall is_contact l -> answered l = [] /\ shaken l = [] /\ added l = [] /\ failed l = [].
Proof. induction 1 as [|e l He _ IH]; [done|]. destruct e; try done. Qed.
Lemma answered_shakes l : answered (VShake <$> l) = [].
Proof. by induction l. Qed.
Lemma shaken_shakes l : shaken (VShake <$> l) = l.
Proof. induction l; csimpl; [done|]. by f_equal. Qed.
Lemma added_shakes l : added (VShake <$> l) = [].
Proof. by induction l. Qed.
Lemma failed_shakes l : failed (VShake <$> l) = [].
Proof. by induction l. Qed.

(** The addresses that are known after some events, and the numbers. *)
Definition learn (k : gset string) (e : devent) : gset string :=
  match e with
  | VContact a (Some i) => {[ r_addr (i_node i) ]} ∪ ({[ a ]} ∪ k)
  | VForgot a => k ∖ {[ a ]}
  | _ => k
  end.
Definition known (l : list devent) : gset string := fold_left learn l ∅.
Definition learn_id (k : gset N) (e : devent) : gset N :=
  match e with
  | VContact a (Some i) => {[ r_id (i_node i) ]} ∪ k
  | VRemoved n => k ∖ {[ r_id n ]}
  | _ => k
  end.
Definition known_ids (l : list devent) : gset N := fold_left learn_id l ∅.

Arguments known : simpl never.
Local Arguments seq : simpl never.
Arguments known_ids : simpl never.

(** Contacts are with unknown addresses, and removed nodes were known. *)
Definition sound (e : devent) (l : list devent) : Prop :=
  match e with
  | VContact a _ => a ∉ known l
  | VRemoved n => r_id n ∈ known_ids l
  | _ => True
  end.
Definition all_sound (l : list devent) : Prop := forall l1 e l2, l = l1 ++ e :: l2 -> sound e l1.

Lemma known_snoc l e : known (l ++ [e]) = learn (known l) e.
Proof. unfold known. by rewrite fold_left_app. Qed.
Lemma known_ids_snoc l e : known_ids (l ++ [e]) = learn_id (known_ids l) e.
Proof. unfold known_ids. by rewrite fold_left_app. Qed.
Lemma all_sound_nil : all_sound [].
Proof. intros [|? ?] e l2 H; done. Qed.
Lemma all_sound_snoc l e : all_sound l -> sound e l -> all_sound (l ++ [e]).
Proof.
  intros Ha He l1 x l2. destruct l2 as [|y l2 _] using rev_ind; intros H.
  - apply app_inj_tail in H as [-> ->]. done.
  - rewrite app_comm_cons, app_assoc in H. apply app_inj_tail in H as [H _]. by eapply Ha.
Qed.

Lemma learned_stays l a k : a ∈ k -> VForgot a ∉ l -> a ∈ fold_left learn l k.
Proof.
  revert k. induction l as [|e l IH]; intros k Hk Hl; simpl; [done|].
  apply not_elem_of_cons in Hl as [He Hl]. apply IH; [|done].
  destruct e as [b [i|]|b|n|n|n|n|c r]; simpl; try set_solver.
Qed.
Lemma sound_contact l a i b r l1 l2 l3 : all_sound l -> l = l1 ++ VContact a (Some i) :: l2 ++ VContact b r :: l3 ->
  b = a \/ b = r_addr (i_node i) -> VForgot b ∈ l2.
Proof.
  intros Hs Hl Hb. destruct (decide (VForgot b ∈ l2)) as [|Hn]; [done|]. exfalso.
  refine (Hs (l1 ++ VContact a (Some i) :: l2) (VContact b r) l3 _ _).
  { rewrite Hl. by rewrite <- app_assoc. }
  unfold known. rewrite fold_left_app. simpl. apply learned_stays; [|done]. set_solver.
Qed.
Lemma unlearned_stays l n k : n ∉ k -> (forall a i, VContact a (Some i) ∈ l -> r_id (i_node i) <> n) ->
  n ∉ fold_left learn_id l k.
Proof.
  revert k. induction l as [|e l IH]; intros k Hk Hl; simpl; [done|]. apply IH.
  - destruct e as [b [i|]|b|m|m|m|m|c r]; simpl; try done; [|set_solver].
    assert (r_id (i_node i) <> n) by (apply (Hl b); set_solver). set_solver.
  - intros a i Hi. apply (Hl a). set_solver.
Qed.
Lemma sound_removed l n m l1 l2 l3 : all_sound l -> l = l1 ++ VRemoved n :: l2 ++ VRemoved m :: l3 -> r_id m = r_id n ->
  exists a i, VContact a (Some i) ∈ l2 /\ r_id (i_node i) = r_id n.
Proof.
  intros Hs Hl Hm.
  destruct (decide (Exists (fun e => match e with VContact a (Some i) => Some (r_id (i_node i)) | _ => None end = Some (r_id n)) l2)) as [He|He].
  - apply Exists_exists in He as (e & He & Hi). destruct e as [a [i|]|b|?|?|?|?|c r]; try done.
    injection Hi as Hi. by exists a, i.
  - exfalso. assert (Hin : r_id m ∈ known_ids (l1 ++ VRemoved n :: l2)).
    { refine (Hs (l1 ++ VRemoved n :: l2) (VRemoved m) l3 _). rewrite Hl. by rewrite <- app_assoc. }
    revert Hin. unfold known_ids. rewrite fold_left_app. simpl. rewrite Hm. apply unlearned_stays; [set_solver|].
    intros a i Hi Hid. apply He, Exists_exists. exists (VContact a (Some i)). by rewrite Hid.
Qed.

Section discovery.
Variable self : N.
Variable net : nat -> string -> option ident.
Variable conn : nat -> string -> bool.
Notation get_node_identity := (get_node_identity net).
Notation discover_nodes := (discover_nodes self net).
Notation discover_all := (discover_all self net).
Notation handle_addr := (handle_addr self net).
Notation handle_list := (handle_list conn).
Notation handle_nodes := (handle_nodes conn).
Notation handle_msg := (handle_msg self net conn).
Notation qstep := (qstep self net conn).
Notation qruns := (qruns self net conn).

(** ** Lookups *)
Definition look (d d' : disc) : Prop := exists a, d' = (get_node_identity d a).1.
Definition looks : disc -> disc -> Prop := rtc look.

Lemma discover_nodes_looks d peers found : looks d (discover_nodes d peers found).1.
Proof.
  revert d found. induction peers as [|n peers IH]; intros d found; simpl; [apply rtc_refl|].
  destruct (r_id n =? self)%N; [apply IH|]. destruct (found !! r_id n); [apply IH|].
  destruct (get_node_identity d (r_addr n)) as [d1 r] eqn:E. eapply rtc_l; [|apply IH].
  exists (r_addr n). by rewrite E.
Qed.
Lemma discover_all_looks d l found : looks d (discover_all d l found).1.
Proof.
  revert d found. induction l as [|i l IH]; intros d found; simpl; [apply rtc_refl|].
  pose proof (discover_nodes_looks d (i_peers i) found) as H.
  destruct (discover_nodes d (i_peers i) found) as [d1 f1]. eapply rtc_transitive; [exact H|apply IH].
Qed.

Record same_frame (d d' : disc) : Prop := SameFrame {
  sf_ing : g_ing d' = g_ing d; sf_reg : g_reg d' = g_reg d; sf_mail : g_mail d' = g_mail d;
  sf_groups : g_groups d' = g_groups d; sf_next : g_next d' = g_next d;
  sf_log : exists cs, g_log d' = g_log d ++ cs /\ Forall is_contact cs
}.
Lemma look_frame d d' : look d d' -> same_frame d d'.
Proof.
  intros [a ->]. unfold Discovery_Model.get_node_identity.
  destruct (g_addr d !! a) as [i|].
  { constructor; try done. exists []. by rewrite app_nil_r. }
  destruct (net (g_time d) a) as [i|]; constructor; try done; simpl; eexists; (split; [done|]); by repeat constructor.
Qed.
Lemma looks_frame d d' : looks d d' -> same_frame d d'.
Proof.
  induction 1 as [d|d d1 d2 H _ IH].
  { constructor; try done. exists []. by rewrite app_nil_r. }
  apply look_frame in H as [? ? ? ? ? (cs & Hl & Hc)]. destruct IH as [? ? ? ? ? (cs' & Hl' & Hc')].
  constructor; try congruence. exists (cs ++ cs'). split; [by rewrite Hl', Hl, app_assoc|]. by apply Forall_app.
Qed.

(** What the handling of a seed address does. *)
Inductive addr_case (d : disc) (addr : string) (cb : option nat) : disc -> Prop :=
| ac_known : addr ∈ dom (g_addr d) -> addr_case d addr cb (answer d cb true)
| ac_unreachable d1 : looks d d1 -> g_addr d !! addr = None -> net (g_time d) addr = None -> addr_case d addr cb (answer d1 cb false)
| ac_found d1 nodes i : looks d d1 -> g_addr d !! addr = None -> net (g_time d) addr = Some i ->
    addr_case d addr cb (with_mail d1 (g_mail d1 ++ [MNodes nodes cb])).
Lemma handle_addr_case d ord1 ord2 addr cb : addr_case d addr cb (handle_addr d ord1 ord2 addr cb).
Proof.
  unfold Discovery_Model.handle_addr. destruct (g_addr d !! addr) as [i|] eqn:E.
  { apply ac_known. by apply elem_of_dom. }
  destruct (get_node_identity d addr) as [d1 r] eqn:G.
  assert (H1 : look d d1) by (exists addr; by rewrite G).
  assert (Hr : r = net (g_time d) addr).
  { revert G. unfold Discovery_Model.get_node_identity. rewrite E. destruct (net (g_time d) addr); by intros [= <- <-]. }
  destruct r as [seed|]; [|by apply ac_unreachable; [apply rtc_once|..]].
  pose proof (discover_nodes_looks d1 (i_peers seed) {[r_id (i_node seed) := seed]}) as H2.
  destruct (discover_nodes d1 (i_peers seed) _) as [d2 found]. cbn [fst] in H2.
  destruct (1 <? size found)%nat.
  - pose proof (discover_all_looks d2 (arrange ord1 found).*2 found) as H3.
    destruct (discover_all d2 _ found) as [d3 found']. cbn [fst] in H3.
    eapply ac_found; [|done..]. eapply rtc_l; [exact H1|]. by eapply rtc_transitive.
  - eapply ac_found; [|done..]. by eapply rtc_l.
Qed.

(** ** Starting handshakes *)
Lemma handle_list_frame d cur nodes d' l : handle_list d cur nodes = (d', l) ->
  g_addr d' = g_addr d /\ g_id d' = g_id d /\ g_mail d' = g_mail d /\ g_groups d' = g_groups d /\ g_next d' = g_next d /\
  g_log d' = g_log d ++ (VShake <$> l) /\ (forall x, x ∈ g_ing d' <-> x ∈ r_id <$> l \/ x ∈ g_ing d) /\
  NoDup (r_id <$> l) /\ (forall x, x ∈ r_id <$> l -> x ∉ g_ing d) /\ (g_time d <= g_time d')%nat.
Proof.
  revert d d' l. induction nodes as [|n nodes IH]; intros d d' l; simpl.
  { intros [= <- <-]. split_and!; try done; [by rewrite app_nil_r|set_solver|constructor|set_solver]. }
  destruct (is_current cur (r_id n) || bool_decide (r_id n ∈ g_ing d)) eqn:E; [apply IH|].
  apply orb_false_iff in E as [_ E]. apply bool_decide_eq_false in E.
  destruct (conn (g_time d) (r_addr n)).
  - match goal with |- context [Discovery_Model.handle_list _ ?d1 _ _] => destruct (handle_list d1 cur nodes) as [d2 l2] eqn:H end.
    intros [= <- <-]. apply IH in H as (? & ? & ? & ? & ? & Hl & Hi & Hn & Hx & Ht). cbn in *.
    split_and!; try done.
    + rewrite Hl. by rewrite <- app_assoc.
    + intros x. rewrite Hi, elem_of_cons, elem_of_union, elem_of_singleton. tauto.
    + constructor; [|done]. intros Hin. apply Hx in Hin. apply Hin, elem_of_union_l. by apply elem_of_singleton.
    + intros x Hx'. apply elem_of_cons in Hx' as [->|Hx']; [done|]. apply Hx in Hx'. intros Hin. by apply Hx', elem_of_union_r.
    + lia.
  - intros H. apply IH in H as (? & ? & ? & ? & ? & Hl & Hi & Hn & Hx & Ht). cbn in *. split_and!; try done. lia.
Qed.

Lemma handle_list_complete d cur nodes d' l n : handle_list d cur nodes = (d', l) -> n ∈ nodes ->
  is_current cur (r_id n) = true \/ r_id n ∈ g_ing d \/ r_id n ∈ r_id <$> l \/
  exists k, conn k (r_addr n) = false /\ (g_time d <= k < g_time d')%nat.
Proof.
  revert d d' l. induction nodes as [|m nodes IH]; intros d d' l; simpl; [set_solver|].
  destruct (is_current cur (r_id m)) eqn:E1; simpl.
  { intros H Hn. apply elem_of_cons in Hn as [->|Hn]; [by left|]. by apply IH. }
  case_bool_decide as E2.
  { intros H Hn. apply elem_of_cons in Hn as [->|Hn]; [by right; left|]. by apply IH. }
  destruct (conn (g_time d) (r_addr m)) eqn:E3.
  - match goal with |- context [Discovery_Model.handle_list _ ?d1 _ _] => destruct (handle_list d1 cur nodes) as [d2 l2] eqn:H end.
    intros [= <- <-] Hn. apply elem_of_cons in Hn as [->|Hn]; [right; right; left; set_solver|].
    destruct (IH _ _ _ H Hn) as [?|[Hi|[?|(k & ? & ?)]]]; [by left| |by right; right; left; set_solver|].
    + cbn in Hi. apply elem_of_union in Hi as [Hi|Hi]; [|by right; left]. right; right; left. set_solver.
    + right; right; right. exists k. cbn in *. split; [done|lia].
  - intros H Hn. pose proof (handle_list_frame _ _ _ _ _ H) as (_ & _ & _ & _ & _ & _ & _ & _ & _ & Ht). cbn in Ht.
    apply elem_of_cons in Hn as [->|Hn].
    { right; right; right. exists (g_time d). split; [done|lia]. }
    destruct (IH _ _ _ H Hn) as [?|[Hi|[?|(k & ? & ?)]]]; [by left|by right; left|by right; right; left|].
    right; right; right. exists k. cbn in *. split; [done|lia].
Qed.

(** ** Invariants *)
Definition mail_cbs (l : list dmsg) : list nat := omap (fun m => match m with MAddr _ cb | MNodes _ cb => cb | _ => None end) l.
Definition group_cbs (l : list (list rnode * option nat)) : list nat := omap snd l.
Definition mail_done (l : list dmsg) : list rnode := omap (fun m => match m with MDone n _ => Some n | _ => None end) l.
Definition group_nodes (l : list (list rnode * option nat)) : list rnode := l ≫= fst.
Definition pending (d : disc) : list rnode := group_nodes (g_groups d) ++ mail_done (g_mail d).

Record knowledge (d : disc) : Prop := Knowledge {
  kn_addr : dom (g_addr d) = known (g_log d);
  kn_id : dom (g_id d) = known_ids (g_log d);
  kn_key : forall k i, g_id d !! k = Some i -> r_id (i_node i) = k;
  kn_sound : all_sound (g_log d)
}.
Definition callbacks (d : disc) : Prop :=
  answered (g_log d) ++ mail_cbs (g_mail d) ++ group_cbs (g_groups d) ≡ₚ seq 0 (g_next d).
Record shakes (d : disc) : Prop := Shakes {
  sh_all : shaken (g_log d) ≡ₚ added (g_log d) ++ failed (g_log d) ++ pending d;
  sh_nodup : NoDup (r_id <$> failed (g_log d) ++ pending d);
  sh_ing : forall x, x ∈ g_ing d <-> x ∈ r_id <$> failed (g_log d) ++ pending d
}.

Lemma knowledge_look d d' : look d d' -> knowledge d -> knowledge d'.
Proof.
  intros [a ->] [H1 H2 H3 H4]. unfold Discovery_Model.get_node_identity.
  destruct (g_addr d !! a) as [i|] eqn:E; [done|].
  assert (Ha : a ∉ known (g_log d)) by (rewrite <- H1; by apply not_elem_of_dom).
  destruct (net (g_time d) a) as [i|]; constructor; simpl.
  - rewrite known_snoc, !dom_insert_L, H1. done.
  - rewrite known_ids_snoc, dom_insert_L, H2. done.
  - intros k j. destruct (decide (r_id (i_node i) = k)) as [<-|Hk].
    + rewrite lookup_insert. by intros [= ->].
    + rewrite lookup_insert_ne by done. apply H3.
  - by apply all_sound_snoc.
  - by rewrite known_snoc.
  - by rewrite known_ids_snoc.
  - done.
  - by apply all_sound_snoc.
Qed.
Lemma knowledge_looks d d' : looks d d' -> knowledge d -> knowledge d'.
Proof. induction 1; eauto using knowledge_look. Qed.
Lemma knowledge_mail d m : knowledge d -> knowledge (with_mail d m).
Proof. intros []. by constructor. Qed.
Lemma knowledge_groups d m : knowledge d -> knowledge (with_groups d m).
Proof. intros []. by constructor. Qed.
Definition neutral (e : devent) : Prop := match e with VContact _ _ | VForgot _ | VRemoved _ => False | _ => True end.
Lemma neutral_known l es : Forall neutral es -> known (l ++ es) = known l /\ known_ids (l ++ es) = known_ids l /\ (all_sound l -> all_sound (l ++ es)).
Proof.
  intros Hes. revert l. induction Hes as [|e es He _ IH]; intros l; [by rewrite app_nil_r|].
  replace (l ++ e :: es) with ((l ++ [e]) ++ es) by (by rewrite <- app_assoc).
  destruct (IH (l ++ [e])) as (I1 & I2 & I3). rewrite I1, I2, known_snoc, known_ids_snoc.
  split_and!; [by destruct e|by destruct e|]. intros Hs. apply I3, all_sound_snoc; [done|]. by destruct e.
Qed.
Lemma knowledge_same d d' es : g_addr d' = g_addr d -> g_id d' = g_id d -> g_log d' = g_log d ++ es -> Forall neutral es ->
  knowledge d -> knowledge d'.
Proof.
  intros Ha Hi Hl Hes [H1 H2 H3 H4]. destruct (neutral_known (g_log d) es Hes) as (I1 & I2 & I3).
  constructor; rewrite ?Ha, ?Hi, ?Hl, ?I1, ?I2; auto.
Qed.
Lemma knowledge_answer d cb r : knowledge d -> knowledge (answer d cb r).
Proof. destruct cb; [|done]. apply (knowledge_same _ _ [VAnswer n r]); try done. by repeat constructor. Qed.

Lemma knowledge_step d o d' : knowledge d -> qstep d o = Some d' -> knowledge d'.
Proof.
  intros K. destruct o as [r cb|o1 o2|j i ok|j|n s]; simpl.
  - destruct r as [a|l|a]; intros [= <-]; (eapply (knowledge_same d _ []); [done|done|by rewrite app_nil_r|constructor|done]).
  - destruct (g_mail d) as [|m rest]; [done|]. intros [= <-]. apply (knowledge_mail _ rest) in K.
    destruct m as [a cb|l cb|a|n ok]; simpl.
    + destruct (handle_addr_case (with_mail d rest) o1 o2 a cb) as [|d1 Hl|d1 nodes i Hl].
      * by apply knowledge_answer.
      * apply knowledge_answer. by eapply knowledge_looks.
      * apply knowledge_mail. by eapply knowledge_looks.
    + unfold Discovery_Model.handle_nodes. destruct (handle_list _ _ _) as [d1 l1] eqn:E. apply knowledge_groups.
      apply handle_list_frame in E as (Ha & Hi & _ & _ & _ & Hl & _).
      eapply knowledge_same; [done..| |done]. apply Forall_fmap, Forall_true. done.
    + unfold handle_forget. destruct K as [H1 H2 H3 H4]. cbn in *.
      destruct (g_addr d !! a) as [i|] eqn:E.
      * destruct (g_id d !! r_id (i_node i)) as [j|] eqn:E2.
        -- assert (Hj : r_id (i_node j) = r_id (i_node i)) by (by apply H3).
           constructor; cbn.
           ++ rewrite known_snoc. cbn. by rewrite known_snoc, dom_delete_L, H1.
           ++ rewrite known_ids_snoc. cbn. by rewrite known_ids_snoc, dom_delete_L, H2, Hj.
           ++ intros k i' Hk. apply lookup_delete_Some in Hk as [_ Hk]. by apply H3.
           ++ apply all_sound_snoc; [by apply all_sound_snoc|]. cbn. rewrite known_ids_snoc. cbn.
              rewrite Hj, <- H2. by apply elem_of_dom.
        -- constructor; cbn.
           ++ by rewrite known_snoc, dom_delete_L, H1.
           ++ rewrite known_ids_snoc, dom_delete_L, H2. cbn. apply not_elem_of_dom in E2. rewrite H2 in E2. set_solver.
           ++ intros k i' Hk. apply lookup_delete_Some in Hk as [_ Hk]. by apply H3.
           ++ by apply all_sound_snoc.
      * constructor; cbn; try done.
        -- rewrite known_snoc, H1. cbn. apply not_elem_of_dom in E. rewrite H1 in E. set_solver.
        -- by rewrite known_ids_snoc.
        -- by apply all_sound_snoc.
    + unfold handle_done. destruct ok.
      * case_decide; [|done]. eapply (knowledge_same (with_mail d rest) _ [VAdded n]); try done. by repeat constructor.
      * eapply (knowledge_same (with_mail d rest) _ [VFailed n]); try done. by repeat constructor.
  - destruct (g_groups d !! j) as [[l cb]|]; [|done]. cbn [mbind option_bind]. destruct (l !! i); [|done]. intros [= <-].
    by apply knowledge_mail, knowledge_groups.
  - destruct (g_groups d !! j) as [[l cb]|]; [|done]. cbn [mbind option_bind]. destruct l; [|done]. intros [= <-].
    by apply knowledge_answer, knowledge_groups.
  - intros [= <-]. eapply (knowledge_same d _ []); [done|done|by rewrite app_nil_r|constructor|done].
Qed.

Lemma mail_cbs_app a b : mail_cbs (a ++ b) = mail_cbs a ++ mail_cbs b.
Proof. apply omap_app. Qed.
Lemma mail_done_app a b : mail_done (a ++ b) = mail_done a ++ mail_done b.
Proof. apply omap_app. Qed.
Lemma group_cbs_app a b : group_cbs (a ++ b) = group_cbs a ++ group_cbs b.
Proof. apply omap_app. Qed.
Lemma group_nodes_app a b : group_nodes (a ++ b) = group_nodes a ++ group_nodes b.
Proof. apply bind_app. Qed.

Lemma group_cbs_delete l j ns cb : l !! j = Some (ns, cb) ->
  group_cbs l ≡ₚ (match cb with Some c => [c] | None => [] end) ++ group_cbs (delete j l).
Proof.
  intros H. unfold group_cbs. rewrite (delete_Permutation l j _ H) at 1. by destruct cb.
Qed.
Lemma group_cbs_insert l j ns ns' cb : l !! j = Some (ns, cb) -> group_cbs (<[j := (ns', cb)]> l) = group_cbs l.
Proof.
  revert j. induction l as [|[x y] l IH]; intros [|j] H; simpl in *; [done|done| |].
  - by inversion H.
  - unfold group_cbs in *. simpl. by rewrite IH.
Qed.
Lemma group_nodes_delete l j cb : l !! j = Some ([], cb) -> group_nodes (delete j l) = group_nodes l.
Proof.
  revert j. induction l as [|[x y] l IH]; intros [|j] H; simpl in *; [done|done| |].
  - by inversion H.
  - unfold group_nodes in *. csimpl. by rewrite IH.
Qed.
Lemma group_nodes_insert l j ns cb i n : l !! j = Some (ns, cb) -> ns !! i = Some n ->
  group_nodes l ≡ₚ n :: group_nodes (<[j := (delete i ns, cb)]> l).
Proof.
  revert j. induction l as [|[x y] l IH]; intros [|j] H Hi; simpl in *; [done|done| |].
  - inversion H; subst. unfold group_nodes. csimpl. rewrite (delete_Permutation ns i n Hi) at 1. done.
  - unfold group_nodes in *. csimpl. rewrite (IH j H Hi). apply Permutation_sym, Permutation_middle.
Qed.

Lemma callbacks_step d o d' : callbacks d -> qstep d o = Some d' -> callbacks d'.
Proof.
  unfold callbacks. intros K. destruct o as [r cb|o1 o2|j i ok|j|n s]; simpl.
  - destruct r as [a|l|a]; intros [= <-]; cbn; rewrite mail_cbs_app; destruct cb; cbn.
    + rewrite seq_S, <- K, !app_assoc_reverse. do 2 f_equiv. apply Permutation_app_comm.
    + by rewrite app_nil_r.
    + rewrite seq_S, <- K, !app_assoc_reverse. do 2 f_equiv. apply Permutation_app_comm.
    + by rewrite app_nil_r.
    + by rewrite app_nil_r.
    + by rewrite app_nil_r.
  - destruct (g_mail d) as [|m rest] eqn:Em; [done|]. intros [= <-].
    destruct m as [a cb|l cb|a|n ok]; cbn in K; simpl.
    + destruct (handle_addr_case (with_mail d rest) o1 o2 a cb) as [|d1 Hl|d1 nodes i Hl].
      * destruct cb; cbn; [|done]. rewrite answered_app. cbn. rewrite <- app_assoc. exact K.
      * apply looks_frame in Hl as [_ _ Hm Hg Hn (cs & Hl & Hc)]. apply contacts_nothing in Hc as (Hc & _).
        destruct cb; cbn; rewrite Hn, Hm, Hg, Hl, !answered_app, Hc; cbn; rewrite ?app_nil_r; [|done].
        rewrite <- app_assoc. exact K.
      * apply looks_frame in Hl as [_ _ Hm Hg Hn (cs & Hl & Hc)]. apply contacts_nothing in Hc as (Hc & _).
        cbn. rewrite Hn, Hm, Hg, Hl, answered_app, Hc, mail_cbs_app, app_nil_r. cbn. rewrite <- K.
        destruct cb; cbn; [|by rewrite app_nil_r]. apply Permutation_app; [done|]. rewrite <- app_assoc. apply Permutation_sym, Permutation_middle.
    + unfold Discovery_Model.handle_nodes. destruct (handle_list _ _ _) as [d1 l1] eqn:E.
      apply handle_list_frame in E as (_ & _ & Hm & Hg & Hn & Hl & _). cbn in *.
      rewrite Hn, Hm, Hg, Hl, answered_app, answered_shakes, app_nil_r, group_cbs_app, <- K. cbn.
      destruct cb; cbn; [|by rewrite app_nil_r]. apply Permutation_app; [done|]. rewrite app_assoc. apply Permutation_sym, Permutation_cons_append.
    + unfold handle_forget. cbn. destruct (g_addr d !! a) as [i|]; [destruct (g_id d !! _)|]; cbn; rewrite !answered_app; cbn; by rewrite ?app_nil_r.
    + unfold handle_done. destruct ok; [case_decide; [|done]|]; cbn; rewrite answered_app; cbn; by rewrite app_nil_r.
  - destruct (g_groups d !! j) as [[l cb]|] eqn:Ej; [|done]. cbn [mbind option_bind]. destruct (l !! i) eqn:Ei; [|done]. intros [= <-].
    cbn. rewrite mail_cbs_app. cbn. rewrite app_nil_r, (group_cbs_insert _ _ l) by done. done.
  - destruct (g_groups d !! j) as [[l cb]|] eqn:Ej; [|done]. cbn [mbind option_bind]. destruct l; [|done]. intros [= <-].
    rewrite (group_cbs_delete _ _ _ _ Ej) in K. destruct cb; cbn in *; [|done].
    rewrite answered_app. cbn. rewrite <- K, !app_assoc_reverse. f_equiv. cbn. apply Permutation_middle.
  - intros [= <-]. done.
Qed.

Lemma shakes_same d d' es : g_ing d' = g_ing d -> pending d' = pending d ->
  g_log d' = g_log d ++ es -> shaken es = [] /\ added es = [] /\ failed es = [] -> shakes d -> shakes d'.
Proof.
  intros Hi Hp Hl (E1 & E2 & E3) [H1 H2 H3].
  constructor; rewrite ?Hi, ?Hp, ?Hl, ?shaken_app, ?added_app, ?failed_app, ?E1, ?E2, ?E3, ?app_nil_r; done.
Qed.
Lemma shakes_step d o d' : shakes d -> qstep d o = Some d' -> shakes d'.
Proof.
  intros K. destruct o as [r cb|o1 o2|j i ok|j|n s]; simpl.
  - destruct r as [a|l|a]; intros [= <-];
      (eapply (shakes_same d _ []); [done| |by rewrite app_nil_r|done|done]); unfold pending; cbn; rewrite mail_done_app; cbn; by rewrite app_nil_r.
  - destruct (g_mail d) as [|m rest] eqn:Em; [done|]. intros [= <-].
    destruct m as [a cb|l cb|a|n ok]; simpl.
    + destruct (handle_addr_case (with_mail d rest) o1 o2 a cb) as [|d1 Hl|d1 nodes i Hl].
      * eapply (shakes_same d _ (match cb with Some c => [VAnswer c true] | None => [] end)); [by destruct cb| | |by destruct cb|done].
        -- unfold pending. rewrite Em. by destruct cb.
        -- destruct cb; cbn; by rewrite ?app_nil_r.
      * apply looks_frame in Hl as [Hi _ Hm Hg _ (cs & Hl & Hc)]. apply contacts_nothing in Hc as (_ & Hc1 & Hc2 & Hc3).
        eapply (shakes_same d _ (cs ++ match cb with Some c => [VAnswer c false] | None => [] end)); [by destruct cb| | | |done].
        -- unfold pending. rewrite Em. destruct cb; cbn; rewrite Hm, Hg; done.
        -- destruct cb; cbn; rewrite Hl, ?app_nil_r, ?app_assoc; done.
        -- rewrite shaken_app, added_app, failed_app, Hc1, Hc2, Hc3. by destruct cb.
      * apply looks_frame in Hl as [Hi _ Hm Hg _ (cs & Hl & Hc)]. apply contacts_nothing in Hc as (_ & Hc1 & Hc2 & Hc3).
        eapply (shakes_same d _ cs); [done| | |done|done].
        -- unfold pending. rewrite Em. cbn. rewrite Hm, Hg, mail_done_app. cbn. by rewrite app_nil_r.
        -- done.
    + unfold Discovery_Model.handle_nodes. destruct (handle_list _ _ _) as [d1 l1] eqn:E.
      apply handle_list_frame in E as (_ & _ & Hm & Hg & _ & Hl & Hi & Hnd & Hx & _). cbn in *.
      destruct K as [H1 H2 H3]. unfold pending in *. rewrite Em in *. cbn in *.
      assert (HP : failed (g_log d) ++ group_nodes (g_groups d ++ [(l1, cb)]) ++ mail_done rest
                   ≡ₚ l1 ++ failed (g_log d) ++ group_nodes (g_groups d) ++ mail_done rest).
      { rewrite group_nodes_app. change (group_nodes [(l1, cb)]) with (l1 ++ []). rewrite app_nil_r.
        rewrite <- (app_assoc _ l1), (app_assoc l1), (Permutation_app_comm l1 (failed _)), <- app_assoc. f_equiv.
        rewrite !app_assoc. f_equiv. apply Permutation_app_comm. }
      constructor; unfold pending; cbn; rewrite ?Hg, ?Hm, ?Hl, ?shaken_app, ?added_app, ?failed_app, ?shaken_shakes, ?added_shakes, ?failed_shakes, ?app_nil_r.
      * rewrite H1, HP. rewrite (Permutation_app_comm _ l1), !app_assoc. do 3 f_equiv. apply Permutation_app_comm.
      * rewrite HP, fmap_app. apply NoDup_app. split; [done|]. split; [|done].
        intros x Hx1 Hx2. apply (Hx x Hx1). by apply H3.
      * intros x. rewrite HP, fmap_app, elem_of_app, Hi, H3. done.
    + unfold handle_forget. cbn. destruct (g_addr d !! a) as [i|]; [destruct (g_id d !! _)|].
      all: (eapply (shakes_same d); [done| |by cbn; rewrite <- ?app_assoc|done|done]); unfold pending; rewrite Em; done.
    + unfold handle_done. destruct K as [H1 H2 H3]. unfold pending in *. rewrite Em in *. cbn in *.
      assert (HP : failed (g_log d) ++ group_nodes (g_groups d) ++ n :: mail_done rest
                   ≡ₚ n :: failed (g_log d) ++ group_nodes (g_groups d) ++ mail_done rest).
      { rewrite !app_assoc. symmetry. apply Permutation_middle. }
      rewrite HP in H1, H2. cbn in H2. apply NoDup_cons in H2 as [H2 H2']. destruct ok.
      * rewrite decide_True by (cbn; apply H3; rewrite HP; csimpl; set_solver).
        constructor; unfold pending; cbn; rewrite ?shaken_app, ?added_app, ?failed_app; cbn; rewrite ?app_nil_r.
        -- rewrite H1, app_assoc_reverse. done.
        -- done.
        -- intros x. rewrite elem_of_difference, H3, HP, elem_of_singleton. csimpl. rewrite elem_of_cons.
           split; [intros [[->|?] ?]; done|]. intros Hx. split; [by right|]. intros ->. done.
      * constructor; unfold pending; cbn; rewrite ?shaken_app, ?added_app, ?failed_app; cbn; rewrite ?app_nil_r.
        -- rewrite H1, app_assoc_reverse. f_equiv. cbn. apply Permutation_middle.
        -- rewrite app_assoc_reverse. cbn. rewrite <- Permutation_middle. cbn. by constructor.
        -- intros x. rewrite H3, HP, app_assoc_reverse. cbn. by rewrite <- Permutation_middle.
  - destruct (g_groups d !! j) as [[l cb]|] eqn:Ej; [|done]. cbn [mbind option_bind]. destruct (l !! i) as [n|] eqn:Ei; [|done]. intros [= <-].
    destruct K as [H1 H2 H3]. unfold pending in *.
    assert (HP : group_nodes (g_groups d) ++ mail_done (g_mail d)
      ≡ₚ group_nodes (<[j:=(delete i l, cb)]> (g_groups d)) ++ mail_done (g_mail d ++ [MDone n ok])).
    { rewrite mail_done_app, (group_nodes_insert _ j l cb i n) by done. cbn. rewrite app_assoc. apply Permutation_cons_append. }
    constructor; unfold pending; cbn; [by rewrite <- HP|by rewrite <- HP|]. intros x. rewrite H3. by rewrite HP.
  - destruct (g_groups d !! j) as [[l cb]|] eqn:Ej; [|done]. cbn [mbind option_bind]. destruct l; [|done]. intros [= <-].
    eapply (shakes_same d _ (match cb with Some c => [VAnswer c true] | None => [] end)); [by destruct cb| | |by destruct cb|done].
    + unfold pending. destruct cb; cbn [answer tell with_groups g_groups g_mail]; by rewrite (group_nodes_delete _ _ _ Ej).
    + destruct cb; cbn; by rewrite ?app_nil_r.
  - intros [= <-]. eapply (shakes_same d _ []); [done|done|by rewrite app_nil_r|done|done].
Qed.

Lemma runs_ind (P : disc -> Prop) d l d' : (forall d o d', P d -> qstep d o = Some d' -> P d') ->
  P d -> qruns d l = Some d' -> P d'.
Proof.
  intros HP. revert d. induction l as [|o l IH]; intros d Hd; simpl; [by intros [= <-]|].
  destruct (qstep d o) as [d1|] eqn:E; [|done]. cbn. apply IH. by eapply HP.
Qed.
Lemma new_knowledge reg : knowledge (new_disc reg).
Proof. constructor; cbn; [by rewrite dom_empty_L|by rewrite dom_empty_L|done|apply all_sound_nil]. Qed.
Lemma new_callbacks reg : callbacks (new_disc reg).
Proof. unfold callbacks. done. Qed.
Lemma new_shakes reg : shakes (new_disc reg).
Proof. constructor; unfold pending; cbn; [done|constructor|]. intros x. set_solver. Qed.

(** The log only grows. *)
Lemma step_log d o d' : qstep d o = Some d' -> exists es, g_log d' = g_log d ++ es.
Proof.
  destruct o as [r cb|o1 o2|j i ok|j|n s]; simpl.
  - destruct r; intros [= <-]; exists []; by rewrite app_nil_r.
  - destruct (g_mail d) as [|m rest] eqn:Em; [done|]. intros [= <-].
    destruct m as [a cb|l cb|a|n ok]; simpl.
    + destruct (handle_addr_case (with_mail d rest) o1 o2 a cb) as [|d1 Hl|d1 nodes i Hl].
      * destruct cb; cbn; eauto. exists []. by rewrite app_nil_r.
      * apply looks_frame in Hl as [_ _ _ _ _ (cs & Hl & _)]. destruct cb; cbn; rewrite Hl, <- ?app_assoc; eauto.
      * apply looks_frame in Hl as [_ _ _ _ _ (cs & Hl & _)]. cbn. rewrite Hl. eauto.
    + unfold Discovery_Model.handle_nodes. destruct (handle_list _ _ _) as [d1 l1] eqn:E.
      apply handle_list_frame in E as (_ & _ & _ & _ & _ & Hl & _). cbn in *. rewrite Hl. eauto.
    + unfold handle_forget. cbn. destruct (g_addr d !! a) as [i|]; [destruct (g_id d !! _)|]; cbn; rewrite <- ?app_assoc; eauto.
    + unfold handle_done. destruct ok; [case_decide|]; cbn; eauto. exists []. by rewrite app_nil_r.
  - destruct (g_groups d !! j) as [[l cb]|]; [|done]. cbn [mbind option_bind]. destruct (l !! i); [|done]. intros [= <-].
    exists []. by rewrite app_nil_r.
  - destruct (g_groups d !! j) as [[l cb]|]; [|done]. cbn [mbind option_bind]. destruct l; [|done]. intros [= <-].
    destruct cb; cbn; eauto. exists []. by rewrite app_nil_r.
  - intros [= <-]. exists []. by rewrite app_nil_r.
Qed.
Lemma runs_log d l d' : qruns d l = Some d' -> exists es, g_log d' = g_log d ++ es.
Proof.
  revert d. induction l as [|o l IH]; intros d; simpl.
  - intros [= <-]. exists []. by rewrite app_nil_r.
  - destruct (qstep d o) as [d1|] eqn:E; [|done]. cbn. intros H. destruct (step_log _ _ _ E) as [e1 H1].
    destruct (IH _ H) as [e2 H2]. exists (e1 ++ e2). by rewrite H2, H1, app_assoc.
Qed.

(** ** Failed handshakes are for ever *)
Lemma failed_stuck d l d' n es : shakes d -> n ∈ failed (g_log d) -> qruns d l = Some d' -> g_log d' = g_log d ++ es ->
  forall m, m ∈ shaken es ++ added es -> r_id m <> r_id n.
Proof.
  intros K Hn Hr Hl m Hm Hid. assert (K' : shakes d') by (eapply (runs_ind shakes); eauto using shakes_step).
  revert d K Hn Hr es Hl m Hm Hid. induction l as [|o l IH]; intros d K Hn Hr es Hl m Hm Hid; simpl in Hr.
  { injection Hr as <-. replace es with (@nil devent) in Hm; [by set_solver|]. apply (app_inv_head (g_log d)). by rewrite <- Hl, app_nil_r. }
  destruct (qstep d o) as [d1|] eqn:E; [|done]. cbn in Hr.
  assert (K1 : shakes d1) by (by eapply shakes_step).
  destruct (step_log _ _ _ E) as [e1 H1]. destruct (runs_log _ _ _ Hr) as [e2 H2].
  assert (es = e1 ++ e2) as ->. { apply (app_inv_head (g_log d)). by rewrite <- Hl, H2, H1, app_assoc. }
  assert (Hn1 : n ∈ failed (g_log d1)) by (rewrite H1, failed_app; set_solver).
  assert (Hm' : m ∈ shaken e1 ++ added e1 \/ m ∈ shaken e2 ++ added e2) by (rewrite shaken_app, added_app in Hm; set_solver).
  destruct Hm' as [Hm1|Hm2]; [|by eapply (IH d1 K1 Hn1 Hr e2 H2 m Hm2)].
  (* the step itself *)
  clear IH Hr H2 Hm Hl d' K'.
  assert (Hing : r_id n ∈ g_ing d) by (apply K; rewrite fmap_app; apply elem_of_app; left; by apply elem_of_list_fmap_1).
  assert (Hpend : r_id n ∉ r_id <$> pending d).
  { intros Hp. pose proof (sh_nodup _ K) as Hnd. rewrite fmap_app in Hnd. apply NoDup_app in Hnd as (_ & Hd & _).
    apply (Hd (r_id n)); [|done]. by apply elem_of_list_fmap_1. }
  assert (Hinj : forall es, g_log d1 = g_log d ++ es -> e1 = es).
  { intros es He. apply (app_inv_head (g_log d)). by rewrite <- He, H1. }
  destruct o as [r cb|o1 o2|j i ok|j|n0 s]; simpl in E.
  - destruct r; injection E as <-; (rewrite (Hinj []) in Hm1; [set_solver|by rewrite app_nil_r]).
  - destruct (g_mail d) as [|msg rest] eqn:Em; [done|]. injection E as <-.
    destruct msg as [a cb|l0 cb|a|n0 ok]; simpl in *.
    + destruct (handle_addr_case (with_mail d rest) o1 o2 a cb) as [|d1 Hl|d1 nodes i Hl].
      * destruct cb; cbn in *; [rewrite (Hinj [VAnswer n0 true]) in Hm1; [set_solver|done]|].
        rewrite (Hinj []) in Hm1; [set_solver|by rewrite app_nil_r].
      * apply looks_frame in Hl as [_ _ _ _ _ (cs & Hl & Hc)]. apply contacts_nothing in Hc as (_ & Hc1 & Hc2 & _). cbn in Hl.
        destruct cb; cbn in *.
        -- rewrite (Hinj (cs ++ [VAnswer n0 false])), shaken_app, added_app, Hc1, Hc2 in Hm1; [set_solver|]. by rewrite Hl, app_assoc.
        -- rewrite (Hinj cs), Hc1, Hc2 in Hm1; [set_solver|done].
      * apply looks_frame in Hl as [_ _ _ _ _ (cs & Hl & Hc)]. apply contacts_nothing in Hc as (_ & Hc1 & Hc2 & _). cbn in *.
        rewrite (Hinj cs), Hc1, Hc2 in Hm1; [set_solver|done].
    + unfold Discovery_Model.handle_nodes in *. destruct (handle_list _ _ _) as [d2 l1] eqn:EE.
      apply handle_list_frame in EE as (_ & _ & _ & _ & _ & Hl & _ & _ & Hx & _). cbn in *.
      rewrite (Hinj (VShake <$> l1)), shaken_shakes, added_shakes, app_nil_r in Hm1 by done.
      apply (Hx (r_id m)); [by apply elem_of_list_fmap_1|]. by rewrite Hid.
    + unfold handle_forget in *. cbn in *. destruct (g_addr d !! a) as [i|]; [destruct (g_id d !! _) as [j|]|]; cbn in *.
      * rewrite (Hinj [VForgot a; VRemoved (i_node j)]) in Hm1; [set_solver|]. by rewrite <- app_assoc.
      * rewrite (Hinj [VForgot a]) in Hm1; [set_solver|done].
      * rewrite (Hinj [VForgot a]) in Hm1; [set_solver|done].
    + unfold handle_done in *. destruct ok; [case_decide|]; cbn in *.
      * rewrite (Hinj [VAdded n0]) in Hm1 by done. cbn in Hm1. apply elem_of_list_singleton in Hm1 as ->.
        apply Hpend. unfold pending. rewrite Em. cbn. rewrite fmap_app. cbn. rewrite Hid. set_solver.
      * rewrite (Hinj []) in Hm1; [set_solver|by rewrite app_nil_r].
      * rewrite (Hinj [VFailed n0]) in Hm1; [set_solver|done].
  - destruct (g_groups d !! j) as [[l0 cb]|]; [|done]. cbn [mbind option_bind] in E. destruct (l0 !! i); [|done]. injection E as <-.
    rewrite (Hinj []) in Hm1; [set_solver|by rewrite app_nil_r].
  - destruct (g_groups d !! j) as [[l0 cb]|]; [|done]. cbn [mbind option_bind] in E. destruct l0; [|done]. injection E as <-.
    destruct cb; cbn in *; [rewrite (Hinj [VAnswer n0 true]) in Hm1; [set_solver|done]|].
    rewrite (Hinj []) in Hm1; [set_solver|by rewrite app_nil_r].
  - injection E as <-. rewrite (Hinj []) in Hm1; [set_solver|by rewrite app_nil_r].
Qed.

(** ** The work ends *)
Local Arguments group_nodes : simpl never.
Definition weight (d : disc) : nat :=
  2 * length (group_nodes (g_groups d)) + length (g_groups d) +
  length (List.filter (fun m => match m with MForget _ | MDone _ _ => true | _ => false end) (g_mail d)).
Definition n_addr (d : disc) : nat := length (List.filter (fun m => match m with MAddr _ _ => true | _ => false end) (g_mail d)).
Definition n_nodes (d : disc) : nat := length (List.filter (fun m => match m with MNodes _ _ => true | _ => false end) (g_mail d)).

Lemma answer_frame d cb r : g_mail (answer d cb r) = g_mail d /\ g_groups (answer d cb r) = g_groups d.
Proof. by destruct cb. Qed.

Lemma internal_decreases d o d' : internal o = true -> qstep d o = Some d' ->
  (n_addr d' < n_addr d)%nat \/ (n_addr d' = n_addr d /\ n_nodes d' < n_nodes d)%nat \/
  (n_addr d' = n_addr d /\ n_nodes d' = n_nodes d /\ weight d' < weight d)%nat.
Proof.
  unfold n_addr, n_nodes, weight. destruct o as [r cb|o1 o2|j i ok|j|n s]; simpl; try done; intros _.
  - destruct (g_mail d) as [|m rest] eqn:Em; [done|]. intros [= <-].
    destruct m as [a cb|l cb|a|n ok]; simpl.
    + left. destruct (handle_addr_case (with_mail d rest) o1 o2 a cb) as [|d1 Hl|d1 nodes i Hl].
      * destruct (answer_frame (with_mail d rest) cb true) as [-> _]. cbn. lia.
      * apply looks_frame in Hl as [_ _ Hm _ _ _]. destruct (answer_frame d1 cb false) as [-> _]. rewrite Hm. cbn. lia.
      * apply looks_frame in Hl as [_ _ Hm _ _ _]. cbn. rewrite Hm, List.filter_app. cbn. rewrite app_nil_r. lia.
    + right; left. unfold Discovery_Model.handle_nodes. destruct (handle_list _ _ _) as [d1 l1] eqn:E.
      apply handle_list_frame in E as (_ & _ & Hm & _). cbn in *. rewrite Hm. lia.
    + right; right. unfold handle_forget. cbn. destruct (g_addr d !! a) as [i|]; [destruct (g_id d !! _)|]; cbn; lia.
    + right; right. unfold handle_done. destruct ok; [case_decide|]; cbn; lia.
  - destruct (g_groups d !! j) as [[l cb]|] eqn:Ej; [|done]. cbn [mbind option_bind]. destruct (l !! i) as [n|] eqn:Ei; [|done]. intros [= <-].
    right; right. cbn. rewrite !List.filter_app. cbn. rewrite !app_nil_r, app_length, insert_length. cbn.
    rewrite (group_nodes_insert _ j l cb i n Ej Ei). cbn. lia.
  - destruct (g_groups d !! j) as [[l cb]|] eqn:Ej; [|done]. cbn [mbind option_bind]. destruct l; [|done]. intros [= <-].
    right; right. destruct (answer_frame (with_groups d (delete j (g_groups d))) cb true) as [-> ->]. cbn.
    rewrite (group_nodes_delete _ _ _ Ej), length_delete by done.
    assert (0 < length (g_groups d))%nat by (apply lookup_lt_Some in Ej; lia). lia.
Qed.

Lemma internal_ends d : Acc (fun d' d => exists o, internal o = true /\ qstep d o = Some d') d.
Proof.
  remember (n_addr d) as a eqn:Ha. revert d Ha. induction a as [a IHa] using lt_wf_ind. intros d Ha.
  remember (n_nodes d) as b eqn:Hb. revert d Ha Hb. induction b as [b IHb] using lt_wf_ind. intros d Ha Hb.
  remember (weight d) as c eqn:Hc. revert d Ha Hb Hc. induction c as [c IHc] using lt_wf_ind. intros d Ha Hb Hc.
  constructor. intros d' (o & Ho & Hs). destruct (internal_decreases _ _ _ Ho Hs) as [H|[[H1 H2]|(H1 & H2 & H3)]].
  - apply (IHa (n_addr d')); [lia|done].
  - apply (IHb (n_nodes d')); [lia|lia|done].
  - apply (IHc (weight d')); [lia|lia|lia|done].
Qed.
Lemma internal_enabled d : ~ quiet d -> exists o, internal o = true /\ is_Some (qstep d o).
Proof.
  intros Hq. destruct (g_mail d) as [|m rest] eqn:Em.
  - destruct (g_groups d) as [|[l cb] g] eqn:Eg; [by destruct Hq|]. destruct l as [|n l].
    + exists (QJoin 0). simpl. rewrite Eg. cbn. eauto.
    + exists (QShake 0 0 true). simpl. rewrite Eg. cbn. eauto.
  - exists (QHandle [] []). simpl. rewrite Em. eauto.
Qed.

(** ** What a seed reports is discovered *)
Definition missed (b : nat) (d : disc) (a : string) : Prop := VContact a None ∈ drop b (g_log d).
Lemma missed_looks b d d' a : looks d d' -> missed b d a -> missed b d' a.
Proof.
  unfold missed. intros H Hm. destruct (looks_frame _ _ H) as [_ _ _ _ _ (cs & Hl & _)]. rewrite Hl.
  destruct (decide (b <= length (g_log d))%nat).
  - rewrite drop_app_le by done. apply elem_of_app. by left.
  - rewrite drop_ge in Hm by lia. by apply elem_of_nil in Hm.
Qed.

(** Every cached identity was answered. *)
Definition genuine (d : disc) : Prop :=
  forall a i, g_addr d !! a = Some i -> exists k a', net k a' = Some i /\ (a = a' \/ a = r_addr (i_node i)).
Lemma genuine_look d d' : look d d' -> genuine d -> genuine d'.
Proof.
  intros [a ->] H. unfold Discovery_Model.get_node_identity. destruct (g_addr d !! a) as [i|] eqn:E; [done|].
  destruct (net (g_time d) a) as [i|] eqn:En; [|done]. intros b j. cbn.
  destruct (decide (r_addr (i_node i) = b)) as [<-|Hb].
  { rewrite lookup_insert. intros [= ->]. eauto. }
  rewrite lookup_insert_ne by done. destruct (decide (a = b)) as [<-|Hb'].
  { rewrite lookup_insert. intros [= ->]. eauto. }
  rewrite lookup_insert_ne by done. apply H.
Qed.
Lemma genuine_looks d d' : looks d d' -> genuine d -> genuine d'.
Proof. induction 1; eauto using genuine_look. Qed.
Lemma genuine_same d d' : g_addr d' = g_addr d -> genuine d -> genuine d'.
Proof. unfold genuine. intros ->. done. Qed.
Lemma genuine_step d o d' : genuine d -> qstep d o = Some d' -> genuine d'.
Proof.
  intros K. destruct o as [r cb|o1 o2|j i ok|j|n s]; simpl.
  - destruct r as [a|l|a]; intros [= <-]; by apply (genuine_same d).
  - destruct (g_mail d) as [|m rest]; [done|]. intros [= <-]. apply (genuine_same d (with_mail d rest)) in K; [|done].
    destruct m as [a cb|l cb|a|n ok]; simpl.
    + destruct (handle_addr_case (with_mail d rest) o1 o2 a cb) as [|d1 Hl|d1 nodes i Hl].
      * apply (genuine_same (with_mail d rest)); by destruct cb.
      * apply (genuine_same d1); [by destruct cb|]. by eapply genuine_looks.
      * apply (genuine_same d1); [done|]. by eapply genuine_looks.
    + unfold Discovery_Model.handle_nodes. destruct (handle_list _ _ _) as [d1 l1] eqn:E.
      apply handle_list_frame in E as (Ha & _). by apply (genuine_same (with_mail d rest)).
    + unfold handle_forget. cbn. destruct (g_addr d !! a) as [i|]; [|done].
      assert (H : forall d2, g_addr d2 = delete a (g_addr d) -> genuine d2).
      { intros d2 H2 b j. rewrite H2. intros Hb. apply lookup_delete_Some in Hb as [_ Hb]. by apply K. }
      destruct (g_id d !! _); by apply H.
    + unfold handle_done. destruct ok; [case_decide|]; by apply (genuine_same (with_mail d rest)).
  - destruct (g_groups d !! j) as [[l cb]|]; [|done]. cbn [mbind option_bind]. destruct (l !! i); [|done]. intros [= <-]. done.
  - destruct (g_groups d !! j) as [[l cb]|]; [|done]. cbn [mbind option_bind]. destruct l; [|done]. intros [= <-].
    apply (genuine_same d); by destruct cb.
  - intros [= <-]. done.
Qed.

Lemma get_node_identity_result d a : 
  match (get_node_identity d a).2 with
  | Some i => genuine d -> exists k a', net k a' = Some i /\ (a = a' \/ a = r_addr (i_node i))
  | None => missed (length (g_log d)) (get_node_identity d a).1 a
  end.
Proof.
  unfold Discovery_Model.get_node_identity. destruct (g_addr d !! a) as [i|] eqn:E.
  { intros G. by apply G. }
  destruct (net (g_time d) a) as [i|] eqn:En; cbn.
  - intros _. eauto.
  - unfold missed. cbn. rewrite drop_app. set_solver.
Qed.

Lemma discover_nodes_grows d peers found : found ⊆ (discover_nodes d peers found).2.
Proof.
  revert d found. induction peers as [|n peers IH]; intros d found; simpl; [done|].
  destruct (r_id n =? self)%N; [apply IH|]. destruct (found !! r_id n) eqn:E; [apply IH|].
  destruct (get_node_identity d (r_addr n)) as [d1 [i|]]; [|apply IH].
  etrans; [|apply IH]. by apply insert_subseteq.
Qed.
Lemma discover_all_grows d l found : found ⊆ (discover_all d l found).2.
Proof.
  revert d found. induction l as [|i l IH]; intros d found; simpl; [done|].
  pose proof (discover_nodes_grows d (i_peers i) found) as H. destruct (discover_nodes d (i_peers i) found) as [d1 f1].
  etrans; [exact H|apply IH].
Qed.

Definition keyed (found : gmap N ident) : Prop :=
  forall k i, found !! k = Some i -> r_id (i_node i) = k /\ exists t a, net t a = Some i.

Section right.
Hypothesis Hright : reports_right net.

Lemma discover_nodes_keyed d i0 peers found : genuine d -> keyed found ->
  (exists t a, net t a = Some i0) -> (forall p, p ∈ peers -> p ∈ i_peers i0) ->
  keyed (discover_nodes d peers found).2.
Proof.
  intros G K (t0 & a0 & H0) Hp. revert d found G K Hp. induction peers as [|n peers IH]; intros d found G K Hp; simpl; [done|].
  assert (Hp' : forall p, p ∈ peers -> p ∈ i_peers i0) by (intros p ?; apply Hp; set_solver).
  destruct (r_id n =? self)%N; [by apply IH|]. destruct (found !! r_id n) eqn:E; [by apply IH|].
  pose proof (get_node_identity_result d (r_addr n)) as Hr.
  destruct (get_node_identity d (r_addr n)) as [d1 r] eqn:Eg. cbn [fst snd] in Hr.
  assert (G1 : genuine d1) by (apply (genuine_look d); [exists (r_addr n); by rewrite Eg|done]).
  apply IH; [done| |done]. destruct r as [i|]; [|done].
  destruct (Hr G) as (k & a' & Hk & Ha). intros k2 i2. destruct (decide (r_id n = k2)) as [<-|Hne].
  - rewrite lookup_insert. intros [= <-]. split; [|eauto]. eapply (Hright t0 a0 i0 n k a'); try done. apply Hp. set_solver.
  - rewrite lookup_insert_ne by done. apply K.
Qed.
Lemma discover_all_keyed d l found : genuine d -> keyed found -> (forall i, i ∈ l -> exists t a, net t a = Some i) ->
  keyed (discover_all d l found).2.
Proof.
  revert d found. induction l as [|i l IH]; intros d found G K Hl; simpl; [done|].
  pose proof (discover_nodes_keyed d i (i_peers i) found G K) as H.
  pose proof (discover_nodes_looks d (i_peers i) found) as L.
  destruct (discover_nodes d (i_peers i) found) as [d1 f1]. cbn [fst snd] in *.
  apply IH; [by eapply genuine_looks| |].
  - apply H; [|done]. apply Hl. set_solver.
  - intros j Hj. apply Hl. set_solver.
Qed.
End right.

Lemma discover_nodes_covers b d peers found p : (b <= length (g_log d))%nat -> p ∈ peers -> r_id p <> self ->
  is_Some ((discover_nodes d peers found).2 !! r_id p) \/ missed b (discover_nodes d peers found).1 (r_addr p).
Proof.
  revert d found. induction peers as [|n peers IH]; intros d found Hb Hp Hs; [set_solver|]. simpl.
  apply elem_of_cons in Hp as [->|Hp].
  - destruct (r_id n =? self)%N eqn:En; [apply N.eqb_eq in En; done|].
    destruct (found !! r_id n) as [i|] eqn:E.
    { left. exists i. eapply lookup_weaken; [exact E|]. apply discover_nodes_grows. }
    pose proof (get_node_identity_result d (r_addr n)) as Hr.
    destruct (get_node_identity d (r_addr n)) as [d1 r] eqn:Eg. cbn [fst snd] in Hr. destruct r as [i|].
    + left. exists i. eapply lookup_weaken; [|apply discover_nodes_grows]. apply lookup_insert.
    + right. eapply missed_looks; [apply discover_nodes_looks|].
      assert (L : look d d1) by (exists (r_addr n); by rewrite Eg). apply look_frame in L as [_ _ _ _ _ (cs & Hl & _)].
      unfold missed in *. rewrite Hl in *. rewrite drop_app_le by done. rewrite drop_app in Hr. set_solver.
  - destruct (r_id n =? self)%N; [by apply IH|]. destruct (found !! r_id n) as [i|]; [by apply IH|].
    destruct (get_node_identity d (r_addr n)) as [d1 r] eqn:Eg. apply IH; [|done|done].
    assert (L : look d d1) by (exists (r_addr n); by rewrite Eg). apply look_frame in L as [_ _ _ _ _ (cs & Hl & _)].
    rewrite Hl, app_length. lia.
Qed.
Lemma discover_all_covers b d l found i p : (b <= length (g_log d))%nat -> i ∈ l -> p ∈ i_peers i -> r_id p <> self ->
  is_Some ((discover_all d l found).2 !! r_id p) \/ missed b (discover_all d l found).1 (r_addr p).
Proof.
  revert d found. induction l as [|j l IH]; intros d found Hb Hi Hp Hs; [set_solver|]. simpl.
  pose proof (discover_nodes_covers b d (i_peers j) found p Hb) as H.
  pose proof (discover_nodes_looks d (i_peers j) found) as L.
  destruct (discover_nodes d (i_peers j) found) as [d1 f1]. cbn [fst snd] in *.
  apply elem_of_cons in Hi as [->|Hi].
  - destruct (H Hp Hs) as [[x Hx]|Hm].
    + left. exists x. eapply lookup_weaken; [exact Hx|apply discover_all_grows].
    + right. eapply missed_looks; [apply discover_all_looks|done].
  - apply IH; [|done..]. apply looks_frame in L as [_ _ _ _ _ (cs & Hl & _)]. rewrite Hl, app_length. lia.
Qed.

Lemma handle_addr_seed d ord1 ord2 addr cb seed : g_addr d !! addr = None -> net (g_time d) addr = Some seed ->
  exists nodes, g_mail (handle_addr d ord1 ord2 addr cb) = g_mail d ++ [MNodes nodes cb] /\ i_node seed ∈ nodes /\
    (genuine d -> reports_right net -> forall p, p ∈ i_peers seed -> r_id p <> self ->
       missed (length (g_log d)) (handle_addr d ord1 ord2 addr cb) (r_addr p) \/
       exists j, i_node j ∈ nodes /\ r_id (i_node j) = r_id p /\
         forall q, q ∈ i_peers j -> r_id q <> self ->
           missed (length (g_log d)) (handle_addr d ord1 ord2 addr cb) (r_addr q) \/ exists m, m ∈ nodes /\ r_id m = r_id q).
Proof.
  intros Ha Hn. unfold Discovery_Model.handle_addr. rewrite Ha.
  destruct (get_node_identity d addr) as [d1 r] eqn:G.
  assert (r = Some seed) as ->.
  { revert G. unfold Discovery_Model.get_node_identity. rewrite Ha, Hn. by intros [= <- <-]. }
  assert (L1 : look d d1) by (exists addr; by rewrite G).
  set (f0 := {[r_id (i_node seed) := seed]} : gmap N ident).
  pose proof (discover_nodes_looks d1 (i_peers seed) f0) as L2.
  pose proof (discover_nodes_grows d1 (i_peers seed) f0) as W2.
  pose proof (fun R G K => discover_nodes_keyed R d1 seed (i_peers seed) f0 G K) as K2.
  pose proof (fun p => discover_nodes_covers (length (g_log d)) d1 (i_peers seed) f0 p) as C2.
  destruct (discover_nodes d1 (i_peers seed) f0) as [d2 found]. cbn [fst snd] in *.
  set (x := if (1 <? size found)%nat then discover_all d2 (arrange ord1 found).*2 found else (d2, found)).
  assert (L3 : looks d2 x.1).
  { subst x. destruct (1 <? size found)%nat; [apply discover_all_looks|apply rtc_refl]. }
  assert (W3 : found ⊆ x.2).
  { subst x. destruct (1 <? size found)%nat; [apply discover_all_grows|done]. }
  assert (K3 : reports_right net -> genuine d2 -> keyed found -> keyed x.2).
  { intros R G2 K. subst x. destruct (1 <? size found)%nat; [|done]. apply discover_all_keyed; [done..|].
    intros i Hi. apply elem_of_list_fmap in Hi as ([k i'] & -> & Hi). apply elem_of_arrange in Hi. by apply K in Hi as [_ ?]. }
  assert (Hseed : found !! r_id (i_node seed) = Some seed).
  { eapply lookup_weaken; [|exact W2]. apply lookup_singleton. }
  assert (Hlen : (length (g_log d) <= length (g_log d1))%nat).
  { apply look_frame in L1 as [_ _ _ _ _ (cs & -> & _)]. rewrite app_length. lia. }
  assert (Hlen2 : (length (g_log d) <= length (g_log d2))%nat).
  { apply looks_frame in L2 as [_ _ _ _ _ (cs & -> & _)]. rewrite app_length. lia. }
  assert (C3 : forall i q k, found !! k = Some i -> q ∈ i_peers i -> r_id q <> self ->
     is_Some (x.2 !! r_id q) \/ missed (length (g_log d)) x.1 (r_addr q)).
  { intros i q k Hi Hq Hs. subst x. destruct (1 <? size found)%nat eqn:Es.
    - eapply discover_all_covers; [done| |done|done]. apply elem_of_list_fmap. exists (k, i). split; [done|]. by apply elem_of_arrange.
    - apply Nat.ltb_ge in Es.
      assert (i = seed) as ->.
      { destruct (decide (k = r_id (i_node seed))) as [->|Hk]; [by rewrite Hseed in Hi; injection Hi|].
        exfalso. assert (size found = S (S (size (delete (r_id (i_node seed)) (delete k found))))); [|lia].
        rewrite <- (insert_id _ _ _ Hi), <- (insert_delete_insert found k i), map_size_insert_None by apply lookup_delete.
        rewrite delete_insert by apply lookup_delete. f_equal.
        assert (Hd : delete k found !! r_id (i_node seed) = Some seed) by (by rewrite lookup_delete_ne).
        rewrite <- (insert_id _ _ _ Hd) at 1. rewrite <- (insert_delete_insert (delete k found)).
        rewrite map_size_insert_None by apply lookup_delete. done. }
      by apply C2. }
  destruct x as [d3 found']. cbn [fst snd] in *.
  exists (i_node <$> (arrange ord2 found').*2).
  assert (Hin : forall k i, found' !! k = Some i -> i_node i ∈ i_node <$> (arrange ord2 found').*2).
  { intros k i Hi. apply elem_of_list_fmap_1, elem_of_list_fmap. exists (k, i). split; [done|]. by apply elem_of_arrange. }
  split; [|split].
  - cbn. apply look_frame in L1 as [_ _ M1 _ _ _]. apply looks_frame in L2 as [_ _ M2 _ _ _]. apply looks_frame in L3 as [_ _ M3 _ _ _].
    by rewrite M3, M2, M1.
  - eapply Hin. by eapply lookup_weaken.
  - intros Gd R p Hp Hs.
    assert (G1 : genuine d1) by (by eapply genuine_look). assert (G2 : genuine d2) by (by eapply genuine_looks).
    assert (Kf : keyed found).
    { apply K2; [done|done| |eauto|done]. intros k i Hi. apply lookup_singleton_Some in Hi as [<- <-]. eauto. }
    specialize (K3 R G2 Kf).
    destruct (C2 p Hlen Hp Hs) as [[j Hj]|Hm].
    + right. exists j. assert (Hj' : found' !! r_id p = Some j) by (by eapply lookup_weaken).
      split; [by eapply Hin|]. split; [by apply K3 in Hj' as [? _]|].
      intros q Hq Hsq. destruct (C3 j q (r_id p) Hj Hq Hsq) as [[m Hm]|Hm]; [|by left].
      right. exists (i_node m). split; [by eapply Hin|]. by apply K3 in Hm as [? _].
    + left. unfold missed. cbn. by eapply (missed_looks _ d2 d3).
Qed.

(** ** The mailbox is a queue *)
Lemma step_mail d o d' : qstep d o = Some d' ->
  (exists t, g_mail d' = g_mail d ++ t) \/
  (exists o1 o2 m rest t, o = QHandle o1 o2 /\ g_mail d = m :: rest /\ d' = handle_msg (with_mail d rest) o1 o2 m /\ g_mail d' = rest ++ t).
Proof.
  destruct o as [r cb|o1 o2|j i ok|j|n s]; simpl.
  - destruct r; intros [= <-]; left; eexists; done.
  - destruct (g_mail d) as [|m rest] eqn:Em; [done|]. intros [= <-]. right. exists o1, o2, m, rest.
    assert (exists t, g_mail (handle_msg (with_mail d rest) o1 o2 m) = rest ++ t) as [t Ht]; [|by exists t].
    assert (Hnil : exists t, rest = rest ++ t) by (exists []; by rewrite app_nil_r).
    destruct m as [a cb|l cb|a|n ok]; simpl.
    + destruct (handle_addr_case (with_mail d rest) o1 o2 a cb) as [|d1 Hl|d1 nodes i Hl].
      * by destruct (answer_frame (with_mail d rest) cb true) as [-> _].
      * apply looks_frame in Hl as [_ _ Hm _ _ _]. destruct (answer_frame d1 cb false) as [-> _]. by rewrite Hm.
      * apply looks_frame in Hl as [_ _ Hm _ _ _]. cbn. rewrite Hm. eauto.
    + unfold Discovery_Model.handle_nodes. destruct (handle_list _ _ _) as [d1 l1] eqn:E.
      apply handle_list_frame in E as (_ & _ & Hm & _). cbn in *. by rewrite Hm.
    + unfold handle_forget. cbn. destruct (g_addr d !! a) as [i|]; [destruct (g_id d !! _)|]; done.
    + unfold handle_done. destruct ok; [case_decide|]; done.
  - destruct (g_groups d !! j) as [[l cb]|] eqn:Ej; [|done]. cbn [mbind option_bind]. destruct (l !! i) as [n|] eqn:Ei; [|done]. intros [= <-].
    left. eexists. done.
  - destruct (g_groups d !! j) as [[l cb]|] eqn:Ej; [|done]. cbn [mbind option_bind]. destruct l; [|done]. intros [= <-].
    left. exists []. rewrite app_nil_r. by destruct cb.
  - intros [= <-]. left. exists []. by rewrite app_nil_r.
Qed.
Lemma mail_handled d l d' m1 x m2 : qruns d l = Some d' -> quiet d' -> g_mail d = m1 ++ x :: m2 ->
  exists l1 o1 o2 l2 d1 rest, l = l1 ++ QHandle o1 o2 :: l2 /\ qruns d l1 = Some d1 /\ g_mail d1 = x :: rest /\
    qruns (handle_msg (with_mail d1 rest) o1 o2 x) l2 = Some d'.
Proof.
  revert d m1 m2. induction l as [|o l IH]; intros d m1 m2 Hr [Hq Hq'] Hm; simpl in Hr.
  { injection Hr as <-. rewrite Hm in Hq. by destruct m1. }
  destruct (qstep d o) as [d1|] eqn:E; [|done]. cbn in Hr.
  assert (Hgo : forall m1 m2, g_mail d1 = m1 ++ x :: m2 -> exists l1 o1 o2 l2 d2 rest, o :: l = l1 ++ QHandle o1 o2 :: l2 /\
     qruns d l1 = Some d2 /\ g_mail d2 = x :: rest /\ qruns (handle_msg (with_mail d2 rest) o1 o2 x) l2 = Some d').
  { intros m1' m2' Hm'. destruct (IH d1 m1' m2' Hr (conj Hq Hq') Hm') as (l1 & o1 & o2 & l2 & d2 & rest & -> & H1 & H2 & H3).
    exists (o :: l1), o1, o2, l2, d2, rest. split_and!; [done| |done|done]. simpl. rewrite E. done. }
  destruct (step_mail _ _ _ E) as [[t Ht]|(o1 & o2 & m & rest & t & -> & Hm' & -> & Ht)].
  - rewrite Hm in Ht. apply (Hgo m1 (m2 ++ t)). by rewrite Ht, <- app_assoc.
  - rewrite Hm in Hm'. destruct m1 as [|y m1]; simpl in Hm'; injection Hm' as <- <-.
    + exists [], o1, o2, l, d, m2. split_and!; done.
    + apply (Hgo m1 (m2 ++ t)). by rewrite Ht, <- app_assoc.
Qed.

(** At the end every handshake that began was reported. *)
Lemma quiet_shakes d : shakes d -> quiet d -> shaken (g_log d) ≡ₚ added (g_log d) ++ failed (g_log d).
Proof. intros [H _ _] [Hm Hg]. rewrite H. unfold pending. rewrite Hm, Hg. cbn. by rewrite app_nil_r. Qed.
End discovery.
