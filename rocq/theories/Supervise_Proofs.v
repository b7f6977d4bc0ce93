(** Proofs about supervised children. *)
From Verif Require Import Supervise_Model Supervise_Spec.

Lemma srun_snoc ops o : srun (ops ++ [o]) = let '(s, tr) := srun ops in let '(s', ev) := sstep s o in (s', tr ++ ev).
Proof.
  unfold srun. rewrite run_app. destruct (run _ _ ops) as [s evs]. simpl.
  destruct (sstep s o) as [s' ev]. rewrite concat_app. simpl. by rewrite app_nil_r.
Qed.

Lemma srun_ind (Q : sop -> Prop) (P : sup -> list sevent -> Prop) :
  P sup_init [] ->
  (forall s tr o, Q o -> P s tr -> P (sstep s o).1 (tr ++ (sstep s o).2)) ->
  forall ops, (forall o, In o ops -> Q o) -> P (srun ops).1 (srun ops).2.
Proof.
  intros H0 Hs ops. induction ops as [|o ops IH] using rev_ind; intros HQ; [done|].
  rewrite srun_snoc. destruct (srun ops) as [s tr] eqn:E.
  specialize (Hs s tr o). destruct (sstep s o). apply Hs.
  - apply HQ, in_or_app. right. by left.
  - apply IH. intros o' Ho. apply HQ, in_or_app. by left.
Qed.

Lemma born_app t1 t2 : born (t1 ++ t2) = born t1 ++ born t2.
Proof. apply omap_app. Qed.
Lemma ended_app t1 t2 : ended (t1 ++ t2) = ended t1 ++ ended t2.
Proof. apply omap_app. Qed.
Lemma told_app id t1 t2 : told_of id (t1 ++ t2) = (told_of id t1 + told_of id t2)%nat.
Proof. unfold told_of. by rewrite List.filter_app, app_length. Qed.

(** How the number of ended children changes when [r] ends. *)
Lemma ended_with_aux id (b : list (nat * string)) (e : list nat) r j :
  NoDup (map fst b) -> (r, j) ∈ b -> r ∉ e ->
  length (List.filter (fun x => String.eqb id x.2 && bool_decide (x.1 ∈ e ++ [r])) b) =
  (length (List.filter (fun x => String.eqb id x.2 && bool_decide (x.1 ∈ e)) b) + if String.eqb id j then 1 else 0)%nat.
Proof.
  intros Hnd Hin Hr. induction b as [|[r' k] b IH]; [by apply elem_of_nil in Hin|].
  inversion_clear Hnd as [|? ? Hn Hnd']. simpl. apply elem_of_cons in Hin as [Heq|Hin].
  - injection Heq as <- <-.
    rewrite (bool_decide_eq_true_2 (r ∈ e ++ [r])) by set_solver. rewrite (bool_decide_eq_false_2 (r ∈ e)) by done.
    rewrite andb_true_r, andb_false_r.
    assert (Hsame : List.filter (fun x : nat * string => String.eqb id x.2 && bool_decide (x.1 ∈ e ++ [r])) b =
                    List.filter (fun x => String.eqb id x.2 && bool_decide (x.1 ∈ e)) b).
    { clear IH Hnd'. induction b as [|[r'' k'] b IH]; [done|]. simpl in *.
      rewrite not_elem_of_cons in Hn. destruct Hn as [Hne Hn]. rewrite (IH Hn).
      assert (Hb : bool_decide (r'' ∈ e ++ [r]) = bool_decide (r'' ∈ e)) by (apply bool_decide_ext; set_solver).
      by rewrite Hb. }
    rewrite Hsame. destruct (String.eqb id j); simpl; lia.
  - specialize (IH Hnd' Hin).
    assert (r' <> r). { intros ->. apply Hn. apply elem_of_list_fmap. by exists (r, j). }
    assert (Hb : bool_decide (r' ∈ e ++ [r]) = bool_decide (r' ∈ e)) by (apply bool_decide_ext; set_solver).
    rewrite Hb. destruct (String.eqb id k && _); simpl; lia.
Qed.

Definition pending (s : sup) (id : string) : nat :=
  match s_children s !! id with
  | Some (_, r) => match s_actors s !! r with Some c => if c_alive c then 0 else 1 | None => 1 end
  | None => 0
  end.

Definition occs (id : string) (l : list string) : nat := length (List.filter (String.eqb id) l).

Record K (s : sup) (tr : list sevent) : Prop := {
  k_born : forall r id, (r, id) ∈ born tr -> (r < s_next s)%nat;
  k_nodup : NoDup (map fst (born tr));
  k_fresh : forall r c, s_actors s !! r = Some c -> (r < s_next s)%nat;
  k_actors : forall r c, s_actors s !! r = Some c ->
     c_ours c = true /\ (r, c_id c) ∈ born tr /\ (c_alive c = true <-> r ∉ ended tr);
  k_live : forall r id, (r, id) ∈ born tr -> r ∉ ended tr -> s_actors s !! r = Some (Child id true true);
  k_ended : forall r, r ∈ ended tr -> (r < s_next s)%nat;
  k_map : s_phase s = SRun -> forall r c, s_actors s !! r = Some c -> s_children s !! c_id c = Some (false, r);
  k_alive : forall r c, s_actors s !! r = Some c -> c_alive c = true -> s_children s !! c_id c = Some (false, r);
  k_entry : forall id b r, s_children s !! id = Some (b, r) -> (r, id) ∈ born tr;
  k_inbox : s_phase s = SRun -> forall id,
     occs id (s_inbox s) = match s_children s !! id with
       | Some (_, r) => match s_actors s !! r with Some c => 0 | None => 1 end | None => 0 end%nat;
  k_told : s_phase s = SRun -> forall id, ended_with id tr = (told_of id tr + pending s id)%nat;
  k_told_le : forall id, (told_of id tr <= ended_with id tr)%nat;
  k_done : s_phase s = SDone <-> SParentReported ∈ tr;
  k_done_live : s_phase s = SDone -> forall r c, s_actors s !! r = Some c -> c_alive c = false;
}.

Lemma K_init : K sup_init [].
Proof.
  split; simpl; try set_solver; try done; try constructor; try (intros; lia).
Qed.

Lemma ended_with_same id tr ev : born ev = [] -> ended ev = [] -> ended_with id (tr ++ ev) = ended_with id tr.
Proof. intros H1 H2. unfold ended_with. by rewrite born_app, ended_app, H1, H2, !app_nil_r. Qed.

Lemma ended_with_born id tr r j (e : bool) : (forall r' j', (r', j') ∈ born tr -> (r' < r)%nat) -> (forall r', r' ∈ ended tr -> (r' < r)%nat) ->
  ended_with id (tr ++ [if e then SSpawned r j else SStartFailed r j]) =
  (ended_with id tr + if e then 0 else if String.eqb id j then 1 else 0)%nat.
Proof.
  intros Hb He. unfold ended_with. rewrite born_app, ended_app. destruct e; simpl; rewrite ?app_nil_r.
  - rewrite List.filter_app, app_length. simpl. rewrite bool_decide_eq_false_2; [rewrite andb_false_r; simpl; lia|].
    intros Hin. apply He in Hin. lia.
  - rewrite List.filter_app, app_length. simpl. rewrite (bool_decide_eq_true_2 (r ∈ ended tr ++ [r])) by set_solver.
    rewrite andb_true_r. f_equal; [|by destruct (String.eqb id j)]. f_equal.
    assert (H : forall b, (forall x, x ∈ b -> (x.1 < r)%nat) -> List.filter (fun x : nat * string => String.eqb id x.2 && bool_decide (x.1 ∈ ended tr ++ [r])) b =
                    List.filter (fun x => String.eqb id x.2 && bool_decide (x.1 ∈ ended tr)) b).
    { induction b as [|x b IH]; intros Hx; [done|]. simpl. rewrite IH by (intros y Hy; apply Hx; by right).
      assert (Hd : bool_decide (x.1 ∈ ended tr ++ [r]) = bool_decide (x.1 ∈ ended tr)).
      { apply bool_decide_ext. rewrite elem_of_app, elem_of_list_singleton. specialize (Hx x ltac:(left)). split; [intros [?|?]; [done|lia]|auto]. }
      by rewrite Hd. }
    apply H. intros [r' j'] Hx. by apply (Hb r' j').
Qed.

Ltac kdone H := destruct H; split; simpl; rewrite ?app_nil_r; assumption.

Lemma K_step s tr o : match o with SOAdd _ | SOAttach _ => False | _ => True end ->
  K s tr -> K (sstep s o).1 (tr ++ (sstep s o).2).
Proof.
  intros Ho H. destruct o as [id starts|id|id|r|r| | |]; try done; simpl.
  - (* spawn *)
    destruct (s_phase s) eqn:Ep; try (simpl; by rewrite app_nil_r).
    unfold sup_spawn. destruct (s_children s !! id) as [e|] eqn:Ec; simpl.
    + (* exists *)
      destruct H as [k1 k2 k3 k4 k5 k6 k7 k8 k9 k10 k11 k12 k13 k14].
      split; rewrite ?born_app, ?ended_app; simpl; rewrite ?app_nil_r; try assumption.
      * intros Hr j. rewrite ended_with_same, told_app by done. rewrite k11 by done. unfold told_of at 3. simpl. lia.
      * intros j. rewrite ended_with_same, told_app by done. specialize (k12 j). unfold told_of at 2. simpl. lia.
      * rewrite elem_of_app, elem_of_list_singleton. rewrite k13. split; [auto|intros [?|?]; done].
    + destruct H as [k1 k2 k3 k4 k5 k6 k7 k8 k9 k10 k11 k12 k13 k14].
      assert (Hnone : s_actors s !! s_next s = None).
      { destruct (s_actors s !! s_next s) eqn:E; [|done]. apply k3 in E. lia. }
      set (ev := if starts then SSpawned (s_next s) id else SStartFailed (s_next s) id).
      assert (Eb : born [ev] = [(s_next s, id)]) by (unfold ev; by destruct starts).
      assert (Ee : ended [ev] = if starts then [] else [s_next s]) by (unfold ev; by destruct starts).
      assert (Et : forall j, told_of j [ev] = 0%nat) by (unfold ev; by destruct starts).
      assert (Hown : forall j b r, s_children s !! j = Some (b, r) -> r <> s_next s).
      { intros j b r Hj ->. apply k9, k1 in Hj. lia. }
      assert (Hei : forall r, r ∈ ended (tr ++ [ev]) <-> r ∈ ended tr \/ (starts = false /\ r = s_next s)).
      { intros r. rewrite ended_app, Ee. destruct starts; set_solver. }
      split; simpl; rewrite ?born_app, ?Eb.
      * intros r j Hin. apply elem_of_app in Hin as [Hin|Hin]; [apply k1 in Hin; lia|set_solver by lia].
      * rewrite map_app. apply NoDup_app. split_and!; [done| |apply NoDup_singleton].
        intros r Hr Hr'. apply elem_of_list_singleton in Hr' as ->. apply elem_of_list_fmap in Hr as ([r j] & Hr & Hin).
        simpl in Hr. apply k1 in Hin. lia.
      * intros r c Hr. apply lookup_insert_Some in Hr as [[<- _]|[_ Hr]]; [lia|]. apply k3 in Hr. lia.
      * intros r c Hr. rewrite Hei. apply lookup_insert_Some in Hr as [[<- <-]|[Hne Hr]]; simpl.
        -- split_and!; [done|set_solver|].
           assert (s_next s ∉ ended tr) by (intros Hin; apply k6 in Hin; lia). destruct starts; naive_solver.
        -- destruct (k4 r c Hr) as (? & ? & ->). split_and!; [done|set_solver|]. naive_solver.
      * intros r j Hin Hne. rewrite Hei in Hne. apply elem_of_app in Hin as [Hin|Hin].
        -- rewrite lookup_insert_ne; [apply k5; tauto|]. apply k1 in Hin. lia.
        -- apply elem_of_list_singleton in Hin as [= -> ->]. rewrite lookup_insert.
           destruct starts; [done|]. exfalso. apply Hne. by right.
      * intros r Hin. apply Hei in Hin as [Hin|[_ ->]]; [apply k6 in Hin; lia|lia].
      * intros _ r c Hr. apply lookup_insert_Some in Hr as [[<- <-]|[Hne Hr]]; simpl; [by rewrite lookup_insert|].
        pose proof (k7 Ep r c Hr) as Hc. rewrite lookup_insert_ne; [done|]. intros Hx. congruence.
      * intros r c Hr Ha. apply lookup_insert_Some in Hr as [[<- <-]|[Hne Hr]]; simpl; [by rewrite lookup_insert|].
        pose proof (k8 r c Hr Ha) as Hc. rewrite lookup_insert_ne; [done|]. intros Hx. congruence.
      * intros j b r Hj. apply elem_of_app. apply lookup_insert_Some in Hj as [[<- [= <- <-]]|[_ Hj]]; [right; left|left; by eapply k9].
      * intros _ j. rewrite k10 by done. destruct (decide (j = id)) as [->|Hj].
        -- by rewrite Ec, lookup_insert, lookup_insert.
        -- rewrite lookup_insert_ne by done. destruct (s_children s !! j) as [[b r]|] eqn:Ej; [|done].
           rewrite lookup_insert_ne; [done|]. intros <-. by eapply Hown.
      * intros _ j. unfold ev. rewrite ended_with_born, told_app; [|intros; by eapply k1|done]. fold ev. rewrite Et.
        rewrite k11 by done. unfold pending; simpl. destruct (decide (j = id)) as [->|Hj].
        -- rewrite Ec, lookup_insert, lookup_insert, String.eqb_refl. simpl. destruct starts; lia.
        -- rewrite lookup_insert_ne by done. destruct (String.eqb_spec j id); [done|].
           assert (Hp : match s_children s !! j with Some (_, r) => match <[s_next s := Child id true starts]> (s_actors s) !! r with Some c => if c_alive c then 0 else 1 | None => 1 end | None => 0 end =
             match s_children s !! j with Some (_, r) => match s_actors s !! r with Some c => if c_alive c then 0 else 1 | None => 1 end | None => 0 end).
           { destruct (s_children s !! j) as [[b r]|] eqn:Ej; [|done]. rewrite lookup_insert_ne; [done|]. intros <-. by eapply Hown. }
           rewrite Hp. destruct starts; lia.
      * intros j. unfold ev. rewrite ended_with_born, told_app; [|intros; by eapply k1|done]. fold ev. rewrite Et.
        specialize (k12 j). destruct starts; [lia|]. destruct (String.eqb j id); lia.
      * rewrite elem_of_app, elem_of_list_singleton, <- k13. split; [auto|]. intros [?|Hx]; [done|]. unfold ev in Hx. destruct starts; done.
      * intros Hd; congruence.
  - (* end *)
    destruct (s_actors s !! r) as [[id ours alive]|] eqn:Er; [|simpl; by rewrite app_nil_r].
    destruct alive; [|simpl; by rewrite app_nil_r]. simpl.
    destruct H as [k1 k2 k3 k4 k5 k6 k7 k8 k9 k10 k11 k12 k13 k14].
    destruct (k4 r _ Er) as (Ho' & Hb & Hal). simpl in Ho', Hb, Hal. subst ours.
    assert (Hne : r ∉ ended tr) by (by apply Hal).
    assert (Hew : forall j, ended_with j (tr ++ [SChildEnded r]) = (ended_with j tr + if String.eqb j id then 1 else 0)%nat).
    { intros j. unfold ended_with. rewrite born_app, ended_app. simpl. rewrite app_nil_r. by apply ended_with_aux. }
    assert (Hto : forall j, told_of j (tr ++ [SChildEnded r]) = told_of j tr).
    { intros j. rewrite told_app. unfold told_of at 2. simpl. lia. }
    split; simpl; rewrite ?born_app, ?ended_app; simpl; rewrite ?app_nil_r; try assumption.
    + intros r' c Hr. apply lookup_insert_Some in Hr as [[<- _]|[_ Hr]]; [by apply k3 in Er|by apply k3 in Hr].
    + intros r' c Hr. apply lookup_insert_Some in Hr as [[<- <-]|[Hn Hr]]; simpl.
      * split_and!; [done|done|]. set_solver.
      * destruct (k4 r' c Hr) as (? & ? & ->). split_and!; [done|done|]. set_solver.
    + intros r' j Hin Hn. rewrite lookup_insert_ne by set_solver. apply k5; set_solver.
    + intros r' Hin. apply elem_of_app in Hin as [Hin|Hin]; [by apply k6|]. apply elem_of_list_singleton in Hin as ->. by apply k3 in Er.
    + intros Hp r' c Hr. apply lookup_insert_Some in Hr as [[<- <-]|[Hn Hr]]; simpl; [by apply (k7 Hp r _ Er)|by apply k7].
    + intros r' c Hr Ha. apply lookup_insert_Some in Hr as [[<- <-]|[Hn Hr]]; simpl in *; [done|by apply k8].
    + intros Hp j. rewrite k10 by done. destruct (s_children s !! j) as [[b r']|]; [|done].
      destruct (decide (r' = r)) as [->|]; [by rewrite lookup_insert, Er|by rewrite lookup_insert_ne].
    + intros Hp j. rewrite Hew, Hto, k11 by done. unfold pending; simpl.
      pose proof (k8 r _ Er eq_refl) as Hc. simpl in Hc.
      destruct (String.eqb_spec j id) as [->|Hj].
      * rewrite Hc, Er, lookup_insert. simpl. lia.
      * destruct (s_children s !! j) as [[b r']|] eqn:Ej; [|lia].
        rewrite lookup_insert_ne; [lia|]. intros <-.
        assert (Hx : (r, j) ∈ born tr) by (by eapply k9).
        apply Hj. clear -Hx Hb k2. apply elem_of_list_lookup in Hx as [x Hx]. apply elem_of_list_lookup in Hb as [y Hy].
        assert (x = y) as -> by (eapply (NoDup_lookup (map fst (born tr))); [done|rewrite list_lookup_fmap, Hx; done|rewrite list_lookup_fmap, Hy; done]).
        congruence.
    + intros j. rewrite Hew, Hto. specialize (k12 j). lia.
    + rewrite elem_of_app, elem_of_list_singleton, k13. split; [auto|intros [?|?]; done].
    + intros Hd r' c Hr. apply lookup_insert_Some in Hr as [[<- <-]|[Hn Hr]]; [done|by eapply k14].
  - (* notify *)
    destruct (s_actors s !! r) as [[id ours alive]|] eqn:Er; [|simpl; by rewrite app_nil_r].
    destruct alive; [simpl; by rewrite app_nil_r|]. simpl. rewrite app_nil_r.
    destruct H as [k1 k2 k3 k4 k5 k6 k7 k8 k9 k10 k11 k12 k13 k14].
    destruct (k4 r _ Er) as (Ho' & Hb & Hal). simpl in Ho', Hb, Hal. subst ours.
    assert (Hend : r ∈ ended tr).
    { destruct (decide (r ∈ ended tr)); [done|]. exfalso. assert (false = true) by (by apply Hal). done. }
    split; simpl; try assumption.
    + intros r' c Hr. apply lookup_delete_Some in Hr as [_ Hr]. by eapply k3.
    + intros r' c Hr. apply lookup_delete_Some in Hr as [_ Hr]. by apply k4.
    + intros r' j Hin Hn. rewrite lookup_delete_ne; [by apply k5|]. intros <-. done.
    + intros Hp r' c Hr. apply lookup_delete_Some in Hr as [_ Hr]. by apply k7.
    + intros r' c Hr Ha. apply lookup_delete_Some in Hr as [_ Hr]. by apply k8.
    + intros Hp j. rewrite Hp. pose proof (k7 Hp r _ Er) as Hc. simpl in Hc.
      unfold occs. rewrite List.filter_app, app_length. fold (occs j (s_inbox s)). rewrite k10 by done. simpl.
      destruct (String.eqb_spec j id) as [->|Hj].
      * rewrite Hc, Er, lookup_delete. simpl. lia.
      * simpl. rewrite Nat.add_0_r. destruct (s_children s !! j) as [[b r']|] eqn:Ej; [|done].
        destruct (decide (r' = r)) as [->|]; [|by rewrite lookup_delete_ne].
        exfalso. assert (Hx : (r, j) ∈ born tr) by (by eapply k9).
        apply Hj. clear -Hx Hb k2. apply elem_of_list_lookup in Hx as [x Hx]. apply elem_of_list_lookup in Hb as [y Hy].
        assert (x = y) as -> by (eapply (NoDup_lookup (map fst (born tr))); [done|rewrite list_lookup_fmap, Hx; done|rewrite list_lookup_fmap, Hy; done]).
        congruence.
    + intros Hp j. rewrite k11 by done. unfold pending; simpl.
      destruct (s_children s !! j) as [[b r']|] eqn:Ej; [|done].
      destruct (decide (r' = r)) as [->|]; [|by rewrite lookup_delete_ne]. rewrite Er, lookup_delete. done.
    + intros Hd r' c Hr. apply lookup_delete_Some in Hr as [_ Hr]. by eapply k14.
  - (* handle *)
    destruct (s_phase s) eqn:Ep; try (simpl; by rewrite app_nil_r).
    destruct (s_inbox s) as [|id q] eqn:Ei; [simpl; by rewrite app_nil_r|]. simpl.
    destruct H as [k1 k2 k3 k4 k5 k6 k7 k8 k9 k10 k11 k12 k13 k14].
    assert (Hq : forall j, occs j (s_inbox s) = ((if String.eqb j id then 1 else 0) + occs j q)%nat).
    { intros j. rewrite Ei. unfold occs. simpl. by destruct (String.eqb j id). }
    pose proof (k10 Ep id) as Hid. rewrite Hq, String.eqb_refl in Hid.
    destruct (s_children s !! id) as [[b0 r0]|] eqn:Ec; [|simpl in Hid; lia].
    destruct (s_actors s !! r0) as [c0|] eqn:E0; [simpl in Hid; lia|].
    assert (Hz : occs id q = 0%nat) by (simpl in Hid; lia).
    assert (Hnoid : forall r c, s_actors s !! r = Some c -> c_id c <> id).
    { intros r c Hr <-. pose proof (k7 Ep r c Hr) as Hc. rewrite Ec in Hc. injection Hc as -> ->. congruence. }
    split; simpl; rewrite ?born_app, ?ended_app; simpl; rewrite ?app_nil_r; try assumption.
    + intros _ r c Hr. rewrite lookup_delete_ne by (intros Hx; by apply (Hnoid r c Hr)). by apply (k7 Ep).
    + intros r c Hr Ha. rewrite lookup_delete_ne by (intros Hx; by apply (Hnoid r c Hr)). by apply k8.
    + intros j b r Hj. apply lookup_delete_Some in Hj as [_ Hj]. by eapply k9.
    + intros _ j. specialize (k10 Ep j). rewrite Hq in k10. destruct (decide (j = id)) as [->|Hj].
      * by rewrite lookup_delete.
      * rewrite lookup_delete_ne by done. destruct (String.eqb_spec j id); [done|]. done.
    + intros _ j. rewrite ended_with_same, told_app by done. rewrite k11 by done. unfold told_of at 3. simpl.
      unfold pending; simpl. destruct (decide (j = id)) as [->|Hj].
      * rewrite Ec, E0, lookup_delete, String.eqb_refl. simpl. lia.
      * rewrite lookup_delete_ne by done. destruct (String.eqb_spec j id); [done|]. simpl. lia.
    + intros j. rewrite ended_with_same, told_app by done. rewrite k11 by done. unfold told_of at 2. simpl.
      destruct (String.eqb_spec j id) as [->|Hj]; simpl; [|lia]. unfold pending. rewrite Ec, E0. lia.
    + rewrite elem_of_app, elem_of_list_singleton, <- k13. split; [done|]. intros [?|?]; congruence.
    + done.
  - (* stop *)
    destruct (s_phase s) eqn:Ep; try (simpl; by rewrite app_nil_r). simpl.
    destruct H as [k1 k2 k3 k4 k5 k6 k7 k8 k9 k10 k11 k12 k13 k14].
    split; simpl; rewrite ?born_app, ?ended_app; simpl; rewrite ?app_nil_r; try assumption; try done.
    + intros j. rewrite ended_with_same, told_app by done. specialize (k12 j). unfold told_of at 2. simpl. lia.
    + rewrite elem_of_app, elem_of_list_singleton, <- k13. split; [done|]. intros [?|?]; congruence.
  - (* finish *)
    destruct (s_phase s) eqn:Ep; try (simpl; by rewrite app_nil_r).
    destruct (forallb _ _) eqn:Ef; [|simpl; by rewrite app_nil_r]. simpl.
    destruct H as [k1 k2 k3 k4 k5 k6 k7 k8 k9 k10 k11 k12 k13 k14].
    split; simpl; rewrite ?born_app, ?ended_app; simpl; rewrite ?app_nil_r; try assumption; try done.
    + intros j. rewrite ended_with_same, told_app by done. specialize (k12 j). unfold told_of at 2. simpl. lia.
    + split; [|done]. intros _. set_solver.
    + intros _ r c Hr. destruct (c_alive c) eqn:Ha; [|done]. exfalso.
      pose proof (k8 r c Hr Ha) as Hc. rewrite forallb_forall in Ef.
      specialize (Ef (c_id c, (false, r))). simpl in Ef. unfold running in Ef. rewrite Hr, Ha in Ef.
      assert (Hx : negb true = true) by (apply Ef, elem_of_list_In, elem_of_map_to_list, Hc). done.
Qed.

Lemma K_run ops : spawn_only ops -> K (srun ops).1 (srun ops).2.
Proof.
  intros H. apply (srun_ind (fun o => match o with SOAdd _ | SOAttach _ => False | _ => True end) K).
  - apply K_init.
  - intros s tr o. apply K_step.
  - exact H.
Qed.

(** ** All children, also those added or attached *)

Record W (s : sup) (tr : list sevent) : Prop := {
  w_map : forall id, children_of tr !! id = snd <$> s_children s !! id;
  w_lt : forall id x, s_children s !! id = Some x -> x.2 < s_next s;
  w_actors : forall r c, s_actors s !! r = Some c -> r < s_next s;
  w_ended : forall r, r < s_next s -> running s r = false -> r ∈ ended tr;
  w_done : SParentReported ∈ tr -> s_phase s = SDone;
  w_stopped : s_phase s = SDone -> forall id x, s_children s !! id = Some x -> running s x.2 = false;
}.

Lemma children_of_snoc tr e : children_of (tr ++ [e]) =
  match e with
  | SSpawned r id | SStartFailed r id | SAttached r id => <[id := r]> (children_of tr)
  | STold id => delete id (children_of tr)
  | _ => children_of tr
  end.
Proof. unfold children_of. by rewrite fold_left_app. Qed.

Lemma W_new s tr id b c e : W s tr -> s_phase s = SRun ->
  (e = SSpawned (s_next s) id /\ c_alive c = true \/ e = SStartFailed (s_next s) id \/
   e = SAttached (s_next s) id /\ c_alive c = true) ->
  W (Sup (<[id := (b, s_next s)]> (s_children s)) (<[s_next s := c]> (s_actors s)) (S (s_next s)) (s_inbox s) (s_phase s))
    (tr ++ [e]).
Proof.
  intros [W1 W2 W3 W4 W5 W6] Hp He.
  assert (He' : children_of (tr ++ [e]) = <[id := s_next s]> (children_of tr)).
  { rewrite children_of_snoc. destruct He as [[-> _]|[->|[-> _]]]; done. }
  split; cbn [s_children s_actors s_next s_phase].
  - intros i. rewrite He'. destruct (decide (i = id)) as [->|Hi].
    + by rewrite !lookup_insert.
    + rewrite !lookup_insert_ne by done. apply W1.
  - intros i x. destruct (decide (i = id)) as [->|Hi].
    + rewrite lookup_insert. intros [= <-]. simpl. lia.
    + rewrite lookup_insert_ne by done. intros H%W2. lia.
  - intros r d. destruct (decide (r = s_next s)) as [->|Hr]; [lia|].
    rewrite lookup_insert_ne by done. intros H%W3. lia.
  - intros r Hr. unfold running. cbn [s_actors]. rewrite ended_app, elem_of_app.
    destruct (decide (r = s_next s)) as [->|Hne].
    + rewrite lookup_insert. intros Hc. right.
      destruct He as [[-> Hc']|[->|[-> Hc']]]; [congruence| |congruence]. by left.
    + rewrite lookup_insert_ne by done. intros Hc. left. apply W4; [lia|exact Hc].
  - intros [H|H]%elem_of_app; [by apply W5|]. apply elem_of_list_singleton in H.
    by destruct He as [[-> _]|[->|[-> _]]].
  - rewrite Hp. done.
Qed.

Lemma W_step s tr o : W s tr -> W (sstep s o).1 (tr ++ (sstep s o).2).
Proof.
  intros HW. pose proof HW as [W1 W2 W3 W4 W5 W6].
  assert (Hid : W s (tr ++ [])) by by rewrite app_nil_r.
  destruct o as [id starts|id|id|r|r| | |]; cbn [sstep].
  - destruct (s_phase s) eqn:Hp; [|done|done]. unfold sup_spawn. destruct (s_children s !! id); cbn [fst snd].
    + split; try done.
      * intros i. rewrite children_of_snoc. apply W1.
      * intros r Hr Hc. rewrite ended_app, elem_of_app. left. by apply W4.
      * rewrite Hp. intros [H|H]%elem_of_app; [by apply W5|]. by apply elem_of_list_singleton in H.
      * by rewrite Hp.
    + apply W_new; [done|done|]. destruct starts; simpl; tauto.
  - destruct (s_phase s) eqn:Hp; [|done|done]. unfold sup_add. cbn [fst snd]. apply W_new; simpl; tauto.
  - destruct (s_phase s) eqn:Hp; [|done|done]. unfold sup_attach. cbn [fst snd]. apply W_new; simpl; tauto.
  - destruct (s_actors s !! r) as [[id ours [|]]|] eqn:Er; cbn [fst snd]; [|done|done].
    assert (Hrun : forall r', running (Sup (s_children s) (<[r := Child id ours false]> (s_actors s)) (s_next s) (s_inbox s) (s_phase s)) r' = false ->
                   r' = r \/ running s r' = false).
    { intros r'. unfold running. cbn [s_actors]. destruct (decide (r' = r)) as [->|Hne]; [by left|].
      rewrite lookup_insert_ne by done. by right. }
    split; cbn [s_children s_actors s_next s_phase].
    + intros i. rewrite children_of_snoc. apply W1.
    + done.
    + intros r' c. destruct (decide (r' = r)) as [->|Hne]; [intros _; by apply (W3 r _ Er)|].
      rewrite lookup_insert_ne by done. apply W3.
    + intros r' Hr [->|Hc]%Hrun; rewrite ended_app, elem_of_app; [right; by left|left; by apply W4].
    + intros [H|H]%elem_of_app; [by apply W5|]. by apply elem_of_list_singleton in H.
    + intros Hp i x Hx. pose proof (W6 Hp i x Hx) as H. revert H. unfold running. cbn [s_actors].
      destruct (decide (x.2 = r)) as [->|Hne]; [by rewrite lookup_insert|by rewrite lookup_insert_ne].
  - destruct (s_actors s !! r) as [[id ours [|]]|] eqn:Er; cbn [fst snd]; [done| |done].
    assert (Hrun : forall r', r' = r \/ s_actors s !! r' = delete r (s_actors s) !! r').
    { intros r'. destruct (decide (r' = r)) as [->|Hne]; [by left|right]. by rewrite lookup_delete_ne. }
    rewrite app_nil_r. split; cbn [s_children s_actors s_next s_phase]; try done.
    + intros r' c. destruct (Hrun r') as [->|<-]; [by rewrite lookup_delete|apply W3].
    + intros r' Hr Hc. apply W4; [done|]. revert Hc. unfold running. cbn [s_actors].
      destruct (Hrun r') as [->|<-]; [by rewrite Er|done].
    + intros Hp i x Hx. pose proof (W6 Hp i x Hx) as H. revert H. unfold running. cbn [s_actors].
      destruct (Hrun x.2) as [->|<-]; [by rewrite lookup_delete|done].
  - destruct (s_phase s) eqn:Hp; [|done|done]. destruct (s_inbox s) as [|id q]; [done|]. cbn [fst snd].
    split; cbn [s_children s_actors s_next s_phase]; try done.
    + intros i. rewrite children_of_snoc. destruct (decide (i = id)) as [->|Hi].
      * by rewrite !lookup_delete.
      * rewrite !lookup_delete_ne by done. apply W1.
    + intros i x [_ H]%lookup_delete_Some. by apply (W2 i x).
    + intros r' Hr Hc. rewrite ended_app, elem_of_app. left. by apply W4.
    + intros [H|H]%elem_of_app; [by apply W5|]. by apply elem_of_list_singleton in H.
  - destruct (s_phase s) eqn:Hp; [|done|done]. cbn [fst snd].
    split; cbn [s_children s_actors s_next s_phase]; try done.
    + intros i. rewrite children_of_snoc. apply W1.
    + intros r' Hr Hc. rewrite ended_app, elem_of_app. left. by apply W4.
    + intros [H|H]%elem_of_app; [by apply W5 in H|]. by apply elem_of_list_singleton in H.
  - destruct (s_phase s) eqn:Hp; [done| |done]. destruct (forallb _ _) eqn:Ef; [|done]. cbn [fst snd].
    split; cbn [s_children s_actors s_next s_phase]; try done.
    + intros i. rewrite children_of_snoc. apply W1.
    + intros r' Hr Hc. rewrite ended_app, elem_of_app. left. by apply W4.
    + intros _ i x Hx. rewrite forallb_forall in Ef.
      assert (In (i, x) (map_to_list (s_children s))) as Hin.
      { apply elem_of_list_In. by apply elem_of_map_to_list. }
      apply Ef in Hin. simpl in Hin. by apply negb_true_iff in Hin.
Qed.

Lemma W_run ops : W (srun ops).1 (srun ops).2.
Proof.
  apply (srun_ind (fun _ => True) W); [|by intros; apply W_step|done].
  split; try done; intros; try (by apply elem_of_nil in H); cbn in *; lia.
Qed.
