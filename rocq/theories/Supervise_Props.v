(** Property C15: supervised children. *)
From Verif Require Import Supervise_Model Supervise_Spec Supervise_Proofs.
Local Open Scope string_scope.
Local Open Scope list_scope.
Local Open Scope nat_scope.

(** Spawning an id the parent has fails and changes nothing, in every history. *)
Theorem C15_spawn_existing ops id starts :
  s_phase (srun ops).1 = SRun -> is_Some (s_children (srun ops).1 !! id) ->
  srun (ops ++ [SOSpawn id starts]) = ((srun ops).1, (srun ops).2 ++ [SExists id]).
Proof.
  intros Hp [e He]. rewrite srun_snoc. destruct (srun ops) as [s tr]. simpl in *. rewrite Hp.
  unfold sup_spawn. by rewrite He.
Qed.
Print Assumptions C15_spawn_existing.

(** Children that were only spawned through the context: at most one live child per id. *)
Theorem C15_one_live_child_partial ops r r' id : spawn_only ops -> s_phase (srun ops).1 = SRun ->
  live_child r id (srun ops).2 -> live_child r' id (srun ops).2 -> r = r'.
Proof.
  intros Hs Hp [H1 H2] [H3 H4]. pose proof (K_run ops Hs) as HK.
  pose proof (k_live _ _ HK _ _ H1 H2) as A1. pose proof (k_live _ _ HK _ _ H3 H4) as A2.
  pose proof (k_map _ _ HK Hp _ _ A1) as B1. pose proof (k_map _ _ HK Hp _ _ A2) as B2. simpl in *. congruence.
Qed.
Print Assumptions C15_one_live_child_partial.

(** While a child lives its parent knows it, and refuses the id to others. *)
Theorem C15_live_child_known_partial ops r id : spawn_only ops -> s_phase (srun ops).1 = SRun ->
  live_child r id (srun ops).2 -> s_children (srun ops).1 !! id = Some (false, r).
Proof.
  intros Hs Hp [H1 H2]. pose proof (K_run ops Hs) as HK.
  exact (k_map _ _ HK Hp _ _ (k_live _ _ HK _ _ H1 H2)).
Qed.
Print Assumptions C15_live_child_known_partial.

(** The parent is told at most once per ended child, and once everything is delivered
    exactly once; then it knows exactly its live children. *)
Theorem C15_told_once_partial ops id : spawn_only ops ->
  told_of id (srun ops).2 <= ended_with id (srun ops).2 /\
  (s_phase (srun ops).1 = SRun -> settled (srun ops).1 ->
     told_of id (srun ops).2 = ended_with id (srun ops).2 /\
     forall b r, s_children (srun ops).1 !! id = Some (b, r) <-> b = false /\ live_child r id (srun ops).2).
Proof.
  intros Hs. pose proof (K_run ops Hs) as HK. split; [apply (k_told_le _ _ HK)|].
  intros Hp [Hi Ha]. pose proof (k_inbox _ _ HK Hp id) as Hin. rewrite Hi in Hin. unfold occs in Hin. simpl in Hin.
  split.
  - rewrite (k_told _ _ HK Hp). unfold pending. destruct (s_children _ !! id) as [[b r]|]; [|lia].
    destruct (s_actors _ !! r) as [c|] eqn:Ec; [|lia]. rewrite (Ha _ _ Ec). lia.
  - intros b r. split.
    + intros Hc. rewrite Hc in Hin. destruct (s_actors _ !! r) as [c|] eqn:Ec; [|lia].
      destruct (k_actors _ _ HK _ _ Ec) as (Ho & Hb & Hal).
      pose proof (k_entry _ _ HK _ _ _ Hc) as Hb'.
      assert (r ∉ ended (srun ops).2) by (apply Hal, (Ha _ _ Ec)).
      pose proof (k_live _ _ HK _ _ Hb' ltac:(done)) as Hl. pose proof (k_map _ _ HK Hp _ _ Hl) as Hm. simpl in Hm.
      split; [congruence|]. by split.
    + intros [-> Hl]. by apply C15_live_child_known_partial.
Qed.
Print Assumptions C15_told_once_partial.

(** When the end of the parent is reported all of its children have ended. *)
Theorem C15_children_stopped_partial ops : spawn_only ops -> SParentReported ∈ (srun ops).2 ->
  forall r id, ~ live_child r id (srun ops).2.
Proof.
  intros Hs Hd r id [H1 H2]. pose proof (K_run ops Hs) as HK. apply (k_done _ _ HK) in Hd.
  pose proof (k_done_live _ _ HK Hd _ _ (k_live _ _ HK _ _ H1 H2)). done.
Qed.
Print Assumptions C15_children_stopped_partial.

(** In every history, also with added and attached children: whoever the parent holds when its own
    end is reported has ended. *)
Theorem C15_all_children_stopped ops id r : SParentReported ∈ (srun ops).2 ->
  children_of (srun ops).2 !! id = Some r -> r ∈ ended (srun ops).2.
Proof.
  intros Hd Hc. destruct (W_run ops) as [W1 W2 W3 W4 W5 W6].
  rewrite W1 in Hc. apply fmap_Some in Hc as (x & Hx & ->).
  apply W4; [by apply (W2 id)|]. by apply (W6 (W5 Hd) id).
Qed.
Print Assumptions C15_all_children_stopped.
Example C15_all_children_stopped_example :
  let tr := (srun [SOAttach "a"; SOSpawn "b" true; SOAdd "c"; SOStop; SOFinish; SOEnd 1; SOFinish; SOEnd 0; SOEnd 2; SOFinish]).2 in
  last tr = Some SParentReported /\ children_of tr !! "a" = Some 0 /\ children_of tr !! "c" = Some 2 /\ ended tr = [1; 0; 2].
Proof. by vm_compute. Qed.

Example C15_example :
  let r := srun [SOSpawn "a" true; SOSpawn "b" true; SOSpawn "a" true; SOEnd 0; SONotify 0; SOHandle; SOSpawn "a" true;
                 SOSpawn "c" false; SONotify 3; SOHandle] in
  r.2 = [SSpawned 0 "a"; SSpawned 1 "b"; SExists "a"; SChildEnded 0; STold "a"; SSpawned 2 "a"; SStartFailed 3 "c"; STold "c"] /\
  s_phase r.1 = SRun /\ s_inbox r.1 = [] /\ map_to_list (s_actors r.1) ≡ₚ [(1, Child "b" true true); (2, Child "a" true true)].
Proof. vm_compute. repeat (split; [reflexivity|]). reflexivity. Qed.

Example C15_example_stop :
  (srun [SOSpawn "a" true; SOSpawn "b" true; SOStop; SOFinish; SOEnd 1; SOFinish; SOEnd 0; SOFinish]).2 =
  [SSpawned 0 "a"; SSpawned 1 "b"; SParentStopped; SChildEnded 1; SChildEnded 0; SParentReported].
Proof. vm_compute. reflexivity. Qed.

(** The full property is false of the code. A child registered with [add_child_ref] takes the
    place of a live one, whose end then removes the new child from the parent. *)
Theorem C15_two_live_children_refuted :
  exists ops, s_phase (srun ops).1 = SRun /\ live_child 0 "a" (srun ops).2 /\ live_child 1 "a" (srun ops).2.
Proof.
  exists [SOSpawn "a" true; SOAdd "a"]. split; [reflexivity|]. unfold live_child. vm_compute.
  split; (split; [apply elem_of_list_In; simpl; tauto|apply not_elem_of_nil]).
Qed.
Print Assumptions C15_two_live_children_refuted.

Theorem C15_live_child_forgotten_refuted :
  exists ops, s_phase (srun ops).1 = SRun /\ settled (srun ops).1 /\ live_child 1 "a" (srun ops).2 /\
    s_children (srun ops).1 !! "a" = None.
Proof.
  exists [SOSpawn "a" true; SOAdd "a"; SOEnd 0; SONotify 0; SOHandle]. split; [reflexivity|]. split.
  - split; [reflexivity|]. intros r c H.
    apply elem_of_map_to_list in H. vm_compute in H. apply elem_of_list_singleton in H as [= _ ->]. reflexivity.
  - unfold live_child. vm_compute. split; [|done]. split; [apply elem_of_list_In; simpl; tauto|].
    intros H. apply elem_of_list_singleton in H. discriminate H.
Qed.
Print Assumptions C15_live_child_forgotten_refuted.

(** The parent is not told of the end of an attached child, which stays in its map. *)
Theorem C15_attached_refuted :
  exists ops, s_phase (srun ops).1 = SRun /\ SChildEnded 0 ∈ (srun ops).2 /\ s_inbox (srun ops).1 = [] /\
    map_to_list (s_actors (srun ops).1) = [] /\ told_of "a" (srun ops).2 = 0 /\ s_children (srun ops).1 !! "a" = Some (true, 0).
Proof.
  exists [SOAttach "a"; SOEnd 0; SONotify 0; SOHandle]. vm_compute.
  repeat (split; [first [reflexivity|apply elem_of_list_In; simpl; tauto]|]). reflexivity.
Qed.
Print Assumptions C15_attached_refuted.

(** In every history the parent knows which of the children it holds were attached, and which are
    its own: descriptions may leave out the former. *)
Theorem C15_attached_known ops (id : string) (b : bool) (r : nat) : s_children (srun ops).1 !! id = Some (b, r) ->
  if b then SAttached r id ∈ (srun ops).2 else (r, id) ∈ born (srun ops).2.
Proof.
  pose proof born_app as Hborn.
  revert id b r. induction ops as [|o ops IH] using rev_ind; intros id b r; [done|].
  rewrite srun_snoc. destruct (srun ops) as [s tr]. cbn [fst snd] in IH.
  assert (K : forall ev, s_children s !! id = Some (b, r) -> if b then SAttached r id ∈ tr ++ ev else (r, id) ∈ born (tr ++ ev)).
  { intros ev H. specialize (IH id b r H). destruct b; [apply elem_of_app; by left|]. rewrite Hborn. apply elem_of_app. by left. }
  assert (New : forall k c ev, (<[k := c]> (s_children s)) !! id = Some (b, r) ->
    (k = id -> c = (b, r) -> if b then SAttached r id ∈ ev else (r, id) ∈ born ev) ->
    if b then SAttached r id ∈ tr ++ ev else (r, id) ∈ born (tr ++ ev)).
  { intros k c ev H Hev. apply lookup_insert_Some in H as [[-> ->]|[_ H]]; [|by apply K]. specialize (Hev eq_refl eq_refl).
    destruct b; [apply elem_of_app; by right|]. rewrite Hborn. apply elem_of_app. by right. }
  destruct o as [k st|k|k|k|k| | |]; cbn [sstep].
  - destruct (s_phase s); [|apply K..]. unfold sup_spawn. destruct (s_children s !! k); [apply K|]. cbn [fst snd s_children].
    intros H. apply (New _ _ _ H). intros -> [= <- <-]. destruct st; cbn; by left.
  - destruct (s_phase s); [|apply K..]. cbn [fst snd sup_add s_children]. intros H. apply (New _ _ _ H). intros -> [= <- <-]. cbn. by left.
  - destruct (s_phase s); [|apply K..]. cbn [fst snd sup_attach s_children]. intros H. apply (New _ _ _ H). intros -> [= <- <-]. by left.
  - destruct (s_actors s !! k) as [[? ? []]|]; apply K.
  - destruct (s_actors s !! k) as [[? ? []]|]; apply K.
  - destruct (s_phase s), (s_inbox s) as [|k q]; try apply K. cbn [fst snd s_children].
    intros [_ H]%lookup_delete_Some. by apply K.
  - destruct (s_phase s); apply K.
  - destruct (s_phase s); try apply K. destruct (forallb _ _); apply K.
Qed.
Print Assumptions C15_attached_known.
Example C15_attached_known_case :
  s_children (srun [SOSpawn "a" true; SOAttach "b"; SOAdd "c"]).1 !! "b" = Some (true, 1) /\
  s_children (srun [SOSpawn "a" true; SOAttach "b"; SOAdd "c"]).1 !! "c" = Some (false, 2).
Proof. by vm_compute. Qed.

(** Children are not stopped first: the stopped hook of the parent runs, and its stop() is
    answered, while they are running. *)
Theorem C15_children_first_refuted :
  exists ops r id, spawn_only ops /\ SParentStopped ∈ (srun ops).2 /\ live_child r id (srun ops).2.
Proof.
  exists [SOSpawn "a" true; SOStop], 0, "a". split.
  - intros o H. simpl in H. repeat (destruct H as [<-|H]; [done|]). destruct H.
  - unfold live_child. vm_compute. split; [apply elem_of_list_In; simpl; tauto|].
    split; [apply elem_of_list_In; simpl; tauto|apply not_elem_of_nil].
Qed.
Print Assumptions C15_children_first_refuted.
