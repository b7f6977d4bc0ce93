(** Property C104: the paths of actors. *)
From Coq Require Import Ascii.
From Verif Require Import Paths_Model Paths_Spec Paths_Proofs.
Local Open Scope string_scope.
Local Open Scope list_scope.
Local Open Scope nat_scope.

Section props.
  Context (sys : string).
  Notation prun := (prun sys).

  (** The path of an actor does not change. *)
  Theorem C104_stable l1 l2 c x : prun l1 !! c = Some x -> exists y, prun (l1 ++ l2) !! c = Some y /\ full_path y = full_path x.
  Proof.
    intros H. destruct (prun_kept sys l1 l2 c x H) as (y & Hy & (K1 & K2 & _)). exists y. split; [done|].
    unfold full_path. by rewrite K1, K2.
  Qed.

  (** An actor that takes in a child before it attaches one: all children that it ever spawns
      are below it. *)
  Theorem C104_below_partial l1 o l2 p a c x : Forall (fun o => ~ attaches p o) l1 -> takes_in p o ->
    prun l1 !! p = Some a -> pa_alive a = true -> (forall q d, o = PAdd q d -> is_Some (prun l1 !! d)) ->
    prun (l1 ++ o :: l2) !! c = Some x -> pa_origin x = SpawnedBy p ->
    exists b, prun (l1 ++ o :: l2) !! p = Some b /\ full_path x = path_join (full_path b) (pa_id x).
  Proof.
    intros. edestruct (spawned_below sys l1 o l2 p a c x) as (b & Hb & E); try done. exists b. split; [done|].
    unfold full_path at 1. by rewrite E.
  Qed.

  (** One that attaches a child first: all children that it ever spawns are beside it. *)
  Theorem C104_beside_refuted l1 d l2 p a c x : Forall (fun o => ~ takes_in p o) l1 ->
    prun l1 !! p = Some a -> pa_alive a = true -> is_Some (prun l1 !! d) ->
    prun (l1 ++ PAttach p d :: l2) !! c = Some x -> pa_origin x = SpawnedBy p ->
    pa_path x = pa_path a /\ full_path x <> path_join (full_path a) (pa_id x).
  Proof. exact (spawned_beside sys l1 d l2 p a c x). Qed.

  (** A child that was started by the system (an entity of a shard) is never below its parent. *)
  Theorem C104_system_refuted ops c x p a : prun ops !! c = Some x -> pa_origin x = WithParent p -> prun ops !! p = Some a ->
    pa_path a = sys -> full_path x = path_join sys (pa_id x) /\ full_path x <> path_join (full_path a) (pa_id x).
  Proof.
    intros Hx Hor Ha Hp. pose proof (inv_run sys ops c x Hx) as Hi. rewrite Hor in Hi. destruct Hi as [Hi _].
    unfold full_path. rewrite Hi, Hp. split; [done|]. unfold path_join. intros E. apply (f_equal String.length) in E.
    rewrite !str_app_length in E. simpl in E. lia.
  Qed.

  (** If actors neither attach others nor get their parents from the system, the path of an actor is
      made up of the ids of its ancestors and its own, *)
  Theorem C104_lineage_partial ops c x : Forall plain ops -> prun ops !! c = Some x ->
    exists l, lineage (prun ops) c l /\ full_path x = path_of sys l.
  Proof.
    intros Hf Hx. destruct (lineage_exists sys ops c) as [l Hl]; [by eapply lookup_lt_Some|]. exists l. split; [done|].
    by eapply path_lineage.
  Qed.
  (** and tells them, if they have no slashes. *)
  Theorem C104_unambiguous_partial ops c1 c2 x1 x2 l1 l2 : Forall plain ops ->
    prun ops !! c1 = Some x1 -> prun ops !! c2 = Some x2 -> lineage (prun ops) c1 l1 -> lineage (prun ops) c2 l2 ->
    Forall no_slash l1 -> Forall no_slash l2 -> full_path x1 = full_path x2 -> l1 = l2.
  Proof. exact (path_unambiguous sys ops c1 c2 x1 x2 l1 l2). Qed.

  (** Ids may have slashes: then actors with other ancestors have the same path. *)
  Theorem C104_slash_refuted (i j : string) : exists ops c1 c2 x1 x2, Forall plain ops /\
    prun ops !! c1 = Some x1 /\ prun ops !! c2 = Some x2 /\ pa_alive x1 = true /\ pa_alive x2 = true /\
    lineage (prun ops) c1 [path_join i j] /\ lineage (prun ops) c2 [i; j] /\ full_path x1 = full_path x2.
  Proof.
    exists [PTop (path_join i j); PTop i; PSpawn 1 j], 0, 2, (fresh (path_join i j) sys FromSystem), (fresh j (path_join sys i) (SpawnedBy 1)).
    split; [repeat constructor|]. do 4 (split; [reflexivity|]).
    split; [by apply (LinTop _ 0 (fresh (path_join i j) sys FromSystem))|].
    split. { apply (LinChild _ 2 (fresh j (path_join sys i) (SpawnedBy 1)) 1 [i]); [reflexivity|by left|].
             by apply (LinTop _ 1 (set_child j 2 (open (path_join sys i) (fresh i sys FromSystem)))). }
    unfold full_path, path_join. cbn [fresh pa_id pa_path].
    assert (E : forall s t u, (s ++ (t ++ u) = (s ++ t) ++ u)%string).
    { clear. intros s t u. induction s as [|c s IH]; [done|]. rewrite !str_app_cons. by rewrite IH. }
    rewrite <- !E. done.
  Qed.
  (** Nor is there at most one actor at a path: the system takes the id of an actor, tracked or
      not, as it is. *)
  Theorem C104_unique_refuted (i : string) : exists ops c1 c2 x1 x2, Forall plain ops /\ c1 <> c2 /\
    prun ops !! c1 = Some x1 /\ prun ops !! c2 = Some x2 /\ pa_alive x1 = true /\ pa_alive x2 = true /\
    full_path x1 = path_join sys i /\ full_path x2 = path_join sys i.
  Proof. exists [PTop i; PTop i], 0, 1. eexists _, _. split; [repeat constructor|]. split; [done|]. split_and!; reflexivity. Qed.
End props.
Print Assumptions C104_stable.
Print Assumptions C104_below_partial.
Print Assumptions C104_beside_refuted.
Print Assumptions C104_system_refuted.
Print Assumptions C104_lineage_partial.
Print Assumptions C104_unambiguous_partial.
Print Assumptions C104_slash_refuted.
Print Assumptions C104_unique_refuted.

(** "p" spawns "a", attaches the top-level actor "t" and spawns "b"; "q" attaches "t" first and
    spawns "a"; "e" gets "p" as its parent from the system. *)
Example C104_case :
  full_path <$> prun "sys" [PTop "t"; PTop "p"; PSpawn 1 "a"; PAttach 1 0; PSpawn 1 "b"; PSpawn 2 "a"; PSpawn 1 "a";
                            PTop "q"; PAttach 5 0; PEnd 0; PTold 5 "t"; PSpawn 5 "a"; PSupervised 1 "e"; PAdd 1 7] =
  ["sys/t"; "sys/p"; "sys/p/a"; "sys/p/b"; "sys/p/a/a"; "sys/q"; "sys/a"; "sys/e"].
Proof. vm_compute. done. Qed.
