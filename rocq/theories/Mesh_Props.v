(** Property C60: a cluster comes together. *)
From Verif Require Import Mesh_Model Mesh_Spec Mesh_Proofs.

(** When no handshake is lost, then once all handshakes have been handled any two nodes that are
    connected by a chain of seeds know each other. Missing: handshakes may be lost, see below. *)
Theorem C60_full_mesh_partial ops h x y :
  mruns mesh_init ops = Some h -> forallb smooth ops = true -> settled h ->
  joined ops x y -> started ops x -> knows h x y /\ knows h y x.
Proof.
  intros E Hs Hset Hj Hx.
  assert (Hk : knows h x y) by exact (full_mesh ops h x y E Hs Hset Hj Hx).
  split; [exact Hk|]. refine (full_mesh ops h y x E Hs Hset _ _).
  - unfold joined in *. by symmetry.
  - exact (proj2 (known_started ops h x y E Hk)).
Qed.
Print Assumptions C60_full_mesh_partial.

(** Whatever happens, a node only knows nodes that have started. *)
Theorem C60_only_started ops h x y :
  mruns mesh_init ops = Some h -> knows h x y -> started ops x /\ started ops y.
Proof. exact (known_started ops h x y). Qed.
Print Assumptions C60_only_started.

(** Whatever happened before, the handshakes come to an end: at most as many are handled as are
    on their way and there are pairs of nodes. *)
Theorem C60_handshakes_end ops h ops' h' :
  mruns mesh_init ops = Some h -> mruns h ops' = Some h' -> forallb handles ops' = true ->
  (length ops' <= length (h_flight h) + size (h_nodes h) * size (h_nodes h))%nat.
Proof.
  intros E E' Ho. pose proof (handles_run h ops' h' (wf_runs _ _ _ wf_init E) Ho E') as H.
  pose proof (missing_bound h). lia.
Qed.
Print Assumptions C60_handshakes_end.

(** And they can always be brought to an end: none blocks another. *)
Theorem C60_settles ops h :
  mruns mesh_init ops = Some h ->
  exists ops' h', forallb handles ops' = true /\ forallb smooth ops' = true /\ mruns h ops' = Some h' /\ settled h'.
Proof. intros E. exact (settles h (wf_runs _ _ _ wf_init E)). Qed.
Print Assumptions C60_settles.

(** A handshake that fails leaves a node that knows its seed without being known to it. *)
Theorem C60_full_mesh_refuted :
  exists ops h x y, mruns mesh_init ops = Some h /\ settled h /\ joined ops x y /\ started ops x /\
    knows h x y /\ ~ knows h y x.
Proof.
  exists [MStart 1; MStart 2; MSeed 2 1 [1]; MFail 0]%N.
  eexists _, 2%N, 1%N. split; [vm_compute; reflexivity|]. split_and!.
  - done.
  - apply rtc_once. left. exists [1]%N. set_solver.
  - unfold started. set_solver.
  - eexists. split; [vm_compute; reflexivity|]. vm_compute. done.
  - intros (m & E & H). vm_compute in E. injection E as <-. vm_compute in H. done.
Qed.
Print Assumptions C60_full_mesh_refuted.

(** No repetition repairs it: a node that knows all nodes may discover its seeds as often as it
    likes, no handshake is sent and no one learns of anyone. *)
Theorem C60_no_second_handshake_refuted ops h ops' h' x :
  mruns mesh_init ops = Some h -> settled h -> (forall y, is_Some (h_nodes h !! y) -> knows h x y) ->
  mruns h ops' = Some h' -> (forall o, o ∈ ops' -> (exists s l, o = MSeed x s l) \/ exists a b, o = MDone a b) ->
  settled h' /\ forall a b, knows h' a b <-> knows h a b.
Proof.
  intros _ Hs Hk E Ho. refine (again_runs h ops' h' x Hs Hk _ E).
  apply forallb_forall. intros o Hin. apply elem_of_list_In, Ho in Hin as [(s & l & ->)|(a & b & ->)]; cbn; [apply N.eqb_refl|done].
Qed.
Print Assumptions C60_no_second_handshake_refuted.

(** Three nodes, 2 and 3 joining through 1: the hypotheses of the theorems are met, and everyone
    ends up knowing everyone. *)
Definition three_ops : list mop :=
  ([MStart 1; MStart 2; MStart 3; MSeed 2 1 [1]; MSeed 3 1 [1];
    MHandle 0 [2] []; MHandle 0 [3] []; MHandle 0 [1] []; MHandle 0 [2;1] []; MHandle 0 [3;1] []; MHandle 0 [1;2] []]%N).
Example C60_example :
  match mruns mesh_init three_ops with
  | Some h => h_flight h = [] /\ forallb smooth three_ops = true /\
      forallb (fun x => match h_nodes h !! x with
                        | Some m => bool_decide (m_known m = {[ 1; 2; 3 ]}%N)
                        | None => false end) [1; 2; 3]%N = true
  | None => False
  end.
Proof. vm_compute. done. Qed.
Example C60_example_joined : joined three_ops 2 3.
Proof.
  apply (rtc_l _ 2%N 1%N 3%N); [left; exists [1%N]; unfold three_ops; set_solver|].
  apply rtc_once. right. exists [1%N]. unfold three_ops. set_solver.
Qed.
