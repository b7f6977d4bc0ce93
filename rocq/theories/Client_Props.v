(** Theorems about the connections to other nodes: C27, C28, C59. *)
From Verif Require Import Client_Model Client_Spec Client_Proofs.
Open Scope string_scope.
Open Scope list_scope.
Open Scope nat_scope.

(** A run in which the first connection fails, two messages wait, and the second one works. *)
Definition ok8 (m : N) : bool := (m <=? 8)%N.
Definition all_up (i : nat) : bool := true.
Definition run27 : list (cop N) :=
  [AConnect Refused; AWrite 1%N true; AWrite 2%N true; AConnect (Identified 7%N all_up); AWrite 3%N true; AWrite 4%N false; AWrite 5%N true].

(** ** C27: what is written is handed to the transport or buffered *)
Theorem C27_handed_or_buffered {M} (frame_ok : M -> bool) (len : M -> N) (l : list (cop M)) c ms :
  writes frame_ok len l c ms ->
  c_handed c ++ c_buffer c ++ c_lost c ≡ₚ ms /\ (~ given_up c -> c_lost c = []) /\
  c_total c = foldr (fun m n => len m + n)%N 0%N (c_buffer c).
Proof.
  intros H. split; [by eapply accounted|]. split; [|by eapply bytes].
  intros Hg. assert (Hi : stop_inv c). { apply (stop_inv_run frame_ok len l). apply writes_run. by exists ms. }
  destruct Hi as (_ & _ & Hi & _). destruct (c_lost c) eqn:E; [done|]. exfalso. by apply Hg, Hi.
Qed.
Print Assumptions C27_handed_or_buffered.

(** Every run has such a list of messages. *)
Theorem C27_every_run {M} (frame_ok : M -> bool) (len : M -> N) (l : list (cop M)) c :
  crun frame_ok len new_client l = Some c <-> exists ms, writes frame_ok len l c ms.
Proof. exact (writes_run frame_ok len l c). Qed.
Print Assumptions C27_every_run.

Example C27_run :
  match crun ok8 (fun m => m) new_client run27 with
  | Some c => c_handed c = [1; 2; 3]%N /\ c_buffer c = [4; 5]%N /\ c_total c = 9%N /\ c_state c = CIdle 1
  | None => False
  end.
Proof. by vm_compute. Qed.

(** In order, as long as every flush after a connection gets through. *)
Theorem C27_in_order_partial {M} (frame_ok : M -> bool) (len : M -> N) (l : list (cop M)) c ms :
  writes frame_ok len l c ms -> Forall flushes l -> Forall (fun m => frame_ok m = true) ms -> ~ given_up c ->
  c_handed c ++ c_buffer c = ms.
Proof. intros. by eapply in_order. Qed.
Print Assumptions C27_in_order_partial.

Ltac wstep l o ms :=
  let c := eval vm_compute in (crun ok8 (fun m : N => m) new_client l) in
  match c with Some ?c => apply (writes_snoc ok8 (fun m : N => m) l c o _ ms); [|vm_compute; reflexivity] end.
Example C27_in_order_case : Forall flushes run27 /\
  exists c, writes ok8 (fun m => m) run27 c [1; 2; 3; 4; 5]%N /\ ~ given_up c.
Proof.
  split; [by repeat constructor|].
  let c := eval vm_compute in (crun ok8 (fun m : N => m) new_client run27) in match c with Some ?c => exists c end.
  split.
  - wstep (take 6 run27) (AWrite 5%N true) [1; 2; 3; 4]%N.
    wstep (take 5 run27) (AWrite 4%N false) [1; 2; 3]%N.
    wstep (take 4 run27) (AWrite 3%N true) [1; 2]%N.
    wstep (take 3 run27) (AConnect (Identified 7%N all_up) : cop N) [1; 2]%N.
    wstep (take 2 run27) (AWrite 2%N true) [1]%N.
    wstep (take 1 run27) (AWrite 1%N true) (@nil N).
    wstep (take 0 run27) (AConnect Refused : cop N) (@nil N).
    apply writes_nil.
  - intros [n Hn]. simpl in Hn. apply elem_of_cons in Hn as [?|Hn]; [done|]. by apply elem_of_nil in Hn.
Qed.

(** Not in general: when the flush after a connection fails halfway the client counts as connected
    all the same, and the next message overtakes the ones that are still buffered. *)
Theorem C27_order_refuted :
  match crun ok8 (fun m => m) new_client
    [AWrite 1%N true; AWrite 2%N true; AConnect (Identified 7%N (fun i => i =? 0)); AWrite 3%N true] with
  | Some c => c_out c = [OConnected 7%N] /\ c_state c = CConnected 7%N HNone /\ c_handed c = [1; 3]%N /\ c_buffer c = [2]%N
  | None => False
  end.
Proof. by vm_compute. Qed.
Print Assumptions C27_order_refuted.

(** And a message above the limit of the codec (8 MiB) that was buffered is never handed to the
    transport: it stays at the head of the buffer, and nothing behind it leaves the buffer any
    more, however many connections are made. *)
Theorem C27_blocked_refuted {M} (frame_ok : M -> bool) (len : M -> N) (l : list (cop M)) c c' m b1 b2 :
  crun frame_ok len c l = Some c' -> frame_ok m = false -> c_buffer c = b1 ++ m :: b2 ->
  exists k more, k `suffix_of` b1 /\ c_buffer c' = k ++ m :: b2 ++ more.
Proof. exact (blocked frame_ok len l c c' m b1 b2). Qed.
Print Assumptions C27_blocked_refuted.

(** Such a message gets there by being written once. *)
Example C27_blocked_case :
  match crun ok8 (fun m => m) new_client
     [AConnect (Identified 7%N all_up); AWrite 9%N true; AConnect (Identified 7%N all_up); AWrite 2%N false; AConnect (Identified 7%N all_up)] with
  | Some c => c_buffer c = [9; 2]%N /\ c_handed c = [] /\ c_state c = CConnected 7%N HNone
  | None => False
  end.
Proof. by vm_compute. Qed.

(** ** C28: reconnection *)
(** While it is not connected a running client always has an attempt on its way; it stops exactly if
    it asked the registry to remove it, and has done so when its state is terminated. *)
Theorem C28_keeps_trying {M} (frame_ok : M -> bool) (len : M -> N) (l : list (cop M)) c :
  crun frame_ok len new_client l = Some c ->
  (c_life c = LRunning -> forall n, c_state c = CIdle n -> n <= 10 /\ 1 <= c_scheduled c) /\
  (c_stopping c = true <-> given_up c) /\ (c_state c = CTerminated -> given_up c).
Proof. intros H. destruct (stop_inv_run _ _ _ _ H) as (H1 & H2 & _ & H4). split; [exact H4|split; [exact H1|exact H2]]. Qed.
Print Assumptions C28_keeps_trying.

(** When each report of a lost connection finds the client connected, it gives up exactly at the
    eleventh failed attempt if it never was connected, at the tenth in a row after that. *)
Theorem C28_gives_up_partial {M} (frame_ok : M -> bool) (len : M -> N) (l : list (cop M)) c o c' :
  orderly frame_ok len l c -> ~ given_up c -> cstep frame_ok len c o = Some c' ->
  (o = ALost -> exists n hs, c_state c = CConnected n hs) ->
  (given_up c' ->
    exists r, o = AConnect r /\ failed r = true /\ fails_since (l ++ [o]) = (if ever_connected l then 10 else 11) /\
      c_state c' = CTerminated /\ c_stopping c' = true /\ last (c_out c') = Some (ORemove (c_node c)) /\ c_scheduled c' = 0) /\
  (forall r, o = AConnect r -> failed r = true -> r <> ClosedEarly ->
     fails_since (l ++ [o]) = (if ever_connected l then 10 else 11) -> given_up c').
Proof.
  intros Ho Hg Hs Hl. split.
  - intros Hg'. by eapply gives_up.
  - intros r -> Hf Hr He. by eapply gives_up_conv.
Qed.
Print Assumptions C28_gives_up_partial.

(** The count the client keeps, in the meantime. *)
Theorem C28_counts_partial {M} (frame_ok : M -> bool) (len : M -> N) (l : list (cop M)) c :
  orderly frame_ok len l c -> c_life c = LRunning -> ~ given_up c ->
  (forall n, c_state c = CIdle n -> n = fails_since l + (if ever_connected l then 1 else 0) /\ c_scheduled c = 1) /\
  (forall n hs, c_state c = CConnected n hs -> fails_since l = 0 /\ ever_connected l = true /\ c_scheduled c = 0).
Proof. exact (orderly_invariant frame_ok len l c). Qed.
Print Assumptions C28_counts_partial.

Example C28_eleven :
  match crun ok8 (fun m => m) new_client (replicate 10 (AConnect Refused)),
        crun ok8 (fun m => m) new_client (replicate 11 (AConnect Refused)),
        crun ok8 (fun m => m) new_client ([AConnect Refused; AConnect (Identified 7%N all_up); ALost] ++ replicate 10 (AConnect NoIdentity)) with
  | Some a, Some b, Some c =>
      c_state a = CIdle 10 /\ c_out a = [] /\ c_state b = CTerminated /\ c_stopping b = true /\ c_out b = [ORemove None] /\
      c_state c = CTerminated /\ c_out c = [OConnected 7%N; ORemove (Some 7%N)]
  | _, _, _ => False
  end.
Proof. by vm_compute. Qed.

Lemma orderly_refused k : k <= 10 -> exists c, orderly ok8 (fun m => m) (replicate k (AConnect Refused)) c /\ c_out c = [] /\ c_state c = CIdle k /\ c_life c = LRunning /\ c_scheduled c = 1 /\ c_identify c = [].
Proof.
  induction k as [|k IH]; intros Hk; [exists new_client; by split; [constructor|]|].
  destruct IH as (c & Ho & Hout & Hs & Hl & Hsch & Hid); [lia|].
  destruct c as [st nd bf tot idn acks lf stp sch rd hd lo out]; cbn [c_out c_state c_life c_scheduled c_identify] in *; subst.
  rewrite replicate_S_end. eexists. split.
  - eapply orderly_snoc; [done|reflexivity|by intros [n Hn]; apply elem_of_nil in Hn|done].
  - unfold connect. simpl. unfold disconnected. simpl.
    assert ((10 <? S k) = false) as -> by (apply Nat.ltb_ge; lia). done.
Qed.
Example C28_gives_up_case : exists c c', orderly ok8 (fun m => m) (replicate 10 (AConnect Refused)) c /\ ~ given_up c /\
  cstep ok8 (fun m => m) c (AConnect IdentifyFailed) = Some c' /\ given_up c'.
Proof.
  destruct (orderly_refused 10) as (c & Ho & Hout & Hs & Hl & Hsch & _); [lia|].
  assert (Hg : ~ given_up c) by (intros [n Hn]; rewrite Hout in Hn; by apply elem_of_nil in Hn).
  eexists c, _. split; [exact Ho|]. split; [exact Hg|]. split; [unfold cstep; rewrite Hl, Hsch; reflexivity|].
  eapply (gives_up_conv ok8 (fun m => m) _ c IdentifyFailed); [exact Ho|exact Hg|unfold cstep; rewrite Hl, Hsch; reflexivity|done|done|].
  by vm_compute.
Qed.

(** Where it goes wrong. The other side closes the connection before it has sent its identity: the
    client waits for ever, makes no more attempts and is never removed. *)
Theorem C28_hangs_refuted {M} (frame_ok : M -> bool) (len : M -> N) (c : client M) n k :
  c_life c = LRunning -> c_state c = CIdle n -> c_scheduled c = S k ->
  exists c', cstep frame_ok len c (AConnect ClosedEarly) = Some c' /\ c_state c' = CIdle n /\ c_out c' = c_out c /\
    c_stopping c' = c_stopping c /\ forall o, cstep frame_ok len c' o = None.
Proof.
  intros Hl Hs Hk. eexists. split; [unfold cstep; rewrite Hl, Hk; reflexivity|]. unfold connect. simpl. rewrite Hs. simpl.
  rewrite Hs. done.
Qed.
Print Assumptions C28_hangs_refuted.

(** A handshake that cannot be written panics the client: no reconnection, no removal. *)
Theorem C28_handshake_refuted {M} (frame_ok : M -> bool) (len : M -> N) (c : client M) n i :
  c_life c = LRunning -> c_state c = CConnected n HNone ->
  exists c', cstep frame_ok len c (AHandshake i false) = Some c' /\ c_out c' = c_out c /\ c_stopping c' = c_stopping c /\
    forall o, cstep frame_ok len c' o = None.
Proof.
  intros Hl Hs. eexists. split; [unfold cstep; rewrite Hl; reflexivity|]. unfold begin_handshake. by rewrite Hs.
Qed.
Print Assumptions C28_handshake_refuted.

(** A connection whose receive loop has panicked is never given up: as long as the transport takes
    what is written the client stays connected, although nobody reads the answers. *)
Theorem C28_unnoticed_refuted {M} (frame_ok : M -> bool) (len : M -> N) (l : list (cop M)) c c' n hs :
  crun frame_ok len c l = Some c' -> c_state c = CConnected n hs -> c_readers c = 0 -> Forall (takes frame_ok) l ->
  (exists hs', c_state c' = CConnected n hs') /\ c_readers c' = 0.
Proof. exact (unnoticed frame_ok len l c c' n hs). Qed.
Print Assumptions C28_unnoticed_refuted.
Example C28_unnoticed_case :
  match crun ok8 (fun m => m) new_client [AConnect (Identified 7%N all_up); AReaderPanic; AWrite 1%N true] with
  | Some c => c_state c = CConnected 7%N HNone /\ c_readers c = 0 /\ c_life c = LRunning
  | None => False
  end.
Proof. by vm_compute. Qed.

(** The receive loop of a connection outlives it, and its report counts as the loss of whatever
    connection there is then, or as a failed attempt: a client can give up although none of its
    attempts ever failed. *)
Definition run28 : list (cop N) :=
  concat (replicate 10 [AConnect (Identified 7%N all_up); AWrite 1%N false]) ++ replicate 10 ALost.
Theorem C28_stale_refuted :
  fails_since run28 = 0 /\ Forall (fun o => match o with AConnect r => failed r = false | _ => True end) run28 /\
  match crun ok8 (fun m => m) new_client run28 with
  | Some c => c_state c = CTerminated /\ c_stopping c = true /\ last (c_out c) = Some (ORemove (Some 7%N))
  | None => False
  end.
Proof.
  split; [done|]. split; [|by vm_compute].
  unfold run28. apply Forall_app. split; [|by repeat constructor]. simpl. by repeat constructor.
Qed.
Print Assumptions C28_stale_refuted.

(** One of them is enough to cut a connection that works: the second one here. *)
Example C28_stale_cuts :
  match crun ok8 (fun m => m) new_client
    [AConnect (Identified 7%N all_up); AWrite 1%N false; AConnect (Identified 7%N all_up); ALost] with
  | Some c => c_state c = CIdle 1 /\ c_readers c = 1
  | None => False
  end.
Proof. by vm_compute. Qed.

(** A client that gave up can connect again, before it has stopped: it is back in the registry,
    and then stops. *)
Theorem C28_reconnects_refuted :
  match crun ok8 (fun m => m) new_client (replicate 11 (AConnect Refused) ++ [AWrite 1%N true; AConnect (Identified 7%N all_up)]) with
  | Some c => c_out c = [ORemove None; OConnected 7%N] /\ c_stopping c = true /\ c_state c = CConnected 7%N HNone /\ c_lost c = [1%N]
  | None => False
  end.
Proof. by vm_compute. Qed.
Print Assumptions C28_reconnects_refuted.

(** ** C59: the registry of clients *)
(** What reaches the mailboxes of the clients: each write goes to the client that last connected to
    its node, in order. *)
Theorem C59_routing {M} (l : list (gop M)) g :
  grun new_registry l = Some g -> g_inbox g = routed [] l /\ forall n, g_node g !! n = connected_client l n.
Proof. intros H. split; [by apply inbox|]. intros n. by apply routes. Qed.
Print Assumptions C59_routing.

(** One client per address, until it is removed; never one client for two addresses. *)
Theorem C59_one_per_address {M} (l1 l2 : list (gop M)) g a g1 c g2 :
  grun new_registry l1 = Some g -> gstep g (GNew a) = Some (g1, c) -> grun g1 l2 = Some g2 ->
  (forall n, GRemove a n ∉ l2) -> gstep g2 (GNew a) = Some (g2, c).
Proof. exact (new_once l1 g a g1 c l2 g2). Qed.
Print Assumptions C59_one_per_address.
Theorem C59_distinct {M} (l : list (gop M)) g a b g1 g2 c d :
  grun new_registry l = Some g -> gstep g (GNew a) = Some (g1, Some c) -> gstep g1 (GNew b) = Some (g2, Some d) ->
  a <> b -> c <> d.
Proof. exact (new_distinct l g a b g1 g2 c d). Qed.
Print Assumptions C59_distinct.

(** After a client that only ever connected to one node is removed for that node, nothing is routed
    to it. *)
Theorem C59_removed_partial {M} (l1 l2 : list (gop M)) n c a :
  (forall k, GConnected k c ∈ l1 -> k = n) -> (forall k, GConnected k c ∉ l2) ->
  (forall m, connected_client (l1 ++ GRemove a (Some n) :: l2) m <> Some c) /\
  forall g, grun new_registry (l1 ++ GRemove a (Some n) :: l2) = Some g ->
    exists more, g_inbox g = routed [] l1 ++ more /\ Forall (fun p => fst p <> c) more.
Proof.
  intros H1 H2. split; [intros m; by apply removed|].
  intros g Hg%inbox. rewrite Hg, routed_app. eexists. split; [done|]. rewrite app_nil_r. simpl.
  apply routed_none; [|done]. intros m Hm. apply (removed l1 [] n c a m); [done|by intros k ?%elem_of_nil|].
  unfold connected_client. by rewrite rev_app_distr.
Qed.
Print Assumptions C59_removed_partial.

Definition run59 : list (gop N) :=
  [GNew "a"; GConnected 1%N 0; GWrite 1%N 10%N; GNew "b"; GConnected 2%N 1; GWrite 2%N 20%N; GWrite 1%N 11%N; GNew "a";
   GRemove "a" (Some 1%N); GWrite 1%N 12%N; GNew "a"].
Example C59_run :
  match grun new_registry run59 with
  | Some g => g_inbox g = [(0, 10%N); (1, 20%N); (0, 11%N)] /\ g_dropped g = [(1%N, 12%N)] /\ g_addr g !! "a" = Some 2 /\ g_addr g !! "b" = Some 1
  | None => False
  end.
Proof. by vm_compute. Qed.

(** A client whose node comes back under another id stays the client of the old id as well: writes
    for the old node go to the new one, also after the client was removed. *)
Theorem C59_alias_refuted :
  match grun (M := N) new_registry [GNew "a"; GConnected 1%N 0; GConnected 2%N 0; GWrite 1%N 10%N; GRemove "a" (Some 2%N); GWrite 1%N 11%N] with
  | Some g => g_inbox g = [(0, 10%N); (0, 11%N)] /\ g_addr g !! "a" = None
  | None => False
  end.
Proof. by vm_compute. Qed.
Print Assumptions C59_alias_refuted.

(** When the client has stopped by then, or panicked, the write panics the registry itself, and with
    it the way to every node is gone. *)
Theorem C59_panic_refuted {M} (g : registry M) n c m : g_node g !! n = Some c -> c ∈ g_dead g -> gstep g (GWrite n m) = None.
Proof. intros H Hd. simpl. rewrite H. by destruct (decide (c ∈ g_dead g)). Qed.
Print Assumptions C59_panic_refuted.
Example C59_panic_case :
  grun (M := N) new_registry [GNew "a"; GConnected 1%N 0; GConnected 2%N 0; GRemove "a" (Some 2%N); GStop 0; GWrite 1%N 11%N] = None.
Proof. by vm_compute. Qed.

(** Two addresses of one node have two clients; the removal of one takes away the way to the node
    although the other is connected. *)
Theorem C59_two_addresses_refuted :
  match grun (M := N) new_registry [GNew "a"; GNew "b"; GConnected 1%N 0; GConnected 1%N 1; GRemove "a" (Some 1%N); GWrite 1%N 10%N] with
  | Some g => g_inbox g = [] /\ g_dropped g = [(1%N, 10%N)] /\ g_addr g !! "b" = Some 1
  | None => False
  end.
Proof. by vm_compute. Qed.
Print Assumptions C59_two_addresses_refuted.
