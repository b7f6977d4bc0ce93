(** Every handler of the framework can do something; runs of given scripts, and a check for deadlocks. *)
From Verif Require Export Waits_System Waits_Proofs2.

Ltac a_script :=
  repeat first [ apply DNil | apply DMany0 | apply DOrL | apply DSpawns | apply DHands | apply DThen
    | (apply DDo; first [ reflexivity | exists 0%N; reflexivity | eexists; split; [exists 0%N; reflexivity|reflexivity] | eexists; split; reflexivity | exact I ]) ].
Lemma script_some sd checked q m : { l | does (script_of sd checked q m) l }.
Proof.
  destruct sd, q, m; cbn [script_of scheduler mediator registry clients discovery heartbeat client store session host shard coordinator manager proxy];
    unfold stopping, get_identity, tick, new_actor, new_actor_deferred, notify_node, get_client, tell_client, maybe, anything, ask, tell, pause, hang, reply;
    eexists; a_script.
Defined.
Lemma start_some q : { l | does (start_of q) l }.
Proof.
  destruct q; cbn [start_of]; unfold maybe, anything, ask, tell, pause, hang; eexists; a_script.
Defined.
Lemma handler_some sd checked : exists pick, forall q m, handler sd checked q m (pick q m).
Proof. exists (fun q m => proj1_sig (script_some sd checked q m)). intros q m. exists (proj1_sig (script_some sd checked q m)). split; [apply proj2_sig|by left]. Qed.
Lemma started_some : exists pick, forall q, started q (pick q).
Proof. exists (fun q => proj1_sig (start_some q)). intros q. exists (proj1_sig (start_some q)). split; [apply proj2_sig|by left]. Qed.

Section Play.
  Context {K M : Type} `{Countable K} `{EqDecision M}.
  Notation act := (action K M).
  Notation pid := (K + N)%type.
  Notation state := (state K M).
  Variable handler : K -> M -> list act -> Prop.
  Variable started : K -> list act -> Prop.

  (** The outside starts a task; an actor takes a message; a task begins an actor; a task moves. *)
  Inductive op := OTask (todo : list act) | OTake (q : K) (m : M) (todo : list act) | OBegin (p : pid) (y : K) (todo : list act) | OMove (p : pid).

  Definition legal (o : op) : Prop :=
    match o with
    | OTake q m todo => handler q m todo
    | OBegin _ y todo => started y todo
    | _ => True
    end.
  Definition go (s : state) (o : op) : option state :=
    let ps := s_procs s in
    match o with
    | OTask todo => Some (State (<[inr (s_next s) := Live [] (Some (Run None todo false))]> ps) (s_next s + 1))
    | OTake q m todo =>
        match ps !! inl q with
        | Some (Live ((m', k) :: l) None) => if decide (m = m') then Some (State (<[inl q := Live l (Some (Run k todo false))]> ps) (s_next s)) else None
        | _ => None
        end
    | OBegin p y todo' =>
        match ps !! p with
        | Some (Live l (Some (Run k (Begin y' :: todo) false))) =>
            if decide (y = y') then
              match ps !! inl y with
              | None => Some (State (<[inl y := Live [] (Some (Run (Some p) todo' false))]> (<[p := Live l (Some (Run k (Begin y' :: todo) true))]> ps)) (s_next s))
              | Some _ => None
              end
            else None
        | _ => None
        end
    | OMove p =>
        match ps !! p with
        | Some (Live l (Some (Run k todo false))) =>
            match todo with
            | [] => Some (State (wake k (<[p := match p with inl _ => Live l None | inr _ => Dead end]> ps)) (s_next s))
            | Ask q m :: todo' =>
                if alive ps (inl q) then Some (State (put (inl q) m (Some p) (<[p := Live l (Some (Run k todo true))]> ps)) (s_next s)) else None
            | Tell q m :: todo' => Some (State (put (inl q) m None (<[p := Live l (Some (Run k todo' false))]> ps)) (s_next s))
            | Pause :: todo' | Hang :: todo' => Some (State (<[p := Live l (Some (Run k todo' false))]> ps) (s_next s))
            | Delegate todo1 :: todo' =>
                Some (State (<[inr (s_next s) := Live [] (Some (Run k todo1 false))]> (<[p := Live l (Some (Run None todo' false))]> ps)) (s_next s + 1))
            | Fork todo1 :: todo' =>
                Some (State (<[inr (s_next s) := Live [] (Some (Run None todo1 false))]> (<[p := Live l (Some (Run k todo' false))]> ps)) (s_next s + 1))
            | _ => None
            end
        | _ => None
        end
    end.

  Lemma go_step s o s' : legal o -> go s o = Some s' -> exists p, step handler started s p s'.
  Proof.
    destruct o as [todo|q m todo|p y todo|p]; cbn [legal go]; intros Hl Hg.
    - exists None. injection Hg as <-. exact (ETask s todo).
    - exists (Some (inl q)). destruct (s_procs s !! inl q) as [[[|[m' k] l] []|]|] eqn:E; try done. destruct (decide (m = m')) as [->|]; [|done].
      injection Hg as <-. cbn. eapply PTake; [done|exact E|done].
    - exists (Some p). destruct (s_procs s !! p) as [[l [[k [|[] ?] []]|]|]|] eqn:E; try done. destruct (decide (y = y0)) as [->|]; [|done].
      destruct (s_procs s !! inl y0) eqn:Ey; [done|]. injection Hg as <-. cbn. by eapply PBegin.
    - exists (Some p). destruct (s_procs s !! p) as [[l [[k todo []]|]|]|] eqn:E; try done. cbn.
      destruct todo as [|[q m|q m|y|y|l1|l1|q m| | | |] todo]; try done.
      + injection Hg as <-. by eapply PEnd.
      + destruct (alive (s_procs s) (inl q)) eqn:Ea; [|done]. injection Hg as <-. by eapply PAsk.
      + injection Hg as <-. by eapply PTell.
      + injection Hg as <-. by eapply PFork.
      + injection Hg as <-. by eapply PDelegate.
      + injection Hg as <-. by eapply PPause.
      + injection Hg as <-. by eapply PHang.
  Qed.

  Fixpoint play (s : state) (l : list op) : option state :=
    match l with [] => Some s | o :: l => match go s o with Some s' => play s' l | None => None end end.
  Lemma play_reachable names s l s' : reachable handler started names s -> Forall legal l -> play s l = Some s' -> reachable handler started names s'.
  Proof.
    revert s. induction l as [|o l IH]; cbn [play]; intros s Hs Hl Hp; [by simplify_eq|]. apply Forall_cons in Hl as [Ho Hl].
    destruct (go s o) as [s1|] eqn:E; [|done]. destruct (go_step _ _ _ Ho E) as [p Hst]. eapply IH; [|done|done]. by eapply ReachStep.
  Qed.

  Definition waitsd (s : state) (p : pid) : bool :=
    match s_procs s !! p with Some (Live _ (Some (Run _ _ true))) => true | _ => false end.
  Definition asked_by (x : proc K M) (p : pid) : bool :=
    match x with
    | Live l r => existsb (fun y : M * option pid => bool_decide (y.2 = Some p)) l || match r with Some (Run k _ _) => bool_decide (k = Some p) | None => false end
    | Dead => false
    end.
  Definition deadlockb (s : state) (D : list pid) : bool :=
    forallb (waitsd s) D &&
    forallb (fun y : pid * proc K M => negb (existsb (asked_by y.2) D) || bool_decide (y.1 ∈ D)) (map_to_list (s_procs s)).
  Lemma deadlockb_sound s D : deadlockb s D = true -> deadlock s (fun p => p ∈ D).
  Proof.
    unfold deadlockb. intros [Hw Ho]%andb_prop. rewrite forallb_forall in Hw, Ho. split.
    - intros p Hp. apply elem_of_list_In, Hw in Hp. unfold waitsd in Hp. destruct (s_procs s !! p) as [[l [[k todo []]|]|]|] eqn:E; try done.
      exists k, todo, l. done.
    - intros p x Hp (l & r & E & Hx). specialize (Ho (x, Live l r)). rewrite <-elem_of_list_In, elem_of_map_to_list in Ho. specialize (Ho E).
      cbn [fst snd] in Ho. apply orb_prop in Ho as [Ho|Ho]; [|by apply bool_decide_eq_true in Ho]. apply negb_true_iff in Ho.
      assert (existsb (asked_by (Live l r)) D = true) as Ht; [|congruence]. apply existsb_exists. exists p. split; [by apply elem_of_list_In|].
      cbn. apply orb_true_iff. destruct Hx as [(m & Hm)|(todo & w & ->)].
      + left. apply existsb_exists. exists (m, Some p). split; [by apply elem_of_list_In|]. by apply bool_decide_eq_true.
      + right. by apply bool_decide_eq_true.
  Qed.

  (** These steps lead into a deadlock of [D]. *)
  Definition deadlocks (names : list K) (l : list op) (D : list pid) : bool :=
    match play (init names) l with Some s => deadlockb s D | None => false end.
  Lemma deadlocks_sound names l D : Forall legal l -> deadlocks names l D = true ->
    exists s, reachable handler started names s /\ deadlock s (fun p => p ∈ D).
  Proof.
    unfold deadlocks. intros Hl Hd. destruct (play (init names) l) as [s|] eqn:E; [|done]. exists s.
    split; [eapply play_reachable; [apply ReachInit|done|done]|by apply deadlockb_sound].
  Qed.
End Play.
