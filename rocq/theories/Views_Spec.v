(** What clients of the HTTP api mean by their queries, and what the lists must say. *)
From Verif Require Export Views_Model.
From Verif Require ActorSys_Spec.

Local Open Scope N_scope.

(** * How a client may write a query *)

(** Hexadecimal digits, of either case. *)
Inductive hex_digit : N -> N -> Prop :=
| HexDec d : d < 10 -> hex_digit (48 + d) d
| HexUpper d : d < 6 -> hex_digit (65 + d) (10 + d)
| HexLower d : d < 6 -> hex_digit (97 + d) (10 + d).

(** A byte may be written as it is, unless it has a meaning in queries ([sep]: an equals sign
    has one, as in names), as a percent sign and two digits, and a space as a plus. *)
Inductive spelled (sep : bool) : bytes -> bytes -> Prop :=
| SpNil : spelled sep [] []
| SpPlain b t r : b <> 38 -> b <> 37 -> b <> 43 -> (sep = true -> b <> 61) -> spelled sep t r ->
    spelled sep (b :: t) (b :: r)
| SpSpace t r : spelled sep t r -> spelled sep (32 :: t) (43 :: r)
| SpHex h l x y t r : hex_digit h x -> hex_digit l y -> spelled sep t r ->
    spelled sep (16 * x + y :: t) (37 :: h :: l :: r).

(** A parameter: name, equals sign, value; without value the sign may be missing. *)
Inductive spelled_pair : bytes * bytes -> bytes -> Prop :=
| SpPair k v rk rv : spelled true k rk -> spelled false v rv -> spelled_pair (k, v) (rk ++ 61 :: rv)
| SpAlone k rk : spelled true k rk -> rk <> [] -> spelled_pair (k, []) rk.

(** A query: parameters separated by one ampersand or more, which may also come first or last. *)
Inductive spelled_query : list (bytes * bytes) -> bytes -> Prop :=
| SqNil : spelled_query [] []
| SqLast kv r : spelled_pair kv r -> spelled_query [kv] r
| SqAmp ps q : spelled_query ps q -> spelled_query ps (38 :: q)
| SqCons kv r ps q : spelled_pair kv r -> spelled_query ps q -> spelled_query (kv :: ps) (r ++ 38 :: q).

(** * What it asks for *)

(** Decimal numerals, with leading zeros. *)
Inductive decimal : bytes -> N -> Prop :=
| DecOne d : d < 10 -> decimal [48 + d] d
| DecMore ds n d : decimal ds n -> d < 10 -> decimal (ds ++ [48 + d]) (10 * n + d).
Definition numeral (v : bytes) (n : N) : Prop := decimal v n \/ exists v', v = 43 :: v' /\ decimal v' n.

(** The values given for a name. *)
Definition given (k : string) (ps : list (bytes * bytes)) : list bytes :=
  snd <$> filter (fun kv => kv.1 = text k) ps.
Definition asks_number (k : string) (ps : list (bytes * bytes)) (x : option nat) : Prop :=
  match x with
  | None => given k ps = []
  | Some m => exists v n, given k ps = [v] /\ numeral v n /\ n < 2 ^ 64 /\ m = N.to_nat n
  end.
(** The limits and the switch given, each at most once, and no time limit. *)
Definition asks (ps : list (bytes * bytes)) (o : ActorSys_Model.options) : Prop :=
  asks_number "max_depth" ps (ActorSys_Model.max_depth o) /\
  asks_number "max_children" ps (ActorSys_Model.max_children o) /\
  given "child_describe_timeout" ps = [] /\
  (if ActorSys_Model.describe_attached o
   then given "child_describe_attached" ps = [] \/ given "child_describe_attached" ps = [text "true"]
   else given "child_describe_attached" ps = [text "false"]).

(** * The lists *)

(** The lines of the answer, parents before their children, with their paths and statuses. *)
Fixpoint lines (e : entry) : list (string * astatus) :=
  let 'Entry _ path st es := e in (path, st) :: flat_map lines es.
(** The paths of the actors of a tree, with their attached children or without. *)
Fixpoint paths (attached : bool) (w : string -> string * string) (t : ActorSys_Model.tree) : list string :=
  let 'ActorSys_Model.Tree id _ _ ch := t in
  full_path w id ::
  flat_map (fun c => if attached || negb (ActorSys_Model.is_attached c) then paths attached w c else []) ch.
(** How many generations of actors are shown. *)
Fixpoint levels (e : entry) : nat :=
  let 'Entry _ _ _ es := e in S (fold_right (fun c m => Nat.max (levels c) m) 0%nat es).
(** No actor is shown with more than [n] children. *)
Fixpoint narrow (n : nat) (e : entry) : Prop :=
  let 'Entry _ _ _ es := e in (length es <= n)%nat /\ fold_right (fun c P => narrow n c /\ P) True es.
(** What is shown of a tree when everybody who can answer is waited for: who answers, with what
    it supervises; who does not, as failed. *)
Fixpoint shown (w : string -> string * string) (t : ActorSys_Model.tree) : list (string * astatus) :=
  let 'ActorSys_Model.Tree id _ re ch := t in
  match re with
  | ActorSys_Model.Handles _ => (full_path w id, StOk) :: flat_map (shown w) ch
  | ActorSys_Model.Silent => [(full_path w id, StTimeout)]
  | _ => [(full_path w id, StErr)]
  end.

(** The nodes in ascending order of their ids, each once. *)
Definition ascending (l : list rstate) : Prop := StronglySorted (fun a b => s_id a < s_id b) l.

(** No node is removed from the registry: [remove_node] has no caller. *)
Definition no_removal_op (o : dop) : Prop := match o with DRemove _ => False | _ => True end.
Definition no_removal {C} (o : hop C) : Prop :=
  match o with
  | HTick _ _ mid | HTerminated _ _ _ mid => Forall no_removal_op mid
  | HRegistry o => no_removal_op o
  | _ => True
  end.

(** * The server *)

(** Routes that axum accepts: good paths, no two of which overlap. *)
Definition good_routes (valid : string -> bool) (overlap : string -> string -> bool) (l : list string) : Prop :=
  Forall (fun p => valid p = true) l /\
  forall i j p q, (i < j)%nat -> l !! i = Some p -> l !! j = Some q -> overlap q p = false.
