(** Nodes of a cluster that run in Kubernetes: providers/discovery/coerce-k8s/src/{lib,config}.rs and the start of the
    sharded chat, examples/coerce-sharded-chat-example/src/app.rs:119-231. *)
From Verif Require Export Base.
From Coq Require Import Ascii DecimalString.
Local Open Scope string_scope.

(** ** What the API server answers *)

(** k8s_openapi [ContainerPort], [Container], [PodSpec], [PodStatus] and [Pod], the fields that are read. A port is an [i32]. *)
Record cport := CPort { cp_name : option string; cp_port : Z }.
Record container := Container { c_ports : option (list cport) }.
Record pod_spec := PodSpec { ps_hostname : option string; ps_subdomain : option string; ps_containers : list container }.
Record pod := Pod { pd_spec : option pod_spec; pd_status : option (option string) }.

(** ** Configuration *)

(** config.rs:1-17 *)
Inductive address := PodIp | Hostname.
Record k8s_config := K8sConfig { kc_selector : option string; kc_port_name : option string; kc_address : address }.

(** The environment variables that are read, [None] when one is not set (or not Unicode). *)
Record env := Env {
  e_k8s : option string;          (* KUBERNETES_SERVICE_HOST *)
  e_pod_name : option string;     (* POD_NAME *)
  e_cluster_ip : option string;   (* CLUSTER_IP *)
  e_selector : option string;     (* COERCE_K8S_POD_SELECTOR *)
  e_port_name : option string;    (* COERCE_K8S_PORT_NAME *)
  e_addr_mode : option string;    (* COERCE_K8S_ADDR_MODE *)
}.

(** [str::to_lowercase] for ASCII; no other character has a lower case among the letters of "hostname". *)
Definition lower (c : ascii) : ascii :=
  let n := N_of_ascii c in if (65 <=? n)%N && (n <=? 90)%N then ascii_of_N (n + 32) else c.
Fixpoint lowercase (s : string) : string :=
  match s with EmptyString => EmptyString | String c s' => String (lower c) (lowercase s') end.

(** config.rs:19-40 *)
Definition default_config (e : env) : k8s_config :=
  K8sConfig (Some (default "app=coerce" (e_selector e)))
    (Some (default "coerce" (e_port_name e)))
    match e_addr_mode e with
    | Some s => if String.eqb (lowercase s) "hostname" then Hostname else PodIp
    | None => PodIp
    end.

(** ** Discovery *)

(** The result of code that may panic. *)
Inductive outcome (A : Type) := Value (a : A) | Panic.
Arguments Value {A}. Arguments Panic {A}.

Definition show_i32 (z : Z) : string := NilZero.string_of_int (Z.to_int z).

(** lib.rs:59-68 for one container: [ports.unwrap()], then the first port of the configured name. *)
Definition container_addr (cfg : k8s_config) (addr : string) (c : container) : outcome (list string) :=
  match c_ports c with
  | None => Panic
  | Some ports =>
      match List.find (fun p => bool_decide (cp_name p = kc_port_name cfg)) ports with
      | Some p => Value [addr ++ ":" ++ show_i32 (cp_port p)]
      | None => Value []
      end
  end.

Fixpoint containers_addrs (cfg : k8s_config) (addr : string) (cs : list container) : outcome (list string) :=
  match cs with
  | [] => Value []
  | c :: cs' =>
      match container_addr cfg addr c, containers_addrs cfg addr cs' with
      | Value a, Value b => Value (a ++ b)%list
      | _, _ => Panic
      end
  end.

(** lib.rs:35-69: one turn of the loop over the pods. *)
Definition pod_addrs (cfg : k8s_config) (p : pod) : outcome (list string) :=
  match pd_spec p, pd_status p with
  | Some spec, Some ip =>
      match kc_address cfg with
      | PodIp => match ip with None => Value [] | Some a => containers_addrs cfg a (ps_containers spec) end
      | Hostname =>
          match ps_hostname spec, ps_subdomain spec with
          | Some h, Some s => containers_addrs cfg (h ++ "." ++ s) (ps_containers spec)
          | _, _ => Panic
          end
      end
  | _, _ => Panic
  end.

Fixpoint pods_addrs (cfg : k8s_config) (l : list pod) : outcome (list string) :=
  match l with
  | [] => Value []
  | p :: l' =>
      match pod_addrs cfg p, pods_addrs cfg l' with
      | Value a, Value b => Value (a ++ b)%list
      | _, _ => Panic
      end
  end.

(** lib.rs:16-75: [pods] is what the API server answers to the selector of the configuration, [None] an error (which is
    not distinguished from an empty answer). That there is a client (lib.rs:17-19) is taken for granted. *)
Definition k8s_discover (cfg : k8s_config) (pods : option (list pod)) : outcome (option (list string)) :=
  match pods with
  | Some l => match pods_addrs cfg l with Value a => Value (Some a) | Panic => Panic end
  | None => Value (Some [])
  end.

(** ** The start of a node *)

(** [pod_name.split('-').last()]: what follows the last dash, or all of it. *)
Fixpoint has_dash (s : string) : bool :=
  match s with EmptyString => false | String c s' => Ascii.eqb c "-" || has_dash s' end.
Fixpoint last_part (s : string) : string :=
  match s with
  | EmptyString => EmptyString
  | String c s' => if has_dash s' then last_part s' else if Ascii.eqb c "-" then s' else s
  end.

(** [str::parse::<u64>]: digits, possibly behind a plus sign, of a number below 2^64. *)
Definition parse_u64 (s : string) : option N :=
  let digits := match s with String "+" s' => s' | _ => s end in
  match digits with
  | EmptyString => None
  | _ =>
      match NilEmpty.uint_of_string digits with
      | Some d => let n := N.of_uint d in if (n <? 18446744073709551616)%N then Some n else None
      | None => None
      end
  end.

(** app.rs (ShardedChatConfig), the fields that are used; [cf_port] is the port of [remote_listen_addr], [None] if that is
    not a socket address. *)
Record chat_config := ChatConfig { cf_node_id : N; cf_seed : option string; cf_port : option N }.

Record node_info := NodeInfo { ni_seed : option string; ni_id : N; ni_tag : string; ni_external : option string }.

Definition show_u (n : N) : string := NilZero.string_of_uint (N.to_uint n).

(** app.rs:186-231 *)
Definition get_node_info (e : env) (c : chat_config) (pods : option (list pod)) : outcome node_info :=
  let own := fun seed => NodeInfo seed (cf_node_id c) ("chat-server-" ++ show_u (cf_node_id c)) None in
  match e_k8s e with
  | None => Value (own (cf_seed c))
  | Some _ =>
      match e_pod_name e, e_cluster_ip e with
      | Some name, Some ip =>
          match k8s_discover (default_config e) pods with
          | Panic => Panic
          | Value targets =>
              let seed := match targets with Some (first :: _) => Some first | _ => cf_seed c end in
              match parse_u64 (last_part name) with
              | Some n =>
                  match cf_port c with
                  | Some port => Value (NodeInfo seed n name (Some (ip ++ ":" ++ show_u port)))
                  | None => Panic
                  end
              | None => Value (own seed)
              end
          end
      | _, _ => Panic
      end
  end.
