(** What is expected of nodes that find each other through Kubernetes. *)
From Verif Require Import K8s_Model.
From Verif Require Export Mesh_Model Mesh_Spec.
Local Open Scope string_scope.

(** ** The addresses of a pod *)

(** The host part: the IP of the pod, or its name in the subdomain. *)
Definition host_of (cfg : k8s_config) (p : pod) (host : string) : Prop :=
  exists spec ip, pd_spec p = Some spec /\ pd_status p = Some ip /\
  match kc_address cfg with
  | PodIp => ip = Some host
  | Hostname => exists h s, ps_hostname spec = Some h /\ ps_subdomain spec = Some s /\ host = h ++ "." ++ s
  end.

(** The first port of the container with the configured name. *)
Definition port_of (cfg : k8s_config) (c : container) (z : Z) : Prop :=
  exists l1 p l2, c_ports c = Some (l1 ++ p :: l2)%list /\ cp_name p = kc_port_name cfg /\ cp_port p = z /\
  Forall (fun q => cp_name q <> kc_port_name cfg) l1.

Definition address_of (cfg : k8s_config) (p : pod) (a : string) : Prop :=
  exists host spec c z, host_of cfg p host /\ pd_spec p = Some spec /\ c ∈ ps_containers spec /\ port_of cfg c z /\
  a = host ++ ":" ++ show_i32 z.

(** The pod has all that is read. *)
Definition complete (cfg : k8s_config) (p : pod) : Prop :=
  exists spec ip, pd_spec p = Some spec /\ pd_status p = Some ip /\
  (kc_address cfg = Hostname -> ps_hostname spec <> None /\ ps_subdomain spec <> None) /\
  Forall (fun c => c_ports c <> None) (ps_containers spec).

(** The first of the listed pods that has an address, and it has one. *)
Definition first_address (cfg : k8s_config) (l : list pod) (a : string) : Prop :=
  exists l1 p l2, l = (l1 ++ p :: l2)%list /\ address_of cfg p a /\ (forall b, address_of cfg p b -> b = a) /\
  forall q b, q ∈ l1 -> ~ address_of cfg q b.

(** ** Nodes and clusters *)

(** The nodes are numbered; the number stands for an incarnation: a pod that is started again is another node. [info x]
    is what node [x] found when it started, [addr x] where it is reached. It starts only when this did not panic, and it
    asks its seed and no other node. *)
Definition follows (info : N -> outcome node_info) (addr : N -> string) (ops : list mop) : Prop :=
  forall x, started ops x -> exists i, info x = Value i /\
    (forall s, seeded ops x s -> ni_seed i = Some (addr s)) /\
    (forall a, ni_seed i = Some a -> exists s, seeded ops x s /\ addr s = a).

(** The nodes that a seed names are nodes it knows, or that these know, and so on (discovery/mod.rs:60-110). *)
Fixpoint honest (h : mesh) (ops : list mop) : Prop :=
  match ops with
  | [] => True
  | o :: ops' =>
      match o with MSeed x s l => forall n, n ∈ l -> rtc (knows h) s n | _ => True end /\
      forall h', mstep h o = Some h' -> honest h' ops'
  end.
