(** What is expected of a connection. *)
From Verif Require Import Frame_Model.
Local Open Scope N_scope.

(** The events that the connection accepts: they have an encoding of at most 8 MiB. *)
Definition accepted {E} (write : E -> option bytes) (e : E) : Prop :=
  exists b, write e = Some b /\ N.of_nat (length b) <= 8388608.

(** [got] is what must be handled of [es] when the bytes [bs] arrived: the longest beginning
    of [es] whose bytes are all there. *)
Definition arrived {E} (write : E -> option bytes) (es : list E) (bs : bytes) (got : list E) : Prop :=
  exists rest, es = got ++ rest /\ wire write got `prefix_of` bs /\
    forall e more, rest = e :: more -> ~ wire write (got ++ [e]) `prefix_of` bs.
