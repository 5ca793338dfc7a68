(** FieldsSpec.v -- programs for C86. *)

From Verif Require Import Base Bits Layout Heap Spec.
Open Scope N_scope.

(** [x.set_f(v)] for each (f, v), in this order. *)
Fixpoint set_all (x : hdr) (l : list (field * N)) : M unit :=
  match l with
  | [] => ret tt
  | (f, v) :: t => mlet _ := hset x f v in set_all x t
  end.
(** [y.set_f(x.f())] for each f, in this order. *)
Fixpoint copy_fields (m : mode) (x y : hdr) (l : list field) : M unit :=
  match l with
  | [] => ret tt
  | f :: t => mlet v := hget m x f in mlet _ := hset y f v in copy_fields m x y t
  end.
(** Bytes that fill a header of type [T]. *)
Definition full (T : htype) (d : list N) : Prop := bytes_ok d /\ length d = ht_size T.
(** A value that the field has room for. *)
Definition room (f : field) (v : N) : Prop := v < 2 ^ N.of_nat (f_width f).
