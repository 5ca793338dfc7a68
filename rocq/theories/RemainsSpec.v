(** RemainsSpec.v -- what C88 says of the buffers after a call that panicked. *)

From Verif Require Import Base Bits Layout Heap Ops Client Spec.
Open Scope N_scope.

(** The bytes of buffer [r], poisoned or not. *)
Definition bytes_at (h : heap) (r : nat) (d : list N) : Prop := exists p, nth_error h r = Some (Cell d p).
(** The two calls that can panic halfway. *)
Definition halfway (k : call) (r : nat) : Prop :=
  match k with K_hdr (OSetBytes x _ _ _) | K_hdr (OReplace x _) => r = h_ref x | _ => False end.
(** The first [n] bytes of [v] have been written at bit [i] of [d], and nothing else. *)
Definition written (n : nat) (v : list N) (i : nat) (d d' : list N) : Prop :=
  length d' = length d /\
  (forall j, (j < n)%nat -> bits_val d' (i + 8 * j) (i + 8 * j + 7) = nth j v 0) /\
  (forall j, ~ (i <= j < i + 8 * n)%nat -> bit d' j = bit d j).
(** The number of whole bytes from bit [i] to the end of [d]. *)
Definition whole_bytes (d : list N) (i : nat) : nat := (8 * length d - i) / 8.
