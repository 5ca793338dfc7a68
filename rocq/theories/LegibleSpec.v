(** LegibleSpec.v -- vocabulary for C80. *)

From Verif Require Import Base Layout Spec.

(** A predefined header with the bytes its type declares. *)
Definition sized (s : htype * list N) : Prop :=
  In (fst s) predefined /\ bytes_ok (snd s) /\ length (snd s) = ht_size (fst s).
