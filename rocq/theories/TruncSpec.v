(** TruncSpec.v -- where a packet is cut, for C79. A specification: nothing here is
    taken from the model but the names of the header types and their sizes. *)

From Verif Require Import Base Layout.

(** The bytes that headers of these types take. *)
Definition extent (ts : list htype) : nat := list_sum (map ht_size ts).

(** [n] bytes end right behind an MPLS entry that is not followed by another one. *)
Definition behind_labels (ts : list htype) (n : nat) : Prop :=
  exists t1 T t2, ts = t1 ++ MPLS :: T :: t2 /\ T <> MPLS /\ n = extent (t1 ++ [MPLS]).
