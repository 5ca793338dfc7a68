(** DetectSpec.v -- what C87 says of the errors that the IPv4 checksum detects. *)

From Verif Require Import Base Bits Layout Packet Spec.
Open Scope N_scope.

(** Word [k] of a header, 16 bits in network order. *)
Definition word (v : list N) (k : nat) : N := bits_val v (16 * k) (16 * k + 15).
(** The header passes the check that a receiver makes with [Packet::ipv4_checksum]: the
    result is what stands in the checksum field, word 5. *)
Definition verifies (m : mode) (v : list N) : Prop := ipv4_checksum m v = Ret (word v 5).
(** [v'] is [v] but for some of the [n] bits from [i] on. *)
Definition garbled (i n : nat) (v v' : list N) : Prop :=
  length v' = length v /\ forall j, (j < 8 * length v)%nat -> ~ (i <= j < i + n)%nat -> bit v' j = bit v j.
(** A header, with or without options: an even number of bytes. *)
Definition header_bytes (v : list N) : Prop :=
  bytes_ok v /\ Nat.even (length v) = true /\ (12 <= length v)%nat /\ N.of_nat (length v) <= 65535.
