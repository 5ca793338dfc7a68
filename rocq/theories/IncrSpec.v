(** IncrSpec.v -- vocabulary for C99: updating an Internet checksum without
    looking at the whole header. *)

From Verif Require Import Base Bits Types Layout Spec DetectSpec.
Open Scope N_scope.

(** RFC 1624, equation 3: HC' = ~(~HC + ~m + m'), where a word m became m'. *)
Definition rfc1624 (hc m m' : N) : N := 65535 - oc_add (oc_add (65535 - hc) (65535 - m)) m'.
(** For all words [ks] one after the other. *)
Definition rfc1624_all (v v' : list N) (ks : list nat) (hc : N) : N :=
  fold_left (fun c k => rfc1624 c (word v k) (word v' k)) ks hc.
(** RFC 1141, page 2: when the TTL is decremented, 256 is added. *)
Definition rfc1141 (hc : N) : N := oc_add hc 256.

(** [v'] is [v] but for the words [ks] and the checksum; some word other than
    the checksum is not zero. *)
Definition reworded (ks : list nat) (v v' : list N) : Prop :=
  bytes_ok v' /\ length v' = length v /\ NoDup ks /\ (forall k, In k ks -> k <> 5 /\ 2 * k < length v)%nat /\
  forall j, (2 * j < length v)%nat -> j <> 5%nat -> ~ In j ks -> word v' j = word v j.
Definition nonzero (v : list N) : Prop := exists j, (2 * j < length v)%nat /\ j <> 5%nat /\ word v j <> 0.

(** The words in which a field has bits. *)
Definition touched (f : field) : list nat := seq (f_start f / 16) (f_end f / 16 - f_start f / 16 + 1).
