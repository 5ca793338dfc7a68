(** L4Spec.v -- checksums of TCP (RFC 793), UDP (RFC 768), ICMP (RFC 792, 4443) (C69). *)

From Verif Require Import Base Layout Spec.
Open Scope N_scope.

(** The pseudo headers of RFC 768/793 and of RFC 8200 section 8.1. *)
Definition pseudo4 (src dst : list N) (proto : N) (len : nat) : list N :=
  src ++ dst ++ [0; proto; N.of_nat len / 256; N.of_nat len mod 256].
Definition pseudo6 (src dst : list N) (next : N) (len : nat) : list N :=
  let n := N.of_nat len in
  src ++ dst ++ [n / 2 ^ 24; n / 2 ^ 16 mod 256; n / 256 mod 256; n mod 256; 0; 0; 0; next].

(** Received with pseudo header [ph], the message [msg] is accepted: the one's complement sum over
    both is all ones ([words] pads an odd byte with zero). *)
Definition accepted (ph msg : list N) : Prop := checksum_ok (ph ++ msg).
(** UDP over IPv4: a zero checksum means that there is none. *)
Definition udp4_accepted (ph msg : list N) : Prop := field_val msg UDP_checksum = 0 \/ accepted ph msg.

(** The bytes at [k], [k+1] replaced. *)
Definition with_word (k : nat) (v : N) (d : list N) : list N :=
  firstn k d ++ [v / 256; v mod 256] ++ skipn (k + 2) d.
(** What a sender puts there: the complement of the sum with the checksum taken as zero. *)
Definition sender_value (ph : list N) (k : nat) (msg : list N) : N :=
  65535 - oc_sum (words (ph ++ with_word k 0 msg)).

(** The 16-bit words of a payload, added up. *)
Definition total (pl : list N) : N := plain_sum (words pl).
