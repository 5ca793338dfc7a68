(** Ipv6Spec.v -- the text forms of IPv6 addresses (RFC 4291, section 2.2), for C65. *)

From Verif Require Import Base Layout Heap Spec ShowSpec.
Open Scope N_scope.

(** One to four hexadecimal digits. *)
Definition hextet (s : string) (v : N) : Prop :=
  numeral 16 s v /\ (1 <= String.length s <= 4)%nat.
(** A decimal number up to 255, without leading zeros. *)
Definition dec_octet (s : string) (v : N) : Prop := decimal s v /\ v < 256.
(** [d.d.d.d], as two 16-bit groups. *)
Definition quad (s : string) (g1 g2 : N) : Prop :=
  exists a b c d va vb vc vd, dec_octet a va /\ dec_octet b vb /\ dec_octet c vc /\ dec_octet d vd /\
    s = (a ++ "." ++ b ++ "." ++ c ++ "." ++ d)%string /\ g1 = 256 * va + vb /\ g2 = 256 * vc + vd.

(** [segs q s gs]: groups separated by colons; with [q] the last two may be a [quad]. *)
Inductive segs (q : bool) : string -> list N -> Prop :=
| S_one s v : hextet s v -> segs q s [v]
| S_quad s g1 g2 : q = true -> quad s g1 g2 -> segs q s [g1; g2]
| S_cons s v t gs : hextet s v -> segs q t gs -> segs q (s ++ ":" ++ t) (v :: gs).
(** Possibly empty. *)
Definition part6 (q : bool) (s : string) (gs : list N) : Prop :=
  (s = EmptyString /\ gs = []) \/ segs q s gs.

(** Eight groups, or fewer with one [::] that stands for at least one group of zeros. *)
Definition ip6_text (s : string) (gs : list N) : Prop :=
  (segs true s gs /\ length gs = 8%nat) \/
  (exists a ga b gb, part6 false a ga /\ part6 true b gb /\ (length ga + length gb <= 7)%nat /\
     s = (a ++ "::" ++ b)%string /\ gs = ga ++ repeat 0 (8 - length ga - length gb) ++ gb).

(** Groups as octets, most significant first. *)
Definition group_octets (gs : list N) : list N := flat_map (fun g => to_be 2 g) gs.
