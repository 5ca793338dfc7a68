(** EncapSpec.v -- headers in front of a packet, for C103. *)

From Verif Require Import Base Layout Slow.
Open Scope N_scope.

(** Header types, sizes, the offset and the value of the bytes that say what follows (RFC 791, 894, 1700, 2784, 2890,
    3032, 7348, 8200, IEEE 802.1Q), and the functions that parse the header and what follows. *)
Record carrier := Carrier { c_by : pfun; c_type : htype; c_size : nat; c_at : nat; c_value : list N; c_next : pfun }.
Definition carriers : list carrier :=
  [ Carrier F_ethernet Ether 14 12 [0x81; 0x00] F_vlan; Carrier F_ethernet Ether 14 12 [0x08; 0x06] F_arp;
    Carrier F_ethernet Ether 14 12 [0x08; 0x00] F_ipv4; Carrier F_ethernet Ether 14 12 [0x86; 0xDD] F_ipv6;
    Carrier F_ethernet Ether 14 12 [0x88; 0x47] F_mpls;
    Carrier F_vlan Vlan 4 2 [0x81; 0x00] F_vlan; Carrier F_vlan Vlan 4 2 [0x08; 0x06] F_arp;
    Carrier F_vlan Vlan 4 2 [0x08; 0x00] F_ipv4; Carrier F_vlan Vlan 4 2 [0x86; 0xDD] F_ipv6;
    Carrier F_vlan Vlan 4 2 [0x88; 0x47] F_mpls;
    Carrier F_ipv4 IPv4 20 9 [1] F_icmp; Carrier F_ipv4 IPv4 20 9 [4] F_ipv4; Carrier F_ipv4 IPv4 20 9 [6] F_tcp;
    Carrier F_ipv4 IPv4 20 9 [17] F_udp; Carrier F_ipv4 IPv4 20 9 [41] F_ipv6; Carrier F_ipv4 IPv4 20 9 [47] F_gre;
    Carrier F_ipv6 IPv6 40 6 [58] F_icmp; Carrier F_ipv6 IPv6 40 6 [4] F_ipv4; Carrier F_ipv6 IPv6 40 6 [6] F_tcp;
    Carrier F_ipv6 IPv6 40 6 [17] F_udp; Carrier F_ipv6 IPv6 40 6 [41] F_ipv6; Carrier F_ipv6 IPv6 40 6 [47] F_gre;
    Carrier F_udp UDP 8 2 [0x12; 0xB5] F_vxlan; Carrier F_vxlan Vxlan 8 0 [] F_ethernet;
    Carrier F_erspan2 ERSPAN2 8 0 [] F_ethernet;
    Carrier F_snap SNAP 5 0 [] F_accept; Carrier F_arp ARP 28 0 [] F_accept; Carrier F_icmp ICMP 4 0 [] F_accept;
    Carrier F_tcp TCP 20 0 [] F_accept ].
(** Protocol types of GRE. *)
Definition gre_types : list (list N * pfun) :=
  [([0x08; 0x00], F_ipv4); ([0x86; 0xDD], F_ipv6); ([0x88; 0xBE], F_erspan2); ([0x22; 0xEB], F_erspan3)].
(** An optional word, present when its flag is set. *)
Definition word (flag : bool) (T : htype) (o : list N) : list (htype * list N) := if flag then [(T, o)] else [].
Definition word_bytes (flag : bool) (o : list N) : list N := if flag then o else [].
(** The bit [k] of the byte [i]; 7 is the most significant. *)
Definition flag (x : list N) (i : nat) (k : N) : bool := N.testbit (nth i x 0) k.

(** [carries f x l g]: [x] is what [f] takes for the headers [l] and leaves the bytes behind it to [g]. *)
Inductive carries : pfun -> list N -> list (htype * list N) -> pfun -> Prop :=
| Carries_table c x : In c carriers -> length x = c_size c -> firstn (length (c_value c)) (skipn (c_at c) x) = c_value c ->
    carries (c_by c) x [(c_type c, x)] (c_next c)
| Carries_label x : length x = 4%nat -> flag x 2 0 = false -> carries F_mpls x [(MPLS, x)] F_mpls
| Carries_gre x v g c k s : length x = 4%nat -> In (v, g) gre_types -> skipn 2 x = v ->
    length c = 4%nat -> length k = 4%nat -> length s = 4%nat ->
    carries F_gre (x ++ word_bytes (flag x 0 7) c ++ word_bytes (flag x 0 5) k ++ word_bytes (flag x 0 4) s)
      ((GRE, x) :: word (flag x 0 4) GRESequenceNum s ++ word (flag x 0 5) GREKey k ++ word (flag x 0 7) GREChksumOffset c) g
| Carries_erspan3 x p : length x = 12%nat -> length p = 8%nat ->
    carries F_erspan3 (x ++ word_bytes (flag x 11 0) p) ((ERSPAN3, x) :: word (flag x 11 0) ERSPANPLATFORM p) F_ethernet.
(** One after the other. *)
Inductive encap : pfun -> list N -> list (htype * list N) -> pfun -> Prop :=
| Encap_none f : encap f [] [] f
| Encap_more f x l g y l' k : carries f x l g -> encap g y l' k -> encap f (x ++ y) (l ++ l') k.
