(** ShapeSpec.v -- what C76 says: which sequences of headers a parser can report. *)

From Verif Require Import Base Layout Slow Grammar.
Open Scope N_scope.

(** What may come after the header of an entry point and its options ... *)
Definition follows (f : pfun) : list pfun :=
  match f with
  | F_parse => [F_dot3; F_ethernet]
  | F_dot3 => [F_llc]
  | F_llc => [F_snap; F_accept]
  | F_snap | F_arp | F_icmp | F_tcp => [F_accept]
  | F_ethernet | F_vlan => [F_vlan; F_arp; F_ipv4; F_ipv6; F_mpls; F_accept]
  | F_mpls => [F_mpls; F_mpls_bos]
  | F_mpls_bos => [F_ipv4; F_ipv6; F_ethernet]
  | F_ipv4 | F_ipv6 => [F_icmp; F_ipv4; F_tcp; F_udp; F_ipv6; F_gre; F_accept]
  | F_gre => [F_ipv4; F_ipv6; F_erspan2; F_erspan3; F_accept]
  | F_erspan2 | F_erspan3 | F_vxlan => [F_ethernet]
  | F_udp => [F_vxlan; F_accept]
  | F_accept => []
  end.
(** ... and which options, in the order in which they are reported. *)
Definition option_sets (f : pfun) : list (list htype) :=
  match f with
  | F_gre => [[]; [GREChksumOffset]; [GREKey]; [GREKey; GREChksumOffset]; [GRESequenceNum]; [GRESequenceNum; GREChksumOffset];
              [GRESequenceNum; GREKey]; [GRESequenceNum; GREKey; GREChksumOffset]]
  | F_erspan3 => [[]; [ERSPANPLATFORM]]
  | _ => [[]]
  end.

(** [shape f l]: the types [l] are a way through this graph, from [f] to the payload. *)
Inductive shape : pfun -> list htype -> Prop :=
| S_end : shape F_accept []
| S_parse g l : In g (follows F_parse) -> shape g l -> shape F_parse l
| S_header f T os g l : header_of f = Some T -> In os (option_sets f) -> In g (follows f) -> shape g l -> shape f (T :: os ++ l).

(** Which header may stand right behind which. *)
Definition all_pairs (l : list (list htype * list htype)) : list (htype * htype) :=
  concat (map (fun e => concat (map (fun A => map (pair A) (snd e)) (fst e))) l).
Definition neighbours : list (htype * htype) :=
  all_pairs
    [([Dot3], [LLC]); ([LLC], [SNAP]);
     ([Ether; Vlan], [Vlan; ARP; IPv4; IPv6; MPLS]);
     ([MPLS], [MPLS; IPv4; IPv6; Ether]);
     ([IPv4; IPv6], [ICMP; IPv4; TCP; UDP; IPv6; GRE]);
     ([GRE; GRESequenceNum; GREKey; GREChksumOffset], [IPv4; IPv6; ERSPAN2; ERSPAN3]);
     ([GRE], [GRESequenceNum; GREKey; GREChksumOffset]); ([GRESequenceNum], [GREKey; GREChksumOffset]); ([GREKey], [GREChksumOffset]);
     ([ERSPAN3], [ERSPANPLATFORM]);
     ([ERSPAN2; ERSPAN3; ERSPANPLATFORM; Vxlan], [Ether]);
     ([UDP], [Vxlan])].
