(** TPrint.v -- standard output of several threads. The calls of Threads.v with the
    [print!] and [println!] of Print.v: each of them writes its text at once, because
    it holds the lock of standard output, and threads interleave between them.

    The functions are those of Print.v, with the same text over [pact] instead of [W]
    (tools/tprint.py); C71_alone proves that run without interruption they are the
    same functions. *)

From Verif Require Import Base Bits Types Layout Heap Packet Text Build Utils Slow Fast Show Trait Ops Client Print Threads.
Open Scope N_scope.

Inductive pact (A : Type) : Type :=
| QDone (o : out A)
| QSay (s : string) (k : pact A)                (** [print!] or [println!] *)
| QAlloc (d : list N) (k : nat -> pact A)
| QRead (r i : nat) (k : N -> pact A)
| QWrite (r i : nat) (v : N) (k : pact A)
| QCopy (r : nat) (k : list N -> pact A)
| QRepl (x o : nat) (k : pact A).
Arguments QDone {A} o.
Arguments QSay {A} s k.
Arguments QAlloc {A} d k.
Arguments QRead {A} r i k.
Arguments QWrite {A} r i v k.
Arguments QCopy {A} r k.
Arguments QRepl {A} x o k.

Fixpoint qbind {A B} (p : pact A) (f : A -> pact B) : pact B :=
  match p with
  | QDone (Ret a) => f a
  | QDone (Panic e) => QDone (Panic e)
  | QDone UB => QDone UB
  | QDone Hang => QDone Hang
  | QDone Fuel => QDone Fuel
  | QSay s k => QSay s (qbind k f)
  | QAlloc d k => QAlloc d (fun r => qbind (k r) f)
  | QRead r i k => QRead r i (fun b => qbind (k b) f)
  | QWrite r i v k => QWrite r i v (qbind k f)
  | QCopy r k => QCopy r (fun d => qbind (k d) f)
  | QRepl x o k => QRepl x o (qbind k f)
  end.
Definition qsay (s : string) : pact unit := QSay s (QDone (Ret tt)).
(** Code that prints nothing. *)
Fixpoint qact {A} (p : act A) : pact A :=
  match p with
  | ADone o => QDone o
  | AAlloc d k => QAlloc d (fun r => qact (k r))
  | ARead r i k => QRead r i (fun b => qact (k b))
  | AWrite r i v k => QWrite r i v (qact k)
  | ACopy r k => QCopy r (fun d => qact (k d))
  | ARepl x o k => QRepl x o (qact k)
  end.
Notation "'qlet' x := e 'in' k" := (qbind e (fun x => k)) (at level 200, x name, right associativity).

(** packet.rs:22-31 and 37-46: the value (and its message) comes before the index. *)
Fixpoint q_fill (radix : N) (self : string) (parts : list string) (i : nat) (a : list N) : pact (list N) :=
  match parts with
  | [] => qact (aret a)
  | v :: t =>
      qlet x :=
        match parse_u8 radix v with
        | inl x => qact (aret x)
        | inr e =>
            qlet _ := qsay ("Error: " ++ int_error_text e ++ " - " ++ v ++ " in " ++ self ++ newline)%string in
            qact (aret 0)
        end in
      qlet _ := qact (alift (index a i)) in
      q_fill radix self t (S i) (upd a i x)
  end.
(** packet.rs:20-33. *)
Definition q_mac (s : string) : pact (list N) := q_fill 16 s (split ":"%char s) 0 (repeat 0 MAC_LEN).
(** packet.rs:35-48. *)
Definition q_ip4 (s : string) : pact (list N) := q_fill 10 s (split "."%char s) 0 (repeat 0 IPV4_LEN).
(** packet.rs:49-58. *)
Definition q_ip6 (ip6 : string -> option (list N)) (s : string) : pact (list N) :=
  match ip6 s with
  | Some o => qact (aret o)
  | None =>
      qlet _ := qsay ("Error: " ++ ipv6_error_text ++ " - " ++ s ++ newline)%string in
      qact (aret (repeat 0 IPV6_LEN))
  end.

(** ** Header constructors with addresses *)

(** packet.rs:406-412. *)
Definition q_ethernet (dst src : string) (etype : N) : pact hdr :=
  qlet d := q_mac dst in
  qlet s := q_mac src in
  qact (a_hfrom Ether (d ++ s ++ to_be 2 etype)).

(** packet.rs:414-420. *)
Definition q_dot3 (dst src : string) (len : N) : pact hdr :=
  qlet d := q_mac dst in
  qlet s := q_mac src in
  qact (a_hfrom Dot3 (d ++ s ++ to_be 2 len)).

(** packet.rs:426-446. *)
Definition q_arp (opcode : N) (sender_mac target_mac sender_ip target_ip : string) : pact hdr :=
  qlet smac := q_mac sender_mac in
  qlet sip := q_ip4 sender_ip in
  qlet tmac := q_mac target_mac in
  qlet tip := q_ip4 target_ip in
  qact (a_hfrom ARP (to_be 2 1 ++ to_be 2 (EtherType_code E_IPV4)
                  ++ [u8 (N.of_nat MAC_LEN)] ++ [u8 (N.of_nat IPV4_LEN)]
                  ++ to_be 2 opcode ++ smac ++ sip ++ tmac ++ tip)).

(** packet.rs:456-484. *)
Definition q_ipv4 (m : mode) (ihl tos id ttl frag proto : N) (src dst : string) (pktlen : N) : pact hdr :=
  let ver := N.lor 0x40 ihl in
  qlet s := q_ip4 src in
  qlet d := q_ip4 dst in
  let data := [ver] ++ [tos] ++ to_be 2 pktlen ++ to_be 2 id ++ to_be 2 frag
              ++ [ttl] ++ [proto] ++ to_be 2 0 ++ s ++ d in
  qlet ip_chksum := qact (alift (ipv4_checksum m data)) in
  qlet ip := qact (a_hfrom IPv4 data) in
  qlet _ := qact (a_hset ip IPv4_header_checksum ip_chksum) in
  qact (aret ip).

(** packet.rs:486-506. *)
Definition q_ipv6 (ip6 : string -> option (list N))
    (traffic_class flow_label next_hdr hop_limit : N) (src dst : string) (pktlen : N) : pact hdr :=
  let word := N.land (shl32 6 28) 0xF0000000 in
  let word := N.lor word (shl32 traffic_class 20) in
  let word := N.lor word flow_label in
  qlet s := q_ip6 ip6 src in
  qlet d := q_ip6 ip6 dst in
  qact (a_hfrom IPv6 (to_be 4 word ++ to_be 2 pktlen ++ [next_hdr] ++ [hop_limit] ++ s ++ d)).

(** Any header constructor. *)
Definition q_hmake (m : mode) (ip6 : string -> option (list N)) (b : hmake) : pact hdr :=
  match b with
  | H_ethernet d s e => q_ethernet d s e
  | H_dot3 d s l => q_dot3 d s l
  | H_arp o sm tm si ti => q_arp o sm tm si ti
  | H_ipv4 ihl tos id ttl frag proto src dst len => q_ipv4 m ihl tos id ttl frag proto src dst len
  | H_ipv6 tc fl nh hl src dst len => q_ipv6 ip6 tc fl nh hl src dst len
  | _ => qact (a_hmake_run m ip6 b)
  end.

(** ** Packet constructors (utils.rs) *)

(** utils.rs:7-25. *)
Definition q_create_eth_packet (e : eth_args) (etype : N) (pl : list N) : pact packet :=
  let pkt := pkt_new in
  qlet pkt :=
    (if vlan_enable e then
       qlet eth := q_ethernet (eth_dst e) (eth_src e) (EtherType_code E_DOT1Q) in
       qlet pkt := qact (a_push pkt eth) in
       qlet v := qact (a_vlan (vlan_pcp e) 0 (vlan_vid e) etype) in
       qact (a_push pkt v)
     else
       qlet eth := q_ethernet (eth_dst e) (eth_src e) etype in
       qact (a_push pkt eth)) in
  qact (aret (set_payload pkt pl)).

(** utils.rs:27-53. *)
Definition q_create_arp_packet (e : eth_args) (opcode : N)
    (sender_mac target_mac sender_ip target_ip : string) (pl : list N) : pact packet :=
  qlet pkt := q_create_eth_packet e (EtherType_code E_ARP) pl in
  qlet a := q_arp opcode sender_mac target_mac sender_ip target_ip in
  qact (a_push pkt a).

(** utils.rs:55-95. *)
Definition q_create_ipv4_packet (m : mode) (e : eth_args) (i : ip4_args) (ip_proto : N)
    (pl : list N) : pact packet :=
  qlet pkt := q_create_eth_packet e (EtherType_code E_IPV4) pl in
  let pktlen := (ht_size IPv4 + length pl)%nat in
  qlet ip := q_ipv4 m (ip_ihl i) (ip_tos i) (ip_id i) (ip_ttl i) (ip_frag i) ip_proto
                    (ip_src i) (ip_dst i) (usize_u16 pktlen) in
  qact (a_push pkt ip).

(** utils.rs:97-131. *)
Definition q_create_ipv6_packet (ip6 : string -> option (list N)) (e : eth_args) (i : ip6_args)
    (ip_next_hdr : N) (pl : list N) : pact packet :=
  qlet pkt := q_create_eth_packet e (EtherType_code E_IPV6) pl in
  qlet ip := q_ipv6 ip6 (ip6_traffic_class i) (ip6_flow_label i) ip_next_hdr (ip6_hop_limit i)
                    (ip6_src i) (ip6_dst i) (usize_u16 (length pl)) in
  qact (a_push pkt ip).

(** utils.rs:133-195. *)
Definition q_create_tcp_packet (m : mode) (e : eth_args) (i : ip4_args) (t : tcp_args)
    (pl : list N) : pact packet :=
  qlet pkt := q_create_ipv4_packet m e i (IpProtocol_code P_TCP) pl in
  qlet ip := qact (a_bump_total_len m pkt (ht_size TCP)) in
  qlet _ := qact (a_refresh_checksum m ip) in
  qlet x := qact (a_tcp (tcp_src t) (tcp_dst t) (tcp_seq_no t) (tcp_ack_no t) (tcp_data_offset t)
                     (tcp_res t) (tcp_flags t) (tcp_window t) 0 (tcp_urgent_ptr t)) in
  qact (a_push pkt x).

(** utils.rs:197-242. *)
Definition q_create_udp_packet (m : mode) (e : eth_args) (i : ip4_args) (udp_dst udp_src : N)
    (pl : list N) : pact packet :=
  qlet pkt := q_create_ipv4_packet m e i (IpProtocol_code P_UDP) pl in
  qlet ip := qact (a_bump_total_len m pkt (ht_size UDP)) in
  qlet _ := qact (a_refresh_checksum m ip) in
  let l4_len := (ht_size UDP + length pl)%nat in
  qlet u := qact (a_udp udp_src udp_dst (usize_u16 l4_len)) in
  qact (a_push pkt u).

(** utils.rs:244-289. *)
Definition q_create_icmp_packet (m : mode) (e : eth_args) (i : ip4_args) (icmp_type icmp_code : N)
    (pl : list N) : pact packet :=
  qlet pkt := q_create_ipv4_packet m e i (IpProtocol_code P_ICMP) pl in
  qlet ip := qact (a_bump_total_len m pkt (ht_size ICMP)) in
  qlet _ := qact (a_refresh_checksum m ip) in
  qlet x := qact (a_icmp icmp_type icmp_code) in
  qact (a_push pkt x).

(** utils.rs:291-332. *)
Definition q_create_ipv4ip_packet (m : mode) (e : eth_args) (i : ip4_args) (inner_pkt : packet) : pact packet :=
  qlet ipkt_vec := qact (a_to_vec inner_pkt) in
  qlet b0 := qact (alift (index ipkt_vec 0)) in
  let ip_proto := inner_proto b0 in
  q_create_ipv4_packet m e i (IpProtocol_code ip_proto) ipkt_vec.

(** utils.rs:334-369. *)
Definition q_create_ipv6ip_packet (ip6 : string -> option (list N)) (e : eth_args) (i : ip6_args)
    (inner_pkt : packet) : pact packet :=
  qlet ipkt_vec := qact (a_to_vec inner_pkt) in
  qlet b0 := qact (alift (index ipkt_vec 0)) in
  let ip_nxt_hdr := inner_proto b0 in
  q_create_ipv6_packet ip6 e i (IpProtocol_code ip_nxt_hdr) ipkt_vec.

(** utils.rs:371-424. *)
Definition q_create_tcpv6_packet (m : mode) (ip6 : string -> option (list N)) (e : eth_args)
    (i : ip6_args) (t : tcp_args) (pl : list N) : pact packet :=
  qlet pkt := q_create_ipv6_packet ip6 e i (IpProtocol_code P_TCP) pl in
  qlet _ := qact (a_bump_payload_len m pkt (ht_size TCP)) in
  qlet x := qact (a_tcp (tcp_src t) (tcp_dst t) (tcp_seq_no t) (tcp_ack_no t) (tcp_data_offset t)
                     (tcp_res t) (tcp_flags t) (tcp_window t) 0 (tcp_urgent_ptr t)) in
  qact (a_push pkt x).

(** utils.rs:426-464. *)
Definition q_create_udpv6_packet (m : mode) (ip6 : string -> option (list N)) (e : eth_args)
    (i : ip6_args) (udp_dst udp_src : N) (pl : list N) : pact packet :=
  qlet pkt := q_create_ipv6_packet ip6 e i (IpProtocol_code P_UDP) pl in
  qlet _ := qact (a_bump_payload_len m pkt (ht_size UDP)) in
  let l4_len := (ht_size UDP + length pl)%nat in
  qlet u := qact (a_udp udp_src udp_dst (usize_u16 l4_len)) in
  qlet _ := qact (a_hset u UDP_checksum 0xffff) in
  qact (a_push pkt u).

(** utils.rs:466-502. *)
Definition q_create_icmpv6_packet (m : mode) (ip6 : string -> option (list N)) (e : eth_args)
    (i : ip6_args) (icmp_type icmp_code : N) (pl : list N) : pact packet :=
  qlet pkt := q_create_ipv6_packet ip6 e i (IpProtocol_code P_ICMPV6) pl in
  qlet _ := qact (a_bump_payload_len m pkt (ht_size ICMP)) in
  qlet x := qact (a_icmp icmp_type icmp_code) in
  qact (a_push pkt x).

(** utils.rs:504-550. *)
Definition q_create_vxlan_packet (m : mode) (e : eth_args) (i : ip4_args) (udp_dst udp_src : N)
    (vxlan_vni : N) (inner_pkt : packet) : pact packet :=
  qlet ipkt_vec := qact (a_to_vec inner_pkt) in
  qlet pkt := q_create_ipv4_packet m e i (IpProtocol_code P_UDP) ipkt_vec in
  qlet _ := qact (a_bump_total_len m pkt (ht_size UDP + ht_size Vxlan)) in
  let l4_len := (ht_size UDP + ht_size Vxlan + length ipkt_vec)%nat in
  qlet u := qact (a_udp udp_src udp_dst (usize_u16 l4_len)) in
  qlet pkt := qact (a_push pkt u) in
  qlet v := qact (a_vxlan vxlan_vni) in
  qact (a_push pkt v).

(** utils.rs:552-596. *)
Definition q_create_vxlanv6_packet (m : mode) (ip6 : string -> option (list N)) (e : eth_args)
    (i : ip6_args) (udp_dst udp_src : N) (vxlan_vni : N) (inner_pkt : packet) : pact packet :=
  qlet ipkt_vec := qact (a_to_vec inner_pkt) in
  qlet pkt := q_create_ipv6_packet ip6 e i (IpProtocol_code P_UDP) ipkt_vec in
  qlet _ := qact (a_bump_payload_len m pkt (ht_size UDP + ht_size Vxlan)) in
  let l4_len := (ht_size UDP + ht_size Vxlan + length ipkt_vec)%nat in
  qlet u := qact (a_udp udp_src udp_dst (usize_u16 l4_len)) in
  qlet _ := qact (a_hset u UDP_checksum 0xffff) in
  qlet pkt := qact (a_push pkt u) in
  qlet v := qact (a_vxlan vxlan_vni) in
  qlet pkt := qact (a_push pkt v) in
  qact (a_pkt_add pkt inner_pkt).

(** utils.rs:598-695. *)
Definition q_create_gre_packet (m : mode) (e : eth_args) (i : ip4_args) (g : gre_args)
    (inner_pkt : option packet) : pact packet :=
  qlet inner :=
    match inner_pkt with
    | Some p =>
        qlet ipkt_vec := qact (a_to_vec p) in
        qlet b0 := qact (alift (index ipkt_vec 0)) in
        qact (aret (gre_inner_proto b0, ipkt_vec))
    | None => qact (aret (0, []))
    end in
  let '(proto, ipkt_vec) := inner in
  let pktlen := ht_size GRE in
  let pktlen := if gre_chksum_present g then (pktlen + ht_size GREChksumOffset)%nat else pktlen in
  let pktlen := if gre_key_present g then (pktlen + ht_size GREKey)%nat else pktlen in
  let pktlen := if gre_seqnum_present g then (pktlen + ht_size GRESequenceNum)%nat else pktlen in
  let pktlen := if gre_routing_present g then (pktlen + length (gre_routing g))%nat else pktlen in
  qlet pkt := q_create_ipv4_packet m e i (IpProtocol_code P_GRE) ipkt_vec in
  qlet ip := qact (a_bump_total_len m pkt pktlen) in
  qlet _ := qact (a_refresh_checksum m ip) in
  qlet x := qact (a_gre (gre_chksum_present g) (gre_routing_present g) (gre_key_present g)
                     (gre_seqnum_present g) (gre_strict_route_src g) (gre_flags g) (gre_version g) proto) in
  qlet pkt := qact (a_push pkt x) in
  qlet pkt := (if gre_chksum_present g then
                 qlet o := qact (a_gre_chksum_offset (gre_chksum g) (gre_offset g)) in qact (a_push pkt o)
               else qact (aret pkt)) in
  qlet pkt := (if gre_key_present g then
                 qlet o := qact (a_gre_key (gre_keyval g)) in qact (a_push pkt o)
               else qact (aret pkt)) in
  (if gre_seqnum_present g then
     qlet o := qact (a_gre_sequence_number (gre_seqnum g)) in qact (a_push pkt o)
   else qact (aret pkt)).

(** utils.rs:697-776. *)
Definition q_create_erspan_2_packet (m : mode) (e : eth_args) (i : ip4_args) (gre_seqnum : N)
    (a : erspan_args) (erspan_index : N) (inner_pkt : option packet) : pact packet :=
  qlet ipkt_vec := qact (a_opt_to_vec inner_pkt) in
  let pktlen := (ht_size GRE + ht_size ERSPAN2)%nat in
  let pktlen := if negb (gre_seqnum =? 0) then (pktlen + ht_size GRESequenceNum)%nat else pktlen in
  let pktlen := (pktlen + opt_len inner_pkt)%nat in
  qlet pkt := q_create_ipv4_packet m e i (IpProtocol_code P_GRE) ipkt_vec in
  qlet ip := qact (a_bump_total_len m pkt pktlen) in
  qlet _ := qact (a_refresh_checksum m ip) in
  qlet g := qact (a_hnew GRE) in
  qlet _ := qact (a_hset g GRE_proto (EtherType_code E_ERSPANII)) in
  qlet _ := qact (if negb (gre_seqnum =? 0) then a_hset g GRE_seqnum_present 1 else aret tt) in
  qlet pkt := qact (a_push pkt g) in
  qlet pkt := (if negb (gre_seqnum =? 0) then
                 qlet o := qact (a_gre_sequence_number gre_seqnum) in qact (a_push pkt o)
               else qact (aret pkt)) in
  qlet x := qact (a_erspan2 (er_vlan a) (er_cos a) (er_en a) (er_t a) (er_session_id a) erspan_index) in
  qact (a_push pkt x).

(** utils.rs:778-876. *)
Definition q_create_erspan_3_packet (m : mode) (e : eth_args) (i : ip4_args) (gre_seqnum : N)
    (a : erspan_args) (erspan_timestamp erspan_sgt erspan_ft_d_other : N)
    (erspan_pltfm_id erspan_pltfm_info : N) (inner_pkt : option packet) : pact packet :=
  qlet ipkt_vec := qact (a_opt_to_vec inner_pkt) in
  let pktlen := (ht_size GRE + ht_size ERSPAN3)%nat in
  let pktlen := if negb (gre_seqnum =? 0) then (pktlen + ht_size GRESequenceNum)%nat else pktlen in
  let pktlen := if N.land erspan_ft_d_other 1 =? 1 then (pktlen + ht_size ERSPANPLATFORM)%nat
                else pktlen in
  let pktlen := (pktlen + opt_len inner_pkt)%nat in
  qlet pkt := q_create_ipv4_packet m e i (IpProtocol_code P_GRE) ipkt_vec in
  qlet ip := qact (a_bump_total_len m pkt pktlen) in
  qlet _ := qact (a_refresh_checksum m ip) in
  qlet g := qact (a_hnew GRE) in
  qlet _ := qact (a_hset g GRE_proto (EtherType_code E_ERSPANIII)) in
  qlet _ := qact (a_hset g GRE_seqnum_present gre_seqnum) in
  qlet pkt := qact (a_push pkt g) in
  qlet pkt := (if negb (gre_seqnum =? 0) then
                 qlet o := qact (a_gre_sequence_number gre_seqnum) in qact (a_push pkt o)
               else qact (aret pkt)) in
  qlet x := qact (a_erspan3 (er_vlan a) (er_cos a) (er_en a) (er_t a) (er_session_id a)
                         erspan_timestamp erspan_sgt erspan_ft_d_other) in
  qlet pkt := qact (a_push pkt x) in
  qlet pkt := (if N.land erspan_ft_d_other 1 =? 1 then
                 let pltfm := N.lor (shl64 erspan_pltfm_id 58) erspan_pltfm_info in
                 qlet o := qact (a_hfrom ERSPANPLATFORM (to_be 8 pltfm)) in qact (a_push pkt o)
               else qact (aret pkt)) in
  match inner_pkt with
  | Some p => qact (a_pkt_add pkt p)
  | None => qact (aret pkt)
  end.

(** Any packet constructor. *)
Definition q_pmake (m : mode) (ip6 : string -> option (list N)) (b : pmake) : pact packet :=
  match b with
  | P_eth e t pl => q_create_eth_packet e t pl
  | P_arp e o sm tm si ti pl => q_create_arp_packet e o sm tm si ti pl
  | P_ipv4 e i p pl => q_create_ipv4_packet m e i p pl
  | P_ipv6 e i p pl => q_create_ipv6_packet ip6 e i p pl
  | P_tcp4 e i t pl => q_create_tcp_packet m e i t pl
  | P_udp4 e i d s pl => q_create_udp_packet m e i d s pl
  | P_icmp4 e i t c pl => q_create_icmp_packet m e i t c pl
  | P_ipv4ip e i p => q_create_ipv4ip_packet m e i p
  | P_ipv6ip e i p => q_create_ipv6ip_packet ip6 e i p
  | P_tcp6 e i t pl => q_create_tcpv6_packet m ip6 e i t pl
  | P_udp6 e i d s pl => q_create_udpv6_packet m ip6 e i d s pl
  | P_icmp6 e i t c pl => q_create_icmpv6_packet m ip6 e i t c pl
  | P_vxlan e i d s v p => q_create_vxlan_packet m e i d s v p
  | P_vxlan6 e i d s v p => q_create_vxlanv6_packet m ip6 e i d s v p
  | P_gre_pkt e i g p => q_create_gre_packet m e i g p
  | P_erspan2 e i q a x p => q_create_erspan_2_packet m e i q a x p
  | P_erspan3 e i q a ts sg f id info p => q_create_erspan_3_packet m e i q a ts sg f id info p
  end.

(** ** [show] *)

(** headers.rs:407-410 (234-237) with the [bit_range] of either kind of header. *)
Section Show.
Variable bit_range : nat -> nat -> act N.

Fixpoint q_show_octets (i n : nat) : pact unit :=
  match n with
  | O => qact (aret tt)
  | S n' =>
      qlet v := qact (bit_range (i + 7) i) in
      qlet _ := qsay (fmt_02x (u8 v) ++ " ")%string in
      q_show_octets (i + 8) n'
  end.
(** headers.rs:401-421 (228-248). *)
Definition q_show_field (f : field) : pact unit :=
  let w := f_width f in
  qlet _ := qsay (show_label f) in
  qlet _ :=
    (if (w <=? 8)%nat then
       qlet v := qact (bit_range (f_end f) (f_start f)) in qsay (fmt_02x (u8 v))
     else if (w mod 8 =? 0)%nat then q_show_octets (f_start f) (w / 8)
     else
       qlet _ := q_show_octets (f_start f) (w / 8) in
       qlet v := qact (bit_range (f_end f) (f_end f - w mod 8)) in
       qsay (fmt_02x (u8 v))) in
  qsay newline.
Fixpoint q_show_fields (l : list field) : pact unit :=
  match l with
  | [] => qact (aret tt)
  | f :: t => qlet _ := q_show_field f in q_show_fields t
  end.
(** headers.rs:397-423 (224-250). *)
Definition q_show_header (T : htype) : pact unit :=
  qlet _ := qsay (show_heading T) in
  qlet _ := qsay show_rule in
  q_show_fields (ht_fields T).
End Show.

(** headers.rs:397-423 [X::show]. *)
Definition q_hshow (m : mode) (x : hdr) : pact unit := q_show_header (a_hbit_range m x) (h_ty x).
(** headers.rs:224-250 [XSlice::show]. *)
Definition q_sshow (m : mode) (x : shdr) : pact unit :=
  q_show_header (fun msb lsb => alift (get_bits m (v_bytes (s_view x)) msb lsb)) (s_ty x).

(** packet.rs:366-374 (750-758). *)
Fixpoint q_dump (v : list N) (x : nat) : pact unit :=
  match v with
  | [] => qact (aret tt)
  | i :: t =>
      qlet _ := qsay (fmt_02x i ++ " ")%string in
      let x := S x in
      if (x mod 16 =? 0)%nat then qlet _ := qsay newline in q_dump t 0 else q_dump t x
  end.
(** packet.rs:365-375 (749-759). *)
Definition q_show_raw (v : list N) : pact unit :=
  qlet _ := qsay (newline ++ "#### raw " ++ fmt_num 10 (N.of_nat (length v)) ++ " bytes ####" ++ newline)%string in
  qlet _ := q_dump v 0 in
  qsay newline.

Fixpoint q_show_hdrs (m : mode) (l : list hdr) : pact unit :=
  match l with
  | [] => qact (aret tt)
  | x :: t => qlet _ := q_hshow m x in q_show_hdrs m t
  end.
(** packet.rs:360-376 [Packet::show]. *)
Definition q_pkt_show (m : mode) (p : packet) : pact unit :=
  qlet _ := q_show_hdrs m (p_hdrs p) in
  qlet v := qact (a_to_vec p) in
  q_show_raw v.

Fixpoint q_show_shdrs (m : mode) (l : list shdr) : pact unit :=
  match l with
  | [] => qact (aret tt)
  | x :: t => qlet _ := q_sshow m x in q_show_shdrs m t
  end.
(** packet.rs:744-760 [PacketSlice::show]. *)
Definition q_ps_show (m : mode) (q : packet_slice) : pact unit :=
  qlet _ := q_show_shdrs m (ps_hdrs q) in
  q_show_raw (ps_to_vec q).

(** packet.rs:340-358 [compare_with_slice]. *)
Definition q_compare_with_slice (p : packet) (b : list N) : pact bool :=
  let pktlen := pkt_len p in
  if negb (pktlen =? length b)%nat then
    qlet _ := qsay ("this " ++ fmt_usize pktlen ++ " other " ++ fmt_usize (length b) ++ newline)%string in
    qact (aret false)
  else
    qlet a := qact (a_to_vec p) in
    let mt := matching a b in
    if negb (pktlen =? mt)%nat || negb (length b =? mt)%nat then
      qlet _ := qsay ("this " ++ fmt_usize pktlen ++ " other " ++ fmt_usize (length b) ++
                     ", matching upto " ++ fmt_usize mt ++ " bytes" ++ newline)%string in
      qact (aret false)
    else qact (aret true).
(** packet.rs:326-329 [compare]. *)
Definition q_compare (p q : packet) : pact bool :=
  qlet b := qact (a_to_vec q) in q_compare_with_slice p b.

(** ** Any public call *)

Definition q_call (m : mode) (ip6 : string -> option (list N)) (k : call) : pact kres :=
  match k with
  | K_hshow x => qlet _ := q_hshow m x in qact (aret (KVal VUnit))
  | K_make b => qlet x := q_hmake m ip6 b in qact (aret (KHdr x))
  | K_compare p q => qlet b := q_compare p q in qact (aret (KBool b))
  | K_compare_slice p d => qlet b := q_compare_with_slice p d in qact (aret (KBool b))
  | K_pshow p => qlet _ := q_pkt_show m p in qact (aret (KVal VUnit))
  | K_mac s => qlet d := q_mac s in qact (aret (KVal (VBytes d)))
  | K_ip4 s => qlet d := q_ip4 s in qact (aret (KVal (VBytes d)))
  | K_create b => qlet p := q_pmake m ip6 b in qact (aret (KPkt p))
  | K_sshow x => qlet _ := q_sshow m x in qact (aret (KVal VUnit))
  | K_ps_show q => qlet _ := q_ps_show m q in qact (aret (KVal VUnit))
  | K_ip6 s => qlet d := q_ip6 ip6 s in qact (aret (KVal (VBytes d)))
  | _ => qact (a_kexec m ip6 k)
  end.

(** ** Without interruption *)

Fixpoint qsolo {A} (p : pact A) : W A :=
  match p with
  | QDone o => run (lift o)
  | QSay s k => wbind (say s) (fun _ => qsolo k)
  | QAlloc d k => wbind (run (alloc d)) (fun r => qsolo (k r))
  | QRead r i k => wbind (run (with_lock r (fun d => (index d i, d)))) (fun b => qsolo (k b))
  | QWrite r i v k => wbind (run (with_lock r (fun d => set_bit_step d i v))) (fun _ => qsolo k)
  | QCopy r k => wbind (run (with_lock r (fun d => (Ret d, d)))) (fun d => qsolo (k d))
  | QRepl x o k => wbind (run (hreplace (Hdr Tester x) (Hdr Tester o))) (fun _ => qsolo k)
  end.

(** ** Threads *)

Inductive qstate :=
| QRun (p : pact kres)
| QWait (x o : nat) (p : pact kres).
(** As in Threads.v; [said] is what the call has printed so far, a record like [own]. *)
Inductive pthread :=
| PIdle
| PBusy (k : call) (own : list nat) (said : string) (t : qstate).

Definition pholds (r : nat) (t : pthread) : bool :=
  match t with PBusy _ _ _ (QWait x _ _) => (x =? r)%nat | _ => false end.
Definition pheld (ts : list pthread) (r : nat) : bool := existsb (pholds r) ts.

Definition pafter {B} (o : out B * heap) (k : B -> qstate) : heap * list nat * string * qstate :=
  match o with
  | (Ret b, h) => (h, [], EmptyString, k b)
  | (Panic e, h) => (h, [], EmptyString, QRun (QDone (Panic e)))
  | (UB, h) => (h, [], EmptyString, QRun (QDone UB))
  | (Hang, h) => (h, [], EmptyString, QRun (QDone Hang))
  | (Fuel, h) => (h, [], EmptyString, QRun (QDone Fuel))
  end.

(** One step, as in Threads.v, with what it prints. *)
Definition qstep (ts : list pthread) (h : heap) (t : qstate) : option (heap * list nat * string * qstate) :=
  match t with
  | QRun (QDone _) => None
  | QRun (QSay s k) => Some (h, [], s, QRun k)
  | QRun (QAlloc d k) => Some (h ++ [Cell d false], [length h], EmptyString, QRun (k (length h)))
  | QRun (QRead r i k) =>
      if pheld ts r then None
      else Some (pafter (with_lock r (fun d => (index d i, d)) h) (fun b => QRun (k b)))
  | QRun (QWrite r i v k) =>
      if pheld ts r then None
      else Some (pafter (with_lock r (fun d => set_bit_step d i v) h) (fun _ => QRun k))
  | QRun (QCopy r k) =>
      if pheld ts r then None
      else Some (pafter (with_lock r (fun d => (Ret d, d)) h) (fun d => QRun (k d)))
  | QRun (QRepl x o k) =>
      if pheld ts x then None
      else Some (pafter (with_lock x (fun _ => (Ret tt, [])) h) (fun _ => QWait x o k))
  | QWait x o k =>
      if pheld ts o then None
      else
        match nth_error h x, nth_error h o with
        | Some cx, Some co =>
            if c_poisoned co
            then Some (upd h x (Cell (c_data cx) true), [], EmptyString, QRun (QDone (Panic PPoison)))
            else Some (upd h x (Cell (c_data cx ++ c_data co) false), [], EmptyString, QRun k)
        | _, _ => Some (h, [], EmptyString, QRun (QDone UB))
        end
  end.

(** What the program has obtained, the threads, and what has been written to standard
    output, piece by piece, with the thread that wrote it. *)
Record pworld := PW { pw_client : client; pw_threads : list pthread; pw_out : list (nat * string) }.
Definition pw_start : pworld := PW k_start [] [].
(** The contents of standard output. *)
Definition stdout (w : pworld) : string := String.concat "" (map snd (pw_out w)).

Definition emit (i : nat) (s : string) : list (nat * string) := match s with EmptyString => [] | _ => [(i, s)] end.

(** Thread [i] executes one step of its call. *)
Definition pdo (w : pworld) (i : nat) : option pworld :=
  match nth_error (pw_threads w) i with
  | Some (PBusy k own said t) =>
      match qstep (pw_threads w) (k_heap (pw_client w)) t with
      | Some (h, new, s, t') =>
          Some (PW (set_heap (pw_client w) h) (upd (pw_threads w) i (PBusy k (own ++ new) (said ++ s) t'))
                   (pw_out w ++ emit i s))
      | None => None
      end
  | _ => None
  end.
(** Thread [i] begins call [k]. *)
Definition pcall (m : mode) (ip6 : string -> option (list N)) (w : pworld) (i : nat) (k : call) : option pworld :=
  match nth_error (pw_threads w) i with
  | Some PIdle =>
      Some (PW (pw_client w) (upd (pw_threads w) i (PBusy k [] EmptyString (QRun (q_call m ip6 k)))) (pw_out w))
  | _ => None
  end.
(** The call of thread [i] has returned or panicked. *)
Definition pback (w : pworld) (i : nat) : option pworld :=
  match nth_error (pw_threads w) i with
  | Some (PBusy k own said (QRun (QDone (Ret v)))) =>
      Some (PW (learn (pw_client w) (Ret v) (k_heap (pw_client w))) (upd (pw_threads w) i PIdle) (pw_out w))
  | Some (PBusy k own said (QRun (QDone (Panic e)))) =>
      Some (PW (pw_client w) (upd (pw_threads w) i PIdle) (pw_out w))
  | _ => None
  end.
(** A new thread. *)
Definition pspawn (w : pworld) : pworld := PW (pw_client w) (pw_threads w ++ [PIdle]) (pw_out w).
