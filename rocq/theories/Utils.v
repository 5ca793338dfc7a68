(** Utils.v -- model of src/utils.rs, function by function.

    Simplification: the Rust functions take up to 26 positional arguments; the
    ones common to all are grouped in three records, in the order of the Rust
    signatures. Arguments that the Rust code never reads ([_ip_options],
    [_tcp_checksum], [_udp_checksum], [_icmp_data]) are left out. *)

From Verif Require Import Base Bits Types Layout Heap Packet Text Build.
Open Scope N_scope.

(** utils.rs:8-12 and every other signature. *)
Record eth_args := EthA {
  eth_dst : string; eth_src : string;
  vlan_enable : bool; vlan_vid : N (* u16 *); vlan_pcp : N (* u8 *)
}.
(** utils.rs:61-68, without [ip_proto]. *)
Record ip4_args := Ip4A {
  ip_ihl : N (* u8 *); ip_src : string; ip_dst : string;
  ip_tos : N (* u8 *); ip_ttl : N (* u8 *); ip_id : N (* u16 *); ip_frag : N (* u16 *)
}.
(** utils.rs:103-108, without [ip_next_hdr]. *)
Record ip6_args := Ip6A {
  ip6_traffic_class : N (* u8 *); ip6_flow_label : N (* u32 *); ip6_hop_limit : N (* u8 *);
  ip6_src : string; ip6_dst : string
}.
(** utils.rs:147-155. *)
Record tcp_args := TcpA {
  tcp_dst : N; tcp_src : N (* u16 *); tcp_seq_no : N; tcp_ack_no : N (* u32 *);
  tcp_data_offset : N; tcp_res : N; tcp_flags : N (* u8 *);
  tcp_window : N; tcp_urgent_ptr : N (* u16 *)
}.

(** [payload.len() as u16] and the like. *)
Definition usize_u16 (n : nat) : N := u16 (N.of_nat n).

(** utils.rs:7-25. *)
Definition create_eth_packet (e : eth_args) (etype : N) (pl : list N) : M packet :=
  let pkt := pkt_new in
  mlet pkt :=
    (if vlan_enable e then
       mlet eth := ethernet (eth_dst e) (eth_src e) (EtherType_code E_DOT1Q) in
       mlet pkt := push pkt eth in
       mlet v := vlan (vlan_pcp e) 0 (vlan_vid e) etype in
       push pkt v
     else
       mlet eth := ethernet (eth_dst e) (eth_src e) etype in
       push pkt eth) in
  ret (set_payload pkt pl).

(** utils.rs:27-53. *)
Definition create_arp_packet (e : eth_args) (opcode : N)
    (sender_mac target_mac sender_ip target_ip : string) (pl : list N) : M packet :=
  mlet pkt := create_eth_packet e (EtherType_code E_ARP) pl in
  mlet a := arp opcode sender_mac target_mac sender_ip target_ip in
  push pkt a.

(** utils.rs:55-95. *)
Definition create_ipv4_packet (m : mode) (e : eth_args) (i : ip4_args) (ip_proto : N)
    (pl : list N) : M packet :=
  mlet pkt := create_eth_packet e (EtherType_code E_IPV4) pl in
  let pktlen := (ht_size IPv4 + length pl)%nat in
  mlet ip := ipv4 m (ip_ihl i) (ip_tos i) (ip_id i) (ip_ttl i) (ip_frag i) ip_proto
                  (ip_src i) (ip_dst i) (usize_u16 pktlen) in
  push pkt ip.

(** utils.rs:97-131. *)
Definition create_ipv6_packet (ip6 : string -> option (list N)) (e : eth_args) (i : ip6_args)
    (ip_next_hdr : N) (pl : list N) : M packet :=
  mlet pkt := create_eth_packet e (EtherType_code E_IPV6) pl in
  mlet ip := ipv6 ip6 (ip6_traffic_class i) (ip6_flow_label i) ip_next_hdr (ip6_hop_limit i)
                  (ip6_src i) (ip6_dst i) (usize_u16 (length pl)) in
  push pkt ip.

(** [let ipv4: &mut IPv4 = (&mut pkt["IPv4"]).into();
    ipv4.set_total_len(ipv4.total_len() + extra);] as in utils.rs:176-177, 233-234,
    281-282, 542-543, 668-669, 751-752, 839-840. Returns the reference [ipv4].
    The u64 sum of a 16-bit field and a length is made without wrapping here; it leaves
    64 bits only for declared sizes that add up to almost 2^64 (UsizeUtils, C94). *)
Definition bump_total_len (m : mode) (pkt : packet) (extra : nat) : M hdr :=
  mlet x := index_name pkt "IPv4" in
  mlet ip := hdowncast IPv4 x in
  mlet t := hget m ip IPv4_total_len in
  mlet _ := hset ip IPv4_total_len (t + N.of_nat extra) in
  ret ip.

(** [let chksum = Packet::ipv4_checksum(ipv4.to_vec()); ipv4.set_header_checksum(chksum)]
    as in utils.rs:178-179, 235-236, 283-284, 670-671, 753-754, 841-842. *)
Definition refresh_checksum (m : mode) (ip : hdr) : M unit :=
  mlet v := hto_vec ip in
  mlet c := lift (ipv4_checksum m v) in
  hset ip IPv4_header_checksum c.

(** [let ipv6: &mut IPv6 = (&mut pkt["IPv6"]).into();
    ipv6.set_payload_len(ipv6.payload_len() + extra);] as in utils.rs:407-408,
    456-457, 497-498, 584-585. *)
Definition bump_payload_len (m : mode) (pkt : packet) (extra : nat) : M unit :=
  mlet x := index_name pkt "IPv6" in
  mlet ip := hdowncast IPv6 x in
  mlet t := hget m ip IPv6_payload_len in
  hset ip IPv6_payload_len (t + N.of_nat extra).

(** utils.rs:133-195. *)
Definition create_tcp_packet (m : mode) (e : eth_args) (i : ip4_args) (t : tcp_args)
    (pl : list N) : M packet :=
  mlet pkt := create_ipv4_packet m e i (IpProtocol_code P_TCP) pl in
  mlet ip := bump_total_len m pkt (ht_size TCP) in
  mlet _ := refresh_checksum m ip in
  mlet x := tcp (tcp_src t) (tcp_dst t) (tcp_seq_no t) (tcp_ack_no t) (tcp_data_offset t)
                (tcp_res t) (tcp_flags t) (tcp_window t) 0 (tcp_urgent_ptr t) in
  push pkt x.

(** utils.rs:197-242. *)
Definition create_udp_packet (m : mode) (e : eth_args) (i : ip4_args) (udp_dst udp_src : N)
    (pl : list N) : M packet :=
  mlet pkt := create_ipv4_packet m e i (IpProtocol_code P_UDP) pl in
  mlet ip := bump_total_len m pkt (ht_size UDP) in
  mlet _ := refresh_checksum m ip in
  let l4_len := (ht_size UDP + length pl)%nat in
  mlet u := udp udp_src udp_dst (usize_u16 l4_len) in
  push pkt u.

(** utils.rs:244-289. *)
Definition create_icmp_packet (m : mode) (e : eth_args) (i : ip4_args) (icmp_type icmp_code : N)
    (pl : list N) : M packet :=
  mlet pkt := create_ipv4_packet m e i (IpProtocol_code P_ICMP) pl in
  mlet ip := bump_total_len m pkt (ht_size ICMP) in
  mlet _ := refresh_checksum m ip in
  mlet x := icmp icmp_type icmp_code in
  push pkt x.

(** utils.rs:309-313 and 349-353: [match IpType::try_from(v[0] >> 4 & 0xf)]. *)
Definition inner_proto (b0 : N) : IpProtocol :=
  match IpType_try_from (N.land (N.shiftr b0 4) 0xf) with
  | Some V4 => P_IPIP
  | Some V6 => P_IPV6
  | None => P_IPIP
  end.

(** utils.rs:291-332. *)
Definition create_ipv4ip_packet (m : mode) (e : eth_args) (i : ip4_args) (inner_pkt : packet) : M packet :=
  mlet ipkt_vec := to_vec inner_pkt in
  mlet b0 := lift (index ipkt_vec 0) in
  let ip_proto := inner_proto b0 in
  create_ipv4_packet m e i (IpProtocol_code ip_proto) ipkt_vec.

(** utils.rs:334-369. *)
Definition create_ipv6ip_packet (ip6 : string -> option (list N)) (e : eth_args) (i : ip6_args)
    (inner_pkt : packet) : M packet :=
  mlet ipkt_vec := to_vec inner_pkt in
  mlet b0 := lift (index ipkt_vec 0) in
  let ip_nxt_hdr := inner_proto b0 in
  create_ipv6_packet ip6 e i (IpProtocol_code ip_nxt_hdr) ipkt_vec.

(** utils.rs:371-424. *)
Definition create_tcpv6_packet (m : mode) (ip6 : string -> option (list N)) (e : eth_args)
    (i : ip6_args) (t : tcp_args) (pl : list N) : M packet :=
  mlet pkt := create_ipv6_packet ip6 e i (IpProtocol_code P_TCP) pl in
  mlet _ := bump_payload_len m pkt (ht_size TCP) in
  mlet x := tcp (tcp_src t) (tcp_dst t) (tcp_seq_no t) (tcp_ack_no t) (tcp_data_offset t)
                (tcp_res t) (tcp_flags t) (tcp_window t) 0 (tcp_urgent_ptr t) in
  push pkt x.

(** utils.rs:426-464. *)
Definition create_udpv6_packet (m : mode) (ip6 : string -> option (list N)) (e : eth_args)
    (i : ip6_args) (udp_dst udp_src : N) (pl : list N) : M packet :=
  mlet pkt := create_ipv6_packet ip6 e i (IpProtocol_code P_UDP) pl in
  mlet _ := bump_payload_len m pkt (ht_size UDP) in
  let l4_len := (ht_size UDP + length pl)%nat in
  mlet u := udp udp_src udp_dst (usize_u16 l4_len) in
  mlet _ := hset u UDP_checksum 0xffff in
  push pkt u.

(** utils.rs:466-502. *)
Definition create_icmpv6_packet (m : mode) (ip6 : string -> option (list N)) (e : eth_args)
    (i : ip6_args) (icmp_type icmp_code : N) (pl : list N) : M packet :=
  mlet pkt := create_ipv6_packet ip6 e i (IpProtocol_code P_ICMPV6) pl in
  mlet _ := bump_payload_len m pkt (ht_size ICMP) in
  mlet x := icmp icmp_type icmp_code in
  push pkt x.

(** utils.rs:504-550. *)
Definition create_vxlan_packet (m : mode) (e : eth_args) (i : ip4_args) (udp_dst udp_src : N)
    (vxlan_vni : N) (inner_pkt : packet) : M packet :=
  mlet ipkt_vec := to_vec inner_pkt in
  mlet pkt := create_ipv4_packet m e i (IpProtocol_code P_UDP) ipkt_vec in
  mlet _ := bump_total_len m pkt (ht_size UDP + ht_size Vxlan) in
  let l4_len := (ht_size UDP + ht_size Vxlan + length ipkt_vec)%nat in
  mlet u := udp udp_src udp_dst (usize_u16 l4_len) in
  mlet pkt := push pkt u in
  mlet v := vxlan vxlan_vni in
  push pkt v.

(** utils.rs:552-596. *)
Definition create_vxlanv6_packet (m : mode) (ip6 : string -> option (list N)) (e : eth_args)
    (i : ip6_args) (udp_dst udp_src : N) (vxlan_vni : N) (inner_pkt : packet) : M packet :=
  mlet ipkt_vec := to_vec inner_pkt in
  mlet pkt := create_ipv6_packet ip6 e i (IpProtocol_code P_UDP) ipkt_vec in
  mlet _ := bump_payload_len m pkt (ht_size UDP + ht_size Vxlan) in
  let l4_len := (ht_size UDP + ht_size Vxlan + length ipkt_vec)%nat in
  mlet u := udp udp_src udp_dst (usize_u16 l4_len) in
  mlet _ := hset u UDP_checksum 0xffff in
  mlet pkt := push pkt u in
  mlet v := vxlan vxlan_vni in
  mlet pkt := push pkt v in
  pkt_add pkt inner_pkt.

(** utils.rs:612-623, the GRE arguments of [create_gre_packet]. *)
Record gre_args := GreA {
  gre_chksum_present : bool; gre_routing_present : bool; gre_key_present : bool;
  gre_seqnum_present : bool; gre_strict_route_src : bool;
  gre_flags : N; gre_version : N (* u8 *);
  gre_chksum : N; gre_offset : N (* u16 *); gre_keyval : N; gre_seqnum : N (* u32 *);
  gre_routing : list N
}.

(** utils.rs:629-633: [match ipkt_vec[0] >> 4 & 0xf]. *)
Definition gre_inner_proto (b0 : N) : N :=
  let v := N.land (N.shiftr b0 4) 0xf in
  if v =? 4 then EtherType_code E_IPV4
  else if v =? 6 then EtherType_code E_IPV6
  else 0.

(** utils.rs:598-695. *)
Definition create_gre_packet (m : mode) (e : eth_args) (i : ip4_args) (g : gre_args)
    (inner_pkt : option packet) : M packet :=
  mlet (proto, ipkt_vec) :=
    match inner_pkt with
    | Some p =>
        mlet ipkt_vec := to_vec p in
        mlet b0 := lift (index ipkt_vec 0) in
        ret (gre_inner_proto b0, ipkt_vec)
    | None => ret (0, [])
    end in
  let pktlen := ht_size GRE in
  let pktlen := if gre_chksum_present g then (pktlen + ht_size GREChksumOffset)%nat else pktlen in
  let pktlen := if gre_key_present g then (pktlen + ht_size GREKey)%nat else pktlen in
  let pktlen := if gre_seqnum_present g then (pktlen + ht_size GRESequenceNum)%nat else pktlen in
  let pktlen := if gre_routing_present g then (pktlen + length (gre_routing g))%nat else pktlen in
  mlet pkt := create_ipv4_packet m e i (IpProtocol_code P_GRE) ipkt_vec in
  mlet ip := bump_total_len m pkt pktlen in
  mlet _ := refresh_checksum m ip in
  mlet x := gre (gre_chksum_present g) (gre_routing_present g) (gre_key_present g)
                (gre_seqnum_present g) (gre_strict_route_src g) (gre_flags g) (gre_version g) proto in
  mlet pkt := push pkt x in
  mlet pkt := (if gre_chksum_present g then
                 mlet o := gre_chksum_offset (gre_chksum g) (gre_offset g) in push pkt o
               else ret pkt) in
  mlet pkt := (if gre_key_present g then
                 mlet o := gre_key (gre_keyval g) in push pkt o
               else ret pkt) in
  (if gre_seqnum_present g then
     mlet o := gre_sequence_number (gre_seqnum g) in push pkt o
   else ret pkt).

(** utils.rs:712-717 and 793-802, the ERSPAN arguments. *)
Record erspan_args := ErA {
  er_vlan : N (* u16 *); er_cos : N; er_en : N; er_t : N (* u8 *); er_session_id : N (* u16 *)
}.

(** [match inner_pkt { Some(ref p) => p.to_vec(), None => Vec::new() }], utils.rs:720-723, 805-808. *)
Definition opt_to_vec (o : option packet) : M (list N) :=
  match o with Some p => to_vec p | None => ret [] end.
(** [match inner_pkt { Some(ref p) => p.len(), None => 0 }], utils.rs:729-732, 817-820. *)
Definition opt_len (o : option packet) : nat :=
  match o with Some p => pkt_len p | None => 0 end.

(** utils.rs:697-776. *)
Definition create_erspan_2_packet (m : mode) (e : eth_args) (i : ip4_args) (gre_seqnum : N)
    (a : erspan_args) (erspan_index : N) (inner_pkt : option packet) : M packet :=
  mlet ipkt_vec := opt_to_vec inner_pkt in
  let pktlen := (ht_size GRE + ht_size ERSPAN2)%nat in
  let pktlen := if negb (gre_seqnum =? 0) then (pktlen + ht_size GRESequenceNum)%nat else pktlen in
  let pktlen := (pktlen + opt_len inner_pkt)%nat in
  mlet pkt := create_ipv4_packet m e i (IpProtocol_code P_GRE) ipkt_vec in
  mlet ip := bump_total_len m pkt pktlen in
  mlet _ := refresh_checksum m ip in
  mlet g := hnew GRE in
  mlet _ := hset g GRE_proto (EtherType_code E_ERSPANII) in
  mlet _ := (if negb (gre_seqnum =? 0) then hset g GRE_seqnum_present 1 else ret tt) in
  mlet pkt := push pkt g in
  mlet pkt := (if negb (gre_seqnum =? 0) then
                 mlet o := gre_sequence_number gre_seqnum in push pkt o
               else ret pkt) in
  mlet x := erspan2 (er_vlan a) (er_cos a) (er_en a) (er_t a) (er_session_id a) erspan_index in
  push pkt x.

(** utils.rs:778-876. [erspan_pltfm_id: u8], [erspan_pltfm_info: u64]. *)
Definition create_erspan_3_packet (m : mode) (e : eth_args) (i : ip4_args) (gre_seqnum : N)
    (a : erspan_args) (erspan_timestamp erspan_sgt erspan_ft_d_other : N)
    (erspan_pltfm_id erspan_pltfm_info : N) (inner_pkt : option packet) : M packet :=
  mlet ipkt_vec := opt_to_vec inner_pkt in
  let pktlen := (ht_size GRE + ht_size ERSPAN3)%nat in
  let pktlen := if negb (gre_seqnum =? 0) then (pktlen + ht_size GRESequenceNum)%nat else pktlen in
  let pktlen := if N.land erspan_ft_d_other 1 =? 1 then (pktlen + ht_size ERSPANPLATFORM)%nat
                else pktlen in
  let pktlen := (pktlen + opt_len inner_pkt)%nat in
  mlet pkt := create_ipv4_packet m e i (IpProtocol_code P_GRE) ipkt_vec in
  mlet ip := bump_total_len m pkt pktlen in
  mlet _ := refresh_checksum m ip in
  mlet g := hnew GRE in
  mlet _ := hset g GRE_proto (EtherType_code E_ERSPANIII) in
  mlet _ := hset g GRE_seqnum_present gre_seqnum in
  mlet pkt := push pkt g in
  mlet pkt := (if negb (gre_seqnum =? 0) then
                 mlet o := gre_sequence_number gre_seqnum in push pkt o
               else ret pkt) in
  mlet x := erspan3 (er_vlan a) (er_cos a) (er_en a) (er_t a) (er_session_id a)
                    erspan_timestamp erspan_sgt erspan_ft_d_other in
  mlet pkt := push pkt x in
  mlet pkt := (if N.land erspan_ft_d_other 1 =? 1 then
                 let pltfm := N.lor (shl64 erspan_pltfm_id 58) erspan_pltfm_info in
                 mlet o := hfrom ERSPANPLATFORM (to_be 8 pltfm) in push pkt o
               else ret pkt) in
  match inner_pkt with
  | Some p => pkt_add pkt p
  | None => ret pkt
  end.
