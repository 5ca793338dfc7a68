(** Layout.v -- the header types, i.e. the [make_header!] invocations of
    src/headers.rs:529-854 (macro signature: headers.rs:166-171).

    A header type is what the macro receives: its Rust type identity ([ht_id],
    what [Any::downcast_ref] compares), its name ([stringify!($name)]), its size
    in bytes, its fields with start and end bit, and its default contents
    ([$x], headers.rs:170 and 330). User programs call the macro too, with
    any arguments, so theorems about headers quantify over [htype]. *)

From Verif Require Import Base.
Open Scope N_scope.

Record field := Fld { f_name : string; f_start : nat; f_end : nat }.

(** [$field _size] (headers.rs:378-380). *)
Definition f_width (f : field) : nat := (f_end f - f_start f + 1)%nat.

Record htype := HT {
  ht_id : nat;               (* Rust type identity *)
  ht_name : string;          (* stringify!($name), headers.rs:372-374 *)
  ht_size : nat;             (* $size, headers.rs:366-371 *)
  ht_fields : list field;    (* $field: $start-$end *)
  ht_default : list N        (* $x *)
}.

(** The macro arm without a default (headers.rs:513-526): [vec![0; $size]]. *)
Definition ht_zero (id : nat) (name : string) (size : nat) (fs : list field) : htype :=
  HT id name size fs (repeat 0 size).

(** headers.rs:530-540 *)
Definition Ether_dst : field := Fld "dst" 0 47.
Definition Ether_src : field := Fld "src" 48 95.
Definition Ether_etype : field := Fld "etype" 96 111.
Definition Ether : htype := HT 0 "Ether" 14
  [Ether_dst; Ether_src; Ether_etype]
  [0x0; 0x1; 0x2; 0x3; 0x4; 0x5; 0x6; 0x7; 0x8; 0x9; 0xa; 0xb; 0x08; 0x00].

(** headers.rs:543-552 *)
Definition Vlan_pcp : field := Fld "pcp" 0 2.
Definition Vlan_cfi : field := Fld "cfi" 3 3.
Definition Vlan_vid : field := Fld "vid" 4 15.
Definition Vlan_etype : field := Fld "etype" 16 31.
Definition Vlan : htype := HT 1 "Vlan" 4
  [Vlan_pcp; Vlan_cfi; Vlan_vid; Vlan_etype]
  [0x0; 0xa; 0x08; 0x00].

(** headers.rs:555-574 *)
Definition IPv4_version : field := Fld "version" 0 3.
Definition IPv4_ihl : field := Fld "ihl" 4 7.
Definition IPv4_diffserv : field := Fld "diffserv" 8 15.
Definition IPv4_total_len : field := Fld "total_len" 16 31.
Definition IPv4_identification : field := Fld "identification" 32 47.
Definition IPv4_flags : field := Fld "flags" 48 50.
Definition IPv4_frag_startset : field := Fld "frag_startset" 51 63.
Definition IPv4_ttl : field := Fld "ttl" 64 71.
Definition IPv4_protocol : field := Fld "protocol" 72 79.
Definition IPv4_header_checksum : field := Fld "header_checksum" 80 95.
Definition IPv4_src : field := Fld "src" 96 127.
Definition IPv4_dst : field := Fld "dst" 128 159.
Definition IPv4 : htype := HT 2 "IPv4" 20
  [IPv4_version; IPv4_ihl; IPv4_diffserv; IPv4_total_len; IPv4_identification; IPv4_flags; IPv4_frag_startset; IPv4_ttl; IPv4_protocol; IPv4_header_checksum; IPv4_src; IPv4_dst]
  [0x45; 0x00; 0x00; 0x14; 0x00; 0x33; 0x40; 0xdd; 0x40; 0x06; 0xfa; 0xec; 0xc0; 0xa8; 0x0; 0x1; 0xc0; 0xa8; 0x0; 0x2].

(** headers.rs:577-592 *)
Definition IPv6_version : field := Fld "version" 0 3.
Definition IPv6_traffic_class : field := Fld "traffic_class" 4 11.
Definition IPv6_flow_label : field := Fld "flow_label" 12 31.
Definition IPv6_payload_len : field := Fld "payload_len" 32 47.
Definition IPv6_next_hdr : field := Fld "next_hdr" 48 55.
Definition IPv6_hop_limit : field := Fld "hop_limit" 56 63.
Definition IPv6_src : field := Fld "src" 64 191.
Definition IPv6_dst : field := Fld "dst" 192 319.
Definition IPv6 : htype := HT 3 "IPv6" 40
  [IPv6_version; IPv6_traffic_class; IPv6_flow_label; IPv6_payload_len; IPv6_next_hdr; IPv6_hop_limit; IPv6_src; IPv6_dst]
  [0x60; 0x00; 0x00; 0x00; 0x00; 0x2e; 0x06; 0x40; 0x20; 0x01; 0x0d; 0xb8; 0x85; 0xa3; 0x00; 0x00; 0x00; 0x00; 0x8a; 0x2e; 0x03; 0x70; 0x73; 0x34; 0x20; 0x01; 0x0d; 0xb8; 0x85; 0xa3; 0x00; 0x00; 0x00; 0x00; 0x8a; 0x2e; 0x03; 0x70; 0x73; 0x35].

(** headers.rs:595-603 *)
Definition ICMP_icmp_type : field := Fld "icmp_type" 0 7.
Definition ICMP_icmp_code : field := Fld "icmp_code" 8 15.
Definition ICMP_chksum : field := Fld "chksum" 16 31.
Definition ICMP : htype := HT 4 "ICMP" 4
  [ICMP_icmp_type; ICMP_icmp_code; ICMP_chksum]
  [0x8; 0x0; 0x0; 0x0; 0x0; 0x0].

(** headers.rs:606-622 *)
Definition TCP_src : field := Fld "src" 0 15.
Definition TCP_dst : field := Fld "dst" 16 31.
Definition TCP_seq_no : field := Fld "seq_no" 32 63.
Definition TCP_ack_no : field := Fld "ack_no" 64 95.
Definition TCP_data_startset : field := Fld "data_startset" 96 99.
Definition TCP_res : field := Fld "res" 100 103.
Definition TCP_flags : field := Fld "flags" 104 111.
Definition TCP_window : field := Fld "window" 112 127.
Definition TCP_checksum : field := Fld "checksum" 128 143.
Definition TCP_urgent_ptr : field := Fld "urgent_ptr" 144 159.
Definition TCP : htype := HT 5 "TCP" 20
  [TCP_src; TCP_dst; TCP_seq_no; TCP_ack_no; TCP_data_startset; TCP_res; TCP_flags; TCP_window; TCP_checksum; TCP_urgent_ptr]
  [0x04; 0xd2; 0x00; 0x50; 0x0; 0x0; 0x0; 0x0; 0x0; 0x0; 0x0; 0x0; 0x50; 0x02; 0x20; 0x00; 0x0d; 0x2c; 0x0; 0x0].

(** headers.rs:625-634 *)
Definition UDP_src : field := Fld "src" 0 15.
Definition UDP_dst : field := Fld "dst" 16 31.
Definition UDP_length : field := Fld "length" 32 47.
Definition UDP_checksum : field := Fld "checksum" 48 63.
Definition UDP : htype := HT 6 "UDP" 8
  [UDP_src; UDP_dst; UDP_length; UDP_checksum]
  [0x04; 0xd2; 0x00; 0x50; 0x0; 0x0; 0x0; 0x0].

(** headers.rs:637-653 *)
Definition ARP_hwtype : field := Fld "hwtype" 0 15.
Definition ARP_proto_type : field := Fld "proto_type" 16 31.
Definition ARP_hwlen : field := Fld "hwlen" 32 39.
Definition ARP_proto_len : field := Fld "proto_len" 40 47.
Definition ARP_opcode : field := Fld "opcode" 48 63.
Definition ARP_sender_hw_addr : field := Fld "sender_hw_addr" 64 111.
Definition ARP_sender_proto_addr : field := Fld "sender_proto_addr" 112 143.
Definition ARP_target_hw_addr : field := Fld "target_hw_addr" 144 191.
Definition ARP_target_proto_addr : field := Fld "target_proto_addr" 192 223.
Definition ARP : htype := HT 7 "ARP" 28
  [ARP_hwtype; ARP_proto_type; ARP_hwlen; ARP_proto_len; ARP_opcode; ARP_sender_hw_addr; ARP_sender_proto_addr; ARP_target_hw_addr; ARP_target_proto_addr]
  [0x0; 0x1; 0x8; 0x0; 0x6; 0x4; 0x0; 0x1; 0x00; 0x01; 0x02; 0x03; 0x04; 0x05; 0xa; 0x0; 0x0; 0x1; 0x00; 0x00; 0x00; 0x00; 0x00; 0x00; 0x0; 0x0; 0x0; 0x0].

(** headers.rs:656-665 *)
Definition Vxlan_flags : field := Fld "flags" 0 7.
Definition Vxlan_reserved : field := Fld "reserved" 8 31.
Definition Vxlan_vni : field := Fld "vni" 32 55.
Definition Vxlan_reserved2 : field := Fld "reserved2" 56 63.
Definition Vxlan : htype := HT 8 "Vxlan" 8
  [Vxlan_flags; Vxlan_reserved; Vxlan_vni; Vxlan_reserved2]
  [0x8; 0x0; 0x0; 0x0; 0x0; 0x07; 0xd0; 0x0].

(** headers.rs:668-678 *)
Definition Dot3_dst : field := Fld "dst" 0 47.
Definition Dot3_src : field := Fld "src" 48 95.
Definition Dot3_length : field := Fld "length" 96 111.
Definition Dot3 : htype := HT 9 "Dot3" 14
  [Dot3_dst; Dot3_src; Dot3_length]
  [0x0; 0x1; 0x2; 0x3; 0x4; 0x5; 0x6; 0x7; 0x8; 0x9; 0xa; 0xb; 0x00; 0x00].

(** headers.rs:681-689 *)
Definition LLC_dsap : field := Fld "dsap" 0 7.
Definition LLC_ssap : field := Fld "ssap" 8 15.
Definition LLC_ctrl : field := Fld "ctrl" 16 23.
Definition LLC : htype := HT 10 "LLC" 3
  [LLC_dsap; LLC_ssap; LLC_ctrl]
  [0x0; 0x0; 0x0].

(** headers.rs:692-699 *)
Definition SNAP_oui : field := Fld "oui" 0 23.
Definition SNAP_code : field := Fld "code" 24 39.
Definition SNAP : htype := HT 11 "SNAP" 5
  [SNAP_oui; SNAP_code]
  [0x0; 0x0; 0x0; 0x0; 0x0].

(** headers.rs:702-716 *)
Definition GRE_chksum_present : field := Fld "chksum_present" 0 0.
Definition GRE_routing_present : field := Fld "routing_present" 1 1.
Definition GRE_key_present : field := Fld "key_present" 2 2.
Definition GRE_seqnum_present : field := Fld "seqnum_present" 3 3.
Definition GRE_strict_route_src : field := Fld "strict_route_src" 4 4.
Definition GRE_recurse : field := Fld "recurse" 5 7.
Definition GRE_flags : field := Fld "flags" 8 12.
Definition GRE_version : field := Fld "version" 13 15.
Definition GRE_proto : field := Fld "proto" 16 31.
Definition GRE : htype := HT 12 "GRE" 4
  [GRE_chksum_present; GRE_routing_present; GRE_key_present; GRE_seqnum_present; GRE_strict_route_src; GRE_recurse; GRE_flags; GRE_version; GRE_proto]
  [0x0; 0x0; 0x0; 0x0].

(** headers.rs:719-726 *)
Definition GREChksumOffset_chksum : field := Fld "chksum" 0 15.
Definition GREChksumOffset_offset : field := Fld "offset" 16 31.
Definition GREChksumOffset : htype := HT 13 "GREChksumOffset" 4
  [GREChksumOffset_chksum; GREChksumOffset_offset]
  [0; 0; 0; 0].

(** headers.rs:729-735 *)
Definition GRESequenceNum_seqnum : field := Fld "seqnum" 0 31.
Definition GRESequenceNum : htype := HT 14 "GRESequenceNum" 4
  [GRESequenceNum_seqnum]
  [0; 0; 0; 0].

(** headers.rs:738-744 *)
Definition GREKey_key : field := Fld "key" 0 31.
Definition GREKey : htype := HT 15 "GREKey" 4
  [GREKey_key]
  [0; 0; 0; 0].

(** headers.rs:747-760 *)
Definition ERSPAN2_version : field := Fld "version" 0 3.
Definition ERSPAN2_vlan : field := Fld "vlan" 4 15.
Definition ERSPAN2_cos : field := Fld "cos" 16 18.
Definition ERSPAN2_en : field := Fld "en" 19 20.
Definition ERSPAN2_t : field := Fld "t" 21 21.
Definition ERSPAN2_session_id : field := Fld "session_id" 22 31.
Definition ERSPAN2_reserved : field := Fld "reserved" 32 43.
Definition ERSPAN2_index : field := Fld "index" 44 63.
Definition ERSPAN2 : htype := HT 16 "ERSPAN2" 8
  [ERSPAN2_version; ERSPAN2_vlan; ERSPAN2_cos; ERSPAN2_en; ERSPAN2_t; ERSPAN2_session_id; ERSPAN2_reserved; ERSPAN2_index]
  [0x10; 0x0; 0x0; 0x0; 0x0; 0x0; 0x0; 0x0].

(** headers.rs:763-782 *)
Definition ERSPAN3_version : field := Fld "version" 0 3.
Definition ERSPAN3_vlan : field := Fld "vlan" 4 15.
Definition ERSPAN3_cos : field := Fld "cos" 16 18.
Definition ERSPAN3_bos : field := Fld "bos" 19 20.
Definition ERSPAN3_t : field := Fld "t" 21 21.
Definition ERSPAN3_session_id : field := Fld "session_id" 22 31.
Definition ERSPAN3_timestamp : field := Fld "timestamp" 32 63.
Definition ERSPAN3_sgt : field := Fld "sgt" 64 79.
Definition ERSPAN3_p : field := Fld "p" 80 80.
Definition ERSPAN3_ft : field := Fld "ft" 81 85.
Definition ERSPAN3_hw_id : field := Fld "hw_id" 86 91.
Definition ERSPAN3_d : field := Fld "d" 92 92.
Definition ERSPAN3_gra : field := Fld "gra" 93 94.
Definition ERSPAN3_o : field := Fld "o" 95 95.
Definition ERSPAN3 : htype := HT 17 "ERSPAN3" 12
  [ERSPAN3_version; ERSPAN3_vlan; ERSPAN3_cos; ERSPAN3_bos; ERSPAN3_t; ERSPAN3_session_id; ERSPAN3_timestamp; ERSPAN3_sgt; ERSPAN3_p; ERSPAN3_ft; ERSPAN3_hw_id; ERSPAN3_d; ERSPAN3_gra; ERSPAN3_o]
  [0x20; 0x0; 0x0; 0x0; 0x0; 0x0; 0x0; 0x0; 0x0; 0x0; 0x0; 0x0].

(** headers.rs:785-792 *)
Definition ERSPANPLATFORM_id : field := Fld "id" 0 5.
Definition ERSPANPLATFORM_info : field := Fld "info" 6 63.
Definition ERSPANPLATFORM : htype := HT 18 "ERSPANPLATFORM" 8
  [ERSPANPLATFORM_id; ERSPANPLATFORM_info]
  [0x0; 0x0; 0x0; 0x0; 0x0; 0x0; 0x0; 0x0].

(** headers.rs:795-815 *)
Definition STP_proto : field := Fld "proto" 0 15.
Definition STP_version : field := Fld "version" 16 23.
Definition STP_bpdu_type : field := Fld "bpdu_type" 24 31.
Definition STP_flags : field := Fld "flags" 32 39.
Definition STP_root_id : field := Fld "root_id" 40 55.
Definition STP_root_mac : field := Fld "root_mac" 56 103.
Definition STP_root_path_cost : field := Fld "root_path_cost" 104 135.
Definition STP_bridge_id : field := Fld "bridge_id" 136 151.
Definition STP_bridge_mac : field := Fld "bridge_mac" 152 199.
Definition STP_port_id : field := Fld "port_id" 200 215.
Definition STP_message_age : field := Fld "message_age" 216 231.
Definition STP_max_age : field := Fld "max_age" 232 247.
Definition STP_hello_time : field := Fld "hello_time" 248 263.
Definition STP_fwd_delay : field := Fld "fwd_delay" 264 279.
Definition STP : htype := HT 19 "STP" 35
  [STP_proto; STP_version; STP_bpdu_type; STP_flags; STP_root_id; STP_root_mac; STP_root_path_cost; STP_bridge_id; STP_bridge_mac; STP_port_id; STP_message_age; STP_max_age; STP_hello_time; STP_fwd_delay]
  [0x0; 0x0; 0x0; 0x0; 0x0; 0x0; 0x0; 0x0; 0x0; 0x0; 0x0; 0x0; 0x0; 0x0; 0x0; 0x0; 0x0; 0x0; 0x0; 0x0; 0x0; 0x0; 0x0; 0x0; 0x0; 0x0; 0x0; 0x0; 0x1; 0x0; 0x14; 0x0; 0x2; 0x0; 0xF].

(** headers.rs:818-827 *)
Definition MPLS_label : field := Fld "label" 0 19.
Definition MPLS_exp : field := Fld "exp" 20 22.
Definition MPLS_bos : field := Fld "bos" 23 23.
Definition MPLS_ttl : field := Fld "ttl" 24 31.
Definition MPLS : htype := HT 20 "MPLS" 4
  [MPLS_label; MPLS_exp; MPLS_bos; MPLS_ttl]
  [0; 0; 0; 0].

(** headers.rs:829-854 *)
Definition Tester_bit1 : field := Fld "bit1" 0 0.
Definition Tester_bit2 : field := Fld "bit2" 1 2.
Definition Tester_bit3 : field := Fld "bit3" 3 5.
Definition Tester_bit4 : field := Fld "bit4" 6 9.
Definition Tester_bit5 : field := Fld "bit5" 10 14.
Definition Tester_bit6 : field := Fld "bit6" 15 20.
Definition Tester_bit7 : field := Fld "bit7" 21 27.
Definition Tester_bit8 : field := Fld "bit8" 28 35.
Definition Tester_bit9 : field := Fld "bit9" 36 44.
Definition Tester_bit10 : field := Fld "bit10" 45 47.
Definition Tester_byte1 : field := Fld "byte1" 48 55.
Definition Tester_byte2 : field := Fld "byte2" 56 71.
Definition Tester_byte3 : field := Fld "byte3" 72 95.
Definition Tester_byte4 : field := Fld "byte4" 66 127.
Definition Tester_byte8 : field := Fld "byte8" 128 191.
Definition Tester_byte16 : field := Fld "byte16" 192 319.
Definition Tester : htype := HT 21 "Tester" 40
  [Tester_bit1; Tester_bit2; Tester_bit3; Tester_bit4; Tester_bit5; Tester_bit6; Tester_bit7; Tester_bit8; Tester_bit9; Tester_bit10; Tester_byte1; Tester_byte2; Tester_byte3; Tester_byte4; Tester_byte8; Tester_byte16]
  [0xff; 0xff; 0xff; 0xff; 0xff; 0xff; 0x20; 0x01; 0x0d; 0xb8; 0x85; 0xa3; 0xf0; 0xe0; 0xd0; 0xc0; 0x8a; 0x2e; 0x03; 0x70; 0x73; 0x34; 0x45; 0x67; 0x20; 0x01; 0x0d; 0xb8; 0x85; 0xa3; 0x00; 0x00; 0x00; 0x00; 0x8a; 0x2e; 0x03; 0x70; 0x73; 0x35].

(** All header types predefined by the crate, in source order
    (headers.rs:529-854; [Tester] is public too and not [cfg(test)]). *)
Definition predefined : list htype :=
  [Ether; Vlan; IPv4; IPv6; ICMP; TCP; UDP; ARP; Vxlan; Dot3; LLC; SNAP; GRE; GREChksumOffset; GRESequenceNum; GREKey; ERSPAN2; ERSPAN3; ERSPANPLATFORM; STP; MPLS; Tester].

(** The protocol headers: all but [Tester]. *)
Definition protocol_headers : list htype :=
  [Ether; Vlan; IPv4; IPv6; ICMP; TCP; UDP; ARP; Vxlan; Dot3; LLC; SNAP; GRE; GREChksumOffset; GRESequenceNum; GREKey; ERSPAN2; ERSPAN3; ERSPANPLATFORM; STP; MPLS].
