(** Build.v -- model of the header constructors of [Packet]
    (src/packet.rs:405-643). Integer arguments are [N] values of the Rust type
    given in the comment; the bytes come from [to_be]. *)

From Verif Require Import Base Bits Types Layout Heap Packet Text.
Open Scope N_scope.

(** packet.rs:406-412 [ethernet(dst, src, etype: u16)]. *)
Definition ethernet (dst src : string) (etype : N) : M hdr :=
  mlet d := lift (to_mac_bytes dst) in
  mlet s := lift (to_mac_bytes src) in
  hfrom Ether (d ++ s ++ to_be 2 etype).

(** packet.rs:414-420 [dot3(dst, src, length: u16)]. *)
Definition dot3 (dst src : string) (len : N) : M hdr :=
  mlet d := lift (to_mac_bytes dst) in
  mlet s := lift (to_mac_bytes src) in
  hfrom Dot3 (d ++ s ++ to_be 2 len).

(** packet.rs:422-424 [llc(dsap, ssap, ctrl: u8) -> Dot3]. *)
Definition llc (dsap ssap ctrl : N) : M hdr := hfrom Dot3 [dsap; ssap; ctrl].

(** packet.rs:426-446 [arp(opcode: u16, ..)]. *)
Definition arp (opcode : N) (sender_mac target_mac sender_ip target_ip : string) : M hdr :=
  mlet smac := lift (to_mac_bytes sender_mac) in
  mlet sip := lift (to_ipv4_bytes sender_ip) in
  mlet tmac := lift (to_mac_bytes target_mac) in
  mlet tip := lift (to_ipv4_bytes target_ip) in
  hfrom ARP (to_be 2 1 ++ to_be 2 (EtherType_code E_IPV4)
             ++ [u8 (N.of_nat MAC_LEN)] ++ [u8 (N.of_nat IPV4_LEN)]
             ++ to_be 2 opcode ++ smac ++ sip ++ tmac ++ tip).

(** packet.rs:448-454 [vlan(pcp: u8, _cfi: u8, vid: u16, etype: u16)]:
    [data[0] |= pcp << 5]. *)
Definition vlan (pcp _cfi vid etype : N) : M hdr :=
  let data := to_be 2 vid in
  mlet b0 := lift (index data 0) in
  let data := upd data 0 (N.lor b0 (shl8 pcp 5)) in
  hfrom Vlan (data ++ to_be 2 etype).

(** packet.rs:456-484 [ipv4(ihl: u8, tos: u8, id: u16, ttl: u8, frag: u16,
    proto: u8, src, dst, pktlen: u16)]. *)
Definition ipv4 (m : mode) (ihl tos id ttl frag proto : N) (src dst : string) (pktlen : N) : M hdr :=
  let ver := N.lor 0x40 ihl in
  mlet s := lift (to_ipv4_bytes src) in
  mlet d := lift (to_ipv4_bytes dst) in
  let data := [ver] ++ [tos] ++ to_be 2 pktlen ++ to_be 2 id ++ to_be 2 frag
              ++ [ttl] ++ [proto] ++ to_be 2 0 ++ s ++ d in
  mlet ip_chksum := lift (ipv4_checksum m data) in
  mlet ip := hfrom IPv4 data in
  mlet _ := hset ip IPv4_header_checksum ip_chksum in
  ret ip.

(** packet.rs:486-506 [ipv6(traffic_class: u8, flow_label: u32, next_hdr: u8,
    hop_limit: u8, src, dst, pktlen: u16)]. *)
Definition ipv6 (ip6 : string -> option (list N))
    (traffic_class flow_label next_hdr hop_limit : N) (src dst : string) (pktlen : N) : M hdr :=
  let word := N.land (shl32 6 28) 0xF0000000 in
  let word := N.lor word (shl32 traffic_class 20) in
  let word := N.lor word flow_label in
  hfrom IPv6 (to_be 4 word ++ to_be 2 pktlen ++ [next_hdr] ++ [hop_limit]
              ++ to_ipv6_bytes ip6 src ++ to_ipv6_bytes ip6 dst).

(** packet.rs:508-516 [udp(src, dst, length: u16)]. *)
Definition udp (src dst len : N) : M hdr :=
  hfrom UDP (to_be 2 src ++ to_be 2 dst ++ to_be 2 len ++ to_be 2 0).

(** packet.rs:518-525 [icmp(icmp_type, icmp_code: u8)]. *)
Definition icmp (icmp_type icmp_code : N) : M hdr :=
  hfrom ICMP ([icmp_type] ++ [icmp_code] ++ to_be 2 0).

(** packet.rs:527-550 [tcp(src, dst: u16, seq_no, ack_no: u32, data_offset, res,
    flags: u8, window, chksum, urgent_ptr: u16)]. *)
Definition tcp (src dst seq_no ack_no data_offset res flags window chksum urgent_ptr : N) : M hdr :=
  hfrom TCP (to_be 2 src ++ to_be 2 dst ++ to_be 4 seq_no ++ to_be 4 ack_no
             ++ [N.lor (shl8 data_offset 4) (N.land res 0xff)] ++ [flags]
             ++ to_be 2 window ++ to_be 2 chksum ++ to_be 2 urgent_ptr).

(** packet.rs:552-558 [vxlan(vni: u32)]. *)
Definition vxlan (vni : N) : M hdr :=
  hfrom Vxlan (to_be 4 (shl32 8 24) ++ to_be 4 (shl32 vni 8)).

(** packet.rs:560-578 [gre(c, r, k, seqnum, s: bool, flags, ver: u8, proto: u16)]. *)
Definition gre (c r k seqnum s : bool) (flags ver proto : N) : M hdr :=
  let x := N.lor (N.lor (N.lor (N.lor (shl8 (b2n c) 7) (shl8 (b2n r) 6)) (shl8 (b2n k) 5))
                        (shl8 (b2n seqnum) 4)) (shl8 (b2n s) 3) in
  let y := N.lor (shl8 flags 3) ver in
  hfrom GRE ([x] ++ [y] ++ to_be 2 proto).

(** packet.rs:580-585 [gre_chksum_offset(chksum, offset: u16)]. *)
Definition gre_chksum_offset (chksum offset : N) : M hdr :=
  hfrom GREChksumOffset (to_be 2 chksum ++ to_be 2 offset).

(** packet.rs:587-591 [gre_sequence_number(seqnum: u32)]. *)
Definition gre_sequence_number (seqnum : N) : M hdr := hfrom GRESequenceNum (to_be 4 seqnum).

(** packet.rs:593-597 [gre_key(key: u32)]. *)
Definition gre_key (key : N) : M hdr := hfrom GREKey (to_be 4 key).

(** packet.rs:602 and 621: [(cos as u16) << 13 | (en as u16) << 11 | (t as u16) << 10 | session_id]. *)
Definition erspan_b2 (cos en t session_id : N) : N :=
  N.lor (N.lor (N.lor (shl16 cos 13) (shl16 en 11)) (shl16 t 10)) session_id.

(** packet.rs:599-607 [erspan2(vlan: u16, cos, en, t: u8, session_id: u16, index: u32)]. *)
Definition erspan2 (vlan cos en t session_id idx : N) : M hdr :=
  let b1 := N.lor (shl16 (ErspanVersion_code EV_II) 12) vlan in
  let b2 := erspan_b2 cos en t session_id in
  hfrom ERSPAN2 (to_be 2 b1 ++ to_be 2 b2 ++ to_be 4 idx).

(** packet.rs:609-628 [erspan3(vlan: u16, cos, en, t: u8, session_id: u16,
    timestamp: u32, sgt: u16, ft_d_other: u16)]. *)
Definition erspan3 (vlan cos en t session_id timestamp sgt ft_d_other : N) : M hdr :=
  let b1 := N.lor (shl16 (ErspanVersion_code EV_III) 12) vlan in
  let b2 := erspan_b2 cos en t session_id in
  hfrom ERSPAN3 (to_be 2 b1 ++ to_be 2 b2 ++ to_be 4 timestamp ++ to_be 2 sgt
                 ++ to_be 2 ft_d_other).

(** packet.rs:630-633 [mpls(label: u32, exp, bos, ttl: u8)]. *)
Definition mpls (label exp bos ttl : N) : M hdr :=
  let w := N.lor (N.lor (N.lor (shl32 label 20) (shl32 exp 23)) (shl32 bos 24)) ttl in
  hfrom MPLS (to_be 4 w).

(** packet.rs:635-643 [snap(oui: u32, code: u16)]. *)
Definition snap (oui code : N) : M hdr :=
  let oui_01 := u16 oui in
  let oui_2 := u8 (N.shiftr oui 16) in
  hfrom SNAP (to_be 2 oui_01 ++ to_be 1 oui_2 ++ to_be 2 code).
