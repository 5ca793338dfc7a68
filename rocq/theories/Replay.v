(** Replay.v -- the crate's own tests (src/headers.rs:855-927, src/packet.rs:645-712,
    tests/lib.rs) run in the model. They do not prove anything about all inputs; they are
    evidence that the model computes what the Rust code was seen to compute. *)

From Verif Require Import Base Bits Types Layout Heap Packet Text Build Utils Slow Fast Show.
Open Scope N_scope.

Definition ok {A} (r : out A * heap) : option A := match fst r with Ret a => Some a | _ => None end.
Fixpoint get_all (m : mode) (x : hdr) (l : list field) : M (list N) :=
  match l with [] => ret [] | f :: t => mlet v := hget m x f in mlet r := get_all m x t in ret (v :: r) end.
(** set then get, in sequence *)
Fixpoint set_get (m : mode) (x : hdr) (l : list (field * N)) : M (list N) :=
  match l with
  | [] => ret []
  | (f, v) :: t => mlet _ := hset x f v in mlet g := hget m x f in mlet r := set_get m x t in ret (g :: r)
  end.

(** headers.rs:857-881 [test_header_get]; the test compares [byte4() as u32], here is the
    full value, whose low 32 bits are 0xf0e0d0c0. *)
Example test_header_get : ok ((mlet x := hnew Tester in
    mlet l := get_all Debug x [Tester_bit1; Tester_bit2; Tester_bit3; Tester_bit4; Tester_bit5; Tester_bit6; Tester_bit7;
      Tester_bit8; Tester_bit9; Tester_bit10; Tester_byte1; Tester_byte2; Tester_byte3; Tester_byte4; Tester_byte8] in
    mlet b := hbytes Debug x (f_end Tester_byte16) (f_start Tester_byte16) in ret (l, b)) []) =
  Some ([1; 3; 7; 15; 31; 63; 127; 255; 511; 7; 0x20; 0x010d; 0xb885a3; 988687057375252672; 0x8a2e037073344567],
    [0x20; 0x01; 0x0d; 0xb8; 0x85; 0xa3; 0x00; 0x00; 0x00; 0x00; 0x8a; 0x2e; 0x03; 0x70; 0x73; 0x35]).
Proof. vm_compute. reflexivity. Qed.

(** headers.rs:882-927 [test_header_set]. *)
Example test_header_set : ok ((mlet x := hnew Tester in
    mlet l := set_get Debug x [(Tester_bit1, 0); (Tester_bit2, 2); (Tester_bit3, 3); (Tester_bit4, 4); (Tester_bit5, 5);
      (Tester_bit6, 6); (Tester_bit7, 7); (Tester_bit8, 8); (Tester_bit9, 9); (Tester_bit10, 3); (Tester_byte1, 1);
      (Tester_byte1, 0xFF); (Tester_byte2, 0xFFFF); (Tester_byte3, 0xFFFFFF); (Tester_byte4, 0xFFFFFFFF);
      (Tester_byte8, 8); (Tester_byte8, 0xFFFFFFFFFFFFFFFF)] in
    let a := map N.of_nat (seq 1 16) in
    mlet _ := hset_bytes Debug x (f_end Tester_byte16) (f_start Tester_byte16) a in
    mlet b := hbytes Debug x (f_end Tester_byte16) (f_start Tester_byte16) in ret (l, b)) []) =
  Some ([0; 2; 3; 4; 5; 6; 7; 8; 9; 3; 1; 0xFF; 0xFFFF; 0xFFFFFF; 0xFFFFFFFF; 8; 0xFFFFFFFFFFFFFFFF],
    map N.of_nat (seq 1 16)).
Proof. vm_compute. reflexivity. Qed.

(** packet.rs:660-676 (the tests only print). *)
Example ipv4_1 : (to_ipv4_bytes "10.10.10.1", to_ipv4_bytes "10.10.10.1000", to_ipv4_bytes "10.10.10.ff") =
  (Ret [10; 10; 10; 1], Ret [10; 10; 10; 0], Ret [10; 10; 10; 0]).
Proof. reflexivity. Qed.
Example mac_1 : (to_mac_bytes "ff:ff:ff:ff:ff:ff", to_mac_bytes "ff:ff:ff:ff:ff:123") =
  (Ret [255; 255; 255; 255; 255; 255], Ret [255; 255; 255; 255; 255; 0]).
Proof. reflexivity. Qed.

(** tests/lib.rs:34-55 [custom_header_test]: a header with a gap and no default. *)
Definition MyOwnHeader : htype :=
  HT 99 "MyOwnHeader" 10 [Fld "bytes_1" 0 7; Fld "bytes_2" 8 23; Fld "bytes_3" 32 47; Fld "bytes_4" 48 79] [].
Example custom_header_test : ok ((mlet x := hfrom MyOwnHeader (repeat 0 10) in
    mlet _ := hshow Debug x in
    mlet l := set_get Debug x [(Fld "bytes_1" 0 7, 0x22); (Fld "bytes_2" 8 23, 0x3344)] in
    mlet _ := hshow Debug x in ret l) []) = Some [0x22; 0x3344].
Proof. vm_compute. reflexivity. Qed.

(** tests/lib.rs:57-87 [ethernet_header_test]. *)
Example ethernet_header_test : ok ((mlet x := hnew Ether in
    mlet l := get_all Debug x [Ether_dst; Ether_src; Ether_etype] in
    mlet g := set_get Debug x [(Ether_dst, 0x60708090a0b); (Ether_src, 0x102030405); (Ether_etype, 0x8100)] in
    let a := [0xaa; 0xaa; 0xaa; 0xaa; 0xaa; 0xaa; 0xbb; 0xbb; 0xbb; 0xbb; 0xbb; 0xbb; 0x86; 0xdd] in
    mlet y := hfrom Ether a in
    mlet t := hto_vec y in
    mlet k := get_all Debug y [Ether_dst; Ether_src; Ether_etype] in ret (l, g, t, k)) []) =
  Some ([0x102030405; 0x60708090a0b; 0x800], [0x60708090a0b; 0x102030405; 0x8100],
    [0xaa; 0xaa; 0xaa; 0xaa; 0xaa; 0xaa; 0xbb; 0xbb; 0xbb; 0xbb; 0xbb; 0xbb; 0x86; 0xdd],
    [0xaaaaaaaaaaaa; 0xbbbbbbbbbbbb; 0x86dd]).
Proof. vm_compute. reflexivity. Qed.

(** tests/lib.rs:88-116 [vlan_header_test]. *)
Example vlan_header_test : ok ((mlet x := hnew Vlan in
    mlet l := get_all Debug x [Vlan_pcp; Vlan_cfi; Vlan_vid] in
    mlet g := set_get Debug x [(Vlan_pcp, 5); (Vlan_cfi, 1); (Vlan_vid, 0xb)] in
    mlet y := hfrom Vlan [0x7f; 0xff; 0x08; 0x00] in
    mlet t := hto_vec y in
    mlet k := get_all Debug y [Vlan_vid; Vlan_pcp; Vlan_cfi] in ret (l, g, t, k)) []) =
  Some ([0; 0; 0xa], [5; 1; 0xb], [0x7f; 0xff; 0x08; 0x00], [4095; 3; 1]).
Proof. vm_compute. reflexivity. Qed.

(** tests/lib.rs:13-24: the tests' own checksum verification, which is [ipv4_checksum]
    without the skip. *)
Fixpoint sum_words (v : list N) : N :=
  match v with a :: b :: t => N.lor (shl16 a 8) b + sum_words t | _ => 0 end.
Definition ipv4_checksum_verify (v : list N) : out N :=
  olet c := fold_loop Debug 3 (sum_words v) in Ret (65535 - u16 c).

(** tests/lib.rs:117-139 [ip_header_test]. *)
Example ip_header_test : ok ((mlet x := ipv4 Debug 5 10 4 64 0xdd 6 "10.10.10.1" "11.11.11.1" 86 in
    mlet v := hto_vec x in lift (ipv4_checksum_verify v)) []) = Some 0.
Proof. vm_compute. reflexivity. Qed.

(** tests/lib.rs:140-151 [vxlan_header_test]. *)
Example vxlan_header_test : ok ((mlet x := hnew Vxlan in mlet y := vxlan 2000 in
    mlet a := get_all Debug x [Vxlan_flags; Vxlan_vni] in
    mlet b := get_all Debug y [Vxlan_flags; Vxlan_vni] in ret (a, b)) []) = Some ([8; 2000], [8; 2000]).
Proof. vm_compute. reflexivity. Qed.

Definition bytes_upto (n : nat) : list N := map N.of_nat (seq 0 n).
Definition eth_std : eth_args := EthA "00:01:02:03:04:05" "00:06:07:08:09:0a" false 10 3.

(** tests/lib.rs:152-205 [ip_checksum_test]; the Rust test takes every ttl from 1 to 254. *)
Definition checksum_case (sip dip : string) (ttl : N) : option (N * N * bool) :=
  ok ((mlet p := create_tcp_packet Debug eth_std (Ip4A 5 sip dip 0 ttl 115 0)
                   (TcpA 80 9090 100 101 0 0 1 0 0) (bytes_upto 100) in
       mlet b := index_name p "IPv4" in
       mlet ip := hdowncast IPv4 b in
       mlet v := hto_vec ip in
       mlet c1 := lift (ipv4_checksum_verify v) in
       mlet i4 := ipv4 Debug 5 0 115 ttl 0 6 sip dip 140 in
       mlet w := hto_vec i4 in
       mlet c2 := lift (ipv4_checksum_verify w) in
       mlet k1 := hget Debug ip IPv4_header_checksum in
       mlet k2 := hget Debug i4 IPv4_header_checksum in
       ret (c1, c2, k1 =? k2)) []).
Definition checksum_good (o : option (N * N * bool)) : bool :=
  match o with Some (0, 0, true) => true | _ => false end.
Definition ips : list string :=
  ["10.10.10.1"; "11.11.11.1"; "12.12.12.1"; "13.13.13.1"; "14.14.14.1";
   "15.15.15.1"; "16.16.16.1"; "17.17.17.1"; "18.18.18.1"; "19.19.19.1"]%string.
Example ip_checksum_test :
  forallb (fun s => forallb (fun d => forallb (fun t => checksum_good (checksum_case s d t)) [1; 2; 64; 127; 128; 254]) ips) ips = true.
Proof. vm_compute. reflexivity. Qed.

(** tests/lib.rs:206-219 [arp_header_test]. *)
Example arp_header_test : ok ((mlet x := hnew ARP in get_all Debug x (ht_fields ARP)) []) =
  Some [1; 0x800; 6; 4; 1; 0x000102030405; 0xa000001; 0; 0].
Proof. vm_compute. reflexivity. Qed.

(** tests/lib.rs:220-647 [create_packet_test]: every builder, then [parse] and [compare]. *)
Definition v6 (hi lo : N) : list N := to_be 2 hi ++ repeat 0 12 ++ to_be 2 lo.
Definition ip6_std (s : string) : option (list N) :=
  if String.eqb s "AAAA::1" then Some (v6 0xAAAA 1) else if String.eqb s "BBBB::1" then Some (v6 0xBBBB 1) else None.
Definition i4 : ip4_args := Ip4A 5 "192.168.0.199" "192.168.0.1" 0 64 0 0x4000.
(** [5, 4, 64]: the tests pass traffic class 5, flow label 4, hop limit 64. *)
Definition i6 : ip6_args := Ip6A 5 4 64 "AAAA::1" "BBBB::1".
Definition gre0 : gre_args := GreA false false false false false 0 0 0 0 0 0 [].
Definition create_all (m : mode) : M (list packet) :=
  let pl := bytes_upto 100 in
  mlet tcp := create_tcp_packet m eth_std (Ip4A 5 "10.10.10.1" "11.11.11.1" 0 64 115 0) (TcpA 1234 9090 100 101 5 0 0x10 2 0) pl in
  mlet udp := create_udp_packet m eth_std i4 1234 9090 pl in
  mlet icmp := create_icmp_packet m eth_std i4 8 0 pl in
  mlet tcp6 := create_tcpv6_packet m ip6_std eth_std i6 (TcpA 1234 9090 100 101 5 0 1 0 0) pl in
  mlet udp6 := create_udpv6_packet m ip6_std eth_std i6 1234 9090 pl in
  mlet icmp6 := create_icmpv6_packet m ip6_std eth_std i6 135 0 pl in
  mlet udp' := pkt_clone udp in mlet vx_udp := create_vxlan_packet m eth_std i4 4789 9090 2000 udp' in
  mlet tcp' := pkt_clone tcp in mlet vx_tcp := create_vxlan_packet m eth_std i4 4789 9090 2000 tcp' in
  mlet vx6_udp := create_vxlanv6_packet m ip6_std eth_std i6 4789 9090 2000 udp' in
  mlet vx6_tcp := create_vxlanv6_packet m ip6_std eth_std i6 4789 9090 2000 tcp' in
  mlet arp_req := create_arp_packet (EthA "FF:FF:FF:FF:FF:FF" "00:06:07:08:09:0a" false 10 3) 1
    "00:06:07:08:09:0a" "00:00:00:00:00:00" "10.10.10.1" "0.0.0.0" pl in
  mlet arp_resp := create_arp_packet (EthA "00:06:07:08:09:0a" "00:01:02:03:04:05" false 10 3) 2
    "00:01:02:03:04:05" "00:06:07:08:09:0a" "10.10.10.2" "10.10.10.1" pl in
  let ip_tcp := remove tcp' 0 in
  let ip_udp := remove udp' 0 in
  mlet tcp6' := pkt_clone tcp6 in let ip_tcp6 := remove tcp6' 0 in
  mlet udp6' := pkt_clone udp6 in let ip_udp6 := remove udp6' 0 in
  mlet ip4ip4 := create_ipv4ip_packet m eth_std i4 ip_tcp in
  mlet ip4ip6 := create_ipv4ip_packet m eth_std i4 ip_udp6 in
  mlet ip6ip4 := create_ipv6ip_packet ip6_std eth_std i6 ip_udp in
  mlet ip6ip6 := create_ipv6ip_packet ip6_std eth_std i6 ip_tcp6 in
  mlet greip4 := create_gre_packet m eth_std i4 gre0 (Some ip_tcp) in
  mlet greip6 := create_gre_packet m eth_std i4 gre0 (Some ip_udp6) in
  mlet erspan2 := create_erspan_2_packet m eth_std i4 23 (ErA 0 0 1 0 10) 10 (Some udp6') in
  mlet icmp' := pkt_clone icmp in
  mlet erspan3 := create_erspan_3_packet m eth_std i4 23 (ErA 0 0 1 0 10) 10 10 1 4 0xffffffff (Some icmp') in
  mlet d1 := hfrom Dot3 [0; 1; 2; 3; 4; 5; 6; 7; 8; 9; 10; 11; 0; 86] in
  mlet l1 := hfrom LLC [0; 4; 0] in
  mlet llc := push pkt_new d1 in mlet llc := push llc l1 in
  mlet d2 := hfrom Dot3 [0; 1; 2; 3; 4; 5; 6; 7; 8; 9; 10; 11; 0; 86] in
  mlet l2 := hfrom LLC [0xaa; 0xaa; 0x03] in
  mlet s2 := hfrom SNAP [0x0; 0x80; 0xc2; 0x8; 0x0] in
  mlet snap := push pkt_new d2 in mlet snap := push snap l2 in mlet snap := push snap s2 in
  ret [tcp; udp; icmp; tcp6; udp6; icmp6; vx_udp; vx6_udp; vx_tcp; vx6_tcp; arp_req; arp_resp;
       ip4ip4; ip4ip6; ip6ip4; ip6ip6; llc; snap; greip4; greip6; erspan2; erspan3].
Fixpoint compare_all (m : mode) (l : list packet) : M (list bool) :=
  match l with
  | [] => ret []
  | p :: t =>
      mlet v := to_vec p in
      mlet q := slow m F_parse v in
      mlet b := compare q p in
      mlet r := compare_all m t in
      ret (b :: r)
  end.
Example create_packet_test : ok ((mlet l := create_all Debug in compare_all Debug l) []) = Some (repeat true 22).
Proof. vm_compute. reflexivity. Qed.
Example create_packet_test_release : ok ((mlet l := create_all Release in compare_all Release l) []) = Some (repeat true 22).
Proof. vm_compute. reflexivity. Qed.

Definition test_tcp_packet (pl : list N) : M packet :=
  create_tcp_packet Debug (EthA "00:11:11:11:11:11" "00:06:07:08:09:0a" false 10 3)
    (Ip4A 5 "10.10.10.1" "11.11.11.1" 0 64 115 0) (TcpA 8888 9090 100 101 5 0 2 0 0) pl.

(** tests/lib.rs:684-724 [update_packet_test]. *)
Example update_packet_test : ok ((mlet p := test_tcp_packet (bytes_upto 100) in
    mlet b := index_name p "Ether" in mlet x := hdowncast Ether b in
    mlet _ := hset x Ether_etype 0x86dd in
    mlet q := pkt_clone p in
    mlet c := compare p q in
    mlet v := to_vec q in
    mlet d := compare_with_slice p v in
    match get_header Ether p "Ether" with
    | Some y => mlet e := hget Debug y Ether_etype in mlet _ := hset y Ether_etype 0x9999 in
                mlet f := hget Debug y Ether_etype in ret (c, d, e, f)
    | None => fail PUnwrap
    end) []) = Some (true, true, 0x86dd, 0x9999).
Proof. vm_compute. reflexivity. Qed.

(** tests/lib.rs:788-838 [packet_slice_payload_test], [packet_payload_test]. *)
Example packet_payload_test : ok ((mlet p := test_tcp_packet (bytes_upto 10) in
    mlet v := to_vec p in
    mlet q := slow Debug F_parse v in
    mlet r := lift (fast Debug F_parse v) in
    ret (payload q, v_bytes (ps_payload r))) []) = Some (bytes_upto 10, bytes_upto 10).
Proof. vm_compute. reflexivity. Qed.
