(** Print.v -- standard output as an effect: what the crate prints, in order, also
    when the call panics afterwards. All [println!]/[print!] of the crate
    (headers.rs:224-250, 397-423; packet.rs:20-58, 283, 340-376, 744-760) are here;
    a write to standard output that fails is in Pipe.v. *)

From Verif Require Import Base Bits Types Layout Heap Packet Text Build Utils Slow Fast Show Trait Ops Client Python.
Open Scope N_scope.

(** A computation with the text it prints. *)
Definition W (A : Type) : Type := heap -> string * (out A * heap).
(** [print!] of a text. *)
Definition say (s : string) : W unit := fun h => (s, (Ret tt, h)).
(** Code that prints nothing. *)
Definition run {A} (c : M A) : W A := fun h => (EmptyString, c h).
Definition wbind {A B} (c : W A) (f : A -> W B) : W B := fun h =>
  match c h with
  | (s, (Ret a, h')) => let '(t, r) := f a h' in ((s ++ t)%string, r)
  | (s, (Panic p, h')) => (s, (Panic p, h'))
  | (s, (UB, h')) => (s, (UB, h'))
  | (s, (Hang, h')) => (s, (Hang, h'))
  | (s, (Fuel, h')) => (s, (Fuel, h'))
  end.
Notation "'wlet' x := e 'in' k" := (wbind e (fun x => k)) (at level 200, x name, right associativity).

(** ** Addresses *)

(** [std::num::IntErrorKind], as far as a u8 has them. *)
Inductive int_error := E_Empty | E_InvalidDigit | E_PosOverflow.
(** [Display for ParseIntError] (std). *)
Definition int_error_text (e : int_error) : string :=
  match e with
  | E_Empty => "cannot parse integer from empty string"
  | E_InvalidDigit => "invalid digit found in string"
  | E_PosOverflow => "number too large to fit in target type"
  end.
(** [Display for AddrParseError] of an [Ipv6Addr] (std). *)
Definition ipv6_error_text : string := "invalid IPv6 address syntax".

(** The loop of [u8::from_str_radix] (std), with its errors: the digit is examined
    before the overflow of the product is reported. *)
Fixpoint digits_parse (radix : N) (s : string) (acc : N) : N + int_error :=
  match s with
  | EmptyString => inl acc
  | String c t =>
      let mul := acc * radix in
      match to_digit radix c with
      | None => inr E_InvalidDigit
      | Some x =>
          if 256 <=? mul then inr E_PosOverflow
          else if 256 <=? mul + x then inr E_PosOverflow
          else digits_parse radix t (mul + x)
      end
  end.
Definition parse_u8 (radix : N) (s : string) : N + int_error :=
  match s with
  | EmptyString => inr E_Empty
  | String c EmptyString =>
      if (N_of_ascii c =? 43) || (N_of_ascii c =? 45) then inr E_InvalidDigit
      else digits_parse radix s 0
  | String c t => if N_of_ascii c =? 43 then digits_parse radix t 0 else digits_parse radix s 0
  end.

(** packet.rs:22-31 and 37-46: the value (and its message) comes before the index. *)
Fixpoint w_fill (radix : N) (self : string) (parts : list string) (i : nat) (a : list N) : W (list N) :=
  match parts with
  | [] => run (ret a)
  | v :: t =>
      wlet x :=
        match parse_u8 radix v with
        | inl x => run (ret x)
        | inr e =>
            wlet _ := say ("Error: " ++ int_error_text e ++ " - " ++ v ++ " in " ++ self ++ newline)%string in
            run (ret 0)
        end in
      wlet _ := run (lift (index a i)) in
      w_fill radix self t (S i) (upd a i x)
  end.
(** packet.rs:20-33. *)
Definition w_mac (s : string) : W (list N) := w_fill 16 s (split ":"%char s) 0 (repeat 0 MAC_LEN).
(** packet.rs:35-48. *)
Definition w_ip4 (s : string) : W (list N) := w_fill 10 s (split "."%char s) 0 (repeat 0 IPV4_LEN).
(** packet.rs:49-58. *)
Definition w_ip6 (ip6 : string -> option (list N)) (s : string) : W (list N) :=
  match ip6 s with
  | Some o => run (ret o)
  | None =>
      wlet _ := say ("Error: " ++ ipv6_error_text ++ " - " ++ s ++ newline)%string in
      run (ret (repeat 0 IPV6_LEN))
  end.

(** ** Header constructors with addresses *)

(** packet.rs:406-412. *)
Definition w_ethernet (dst src : string) (etype : N) : W hdr :=
  wlet d := w_mac dst in
  wlet s := w_mac src in
  run (hfrom Ether (d ++ s ++ to_be 2 etype)).

(** packet.rs:414-420. *)
Definition w_dot3 (dst src : string) (len : N) : W hdr :=
  wlet d := w_mac dst in
  wlet s := w_mac src in
  run (hfrom Dot3 (d ++ s ++ to_be 2 len)).

(** packet.rs:426-446. *)
Definition w_arp (opcode : N) (sender_mac target_mac sender_ip target_ip : string) : W hdr :=
  wlet smac := w_mac sender_mac in
  wlet sip := w_ip4 sender_ip in
  wlet tmac := w_mac target_mac in
  wlet tip := w_ip4 target_ip in
  run (hfrom ARP (to_be 2 1 ++ to_be 2 (EtherType_code E_IPV4)
                  ++ [u8 (N.of_nat MAC_LEN)] ++ [u8 (N.of_nat IPV4_LEN)]
                  ++ to_be 2 opcode ++ smac ++ sip ++ tmac ++ tip)).

(** packet.rs:456-484. *)
Definition w_ipv4 (m : mode) (ihl tos id ttl frag proto : N) (src dst : string) (pktlen : N) : W hdr :=
  let ver := N.lor 0x40 ihl in
  wlet s := w_ip4 src in
  wlet d := w_ip4 dst in
  let data := [ver] ++ [tos] ++ to_be 2 pktlen ++ to_be 2 id ++ to_be 2 frag
              ++ [ttl] ++ [proto] ++ to_be 2 0 ++ s ++ d in
  wlet ip_chksum := run (lift (ipv4_checksum m data)) in
  wlet ip := run (hfrom IPv4 data) in
  wlet _ := run (hset ip IPv4_header_checksum ip_chksum) in
  run (ret ip).

(** packet.rs:486-506. *)
Definition w_ipv6 (ip6 : string -> option (list N))
    (traffic_class flow_label next_hdr hop_limit : N) (src dst : string) (pktlen : N) : W hdr :=
  let word := N.land (shl32 6 28) 0xF0000000 in
  let word := N.lor word (shl32 traffic_class 20) in
  let word := N.lor word flow_label in
  wlet s := w_ip6 ip6 src in
  wlet d := w_ip6 ip6 dst in
  run (hfrom IPv6 (to_be 4 word ++ to_be 2 pktlen ++ [next_hdr] ++ [hop_limit] ++ s ++ d)).

(** Any header constructor. *)
Definition w_hmake (m : mode) (ip6 : string -> option (list N)) (b : hmake) : W hdr :=
  match b with
  | H_ethernet d s e => w_ethernet d s e
  | H_dot3 d s l => w_dot3 d s l
  | H_arp o sm tm si ti => w_arp o sm tm si ti
  | H_ipv4 ihl tos id ttl frag proto src dst len => w_ipv4 m ihl tos id ttl frag proto src dst len
  | H_ipv6 tc fl nh hl src dst len => w_ipv6 ip6 tc fl nh hl src dst len
  | _ => run (hmake_run m ip6 b)
  end.

(** ** Packet constructors (utils.rs) *)

(** utils.rs:7-25. *)
Definition w_create_eth_packet (e : eth_args) (etype : N) (pl : list N) : W packet :=
  let pkt := pkt_new in
  wlet pkt :=
    (if vlan_enable e then
       wlet eth := w_ethernet (eth_dst e) (eth_src e) (EtherType_code E_DOT1Q) in
       wlet pkt := run (push pkt eth) in
       wlet v := run (vlan (vlan_pcp e) 0 (vlan_vid e) etype) in
       run (push pkt v)
     else
       wlet eth := w_ethernet (eth_dst e) (eth_src e) etype in
       run (push pkt eth)) in
  run (ret (set_payload pkt pl)).

(** utils.rs:27-53. *)
Definition w_create_arp_packet (e : eth_args) (opcode : N)
    (sender_mac target_mac sender_ip target_ip : string) (pl : list N) : W packet :=
  wlet pkt := w_create_eth_packet e (EtherType_code E_ARP) pl in
  wlet a := w_arp opcode sender_mac target_mac sender_ip target_ip in
  run (push pkt a).

(** utils.rs:55-95. *)
Definition w_create_ipv4_packet (m : mode) (e : eth_args) (i : ip4_args) (ip_proto : N)
    (pl : list N) : W packet :=
  wlet pkt := w_create_eth_packet e (EtherType_code E_IPV4) pl in
  let pktlen := (ht_size IPv4 + length pl)%nat in
  wlet ip := w_ipv4 m (ip_ihl i) (ip_tos i) (ip_id i) (ip_ttl i) (ip_frag i) ip_proto
                    (ip_src i) (ip_dst i) (usize_u16 pktlen) in
  run (push pkt ip).

(** utils.rs:97-131. *)
Definition w_create_ipv6_packet (ip6 : string -> option (list N)) (e : eth_args) (i : ip6_args)
    (ip_next_hdr : N) (pl : list N) : W packet :=
  wlet pkt := w_create_eth_packet e (EtherType_code E_IPV6) pl in
  wlet ip := w_ipv6 ip6 (ip6_traffic_class i) (ip6_flow_label i) ip_next_hdr (ip6_hop_limit i)
                    (ip6_src i) (ip6_dst i) (usize_u16 (length pl)) in
  run (push pkt ip).

(** utils.rs:133-195. *)
Definition w_create_tcp_packet (m : mode) (e : eth_args) (i : ip4_args) (t : tcp_args)
    (pl : list N) : W packet :=
  wlet pkt := w_create_ipv4_packet m e i (IpProtocol_code P_TCP) pl in
  wlet ip := run (bump_total_len m pkt (ht_size TCP)) in
  wlet _ := run (refresh_checksum m ip) in
  wlet x := run (tcp (tcp_src t) (tcp_dst t) (tcp_seq_no t) (tcp_ack_no t) (tcp_data_offset t)
                     (tcp_res t) (tcp_flags t) (tcp_window t) 0 (tcp_urgent_ptr t)) in
  run (push pkt x).

(** utils.rs:197-242. *)
Definition w_create_udp_packet (m : mode) (e : eth_args) (i : ip4_args) (udp_dst udp_src : N)
    (pl : list N) : W packet :=
  wlet pkt := w_create_ipv4_packet m e i (IpProtocol_code P_UDP) pl in
  wlet ip := run (bump_total_len m pkt (ht_size UDP)) in
  wlet _ := run (refresh_checksum m ip) in
  let l4_len := (ht_size UDP + length pl)%nat in
  wlet u := run (udp udp_src udp_dst (usize_u16 l4_len)) in
  run (push pkt u).

(** utils.rs:244-289. *)
Definition w_create_icmp_packet (m : mode) (e : eth_args) (i : ip4_args) (icmp_type icmp_code : N)
    (pl : list N) : W packet :=
  wlet pkt := w_create_ipv4_packet m e i (IpProtocol_code P_ICMP) pl in
  wlet ip := run (bump_total_len m pkt (ht_size ICMP)) in
  wlet _ := run (refresh_checksum m ip) in
  wlet x := run (icmp icmp_type icmp_code) in
  run (push pkt x).

(** utils.rs:291-332. *)
Definition w_create_ipv4ip_packet (m : mode) (e : eth_args) (i : ip4_args) (inner_pkt : packet) : W packet :=
  wlet ipkt_vec := run (to_vec inner_pkt) in
  wlet b0 := run (lift (index ipkt_vec 0)) in
  let ip_proto := inner_proto b0 in
  w_create_ipv4_packet m e i (IpProtocol_code ip_proto) ipkt_vec.

(** utils.rs:334-369. *)
Definition w_create_ipv6ip_packet (ip6 : string -> option (list N)) (e : eth_args) (i : ip6_args)
    (inner_pkt : packet) : W packet :=
  wlet ipkt_vec := run (to_vec inner_pkt) in
  wlet b0 := run (lift (index ipkt_vec 0)) in
  let ip_nxt_hdr := inner_proto b0 in
  w_create_ipv6_packet ip6 e i (IpProtocol_code ip_nxt_hdr) ipkt_vec.

(** utils.rs:371-424. *)
Definition w_create_tcpv6_packet (m : mode) (ip6 : string -> option (list N)) (e : eth_args)
    (i : ip6_args) (t : tcp_args) (pl : list N) : W packet :=
  wlet pkt := w_create_ipv6_packet ip6 e i (IpProtocol_code P_TCP) pl in
  wlet _ := run (bump_payload_len m pkt (ht_size TCP)) in
  wlet x := run (tcp (tcp_src t) (tcp_dst t) (tcp_seq_no t) (tcp_ack_no t) (tcp_data_offset t)
                     (tcp_res t) (tcp_flags t) (tcp_window t) 0 (tcp_urgent_ptr t)) in
  run (push pkt x).

(** utils.rs:426-464. *)
Definition w_create_udpv6_packet (m : mode) (ip6 : string -> option (list N)) (e : eth_args)
    (i : ip6_args) (udp_dst udp_src : N) (pl : list N) : W packet :=
  wlet pkt := w_create_ipv6_packet ip6 e i (IpProtocol_code P_UDP) pl in
  wlet _ := run (bump_payload_len m pkt (ht_size UDP)) in
  let l4_len := (ht_size UDP + length pl)%nat in
  wlet u := run (udp udp_src udp_dst (usize_u16 l4_len)) in
  wlet _ := run (hset u UDP_checksum 0xffff) in
  run (push pkt u).

(** utils.rs:466-502. *)
Definition w_create_icmpv6_packet (m : mode) (ip6 : string -> option (list N)) (e : eth_args)
    (i : ip6_args) (icmp_type icmp_code : N) (pl : list N) : W packet :=
  wlet pkt := w_create_ipv6_packet ip6 e i (IpProtocol_code P_ICMPV6) pl in
  wlet _ := run (bump_payload_len m pkt (ht_size ICMP)) in
  wlet x := run (icmp icmp_type icmp_code) in
  run (push pkt x).

(** utils.rs:504-550. *)
Definition w_create_vxlan_packet (m : mode) (e : eth_args) (i : ip4_args) (udp_dst udp_src : N)
    (vxlan_vni : N) (inner_pkt : packet) : W packet :=
  wlet ipkt_vec := run (to_vec inner_pkt) in
  wlet pkt := w_create_ipv4_packet m e i (IpProtocol_code P_UDP) ipkt_vec in
  wlet _ := run (bump_total_len m pkt (ht_size UDP + ht_size Vxlan)) in
  let l4_len := (ht_size UDP + ht_size Vxlan + length ipkt_vec)%nat in
  wlet u := run (udp udp_src udp_dst (usize_u16 l4_len)) in
  wlet pkt := run (push pkt u) in
  wlet v := run (vxlan vxlan_vni) in
  run (push pkt v).

(** utils.rs:552-596. *)
Definition w_create_vxlanv6_packet (m : mode) (ip6 : string -> option (list N)) (e : eth_args)
    (i : ip6_args) (udp_dst udp_src : N) (vxlan_vni : N) (inner_pkt : packet) : W packet :=
  wlet ipkt_vec := run (to_vec inner_pkt) in
  wlet pkt := w_create_ipv6_packet ip6 e i (IpProtocol_code P_UDP) ipkt_vec in
  wlet _ := run (bump_payload_len m pkt (ht_size UDP + ht_size Vxlan)) in
  let l4_len := (ht_size UDP + ht_size Vxlan + length ipkt_vec)%nat in
  wlet u := run (udp udp_src udp_dst (usize_u16 l4_len)) in
  wlet _ := run (hset u UDP_checksum 0xffff) in
  wlet pkt := run (push pkt u) in
  wlet v := run (vxlan vxlan_vni) in
  wlet pkt := run (push pkt v) in
  run (pkt_add pkt inner_pkt).

(** utils.rs:598-695. *)
Definition w_create_gre_packet (m : mode) (e : eth_args) (i : ip4_args) (g : gre_args)
    (inner_pkt : option packet) : W packet :=
  wlet inner :=
    match inner_pkt with
    | Some p =>
        wlet ipkt_vec := run (to_vec p) in
        wlet b0 := run (lift (index ipkt_vec 0)) in
        run (ret (gre_inner_proto b0, ipkt_vec))
    | None => run (ret (0, []))
    end in
  let '(proto, ipkt_vec) := inner in
  let pktlen := ht_size GRE in
  let pktlen := if gre_chksum_present g then (pktlen + ht_size GREChksumOffset)%nat else pktlen in
  let pktlen := if gre_key_present g then (pktlen + ht_size GREKey)%nat else pktlen in
  let pktlen := if gre_seqnum_present g then (pktlen + ht_size GRESequenceNum)%nat else pktlen in
  let pktlen := if gre_routing_present g then (pktlen + length (gre_routing g))%nat else pktlen in
  wlet pkt := w_create_ipv4_packet m e i (IpProtocol_code P_GRE) ipkt_vec in
  wlet ip := run (bump_total_len m pkt pktlen) in
  wlet _ := run (refresh_checksum m ip) in
  wlet x := run (gre (gre_chksum_present g) (gre_routing_present g) (gre_key_present g)
                     (gre_seqnum_present g) (gre_strict_route_src g) (gre_flags g) (gre_version g) proto) in
  wlet pkt := run (push pkt x) in
  wlet pkt := (if gre_chksum_present g then
                 wlet o := run (gre_chksum_offset (gre_chksum g) (gre_offset g)) in run (push pkt o)
               else run (ret pkt)) in
  wlet pkt := (if gre_key_present g then
                 wlet o := run (gre_key (gre_keyval g)) in run (push pkt o)
               else run (ret pkt)) in
  (if gre_seqnum_present g then
     wlet o := run (gre_sequence_number (gre_seqnum g)) in run (push pkt o)
   else run (ret pkt)).

(** utils.rs:697-776. *)
Definition w_create_erspan_2_packet (m : mode) (e : eth_args) (i : ip4_args) (gre_seqnum : N)
    (a : erspan_args) (erspan_index : N) (inner_pkt : option packet) : W packet :=
  wlet ipkt_vec := run (opt_to_vec inner_pkt) in
  let pktlen := (ht_size GRE + ht_size ERSPAN2)%nat in
  let pktlen := if negb (gre_seqnum =? 0) then (pktlen + ht_size GRESequenceNum)%nat else pktlen in
  let pktlen := (pktlen + opt_len inner_pkt)%nat in
  wlet pkt := w_create_ipv4_packet m e i (IpProtocol_code P_GRE) ipkt_vec in
  wlet ip := run (bump_total_len m pkt pktlen) in
  wlet _ := run (refresh_checksum m ip) in
  wlet g := run (hnew GRE) in
  wlet _ := run (hset g GRE_proto (EtherType_code E_ERSPANII)) in
  wlet _ := run (if negb (gre_seqnum =? 0) then hset g GRE_seqnum_present 1 else ret tt) in
  wlet pkt := run (push pkt g) in
  wlet pkt := (if negb (gre_seqnum =? 0) then
                 wlet o := run (gre_sequence_number gre_seqnum) in run (push pkt o)
               else run (ret pkt)) in
  wlet x := run (erspan2 (er_vlan a) (er_cos a) (er_en a) (er_t a) (er_session_id a) erspan_index) in
  run (push pkt x).

(** utils.rs:778-876. *)
Definition w_create_erspan_3_packet (m : mode) (e : eth_args) (i : ip4_args) (gre_seqnum : N)
    (a : erspan_args) (erspan_timestamp erspan_sgt erspan_ft_d_other : N)
    (erspan_pltfm_id erspan_pltfm_info : N) (inner_pkt : option packet) : W packet :=
  wlet ipkt_vec := run (opt_to_vec inner_pkt) in
  let pktlen := (ht_size GRE + ht_size ERSPAN3)%nat in
  let pktlen := if negb (gre_seqnum =? 0) then (pktlen + ht_size GRESequenceNum)%nat else pktlen in
  let pktlen := if N.land erspan_ft_d_other 1 =? 1 then (pktlen + ht_size ERSPANPLATFORM)%nat
                else pktlen in
  let pktlen := (pktlen + opt_len inner_pkt)%nat in
  wlet pkt := w_create_ipv4_packet m e i (IpProtocol_code P_GRE) ipkt_vec in
  wlet ip := run (bump_total_len m pkt pktlen) in
  wlet _ := run (refresh_checksum m ip) in
  wlet g := run (hnew GRE) in
  wlet _ := run (hset g GRE_proto (EtherType_code E_ERSPANIII)) in
  wlet _ := run (hset g GRE_seqnum_present gre_seqnum) in
  wlet pkt := run (push pkt g) in
  wlet pkt := (if negb (gre_seqnum =? 0) then
                 wlet o := run (gre_sequence_number gre_seqnum) in run (push pkt o)
               else run (ret pkt)) in
  wlet x := run (erspan3 (er_vlan a) (er_cos a) (er_en a) (er_t a) (er_session_id a)
                         erspan_timestamp erspan_sgt erspan_ft_d_other) in
  wlet pkt := run (push pkt x) in
  wlet pkt := (if N.land erspan_ft_d_other 1 =? 1 then
                 let pltfm := N.lor (shl64 erspan_pltfm_id 58) erspan_pltfm_info in
                 wlet o := run (hfrom ERSPANPLATFORM (to_be 8 pltfm)) in run (push pkt o)
               else run (ret pkt)) in
  match inner_pkt with
  | Some p => run (pkt_add pkt p)
  | None => run (ret pkt)
  end.

(** Any packet constructor. *)
Definition w_pmake (m : mode) (ip6 : string -> option (list N)) (b : pmake) : W packet :=
  match b with
  | P_eth e t pl => w_create_eth_packet e t pl
  | P_arp e o sm tm si ti pl => w_create_arp_packet e o sm tm si ti pl
  | P_ipv4 e i p pl => w_create_ipv4_packet m e i p pl
  | P_ipv6 e i p pl => w_create_ipv6_packet ip6 e i p pl
  | P_tcp4 e i t pl => w_create_tcp_packet m e i t pl
  | P_udp4 e i d s pl => w_create_udp_packet m e i d s pl
  | P_icmp4 e i t c pl => w_create_icmp_packet m e i t c pl
  | P_ipv4ip e i p => w_create_ipv4ip_packet m e i p
  | P_ipv6ip e i p => w_create_ipv6ip_packet ip6 e i p
  | P_tcp6 e i t pl => w_create_tcpv6_packet m ip6 e i t pl
  | P_udp6 e i d s pl => w_create_udpv6_packet m ip6 e i d s pl
  | P_icmp6 e i t c pl => w_create_icmpv6_packet m ip6 e i t c pl
  | P_vxlan e i d s v p => w_create_vxlan_packet m e i d s v p
  | P_vxlan6 e i d s v p => w_create_vxlanv6_packet m ip6 e i d s v p
  | P_gre_pkt e i g p => w_create_gre_packet m e i g p
  | P_erspan2 e i q a x p => w_create_erspan_2_packet m e i q a x p
  | P_erspan3 e i q a ts sg f id info p => w_create_erspan_3_packet m e i q a ts sg f id info p
  end.

(** ** [show] *)

(** headers.rs:407-410 (234-237) with the [bit_range] of either kind of header. *)
Section Show.
Variable bit_range : nat -> nat -> M N.

Fixpoint w_show_octets (i n : nat) : W unit :=
  match n with
  | O => run (ret tt)
  | S n' =>
      wlet v := run (bit_range (i + 7) i) in
      wlet _ := say (fmt_02x (u8 v) ++ " ")%string in
      w_show_octets (i + 8) n'
  end.
(** headers.rs:401-421 (228-248). *)
Definition w_show_field (f : field) : W unit :=
  let w := f_width f in
  wlet _ := say (show_label f) in
  wlet _ :=
    (if (w <=? 8)%nat then
       wlet v := run (bit_range (f_end f) (f_start f)) in say (fmt_02x (u8 v))
     else if (w mod 8 =? 0)%nat then w_show_octets (f_start f) (w / 8)
     else
       wlet _ := w_show_octets (f_start f) (w / 8) in
       wlet v := run (bit_range (f_end f) (f_end f - w mod 8)) in
       say (fmt_02x (u8 v))) in
  say newline.
Fixpoint w_show_fields (l : list field) : W unit :=
  match l with
  | [] => run (ret tt)
  | f :: t => wlet _ := w_show_field f in w_show_fields t
  end.
(** headers.rs:397-423 (224-250). *)
Definition w_show_header (T : htype) : W unit :=
  wlet _ := say (show_heading T) in
  wlet _ := say show_rule in
  w_show_fields (ht_fields T).
End Show.

(** headers.rs:397-423 [X::show]. *)
Definition w_hshow (m : mode) (x : hdr) : W unit := w_show_header (hbit_range m x) (h_ty x).
(** headers.rs:224-250 [XSlice::show]. *)
Definition w_sshow (m : mode) (x : shdr) : W unit :=
  w_show_header (fun msb lsb => lift (get_bits m (v_bytes (s_view x)) msb lsb)) (s_ty x).

(** packet.rs:366-374 (750-758). *)
Fixpoint w_dump (v : list N) (x : nat) : W unit :=
  match v with
  | [] => run (ret tt)
  | i :: t =>
      wlet _ := say (fmt_02x i ++ " ")%string in
      let x := S x in
      if (x mod 16 =? 0)%nat then wlet _ := say newline in w_dump t 0 else w_dump t x
  end.
(** packet.rs:365-375 (749-759). *)
Definition w_show_raw (v : list N) : W unit :=
  wlet _ := say (newline ++ "#### raw " ++ fmt_num 10 (N.of_nat (length v)) ++ " bytes ####" ++ newline)%string in
  wlet _ := w_dump v 0 in
  say newline.

Fixpoint w_show_hdrs (m : mode) (l : list hdr) : W unit :=
  match l with
  | [] => run (ret tt)
  | x :: t => wlet _ := w_hshow m x in w_show_hdrs m t
  end.
(** packet.rs:360-376 [Packet::show]. *)
Definition w_pkt_show (m : mode) (p : packet) : W unit :=
  wlet _ := w_show_hdrs m (p_hdrs p) in
  wlet v := run (to_vec p) in
  w_show_raw v.

Fixpoint w_show_shdrs (m : mode) (l : list shdr) : W unit :=
  match l with
  | [] => run (ret tt)
  | x :: t => wlet _ := w_sshow m x in w_show_shdrs m t
  end.
(** packet.rs:744-760 [PacketSlice::show]. *)
Definition w_ps_show (m : mode) (q : packet_slice) : W unit :=
  wlet _ := w_show_shdrs m (ps_hdrs q) in
  w_show_raw (ps_to_vec q).

(** packet.rs:340-358 [compare_with_slice]. *)
Definition w_compare_with_slice (p : packet) (b : list N) : W bool :=
  let pktlen := pkt_len p in
  if negb (pktlen =? length b)%nat then
    wlet _ := say ("this " ++ fmt_usize pktlen ++ " other " ++ fmt_usize (length b) ++ newline)%string in
    run (ret false)
  else
    wlet a := run (to_vec p) in
    let mt := matching a b in
    if negb (pktlen =? mt)%nat || negb (length b =? mt)%nat then
      wlet _ := say ("this " ++ fmt_usize pktlen ++ " other " ++ fmt_usize (length b) ++
                     ", matching upto " ++ fmt_usize mt ++ " bytes" ++ newline)%string in
      run (ret false)
    else run (ret true).
(** packet.rs:326-329 [compare]. *)
Definition w_compare (p q : packet) : W bool :=
  wlet b := run (to_vec q) in w_compare_with_slice p b.

(** packet.rs:279-285 [__getitem__]: the header is named before it is converted. *)
Definition w_getitem (p : packet) (name : string) : W hdr :=
  wlet x := run (index_name p name) in
  wlet _ := say ("Getting " ++ hname x ++ newline)%string in
  run (to_object (Owned x)).

(** ** Any public call *)

Definition w_call (m : mode) (ip6 : string -> option (list N)) (k : call) : W kres :=
  match k with
  | K_hshow x => wlet _ := w_hshow m x in run (ret (KVal VUnit))
  | K_make b => wlet x := w_hmake m ip6 b in run (ret (KHdr x))
  | K_compare p q => wlet b := w_compare p q in run (ret (KBool b))
  | K_compare_slice p d => wlet b := w_compare_with_slice p d in run (ret (KBool b))
  | K_pshow p => wlet _ := w_pkt_show m p in run (ret (KVal VUnit))
  | K_mac s => wlet d := w_mac s in run (ret (KVal (VBytes d)))
  | K_ip4 s => wlet d := w_ip4 s in run (ret (KVal (VBytes d)))
  | K_create b => wlet p := w_pmake m ip6 b in run (ret (KPkt p))
  | K_sshow x => wlet _ := w_sshow m x in run (ret (KVal VUnit))
  | K_ps_show q => wlet _ := w_ps_show m q in run (ret (KVal VUnit))
  | K_ip6 s => wlet d := w_ip6 ip6 s in run (ret (KVal (VBytes d)))
  | _ => run (kexec m ip6 k)
  end.

(** What a program of calls has printed: the texts one after another (a panic is caught). *)
Fixpoint w_prog (m : mode) (ip6 : string -> option (list N)) (l : list call) (h : heap) : string * heap :=
  match l with
  | [] => (EmptyString, h)
  | k :: t =>
      let '(s, (_, h)) := w_call m ip6 k h in
      let '(r, h) := w_prog m ip6 t h in
      ((s ++ r)%string, h)
  end.
