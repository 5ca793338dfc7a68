(** Slow.v -- model of src/parser/slow.rs, function by function.

    Each Rust function becomes a body that is given the functions it calls as
    [rec]; [slow_fuel] ties the knot with a recursion bound, and [slow] starts
    it with more fuel than the input has bytes. SlowProofs.v proves that the
    bound is never hit and that [slow] satisfies the Rust equations. *)

From Verif Require Import Base Bits Types Layout Heap Packet.
Open Scope N_scope.

(** The functions of slow.rs (and fast.rs, which has the same names). *)
Inductive pfun :=
| F_parse | F_dot3 | F_llc | F_snap | F_ethernet | F_vlan | F_mpls | F_mpls_bos
| F_ipv4 | F_ipv6 | F_gre | F_erspan2 | F_erspan3 | F_arp | F_icmp | F_tcp
| F_udp | F_vxlan | F_accept.

Section Bodies.
Variable m : mode.
Variable rec : pfun -> list N -> M packet.

(** [X::from(arr[i..j].to_vec())]. *)
Definition take_hdr (T : htype) (arr : list N) (i : nat) : M hdr :=
  mlet d := lift (slice arr i (i + ht_size T)) in
  hfrom T d.

(** [parse_x(&arr[i..])]. *)
Definition call (f : pfun) (arr : list N) (i : nat) : M packet :=
  mlet rest := lift (slice_from arr i) in
  rec f rest.

(** slow.rs:5-12. *)
Definition parse_body (arr : list N) : M packet :=
  mlet a := lift (index arr 12) in
  mlet b := lift (index arr 13) in
  let len := N.lor (shl16 a 8) b in
  if len <? 1500 then rec F_dot3 arr else rec F_ethernet arr.

(** slow.rs:13-18. *)
Definition parse_dot3_body (arr : list N) : M packet :=
  mlet x := take_hdr Dot3 arr 0 in
  mlet pkt := call F_llc arr (ht_size Dot3) in
  insert pkt x.

(** slow.rs:21: [arr[0] == 0xAA && arr[1] == 0xAA && arr[2] == 0x03], short-circuit. *)
Definition is_snap (arr : list N) : out bool :=
  olet a := index arr 0 in
  if a =? 0xAA then
    olet b := index arr 1 in
    if b =? 0xAA then
      olet c := index arr 2 in
      Ret (c =? 0x03)
    else Ret false
  else Ret false.

(** slow.rs:19-28. *)
Definition parse_llc_body (arr : list N) : M packet :=
  mlet x := take_hdr LLC arr 0 in
  mlet c := lift (is_snap arr) in
  mlet pkt := (if c then call F_snap arr (ht_size LLC) else call F_accept arr (ht_size LLC)) in
  insert pkt x.

(** slow.rs:29-34. *)
Definition parse_snap_body (arr : list N) : M packet :=
  mlet x := take_hdr SNAP arr 0 in
  mlet pkt := call F_accept arr (ht_size SNAP) in
  insert pkt x.

(** slow.rs:35-48. *)
Definition parse_ethernet_body (arr : list N) : M packet :=
  mlet x := take_hdr Ether arr 0 in
  mlet et := hget m x Ether_etype in
  mlet pkt :=
    match EtherType_try_from (u16 et) with
    | Some E_DOT1Q => call F_vlan arr (ht_size Ether)
    | Some E_ARP => call F_arp arr (ht_size Ether)
    | Some E_IPV4 => call F_ipv4 arr (ht_size Ether)
    | Some E_IPV6 => call F_ipv6 arr (ht_size Ether)
    | Some E_MPLS => call F_mpls arr (ht_size Ether)
    | _ => call F_accept arr (ht_size Ether)
    end in
  insert pkt x.

(** slow.rs:49-62. *)
Definition parse_vlan_body (arr : list N) : M packet :=
  mlet x := take_hdr Vlan arr 0 in
  mlet et := hget m x Vlan_etype in
  mlet pkt :=
    match EtherType_try_from (u16 et) with
    | Some E_DOT1Q => call F_vlan arr (ht_size Vlan)
    | Some E_ARP => call F_arp arr (ht_size Vlan)
    | Some E_IPV4 => call F_ipv4 arr (ht_size Vlan)
    | Some E_IPV6 => call F_ipv6 arr (ht_size Vlan)
    | Some E_MPLS => call F_mpls arr (ht_size Vlan)
    | _ => call F_accept arr (ht_size Vlan)
    end in
  insert pkt x.

(** slow.rs:63-73. *)
Definition parse_mpls_body (arr : list N) : M packet :=
  mlet x := take_hdr MPLS arr 0 in
  mlet bos := hget m x MPLS_bos in
  mlet pkt := (if bos =? 1 then call F_mpls_bos arr (ht_size MPLS)
               else call F_mpls arr (ht_size MPLS)) in
  insert pkt x.

(** slow.rs:74-83. *)
Definition parse_mpls_bos_body (arr : list N) : M packet :=
  mlet x := take_hdr MPLS arr 0 in
  mlet b := lift (index arr (ht_size MPLS)) in
  mlet pkt :=
    match IpType_try_from (N.land (N.shiftr b 4) 0xf) with
    | Some V4 => call F_ipv4 arr (ht_size MPLS)
    | Some V6 => call F_ipv6 arr (ht_size MPLS)
    | None => call F_ethernet arr (ht_size MPLS)
    end in
  insert pkt x.

(** slow.rs:84-98. *)
Definition parse_ipv4_body (arr : list N) : M packet :=
  mlet x := take_hdr IPv4 arr 0 in
  mlet p := hget m x IPv4_protocol in
  mlet pkt :=
    match IpProtocol_try_from (u8 p) with
    | Some P_ICMP => call F_icmp arr (ht_size IPv4)
    | Some P_IPIP => call F_ipv4 arr (ht_size IPv4)
    | Some P_TCP => call F_tcp arr (ht_size IPv4)
    | Some P_UDP => call F_udp arr (ht_size IPv4)
    | Some P_IPV6 => call F_ipv6 arr (ht_size IPv4)
    | Some P_GRE => call F_gre arr (ht_size IPv4)
    | _ => call F_accept arr (ht_size IPv4)
    end in
  insert pkt x.

(** slow.rs:99-113. *)
Definition parse_ipv6_body (arr : list N) : M packet :=
  mlet x := take_hdr IPv6 arr 0 in
  mlet p := hget m x IPv6_next_hdr in
  mlet pkt :=
    match IpProtocol_try_from (u8 p) with
    | Some P_ICMPV6 => call F_icmp arr (ht_size IPv6)
    | Some P_IPIP => call F_ipv4 arr (ht_size IPv6)
    | Some P_TCP => call F_tcp arr (ht_size IPv6)
    | Some P_UDP => call F_udp arr (ht_size IPv6)
    | Some P_IPV6 => call F_ipv6 arr (ht_size IPv6)
    | Some P_GRE => call F_gre arr (ht_size IPv6)
    | _ => call F_accept arr (ht_size IPv6)
    end in
  insert pkt x.

(** slow.rs:122-130, 131-137, 138-146, 177-185:
    [if flag == 1 { let p = Some(X::from(arr[offset..offset+size])); offset += size; p } else { None }]. *)
Definition opt_hdr (flag : N) (T : htype) (arr : list N) (offset : nat) : M (option hdr * nat) :=
  if flag =? 1 then
    mlet x := take_hdr T arr offset in
    ret (Some x, (offset + ht_size T)%nat)
  else ret (None, offset).

(** slow.rs:154-162, 187-189: [if let Some(p) = o { pkt.insert(p); }]. *)
Definition insert_opt (pkt : packet) (o : option hdr) : M packet :=
  match o with
  | Some x => insert pkt x
  | None => ret pkt
  end.

(** slow.rs:114-165. *)
Definition parse_gre_body (arr : list N) : M packet :=
  mlet x := take_hdr GRE arr 0 in
  mlet pr := hget m x GRE_proto in
  mlet chksum_present := hget m x GRE_chksum_present in
  mlet seqnum_present := hget m x GRE_seqnum_present in
  mlet key_present := hget m x GRE_key_present in
  mlet (gco, offset) := opt_hdr chksum_present GREChksumOffset arr (0 + ht_size GRE) in
  mlet (gk, offset) := opt_hdr key_present GREKey arr offset in
  mlet (gsn, offset) := opt_hdr seqnum_present GRESequenceNum arr offset in
  mlet pkt :=
    match EtherType_try_from (u16 pr) with
    | Some E_IPV4 => call F_ipv4 arr offset
    | Some E_IPV6 => call F_ipv6 arr offset
    | Some E_ERSPANII => call F_erspan2 arr offset
    | Some E_ERSPANIII => call F_erspan3 arr offset
    | _ => call F_accept arr offset
    end in
  mlet pkt := insert_opt pkt gco in
  mlet pkt := insert_opt pkt gk in
  mlet pkt := insert_opt pkt gsn in
  insert pkt x.

(** slow.rs:166-171. *)
Definition parse_erspan2_body (arr : list N) : M packet :=
  mlet x := take_hdr ERSPAN2 arr 0 in
  mlet pkt := call F_ethernet arr (ht_size ERSPAN2) in
  insert pkt x.

(** slow.rs:172-192. *)
Definition parse_erspan3_body (arr : list N) : M packet :=
  mlet x := take_hdr ERSPAN3 arr 0 in
  mlet o := hget m x ERSPAN3_o in
  mlet (platform, offset) := opt_hdr o ERSPANPLATFORM arr (0 + ht_size ERSPAN3) in
  mlet pkt := call F_ethernet arr offset in
  mlet pkt := insert_opt pkt platform in
  insert pkt x.

(** slow.rs:193-197, 198-202, 203-207: the payload is sliced before the header is. *)
Definition parse_leaf_body (T : htype) (arr : list N) : M packet :=
  mlet pkt := call F_accept arr (ht_size T) in
  mlet x := take_hdr T arr 0 in
  insert pkt x.

(** slow.rs:208-217. *)
Definition parse_udp_body (arr : list N) : M packet :=
  mlet x := take_hdr UDP arr 0 in
  mlet d := hget m x UDP_dst in
  mlet pkt := (if u16 d =? 4789 (* UDP_PORT_VXLAN, types.rs:7 *)
               then call F_vxlan arr (ht_size UDP)
               else call F_accept arr (ht_size UDP)) in
  insert pkt x.

(** slow.rs:218-222: the inner frame is parsed before the header is copied. *)
Definition parse_vxlan_body (arr : list N) : M packet :=
  mlet pkt := call F_ethernet arr (ht_size Vxlan) in
  mlet x := take_hdr Vxlan arr 0 in
  insert pkt x.

(** slow.rs:223-227. *)
Definition accept_body (arr : list N) : M packet :=
  ret (set_payload pkt_new arr).

Definition slow_body (f : pfun) : list N -> M packet :=
  match f with
  | F_parse => parse_body
  | F_dot3 => parse_dot3_body
  | F_llc => parse_llc_body
  | F_snap => parse_snap_body
  | F_ethernet => parse_ethernet_body
  | F_vlan => parse_vlan_body
  | F_mpls => parse_mpls_body
  | F_mpls_bos => parse_mpls_bos_body
  | F_ipv4 => parse_ipv4_body
  | F_ipv6 => parse_ipv6_body
  | F_gre => parse_gre_body
  | F_erspan2 => parse_erspan2_body
  | F_erspan3 => parse_erspan3_body
  | F_arp => parse_leaf_body ARP
  | F_icmp => parse_leaf_body ICMP
  | F_tcp => parse_leaf_body TCP
  | F_udp => parse_udp_body
  | F_vxlan => parse_vxlan_body
  | F_accept => accept_body
  end.
End Bodies.

Fixpoint slow_fuel (m : mode) (fuel : nat) (f : pfun) (arr : list N) : M packet :=
  match fuel with
  | O => fun h => (Fuel, h)
  | S n => slow_body m (slow_fuel m n) f arr
  end.

(** [parser::slow::parse_x(arr)]. Three more than the length: [parse] calls
    [parse_dot3] on the whole input, and [accept] is called on what is left. *)
Definition slow (m : mode) (f : pfun) (arr : list N) : M packet :=
  slow_fuel m (length arr + 3) f arr.
