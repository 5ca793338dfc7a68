(** Fast.v -- model of src/parser/fast.rs, of [PacketSlice] (src/lib.rs:137-140,
    src/packet.rs:714-761) and of the borrowed headers [XSlice]
    (src/headers.rs:173-296). *)

From Verif Require Import Base Bits Types Layout Slow.
Open Scope N_scope.

(** A [&[u8]]: a window of an allocation. *)
Record view := View { v_buf : list N; v_off : nat; v_len : nat }.

(** The bytes a view shows. *)
Definition v_bytes (v : view) : list N := firstn (v_len v) (skipn (v_off v) (v_buf v)).

(** The whole buffer. *)
Definition v_all (b : list N) : view := View b 0 (length b).

(** [a[i]]. *)
Definition v_index (v : view) (i : nat) : out N :=
  if (i <? v_len v)%nat then index (v_buf v) (v_off v + i) else Panic PIndex.
(** [&a[i..j]]. *)
Definition v_slice (v : view) (i j : nat) : out view :=
  if (i <=? j)%nat && (j <=? v_len v)%nat
  then Ret (View (v_buf v) (v_off v + i) (j - i)) else Panic PSlice.
(** [&a[i..]]. *)
Definition v_slice_from (v : view) (i : nat) : out view :=
  if (i <=? v_len v)%nat
  then Ret (View (v_buf v) (v_off v + i) (v_len v - i)) else Panic PSlice.
(** [slice::from_raw_parts(v.as_ptr(), n)]: undefined behaviour unless the [n]
    bytes lie in the slice the pointer was derived from. *)
Definition from_raw_parts (v : view) (n : nat) : out view :=
  if (n <=? v_len v)%nat then Ret (View (v_buf v) (v_off v) n) else UB.

(** headers.rs:173-175. *)
Record shdr := SHdr { s_ty : htype; s_view : view }.

(** headers.rs:177-194 [XSlice::from]: the length check is commented out. *)
Definition sfrom (T : htype) (v : view) : out shdr :=
  olet w := from_raw_parts v (ht_size T) in Ret (SHdr T w).

(** headers.rs:196-200 [XSlice::$field]. *)
Definition sget (m : mode) (x : shdr) (f : field) : out N :=
  get_bits m (v_bytes (s_view x)) (f_end f) (f_start f).
(** headers.rs:202-211 [XSlice::bytes]. *)
Definition sbytes (m : mode) (x : shdr) (msb lsb : nat) : out (list N) :=
  bytes_of m (v_bytes (s_view x)) msb lsb.
(** headers.rs:221-223, 272-277 [as_slice]/[to_vec]. *)
Definition sas_slice (x : shdr) : list N := v_bytes (s_view x).
(** headers.rs:215-217 [len]. *)
Definition slen (x : shdr) : nat := ht_size (s_ty x).
(** headers.rs:264-266: [set_bit_range] of a borrowed header does nothing. *)
Definition sset (x : shdr) (msb lsb : nat) (value : N) : shdr := x.

(** lib.rs:137-140. *)
Record packet_slice := PS { ps_hdrs : list shdr; ps_payload : view }.
(** packet.rs:715-720. *)
Definition ps_new : packet_slice := PS [] (View [] 0 0).
(** packet.rs:724-726. *)
Definition ps_insert (p : packet_slice) (x : shdr) : packet_slice :=
  PS (x :: ps_hdrs p) (ps_payload p).
(** packet.rs:727-729: replaces. *)
Definition ps_set_payload (p : packet_slice) (v : view) : packet_slice := PS (ps_hdrs p) v.
(** packet.rs:733-740. *)
Definition ps_to_vec (p : packet_slice) : list N :=
  concat (map sas_slice (ps_hdrs p)) ++ v_bytes (ps_payload p).
(** packet.rs:741-743. *)
Definition ps_len (p : packet_slice) : nat :=
  (list_sum (map slen (ps_hdrs p)) + v_len (ps_payload p))%nat.

Section Bodies.
Variable m : mode.
Variable rec : pfun -> view -> out packet_slice.

(** [XSlice::from(&arr[i..i+size])]. *)
Definition stake (T : htype) (arr : view) (i : nat) : out shdr :=
  olet d := v_slice arr i (i + ht_size T) in sfrom T d.

(** [parse_x(&arr[i..])]. *)
Definition scall (f : pfun) (arr : view) (i : nat) : out packet_slice :=
  olet rest := v_slice_from arr i in rec f rest.

(** fast.rs:5-12. *)
Definition fparse_body (arr : view) : out packet_slice :=
  olet a := v_index arr 12 in
  olet b := v_index arr 13 in
  let len := N.lor (shl16 a 8) b in
  if len <? 1500 then rec F_dot3 arr else rec F_ethernet arr.

(** fast.rs:13-18. *)
Definition fparse_dot3_body (arr : view) : out packet_slice :=
  olet x := stake Dot3 arr 0 in
  olet pkt := scall F_llc arr (ht_size Dot3) in
  Ret (ps_insert pkt x).

(** fast.rs:21. *)
Definition fis_snap (arr : view) : out bool :=
  olet a := v_index arr 0 in
  if a =? 0xAA then
    olet b := v_index arr 1 in
    if b =? 0xAA then
      olet c := v_index arr 2 in
      Ret (c =? 0x03)
    else Ret false
  else Ret false.

(** fast.rs:19-28. *)
Definition fparse_llc_body (arr : view) : out packet_slice :=
  olet x := stake LLC arr 0 in
  olet c := fis_snap arr in
  olet pkt := (if c then scall F_snap arr (ht_size LLC) else scall F_accept arr (ht_size LLC)) in
  Ret (ps_insert pkt x).

(** fast.rs:29-34. *)
Definition fparse_snap_body (arr : view) : out packet_slice :=
  olet x := stake SNAP arr 0 in
  olet pkt := scall F_accept arr (ht_size SNAP) in
  Ret (ps_insert pkt x).

(** fast.rs:35-48. *)
Definition fparse_ethernet_body (arr : view) : out packet_slice :=
  olet x := stake Ether arr 0 in
  olet et := sget m x Ether_etype in
  olet pkt :=
    match EtherType_try_from (u16 et) with
    | Some E_DOT1Q => scall F_vlan arr (ht_size Ether)
    | Some E_ARP => scall F_arp arr (ht_size Ether)
    | Some E_IPV4 => scall F_ipv4 arr (ht_size Ether)
    | Some E_IPV6 => scall F_ipv6 arr (ht_size Ether)
    | Some E_MPLS => scall F_mpls arr (ht_size Ether)
    | _ => scall F_accept arr (ht_size Ether)
    end in
  Ret (ps_insert pkt x).

(** fast.rs:49-62. *)
Definition fparse_vlan_body (arr : view) : out packet_slice :=
  olet x := stake Vlan arr 0 in
  olet et := sget m x Vlan_etype in
  olet pkt :=
    match EtherType_try_from (u16 et) with
    | Some E_DOT1Q => scall F_vlan arr (ht_size Vlan)
    | Some E_ARP => scall F_arp arr (ht_size Vlan)
    | Some E_IPV4 => scall F_ipv4 arr (ht_size Vlan)
    | Some E_IPV6 => scall F_ipv6 arr (ht_size Vlan)
    | Some E_MPLS => scall F_mpls arr (ht_size Vlan)
    | _ => scall F_accept arr (ht_size Vlan)
    end in
  Ret (ps_insert pkt x).

(** fast.rs:63-73. *)
Definition fparse_mpls_body (arr : view) : out packet_slice :=
  olet x := stake MPLS arr 0 in
  olet bos := sget m x MPLS_bos in
  olet pkt := (if bos =? 1 then scall F_mpls_bos arr (ht_size MPLS)
               else scall F_mpls arr (ht_size MPLS)) in
  Ret (ps_insert pkt x).

(** fast.rs:74-83. *)
Definition fparse_mpls_bos_body (arr : view) : out packet_slice :=
  olet x := stake MPLS arr 0 in
  olet b := v_index arr (ht_size MPLS) in
  olet pkt :=
    match IpType_try_from (N.land (N.shiftr b 4) 0xf) with
    | Some V4 => scall F_ipv4 arr (ht_size MPLS)
    | Some V6 => scall F_ipv6 arr (ht_size MPLS)
    | None => scall F_ethernet arr (ht_size MPLS)
    end in
  Ret (ps_insert pkt x).

(** fast.rs:84-98. *)
Definition fparse_ipv4_body (arr : view) : out packet_slice :=
  olet x := stake IPv4 arr 0 in
  olet p := sget m x IPv4_protocol in
  olet pkt :=
    match IpProtocol_try_from (u8 p) with
    | Some P_ICMP => scall F_icmp arr (ht_size IPv4)
    | Some P_IPIP => scall F_ipv4 arr (ht_size IPv4)
    | Some P_TCP => scall F_tcp arr (ht_size IPv4)
    | Some P_UDP => scall F_udp arr (ht_size IPv4)
    | Some P_IPV6 => scall F_ipv6 arr (ht_size IPv4)
    | Some P_GRE => scall F_gre arr (ht_size IPv4)
    | _ => scall F_accept arr (ht_size IPv4)
    end in
  Ret (ps_insert pkt x).

(** fast.rs:99-113. *)
Definition fparse_ipv6_body (arr : view) : out packet_slice :=
  olet x := stake IPv6 arr 0 in
  olet p := sget m x IPv6_next_hdr in
  olet pkt :=
    match IpProtocol_try_from (u8 p) with
    | Some P_ICMPV6 => scall F_icmp arr (ht_size IPv6)
    | Some P_IPIP => scall F_ipv4 arr (ht_size IPv6)
    | Some P_TCP => scall F_tcp arr (ht_size IPv6)
    | Some P_UDP => scall F_udp arr (ht_size IPv6)
    | Some P_IPV6 => scall F_ipv6 arr (ht_size IPv6)
    | Some P_GRE => scall F_gre arr (ht_size IPv6)
    | _ => scall F_accept arr (ht_size IPv6)
    end in
  Ret (ps_insert pkt x).

(** fast.rs:122-130, 131-137, 138-146, 177-185. *)
Definition sopt_hdr (flag : N) (T : htype) (arr : view) (offset : nat) : out (option shdr * nat) :=
  if flag =? 1 then
    olet x := stake T arr offset in
    Ret (Some x, (offset + ht_size T)%nat)
  else Ret (None, offset).

(** fast.rs:154-162, 187-189. *)
Definition ps_insert_opt (pkt : packet_slice) (o : option shdr) : packet_slice :=
  match o with
  | Some x => ps_insert pkt x
  | None => pkt
  end.

(** fast.rs:114-165. *)
Definition fparse_gre_body (arr : view) : out packet_slice :=
  olet x := stake GRE arr 0 in
  olet pr := sget m x GRE_proto in
  olet chksum_present := sget m x GRE_chksum_present in
  olet seqnum_present := sget m x GRE_seqnum_present in
  olet key_present := sget m x GRE_key_present in
  olet (gco, offset) := sopt_hdr chksum_present GREChksumOffset arr (0 + ht_size GRE) in
  olet (gk, offset) := sopt_hdr key_present GREKey arr offset in
  olet (gsn, offset) := sopt_hdr seqnum_present GRESequenceNum arr offset in
  olet pkt :=
    match EtherType_try_from (u16 pr) with
    | Some E_IPV4 => scall F_ipv4 arr offset
    | Some E_IPV6 => scall F_ipv6 arr offset
    | Some E_ERSPANII => scall F_erspan2 arr offset
    | Some E_ERSPANIII => scall F_erspan3 arr offset
    | _ => scall F_accept arr offset
    end in
  let pkt := ps_insert_opt pkt gco in
  let pkt := ps_insert_opt pkt gk in
  let pkt := ps_insert_opt pkt gsn in
  Ret (ps_insert pkt x).

(** fast.rs:166-171. *)
Definition fparse_erspan2_body (arr : view) : out packet_slice :=
  olet x := stake ERSPAN2 arr 0 in
  olet pkt := scall F_ethernet arr (ht_size ERSPAN2) in
  Ret (ps_insert pkt x).

(** fast.rs:172-192. *)
Definition fparse_erspan3_body (arr : view) : out packet_slice :=
  olet x := stake ERSPAN3 arr 0 in
  olet o := sget m x ERSPAN3_o in
  olet (platform, offset) := sopt_hdr o ERSPANPLATFORM arr (0 + ht_size ERSPAN3) in
  olet pkt := scall F_ethernet arr offset in
  let pkt := ps_insert_opt pkt platform in
  Ret (ps_insert pkt x).

(** fast.rs:193-197, 198-202, 203-207. *)
Definition fparse_leaf_body (T : htype) (arr : view) : out packet_slice :=
  olet pkt := scall F_accept arr (ht_size T) in
  olet x := stake T arr 0 in
  Ret (ps_insert pkt x).

(** fast.rs:208-217. *)
Definition fparse_udp_body (arr : view) : out packet_slice :=
  olet x := stake UDP arr 0 in
  olet d := sget m x UDP_dst in
  olet pkt := (if u16 d =? 4789 (* UDP_PORT_VXLAN, types.rs:7 *)
               then scall F_vxlan arr (ht_size UDP)
               else scall F_accept arr (ht_size UDP)) in
  Ret (ps_insert pkt x).

(** fast.rs:218-222. *)
Definition fparse_vxlan_body (arr : view) : out packet_slice :=
  olet pkt := scall F_ethernet arr (ht_size Vxlan) in
  olet x := stake Vxlan arr 0 in
  Ret (ps_insert pkt x).

(** fast.rs:223-227. *)
Definition faccept_body (arr : view) : out packet_slice :=
  Ret (ps_set_payload ps_new arr).

Definition fast_body (f : pfun) : view -> out packet_slice :=
  match f with
  | F_parse => fparse_body
  | F_dot3 => fparse_dot3_body
  | F_llc => fparse_llc_body
  | F_snap => fparse_snap_body
  | F_ethernet => fparse_ethernet_body
  | F_vlan => fparse_vlan_body
  | F_mpls => fparse_mpls_body
  | F_mpls_bos => fparse_mpls_bos_body
  | F_ipv4 => fparse_ipv4_body
  | F_ipv6 => fparse_ipv6_body
  | F_gre => fparse_gre_body
  | F_erspan2 => fparse_erspan2_body
  | F_erspan3 => fparse_erspan3_body
  | F_arp => fparse_leaf_body ARP
  | F_icmp => fparse_leaf_body ICMP
  | F_tcp => fparse_leaf_body TCP
  | F_udp => fparse_udp_body
  | F_vxlan => fparse_vxlan_body
  | F_accept => faccept_body
  end.
End Bodies.

Fixpoint fast_fuel (m : mode) (fuel : nat) (f : pfun) (arr : view) : out packet_slice :=
  match fuel with
  | O => Fuel
  | S n => fast_body m (fast_fuel m n) f arr
  end.

(** [parser::fast::parse_x(arr)]; fuel as in Slow.v. *)
Definition fast_view (m : mode) (f : pfun) (arr : view) : out packet_slice :=
  fast_fuel m (v_len arr + 3) f arr.
Definition fast (m : mode) (f : pfun) (b : list N) : out packet_slice := fast_view m f (v_all b).
