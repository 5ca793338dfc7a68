(** Client.v -- a program that uses the crate: any sequence of calls of public
    functions, one thread. A value once obtained can be used again, also one that
    Rust would consider moved or mutated away, so every Rust program is included.

    Not included: the Python bindings, and what threads do to each other (Conc.v). *)

From Verif Require Import Base Bits Types Layout Heap Packet Text Build Utils Slow Fast Show Ops.
Open Scope N_scope.

(** The header constructors, packet.rs:405-643 (Build.v). *)
Inductive hmake :=
| H_ethernet (dst src : string) (etype : N)
| H_dot3 (dst src : string) (len : N)
| H_llc (dsap ssap ctrl : N)
| H_arp (opcode : N) (sender_mac target_mac sender_ip target_ip : string)
| H_vlan (pcp cfi vid etype : N)
| H_ipv4 (ihl tos id ttl frag proto : N) (src dst : string) (pktlen : N)
| H_ipv6 (traffic_class flow_label next_hdr hop_limit : N) (src dst : string) (pktlen : N)
| H_udp (src dst len : N)
| H_icmp (icmp_type icmp_code : N)
| H_tcp (src dst seq_no ack_no data_offset res flags window chksum urgent_ptr : N)
| H_vxlan (vni : N)
| H_gre (c r k seqnum s : bool) (flags ver proto : N)
| H_gre_chksum_offset (chksum offset : N)
| H_gre_sequence_number (seqnum : N)
| H_gre_key (key : N)
| H_erspan2 (vlan cos en t session_id idx : N)
| H_erspan3 (vlan cos en t session_id timestamp sgt ft_d_other : N)
| H_mpls (label exp bos ttl : N)
| H_snap (oui code : N).

Definition hmake_run (m : mode) (ip6 : string -> option (list N)) (b : hmake) : M hdr :=
  match b with
  | H_ethernet d s e => ethernet d s e
  | H_dot3 d s l => dot3 d s l
  | H_llc d s c => llc d s c
  | H_arp o sm tm si ti => arp o sm tm si ti
  | H_vlan p c v e => vlan p c v e
  | H_ipv4 ihl tos id ttl frag proto src dst len => ipv4 m ihl tos id ttl frag proto src dst len
  | H_ipv6 tc fl nh hl src dst len => ipv6 ip6 tc fl nh hl src dst len
  | H_udp s d l => udp s d l
  | H_icmp t c => icmp t c
  | H_tcp s d sn an o r f w c u => tcp s d sn an o r f w c u
  | H_vxlan v => vxlan v
  | H_gre c r k q s f v p => gre c r k q s f v p
  | H_gre_chksum_offset c o => gre_chksum_offset c o
  | H_gre_sequence_number s => gre_sequence_number s
  | H_gre_key k => gre_key k
  | H_erspan2 v c e t s i => erspan2 v c e t s i
  | H_erspan3 v c e t s ts sg f => erspan3 v c e t s ts sg f
  | H_mpls l e b t => mpls l e b t
  | H_snap o c => snap o c
  end.

(** The packet constructors, utils.rs (Utils.v). *)
Inductive pmake :=
| P_eth (e : eth_args) (etype : N) (pl : list N)
| P_arp (e : eth_args) (opcode : N) (sender_mac target_mac sender_ip target_ip : string) (pl : list N)
| P_ipv4 (e : eth_args) (i : ip4_args) (proto : N) (pl : list N)
| P_ipv6 (e : eth_args) (i : ip6_args) (next_hdr : N) (pl : list N)
| P_tcp4 (e : eth_args) (i : ip4_args) (t : tcp_args) (pl : list N)
| P_udp4 (e : eth_args) (i : ip4_args) (dst src : N) (pl : list N)
| P_icmp4 (e : eth_args) (i : ip4_args) (ty code : N) (pl : list N)
| P_ipv4ip (e : eth_args) (i : ip4_args) (inner : packet)
| P_ipv6ip (e : eth_args) (i : ip6_args) (inner : packet)
| P_tcp6 (e : eth_args) (i : ip6_args) (t : tcp_args) (pl : list N)
| P_udp6 (e : eth_args) (i : ip6_args) (dst src : N) (pl : list N)
| P_icmp6 (e : eth_args) (i : ip6_args) (ty code : N) (pl : list N)
| P_vxlan (e : eth_args) (i : ip4_args) (dst src vni : N) (inner : packet)
| P_vxlan6 (e : eth_args) (i : ip6_args) (dst src vni : N) (inner : packet)
| P_gre_pkt (e : eth_args) (i : ip4_args) (g : gre_args) (inner : option packet)
| P_erspan2 (e : eth_args) (i : ip4_args) (seqnum : N) (a : erspan_args) (idx : N) (inner : option packet)
| P_erspan3 (e : eth_args) (i : ip4_args) (seqnum : N) (a : erspan_args) (ts sgt ft_d_other id info : N)
    (inner : option packet).

Definition pmake_run (m : mode) (ip6 : string -> option (list N)) (b : pmake) : M packet :=
  match b with
  | P_eth e t pl => create_eth_packet e t pl
  | P_arp e o sm tm si ti pl => create_arp_packet e o sm tm si ti pl
  | P_ipv4 e i p pl => create_ipv4_packet m e i p pl
  | P_ipv6 e i p pl => create_ipv6_packet ip6 e i p pl
  | P_tcp4 e i t pl => create_tcp_packet m e i t pl
  | P_udp4 e i d s pl => create_udp_packet m e i d s pl
  | P_icmp4 e i t c pl => create_icmp_packet m e i t c pl
  | P_ipv4ip e i p => create_ipv4ip_packet m e i p
  | P_ipv6ip e i p => create_ipv6ip_packet ip6 e i p
  | P_tcp6 e i t pl => create_tcpv6_packet m ip6 e i t pl
  | P_udp6 e i d s pl => create_udpv6_packet m ip6 e i d s pl
  | P_icmp6 e i t c pl => create_icmpv6_packet m ip6 e i t c pl
  | P_vxlan e i d s v p => create_vxlan_packet m e i d s v p
  | P_vxlan6 e i d s v p => create_vxlanv6_packet m ip6 e i d s v p
  | P_gre_pkt e i g p => create_gre_packet m e i g p
  | P_erspan2 e i q a x p => create_erspan_2_packet m e i q a x p
  | P_erspan3 e i q a ts sg f id info p => create_erspan_3_packet m e i q a ts sg f id info p
  end.

(** The inner packets of a packet constructor. *)
Definition pmake_inner (b : pmake) : list packet :=
  match b with
  | P_ipv4ip _ _ p | P_ipv6ip _ _ p | P_vxlan _ _ _ _ _ p | P_vxlan6 _ _ _ _ _ p
  | P_gre_pkt _ _ _ (Some p) | P_erspan2 _ _ _ _ _ (Some p) | P_erspan3 _ _ _ _ _ _ _ _ _ (Some p) => [p]
  | _ => []
  end.

(** Calls that only look at values the program has: no buffer is locked or made. *)
Inductive query :=
| Q_len (p : packet)                                (* p.len(), packet.rs:402-404 *)
| Q_payload (p : packet)                            (* p.payload(), 197-199 *)
| Q_name (x : hdr)                                  (* x.name(), headers.rs:372-374, 498-500 *)
| Q_hlen (x : hdr)                                  (* x.len(), 369-371, 501-503 *)
| Q_as_slice (x : hdr)                              (* Header::as_slice(&x), 489-491 *)
| Q_size (T : htype)                                (* X::size(), 366-368; XSlice::size(), 212-214 *)
| Q_field_size (f : field)                          (* X::field_size(), 376-380 *)
| Q_field_lsb (f : field)                           (* X::field_lsb(), 381-385 *)
| Q_field_msb (f : field)                           (* X::field_msb(), 386-390 *)
| Q_ps_new                                          (* PacketSlice::new(), packet.rs:715-720 *)
| Q_ps_len (q : packet_slice)                       (* q.len(), 741-743 *)
| Q_ps_payload (q : packet_slice)                   (* q.payload(), 730-732 *)
| Q_ps_to_vec (q : packet_slice)                    (* q.to_vec(), 733-740 *)
| Q_sname (x : shdr)                                (* x.name(), headers.rs:218-220, 284-286 *)
| Q_slen (x : shdr)                                 (* x.len(), 215-217, 287-289 *)
| Q_sas_slice (x : shdr)                            (* x.as_slice(), x.to_vec(), 221-223, 272-277 *)
| Q_sbit_range (x : shdr) (msb lsb : nat)           (* x.bit_range(msb, lsb), 253-263 *)
| Q_sset (x : shdr) (msb lsb : nat) (v : N)         (* x.set_bit_range(msb, lsb, v), 264-266 *)
| Q_sclone (x : shdr).                              (* Header::{clone, to_owned, as_any, as_any_mut}, 278-283, 290-295 *)

(** A call of a public function. *)
Inductive call :=
| K_hdr (o : hop)                                   (* a method of a header, Ops.v *)
| K_downcast (T : htype) (x : hdr)                  (* <&X>::from(&boxed), headers.rs:464-481 *)
| K_hshow (x : hdr)                                 (* x.show(), headers.rs:397-423 *)
| K_make (b : hmake)                                (* Packet::ethernet(..) ... *)
| K_pnew                                            (* Packet::new(), packet.rs:311-316 *)
| K_push (p : packet) (a : any_header)              (* p.push(a), packet.rs:117-119 *)
| K_insert (p : packet) (a : any_header)            (* p.insert(a), 129-131 *)
| K_pop (p : packet)                                (* p.pop(), 143-147 *)
| K_remove (p : packet) (i : nat)                   (* p.remove(i), 160-164 *)
| K_set_payload (p : packet) (d : list N)           (* p.set_payload(d), 179-181 *)
| K_add (p q : packet)                              (* p + q, 75-84 *)
| K_pclone (p : packet)                             (* p.clone(), 86-90 *)
| K_index (p : packet) (name : string)              (* p[name], 61-73 *)
| K_get_header (T : htype) (p : packet) (name : string)  (* p.get_header::<X>(name), 221-259 *)
| K_pto_vec (p : packet)                            (* p.to_vec(), 385-392 *)
| K_compare (p q : packet)                          (* p.compare(&q), 326-329 *)
| K_compare_slice (p : packet) (d : list N)         (* p.compare_with_slice(d), 340-358 *)
| K_pshow (p : packet)                              (* p.show(), 360-376 *)
| K_checksum (d : list N)                           (* Packet::ipv4_checksum(d), 93-107 *)
| K_mac (s : string)                                (* s.to_mac_bytes(), 20-33 *)
| K_ip4 (s : string)                                (* s.to_ipv4_bytes(), 35-48 *)
| K_create (b : pmake)                              (* utils::create_*_packet(..) *)
| K_parse (f : pfun) (d : list N)                   (* parser::slow::parse_*(d) *)
| K_fast (f : pfun) (v : view)                      (* parser::fast::parse_*(v) *)
| K_sfrom (T : htype) (v : view)                    (* XSlice::from(v), headers.rs:177-194 *)
| K_sget (x : shdr) (f : field)                     (* x.field(), 196-200 *)
| K_sbytes (x : shdr) (msb lsb : nat)               (* x.bytes(msb, lsb), 202-211 *)
| K_sshow (x : shdr)                                (* x.show(), 224-250 *)
| K_ps_show (q : packet_slice)                      (* q.show(), packet.rs:744-760 *)
| K_ip6 (s : string)                                (* s.to_ipv6_bytes(), packet.rs:49-58 *)
| K_query (q : query).

(** What a call returns. *)
Inductive kres :=
| KVal (v : val) | KBool (b : bool) | KText (s : string)
| KHdr (x : hdr) | KPkt (p : packet) | KSHdr (x : shdr) | KSlice (q : packet_slice).

(** A [&str] as its bytes. *)
Definition text_bytes (s : string) : list N := map N_of_ascii (list_ascii_of_string s).
Definition query_run (m : mode) (q : query) : out kres :=
  let num n := Ret (KVal (VNum (N.of_nat n))) in
  match q with
  | Q_len p => num (pkt_len p)
  | Q_payload p => Ret (KVal (VBytes (p_payload p)))
  | Q_name x => Ret (KVal (VBytes (text_bytes (hname x))))
  | Q_hlen x => num (hlen x)
  | Q_as_slice _ => Panic PUnimpl
  | Q_size T => num (ht_size T)
  | Q_field_size f => num (f_end f - f_start f + 1)%nat
  | Q_field_lsb f => num (f_start f)
  | Q_field_msb f => num (f_end f)
  | Q_ps_new => Ret (KSlice ps_new)
  | Q_ps_len q => num (ps_len q)
  | Q_ps_payload q => Ret (KVal (VBytes (v_bytes (ps_payload q))))
  | Q_ps_to_vec q => Ret (KVal (VBytes (ps_to_vec q)))
  | Q_sname x => Ret (KVal (VBytes (text_bytes (ht_name (s_ty x)))))
  | Q_slen x => num (slen x)
  | Q_sas_slice x => Ret (KVal (VBytes (sas_slice x)))
  | Q_sbit_range x msb lsb => olet v := get_bits m (v_bytes (s_view x)) msb lsb in Ret (KVal (VNum v))
  | Q_sset _ _ _ _ => Ret (KVal VUnit)
  | Q_sclone _ => Panic PUnimpl
  end.

Definition kexec (m : mode) (ip6 : string -> option (list N)) (k : call) : M kres :=
  match k with
  | K_hdr o => mlet v := hexec m o in
      ret (match v with VHdr x => KHdr x | _ => KVal v end)
  | K_downcast T x => mlet y := hdowncast T x in ret (KHdr y)
  | K_hshow x => mlet s := hshow m x in ret (KText s)
  | K_make b => mlet x := hmake_run m ip6 b in ret (KHdr x)
  | K_pnew => ret (KPkt pkt_new)
  | K_push p a => mlet q := push_any p a in ret (KPkt q)
  | K_insert p a => mlet q := insert_any p a in ret (KPkt q)
  | K_pop p => ret (KPkt (pop p))
  | K_remove p i => ret (KPkt (remove p i))
  | K_set_payload p d => ret (KPkt (set_payload p d))
  | K_add p q => mlet r := pkt_add p q in ret (KPkt r)
  | K_pclone p => mlet r := pkt_clone p in ret (KPkt r)
  | K_index p name => mlet x := index_name p name in ret (KHdr x)
  | K_get_header T p name =>
      ret (match get_header T p name with Some x => KHdr x | None => KVal VUnit end)
  | K_pto_vec p => mlet v := to_vec p in ret (KVal (VBytes v))
  | K_compare p q => mlet b := compare p q in ret (KBool b)
  | K_compare_slice p d => mlet b := compare_with_slice p d in ret (KBool b)
  | K_pshow p => mlet s := pkt_show m p in ret (KText s)
  | K_checksum d => mlet c := lift (ipv4_checksum m d) in ret (KVal (VNum c))
  | K_mac s => mlet d := lift (to_mac_bytes s) in ret (KVal (VBytes d))
  | K_ip4 s => mlet d := lift (to_ipv4_bytes s) in ret (KVal (VBytes d))
  | K_create b => mlet p := pmake_run m ip6 b in ret (KPkt p)
  | K_parse f d => mlet p := slow m f d in ret (KPkt p)
  | K_fast f v => mlet q := lift (fast_view m f v) in ret (KSlice q)
  | K_sfrom T v => mlet x := lift (sfrom T v) in ret (KSHdr x)
  | K_sget x f => mlet v := lift (sget m x f) in ret (KVal (VNum v))
  | K_sbytes x msb lsb => mlet v := lift (sbytes m x msb lsb) in ret (KVal (VBytes v))
  | K_sshow x => mlet s := lift (sshow m x) in ret (KText s)
  | K_ps_show q => mlet s := lift (ps_show m q) in ret (KText s)
  | K_ip6 s => ret (KVal (VBytes (to_ipv6_bytes ip6 s)))
  | K_query q => lift (query_run m q)
  end.

(** The buffers and everything the program has obtained so far. *)
Record client := Cl {
  k_heap : heap; k_hdrs : list hdr; k_pkts : list packet;
  k_shdrs : list shdr; k_slices : list packet_slice
}.
Definition k_start : client := Cl [] [] [] [] [].

(** After a call that returned or panicked (a panic is caught). *)
Definition learn (c : client) (o : out kres) (h : heap) : client :=
  match o with
  | Ret (KHdr x) => Cl h (x :: k_hdrs c) (k_pkts c) (k_shdrs c) (k_slices c)
  | Ret (KPkt p) => Cl h (k_hdrs c) (p :: k_pkts c) (k_shdrs c) (k_slices c)
  | Ret (KSHdr x) => Cl h (k_hdrs c) (k_pkts c) (x :: k_shdrs c) (k_slices c)
  | Ret (KSlice q) => Cl h (k_hdrs c) (k_pkts c) (k_shdrs c) (q :: k_slices c)
  | _ => Cl h (k_hdrs c) (k_pkts c) (k_shdrs c) (k_slices c)
  end.
