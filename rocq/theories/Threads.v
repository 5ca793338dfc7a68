(** Threads.v -- the whole public interface used by several threads. A header is
    [Send] (headers.rs:37 [pub trait Header: Send]) and clones share buffers, so any
    thread can use any value another thread has obtained.

    A call is a program whose steps are the critical sections of the code: what
    happens between taking a lock and dropping it is one step, because nobody else
    can touch the buffer meanwhile ([replace] is two steps: it waits for a second
    lock while it holds the first). Allocation is a step too. The code between two
    steps touches no shared memory.

    The functions are those of Heap.v, Packet.v, Show.v, Build.v, Utils.v, Slow.v,
    Ops.v and Client.v, with the same text over [act] instead of [M]
    (tools/threads.py); C67_alone proves that run without interruption they are the
    same functions. Not included: the Python bindings, whose calls hold the GIL. *)

From Verif Require Import Base Bits Types Layout Heap Packet Text Build Utils Slow Fast Show Ops Client.
Open Scope N_scope.

Inductive act (A : Type) : Type :=
| ADone (o : out A)
| AAlloc (d : list N) (k : nat -> act A)        (** [Arc::new(Mutex::new(d))] *)
| ARead (r i : nat) (k : N -> act A)            (** [let map = a.lock().unwrap(); map[i]] *)
| AWrite (r i : nat) (v : N) (k : act A)        (** headers.rs:319-321, one bit *)
| ACopy (r : nat) (k : list N -> act A)         (** headers.rs:430-431 [map.to_vec()] *)
| ARepl (x o : nat) (k : act A).                (** headers.rs:392-396 *)
Arguments ADone {A} o.
Arguments AAlloc {A} d k.
Arguments ARead {A} r i k.
Arguments AWrite {A} r i v k.
Arguments ACopy {A} r k.
Arguments ARepl {A} x o k.

Fixpoint abind {A B} (p : act A) (f : A -> act B) : act B :=
  match p with
  | ADone (Ret a) => f a
  | ADone (Panic e) => ADone (Panic e)
  | ADone UB => ADone UB
  | ADone Hang => ADone Hang
  | ADone Fuel => ADone Fuel
  | AAlloc d k => AAlloc d (fun r => abind (k r) f)
  | ARead r i k => ARead r i (fun b => abind (k b) f)
  | AWrite r i v k => AWrite r i v (abind k f)
  | ACopy r k => ACopy r (fun d => abind (k d) f)
  | ARepl x o k => ARepl x o (abind k f)
  end.
Definition aret {A} (a : A) : act A := ADone (Ret a).
Definition afail {A} (e : fault) : act A := ADone (Panic e).
Definition alift {A} (o : out A) : act A := ADone o.
Notation "'alet' x := e 'in' k" := (abind e (fun x => k))
  (at level 200, x pattern, e at level 100, k at level 200, right associativity).

(** ** Headers (Heap.v) *)

(** headers.rs:308-312: one lock per bit. *)
Fixpoint a_hget_loop (r i n : nat) (value : N) : act N :=
  match n with
  | O => aret value
  | S n' =>
      let value := shl64 value 1 in
      ARead r (i / 8) (fun b =>
        a_hget_loop r (S i) n' (N.lor value (N.land (N.shiftr b (N.of_nat (8 - i mod 8 - 1))) 1)))
  end.
(** headers.rs:318-323: one lock per bit, the last bit first. *)
Fixpoint a_hset_loop (r lsb n : nat) (value : N) : act unit :=
  match n with
  | O => aret tt
  | S n' => AWrite r (lsb + n') (u8 (N.land value 1)) (a_hset_loop r lsb n' (N.shiftr value 1))
  end.
(** headers.rs:429-432. *)
Definition a_hto_vec (x : hdr) : act (list N) := ACopy (h_ref x) aret.
(** headers.rs:392-396. *)
Definition a_hreplace (x other : hdr) : act unit := ARepl (h_ref x) (h_ref other) (aret tt).
(** [Arc::new(Mutex::new(data))]. *)
Definition a_alloc (d : list N) : act nat := AAlloc d aret.
(** headers.rs:304-314 [X::bit_range]. *)
Definition a_hbit_range (m : mode) (x : hdr) (msb lsb : nat) : act N :=
  alet v := a_hget_loop (h_ref x) lsb (range_len msb lsb) 0 in
  alift (finish m msb lsb v).
(** headers.rs:315-324 [X::set_bit_range]. *)
Definition a_hset_bit_range (x : hdr) (msb lsb : nat) (value : N) : act unit :=
  a_hset_loop (h_ref x) lsb (range_len msb lsb) value.
(** headers.rs:329-332 [X::new]. *)
Definition a_hnew (T : htype) : act hdr :=
  alet r := a_alloc (ht_default T) in aret (Hdr T r).
(** headers.rs:450-454 [X::from(Vec<u8>)]: no length check. *)
Definition a_hfrom (T : htype) (d : list N) : act hdr :=
  alet r := a_alloc d in aret (Hdr T r).
(** headers.rs:334-339 [X::$field]. *)
Definition a_hget (m : mode) (x : hdr) (f : field) : act N :=
  a_hbit_range m x (f_end f) (f_start f).
(** headers.rs:340-344 [X::set_$field]. *)
Definition a_hset (x : hdr) (f : field) (v : N) : act unit :=
  a_hset_bit_range x (f_end f) (f_start f) v.
(** headers.rs:350-353. *)
Fixpoint a_hbytes_loop (m : mode) (x : hdr) (i n : nat) : act (list N) :=
  match n with
  | O => aret []
  | S n' =>
      alet v := a_hbit_range m x (i + 7) i in
      alet t := a_hbytes_loop m x (i + 8) n' in
      aret (u8 v :: t)
  end.
(** headers.rs:346-355 [X::bytes]. *)
Definition a_hbytes (m : mode) (x : hdr) (msb lsb : nat) : act (list N) :=
  alet _ := alift (bytes_guard m msb lsb) in
  a_hbytes_loop m x lsb (step8_len msb lsb).
(** headers.rs:359-363: [value[iter]], [iter += 1]. *)
Fixpoint a_hset_bytes_loop (x : hdr) (i n : nat) (value : list N) (iter : nat) : act unit :=
  match n with
  | O => aret tt
  | S n' =>
      alet v := alift (index value iter) in
      alet _ := a_hset_bit_range x (i + 7) i v in
      a_hset_bytes_loop x (i + 8) n' value (S iter)
  end.
(** headers.rs:356-364 [X::set_bytes]. *)
Definition a_hset_bytes (m : mode) (x : hdr) (msb lsb : nat) (value : list N) : act unit :=
  alet _ := alift (set_bytes_guard m (length value) msb lsb) in
  a_hset_bytes_loop x lsb (step8_len msb lsb) value 0.
(** headers.rs:424-428 [X::clone] (also [Header::clone], 492-494): the [Arc] is
    cloned, so the new header has the same buffer. *)
Definition a_hclone (x : hdr) : act hdr := aret (Hdr (h_ty x) (h_ref x)).
(** headers.rs:464-481, [(&boxed).into()] / [(&mut boxed).into()]: downcast by
    type identity. *)
Definition a_hdowncast (T : htype) (x : hdr) : act hdr :=
  if (ht_id T =? ht_id (h_ty x))%nat then aret x else afail PDowncast.
(** ** Packets (Packet.v) *)

(** [Header::to_owned] (headers.rs:495-497 owned, 281-283 borrowed). *)
Definition a_to_owned (a : any_header) : act hdr :=
  match a with
  | Owned x => aret x
  | Borrowed _ _ => afail PUnimpl
  end.
(** packet.rs:117-119 [push]. *)
Definition a_push_any (p : packet) (a : any_header) : act packet :=
  alet x := a_to_owned a in aret (Pkt (p_hdrs p ++ [x]) (p_payload p)).
(** packet.rs:129-131 [insert]. *)
Definition a_insert_any (p : packet) (a : any_header) : act packet :=
  alet x := a_to_owned a in aret (Pkt (x :: p_hdrs p) (p_payload p)).
(** [push] and [insert] of an owned header. *)
Definition a_push (p : packet) (x : hdr) : act packet := a_push_any p (Owned x).
Definition a_insert (p : packet) (x : hdr) : act packet := a_insert_any p (Owned x).
(** packet.rs:61-73 [pkt[name]], both [Index] and [IndexMut]. *)
Definition a_index_name (p : packet) (name : string) : act hdr :=
  match find_name name (p_hdrs p) with
  | Some x => aret x
  | None => afail PUnwrap
  end.
(** packet.rs:385-392 [to_vec]. *)
Fixpoint a_concat_vecs (l : list hdr) : act (list N) :=
  match l with
  | [] => aret []
  | x :: t =>
      alet v := a_hto_vec x in
      alet rest := a_concat_vecs t in
      aret (v ++ rest)
  end.
Definition a_to_vec (p : packet) : act (list N) :=
  alet r := a_concat_vecs (p_hdrs p) in aret (r ++ p_payload p).
(** The loops [for s in &hdrs { v.push(s.as_ref().clone()) }] of packet.rs:79-81
    and 395-397: [Header::clone], i.e. shared buffers. *)
Fixpoint a_clone_hdrs (l : list hdr) : act (list hdr) :=
  match l with
  | [] => aret []
  | x :: t =>
      alet y := a_hclone x in
      alet r := a_clone_hdrs t in
      aret (y :: r)
  end.
(** packet.rs:78-83 [Add for Packet]: the right payload is dropped. *)
Definition a_pkt_add (p other : packet) : act packet :=
  alet hs := a_clone_hdrs (p_hdrs other) in
  aret (Pkt (p_hdrs p ++ hs) (p_payload p)).
(** packet.rs:86-90, 393-400 [clone] / [clone_me]. *)
Definition a_pkt_clone (p : packet) : act packet :=
  alet hs := a_clone_hdrs (p_hdrs p) in
  aret (Pkt hs (p_payload p)).
(** packet.rs:340-358 [compare_with_slice] (the printed text is in Trait.v and Print.v). *)
Definition a_compare_with_slice (p : packet) (b : list N) : act bool :=
  let pktlen := pkt_len p in
  if negb (pktlen =? length b)%nat then aret false
  else
    alet a := a_to_vec p in
    let mt := matching a b in
    if negb (pktlen =? mt)%nat || negb (length b =? mt)%nat then aret false
    else aret true.
(** packet.rs:326-329 [compare]. *)
Definition a_compare (p q : packet) : act bool :=
  alet a := a_to_vec q in a_compare_with_slice p a.
(** ** Printing (Show.v) *)

(** headers.rs:407-410 and 414-417, [for i in ($start..(d*8 + $start)).step_by(8)]. *)
Fixpoint a_hshow_octets (m : mode) (x : hdr) (i n : nat) : act string :=
  match n with
  | O => aret EmptyString
  | S n' =>
      alet v := a_hbit_range m x (i + 7) i in
      alet t := a_hshow_octets m x (i + 8) n' in
      aret (fmt_02x (u8 v) ++ " " ++ t)%string
  end.
(** headers.rs:402-420, one field. *)
Definition a_hshow_field (m : mode) (x : hdr) (f : field) : act string :=
  let w := f_width f in
  if (w <=? 8)%nat then
    alet v := a_hbit_range m x (f_end f) (f_start f) in aret (fmt_02x (u8 v))
  else if (w mod 8 =? 0)%nat then a_hshow_octets m x (f_start f) (w / 8)
  else
    alet t := a_hshow_octets m x (f_start f) (w / 8) in
    alet v := a_hbit_range m x (f_end f) (f_end f - w mod 8) in
    aret (t ++ fmt_02x (u8 v))%string.
Fixpoint a_hshow_fields (m : mode) (x : hdr) (l : list field) : act string :=
  match l with
  | [] => aret EmptyString
  | f :: t =>
      alet s := a_hshow_field m x f in
      alet r := a_hshow_fields m x t in
      aret (show_label f ++ s ++ newline ++ r)%string
  end.
(** headers.rs:397-423 [X::show] (also [Header::show], 485-487). *)
Definition a_hshow (m : mode) (x : hdr) : act string :=
  alet s := a_hshow_fields m x (ht_fields (h_ty x)) in aret (show_title (h_ty x) ++ s)%string.
Fixpoint a_show_hdrs (m : mode) (l : list hdr) : act string :=
  match l with
  | [] => aret EmptyString
  | x :: t => alet s := a_hshow m x in alet r := a_show_hdrs m t in aret (s ++ r)%string
  end.
(** packet.rs:360-376 [Packet::show]. *)
Definition a_pkt_show (m : mode) (p : packet) : act string :=
  alet s := a_show_hdrs m (p_hdrs p) in
  alet v := a_to_vec p in
  aret (s ++ show_raw v)%string.
(** ** Header constructors (Build.v) *)

(** packet.rs:406-412 [ethernet(dst, src, etype: u16)]. *)
Definition a_ethernet (dst src : string) (etype : N) : act hdr :=
  alet d := alift (to_mac_bytes dst) in
  alet s := alift (to_mac_bytes src) in
  a_hfrom Ether (d ++ s ++ to_be 2 etype).
(** packet.rs:414-420 [dot3(dst, src, length: u16)]. *)
Definition a_dot3 (dst src : string) (len : N) : act hdr :=
  alet d := alift (to_mac_bytes dst) in
  alet s := alift (to_mac_bytes src) in
  a_hfrom Dot3 (d ++ s ++ to_be 2 len).
(** packet.rs:422-424 [llc(dsap, ssap, ctrl: u8) -> Dot3]. *)
Definition a_llc (dsap ssap ctrl : N) : act hdr := a_hfrom Dot3 [dsap; ssap; ctrl].
(** packet.rs:426-446 [arp(opcode: u16, ..)]. *)
Definition a_arp (opcode : N) (sender_mac target_mac sender_ip target_ip : string) : act hdr :=
  alet smac := alift (to_mac_bytes sender_mac) in
  alet sip := alift (to_ipv4_bytes sender_ip) in
  alet tmac := alift (to_mac_bytes target_mac) in
  alet tip := alift (to_ipv4_bytes target_ip) in
  a_hfrom ARP (to_be 2 1 ++ to_be 2 (EtherType_code E_IPV4)
             ++ [u8 (N.of_nat MAC_LEN)] ++ [u8 (N.of_nat IPV4_LEN)]
             ++ to_be 2 opcode ++ smac ++ sip ++ tmac ++ tip).
(** packet.rs:448-454 [vlan(pcp: u8, _cfi: u8, vid: u16, etype: u16)]:
    [data[0] |= pcp << 5]. *)
Definition a_vlan (pcp _cfi vid etype : N) : act hdr :=
  let data := to_be 2 vid in
  alet b0 := alift (index data 0) in
  let data := upd data 0 (N.lor b0 (shl8 pcp 5)) in
  a_hfrom Vlan (data ++ to_be 2 etype).
(** packet.rs:456-484 [ipv4(ihl: u8, tos: u8, id: u16, ttl: u8, frag: u16,
    proto: u8, src, dst, pktlen: u16)]. *)
Definition a_ipv4 (m : mode) (ihl tos id ttl frag proto : N) (src dst : string) (pktlen : N) : act hdr :=
  let ver := N.lor 0x40 ihl in
  alet s := alift (to_ipv4_bytes src) in
  alet d := alift (to_ipv4_bytes dst) in
  let data := [ver] ++ [tos] ++ to_be 2 pktlen ++ to_be 2 id ++ to_be 2 frag
              ++ [ttl] ++ [proto] ++ to_be 2 0 ++ s ++ d in
  alet ip_chksum := alift (ipv4_checksum m data) in
  alet ip := a_hfrom IPv4 data in
  alet _ := a_hset ip IPv4_header_checksum ip_chksum in
  aret ip.
(** packet.rs:486-506 [ipv6(traffic_class: u8, flow_label: u32, next_hdr: u8,
    hop_limit: u8, src, dst, pktlen: u16)]. *)
Definition a_ipv6 (ip6 : string -> option (list N))
    (traffic_class flow_label next_hdr hop_limit : N) (src dst : string) (pktlen : N) : act hdr :=
  let word := N.land (shl32 6 28) 0xF0000000 in
  let word := N.lor word (shl32 traffic_class 20) in
  let word := N.lor word flow_label in
  a_hfrom IPv6 (to_be 4 word ++ to_be 2 pktlen ++ [next_hdr] ++ [hop_limit]
              ++ to_ipv6_bytes ip6 src ++ to_ipv6_bytes ip6 dst).
(** packet.rs:508-516 [udp(src, dst, length: u16)]. *)
Definition a_udp (src dst len : N) : act hdr :=
  a_hfrom UDP (to_be 2 src ++ to_be 2 dst ++ to_be 2 len ++ to_be 2 0).
(** packet.rs:518-525 [icmp(icmp_type, icmp_code: u8)]. *)
Definition a_icmp (icmp_type icmp_code : N) : act hdr :=
  a_hfrom ICMP ([icmp_type] ++ [icmp_code] ++ to_be 2 0).
(** packet.rs:527-550 [tcp(src, dst: u16, seq_no, ack_no: u32, data_offset, res,
    flags: u8, window, chksum, urgent_ptr: u16)]. *)
Definition a_tcp (src dst seq_no ack_no data_offset res flags window chksum urgent_ptr : N) : act hdr :=
  a_hfrom TCP (to_be 2 src ++ to_be 2 dst ++ to_be 4 seq_no ++ to_be 4 ack_no
             ++ [N.lor (shl8 data_offset 4) (N.land res 0xff)] ++ [flags]
             ++ to_be 2 window ++ to_be 2 chksum ++ to_be 2 urgent_ptr).
(** packet.rs:552-558 [vxlan(vni: u32)]. *)
Definition a_vxlan (vni : N) : act hdr :=
  a_hfrom Vxlan (to_be 4 (shl32 8 24) ++ to_be 4 (shl32 vni 8)).
(** packet.rs:560-578 [gre(c, r, k, seqnum, s: bool, flags, ver: u8, proto: u16)]. *)
Definition a_gre (c r k seqnum s : bool) (flags ver proto : N) : act hdr :=
  let x := N.lor (N.lor (N.lor (N.lor (shl8 (b2n c) 7) (shl8 (b2n r) 6)) (shl8 (b2n k) 5))
                        (shl8 (b2n seqnum) 4)) (shl8 (b2n s) 3) in
  let y := N.lor (shl8 flags 3) ver in
  a_hfrom GRE ([x] ++ [y] ++ to_be 2 proto).
(** packet.rs:580-585 [gre_chksum_offset(chksum, offset: u16)]. *)
Definition a_gre_chksum_offset (chksum offset : N) : act hdr :=
  a_hfrom GREChksumOffset (to_be 2 chksum ++ to_be 2 offset).
(** packet.rs:587-591 [gre_sequence_number(seqnum: u32)]. *)
Definition a_gre_sequence_number (seqnum : N) : act hdr := a_hfrom GRESequenceNum (to_be 4 seqnum).
(** packet.rs:593-597 [gre_key(key: u32)]. *)
Definition a_gre_key (key : N) : act hdr := a_hfrom GREKey (to_be 4 key).
(** packet.rs:599-607 [erspan2(vlan: u16, cos, en, t: u8, session_id: u16, index: u32)]. *)
Definition a_erspan2 (vlan cos en t session_id idx : N) : act hdr :=
  let b1 := N.lor (shl16 (ErspanVersion_code EV_II) 12) vlan in
  let b2 := erspan_b2 cos en t session_id in
  a_hfrom ERSPAN2 (to_be 2 b1 ++ to_be 2 b2 ++ to_be 4 idx).
(** packet.rs:609-628 [erspan3(vlan: u16, cos, en, t: u8, session_id: u16,
    timestamp: u32, sgt: u16, ft_d_other: u16)]. *)
Definition a_erspan3 (vlan cos en t session_id timestamp sgt ft_d_other : N) : act hdr :=
  let b1 := N.lor (shl16 (ErspanVersion_code EV_III) 12) vlan in
  let b2 := erspan_b2 cos en t session_id in
  a_hfrom ERSPAN3 (to_be 2 b1 ++ to_be 2 b2 ++ to_be 4 timestamp ++ to_be 2 sgt
                 ++ to_be 2 ft_d_other).
(** packet.rs:630-633 [mpls(label: u32, exp, bos, ttl: u8)]. *)
Definition a_mpls (label exp bos ttl : N) : act hdr :=
  let w := N.lor (N.lor (N.lor (shl32 label 20) (shl32 exp 23)) (shl32 bos 24)) ttl in
  a_hfrom MPLS (to_be 4 w).
(** packet.rs:635-643 [snap(oui: u32, code: u16)]. *)
Definition a_snap (oui code : N) : act hdr :=
  let oui_01 := u16 oui in
  let oui_2 := u8 (N.shiftr oui 16) in
  a_hfrom SNAP (to_be 2 oui_01 ++ to_be 1 oui_2 ++ to_be 2 code).
(** ** Packet constructors (Utils.v) *)

(** utils.rs:7-25. *)
Definition a_create_eth_packet (e : eth_args) (etype : N) (pl : list N) : act packet :=
  let pkt := pkt_new in
  alet pkt :=
    (if vlan_enable e then
       alet eth := a_ethernet (eth_dst e) (eth_src e) (EtherType_code E_DOT1Q) in
       alet pkt := a_push pkt eth in
       alet v := a_vlan (vlan_pcp e) 0 (vlan_vid e) etype in
       a_push pkt v
     else
       alet eth := a_ethernet (eth_dst e) (eth_src e) etype in
       a_push pkt eth) in
  aret (set_payload pkt pl).
(** utils.rs:27-53. *)
Definition a_create_arp_packet (e : eth_args) (opcode : N)
    (sender_mac target_mac sender_ip target_ip : string) (pl : list N) : act packet :=
  alet pkt := a_create_eth_packet e (EtherType_code E_ARP) pl in
  alet a := a_arp opcode sender_mac target_mac sender_ip target_ip in
  a_push pkt a.
(** utils.rs:55-95. *)
Definition a_create_ipv4_packet (m : mode) (e : eth_args) (i : ip4_args) (ip_proto : N)
    (pl : list N) : act packet :=
  alet pkt := a_create_eth_packet e (EtherType_code E_IPV4) pl in
  let pktlen := (ht_size IPv4 + length pl)%nat in
  alet ip := a_ipv4 m (ip_ihl i) (ip_tos i) (ip_id i) (ip_ttl i) (ip_frag i) ip_proto
                  (ip_src i) (ip_dst i) (usize_u16 pktlen) in
  a_push pkt ip.
(** utils.rs:97-131. *)
Definition a_create_ipv6_packet (ip6 : string -> option (list N)) (e : eth_args) (i : ip6_args)
    (ip_next_hdr : N) (pl : list N) : act packet :=
  alet pkt := a_create_eth_packet e (EtherType_code E_IPV6) pl in
  alet ip := a_ipv6 ip6 (ip6_traffic_class i) (ip6_flow_label i) ip_next_hdr (ip6_hop_limit i)
                  (ip6_src i) (ip6_dst i) (usize_u16 (length pl)) in
  a_push pkt ip.
(** [let ipv4: &mut IPv4 = (&mut pkt["IPv4"]).into();
    ipv4.set_total_len(ipv4.total_len() + extra);] as in utils.rs:176-177, 233-234,
    281-282, 542-543, 668-669, 751-752, 839-840. Returns the reference [ipv4].
    The u64 sum of a 16-bit field and a length cannot overflow. *)
Definition a_bump_total_len (m : mode) (pkt : packet) (extra : nat) : act hdr :=
  alet x := a_index_name pkt "IPv4" in
  alet ip := a_hdowncast IPv4 x in
  alet t := a_hget m ip IPv4_total_len in
  alet _ := a_hset ip IPv4_total_len (t + N.of_nat extra) in
  aret ip.
(** [let chksum = Packet::ipv4_checksum(ipv4.to_vec()); ipv4.set_header_checksum(chksum)]
    as in utils.rs:178-179, 235-236, 283-284, 670-671, 753-754, 841-842. *)
Definition a_refresh_checksum (m : mode) (ip : hdr) : act unit :=
  alet v := a_hto_vec ip in
  alet c := alift (ipv4_checksum m v) in
  a_hset ip IPv4_header_checksum c.
(** [let ipv6: &mut IPv6 = (&mut pkt["IPv6"]).into();
    ipv6.set_payload_len(ipv6.payload_len() + extra);] as in utils.rs:407-408,
    456-457, 497-498, 584-585. *)
Definition a_bump_payload_len (m : mode) (pkt : packet) (extra : nat) : act unit :=
  alet x := a_index_name pkt "IPv6" in
  alet ip := a_hdowncast IPv6 x in
  alet t := a_hget m ip IPv6_payload_len in
  a_hset ip IPv6_payload_len (t + N.of_nat extra).
(** utils.rs:133-195. *)
Definition a_create_tcp_packet (m : mode) (e : eth_args) (i : ip4_args) (t : tcp_args)
    (pl : list N) : act packet :=
  alet pkt := a_create_ipv4_packet m e i (IpProtocol_code P_TCP) pl in
  alet ip := a_bump_total_len m pkt (ht_size TCP) in
  alet _ := a_refresh_checksum m ip in
  alet x := a_tcp (tcp_src t) (tcp_dst t) (tcp_seq_no t) (tcp_ack_no t) (tcp_data_offset t)
                (tcp_res t) (tcp_flags t) (tcp_window t) 0 (tcp_urgent_ptr t) in
  a_push pkt x.
(** utils.rs:197-242. *)
Definition a_create_udp_packet (m : mode) (e : eth_args) (i : ip4_args) (udp_dst udp_src : N)
    (pl : list N) : act packet :=
  alet pkt := a_create_ipv4_packet m e i (IpProtocol_code P_UDP) pl in
  alet ip := a_bump_total_len m pkt (ht_size UDP) in
  alet _ := a_refresh_checksum m ip in
  let l4_len := (ht_size UDP + length pl)%nat in
  alet u := a_udp udp_src udp_dst (usize_u16 l4_len) in
  a_push pkt u.
(** utils.rs:244-289. *)
Definition a_create_icmp_packet (m : mode) (e : eth_args) (i : ip4_args) (icmp_type icmp_code : N)
    (pl : list N) : act packet :=
  alet pkt := a_create_ipv4_packet m e i (IpProtocol_code P_ICMP) pl in
  alet ip := a_bump_total_len m pkt (ht_size ICMP) in
  alet _ := a_refresh_checksum m ip in
  alet x := a_icmp icmp_type icmp_code in
  a_push pkt x.
(** utils.rs:291-332. *)
Definition a_create_ipv4ip_packet (m : mode) (e : eth_args) (i : ip4_args) (inner_pkt : packet) : act packet :=
  alet ipkt_vec := a_to_vec inner_pkt in
  alet b0 := alift (index ipkt_vec 0) in
  let ip_proto := inner_proto b0 in
  a_create_ipv4_packet m e i (IpProtocol_code ip_proto) ipkt_vec.
(** utils.rs:334-369. *)
Definition a_create_ipv6ip_packet (ip6 : string -> option (list N)) (e : eth_args) (i : ip6_args)
    (inner_pkt : packet) : act packet :=
  alet ipkt_vec := a_to_vec inner_pkt in
  alet b0 := alift (index ipkt_vec 0) in
  let ip_nxt_hdr := inner_proto b0 in
  a_create_ipv6_packet ip6 e i (IpProtocol_code ip_nxt_hdr) ipkt_vec.
(** utils.rs:371-424. *)
Definition a_create_tcpv6_packet (m : mode) (ip6 : string -> option (list N)) (e : eth_args)
    (i : ip6_args) (t : tcp_args) (pl : list N) : act packet :=
  alet pkt := a_create_ipv6_packet ip6 e i (IpProtocol_code P_TCP) pl in
  alet _ := a_bump_payload_len m pkt (ht_size TCP) in
  alet x := a_tcp (tcp_src t) (tcp_dst t) (tcp_seq_no t) (tcp_ack_no t) (tcp_data_offset t)
                (tcp_res t) (tcp_flags t) (tcp_window t) 0 (tcp_urgent_ptr t) in
  a_push pkt x.
(** utils.rs:426-464. *)
Definition a_create_udpv6_packet (m : mode) (ip6 : string -> option (list N)) (e : eth_args)
    (i : ip6_args) (udp_dst udp_src : N) (pl : list N) : act packet :=
  alet pkt := a_create_ipv6_packet ip6 e i (IpProtocol_code P_UDP) pl in
  alet _ := a_bump_payload_len m pkt (ht_size UDP) in
  let l4_len := (ht_size UDP + length pl)%nat in
  alet u := a_udp udp_src udp_dst (usize_u16 l4_len) in
  alet _ := a_hset u UDP_checksum 0xffff in
  a_push pkt u.
(** utils.rs:466-502. *)
Definition a_create_icmpv6_packet (m : mode) (ip6 : string -> option (list N)) (e : eth_args)
    (i : ip6_args) (icmp_type icmp_code : N) (pl : list N) : act packet :=
  alet pkt := a_create_ipv6_packet ip6 e i (IpProtocol_code P_ICMPV6) pl in
  alet _ := a_bump_payload_len m pkt (ht_size ICMP) in
  alet x := a_icmp icmp_type icmp_code in
  a_push pkt x.
(** utils.rs:504-550. *)
Definition a_create_vxlan_packet (m : mode) (e : eth_args) (i : ip4_args) (udp_dst udp_src : N)
    (vxlan_vni : N) (inner_pkt : packet) : act packet :=
  alet ipkt_vec := a_to_vec inner_pkt in
  alet pkt := a_create_ipv4_packet m e i (IpProtocol_code P_UDP) ipkt_vec in
  alet _ := a_bump_total_len m pkt (ht_size UDP + ht_size Vxlan) in
  let l4_len := (ht_size UDP + ht_size Vxlan + length ipkt_vec)%nat in
  alet u := a_udp udp_src udp_dst (usize_u16 l4_len) in
  alet pkt := a_push pkt u in
  alet v := a_vxlan vxlan_vni in
  a_push pkt v.
(** utils.rs:552-596. *)
Definition a_create_vxlanv6_packet (m : mode) (ip6 : string -> option (list N)) (e : eth_args)
    (i : ip6_args) (udp_dst udp_src : N) (vxlan_vni : N) (inner_pkt : packet) : act packet :=
  alet ipkt_vec := a_to_vec inner_pkt in
  alet pkt := a_create_ipv6_packet ip6 e i (IpProtocol_code P_UDP) ipkt_vec in
  alet _ := a_bump_payload_len m pkt (ht_size UDP + ht_size Vxlan) in
  let l4_len := (ht_size UDP + ht_size Vxlan + length ipkt_vec)%nat in
  alet u := a_udp udp_src udp_dst (usize_u16 l4_len) in
  alet _ := a_hset u UDP_checksum 0xffff in
  alet pkt := a_push pkt u in
  alet v := a_vxlan vxlan_vni in
  alet pkt := a_push pkt v in
  a_pkt_add pkt inner_pkt.
(** utils.rs:598-695. *)
Definition a_create_gre_packet (m : mode) (e : eth_args) (i : ip4_args) (g : gre_args)
    (inner_pkt : option packet) : act packet :=
  alet (proto, ipkt_vec) :=
    match inner_pkt with
    | Some p =>
        alet ipkt_vec := a_to_vec p in
        alet b0 := alift (index ipkt_vec 0) in
        aret (gre_inner_proto b0, ipkt_vec)
    | None => aret (0, [])
    end in
  let pktlen := ht_size GRE in
  let pktlen := if gre_chksum_present g then (pktlen + ht_size GREChksumOffset)%nat else pktlen in
  let pktlen := if gre_key_present g then (pktlen + ht_size GREKey)%nat else pktlen in
  let pktlen := if gre_seqnum_present g then (pktlen + ht_size GRESequenceNum)%nat else pktlen in
  let pktlen := if gre_routing_present g then (pktlen + length (gre_routing g))%nat else pktlen in
  alet pkt := a_create_ipv4_packet m e i (IpProtocol_code P_GRE) ipkt_vec in
  alet ip := a_bump_total_len m pkt pktlen in
  alet _ := a_refresh_checksum m ip in
  alet x := a_gre (gre_chksum_present g) (gre_routing_present g) (gre_key_present g)
                (gre_seqnum_present g) (gre_strict_route_src g) (gre_flags g) (gre_version g) proto in
  alet pkt := a_push pkt x in
  alet pkt := (if gre_chksum_present g then
                 alet o := a_gre_chksum_offset (gre_chksum g) (gre_offset g) in a_push pkt o
               else aret pkt) in
  alet pkt := (if gre_key_present g then
                 alet o := a_gre_key (gre_keyval g) in a_push pkt o
               else aret pkt) in
  (if gre_seqnum_present g then
     alet o := a_gre_sequence_number (gre_seqnum g) in a_push pkt o
   else aret pkt).
(** [match inner_pkt { Some(ref p) => p.to_vec(), None => Vec::new() }], utils.rs:720-723, 805-808. *)
Definition a_opt_to_vec (o : option packet) : act (list N) :=
  match o with Some p => a_to_vec p | None => aret [] end.
(** utils.rs:697-776. *)
Definition a_create_erspan_2_packet (m : mode) (e : eth_args) (i : ip4_args) (gre_seqnum : N)
    (a : erspan_args) (erspan_index : N) (inner_pkt : option packet) : act packet :=
  alet ipkt_vec := a_opt_to_vec inner_pkt in
  let pktlen := (ht_size GRE + ht_size ERSPAN2)%nat in
  let pktlen := if negb (gre_seqnum =? 0) then (pktlen + ht_size GRESequenceNum)%nat else pktlen in
  let pktlen := (pktlen + opt_len inner_pkt)%nat in
  alet pkt := a_create_ipv4_packet m e i (IpProtocol_code P_GRE) ipkt_vec in
  alet ip := a_bump_total_len m pkt pktlen in
  alet _ := a_refresh_checksum m ip in
  alet g := a_hnew GRE in
  alet _ := a_hset g GRE_proto (EtherType_code E_ERSPANII) in
  alet _ := (if negb (gre_seqnum =? 0) then a_hset g GRE_seqnum_present 1 else aret tt) in
  alet pkt := a_push pkt g in
  alet pkt := (if negb (gre_seqnum =? 0) then
                 alet o := a_gre_sequence_number gre_seqnum in a_push pkt o
               else aret pkt) in
  alet x := a_erspan2 (er_vlan a) (er_cos a) (er_en a) (er_t a) (er_session_id a) erspan_index in
  a_push pkt x.
(** utils.rs:778-876. [erspan_pltfm_id: u8], [erspan_pltfm_info: u64]. *)
Definition a_create_erspan_3_packet (m : mode) (e : eth_args) (i : ip4_args) (gre_seqnum : N)
    (a : erspan_args) (erspan_timestamp erspan_sgt erspan_ft_d_other : N)
    (erspan_pltfm_id erspan_pltfm_info : N) (inner_pkt : option packet) : act packet :=
  alet ipkt_vec := a_opt_to_vec inner_pkt in
  let pktlen := (ht_size GRE + ht_size ERSPAN3)%nat in
  let pktlen := if negb (gre_seqnum =? 0) then (pktlen + ht_size GRESequenceNum)%nat else pktlen in
  let pktlen := if N.land erspan_ft_d_other 1 =? 1 then (pktlen + ht_size ERSPANPLATFORM)%nat
                else pktlen in
  let pktlen := (pktlen + opt_len inner_pkt)%nat in
  alet pkt := a_create_ipv4_packet m e i (IpProtocol_code P_GRE) ipkt_vec in
  alet ip := a_bump_total_len m pkt pktlen in
  alet _ := a_refresh_checksum m ip in
  alet g := a_hnew GRE in
  alet _ := a_hset g GRE_proto (EtherType_code E_ERSPANIII) in
  alet _ := a_hset g GRE_seqnum_present gre_seqnum in
  alet pkt := a_push pkt g in
  alet pkt := (if negb (gre_seqnum =? 0) then
                 alet o := a_gre_sequence_number gre_seqnum in a_push pkt o
               else aret pkt) in
  alet x := a_erspan3 (er_vlan a) (er_cos a) (er_en a) (er_t a) (er_session_id a)
                    erspan_timestamp erspan_sgt erspan_ft_d_other in
  alet pkt := a_push pkt x in
  alet pkt := (if N.land erspan_ft_d_other 1 =? 1 then
                 let pltfm := N.lor (shl64 erspan_pltfm_id 58) erspan_pltfm_info in
                 alet o := a_hfrom ERSPANPLATFORM (to_be 8 pltfm) in a_push pkt o
               else aret pkt) in
  match inner_pkt with
  | Some p => a_pkt_add pkt p
  | None => aret pkt
  end.
(** ** The owning parser (Slow.v) *)

Section Bodies.
Variable m : mode.
Variable rec : pfun -> list N -> act packet.

(** [X::from(arr[i..j].to_vec())]. *)
Definition a_take_hdr (T : htype) (arr : list N) (i : nat) : act hdr :=
  alet d := alift (slice arr i (i + ht_size T)) in
  a_hfrom T d.
(** [parse_x(&arr[i..])]. *)
Definition a_call (f : pfun) (arr : list N) (i : nat) : act packet :=
  alet rest := alift (slice_from arr i) in
  rec f rest.
(** slow.rs:5-12. *)
Definition a_parse_body (arr : list N) : act packet :=
  alet a := alift (index arr 12) in
  alet b := alift (index arr 13) in
  let len := N.lor (shl16 a 8) b in
  if len <? 1500 then rec F_dot3 arr else rec F_ethernet arr.
(** slow.rs:13-18. *)
Definition a_parse_dot3_body (arr : list N) : act packet :=
  alet x := a_take_hdr Dot3 arr 0 in
  alet pkt := a_call F_llc arr (ht_size Dot3) in
  a_insert pkt x.
(** slow.rs:19-28. *)
Definition a_parse_llc_body (arr : list N) : act packet :=
  alet x := a_take_hdr LLC arr 0 in
  alet c := alift (is_snap arr) in
  alet pkt := (if c then a_call F_snap arr (ht_size LLC) else a_call F_accept arr (ht_size LLC)) in
  a_insert pkt x.
(** slow.rs:29-34. *)
Definition a_parse_snap_body (arr : list N) : act packet :=
  alet x := a_take_hdr SNAP arr 0 in
  alet pkt := a_call F_accept arr (ht_size SNAP) in
  a_insert pkt x.
(** slow.rs:35-48. *)
Definition a_parse_ethernet_body (arr : list N) : act packet :=
  alet x := a_take_hdr Ether arr 0 in
  alet et := a_hget m x Ether_etype in
  alet pkt :=
    match EtherType_try_from (u16 et) with
    | Some E_DOT1Q => a_call F_vlan arr (ht_size Ether)
    | Some E_ARP => a_call F_arp arr (ht_size Ether)
    | Some E_IPV4 => a_call F_ipv4 arr (ht_size Ether)
    | Some E_IPV6 => a_call F_ipv6 arr (ht_size Ether)
    | Some E_MPLS => a_call F_mpls arr (ht_size Ether)
    | _ => a_call F_accept arr (ht_size Ether)
    end in
  a_insert pkt x.
(** slow.rs:49-62. *)
Definition a_parse_vlan_body (arr : list N) : act packet :=
  alet x := a_take_hdr Vlan arr 0 in
  alet et := a_hget m x Vlan_etype in
  alet pkt :=
    match EtherType_try_from (u16 et) with
    | Some E_DOT1Q => a_call F_vlan arr (ht_size Vlan)
    | Some E_ARP => a_call F_arp arr (ht_size Vlan)
    | Some E_IPV4 => a_call F_ipv4 arr (ht_size Vlan)
    | Some E_IPV6 => a_call F_ipv6 arr (ht_size Vlan)
    | Some E_MPLS => a_call F_mpls arr (ht_size Vlan)
    | _ => a_call F_accept arr (ht_size Vlan)
    end in
  a_insert pkt x.
(** slow.rs:63-73. *)
Definition a_parse_mpls_body (arr : list N) : act packet :=
  alet x := a_take_hdr MPLS arr 0 in
  alet bos := a_hget m x MPLS_bos in
  alet pkt := (if bos =? 1 then a_call F_mpls_bos arr (ht_size MPLS)
               else a_call F_mpls arr (ht_size MPLS)) in
  a_insert pkt x.
(** slow.rs:74-83. *)
Definition a_parse_mpls_bos_body (arr : list N) : act packet :=
  alet x := a_take_hdr MPLS arr 0 in
  alet b := alift (index arr (ht_size MPLS)) in
  alet pkt :=
    match IpType_try_from (N.land (N.shiftr b 4) 0xf) with
    | Some V4 => a_call F_ipv4 arr (ht_size MPLS)
    | Some V6 => a_call F_ipv6 arr (ht_size MPLS)
    | None => a_call F_ethernet arr (ht_size MPLS)
    end in
  a_insert pkt x.
(** slow.rs:84-98. *)
Definition a_parse_ipv4_body (arr : list N) : act packet :=
  alet x := a_take_hdr IPv4 arr 0 in
  alet p := a_hget m x IPv4_protocol in
  alet pkt :=
    match IpProtocol_try_from (u8 p) with
    | Some P_ICMP => a_call F_icmp arr (ht_size IPv4)
    | Some P_IPIP => a_call F_ipv4 arr (ht_size IPv4)
    | Some P_TCP => a_call F_tcp arr (ht_size IPv4)
    | Some P_UDP => a_call F_udp arr (ht_size IPv4)
    | Some P_IPV6 => a_call F_ipv6 arr (ht_size IPv4)
    | Some P_GRE => a_call F_gre arr (ht_size IPv4)
    | _ => a_call F_accept arr (ht_size IPv4)
    end in
  a_insert pkt x.
(** slow.rs:99-113. *)
Definition a_parse_ipv6_body (arr : list N) : act packet :=
  alet x := a_take_hdr IPv6 arr 0 in
  alet p := a_hget m x IPv6_next_hdr in
  alet pkt :=
    match IpProtocol_try_from (u8 p) with
    | Some P_ICMPV6 => a_call F_icmp arr (ht_size IPv6)
    | Some P_IPIP => a_call F_ipv4 arr (ht_size IPv6)
    | Some P_TCP => a_call F_tcp arr (ht_size IPv6)
    | Some P_UDP => a_call F_udp arr (ht_size IPv6)
    | Some P_IPV6 => a_call F_ipv6 arr (ht_size IPv6)
    | Some P_GRE => a_call F_gre arr (ht_size IPv6)
    | _ => a_call F_accept arr (ht_size IPv6)
    end in
  a_insert pkt x.
(** slow.rs:122-130, 131-137, 138-146, 177-185:
    [if flag == 1 { let p = Some(X::from(arr[offset..offset+size])); offset += size; p } else { None }]. *)
Definition a_opt_hdr (flag : N) (T : htype) (arr : list N) (offset : nat) : act (option hdr * nat) :=
  if flag =? 1 then
    alet x := a_take_hdr T arr offset in
    aret (Some x, (offset + ht_size T)%nat)
  else aret (None, offset).
(** slow.rs:154-162, 187-189: [if let Some(p) = o { pkt.insert(p); }]. *)
Definition a_insert_opt (pkt : packet) (o : option hdr) : act packet :=
  match o with
  | Some x => a_insert pkt x
  | None => aret pkt
  end.
(** slow.rs:114-165. *)
Definition a_parse_gre_body (arr : list N) : act packet :=
  alet x := a_take_hdr GRE arr 0 in
  alet pr := a_hget m x GRE_proto in
  alet chksum_present := a_hget m x GRE_chksum_present in
  alet seqnum_present := a_hget m x GRE_seqnum_present in
  alet key_present := a_hget m x GRE_key_present in
  alet (gco, offset) := a_opt_hdr chksum_present GREChksumOffset arr (0 + ht_size GRE) in
  alet (gk, offset) := a_opt_hdr key_present GREKey arr offset in
  alet (gsn, offset) := a_opt_hdr seqnum_present GRESequenceNum arr offset in
  alet pkt :=
    match EtherType_try_from (u16 pr) with
    | Some E_IPV4 => a_call F_ipv4 arr offset
    | Some E_IPV6 => a_call F_ipv6 arr offset
    | Some E_ERSPANII => a_call F_erspan2 arr offset
    | Some E_ERSPANIII => a_call F_erspan3 arr offset
    | _ => a_call F_accept arr offset
    end in
  alet pkt := a_insert_opt pkt gco in
  alet pkt := a_insert_opt pkt gk in
  alet pkt := a_insert_opt pkt gsn in
  a_insert pkt x.
(** slow.rs:166-171. *)
Definition a_parse_erspan2_body (arr : list N) : act packet :=
  alet x := a_take_hdr ERSPAN2 arr 0 in
  alet pkt := a_call F_ethernet arr (ht_size ERSPAN2) in
  a_insert pkt x.
(** slow.rs:172-192. *)
Definition a_parse_erspan3_body (arr : list N) : act packet :=
  alet x := a_take_hdr ERSPAN3 arr 0 in
  alet o := a_hget m x ERSPAN3_o in
  alet (platform, offset) := a_opt_hdr o ERSPANPLATFORM arr (0 + ht_size ERSPAN3) in
  alet pkt := a_call F_ethernet arr offset in
  alet pkt := a_insert_opt pkt platform in
  a_insert pkt x.
(** slow.rs:193-197, 198-202, 203-207: the payload is sliced before the header is. *)
Definition a_parse_leaf_body (T : htype) (arr : list N) : act packet :=
  alet pkt := a_call F_accept arr (ht_size T) in
  alet x := a_take_hdr T arr 0 in
  a_insert pkt x.
(** slow.rs:208-217. *)
Definition a_parse_udp_body (arr : list N) : act packet :=
  alet x := a_take_hdr UDP arr 0 in
  alet d := a_hget m x UDP_dst in
  alet pkt := (if u16 d =? 4789 (* UDP_PORT_VXLAN, types.rs:7 *)
               then a_call F_vxlan arr (ht_size UDP)
               else a_call F_accept arr (ht_size UDP)) in
  a_insert pkt x.
(** slow.rs:218-222: the inner frame is parsed before the header is copied. *)
Definition a_parse_vxlan_body (arr : list N) : act packet :=
  alet pkt := a_call F_ethernet arr (ht_size Vxlan) in
  alet x := a_take_hdr Vxlan arr 0 in
  a_insert pkt x.
(** slow.rs:223-227. *)
Definition a_accept_body (arr : list N) : act packet :=
  aret (set_payload pkt_new arr).
Definition a_slow_body (f : pfun) : list N -> act packet :=
  match f with
  | F_parse => a_parse_body
  | F_dot3 => a_parse_dot3_body
  | F_llc => a_parse_llc_body
  | F_snap => a_parse_snap_body
  | F_ethernet => a_parse_ethernet_body
  | F_vlan => a_parse_vlan_body
  | F_mpls => a_parse_mpls_body
  | F_mpls_bos => a_parse_mpls_bos_body
  | F_ipv4 => a_parse_ipv4_body
  | F_ipv6 => a_parse_ipv6_body
  | F_gre => a_parse_gre_body
  | F_erspan2 => a_parse_erspan2_body
  | F_erspan3 => a_parse_erspan3_body
  | F_arp => a_parse_leaf_body ARP
  | F_icmp => a_parse_leaf_body ICMP
  | F_tcp => a_parse_leaf_body TCP
  | F_udp => a_parse_udp_body
  | F_vxlan => a_parse_vxlan_body
  | F_accept => a_accept_body
  end.
End Bodies.

Fixpoint a_slow_fuel (m : mode) (fuel : nat) (f : pfun) (arr : list N) : act packet :=
  match fuel with
  | O => ADone Fuel
  | S n => a_slow_body m (a_slow_fuel m n) f arr
  end.
(** [parser::slow::parse_x(arr)]. Three more than the length: [parse] calls
    [parse_dot3] on the whole input, and [accept] is called on what is left. *)
Definition a_slow (m : mode) (f : pfun) (arr : list N) : act packet :=
  a_slow_fuel m (length arr + 3) f arr.
(** ** Any call (Ops.v, Client.v) *)

Definition a_hexec (m : mode) (o : hop) : act val :=
  match o with
  | ONew T => alet x := a_hnew T in aret (VHdr x)
  | OFrom T d => alet x := a_hfrom T d in aret (VHdr x)
  | OClone x => alet y := a_hclone x in aret (VHdr y)
  | OGet x f => alet v := a_hget m x f in aret (VNum v)
  | OSet x f v => alet _ := a_hset x f v in aret VUnit
  | OBitRange x msb lsb => alet v := a_hbit_range m x msb lsb in aret (VNum v)
  | OSetBitRange x msb lsb v => alet _ := a_hset_bit_range x msb lsb v in aret VUnit
  | OBytes x msb lsb => alet v := a_hbytes m x msb lsb in aret (VBytes v)
  | OSetBytes x msb lsb v => alet _ := a_hset_bytes m x msb lsb v in aret VUnit
  | OReplace x y => alet _ := a_hreplace x y in aret VUnit
  | OToVec x => alet v := a_hto_vec x in aret (VBytes v)
  end.
Definition a_hmake_run (m : mode) (ip6 : string -> option (list N)) (b : hmake) : act hdr :=
  match b with
  | H_ethernet d s e => a_ethernet d s e
  | H_dot3 d s l => a_dot3 d s l
  | H_llc d s c => a_llc d s c
  | H_arp o sm tm si ti => a_arp o sm tm si ti
  | H_vlan p c v e => a_vlan p c v e
  | H_ipv4 ihl tos id ttl frag proto src dst len => a_ipv4 m ihl tos id ttl frag proto src dst len
  | H_ipv6 tc fl nh hl src dst len => a_ipv6 ip6 tc fl nh hl src dst len
  | H_udp s d l => a_udp s d l
  | H_icmp t c => a_icmp t c
  | H_tcp s d sn an o r f w c u => a_tcp s d sn an o r f w c u
  | H_vxlan v => a_vxlan v
  | H_gre c r k q s f v p => a_gre c r k q s f v p
  | H_gre_chksum_offset c o => a_gre_chksum_offset c o
  | H_gre_sequence_number s => a_gre_sequence_number s
  | H_gre_key k => a_gre_key k
  | H_erspan2 v c e t s i => a_erspan2 v c e t s i
  | H_erspan3 v c e t s ts sg f => a_erspan3 v c e t s ts sg f
  | H_mpls l e b t => a_mpls l e b t
  | H_snap o c => a_snap o c
  end.
Definition a_pmake_run (m : mode) (ip6 : string -> option (list N)) (b : pmake) : act packet :=
  match b with
  | P_eth e t pl => a_create_eth_packet e t pl
  | P_arp e o sm tm si ti pl => a_create_arp_packet e o sm tm si ti pl
  | P_ipv4 e i p pl => a_create_ipv4_packet m e i p pl
  | P_ipv6 e i p pl => a_create_ipv6_packet ip6 e i p pl
  | P_tcp4 e i t pl => a_create_tcp_packet m e i t pl
  | P_udp4 e i d s pl => a_create_udp_packet m e i d s pl
  | P_icmp4 e i t c pl => a_create_icmp_packet m e i t c pl
  | P_ipv4ip e i p => a_create_ipv4ip_packet m e i p
  | P_ipv6ip e i p => a_create_ipv6ip_packet ip6 e i p
  | P_tcp6 e i t pl => a_create_tcpv6_packet m ip6 e i t pl
  | P_udp6 e i d s pl => a_create_udpv6_packet m ip6 e i d s pl
  | P_icmp6 e i t c pl => a_create_icmpv6_packet m ip6 e i t c pl
  | P_vxlan e i d s v p => a_create_vxlan_packet m e i d s v p
  | P_vxlan6 e i d s v p => a_create_vxlanv6_packet m ip6 e i d s v p
  | P_gre_pkt e i g p => a_create_gre_packet m e i g p
  | P_erspan2 e i q a x p => a_create_erspan_2_packet m e i q a x p
  | P_erspan3 e i q a ts sg f id info p => a_create_erspan_3_packet m e i q a ts sg f id info p
  end.
Definition a_kexec (m : mode) (ip6 : string -> option (list N)) (k : call) : act kres :=
  match k with
  | K_hdr o => alet v := a_hexec m o in
      aret (match v with VHdr x => KHdr x | _ => KVal v end)
  | K_downcast T x => alet y := a_hdowncast T x in aret (KHdr y)
  | K_hshow x => alet s := a_hshow m x in aret (KText s)
  | K_make b => alet x := a_hmake_run m ip6 b in aret (KHdr x)
  | K_pnew => aret (KPkt pkt_new)
  | K_push p a => alet q := a_push_any p a in aret (KPkt q)
  | K_insert p a => alet q := a_insert_any p a in aret (KPkt q)
  | K_pop p => aret (KPkt (pop p))
  | K_remove p i => aret (KPkt (remove p i))
  | K_set_payload p d => aret (KPkt (set_payload p d))
  | K_add p q => alet r := a_pkt_add p q in aret (KPkt r)
  | K_pclone p => alet r := a_pkt_clone p in aret (KPkt r)
  | K_index p name => alet x := a_index_name p name in aret (KHdr x)
  | K_get_header T p name =>
      aret (match get_header T p name with Some x => KHdr x | None => KVal VUnit end)
  | K_pto_vec p => alet v := a_to_vec p in aret (KVal (VBytes v))
  | K_compare p q => alet b := a_compare p q in aret (KBool b)
  | K_compare_slice p d => alet b := a_compare_with_slice p d in aret (KBool b)
  | K_pshow p => alet s := a_pkt_show m p in aret (KText s)
  | K_checksum d => alet c := alift (ipv4_checksum m d) in aret (KVal (VNum c))
  | K_mac s => alet d := alift (to_mac_bytes s) in aret (KVal (VBytes d))
  | K_ip4 s => alet d := alift (to_ipv4_bytes s) in aret (KVal (VBytes d))
  | K_create b => alet p := a_pmake_run m ip6 b in aret (KPkt p)
  | K_parse f d => alet p := a_slow m f d in aret (KPkt p)
  | K_fast f v => alet q := alift (fast_view m f v) in aret (KSlice q)
  | K_sfrom T v => alet x := alift (sfrom T v) in aret (KSHdr x)
  | K_sget x f => alet v := alift (sget m x f) in aret (KVal (VNum v))
  | K_sbytes x msb lsb => alet v := alift (sbytes m x msb lsb) in aret (KVal (VBytes v))
  | K_sshow x => alet s := alift (sshow m x) in aret (KText s)
  | K_ps_show q => alet s := alift (ps_show m q) in aret (KText s)
  | K_ip6 s => aret (KVal (VBytes (to_ipv6_bytes ip6 s)))
  | K_query q => alift (query_run m q)
  end.

(** ** Without interruption *)

Fixpoint asolo {A} (p : act A) : M A :=
  match p with
  | ADone o => lift o
  | AAlloc d k => bind (alloc d) (fun r => asolo (k r))
  | ARead r i k => bind (with_lock r (fun d => (index d i, d))) (fun b => asolo (k b))
  | AWrite r i v k => bind (with_lock r (fun d => set_bit_step d i v)) (fun _ => asolo k)
  | ACopy r k => bind (with_lock r (fun d => (Ret d, d))) (fun d => asolo (k d))
  | ARepl x o k => bind (hreplace (Hdr Tester x) (Hdr Tester o)) (fun _ => asolo k)
  end.

(** ** Threads *)

(** A call about to do [p], or inside [replace] after the [clear], holding the lock
    of [x] and waiting for that of [o]. *)
Inductive tstate :=
| TRun (p : act kres)
| TWait (x o : nat) (p : act kres).
(** A thread between two calls, or executing call [k]; [own] are the buffers this
    call has allocated so far, a record for the statements that nothing depends on. *)
Inductive thread :=
| Idle
| Busy (k : call) (own : list nat) (t : tstate).

Definition holds (r : nat) (t : thread) : bool :=
  match t with Busy _ _ (TWait x _ _) => (x =? r)%nat | _ => false end.
Definition held (ts : list thread) (r : nat) : bool := existsb (holds r) ts.

(** After a critical section. *)
Definition after {B} (o : out B * heap) (k : B -> tstate) : heap * list nat * tstate :=
  match o with
  | (Ret b, h) => (h, [], k b)
  | (Panic e, h) => (h, [], TRun (ADone (Panic e)))
  | (UB, h) => (h, [], TRun (ADone UB))
  | (Hang, h) => (h, [], TRun (ADone Hang))
  | (Fuel, h) => (h, [], TRun (ADone Fuel))
  end.

(** One step: the buffers, those newly allocated, and what is left to do. [None] when
    the call has finished or a lock is held by another thread (or by this one). *)
Definition tstep (ts : list thread) (h : heap) (t : tstate) : option (heap * list nat * tstate) :=
  match t with
  | TRun (ADone _) => None
  | TRun (AAlloc d k) => Some (h ++ [Cell d false], [length h], TRun (k (length h)))
  | TRun (ARead r i k) =>
      if held ts r then None
      else Some (after (with_lock r (fun d => (index d i, d)) h) (fun b => TRun (k b)))
  | TRun (AWrite r i v k) =>
      if held ts r then None
      else Some (after (with_lock r (fun d => set_bit_step d i v) h) (fun _ => TRun k))
  | TRun (ACopy r k) =>
      if held ts r then None
      else Some (after (with_lock r (fun d => (Ret d, d)) h) (fun d => TRun (k d)))
  | TRun (ARepl x o k) =>
      if held ts x then None
      else Some (after (with_lock x (fun _ => (Ret tt, [])) h) (fun _ => TWait x o k))
  | TWait x o k =>
      if held ts o then None
      else
        match nth_error h x, nth_error h o with
        | Some cx, Some co =>
            (** the guard of [x] is dropped by unwinding if [o] is poisoned *)
            if c_poisoned co
            then Some (upd h x (Cell (c_data cx) true), [], TRun (ADone (Panic PPoison)))
            else Some (upd h x (Cell (c_data cx ++ c_data co) false), [], TRun k)
        | _, _ => Some (h, [], TRun (ADone UB))
        end
  end.

(** What the program has obtained (Client.v), and the threads. *)
Definition world : Type := client * list thread.
Definition w_start : world := (k_start, []).

Definition set_heap (c : client) (h : heap) : client :=
  Cl h (k_hdrs c) (k_pkts c) (k_shdrs c) (k_slices c).

(** Thread [i] executes one step of its call. *)
Definition wdo (w : world) (i : nat) : option world :=
  let (c, ts) := w in
  match nth_error ts i with
  | Some (Busy k own t) =>
      match tstep ts (k_heap c) t with
      | Some (h, new, t') => Some (set_heap c h, upd ts i (Busy k (own ++ new) t'))
      | None => None
      end
  | _ => None
  end.
(** Thread [i] begins call [k]. *)
Definition wcall (m : mode) (ip6 : string -> option (list N)) (w : world) (i : nat) (k : call) : option world :=
  let (c, ts) := w in
  match nth_error ts i with
  | Some Idle => Some (c, upd ts i (Busy k [] (TRun (a_kexec m ip6 k))))
  | _ => None
  end.
(** The call of thread [i] has returned or panicked (a panic is caught). *)
Definition wback (w : world) (i : nat) : option world :=
  let (c, ts) := w in
  match nth_error ts i with
  | Some (Busy k own (TRun (ADone (Ret v)))) => Some (learn c (Ret v) (k_heap c), upd ts i Idle)
  | Some (Busy k own (TRun (ADone (Panic e)))) => Some (c, upd ts i Idle)
  | _ => None
  end.
(** A new thread. *)
Definition wspawn (w : world) : world := let (c, ts) := w in (c, ts ++ [Idle]).
