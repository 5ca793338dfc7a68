(** ClientSpec.v -- which programs [Client.v] is about, and what C66 says of them. *)

From Verif Require Import Base Bits Types Layout Heap Packet Build Utils Slow Fast Ops Client Spec.
Open Scope N_scope.

(** ** Values a program can pass *)

(** Rust's integer types. *)
Definition u8t (v : N) : Prop := v < 256.
Definition u16t (v : N) : Prop := v < 65536.
Definition u32t (v : N) : Prop := v < 2 ^ 32.
Definition u64t (v : N) : Prop := v < 2 ^ 64.

(** A [&[u8]]: bytes within its allocation. *)
Definition slice_ok (v : view) : Prop :=
  bytes_ok (v_buf v) /\ (v_off v + v_len v <= length (v_buf v))%nat.

Definition eth_t (e : eth_args) : Prop := u16t (vlan_vid e) /\ u8t (vlan_pcp e).
Definition ip4_t (i : ip4_args) : Prop :=
  u8t (ip_ihl i) /\ u8t (ip_tos i) /\ u8t (ip_ttl i) /\ u16t (ip_id i) /\ u16t (ip_frag i).
Definition ip6_t (i : ip6_args) : Prop :=
  u8t (ip6_traffic_class i) /\ u32t (ip6_flow_label i) /\ u8t (ip6_hop_limit i).
Definition tcp_t (t : tcp_args) : Prop :=
  u16t (tcp_dst t) /\ u16t (tcp_src t) /\ u32t (tcp_seq_no t) /\ u32t (tcp_ack_no t) /\
  u8t (tcp_data_offset t) /\ u8t (tcp_res t) /\ u8t (tcp_flags t) /\ u16t (tcp_window t) /\ u16t (tcp_urgent_ptr t).
Definition gre_t (g : gre_args) : Prop :=
  u8t (gre_flags g) /\ u8t (gre_version g) /\ u16t (gre_chksum g) /\ u16t (gre_offset g) /\
  u32t (gre_keyval g) /\ u32t (gre_seqnum g) /\ bytes_ok (gre_routing g).
Definition er_t' (a : erspan_args) : Prop :=
  u16t (er_vlan a) /\ u8t (er_cos a) /\ u8t (er_en a) /\ u8t (er_t a) /\ u16t (er_session_id a).

Definition hmake_t (b : hmake) : Prop :=
  match b with
  | H_ethernet _ _ e | H_dot3 _ _ e => u16t e
  | H_llc d s c => u8t d /\ u8t s /\ u8t c
  | H_arp o _ _ _ _ => u16t o
  | H_vlan p c v e => u8t p /\ u8t c /\ u16t v /\ u16t e
  | H_ipv4 ihl tos id ttl frag proto _ _ len =>
      u8t ihl /\ u8t tos /\ u16t id /\ u8t ttl /\ u16t frag /\ u8t proto /\ u16t len
  | H_ipv6 tc fl nh hl _ _ len => u8t tc /\ u32t fl /\ u8t nh /\ u8t hl /\ u16t len
  | H_udp s d l => u16t s /\ u16t d /\ u16t l
  | H_icmp t c => u8t t /\ u8t c
  | H_tcp s d sn an o r f w c u =>
      u16t s /\ u16t d /\ u32t sn /\ u32t an /\ u8t o /\ u8t r /\ u8t f /\ u16t w /\ u16t c /\ u16t u
  | H_vxlan v => u32t v
  | H_gre _ _ _ _ _ f v p => u8t f /\ u8t v /\ u16t p
  | H_gre_chksum_offset c o => u16t c /\ u16t o
  | H_gre_sequence_number s | H_gre_key s => u32t s
  | H_erspan2 v c e t s i => u16t v /\ u8t c /\ u8t e /\ u8t t /\ u16t s /\ u32t i
  | H_erspan3 v c e t s ts sg f => u16t v /\ u8t c /\ u8t e /\ u8t t /\ u16t s /\ u32t ts /\ u16t sg /\ u16t f
  | H_mpls l e b t => u32t l /\ u8t e /\ u8t b /\ u8t t
  | H_snap o c => u32t o /\ u16t c
  end.
Definition pmake_t (b : pmake) : Prop :=
  match b with
  | P_eth e t pl => eth_t e /\ u16t t /\ bytes_ok pl
  | P_arp e o _ _ _ _ pl => eth_t e /\ u16t o /\ bytes_ok pl
  | P_ipv4 e i p pl => eth_t e /\ ip4_t i /\ u8t p /\ bytes_ok pl
  | P_ipv6 e i p pl => eth_t e /\ ip6_t i /\ u8t p /\ bytes_ok pl
  | P_tcp4 e i t pl => eth_t e /\ ip4_t i /\ tcp_t t /\ bytes_ok pl
  | P_udp4 e i d s pl => eth_t e /\ ip4_t i /\ u16t d /\ u16t s /\ bytes_ok pl
  | P_icmp4 e i t c pl => eth_t e /\ ip4_t i /\ u8t t /\ u8t c /\ bytes_ok pl
  | P_ipv4ip e i _ => eth_t e /\ ip4_t i
  | P_ipv6ip e i _ => eth_t e /\ ip6_t i
  | P_tcp6 e i t pl => eth_t e /\ ip6_t i /\ tcp_t t /\ bytes_ok pl
  | P_udp6 e i d s pl => eth_t e /\ ip6_t i /\ u16t d /\ u16t s /\ bytes_ok pl
  | P_icmp6 e i t c pl => eth_t e /\ ip6_t i /\ u8t t /\ u8t c /\ bytes_ok pl
  | P_vxlan e i d s v _ => eth_t e /\ ip4_t i /\ u16t d /\ u16t s /\ u32t v
  | P_vxlan6 e i d s v _ => eth_t e /\ ip6_t i /\ u16t d /\ u16t s /\ u32t v
  | P_gre_pkt e i g _ => eth_t e /\ ip4_t i /\ gre_t g
  | P_erspan2 e i q a x _ => eth_t e /\ ip4_t i /\ u32t q /\ er_t' a /\ u32t x
  | P_erspan3 e i q a ts sg f id info _ =>
      eth_t e /\ ip4_t i /\ u32t q /\ er_t' a /\ u32t ts /\ u16t sg /\ u16t f /\ u8t id /\ u64t info
  end.

(** The integer and byte arguments have their Rust types. *)
Definition typed (k : call) : Prop :=
  match k with
  | K_hdr (ONew T) => bytes_ok (ht_default T)
  | K_hdr (OFrom _ d) => bytes_ok d
  | K_hdr (OSet _ _ v) | K_hdr (OSetBitRange _ _ _ v) => u64t v
  | K_hdr (OSetBytes _ _ _ v) => bytes_ok v
  | K_make b => hmake_t b
  | K_set_payload _ d | K_compare_slice _ d | K_checksum d | K_parse _ d => bytes_ok d
  | K_create b => pmake_t b
  | K_push _ (Borrowed _ d) | K_insert _ (Borrowed _ d) => bytes_ok d
  | K_fast _ v | K_sfrom _ v => slice_ok v
  | K_query (Q_sset _ _ _ v) => u64t v
  | _ => True
  end.

(** Headers, packets and borrowed headers must have been obtained before. *)
Definition hop_hdrs (o : hop) : list hdr :=
  match o with
  | ONew _ | OFrom _ _ => []
  | OReplace x y => [x; y]
  | OClone x | OGet x _ | OSet x _ _ | OBitRange x _ _ | OSetBitRange x _ _ _ | OBytes x _ _
  | OSetBytes x _ _ _ | OToVec x => [x]
  end.
Definition query_known (c : client) (q : query) : Prop :=
  match q with
  | Q_len p | Q_payload p => In p (k_pkts c)
  | Q_name x | Q_hlen x | Q_as_slice x => In x (k_hdrs c)
  | Q_ps_len s | Q_ps_payload s | Q_ps_to_vec s => In s (k_slices c)
  | Q_sname x | Q_slen x | Q_sas_slice x | Q_sbit_range x _ _ | Q_sset x _ _ _ | Q_sclone x => In x (k_shdrs c)
  | Q_size _ | Q_field_size _ | Q_field_lsb _ | Q_field_msb _ | Q_ps_new => True
  end.
Definition known (c : client) (k : call) : Prop :=
  match k with
  | K_hdr o => incl (hop_hdrs o) (k_hdrs c)
  | K_downcast _ x | K_hshow x => In x (k_hdrs c)
  | K_push p (Owned x) | K_insert p (Owned x) => In p (k_pkts c) /\ In x (k_hdrs c)
  | K_push p (Borrowed _ _) | K_insert p (Borrowed _ _)
  | K_pop p | K_remove p _ | K_set_payload p _ | K_pclone p | K_index p _ | K_get_header _ p _
  | K_pto_vec p | K_compare_slice p _ | K_pshow p => In p (k_pkts c)
  | K_add p q | K_compare p q => In p (k_pkts c) /\ In q (k_pkts c)
  | K_create b => incl (pmake_inner b) (k_pkts c)
  | K_sget x _ | K_sbytes x _ _ | K_sshow x => In x (k_shdrs c)
  | K_ps_show q => In q (k_slices c)
  | K_query q => query_known c q
  | _ => True
  end.

(** A program: calls on what is known, until one does not come back. *)
Definition comes_back {A} (o : out A) : Prop := (exists a, o = Ret a) \/ exists e, o = Panic e.
Inductive reach (m : mode) (ip6 : string -> option (list N)) : client -> Prop :=
| Reach_start : reach m ip6 k_start
| Reach_call c k o h : reach m ip6 c -> known c k -> typed k ->
    kexec m ip6 k (k_heap c) = (o, h) -> comes_back o -> reach m ip6 (learn c o h).

(** ** What is claimed *)

Definition live (h : heap) (x : hdr) : Prop := (h_ref x < length h)%nat.
Definition pkt_ok (h : heap) (p : packet) : Prop := Forall (live h) (p_hdrs p) /\ bytes_ok (p_payload p).
Definition shdr_ok (x : shdr) : Prop := slice_ok (s_view x) /\ v_len (s_view x) = ht_size (s_ty x).
Definition slices_ok (q : packet_slice) : Prop := Forall shdr_ok (ps_hdrs q) /\ slice_ok (ps_payload q).
(** Every reference leads to a buffer, every buffer and payload holds bytes, every
    borrowed header lies within the slice it was made from. *)
Definition client_ok (c : client) : Prop :=
  heap_ok (k_heap c) /\ Forall (live (k_heap c)) (k_hdrs c) /\ Forall (pkt_ok (k_heap c)) (k_pkts c) /\
  Forall shdr_ok (k_shdrs c) /\ Forall slices_ok (k_slices c).

(** [XSlice::from] of a slice shorter than the header. *)
Definition short_from (k : call) : Prop :=
  match k with K_sfrom T v => (v_len v < ht_size T)%nat | _ => False end.
(** [x.replace(&y)] with one buffer, not poisoned. *)
Definition self_replace (h : heap) (k : call) : Prop :=
  match k with
  | K_hdr (OReplace x y) => h_ref x = h_ref y /\ ~ poisoned_at h (h_ref x)
  | _ => False
  end.

(** The buffers a call may change: those of the header written or read bit by bit (a
    read can poison). *)
Definition touches (k : call) : list nat :=
  match k with
  | K_hdr (OToVec _) | K_hdr (OClone _) => []
  | K_hdr (OReplace x _) => [h_ref x]
  | K_hdr o => map h_ref (hop_hdrs o)
  | K_hshow x => [h_ref x]
  | K_pshow p => map h_ref (p_hdrs p)
  | _ => []
  end.
(** Calls that write to an existing header. *)
Definition writes (k : call) : bool :=
  match k with
  | K_hdr (OSet _ _ _) | K_hdr (OSetBitRange _ _ _ _) | K_hdr (OSetBytes _ _ _ _) | K_hdr (OReplace _ _) => true
  | _ => false
  end.
