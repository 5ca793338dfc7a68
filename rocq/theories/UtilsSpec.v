(** UtilsSpec.v -- vocabulary for the properties of the packet builders
    (C42-C48): what a call was given and what packet it made. *)

From Verif Require Import Base Bits Types Layout Heap Packet Text Build Utils Slow Fast Spec Grammar
  PropChecksum PropBuild PropParse.
Open Scope N_scope.

(** ** Arguments: readable texts, integers in the range of their Rust types *)

(** [d], [s]: the octets of the destination and source MAC texts. *)
Definition eth_in (e : eth_args) (d s : list N) : Prop :=
  mac_text (eth_dst e) d /\ mac_text (eth_src e) s /\ vlan_vid e < 65536 /\ vlan_pcp e < 256.
(** [s], [d]: the octets of the source and destination address texts. *)
Definition ip4_in (i : ip4_args) (s d : list N) : Prop :=
  ipv4_text (ip_src i) s /\ ipv4_text (ip_dst i) d /\ ip_ihl i < 256 /\ ip_tos i < 256 /\
  ip_ttl i < 256 /\ ip_id i < 65536 /\ ip_frag i < 65536.
Definition ip6_in (i : ip6_args) (ip6 : string -> option (list N)) (s d : list N) : Prop :=
  octets16 ip6 /\ addr6 ip6 (ip6_src i) s /\ addr6 ip6 (ip6_dst i) d /\
  ip6_traffic_class i < 256 /\ ip6_flow_label i < 2 ^ 32 /\ ip6_hop_limit i < 256.
Definition tcp_in (t : tcp_args) : Prop :=
  tcp_src t < 65536 /\ tcp_dst t < 65536 /\ tcp_seq_no t < 2 ^ 32 /\ tcp_ack_no t < 2 ^ 32 /\
  tcp_data_offset t < 256 /\ tcp_res t < 256 /\ tcp_flags t < 256 /\
  tcp_window t < 65536 /\ tcp_urgent_ptr t < 65536.
Definition gre_in (g : gre_args) : Prop :=
  gre_flags g < 256 /\ gre_version g < 256 /\ gre_chksum g < 65536 /\ gre_offset g < 65536 /\
  gre_keyval g < 2 ^ 32 /\ gre_seqnum g < 2 ^ 32.

(** ** Results *)

(** The call returned a packet with the headers [segs] and the payload [pl];
    every buffer of heap [h] is as before. *)
Definition packet_is (r : out packet * heap) (h : heap) (segs : list seg) (pl : list N) : Prop :=
  exists p l, r = (Ret p, h ++ l) /\ holds (h ++ l) (p_hdrs p) segs /\ p_payload p = pl.
(** Moreover each header has a new buffer of its own. *)
Definition packet_new (r : out packet * heap) (h : heap) (segs : list seg) (pl : list N) : Prop :=
  exists p l, r = (Ret p, h ++ l) /\ holds (h ++ l) (p_hdrs p) segs /\ p_payload p = pl /\
    NoDup (map h_ref (p_hdrs p)) /\ Forall (fun x => length h <= h_ref x)%nat (p_hdrs p).

(** ** Header contents. Out-of-range arguments are allowed, so some entries are
    or-ed together; in range they are the arguments themselves (see
    [in_range_*] in PropUtils.v). *)

Definition ether_fields (d s : list N) (etype : N) : list (nat * N) :=
  [48 # (be d); 48 # (be s); 16 # etype].
Definition vlan_fields (pcp vid etype : N) : list (nat * N) :=
  [3 # (N.lor (vid / 8192) (pcp mod 8)); 1 # (vid / 4096 mod 2); 12 # (vid mod 4096); 16 # etype].
(** Ethernet header, and VLAN tag if asked for, announcing [etype]. *)
Definition ether_part (e : eth_args) (d s : list N) (etype : N) (es : list seg) : Prop :=
  if vlan_enable e
  then exists x y, es = [(Ether, x); (Vlan, y)] /\ diagram x (ether_fields d s 0x8100) /\
         diagram y (vlan_fields (vlan_pcp e) (vlan_vid e) etype)
  else exists x, es = [(Ether, x)] /\ diagram x (ether_fields d s etype).

Definition ip4_fields (i : ip4_args) (proto : N) (s d : list N) (total : nat) (c : N) : list (nat * N) :=
  [4 # (N.lor 4 (ip_ihl i / 16)); 4 # (ip_ihl i mod 16); 8 # (ip_tos i); 16 # (N.of_nat total mod 65536);
   16 # (ip_id i); 3 # (ip_frag i / 8192); 13 # (ip_frag i mod 8192); 8 # (ip_ttl i); 8 # proto; 16 # c;
   32 # (be s); 32 # (be d)].
(** An IPv4 header with total length [total]; its checksum verifies except for
    the carry error of C20. *)
Definition ip4_header (i : ip4_args) (proto : N) (s d : list N) (total : nat) (x : list N) : Prop :=
  exists c, diagram x (ip4_fields i proto s d total c) /\
    (checksum_ok x <-> ~ carries (other_words x)) /\
    (carries (other_words x) -> c = rfc_checksum x + 1).

Definition ip6_fields (i : ip6_args) (nh : N) (s d : list N) (len : nat) : list (nat * N) :=
  [4 # (N.lor 6 (ip6_flow_label i / 2 ^ 28));
   8 # (N.lor (ip6_traffic_class i) (ip6_flow_label i / 2 ^ 20 mod 256));
   20 # (ip6_flow_label i mod 2 ^ 20); 16 # (N.of_nat len mod 65536); 8 # nh; 8 # (ip6_hop_limit i);
   128 # (be s); 128 # (be d)].

Definition tcp_fields (t : tcp_args) : list (nat * N) :=
  [16 # (tcp_src t); 16 # (tcp_dst t); 32 # (tcp_seq_no t); 32 # (tcp_ack_no t);
   4 # (N.lor (tcp_data_offset t mod 16) (tcp_res t / 16)); 4 # (tcp_res t mod 16); 8 # (tcp_flags t);
   16 # (tcp_window t); 16 # 0; 16 # (tcp_urgent_ptr t)].
Definition udp_fields (src dst : N) (len : nat) (c : N) : list (nat * N) :=
  [16 # src; 16 # dst; 16 # (N.of_nat len mod 65536); 16 # c].
Definition icmp_fields (ty code : N) : list (nat * N) := [8 # ty; 8 # code; 16 # 0].
Definition vxlan_fields (vni : N) : list (nat * N) := [8 # 8; 24 # 0; 24 # (vni mod 2 ^ 24); 8 # 0].
Definition gre_fields (g : gre_args) (proto : N) : list (nat * N) :=
  [1 # (b2n (gre_chksum_present g)); 1 # (b2n (gre_routing_present g)); 1 # (b2n (gre_key_present g));
   1 # (b2n (gre_seqnum_present g)); 1 # (b2n (gre_strict_route_src g)); 3 # 0;
   5 # (N.lor (gre_flags g mod 32) (gre_version g / 8)); 3 # (gre_version g mod 8); 16 # proto].

(** Parsing the bytes of the packet gives its headers (types and bytes, in
    order) and payload back, with either parser. *)
Definition round_trip (r : out packet * heap) : Prop :=
  exists p h v segs, r = (Ret p, h) /\ holds h (p_hdrs p) segs /\ to_vec p h = (Ret v, h) /\
    forall m,
      (forall h2, exists q h3, slow m F_parse v h2 = (Ret q, h3) /\
         holds h3 (p_hdrs q) segs /\ p_payload q = p_payload p) /\
      (exists q, fast m F_parse v = Ret q /\
         sholds (ps_hdrs q) segs /\ v_bytes (ps_payload q) = p_payload p).

(** The entry point for IP packets of the version in the first nibble; other
    nibbles count as IPv4 (library). *)
Definition ip_entry (b0 : N) : pfun := if b0 / 16 =? 6 then F_ipv6 else F_ipv4.
Definition ip_proto_of (b0 : N) : N := if b0 / 16 =? 6 then 41 else 4.

(** ** Tunnels *)

(** Parsing the bytes of the packet reports the headers [segs] and the payload
    [pl], with either parser. *)
Definition parses_as (r : out packet * heap) (segs : list seg) (pl : list N) : Prop :=
  exists p h v, r = (Ret p, h) /\ to_vec p h = (Ret v, h) /\
    forall m,
      (forall h2, exists q h3, slow m F_parse v h2 = (Ret q, h3) /\
         holds h3 (p_hdrs q) segs /\ p_payload q = pl) /\
      (exists q, fast m F_parse v = Ret q /\ sholds (ps_hdrs q) segs /\ v_bytes (ps_payload q) = pl).
(** Parsing the bytes of the packet panics. *)
Definition parse_panics (r : out packet * heap) : Prop :=
  exists p h v, r = (Ret p, h) /\ to_vec p h = (Ret v, h) /\
    forall m, (forall h2, exists f h3, slow m F_parse v h2 = (Panic f, h3)) /\
      (exists f, fast m F_parse v = Panic f).

(** The inner packet, if any, has the headers [isegs] and the payload [ipl]. *)
Definition inner_is (h : heap) (q : option packet) (isegs : list seg) (ipl : list N) : Prop :=
  match q with
  | Some p => holds h (p_hdrs p) isegs /\ p_payload p = ipl
  | None => isegs = [] /\ ipl = []
  end.
(** Every header has the size of its type. *)
Definition sized (l : list seg) : Prop := Forall (fun s : seg => length (snd s) = ht_size (fst s)) l.
(** A 16-bit length field holding [n] says [k] bytes. *)
Definition says (n k : nat) : Prop := N.of_nat n mod 65536 = N.of_nat k mod 65536.

(** GRE: the protocol type and the entry point for it; the option words in the
    order of RFC 2890. *)
Definition gre_proto_of (b0 : N) : N := if b0 / 16 =? 4 then 0x0800 else if b0 / 16 =? 6 then 0x86DD else 0.
Definition gre_entry (b0 : N) : pfun := if b0 / 16 =? 4 then F_ipv4 else if b0 / 16 =? 6 then F_ipv6 else F_accept.
Definition gre_words (g : gre_args) : list (htype * list (nat * N)) :=
  (if gre_chksum_present g then [(GREChksumOffset, [16 # (gre_chksum g); 16 # (gre_offset g)])] else []) ++
  (if gre_key_present g then [(GREKey, [32 # (gre_keyval g)])] else []) ++
  (if gre_seqnum_present g then [(GRESequenceNum, [32 # (gre_seqnum g)])] else []).
(** Headers of the given types with the given contents. *)
Definition headers_are (l : list seg) (ws : list (htype * list (nat * N))) : Prop :=
  Forall2 (fun (s : seg) w => fst s = fst w /\ diagram (snd s) (snd w)) l ws.
Definition routing_len (g : gre_args) : nat := if gre_routing_present g then length (gre_routing g) else 0.

(** ERSPAN *)
Definition er_in (x : erspan_args) : Prop :=
  er_vlan x < 4096 /\ er_cos x < 8 /\ er_en x < 4 /\ er_t x < 2 /\ er_session_id x < 1024.
Definition er_gre_fields (flag : bool) (proto : N) : list (nat * N) :=
  [1 # 0; 1 # 0; 1 # 0; 1 # (b2n flag); 1 # 0; 3 # 0; 5 # 0; 3 # 0; 16 # proto].
Definition er2_fields (x : erspan_args) (idx : N) : list (nat * N) :=
  [4 # 1; 12 # (er_vlan x); 3 # (er_cos x); 2 # (er_en x); 1 # (er_t x); 10 # (er_session_id x); 12 # 0; 20 # idx].
Definition er3_fields (x : erspan_args) (ts sgt other : N) : list (nat * N) :=
  [4 # 2; 12 # (er_vlan x); 3 # (er_cos x); 2 # (er_en x); 1 # (er_t x); 10 # (er_session_id x);
   32 # ts; 16 # sgt; 16 # other].
Definition seq_words (n : N) : list (htype * list (nat * N)) :=
  if n =? 0 then [] else [(GRESequenceNum, [32 # n])].
(** The platform subheader follows when the last bit (O) is set. *)
Definition plat_words (other id info : N) : list (htype * list (nat * N)) :=
  if N.odd other then [(ERSPANPLATFORM, [6 # (N.lor (id mod 64) (info / 2 ^ 58)); 58 # (info mod 2 ^ 58)])] else [].

(** What [len()] says of such headers and payload: the sizes of the types. *)
Definition nominal_len (isegs : list seg) (ipl : list N) : nat :=
  (list_sum (map (fun s : seg => ht_size (fst s)) isegs) + length ipl)%nat.
