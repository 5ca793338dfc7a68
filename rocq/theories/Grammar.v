(** Grammar.v -- what the parsers should report, as protocol tables. A
    specification: nothing here is taken from Slow.v or Fast.v but the names of
    the entry points ([pfun]) and the type of windows ([view]).

    Byte offsets and code points are those of the standards (IEEE 802.1Q/802.3,
    RFC 791, 768, 2784/2890, 3032, 7348, 8200, draft-foschiano-erspan); the
    choices that are the library's own are marked. *)

From Verif Require Import Base Layout Slow Fast Spec.
Open Scope N_scope.

(** The [n] bytes at offset [i]. *)
Definition sub (b : list N) (i n : nat) : list N := firstn n (skipn i b).

(** Each entry point starts with one header of fixed size ... *)
Definition header_of (f : pfun) : option htype :=
  match f with
  | F_parse | F_accept => None
  | F_dot3 => Some Dot3 | F_llc => Some LLC | F_snap => Some SNAP
  | F_ethernet => Some Ether | F_vlan => Some Vlan
  | F_mpls | F_mpls_bos => Some MPLS
  | F_ipv4 => Some IPv4 | F_ipv6 => Some IPv6
  | F_gre => Some GRE | F_erspan2 => Some ERSPAN2 | F_erspan3 => Some ERSPAN3
  | F_arp => Some ARP | F_icmp => Some ICMP | F_tcp => Some TCP
  | F_udp => Some UDP | F_vxlan => Some Vxlan
  end.

(** ... whose bits announce optional headers, listed in wire order (RFC 2890
    section 2: checksum, key, sequence number; ERSPAN III: the O bit is the last
    bit of the header). The routing bit of GRE is not looked at (library). *)
Definition options (f : pfun) (x : list N) : list htype :=
  match f with
  | F_gre => (if bit x 0 then [GREChksumOffset] else []) ++
             (if bit x 2 then [GREKey] else []) ++
             (if bit x 3 then [GRESequenceNum] else [])
  | F_erspan3 => if bit x 95 then [ERSPANPLATFORM] else []
  | _ => []
  end.

(** Demultiplexing tables. Unlisted values mean payload. *)
Definition ethertypes : list (N * pfun) :=
  [(0x8100, F_vlan); (0x0806, F_arp); (0x0800, F_ipv4); (0x86DD, F_ipv6); (0x8847, F_mpls)].
Definition gre_protocols : list (N * pfun) :=
  [(0x0800, F_ipv4); (0x86DD, F_ipv6); (0x88BE, F_erspan2); (0x22EB, F_erspan3)].
Definition ipv4_protocols : list (N * pfun) :=
  [(1, F_icmp); (4, F_ipv4); (6, F_tcp); (17, F_udp); (41, F_ipv6); (47, F_gre)].
Definition ipv6_next_headers : list (N * pfun) :=
  [(58, F_icmp); (4, F_ipv4); (6, F_tcp); (17, F_udp); (41, F_ipv6); (47, F_gre)].
Fixpoint entry (table : list (N * pfun)) (v : N) : pfun :=
  match table with
  | [] => F_accept
  | (k, f) :: t => if k =? v then f else entry t v
  end.

(** What follows header [x] of entry point [f], its options skipped; [rest] is
    only looked at after the MPLS entry that follows a bottom-of-stack entry
    (library; see C41), and must not be empty there. *)
Definition demux (f : pfun) (x rest : list N) : option pfun :=
  match f with
  | F_parse | F_accept => None
  | F_dot3 => Some F_llc
  | F_llc => Some (if be x =? 0xAAAA03 then F_snap else F_accept)
  | F_snap | F_arp | F_icmp | F_tcp => Some F_accept
  | F_ethernet => Some (entry ethertypes (be (sub x 12 2)))
  | F_vlan => Some (entry ethertypes (be (sub x 2 2)))
  | F_mpls => Some (if bit x 23 then F_mpls_bos else F_mpls)
  | F_mpls_bos =>
      match rest with
      | [] => None
      | b :: _ => Some (if b / 16 =? 4 then F_ipv4 else if b / 16 =? 6 then F_ipv6 else F_ethernet)
      end
  | F_ipv4 => Some (entry ipv4_protocols (be (sub x 9 1)))
  | F_ipv6 => Some (entry ipv6_next_headers (be (sub x 6 1)))
  | F_gre => Some (entry gre_protocols (be (sub x 2 2)))
  | F_erspan2 | F_erspan3 | F_vxlan => Some F_ethernet
  | F_udp => Some (if be (sub x 2 2) =? 4789 then F_vxlan else F_accept)
  end.

(** A header found on the wire: its type and bytes. *)
Definition seg : Type := htype * list N.

(** [wire f b gs pl]: read from entry point [f], the bytes [b] are the headers
    [gs] followed by the payload [pl]. The headers are in wire order, grouped:
    each fixed header is a group, and so are its options. *)
Inductive wire : pfun -> list N -> list (list seg) -> list N -> Prop :=
| W_accept b : wire F_accept b [] b
| W_parse b gs pl :
    (14 <= length b)%nat ->
    wire (if be (sub b 12 2) <? 1500 then F_dot3 else F_ethernet) b gs pl ->
    wire F_parse b gs pl
| W_header f T x os rest g gs pl :
    header_of f = Some T -> length x = ht_size T ->
    map (@length N) os = map ht_size (options f x) ->
    demux f x rest = Some g ->
    wire g rest gs pl ->
    wire f (x ++ concat os ++ rest) ([(T, x)] :: combine (options f x) os :: gs) pl.

(** [cut f b]: some header that the tables call for does not fit in what is left. *)
Inductive cut : pfun -> list N -> Prop :=
| C_parse b : (length b < 14)%nat -> cut F_parse b
| C_parse_next b :
    (14 <= length b)%nat ->
    cut (if be (sub b 12 2) <? 1500 then F_dot3 else F_ethernet) b -> cut F_parse b
| C_header f T b : header_of f = Some T -> (length b < ht_size T)%nat -> cut f b
| C_options f T x rest :
    header_of f = Some T -> length x = ht_size T ->
    (length rest < list_sum (map ht_size (options f x)))%nat -> cut f (x ++ rest)
| C_peek f T x os rest :
    header_of f = Some T -> length x = ht_size T ->
    map (@length N) os = map ht_size (options f x) ->
    demux f x rest = None -> cut f (x ++ concat os ++ rest)
| C_next f T x os rest g :
    header_of f = Some T -> length x = ht_size T ->
    map (@length N) os = map ht_size (options f x) ->
    demux f x rest = Some g -> cut g rest -> cut f (x ++ concat os ++ rest).

(** The same with the message a parser should give: a header is copied out of a slice,
    the type word and the byte after the last MPLS label are indexed. *)
Inductive cut_by : pfun -> list N -> fault -> Prop :=
| D_parse b : (length b < 14)%nat -> cut_by F_parse b PIndex
| D_parse_next b e :
    (14 <= length b)%nat ->
    cut_by (if be (sub b 12 2) <? 1500 then F_dot3 else F_ethernet) b e -> cut_by F_parse b e
| D_header f T b : header_of f = Some T -> (length b < ht_size T)%nat -> cut_by f b PSlice
| D_options f T x rest :
    header_of f = Some T -> length x = ht_size T ->
    (length rest < list_sum (map ht_size (options f x)))%nat -> cut_by f (x ++ rest) PSlice
| D_peek f T x os rest :
    header_of f = Some T -> length x = ht_size T ->
    map (@length N) os = map ht_size (options f x) ->
    demux f x rest = None -> cut_by f (x ++ concat os ++ rest) PIndex
| D_next f T x os rest g e :
    header_of f = Some T -> length x = ht_size T ->
    map (@length N) os = map ht_size (options f x) ->
    demux f x rest = Some g -> cut_by g rest e -> cut_by f (x ++ concat os ++ rest) e.

(** The order in which the library reports the headers: each group reversed
    (library: only groups of several GRE options are affected). *)
Definition reported (gs : list (list seg)) : list seg := concat (map (@rev seg) gs).
(** The bytes of headers, in the given order. *)
Definition seg_bytes (l : list seg) : list N := concat (map snd l).

(** The windows of buffer [B] in which headers lie when the first one starts at
    [off] and each starts where the one before it ends. *)
Fixpoint place_group (B : list N) (off : nat) (g : list seg) : list (htype * view) :=
  match g with
  | [] => []
  | (T, x) :: t => (T, View B off (length x)) :: place_group B (off + length x) t
  end.
Fixpoint place (B : list N) (off : nat) (gs : list (list seg)) : list (list (htype * view)) :=
  match gs with
  | [] => []
  | g :: t => place_group B off g :: place B (off + length (seg_bytes g)) t
  end.
