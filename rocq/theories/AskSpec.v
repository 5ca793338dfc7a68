(** AskSpec.v -- vocabulary for C97: what one of the seven builders of complete
    packets (ARP; TCP, UDP, ICMP over IPv4 and IPv6) is asked for, as values
    instead of texts, without the arguments that are not used. *)

From Verif Require Import Base Text Build Utils Packet Heap Client Spec Grammar PropBuild.
Open Scope N_scope.

(** Octets of the MAC addresses; priority and VLAN id if a tag is asked for. *)
Record eth_ask := EthQ { q_dst : list N; q_src : list N; q_tag : option (N * N) }.
Inductive l4_ask :=
| L_tcp (t : tcp_args)
| L_udp (dst src : N)
| L_icmp (ty code : N).
Inductive ask :=
| Q_arp (e : eth_ask) (opcode : N) (sender_mac target_mac sender_ip target_ip : list N) (pl : list N)
| Q_ip4 (e : eth_ask) (src dst : list N) (ihl tos ttl id frag : N) (l : l4_ask) (pl : list N)
| Q_ip6 (e : eth_ask) (src dst : list N) (tc flow hop : N) (l : l4_ask) (pl : list N).

(** The arguments [e] ask for [q]; every value used has the width of its field. *)
Definition eth_asks (e : eth_args) (q : eth_ask) : Prop :=
  mac_text (eth_dst e) (q_dst q) /\ mac_text (eth_src e) (q_src q) /\
  vlan_vid e < 65536 /\ vlan_pcp e < 256 /\
  (if vlan_enable e
   then vlan_pcp e < 8 /\ vlan_vid e < 4096 /\ q_tag q = Some (vlan_pcp e, vlan_vid e)
   else q_tag q = None).
Definition l4_fit (l : l4_ask) : Prop :=
  match l with
  | L_tcp t => tcp_src t < 65536 /\ tcp_dst t < 65536 /\ tcp_seq_no t < 2 ^ 32 /\ tcp_ack_no t < 2 ^ 32 /\
      tcp_data_offset t < 16 /\ tcp_res t < 16 /\ tcp_flags t < 256 /\
      tcp_window t < 65536 /\ tcp_urgent_ptr t < 65536
  | L_udp dst src => dst < 65536 /\ src < 65536
  | L_icmp ty code => ty < 256 /\ code < 256
  end.
(** The call of the transport builder for [l]. *)
Definition over4 (e : eth_args) (i : ip4_args) (l : l4_ask) (pl : list N) : pmake :=
  match l with
  | L_tcp t => P_tcp4 e i t pl
  | L_udp dst src => P_udp4 e i dst src pl
  | L_icmp ty code => P_icmp4 e i ty code pl
  end.
Definition over6 (e : eth_args) (i : ip6_args) (l : l4_ask) (pl : list N) : pmake :=
  match l with
  | L_tcp t => P_tcp6 e i t pl
  | L_udp dst src => P_udp6 e i dst src pl
  | L_icmp ty code => P_icmp6 e i ty code pl
  end.

Inductive asks (ip6 : string -> option (list N)) : pmake -> ask -> Prop :=
| asks_arp e q opcode smac tmac sip tip sm tm si ti pl :
    eth_asks e q -> opcode < 65536 ->
    mac_text smac sm -> mac_text tmac tm -> ipv4_text sip si -> ipv4_text tip ti ->
    asks ip6 (P_arp e opcode smac tmac sip tip pl) (Q_arp q opcode sm tm si ti pl)
| asks_ip4 e q i a b l pl :
    eth_asks e q -> ipv4_text (ip_src i) a -> ipv4_text (ip_dst i) b ->
    ip_ihl i < 16 -> ip_tos i < 256 -> ip_ttl i < 256 -> ip_id i < 65536 -> ip_frag i < 65536 -> l4_fit l ->
    asks ip6 (over4 e i l pl) (Q_ip4 q a b (ip_ihl i) (ip_tos i) (ip_ttl i) (ip_id i) (ip_frag i) l pl)
| asks_ip6 e q i a b l pl :
    eth_asks e q -> addr6 ip6 (ip6_src i) a -> addr6 ip6 (ip6_dst i) b ->
    ip6_traffic_class i < 256 -> ip6_flow_label i < 2 ^ 20 -> ip6_hop_limit i < 256 -> l4_fit l ->
    asks ip6 (over6 e i l pl)
      (Q_ip6 q a b (ip6_traffic_class i) (ip6_flow_label i) (ip6_hop_limit i) l pl).

(** The call made a packet and its bytes are [v]. *)
Definition sends (m : mode) (ip6 : string -> option (list N)) (c : pmake) (h : heap) (v : list N) : Prop :=
  exists p g, pmake_run m ip6 c h = (Ret p, g) /\ to_vec p g = (Ret v, g).
