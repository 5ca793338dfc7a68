(** WrapSpec.v -- vocabulary for C98: what the tunnel builders are asked for, as
    values; of the inner packet, its bytes. *)

From Verif Require Import Base Text Build Utils Packet Heap Client Spec Grammar PropBuild PropParse
  UtilsSpec AskSpec.
Open Scope N_scope.

Record ip4_ask := Ip4Q { v4_src : list N; v4_dst : list N; v4_ihl : N; v4_tos : N; v4_ttl : N; v4_id : N; v4_frag : N }.
Record ip6_ask := Ip6Q { v6_src : list N; v6_dst : list N; v6_tc : N; v6_flow : N; v6_hop : N }.

(** What the outer IP header carries; [w] are the bytes of the inner packet.
    The option words of GRE are there if their flag is set. *)
Inductive inside :=
| I_ip (w : list N)
| I_vxlan (dst src vni : N) (w : list N)
| I_gre (c r k q s : bool) (flags ver : N) (chk : option (N * N)) (key seq : option N) (w : list N)
| I_erspan (seq : N) (er : erspan_args) (idx : N) (w : list N).
Inductive tunnel :=
| T_4 (e : eth_ask) (i : ip4_ask) (x : inside)
| T_6 (e : eth_ask) (i : ip6_ask) (x : inside).

Definition ip4_asks (i : ip4_args) (v : ip4_ask) : Prop :=
  ipv4_text (ip_src i) (v4_src v) /\ ipv4_text (ip_dst i) (v4_dst v) /\
  ip_ihl i = v4_ihl v /\ ip_tos i = v4_tos v /\ ip_ttl i = v4_ttl v /\ ip_id i = v4_id v /\ ip_frag i = v4_frag v /\
  ip_ihl i < 16 /\ ip_tos i < 256 /\ ip_ttl i < 256 /\ ip_id i < 65536 /\ ip_frag i < 65536.
Definition ip6_asks (ip6 : string -> option (list N)) (i : ip6_args) (v : ip6_ask) : Prop :=
  addr6 ip6 (ip6_src i) (v6_src v) /\ addr6 ip6 (ip6_dst i) (v6_dst v) /\
  ip6_traffic_class i = v6_tc v /\ ip6_flow_label i = v6_flow v /\ ip6_hop_limit i = v6_hop v /\
  ip6_traffic_class i < 256 /\ ip6_flow_label i < 2 ^ 20 /\ ip6_hop_limit i < 256.

(** The bytes of an inner packet, none if there is none. *)
Definition inner_bytes (h : heap) (o : option packet) (w : list N) : Prop :=
  match o with
  | Some p => to_vec p h = (Ret w, h)
  | None => w = []
  end.

(** In heap [h] the call asks for the tunnel. For IP in IP and GRE the inner
    packet, if there is one, must have a first byte, or the call panics. *)
Inductive wraps (ip6 : string -> option (list N)) (h : heap) : pmake -> tunnel -> Prop :=
| wraps_ipip e q i v p w : eth_asks e q -> ip4_asks i v -> to_vec p h = (Ret w, h) -> w <> [] -> bytes_ok w ->
    wraps ip6 h (P_ipv4ip e i p) (T_4 q v (I_ip w))
| wraps_ip6ip e q i v p w : eth_asks e q -> ip6_asks ip6 i v -> to_vec p h = (Ret w, h) -> w <> [] -> bytes_ok w ->
    wraps ip6 h (P_ipv6ip e i p) (T_6 q v (I_ip w))
| wraps_vxlan e q i v dst src vni p w : eth_asks e q -> ip4_asks i v ->
    dst < 65536 -> src < 65536 -> vni < 2 ^ 24 -> to_vec p h = (Ret w, h) ->
    wraps ip6 h (P_vxlan e i dst src vni p) (T_4 q v (I_vxlan dst src vni w))
| wraps_vxlan6 e q i v dst src vni p w : eth_asks e q -> ip6_asks ip6 i v ->
    dst < 65536 -> src < 65536 -> vni < 2 ^ 24 -> to_vec p h = (Ret w, h) -> N.of_nat (16 + length w) < 65536 ->
    wraps ip6 h (P_vxlan6 e i dst src vni p) (T_6 q v (I_vxlan dst src vni w))
| wraps_gre e q i v g o w : eth_asks e q -> ip4_asks i v ->
    gre_flags g < 32 -> gre_version g < 8 -> gre_chksum g < 65536 -> gre_offset g < 65536 ->
    gre_keyval g < 2 ^ 32 -> gre_seqnum g < 2 ^ 32 ->
    inner_bytes h o w -> bytes_ok w -> (o <> None -> w <> []) ->
    wraps ip6 h (P_gre_pkt e i g o) (T_4 q v
      (I_gre (gre_chksum_present g) (gre_routing_present g) (gre_key_present g) (gre_seqnum_present g)
        (gre_strict_route_src g) (gre_flags g) (gre_version g)
        (if gre_chksum_present g then Some (gre_chksum g, gre_offset g) else None)
        (if gre_key_present g then Some (gre_keyval g) else None)
        (if gre_seqnum_present g then Some (gre_seqnum g) else None) w))
| wraps_erspan e q i v seq er idx o w : eth_asks e q -> ip4_asks i v ->
    seq < 2 ^ 32 -> er_in er -> idx < 2 ^ 20 -> inner_bytes h o w ->
    wraps ip6 h (P_erspan2 e i seq er idx o) (T_4 q v (I_erspan seq er idx w)).
