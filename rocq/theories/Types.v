(** Types.v -- model of src/types.rs. *)

From Verif Require Import Base.
Open Scope N_scope.

(** types.rs:3-7. *)
Definition MAC_LEN : nat := 6.
Definition IPV4_LEN : nat := 4.
Definition IPV6_LEN : nat := 16.
Definition UDP_PORT_VXLAN : N := 4789.

(** types.rs:9-12. *)
Inductive IpType := V4 | V6.
(** [IpType::x as u8], types.rs:10-11. *)
Definition IpType_code (t : IpType) : N := match t with V4 => 4 | V6 => 6 end.
(** types.rs:13-23 [IpType::try_from] ([None] is [Err]; the message is not modelled). *)
Definition IpType_try_from (v : N) : option IpType :=
  if v =? IpType_code V4 then Some V4
  else if v =? IpType_code V6 then Some V6
  else None.

(** types.rs:25-33. *)
Inductive IpProtocol := P_ICMP | P_IPIP | P_TCP | P_UDP | P_IPV6 | P_GRE | P_ICMPV6.
Definition IpProtocol_code (t : IpProtocol) : N :=
  match t with
  | P_ICMP => 1 | P_IPIP => 4 | P_TCP => 6 | P_UDP => 17
  | P_IPV6 => 41 | P_GRE => 47 | P_ICMPV6 => 58
  end.
(** types.rs:34-49. *)
Definition IpProtocol_try_from (v : N) : option IpProtocol :=
  if v =? IpProtocol_code P_ICMP then Some P_ICMP
  else if v =? IpProtocol_code P_IPIP then Some P_IPIP
  else if v =? IpProtocol_code P_TCP then Some P_TCP
  else if v =? IpProtocol_code P_UDP then Some P_UDP
  else if v =? IpProtocol_code P_IPV6 then Some P_IPV6
  else if v =? IpProtocol_code P_GRE then Some P_GRE
  else if v =? IpProtocol_code P_ICMPV6 then Some P_ICMPV6
  else None.

(** types.rs:51-59. *)
Inductive EtherType := E_IPV4 | E_ARP | E_DOT1Q | E_IPV6 | E_MPLS | E_ERSPANII | E_ERSPANIII.
Definition EtherType_code (t : EtherType) : N :=
  match t with
  | E_IPV4 => 0x0800 | E_ARP => 0x0806 | E_DOT1Q => 0x8100 | E_IPV6 => 0x86DD
  | E_MPLS => 0x8847 | E_ERSPANII => 0x88be | E_ERSPANIII => 0x22eb
  end.
(** types.rs:60-75. *)
Definition EtherType_try_from (v : N) : option EtherType :=
  if v =? EtherType_code E_IPV4 then Some E_IPV4
  else if v =? EtherType_code E_ARP then Some E_ARP
  else if v =? EtherType_code E_DOT1Q then Some E_DOT1Q
  else if v =? EtherType_code E_IPV6 then Some E_IPV6
  else if v =? EtherType_code E_MPLS then Some E_MPLS
  else if v =? EtherType_code E_ERSPANII then Some E_ERSPANII
  else if v =? EtherType_code E_ERSPANIII then Some E_ERSPANIII
  else None.

(** types.rs:77-80. *)
Inductive ErspanVersion := EV_II | EV_III.
Definition ErspanVersion_code (t : ErspanVersion) : N :=
  match t with EV_II => 1 | EV_III => 2 end.
(** types.rs:81-91. *)
Definition ErspanVersion_try_from (v : N) : option ErspanVersion :=
  if v =? ErspanVersion_code EV_II then Some EV_II
  else if v =? ErspanVersion_code EV_III then Some EV_III
  else None.
