(** EditSpec.v -- vocabulary for editing parsed packets (C54-C57). A
    specification on top of Grammar.v. *)

From Verif Require Import Base Layout Slow Spec Grammar.
Open Scope N_scope.

(** [selects prev T s e]: in a header of type [T] that follows one of type
    [prev], bits [s..=e] take part in deciding which headers come next (or, for
    the first four bits behind MPLS, in how this header was recognised). *)
Inductive selects (prev : option htype) : htype -> nat -> nat -> Prop :=
| Sel_ether : selects prev Ether 96 111          (* type *)
| Sel_dot3 : selects prev Dot3 96 111            (* length: 802.3 or Ethernet II *)
| Sel_llc : selects prev LLC 0 23                (* dsap, ssap, ctrl *)
| Sel_vlan : selects prev Vlan 16 31             (* type *)
| Sel_mpls : selects prev MPLS 23 23             (* bottom of stack *)
| Sel_ipv4 : selects prev IPv4 72 79             (* protocol *)
| Sel_ipv6 : selects prev IPv6 48 55             (* next header *)
| Sel_udp : selects prev UDP 16 31               (* destination port *)
| Sel_gre_c : selects prev GRE 0 0               (* checksum present *)
| Sel_gre_ks : selects prev GRE 2 3              (* key, sequence number present *)
| Sel_gre_proto : selects prev GRE 16 31         (* protocol *)
| Sel_erspan3 : selects prev ERSPAN3 95 95       (* platform header present *)
| Sel_version T : prev = Some MPLS -> In T [IPv4; IPv6; Ether] -> selects prev T 0 3.

(** A field none of whose bits is looked at. *)
Definition unselected (prev : option htype) (T : htype) (f : field) : Prop :=
  forall s e, selects prev T s e -> (f_end f < s)%nat \/ (e < f_start f)%nat.

(** The type of the last header of a list. *)
Definition last_type (prev : option htype) (ts : list htype) : option htype :=
  fold_left (fun _ T => Some T) ts prev.

(** [pfun]s that start with a header of type [T]: one, but two for MPLS. *)
Definition starts_with (f : pfun) (T : htype) : Prop := header_of f = Some T.

(** The words of one group exchanged end for end, under the same types. *)
Definition flip (g : list seg) : list seg := combine (map fst g) (rev (map snd g)).
