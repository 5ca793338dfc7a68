(** SteerSpec.v -- which bits of the input steer the parsers (C96). *)

From Verif Require Import Base Layout Heap Packet Slow Fast Spec Grammar.
Open Scope N_scope.

(** The bits that each function looks at to decide how to go on, as ranges (first
    and last bit) of the bytes it is given: type word, LLC header, bottom of stack,
    version nibble behind the labels, protocol, next header, GRE flags and protocol,
    the O bit of ERSPAN III, UDP destination port. *)
Definition deciding (f : pfun) : list (nat * nat) :=
  match f with
  | F_parse | F_ethernet => [(96, 111)]
  | F_llc => [(0, 23)]
  | F_vlan => [(16, 31)]
  | F_mpls => [(23, 23)]
  | F_mpls_bos => [(32, 35)]
  | F_ipv4 => [(72, 79)]
  | F_ipv6 => [(48, 55)]
  | F_gre => [(0, 0); (2, 3); (16, 31)]
  | F_erspan3 => [(95, 95)]
  | F_udp => [(16, 31)]
  | F_dot3 | F_snap | F_erspan2 | F_arp | F_icmp | F_tcp | F_vxlan | F_accept => []
  end%nat.
Definition decides (f : pfun) (i : nat) : Prop := exists s e, In (s, e) (deciding f) /\ (s <= i <= e)%nat.

(** [steers f b i]: bit [i] of [b] is one that some function looks at when [f] is
    called on [b]. *)
Inductive steers : pfun -> list N -> nat -> Prop :=
| S_here f b i : decides f i -> steers f b i
| S_parse b i :
    (14 <= length b)%nat ->
    steers (if be (sub b 12 2) <? 1500 then F_dot3 else F_ethernet) b i -> steers F_parse b i
| S_next f T x os rest g i :
    header_of f = Some T -> length x = ht_size T ->
    map (@length N) os = map ht_size (options f x) ->
    demux f x rest = Some g -> steers g rest i ->
    steers f (x ++ concat os ++ rest) (8 * length (x ++ concat os) + i).

(** Two inputs that cannot be told apart by what steers the first. *)
Definition alike (f : pfun) (b b' : list N) : Prop :=
  length b = length b' /\ forall i, steers f b i -> bit b i = bit b' i.

(** Two outcomes of the same form: the same panic, or headers of the same types at
    the same places and a payload at the same place. *)
Definition same_window (v w : view) : Prop := v_off v = v_off w /\ v_len v = v_len w.
Definition same_form (r r' : out packet_slice) : Prop :=
  match r, r' with
  | Ret p, Ret q =>
      Forall2 (fun x y => s_ty x = s_ty y /\ same_window (s_view x) (s_view y)) (ps_hdrs p) (ps_hdrs q) /\
      same_window (ps_payload p) (ps_payload q)
  | Panic e, Panic e' => e = e'
  | _, _ => False
  end.
Definition same_form_slow (r r' : out packet) : Prop :=
  match r, r' with
  | Ret p, Ret q => map h_ty (p_hdrs p) = map h_ty (p_hdrs q) /\ length (p_payload p) = length (p_payload q)
  | Panic e, Panic e' => e = e'
  | _, _ => False
  end.

(** The input with bit [i] turned over. *)
Definition turned (b b' : list N) (i : nat) : Prop :=
  length b = length b' /\ bit b' i = negb (bit b i) /\ forall j, j <> i -> bit b' j = bit b j.
