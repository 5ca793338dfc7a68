(** CostSpec.v -- what C75 says: how many buffers a call allocates and how often it
    takes a lock, whatever other threads do meanwhile. *)

From Verif Require Import Base Bits Types Layout Heap Packet Build Utils Slow Fast Ops Client Threads Spec ClientSpec ThreadsSpec.
Open Scope N_scope.

(** ** Counting *)

(** A step of the other threads. They may be given any values. *)
Inductive by_others (m : mode) (ip6 : string -> option (list N)) (i : nat) : world -> world -> Prop :=
| O_spawn w : by_others m ip6 i w (wspawn w)
| O_call w j k w' : j <> i -> wcall m ip6 w j k = Some w' -> by_others m ip6 i w w'
| O_do w j w' : j <> i -> wdo w j = Some w' -> by_others m ip6 i w w'
| O_back w j w' : j <> i -> wback w j = Some w' -> by_others m ip6 i w w'.
(** In [w] thread [i] has made [n] steps of the call [k] which it has begun. A step is
    the allocation of a buffer, or one use of a buffer under its lock. *)
Inductive counted (m : mode) (ip6 : string -> option (list N)) (i : nat) (k : call) : nat -> world -> Prop :=
| N_call w w' : wcall m ip6 w i k = Some w' -> counted m ip6 i k 0 w'
| N_do n w w' : counted m ip6 i k n w -> wdo w i = Some w' -> counted m ip6 i k (S n) w'
| N_other n w w' : counted m ip6 i k n w -> by_others m ip6 i w w' -> counted m ip6 i k n w'.

(** ** Prices *)

Definition hdrs (p : packet) : nat := length (p_hdrs p).
Definition total (l : list nat) : nat := fold_right Nat.add 0%nat l.

(** Reading or writing bits [lsb] to [msb], one lock per bit; none if there are none. *)
Definition bits (msb lsb : nat) : nat := if (msb <? lsb)%nat then 0%nat else (msb - lsb + 1)%nat.
Definition field_bits (f : field) : nat := bits (f_end f) (f_start f).
(** Printing a field reads each of its bits, and one of them twice if the field is
    longer than an octet and not a number of octets. *)
Definition print_bits (f : field) : nat :=
  (field_bits f + if (8 <? field_bits f)%nat && negb (field_bits f mod 8 =? 0)%nat then 1 else 0)%nat.
Definition print_hdr (x : hdr) : nat := total (map print_bits (ht_fields (h_ty x))).

(** The bits in which the parser looks for what follows. *)
Definition looks_at : list (htype * nat) :=
  [(Ether, 16); (Vlan, 16); (IPv4, 8); (IPv6, 8); (GRE, 16 + 3); (ERSPAN3, 1); (UDP, 16)]%nat.
Definition is_mpls (x : hdr) : bool := (ht_id (h_ty x) =? ht_id MPLS)%nat.
(** In a label stack the parser looks at the bottom-of-stack bit of every label but the
    last. *)
Definition looks (x : hdr) (next : list hdr) : nat :=
  match find (fun e => (ht_id (fst e) =? ht_id (h_ty x))%nat) looks_at with
  | Some (_, n) => n
  | None => match next with y :: _ => if is_mpls x && is_mpls y then 1%nat else 0%nat | [] => 0%nat end
  end.
Fixpoint all_looks (l : list hdr) : nat :=
  match l with [] => 0%nat | x :: t => (looks x t + all_looks t)%nat end.

(** Writing the IPv4 checksum; adding to a length field; doing the checksum again. *)
Definition w16 : nat := 16%nat.
Definition bump : nat := (16 + 16)%nat.
Definition again : nat := (1 + 16)%nat.
Definition inner (b : pmake) : nat := total (map hdrs (pmake_inner b)).
Definition make_locks (b : hmake) : nat := match b with H_ipv4 _ _ _ _ _ _ _ _ _ => w16 | _ => 0%nat end.
Definition create_locks (b : pmake) : nat :=
  (match b with
   | P_eth _ _ _ | P_arp _ _ _ _ _ _ _ | P_ipv6 _ _ _ _ | P_ipv6ip _ _ _ => 0
   | P_ipv4 _ _ _ _ | P_ipv4ip _ _ _ => w16
   | P_tcp4 _ _ _ _ | P_udp4 _ _ _ _ _ | P_icmp4 _ _ _ _ _ | P_gre_pkt _ _ _ _ => w16 + bump + again
   | P_tcp6 _ _ _ _ | P_icmp6 _ _ _ _ _ => bump
   | P_udp6 _ _ _ _ _ => bump + w16
   | P_vxlan _ _ _ _ _ _ => w16 + bump
   | P_vxlan6 _ _ _ _ _ _ => bump + w16
   | P_erspan2 _ _ q _ _ _ => w16 + bump + again + w16 + if (q =? 0)%N then 0 else 1
   | P_erspan3 _ _ _ _ _ _ _ _ _ _ => w16 + bump + again + w16 + 1
   end + inner b)%nat.
(** The headers that the new packet has in common with the one it is given. *)
Definition taken_over (b : pmake) : nat :=
  match b with P_vxlan6 _ _ _ _ _ _ | P_erspan3 _ _ _ _ _ _ _ _ _ _ => inner b | _ => 0%nat end.

Definition hop_locks (o : hop) : nat :=
  match o with
  | ONew _ | OFrom _ _ | OClone _ => 0%nat
  | OGet _ f | OSet _ f _ => field_bits f
  | OBitRange _ msb lsb | OSetBitRange _ msb lsb _ | OBytes _ msb lsb | OSetBytes _ msb lsb _ => bits msb lsb
  | OReplace _ _ => 2%nat
  | OToVec _ => 1%nat
  end.

(** ** What a call that has returned [v] has cost *)

Definition allocs_ok (k : call) (v : kres) (n : nat) : Prop :=
  match k, v with
  | K_hdr (ONew _), _ | K_hdr (OFrom _ _), _ | K_make _, _ => n = 1%nat
  | K_create b, KPkt p => (n + taken_over b = hdrs p)%nat
  | K_parse _ _, KPkt p => n = hdrs p
  | K_create _, _ | K_parse _ _, _ => False
  | _, _ => n = 0%nat
  end.
Definition locks_ok (k : call) (v : kres) (n : nat) : Prop :=
  match k with
  | K_hdr o => n = hop_locks o
  | K_hshow x => n = print_hdr x
  | K_make b => n = make_locks b
  | K_pto_vec p => n = hdrs p
  (** [compare] copies both packets, unless their lengths tell them apart *)
  | K_compare p q => n = (hdrs p + hdrs q)%nat \/ (n = hdrs q /\ v = KBool false)
  | K_compare_slice p d => n = if (pkt_len p =? length d)%nat then hdrs p else 0%nat
  | K_pshow p => n = (total (map print_hdr (p_hdrs p)) + hdrs p)%nat
  | K_create b => n = create_locks b
  | K_parse _ _ => match v with KPkt p => n = all_looks (p_hdrs p) | _ => False end
  | _ => n = 0%nat
  end.

(** ** What no call exceeds, whether it returns or not *)

Definition budget (k : call) : nat :=
  match k with
  | K_hdr (ONew _) | K_hdr (OFrom _ _) => 1%nat
  | K_hdr o => hop_locks o
  | K_hshow x => print_hdr x
  | K_make b => (1 + make_locks b)%nat
  | K_pto_vec p | K_compare_slice p _ => hdrs p
  | K_compare p q => (hdrs p + hdrs q)%nat
  | K_pshow p => (total (map print_hdr (p_hdrs p)) + hdrs p)%nat
  | K_create b => (89 + inner b)%nat
  | K_parse _ d => (5 * length d)%nat
  | _ => 0%nat
  end.
