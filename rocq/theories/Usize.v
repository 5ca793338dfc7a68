(** Usize.v -- the functions of Bits.v, Heap.v, Packet.v and Utils.v that calculate with
    [usize], again, with every [usize] and every calculation written out: [W] is the
    width of [usize] in bits (64, 32 or 16), a [usize] is an [N] below [2 ^ W], and a
    result that does not fit panics in a checked build and wraps in an unchecked one.
    Elsewhere in the model a [usize] is a [nat]. *)

From Verif Require Import Base Bits Layout Heap Types Packet Build Utils Fast Ops.
Open Scope N_scope.

(** [a + b], [a - b], [a * b] on [usize]. *)
Definition wadd (m : mode) (W a b : N) : out N :=
  if a + b <? 2 ^ W then Ret (a + b) else match m with Debug => Panic POverflow | Release => Ret ((a + b) mod 2 ^ W) end.
Definition wsub (m : mode) (W a b : N) : out N :=
  if b <=? a then Ret (a - b) else match m with Debug => Panic POverflow | Release => Ret (2 ^ W + a - b) end.
Definition wmul (m : mode) (W a b : N) : out N :=
  if a * b <? 2 ^ W then Ret (a * b) else match m with Debug => Panic POverflow | Release => Ret ((a * b) mod 2 ^ W) end.
(** [v << s], [v >> s] with [v] of [n] bits and [s] a [usize]: a shift by [n] or more
    panics in a checked build; an unchecked one takes [s] modulo [n]. *)
Definition wshl (m : mode) (n v s : N) : out N :=
  if s <? n then Ret (N.shiftl v s mod 2 ^ n) else match m with Debug => Panic POverflow | Release => Ret (N.shiftl v (s mod n) mod 2 ^ n) end.
Definition wshr (m : mode) (n v s : N) : out N :=
  if s <? n then Ret (N.shiftr v s) else match m with Debug => Panic POverflow | Release => Ret (N.shiftr v (s mod n)) end.
(** [a[i]]. *)
Definition windex {A} (l : list A) (i : N) : out A := index l (N.to_nat i).

(** [bit_len - i % bit_len - 1], headers.rs:260, 311, 320, 321. *)
Definition w_place (m : mode) (W i : N) : out N := olet a := wsub m W 8 (i mod 8) in wsub m W a 1.
(** [((map[i / bit_len] >> ..) & 1) as u64], headers.rs:260, 311. *)
Definition w_bit (m : mode) (W : N) (d : list N) (i : N) : out N :=
  olet b := windex d (i / 8) in
  olet k := w_place m W i in
  olet s := wshr m 8 b k in
  Ret (N.land s 1).
(** [value_bit_len - (msb - lsb + 1)], twice, headers.rs:262, 313. *)
Definition w_amount (m : mode) (W msb lsb : N) : out N :=
  olet a := wsub m W msb lsb in
  olet b := wadd m W a 1 in
  wsub m W 64 b.
Definition w_finish (m : mode) (W msb lsb value : N) : out N :=
  olet s := w_amount m W msb lsb in
  olet v := wshl m 64 value s in
  olet t := w_amount m W msb lsb in
  wshr m 64 v t.
(** How often [for i in lsb..=msb] goes round; the iterator itself does not overflow. *)
Definition w_times (msb lsb : N) : nat := N.to_nat (msb + 1 - lsb).

(** headers.rs:253-263 [XSlice::bit_range]. *)
Fixpoint w_get_loop (m : mode) (W : N) (d : list N) (i : N) (n : nat) (value : N) : out N :=
  match n with
  | O => Ret value
  | S n' => olet v := wshl m 64 value 1 in olet b := w_bit m W d i in w_get_loop m W d (i + 1) n' (N.lor v b)
  end.
Definition w_get_bits (m : mode) (W : N) (d : list N) (msb lsb : N) : out N :=
  olet v := w_get_loop m W d lsb (w_times msb lsb) 0 in w_finish m W msb lsb v.

(** headers.rs:304-314 [X::bit_range]. *)
Fixpoint w_hget_loop (m : mode) (W : N) (r : nat) (i : N) (n : nat) (value : N) : M N :=
  match n with
  | O => ret value
  | S n' =>
      mlet v := lift (wshl m 64 value 1) in
      mlet b := with_lock r (fun d => (w_bit m W d i, d)) in
      w_hget_loop m W r (i + 1) n' (N.lor v b)
  end.
Definition w_hbit_range (m : mode) (W : N) (x : hdr) (msb lsb : N) : M N :=
  mlet v := w_hget_loop m W (h_ref x) lsb (w_times msb lsb) 0 in lift (w_finish m W msb lsb v).

(** headers.rs:320-321, under one lock. *)
Definition w_set_bit (m : mode) (W : N) (d : list N) (i vbit : N) : out unit * list N :=
  match (olet k := w_place m W i in olet one := wshl m 8 1 k in olet b := windex d (i / 8) in Ret (N.land b (255 - one))) with
  | Ret b1 =>
      let d1 := upd d (N.to_nat (i / 8)) b1 in
      match (olet k := w_place m W i in olet v := wshl m 8 vbit k in olet b := windex d1 (i / 8) in Ret (N.lor b v)) with
      | Ret b2 => (Ret tt, upd d1 (N.to_nat (i / 8)) b2)
      | Panic f => (Panic f, d1) | UB => (UB, d1) | Hang => (Hang, d1) | Fuel => (Fuel, d1)
      end
  | Panic f => (Panic f, d) | UB => (UB, d) | Hang => (Hang, d) | Fuel => (Fuel, d)
  end.
(** headers.rs:315-324 [X::set_bit_range]: from [msb] down; [n] bits left. *)
Fixpoint w_hset_loop (m : mode) (W : N) (r : nat) (lsb : N) (n : nat) (value : N) : M unit :=
  match n with
  | O => ret tt
  | S n' =>
      mlet _ := with_lock r (fun d => w_set_bit m W d (lsb + N.of_nat n') (u8 (N.land value 1))) in
      mlet v := lift (wshr m 64 value 1) in
      w_hset_loop m W r lsb n' v
  end.
Definition w_hset_bit_range (m : mode) (W : N) (x : hdr) (msb lsb value : N) : M unit :=
  w_hset_loop m W (h_ref x) lsb (w_times msb lsb) value.

(** headers.rs:204 and 348, [assert_eq!((msb-lsb+1) % bit_len, 0)]. *)
Definition w_guard (m : mode) (W msb lsb : N) : out unit :=
  olet a := wsub m W msb lsb in
  olet b := wadd m W a 1 in
  if b mod 8 =? 0 then Ret tt else Panic PAssert.
(** headers.rs:358, [assert_eq!(value.len() * bit_len, msb-lsb+1)]. *)
Definition w_set_guard (m : mode) (W len msb lsb : N) : out unit :=
  olet l := wmul m W len 8 in
  olet a := wsub m W msb lsb in
  olet b := wadd m W a 1 in
  if l =? b then Ret tt else Panic PAssert.
(** How often [for i in (lsb..=msb).step_by(bit_len)] goes round. *)
Definition w_steps (msb lsb : N) : nat := N.to_nat ((msb + 1 - lsb + 7) / 8).

(** headers.rs:202-211 [XSlice::bytes]. *)
Fixpoint w_bytes_loop (m : mode) (W : N) (d : list N) (i : N) (n : nat) : out (list N) :=
  match n with
  | O => Ret []
  | S n' =>
      olet j := wadd m W i 7 in
      olet v := w_get_bits m W d j i in
      olet t := w_bytes_loop m W d (i + 8) n' in
      Ret (u8 v :: t)
  end.
Definition w_bytes_of (m : mode) (W : N) (d : list N) (msb lsb : N) : out (list N) :=
  olet _ := w_guard m W msb lsb in w_bytes_loop m W d lsb (w_steps msb lsb).
(** headers.rs:346-355 [X::bytes]. *)
Fixpoint w_hbytes_loop (m : mode) (W : N) (x : hdr) (i : N) (n : nat) : M (list N) :=
  match n with
  | O => ret []
  | S n' =>
      mlet j := lift (wadd m W i 7) in
      mlet v := w_hbit_range m W x j i in
      mlet t := w_hbytes_loop m W x (i + 8) n' in
      ret (u8 v :: t)
  end.
Definition w_hbytes (m : mode) (W : N) (x : hdr) (msb lsb : N) : M (list N) :=
  mlet _ := lift (w_guard m W msb lsb) in w_hbytes_loop m W x lsb (w_steps msb lsb).
(** headers.rs:356-364 [X::set_bytes]. *)
Fixpoint w_hset_bytes_loop (m : mode) (W : N) (x : hdr) (i : N) (n : nat) (value : list N) (iter : N) : M unit :=
  match n with
  | O => ret tt
  | S n' =>
      mlet j := lift (wadd m W i 7) in
      mlet v := lift (windex value iter) in
      mlet _ := w_hset_bit_range m W x j i v in
      mlet it := lift (wadd m W iter 1) in
      w_hset_bytes_loop m W x (i + 8) n' value it
  end.
Definition w_hset_bytes (m : mode) (W : N) (x : hdr) (msb lsb : N) (value : list N) : M unit :=
  mlet _ := lift (w_set_guard m W (N.of_nat (length value)) msb lsb) in
  w_hset_bytes_loop m W x lsb (w_steps msb lsb) value 0.

(** The calls of Ops.v. *)
Definition w_hexec (m : mode) (W : N) (o : hop) : M val :=
  match o with
  | OGet x f => mlet v := w_hbit_range m W x (N.of_nat (f_end f)) (N.of_nat (f_start f)) in ret (VNum v)
  | OSet x f v => mlet _ := w_hset_bit_range m W x (N.of_nat (f_end f)) (N.of_nat (f_start f)) v in ret VUnit
  | OBitRange x msb lsb => mlet v := w_hbit_range m W x (N.of_nat msb) (N.of_nat lsb) in ret (VNum v)
  | OSetBitRange x msb lsb v => mlet _ := w_hset_bit_range m W x (N.of_nat msb) (N.of_nat lsb) v in ret VUnit
  | OBytes x msb lsb => mlet v := w_hbytes m W x (N.of_nat msb) (N.of_nat lsb) in ret (VBytes v)
  | OSetBytes x msb lsb v => mlet _ := w_hset_bytes m W x (N.of_nat msb) (N.of_nat lsb) v in ret VUnit
  | _ => hexec m o
  end.

(** [.sum::<usize>()], packet.rs:403 and 742. *)
Fixpoint w_sum (m : mode) (W : N) (l : list N) (acc : N) : out N :=
  match l with [] => Ret acc | x :: t => olet a := wadd m W acc x in w_sum m W t a end.
(** packet.rs:402-404 [len]. *)
Definition w_pkt_len (m : mode) (W : N) (p : packet) : out N :=
  olet s := w_sum m W (map (fun x => N.of_nat (hlen x)) (p_hdrs p)) 0 in wadd m W s (N.of_nat (length (p_payload p))).
(** packet.rs:741-743 [len] of [PacketSlice]. *)
Definition w_ps_len (m : mode) (W : N) (p : packet_slice) : out N :=
  olet s := w_sum m W (map (fun x => N.of_nat (slen x)) (ps_hdrs p)) 0 in wadd m W s (N.of_nat (v_len (ps_payload p))).
(** packet.rs:340-358 [compare_with_slice]. *)
Definition w_compare_with_slice (m : mode) (W : N) (p : packet) (b : list N) : M bool :=
  mlet pktlen := lift (w_pkt_len m W p) in
  if negb (pktlen =? N.of_nat (length b)) then ret false
  else
    mlet a := to_vec p in
    let mt := N.of_nat (matching a b) in
    if negb (pktlen =? mt) || negb (N.of_nat (length b) =? mt) then ret false else ret true.

(** [ipv4.set_total_len(ipv4.total_len() + pktlen as u64)], utils.rs:752 and 840. *)
Definition w_bump_total_len (m : mode) (pkt : packet) (extra : N) : M hdr :=
  mlet x := index_name pkt "IPv4" in
  mlet ip := hdowncast IPv4 x in
  mlet t := hget m ip IPv4_total_len in
  mlet s := lift (wadd m 64 t extra) in
  mlet _ := hset ip IPv4_total_len s in
  ret ip.
Definition w_opt_len (m : mode) (W : N) (o : option packet) : out N :=
  match o with Some p => w_pkt_len m W p | None => Ret 0 end.

(** utils.rs:697-776: [pktlen] is calculated at 724-732. *)
Definition w_create_erspan_2_packet (m : mode) (W : N) (e : eth_args) (i : ip4_args) (gre_seqnum : N)
    (a : erspan_args) (erspan_index : N) (inner_pkt : option packet) : M packet :=
  mlet ipkt_vec := opt_to_vec inner_pkt in
  mlet pktlen := lift (wadd m W (N.of_nat (ht_size GRE)) (N.of_nat (ht_size ERSPAN2))) in
  mlet pktlen := lift (if negb (gre_seqnum =? 0) then wadd m W pktlen (N.of_nat (ht_size GRESequenceNum)) else Ret pktlen) in
  mlet inner := lift (w_opt_len m W inner_pkt) in
  mlet pktlen := lift (wadd m W pktlen inner) in
  mlet pkt := create_ipv4_packet m e i (IpProtocol_code P_GRE) ipkt_vec in
  mlet ip := w_bump_total_len m pkt pktlen in
  mlet _ := refresh_checksum m ip in
  mlet g := hnew GRE in
  mlet _ := hset g GRE_proto (EtherType_code E_ERSPANII) in
  mlet _ := (if negb (gre_seqnum =? 0) then hset g GRE_seqnum_present 1 else ret tt) in
  mlet pkt := push pkt g in
  mlet pkt := (if negb (gre_seqnum =? 0) then
                 mlet o := gre_sequence_number gre_seqnum in push pkt o
               else ret pkt) in
  mlet x := erspan2 (er_vlan a) (er_cos a) (er_en a) (er_t a) (er_session_id a) erspan_index in
  push pkt x.

(** utils.rs:778-876: [pktlen] is calculated at 809-820. *)
Definition w_create_erspan_3_packet (m : mode) (W : N) (e : eth_args) (i : ip4_args) (gre_seqnum : N)
    (a : erspan_args) (erspan_timestamp erspan_sgt erspan_ft_d_other : N)
    (erspan_pltfm_id erspan_pltfm_info : N) (inner_pkt : option packet) : M packet :=
  mlet ipkt_vec := opt_to_vec inner_pkt in
  mlet pktlen := lift (wadd m W (N.of_nat (ht_size GRE)) (N.of_nat (ht_size ERSPAN3))) in
  mlet pktlen := lift (if negb (gre_seqnum =? 0) then wadd m W pktlen (N.of_nat (ht_size GRESequenceNum)) else Ret pktlen) in
  mlet pktlen := lift (if N.land erspan_ft_d_other 1 =? 1 then wadd m W pktlen (N.of_nat (ht_size ERSPANPLATFORM)) else Ret pktlen) in
  mlet inner := lift (w_opt_len m W inner_pkt) in
  mlet pktlen := lift (wadd m W pktlen inner) in
  mlet pkt := create_ipv4_packet m e i (IpProtocol_code P_GRE) ipkt_vec in
  mlet ip := w_bump_total_len m pkt pktlen in
  mlet _ := refresh_checksum m ip in
  mlet g := hnew GRE in
  mlet _ := hset g GRE_proto (EtherType_code E_ERSPANIII) in
  mlet _ := hset g GRE_seqnum_present gre_seqnum in
  mlet pkt := push pkt g in
  mlet pkt := (if negb (gre_seqnum =? 0) then
                 mlet o := gre_sequence_number gre_seqnum in push pkt o
               else ret pkt) in
  mlet x := erspan3 (er_vlan a) (er_cos a) (er_en a) (er_t a) (er_session_id a)
                    erspan_timestamp erspan_sgt erspan_ft_d_other in
  mlet pkt := push pkt x in
  mlet pkt := (if N.land erspan_ft_d_other 1 =? 1 then
                 let pltfm := N.lor (shl64 erspan_pltfm_id 58) erspan_pltfm_info in
                 mlet o := hfrom ERSPANPLATFORM (to_be 8 pltfm) in push pkt o
               else ret pkt) in
  match inner_pkt with
  | Some p => pkt_add pkt p
  | None => ret pkt
  end.
