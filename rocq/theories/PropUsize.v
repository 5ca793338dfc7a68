(** PropUsize.v -- property C94: what depends on the width of [usize]. *)

From Coq Require Import Lia.
From Verif Require Import Base Bits Layout Heap Types Packet Build Utils Fast Ops Usize Spec UsizeSpec BitsProofs HeapProofs UsizeProofs PropUtils.
Open Scope N_scope.

(** ** Calls on one header *)

(** [usize] of any width from 16 to 64 bits, checked or unchecked: with every calculation
    on [usize] made as the machine makes it, a call on a header has the outcome, the value
    and the effects that it has when positions and lengths are unbounded numbers. *)
Theorem C94_calls : forall m W o h, 16 <= W <= 64 -> fits W o -> (forall msb lsb, range_of o = Some (msb, lsb) -> whole W msb lsb -> heap_numbered W h) ->
  W = 64 \/ ~ width_matters W o -> w_hexec m W o h = hexec m o h.
Proof. intros m W o h H. apply hexec_nat. lia. Qed.
Print Assumptions C94_calls.

(** The same for the accessors of a header slice. *)
Theorem C94_slices : forall m W d msb lsb, 16 <= W <= 64 -> is_usize W msb -> is_usize W lsb ->
  ((whole W msb lsb -> numbered W d) -> w_get_bits m W d (N.of_nat msb) (N.of_nat lsb) = get_bits m d msb lsb) /\
  (W = 64 \/ ~ whole W msb lsb -> w_bytes_of m W d (N.of_nat msb) (N.of_nat lsb) = bytes_of m d msb lsb).
Proof. intros m W d msb lsb H Um Ul. split; intros A; [apply get_bits_nat|apply bytes_of_nat]; auto; lia. Qed.
Print Assumptions C94_slices.

(** Of a reversed range, or of all positions together, a checked build cannot count the bits:
    [bytes] and [set_bytes] panic before they lock or change anything. *)
Theorem C94_checked : forall W x msb lsb v h, 16 <= W <= 64 -> is_usize W msb -> is_usize W lsb -> numbered W v -> whole W msb lsb \/ (msb < lsb)%nat ->
  w_hexec Debug W (OBytes x msb lsb) h = (Panic POverflow, h) /\ w_hexec Debug W (OSetBytes x msb lsb v) h = (Panic POverflow, h).
Proof. intros W x msb lsb v h H Um Ul Nv A. split; [apply checked_bytes|apply checked_set_bytes]; auto; lia. Qed.
Print Assumptions C94_checked.

(** In an unchecked build [set_bytes] with a reversed range changes nothing: it panics unless
    the bytes given are as many as the range has positions modulo the number of [usize]s. *)
Theorem C94_unchecked : forall W x msb lsb v h, 16 <= W <= 64 -> is_usize W msb -> is_usize W lsb -> numbered W v -> (msb < lsb)%nat ->
  w_hexec Release W (OSetBytes x msb lsb v) h = (if N.of_nat (8 * length v + lsb - (msb + 1)) mod 2 ^ W =? 0 then Ret VUnit else Panic PAssert, h).
Proof. intros W x msb lsb v h H. apply unchecked_reversed. lia. Qed.
Print Assumptions C94_unchecked.

Definition c94_heap : heap := [Cell [0x45; 0; 0; 40; 1; 2; 3; 4; 5; 6; 7; 8; 9; 10; 11; 12; 13; 14; 15; 16] false].
Definition c94_ip : hdr := Hdr IPv4 0.
(** The total length of an IPv4 header and its source address, on a machine with 32 bits. *)
Example C94_calls_example : forall m,
  w_hexec m 32 (OGet c94_ip IPv4_total_len) c94_heap = (Ret (VNum 40), c94_heap) /\
  w_hexec m 32 (OBytes c94_ip 127 96) c94_heap = (Ret (VBytes [9; 10; 11; 12]), c94_heap) /\
  fits 32 (OBytes c94_ip 127 96) /\ ~ width_matters 32 (OBytes c94_ip 127 96).
Proof. intros []; (split; [vm_compute; reflexivity|]); (split; [vm_compute; reflexivity|]); (split; [vm_compute; auto|]); intros (X & Y); discriminate. Qed.
(** A position outside the buffer: the panic is the same one, and the lock is poisoned. *)
Example C94_calls_panic_example : forall m, w_hexec m 16 (OBitRange c94_ip 163 158) c94_heap = hexec m (OBitRange c94_ip 163 158) c94_heap /\
  fst (w_hexec m 16 (OBitRange c94_ip 163 158) c94_heap) = Panic PIndex.
Proof. intros []; vm_compute; auto. Qed.
(** One byte for the positions 65529 down to 0 the wrong way round: accepted where [usize]
    has 16 bits, refused where it has 64. *)
Example C94_unchecked_example : forall lsb, N.of_nat lsb = 65529 ->
  w_hexec Release 16 (OSetBytes c94_ip 0 lsb [7]) c94_heap = (Ret VUnit, c94_heap) /\
  w_hexec Release 64 (OSetBytes c94_ip 0 lsb [7]) c94_heap = (Panic PAssert, c94_heap).
Proof.
  intros lsb L. assert (F : forall W, 16 <= W <= 64 -> is_usize W 0 /\ is_usize W lsb /\ numbered W [7]).
  { intros W H. unfold is_usize, numbered. assert (P : 2 ^ 16 <= 2 ^ W) by (apply N.pow_le_mono_r; lia). rewrite L. change (2 ^ 16) with 65536 in P. cbn [length N.of_nat]. lia. }
  assert (E : N.of_nat (8 * length [7] + lsb - (0 + 1)) = 65536) by (cbn [length]; lia).
  split; rewrite C94_unchecked; try apply F; try lia; rewrite E; vm_compute; reflexivity.
Qed.

(** ** Lengths *)

(** [len] of a packet and of a packet slice: the sum of the declared sizes and of the length
    of the payload if that is a [usize]; a panic or the sum modulo [2 ^ W] if not. *)
Theorem C94_len : forall m W p, w_pkt_len m W p = usize_result m W (N.of_nat (pkt_len p)).
Proof. exact pkt_len_nat. Qed.
Print Assumptions C94_len.
Theorem C94_ps_len : forall m W p, w_ps_len m W p = usize_result m W (N.of_nat (ps_len p)).
Proof. exact ps_len_nat. Qed.
Print Assumptions C94_ps_len.
(** [compare_with_slice] of a packet whose length is a [usize]. *)
Theorem C94_compare : forall m W p b h, N.of_nat (pkt_len p) < 2 ^ W -> w_compare_with_slice m W p b h = compare_with_slice p b h.
Proof. intros m W p b h. apply compare_nat. Qed.
Print Assumptions C94_compare.
(** The other sums of the crate are of header sizes and the length of one vector, and no
    vector has more than [isize::MAX] bytes. *)
Theorem C94_sizes : forall m W size len, 16 <= W -> (size < 2 ^ 15)%N -> N.of_nat len < 2 ^ (W - 1) -> wadd m W size (N.of_nat len) = Ret (size + N.of_nat len).
Proof.
  intros m W size len H S L. unfold wadd. assert (2 ^ 15 <= 2 ^ (W - 1)) by (apply N.pow_le_mono_r; lia).
  assert (2 ^ W = 2 * 2 ^ (W - 1)) by (rewrite <- N.pow_succ_r'; f_equal; lia). destruct (N.ltb_spec (size + N.of_nat len) (2 ^ W)); [reflexivity|lia].
Qed.
Print Assumptions C94_sizes.

(** A header declared with [n] bytes; its buffer has one. *)
Definition c94_T (n : N) : htype := {| ht_id := 100; ht_name := "huge"; ht_size := N.to_nat n; ht_fields := []; ht_default := [1] |}.
Definition c94_pkt : packet := {| p_hdrs := [Hdr (c94_T (2 ^ 63)) 0; Hdr (c94_T (2 ^ 63 - 1)) 1]; p_payload := [1; 2; 3] |}.
Lemma c94_len : N.of_nat (pkt_len c94_pkt) = 2 ^ 64 + 2.
Proof.
  change (pkt_len c94_pkt) with (N.to_nat (2 ^ 63) + (N.to_nat (2 ^ 63 - 1) + 0) + 3)%nat. rewrite !Nat2N.inj_add, !N2Nat.id. vm_compute. reflexivity.
Qed.
(** [Packet::len] does not always return. *)
Theorem C94_len_returns_refuted : ~ (forall p, exists n, w_pkt_len Debug 64 p = Ret n).
Proof. intros H. destruct (H c94_pkt) as (n & E). rewrite C94_len, c94_len in E. discriminate. Qed.
Print Assumptions C94_len_returns_refuted.
(** Unchecked it can be less than the length of the payload. *)
Theorem C94_len_payload_refuted : ~ (forall p n, w_pkt_len Release 64 p = Ret n -> N.of_nat (length (p_payload p)) <= n).
Proof.
  intros H. assert (E : w_pkt_len Release 64 c94_pkt = Ret 2) by (rewrite C94_len, c94_len; reflexivity). apply H in E. apply N.leb_le in E. discriminate E.
Qed.
Print Assumptions C94_len_payload_refuted.
Example C94_len_example : forall m, w_pkt_len m 16 {| p_hdrs := [c94_ip]; p_payload := [1; 2; 3] |} = Ret 23.
Proof. intros []; vm_compute; reflexivity. Qed.
Example C94_compare_example : forall m, w_compare_with_slice m 32 {| p_hdrs := []; p_payload := [1; 2; 3] |} [1; 2; 3] c94_heap = (Ret true, c94_heap).
Proof. intros []; vm_compute; reflexivity. Qed.

(** ** The ERSPAN builders *)

(** They add the length of the inner packet to a total length. A checked build needs the sum
    to be a [usize] and, with the 16 bits of the field, a [u64]; an unchecked one needs
    nothing, since the field keeps 16 bits of the sum. *)
Theorem C94_erspan_2 : forall m W e i g a idx o h, 16 <= W <= 64 ->
  m = Release \/ N.of_nat (opt_len o) + 16 < 2 ^ W /\ N.of_nat (opt_len o) + 65600 < 2 ^ 64 ->
  w_create_erspan_2_packet m W e i g a idx o h = create_erspan_2_packet m e i g a idx o h.
Proof. exact erspan2_nat. Qed.
Print Assumptions C94_erspan_2.
Theorem C94_erspan_3 : forall m W e i g a ts sgt ftd pid pinfo o h, 16 <= W <= 64 ->
  m = Release \/ N.of_nat (opt_len o) + 28 < 2 ^ W /\ N.of_nat (opt_len o) + 65600 < 2 ^ 64 ->
  w_create_erspan_3_packet m W e i g a ts sgt ftd pid pinfo o h = create_erspan_3_packet m e i g a ts sgt ftd pid pinfo o h.
Proof. exact erspan3_nat. Qed.
Print Assumptions C94_erspan_3.

(** Ethernet, VLAN tag, IPv4, GRE, sequence number and ERSPAN, on a machine with 16 bits. *)
Definition c94_erspan (m : mode) : option (nat * out N) :=
  match w_create_erspan_2_packet m 16 ex_eth ex_ip4 7 (ErA 1 2 3 1 5) 9 None [] with
  | (Ret p, h) => match index_name p "IPv4" h with (Ret x, h') => Some (pkt_len p, fst (hget m x IPv4_total_len h')) | _ => None end
  | _ => None
  end.
Example C94_erspan_example : forall m, c94_erspan m = Some (54%nat, Ret 36).
Proof. intros []; vm_compute; reflexivity. Qed.
