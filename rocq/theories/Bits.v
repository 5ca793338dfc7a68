(** Bits.v -- model of the bit accessors generated by [make_header!]
    (src/headers.rs:202-211, 252-267, 303-325, 346-364), on plain byte lists.

    The same getter text occurs twice in the macro: once for the borrowed
    [XSlice] (253-263) and once for the owned [X] (304-314). This file models
    the borrowed one; Heap.v models the owned one with its lock per bit. *)

From Verif Require Import Base.
Open Scope N_scope.

(** headers.rs:257-261, the [for i in lsb..=msb] loop: [n] iterations left,
    [i] the current bit. [value <<= 1] on u64 drops the top bit silently. *)
Fixpoint get_loop (d : list N) (i n : nat) (value : N) : out N :=
  match n with
  | O => Ret value
  | S n' =>
      let value := shl64 value 1 in
      olet b := index d (i / 8) in
      get_loop d (S i) n'
        (N.lor value (N.land (N.shiftr b (N.of_nat (8 - i mod 8 - 1))) 1))
  end.

(** Number of iterations of [for i in lsb..=msb]. *)
Definition range_len (msb lsb : nat) : nat := (S msb - lsb)%nat.

(** headers.rs:262 (and 313): [value << (64-(msb-lsb+1)) >> (64-(msb-lsb+1))].
    In a checked build [msb - lsb] or [64 - w] underflowing panics; in an
    unchecked build both wrap and the shift amount is taken modulo 64. When
    [msb < lsb] the loop did nothing, so [value] is 0 and any shift keeps it 0;
    the model returns 0 for that case without computing the amount. *)
Definition finish (m : mode) (msb lsb : nat) (value : N) : out N :=
  if (msb <? lsb)%nat then
    match m with Debug => Panic POverflow | Release => Ret 0 end
  else
    let w := (msb - lsb + 1)%nat in
    if (w <=? 64)%nat then
      let s := N.of_nat (64 - w) in Ret (N.shiftr (shl64 value s) s)
    else
      match m with
      | Debug => Panic POverflow
      | Release =>
          let s := N.of_nat ((64 - w mod 64) mod 64) in
          Ret (N.shiftr (shl64 value s) s)
      end.

(** headers.rs:253-263 [XSlice::bit_range]. *)
Definition get_bits (m : mode) (d : list N) (msb lsb : nat) : out N :=
  olet v := get_loop d lsb (range_len msb lsb) 0 in
  finish m msb lsb v.

(** headers.rs:320-321, the body of the write loop for one bit: [vbit] is
    [(value & 1) as u8]. Both statements run under one lock. *)
Definition set_bit_step (d : list N) (i : nat) (vbit : N) : out unit * list N :=
  match index d (i / 8) with
  | Ret b =>
      let k := N.of_nat (8 - i mod 8 - 1) in
      let b1 := N.land b (255 - shl8 1 k) in          (* &= !(1 << k) *)
      let b2 := N.lor b1 (shl8 vbit k) in               (* |= bit << k  *)
      (Ret tt, upd d (i / 8) b2)
  | _ => (Panic PIndex, d)
  end.

(** headers.rs:202-211 (and 346-355) [assert_eq!((msb-lsb+1) % 8, 0)]. For
    [msb < lsb]: checked builds panic in the subtraction, unchecked builds wrap
    modulo 2^64, a multiple of 8, so the assert passes iff [lsb-msb-1] is a
    multiple of 8. The sum [msb-lsb+1] leaves [usize] for one range only. *)
Definition whole_usize (msb lsb : nat) : bool := (N.of_nat msb =? 2 ^ 64 - 1) && (lsb =? 0)%nat.
Definition bytes_guard (m : mode) (msb lsb : nat) : out unit :=
  if (msb <? lsb)%nat then
    match m with
    | Debug => Panic POverflow
    | Release => if ((lsb - msb - 1) mod 8 =? 0)%nat then Ret tt else Panic PAssert
    end
  else if whole_usize msb lsb then
    match m with Debug => Panic POverflow | Release => Ret tt end
  else if ((msb - lsb + 1) mod 8 =? 0)%nat then Ret tt else Panic PAssert.

(** headers.rs:206-209, [for i in (lsb..=msb).step_by(8)]: [n] octets left. *)
Fixpoint bytes_loop (m : mode) (d : list N) (i n : nat) : out (list N) :=
  match n with
  | O => Ret []
  | S n' =>
      olet v := get_bits m d (i + 7) i in
      olet t := bytes_loop m d (i + 8) n' in
      Ret (u8 v :: t)
  end.

(** Number of iterations of [(lsb..=msb).step_by(8)]: the ceiling of the range
    length over 8. *)
Definition step8_len (msb lsb : nat) : nat := ((range_len msb lsb + 7) / 8)%nat.

(** headers.rs:202-211 [XSlice::bytes]. *)
Definition bytes_of (m : mode) (d : list N) (msb lsb : nat) : out (list N) :=
  olet _ := bytes_guard m msb lsb in
  bytes_loop m d lsb (step8_len msb lsb).

(** headers.rs:358 [assert_eq!(value.len() * 8, msb-lsb+1)] in [set_bytes]. In
    unchecked builds [msb < lsb] wraps: the assert passes iff [value.len() * 8] and
    [lsb-msb-1] add up to 0 modulo 2^64 ([msb = lsb-1] matches the empty value, 0 and
    2^64-7 match one byte). [value.len() * 8] does not overflow: no slice has 2^61 bytes. *)
Definition set_bytes_guard (m : mode) (len msb lsb : nat) : out unit :=
  if (msb <? lsb)%nat then
    match m with
    | Debug => Panic POverflow
    | Release => if N.of_nat (len * 8 + (lsb - msb - 1)) mod 2 ^ 64 =? 0 then Ret tt else Panic PAssert
    end
  else if whole_usize msb lsb then
    match m with
    | Debug => Panic POverflow
    | Release => if (len =? 0)%nat then Ret tt else Panic PAssert
    end
  else if (len * 8 =? msb - lsb + 1)%nat then Ret tt else Panic PAssert.
