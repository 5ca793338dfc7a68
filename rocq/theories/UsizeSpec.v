(** UsizeSpec.v -- what fits a machine whose [usize] has [W] bits (C94). *)

From Verif Require Import Base Bits Layout Heap Packet Ops.
Open Scope N_scope.

(** [n] is a [usize]. *)
Definition is_usize (W : N) (n : nat) : Prop := N.of_nat n < 2 ^ W.
(** The bits of [d] can be numbered by a [usize]. *)
Definition numbered (W : N) (d : list N) : Prop := 8 * N.of_nat (length d) < 2 ^ W.
Definition heap_numbered (W : N) (h : heap) : Prop := forall r c, nth_error h r = Some c -> numbered W (c_data c).
(** All bit positions a [usize] has. *)
Definition whole (W : N) (msb lsb : nat) : Prop := N.of_nat msb = 2 ^ W - 1 /\ lsb = 0%nat.
(** The arguments of the call are what Rust allows; [v] of [set_bytes] fits in memory. *)
Definition fits (W : N) (o : hop) : Prop :=
  match o with
  | OGet _ f | OSet _ f _ => is_usize W (f_start f) /\ is_usize W (f_end f)
  | OBitRange _ msb lsb | OSetBitRange _ msb lsb _ | OBytes _ msb lsb => is_usize W msb /\ is_usize W lsb
  | OSetBytes _ msb lsb v => is_usize W msb /\ is_usize W lsb /\ numbered W v
  | _ => True
  end.
(** The range of bits a call is for. *)
Definition range_of (o : hop) : option (nat * nat) :=
  match o with
  | OGet _ f | OSet _ f _ => Some (f_end f, f_start f)
  | OBitRange _ msb lsb | OSetBitRange _ msb lsb _ | OBytes _ msb lsb | OSetBytes _ msb lsb _ => Some (msb, lsb)
  | _ => None
  end.
(** The byte accessors count the bits of their range: for all of them together there is no
    [usize], and what an unchecked build makes of a reversed range depends on the width. *)
Definition width_matters (W : N) (o : hop) : Prop :=
  match o with
  | OBytes _ msb lsb => whole W msb lsb
  | OSetBytes _ msb lsb _ => whole W msb lsb \/ (msb < lsb)%nat
  | _ => False
  end.
(** [x] when it is a [usize]; what addition makes of it otherwise. *)
Definition usize_result (m : mode) (W x : N) : out N :=
  if x <? 2 ^ W then Ret x else match m with Debug => Panic POverflow | Release => Ret (x mod 2 ^ W) end.
