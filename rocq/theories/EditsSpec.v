(** EditsSpec.v -- what C90 says a buffer holds after any history of header calls. *)

From Verif Require Import Base Bits Layout Heap Ops Spec.
Open Scope N_scope.

(** A call, and whether it returned. *)
Definition event := (hop * bool)%type.
Definition returned {A} (o : out A) : bool := match o with Ret _ => true | _ => false end.
(** The history of the calls [os] with outcomes [rs], latest first. *)
Definition history (os : list hop) (rs : list (out val)) : list event := rev (combine os (map returned rs)).

Definition inside (lo hi j : nat) : bool := ((lo <=? j) && (j <=? hi))%nat.
(** The number of buffers made. *)
Fixpoint born (past : list event) : nat :=
  match past with
  | [] => O
  | (ONew _, true) :: t | (OFrom _ _, true) :: t => S (born t)
  | _ :: t => born t
  end.

(** Bit [j] of buffer [r] is what the last call that wrote it gave it. [h] are
    the buffers before the history; new ones are numbered on from there. *)
Fixpoint now (h : heap) (past : list event) (r j : nat) : bool :=
  match past with
  | [] => match nth_error h r with Some c => bit (c_data c) j | None => false end
  | (_, false) :: t => now h t r j
  | (OSet x f v, true) :: t =>
      if ((r =? h_ref x)%nat && inside (f_start f) (f_end f) j) then N.testbit v (N.of_nat (f_end f - j)) else now h t r j
  | (OSetBitRange x msb lsb v, true) :: t =>
      if ((r =? h_ref x)%nat && inside lsb msb j) then N.testbit v (N.of_nat (msb - j)) else now h t r j
  | (OSetBytes x msb lsb v, true) :: t =>
      if ((r =? h_ref x)%nat && inside lsb msb j) then bit v (j - lsb) else now h t r j
  | (OReplace x y, true) :: t => now h t (if (r =? h_ref x)%nat then h_ref y else r) j
  | (ONew T, true) :: t => if (r =? length h + born t)%nat then bit (ht_default T) j else now h t r j
  | (OFrom _ d, true) :: t => if (r =? length h + born t)%nat then bit d j else now h t r j
  | (OClone _, true) :: t | (OGet _ _, true) :: t | (OBitRange _ _ _, true) :: t
  | (OBytes _ _ _, true) :: t | (OToVec _, true) :: t => now h t r j
  end.
(** Its length in bytes. *)
Fixpoint size (h : heap) (past : list event) (r : nat) : nat :=
  match past with
  | [] => match nth_error h r with Some c => length (c_data c) | None => O end
  | (OReplace x y, true) :: t => size h t (if (r =? h_ref x)%nat then h_ref y else r)
  | (ONew T, true) :: t => if (r =? length h + born t)%nat then length (ht_default T) else size h t r
  | (OFrom _ d, true) :: t => if (r =? length h + born t)%nat then length d else size h t r
  | _ :: t => size h t r
  end.

(** What the Rust types say of the arguments. *)
Definition hop_typed (o : hop) : Prop :=
  match o with
  | ONew T => bytes_ok (ht_default T)
  | OFrom _ d | OSetBytes _ _ _ d => bytes_ok d
  | _ => True
  end.
(** Calls of the two methods that can fail halfway. *)
Definition can_tear (o : hop) : bool := match o with OSetBytes _ _ _ _ | OReplace _ _ => true | _ => false end.
(** No call was torn. *)
Definition untorn (os : list hop) (rs : list (out val)) : Prop :=
  Forall (fun p => can_tear (fst p) = true -> returned (snd p) = true) (combine os rs).
(** No call waits for ever ([x.replace(&x)] does, C66). *)
Definition none_hangs (rs : list (out val)) : Prop := Forall (fun r => r <> Hang) rs.

(** The calls that write a range of bits, and the range. *)
Definition writes (o : hop) : option (nat * nat * nat) :=
  match o with
  | OSet x f _ => Some (h_ref x, f_start f, f_end f)
  | OSetBitRange x msb lsb _ | OSetBytes x msb lsb _ => Some (h_ref x, lsb, msb)
  | _ => None
  end.
Definition proper (o : hop) : Prop := exists r lo hi, writes o = Some (r, lo, hi) /\ (lo <= hi)%nat.
(** The ranges have no bit in common. *)
Definition apart (o o' : hop) : Prop := forall r lo hi r' lo' hi',
  writes o = Some (r, lo, hi) -> writes o' = Some (r', lo', hi') -> r = r' -> (hi < lo' \/ hi' < lo)%nat.
(** The range of [o] is part of that of [o']. *)
Definition within (o o' : hop) : Prop := forall r lo hi r' lo' hi',
  writes o = Some (r, lo, hi) -> writes o' = Some (r', lo', hi') -> r = r' /\ (lo' <= lo)%nat /\ (hi <= hi')%nat.
