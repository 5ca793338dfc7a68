(** Base.v -- outcomes, machine integers and list access, shared by every model file.

    Nothing here models one particular Rust function: these are the Rust
    language primitives that src/headers.rs, src/packet.rs, src/utils.rs and
    src/parser use. *)

From Coq Require Export String Ascii Bool Arith NArith List.
Export ListNotations.

(** Build profile: [Debug] has overflow checks on, [Release] has them off
    (Cargo.toml:31-35 uses the default [overflow-checks = false] for release). *)
Inductive mode := Debug | Release.

(** Why a Rust computation panicked. *)
Inductive fault :=
| PIndex      (* a[i] with i >= a.len() *)
| PSlice      (* &a[i..j] out of range *)
| POverflow   (* arithmetic overflow in a checked build *)
| PAssert     (* assert_eq! *)
| PUnwrap     (* Option::unwrap on None *)
| PPoison     (* lock().unwrap() on a poisoned mutex *)
| PUnimpl     (* unimplemented!() *)
| PDowncast.  (* panic!("Header is not a ..") *)

(** Outcome of a computation. [UB] is undefined behaviour, [Hang] a thread
    blocked for ever on a mutex it holds itself, [Fuel] is the model's own
    recursion bound (proved unreachable for the parsers). *)
Inductive out (A : Type) :=
| Ret (a : A)
| Panic (f : fault)
| UB
| Hang
| Fuel.
Arguments Ret {A} a.
Arguments Panic {A} f.
Arguments UB {A}.
Arguments Hang {A}.
Arguments Fuel {A}.

Definition obind {A B} (x : out A) (k : A -> out B) : out B :=
  match x with
  | Ret a => k a
  | Panic f => Panic f
  | UB => UB
  | Hang => Hang
  | Fuel => Fuel
  end.
Notation "'olet' x := e 'in' k" := (obind e (fun x => k))
  (at level 200, x pattern, e at level 100, k at level 200, right associativity).

(** Bytes are [N] below 256; a Rust [Vec<u8>] or [&[u8]] is a [list N]. *)
Definition byte_ok (b : N) : Prop := (b < 256)%N.
Definition bytes_ok (d : list N) : Prop := Forall byte_ok d.
Definition bytes_okb (d : list N) : bool := forallb (fun b => N.ltb b 256) d.

(** Rust [as u8], [as u16], [as u32], [as u64]: truncation. *)
Definition u8  (x : N) : N := (x mod 2 ^ 8)%N.
Definition u16 (x : N) : N := (x mod 2 ^ 16)%N.
Definition u32 (x : N) : N := (x mod 2 ^ 32)%N.
Definition u64 (x : N) : N := (x mod 2 ^ 64)%N.

(** Rust [x << k] at a given width (k below the width): bits shifted out are lost. *)
Definition shl8  (x k : N) : N := u8 (N.shiftl x k).
Definition shl16 (x k : N) : N := u16 (N.shiftl x k).
Definition shl32 (x k : N) : N := u32 (N.shiftl x k).
Definition shl64 (x k : N) : N := u64 (N.shiftl x k).

(** [uN::to_be_bytes] for n-byte integers. *)
Fixpoint to_be (n : nat) (v : N) : list N :=
  match n with
  | O => []
  | S n' => to_be n' (v / 256) ++ [v mod 256]%N
  end.

(** [bool as u8]. *)
Definition b2n (b : bool) : N := if b then 1%N else 0%N.

(** [a[i]]. *)
Definition index {A} (l : list A) (i : nat) : out A :=
  match nth_error l i with
  | Some b => Ret b
  | None => Panic PIndex
  end.

(** [a[i] = b] (no effect when out of range; callers check with [index] first). *)
Fixpoint upd {A} (l : list A) (i : nat) (b : A) : list A :=
  match l, i with
  | [], _ => []
  | _ :: t, O => b :: t
  | x :: t, S i' => x :: upd t i' b
  end.

(** [&a[i..j]]. *)
Definition slice {A} (l : list A) (i j : nat) : out (list A) :=
  if (i <=? j)%nat && (j <=? length l)%nat
  then Ret (firstn (j - i) (skipn i l))
  else Panic PSlice.

(** [&a[i..]]. *)
Definition slice_from {A} (l : list A) (i : nat) : out (list A) :=
  if (i <=? length l)%nat then Ret (skipn i l) else Panic PSlice.
