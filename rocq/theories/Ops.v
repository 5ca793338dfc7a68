(** Ops.v -- histories of header operations. One [hop] is one call of a public
    method generated by [make_header!] (src/headers.rs:297-511), as modelled in
    Heap.v. A panic is caught (or happens on another thread), so a history goes
    on with the heap the call left behind. *)

From Verif Require Import Base Bits Layout Heap.
Open Scope N_scope.

Inductive hop :=
| ONew (T : htype)                                  (* X::new(), headers.rs:329-332 *)
| OFrom (T : htype) (d : list N)                    (* X::from(vec), 450-454 *)
| OClone (x : hdr)                                  (* x.clone(), 424-428 *)
| OGet (x : hdr) (f : field)                        (* x.field(), 334-339 *)
| OSet (x : hdr) (f : field) (v : N)                (* x.set_field(v), 340-344 *)
| OBitRange (x : hdr) (msb lsb : nat)               (* x.bit_range(msb, lsb), 304-314 *)
| OSetBitRange (x : hdr) (msb lsb : nat) (v : N)    (* x.set_bit_range(msb, lsb, v), 315-324 *)
| OBytes (x : hdr) (msb lsb : nat)                  (* x.bytes(msb, lsb), 346-355 *)
| OSetBytes (x : hdr) (msb lsb : nat) (v : list N)  (* x.set_bytes(msb, lsb, v), 356-364 *)
| OReplace (x y : hdr)                              (* x.replace(&y), 392-396 *)
| OToVec (x : hdr).                                 (* x.to_vec(), 429-432 *)

(** What the caller gets back. *)
Inductive val := VUnit | VNum (n : N) | VBytes (l : list N) | VHdr (x : hdr).

Definition hexec (m : mode) (o : hop) : M val :=
  match o with
  | ONew T => mlet x := hnew T in ret (VHdr x)
  | OFrom T d => mlet x := hfrom T d in ret (VHdr x)
  | OClone x => mlet y := hclone x in ret (VHdr y)
  | OGet x f => mlet v := hget m x f in ret (VNum v)
  | OSet x f v => mlet _ := hset x f v in ret VUnit
  | OBitRange x msb lsb => mlet v := hbit_range m x msb lsb in ret (VNum v)
  | OSetBitRange x msb lsb v => mlet _ := hset_bit_range x msb lsb v in ret VUnit
  | OBytes x msb lsb => mlet v := hbytes m x msb lsb in ret (VBytes v)
  | OSetBytes x msb lsb v => mlet _ := hset_bytes m x msb lsb v in ret VUnit
  | OReplace x y => mlet _ := hreplace x y in ret VUnit
  | OToVec x => mlet v := hto_vec x in ret (VBytes v)
  end.

(** The outcomes and the final heap of a history. *)
Fixpoint hrun (m : mode) (os : list hop) (h : heap) : list (out val) * heap :=
  match os with
  | [] => ([], h)
  | o :: t =>
      let (r, h') := hexec m o h in
      let (rs, h'') := hrun m t h' in
      (r :: rs, h'')
  end.

(** The buffer an operation may write (or poison): that of its receiver. *)
Definition target (o : hop) : option nat :=
  match o with
  | ONew _ | OFrom _ _ | OClone _ => None
  | OGet x _ | OSet x _ _ | OBitRange x _ _ | OSetBitRange x _ _ _ | OBytes x _ _
  | OSetBytes x _ _ _ | OReplace x _ | OToVec x => Some (h_ref x)
  end.

(** The buffers an operation locks. *)
Definition uses (o : hop) : list nat :=
  match o with
  | ONew _ | OFrom _ _ | OClone _ => []
  | OReplace x y => [h_ref x; h_ref y]
  | OGet x _ | OSet x _ _ | OBitRange x _ _ | OSetBitRange x _ _ _ | OBytes x _ _
  | OSetBytes x _ _ _ | OToVec x => [h_ref x]
  end.

