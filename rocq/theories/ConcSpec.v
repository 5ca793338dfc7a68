(** ConcSpec.v -- vocabulary of the properties on threads (C50-C52). *)

From Verif Require Import Base Bits Layout Heap Packet Conc Spec.
Open Scope N_scope.

(** ** States *)

Definition finished {A} (t : thread A) : Prop := exists o, t = Run (Done o).
(** No thread can move. *)
Definition stuck {A} (c : config A) : Prop := forall i, step c i = None.
(** No thread can move and one has not finished. *)
Definition deadlocked {A} (c : config A) : Prop := stuck c /\ exists t, In t (snd c) /\ ~ finished t.
(** A schedule leads from the start to a state. *)
Definition reaches {A} (h : heap) (ps : list (prog A)) (c : config A) : Prop :=
  exists sched, run (start h ps) sched = Some c.

(** ** Client threads: sequences of method calls on headers *)

Inductive op : Type :=
| OGet (x : hdr) (f : field)                       (* x.f() *)
| OSet (x : hdr) (f : field) (v : N)               (* x.set_f(v) *)
| OBytes (x : hdr) (f : field)                     (* x.bytes(end, start) *)
| OSetBytes (x : hdr) (f : field) (l : list N).    (* x.set_bytes(end, start, l) *)
(** What a call returns. *)
Inductive res : Type := RNum (v : N) | RBytes (l : list N) | RUnit.

(** The call as a program of Conc.v. *)
Definition op_prog (m : mode) (o : op) : prog res :=
  match o with
  | OGet x f => plet v := pget m x f in pret (RNum v)
  | OSet x f v => plet _ := pset x f v in pret RUnit
  | OBytes x f => plet l := pbytes m x (f_end f) (f_start f) in pret (RBytes l)
  | OSetBytes x f l => plet _ := pset_bytes m x (f_end f) (f_start f) l in pret RUnit
  end.
Fixpoint thread_prog (m : mode) (l : list op) : prog (list res) :=
  match l with
  | [] => pret []
  | o :: t => plet r := op_prog m o in plet rs := thread_prog m t in pret (r :: rs)
  end.

(** The same calls with the one-thread methods of Heap.v. *)
Definition op_call (m : mode) (o : op) : M res :=
  match o with
  | OGet x f => mlet v := hget m x f in ret (RNum v)
  | OSet x f v => mlet _ := hset x f v in ret RUnit
  | OBytes x f => mlet l := hbytes m x (f_end f) (f_start f) in ret (RBytes l)
  | OSetBytes x f l => mlet _ := hset_bytes m x (f_end f) (f_start f) l in ret RUnit
  end.
Fixpoint thread_call (m : mode) (l : list op) : M (list res) :=
  match l with
  | [] => ret []
  | o :: t => mlet r := op_call m o in mlet rs := thread_call m t in ret (r :: rs)
  end.
(** All threads, one after the other (a panic ends only its own thread). *)
Fixpoint one_by_one (m : mode) (ths : list (list op)) (h : heap) : list (out (list res)) * heap :=
  match ths with
  | [] => ([], h)
  | l :: t =>
      let (o, h1) := thread_call m l h in
      let (os, h2) := one_by_one m t h1 in (o :: os, h2)
  end.

Definition op_hdr (o : op) : hdr :=
  match o with OGet x _ | OSet x _ _ | OBytes x _ | OSetBytes x _ _ => x end.
Definition op_field (o : op) : field :=
  match o with OGet _ f | OSet _ f _ | OBytes _ f | OSetBytes _ f _ => f end.
Definition op_writes (o : op) : Prop :=
  match o with OGet _ _ | OBytes _ _ => False | OSet _ _ _ | OSetBytes _ _ _ => True end.
(** The call's bits are inside an unpoisoned buffer. *)
Definition op_in (h : heap) (o : op) : Prop :=
  exists d, cell_at h (h_ref (op_hdr o)) d /\ field_in (op_field o) (length d).
(** Two calls that do not touch the same bits of the same buffer. *)
Definition op_apart (a b : op) : Prop :=
  h_ref (op_hdr a) <> h_ref (op_hdr b) \/ disjoint (op_field a) (op_field b).
(** Two threads such that no bit written by one is read or written by the other. *)
Definition threads_apart (s t : list op) : Prop :=
  forall a b, In a s -> In b t -> op_writes a \/ op_writes b -> op_apart a b.

(** ** Programs by the locks they take *)

(** The program never calls [replace]. *)
Inductive no_repl {A} : prog A -> Prop :=
| NR_done o : no_repl (Done o)
| NR_sync B r body k : (forall b : B, no_repl (k b)) -> no_repl (Sync B r body k).
(** Every [a.replace(&b)] has [a]'s buffer below [b]'s in the given order. *)
Inductive ordered {A} (rank : nat -> nat) : prog A -> Prop :=
| Or_done o : ordered rank (Done o)
| Or_sync B r body k : (forall b : B, ordered rank (k b)) -> ordered rank (Sync B r body k)
| Or_repl x o k : (rank x < rank o)%nat -> ordered rank k -> ordered rank (Repl x o k).

(** ** Torn values *)

(** The top bits of [old], the [k] lowest bits of [new]. *)
Definition splice (k : nat) (old new : N) : N :=
  old / 2 ^ N.of_nat k * 2 ^ N.of_nat k + new mod 2 ^ N.of_nat k.
(** Every bit of [v] is that bit of one of the candidates. *)
Definition bitwise_from (w : nat) (cands : list N) (v : N) : Prop :=
  v < 2 ^ N.of_nat w /\
  forall i, (i < w)%nat -> exists c, In c cands /\ N.testbit v (N.of_nat i) = N.testbit c (N.of_nat i).
