(** Conc.v -- the header methods of src/headers.rs run by several threads whose
    headers share buffers ([Arc] clones).

    A method body is a program that takes locks; what happens between taking a
    lock and dropping it is one step, because nobody else can touch the buffer
    meanwhile. The exception is [replace], which takes a second lock while it
    holds the first: it is two steps and the state says who is in between.
    Threads are fixed at the start, switches happen between any two steps (no
    fairness is assumed), memory is sequentially consistent (all accesses are
    under locks). *)

From Verif Require Import Base Bits Layout Heap Packet.
Open Scope N_scope.

Inductive prog (A : Type) : Type :=
| Done (o : out A)
  (** [let mut map = a.lock().unwrap(); body; drop(map)], then [k]. *)
| Sync (B : Type) (r : nat) (body : list N -> out B * list N) (k : B -> prog A)
  (** headers.rs:392-396 [replace]: lock [x], clear it, lock [o], copy, unlock. *)
| Repl (x o : nat) (k : prog A).
Arguments Done {A} o.
Arguments Sync {A} B r body k.
Arguments Repl {A} x o k.

Fixpoint pbind {A B} (p : prog A) (f : A -> prog B) : prog B :=
  match p with
  | Done (Ret a) => f a
  | Done (Panic e) => Done (Panic e)
  | Done UB => Done UB
  | Done Hang => Done Hang
  | Done Fuel => Done Fuel
  | Sync C r body k => Sync C r body (fun c => pbind (k c) f)
  | Repl x o k => Repl x o (pbind k f)
  end.
Definition pret {A} (a : A) : prog A := Done (Ret a).
Notation "'plet' x := e 'in' k" := (pbind e (fun x => k))
  (at level 200, x pattern, e at level 100, k at level 200, right associativity).

(** ** The methods (the same lines as in Heap.v) *)

(** headers.rs:308-312: one lock per bit. *)
Fixpoint pget_loop (r i n : nat) (value : N) : prog N :=
  match n with
  | O => pret value
  | S n' =>
      let value := shl64 value 1 in
      Sync N r (fun d => (index d (i / 8), d)) (fun b =>
        pget_loop r (S i) n' (N.lor value (N.land (N.shiftr b (N.of_nat (8 - i mod 8 - 1))) 1)))
  end.
(** headers.rs:304-314 [bit_range]. *)
Definition pbit_range (m : mode) (x : hdr) (msb lsb : nat) : prog N :=
  plet v := pget_loop (h_ref x) lsb (range_len msb lsb) 0 in
  Done (finish m msb lsb v).
(** headers.rs:318-323: one lock per bit, the last bit first. *)
Fixpoint pset_loop (r lsb n : nat) (value : N) : prog unit :=
  match n with
  | O => pret tt
  | S n' =>
      Sync unit r (fun d => set_bit_step d (lsb + n') (u8 (N.land value 1))) (fun _ =>
        pset_loop r lsb n' (N.shiftr value 1))
  end.
(** headers.rs:315-324 [set_bit_range]. *)
Definition pset_bit_range (x : hdr) (msb lsb : nat) (value : N) : prog unit :=
  pset_loop (h_ref x) lsb (range_len msb lsb) value.
(** headers.rs:334-344, getter and setter of a field. *)
Definition pget (m : mode) (x : hdr) (f : field) : prog N := pbit_range m x (f_end f) (f_start f).
Definition pset (x : hdr) (f : field) (v : N) : prog unit := pset_bit_range x (f_end f) (f_start f) v.
(** headers.rs:346-355 [bytes]. *)
Fixpoint pbytes_loop (m : mode) (x : hdr) (i n : nat) : prog (list N) :=
  match n with
  | O => pret []
  | S n' =>
      plet v := pbit_range m x (i + 7) i in
      plet t := pbytes_loop m x (i + 8) n' in
      pret (u8 v :: t)
  end.
Definition pbytes (m : mode) (x : hdr) (msb lsb : nat) : prog (list N) :=
  plet _ := Done (bytes_guard m msb lsb) in
  pbytes_loop m x lsb (step8_len msb lsb).
(** headers.rs:356-364 [set_bytes]. *)
Fixpoint pset_bytes_loop (x : hdr) (i n : nat) (value : list N) (iter : nat) : prog unit :=
  match n with
  | O => pret tt
  | S n' =>
      plet v := Done (index value iter) in
      plet _ := pset_bit_range x (i + 7) i v in
      pset_bytes_loop x (i + 8) n' value (S iter)
  end.
Definition pset_bytes (m : mode) (x : hdr) (msb lsb : nat) (value : list N) : prog unit :=
  plet _ := Done (set_bytes_guard m (length value) msb lsb) in
  pset_bytes_loop x lsb (step8_len msb lsb) value 0.
(** headers.rs:429-432 [to_vec]. *)
Definition pto_vec (x : hdr) : prog (list N) :=
  Sync (list N) (h_ref x) (fun d => (Ret d, d)) pret.
(** headers.rs:392-396 [replace]. *)
Definition preplace (x other : hdr) : prog unit := Repl (h_ref x) (h_ref other) (pret tt).
(** packet.rs:385-392 [Packet::to_vec]: one lock per header. *)
Fixpoint pconcat_vecs (l : list hdr) : prog (list N) :=
  match l with
  | [] => pret []
  | x :: t =>
      plet v := pto_vec x in
      plet rest := pconcat_vecs t in
      pret (v ++ rest)
  end.
Definition ppkt_to_vec (p : packet) : prog (list N) :=
  plet r := pconcat_vecs (p_hdrs p) in pret (r ++ p_payload p).

(** ** One thread *)

(** Running a program without interruption. *)
Fixpoint solo {A} (p : prog A) : M A :=
  match p with
  | Done o => lift o
  | Sync B r body k => bind (with_lock r body) (fun b => solo (k b))
  | Repl x o k => bind (hreplace (Hdr Tester x) (Hdr Tester o)) (fun _ => solo k)
  end.

(** ** Several threads *)

(** A thread about to run [p], or inside [replace] after the [clear], holding
    the lock of [x] and waiting for that of [o]. *)
Inductive thread (A : Type) : Type :=
| Run (p : prog A)
| Wait (x o : nat) (k : prog A).
Arguments Run {A} p.
Arguments Wait {A} x o k.

(** Buffers and threads. *)
Definition config (A : Type) : Type := heap * list (thread A).

Definition holds_lock {A} (r : nat) (t : thread A) : bool :=
  match t with Run _ => false | Wait x _ _ => (x =? r)%nat end.
Definition locked {A} (ts : list (thread A)) (r : nat) : bool := existsb (holds_lock r) ts.

(** What a critical section does: [with_lock] of Heap.v, continuing with [k]. *)
Definition section_step {A B} (h : heap) (r : nat) (body : list N -> out B * list N)
    (k : B -> thread A) : heap * thread A :=
  match with_lock r body h with
  | (Ret b, h') => (h', k b)
  | (Panic e, h') => (h', Run (Done (Panic e)))
  | (UB, h') => (h', Run (Done UB))
  | (Hang, h') => (h', Run (Done Hang))
  | (Fuel, h') => (h', Run (Done Fuel))
  end.

(** One step of thread [t]; [None] when it has finished or waits for a lock. *)
Definition thread_step {A} (ts : list (thread A)) (h : heap) (t : thread A) : option (heap * thread A) :=
  match t with
  | Run (Done _) => None
  | Run (Sync B r body k) =>
      if locked ts r then None
      else Some (section_step h r body (fun b => Run (k b)))
  | Run (Repl x o k) =>
      if locked ts x then None
      else Some (section_step h x (fun _ => (Ret tt, [])) (fun _ => Wait x o k))
  | Wait x o k =>
      if locked ts o then None
      else
        match nth_error h x, nth_error h o with
        | Some cx, Some co =>
            (** the guard of [x] is dropped by unwinding if [o] is poisoned *)
            if c_poisoned co then Some (upd h x (Cell (c_data cx) true), Run (Done (Panic PPoison)))
            else Some (upd h x (Cell (c_data cx ++ c_data co) false), Run k)
        | _, _ => Some (h, Run (Done UB))
        end
  end.

(** The scheduler picks thread [i]. *)
Definition step {A} (c : config A) (i : nat) : option (config A) :=
  let (h, ts) := c in
  match nth_error ts i with
  | None => None
  | Some t =>
      match thread_step ts h t with
      | Some (h', t') => Some (h', upd ts i t')
      | None => None
      end
  end.

(** A schedule: which thread moves at each step. *)
Fixpoint run {A} (c : config A) (sched : list nat) : option (config A) :=
  match sched with
  | [] => Some c
  | i :: s => match step c i with Some c' => run c' s | None => None end
  end.

Definition start {A} (h : heap) (ps : list (prog A)) : config A := (h, map Run ps).
