(** Heap.v -- owned headers: [Arc<Mutex<Vec<u8>>>] buffers and the methods that
    [make_header!] generates for the owned type [X] (src/headers.rs:129-133,
    297-511), for one thread. (Conc.v has the same methods under interleaving.) *)

From Verif Require Import Base Bits Layout.
Open Scope N_scope.

(** One [Mutex<Vec<u8>>] (headers.rs:132): contents and the std poison flag. *)
Record cell := Cell { c_data : list N; c_poisoned : bool }.

(** All live buffers; an [Arc] is an index. Freed buffers are kept: nothing can
    reach them, so this is not observable. *)
Definition heap := list cell.

(** Effects. The heap is returned in every outcome: writes made before a panic stay. *)
Definition M (A : Type) := heap -> out A * heap.
Definition ret {A} (a : A) : M A := fun h => (Ret a, h).
Definition fail {A} (f : fault) : M A := fun h => (Panic f, h).
Definition bind {A B} (x : M A) (k : A -> M B) : M B := fun h =>
  match x h with
  | (Ret a, h') => k a h'
  | (Panic f, h') => (Panic f, h')
  | (UB, h') => (UB, h')
  | (Hang, h') => (Hang, h')
  | (Fuel, h') => (Fuel, h')
  end.
Definition lift {A} (x : out A) : M A := fun h => (x, h).
Notation "'mlet' x := e 'in' k" := (bind e (fun x => k))
  (at level 200, x pattern, e at level 100, k at level 200, right associativity).

(** [Arc::new(Mutex::new(data))]. *)
Definition alloc (d : list N) : M nat := fun h =>
  (Ret (length h), h ++ [Cell d false]).

(** [let mut map = a.lock().unwrap(); body; drop(map)]: panics if poisoned; if
    [body] panics while the guard is alive the mutex becomes poisoned, keeping
    whatever [body] had already written. A reference outside the heap cannot
    arise from the API; the model gives it [UB]. *)
Definition with_lock {A} (r : nat) (body : list N -> out A * list N) : M A := fun h =>
  match nth_error h r with
  | None => (UB, h)
  | Some c =>
      if c_poisoned c then (Panic PPoison, h)
      else
        match body (c_data c) with
        | (Ret a, d') => (Ret a, upd h r (Cell d' false))
        | (Panic f, d') => (Panic f, upd h r (Cell d' true))
        | (o, d') => (o, upd h r (Cell d' false))
        end
  end.

(** An owned header value: its type and its buffer (headers.rs:299-302). *)
Record hdr := Hdr { h_ty : htype; h_ref : nat }.

(** headers.rs:308-312, the read loop of the owned [bit_range]: the lock is
    taken and released in each iteration. *)
Fixpoint hget_loop (r i n : nat) (value : N) : M N :=
  match n with
  | O => ret value
  | S n' =>
      let value := shl64 value 1 in
      mlet b := with_lock r (fun d => (index d (i / 8), d)) in
      hget_loop r (S i) n'
        (N.lor value (N.land (N.shiftr b (N.of_nat (8 - i mod 8 - 1))) 1))
  end.

(** headers.rs:304-314 [X::bit_range]. *)
Definition hbit_range (m : mode) (x : hdr) (msb lsb : nat) : M N :=
  mlet v := hget_loop (h_ref x) lsb (range_len msb lsb) 0 in
  lift (finish m msb lsb v).

(** headers.rs:318-323, [for i in (lsb..=msb).rev()]: [n] bits left, the next
    is [lsb + n - 1]; one lock per bit; [value >>= 1]. *)
Fixpoint hset_loop (r lsb n : nat) (value : N) : M unit :=
  match n with
  | O => ret tt
  | S n' =>
      mlet _ := with_lock r (fun d => set_bit_step d (lsb + n') (u8 (N.land value 1))) in
      hset_loop r lsb n' (N.shiftr value 1)
  end.

(** headers.rs:315-324 [X::set_bit_range]. *)
Definition hset_bit_range (x : hdr) (msb lsb : nat) (value : N) : M unit :=
  hset_loop (h_ref x) lsb (range_len msb lsb) value.

(** headers.rs:329-332 [X::new]. *)
Definition hnew (T : htype) : M hdr :=
  mlet r := alloc (ht_default T) in ret (Hdr T r).

(** headers.rs:450-454 [X::from(Vec<u8>)]: no length check. *)
Definition hfrom (T : htype) (d : list N) : M hdr :=
  mlet r := alloc d in ret (Hdr T r).

(** headers.rs:334-339 [X::$field]. *)
Definition hget (m : mode) (x : hdr) (f : field) : M N :=
  hbit_range m x (f_end f) (f_start f).

(** headers.rs:340-344 [X::set_$field]. *)
Definition hset (x : hdr) (f : field) (v : N) : M unit :=
  hset_bit_range x (f_end f) (f_start f) v.

(** headers.rs:350-353. *)
Fixpoint hbytes_loop (m : mode) (x : hdr) (i n : nat) : M (list N) :=
  match n with
  | O => ret []
  | S n' =>
      mlet v := hbit_range m x (i + 7) i in
      mlet t := hbytes_loop m x (i + 8) n' in
      ret (u8 v :: t)
  end.

(** headers.rs:346-355 [X::bytes]. *)
Definition hbytes (m : mode) (x : hdr) (msb lsb : nat) : M (list N) :=
  mlet _ := lift (bytes_guard m msb lsb) in
  hbytes_loop m x lsb (step8_len msb lsb).

(** headers.rs:359-363: [value[iter]], [iter += 1]. *)
Fixpoint hset_bytes_loop (x : hdr) (i n : nat) (value : list N) (iter : nat) : M unit :=
  match n with
  | O => ret tt
  | S n' =>
      mlet v := lift (index value iter) in
      mlet _ := hset_bit_range x (i + 7) i v in
      hset_bytes_loop x (i + 8) n' value (S iter)
  end.

(** headers.rs:356-364 [X::set_bytes]. *)
Definition hset_bytes (m : mode) (x : hdr) (msb lsb : nat) (value : list N) : M unit :=
  mlet _ := lift (set_bytes_guard m (length value) msb lsb) in
  hset_bytes_loop x lsb (step8_len msb lsb) value 0.

(** headers.rs:369-371 [X::len]: the declared size, whatever the buffer holds. *)
Definition hlen (x : hdr) : nat := ht_size (h_ty x).

(** headers.rs:372-374 [X::name]. *)
Definition hname (x : hdr) : string := ht_name (h_ty x).

(** headers.rs:392-396 [X::replace]: self is locked and cleared before [other]
    is locked. If both are the same buffer the second lock never succeeds (std
    documents "deadlock or panic"; the model says [Hang]); self is already
    empty then. If [other] is poisoned the unwrap panics under self's guard. *)
Definition hreplace (x other : hdr) : M unit := fun h =>
  match nth_error h (h_ref x), nth_error h (h_ref other) with
  | Some cx, Some co =>
      if c_poisoned cx then (Panic PPoison, h)
      else if (h_ref x =? h_ref other)%nat then
        (Hang, upd h (h_ref x) (Cell [] false))
      else if c_poisoned co then (Panic PPoison, upd h (h_ref x) (Cell [] true))
      else (Ret tt, upd h (h_ref x) (Cell ([] ++ c_data co) false))
  | _, _ => (UB, h)
  end.

(** headers.rs:424-428 [X::clone] (also [Header::clone], 492-494): the [Arc] is
    cloned, so the new header has the same buffer. *)
Definition hclone (x : hdr) : M hdr := ret (Hdr (h_ty x) (h_ref x)).

(** headers.rs:429-432 [X::to_vec]. *)
Definition hto_vec (x : hdr) : M (list N) :=
  with_lock (h_ref x) (fun d => (Ret d, d)).

(** headers.rs:464-481, [(&boxed).into()] / [(&mut boxed).into()]: downcast by
    type identity. *)
Definition hdowncast (T : htype) (x : hdr) : M hdr :=
  if (ht_id T =? ht_id (h_ty x))%nat then ret x else fail PDowncast.

(** headers.rs:455-463, [X::from(&boxed)]: downcast, then [clone]. *)
Definition hfrom_boxed (T : htype) (x : hdr) : M hdr :=
  mlet b := hdowncast T x in hclone b.
