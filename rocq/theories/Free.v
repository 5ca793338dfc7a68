(** Free.v -- buffers that are freed, and places that are used again. The buffer of a
    header is behind an [Arc] (headers.rs:129-133, 299-302); it is freed when the last handle
    is dropped. Heap.v never frees and numbers buffers in the order in which they are
    allocated. Here memory is a set of places: an allocation takes any free place, and a
    place that is free may not be accessed.

    A buffer holds bytes only, so a handle is in a value that the program has or in a call
    that is being executed: when the last one is dropped nothing leads to the buffer. The
    handles of a call in progress are taken to be dropped when it ends. *)

From Verif Require Import Base Bits Types Layout Heap Packet Build Utils Slow Fast Ops Client Threads.
Open Scope N_scope.

(** What is in each place; [None]: nothing. *)
Definition mem : Type := nat -> option cell.
Definition mput (mm : mem) (r : nat) (o : option cell) : mem := fun q => if (q =? r)%nat then o else mm q.

(** A critical section, [with_lock] of Heap.v. *)
Definition mlock {B} (r : nat) (body : list N -> out B * list N) (mm : mem) : out B * mem :=
  match mm r with
  | None => (UB, mm)
  | Some c =>
      match with_lock 0 body [c] with
      | (o, c' :: _) => (o, mput mm r (Some c'))
      | (o, []) => (o, mm)
      end
  end.
Definition mafter {B} (o : out B * mem) (k : B -> tstate) : mem * list nat * tstate :=
  match o with
  | (Ret b, mm) => (mm, [], k b)
  | (Panic e, mm) => (mm, [], TRun (ADone (Panic e)))
  | (UB, mm) => (mm, [], TRun (ADone UB))
  | (Hang, mm) => (mm, [], TRun (ADone Hang))
  | (Fuel, mm) => (mm, [], TRun (ADone Fuel))
  end.

(** One step, [tstep] of Threads.v; [new] is the place for what is allocated. *)
Definition mstep (ts : list thread) (mm : mem) (new : nat) (t : tstate) : option (mem * list nat * tstate) :=
  match t with
  | TRun (ADone _) => None
  | TRun (AAlloc d k) =>
      match mm new with
      | None => Some (mput mm new (Some (Cell d false)), [new], TRun (k new))
      | Some _ => None
      end
  | TRun (ARead r i k) =>
      if held ts r then None
      else Some (mafter (mlock r (fun d => (index d i, d)) mm) (fun b => TRun (k b)))
  | TRun (AWrite r i v k) =>
      if held ts r then None
      else Some (mafter (mlock r (fun d => set_bit_step d i v) mm) (fun _ => TRun k))
  | TRun (ACopy r k) =>
      if held ts r then None
      else Some (mafter (mlock r (fun d => (Ret d, d)) mm) (fun d => TRun (k d)))
  | TRun (ARepl x o k) =>
      if held ts x then None
      else Some (mafter (mlock x (fun _ => (Ret tt, [])) mm) (fun _ => TWait x o k))
  | TWait x o k =>
      if held ts o then None
      else
        match mm x, mm o with
        | Some cx, Some co =>
            if c_poisoned co
            then Some (mput mm x (Some (Cell (c_data cx) true)), [], TRun (ADone (Panic PPoison)))
            else Some (mput mm x (Some (Cell (c_data cx ++ c_data co) false)), [], TRun k)
        | _, _ => Some (mm, [], TRun (ADone UB))
        end
  end.

(** The values of the program (without buffers), memory, the threads. *)
Record vworld := VW { v_client : client; v_mem : mem; v_threads : list thread }.
Definition v_start : vworld := VW k_start (fun _ => None) [].
Definition vspawn (w : vworld) : vworld := VW (v_client w) (v_mem w) (v_threads w ++ [Idle]).
Definition vcall (m : mode) (ip6 : string -> option (list N)) (w : vworld) (i : nat) (k : call) : option vworld :=
  match nth_error (v_threads w) i with
  | Some Idle => Some (VW (v_client w) (v_mem w) (upd (v_threads w) i (Busy k [] (TRun (a_kexec m ip6 k)))))
  | _ => None
  end.
Definition vdo (w : vworld) (i new : nat) : option vworld :=
  match nth_error (v_threads w) i with
  | Some (Busy k own t) =>
      match mstep (v_threads w) (v_mem w) new t with
      | Some (mm, nw, t') => Some (VW (v_client w) mm (upd (v_threads w) i (Busy k (own ++ nw) t')))
      | None => None
      end
  | _ => None
  end.
Definition vback (w : vworld) (i : nat) : option vworld :=
  match nth_error (v_threads w) i with
  | Some (Busy k own (TRun (ADone (Ret v)))) => Some (VW (learn (v_client w) (Ret v) []) (v_mem w) (upd (v_threads w) i Idle))
  | Some (Busy k own (TRun (ADone (Panic e)))) => Some (VW (v_client w) (v_mem w) (upd (v_threads w) i Idle))
  | _ => None
  end.
(** The program drops values: it has [c] left. *)
Definition vdrop (w : vworld) (c : client) : vworld := VW c (v_mem w) (v_threads w).
Definition vfree (w : vworld) (r : nat) : vworld := VW (v_client w) (mput (v_mem w) r None) (v_threads w).
