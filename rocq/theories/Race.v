(** Race.v -- data races. Threads.v executes the steps of all threads one after the
    other on one memory. On real hardware a thread need not see what another has written
    unless the one happened before the other, and an access that conflicts with one that did
    not happen before it is undefined behaviour. Here every access to a buffer gets a stamp;
    every thread has a view, the last access to each buffer that happened before now; and
    an access by a thread whose view does not cover all accesses so far is a race. (Two
    reads would not race; they count here too.)

    What makes one access happen before another (headers.rs:129-133, 304-314, 315-324,
    392-396, 429-432): unlocking a mutex happens before it is locked again; and
    whoever has a handle has got it from somebody who had one, so the creation of the buffer
    ([Mutex::new], headers.rs:329-332) happened before. Nothing else is assumed: not that
    starting a thread, ending a call or passing a value makes anything else visible. *)

From Verif Require Import Base Bits Types Layout Heap Packet Build Utils Slow Fast Ops Client Threads ThreadsSpec.
Open Scope N_scope.

Definition view : Type := nat -> nat.
Definition vjoin (v v' : view) : view := fun r => Nat.max (v r) (v' r).
(** [v] with [n r] for the buffers [r] in [l]. *)
Definition vput (v : view) (l : list nat) (n : view) : view := fun r => if existsb (Nat.eqb r) l then n r else v r.

(** The locks that the next step takes, the buffers that it accesses. *)
Definition enters (t : tstate) : list nat :=
  match t with
  | TRun (ARead r _ _) | TRun (AWrite r _ _ _) | TRun (ACopy r _) | TRun (ARepl r _ _) | TWait _ r _ => [r]
  | _ => []
  end.
Definition accesses (t : tstate) : list nat :=
  match t with TWait x o _ => [x; o] | _ => enters t end.
(** The locks that are released when [t] has become [t']: all, unless [replace] has
    emptied its target and goes on (a panic releases too). *)
Definition leaves (t t' : tstate) : list nat :=
  match t' with TWait _ _ _ => [] | _ => accesses t end.

(** [y_stamp r]: the number of accesses to [r]; [y_lock r]: the view of the thread that
    has last unlocked [r]; [y_views]: the view of each thread. *)
Record yworld := YW { y_world : world; y_stamp : view; y_lock : nat -> view; y_views : list view }.
Definition y_start : yworld := YW w_start (fun _ => O) (fun _ _ => O) [].
Definition y_view (y : yworld) (i : nat) : view := nth i (y_views y) (fun _ => O).

(** Whether locking makes the last unlocking, and having a handle the creation, happen
    before: a parameter, so that it can be said what they are needed for. *)
Record rules := Rules { locks_order : bool; handles_order : bool }.

Definition yspawn (y : yworld) : yworld := YW (wspawn (y_world y)) (y_stamp y) (y_lock y) (y_views y ++ [fun _ => O]).
Definition ycall (u : rules) (m : mode) (ip6 : string -> option (list N)) (y : yworld) (i : nat) (k : call) : option yworld :=
  match wcall m ip6 (y_world y) i k with
  | Some w => Some (YW w (y_stamp y) (y_lock y)
      (upd (y_views y) i (if handles_order u then vput (y_view y i) (args k) (vjoin (y_view y i) (fun _ => 1%nat)) else y_view y i)))
  | None => None
  end.
Definition yback (y : yworld) (i : nat) : option yworld :=
  match wback (y_world y) i with
  | Some w => Some (YW w (y_stamp y) (y_lock y) (y_views y))
  | None => None
  end.
Definition ydo (u : rules) (y : yworld) (i : nat) : option yworld :=
  let (c, ts) := y_world y in
  match nth_error ts i with
  | Some (Busy k own t) =>
      match tstep ts (k_heap c) t with
      | Some (h, new, t') =>
          let v1 := if locks_order u then fold_left (fun v r => vjoin v (y_lock y r)) (enters t) (y_view y i) else y_view y i in
          let race := existsb (fun r => negb (v1 r =? y_stamp y r)%nat) (accesses t) in
          let stamp := vput (vput (y_stamp y) (accesses t) (fun r => S (y_stamp y r))) new (fun _ => 1%nat) in
          let v2 := vput v1 (accesses t ++ new) stamp in
          let lock := fun r => if existsb (Nat.eqb r) (leaves t t') then v2 else y_lock y r in
          Some (YW (if race then (c, upd ts i (Busy k own (TRun (ADone UB)))) else (set_heap c h, upd ts i (Busy k (own ++ new) t')))
                   stamp lock (upd (y_views y) i v2))
      | None => None
      end
  | _ => None
  end.
