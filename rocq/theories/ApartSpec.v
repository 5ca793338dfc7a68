(** ApartSpec.v -- threads in groups that exchange no values (C93). *)

From Verif Require Import Base Bits Types Layout Heap Packet Build Utils Slow Fast Ops Client Threads Free Spec ClientSpec ThreadsSpec CostSpec LinSpec FreeSpec.
Open Scope N_scope.

(** The calls that have ended of the threads of group [q]; [col i] is the group of thread [i]. *)
Definition side (col : nat -> nat) (q : nat) (l : list ended) : list ended := filter (fun e => (col (fst (fst e)) =? q)%nat) l.
(** What calls have returned. *)
Definition obtained (l : list ended) : client := fold_left (fun c e => learn c (snd e) []) l k_start.

(** As in C67, but a thread passes to its calls only values that threads of its group
    have obtained. With the calls that have ended. *)
Inductive gruns (m : mode) (ip6 : string -> option (list N)) (col : nat -> nat) : world -> list ended -> Prop :=
| G_start : gruns m ip6 col w_start []
| G_spawn w l : gruns m ip6 col w l -> gruns m ip6 col (wspawn w) l
| G_call w l i k w' : gruns m ip6 col w l -> known (obtained (side col (col i) l)) k -> typed k -> wcall m ip6 w i k = Some w' -> gruns m ip6 col w' l
| G_do w l i w' : gruns m ip6 col w l -> wdo w i = Some w' -> gruns m ip6 col w' l
| G_back w l i k own o w' : gruns m ip6 col w l -> busy w i k own (TRun (ADone o)) -> wback w i = Some w' ->
    gruns m ip6 col w' (l ++ [(i, k, o)]).

(** Buffer [r] is in a value of group [q] or in use by a call of one of its threads. *)
Definition uses (col : nat -> nat) (w : world) (l : list ended) (q r : nat) : Prop :=
  shared (obtained (side col q l)) r \/ exists i k own t, busy w i k own t /\ col i = q /\ In r (args k ++ own).

(** A call and its outcome with the buffers called differently. *)
Definition ren (f : nat -> nat) (e : ended) : ended := let '(i, k, o) := e in (i, rename_call f k, rename_out f o).

(** [w0] is [w] without the threads of the other groups: an execution of C67 in which the
    threads of group [q] make the same calls with the same outcomes, the others make
    none, and the values, the contents of the buffers and the calls in progress of the
    group are the same; [f r] is there what [r] is here. *)
Record without_others (m : mode) (ip6 : string -> option (list N)) (col : nat -> nat) (q : nat) (f : nat -> nat)
  (w : world) (l : list ended) (w0 : world) : Prop := {
  wo_runs : wruns m ip6 w0 (map (ren f) (side col q l));
  wo_values : same_values f (obtained (side col q l)) (fst w0);
  wo_apart : forall r r', uses col w l q r -> uses col w l q r' -> f r = f r' -> r = r';
  wo_bytes : forall r, uses col w l q r -> exists c, nth_error (w_heap w) r = Some c /\ nth_error (w_heap w0) (f r) = Some c;
  wo_count : length (snd w0) = length (snd w);
  wo_same : forall i t t0, nth_error (snd w) i = Some t -> nth_error (snd w0) i = Some t0 -> col i = q -> same_busy f t t0;
  wo_others : forall i t0, nth_error (snd w0) i = Some t0 -> col i <> q -> t0 = Idle }.
