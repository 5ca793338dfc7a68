(** LinSpec.v -- what C81 says: calls of several threads that take effect at one moment. *)

From Verif Require Import Base Bits Types Layout Heap Packet Build Utils Slow Fast Ops Client Threads Spec ClientSpec ThreadsSpec CostSpec.
Open Scope N_scope.

(** ** Which calls *)

(** A call that is given no buffer, takes at most one step (the price list of C75), or
    is [replace]. *)
Definition atomic (k : call) : Prop := args k = [] \/ (budget k <= 1)%nat \/ replaces k = true.
(** A call that uses no buffer another thread could know of: it is given none, or it is
    finished without a step. *)
Definition silent (m : mode) (ip6 : string -> option (list N)) (k : call) : bool :=
  match args k, a_kexec m ip6 k with [], _ | _, ADone _ => true | _, _ => false end.

(** ** When they take effect *)

(** Which thread called what, and how it ended. *)
Definition entry : Type := nat * call * out kres.

(** A silent call takes effect when it returns, any other with its last step. *)
Definition effect (m : mode) (ip6 : string -> option (list N)) (i : nat) (k : call) (t : tstate) : list entry :=
  match t with TRun (ADone o) => if silent m ip6 k then [] else [(i, k, o)] | _ => [] end.

(** Executions of calls that satisfy [P]. [log]: the calls that have taken effect, in
    that order; [rets]: the calls that have ended, in the order in which they did. *)
Definition state : Type := list entry * list entry * world.
Inductive hstep (m : mode) (ip6 : string -> option (list N)) (P : call -> Prop) : state -> state -> Prop :=
| H_spawn log rets w : hstep m ip6 P (log, rets, w) (log, rets, wspawn w)
| H_call log rets w i k w' : known (fst w) k -> typed k -> P k -> wcall m ip6 w i k = Some w' ->
    hstep m ip6 P (log, rets, w) (log, rets, w')
| H_do log rets w i k own t w' : wdo w i = Some w' -> busy w' i k own t ->
    hstep m ip6 P (log, rets, w) (log ++ effect m ip6 i k t, rets, w')
| H_back log rets w i k own o w' : busy w i k own (TRun (ADone o)) -> wback w i = Some w' ->
    hstep m ip6 P (log, rets, w) (log ++ (if silent m ip6 k then [(i, k, o)] else []), rets ++ [(i, k, o)], w').
Inductive hsteps (m : mode) (ip6 : string -> option (list N)) (P : call -> Prop) : state -> state -> Prop :=
| HS_refl s : hsteps m ip6 P s s
| HS_step s s1 s2 : hsteps m ip6 P s s1 -> hstep m ip6 P s1 s2 -> hsteps m ip6 P s s2.
Definition history (m : mode) (ip6 : string -> option (list N)) (P : call -> Prop) (log rets : list entry) (w : world) : Prop :=
  hsteps m ip6 P ([], [], w_start) (log, rets, w).

Definition of_thread (i : nat) (l : list entry) : list entry := filter (fun e => (fst (fst e) =? i)%nat) l.
(** A call that has taken effect but not ended yet. *)
Definition pending (m : mode) (ip6 : string -> option (list N)) (w : world) (i : nat) : list entry :=
  match nth_error (snd w) i with Some (Busy k _ t) => effect m ip6 i k t | _ => [] end.

(** ** One after the other *)

(** One thread makes these calls with these outcomes and ends up with [c]. *)
Inductive one_by_one (m : mode) (ip6 : string -> option (list N)) : list (call * out kres) -> client -> Prop :=
| One_nil : one_by_one m ip6 [] k_start
| One_call l c k o h : one_by_one m ip6 l c -> known c k -> typed k -> kexec m ip6 k (k_heap c) = (o, h) -> comes_back o ->
    one_by_one m ip6 (l ++ [(k, o)]) (learn c o h).

(** A call and its outcome with the buffers called differently. *)
Definition renamed (g : nat -> nat) (e : entry) : call * out kres :=
  let '(_, k, o) := e in (rename_call g k, rename_out g o).
(** What one thread has obtained, if it calls the buffers [g r], is what all threads
    together have. *)
Definition same_values (g : nat -> nat) (c c' : client) : Prop :=
  k_hdrs c' = map (rename_hdr g) (k_hdrs c) /\ k_pkts c' = map (rename_pkt g) (k_pkts c) /\
  k_shdrs c' = k_shdrs c /\ k_slices c' = k_slices c /\
  forall r q, shared c r -> shared c q -> g r = g q -> r = q.
