(** AbortSpec.v -- what C78 says: executions of a program built with [panic = "abort"].

    Cargo.toml:31-35 asks for that in release builds of the crate itself (the Python module, the example); a program that uses the
    crate decides for itself, and tests always unwind. *)

From Verif Require Import Base Heap Client Threads Spec ClientSpec ThreadsSpec.
Open Scope N_scope.

(** Some thread has panicked and has not caught it: here the process ends. *)
Definition panicked (w : world) : Prop := exists i k own e, busy w i k own (TRun (ADone (Panic e))).

(** Executions in which nothing happens after a panic. *)
Inductive areach (m : mode) (ip6 : string -> option (list N)) : world -> Prop :=
| AR_start : areach m ip6 w_start
| AR_step w w' : areach m ip6 w -> ~ panicked w -> wstep m ip6 w w' -> areach m ip6 w'.
