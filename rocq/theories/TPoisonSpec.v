(** TPoisonSpec.v -- words for C101 with several threads. *)

From Verif Require Import Base Heap Client Threads Spec ClientSpec ThreadsSpec.

(** The thread's call has panicked and the thread has not yet gone on. *)
Definition panicked (t : thread) : bool :=
  match t with Busy _ _ (TRun (ADone (Panic _))) => true | _ => false end.
Definition panicking (w : world) : nat := length (filter panicked (snd w)).

(** An execution that led to a world, and how many calls have ended in a panic that was caught. *)
Inductive caught (m : mode) (ip6 : string -> option (list N)) : nat -> world -> Prop :=
| C_start : caught m ip6 0 w_start
| C_spawn n w : caught m ip6 n w -> caught m ip6 n (wspawn w)
| C_call n w i k w' : caught m ip6 n w -> known (fst w) k -> typed k -> wcall m ip6 w i k = Some w' -> caught m ip6 n w'
| C_do n w i w' : caught m ip6 n w -> wdo w i = Some w' -> caught m ip6 n w'
| C_back n w i t w' : caught m ip6 n w -> nth_error (snd w) i = Some t -> wback w i = Some w' ->
    caught m ip6 (if panicked t then S n else n) w'.
