(** PipeSpec.v -- which executions Pipe.v is about, and what C82 says of them. *)

From Verif Require Import Base Heap Packet Ops Client Threads TPrint Pipe Spec ClientSpec ThreadsSpec TPrintSpec.

(** As in C71, and any write may fail. *)
Inductive fmove (m : mode) (ip6 : string -> option (list N)) (w : pworld) : option nat -> pworld -> Prop :=
| FM_move j w' : pmove m ip6 w j w' -> fmove m ip6 w j w'
| FM_fail i n w' : pfail w i n = Some w' -> fmove m ip6 w (Some i) w'.
Inductive freach (m : mode) (ip6 : string -> option (list N)) : pworld -> Prop :=
| FR_start : freach m ip6 pw_start
| FR_move w j w' : freach m ip6 w -> fmove m ip6 w j w' -> freach m ip6 w'.
Inductive fsteps (m : mode) (ip6 : string -> option (list N)) (w : pworld) : pworld -> Prop :=
| FS_refl : fsteps m ip6 w w
| FS_step w1 j w2 : fsteps m ip6 w w1 -> fmove m ip6 w1 j w2 -> fsteps m ip6 w w2.

(** Thread [i] is in the same call all the time. *)
Inductive same_call (m : mode) (ip6 : string -> option (list N)) (i : nat) : pworld -> pworld -> Prop :=
| SC_refl w : same_call m ip6 i w w
| SC_do w w1 w2 : same_call m ip6 i w w1 -> pdo w1 i = Some w2 -> same_call m ip6 i w w2
| SC_other w w1 j w2 : same_call m ip6 i w w1 -> fmove m ip6 w1 j w2 -> j <> Some i -> same_call m ip6 i w w2.

(** Thread [i] waits for a write to standard output. *)
Definition writing (w : pworld) (i : nat) : Prop := exists k own said s q, pbusy w i k own said (QRun (QSay s q)).
(** [w'] is [w] with more threads, all of them waiting for a write; thread [i] of [w] is
    thread [g i] of [w']. *)
Definition more_threads (g : nat -> nat) (w w' : pworld) : Prop :=
  pw_client w' = pw_client w /\
  (forall i t, nth_error (pw_threads w) i = Some t -> nth_error (pw_threads w') (g i) = Some t) /\
  (forall i j, (i < length (pw_threads w))%nat -> (j < length (pw_threads w))%nat -> g i = g j -> i = j) /\
  (forall j, (j < length (pw_threads w'))%nat -> (exists i, (i < length (pw_threads w))%nat /\ g i = j) \/ writing w' j).

(** An execution with the calls that have ended or have been cut off: thread, call, the
    text written for it. *)
Inductive fruns (m : mode) (ip6 : string -> option (list N)) : pworld -> list (nat * call * string) -> Prop :=
| FX_start : fruns m ip6 pw_start []
| FX_spawn w l : fruns m ip6 w l -> fruns m ip6 (pspawn w) l
| FX_call w l i k w' : fruns m ip6 w l -> known (pw_client w) k -> typed k -> pcall m ip6 w i k = Some w' -> fruns m ip6 w' l
| FX_do w l i w' : fruns m ip6 w l -> pdo w i = Some w' -> fruns m ip6 w' l
| FX_back w l i k own said t w' : fruns m ip6 w l -> pbusy w i k own said t -> pback w i = Some w' ->
    fruns m ip6 w' (l ++ [(i, k, said)])
| FX_fail w l i n k own said s q w' : fruns m ip6 w l -> pbusy w i k own said (QRun (QSay s q)) -> pfail w i n = Some w' ->
    fruns m ip6 w' (l ++ [(i, k, (said ++ String.substring 0 n s)%string)]).
