(** RaceSpec.v -- the executions of Race.v. *)

From Verif Require Import Base Bits Types Layout Heap Packet Build Utils Slow Fast Ops Client Threads Race ClientSpec ThreadsSpec.
Open Scope N_scope.

(** As [wreach] (C67). *)
Inductive yreach (u : rules) (m : mode) (ip6 : string -> option (list N)) : yworld -> Prop :=
| Y_start : yreach u m ip6 y_start
| Y_spawn y : yreach u m ip6 y -> yreach u m ip6 (yspawn y)
| Y_call y i k y' : yreach u m ip6 y -> known (fst (y_world y)) k -> typed k -> ycall u m ip6 y i k = Some y' -> yreach u m ip6 y'
| Y_do y i y' : yreach u m ip6 y -> ydo u y i = Some y' -> yreach u m ip6 y'
| Y_back y i y' : yreach u m ip6 y -> yback y i = Some y' -> yreach u m ip6 y'.

(** Rust's rules. *)
Definition rust : rules := Rules true true.

(** The buffers that the next step of thread [i] accesses, and what it sees of them once
    it has taken its locks. *)
Definition sees (y : yworld) (i : nat) (t : tstate) (r : nat) : nat :=
  fold_left Nat.max (map (fun q => y_lock y q r) (enters t)) (y_view y i r).
