(** PoisonSpec.v -- words for C101. *)

From Verif Require Import Base Heap Client Spec.

(** The buffer became poisoned between the two states. *)
Definition newly_poisoned (h h' : heap) (r : nat) : Prop := poisoned_at h' r /\ ~ poisoned_at h r.

(** The outcomes of calls one after another and the buffers they leave. Panics are caught. *)
Fixpoint program (m : mode) (ip6 : string -> option (list N)) (l : list call) (h : heap) : list (out kres) * heap :=
  match l with
  | [] => ([], h)
  | k :: l =>
      let (o, h1) := kexec m ip6 k h in
      let (os, h2) := program m ip6 l h1 in
      (o :: os, h2)
  end.

(** How many of them are panics. *)
Fixpoint panics (os : list (out kres)) : nat :=
  match os with
  | [] => 0
  | Panic _ :: os => S (panics os)
  | _ :: os => panics os
  end.
