(** LocalSpec.v -- the same call or program on other buffers (C72). *)

From Verif Require Import Base Bits Types Layout Heap Packet Build Utils Slow Fast Ops Client Print Spec ClientSpec ThreadsSpec.
Open Scope N_scope.

(** What the buffers of a call are called elsewhere: those that exist before it, of which
    there are [n], are called [g r] there; the ones it allocates come after the [n'] that
    exist there. *)
Definition carry (n n' : nat) (g : nat -> nat) (r : nat) : nat := if (r <? n)%nat then g r else (n' + (r - n))%nat.

(** A program of calls on what is known, each coming back except possibly the last. *)
Fixpoint lawful (m : mode) (ip6 : string -> option (list N)) (c : client) (l : list call) : Prop :=
  match l with
  | [] => True
  | k :: t =>
      known c k /\ typed k /\
      let '(o, h) := snd (w_call m ip6 k (k_heap c)) in
      (t = [] \/ comes_back o) /\ lawful m ip6 (learn c o h) t
  end.
(** What its calls come to. *)
Fixpoint w_outs (m : mode) (ip6 : string -> option (list N)) (l : list call) (h : heap) : list (out kres) :=
  match l with
  | [] => []
  | k :: t => let '(o, h) := snd (w_call m ip6 k h) in o :: w_outs m ip6 t h
  end.
