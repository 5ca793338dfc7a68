(** OriginalSpec.v -- the bytes that headers were read from, for C104. *)

From Verif Require Import Base Layout.
Open Scope N_scope.

(** The optional words of GRE. *)
Definition gre_word (T : htype) : bool :=
  existsb (fun W => Nat.eqb (ht_id T) (ht_id W)) [GREChksumOffset; GREKey; GRESequenceNum].
(** The bytes of the headers [l] with each run of optional words last to first; [acc] is the run so far. *)
Fixpoint original (acc : list N) (l : list (htype * list N)) : list N :=
  match l with
  | [] => acc
  | (T, x) :: l' => if gre_word T then original (x ++ acc) l' else acc ++ x ++ original [] l'
  end.
