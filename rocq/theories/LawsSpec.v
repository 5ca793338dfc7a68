(** LawsSpec.v -- vocabulary for C100: the laws of the Internet checksum in RFC
    1071, section 2. *)

From Verif Require Import Base Spec.
Open Scope N_scope.

(** The words that count: all but the checksum, and zero adds nothing. *)
Definition counted (v : list N) : list N := filter (fun w => negb (w =? 0)) (words (zero_checksum v)).
(** RFC 1071, 2(B): the bytes of each word exchanged, in the data and in the result. *)
Fixpoint swapped (v : list N) : list N :=
  match v with
  | a :: b :: t => b :: a :: swapped t
  | _ => v
  end.
Definition swap16 (c : N) : N := 256 * (c mod 256) + c / 256.
