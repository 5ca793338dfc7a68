(** WideSpec.v -- what C89 says about arguments wider than the field they go to. *)

From Verif Require Import Base Spec.
Open Scope N_scope.

(** The [w] bits of [x] above its lowest [k]. *)
Definition part (x k w : N) : N := x / 2 ^ k mod 2 ^ w.

(** The second half-word of an ERSPAN header is an or of four arguments, and
    each spills upwards: [en] into [cos], [t] into [en] and [cos], [sid] into
    all three. *)
Definition er_cos (cos en t sid : N) : N :=
  N.lor (N.lor (part cos 0 3) (part en 2 3)) (N.lor (part t 3 3) (part sid 13 3)).
Definition er_en (en t sid : N) : N := N.lor (part en 0 2) (N.lor (part t 1 2) (part sid 11 2)).
Definition er_t (t sid : N) : N := N.lor (part t 0 1) (part sid 10 1).
