(** TagSpec.v -- IEEE 802.1Q: a frame with a tag, for C102. *)

From Verif Require Import Base.
Open Scope N_scope.

(** The tag goes between the source address and the type: 0x8100 and the tag control information. *)
Definition tagged (tci b : list N) : list N := firstn 12 b ++ [0x81; 0x00] ++ tci ++ skipn 12 b.
(** The two bytes behind the addresses. *)
Definition type_bytes (b : list N) : list N := firstn 2 (skipn 12 b).
(** The same with another tag protocol identifier. *)
Definition tagged_with (tpid tci b : list N) : list N := firstn 12 b ++ tpid ++ tci ++ skipn 12 b.
