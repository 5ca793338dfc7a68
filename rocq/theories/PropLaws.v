(** PropLaws.v -- property C100: which laws of the Internet checksum the function keeps. *)

From Coq Require Import Lia Permutation.
From Verif Require Import Base Bits Types Layout Packet Heap Spec BitsProofs HeapProofs ChecksumProofs PropChecksum
  DetectSpec DetectProofs IncrSpec IncrProofs LawsSpec LawsProofs.
Open Scope N_scope.

(** RFC 1071, 2(A): the order of the words does not matter, wherever the checksum
    stands among them, nor do words that are zero. For inputs of any length, panics included. *)
Theorem C100_order : forall m v v', bytes_ok v -> bytes_ok v' -> Nat.even (length v) = true -> Nat.even (length v') = true ->
  Permutation (counted v) (counted v') -> ipv4_checksum m v = ipv4_checksum m v'.
Proof.
  intros m v v' B B' E E' P. rewrite !C20_value_any by auto. cbv zeta. rewrite !counted_sum, (sum_perm _ _ P). reflexivity.
Qed.
Print Assumptions C100_order.

(** RFC 1071, 2(B): with the bytes of each word exchanged the function gives the value
    with its bytes exchanged, exactly if its two sums do not carry twice. *)
Theorem C100_byte_order : forall m v c, header_bytes v -> ipv4_checksum m v = Ret c ->
  (ipv4_checksum m (swapped v) = Ret (swap16 c) <-> ~ carries (other_words v) /\ ~ carries (other_words (swapped v))).
Proof.
  intros m v c H V. pose proof (swapped_header v H) as H'. pose proof (swapped_ocn v H) as O.
  pose proof (ocn_bound (other_words v)) as A. pose proof (ocn_bound (other_words (swapped v))) as A'.
  assert (RI : forall a b : N, Ret a = Ret b -> a = b) by (intros; congruence).
  assert (D : forall s, carries s \/ ~ carries s) by (intros s; unfold carries; lia).
  destruct (D (other_words v)) as [C|C], (D (other_words (swapped v))) as [C'|C'].
  - destruct (value_carry m v H C) as (P & E), (value_carry m _ H' C') as (P' & E'). rewrite E in V. apply RI in V. rewrite E'.
    split; [|tauto]. intros X. apply RI in X. subst c. rewrite swap16_not in X by lia. exfalso.
    destruct (swap16_val (ocn (other_words v)) ltac:(lia)) as (W1 & W2 & W3).
    destruct (swap16_val (ocn (other_words v) - 1) ltac:(lia)) as (W4 & W5 & W6). lia.
  - destruct (value_carry m v H C) as (P & E). rewrite E in V. apply RI in V. rewrite (value_plain m _ H' C').
    split; [|tauto]. intros X. apply RI in X. subst c. rewrite swap16_not in X by lia. exfalso.
    destruct (swap16_val (ocn (other_words v)) ltac:(lia)) as (W1 & W2 & W3).
    destruct (swap16_val (ocn (other_words v) - 1) ltac:(lia)) as (W4 & W5 & W6). lia.
  - destruct (value_carry m _ H' C') as (P' & E'). rewrite (value_plain m v H C) in V. apply RI in V. rewrite E'.
    split; [|tauto]. intros X. apply RI in X. subst c. rewrite swap16_not in X by lia. exfalso. lia.
  - rewrite (value_plain m v H C) in V. apply RI in V. rewrite (value_plain m _ H' C'). split; [tauto|]. intros _.
    subst c. rewrite swap16_not by lia. rewrite O. reflexivity.
Qed.
Print Assumptions C100_byte_order.

(** RFC 1071, 1(3): a receiver that sums everything expects all ones. What the library
    verifies such a receiver accepts exactly if the sum does not carry twice; what such
    a receiver accepts the library verifies exactly if moreover zero is not sent as 65535. *)
Theorem C100_receivers : forall m v, header_bytes v ->
  (verifies m v -> (checksum_ok v <-> ~ carries (other_words v))) /\
  (checksum_ok v -> (verifies m v <-> ~ carries (other_words v) /\ (word v 5 = 65535 -> other_words v = 0))).
Proof.
  intros m v H. pose proof H as (B & Ev & L & _). pose proof (others_word v H) as S. apply Nat.even_spec in Ev as (n & Ev).
  assert (K : checksum_ok v <-> ocn (other_words v + word v 5) = 65535).
  { unfold checksum_ok. rewrite oc_sum_val by (apply words_lt; auto). rewrite (words_sum n) by auto.
    rewrite S, Ev. replace (2 * n / 2)%nat with n by (rewrite Nat.mul_comm, Nat.div_mul; auto). tauto. }
  rewrite K. clear K S. unfold verifies.
  assert (RI : forall a b : N, Ret a = Ret b <-> a = b) by (intros; split; congruence).
  pose proof (word_lt v 5) as W. set (w := word v 5) in *. clearbody w.
  pose proof (ocn_bound (other_words v)) as A. destruct (ocn_repr (other_words v)) as (i & I).
  destruct (ocn_repr (other_words v + w)) as (j & J). pose proof (ocn_bound (other_words v + w)) as A'.
  pose proof (ocn_nonzero (other_words v + w)) as P'. pose proof (ocn_nonzero (other_words v)) as P.
  assert (D : carries (other_words v) \/ ~ carries (other_words v)) by (unfold carries; lia).
  destruct D as [C|C].
  - destruct (value_carry m v H C) as (Q & ->). rewrite RI. revert C I J A A' P P' Q.
    generalize (ocn (other_words v)) (ocn (other_words v + w)) (other_words v). intros a a' s C I J A A' P P' Q. split.
    + intros X. split; [|tauto]. intros Y. exfalso. lia.
    + intros X. split; [|tauto]. intros Y. exfalso. lia.
  - rewrite (value_plain m v H C). rewrite RI. split.
    + intros X. split; [auto|]. intros _. revert I J A A' P P' X. generalize (ocn (other_words v)) (ocn (other_words v + w)) (other_words v). intros. lia.
    + intros X. assert (Z : 65535 - ocn (other_words v) = w <-> (w = 65535 -> other_words v = 0)); [|tauto].
      assert (O0 : other_words v = 0 -> ocn (other_words v) = 0) by (intros ->; reflexivity).
      revert I J A A' P P' X O0. generalize (ocn (other_words v)) (ocn (other_words v + w)) (other_words v). intros a a' s I J A A' P P' X O0. split.
      * intros Y Y'. destruct (N.eq_dec s 0); auto. specialize (P n0). lia.
      * intros Y. destruct (N.eq_dec w 65535) as [E|E]; [specialize (Y E); specialize (O0 Y); lia|lia].
Qed.
Print Assumptions C100_receivers.

(** ** Concrete cases *)

(** A header with two options: its words in another order, with a zero word more. *)
Definition la_v : list N := [0x47; 0; 0; 60; 0; 1; 0x40; 0; 64; 6; 1; 2; 10; 0; 0; 1; 10; 0; 0; 2; 1; 1; 1; 0; 0; 0; 0; 0].
Definition la_w : list N := [10; 0; 0; 2; 0; 60; 0x40; 0; 1; 0; 3; 4; 64; 6; 0x47; 0; 1; 1; 0; 0; 10; 0; 0; 1; 0; 1].
Ltac find_in a pre post :=
  lazymatch post with
  | a :: ?t => apply (Permutation_cons_app pre t a); cbn [app]
  | ?b :: ?t => let p := eval cbn [app] in (pre ++ [b]) in find_in a p t
  end.
Ltac permute := repeat lazymatch goal with |- Permutation (?a :: _) ?r => let z := constr:(@nil N) in find_in a z r end; apply perm_nil.
Example C100_order_example : Permutation (counted la_v) (counted la_w) /\ length la_v <> length la_w /\
  forall m, ipv4_checksum m la_v = Ret 8888 /\ ipv4_checksum m la_w = Ret 8888.
Proof.
  split; [vm_compute; permute|]. split; [discriminate|]. intros []; split; reflexivity.
Qed.
Lemma la_header : header_bytes la_v.
Proof. split; [apply bytes_okb_ok; reflexivity|split; [reflexivity|split; vm_compute; [lia|discriminate]]]. Qed.
Example C100_byte_order_example : header_bytes la_v /\ ~ carries (other_words la_v) /\ ~ carries (other_words (swapped la_v)) /\
  (forall m, ipv4_checksum m la_v = Ret 0x22b8 /\ ipv4_checksum m (swapped la_v) = Ret 0xb822) /\ swap16 0x22b8 = 0xb822.
Proof.
  split; [exact la_header|].
  split; [vm_compute; intros X; apply X; reflexivity|]. split; [vm_compute; intros X; apply X; reflexivity|].
  split; [intros []; split; reflexivity|reflexivity].
Qed.
(** The header with its checksum. *)
Definition la_sent : list N := upd (upd la_v 10 0x22) 11 0xb8.
Example C100_receivers_example : forall m, header_bytes la_sent /\ verifies m la_sent /\ checksum_ok la_sent.
Proof.
  intros m. split; [split; [apply bytes_okb_ok; reflexivity|split; [reflexivity|split; vm_compute; [lia|discriminate]]]|].
  split; [destruct m; reflexivity|reflexivity].
Qed.

(** A header whose sum 0x1ffff carries twice, with the function's checksum, with that of
    the RFC, and one with 65535 for zero. *)
Definition la_carry (c d : N) : list N := [255; 255; 255; 255; 0; 1; 0; 0; 0; 0; c; d; 0; 0; 0; 0; 0; 0; 0; 0].
Definition la_ones : list N := [255; 255; 0; 0; 0; 0; 0; 0; 0; 0; 255; 255; 0; 0; 0; 0; 0; 0; 0; 0].
Lemma la_carry_header c d : c < 256 -> d < 256 -> header_bytes (la_carry c d).
Proof.
  intros C D. split; [unfold la_carry, bytes_ok; repeat (apply Forall_cons; [unfold byte_ok; lia|]); apply Forall_nil|]. split; [reflexivity|].
  split; vm_compute; [lia|discriminate].
Qed.
Theorem C100_byte_order_refuted : exists v c, header_bytes v /\ forall m, ipv4_checksum m v = Ret c /\ ipv4_checksum m (swapped v) <> Ret (swap16 c).
Proof.
  exists (la_carry 0 0), 65535. split; [apply la_carry_header; lia|]. intros []; (split; [reflexivity|vm_compute; discriminate]).
Qed.
Print Assumptions C100_byte_order_refuted.
Theorem C100_receivers_refuted : (exists v, header_bytes v /\ (forall m, verifies m v) /\ ~ checksum_ok v) /\
  exists v, header_bytes v /\ checksum_ok v /\ ~ carries (other_words v) /\ forall m, ~ verifies m v.
Proof.
  split.
  - exists (la_carry 255 255). split; [apply la_carry_header; lia|]. split; [intros []; reflexivity|vm_compute; discriminate].
  - exists la_ones. split; [split; [apply bytes_okb_ok; reflexivity|split; [reflexivity|split; vm_compute; [lia|discriminate]]]|].
    split; [reflexivity|]. split; [vm_compute; intros X; apply X; reflexivity|]. intros []; vm_compute; discriminate.
Qed.
Print Assumptions C100_receivers_refuted.
