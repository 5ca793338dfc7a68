(** LawsProofs.v -- lemmas for C100. *)

From Coq Require Import Lia Permutation.
From Verif Require Import Base Bits Types Layout Packet Heap Spec BitsProofs HeapProofs ChecksumProofs PropChecksum
  DetectSpec DetectProofs IncrSpec IncrProofs LawsSpec.
Open Scope N_scope.

Lemma sum_filter l : plain_sum (filter (fun w => negb (w =? 0)) l) = plain_sum l.
Proof.
  induction l as [|w l IH]; [reflexivity|]. cbn [filter]. destruct (N.eqb_spec w 0) as [->|]; cbn [negb].
  - rewrite IH. reflexivity.
  - unfold plain_sum in *. cbn [fold_right]. rewrite IH. reflexivity.
Qed.
Lemma sum_perm l l' : Permutation l l' -> plain_sum l = plain_sum l'.
Proof. unfold plain_sum. induction 1; cbn [fold_right]; lia. Qed.
Lemma counted_sum v : other_words v = plain_sum (counted v).
Proof. symmetry. apply sum_filter. Qed.

Lemma pair_ind (P : list N -> Prop) : P [] -> (forall a, P [a]) -> (forall a b t, P t -> P (a :: b :: t)) -> forall l, P l.
Proof.
  intros P0 P1 P2. assert (X : forall l, P l /\ forall a, P (a :: l)).
  { induction l as [|b t (A & B)]; split; auto. }
  intros l. apply X.
Qed.
Lemma swapped_length v : length (swapped v) = length v.
Proof. induction v as [|a|a b t IH] using pair_ind; cbn [swapped length]; congruence. Qed.
Lemma swapped_ok v : bytes_ok v -> bytes_ok (swapped v).
Proof.
  induction v as [|a|a b t IH] using pair_ind; auto. intros B. inversion B as [|? ? Ha B1]; subst. inversion B1 as [|? ? Hb B2]; subst.
  cbn [swapped]. constructor; auto. constructor; auto. apply IH; auto.
Qed.
Lemma swapped_zero v : zero_checksum (swapped v) = swapped (zero_checksum v) \/ (length v < 12)%nat.
Proof.
  do 12 (destruct v as [|? v]; [right; cbn; lia|]). left. reflexivity.
Qed.
Lemma swap16_val c : c < 65536 -> swap16 c < 65536 /\ 256 * c = swap16 c + 65535 * (c / 256) /\ (swap16 c = 0 -> c = 0).
Proof.
  intros C. unfold swap16. pose proof (N.div_mod c 256 ltac:(discriminate)) as E. pose proof (N.mod_lt c 256 ltac:(discriminate)) as L.
  assert (c / 256 < 256) by (apply N.div_lt_upper_bound; lia). lia.
Qed.
Lemma swapped_sum v : bytes_ok v -> Nat.even (length v) = true ->
  exists k, 256 * plain_sum (words v) = plain_sum (words (swapped v)) + 65535 * k /\ (plain_sum (words v) = 0 <-> plain_sum (words (swapped v)) = 0).
Proof.
  induction v as [|a|a b t IH] using pair_ind; intros B E.
  - exists 0. cbn. split; [reflexivity|tauto].
  - discriminate E.
  - inversion B as [|? ? Ha B1]; subst. inversion B1 as [|? ? Hb B2]; subst. destruct (IH B2 E) as (k & K & Z).
    exists (k + a). cbn [swapped words plain_sum fold_right] in *. fold (plain_sum (words t)) in *. fold (plain_sum (words (swapped t))) in *. lia.
Qed.
Lemma swapped_header v : header_bytes v -> header_bytes (swapped v).
Proof. intros (B & E & L & M). unfold header_bytes. rewrite swapped_length. auto using swapped_ok. Qed.
Lemma swapped_ocn v : header_bytes v -> ocn (other_words (swapped v)) = swap16 (ocn (other_words v)).
Proof.
  intros (B & E & L & _). unfold other_words. destruct (swapped_zero v) as [->|X]; [|lia].
  assert (Z : length (zero_checksum v) = length v).
  { unfold zero_checksum. rewrite !app_length, firstn_length, skipn_length. cbn [length]. lia. }
  destruct (swapped_sum (zero_checksum v)) as (k & K & Z0); [apply zero_checksum_ok; auto|rewrite Z; auto|].
  set (s := plain_sum (words (zero_checksum v))) in *. set (s' := plain_sum (words (swapped (zero_checksum v)))) in *.
  destruct (N.eq_dec s 0) as [S|S].
  - rewrite S, (proj1 Z0 S). reflexivity.
  - pose proof (ocn_bound s) as Bo. pose proof (ocn_nonzero s S) as P. destruct (ocn_repr s) as (i & I).
    destruct (swap16_val (ocn s) ltac:(lia)) as (W1 & W2 & W3).
    assert (S' : s' <> 0) by tauto. destruct (ocn_repr s') as (j & J). pose proof (ocn_bound s'). pose proof (ocn_nonzero s' S').
    assert (X : swap16 (ocn s) + 65535 * (ocn s / 256 + 256 * i) = ocn s' + 65535 * (k + j)) by lia.
    assert (swap16 (ocn s) <> 0) by (intros Q; apply W3 in Q; lia). lia.
Qed.
Lemma swap16_not c : c < 65536 -> swap16 (65535 - c) = 65535 - swap16 c.
Proof.
  intros C. unfold swap16. pose proof (N.div_mod c 256 ltac:(discriminate)) as E. pose proof (N.mod_lt c 256 ltac:(discriminate)) as L.
  pose proof (N.div_mod (65535 - c) 256 ltac:(discriminate)) as E'. pose proof (N.mod_lt (65535 - c) 256 ltac:(discriminate)) as L'.
  revert E L E' L'. generalize (c / 256) (c mod 256) ((65535 - c) / 256) ((65535 - c) mod 256). intros q r q' r' E L E' L'.
  assert (X : 65535 = 256 * (q + q') + (r + r')) by lia. assert (q + q' = 255) by lia. lia.
Qed.
