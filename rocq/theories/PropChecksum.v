(** PropChecksum.v -- property C20: the IPv4 checksum function. *)

From Coq Require Import Lia.
From Verif Require Import Base Layout Heap Packet Spec BitsProofs ChecksumProofs.
Open Scope N_scope.

(** The sum of the 16-bit words other than the one at bytes 10-11. *)
Definition other_words (v : list N) : N := plain_sum (words (zero_checksum v)).

Theorem C20_value : forall m v, bytes_ok v -> Nat.even (length v) = true ->
  N.of_nat (length v) <= 65535 ->
  ipv4_checksum m v = Ret (65535 - (other_words v / 65536 + other_words v) mod 65536).
Proof. intros. apply ipv4_checksum_val; auto. apply ssum_small; auto. Qed.
Print Assumptions C20_value.

(** Any even length, however long. *)
Theorem C20_value_any : forall m v, bytes_ok v -> Nat.even (length v) = true ->
  let s := other_words v in
  ipv4_checksum m v =
  if (s / 65536 + s <? 2 ^ 32) then Ret (65535 - (s / 65536 + s) mod 65536)
  else match m with
       | Debug => Panic POverflow
       | Release => let s := s mod 2 ^ 32 in Ret (65535 - (s / 65536 + s) mod 65536)
       end.
Proof.
  intros m v Hv Ev s. fold (ssum v) in s.
  destruct (N.ltb_spec (s / 65536 + s) (2 ^ 32)) as [L|L].
  - apply ipv4_checksum_val; auto.
  - unfold ipv4_checksum. rewrite checksum_loop_all by auto. unfold addall. rewrite N.add_0_l.
    fold (ssum v). change (ssum v) with s.
    assert (B : u32 s < 2 ^ 32) by apply u32_lt.
    assert (W : forall x, x < 2 ^ 32 -> (olet c := fold_loop Release 3 x in Ret (65535 - u16 c)) =
      Ret (65535 - (x / 65536 + x) mod 65536)).
    { intros x Hx. rewrite fold_loop_val by auto. destruct (N.ltb_spec x 65536) as [L1|L1].
      - cbn [obind]. rewrite (N.div_small x) by auto. reflexivity.
      - destruct (x / 65536 + x <? 2 ^ 32); cbn [obind]; (rewrite u16_small; [reflexivity|]);
          apply N.mod_lt; discriminate. }
    destruct (N.ltb_spec s (2 ^ 32)) as [L1|L1]; cbn [obind].
    + destruct m.
      * rewrite fold_loop_val by auto. destruct (N.ltb_spec s 65536) as [L2|L2].
        { rewrite (N.div_small s) in L by auto. rewrite N.add_0_l in L.
          exfalso. apply (N.lt_irrefl s). apply (N.lt_le_trans _ (2 ^ 32)); auto. }
        rewrite (proj2 (N.ltb_ge _ _)) by auto. reflexivity.
      * rewrite W by auto. cbv zeta. rewrite (N.mod_small s) by auto. reflexivity.
    + destruct m; [reflexivity|]. cbn [obind]. apply W. auto.
Qed.
Print Assumptions C20_value_any.

(** It is the RFC 1071 checksum exactly when folding does not carry; else it is
    one too large. *)
Theorem C20_rfc : forall m v, bytes_ok v -> Nat.even (length v) = true ->
  N.of_nat (length v) <= 65535 ->
  exists c, ipv4_checksum m v = Ret c /\ c <= 65535 /\
    (c = rfc_checksum v <-> ~ carries (other_words v)) /\
    (carries (other_words v) -> c = rfc_checksum v + 1).
Proof.
  intros m v Hv Ev L. rewrite C20_value by auto. eexists. split; [reflexivity|].
  destruct (checksum_vs_rfc v Hv (ssum_small v Hv L)) as [A B].
  fold (other_words v) in *. change (ssum v) with (other_words v) in *.
  split; [apply N.le_sub_l|].
  split; [split; [|exact A]|].
  - intros E C. destruct (B C) as [B1 _]. rewrite E in B1. lia.
  - intros C. apply B; auto.
Qed.
Print Assumptions C20_rfc.

Definition carry_header : list N :=
  [255; 255; 0; 1; 255; 255; 0; 0; 0; 0; 0; 0; 255; 255; 255; 254; 0; 0; 0; 2].

Theorem C20_rfc_refuted : exists v c, bytes_ok v /\ length v = 20%nat /\
  (forall m, ipv4_checksum m v = Ret c) /\ c <> rfc_checksum v.
Proof.
  exists carry_header. eexists. split; [apply bytes_okb_ok; reflexivity|]. split; [reflexivity|].
  split; [intros []; reflexivity|]. vm_compute. discriminate.
Qed.
Print Assumptions C20_rfc_refuted.

(** Bytes 10 and 11 are not looked at, in any string. *)
Theorem C20_ignores : forall m v a b, ipv4_checksum m (upd (upd v 10 a) 11 b) = ipv4_checksum m v.
Proof.
  intros m v a b. unfold ipv4_checksum. rewrite !upd_length. f_equal.
  assert (G : forall n i c, Nat.even i = true ->
    checksum_loop m (upd (upd v 10 a) 11 b) i n c = checksum_loop m v i n c).
  { induction n as [|n IH]; intros i c Ei; cbn [checksum_loop]; auto.
    assert (E2 : Nat.even (i + 2) = true) by (rewrite Nat.even_add, Ei; reflexivity).
    destruct (Nat.eqb_spec i 10) as [E|E]; [apply IH; auto|].
    assert (I : forall k, k <> 10%nat -> k <> 11%nat -> index (upd (upd v 10 a) 11 b) k = index v k).
    { intros k K1 K2. unfold index. rewrite !nth_error_upd.
      rewrite (proj2 (Nat.eqb_neq k 11)), (proj2 (Nat.eqb_neq k 10)) by auto. reflexivity. }
    assert (i <> 11%nat) by (intros ->; discriminate).
    assert (i <> 9%nat) by (intros ->; discriminate).
    rewrite !I by lia.
    destruct (index v i); cbn [obind]; auto.
    destruct (index v (i + 1)); cbn [obind]; auto.
    destruct (add32 m c (N.lor (shl16 a0 8) a1)); cbn [obind]; auto. }
  apply G. reflexivity.
Qed.
Print Assumptions C20_ignores.

(** Odd lengths panic, except 11, where the odd byte is byte 10. *)
Theorem C20_odd : forall m v, bytes_ok v -> Nat.odd (length v) = true -> length v <> 11%nat ->
  exists f, ipv4_checksum m v = Panic f.
Proof.
  intros m v Hv Od N11. apply Nat.odd_spec in Od as [n Hn].
  unfold ipv4_checksum. replace ((length v + 1) / 2)%nat with (S n).
  2:{ rewrite Hn. replace (2 * n + 1 + 1)%nat with ((n + 1) * 2)%nat by lia. rewrite Nat.div_mul; lia. }
  assert (G : forall k i c, (i + 2 * k = 2 * n)%nat -> exists f, checksum_loop m v i (S k) c = Panic f).
  { induction k as [|k IH]; intros i c Hi; [cbn [checksum_loop]|].
    - destruct (Nat.eqb_spec i 10) as [E|E]; [lia|].
      rewrite (index_lt _ _ 0) by lia. cbn [obind]. rewrite index_ge by lia. cbn [obind]. eauto.
    - remember (S k) as k1 eqn:Ek. cbn [checksum_loop].
      destruct (Nat.eqb_spec i 10) as [E|E].
      + apply IH. lia.
      + rewrite !(index_lt _ _ 0) by lia. cbn [obind].
        destruct (add32 m c (N.lor (shl16 (nth i v 0) 8) (nth (i + 1) v 0))) as [x|f| | |] eqn:Ea; cbn [obind].
        * apply IH. lia.
        * eauto.
        * exfalso. unfold add32 in Ea. destruct (_ <? _); [discriminate|]. destruct m; discriminate.
        * exfalso. unfold add32 in Ea. destruct (_ <? _); [discriminate|]. destruct m; discriminate.
        * exfalso. unfold add32 in Ea. destruct (_ <? _); [discriminate|]. destruct m; discriminate. }
  destruct (G n O 0 ltac:(lia)) as [f ->]. exists f. reflexivity.
Qed.
Print Assumptions C20_odd.

Theorem C20_eleven : forall m v, length v = 11%nat ->
  ipv4_checksum m v = ipv4_checksum m (firstn 10 v).
Proof.
  intros m v L. do 11 (destruct v as [|? v]; [discriminate|]). destruct v; [|discriminate].
  unfold ipv4_checksum.
  change ((length [n; n0; n1; n2; n3; n4; n5; n6; n7; n8; n9] + 1) / 2)%nat with 6%nat.
  change ((length (firstn 10 [n; n0; n1; n2; n3; n4; n5; n6; n7; n8; n9]) + 1) / 2)%nat with 5%nat.
  f_equal.
Qed.
Print Assumptions C20_eleven.

(** The crate's default IPv4 header does not carry; [carry_header] does. *)
Example C20_example :
  bytes_ok (ht_default IPv4) /\ ~ carries (other_words (ht_default IPv4)) /\
  carries (other_words carry_header) /\
  ipv4_checksum Debug (ht_default IPv4) = Ret (rfc_checksum (ht_default IPv4)).
Proof.
  split; [apply bytes_okb_ok; reflexivity|]. split; [vm_compute; congruence|].
  split; [vm_compute; congruence|reflexivity].
Qed.
