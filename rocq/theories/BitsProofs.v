(** BitsProofs.v -- lemmas on the bit accessors over byte lists. *)

From Coq Require Import Lia ZArith.
From Verif Require Import Base Bits Spec.
Open Scope N_scope.

Local Ltac divmod8 i :=
  pose proof (Nat.div_mod_eq i 8); pose proof (Nat.mod_upper_bound i 8 ltac:(lia)).

(** ** Lists *)

Lemma upd_length {A} (l : list A) i b : length (upd l i b) = length l.
Proof. revert i; induction l; destruct i; simpl; auto. Qed.

Lemma nth_upd {A} (l : list A) i b j d :
  nth j (upd l i b) d = if ((j =? i) && (i <? length l))%nat then b else nth j l d.
Proof.
  revert i j; induction l as [|a l IH]; intros i j.
  - destruct i; simpl; rewrite Bool.andb_false_r; reflexivity.
  - destruct i as [|i]; destruct j as [|j]; simpl; auto.
    rewrite IH. reflexivity.
Qed.

Lemma nth_error_upd {A} (l : list A) i b j :
  nth_error (upd l i b) j =
  if ((j =? i) && (i <? length l))%nat then Some b else nth_error l j.
Proof.
  revert i j; induction l as [|a l IH]; intros i j.
  - destruct i; simpl; rewrite Bool.andb_false_r; reflexivity.
  - destruct i as [|i]; destruct j as [|j]; simpl; auto.
    rewrite IH. reflexivity.
Qed.

Lemma upd_same {A} (l : list A) i b : nth_error l i = Some b -> upd l i b = l.
Proof.
  revert i; induction l as [|a l IH]; destruct i; simpl; intros H; try discriminate; try congruence.
  f_equal; auto.
Qed.

Lemma upd_upd {A} (l : list A) i b c : upd (upd l i b) i c = upd l i c.
Proof. revert i; induction l; destruct i; simpl; intros; f_equal; auto. Qed.

Lemma upd_comm {A} (l : list A) i j b c : i <> j -> upd (upd l i b) j c = upd (upd l j c) i b.
Proof.
  revert i j; induction l as [|a l IH]; destruct i; destruct j; simpl; intros; try congruence.
  f_equal; apply IH; congruence.
Qed.

Lemma upd_app1 {A} (l l' : list A) i b : (i < length l)%nat -> upd (l ++ l') i b = upd l i b ++ l'.
Proof.
  revert i; induction l as [|a l IH]; destruct i; simpl; intros; try lia; auto.
  f_equal; apply IH; lia.
Qed.

Lemma upd_app2 {A} (l l' : list A) i b :
  (length l <= i)%nat -> upd (l ++ l') i b = l ++ upd l' (i - length l) b.
Proof.
  revert i; induction l as [|a l IH]; simpl; intros.
  - rewrite Nat.sub_0_r; reflexivity.
  - destruct i; [lia|]. simpl. f_equal; apply IH; lia.
Qed.

Lemma bytes_ok_nth d i : bytes_ok d -> nth i d 0 < 256.
Proof.
  intros H. destruct (Nat.lt_ge_cases i (length d)) as [Hi|Hi].
  - apply (proj1 (Forall_forall _ _) H). apply nth_In; auto.
  - rewrite nth_overflow; auto. lia.
Qed.

Lemma bytes_ok_upd d i b : bytes_ok d -> b < 256 -> bytes_ok (upd d i b).
Proof.
  unfold bytes_ok. intros H Hb. revert i; induction H; intros i; destruct i; simpl; constructor; auto.
Qed.

Lemma bytes_ok_app a b : bytes_ok (a ++ b) <-> bytes_ok a /\ bytes_ok b.
Proof. apply Forall_app. Qed.

Lemma not_whole msb lsb n : N.of_nat n < 2 ^ 61 -> (msb < 8 * n)%nat -> whole_usize msb lsb = false.
Proof. intros A L. unfold whole_usize. rewrite (proj2 (N.eqb_neq _ _)); [reflexivity|]. lia. Qed.
Lemma whole_spec msb lsb : whole_usize msb lsb = true <-> N.of_nat msb = 2 ^ 64 - 1 /\ lsb = O.
Proof. unfold whole_usize. rewrite Bool.andb_true_iff, N.eqb_eq, Nat.eqb_eq. tauto. Qed.
Lemma whole_mod msb lsb : N.of_nat msb = 2 ^ 64 - 1 -> lsb = O -> ((msb - lsb + 1) mod 8 = 0)%nat.
Proof.
  intros E ->. assert (X : N.of_nat ((msb - 0 + 1) mod 8) = 0); [|lia].
  rewrite Nat2N.inj_mod, Nat2N.inj_add, Nat.sub_0_r, E. reflexivity.
Qed.
Lemma bytes_okb_ok d : bytes_okb d = true <-> bytes_ok d.
Proof.
  unfold bytes_okb, bytes_ok, byte_ok. rewrite forallb_forall, Forall_forall.
  split; intros H x Hx; specialize (H x Hx); apply N.ltb_lt; auto.
Qed.

Lemma bytes_ok_firstn n d : bytes_ok d -> bytes_ok (firstn n d).
Proof. unfold bytes_ok. intros H; revert n; induction H; destruct n; simpl; constructor; auto. Qed.

Lemma bytes_ok_skipn n d : bytes_ok d -> bytes_ok (skipn n d).
Proof. unfold bytes_ok. intros H; revert n; induction H; destruct n; simpl; auto. Qed.

Lemma nth_error_index {A} (l : list A) i (b : A) : index l i = Ret b <-> nth_error l i = Some b.
Proof. unfold index. destruct (nth_error l i); split; congruence. Qed.

Lemma index_lt {A} (l : list A) i d : (i < length l)%nat -> index l i = Ret (nth i l d).
Proof. intros H. unfold index. rewrite (nth_error_nth' l d H). reflexivity. Qed.

Lemma index_ge {A} (l : list A) i : (length l <= i)%nat -> index l i = Panic PIndex.
Proof. intros H. unfold index. apply nth_error_None in H. rewrite H. reflexivity. Qed.

(** ** Big-endian integers *)

Lemma be_bound d : bytes_ok d -> be d < 2 ^ N.of_nat (8 * length d).
Proof.
  induction 1 as [|b t Hb Ht IH].
  - simpl. lia.
  - simpl be. replace (8 * length (b :: t))%nat with (8 * length t + 8)%nat by (simpl; lia).
    rewrite Nat2N.inj_add, N.pow_add_r.
    replace (256 ^ N.of_nat (length t)) with (2 ^ N.of_nat (8 * length t)).
    2:{ rewrite Nat2N.inj_mul. change (N.of_nat 8) with 8. rewrite N.pow_mul_r. reflexivity. }
    unfold byte_ok in Hb. change (2 ^ N.of_nat 8) with 256.
    set (P := 2 ^ N.of_nat (8 * length t)) in *. clearbody P.
    assert (b * P <= 255 * P) by (apply N.mul_le_mono_r; lia). lia.
Qed.

Lemma pow256 n : 256 ^ N.of_nat n = 2 ^ N.of_nat (8 * n).
Proof. rewrite Nat2N.inj_mul. change (N.of_nat 8) with 8. rewrite N.pow_mul_r. reflexivity. Qed.

Lemma be_app a b : be (a ++ b) = be a * 2 ^ N.of_nat (8 * length b) + be b.
Proof.
  induction a as [|x a IH]; [reflexivity|].
  cbn [be app]. rewrite IH, app_length, !pow256.
  replace (8 * (length a + length b))%nat with (8 * length a + 8 * length b)%nat by lia.
  rewrite Nat2N.inj_add, N.pow_add_r. ring.
Qed.

Lemma testbit_high a n k : a < 2 ^ n -> n <= k -> N.testbit a k = false.
Proof.
  intros Ha Hk. destruct (N.eq_dec a 0) as [->|Hz]; [apply N.bits_0|].
  apply N.bits_above_log2. apply N.log2_lt_pow2 in Ha; lia.
Qed.

Lemma testbit_shift_add a b n k :
  b < 2 ^ n ->
  N.testbit (a * 2 ^ n + b) k = if k <? n then N.testbit b k else N.testbit a (k - n).
Proof.
  intros Hb.
  assert (E : a * 2 ^ n + b = N.lor (N.shiftl a n) b).
  { rewrite <- N.shiftl_mul_pow2. rewrite N.add_nocarry_lxor.
    - apply N.lxor_lor.
      apply N.bits_inj. intros i. rewrite N.land_spec, N.bits_0.
      destruct (N.lt_ge_cases i n).
      + rewrite N.shiftl_spec_low; auto.
      + rewrite (testbit_high b n i); auto. apply Bool.andb_false_r.
    - apply N.bits_inj. intros i. rewrite N.land_spec, N.bits_0.
      destruct (N.lt_ge_cases i n).
      + rewrite N.shiftl_spec_low; auto.
      + rewrite (testbit_high b n i); auto. apply Bool.andb_false_r. }
  rewrite E, N.lor_spec. destruct (N.ltb_spec k n).
  - rewrite N.shiftl_spec_low; auto.
  - rewrite N.shiftl_spec_high' by auto. rewrite (testbit_high b n k); auto.
    apply Bool.orb_false_r.
Qed.

Lemma be_testbit d k : bytes_ok d -> (k < 8 * length d)%nat ->
  N.testbit (be d) (N.of_nat k) = bit d (8 * length d - 1 - k).
Proof.
  induction 1 as [|b t Hb Ht IH]; intros Hk.
  - simpl in Hk; lia.
  - simpl be. rewrite pow256, testbit_shift_add by (apply be_bound; auto).
    simpl length in *.
    destruct (N.ltb_spec (N.of_nat k) (N.of_nat (8 * length t))) as [H|H].
    + rewrite IH by lia. unfold bit.
      replace (8 * S (length t) - 1 - k)%nat with (8 * length t - 1 - k + 1 * 8)%nat by lia.
      rewrite Nat.div_add, Nat.mod_add by lia.
      rewrite Nat.add_1_r. reflexivity.
    + unfold bit.
      assert (E : (8 * S (length t) - 1 - k < 8)%nat) by lia.
      rewrite Nat.div_small, Nat.mod_small by auto. simpl nth.
      f_equal. lia.
Qed.

Lemma bytes_ext a b : bytes_ok a -> bytes_ok b -> length a = length b ->
  (forall i, (i < 8 * length a)%nat -> bit a i = bit b i) -> a = b.
Proof.
  intros Ha Hb Hl H. apply nth_ext with (d := 0) (d' := 0); auto.
  intros n Hn. apply N.bits_inj. intros k.
  destruct (N.lt_ge_cases k 8) as [Hk|Hk].
  - specialize (H (8 * n + (7 - N.to_nat k))%nat ltac:(lia)). unfold bit in H.
    replace ((8 * n + (7 - N.to_nat k)) / 8)%nat with n in H.
    2:{ rewrite Nat.mul_comm, Nat.div_add_l by lia. rewrite Nat.div_small by lia. lia. }
    replace ((8 * n + (7 - N.to_nat k)) mod 8)%nat with (7 - N.to_nat k)%nat in H.
    2:{ rewrite Nat.add_comm, Nat.mul_comm, Nat.mod_add by lia. rewrite Nat.mod_small; lia. }
    replace (N.of_nat (7 - (7 - N.to_nat k))) with k in H by lia. exact H.
  - pose proof (bytes_ok_nth a n Ha). pose proof (bytes_ok_nth b n Hb).
    rewrite !(testbit_high _ 8 k); auto.
Qed.

Lemma be_inj a b : bytes_ok a -> bytes_ok b -> length a = length b -> be a = be b -> a = b.
Proof.
  intros Ha Hb Hl H. apply bytes_ext; auto. intros i Hi.
  pose proof (be_testbit a (8 * length a - 1 - i) Ha ltac:(lia)) as E1.
  pose proof (be_testbit b (8 * length b - 1 - i) Hb ltac:(lia)) as E2.
  rewrite <- Hl in *.
  replace (8 * length a - 1 - (8 * length a - 1 - i))%nat with i in * by lia.
  congruence.
Qed.

(** ** Values of bit ranges *)

(** [n] bits starting at [i]. *)
Definition rv (d : list N) (i n : nat) : N :=
  be d / 2 ^ N.of_nat (8 * length d - i - n) mod 2 ^ N.of_nat n.

Lemma rv_bits_val d s e : (s <= e)%nat -> rv d s (e - s + 1) = bits_val d s e.
Proof. intros H. unfold rv, bits_val.
  replace (8 * length d - s - (e - s + 1))%nat with (8 * length d - 1 - e)%nat by lia. reflexivity. Qed.

Lemma rv_bound d i n : rv d i n < 2 ^ N.of_nat n.
Proof. unfold rv. apply N.mod_lt. apply N.pow_nonzero; lia. Qed.

Lemma rv_0 d i : rv d i 0 = 0.
Proof. unfold rv. simpl. apply N.mod_1_r. Qed.

Lemma rv_testbit d i n k : bytes_ok d -> (i + n <= 8 * length d)%nat ->
  N.testbit (rv d i n) (N.of_nat k) = if (k <? n)%nat then bit d (i + n - 1 - k) else false.
Proof.
  intros Hd H. unfold rv. destruct (Nat.ltb_spec k n) as [Hk|Hk].
  - rewrite N.mod_pow2_bits_low by lia. rewrite N.div_pow2_bits, <- Nat2N.inj_add, be_testbit by (auto; lia).
    f_equal. lia.
  - apply N.mod_pow2_bits_high. lia.
Qed.

Lemma N_bits_inj_nat a b : (forall k, N.testbit a (N.of_nat k) = N.testbit b (N.of_nat k)) -> a = b.
Proof. intros H. apply N.bits_inj. intros k. rewrite <- (N2Nat.id k). apply H. Qed.

Lemma rv_S d i n : bytes_ok d -> (i + S n <= 8 * length d)%nat ->
  rv d i (S n) = b2n (bit d i) * 2 ^ N.of_nat n + rv d (S i) n.
Proof.
  intros Hd H. apply N_bits_inj_nat. intros k.
  rewrite testbit_shift_add by apply rv_bound.
  rewrite !rv_testbit by (auto; lia).
  destruct (N.ltb_spec (N.of_nat k) (N.of_nat n)) as [Hk|Hk].
  - rewrite !(proj2 (Nat.ltb_lt _ _)) by lia. f_equal. lia.
  - destruct (Nat.ltb_spec k (S n)) as [Hk2|Hk2].
    + replace k with n by lia. rewrite N.sub_diag.
      replace (i + S n - 1 - n)%nat with i by lia. destruct (bit d i); reflexivity.
    + symmetry. apply (testbit_high _ 1).
      * destruct (bit d i); reflexivity.
      * lia.
Qed.

(** ** The getter loop *)

Lemma land_1 x k : N.land (N.shiftr x k) 1 = b2n (N.testbit x k).
Proof.
  change 1 with (N.ones 1). rewrite N.land_ones, N.shiftr_div_pow2.
  change (2 ^ 1) with 2. rewrite <- N.testbit_spec'.
  destruct (N.testbit x k); reflexivity.
Qed.

Lemma lor_bit_shl v b : N.lor (shl64 v 1) (b2n b) = (2 * v + b2n b) mod 2 ^ 64.
Proof.
  unfold shl64, u64. rewrite N.shiftl_mul_pow2. change (2 ^ 1) with 2.
  apply N.bits_inj. intros k. rewrite N.lor_spec.
  replace (2 * v + b2n b) with (v * 2 ^ 1 + b2n b) by lia.
  destruct (N.lt_ge_cases k 64) as [Hk|Hk].
  - rewrite !N.mod_pow2_bits_low by auto.
    rewrite testbit_shift_add by (destruct b; reflexivity).
    change (v * 2) with (v * 2 ^ 1). rewrite <- (N.add_0_r (v * 2 ^ 1)) at 1.
    rewrite testbit_shift_add by reflexivity.
    destruct (N.ltb_spec k 1) as [H|H].
    + rewrite N.bits_0. reflexivity.
    + rewrite (testbit_high (b2n b) 1 k) by (auto; destruct b; reflexivity).
      apply Bool.orb_false_r.
  - rewrite !N.mod_pow2_bits_high by auto.
    rewrite (testbit_high (b2n b) 1 k) by (try lia; destruct b; reflexivity).
    reflexivity.
Qed.

Lemma sub_mod8 i : (8 - i mod 8 - 1 = 7 - i mod 8)%nat.
Proof. divmod8 i; lia. Qed.

Lemma div8_lt i n : (i < 8 * n)%nat -> (i / 8 < n)%nat.
Proof. intros. apply Nat.div_lt_upper_bound; lia. Qed.

Lemma get_loop_val d i n v : bytes_ok d -> (i + n <= 8 * length d)%nat ->
  v < 2 ^ 64 ->
  get_loop d i n v = Ret ((v * 2 ^ N.of_nat n + rv d i n) mod 2 ^ 64).
Proof.
  intros Hd. revert i v; induction n as [|n IH]; intros i v H Hv.
  - cbn [get_loop]. rewrite rv_0. change (2 ^ N.of_nat 0) with 1.
    rewrite N.mul_1_r, N.add_0_r, N.mod_small by auto. reflexivity.
  - cbn [get_loop]. rewrite (index_lt d (i / 8) 0) by (apply div8_lt; lia).
    cbn [obind]. rewrite sub_mod8, land_1, lor_bit_shl.
    change (N.testbit (nth (i / 8) d 0) (N.of_nat (7 - i mod 8))) with (bit d i).
    rewrite IH by (try lia; apply N.mod_lt; discriminate).
    f_equal. rewrite rv_S by (auto; lia).
    rewrite Nat2N.inj_succ, N.pow_succ_r'.
    rewrite <- (N.add_mod_idemp_l _ (rv d (S i) n)) by discriminate.
    rewrite N.mul_mod_idemp_l by discriminate.
    rewrite N.add_mod_idemp_l by discriminate. f_equal. lia.
Qed.

(** The loop stops at the first bit outside the buffer. *)
Lemma get_loop_oob d i n v : (8 * length d < i + n)%nat -> (n <> 0)%nat -> get_loop d i n v = Panic PIndex.
Proof.
  revert i v; induction n as [|n IH]; intros i v H Hn; [congruence|].
  cbn [get_loop]. destruct (Nat.lt_ge_cases (i / 8) (length d)) as [Hi|Hi].
  - rewrite (index_lt d _ 0) by auto. cbn [obind].
    destruct n as [|n].
    + exfalso. divmod8 i. lia.
    + apply IH; lia.
  - rewrite index_ge by auto. reflexivity.
Qed.

Lemma shl_shr_64 v w : (w <= 64)%nat -> v < 2 ^ 64 ->
  N.shiftr (shl64 v (N.of_nat (64 - w))) (N.of_nat (64 - w)) = v mod 2 ^ N.of_nat w.
Proof.
  intros Hw Hv. unfold shl64, u64. apply N.bits_inj. intros k.
  rewrite N.shiftr_spec'. destruct (N.lt_ge_cases k (N.of_nat w)) as [Hk|Hk].
  - rewrite !N.mod_pow2_bits_low by lia. rewrite N.shiftl_spec_high' by lia. f_equal. lia.
  - rewrite !N.mod_pow2_bits_high by lia. reflexivity.
Qed.

Lemma get_bits_val m d e s : bytes_ok d -> (s <= e)%nat -> (e < 8 * length d)%nat ->
  (e - s + 1 <= 64)%nat -> get_bits m d e s = Ret (bits_val d s e).
Proof.
  intros Hd Hse He Hw. unfold get_bits, range_len.
  rewrite get_loop_val by (auto; lia). cbn [obind]. unfold finish.
  rewrite (proj2 (Nat.ltb_ge _ _)) by lia. rewrite (proj2 (Nat.leb_le _ _)) by lia.
  f_equal. rewrite shl_shr_64 by (try lia; apply N.mod_lt; discriminate).
  replace (S e - s)%nat with (e - s + 1)%nat by lia.
  rewrite rv_bits_val by auto. rewrite N.mul_0_l, N.add_0_l.
  assert (B : bits_val d s e < 2 ^ N.of_nat (e - s + 1)) by (rewrite <- rv_bits_val by auto; apply rv_bound).
  assert (B2 : 2 ^ N.of_nat (e - s + 1) <= 2 ^ 64) by (apply N.pow_le_mono_r; lia).
  rewrite (N.mod_small _ (2 ^ 64)) by lia. apply N.mod_small; auto.
Qed.

(** Wider than 64 bits: checked builds panic, unchecked builds keep the low
    [w mod 64] bits (64 if that is 0) of the low 64 bits. *)
Lemma get_bits_wide m d e s : bytes_ok d -> (s <= e)%nat -> (e < 8 * length d)%nat ->
  (64 < e - s + 1)%nat ->
  get_bits m d e s =
  match m with
  | Debug => Panic POverflow
  | Release => Ret (bits_val d s e mod 2 ^ N.of_nat (64 - (64 - (e - s + 1) mod 64) mod 64))
  end.
Proof.
  intros Hd Hse He Hw. unfold get_bits, range_len.
  rewrite get_loop_val by (auto; lia). cbn [obind]. unfold finish.
  rewrite (proj2 (Nat.ltb_ge _ _)) by lia. rewrite (proj2 (Nat.leb_gt _ _)) by lia.
  destruct m; [reflexivity|]. f_equal.
  set (s' := ((64 - (e - s + 1) mod 64) mod 64)%nat).
  assert (Hs' : (s' < 64)%nat) by (apply Nat.mod_upper_bound; lia).
  replace s' with (64 - (64 - s'))%nat at 1 2 by lia.
  rewrite shl_shr_64 by (try lia; apply N.mod_lt; discriminate).
  replace (S e - s)%nat with (e - s + 1)%nat by lia.
  rewrite rv_bits_val by auto. rewrite N.mul_0_l, N.add_0_l.
  apply N.bits_inj. intros k.
  destruct (N.lt_ge_cases k (N.of_nat (64 - s'))) as [Hk|Hk].
  - rewrite !N.mod_pow2_bits_low by lia. reflexivity.
  - rewrite !N.mod_pow2_bits_high by lia. reflexivity.
Qed.

Lemma get_bits_oob m d e s : (s <= e)%nat -> (8 * length d <= e)%nat ->
  get_bits m d e s = Panic PIndex.
Proof.
  intros Hse He. unfold get_bits, range_len. rewrite get_loop_oob by lia. reflexivity.
Qed.

(** ** One-bit writes *)

(** Write bit [i]. *)
Definition wbit (d : list N) (i : nat) (v : bool) : list N :=
  let b := nth (i / 8) d 0 in
  let k := N.of_nat (7 - i mod 8) in
  upd d (i / 8) (if v then N.setbit b k else N.clearbit b k).

Lemma mask_byte b v k : b < 256 -> k < 8 ->
  N.lor (N.land b (255 - shl8 1 k)) (shl8 (b2n v) k) =
  (if v then N.setbit b k else N.clearbit b k).
Proof.
  intros Hb Hk.
  assert (S : shl8 (b2n v) k = if v then 2 ^ k else 0).
  { unfold shl8, u8. rewrite N.shiftl_mul_pow2. destruct v; cbn [b2n].
    - rewrite N.mul_1_l. apply N.mod_small. apply N.pow_lt_mono_r; lia.
    - reflexivity. }
  assert (S1 : shl8 1 k = 2 ^ k).
  { unfold shl8, u8. rewrite N.shiftl_mul_pow2, N.mul_1_l.
    apply N.mod_small. apply N.pow_lt_mono_r; lia. }
  rewrite S, S1.
  assert (M : forall j, j < 8 -> N.testbit (255 - 2 ^ k) j = negb (j =? k)).
  { assert (Hk' : k = 0 \/ k = 1 \/ k = 2 \/ k = 3 \/ k = 4 \/ k = 5 \/ k = 6 \/ k = 7) by lia.
    intros j Hj.
    assert (Hj' : j = 0 \/ j = 1 \/ j = 2 \/ j = 3 \/ j = 4 \/ j = 5 \/ j = 6 \/ j = 7) by lia.
    repeat destruct Hk' as [->|Hk']; subst; repeat destruct Hj' as [->|Hj']; subst; reflexivity. }
  apply N.bits_inj. intros j. rewrite N.lor_spec, N.land_spec.
  destruct (N.lt_ge_cases j 8) as [Hj|Hj].
  - rewrite M by auto. destruct v.
    + rewrite N.setbit_eqb. rewrite N.pow2_bits_eqb.
      rewrite (N.eqb_sym k j).
      destruct (j =? k); destruct (N.testbit b j); reflexivity.
    + rewrite N.clearbit_eqb, N.bits_0, (N.eqb_sym k j). rewrite Bool.orb_false_r. reflexivity.
  - rewrite (testbit_high b 8 j) by auto. cbn [andb].
    destruct v.
    + rewrite N.setbit_eqb, N.pow2_bits_eqb, (testbit_high b 8 j) by auto.
      rewrite Bool.orb_false_r. reflexivity.
    + rewrite N.clearbit_eqb, N.bits_0, (testbit_high b 8 j) by auto. reflexivity.
Qed.

Lemma set_bit_step_ok d i v : bytes_ok d -> (i < 8 * length d)%nat ->
  set_bit_step d i (b2n v) = (Ret tt, wbit d i v).
Proof.
  intros Hd Hi. unfold set_bit_step. rewrite (index_lt d (i / 8) 0) by (apply div8_lt; auto).
  rewrite sub_mod8. unfold wbit. rewrite mask_byte; auto.
  - apply bytes_ok_nth; auto.
  - divmod8 i; lia.
Qed.

Lemma set_bit_step_oob d i v : (8 * length d <= i)%nat ->
  set_bit_step d i v = (Panic PIndex, d).
Proof.
  intros Hi. unfold set_bit_step. rewrite index_ge; auto.
  apply Nat.div_le_lower_bound; lia.
Qed.

Lemma wbit_length d i v : length (wbit d i v) = length d.
Proof. apply upd_length. Qed.

Lemma setbit_bound b k : b < 256 -> k < 8 -> N.setbit b k < 256.
Proof.
  intros Hb Hk. destruct (N.lt_ge_cases (N.setbit b k) 256) as [|H]; auto. exfalso.
  assert (L : 8 <= N.log2 (N.setbit b k)) by (apply N.log2_le_pow2; lia).
  assert (T : N.testbit (N.setbit b k) (N.log2 (N.setbit b k)) = true) by (apply N.bit_log2; lia).
  rewrite N.setbit_eqb, (testbit_high b 8) in T by auto.
  rewrite Bool.orb_false_r in T. apply N.eqb_eq in T. lia.
Qed.

Lemma clearbit_bound b k : b < 256 -> N.clearbit b k < 256.
Proof.
  intros Hb. destruct (N.lt_ge_cases (N.clearbit b k) 256) as [|H]; auto. exfalso.
  assert (L : 8 <= N.log2 (N.clearbit b k)) by (apply N.log2_le_pow2; lia).
  assert (T : N.testbit (N.clearbit b k) (N.log2 (N.clearbit b k)) = true) by (apply N.bit_log2; lia).
  rewrite N.clearbit_eqb, (testbit_high b 8) in T by auto. discriminate.
Qed.

Lemma wbit_ok d i v : bytes_ok d -> bytes_ok (wbit d i v).
Proof.
  intros Hd. apply bytes_ok_upd; auto. pose proof (bytes_ok_nth d (i / 8) Hd).
  divmod8 i. destruct v; [apply setbit_bound|apply clearbit_bound]; auto. lia.
Qed.

Lemma bit_wbit d i v j : (i < 8 * length d)%nat ->
  bit (wbit d i v) j = if (j =? i)%nat then v else bit d j.
Proof.
  intros Hi. unfold bit, wbit. rewrite nth_upd.
  rewrite (proj2 (Nat.ltb_lt _ _) (div8_lt _ _ Hi)), Bool.andb_true_r.
  divmod8 i. divmod8 j.
  destruct (Nat.eqb_spec (j / 8) (i / 8)) as [E|E].
  - rewrite <- E. destruct (Nat.eqb_spec j i) as [->|N].
    + destruct v.
      * rewrite N.setbit_eq. reflexivity.
      * rewrite N.clearbit_eq. reflexivity.
    + destruct v.
      * rewrite N.setbit_neq by lia. reflexivity.
      * rewrite N.clearbit_neq by lia. reflexivity.
  - destruct (Nat.eqb_spec j i) as [->|N]; [congruence|reflexivity].
Qed.

Lemma bit_oob d i : (8 * length d <= i)%nat -> bit d i = false.
Proof.
  intros H. unfold bit. rewrite nth_overflow by (apply Nat.div_le_lower_bound; lia). apply N.bits_0.
Qed.

(** ** The setter loop on a list: bits [lsb .. lsb+n-1], last one first. *)
Fixpoint wbits (d : list N) (lsb n : nat) (v : N) : list N :=
  match n with
  | O => d
  | S n' => wbits (wbit d (lsb + n') (N.testbit v 0)) lsb n' (N.shiftr v 1)
  end.

Lemma wbits_length d lsb n v : length (wbits d lsb n v) = length d.
Proof. revert d v; induction n; simpl; intros; auto. rewrite IHn. apply wbit_length. Qed.

Lemma wbits_ok d lsb n v : bytes_ok d -> bytes_ok (wbits d lsb n v).
Proof. revert d v; induction n; simpl; intros; auto. apply IHn. apply wbit_ok; auto. Qed.

Lemma bit_wbits d lsb n v j : (lsb + n <= 8 * length d)%nat ->
  bit (wbits d lsb n v) j =
  if ((lsb <=? j) && (j <? lsb + n))%nat then N.testbit v (N.of_nat (lsb + n - 1 - j)) else bit d j.
Proof.
  revert d v; induction n as [|n IH]; intros d v H; cbn [wbits].
  - destruct (Nat.leb_spec lsb j); destruct (Nat.ltb_spec j (lsb + 0)); simpl; auto; lia.
  - rewrite IH by (rewrite wbit_length; lia).
    rewrite bit_wbit by lia. rewrite N.shiftr_spec'.
    destruct (Nat.leb_spec lsb j) as [H1|H1]; cbn [andb].
    + destruct (Nat.ltb_spec j (lsb + n)); destruct (Nat.ltb_spec j (lsb + S n)); try lia; auto.
      * f_equal. lia.
      * destruct (Nat.eqb_spec j (lsb + n)); try lia. f_equal. lia.
      * destruct (Nat.eqb_spec j (lsb + n)); try lia. auto.
    + destruct (Nat.eqb_spec j (lsb + n)); try lia. auto.
Qed.

Lemma rv_wbits d lsb n v : bytes_ok d -> (lsb + n <= 8 * length d)%nat ->
  rv (wbits d lsb n v) lsb n = v mod 2 ^ N.of_nat n.
Proof.
  intros Hd H. apply N_bits_inj_nat. intros k.
  rewrite rv_testbit by (try apply wbits_ok; try rewrite wbits_length; auto).
  destruct (Nat.ltb_spec k n) as [Hk|Hk].
  - rewrite bit_wbits by auto. rewrite N.mod_pow2_bits_low by lia.
    rewrite (proj2 (Nat.leb_le _ _)), (proj2 (Nat.ltb_lt _ _)) by lia. simpl. f_equal. lia.
  - rewrite N.mod_pow2_bits_high by lia. reflexivity.
Qed.

Lemma rv_ext d d' i n : bytes_ok d -> bytes_ok d' -> length d = length d' ->
  (i + n <= 8 * length d)%nat ->
  (forall j, (i <= j < i + n)%nat -> bit d j = bit d' j) -> rv d i n = rv d' i n.
Proof.
  intros Hd Hd' Hl H He. apply N_bits_inj_nat. intros k.
  rewrite !rv_testbit by (auto; lia). destruct (Nat.ltb_spec k n); auto. apply He. lia.
Qed.

Lemma wbits_same d lsb n : bytes_ok d -> (lsb + n <= 8 * length d)%nat ->
  wbits d lsb n (rv d lsb n) = d.
Proof.
  intros Hd H. apply bytes_ext; auto using wbits_ok, wbits_length.
  intros j Hj. rewrite bit_wbits, rv_testbit by auto.
  destruct (Nat.leb_spec lsb j); destruct (Nat.ltb_spec j (lsb + n)); simpl; auto.
  rewrite (proj2 (Nat.ltb_lt _ _)) by lia. f_equal. lia.
Qed.
