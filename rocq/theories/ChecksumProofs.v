(** ChecksumProofs.v -- lemmas on the Internet checksum. *)

From Coq Require Import Lia.
From Verif Require Import Base Layout Heap Packet Spec BitsProofs.
Open Scope N_scope.

Definition ocn (s : N) : N := if s =? 0 then 0 else (s - 1) mod 65535 + 1.

Lemma ocn_bound s : ocn s <= 65535.
Proof.
  unfold ocn. destruct (s =? 0); [lia|].
  assert ((s - 1) mod 65535 < 65535) by (apply N.mod_lt; lia). lia.
Qed.

(** Values in 1..65535 are fixed by their residue. *)
Lemma ocn_char s x : s <> 0 -> 1 <= x <= 65535 -> (exists k, s = x + k * 65535) -> ocn s = x.
Proof.
  intros S0 Hx (k & E). unfold ocn. destruct (N.eqb_spec s 0); [congruence|].
  replace (s - 1) with ((x - 1) + k * 65535) by lia. rewrite N.mod_add by lia.
  rewrite N.mod_small by lia. lia.
Qed.

Lemma ocn_repr s : exists k, s = ocn s + k * 65535.
Proof.
  unfold ocn. destruct (N.eqb_spec s 0); [exists 0; lia|].
  exists ((s - 1) / 65535). pose proof (N.div_mod (s - 1) 65535 ltac:(discriminate)). lia.
Qed.

Lemma ocn_nonzero s : s <> 0 -> 1 <= ocn s.
Proof. intros H. unfold ocn. destruct (N.eqb_spec s 0) as [E|E]; [congruence|]. apply N.le_add_l. Qed.

Lemma oc_sum_val l : Forall (fun w => w < 65536) l -> oc_sum l = ocn (plain_sum l).
Proof.
  induction 1 as [|w l Hw Hl IH]; [reflexivity|].
  cbn [oc_sum plain_sum fold_right]. fold (oc_sum l). fold (plain_sum l). rewrite IH.
  set (S := plain_sum l). pose proof (ocn_bound S). destruct (ocn_repr S) as [k Ek].
  unfold oc_add. destruct (N.eq_dec S 0) as [Z|Z].
  - rewrite Z. change (ocn 0) with 0. rewrite !N.add_0_r.
    destruct (N.ltb_spec w 65536); [|lia]. destruct (N.eq_dec w 0) as [->|W]; [reflexivity|].
    symmetry. apply ocn_char; [lia|lia|exists 0; lia].
  - pose proof (ocn_nonzero S Z). symmetry.
    destruct (N.ltb_spec (w + ocn S) 65536).
    + apply ocn_char; [lia|lia|]. exists k. lia.
    + apply ocn_char; [lia|lia|]. exists (k + 1). lia.
Qed.

Lemma words_lt d : bytes_ok d -> Forall (fun w => w < 65536) (words d).
Proof.
  assert (G : forall n d, (length d <= n)%nat -> bytes_ok d -> Forall (fun w => w < 65536) (words d)).
  { induction n as [|n IH]; intros [|a [|b t]] L H; simpl in L; try lia; cbn [words]; auto.
    - apply Forall_cons_iff in H as [H _]. unfold byte_ok in H. constructor; [lia|auto].
    - apply Forall_cons_iff in H as [Ha H]. apply Forall_cons_iff in H as [Hb H].
      unfold byte_ok in Ha, Hb. constructor; [lia|]. apply IH; [lia|auto]. }
  intros H. eapply G; eauto.
Qed.

Lemma plain_sum_app a b : plain_sum (a ++ b) = plain_sum a + plain_sum b.
Proof.
  induction a as [|x a IH]; [reflexivity|]. change (x + plain_sum (a ++ b) = x + plain_sum a + plain_sum b).
  rewrite IH. lia.
Qed.

Lemma words_app a b : Nat.even (length a) = true -> words (a ++ b) = words a ++ words b.
Proof.
  assert (G : forall n a, (length a <= n)%nat -> Nat.even (length a) = true ->
    words (a ++ b) = words a ++ words b).
  { clear a. induction n as [|n IH]; intros [|x [|y t]] L E; simpl in L; try lia; try reflexivity; try discriminate.
    cbn [words app]. f_equal. apply IH; [lia|exact E]. }
  apply (G (length a)); auto.
Qed.

(** The accumulation loop as a fold over words. *)
Definition addall (m : mode) (c : N) (l : list N) : out N :=
  let s := c + plain_sum l in
  if s <? 2 ^ 32 then Ret s else match m with Debug => Panic POverflow | Release => Ret (u32 s) end.

Lemma u32_small x : x < 2 ^ 32 -> u32 x = x.
Proof. apply N.mod_small. Qed.
Lemma u32_lt x : u32 x < 2 ^ 32.
Proof. apply N.mod_lt. discriminate. Qed.

Lemma addall_cons m c w l : c < 2 ^ 32 ->
  (olet c' := add32 m c w in addall m c' l) = addall m c (w :: l).
Proof.
  intros Hc. unfold add32, addall. cbn [plain_sum fold_right]. fold (plain_sum l).
  set (P := 2 ^ 32) in *. 
  destruct (N.ltb_spec (c + w) P) as [L|L]; cbn [obind].
  - rewrite N.add_assoc. reflexivity.
  - destruct (N.ltb_spec (c + (w + plain_sum l)) P) as [L2|L2]; [lia|].
    destruct m; cbn [obind]; [reflexivity|].
    pose proof (u32_lt (c + w)). fold P in H.
    assert (E : u32 (u32 (c + w) + plain_sum l) = u32 (c + (w + plain_sum l))).
    { unfold u32. fold P. rewrite N.add_assoc. rewrite N.add_mod_idemp_l by discriminate. reflexivity. }
    destruct (N.ltb_spec (u32 (c + w) + plain_sum l) P) as [L3|L3]; rewrite <- E; [|reflexivity].
    rewrite (u32_small _ L3). reflexivity.
Qed.

Lemma addall_nil m c : c < 2 ^ 32 -> addall m c [] = Ret c.
Proof.
  intros H. unfold addall. cbn [plain_sum fold_right]. rewrite N.add_0_r.
  rewrite (proj2 (N.ltb_lt _ _) H). reflexivity.
Qed.

Lemma addall_lt m c l c' : c < 2 ^ 32 -> addall m c l = Ret c' -> c' < 2 ^ 32.
Proof.
  intros H. unfold addall. destruct (N.ltb_spec (c + plain_sum l) (2 ^ 32)).
  - intros E; injection E as <-; auto.
  - destruct m; [discriminate|]. intros E; injection E as <-. apply u32_lt.
Qed.

Lemma add32_lt m a b c : add32 m a b = Ret c -> c < 2 ^ 32.
Proof.
  unfold add32. destruct (N.ltb_spec (a + b) (2 ^ 32)).
  - intros E; injection E as <-; auto.
  - destruct m; [discriminate|]. intros E; injection E as <-. apply u32_lt.
Qed.

Lemma lor_word a b : a < 256 -> b < 256 -> N.lor (shl16 a 8) b = a * 256 + b.
Proof.
  intros Ha Hb. unfold shl16, u16. rewrite N.shiftl_mul_pow2. change (2 ^ 8) with 256. change (2 ^ 16) with 65536.
  rewrite N.mod_small by lia. rewrite <- N.lxor_lor.
  - symmetry. apply N.add_nocarry_lxor.
    apply N.bits_inj. intros k. rewrite N.land_spec, N.bits_0.
    destruct (N.lt_ge_cases k 8).
    + change 256 with (2 ^ 8). rewrite N.mul_pow2_bits_low by auto. reflexivity.
    + rewrite (testbit_high b 8 k) by (change (2 ^ 8) with 256; auto). apply andb_false_r.
  - apply N.bits_inj. intros k. rewrite N.land_spec, N.bits_0.
    destruct (N.lt_ge_cases k 8).
    + change 256 with (2 ^ 8). rewrite N.mul_pow2_bits_low by auto. reflexivity.
    + rewrite (testbit_high b 8 k) by (change (2 ^ 8) with 256; auto). apply andb_false_r.
Qed.

Lemma index_app_r {A} (a b : list A) i k : i = (length a + k)%nat -> index (a ++ b) i = index b k.
Proof. intros ->. unfold index. rewrite nth_error_app2 by lia.
  replace (length a + k - length a)%nat with k by lia. reflexivity. Qed.

(** Past byte 10, or in a string too short to reach it, every word is added. *)
Lemma checksum_loop_tail m n : forall pre rest c,
  bytes_ok rest -> length rest = (2 * n)%nat -> Nat.even (length pre) = true ->
  (12 <= length pre \/ length pre + length rest <= 10)%nat -> c < 2 ^ 32 ->
  checksum_loop m (pre ++ rest) (length pre) n c = addall m c (words rest).
Proof.
  induction n as [|n IH]; intros pre rest c Hr L Ev Hp Hc; cbn [checksum_loop].
  - destruct rest; [|discriminate]. rewrite addall_nil; auto.
  - destruct rest as [|a [|b t]]; [simpl in L; lia|simpl in L; lia|].
    rewrite (proj2 (Nat.eqb_neq _ _)) by (simpl in Hp; lia).
    rewrite (index_app_r pre (a :: b :: t) (length pre) 0) by lia. cbn [index nth_error obind].
    rewrite (index_app_r pre (a :: b :: t) (length pre + 1) 1) by lia. cbn [index nth_error obind].
    apply Forall_cons_iff in Hr as [Ha Hr]. apply Forall_cons_iff in Hr as [Hb Hr].
    rewrite lor_word by auto. cbn [words]. rewrite <- addall_cons by auto.
    destruct (add32 m c (a * 256 + b)) as [c'| | | |] eqn:E; cbn [obind]; try reflexivity.
    apply add32_lt in E.
    replace (pre ++ a :: b :: t) with ((pre ++ [a; b]) ++ t) by (rewrite <- app_assoc; reflexivity).
    replace (length pre + 2)%nat with (length (pre ++ [a; b])) by (rewrite app_length; simpl; lia).
    apply IH; auto.
    + simpl in L. lia.
    + rewrite app_length. simpl. rewrite Nat.even_add, Ev. reflexivity.
    + rewrite app_length. simpl in Hp |- *. lia.
Qed.

Definition ssum (v : list N) : N := plain_sum (words (zero_checksum v)).

Lemma obind_ext {A B} (x : out A) (f g : A -> out B) : (forall a, x = Ret a -> f a = g a) -> obind x f = obind x g.
Proof. destruct x; simpl; auto. Qed.

Lemma checksum_loop_all m v : bytes_ok v -> Nat.even (length v) = true ->
  checksum_loop m v 0 ((length v + 1) / 2) 0 = addall m 0 (words (zero_checksum v)).
Proof.
  intros Hv Ev.
  assert (Lv : exists n, length v = (2 * n)%nat) by (apply Nat.even_spec in Ev as [n En]; exists n; auto).
  destruct Lv as [n Ln]. rewrite Ln.
  assert (D2 : ((2 * n + 1) / 2 = n)%nat).
  { replace (2 * n + 1)%nat with (1 + n * 2)%nat by lia. rewrite Nat.div_add by lia. reflexivity. }
  rewrite D2.
  destruct (Nat.le_gt_cases (length v) 10) as [S|S].
  - pose proof (checksum_loop_tail m n [] v 0 Hv Ln eq_refl) as T. cbn [length app Nat.add] in T.
    rewrite T by (try lia; right; lia).
    unfold addall, zero_checksum. rewrite firstn_all2 by auto. rewrite skipn_all2 by lia. rewrite app_nil_r.
    rewrite words_app by auto. rewrite plain_sum_app. cbn [words plain_sum fold_right].
    rewrite N.add_0_r. reflexivity.
  - do 12 (destruct v as [|? v]; [simpl in *; lia|]).
    destruct n as [|[|[|[|[|[|n]]]]]]; try (simpl in *; lia).
    cbn [length] in Ln, S. unfold zero_checksum. cbn [firstn skipn app].
    do 12 (apply Forall_cons_iff in Hv as [? Hv]).
    set (v0 := n0 :: _). cbn [words].
    do 5 (cbn [checksum_loop Nat.eqb Nat.add]; unfold v0 at 1 2; cbn [index nth_error obind];
      rewrite lor_word by auto; rewrite <- addall_cons by (first [reflexivity|eapply add32_lt; eassumption]);
      apply obind_ext; intros ? ?).
    cbn [checksum_loop Nat.eqb Nat.add].
    change (0 * 256 + 0) with 0.
    assert (Z : forall c l, c < 2 ^ 32 -> addall m c (0 :: l) = addall m c l)
      by (intros; unfold addall; cbn [plain_sum fold_right]; rewrite N.add_0_l; reflexivity).
    rewrite Z by (eapply add32_lt; eassumption).
    assert (E : v0 = [n0; n1; n2; n3; n4; n5; n6; n7; n8; n9; n10; n11] ++ v) by reflexivity.
    rewrite E.
    change 12%nat with (length [n0; n1; n2; n3; n4; n5; n6; n7; n8; n9; n10; n11]) at 1.
    apply checksum_loop_tail; [exact Hv|lia|reflexivity|left; simpl; lia|eapply add32_lt; eassumption].
Qed.

Lemma land_ffff x : N.land x 0xFFFF = x mod 65536.
Proof. change 0xFFFF with (N.ones 16). rewrite N.land_ones. reflexivity. Qed.

Lemma fold_loop_val m c : c < 2 ^ 32 ->
  fold_loop m 3 c =
  if (c <? 65536) then Ret c
  else if (c / 65536 + c <? 2 ^ 32) then Ret ((c / 65536 + c) mod 65536)
  else match m with Debug => Panic POverflow | Release => Ret ((c / 65536 + c) mod 65536) end.
Proof.
  intros Hc.
  assert (One : forall k x, x < 65536 -> fold_loop m (S k) x = Ret x).
  { intros k x Hx. cbn [fold_loop]. rewrite N.shiftr_div_pow2. change (2 ^ 16) with 65536.
    rewrite N.div_small by auto. reflexivity. }
  destruct (N.ltb_spec c 65536) as [L|L]; [apply One; auto|].
  cbn [fold_loop]. rewrite !N.shiftr_div_pow2. change (2 ^ 16) with 65536.
  assert (1 <= c / 65536) by (apply N.div_le_lower_bound; lia).
  destruct (N.eqb_spec (c / 65536) 0); [lia|].
  unfold add32.
  assert (Md : u32 (c / 65536 + c) mod 65536 = (c / 65536 + c) mod 65536).
  { unfold u32. change (2 ^ 32) with (65536 * 65536). rewrite N.mod_mul_r by discriminate.
    rewrite N.mul_comm, N.mod_add by discriminate. apply N.mod_mod. discriminate. }
  destruct (N.ltb_spec (c / 65536 + c) (2 ^ 32)).
  - cbn [obind]. rewrite land_ffff. apply (One 1%nat). apply N.mod_lt. discriminate.
  - destruct m; cbn [obind]; [reflexivity|]. rewrite land_ffff, Md. apply (One 1%nat).
    apply N.mod_lt. discriminate.
Qed.

Lemma u16_small x : x < 65536 -> u16 x = x.
Proof. apply N.mod_small. Qed.

(** The value computed, for sums that do not overflow. *)
Lemma ipv4_checksum_val m v : bytes_ok v -> Nat.even (length v) = true ->
  ssum v / 65536 + ssum v < 2 ^ 32 ->
  ipv4_checksum m v = Ret (65535 - (ssum v / 65536 + ssum v) mod 65536).
Proof.
  intros Hv Ev Hs. unfold ipv4_checksum. rewrite checksum_loop_all by auto.
  unfold addall. rewrite N.add_0_l. fold (ssum v). set (S := ssum v) in *. set (P := 2 ^ 32) in *.
  assert (HP : S < P) by (eapply N.le_lt_trans; [|exact Hs]; apply N.le_add_l). rewrite (proj2 (N.ltb_lt _ _)) by auto. cbn [obind].
  rewrite fold_loop_val by auto. fold P.
  destruct (N.ltb_spec S 65536) as [L|L].
  - cbn [obind]. rewrite u16_small by auto. rewrite (N.div_small S) by auto. rewrite N.add_0_l.
    rewrite N.mod_small by auto. reflexivity.
  - rewrite (proj2 (N.ltb_lt _ _)) by auto. cbn [obind]. rewrite u16_small; [reflexivity|].
    apply N.mod_lt. discriminate.
Qed.

Lemma plain_sum_bound l : Forall (fun w => w < 65536) l -> plain_sum l <= 65535 * N.of_nat (length l).
Proof.
  induction 1; cbn [plain_sum fold_right length]; [lia|]. fold (plain_sum l). rewrite Nat2N.inj_succ. lia.
Qed.

Lemma words_length d : (2 * length (words d) <= length d + 1)%nat.
Proof.
  assert (G : forall n d, (length d <= n)%nat -> (2 * length (words d) <= length d + 1)%nat).
  { induction n as [|n IH]; intros [|a [|b t]] L; simpl in L; try lia; cbn [words length]; try lia.
    specialize (IH t ltac:(lia)). lia. }
  apply (G (length d)); auto.
Qed.

Lemma zero_checksum_ok v : bytes_ok v -> bytes_ok (zero_checksum v).
Proof.
  intros H. unfold zero_checksum. apply bytes_ok_app; split; [apply bytes_ok_firstn; auto|].
  apply bytes_ok_app; split; [repeat constructor; unfold byte_ok; lia|apply bytes_ok_skipn; auto].
Qed.

Lemma ssum_small v : bytes_ok v -> N.of_nat (length v) <= 65535 -> ssum v / 65536 + ssum v < 2 ^ 32.
Proof.
  intros Hv L. unfold ssum.
  pose proof (plain_sum_bound _ (words_lt _ (zero_checksum_ok v Hv))) as B.
  pose proof (words_length (zero_checksum v)) as W.
  assert (LZ : (length (zero_checksum v) <= length v + 2)%nat).
  { unfold zero_checksum. rewrite !app_length, firstn_length, skipn_length. cbn [length]. lia. }
  set (S := plain_sum (words (zero_checksum v))) in *.
  assert (S <= 65535 * 32769) by lia.
  assert (S / 65536 <= S) by (apply N.div_le_upper_bound; lia).
  change (2 ^ 32) with 4294967296. assert (S / 65536 <= 65536); [|lia].
  apply N.div_le_upper_bound; lia.
Qed.

(** Against RFC 1071. *)
Lemma checksum_vs_rfc v : bytes_ok v -> ssum v / 65536 + ssum v < 2 ^ 32 ->
  let c := 65535 - (ssum v / 65536 + ssum v) mod 65536 in
  (~ carries (ssum v) -> c = rfc_checksum v) /\ (carries (ssum v) -> c = rfc_checksum v + 1 /\ c <= 65535).
Proof.
  intros Hv Hs c. subst c. unfold rfc_checksum, carries.
  rewrite oc_sum_val by (apply words_lt, zero_checksum_ok; auto). fold (ssum v).
  set (S := ssum v) in *. change (2 ^ 32) with 4294967296 in Hs.
  pose proof (N.div_mod S 65536 ltac:(discriminate)) as DM.
  assert (HM : S mod 65536 < 65536) by (apply N.mod_lt; discriminate).
  set (hi := S / 65536) in *. set (lo := S mod 65536) in *.
  assert (Hhi : hi < 65536) by lia.
  assert (E : (hi + S) mod 65536 = (hi + lo) mod 65536).
  { replace (hi + S) with ((hi + lo) + hi * 65536) by lia. apply N.mod_add. discriminate. }
  rewrite E. split; intros C.
  - rewrite N.mod_small by lia. f_equal.
    destruct (N.eq_dec S 0) as [Z|Z].
    + rewrite Z. change (ocn 0) with 0. lia.
    + symmetry. apply ocn_char; [auto|lia|]. exists hi. lia.
  - assert (M : (hi + lo) mod 65536 = hi + lo - 65536).
    { replace (hi + lo) with ((hi + lo - 65536) + 1 * 65536) at 1 by lia. rewrite N.mod_add by discriminate.
      apply N.mod_small. lia. }
    rewrite M. assert (O : ocn S = hi + lo - 65535).
    { apply ocn_char; [lia|lia|]. exists (hi + 1). lia. }
    rewrite O. lia.
Qed.

(** Adding a checksum word [c] to a sum [s]: the total verifies iff it is a
    non-zero multiple of 65535. *)
Lemma ocn_ok s : ocn s = 65535 <-> exists k, s = (k + 1) * 65535.
Proof.
  split.
  - intros E. destruct (ocn_repr s) as [k Ek]. exists k. rewrite E in Ek. lia.
  - intros [k ->]. apply ocn_char; [lia|lia|]. exists k. lia.
Qed.

Lemma plain_sum_cons a l : plain_sum (a :: l) = a + plain_sum l.
Proof. reflexivity. Qed.
