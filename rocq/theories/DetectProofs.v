(** DetectProofs.v -- lemmas for C87. *)

From Coq Require Import Lia ZArith.
From Verif Require Import Base Bits Layout Packet Spec BitsProofs HeapProofs BuildProofs ChecksumProofs PropChecksum DetectSpec.
Open Scope N_scope.

(** ** Words *)

Lemma word_rv v k : word v k = rv v (16 * k) 16.
Proof. unfold word. rewrite <- rv_bits_val by lia. f_equal. lia. Qed.
Lemma word_lt v k : word v k < 65536.
Proof. rewrite word_rv. exact (rv_bound v (16 * k) 16). Qed.

Lemma rv_app_r a b i n : bytes_ok a -> bytes_ok b -> (i + n <= 8 * length b)%nat -> rv (a ++ b) (8 * length a + i) n = rv b i n.
Proof.
  intros A B L. apply N_bits_inj_nat. intros k. rewrite !rv_testbit by (auto; rewrite ?app_length; try lia; apply bytes_ok_app; auto).
  destruct (Nat.ltb_spec k n); auto. rewrite bit_app. rewrite (proj2 (Nat.ltb_ge _ _)) by lia. f_equal. lia.
Qed.
Lemma rv_app_l a b i n : bytes_ok a -> bytes_ok b -> (i + n <= 8 * length a)%nat -> rv (a ++ b) i n = rv a i n.
Proof.
  intros A B L. apply N_bits_inj_nat. intros k. rewrite !rv_testbit by (auto; rewrite ?app_length; try lia; apply bytes_ok_app; auto).
  destruct (Nat.ltb_spec k n); auto. rewrite bit_app. rewrite (proj2 (Nat.ltb_lt _ _)) by lia. f_equal.
Qed.
Lemma rv_two a b : a < 256 -> b < 256 -> rv [a; b] 0 16 = a * 256 + b.
Proof.
  intros A B. unfold rv. cbn [length]. change (8 * 2 - 0 - 16)%nat with 0%nat. cbn [N.of_nat]. rewrite N.pow_0_r, N.div_1_r.
  replace (be [a; b]) with (a * 256 + b); [apply N.mod_small; change (2 ^ N.of_nat 16) with 65536; lia|].
  unfold be. cbn [length Nat.mul Nat.add]. change (2 ^ N.of_nat 8) with 256. lia.
Qed.

Fixpoint sumto (g : nat -> N) (n : nat) : N := match n with O => 0 | S i => sumto g i + g i end.
Lemma sumto_shift g n : sumto g (S n) = g 0%nat + sumto (fun k => g (S k)) n.
Proof. induction n as [|n IH]; [cbn; lia|]. change (sumto g (S (S n))) with (sumto g (S n) + g (S n)). rewrite IH. cbn [sumto]. lia. Qed.
Lemma sumto_ext g g' n : (forall k, (k < n)%nat -> g k = g' k) -> sumto g n = sumto g' n.
Proof. induction n as [|n IH]; intros E; [reflexivity|]. cbn [sumto]. rewrite IH by (intros; apply E; lia). rewrite (E n) by lia. reflexivity. Qed.
Lemma words_sum n : forall v, bytes_ok v -> length v = (2 * n)%nat -> plain_sum (words v) = sumto (word v) n.
Proof.
  induction n as [|n IH]; intros v B L.
  - destruct v; [reflexivity|discriminate L].
  - destruct v as [|a [|b v]]; try (cbn in L; lia). inversion B as [|? ? A B1]; subst. inversion B1 as [|? ? B2 B3]; subst.
    cbn [words]. rewrite sumto_shift. change (plain_sum (a * 256 + b :: words v)) with (a * 256 + b + plain_sum (words v)). f_equal.
    + rewrite word_rv. change (a :: b :: v) with ([a; b] ++ v). rewrite rv_app_l; auto; [|repeat constructor; auto].
      symmetry. apply rv_two; auto.
    + rewrite (IH v) by (auto; cbn in L; lia). apply sumto_ext. intros k K. rewrite !word_rv. change (a :: b :: v) with ([a; b] ++ v).
      replace (16 * S k)%nat with (8 * length [a; b] + 16 * k)%nat by (cbn [length]; lia). symmetry. apply rv_app_r; auto; [repeat constructor; auto|]. cbn in L. lia.
Qed.
Lemma others_word v : header_bytes v -> other_words v + word v 5 = sumto (word v) (length v / 2).
Proof.
  intros (B & E & L & _). apply Nat.even_spec in E as (n & E).
  replace (length v / 2)%nat with n by (rewrite E, Nat.mul_comm, Nat.div_mul; auto). rewrite <- (words_sum n) by auto.
  assert (V : v = firstn 10 v ++ firstn 2 (skipn 10 v) ++ skipn 12 v).
  { rewrite <- (firstn_skipn 10 v) at 1. f_equal. rewrite <- (firstn_skipn 2 (skipn 10 v)) at 1. f_equal. clear. do 10 (destruct v as [|? v]; [reflexivity|]). reflexivity. }
  assert (L2 : length (firstn 2 (skipn 10 v)) = 2%nat) by (rewrite firstn_length, skipn_length; lia).
  assert (L1 : length (firstn 10 v) = 10%nat) by (rewrite firstn_length; lia).
  assert (W : word v 5 = plain_sum (words (firstn 2 (skipn 10 v)))).
  { rewrite word_rv. rewrite V at 1. pose proof B as B'. rewrite V in B'. apply bytes_ok_app in B' as (B1 & B2). apply bytes_ok_app in B2 as (B2 & B3).
    replace (16 * 5)%nat with (8 * length (firstn 10 v) + 0)%nat by lia. rewrite rv_app_r; auto; [|apply bytes_ok_app; auto|rewrite app_length; lia].
    rewrite rv_app_l by (auto; lia). rewrite (words_sum 1) by auto. cbn [sumto]. rewrite word_rv. reflexivity. }
  rewrite W. unfold other_words, zero_checksum. rewrite V at 4. rewrite !words_app by (rewrite ?L1, ?L2; reflexivity). rewrite !plain_sum_app. cbn [words plain_sum fold_right]. lia.
Qed.

(** ** Sums *)

(** What the checksum is the complement of. *)
Definition folded (s : N) : N := (s / 65536 + s) mod 65536.
Lemma folded_char s : exists hi lo k, s = 65536 * hi + lo /\ lo < 65536 /\ hi + lo = 65536 * k + folded s /\ folded s < 65536.
Proof.
  exists (s / 65536), (s mod 65536), ((s / 65536 + s mod 65536) / 65536). pose proof (N.div_mod s 65536 ltac:(discriminate)) as E.
  split; [exact E|]. split; [apply N.mod_lt; discriminate|]. split; [|apply N.mod_lt; discriminate].
  replace (folded s) with ((s / 65536 + s mod 65536) mod 65536); [apply N.div_mod; discriminate|].
  unfold folded. rewrite N.add_mod_idemp_r by discriminate. reflexivity.
Qed.
Lemma verifies_iff m v : header_bytes v -> (verifies m v <-> word v 5 + folded (other_words v) = 65535).
Proof.
  intros (B & E & _ & L). unfold verifies. rewrite C20_value by auto. fold (folded (other_words v)).
  assert (F : folded (other_words v) < 65536) by (apply N.mod_lt; discriminate). revert F. generalize (folded (other_words v)) (word v 5). intros a b F.
  split; [intros X|intros X; f_equal; lia]. assert (Y : 65535 - a = b) by congruence. lia.
Qed.

Definition at_ (n : nat) (g : nat -> N) (j : nat) : N := if (j <? n)%nat then g j else 0.
Lemma at_S n g j : at_ (S n) g j = at_ n g j + (if (j =? n)%nat then g n else 0).
Proof.
  unfold at_. destruct (Nat.ltb_spec j (S n)), (Nat.ltb_spec j n), (Nat.eqb_spec j n); subst; lia.
Qed.
Lemma sumto_two g g' a b n : a <> b -> (forall j, (j < n)%nat -> j <> a -> j <> b -> g j = g' j) ->
  sumto g' n + at_ n g a + at_ n g b = sumto g n + at_ n g' a + at_ n g' b.
Proof.
  intros AB. induction n as [|n IH]; intros E; [reflexivity|]. cbn [sumto]. rewrite !at_S. specialize (IH ltac:(intros; apply E; auto)).
  specialize (E n ltac:(lia)). destruct (Nat.eqb_spec a n), (Nat.eqb_spec b n); subst; try congruence; try lia; specialize (E ltac:(auto) ltac:(auto)); lia.
Qed.
Lemma words_eq v v' n : bytes_ok v -> bytes_ok v' -> length v = (2 * n)%nat -> length v' = length v ->
  (forall j, (j < n)%nat -> word v j = word v' j) -> v = v'.
Proof.
  intros B B' L L' W. apply bytes_ext; auto. intros i Hi.
  assert (H : (i / 16 < n)%nat) by (apply Nat.div_lt_upper_bound; lia). specialize (W _ H). rewrite !word_rv in W.
  pose proof (Nat.div_mod i 16 ltac:(discriminate)) as D. pose proof (Nat.mod_upper_bound i 16 ltac:(discriminate)) as U.
  pose proof (rv_testbit v (16 * (i / 16)) 16 (15 - i mod 16) B ltac:(lia)) as X. pose proof (rv_testbit v' (16 * (i / 16)) 16 (15 - i mod 16) B' ltac:(lia)) as Y.
  rewrite W in X. rewrite X in Y. rewrite (proj2 (Nat.ltb_lt _ _)) in Y by lia.
  replace (16 * (i / 16) + 16 - 1 - (15 - i mod 16))%nat with i in Y by lia. exact Y.
Qed.

Lemma rv_word v k s : bytes_ok v -> (16 * k + 16 <= 8 * length v)%nat -> (s <= 16)%nat ->
  rv v (16 * k) 16 = rv v (16 * k) s * 2 ^ N.of_nat (16 - s) + rv v (16 * k + s) (16 - s).
Proof. intros B K S. rewrite <- rv_split by (auto; lia). f_equal. lia. Qed.

(** The two words of a burst: the first keeps its high [s] bits, the second its low
    [17 - s]. *)
Lemma high_kept v v' k s : bytes_ok v -> bytes_ok v' -> length v' = length v -> (16 * k + 16 <= 8 * length v)%nat -> (s <= 16)%nat ->
  (forall j, (16 * k <= j < 16 * k + s)%nat -> bit v' j = bit v j) ->
  exists h l l', word v k = h * 2 ^ N.of_nat (16 - s) + l /\ word v' k = h * 2 ^ N.of_nat (16 - s) + l' /\
    l < 2 ^ N.of_nat (16 - s) /\ l' < 2 ^ N.of_nat (16 - s).
Proof.
  intros B B' L K S E. exists (rv v (16 * k) s), (rv v (16 * k + s) (16 - s)), (rv v' (16 * k + s) (16 - s)).
  rewrite !word_rv, (rv_word v k s), (rv_word v' k s) by (auto; lia).
  split; [reflexivity|]. split; [|split; apply rv_bound]. f_equal. f_equal. apply rv_ext; auto; try lia.
Qed.
Lemma low_kept v v' k s : bytes_ok v -> bytes_ok v' -> length v' = length v -> (16 * k + 16 <= 8 * length v)%nat -> (s <= 16)%nat ->
  (forall j, (16 * k + s <= j < 16 * k + 16)%nat -> bit v' j = bit v j) ->
  exists h h' l, word v k = h * 2 ^ N.of_nat (16 - s) + l /\ word v' k = h' * 2 ^ N.of_nat (16 - s) + l /\
    l < 2 ^ N.of_nat (16 - s) /\ h < 2 ^ N.of_nat s /\ h' < 2 ^ N.of_nat s.
Proof.
  intros B B' L K S E. exists (rv v (16 * k) s), (rv v' (16 * k) s), (rv v (16 * k + s) (16 - s)).
  rewrite !word_rv, (rv_word v k s), (rv_word v' k s) by (auto; lia).
  split; [reflexivity|]. split; [|repeat split; apply rv_bound]. f_equal. apply rv_ext; auto; try lia. intros j J. apply E. lia.
Qed.
Lemma all_kept v v' k : bytes_ok v -> bytes_ok v' -> length v' = length v -> (16 * k + 16 <= 8 * length v)%nat ->
  (forall j, (16 * k <= j < 16 * k + 16)%nat -> bit v' j = bit v j) -> word v k = word v' k.
Proof. intros B B' L K E. rewrite !word_rv. apply rv_ext; auto. intros j J. symmetry. auto. Qed.

(** How the folded sum changes with the sum: as the sum does, but for a carry. *)
Lemma folded_diff o o' : (Z.abs (Z.of_N o' - Z.of_N o) <= 65535)%Z -> exists x t,
  (Z.of_N (folded o') - Z.of_N (folded o) = Z.of_N o' - Z.of_N o + x - 65536 * t)%Z /\
  (x = 0 \/ (x = 1 /\ Z.of_N o' > Z.of_N o) \/ (x = -1 /\ Z.of_N o' < Z.of_N o))%Z.
Proof.
  intros D. destruct (folded_char o) as (hi & lo & k & E1 & E2 & E3 & E4). destruct (folded_char o') as (hi' & lo' & k' & E1' & E2' & E3' & E4').
  remember (folded o) as g. remember (folded o') as g'. clear Heqg Heqg'.
  exists (Z.of_N hi' - Z.of_N hi)%Z, (Z.of_N hi' - Z.of_N hi + Z.of_N k' - Z.of_N k)%Z. split; lia.
Qed.

Definition powers : list Z := [1; 2; 4; 8; 16; 32; 64; 128; 256; 512; 1024; 2048; 4096; 8192; 16384; 32768]%Z.
Ltac each_power H := unfold powers in H; cbn [In] in H; repeat (destruct H as [<-|H]); [..|destruct H].
(** Both words are summed. *)
Lemma apart_sum P d h x t : In P powers -> (Z.abs d < P)%Z -> (Z.abs (2 * P * h) <= 65536 - 2 * P)%Z ->
  (0 = d + 2 * P * h + x - 65536 * t)%Z ->
  (x = 0 \/ (x = 1 /\ d + 2 * P * h > 0) \/ (x = -1 /\ d + 2 * P * h < 0))%Z -> (d = 0 /\ h = 0)%Z.
Proof. intros I D H E X. each_power I; lia. Qed.
(** The first is the checksum. *)
Lemma apart_first P d h x t : In P powers -> (Z.abs d < P)%Z -> (Z.abs (2 * P * h) <= 65536 - 2 * P)%Z ->
  (- d = 2 * P * h + x - 65536 * t)%Z -> (x = 0 \/ (x = 1 /\ 2 * P * h > 0) \/ (x = -1 /\ 2 * P * h < 0))%Z -> (d = 0 /\ h = 0)%Z.
Proof. intros I D H E X. each_power I; lia. Qed.
(** The second is. *)
Lemma apart_second P d h x t : In P powers -> (Z.abs d < P)%Z -> (Z.abs (2 * P * h) <= 65536 - 2 * P)%Z ->
  (- (2 * P * h) = d + x - 65536 * t)%Z -> (x = 0 \/ (x = 1 /\ d > 0) \/ (x = -1 /\ d < 0))%Z -> (d = 0 /\ h = 0)%Z.
Proof. intros I D H E X. each_power I; lia. Qed.

(** Two headers that both pass, and that differ in two words at most, by so much that the
    differences cannot cancel, are the same. *)
Lemma apart m v v' a b P d h : header_bytes v -> header_bytes v' -> length v' = length v -> verifies m v -> verifies m v' -> a <> b ->
  (forall j, (j < length v / 2)%nat -> j <> a -> j <> b -> word v j = word v' j) ->
  In P powers -> (Z.abs d < P)%Z -> (Z.abs (2 * P * h) <= 65536 - 2 * P)%Z ->
  (Z.of_N (at_ (length v / 2) (word v') a) - Z.of_N (at_ (length v / 2) (word v) a) = d)%Z ->
  (Z.of_N (at_ (length v / 2) (word v') b) - Z.of_N (at_ (length v / 2) (word v) b) = 2 * P * h)%Z ->
  v = v'.
Proof.
  intros H H' L V V' AB W I D Hh Ea Eb. apply (verifies_iff _ _ H) in V. apply (verifies_iff _ _ H') in V'.
  pose proof (others_word _ H) as O. pose proof (others_word _ H') as O'. rewrite L in O'.
  pose proof (sumto_two _ _ a b _ AB W) as S2. set (n := (length v / 2)%nat) in *.
  assert (N5 : (5 < n)%nat).
  { destruct H as (_ & _ & L12 & _). unfold n. assert (12 / 2 <= length v / 2)%nat by (apply Nat.div_le_mono; lia). change (12 / 2)%nat with 6%nat in *. lia. }
  assert (A5 : at_ n (word v) 5 = word v 5) by (unfold at_; apply Nat.ltb_lt in N5; rewrite N5; auto).
  assert (A5' : at_ n (word v') 5 = word v' 5) by (unfold at_; apply Nat.ltb_lt in N5; rewrite N5; auto).
  assert (P1 : (1 <= P <= 32768)%Z) by (revert I; clear; intros I; each_power I; lia).
  assert (Hb : (Z.abs (2 * P * h) <= 65534)%Z) by lia.
  set (q := (2 * P * h)%Z) in *.
  assert (Z0 : d = 0%Z /\ h = 0%Z).
  { destruct (Nat.eq_dec a 5) as [->|A].
    - rewrite A5, A5' in *. destruct (folded_diff (other_words v) (other_words v')) as (x & t & X1 & X2); [lia|].
      apply (apart_first P d h x t); auto; fold q; lia.
    - destruct (Nat.eq_dec b 5) as [->|B].
      + rewrite A5, A5' in *. destruct (folded_diff (other_words v) (other_words v')) as (x & t & X1 & X2); [lia|].
        apply (apart_second P d h x t); auto; fold q; lia.
      + assert (W5 : word v 5 = word v' 5) by (apply W; auto).
        destruct (folded_diff (other_words v) (other_words v')) as (x & t & X1 & X2); [lia|].
        apply (apart_sum P d h x t); auto; fold q; lia. }
  destruct Z0 as [-> ->]. unfold q in Eb. rewrite Z.mul_0_r in Eb.
  destruct H as (B & E & _). destruct H' as (B' & _). apply Nat.even_spec in E as (k & E).
  assert (n = k) by (unfold n; rewrite E, Nat.mul_comm, Nat.div_mul; auto). subst k.
  apply (words_eq v v' n); auto. intros j J.
  destruct (Nat.eq_dec j a) as [->|]; [unfold at_ in Ea; apply Nat.ltb_lt in J; rewrite J in Ea; lia|].
  destruct (Nat.eq_dec j b) as [->|]; [unfold at_ in Eb; apply Nat.ltb_lt in J; rewrite J in Eb; lia|].
  apply W; auto.
Qed.

(** The high part moves by a multiple of its unit. *)
Lemma at_high v v' a s : header_bytes v -> header_bytes v' -> length v' = length v -> (s <= 16)%nat ->
  (forall j, (j < 8 * length v)%nat -> (16 * a <= j < 16 * a + s)%nat -> bit v' j = bit v j) ->
  (Z.abs (Z.of_N (at_ (length v / 2) (word v') a) - Z.of_N (at_ (length v / 2) (word v) a)) < Z.of_N (2 ^ N.of_nat (16 - s)))%Z.
Proof.
  intros H H' L S K. unfold at_. assert (P : 0 < 2 ^ N.of_nat (16 - s)) by (apply N.neq_0_lt_0, N.pow_nonzero; discriminate).
  destruct (Nat.ltb_spec a (length v / 2)) as [A|A]; [|lia].
  pose proof (Nat.div_mod (length v) 2 ltac:(auto)) as DM.
  destruct (high_kept v v' a s) as (h & l & l' & -> & -> & Y & Y'); [apply H|apply H'|auto|lia|auto|intros; apply K; lia|]. lia.
Qed.
Lemma at_low v v' a s : header_bytes v -> header_bytes v' -> length v' = length v -> (s <= 16)%nat ->
  (forall j, (j < 8 * length v)%nat -> (16 * a + s <= j < 16 * a + 16)%nat -> bit v' j = bit v j) ->
  exists h, (Z.of_N (at_ (length v / 2) (word v') a) - Z.of_N (at_ (length v / 2) (word v) a) = Z.of_N (2 ^ N.of_nat (16 - s)) * h /\
    Z.abs h < Z.of_N (2 ^ N.of_nat s))%Z.
Proof.
  intros H H' L S K. unfold at_. assert (P : 0 < 2 ^ N.of_nat s) by (apply N.neq_0_lt_0, N.pow_nonzero; discriminate).
  destruct (Nat.ltb_spec a (length v / 2)) as [A|A]; [|exists 0%Z; lia].
  pose proof (Nat.div_mod (length v) 2 ltac:(auto)) as DM.
  destruct (low_kept v v' a s) as (h & h' & l & -> & -> & Y & Y1 & Y'); [apply H|apply H'|auto|lia|auto|intros; apply K; lia|].
  exists (Z.of_N h' - Z.of_N h)%Z. split; [|lia]. rewrite !N2Z.inj_add, !N2Z.inj_mul. ring.
Qed.
Lemma at_all v v' a : header_bytes v -> header_bytes v' -> length v' = length v ->
  (forall j, (j < 8 * length v)%nat -> (16 * a <= j < 16 * a + 16)%nat -> bit v' j = bit v j) ->
  at_ (length v / 2) (word v') a = at_ (length v / 2) (word v) a.
Proof.
  intros H H' L K. unfold at_. destruct (Nat.ltb_spec a (length v / 2)) as [A|A]; auto.
  pose proof (Nat.div_mod (length v) 2 ltac:(auto)) as DM. symmetry. apply all_kept; auto; [apply H|apply H'|lia|intros; apply K; lia].
Qed.

Lemma burst m v v' i : header_bytes v -> header_bytes v' -> garbled i 15 v v' -> verifies m v -> verifies m v' -> v = v'.
Proof.
  intros H H' (L & G) V V'. pose proof (Nat.div_mod i 16 ltac:(auto)) as DM. pose proof (Nat.mod_upper_bound i 16 ltac:(auto)) as SB.
  set (k := (i / 16)%nat) in *. set (s := (i mod 16)%nat) in *. clearbody k s.
  pose proof (Nat.div_mod (length v) 2 ltac:(auto)) as DL.
  assert (W : forall j, (j < length v / 2)%nat -> j <> S k -> j <> k -> word v j = word v' j).
  { intros j J J1 J2. apply all_kept; auto; [apply H|apply H'|lia|]. intros x X. apply G; lia. }
  destruct (Nat.eq_dec s 0) as [S0|S0].
  - destruct (at_low v v' k 15) as (h & E & B); auto; [intros; apply G; lia|].
    apply (apart m v v' (S k) k 1 0 h); auto; try lia; try (left; reflexivity).
    rewrite at_all by (auto; intros; apply G; lia). lia.
  - pose proof (at_high v v' k s H H' L ltac:(lia) ltac:(intros; apply G; lia)) as E.
    destruct (at_low v v' (S k) (s - 1)) as (h & E2 & B); auto; try lia; try (intros; apply G; lia).
    apply (apart m v v' k (S k) (Z.of_N (2 ^ N.of_nat (16 - s))) (Z.of_N (at_ (length v / 2) (word v') k) - Z.of_N (at_ (length v / 2) (word v) k)) h); auto.
    + do 16 (destruct s as [|s]; [try congruence; cbn; tauto|]). lia.
    + assert (X : (2 * Z.of_N (2 ^ N.of_nat (16 - s)) * Z.of_N (2 ^ N.of_nat (s - 1)) = 65536)%Z)
        by (clear -SB S0; do 16 (destruct s as [|s]; [try congruence; reflexivity|]); lia).
      revert B X. generalize (Z.of_N (2 ^ N.of_nat (s - 1))) (Z.of_N (2 ^ N.of_nat (16 - s))) (N2Z.is_nonneg (2 ^ N.of_nat (16 - s))).
      clear. intros q p Pp B X. rewrite Z.abs_mul, (Z.abs_eq (2 * p)) by lia. rewrite <- X. nia.
    + rewrite E2. clear -SB S0. do 16 (destruct s as [|s]; [try congruence; reflexivity|]). lia.
Qed.

(** One word is changed. *)
Lemma one_word m v v' k : header_bytes v -> header_bytes v' -> garbled (16 * k) 16 v v' -> verifies m v -> verifies m v' -> v <> v' ->
  k <> 5%nat /\ (word v k = 0 /\ word v' k = 65535 \/ word v k = 65535 /\ word v' k = 0).
Proof.
  intros H H' (L & G) V V' NE. pose proof V as W0. pose proof V' as W0'. apply (verifies_iff _ _ H) in V. apply (verifies_iff _ _ H') in V'.
  pose proof (others_word _ H) as O. pose proof (others_word _ H') as O'. rewrite L in O'.
  assert (W : forall j, (j < length v / 2)%nat -> j <> k -> word v j = word v' j).
  { intros j J J2. pose proof (Nat.div_mod (length v) 2 ltac:(auto)) as DM. apply all_kept; auto; [apply H|apply H'|lia|]. intros x X. apply G; lia. }
  pose proof (sumto_two (word v) (word v') k (S k) (length v / 2) ltac:(auto) ltac:(auto)) as S2.
  rewrite (at_all v v' (S k)) in S2 by (auto; intros; apply G; lia). set (n := (length v / 2)%nat) in *.
  assert (N5 : (5 < n)%nat).
  { destruct H as (_ & _ & L12 & _). unfold n. assert (12 / 2 <= length v / 2)%nat by (apply Nat.div_le_mono; lia). change (12 / 2)%nat with 6%nat in *. lia. }
  assert (K : (k < n)%nat /\ word v k <> word v' k).
  { destruct H as (B & E & _). destruct H' as (B' & _). apply Nat.even_spec in E as (q & E).
    assert (n = q) by (unfold n; rewrite E, Nat.mul_comm, Nat.div_mul; auto). subst q.
    destruct (lt_dec k n) as [K|K]; [split; auto; intros X|]; exfalso; apply NE; apply (words_eq v v' n); auto; intros j J;
      (destruct (Nat.eq_dec j k) as [->|]; [auto; lia|auto]). }
  destruct K as [K K2]. unfold at_ at 1 3 in S2. apply Nat.ltb_lt in K as K3. rewrite K3 in S2.
  pose proof (word_lt v k) as B1. pose proof (word_lt v' k) as B2. pose proof (word_lt v 5) as B3. pose proof (word_lt v' 5) as B4.
  destruct (Nat.eq_dec k 5) as [->|K5].
  - exfalso. assert (other_words v = other_words v') by lia. rewrite H0 in V. lia.
  - split; auto. rewrite (W 5%nat) in * by auto.
    destruct (folded_diff (other_words v) (other_words v')) as (x & t & X1 & X2); lia.
Qed.

(** ** Filling in the checksum *)

Definition filled (c : N) (v : list N) : list N := firstn 10 v ++ [c / 256; c mod 256] ++ skipn 12 v.
Lemma filled_upd c v : (12 <= length v)%nat -> filled c v = upd (upd v 10 (c / 256)) 11 (c mod 256).
Proof. intros L. do 12 (destruct v as [|? v]; [cbn in L; lia|]). reflexivity. Qed.
Lemma filled_length c v : (12 <= length v)%nat -> length (filled c v) = length v.
Proof. intros L. rewrite filled_upd by auto. rewrite !upd_length. reflexivity. Qed.
Lemma filled_ok c v : c < 65536 -> header_bytes v -> header_bytes (filled c v).
Proof.
  intros C (B & E & L & X). unfold header_bytes. rewrite filled_length by auto. repeat split; auto.
  unfold filled. apply bytes_ok_app. split; [apply bytes_ok_firstn; auto|]. apply bytes_ok_app. split.
  - repeat constructor; [apply N.div_lt_upper_bound; lia|apply N.mod_lt; discriminate].
  - clear -B L. rewrite <- (firstn_skipn 12 v) in B. apply bytes_ok_app in B. apply B.
Qed.
Lemma filled_word c v : c < 65536 -> header_bytes v -> word (filled c v) 5 = c.
Proof.
  intros C H. pose proof (filled_ok c v C H) as (B & _). destruct H as (_ & _ & L & _).
  assert (L1 : length (firstn 10 v) = 10%nat) by (rewrite firstn_length; lia).
  unfold filled in *. apply bytes_ok_app in B as (B1 & B2). pose proof B2 as B3. apply bytes_ok_app in B3 as (B4 & B5).
  rewrite word_rv. replace (16 * 5)%nat with (8 * length (firstn 10 v) + 0)%nat by (rewrite L1; reflexivity).
  rewrite rv_app_r by (auto; rewrite ?app_length; cbn [length]; lia). rewrite rv_app_l by (auto; cbn [length]; lia).
  rewrite rv_two by (try apply N.mod_lt; try apply N.div_lt_upper_bound; lia). rewrite N.mul_comm. symmetry. apply N.div_mod. discriminate.
Qed.
Lemma filled_verifies m c v : header_bytes v -> ipv4_checksum m v = Ret c -> verifies m (filled c v).
Proof.
  intros H E. assert (C : c < 65536).
  { destruct H as (B & Ev & _ & L). rewrite C20_value in E by auto. assert (X : 65535 - (other_words v / 65536 + other_words v) mod 65536 = c) by congruence. rewrite <- X. eapply N.le_lt_trans; [apply N.le_sub_l|reflexivity]. }
  unfold verifies. rewrite filled_word by auto. rewrite filled_upd by apply H. rewrite C20_ignores. exact E.
Qed.
Lemma filled_bit c v j : (12 <= length v)%nat ->
  bit (filled c v) j = if (80 <=? j)%nat && (j <? 96)%nat then bit [c / 256; c mod 256] (j - 80) else bit v j.
Proof.
  intros L. assert (L1 : length (firstn 10 v) = 10%nat) by (rewrite firstn_length; lia).
  assert (L2 : length (firstn 12 v) = 12%nat) by (rewrite firstn_length; lia).
  unfold filled. rewrite bit_app, L1. destruct (Nat.ltb_spec j (8 * 10)), (Nat.leb_spec 80 j), (Nat.ltb_spec j 96); try lia; cbn [andb].
  - rewrite <- (firstn_skipn 10 v) at 2. rewrite bit_app, L1. rewrite (proj2 (Nat.ltb_lt _ _)) by auto. reflexivity.
  - rewrite bit_app. cbn [length]. rewrite (proj2 (Nat.ltb_lt _ _)) by lia. reflexivity.
  - rewrite bit_app. cbn [length]. rewrite (proj2 (Nat.ltb_ge _ _)) by lia.
    rewrite <- (firstn_skipn 12 v) at 2. rewrite bit_app, L2. rewrite (proj2 (Nat.ltb_ge _ _)) by lia. f_equal. lia.
Qed.
Lemma value_burst m v v' i : header_bytes v -> header_bytes v' -> garbled i 15 v v' -> ipv4_checksum m v = ipv4_checksum m v' ->
  forall j, (j < 80 \/ 96 <= j)%nat -> bit v j = bit v' j.
Proof.
  intros H H' (L & G) E j J. pose proof H as (B & Ev & L12 & X). pose proof H' as (_ & _ & L12' & _).
  pose proof (C20_value m v B Ev X) as V. remember (65535 - _) as c. clear Heqc.
  pose proof (filled_verifies m c v H V) as F. rewrite E in V. pose proof (filled_verifies m c v' H' V) as F'.
  assert (C : c < 65536).
  { destruct H' as (B' & Ev' & _ & X'). rewrite C20_value in V by auto. assert (Y : 65535 - (other_words v' / 65536 + other_words v') mod 65536 = c) by congruence. rewrite <- Y. eapply N.le_lt_trans; [apply N.le_sub_l|reflexivity]. }
  assert (Q : filled c v = filled c v').
  { apply (burst m _ _ i); auto; try (apply filled_ok; auto). split; [rewrite !filled_length; auto|]. intros x. rewrite filled_length by auto. intros Lx Nx.
    rewrite !filled_bit by auto. destruct ((80 <=? x)%nat && (x <? 96)%nat); auto. }
  pose proof (filled_bit c v j L12) as R. pose proof (filled_bit c v' j L12') as R'. rewrite Q in R. rewrite R in R'.
  replace ((80 <=? j)%nat && (j <? 96)%nat) with false in R'; auto.
  destruct (Nat.leb_spec 80 j), (Nat.ltb_spec j 96); cbn; auto; lia.
Qed.
