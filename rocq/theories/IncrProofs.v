(** IncrProofs.v -- lemmas for C99. *)

From Coq Require Import Lia.
From Verif Require Import Base Bits Types Layout Packet Heap Spec BitsProofs HeapProofs ChecksumProofs PropChecksum
  DetectSpec DetectProofs IncrSpec.
Open Scope N_scope.

(** ** Sums of words *)

Definition but5 (v : list N) (j : nat) : N := if (j =? 5)%nat then 0 else word v j.
Lemma others_sum v : header_bytes v -> other_words v = sumto (but5 v) (length v / 2).
Proof.
  intros H. pose proof (others_word v H) as E. destruct H as (B & Ev & L & _).
  set (n := (length v / 2)%nat) in *.
  assert (L5 : (5 < n)%nat) by (unfold n; apply Nat.div_le_lower_bound; lia).
  pose proof (sumto_two (but5 v) (word v) 5 n n ltac:(lia)
    ltac:(intros j J J5 _; unfold but5; rewrite (proj2 (Nat.eqb_neq _ _) J5); reflexivity)) as S.
  unfold at_ in S. rewrite !Nat.ltb_irrefl, (proj2 (Nat.ltb_lt _ _) L5) in S.
  change (but5 v 5) with 0 in S. lia.
Qed.

Definition swap (g g' : nat -> N) (k j : nat) : N := if (j =? k)%nat then g' j else g j.
Lemma swap_sum g g' k n : (k < n)%nat -> sumto (swap g g' k) n + g k = sumto g n + g' k.
Proof.
  intros K. pose proof (sumto_two g (swap g g' k) k n n ltac:(lia)
    ltac:(intros j J Jk _; unfold swap; rewrite (proj2 (Nat.eqb_neq _ _) Jk); reflexivity)) as S.
  unfold at_ in S. rewrite !Nat.ltb_irrefl, (proj2 (Nat.ltb_lt _ _) K) in S.
  unfold swap in S at 2. rewrite Nat.eqb_refl in S. lia.
Qed.

Lemma sumto_in g k n : (k < n)%nat -> g k <= sumto g n.
Proof. induction n as [|n IH]; intros K; [lia|]. cbn [sumto]. destruct (Nat.eq_dec k n) as [->|]; [lia|]. specialize (IH ltac:(lia)). lia. Qed.

(** ** The running value *)

(** The value is the sum modulo 65535, less [d]. *)
Definition tracks (d a s : N) : Prop := a <= 65535 /\ exists i j, a + d + i * 65535 = s + j * 65535.
Definition step (a m m' : N) : N := oc_add (oc_add a (65535 - m)) m'.
Definition steps (g g' : nat -> N) (ks : list nat) (a : N) : N := fold_left (fun a k => step a (g k) (g' k)) ks a.

Lemma oc_add_val a b : a <= 65535 -> b <= 65535 -> oc_add a b <= 65535 /\ (oc_add a b = a + b \/ oc_add a b + 65535 = a + b) /\
  (oc_add a b = 0 -> a = 0 /\ b = 0).
Proof. intros A B. unfold oc_add. destruct (N.ltb_spec (a + b) 65536); lia. Qed.
Lemma step_val a m m' : a <= 65535 -> m < 65536 -> m' < 65536 ->
  step a m m' <= 65535 /\ (exists i j, step a m m' + m + i * 65535 = a + m' + j * 65535) /\ (step a m m' = 0 -> a = 0 /\ m = 65535).
Proof.
  intros A M M'. unfold step.
  destruct (oc_add_val a (65535 - m) A ltac:(lia)) as (B1 & B2 & B3).
  destruct (oc_add_val (oc_add a (65535 - m)) m' B1 ltac:(lia)) as (C1 & C2 & C3).
  split; [auto|]. split.
  - destruct B2 as [B2|B2], C2 as [C2|C2].
    + exists 0, 1. lia.
    + exists 0, 0. lia.
    + exists 0, 0. lia.
    + exists 1, 0. lia.
  - intros Z. destruct (C3 Z) as [Z1 Z2]. destruct (B3 Z1). lia.
Qed.

Lemma steps_tracks d g' n ks : forall g a, NoDup ks -> (forall k, In k ks -> k < n)%nat ->
  (forall k, g k < 65536) -> (forall k, g' k < 65536) -> (forall j, (j < n)%nat -> ~ In j ks -> g' j = g j) ->
  tracks d a (sumto g n) -> tracks d (steps g g' ks a) (sumto g' n).
Proof.
  induction ks as [|k ks IH]; intros g a ND K G G' E T.
  - cbn [steps fold_left]. rewrite (sumto_ext g' g n) by (intros; apply E; auto). exact T.
  - inversion ND as [|? ? NI ND']; subst. change (steps g g' (k :: ks) a) with (steps g g' ks (step a (g k) (g' k))).
    assert (X : steps g g' ks (step a (g k) (g' k)) = steps (swap g g' k) g' ks (step a (g k) (g' k))).
    { generalize (step a (g k) (g' k)). clear -NI. induction ks as [|q ks IH]; intros a; [reflexivity|].
      cbn [steps fold_left]. assert (q <> k) by (intros ->; apply NI; left; auto).
      unfold swap at 2. rewrite (proj2 (Nat.eqb_neq q k)) by auto. apply IH. intros I. apply NI. right. auto. }
    rewrite X. apply IH; auto.
    + intros q Q. apply K. right. auto.
    + intros q. unfold swap. destruct (_ =? _)%nat; auto.
    + intros j J NJ. unfold swap. destruct (Nat.eqb_spec j k); auto. apply E; auto. intros [->|I]; auto.
    + pose proof (swap_sum g g' k n (K k (or_introl eq_refl))) as W. destruct T as (A & i & j & T).
      destruct (step_val a (g k) (g' k) A (G k) (G' k)) as (B & (p & q & V) & _).
      split; [auto|]. exists (i + p), (j + q). lia.
Qed.

(** From a value that is not zero unless the sum is, none is reached. *)
Lemma steps_pos g' n ks : forall g a, NoDup ks -> (forall k, In k ks -> k < n)%nat ->
  (forall k, g k < 65536) -> (forall k, g' k < 65536) ->
  a <= 65535 -> (a = 0 -> sumto g n = 0) -> steps g g' ks a = 0 -> ks = [] /\ a = 0.
Proof.
  assert (P : forall g ks a, (forall k, g k < 65536) -> (forall k, g' k < 65536) -> a <= 65535 -> a <> 0 -> steps g g' ks a <> 0).
  { clear ks. intros g ks. induction ks as [|k ks IH]; intros a G G' A Z; [exact Z|].
    change (steps g g' (k :: ks) a) with (steps g g' ks (step a (g k) (g' k))).
    destruct (step_val a (g k) (g' k) A (G k) (G' k)) as (B & _ & C). apply IH; auto. intros Y. destruct (C Y). auto. }
  intros g a ND K G G' A Z E. destruct ks as [|k ks]; [auto|]. exfalso.
  change (steps g g' (k :: ks) a) with (steps g g' ks (step a (g k) (g' k))) in E.
  destruct (step_val a (g k) (g' k) A (G k) (G' k)) as (B & _ & C).
  destruct (N.eq_dec (step a (g k) (g' k)) 0) as [Y|Y].
  - destruct (C Y) as [-> M]. pose proof (sumto_in g k n (K k (or_introl eq_refl))). specialize (Z eq_refl). lia.
  - exact (P _ _ _ G G' B Y E).
Qed.

Lemma all_steps v v' ks : forall a, (forall k, In k ks -> k <> 5%nat) -> a <= 65535 ->
  rfc1624_all v v' ks (65535 - a) = 65535 - steps (but5 v) (but5 v') ks a /\ steps (but5 v) (but5 v') ks a <= 65535.
Proof.
  induction ks as [|k ks IH]; intros a K A; [auto|].
  change (rfc1624_all v v' (k :: ks) (65535 - a)) with (rfc1624_all v v' ks (rfc1624 (65535 - a) (word v k) (word v' k))).
  change (steps (but5 v) (but5 v') (k :: ks) a) with (steps (but5 v) (but5 v') ks (step a (but5 v k) (but5 v' k))).
  unfold but5 at 3 4 7 8. rewrite (proj2 (Nat.eqb_neq k 5)) by (apply K; left; auto).
  unfold rfc1624. replace (65535 - (65535 - a)) with a by lia.
  apply IH; [intros; apply K; right; auto|]. apply (step_val a _ _ A (word_lt v k) (word_lt v' k)).
Qed.

Lemma but5_lt v k : but5 v k < 65536.
Proof. unfold but5. destruct (_ =? _)%nat; [lia|apply word_lt]. Qed.
Lemma reworded_bytes ks v v' : header_bytes v -> reworded ks v v' -> header_bytes v'.
Proof. intros (_ & E & L & M) (B & L' & _). unfold header_bytes. rewrite L'. auto. Qed.
Lemma nonzero_sum v : header_bytes v -> (nonzero v <-> other_words v <> 0).
Proof.
  intros H. rewrite (others_sum v H). destruct H as (B & Ev & L & _). apply Nat.even_spec in Ev as (n & Ev).
  rewrite Ev. replace (2 * n / 2)%nat with n by (rewrite Nat.mul_comm, Nat.div_mul; auto). split.
  - intros (j & J & J5 & W). pose proof (sumto_in (but5 v) j n ltac:(lia)) as S. unfold but5 at 1 in S.
    rewrite (proj2 (Nat.eqb_neq _ _) J5) in S. lia.
  - intros S. assert (X : exists j, (j < n)%nat /\ but5 v j <> 0).
    { revert S. clear. induction n as [|n IH]; cbn [sumto]; intros S; [congruence|].
      destruct (N.eq_dec (but5 v n) 0) as [Z|Z]; [|exists n; split; [lia|auto]].
      destruct IH as (j & J & W); [lia|]. exists j. split; [lia|auto]. }
    destruct X as (j & J & W). unfold but5 in W. destruct (Nat.eqb_spec j 5); [congruence|]. exists j. split; [lia|auto].
Qed.

Lemma steps_reworded ks v v' d a : header_bytes v -> reworded ks v v' -> tracks d a (other_words v) ->
  tracks d (steps (but5 v) (but5 v') ks a) (other_words v').
Proof.
  intros H R T. pose proof (reworded_bytes _ _ _ H R) as H'. rewrite (others_sum v' H'). rewrite (others_sum v H) in T.
  destruct R as (B & L & ND & K & E). rewrite L. destruct H as (_ & Ev & _). apply Nat.even_spec in Ev as (n & Ev).
  rewrite Ev in *. replace (2 * n / 2)%nat with n in * by (rewrite Nat.mul_comm, Nat.div_mul; auto).
  apply (steps_tracks d (but5 v') n ks (but5 v) a); auto using but5_lt.
  - intros k I. destruct (K k I). lia.
  - intros j J NI. unfold but5. destruct (Nat.eqb_spec j 5); auto. apply E; auto. lia.
Qed.
Lemma steps_reworded_pos ks v v' a : header_bytes v -> reworded ks v v' -> a <= 65535 -> (a = 0 -> other_words v = 0) ->
  nonzero v' -> tracks 0 a (other_words v) -> steps (but5 v) (but5 v') ks a <> 0.
Proof.
  intros H R A Z NZ T S. pose proof (reworded_bytes _ _ _ H R) as H'.
  apply (nonzero_sum v' H') in NZ. rewrite (others_sum v' H') in NZ. rewrite (others_sum v H) in Z.
  destruct R as (B & L & ND & K & E). rewrite L in NZ. destruct H as (_ & Ev & _). apply Nat.even_spec in Ev as (n & Ev).
  rewrite Ev in *. replace (2 * n / 2)%nat with n in * by (rewrite Nat.mul_comm, Nat.div_mul; auto).
  destruct (steps_pos (but5 v') n ks (but5 v) a ND ltac:(intros k I; destruct (K k I); lia) (but5_lt v) (but5_lt v') A Z S) as [-> ->].
  apply NZ. rewrite (sumto_ext (but5 v') (but5 v) n); [auto|].
  intros j J. unfold but5. destruct (Nat.eqb_spec j 5); auto. apply E; auto. lia.
Qed.

(** ** The function's value *)

Lemma ocn_tracks s : tracks 0 (ocn s) s.
Proof. split; [apply ocn_bound|]. destruct (ocn_repr s) as (k & E). exists k, 0. lia. Qed.
Lemma ocn_zero s : ocn s = 0 -> s = 0.
Proof. intros E. destruct (N.eq_dec s 0) as [|H]; auto. pose proof (ocn_nonzero s H). lia. Qed.
Lemma rfc_ocn v : header_bytes v -> rfc_checksum v = 65535 - ocn (other_words v).
Proof. intros (B & _). unfold rfc_checksum, other_words. rewrite oc_sum_val; auto. apply words_lt, zero_checksum_ok, B. Qed.
(** Without a second carry the function's value is the complement of [ocn s],
    with one it is one more. *)
Lemma value_plain m v : header_bytes v -> ~ carries (other_words v) -> ipv4_checksum m v = Ret (65535 - ocn (other_words v)).
Proof.
  intros H C. pose proof H as (B & E & _ & L). destruct (C20_rfc m v B E L) as (c & V & _ & R & _).
  rewrite V. f_equal. rewrite <- rfc_ocn by auto. apply R, C.
Qed.
Lemma value_carry m v : header_bytes v -> carries (other_words v) ->
  1 <= ocn (other_words v) /\ ipv4_checksum m v = Ret (65535 - (ocn (other_words v) - 1)).
Proof.
  intros H C. pose proof H as (B & E & _ & L). destruct (C20_rfc m v B E L) as (c & V & _ & _ & R). specialize (R C).
  assert (O : 1 <= ocn (other_words v)). { apply ocn_nonzero. intros Z. rewrite Z in C. vm_compute in C. apply C. reflexivity. }
  split; auto. rewrite V. f_equal. rewrite R, rfc_ocn by auto. pose proof (ocn_bound (other_words v)). lia.
Qed.

Lemma tracks_same d a a' s : tracks d a s -> tracks d a' s -> a = a' \/ (a = 0 /\ a' = 65535) \/ (a = 65535 /\ a' = 0).
Proof. intros (A & i & j & E) (A' & i' & j' & E'). assert (X : a + (i + j') * 65535 = a' + (i' + j) * 65535) by lia. lia. Qed.
Lemma tracks_apart a s : tracks 0 a s -> tracks 1 a s -> False.
Proof. intros (A & i & j & E) (_ & i' & j' & E'). lia. Qed.

Lemma reworded_field v v' f : header_bytes v -> bytes_ok v' -> length v' = length v -> field_in f (length v) ->
  (f_end f < 80 \/ 96 <= f_start f)%nat -> (forall i, ~ (f_start f <= i <= f_end f)%nat -> bit v' i = bit v i) ->
  reworded (touched f) v v'.
Proof.
  intros (B & Ev & L & _) B' L' (F1 & F2) Out E. apply Nat.even_spec in Ev as (n & Ev).
  assert (D : forall k, In k (touched f) <-> (16 * k <= f_end f /\ f_start f <= 16 * k + 15)%nat).
  { intros k. unfold touched. rewrite in_seq.
    pose proof (Nat.div_mod (f_start f) 16 ltac:(lia)) as X. pose proof (Nat.mod_upper_bound (f_start f) 16 ltac:(lia)) as X'.
    pose proof (Nat.div_mod (f_end f) 16 ltac:(lia)) as Y. pose proof (Nat.mod_upper_bound (f_end f) 16 ltac:(lia)) as Y'.
    pose proof (Nat.div_le_mono (f_start f) (f_end f) 16 ltac:(lia) F1) as Z. lia. }
  split; [auto|]. split; [auto|]. split; [apply seq_NoDup|]. split.
  - intros k I. apply D in I. lia.
  - intros j J J5 NI. symmetry. apply all_kept; auto; [lia|]. intros i I. apply E. intros X. apply NI, D. lia.
Qed.
