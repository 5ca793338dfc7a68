(** RemainsProofs.v -- lemmas for C88. *)

From Coq Require Import Lia.
From Verif Require Import Base Bits Types Layout Heap Packet Text Build Utils Slow Fast Show Ops Client Spec Grammar
  ClientSpec PanicSpec BitsProofs HeapProofs OpsProofs PacketProofs ClientProofs PropClient PanicProofs RemainsSpec.
Open Scope N_scope.

(** ** Reads leave the bytes alone, however they end *)

Definition keepd {A} (x : M A) : Prop := forall h r d, bytes_at h r d -> bytes_at (snd (x h)) r d.
Lemma keepd_ret {A} (a : A) : keepd (ret a).
Proof. intros h r d H. exact H. Qed.
Lemma keepd_lift {A} (o : out A) : keepd (lift o).
Proof. intros h r d H. exact H. Qed.
Lemma keepd_bind {A B} (x : M A) (k : A -> M B) : keepd x -> (forall a, keepd (k a)) -> keepd (bind x k).
Proof.
  intros X K h r d H. specialize (X h r d H). unfold bind. destruct (x h) as [[a|e| | |] h1]; cbn [snd] in *; auto. apply K. exact X.
Qed.
Lemma bytes_upd h q c p r d : nth_error h q = Some c -> bytes_at h r d -> bytes_at (upd h q (Cell (c_data c) p)) r d.
Proof.
  intros Q (p0 & H). destruct (Nat.eq_dec r q) as [->|N].
  - rewrite Q in H. injection H as ->. exists p. cbn [c_data]. rewrite nth_error_upd, Nat.eqb_refl. assert (L : (q < length h)%nat) by (apply nth_error_Some; rewrite Q; discriminate). apply Nat.ltb_lt in L. rewrite L. reflexivity.
  - exists p0. rewrite <- H. apply cell_at_upd_other. auto.
Qed.
Lemma keepd_lock {A} q (f : list N -> out A) : keepd (with_lock q (fun d => (f d, d))).
Proof.
  intros h r d H. unfold with_lock. destruct (nth_error h q) as [c|] eqn:F; [|exact H].
  destruct (c_poisoned c) eqn:P; [exact H|]. destruct (f (c_data c)); apply bytes_upd; auto.
Qed.
Lemma keepd_hget_loop r i k v : keepd (hget_loop r i k v).
Proof.
  revert i v. induction k as [|k IH]; intros i v; cbn [hget_loop]; [apply keepd_ret|]. cbv zeta.
  apply keepd_bind; [apply keepd_lock|]. intros; apply IH.
Qed.
Lemma keepd_bit_range m x a b : keepd (hbit_range m x a b).
Proof. unfold hbit_range. apply keepd_bind; [apply keepd_hget_loop|]. intros; apply keepd_lift. Qed.
Lemma keepd_hbytes_loop m x i k : keepd (hbytes_loop m x i k).
Proof.
  revert i. induction k as [|k IH]; intros i; cbn [hbytes_loop]; [apply keepd_ret|].
  apply keepd_bind; [apply keepd_bit_range|]. intros v. apply keepd_bind; [apply IH|]. intros; apply keepd_ret.
Qed.
Lemma keepd_hbytes m x a b : keepd (hbytes m x a b).
Proof. unfold hbytes. apply keepd_bind; [apply keepd_lift|]. intros; apply keepd_hbytes_loop. Qed.
Lemma keepd_octets m x i k : keepd (hshow_octets m x i k).
Proof.
  revert i. induction k as [|k IH]; intros i; cbn [hshow_octets]; [apply keepd_ret|].
  apply keepd_bind; [apply keepd_bit_range|]. intros v. apply keepd_bind; [apply IH|]. intros; apply keepd_ret.
Qed.
Lemma keepd_show_field m x f : keepd (hshow_field m x f).
Proof.
  unfold hshow_field. destruct (_ <=? 8)%nat; [apply keepd_bind; [apply keepd_bit_range|intros; apply keepd_ret]|].
  destruct (_ =? 0)%nat; [apply keepd_octets|]. apply keepd_bind; [apply keepd_octets|]. intros t.
  apply keepd_bind; [apply keepd_bit_range|intros; apply keepd_ret].
Qed.
Lemma keepd_show m x : keepd (hshow m x).
Proof.
  unfold hshow. apply keepd_bind; [|intros; apply keepd_ret]. induction (ht_fields (h_ty x)) as [|f l IH]; cbn [hshow_fields]; [apply keepd_ret|].
  apply keepd_bind; [apply keepd_show_field|]. intros s. apply keepd_bind; [exact IH|]. intros; apply keepd_ret.
Qed.
Lemma keepd_hto_vec x : keepd (hto_vec x).
Proof. apply (keepd_lock _ (fun d => Ret d)). Qed.
Lemma keepd_pshow m p : keepd (pkt_show m p).
Proof.
  unfold pkt_show. apply keepd_bind.
  - induction (p_hdrs p) as [|x l IH]; cbn [show_hdrs]; [apply keepd_ret|]. apply keepd_bind; [apply keepd_show|]. intros s.
    apply keepd_bind; [exact IH|]. intros; apply keepd_ret.
  - intros s. apply keepd_bind; [|intros; apply keepd_ret]. unfold to_vec. apply keepd_bind; [|intros; apply keepd_ret].
    induction (p_hdrs p) as [|x l IH]; cbn [concat_vecs]; [apply keepd_ret|]. apply keepd_bind; [apply keepd_hto_vec|]. intros v.
    apply keepd_bind; [exact IH|]. intros; apply keepd_ret.
Qed.

(** ** Writes *)

(** The last bit is written first, so a setter either writes all bits or none. *)
Lemma setter_kept h x msb lsb v e h' : heap_ok h -> live h x -> hset_bit_range x msb lsb v h = (Panic e, h') ->
  forall r d, bytes_at h r d -> bytes_at h' r d.
Proof.
  intros Hh Hx E r d H. destruct (Nat.lt_ge_cases msb lsb) as [L|L].
  { unfold hset_bit_range, range_len in E. replace (S msb - lsb)%nat with O in E by lia. discriminate E. }
  destruct (live_cases h x Hx) as [[d0 Hd]|D].
  - destruct (Nat.le_gt_cases (8 * length d0) msb) as [O|I].
    + rewrite (hset_bit_range_oob x h d0) in E by auto. injection E as _ <-. apply (bytes_upd h (h_ref x) (Cell d0 false) true); auto.
    + rewrite (hset_bit_range_in x h d0) in E by (auto; eapply heap_ok_cell; eauto). discriminate E.
  - rewrite hset_bit_range_dead in E by auto. injection E as _ <-. exact H.
Qed.

Lemma skipn_cons (v : list N) k : (k < length v)%nat -> skipn k v = nth k v 0 :: skipn (S k) v.
Proof. revert k. induction v as [|a v IH]; intros [|k] L; cbn in *; try lia; auto. apply IH. lia. Qed.
Lemma set_bytes_part x h d i n v k : cell_at h (h_ref x) d -> bytes_ok d -> (k + n <= length v)%nat ->
  (8 * length d < i + 8 * n)%nat -> (n <> 0)%nat ->
  hset_bytes_loop x i n v k h = (Panic PIndex, upd h (h_ref x) (Cell (woctets d i (firstn (whole_bytes d i) (skipn k v))) true)).
Proof.
  revert h d i k; induction n as [|n IH]; intros h d i k Hc Hd Hk Ov Z; [congruence|]. cbn [hset_bytes_loop].
  unfold lift, bind at 1. rewrite (index_lt v k 0) by lia.
  destruct (Nat.lt_ge_cases (i + 7) (8 * length d)) as [L|L].
  - unfold bind at 1. rewrite (hset_bit_range_in x h d) by (auto; lia). replace (i + 7 - i + 1)%nat with 8%nat by lia.
    remember (wbits d i 8 (nth k v 0)) as d1 eqn:D1.
    assert (Hd1 : bytes_ok d1) by (subst d1; apply (wbits_ok d i 8); auto).
    assert (L1 : length d1 = length d) by (subst d1; apply (wbits_length d i 8)).
    assert (Hc1 : cell_at (upd h (h_ref x) (Cell d1 false)) (h_ref x) d1) by (eapply cell_at_upd; eauto).
    destruct n as [|n]; [lia|]. rewrite (IH _ d1 (i + 8)%nat (S k) Hc1 Hd1) by lia. rewrite upd_upd. do 3 f_equal.
    assert (W : whole_bytes d i = S (whole_bytes d1 (i + 8))).
    { unfold whole_bytes. rewrite L1. replace (8 * length d - i)%nat with (8 * length d - (i + 8) + 1 * 8)%nat by lia. rewrite Nat.div_add by lia. lia. }
    rewrite W. rewrite (skipn_cons v k) by lia. cbn [firstn woctets]. rewrite <- D1. reflexivity.
  - unfold bind at 1. rewrite (hset_bit_range_oob x h d) by (auto; lia).
    replace (whole_bytes d i) with O; [reflexivity|]. unfold whole_bytes. symmetry. apply Nat.div_small. lia.
Qed.

Lemma nth_octets n : forall d i j, (j < n)%nat -> nth j (octets d i n) 0 = rv d (i + 8 * j) 8.
Proof.
  induction n as [|n IH]; intros d i j L; [lia|]. destruct j as [|j]; cbn [octets nth].
  - f_equal. lia.
  - rewrite IH by lia. f_equal. lia.
Qed.
Lemma nth_firstn_lt j : forall n (v : list N) d, (j < n)%nat -> nth j (firstn n v) d = nth j v d.
Proof. induction j as [|j IH]; intros [|n] [|a v] d L; cbn; try lia; auto. apply IH. lia. Qed.
Lemma written_woctets d i v n : bytes_ok d -> bytes_ok v -> (n <= length v)%nat -> (i + 8 * n <= 8 * length d)%nat ->
  written n v i d (woctets d i (firstn n v)).
Proof.
  intros D V L R. assert (Lf : length (firstn n v) = n) by (rewrite firstn_length; lia).
  split; [apply woctets_length|]. split.
  - intros j J. pose proof (octets_woctets d i (firstn n v) D ltac:(apply bytes_ok_firstn; auto) ltac:(rewrite Lf; auto)) as O. rewrite Lf in O.
    rewrite <- (nth_firstn_lt j n v 0 J), <- O, nth_octets by auto. rewrite O. rewrite <- rv_bits_val by lia. f_equal. lia.
  - intros j J. apply bit_woctets_out; rewrite Lf; lia.
Qed.
