(** HeapProofs.v -- lemmas on owned headers. *)

From Coq Require Import Lia.
From Verif Require Import Base Bits Layout Heap Spec BitsProofs.
Open Scope N_scope.

Lemma cell_at_lt h r d : cell_at h r d -> (r < length h)%nat.
Proof. intros H. apply nth_error_Some. unfold cell_at in H. congruence. Qed.

Lemma cell_at_fun h r d d' : cell_at h r d -> cell_at h r d' -> d = d'.
Proof. unfold cell_at. congruence. Qed.

Lemma cell_at_upd h r d c : cell_at h r d -> nth_error (upd h r c) r = Some c.
Proof.
  intros H. apply cell_at_lt in H. rewrite nth_error_upd, Nat.eqb_refl.
  rewrite (proj2 (Nat.ltb_lt _ _) H). reflexivity.
Qed.

Lemma cell_at_upd_other (h : heap) r c q : q <> r -> nth_error (upd h r c) q = nth_error h q.
Proof. intros H. rewrite nth_error_upd. rewrite (proj2 (Nat.eqb_neq _ _) H). reflexivity. Qed.

Lemma cell_at_app h l r d : cell_at h r d -> cell_at (h ++ l) r d.
Proof. intros H. unfold cell_at. rewrite nth_error_app1; auto. eapply cell_at_lt; eauto. Qed.

Lemma cell_at_last (h : heap) d : cell_at (h ++ [Cell d false]) (length h) d.
Proof. unfold cell_at. rewrite nth_error_app2, Nat.sub_diag; auto. Qed.

(** ** Locking *)

Lemma with_lock_cell {A} h r d (body : list N -> out A * list N) :
  cell_at h r d ->
  with_lock r body h =
  match body d with
  | (Ret a, d') => (Ret a, upd h r (Cell d' false))
  | (Panic f, d') => (Panic f, upd h r (Cell d' true))
  | (o, d') => (o, upd h r (Cell d' false))
  end.
Proof. intros H. unfold with_lock. rewrite H. reflexivity. Qed.

Lemma with_lock_poisoned {A} h r (body : list N -> out A * list N) :
  poisoned_at h r -> with_lock r body h = (Panic PPoison, h).
Proof. intros [d H]. unfold with_lock. rewrite H. reflexivity. Qed.

Lemma bind_assoc {A B C} (x : M A) (f : A -> M B) (g : B -> M C) h :
  bind (bind x f) g h = bind x (fun a => bind (f a) g) h.
Proof. unfold bind. destruct (x h) as [[| | | |] ?]; reflexivity. Qed.

Lemma bind_ret {A B} (x : M A) (k : A -> M B) h a h' :
  x h = (Ret a, h') -> bind x k h = k a h'.
Proof. intros H. unfold bind. rewrite H. reflexivity. Qed.

Lemma bind_panic {A B} (x : M A) (k : A -> M B) h f h' :
  x h = (Panic f, h') -> bind x k h = (Panic f, h').
Proof. intros H. unfold bind. rewrite H. reflexivity. Qed.

(** ** Getter *)

Lemma hget_loop_cell h r d i n v : cell_at h r d ->
  hget_loop r i n v h =
  match get_loop d i n v with
  | Ret x => (Ret x, h)
  | Panic f => (Panic f, upd h r (Cell d true))
  | o => (o, h)
  end.
Proof.
  intros H. revert i v; induction n as [|n IH]; intros i v; [reflexivity|].
  cbn [hget_loop get_loop]. unfold bind at 1. rewrite (with_lock_cell _ _ d) by auto.
  unfold index. destruct (nth_error d (i / 8)) as [b|]; cbn [obind].
  - rewrite (upd_same h r (Cell d false)) by auto. apply IH.
  - reflexivity.
Qed.

Lemma get_loop_cases d i n v : (exists x, get_loop d i n v = Ret x) \/ get_loop d i n v = Panic PIndex.
Proof.
  revert i v; induction n as [|n IH]; intros i v; [left; eexists; reflexivity|].
  cbn [get_loop]. unfold index. destruct (nth_error d (i / 8)); cbn [obind]; auto.
Qed.

(** In range: the borrowed getter's result, and nothing changes. *)
Lemma hbit_range_in m x h d msb lsb : cell_at h (h_ref x) d -> (msb < 8 * length d)%nat ->
  hbit_range m x msb lsb h = (get_bits m d msb lsb, h).
Proof.
  intros H Hr. unfold hbit_range, get_bits, bind.
  rewrite (hget_loop_cell _ _ d) by auto.
  destruct (get_loop d lsb (range_len msb lsb) 0) eqn:E; try reflexivity.
  exfalso. revert E. unfold range_len.
  assert (G : forall i n v f, (i + n <= S msb)%nat -> get_loop d i n v <> Panic f).
  { intros i n. revert i. induction n as [|n IH]; intros i v f' Hi; cbn [get_loop]; [discriminate|].
    rewrite (index_lt d (i / 8) 0) by (apply div8_lt; lia). cbn [obind]. apply IH. lia. }
  intros E. destruct (Nat.le_gt_cases lsb (S msb)).
  - revert E. apply G. lia.
  - replace (S msb - lsb)%nat with O in E by lia. discriminate.
Qed.

Lemma hget_in m x h d f : cell_at h (h_ref x) d -> (f_end f < 8 * length d)%nat ->
  hget m x f h = (get_bits m d (f_end f) (f_start f), h).
Proof. apply hbit_range_in. Qed.

Lemma hget_val m x h d f : cell_at h (h_ref x) d -> bytes_ok d -> field_in f (length d) ->
  (f_width f <= 64)%nat -> hget m x f h = (Ret (field_val d f), h).
Proof.
  intros H Hd [H1 H2] Hw. rewrite (hget_in m x h d) by auto.
  rewrite get_bits_val; auto.
Qed.

Lemma hbit_range_oob m x h d msb lsb : cell_at h (h_ref x) d -> (lsb <= msb)%nat ->
  (8 * length d <= msb)%nat ->
  hbit_range m x msb lsb h = (Panic PIndex, upd h (h_ref x) (Cell d true)).
Proof.
  intros H H1 H2. unfold hbit_range, bind. rewrite (hget_loop_cell _ _ d) by auto.
  unfold range_len. rewrite get_loop_oob by lia. reflexivity.
Qed.

Lemma hbit_range_poisoned m x h msb lsb : poisoned_at h (h_ref x) -> (lsb <= msb)%nat ->
  hbit_range m x msb lsb h = (Panic PPoison, h).
Proof.
  intros H H1. unfold hbit_range, bind, range_len. replace (S msb - lsb)%nat with (S (msb - lsb)) by lia.
  cbn [hget_loop]. unfold bind. rewrite with_lock_poisoned by auto. reflexivity.
Qed.

(** ** Setter *)

Lemma u8_land_1 v : u8 (N.land v 1) = b2n (N.testbit v 0).
Proof.
  rewrite <- (N.shiftr_0_r v) at 1. rewrite land_1. destruct (N.testbit v 0); reflexivity.
Qed.

Lemma hset_loop_in r h d lsb n v : cell_at h r d -> bytes_ok d -> (lsb + n <= 8 * length d)%nat ->
  hset_loop r lsb n v h = (Ret tt, upd h r (Cell (wbits d lsb n v) false)).
Proof.
  revert h d v; induction n as [|n IH]; intros h d v H Hd Hr; cbn [hset_loop wbits].
  - rewrite upd_same by auto. reflexivity.
  - unfold bind. rewrite (with_lock_cell _ _ d) by auto.
    rewrite u8_land_1, set_bit_step_ok by (auto; lia).
    erewrite IH.
    + rewrite upd_upd. reflexivity.
    + unfold cell_at. eapply cell_at_upd; eauto.
    + apply wbit_ok; auto.
    + rewrite wbit_length. lia.
Qed.

Lemma hset_bit_range_in x h d msb lsb v : cell_at h (h_ref x) d -> bytes_ok d ->
  (lsb <= msb)%nat -> (msb < 8 * length d)%nat ->
  hset_bit_range x msb lsb v h =
  (Ret tt, upd h (h_ref x) (Cell (wbits d lsb (msb - lsb + 1) v) false)).
Proof.
  intros H Hd H1 H2. unfold hset_bit_range, range_len.
  replace (S msb - lsb)%nat with (msb - lsb + 1)%nat by lia. apply hset_loop_in; auto. lia.
Qed.

(** The contents after [set_field(v)]. *)
Definition fset (d : list N) (f : field) (v : N) : list N := wbits d (f_start f) (f_width f) v.

Lemma hset_in x h d f v : cell_at h (h_ref x) d -> bytes_ok d -> field_in f (length d) ->
  hset x f v h = (Ret tt, upd h (h_ref x) (Cell (fset d f v) false)).
Proof. intros H Hd [H1 H2]. unfold hset, fset, f_width. apply hset_bit_range_in; auto. Qed.

Lemma fset_length d f v : length (fset d f v) = length d.
Proof. apply wbits_length. Qed.
Lemma fset_ok d f v : bytes_ok d -> bytes_ok (fset d f v).
Proof. apply wbits_ok. Qed.

Lemma field_val_fset d f v : bytes_ok d -> field_in f (length d) ->
  field_val (fset d f v) f = v mod 2 ^ N.of_nat (f_width f).
Proof.
  intros Hd [H1 H2]. unfold field_val, fset, f_width. rewrite <- rv_bits_val by auto.
  apply rv_wbits; auto. lia.
Qed.

Lemma bit_fset d f v j : field_in f (length d) ->
  bit (fset d f v) j =
  if ((f_start f <=? j) && (j <=? f_end f))%nat then N.testbit v (N.of_nat (f_end f - j)) else bit d j.
Proof.
  intros [H1 H2]. unfold fset, f_width. rewrite bit_wbits by lia.
  destruct (Nat.leb_spec (f_start f) j); simpl; auto.
  destruct (Nat.ltb_spec j (f_start f + (f_end f - f_start f + 1)));
    destruct (Nat.leb_spec j (f_end f)); try lia; auto.
  f_equal. lia.
Qed.

Lemma field_val_ext d d' f : bytes_ok d -> bytes_ok d' -> length d = length d' ->
  field_in f (length d) ->
  (forall j, (f_start f <= j <= f_end f)%nat -> bit d j = bit d' j) -> field_val d f = field_val d' f.
Proof.
  intros Hd Hd' Hl [H1 H2] He. unfold field_val. rewrite <- !rv_bits_val by auto.
  apply rv_ext; auto. lia. intros j Hj. apply He. lia.
Qed.

Lemma hset_oob x h d f v : cell_at h (h_ref x) d -> (f_start f <= f_end f)%nat ->
  (8 * length d <= f_end f)%nat ->
  hset x f v h = (Panic PIndex, upd h (h_ref x) (Cell d true)).
Proof.
  intros H H1 H2. unfold hset, hset_bit_range, range_len.
  replace (S (f_end f) - f_start f)%nat with (S (f_end f - f_start f)) by lia.
  cbn [hset_loop]. unfold bind. rewrite (with_lock_cell _ _ d) by auto.
  rewrite set_bit_step_oob by lia. reflexivity.
Qed.

Lemma hset_poisoned x h f v : poisoned_at h (h_ref x) -> (f_start f <= f_end f)%nat ->
  hset x f v h = (Panic PPoison, h).
Proof.
  intros H H1. unfold hset, hset_bit_range, range_len.
  replace (S (f_end f) - f_start f)%nat with (S (f_end f - f_start f)) by lia.
  cbn [hset_loop]. unfold bind. rewrite with_lock_poisoned by auto. reflexivity.
Qed.

(** ** to_vec, new, from *)

Lemma hto_vec_cell x h d : cell_at h (h_ref x) d -> hto_vec x h = (Ret d, h).
Proof. intros H. unfold hto_vec. rewrite (with_lock_cell _ _ d) by auto. rewrite upd_same; auto. Qed.

Lemma hto_vec_poisoned x h : poisoned_at h (h_ref x) -> hto_vec x h = (Panic PPoison, h).
Proof. apply with_lock_poisoned. Qed.

Lemma hfrom_run T d h : hfrom T d h = (Ret (Hdr T (length h)), h ++ [Cell d false]).
Proof. reflexivity. Qed.

Lemma hnew_run T h : hnew T h = (Ret (Hdr T (length h)), h ++ [Cell (ht_default T) false]).
Proof. reflexivity. Qed.

(** ** bytes *)

Lemma get_bits_octet m d i : bytes_ok d -> (i + 8 <= 8 * length d)%nat ->
  get_bits m d (i + 7) i = Ret (rv d i 8).
Proof.
  intros Hd H. rewrite get_bits_val by (auto; lia). rewrite <- rv_bits_val by lia.
  replace (i + 7 - i + 1)%nat with 8%nat by lia. reflexivity.
Qed.

(** [n] consecutive octets starting at bit [i]. *)
Fixpoint octets (d : list N) (i n : nat) : list N :=
  match n with
  | O => []
  | S n' => rv d i 8 :: octets d (i + 8) n'
  end.

Lemma octets_length d i n : length (octets d i n) = n.
Proof. revert i; induction n; simpl; intros; auto. Qed.

Lemma octets_ok d i n : bytes_ok (octets d i n).
Proof.
  revert i; induction n as [|n IH]; intros i; [constructor|].
  cbn [octets]. constructor; [apply (rv_bound d i 8)|apply IH].
Qed.

Lemma rv_split d i a b : bytes_ok d -> (i + a + b <= 8 * length d)%nat ->
  rv d i (a + b) = rv d i a * 2 ^ N.of_nat b + rv d (i + a) b.
Proof.
  intros Hd H. apply N_bits_inj_nat. intros k.
  rewrite testbit_shift_add by apply rv_bound. rewrite !rv_testbit by (auto; lia).
  destruct (N.ltb_spec (N.of_nat k) (N.of_nat b)) as [Hk|Hk].
  - rewrite !(proj2 (Nat.ltb_lt _ _)) by lia. f_equal. lia.
  - replace (N.of_nat k - N.of_nat b) with (N.of_nat (k - b)) by lia. rewrite rv_testbit by (auto; lia).
    destruct (Nat.ltb_spec k (a + b)); destruct (Nat.ltb_spec (k - b) a); try lia; auto. f_equal. lia.
Qed.

Lemma be_octets d i n : bytes_ok d -> (i + 8 * n <= 8 * length d)%nat ->
  be (octets d i n) = rv d i (8 * n).
Proof.
  intros Hd. revert i; induction n as [|n IH]; intros i H.
  - simpl. rewrite rv_0. reflexivity.
  - cbn [octets be]. rewrite octets_length, pow256, IH by lia.
    replace (8 * S n)%nat with (8 + 8 * n)%nat by lia. rewrite rv_split by (auto; lia). reflexivity.
Qed.

Lemma bytes_loop_val m d i n : bytes_ok d -> (i + 8 * n <= 8 * length d)%nat ->
  bytes_loop m d i n = Ret (octets d i n).
Proof.
  intros Hd. revert i; induction n as [|n IH]; intros i H; [reflexivity|].
  cbn [bytes_loop octets]. rewrite get_bits_octet by (auto; lia). cbn [obind].
  rewrite IH by lia. cbn [obind]. unfold u8. rewrite N.mod_small; auto. apply (rv_bound d i 8).
Qed.

Lemma hbytes_loop_in m x h d i n : cell_at h (h_ref x) d -> (i + 8 * n <= 8 * length d)%nat ->
  hbytes_loop m x i n h = (bytes_loop m d i n, h).
Proof.
  intros H. revert i; induction n as [|n IH]; intros i Hr; [reflexivity|].
  cbn [hbytes_loop bytes_loop]. unfold bind. rewrite (hbit_range_in m x h d) by (auto; lia).
  destruct (get_bits m d (i + 7) i); try reflexivity. cbn [obind].
  rewrite IH by lia. destruct (bytes_loop m d (i + 8) n); reflexivity.
Qed.
