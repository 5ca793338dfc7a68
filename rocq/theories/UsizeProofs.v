(** UsizeProofs.v -- lemmas for C94: calculations with [usize] never leave what the other files calculate with [nat]. *)

From Coq Require Import Lia.
From Verif Require Import Base Bits Layout Heap Types Packet Build Utils Fast Ops Usize Spec UsizeSpec BitsProofs HeapProofs.
Open Scope N_scope.

Lemma pow_split W : 6 <= W -> 2 ^ W = 64 * 2 ^ (W - 6).
Proof. intros H. replace W with (6 + (W - 6)) at 1 by lia. rewrite N.pow_add_r. reflexivity. Qed.
Lemma pow_pos W : 0 < 2 ^ W.
Proof. apply N.neq_0_lt_0, N.pow_nonzero. lia. Qed.

Lemma place_nat m W j : w_place m W (N.of_nat j) = Ret (N.of_nat (8 - j mod 8 - 1)).
Proof.
  unfold w_place. change 8 with (N.of_nat 8) at 2. rewrite <- Nat2N.inj_mod. pose proof (Nat.mod_upper_bound j 8 ltac:(lia)) as B.
  unfold wsub. destruct (N.leb_spec (N.of_nat (j mod 8)) 8); [|lia]. cbn [obind]. destruct (N.leb_spec 1 (8 - N.of_nat (j mod 8))); [|lia]. f_equal. lia.
Qed.
Lemma windex_nat (d : list N) j : windex d (N.of_nat j / 8) = index d (j / 8).
Proof. unfold windex. change 8 with (N.of_nat 8). rewrite <- Nat2N.inj_div, Nat2N.id. reflexivity. Qed.
Lemma bit_nat m W d j : w_bit m W d (N.of_nat j) = olet b := index d (j / 8) in Ret (N.land (N.shiftr b (N.of_nat (8 - j mod 8 - 1))) 1).
Proof.
  unfold w_bit. rewrite windex_nat. destruct (index d (j / 8)) as [b| | | |]; cbn [obind]; auto. rewrite place_nat. cbn [obind].
  pose proof (Nat.mod_upper_bound j 8 ltac:(lia)) as B. unfold wshr. destruct (N.ltb_spec (N.of_nat (8 - j mod 8 - 1)) 8); [|lia]. reflexivity.
Qed.
Lemma get_loop_nat m W d n : forall j v, w_get_loop m W d (N.of_nat j) n v = get_loop d j n v.
Proof.
  induction n as [|n IH]; intros j v; [reflexivity|]. cbn [w_get_loop get_loop]. change (wshl m 64 v 1) with (Ret (shl64 v 1)). cbn [obind].
  rewrite bit_nat. destruct (index d (j / 8)) as [b| | | |]; cbn [obind]; auto. replace (N.of_nat j + 1) with (N.of_nat (S j)) by lia. apply IH.
Qed.
Lemma hget_loop_nat m W r n : forall j v h, w_hget_loop m W r (N.of_nat j) n v h = hget_loop r j n v h.
Proof.
  induction n as [|n IH]; intros j v h; [reflexivity|]. cbn [w_hget_loop hget_loop]. change (wshl m 64 v 1) with (Ret (shl64 v 1)). unfold bind at 1, lift.
  unfold bind, with_lock. destruct (nth_error h r) as [[d [|]]|]; cbn [c_poisoned c_data]; auto. rewrite bit_nat.
  destruct (index d (j / 8)) as [b| | | |]; cbn [obind]; auto. replace (N.of_nat j + 1) with (N.of_nat (S j)) by lia. apply IH.
Qed.
Lemma times_nat msb lsb : w_times (N.of_nat msb) (N.of_nat lsb) = range_len msb lsb.
Proof. unfold w_times, range_len. lia. Qed.
Lemma steps_nat msb lsb : w_steps (N.of_nat msb) (N.of_nat lsb) = step8_len msb lsb.
Proof.
  unfold w_steps, step8_len, range_len. replace (N.of_nat msb + 1 - N.of_nat lsb + 7) with (N.of_nat (S msb - lsb + 7)) by lia.
  change 8 with (N.of_nat 8). rewrite <- Nat2N.inj_div. apply Nat2N.id.
Qed.

(** ** The end of [bit_range] *)

Lemma finish_nat m W msb lsb v : 6 <= W -> is_usize W msb -> is_usize W lsb -> ~ whole W msb lsb -> ((msb < lsb)%nat -> v = 0) ->
  w_finish m W (N.of_nat msb) (N.of_nat lsb) v = finish m msb lsb v.
Proof.
  unfold is_usize, whole. intros W6 Um Ul Nw Z. pose proof (pow_split W W6) as P. pose proof (pow_pos (W - 6)) as P0. unfold w_finish, w_amount, finish.
  destruct (Nat.ltb_spec msb lsb) as [L|L].
  - specialize (Z L). subst v. unfold wsub at 1 3. destruct (N.leb_spec (N.of_nat lsb) (N.of_nat msb)); [lia|]. destruct m; [reflexivity|]. cbn [obind].
    unfold wadd. destruct (N.ltb_spec (2 ^ W + N.of_nat msb - N.of_nat lsb + 1) (2 ^ W)) as [H1|H1]; cbn [obind].
    + unfold wsub. destruct (N.leb_spec (2 ^ W + N.of_nat msb - N.of_nat lsb + 1) 64); cbn [obind]; unfold wshl; destruct (_ <? 64); cbn [obind]; rewrite N.shiftl_0_l, N.mod_0_l by lia;
        unfold wshr; destruct (_ <? 64); rewrite N.shiftr_0_l; reflexivity.
    + unfold wsub. destruct (_ <=? 64); cbn [obind]; unfold wshl; destruct (_ <? 64); cbn [obind]; rewrite N.shiftl_0_l, N.mod_0_l by lia;
        unfold wshr; destruct (_ <? 64); rewrite N.shiftr_0_l; reflexivity.
  - unfold wsub at 1 3. destruct (N.leb_spec (N.of_nat lsb) (N.of_nat msb)); [|lia]. cbn [obind]. unfold wadd.
    destruct (N.ltb_spec (N.of_nat msb - N.of_nat lsb + 1) (2 ^ W)) as [H1|H1]; [|exfalso; apply Nw; lia]. cbn [obind].
    replace (N.of_nat msb - N.of_nat lsb + 1) with (N.of_nat (msb - lsb + 1)) in * by lia. set (w := (msb - lsb + 1)%nat) in *. unfold wsub.
    destruct (Nat.leb_spec w 64) as [H2|H2].
    + destruct (N.leb_spec (N.of_nat w) 64); [|lia]. cbn [obind]. unfold wshl, wshr. destruct (N.ltb_spec (64 - N.of_nat w) 64); [|lia]. cbn [obind].
      replace (N.of_nat (64 - w)) with (64 - N.of_nat w) by lia. reflexivity.
    + destruct (N.leb_spec (N.of_nat w) 64); [lia|]. destruct m; [reflexivity|]. cbn [obind]. unfold wshl, wshr.
      destruct (N.ltb_spec (2 ^ W + 64 - N.of_nat w) 64); [lia|]. cbn [obind].
      assert (E : (2 ^ W + 64 - N.of_nat w) mod 64 = N.of_nat ((64 - w mod 64) mod 64)).
      { rewrite !Nat2N.inj_mod. rewrite Nat2N.inj_sub, Nat2N.inj_mod. change (N.of_nat 64) with 64.
        pose proof (N.div_mod (N.of_nat w) 64 ltac:(lia)) as D. pose proof (N.mod_upper_bound (N.of_nat w) 64 ltac:(lia)) as B.
        set (q := N.of_nat w / 64) in *. set (r := N.of_nat w mod 64) in *. rewrite P, D.
        replace (64 * 2 ^ (W - 6) + 64 - (64 * q + r)) with (64 - r + (2 ^ (W - 6) - q) * 64) by lia. apply N.mod_add. lia. }
      rewrite E. reflexivity.
Qed.
Lemma get_loop_none d lsb msb v : (msb < lsb)%nat -> get_loop d lsb (range_len msb lsb) v = Ret v.
Proof. intros L. unfold range_len. replace (S msb - lsb)%nat with O by lia. reflexivity. Qed.
Lemma get_bits_nat m W d msb lsb : 6 <= W -> is_usize W msb -> is_usize W lsb -> (whole W msb lsb -> numbered W d) ->
  w_get_bits m W d (N.of_nat msb) (N.of_nat lsb) = get_bits m d msb lsb.
Proof.
  intros W6 Um Ul Nd. unfold w_get_bits, get_bits. rewrite times_nat, get_loop_nat.
  destruct (get_loop d lsb (range_len msb lsb) 0) as [v| | | |] eqn:E; cbn [obind]; auto. apply finish_nat; auto.
  - intros X. specialize (Nd X). destruct X as (X & ->). unfold numbered in Nd. pose proof (pow_pos W). unfold range_len in E.
    rewrite get_loop_oob in E by lia. discriminate.
  - intros L. rewrite get_loop_none in E by auto. congruence.
Qed.
Lemma hget_loop_data r n : forall j v h a h', hget_loop r j n v h = (Ret a, h') -> (n <> 0)%nat -> exists d, cell_at h r d /\ (j + n <= 8 * length d)%nat.
Proof.
  intros j v h a h' E Z. destruct (nth_error h r) as [[d [|]]|] eqn:N.
  - destruct n; [lia|]. cbn [hget_loop] in E. unfold bind, with_lock in E. rewrite N in E. discriminate.
  - exists d. split; [exact N|]. rewrite (hget_loop_cell h r d) in E by exact N. destruct (Nat.le_gt_cases (j + n) (8 * length d)); auto.
    rewrite get_loop_oob in E by lia. discriminate.
  - destruct n; [lia|]. cbn [hget_loop] in E. unfold bind, with_lock in E. rewrite N in E. discriminate.
Qed.
Lemma hbit_range_nat m W x msb lsb h : 6 <= W -> is_usize W msb -> is_usize W lsb -> (whole W msb lsb -> heap_numbered W h) ->
  w_hbit_range m W x (N.of_nat msb) (N.of_nat lsb) h = hbit_range m x msb lsb h.
Proof.
  intros W6 Um Ul Nd. unfold w_hbit_range, hbit_range, bind, lift. rewrite times_nat, hget_loop_nat.
  destruct (hget_loop (h_ref x) lsb (range_len msb lsb) 0 h) as [[v| | | |] h'] eqn:E; auto. rewrite finish_nat; auto.
  - intros X. pose proof (Nd X) as H. destruct X as (X & ->). pose proof (pow_split W W6). pose proof (pow_pos (W - 6)). unfold range_len in E.
    destruct (hget_loop_data _ _ _ _ _ _ _ E ltac:(lia)) as (d & C & L). pose proof (H _ _ C) as Q. unfold numbered in Q. cbn [c_data] in Q. lia.
  - intros L. unfold range_len in E. replace (S msb - lsb)%nat with O in E by lia. injection E as <- _. reflexivity.
Qed.
Lemma octet_not_whole W i : 6 <= W -> ~ whole W (i + 7) i.
Proof. intros W6 (X & ->). pose proof (pow_split W W6). pose proof (pow_pos (W - 6)). lia. Qed.

(** ** Writing *)

Lemma upd_twice {A} (l : list A) i a b : upd (upd l i a) i b = upd l i b.
Proof. revert i. induction l as [|x l IH]; intros [|i]; cbn [upd]; auto. now rewrite IH. Qed.
Lemma set_bit_nat m W d j b : b < 256 -> w_set_bit m W d (N.of_nat j) b = set_bit_step d j b.
Proof.
  intros Hb. unfold w_set_bit, set_bit_step. rewrite place_nat. cbn [obind]. pose proof (Nat.mod_upper_bound j 8 ltac:(lia)) as B. unfold wshl.
  destruct (N.ltb_spec (N.of_nat (8 - j mod 8 - 1)) 8); [|lia]. cbn [obind]. rewrite windex_nat.
  replace (N.to_nat (N.of_nat j / 8)) with (j / 8)%nat by (change 8 with (N.of_nat 8); rewrite <- Nat2N.inj_div, Nat2N.id; reflexivity).
  unfold index at 1 2. destruct (nth_error d (j / 8)) as [x|] eqn:E; cbn [obind]; [|reflexivity]. rewrite windex_nat. unfold index.
  assert (U : forall y, nth_error (upd d (j / 8) y) (j / 8) = Some y).
  { intros y. clear -E. revert E. generalize (j / 8)%nat. induction d as [|z d IH]; intros [|i] E; cbn in *; try discriminate; auto. }
  rewrite U. cbn [obind]. rewrite upd_twice. reflexivity.
Qed.
Lemma hset_loop_nat m W r lsb n : forall v h, w_hset_loop m W r (N.of_nat lsb) n v h = hset_loop r lsb n v h.
Proof.
  induction n as [|n IH]; intros v h; [reflexivity|]. cbn [w_hset_loop hset_loop]. change (wshr m 64 v 1) with (Ret (N.shiftr v 1)). unfold bind at 1 3, with_lock.
  destruct (nth_error h r) as [[d [|]]|]; cbn [c_poisoned c_data]; auto. replace (N.of_nat lsb + N.of_nat n) with (N.of_nat (lsb + n)) by lia.
  rewrite set_bit_nat by (unfold u8; apply N.mod_upper_bound; lia). destruct (set_bit_step d (lsb + n) _) as [[u| | | |] d']; auto. unfold bind, lift. apply IH.
Qed.
Lemma hset_bit_range_nat m W x msb lsb v h : w_hset_bit_range m W x (N.of_nat msb) (N.of_nat lsb) v h = hset_bit_range x msb lsb v h.
Proof. unfold w_hset_bit_range, hset_bit_range. rewrite times_nat. apply hset_loop_nat. Qed.

(** ** bytes and set_bytes *)

Lemma add7 m W i : N.of_nat i + 7 < 2 ^ W -> wadd m W (N.of_nat i) 7 = Ret (N.of_nat (i + 7)).
Proof. intros H. unfold wadd. destruct (N.ltb_spec (N.of_nat i + 7) (2 ^ W)); [|lia]. f_equal. lia. Qed.
Lemma bytes_loop_nat m W d n : 6 <= W -> forall i, N.of_nat (i + 8 * n) <= 2 ^ W -> w_bytes_loop m W d (N.of_nat i) n = bytes_loop m d i n.
Proof.
  intros W6. induction n as [|n IH]; intros i H; [reflexivity|]. cbn [w_bytes_loop bytes_loop]. rewrite add7 by lia. cbn [obind].
  rewrite get_bits_nat by (auto; unfold is_usize; try lia; intros X; destruct (octet_not_whole W i W6 X)).
  destruct (get_bits m d (i + 7) i); cbn [obind]; auto. replace (N.of_nat i + 8) with (N.of_nat (i + 8)) by lia. rewrite IH by lia. reflexivity.
Qed.
Lemma hbytes_loop_nat m W x n : 6 <= W -> forall i h, N.of_nat (i + 8 * n) <= 2 ^ W -> w_hbytes_loop m W x (N.of_nat i) n h = hbytes_loop m x i n h.
Proof.
  intros W6. induction n as [|n IH]; intros i h H; [reflexivity|]. cbn [w_hbytes_loop hbytes_loop]. rewrite add7 by lia. unfold bind, lift.
  rewrite hbit_range_nat by (auto; unfold is_usize; try lia; intros X; destruct (octet_not_whole W i W6 X)).
  destruct (hbit_range m x (i + 7) i h) as [[v| | | |] h']; auto. replace (N.of_nat i + 8) with (N.of_nat (i + 8)) by lia. rewrite IH by lia. reflexivity.
Qed.
Lemma hset_bytes_loop_nat m W x v n : 6 <= W -> numbered W v -> forall i k h, N.of_nat (i + 8 * n) <= 2 ^ W ->
  w_hset_bytes_loop m W x (N.of_nat i) n v (N.of_nat k) h = hset_bytes_loop x i n v k h.
Proof.
  intros W6 Nv. unfold numbered in Nv. induction n as [|n IH]; intros i k h H; [reflexivity|]. cbn [w_hset_bytes_loop hset_bytes_loop]. rewrite add7 by lia. unfold bind, lift.
  unfold windex. rewrite Nat2N.id. unfold index. destruct (nth_error v k) as [b|] eqn:E; auto. rewrite hset_bit_range_nat.
  destruct (hset_bit_range x (i + 7) i b h) as [[u| | | |] h']; auto.
  assert (K : (k < length v)%nat) by (apply nth_error_Some; congruence). unfold wadd. destruct (N.ltb_spec (N.of_nat k + 1) (2 ^ W)); [|lia].
  replace (N.of_nat i + 8) with (N.of_nat (i + 8)) by lia. replace (N.of_nat k + 1) with (N.of_nat (S k)) by lia. apply IH. lia.
Qed.
Lemma whole_usize_whole msb lsb : whole_usize msb lsb = true <-> whole 64 msb lsb.
Proof. unfold whole_usize, whole. rewrite andb_true_iff, N.eqb_eq, Nat.eqb_eq. reflexivity. Qed.
Lemma steps_room W msb lsb : 6 <= W -> is_usize W msb -> is_usize W lsb -> (lsb <= msb)%nat -> ((msb - lsb + 1) mod 8 = 0)%nat ->
  N.of_nat (lsb + 8 * step8_len msb lsb) <= 2 ^ W.
Proof.
  unfold is_usize. intros W6 Um Ul L Z. unfold step8_len, range_len. replace (S msb - lsb)%nat with (msb - lsb + 1)%nat by lia.
  pose proof (Nat.div_mod (msb - lsb + 1) 8 ltac:(lia)) as D. rewrite Z in D. rewrite D. replace (8 * ((msb - lsb + 1) / 8) + 0 + 7)%nat with (7 + (msb - lsb + 1) / 8 * 8)%nat by lia.
  rewrite Nat.div_add by lia. change (7 / 8)%nat with O. lia.
Qed.
Lemma steps_none msb lsb : (msb < lsb)%nat -> step8_len msb lsb = O.
Proof. intros L. unfold step8_len, range_len. replace (S msb - lsb)%nat with O by lia. reflexivity. Qed.
Lemma width_of_usize m W msb lsb : is_usize W msb -> is_usize W lsb ->
  (olet a := wsub m W (N.of_nat msb) (N.of_nat lsb) in wadd m W a 1) =
  if (msb <? lsb)%nat then match m with Debug => Panic POverflow | Release => Ret ((2 ^ W + N.of_nat msb + 1 - N.of_nat lsb) mod 2 ^ W) end
  else if (N.of_nat msb =? 2 ^ W - 1) && (lsb =? 0)%nat then match m with Debug => Panic POverflow | Release => Ret 0 end
  else Ret (N.of_nat (msb - lsb + 1)).
Proof.
  unfold is_usize. intros Um Ul. unfold wsub. destruct (Nat.ltb_spec msb lsb) as [L|L].
  - destruct (N.leb_spec (N.of_nat lsb) (N.of_nat msb)); [lia|]. destruct m; cbn [obind]; auto. unfold wadd.
    replace (2 ^ W + N.of_nat msb - N.of_nat lsb + 1) with (2 ^ W + N.of_nat msb + 1 - N.of_nat lsb) by lia.
    destruct (N.ltb_spec (2 ^ W + N.of_nat msb + 1 - N.of_nat lsb) (2 ^ W)); [|reflexivity]. rewrite N.mod_small by auto. reflexivity.
  - destruct (N.leb_spec (N.of_nat lsb) (N.of_nat msb)); [|lia]. cbn [obind]. unfold wadd.
    destruct (N.eqb_spec (N.of_nat msb) (2 ^ W - 1)) as [E|E]; [destruct (Nat.eqb_spec lsb 0) as [E0|E0]|]; cbn [andb].
    + destruct (N.ltb_spec (N.of_nat msb - N.of_nat lsb + 1) (2 ^ W)); [lia|]. destruct m; auto. f_equal.
      replace (N.of_nat msb - N.of_nat lsb + 1) with (2 ^ W) by lia. apply N.mod_same. pose proof (pow_pos W). lia.
    + destruct (N.ltb_spec (N.of_nat msb - N.of_nat lsb + 1) (2 ^ W)); [|lia]. f_equal. lia.
    + destruct (N.ltb_spec (N.of_nat msb - N.of_nat lsb + 1) (2 ^ W)); [|lia]. f_equal. lia.
Qed.
Lemma mod8_of W a : 6 <= W -> (a mod 2 ^ W) mod 8 = a mod 8.
Proof.
  intros W6. pose proof (pow_split W W6) as P. pose proof (pow_pos W) as PW. assert (D : a = 2 ^ W * (a / 2 ^ W) + a mod 2 ^ W) by (apply N.div_mod; lia).
  remember (a / 2 ^ W) as q. remember (a mod 2 ^ W) as r. replace a with (r + (8 * 2 ^ (W - 6) * q) * 8) by lia. symmetry. apply N.mod_add. lia.
Qed.
Lemma whole_narrow W msb lsb : W <= 64 -> W <> 64 -> is_usize W msb -> whole_usize msb lsb = false.
Proof.
  unfold is_usize. intros L Ne U. apply Bool.not_true_iff_false. rewrite whole_usize_whole. intros (X & _). assert (2 ^ W <= 2 ^ 63) by (apply N.pow_le_mono_r; lia). lia.
Qed.
(** On machines of another width than the one written into the model some ranges are excepted. *)
Lemma whole_same W msb lsb : W <= 64 -> is_usize W msb -> (W = 64 \/ ~ whole W msb lsb) -> (N.of_nat msb =? 2 ^ W - 1) && (lsb =? 0)%nat = whole_usize msb lsb.
Proof.
  intros L U [->|N]; [reflexivity|]. destruct (N.eq_dec W 64) as [->|Ne]; [reflexivity|]. rewrite (whole_narrow W) by auto.
  apply Bool.not_true_iff_false. rewrite andb_true_iff, N.eqb_eq, Nat.eqb_eq. exact N.
Qed.
Lemma obind_assoc {A B C} (x : out A) (f : A -> out B) (g : B -> out C) : obind x (fun a => obind (f a) g) = obind (obind x f) g.
Proof. destruct x; reflexivity. Qed.
Lemma guard_nat m W msb lsb : 6 <= W <= 64 -> is_usize W msb -> is_usize W lsb -> (W = 64 \/ ~ whole W msb lsb) ->
  w_guard m W (N.of_nat msb) (N.of_nat lsb) = bytes_guard m msb lsb.
Proof.
  intros (W6 & W64) Um Ul A. unfold w_guard. rewrite obind_assoc, width_of_usize by auto. unfold bytes_guard. rewrite (whole_same W) by auto.
  destruct (Nat.ltb_spec msb lsb) as [L|L].
  - destruct m; [reflexivity|]. cbn [obind]. rewrite mod8_of by auto. unfold is_usize in *. pose proof (pow_split W W6) as P. pose proof (pow_pos (W - 6)) as P0.
    assert (E : (2 ^ W + N.of_nat msb + 1 - N.of_nat lsb) mod 8 = 0 <-> ((lsb - msb - 1) mod 8 = 0)%nat).
    { split; intros E.
      - apply N.mod_divide in E; [|lia]. destruct E as [k E]. apply Nat.mod_divide; [lia|]. exists (N.to_nat (8 * 2 ^ (W - 6) - k)). lia.
      - apply Nat.mod_divide in E; [|lia]. destruct E as [k E]. apply N.mod_divide; [lia|]. exists (8 * 2 ^ (W - 6) - N.of_nat k). lia. }
    destruct (N.eqb_spec ((2 ^ W + N.of_nat msb + 1 - N.of_nat lsb) mod 8) 0), (Nat.eqb_spec ((lsb - msb - 1) mod 8) 0); auto; tauto.
  - destruct (whole_usize msb lsb) eqn:Wh; [destruct m; reflexivity|]. cbn [obind]. change 8 with (N.of_nat 8) at 1. rewrite <- Nat2N.inj_mod.
    destruct (Nat.eqb_spec ((msb - lsb + 1) mod 8) 0) as [->|E]; [reflexivity|]. destruct (N.eqb_spec (N.of_nat ((msb - lsb + 1) mod 8)) 0); [lia|reflexivity].
Qed.
Lemma set_guard_nat m W len msb lsb : 6 <= W <= 64 -> is_usize W msb -> is_usize W lsb -> 8 * N.of_nat len < 2 ^ W -> (W = 64 \/ ~ whole W msb lsb /\ (lsb <= msb)%nat) ->
  w_set_guard m W (N.of_nat len) (N.of_nat msb) (N.of_nat lsb) = set_bytes_guard m len msb lsb.
Proof.
  intros (W6 & W64) Um Ul Hl A. unfold w_set_guard, wmul. destruct (N.ltb_spec (N.of_nat len * 8) (2 ^ W)); [|lia]. cbn [obind].
  rewrite obind_assoc, width_of_usize by auto. unfold set_bytes_guard. rewrite (whole_same W) by tauto.
  destruct (Nat.ltb_spec msb lsb) as [L|L].
  - destruct m; [reflexivity|]. cbn [obind]. destruct A as [->|A]; [|lia]. unfold is_usize in *.
    assert (E : N.of_nat len * 8 = (2 ^ 64 + N.of_nat msb + 1 - N.of_nat lsb) mod 2 ^ 64 <-> N.of_nat (len * 8 + (lsb - msb - 1)) mod 2 ^ 64 = 0).
    { destruct (N.eq_dec (N.of_nat lsb) (N.of_nat msb + 1)) as [Z|Z].
      - replace (2 ^ 64 + N.of_nat msb + 1 - N.of_nat lsb) with (2 ^ 64) by lia. rewrite N.mod_same by lia. replace (N.of_nat (len * 8 + (lsb - msb - 1))) with (N.of_nat len * 8) by lia.
        rewrite N.mod_small by lia. reflexivity.
      - rewrite (N.mod_small (2 ^ 64 + _ + _ - _)) by lia. split; intros E.
        + replace (N.of_nat (len * 8 + (lsb - msb - 1))) with (2 ^ 64) by lia. apply N.mod_same. lia.
        + apply N.mod_divide in E; [|lia]. destruct E as [k E]. assert (k = 1) by lia. subst k. lia. }
    destruct (N.eqb_spec (N.of_nat len * 8) ((2 ^ 64 + N.of_nat msb + 1 - N.of_nat lsb) mod 2 ^ 64)), (N.eqb_spec (N.of_nat (len * 8 + (lsb - msb - 1)) mod 2 ^ 64) 0); auto; tauto.
  - destruct (whole_usize msb lsb) eqn:Wh.
    + destruct m; [reflexivity|]. cbn [obind]. destruct (Nat.eqb_spec len 0) as [->|E]; [reflexivity|]. destruct (N.eqb_spec (N.of_nat len * 8) 0); [lia|reflexivity].
    + cbn [obind]. destruct (Nat.eqb_spec (len * 8) (msb - lsb + 1)), (N.eqb_spec (N.of_nat len * 8) (N.of_nat (msb - lsb + 1))); auto; lia.
Qed.
Lemma guard_steps m W msb lsb : 6 <= W <= 64 -> is_usize W msb -> is_usize W lsb -> bytes_guard m msb lsb = Ret tt ->
  step8_len msb lsb = O \/ N.of_nat (lsb + 8 * step8_len msb lsb) <= 2 ^ W.
Proof.
  intros (W6 & W64) Um Ul G. destruct (Nat.lt_ge_cases msb lsb) as [L|L]; [left; apply steps_none; auto|right]. apply steps_room; auto.
  unfold bytes_guard in G. destruct (Nat.ltb_spec msb lsb); [lia|]. destruct (whole_usize msb lsb) eqn:Wh.
  - apply whole_usize_whole in Wh. destruct Wh as (X & ->). replace (msb - 0 + 1)%nat with (N.to_nat (2 ^ 61) * 8)%nat; [apply Nat.mod_mul; lia|]. lia.
  - destruct (Nat.eqb_spec ((msb - lsb + 1) mod 8) 0); [auto|discriminate].
Qed.
Lemma bytes_of_nat m W d msb lsb : 6 <= W <= 64 -> is_usize W msb -> is_usize W lsb -> (W = 64 \/ ~ whole W msb lsb) ->
  w_bytes_of m W d (N.of_nat msb) (N.of_nat lsb) = bytes_of m d msb lsb.
Proof.
  intros W6 Um Ul A. unfold w_bytes_of, bytes_of. rewrite guard_nat, steps_nat by auto. destruct (bytes_guard m msb lsb) as [[]| | | |] eqn:G; cbn [obind]; auto.
  destruct (guard_steps _ _ _ _ W6 Um Ul G) as [->|L]; [reflexivity|]. apply bytes_loop_nat; tauto.
Qed.
Lemma hbytes_nat m W x msb lsb h : 6 <= W <= 64 -> is_usize W msb -> is_usize W lsb -> (W = 64 \/ ~ whole W msb lsb) ->
  w_hbytes m W x (N.of_nat msb) (N.of_nat lsb) h = hbytes m x msb lsb h.
Proof.
  intros W6 Um Ul A. unfold w_hbytes, hbytes, bind, lift. rewrite guard_nat, steps_nat by auto. destruct (bytes_guard m msb lsb) as [[]| | | |] eqn:G; auto.
  destruct (guard_steps _ _ _ _ W6 Um Ul G) as [->|L]; [reflexivity|]. apply hbytes_loop_nat; tauto.
Qed.
Lemma hset_bytes_nat m W x msb lsb v h : 6 <= W <= 64 -> is_usize W msb -> is_usize W lsb -> numbered W v -> (W = 64 \/ ~ whole W msb lsb /\ (lsb <= msb)%nat) ->
  w_hset_bytes m W x (N.of_nat msb) (N.of_nat lsb) v h = hset_bytes m x msb lsb v h.
Proof.
  intros W6 Um Ul Nv A. unfold w_hset_bytes, hset_bytes, bind, lift. rewrite set_guard_nat, steps_nat by auto. destruct (set_bytes_guard m (length v) msb lsb) as [[]| | | |] eqn:G; auto.
  destruct (Nat.lt_ge_cases msb lsb) as [L|L]; [rewrite steps_none by auto; reflexivity|].
  change 0 with (N.of_nat 0) at 1. apply hset_bytes_loop_nat; try tauto. apply steps_room; try tauto.
  unfold set_bytes_guard in G. destruct (Nat.ltb_spec msb lsb); [lia|]. destruct (whole_usize msb lsb) eqn:Wh.
  - apply whole_usize_whole in Wh. destruct Wh as (X & ->). replace (msb - 0 + 1)%nat with (N.to_nat (2 ^ 61) * 8)%nat; [apply Nat.mod_mul; lia|]. lia.
  - destruct (Nat.eqb_spec (length v * 8) (msb - lsb + 1)) as [<-|]; [|discriminate]. apply Nat.mod_mul. lia.
Qed.

(** ** Lengths *)

Lemma sum_nat m W l : forall acc, acc < 2 ^ W ->
  w_sum m W (map N.of_nat l) acc =
  if acc + N.of_nat (list_sum l) <? 2 ^ W then Ret (acc + N.of_nat (list_sum l))
  else match m with Debug => Panic POverflow | Release => Ret ((acc + N.of_nat (list_sum l)) mod 2 ^ W) end.
Proof.
  pose proof (pow_pos W) as PW. induction l as [|x l IH]; intros acc H.
  - cbn [map w_sum list_sum fold_right]. rewrite N.add_0_r. destruct (N.ltb_spec acc (2 ^ W)); [reflexivity|lia].
  - cbn [map w_sum]. change (list_sum (x :: l)) with (x + list_sum l)%nat. unfold wadd at 1. destruct (N.ltb_spec (acc + N.of_nat x) (2 ^ W)) as [L|L]; cbn [obind].
    + rewrite IH by auto. replace (acc + N.of_nat x + N.of_nat (list_sum l)) with (acc + N.of_nat (x + list_sum l)) by lia. reflexivity.
    + destruct (N.ltb_spec (acc + N.of_nat (x + list_sum l)) (2 ^ W)); [lia|]. destruct m; [reflexivity|]. cbn [obind].
      rewrite IH by (apply N.mod_upper_bound; lia).
      assert (E : ((acc + N.of_nat x) mod 2 ^ W + N.of_nat (list_sum l)) mod 2 ^ W = (acc + N.of_nat (x + list_sum l)) mod 2 ^ W).
      { rewrite N.add_mod_idemp_l by lia. f_equal. lia. }
      rewrite E. destruct (N.ltb_spec ((acc + N.of_nat x) mod 2 ^ W + N.of_nat (list_sum l)) (2 ^ W)) as [Q|Q]; [|reflexivity].
      rewrite <- E. f_equal. symmetry. apply N.mod_small. auto.
Qed.
Lemma len_nat m W l n : (olet s := w_sum m W (map N.of_nat l) 0 in wadd m W s (N.of_nat n)) = usize_result m W (N.of_nat (list_sum l + n)).
Proof.
  rewrite sum_nat by apply pow_pos. rewrite N.add_0_l. set (a := N.of_nat (list_sum l)). unfold usize_result.
  rewrite Nat2N.inj_add. fold a. set (b := N.of_nat n). pose proof (pow_pos W).
  destruct (N.ltb_spec a (2 ^ W)) as [L|L]; cbn [obind]; [reflexivity|]. destruct (N.ltb_spec (a + b) (2 ^ W)); [lia|]. destruct m; [reflexivity|]. cbn [obind]. unfold wadd.
  assert (E : (a mod 2 ^ W + b) mod 2 ^ W = (a + b) mod 2 ^ W) by (apply N.add_mod_idemp_l; lia). rewrite E.
  destruct (N.ltb_spec (a mod 2 ^ W + b) (2 ^ W)); [|reflexivity]. rewrite <- E. f_equal. symmetry. apply N.mod_small. auto.
Qed.
Lemma pkt_len_nat m W p : w_pkt_len m W p = usize_result m W (N.of_nat (pkt_len p)).
Proof. unfold w_pkt_len, pkt_len. rewrite <- (map_map hlen N.of_nat). apply len_nat. Qed.
Lemma ps_len_nat m W p : w_ps_len m W p = usize_result m W (N.of_nat (ps_len p)).
Proof. unfold w_ps_len, ps_len. rewrite <- (map_map slen N.of_nat). apply len_nat. Qed.
Lemma compare_nat m W p b h : N.of_nat (pkt_len p) < 2 ^ W -> w_compare_with_slice m W p b h = compare_with_slice p b h.
Proof.
  intros H. unfold w_compare_with_slice, compare_with_slice. unfold bind at 1, lift. rewrite pkt_len_nat. unfold usize_result. destruct (N.ltb_spec (N.of_nat (pkt_len p)) (2 ^ W)); [|lia].
  assert (Q : forall a c, (N.of_nat a =? N.of_nat c) = (a =? c)%nat).
  { intros a c. destruct (Nat.eqb_spec a c), (N.eqb_spec (N.of_nat a) (N.of_nat c)); auto; lia. }
  cbv zeta. rewrite Q. destruct (negb _); [reflexivity|]. unfold bind. destruct (to_vec p h) as [[a| | | |] h']; auto. rewrite !Q. reflexivity.
Qed.

(** ** Whole calls *)

Lemma hexec_nat m W o h : 6 <= W <= 64 -> fits W o -> (forall msb lsb, range_of o = Some (msb, lsb) -> whole W msb lsb -> heap_numbered W h) ->
  W = 64 \/ ~ width_matters W o -> w_hexec m W o h = hexec m o h.
Proof.
  intros W6 F HN A. destruct o; try reflexivity; cbn [fits range_of width_matters w_hexec hexec] in *; unfold bind.
  - unfold hget. rewrite hbit_range_nat; try tauto. intros Wh. eapply HN; [reflexivity|exact Wh].
  - unfold hset. rewrite hset_bit_range_nat; try tauto. 
  - rewrite hbit_range_nat; try tauto. intros Wh. eapply HN; [reflexivity|exact Wh].
  - rewrite hset_bit_range_nat; try tauto.
  - rewrite hbytes_nat; tauto.
  - rewrite hset_bytes_nat; try tauto. destruct A as [A|A]; [tauto|]. right. split; [tauto|lia].
Qed.
Lemma checked_byte_range W msb lsb : 6 <= W <= 64 -> is_usize W msb -> is_usize W lsb -> whole W msb lsb \/ (msb < lsb)%nat ->
  obind (wsub Debug W (N.of_nat msb) (N.of_nat lsb)) (fun a => wadd Debug W a 1) = Panic POverflow.
Proof.
  intros W6 Um Ul A. rewrite width_of_usize by tauto. destruct (Nat.ltb_spec msb lsb); [reflexivity|].
  destruct A as [(X & ->)|]; [|lia]. rewrite X, N.eqb_refl. reflexivity.
Qed.
Lemma checked_bytes W x msb lsb h : 6 <= W <= 64 -> is_usize W msb -> is_usize W lsb -> whole W msb lsb \/ (msb < lsb)%nat ->
  w_hexec Debug W (OBytes x msb lsb) h = (Panic POverflow, h).
Proof.
  intros W6 Um Ul A. cbn [w_hexec]. unfold w_hbytes, bind, lift, w_guard. rewrite obind_assoc, checked_byte_range by auto. reflexivity.
Qed.
Lemma checked_set_bytes W x msb lsb v h : 6 <= W <= 64 -> is_usize W msb -> is_usize W lsb -> numbered W v -> whole W msb lsb \/ (msb < lsb)%nat ->
  w_hexec Debug W (OSetBytes x msb lsb v) h = (Panic POverflow, h).
Proof.
  intros W6 Um Ul Nv A. cbn [w_hexec]. unfold w_hset_bytes, bind, lift, w_set_guard, wmul. unfold numbered in Nv. destruct (N.ltb_spec (N.of_nat (length v) * 8) (2 ^ W)); [|lia]. cbn [obind].
  rewrite obind_assoc, checked_byte_range by auto. reflexivity.
Qed.
Lemma unchecked_reversed W x msb lsb v h : 6 <= W <= 64 -> is_usize W msb -> is_usize W lsb -> numbered W v -> (msb < lsb)%nat ->
  w_hexec Release W (OSetBytes x msb lsb v) h =
  (if N.of_nat (8 * length v + lsb - (msb + 1)) mod 2 ^ W =? 0 then Ret VUnit else Panic PAssert, h).
Proof.
  intros W6 Um Ul Nv L. cbn [w_hexec]. unfold w_hset_bytes, bind, lift, w_set_guard, wmul. unfold numbered, is_usize in *. destruct (N.ltb_spec (N.of_nat (length v) * 8) (2 ^ W)); [|lia]. cbn [obind].
  rewrite obind_assoc, width_of_usize by tauto. destruct (Nat.ltb_spec msb lsb); [|lia]. cbn [obind]. rewrite steps_nat, steps_none by auto.
  pose proof (pow_pos W) as PW.
  assert (E : N.of_nat (length v) * 8 = (2 ^ W + N.of_nat msb + 1 - N.of_nat lsb) mod 2 ^ W <-> N.of_nat (8 * length v + lsb - (msb + 1)) mod 2 ^ W = 0).
  { destruct (N.eq_dec (N.of_nat lsb) (N.of_nat msb + 1)) as [Z|Z].
    - replace (2 ^ W + N.of_nat msb + 1 - N.of_nat lsb) with (2 ^ W) by lia. rewrite N.mod_same by lia. replace (N.of_nat (8 * length v + lsb - (msb + 1))) with (N.of_nat (length v) * 8) by lia.
      rewrite N.mod_small by lia. reflexivity.
    - rewrite (N.mod_small (2 ^ W + _ + _ - _)) by lia. split; intros E.
      + replace (N.of_nat (8 * length v + lsb - (msb + 1))) with (2 ^ W) by lia. apply N.mod_same. lia.
      + apply N.mod_divide in E; [|lia]. destruct E as [k E]. assert (k = 1) by nia. subst k. lia. }
  destruct (N.eqb_spec (N.of_nat (length v) * 8) ((2 ^ W + N.of_nat msb + 1 - N.of_nat lsb) mod 2 ^ W)), (N.eqb_spec (N.of_nat (8 * length v + lsb - (msb + 1)) mod 2 ^ W) 0); cbn [w_hset_bytes_loop ret]; auto; tauto.
Qed.

(** ** The ERSPAN builders *)

Lemma hset_loop_low r lsb n : forall v v' h, v mod 2 ^ N.of_nat n = v' mod 2 ^ N.of_nat n -> hset_loop r lsb n v h = hset_loop r lsb n v' h.
Proof.
  induction n as [|n IH]; intros v v' h E; [reflexivity|]. cbn [hset_loop].
  assert (B : forall k, k < N.of_nat (S n) -> N.testbit v k = N.testbit v' k).
  { intros k Hk. rewrite <- (N.mod_pow2_bits_low v (N.of_nat (S n))), <- (N.mod_pow2_bits_low v' (N.of_nat (S n))) by auto. rewrite E. reflexivity. }
  assert (L : N.land v 1 = N.land v' 1).
  { apply N.bits_inj. intros k. rewrite !N.land_spec. destruct (N.eq_dec k 0) as [->|K]; [rewrite B by lia; reflexivity|].
    replace (N.testbit 1 k) with false by (symmetry; apply N.bits_above_log2; cbn; lia). rewrite !andb_false_r. reflexivity. }
  rewrite L. unfold bind. destruct (with_lock _ _ h) as [[[]| | | |] h']; auto. apply IH. apply N.bits_inj. intros k.
  destruct (N.lt_ge_cases k (N.of_nat n)) as [K|K].
  - rewrite !N.mod_pow2_bits_low, !N.shiftr_spec' by auto. apply B. lia.
  - rewrite !N.mod_pow2_bits_high by auto. reflexivity.
Qed.
Lemma hset_total_len_low x v v' h : v mod 2 ^ 16 = v' mod 2 ^ 16 -> hset x IPv4_total_len v h = hset x IPv4_total_len v' h.
Proof. intros E. unfold hset, hset_bit_range. apply hset_loop_low. exact E. Qed.
Lemma finish_small m msb lsb v t : (lsb <= msb)%nat -> (msb - lsb + 1 <= 64)%nat -> finish m msb lsb v = Ret t -> t < 2 ^ N.of_nat (msb - lsb + 1).
Proof.
  intros L W E. unfold finish in E. destruct (Nat.ltb_spec msb lsb); [lia|]. remember (msb - lsb + 1)%nat as w. cbv zeta in E. destruct (Nat.leb_spec w 64); [|lia].
  assert (T : t = N.shiftr (shl64 v (N.of_nat (64 - w))) (N.of_nat (64 - w))) by congruence. rewrite T. unfold shl64. rewrite N.shiftr_div_pow2.
  apply N.div_lt_upper_bound; [apply N.pow_nonzero; lia|]. rewrite <- N.pow_add_r. replace (N.of_nat (64 - w) + N.of_nat w) with 64 by lia. apply N.mod_upper_bound, N.pow_nonzero. lia.
Qed.
Lemma hget_total_len_small m x h t h' : hget m x IPv4_total_len h = (Ret t, h') -> t < 2 ^ 16.
Proof.
  unfold hget, hbit_range, bind. destruct (hget_loop _ _ _ _ h) as [[v| | | |] h1]; try discriminate. unfold lift. intros E.
  assert (F : finish m (f_end IPv4_total_len) (f_start IPv4_total_len) v = Ret t) by congruence. apply finish_small in F; [exact F|apply Nat.leb_le; reflexivity|apply Nat.leb_le; reflexivity].
Qed.

(** [r] is [x]: exactly, or in an unchecked build in its low 16 bits. *)
Definition near (m : mode) (x : nat) (r : out N) : Prop :=
  exists y, r = Ret y /\ (y = N.of_nat x \/ m = Release /\ y mod 2 ^ 16 = N.of_nat x mod 2 ^ 16).
Lemma near_ret m x : near m x (Ret (N.of_nat x)).
Proof. exists (N.of_nat x). auto. Qed.
Lemma mod16_of W a : 16 <= W -> (a mod 2 ^ W) mod 2 ^ 16 = a mod 2 ^ 16.
Proof.
  intros H. apply N.bits_inj. intros k. destruct (N.lt_ge_cases k 16) as [K|K].
  - rewrite !N.mod_pow2_bits_low by lia. reflexivity.
  - rewrite !N.mod_pow2_bits_high by lia. reflexivity.
Qed.
Lemma near_mod m W x y : 16 <= W -> y mod 2 ^ 16 = N.of_nat x mod 2 ^ 16 -> m = Release -> near m x (Ret (y mod 2 ^ W)).
Proof. intros H E ->. exists (y mod 2 ^ W). split; auto. right. split; auto. rewrite mod16_of by auto. exact E. Qed.
Lemma near_add m W a b ra rb : 16 <= W -> (m = Release \/ N.of_nat (a + b) < 2 ^ W) -> near m a ra -> near m b rb ->
  near m (a + b) (obind ra (fun x => obind rb (fun y => wadd m W x y))).
Proof.
  intros H A (x & -> & X) (y & -> & Y). cbn [obind]. unfold wadd. rewrite Nat2N.inj_add in *.
  assert (E : m = Release -> (x + y) mod 2 ^ 16 = (N.of_nat a + N.of_nat b) mod 2 ^ 16).
  { intros M. assert (X' : x mod 2 ^ 16 = N.of_nat a mod 2 ^ 16) by (destruct X as [->|(_ & X)]; auto). assert (Y' : y mod 2 ^ 16 = N.of_nat b mod 2 ^ 16) by (destruct Y as [->|(_ & Y)]; auto).
    rewrite N.add_mod, X', Y', <- N.add_mod by lia. reflexivity. }
  destruct m.
  - destruct A as [A|A]; [discriminate|]. destruct X as [->|(X & _)]; [|discriminate]. destruct Y as [->|(Y & _)]; [|discriminate].
    destruct (N.ltb_spec (N.of_nat a + N.of_nat b) (2 ^ W)); [|lia]. exists (N.of_nat a + N.of_nat b). split; auto. left. lia.
  - destruct (N.ltb_spec (x + y) (2 ^ W)).
    + exists (x + y). split; auto. right. split; auto. rewrite Nat2N.inj_add. auto.
    + apply near_mod; auto. rewrite Nat2N.inj_add. auto.
Qed.
Lemma near_len m W p : 16 <= W -> (m = Release \/ N.of_nat (opt_len p) < 2 ^ W) -> near m (opt_len p) (w_opt_len m W p).
Proof.
  intros H A. destruct p as [p|]; cbn [opt_len w_opt_len] in *; [|apply (near_ret m 0)]. rewrite pkt_len_nat. unfold usize_result. destruct (N.ltb_spec (N.of_nat (pkt_len p)) (2 ^ W)); [apply near_ret|].
  destruct m; [destruct A; [discriminate|lia]|]. apply near_mod; auto.
Qed.
Lemma bump_nat m pkt x y h : (m = Release \/ N.of_nat x + 65535 < 2 ^ 64) -> (y = N.of_nat x \/ m = Release /\ y mod 2 ^ 16 = N.of_nat x mod 2 ^ 16) ->
  w_bump_total_len m pkt y h = bump_total_len m pkt x h.
Proof.
  intros A Y. unfold w_bump_total_len, bump_total_len, bind at 1 2 3 4 6 7 8. destruct (index_name pkt "IPv4" h) as [[hx| | | |] h1]; auto. destruct (hdowncast IPv4 hx h1) as [[ip| | | |] h2]; auto.
  destruct (hget m ip IPv4_total_len h2) as [[t| | | |] h3] eqn:G; auto. pose proof (hget_total_len_small _ _ _ _ _ G) as T. unfold lift, wadd.
  assert (Q : forall s, s mod 2 ^ 16 = (t + N.of_nat x) mod 2 ^ 16 -> (mlet _ := hset ip IPv4_total_len s in ret ip) h3 = (mlet _ := hset ip IPv4_total_len (t + N.of_nat x) in ret ip) h3).
  { intros s E. unfold bind. rewrite (hset_total_len_low ip s (t + N.of_nat x)) by auto. reflexivity. }
  assert (E : (t + y) mod 2 ^ 16 = (t + N.of_nat x) mod 2 ^ 16).
  { destruct Y as [->|(_ & Y)]; auto. rewrite N.add_mod, Y, <- N.add_mod by lia. reflexivity. }
  destruct (N.ltb_spec (t + y) (2 ^ 64)) as [L|L]; [apply Q; auto|].
  destruct m; [destruct A as [A|A]; [discriminate|]; destruct Y as [->|(Y & _)]; [lia|discriminate]|]. apply Q. rewrite mod16_of by lia. exact E.
Qed.

Lemma near_step m W a b r : 16 <= W -> (m = Release \/ N.of_nat (a + b) < 2 ^ W) -> near m a r -> near m (a + b) (obind r (fun x => wadd m W x (N.of_nat b))).
Proof. intros H A N. apply (near_add m W a b r (Ret (N.of_nat b)) H A N (near_ret m b)). Qed.
Lemma near_if m W (c : bool) a b r : 16 <= W -> (m = Release \/ N.of_nat (a + b) < 2 ^ W) -> near m a r ->
  near m (if c then a + b else a) (obind r (fun x => if c then wadd m W x (N.of_nat b) else Ret x)).
Proof. intros H A N. destruct c; [apply near_step; auto|]. destruct N as (y & -> & Y). exists y. auto. Qed.
Lemma bind_lift {A B} (x : out A) (f : A -> M B) h : bind (lift x) f h = match x with Ret a => f a h | Panic e => (Panic e, h) | UB => (UB, h) | Hang => (Hang, h) | Fuel => (Fuel, h) end.
Proof. destruct x; reflexivity. Qed.
Lemma bind_lift_assoc {A B C} (x : out A) (f : A -> out B) (g : B -> M C) h : bind (lift x) (fun a => bind (lift (f a)) g) h = bind (lift (obind x f)) g h.
Proof. destruct x; reflexivity. Qed.
Lemma near_base m W a b : 16 <= W -> (m = Release \/ N.of_nat (a + b) < 2 ^ W) -> near m (a + b) (wadd m W (N.of_nat a) (N.of_nat b)).
Proof. intros H A. apply (near_add m W a b (Ret (N.of_nat a)) (Ret (N.of_nat b)) H A (near_ret m a) (near_ret m b)). Qed.
Lemma near_bind {A} m x r (k : N -> M A) (k' : M A) h : near m x r -> (forall y, (y = N.of_nat x \/ m = Release /\ y mod 2 ^ 16 = N.of_nat x mod 2 ^ 16) -> k y h = k' h) -> bind (lift r) k h = k' h.
Proof. intros (y & -> & Y) K. exact (K y Y). Qed.
Lemma bind_eq {A B} (x : M A) (f g : A -> M B) h : (forall a h', f a h' = g a h') -> bind x f h = bind x g h.
Proof. intros E. unfold bind. destruct (x h) as [[a| | | |] h']; auto. Qed.
Lemma bind_eq' {A B} (x y : M A) (f : A -> M B) h : x h = y h -> bind x f h = bind y f h.
Proof. intros E. unfold bind. rewrite E. reflexivity. Qed.
Lemma bind_near_len {A} m W r o (k : N -> M A) h : bind (lift r) (fun a => bind (lift (w_opt_len m W o)) (fun b => bind (lift (wadd m W a b)) k)) h =
  bind (lift (obind r (fun a => obind (w_opt_len m W o) (fun b => wadd m W a b)))) k h.
Proof. destruct r; cbn [obind]; auto. destruct (w_opt_len m W o); reflexivity. Qed.
Lemma erspan2_nat m W e i g a idx o h : 16 <= W <= 64 -> (m = Release \/ N.of_nat (opt_len o) + 16 < 2 ^ W /\ N.of_nat (opt_len o) + 65600 < 2 ^ 64) ->
  w_create_erspan_2_packet m W e i g a idx o h = create_erspan_2_packet m e i g a idx o h.
Proof.
  intros W6 A. unfold w_create_erspan_2_packet, create_erspan_2_packet. apply bind_eq. intros vec h1. rewrite bind_lift_assoc. rewrite bind_near_len. cbv zeta.
  eapply near_bind.
  - apply near_add; [lia| |apply near_if; [lia| |apply near_base; [lia|]]|apply near_len; [lia|]].
    all: cbn [ht_size GRE ERSPAN2 GRESequenceNum]; try (destruct A as [A|A]; [left; exact A|right]). all: try destruct (negb _). all: lia.
  - intros y Y. apply bind_eq. intros pkt h2. apply bind_eq'. apply bump_nat; auto. destruct A as [A|A]; [left; exact A|right]. cbn [ht_size GRE ERSPAN2 GRESequenceNum]. destruct (negb _); lia.
Qed.
Lemma erspan3_nat m W e i g a ts sgt ftd pid pinfo o h : 16 <= W <= 64 -> (m = Release \/ N.of_nat (opt_len o) + 28 < 2 ^ W /\ N.of_nat (opt_len o) + 65600 < 2 ^ 64) ->
  w_create_erspan_3_packet m W e i g a ts sgt ftd pid pinfo o h = create_erspan_3_packet m e i g a ts sgt ftd pid pinfo o h.
Proof.
  intros W6 A. unfold w_create_erspan_3_packet, create_erspan_3_packet. apply bind_eq. intros vec h1. rewrite !bind_lift_assoc. rewrite bind_near_len. cbv zeta.
  eapply near_bind.
  - apply near_add; [lia| |apply near_if; [lia| |apply near_if; [lia| |apply near_base; [lia|]]]|apply near_len; [lia|]].
    all: cbn [ht_size GRE ERSPAN3 GRESequenceNum ERSPANPLATFORM]; try (destruct A as [A|A]; [left; exact A|right]). all: try destruct (negb _). all: try destruct (N.land ftd 1 =? 1). all: lia.
  - intros y Y. apply bind_eq. intros pkt h2. apply bind_eq'. apply bump_nat; auto. destruct A as [A|A]; [left; exact A|right]. cbn [ht_size GRE ERSPAN3 GRESequenceNum ERSPANPLATFORM]. destruct (negb _), (N.land ftd 1 =? 1); lia.
Qed.
