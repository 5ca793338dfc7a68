(** WideProofs.v -- lemmas for PropWide.v: the parts of an or of shifted values. *)

From Coq Require Import Lia.
From Verif Require Import Base Bits Types Layout Heap Packet Text Build Spec BitsProofs HeapProofs
  TextProofs ChecksumProofs BuildProofs PropChecksum PropBuild WideSpec.
Open Scope N_scope.

Lemma part_lt x k w : part x k w < 2 ^ w.
Proof. apply N.mod_lt. apply N.pow_nonzero. discriminate. Qed.

Lemma part_bits x k w : part x k w = N.land (N.shiftr x k) (N.ones w).
Proof. unfold part. rewrite N.land_ones, N.shiftr_div_pow2. reflexivity. Qed.

Lemma part_lor x y k w : part (N.lor x y) k w = N.lor (part x k w) (part y k w).
Proof. rewrite !part_bits, N.shiftr_lor, N.land_lor_distr_l. reflexivity. Qed.

Lemma lor_lt x y w : x < 2 ^ w -> y < 2 ^ w -> N.lor x y < 2 ^ w.
Proof.
  intros Hx Hy. rewrite <- (N.mod_small x (2 ^ w)), <- (N.mod_small y (2 ^ w)) by auto.
  rewrite <- !N.land_ones, <- N.land_lor_distr_l, N.land_ones. apply N.mod_lt.
  apply N.pow_nonzero. discriminate.
Qed.

Lemma part_small x w : x < 2 ^ w -> part x 0 w = x.
Proof. intros H. unfold part. rewrite N.pow_0_r, N.div_1_r. apply N.mod_small; auto. Qed.

Lemma part_zero x k w : x < 2 ^ k -> part x k w = 0.
Proof.
  intros H. unfold part. rewrite N.div_small by auto. apply N.mod_small.
  apply N.neq_0_lt_0. apply N.pow_nonzero. discriminate.
Qed.

(** Below the position a value was shifted to there is nothing. *)
Lemma part_shl_below n x s k w : k + w <= s -> part (N.shiftl x s mod 2 ^ n) k w = 0.
Proof.
  intros H. rewrite part_bits, <- N.land_ones. apply N.bits_inj. intros i.
  rewrite N.land_spec, N.shiftr_spec', N.land_spec, N.bits_0.
  destruct (N.lt_ge_cases i w) as [L|L].
  - rewrite (N.shiftl_spec_low x s (i + k)) by lia. reflexivity.
  - rewrite (N.ones_spec_high w i) by lia. apply andb_false_r.
Qed.

(** From there up: the bits of the value, as long as they are not shifted out. *)
Lemma part_shl_above n x s k w : s <= k -> k + w <= n ->
  part (N.shiftl x s mod 2 ^ n) k w = part x (k - s) w.
Proof.
  intros H1 H2. rewrite !part_bits, <- N.land_ones. apply N.bits_inj. intros i.
  rewrite !N.land_spec, !N.shiftr_spec', N.land_spec.
  destruct (N.lt_ge_cases i w) as [L|L].
  - rewrite N.shiftl_spec_high' by lia. rewrite (N.ones_spec_low n) by lia. rewrite andb_true_r.
    do 2 f_equal. lia.
  - rewrite (N.ones_spec_high w i) by lia. rewrite !andb_false_r. reflexivity.
Qed.

(** A word is the concatenation of its parts. *)
Lemma word_parts2 x a b : x < 2 ^ (a + b) -> x = part x b a * 2 ^ b + part x 0 b.
Proof.
  intros H. unfold part. rewrite N.pow_0_r, N.div_1_r.
  rewrite (N.mod_small (x / 2 ^ b)).
  - rewrite N.mul_comm. apply N.div_mod. apply N.pow_nonzero. discriminate.
  - apply N.div_lt_upper_bound; [apply N.pow_nonzero; discriminate|]. rewrite <- N.pow_add_r, N.add_comm. auto.
Qed.

Lemma part_part x k w j v : j + v <= w -> part (part x k w) j v = part x (k + j) v.
Proof.
  intros H. rewrite !part_bits. apply N.bits_inj. intros i.
  rewrite !N.land_spec, !N.shiftr_spec', !N.land_spec, !N.shiftr_spec'.
  destruct (N.lt_ge_cases i v) as [L|L].
  - rewrite (N.ones_spec_low w) by lia. rewrite andb_true_r. do 2 f_equal. lia.
  - rewrite (N.ones_spec_high v i) by lia. rewrite !andb_false_r. reflexivity.
Qed.

(** ** Diagrams of a word, by its parts *)

Fixpoint cut (x : N) (ws : list nat) : list (nat * N) :=
  match ws with
  | [] => []
  | w :: t => (w, part x (N.of_nat (list_sum t)) (N.of_nat w)) :: cut x t
  end.
Lemma cut_widths x ws : widths (cut x ws) = list_sum ws.
Proof. unfold widths. induction ws as [|w t IH]; [reflexivity|]. cbn [cut map fst list_sum fold_right]. f_equal. exact IH. Qed.
Lemma cut_fits x ws : fits (cut x ws).
Proof.
  induction ws as [|w t IH]; [constructor|]. cbn [cut]. constructor; [cbn [fst snd]; apply part_lt|exact IH].
Qed.
Lemma cut_pack x ws : pack (cut x ws) = part x 0 (N.of_nat (list_sum ws)).
Proof.
  induction ws as [|w t IH].
  - unfold part. cbn. rewrite N.mod_1_r. reflexivity.
  - cbn [cut pack]. rewrite cut_widths, IH. change (list_sum (w :: t)) with (w + list_sum t)%nat.
    rewrite Nat2N.inj_add. set (a := N.of_nat w). set (b := N.of_nat (list_sum t)).
    rewrite (word_parts2 (part x 0 (a + b)) a b) by apply part_lt.
    rewrite !part_part by lia. rewrite !N.add_0_l. reflexivity.
Qed.

Lemma diagram_cut n x ws : list_sum ws = (8 * n)%nat -> x < 2 ^ N.of_nat (8 * n) -> diagram (to_be n x) (cut x ws).
Proof.
  intros L B. apply diagram_word; [rewrite cut_widths; auto|apply cut_fits|].
  rewrite cut_pack, L, part_small; auto.
Qed.
Lemma diagram_cut1 x ws : list_sum ws = 8%nat -> x < 256 -> diagram [x] (cut x ws).
Proof.
  intros L B. apply diagram_byte; [rewrite cut_widths; auto|apply cut_fits|].
  rewrite cut_pack, L, part_small; auto.
Qed.

Lemma shl8_part x s : shl8 x s = N.shiftl x s mod 2 ^ 8. Proof. reflexivity. Qed.
Lemma shl16_part x s : shl16 x s = N.shiftl x s mod 2 ^ 16. Proof. reflexivity. Qed.
Lemma shl32_part x s : shl32 x s = N.shiftl x s mod 2 ^ 32. Proof. reflexivity. Qed.
Lemma shl_lt n x s : N.shiftl x s mod 2 ^ n < 2 ^ n.
Proof. apply N.mod_lt. apply N.pow_nonzero. discriminate. Qed.

(** Two diagrams with the same widths, one after the other in [cut], agree when
    their values do. *)
Ltac parts := cbn [cut]; rewrite ?part_lor, ?shl8_part, ?shl16_part, ?shl32_part;
  repeat (rewrite part_shl_above by (vm_compute; congruence));
  repeat (rewrite part_shl_below by (vm_compute; congruence)).

(** ** IPv4 with any first byte *)

Definition ip4_head (v tos pktlen id frag ttl proto c : N) (s d : list N) : list N :=
  [v] ++ [tos] ++ to_be 2 pktlen ++ to_be 2 id ++ to_be 2 frag
  ++ [ttl] ++ [proto] ++ to_be 2 c ++ s ++ d.

Lemma ip4_head_ok v tos pktlen id frag ttl proto c s d :
  v < 256 -> tos < 256 -> ttl < 256 -> proto < 256 -> bytes_ok s -> bytes_ok d ->
  bytes_ok (ip4_head v tos pktlen id frag ttl proto c s d).
Proof. intros. unfold ip4_head. bok. Qed.

Lemma ip4_head_len v tos pktlen id frag ttl proto c s d : length s = 4%nat -> length d = 4%nat ->
  length (ip4_head v tos pktlen id frag ttl proto c s d) = 20%nat.
Proof. intros Ls Ld. unfold ip4_head. rewrite !app_length, !to_be_length, Ls, Ld. reflexivity. Qed.

Lemma ip4_head_zero v tos pktlen id frag ttl proto c s d :
  zero_checksum (ip4_head v tos pktlen id frag ttl proto c s d) =
  ip4_head v tos pktlen id frag ttl proto 0 s d.
Proof. unfold ip4_head. rewrite !to_be_2. reflexivity. Qed.

Lemma ipv4_wide m ihl tos id ttl frag proto src dst pktlen s d h :
  ipv4_text src s -> ipv4_text dst d ->
  ihl < 256 -> tos < 256 -> pktlen < 65536 -> id < 65536 -> frag < 65536 -> ttl < 256 -> proto < 256 ->
  exists c, c <= 65535 /\
    ipv4_checksum m (ip4_head (N.lor 64 ihl) tos pktlen id frag ttl proto 0 s d) = Ret c /\
    ipv4 m ihl tos id ttl frag proto src dst pktlen h =
    (Ret (Hdr IPv4 (length h)), h ++ [Cell (ip4_head (N.lor 64 ihl) tos pktlen id frag ttl proto c s d) false]).
Proof.
  intros Hs Hd Hi Ht Hp Hid Hf Hl Hpr.
  pose proof (ipv4_ok _ _ Hs) as Os. pose proof (ipv4_ok _ _ Hd) as Od.
  pose proof (ipv4_len _ _ Hs) as Ls. pose proof (ipv4_len _ _ Hd) as Ld.
  assert (V : N.lor 64 ihl < 256) by (apply (lor_lt 64 ihl 8); [reflexivity|auto]).
  unfold ipv4. set (v := N.lor 64 ihl) in *. clearbody v.
  rewrite (bind_ret _ _ h s h) by (unfold lift; f_equal; apply ipv4_ret; auto).
  rewrite (bind_ret _ _ h d h) by (unfold lift; f_equal; apply ipv4_ret; auto).
  cbv zeta. fold (ip4_head v tos pktlen id frag ttl proto 0 s d).
  set (data := ip4_head v tos pktlen id frag ttl proto 0 s d).
  assert (Odata : bytes_ok data) by (apply ip4_head_ok; auto).
  assert (Ldata : length data = 20%nat) by (apply ip4_head_len; auto).
  destruct (C20_rfc m data Odata) as (c & Ec & Lc & _);
    [rewrite Ldata; reflexivity|rewrite Ldata; discriminate|].
  exists c. split; auto. split; auto.
  rewrite (bind_ret _ _ h c h) by (unfold lift; rewrite Ec; reflexivity).
  rewrite (bind_ret _ _ h _ _ (hfrom_run _ _ _)).
  assert (Fi : field_in IPv4_header_checksum (length data)) by (rewrite Ldata; split; simpl; lia).
  rewrite (bind_ret _ _ _ _ _ (hset_last IPv4 h data IPv4_header_checksum c Odata Fi)).
  unfold ret. do 4 f_equal.
  assert (Ed : forall x, ip4_head v tos pktlen id frag ttl proto x s d =
    ([v] ++ [tos] ++ to_be 2 pktlen ++ to_be 2 id ++ to_be 2 frag ++ [ttl] ++ [proto])
    ++ to_be 2 x ++ (s ++ d)) by (intros; unfold ip4_head; rewrite <- !app_assoc; reflexivity).
  unfold data. rewrite !Ed. rewrite fset_middle.
  - rewrite to_be_length. reflexivity.
  - bok.
  - apply to_be_ok.
  - apply bytes_ok_app; auto.
  - discriminate.
  - rewrite !app_length, !to_be_length. reflexivity.
  - rewrite !app_length, !to_be_length. reflexivity.
Qed.

(** ** Reading arguments back *)

(** The same header was built: the same values. *)
Lemma built_same r r' h T l l' : built r h T l -> built r' h T l' -> r = r' -> map snd l = map snd l'.
Proof.
  intros (b & E & _ & _ & F) (b' & E' & _ & _ & F') R. rewrite E, E' in R. injection R as R.
  apply app_inv_head in R. injection R as <-. congruence.
Qed.
Lemma built_fits r h T l : built r h T l -> fits l.
Proof. intros (b & _ & _ & (_ & _ & F & _) & _). exact F. Qed.
