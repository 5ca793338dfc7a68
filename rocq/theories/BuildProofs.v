(** BuildProofs.v -- lemmas on big-endian encodings and packet diagrams. *)

From Coq Require Import Lia.
From Verif Require Import Base Bits Layout Heap Spec BitsProofs HeapProofs.
Open Scope N_scope.

Lemma to_be_length n v : length (to_be n v) = n.
Proof. revert v; induction n; intros; cbn [to_be]; auto. rewrite app_length, IHn. simpl. lia. Qed.

Lemma to_be_ok n v : bytes_ok (to_be n v).
Proof.
  revert v; induction n; intros; cbn [to_be]; [constructor|]. apply bytes_ok_app. split; auto.
  constructor; [|constructor]. apply N.mod_lt. discriminate.
Qed.

Lemma be_to_be n v : be (to_be n v) = v mod 2 ^ N.of_nat (8 * n).
Proof.
  revert v; induction n as [|n IH]; intros v; cbn [to_be].
  - cbn. rewrite N.mod_1_r. reflexivity.
  - rewrite be_app, IH. cbn [length be]. change (N.of_nat 0) with 0. rewrite N.pow_0_r.
    change (N.of_nat (8 * 1)) with 8. change (2 ^ 8) with 256.
    replace (8 * S n)%nat with (8 * n + 8)%nat by lia. rewrite Nat2N.inj_add, N.pow_add_r.
    change (2 ^ N.of_nat 8) with 256. rewrite (N.mul_comm (2 ^ _) 256).
    rewrite N.mod_mul_r by (try discriminate; apply N.pow_nonzero; discriminate). ring.
Qed.

(** ** or of disjoint values is their sum *)
Lemma lor_add a b k : b < 2 ^ k -> N.lor (a * 2 ^ k) b = a * 2 ^ k + b.
Proof.
  intros Hb. apply N.bits_inj. intros i. rewrite testbit_shift_add by auto. rewrite N.lor_spec.
  destruct (N.ltb_spec i k).
  - rewrite N.mul_pow2_bits_low by auto. reflexivity.
  - rewrite (testbit_high b k i) by auto. rewrite orb_false_r.
    rewrite N.mul_pow2_bits_high by auto. reflexivity.
Qed.
Lemma lor_add' a b k : b < 2 ^ k -> N.lor b (a * 2 ^ k) = a * 2 ^ k + b.
Proof. intros. rewrite N.lor_comm. apply lor_add; auto. Qed.

Lemma shl8_small x k : x * 2 ^ k < 2 ^ 8 -> shl8 x k = x * 2 ^ k.
Proof. intros. unfold shl8, u8. rewrite N.shiftl_mul_pow2. apply N.mod_small; auto. Qed.
Lemma shl16_small x k : x * 2 ^ k < 2 ^ 16 -> shl16 x k = x * 2 ^ k.
Proof. intros. unfold shl16, u16. rewrite N.shiftl_mul_pow2. apply N.mod_small; auto. Qed.
Lemma shl32_small x k : x * 2 ^ k < 2 ^ 32 -> shl32 x k = x * 2 ^ k.
Proof. intros. unfold shl32, u32. rewrite N.shiftl_mul_pow2. apply N.mod_small; auto. Qed.

(** ** Diagrams *)

Lemma widths_app l k : widths (l ++ k) = (widths l + widths k)%nat.
Proof. unfold widths. rewrite map_app. apply list_sum_app. Qed.

Lemma pack_app l k : pack (l ++ k) = pack l * 2 ^ N.of_nat (widths k) + pack k.
Proof.
  induction l as [|[w v] l IH]; cbn [pack app]; [lia|].
  rewrite IH, widths_app, Nat2N.inj_add, N.pow_add_r. ring.
Qed.

Lemma pack_bound l : fits l -> pack l < 2 ^ N.of_nat (widths l).
Proof.
  induction 1 as [|[w v] l Hv Hl IH]; [cbn; lia|].
  cbn [pack]. change (widths ((w, v) :: l)) with (w + widths l)%nat.
  rewrite Nat2N.inj_add, N.pow_add_r. cbn [fst snd] in Hv.
  set (P := 2 ^ N.of_nat (widths l)) in *. set (Q := 2 ^ N.of_nat w) in *. nia.
Qed.

Lemma diagram_nil : diagram [] [].
Proof. repeat split; constructor. Qed.

Lemma diagram_app a b l k : diagram a l -> diagram b k -> diagram (a ++ b) (l ++ k).
Proof.
  intros (Ha & La & Fa & Ea) (Hb & Lb & Fb & Eb). split; [apply bytes_ok_app; auto|].
  split; [rewrite app_length, widths_app; lia|]. split; [apply Forall_app; auto|].
  rewrite be_app, pack_app, Ea, Eb, Lb. reflexivity.
Qed.

Lemma diagram_bytes d : bytes_ok d -> diagram d [((8 * length d)%nat, be d)].
Proof.
  intros H. split; auto. split; [unfold widths; simpl; lia|]. split.
  - constructor; [|constructor]. apply be_bound; auto.
  - unfold pack, widths. cbn [map list_sum fold_right]. change (N.of_nat 0) with 0. rewrite N.pow_0_r. lia.
Qed.

Lemma diagram_word n v l : widths l = (8 * n)%nat -> fits l -> v = pack l -> diagram (to_be n v) l.
Proof.
  intros W F ->. split; [apply to_be_ok|]. split; [rewrite to_be_length; lia|]. split; auto.
  rewrite be_to_be. apply N.mod_small. rewrite <- W. apply pack_bound; auto.
Qed.

Lemma diagram_byte v l : widths l = 8%nat -> fits l -> v = pack l -> diagram [v] l.
Proof.
  intros W F E. pose proof (pack_bound l F) as B. rewrite W in B. change (2 ^ N.of_nat 8) with 256 in B.
  replace [v] with (to_be 1 v); [apply diagram_word; auto|].
  cbn [to_be app]. rewrite N.mod_small by lia. reflexivity.
Qed.

Lemma diagram_unique a b l : diagram a l -> diagram b l -> a = b.
Proof.
  intros (Ha & La & _ & Ea) (Hb & Lb & _ & Eb). apply be_inj; auto; [lia|congruence].
Qed.

(** The bits of one entry of a diagram. *)
Lemma diagram_bits d pre w v post : diagram d (pre ++ (w, v) :: post) -> (0 < w)%nat ->
  bits_val d (widths pre) (widths pre + w - 1) = v.
Proof.
  intros (Hd & L & F & E) W. unfold bits_val. rewrite E, L, widths_app.
  change (widths ((w, v) :: post)) with (w + widths post)%nat.
  replace (widths pre + (w + widths post) - 1 - (widths pre + w - 1))%nat with (widths post) by lia.
  replace (widths pre + w - 1 - widths pre + 1)%nat with w by lia.
  rewrite pack_app. change (widths ((w, v) :: post)) with (w + widths post)%nat. cbn [pack].
  apply Forall_app in F as [F1 F2]. apply Forall_cons_iff in F2 as [Fv F2]. cbn [fst snd] in Fv.
  pose proof (pack_bound _ F2) as B. rewrite Nat2N.inj_add, N.pow_add_r.
  set (P := 2 ^ N.of_nat (widths post)) in *. set (Q := 2 ^ N.of_nat w) in *.
  assert (P <> 0) by (apply N.pow_nonzero; discriminate).
  assert (Q <> 0) by (apply N.pow_nonzero; discriminate).
  replace (pack pre * (Q * P) + (v * P + pack post)) with (pack post + (pack pre * Q + v) * P) by ring.
  rewrite N.div_add by auto. rewrite N.div_small by auto. rewrite N.add_0_l.
  rewrite N.add_comm, N.mod_add by auto. apply N.mod_small; auto.
Qed.

(** The fields of a layout are the entries of a diagram, in order. *)
Fixpoint layout_is (fs : list field) (off : nat) (l : list (nat * N)) : bool :=
  match fs, l with
  | [], [] => true
  | f :: fs', (w, _) :: l' =>
      (f_start f =? off)%nat && (f_end f =? off + w - 1)%nat && (0 <? w)%nat && layout_is fs' (off + w) l'
  | _, _ => false
  end.

Lemma diagram_fields d l fs : diagram d l -> layout_is fs 0 l = true -> map (field_val d) fs = map snd l.
Proof.
  intros H.
  assert (G : forall post pre fs, l = pre ++ post -> layout_is fs (widths pre) post = true ->
    map (field_val d) fs = map snd post).
  { induction post as [|[w v] post IH]; intros pre gs E L; destruct gs as [|f gs]; try discriminate; auto.
    cbn [layout_is] in L. apply andb_true_iff in L as [L L2]. apply andb_true_iff in L as [L L3].
    apply andb_true_iff in L as [L4 L5]. apply Nat.eqb_eq in L4, L5. apply Nat.ltb_lt in L3.
    cbn [map snd]. f_equal.
    - unfold field_val. rewrite L4, L5. subst l. eapply diagram_bits; eauto.
    - apply (IH (pre ++ [(w, v)])).
      + rewrite <- app_assoc. auto.
      + rewrite widths_app. change (widths [(w, v)]) with (w + 0)%nat. rewrite Nat.add_0_r. auto. }
  intros L. apply (G l []); auto.
Qed.

(** ** A setter of a byte-aligned field writes its big-endian bytes *)
Lemma bit_app a b i : bit (a ++ b) i = if (i <? 8 * length a)%nat then bit a i else bit b (i - 8 * length a).
Proof.
  unfold bit. destruct (Nat.ltb_spec i (8 * length a)) as [H|H].
  - rewrite app_nth1 by (apply div8_lt; auto). reflexivity.
  - assert (E : (i = (i - 8 * length a) + length a * 8)%nat) by lia.
    rewrite E at 1 2. rewrite Nat.div_add, Nat.mod_add by lia.
    rewrite app_nth2 by lia. replace ((i - 8 * length a) / 8 + length a - length a)%nat with ((i - 8 * length a) / 8)%nat by lia.
    reflexivity.
Qed.

Lemma bit_to_be n v j : (j < 8 * n)%nat -> bit (to_be n v) j = N.testbit v (N.of_nat (8 * n - 1 - j)).
Proof.
  intros H. pose proof (be_testbit (to_be n v) (8 * n - 1 - j) (to_be_ok n v)) as E.
  rewrite to_be_length in E. specialize (E ltac:(lia)). rewrite be_to_be in E.
  replace (8 * n - 1 - (8 * n - 1 - j))%nat with j in E by lia. rewrite <- E.
  apply N.mod_pow2_bits_low. lia.
Qed.

Lemma fset_middle a m b f v : bytes_ok a -> bytes_ok m -> bytes_ok b -> m <> [] ->
  f_start f = (8 * length a)%nat -> f_end f = (8 * (length a + length m) - 1)%nat ->
  fset (a ++ m ++ b) f v = a ++ to_be (length m) v ++ b.
Proof.
  intros Ha Hm Hb NM Hs He.
  assert (0 < length m)%nat by (destruct m; simpl; [congruence|lia]).
  assert (Fi : field_in f (length (a ++ m ++ b))) by (split; [lia|rewrite !app_length; lia]).
  apply bytes_ext.
  - apply fset_ok. repeat (apply bytes_ok_app; split; auto).
  - repeat (apply bytes_ok_app; split; auto). apply to_be_ok.
  - rewrite fset_length, !app_length, to_be_length. lia.
  - intros i Hi. rewrite bit_fset by auto. rewrite !bit_app, to_be_length.
    destruct (Nat.ltb_spec i (8 * length a)) as [H1|H1].
    + rewrite (proj2 (Nat.leb_gt _ _)) by lia. reflexivity.
    + rewrite (proj2 (Nat.leb_le (f_start f) i)) by lia. cbn [andb].
      destruct (Nat.ltb_spec (i - 8 * length a) (8 * length m)) as [H2|H2].
      * rewrite (proj2 (Nat.leb_le _ _)) by lia. rewrite bit_to_be by auto. do 2 f_equal. lia.
      * rewrite (proj2 (Nat.leb_gt _ _)) by lia. reflexivity.
Qed.

Lemma to_be_2 v : to_be 2 v = [v / 256 mod 256; v mod 256].
Proof. reflexivity. Qed.

Lemma be_lt n d : bytes_ok d -> length d = n -> be d < 2 ^ N.of_nat (8 * n).
Proof. intros H <-. apply be_bound; auto. Qed.

Lemma to_be_pair a b : a < 256 -> b < 256 -> to_be 2 (a * 256 + b) = [a; b].
Proof.
  intros Ha Hb. rewrite to_be_2, N.div_add_l by discriminate. rewrite (N.div_small b) by auto.
  rewrite N.add_0_r, (N.mod_small a) by auto. rewrite (N.add_comm (a * 256)), N.mod_add by discriminate.
  rewrite N.mod_small by auto. reflexivity.
Qed.
