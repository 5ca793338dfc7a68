(** TextProofs.v -- lemmas on address texts. *)

From Coq Require Import Lia.
From Verif Require Import Base Types Text Layout Heap Spec BitsProofs.
Open Scope N_scope.

Lemma to_digit_spec radix c v : to_digit radix c = Some v <-> is_digit radix c v.
Proof.
  unfold to_digit, is_digit. set (n := N_of_ascii c). clearbody n.
  assert (F : forall x, (if x <? radix then Some x else None) = Some v <-> v = x /\ v < radix).
  { intros x. destruct (N.ltb_spec x radix); split; try discriminate; try lia.
    - intros E; injection E as <-. auto.
    - intros [-> _]. reflexivity. }
  destruct (N.leb_spec 48 n) as [A1|A1], (N.leb_spec n 57) as [A2|A2], (N.leb_spec 97 n) as [A3|A3],
    (N.leb_spec n 122) as [A4|A4], (N.leb_spec 65 n) as [A5|A5], (N.leb_spec n 90) as [A6|A6];
    cbn [andb]; try lia; try rewrite F.
  all: split; [try discriminate|].
  all: try (intros (B & [(k & K1 & K2 & K3)|[(k & K1 & K2 & K3)|(k & K1 & K2 & K3)]]); lia).
  all: try (intros [E1 E2]; split; [lia|]).
  all: try (left; exists (n - 48); lia).
  all: try (right; left; exists (n - 97); lia).
  all: try (right; right; exists (n - 65); lia).
Qed.

Lemma is_digit_fun radix c v w : is_digit radix c v -> is_digit radix c w -> v = w.
Proof. rewrite <- !to_digit_spec. congruence. Qed.

Lemma numeral_fun radix s v w : numeral radix s v -> numeral radix s w -> v = w.
Proof.
  intros H; revert w; induction H as [|c t v x Hd Ht IH]; intros w Hw; inversion Hw; subst; auto.
  rewrite (is_digit_fun radix c v v0) by auto. f_equal. auto.
Qed.

Lemma pow_ge_1 r n : 1 < r -> 1 <= r ^ n.
Proof. intros H. assert (r ^ n <> 0) by (apply N.pow_nonzero; lia). lia. Qed.

Lemma digits_loop_spec radix s acc v : 1 < radix -> acc < 256 ->
  digits_loop radix s acc = Some v <->
  exists w, numeral radix s w /\ v = acc * radix ^ N.of_nat (String.length s) + w /\ v < 256.
Proof.
  intros Hr. revert acc; induction s as [|c t IH]; intros acc Ha; cbn [digits_loop].
  - split.
    + intros H. injection H as <-. exists 0. split; [constructor|]. cbn. lia.
    + intros (w & Hw & -> & L). inversion Hw; subst. f_equal. cbn. lia.
  - assert (P : 1 <= radix ^ N.of_nat (String.length t)) by (apply pow_ge_1; auto).
    remember (radix ^ N.of_nat (String.length t)) as Q eqn:HQ.
    assert (PS : radix ^ N.of_nat (String.length (String c t)) = radix * Q).
    { cbn [String.length]. rewrite Nat2N.inj_succ, N.pow_succ_r', HQ. reflexivity. }
    rewrite PS. clear PS.
    assert (M1 : forall x, x <= x * Q) by (intros; nia).
    destruct (N.leb_spec 256 (acc * radix)) as [L|L].
    { split; [discriminate|]. intros (w & Hw & -> & L2). specialize (M1 (acc * radix)). lia. }
    destruct (to_digit radix c) as [x|] eqn:D.
    + apply to_digit_spec in D.
      destruct (N.leb_spec 256 (acc * radix + x)) as [L1|L1].
      { split; [discriminate|]. intros (w & Hw & -> & L2). inversion Hw as [|c0 t0 v0 w0 Hd0 Hn0]; subst.
        rewrite (is_digit_fun radix c v0 x Hd0 D) in *. specialize (M1 (acc * radix + x)). lia. }
      rewrite IH by auto. try rewrite <- HQ. split.
      * intros (w & Hw & -> & L2). exists (x * Q + w). split; [rewrite HQ; constructor; auto|]. split; [ring|auto].
      * intros (w & Hw & -> & L2). inversion Hw as [|c0 t0 v0 w0 Hd0 Hn0]; subst.
        rewrite (is_digit_fun radix c v0 x Hd0 D) in *. exists w0. split; auto. split; [ring|auto].
    + split; [discriminate|]. intros (w & Hw & -> & L2). inversion Hw; subst.
      match goal with H : is_digit _ _ _ |- _ => apply to_digit_spec in H; congruence end.
Qed.

Lemma ascii_N_eq c k : k < 256 -> N_of_ascii c = k -> c = ascii_of_N k.
Proof. intros H <-. rewrite ascii_N_embedding. reflexivity. Qed.

Lemma plus_not_digit radix v : ~ is_digit radix "+"%char v.
Proof.
  intros (_ & [(k & ? & ? & E)|[(k & ? & ? & E)|(k & ? & ? & E)]]);
  change (N_of_ascii "+"%char) with 43 in E; lia.
Qed.
Lemma minus_not_digit radix v : ~ is_digit radix "-"%char v.
Proof.
  intros (_ & [(k & ? & ? & E)|[(k & ? & ? & E)|(k & ? & ? & E)]]);
  change (N_of_ascii "-"%char) with 45 in E; lia.
Qed.

Lemma from_str_radix_spec radix s v : 1 < radix ->
  from_str_radix radix s = Some v <-> octet radix s v.
Proof.
  intros Hr. unfold octet.
  assert (D : forall t, digits_loop radix t 0 = Some v <-> numeral radix t v /\ v < 256).
  { intros t. rewrite digits_loop_spec by lia. rewrite N.mul_0_l. split.
    - intros (w & Hw & -> & L). rewrite N.add_0_l in *. auto.
    - intros (Hn & L). exists v. auto. }
  destruct s as [|c t].
  { cbn. split; [discriminate|]. intros (_ & [[H _]|(t & H & _)]); congruence. }
  assert (NP : forall r, numeral radix (String "+"%char r) v -> False).
  { intros r H. inversion H; subst. eapply plus_not_digit; eauto. }
  assert (Plus : N_of_ascii c = 43 -> c = "+"%char) by (intros H; apply (ascii_N_eq _ 43) in H; [auto|lia]).
  destruct t as [|c' t]; cbn [from_str_radix].
  - destruct (N.eqb_spec (N_of_ascii c) 43) as [E|E]; cbn [orb].
    + rewrite (Plus E). split; [discriminate|].
      intros (_ & [[_ H]|(t & H & Ht & _)]); [exfalso; eauto|]. injection H as <-. congruence.
    + destruct (N.eqb_spec (N_of_ascii c) 45) as [E2|E2].
      * apply (ascii_N_eq _ 45) in E2; [|lia]. cbn in E2. subst c. split; [discriminate|].
        intros (_ & [[_ H]|(t & H & Ht & _)]); [|congruence].
        inversion H; subst. exfalso. eapply minus_not_digit; eauto.
      * rewrite D. split; [intros (H & L); split; auto; left; split; auto; discriminate|].
        intros (L & [[_ H]|(t & H & Ht & _)]); auto. injection H as -> <-. cbn in E. congruence.
  - destruct (N.eqb_spec (N_of_ascii c) 43) as [E|E].
    + rewrite (Plus E). rewrite D. split.
      * intros (H & L). split; auto. right. exists (String c' t). split; [auto|]. split; [discriminate|auto].
      * intros (L & [[_ H]|(r & H & Ht & Hn)]); [exfalso; eauto|]. injection H as <-. auto.
    + rewrite D. split; [intros (H & L); split; auto; left; split; auto; discriminate|].
      intros (L & [[_ H]|(r & H & Ht & _)]); auto. injection H as -> _. cbn in E. congruence.
Qed.

Definition part (radix : N) (s : string) : N :=
  match from_str_radix radix s with Some x => x | None => 0 end.

Lemma part_spec radix s v : 1 < radix -> part radix s = v <-> part_val radix s v.
Proof.
  intros Hr. unfold part, part_val. destruct (from_str_radix radix s) as [x|] eqn:E.
  - apply from_str_radix_spec in E; auto. split.
    + intros <-. auto.
    + intros [H|[H _]]; [|exfalso; eapply H; eauto].
      apply from_str_radix_spec in E; auto. apply from_str_radix_spec in H; auto. congruence.
  - split.
    + intros <-. right. split; auto. intros w H. apply from_str_radix_spec in H; auto. congruence.
    + intros [H|[_ H]]; auto. apply from_str_radix_spec in H; auto. congruence.
Qed.

Lemma part_val_lt radix s v : part_val radix s v -> v < 256.
Proof. intros [[H _]|[_ ->]]; lia. Qed.

(** Splitting is the inverse of joining. *)
Lemma split_nonnil sep s : split sep s <> [].
Proof.
  destruct s as [|c t]; cbn; [discriminate|].
  destruct (Ascii.eqb c sep); [discriminate|]. destruct (split sep t); discriminate.
Qed.

Lemma split_join_eq sep s : s = join sep (split sep s).
Proof.
  induction s as [|c t IH]; [reflexivity|]. cbn [split].
  pose proof (split_nonnil sep t) as NN.
  destruct (Ascii.eqb_spec c sep) as [->|E].
  - destruct (split sep t) as [|p ps]; [congruence|]. cbn [join append]. f_equal. exact IH.
  - destruct (split sep t) as [|p ps]; [congruence|]. destruct ps; cbn [join append] in *; f_equal; auto.
Qed.

Lemma split_clean sep s : Forall (fun p => ~ char_in sep p) (split sep s).
Proof.
  induction s as [|c t IH]; cbn [split]; [repeat constructor; auto|].
  destruct (Ascii.eqb_spec c sep) as [->|E]; [constructor; auto|].
  destruct (split sep t) as [|p ps].
  - constructor; auto. intros [->|[]]. congruence.
  - apply Forall_cons_iff in IH as [H1 H2]. constructor; auto. intros [->|H]; congruence.
Qed.

Lemma split_app sep p t : ~ char_in sep p -> split sep (p ++ String sep t) = p :: split sep t.
Proof.
  induction p as [|c p IH]; intros H; cbn [append split].
  - rewrite Ascii.eqb_refl. reflexivity.
  - cbn [char_in] in H. destruct (Ascii.eqb_spec c sep) as [->|E]; [tauto|].
    rewrite IH by tauto. reflexivity.
Qed.

Lemma split_single sep p : ~ char_in sep p -> split sep p = [p].
Proof.
  induction p as [|c p IH]; intros H; cbn [split]; [reflexivity|].
  cbn [char_in] in H. destruct (Ascii.eqb_spec c sep) as [->|E]; [tauto|].
  rewrite IH by tauto. reflexivity.
Qed.

Lemma split_join sep parts : parts <> [] -> Forall (fun p => ~ char_in sep p) parts ->
  split sep (join sep parts) = parts.
Proof.
  induction parts as [|p ps IH]; [congruence|]. intros _ H.
  apply Forall_cons_iff in H as [H1 H2]. destruct ps as [|q ps].
  - apply split_single; auto.
  - change (join sep (p :: q :: ps)) with (p ++ String sep (join sep (q :: ps)))%string.
    rewrite split_app by auto. rewrite IH by (auto; discriminate). reflexivity.
Qed.

(** Filling an array. *)
Lemma upd_middle {A} (a : list A) x b v : upd (a ++ x :: b) (length a) v = a ++ v :: b.
Proof. induction a; cbn; auto. f_equal. auto. Qed.

Lemma fill_run radix parts a z : 1 < radix ->
  fill radix parts (length a) (a ++ repeat 0 z) =
  if (length parts <=? z)%nat then Ret (a ++ map (part radix) parts ++ repeat 0 (z - length parts))
  else Panic PIndex.
Proof.
  intros Hr. revert a z; induction parts as [|p ps IH]; intros a z; cbn [fill map length].
  - cbn [Nat.leb]. rewrite Nat.sub_0_r. reflexivity.
  - destruct z as [|z].
    + cbn [repeat Nat.leb]. rewrite app_nil_r. rewrite index_ge by lia. reflexivity.
    + cbn [repeat Nat.leb]. rewrite (index_lt _ _ 0) by (rewrite app_length; simpl; lia).
      cbn [obind]. fold (part radix p). rewrite upd_middle.
      replace (a ++ part radix p :: repeat 0 z) with ((a ++ [part radix p]) ++ repeat 0 z)
        by (rewrite <- app_assoc; reflexivity).
      replace (S (length a)) with (length (a ++ [part radix p])) by (rewrite app_length; simpl; lia).
      rewrite IH. destruct (length ps <=? z)%nat; [|reflexivity].
      rewrite <- app_assoc. reflexivity.
Qed.

Lemma Forall2_len {A B} (R : A -> B -> Prop) l k : Forall2 R l k -> length l = length k.
Proof. induction 1; simpl; auto. Qed.

Lemma fill_ret sep radix n s b : 1 < radix ->
  fill radix (split sep s) 0 (repeat 0 n) = Ret b <-> addr_text sep radix n s b.
Proof.
  intros Hr. pose proof (fill_run radix (split sep s) [] n Hr) as F. cbn [length app] in F. rewrite F.
  unfold addr_text. split.
  - destruct (Nat.leb_spec (length (split sep s)) n) as [L|L]; [|discriminate].
    intros H. injection H as <-. exists (split sep s), (map (part radix) (split sep s)).
    split; [apply split_join_eq|]. split; [apply split_nonnil|]. split; [apply split_clean|].
    split; [|rewrite map_length; auto].
    clear - Hr. induction (split sep s); cbn [map]; constructor; auto. apply part_spec; auto.
  - intros (parts & vals & -> & NN & C & F2 & L & ->).
    rewrite split_join by auto. rewrite (Forall2_len _ _ _ F2).
    rewrite (proj2 (Nat.leb_le _ _)) by auto. do 2 f_equal.
    clear - F2 Hr. induction F2; cbn; auto. f_equal; auto. apply part_spec; auto.
Qed.

Lemma fill_panic sep radix n s : 1 < radix ->
  fill radix (split sep s) 0 (repeat 0 n) = Panic PIndex <-> addr_too_long sep n s.
Proof.
  intros Hr. pose proof (fill_run radix (split sep s) [] n Hr) as F. cbn [length app] in F. rewrite F.
  unfold addr_too_long. split.
  - destruct (Nat.leb_spec (length (split sep s)) n) as [L|L]; [discriminate|]. intros _.
    exists (split sep s). split; [apply split_join_eq|]. split; [apply split_clean|auto].
  - intros (parts & -> & C & L). rewrite split_join; auto.
    + rewrite (proj2 (Nat.leb_gt _ _)) by auto. reflexivity.
    + intros ->. simpl in L. lia.
Qed.

Lemma addr_text_length sep radix n s b : addr_text sep radix n s b -> length b = n.
Proof.
  intros (parts & vals & _ & _ & _ & _ & L & ->). rewrite app_length, repeat_length. lia.
Qed.

Lemma addr_text_ok sep radix n s b : addr_text sep radix n s b -> bytes_ok b.
Proof.
  intros (parts & vals & _ & _ & _ & F & L & ->). apply Forall_app. split.
  - clear L. induction F; constructor; auto. eapply part_val_lt; eauto.
  - apply Forall_forall. intros x Hx. apply repeat_spec in Hx. subst. unfold byte_ok. lia.
Qed.

Lemma addr_total sep radix n s : 1 < radix ->
  (exists b, addr_text sep radix n s b) \/ addr_too_long sep n s.
Proof.
  intros Hr. pose proof (fill_run radix (split sep s) [] n Hr) as F. cbn [length app] in F.
  destruct (length (split sep s) <=? n)%nat.
  - left. eexists. apply fill_ret; eauto.
  - right. apply fill_panic in F; auto.
Qed.

(** The model's address functions against the relations. *)
Lemma mac_ret s b : to_mac_bytes s = Ret b <-> mac_text s b.
Proof. apply fill_ret. lia. Qed.
Lemma ipv4_ret s b : to_ipv4_bytes s = Ret b <-> ipv4_text s b.
Proof. apply fill_ret. lia. Qed.
Lemma mac_len s b : mac_text s b -> length b = 6%nat.
Proof. apply addr_text_length. Qed.
Lemma ipv4_len s b : ipv4_text s b -> length b = 4%nat.
Proof. apply addr_text_length. Qed.
Lemma mac_ok s b : mac_text s b -> bytes_ok b.
Proof. apply addr_text_ok. Qed.
Lemma ipv4_ok s b : ipv4_text s b -> bytes_ok b.
Proof. apply addr_text_ok. Qed.
