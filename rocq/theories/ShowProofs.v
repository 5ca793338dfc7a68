(** ShowProofs.v -- lemmas on [show]. *)

From Coq Require Import Lia.
From Verif Require Import Base Bits Layout Heap Packet Slow Fast Show Spec ShowSpec BitsProofs HeapProofs TextProofs.
Open Scope N_scope.

(** ** Numbers *)

Lemma append_assoc (a b c : string) : ((a ++ b) ++ c = a ++ (b ++ c))%string.
Proof. induction a as [|x a IH]; [reflexivity|]. cbn [append]. rewrite IH. reflexivity. Qed.
Lemma append_nil_r (a : string) : (a ++ "" = a)%string.
Proof. induction a as [|x a IH]; [reflexivity|]. cbn [append]. rewrite IH. reflexivity. Qed.
Lemma append_length (a b : string) : String.length (a ++ b) = (String.length a + String.length b)%nat.
Proof. induction a as [|x a IH]; [reflexivity|]. cbn [append String.length]. rewrite IH. reflexivity. Qed.

Lemma string_inj a b s t : String a s = String b t -> a = b /\ s = t.
Proof. intros H. inversion H. auto. Qed.

Lemma chars_blanks n : chars " " n = blanks n.
Proof. induction n; [reflexivity|]. cbn [chars blanks]. rewrite IHn. reflexivity. Qed.

Lemma numeral_app radix a v b w : numeral radix a v -> numeral radix b w ->
  numeral radix (a ++ b) (v * radix ^ N.of_nat (String.length b) + w).
Proof.
  intros H Hb. induction H as [|c t x y Hc Ht IH]; cbn [append].
  - rewrite N.mul_0_l. exact Hb.
  - replace ((x * radix ^ N.of_nat (String.length t) + y) * radix ^ N.of_nat (String.length b) + w)
      with (x * radix ^ N.of_nat (String.length (t ++ b)) + (y * radix ^ N.of_nat (String.length b) + w)).
    + constructor; auto.
    + rewrite append_length, Nnat.Nat2N.inj_add, N.pow_add_r. ring.
Qed.

Lemma digit_is radix v : v < radix -> radix <= 36 ->
  is_digit radix (ascii_of_N (if v <? 10 then 48 + v else 87 + v)) v.
Proof.
  intros Hv Hr. split; auto. destruct (N.ltb_spec v 10).
  - left. exists v. split; auto. split; auto. apply N_ascii_embedding. lia.
  - right. left. exists (v - 10). split; [lia|]. split; [lia|].
    rewrite N_ascii_embedding by lia. lia.
Qed.

Lemma fmt_digit_numeral radix v : v < radix -> radix <= 36 -> numeral radix (fmt_digit v) v.
Proof.
  intros H1 H2. unfold fmt_digit. pose proof (Num_cons radix _ "" v 0 (digit_is radix v H1 H2) (Num_nil radix)) as H.
  cbn [String.length] in H. change (radix ^ N.of_nat 0) with 1 in H.
  replace (v * 1 + 0) with v in H by lia. exact H.
Qed.

Lemma fmt_digits_ok radix f v : 2 <= radix -> radix <= 36 -> v < 2 ^ N.of_nat f ->
  numeral radix (fmt_digits radix (S f) v) v /\ fmt_digits radix (S f) v <> EmptyString /\
  (forall t, fmt_digits radix (S f) v = String "0" t -> t = EmptyString /\ v = 0).
Proof.
  intros H2 H36. revert v. induction f as [|f IH]; intros v Hv; cbn [fmt_digits].
  - assert (v = 0) by (change (2 ^ N.of_nat 0) with 1 in Hv; lia). subst v.
    rewrite (proj2 (N.ltb_lt 0 radix)) by lia. split; [apply fmt_digit_numeral; lia|].
    split; [discriminate|]. intros t [= <-]. auto.
  - destruct (N.ltb_spec v radix) as [L|L].
    + split; [apply fmt_digit_numeral; auto|]. split; [discriminate|].
      intros t E. unfold fmt_digit in E. apply string_inj in E. destruct E as [E <-]. split; auto.
      apply (f_equal N_of_ascii) in E. change (N_of_ascii "0") with 48 in E.
      destruct (N.ltb_spec v 10); rewrite N_ascii_embedding in E by lia; lia.
    + assert (Hd : v / radix < 2 ^ N.of_nat f).
      { apply N.div_lt_upper_bound; [lia|]. replace (N.of_nat (S f)) with (N.of_nat f + 1) in Hv by lia.
        rewrite N.pow_add_r in Hv. change (2 ^ 1) with 2 in Hv. nia. }
      destruct (IH (v / radix) Hd) as (A & B & C). cbn [fmt_digits] in A, B, C.
      assert (M : v mod radix < radix) by (apply N.mod_lt; lia).
      split; [|split].
      * pose proof (numeral_app radix _ _ _ _ A (fmt_digit_numeral radix (v mod radix) M H36)) as Q.
        unfold fmt_digit at 2 in Q. cbn [String.length] in Q. change (radix ^ N.of_nat 1) with (radix ^ 1) in Q.
        rewrite N.pow_1_r in Q. replace (v / radix * radix + v mod radix) with v in Q
          by (rewrite (N.div_mod v radix) at 1 by lia; lia). exact Q.
      * intros E. apply B. revert E. match goal with |- (?s ++ _)%string = _ -> _ => destruct s; auto; discriminate end.
      * intros t E. exfalso. revert B C E.
        match goal with |- ?s <> _ -> _ => generalize s end. intros s B C E.
        destruct s as [|c s]; [congruence|]. cbn [append] in E. injection E as -> E.
        destruct (C s eq_refl) as [_ Z]. assert (1 <= v / radix) by (apply N.div_le_lower_bound; lia). lia.
Qed.

Lemma size_nat_bound v : v < 2 ^ N.of_nat (N.size_nat v).
Proof.
  destruct v as [|p]; [reflexivity|]. cbn [N.size_nat].
  induction p as [p IH|p IH|]; cbn [Pos.size_nat]; [| |reflexivity];
    rewrite Nnat.Nat2N.inj_succ, N.pow_succ_r' by lia; lia.
Qed.

Lemma fmt_num_decimal v : decimal (fmt_num 10 v) v.
Proof.
  unfold fmt_num. destruct (fmt_digits_ok 10 (N.size_nat v) v) as (A & B & C); try lia; [apply size_nat_bound|].
  split; auto. split; auto. intros t Ht. apply C in Ht. tauto.
Qed.

Lemma fmt_num_16 v : v < 256 -> fmt_right "0" 2 (fmt_num 16 v) = hex2 v.
Proof.
  intros H. assert (H' : (N.to_nat v < 256)%nat) by lia. rewrite <- (Nnat.N2Nat.id v). clear H.
  revert H'. generalize (N.to_nat v). clear v.
  assert (X : forallb (fun n => String.eqb (fmt_right "0" 2 (fmt_num 16 (N.of_nat n))) (hex2 (N.of_nat n))) (seq 0 256) = true)
    by (vm_compute; reflexivity).
  intros n Hn. rewrite forallb_forall in X. apply String.eqb_eq. apply X. apply in_seq. lia.
Qed.
Lemma fmt_02x_hex2 v : v < 256 -> fmt_02x v = hex2 v.
Proof. apply fmt_num_16. Qed.

(** ** Borrowed headers *)

Lemma u8_small v : v < 256 -> u8 v = v.
Proof. intros H. apply N.mod_small. exact H. Qed.

Lemma sshow_octets_ok m d i n : bytes_ok d -> (i + 8 * n <= 8 * length d)%nat ->
  sshow_octets m d i n = Ret (hexes (octets d i n)).
Proof.
  intros Hd. revert i; induction n as [|n IH]; intros i H; cbn [sshow_octets octets hexes]; [reflexivity|].
  rewrite get_bits_octet by (auto; lia). cbn [obind]. rewrite IH by lia. cbn [obind].
  pose proof (rv_bound d i 8) as B. change (2 ^ N.of_nat 8) with 256 in B.
  rewrite u8_small, fmt_02x_hex2 by auto. reflexivity.
Qed.

Lemma sshow_field_ok m d f : bytes_ok d -> field_in f (length d) ->
  exists s, sshow_field m d f = Ret s /\ groups (f_width f) (field_val d f) s.
Proof.
  intros Hd [H1 H2]. unfold sshow_field. set (w := f_width f).
  assert (Ew : w = (f_end f - f_start f + 1)%nat) by reflexivity. set (s := f_start f) in *.
  assert (Fv : field_val d f = rv d s w) by (unfold field_val; rewrite <- rv_bits_val by auto; reflexivity).
  rewrite Fv. destruct (Nat.leb_spec w 8) as [L|L].
  - rewrite get_bits_val by (auto; lia). rewrite <- rv_bits_val by auto. fold s. rewrite <- Ew. cbn [obind].
    assert (B : rv d s w < 256).
    { eapply N.lt_le_trans; [apply rv_bound|]. change 256 with (2 ^ 8). apply N.pow_le_mono_r; lia. }
    eexists. split; [reflexivity|]. rewrite u8_small, fmt_02x_hex2 by auto. constructor. auto.
  - pose proof (Nat.div_mod w 8 ltac:(lia)) as Dm. pose proof (Nat.mod_upper_bound w 8 ltac:(lia)) as Mb.
    destruct (Nat.eqb_spec (w mod 8) 0) as [E|E].
    + rewrite sshow_octets_ok by (auto; lia). eexists. split; [reflexivity|].
      apply G_octets; auto using octets_length, octets_ok. rewrite be_octets by (auto; lia).
      f_equal. lia.
    + rewrite sshow_octets_ok by (auto; lia). cbn [obind].
      rewrite get_bits_val by (auto; lia). rewrite <- rv_bits_val by lia. cbn [obind].
      replace (f_end f - (f_end f - w mod 8) + 1)%nat with (S (w mod 8)) by lia.
      set (q := (w mod 8)%nat) in *.
      assert (B : rv d (f_end f - q) (S q) < 256).
      { eapply N.lt_le_trans; [apply rv_bound|]. change 256 with (2 ^ 8). apply N.pow_le_mono_r; lia. }
      eexists. split; [reflexivity|]. rewrite u8_small, fmt_02x_hex2 by auto.
      assert (V : rv d (f_end f - q) (S q) = rv d s w mod 2 ^ N.of_nat (S q)).
      { replace w with ((w - S q) + S q)%nat by lia. rewrite rv_split by (auto; lia).
        rewrite N.add_comm, N.mod_add by (apply N.pow_nonzero; lia).
        replace (s + (w - S q))%nat with (f_end f - q)%nat by lia. symmetry. apply N.mod_small. apply rv_bound. }
      rewrite V. apply G_rest; auto using octets_length, octets_ok.
      rewrite be_octets by (auto; lia).
      replace w with (8 * (w / 8) + q)%nat at 2 by lia. rewrite rv_split by (auto; lia).
      rewrite N.div_add_l by (apply N.pow_nonzero; lia).
      rewrite N.div_small by apply rv_bound. lia.
Qed.

Lemma append_cons c (s t : string) : (String c s ++ t)%string = String c (s ++ t).
Proof. reflexivity. Qed.

Lemma sshow_fields_ok m d l : bytes_ok d -> Forall (fun f => field_in f (length d)) l ->
  exists lines, sshow_fields m d l = Ret (String.concat "" lines) /\ Forall2 (field_line d) l lines.
Proof.
  intros Hd. induction 1 as [|f l Hf Hl IH]; cbn [sshow_fields].
  - exists []. split; auto.
  - destruct (sshow_field_ok m d f Hd Hf) as (s & E & G). destruct IH as (lines & El & Fl).
    rewrite E, El. cbn [obind].
    set (line := (f_name f ++ blanks (20 - String.length (f_name f)) ++ ": " ++
         blanks (4 - String.length (fmt_num 10 (N.of_nat (f_width f)))) ++ fmt_num 10 (N.of_nat (f_width f)) ++
         " : " ++ s ++ String nl EmptyString)%string).
    exists (line :: lines). split.
    + f_equal. unfold show_label, fmt_left, fmt_4, fmt_right, newline. rewrite !chars_blanks.
      assert (C : String.concat "" (line :: lines) = (line ++ String.concat "" lines)%string).
      { cbn [String.concat]. destruct lines; [cbn [String.concat]; rewrite append_nil_r; reflexivity|reflexivity]. }
      rewrite C. unfold line. rewrite !append_assoc. reflexivity.
    + constructor; auto. exists (fmt_num 10 (N.of_nat (f_width f))), s. split; [apply fmt_num_decimal|]. auto.
Qed.

Lemma sshow_text m T d : bytes_ok d -> Forall (fun f => field_in f (length d)) (ht_fields T) ->
  exists s, (olet s := sshow_fields m d (ht_fields T) in Ret (show_title T ++ s)%string) = Ret s /\ header_text T d s.
Proof.
  intros Hd Hf. destruct (sshow_fields_ok m d _ Hd Hf) as (lines & E & F). rewrite E. cbn [obind].
  eexists. split; [reflexivity|]. exists lines. split; auto.
  unfold show_title, show_heading, show_rule, fmt_left. rewrite chars_blanks, !append_assoc. reflexivity.
Qed.

(** ** Owned headers print what borrowed ones do *)

Lemma hshow_octets_in m x h d i n : cell_at h (h_ref x) d -> (i + 8 * n <= 8 * length d)%nat ->
  hshow_octets m x i n h = (sshow_octets m d i n, h).
Proof.
  intros Hc. revert i; induction n as [|n IH]; intros i H; cbn [hshow_octets sshow_octets]; [reflexivity|].
  unfold bind at 1. rewrite (hbit_range_in m x h d) by (auto; lia).
  destruct (get_bits m d (i + 7) i); cbn [obind]; auto.
  unfold bind. rewrite IH by lia. destruct (sshow_octets m d (i + 8) n); reflexivity.
Qed.

Lemma hshow_field_in m x h d f : cell_at h (h_ref x) d -> field_in f (length d) ->
  hshow_field m x f h = (sshow_field m d f, h).
Proof.
  intros Hc [H1 H2]. unfold hshow_field, sshow_field.
  assert (Ew : f_width f = (f_end f - f_start f + 1)%nat) by reflexivity. set (w := f_width f) in *.
  pose proof (Nat.div_mod w 8 ltac:(lia)) as Dm. pose proof (Nat.mod_upper_bound w 8 ltac:(lia)) as Mb.
  destruct (w <=? 8)%nat.
  - unfold bind. rewrite (hbit_range_in m x h d) by auto. destruct (get_bits m d (f_end f) (f_start f)); reflexivity.
  - destruct (w mod 8 =? 0)%nat.
    + apply hshow_octets_in; auto. lia.
    + unfold bind. rewrite (hshow_octets_in m x h d) by (auto; lia).
      destruct (sshow_octets m d (f_start f) (w / 8)); cbn [obind]; auto.
      rewrite (hbit_range_in m x h d) by auto. destruct (get_bits m d _ _); reflexivity.
Qed.

Lemma hshow_fields_in m x h d l : cell_at h (h_ref x) d -> Forall (fun f => field_in f (length d)) l ->
  hshow_fields m x l h = (sshow_fields m d l, h).
Proof.
  intros Hc. induction 1 as [|f l Hf Hl IH]; cbn [hshow_fields sshow_fields]; [reflexivity|].
  unfold bind. rewrite (hshow_field_in m x h d) by auto. destruct (sshow_field m d f); cbn [obind]; auto.
  rewrite IH. destruct (sshow_fields m d l); reflexivity.
Qed.

Lemma hshow_ok m x h d : cell_at h (h_ref x) d -> bytes_ok d ->
  Forall (fun f => field_in f (length d)) (ht_fields (h_ty x)) ->
  exists s, hshow m x h = (Ret s, h) /\ header_text (h_ty x) d s.
Proof.
  intros Hc Hd Hf. destruct (sshow_text m (h_ty x) d Hd Hf) as (s & E & T). exists s. split; auto.
  unfold hshow, bind. rewrite (hshow_fields_in m x h d) by auto.
  destruct (sshow_fields m d (ht_fields (h_ty x))); try discriminate. cbn [obind] in E. injection E as <-. reflexivity.
Qed.

(** A field that does not lie in the buffer. *)
Lemma hshow_octets_oob m x h d i n : cell_at h (h_ref x) d -> bytes_ok d -> (8 * length d < i + 8 * n)%nat ->
  (n <> 0)%nat -> hshow_octets m x i n h = (Panic PIndex, upd h (h_ref x) (Cell d true)).
Proof.
  intros Hc Hd. revert i; induction n as [|n IH]; intros i H Hn; [congruence|]. cbn [hshow_octets].
  destruct (Nat.lt_ge_cases (i + 7) (8 * length d)) as [L|L].
  - unfold bind at 1. rewrite (hbit_range_in m x h d) by auto. rewrite get_bits_octet by (auto; lia).
    rewrite (bind_panic _ _ _ _ _ (IH (i + 8)%nat ltac:(lia) ltac:(lia))). reflexivity.
  - rewrite (bind_panic _ _ _ _ _ (hbit_range_oob m x h d (i + 7) i Hc ltac:(lia) L)). reflexivity.
Qed.

Lemma hshow_field_oob m x h d f : cell_at h (h_ref x) d -> bytes_ok d -> (f_start f <= f_end f)%nat ->
  (8 * length d <= f_end f)%nat -> hshow_field m x f h = (Panic PIndex, upd h (h_ref x) (Cell d true)).
Proof.
  intros Hc Hd H1 H2. unfold hshow_field.
  assert (Ew : f_width f = (f_end f - f_start f + 1)%nat) by reflexivity. set (w := f_width f) in *.
  pose proof (Nat.div_mod w 8 ltac:(lia)) as Dm. pose proof (Nat.mod_upper_bound w 8 ltac:(lia)) as Mb.
  destruct (Nat.leb_spec w 8).
  - rewrite (bind_panic _ _ _ _ _ (hbit_range_oob m x h d _ _ Hc H1 H2)). reflexivity.
  - destruct (Nat.eqb_spec (w mod 8) 0).
    + apply hshow_octets_oob; auto; lia.
    + destruct (Nat.le_gt_cases (f_start f + 8 * (w / 8)) (8 * length d)) as [L|L].
      * unfold bind at 1. rewrite (hshow_octets_in m x h d) by auto. rewrite sshow_octets_ok by auto.
        rewrite (bind_panic _ _ _ _ _ (hbit_range_oob m x h d (f_end f) (f_end f - w mod 8) Hc ltac:(lia) H2)). reflexivity.
      * rewrite (bind_panic _ _ _ _ _ (hshow_octets_oob m x h d (f_start f) (w / 8) Hc Hd L ltac:(lia))). reflexivity.
Qed.

Lemma hshow_short m x h d : cell_at h (h_ref x) d -> bytes_ok d ->
  Forall (fun f => (f_start f <= f_end f)%nat) (ht_fields (h_ty x)) ->
  Exists (fun f => (8 * length d <= f_end f)%nat) (ht_fields (h_ty x)) ->
  hshow m x h = (Panic PIndex, upd h (h_ref x) (Cell d true)).
Proof.
  intros Hc Hd Hf He. unfold hshow. apply bind_panic.
  induction He as [f l He|f l He IH]; apply Forall_cons_iff in Hf as [Hf1 Hf]; cbn [hshow_fields].
  - apply bind_panic. apply hshow_field_oob; auto.
  - destruct (Nat.le_gt_cases (8 * length d) (f_end f)) as [L|L].
    + apply bind_panic. apply hshow_field_oob; auto.
    + assert (F : field_in f (length d)) by (split; auto).
      unfold bind at 1. rewrite (hshow_field_in m x h d) by auto.
      destruct (sshow_field_ok m d f Hd F) as (s & E & _). rewrite E. apply bind_panic. auto.
Qed.

(** ** The dump *)

Lemma hexes_app a b : hexes (a ++ b) = (hexes a ++ hexes b)%string.
Proof. induction a as [|x a IH]; [reflexivity|]. cbn [app hexes]. rewrite IH, append_assoc. reflexivity. Qed.

Lemma dump_loop_short l x : bytes_ok l -> (x + length l < 16)%nat -> dump_loop l x = hexes l.
Proof.
  intros H. revert x; induction H as [|b l Hb Hl IH]; intros x L; cbn [dump_loop hexes length] in *; [reflexivity|].
  rewrite (Nat.mod_small (S x) 16) by lia. cbn [Nat.eqb]. rewrite fmt_02x_hex2 by exact Hb.
  rewrite IH by lia. reflexivity.
Qed.

Lemma dump_loop_full l t x : bytes_ok l -> (x + length l = 16)%nat -> (x < 16)%nat ->
  dump_loop (l ++ t) x = (hexes l ++ String nl (dump_loop t 0))%string.
Proof.
  intros H. revert x; induction H as [|b l Hb Hl IH]; intros x L Lx; cbn [app dump_loop hexes length] in *; [lia|].
  rewrite fmt_02x_hex2 by exact Hb. destruct l as [|c l].
  - cbn [length] in L. replace (S x) with 16%nat by lia. cbn [Nat.modulo Nat.divmod Nat.eqb app hexes].
    change (16 mod 16 =? 0)%nat with true. cbn iota. rewrite append_assoc. reflexivity.
  - cbn [length] in L. rewrite (Nat.mod_small (S x) 16) by lia. cbn [Nat.eqb].
    rewrite IH by (cbn [length]; lia). rewrite !append_assoc. reflexivity.
Qed.

Lemma dump_rows v : bytes_ok v -> rows v (dump_loop v 0).
Proof.
  remember (length v) as n eqn:En. revert v En. induction n as [n IH] using lt_wf_ind. intros v En Hv.
  destruct (Nat.lt_ge_cases (length v) 16) as [L|L].
  - rewrite dump_loop_short by (auto; lia). constructor. auto.
  - rewrite <- (firstn_skipn 16 v) at 2.
    assert (L16 : length (firstn 16 v) = 16%nat) by (rewrite firstn_length; lia).
    rewrite dump_loop_full by (try apply bytes_ok_firstn; auto; lia).
    rewrite <- (firstn_skipn 16 v) at 1. constructor; auto.
    apply (IH (length (skipn 16 v))); auto; [rewrite skipn_length; lia|apply bytes_ok_skipn; auto].
Qed.

Lemma show_raw_text v : bytes_ok v -> raw_text v (show_raw v).
Proof.
  intros Hv. exists (fmt_num 10 (N.of_nat (length v))), (dump_loop v 0). split; [apply fmt_num_decimal|].
  split; [apply dump_rows; auto|]. unfold show_raw, newline. reflexivity.
Qed.

Lemma hex2_inj a b : a < 256 -> b < 256 -> hex2 a = hex2 b -> a = b.
Proof.
  intros Ha Hb H. rewrite <- (Nnat.N2Nat.id a), <- (Nnat.N2Nat.id b) in *.
  assert (X : forallb (fun n => forallb (fun k => negb (String.eqb (hex2 (N.of_nat n)) (hex2 (N.of_nat k))) || (n =? k)%nat)
    (seq 0 256)) (seq 0 256) = true) by (vm_compute; reflexivity).
  rewrite forallb_forall in X. specialize (X (N.to_nat a)). rewrite forallb_forall in X.
  f_equal. apply Nat.eqb_eq.
  assert (E : String.eqb (hex2 (N.of_nat (N.to_nat a))) (hex2 (N.of_nat (N.to_nat b))) = true)
    by (apply String.eqb_eq; auto).
  specialize (X ltac:(apply in_seq; lia) (N.to_nat b) ltac:(apply in_seq; lia)). rewrite E in X. exact X.
Qed.

(** The text of a dump without its line breaks. *)
Fixpoint no_breaks (s : string) : string :=
  match s with
  | EmptyString => EmptyString
  | String c t => if Ascii.eqb c nl then no_breaks t else String c (no_breaks t)
  end.
Lemma no_breaks_app a b : no_breaks (a ++ b) = (no_breaks a ++ no_breaks b)%string.
Proof.
  induction a as [|c a IH]; [reflexivity|]. cbn [append no_breaks]. destruct (Ascii.eqb c nl); auto.
  rewrite IH. reflexivity.
Qed.
Lemma no_breaks_hex2 b : b < 256 -> no_breaks (hex2 b) = hex2 b.
Proof.
  intros H. rewrite <- (Nnat.N2Nat.id b).
  assert (X : forallb (fun n => String.eqb (no_breaks (hex2 (N.of_nat n))) (hex2 (N.of_nat n))) (seq 0 256) = true)
    by (vm_compute; reflexivity).
  rewrite forallb_forall in X. apply String.eqb_eq. apply X. apply in_seq. lia.
Qed.
Lemma no_breaks_hexes l : bytes_ok l -> no_breaks (hexes l) = hexes l.
Proof.
  induction 1 as [|b l Hb Hl IH]; [reflexivity|]. cbn [hexes]. rewrite no_breaks_app, no_breaks_hex2 by exact Hb.
  cbn [no_breaks]. change (Ascii.eqb " " nl) with false. cbn iota. rewrite IH. reflexivity.
Qed.
Lemma rows_hexes v s : bytes_ok v -> rows v s -> no_breaks s = hexes v.
Proof.
  intros Hv H. induction H as [l L|l t s L H IH].
  - apply no_breaks_hexes; auto.
  - apply bytes_ok_app in Hv as [Hl Ht]. rewrite no_breaks_app, no_breaks_hexes by auto.
    cbn [no_breaks]. change (Ascii.eqb nl nl) with true. cbn iota. rewrite IH, hexes_app by auto. reflexivity.
Qed.
Lemma hexes_inj a b : bytes_ok a -> bytes_ok b -> hexes a = hexes b -> a = b.
Proof.
  intros Ha. revert b. induction Ha as [|x a Hx Ha IH]; intros [|y b] Hb E; cbn [hexes] in E; auto; try discriminate.
  apply Forall_cons_iff in Hb as [Hy Hb]. unfold hex2 in E. cbn [append] in E.
  apply string_inj in E as [E1 E]. apply string_inj in E as [E2 E]. apply string_inj in E as [_ E].
  f_equal; auto. apply hex2_inj; auto. unfold hex2. rewrite E1, E2. reflexivity.
Qed.
Lemma rows_inj a b s : bytes_ok a -> bytes_ok b -> rows a s -> rows b s -> a = b.
Proof. intros Ha Hb Ra Rb. apply hexes_inj; auto. rewrite <- (rows_hexes a s), <- (rows_hexes b s); auto. Qed.

Lemma hexes_app_inj a b (s t : string) : length a = length b -> bytes_ok a -> bytes_ok b ->
  (hexes a ++ s = hexes b ++ t)%string -> a = b /\ s = t.
Proof.
  revert b. induction a as [|x a IH]; intros [|y b] L Ha Hb E; try discriminate L; [auto|].
  apply Forall_cons_iff in Ha as [Hx Ha]. apply Forall_cons_iff in Hb as [Hy Hb].
  cbn [hexes] in E. unfold hex2 in E. cbn [append] in E.
  apply string_inj in E as [E1 E]. apply string_inj in E as [E2 E]. apply string_inj in E as [_ E].
  destruct (IH b) as [-> ->]; auto. split; auto. f_equal. apply hex2_inj; auto. unfold hex2. rewrite E1, E2. reflexivity.
Qed.

Lemma concat_cons (s : string) l : String.concat "" (s :: l) = (s ++ String.concat "" l)%string.
Proof. cbn [String.concat]. destruct l; [cbn [String.concat]; rewrite append_nil_r|]; reflexivity. Qed.

Lemma app_cancel_l (a b c : string) : (a ++ b = a ++ c)%string -> b = c.
Proof. induction a as [|x a IH]; cbn [append]; intros E; auto. apply string_inj in E as [_ E]. auto. Qed.
Lemma app_cancel_r (a b : string) c : (a ++ String c EmptyString = b ++ String c EmptyString)%string -> a = b.
Proof.
  revert b. induction a as [|x a IH]; intros [|y b] E; cbn [append] in E; auto.
  - apply string_inj in E as [_ E]. destruct b; discriminate.
  - apply string_inj in E as [_ E]. destruct a; discriminate.
  - apply string_inj in E as [-> E]. f_equal. auto.
Qed.
Lemma numeral_cancel radix a v b w (s t : string) : numeral radix a v -> numeral radix b w ->
  (a ++ String " " s = b ++ String " " t)%string -> a = b /\ s = t.
Proof.
  assert (D : forall u, ~ is_digit radix " " u).
  { intros u (_ & [(k & A & _ & B)|[(k & A & _ & B)|(k & A & _ & B)]]);
      change (N_of_ascii " ") with 32 in B; lia. }
  intros Ha. revert b w. induction Ha as [|c a x y Hc Ha IH]; intros b w Hb E; destruct Hb as [|c' b x' y' Hc' Hb];
    cbn [append] in E; apply string_inj in E as [E1 E].
  - auto.
  - subst. exfalso. eapply D; eauto.
  - subst. exfalso. eapply D; eauto.
  - subst c'. destruct (IH b y' Hb E) as [-> ->]. auto.
Qed.
