(** SteerProofs.v -- lemmas for C96. *)

From Coq Require Import Lia.
From Verif Require Import Base Bits Types Layout Heap Packet Slow Fast Spec Grammar DepthSpec SteerSpec.
From Verif Require Import BitsProofs BuildProofs HeapProofs PacketProofs GrammarProofs SlowProofs FastProofs.
Open Scope N_scope.

(** ** Bytes from bits *)

Lemma bit_sub b i n j : (i + n <= length b)%nat -> (j < 8 * n)%nat -> bit (sub b i n) j = bit b (8 * i + j).
Proof.
  intros L J. rewrite (sub_split b i n) at 2. rewrite bit_app.
  assert (Lf : length (firstn i b) = i) by (rewrite firstn_length; lia). rewrite Lf.
  destruct (Nat.ltb_spec (8 * i + j) (8 * i)); [lia|]. rewrite bit_app, sub_length by auto.
  replace (8 * i + j - 8 * i)%nat with j by lia. destruct (Nat.ltb_spec j (8 * n)); [reflexivity|lia].
Qed.

Lemma sub_alike b b' i n : bytes_ok b -> bytes_ok b' -> length b = length b' -> (i + n <= length b)%nat ->
  (forall j, (8 * i <= j < 8 * (i + n))%nat -> bit b j = bit b' j) -> sub b i n = sub b' i n.
Proof.
  intros Hb Hb' L Li H. apply bytes_ext; try apply sub_ok; auto; rewrite !sub_length by lia; auto.
  intros j J. rewrite !bit_sub by lia. apply H. lia.
Qed.

Lemma sub_whole b n : length b = n -> sub b 0 n = b.
Proof. intros <-. unfold sub. cbn [skipn]. apply firstn_all. Qed.

Lemma nibble_alike a b r r' : a < 256 -> b < 256 ->
  (forall j, (j <= 3)%nat -> bit (a :: r) j = bit (b :: r') j) -> a / 16 = b / 16.
Proof.
  intros Ha Hb H. change 16 with (2 ^ 4). rewrite <- !N.shiftr_div_pow2. apply N.bits_inj. intros k.
  rewrite !N.shiftr_spec'. destruct (N.lt_ge_cases k 4) as [K|K].
  - specialize (H (3 - N.to_nat k)%nat ltac:(lia)). unfold bit in H.
    rewrite Nat.div_small, Nat.mod_small in H by lia. cbn [nth] in H.
    replace (N.of_nat (7 - (3 - N.to_nat k))) with (k + 4) in H by lia. exact H.
  - rewrite !N.bits_above_log2; auto.
    + destruct (N.eq_dec b 0) as [->|]; [cbn; lia|]. assert (N.log2 b < 8) by (apply N.log2_lt_pow2; lia). lia.
    + destruct (N.eq_dec a 0) as [->|]; [cbn; lia|]. assert (N.log2 a < 8) by (apply N.log2_lt_pow2; lia). lia.
Qed.

(** ** The tables look at nothing else *)

Lemma options_alike f T x x' : header_of f = Some T -> length x = ht_size T ->
  (forall i, decides f i -> (i < 8 * length x)%nat -> bit x i = bit x' i) -> options f x = options f x'.
Proof.
  intros Hf Lx H. destruct f; try reflexivity; injection Hf as <-; cbn in Lx; cbn [options].
  - rewrite (H 0%nat), (H 2%nat), (H 3%nat); auto; try lia.
    + exists 2%nat, 3%nat. cbn. split; [auto|lia].
    + exists 2%nat, 3%nat. cbn. split; [auto|lia].
    + exists 0%nat, 0%nat. cbn. split; [auto|lia].
  - rewrite (H 95%nat); auto; try lia. exists 95%nat, 95%nat. cbn. split; [auto|lia].
Qed.

Lemma demux_alike f T x x' rest rest' : header_of f = Some T -> length x = ht_size T -> length x' = ht_size T ->
  length rest = length rest' -> bytes_ok x -> bytes_ok x' -> bytes_ok rest -> bytes_ok rest' ->
  (forall i, decides f i -> options f x = [] \/ (i < 8 * length x)%nat -> bit (x ++ rest) i = bit (x' ++ rest') i) ->
  demux f x rest = demux f x' rest'.
Proof.
  intros Hf Lx Lx' Lr Ox Ox' Or Or' H0.
  assert (H : forall i, decides f i -> (i < 8 * length x)%nat -> bit x i = bit x' i).
  { intros i D I. specialize (H0 i D (or_intror I)). rewrite !bit_app in H0. rewrite Lx' in H0. rewrite <- Lx in H0.
    destruct (Nat.ltb_spec i (8 * length x)); [exact H0|lia]. }
  assert (S : forall i n, (i + n <= length x)%nat -> (forall j, (8 * i <= j < 8 * (i + n))%nat -> decides f j) ->
     sub x i n = sub x' i n).
  { intros i n L D. apply sub_alike; auto; [congruence|]. intros j J. apply H; [apply D; auto|lia]. }
  destruct f; try discriminate; try reflexivity; injection Hf as <-; cbn in Lx, Lx'; cbn [demux].
  - rewrite <- (sub_whole x 3), <- (sub_whole x' 3) by auto. rewrite (S 0%nat 3%nat); auto; [lia|].
    intros j J. exists 0%nat, 23%nat. cbn. split; [auto|lia].
  - rewrite (S 12%nat 2%nat); auto; [lia|]. intros j J. exists 96%nat, 111%nat. cbn. split; [auto|lia].
  - rewrite (S 2%nat 2%nat); auto; [lia|]. intros j J. exists 16%nat, 31%nat. cbn. split; [auto|lia].
  - rewrite (H 23%nat); auto; [|lia]. exists 23%nat, 23%nat. cbn. split; [auto|lia].
  - destruct rest as [|a r], rest' as [|b r']; try discriminate; auto.
    rewrite (nibble_alike a b r r'); auto.
    + inversion Or; auto.
    + inversion Or'; auto.
    + intros j J. assert (D : decides F_mpls_bos (32 + j)) by (exists 32%nat, 35%nat; cbn; split; [auto|lia]).
      specialize (H0 (32 + j)%nat D (or_introl eq_refl)). rewrite !bit_app, Lx, Lx' in H0.
      destruct (Nat.ltb_spec (32 + j) (8 * 4)); [lia|].
      replace (32 + j - 8 * 4)%nat with j in H0 by lia. exact H0.
  - rewrite (S 9%nat 1%nat); auto; [lia|]. intros j J. exists 72%nat, 79%nat. cbn. split; [auto|lia].
  - rewrite (S 6%nat 1%nat); auto; [lia|]. intros j J. exists 48%nat, 55%nat. cbn. split; [auto|lia].
  - rewrite (S 2%nat 2%nat); auto; [lia|]. intros j J. exists 16%nat, 31%nat. cbn. split; [auto|lia].
  - rewrite (S 2%nat 2%nat); auto; [lia|]. intros j J. exists 16%nat, 31%nat. cbn. split; [auto|lia].
Qed.

(** ** The same form *)

Lemma split_like (x rest b' : list N) (os : list (list N)) : length (x ++ concat os ++ rest) = length b' ->
  exists x' os' rest', b' = x' ++ concat os' ++ rest' /\ length x' = length x /\
    map (@length N) os' = map (@length N) os /\ length rest' = length rest.
Proof.
  intros L. rewrite !app_length in L.
  assert (C : forall os (c : list N), (length (concat os) <= length c)%nat ->
    exists os' r, c = concat os' ++ r /\ map (@length N) os' = map (@length N) os).
  { induction os0 as [|o os0 IH]; intros c Lc; [exists [], c; auto|]. cbn [concat] in Lc. rewrite app_length in Lc.
    destruct (IH (skipn (length o) c)) as (os' & r & E & M); [rewrite skipn_length; lia|].
    exists (firstn (length o) c :: os'), r. cbn [concat map]. rewrite M, firstn_length.
    rewrite <- app_assoc, <- E, firstn_skipn. split; auto. f_equal. lia. }
  destruct (C os (skipn (length x) b')) as (os' & r & E & M); [rewrite skipn_length; lia|].
  exists (firstn (length x) b'), os', r. rewrite <- E, firstn_skipn. split; auto.
  split; [rewrite firstn_length; lia|]. split; auto.
  apply (f_equal (@length N)) in E. rewrite skipn_length, app_length, concat_len, M, <- concat_len in E. lia.
Qed.

Lemma alike_next f T x os rest g b' : bytes_ok (x ++ concat os ++ rest) -> bytes_ok b' ->
  header_of f = Some T -> length x = ht_size T -> map (@length N) os = map ht_size (options f x) ->
  alike f (x ++ concat os ++ rest) b' -> demux f x rest = g ->
  exists x' os' rest', b' = x' ++ concat os' ++ rest' /\ length x' = ht_size T /\
    map (@length N) os' = map ht_size (options f x') /\ options f x' = options f x /\
    demux f x' rest' = g /\ length rest' = length rest /\ bytes_ok rest /\ bytes_ok rest' /\
    (forall g0, g = Some g0 -> alike g0 rest rest').
Proof.
  intros Hb Hb' Hf Lx Lo [L A] <-. destruct (split_like x rest b' os L) as (x' & os' & rest' & -> & Lx' & Lo' & Lr').
  rewrite !bytes_ok_app in Hb, Hb'. destruct Hb as (Ox & Oo & Or). destruct Hb' as (Ox' & Oo' & Or').
  assert (H : forall i, decides f i -> (i < 8 * length x)%nat -> bit x i = bit x' i).
  { intros i D I. specialize (A i (S_here f _ i D)). rewrite !bit_app in A. rewrite Lx' in A.
    destruct (Nat.ltb_spec i (8 * length x)); [exact A|lia]. }
  assert (O : options f x = options f x') by (eapply options_alike; eauto).
  assert (Lc : length (x ++ concat os) = length (x' ++ concat os')) by (rewrite !app_length, !concat_len, Lo', Lx'; auto).
  assert (D : demux f x rest = demux f x' rest').
  { eapply demux_alike; eauto; try congruence. intros i Di [E|I].
    - rewrite E in Lo. destruct os; [|discriminate]. destruct os'; [|discriminate].
      exact (A i (S_here f _ i Di)).
    - rewrite !bit_app, Lx'. destruct (Nat.ltb_spec i (8 * length x)); [auto|lia]. }
  exists x', os', rest'. repeat split; auto; try congruence.
  intros i Si. specialize (A _ (S_next f T x os rest g0 i Hf Lx Lo ltac:(congruence) Si)).
  rewrite !app_assoc in A. rewrite (bit_app (x ++ concat os)), (bit_app (x' ++ concat os')), <- Lc in A.
  destruct (Nat.ltb_spec (8 * length (x ++ concat os) + i) (8 * length (x ++ concat os))); [lia|].
  replace (8 * length (x ++ concat os) + i - 8 * length (x ++ concat os))%nat with i in A by lia. exact A.
Qed.

Lemma alike_parse b b' : bytes_ok b -> bytes_ok b' -> alike F_parse b b' -> (14 <= length b)%nat ->
  be (sub b 12 2) = be (sub b' 12 2) /\
  alike (if be (sub b 12 2) <? 1500 then F_dot3 else F_ethernet) b b'.
Proof.
  intros Hb Hb' [L A] L14. split.
  - f_equal. apply sub_alike; auto. intros j J. apply A, S_here. exists 96%nat, 111%nat. cbn. split; [auto|lia].
  - split; auto. intros i S. apply A, S_parse; auto.
Qed.

(** What steers the one steers the other. *)
Lemma alike_steers f b' i : steers f b' i -> forall b, bytes_ok b -> bytes_ok b' -> alike f b b' -> steers f b i.
Proof.
  induction 1 as [f b' i D|b' i L S IH|f T x' os' rest' g i Hf Lx' Lo' D' S IH]; intros b Hb Hb' A.
  - apply S_here; auto.
  - assert (L' : (14 <= length b)%nat) by (destruct A; lia). destruct (alike_parse _ _ Hb Hb' A L') as [E A'].
    apply S_parse; auto. rewrite E. apply IH; auto. rewrite <- E. exact A'.
  - destruct A as [Ll A]. destruct (split_like x' rest' b os' (eq_sym Ll)) as (x & os & rest & -> & Lx & Lo & Lr).
    assert (O : options f x = options f x').
    { eapply options_alike; [exact Hf|congruence|]. intros j Dj J. specialize (A j (S_here f _ j Dj)).
      rewrite !bit_app, Lx in A. rewrite Lx in J. destruct (Nat.ltb_spec j (8 * length x')); [exact A|lia]. }
    assert (Lx2 : length x = ht_size T) by congruence.
    assert (Lo2 : map (@length N) os = map ht_size (options f x)) by congruence.
    destruct (alike_next f T x os rest _ _ Hb Hb' Hf Lx2 Lo2 (conj Ll A) eq_refl)
      as (x2 & os2 & rest2 & E & Lx3 & Lo3 & O3 & D3 & Lr3 & Or & Or' & A').
    destruct (header_split _ _ _ _ _ _ _ _ _ Hf Hf Lx' Lx3 Lo' Lo3 E) as (_ & <- & <- & <-).
    replace (length (x' ++ concat os')) with (length (x ++ concat os))
      by (rewrite !app_length, !concat_len; congruence).
    rewrite D' in D3. eapply S_next; eauto.
Qed.

Lemma alike_sym f b b' : bytes_ok b -> bytes_ok b' -> alike f b b' -> alike f b' b.
Proof.
  intros Hb Hb' A. split; [destruct A; auto|]. intros i S. symmetry. apply A. eapply alike_steers; eauto.
Qed.

Definition form (gs : list (list seg)) : list (list (htype * nat)) := map (map (fun s => (fst s, length (snd s)))) gs.

Lemma form_combine (ts : list htype) : forall os os' : list (list N), map (@length N) os = map (@length N) os' ->
  map (fun s => (fst s, length (snd s))) (combine ts os) = map (fun s => (fst s, length (snd s))) (combine ts os').
Proof.
  induction ts as [|T ts IH]; intros [|o os] [|o' os'] M; try discriminate; auto. cbn [map combine fst snd].
  injection M as M0 M. f_equal; [congruence|]. apply IH; auto.
Qed.

Lemma alike_wire f b gs pl : wire f b gs pl -> forall b', bytes_ok b -> bytes_ok b' -> alike f b b' ->
  exists gs' pl', wire f b' gs' pl' /\ form gs' = form gs /\ length pl' = length pl.
Proof.
  induction 1 as [b|b gs pl L W IH|f T x os rest g gs pl Hf Lx Lo D W IH]; intros b' Hb Hb' A.
  - exists [], b'. split; [constructor|]. destruct A; auto.
  - destruct (alike_parse _ _ Hb Hb' A L) as [E A']. destruct (IH b' Hb Hb' A') as (gs' & pl' & W' & F & P).
    exists gs', pl'. split; auto. constructor; [destruct A; lia|]. rewrite <- E. exact W'.
  - destruct (alike_next _ _ _ _ _ _ _ Hb Hb' Hf Lx Lo A D) as (x' & os' & rest' & -> & Lx' & Lo' & O & D' & Lr & Or & Or' & A').
    destruct (IH rest' Or Or' (A' g eq_refl)) as (gs' & pl' & W' & F & P).
    exists ([(T, x')] :: combine (options f x') os' :: gs'), pl'. split; [eapply W_header; eauto|]. split; auto.
    unfold form in *. cbn [map fst snd]. rewrite F. f_equal; [congruence|]. f_equal. rewrite O. apply form_combine.
    rewrite Lo', Lo, O. reflexivity.
Qed.

Lemma alike_cut f b e : cut_by f b e -> forall b', bytes_ok b -> bytes_ok b' -> alike f b b' -> cut_by f b' e.
Proof.
  induction 1 as [b L|b e L C IH|f T b Hf L|f T x rest Hf Lx L|f T x os rest Hf Lx Lo D|f T x os rest g e Hf Lx Lo D C IH];
  intros b' Hb Hb' A.
  - apply D_parse. destruct A; lia.
  - destruct (alike_parse _ _ Hb Hb' A L) as [E A']. apply D_parse_next; [destruct A; lia|]. rewrite <- E. auto.
  - eapply D_header; eauto. destruct A; lia.
  - destruct A as [Ll A]. destruct (split_like x rest b' [] Ll) as (x' & os' & rest' & -> & Lx' & Lo' & Lr').
    destruct os'; [|discriminate]. cbn [concat app] in *.
    assert (O : options f x = options f x').
    { eapply options_alike; eauto. intros i Di I. specialize (A i (S_here f _ i Di)). rewrite !bit_app, Lx' in A.
      destruct (Nat.ltb_spec i (8 * length x)); [exact A|lia]. }
    eapply D_options; eauto; [congruence|]. rewrite <- O. lia.
  - destruct (alike_next _ _ _ _ _ _ _ Hb Hb' Hf Lx Lo A D) as (x' & os' & rest' & -> & Lx' & Lo' & O & D' & _).
    eapply D_peek; eauto.
  - destruct (alike_next _ _ _ _ _ _ _ Hb Hb' Hf Lx Lo A D) as (x' & os' & rest' & -> & Lx' & Lo' & O & D' & Lr & Or & Or' & A').
    eapply D_next; eauto.
Qed.

Lemma alike_nests f b n : nests f b n -> forall b', bytes_ok b -> bytes_ok b' -> alike f b b' -> nests f b' n.
Proof.
  induction 1 as [b|b L|b n L W IH|f T b Hf L|f T x rest Hf Lx L|f T x os rest Hf Lx Lo D|f T x os rest g n Hf Lx Lo D W IH];
  intros b' Hb Hb' A.
  - apply N_accept.
  - apply N_no_type. destruct A; lia.
  - destruct (alike_parse _ _ Hb Hb' A L) as [E A']. apply N_parse; [destruct A; lia|]. rewrite <- E. auto.
  - eapply N_no_header; eauto. destruct A; lia.
  - destruct A as [Ll A]. destruct (split_like x rest b' [] Ll) as (x' & os' & rest' & -> & Lx' & Lo' & Lr').
    destruct os'; [|discriminate]. cbn [concat app] in *.
    assert (O : options f x = options f x').
    { eapply options_alike; eauto. intros i Di I. specialize (A i (S_here f _ i Di)). rewrite !bit_app, Lx' in A.
      destruct (Nat.ltb_spec i (8 * length x)); [exact A|lia]. }
    eapply N_no_options; eauto; [congruence|]. rewrite <- O. lia.
  - destruct (alike_next _ _ _ _ _ _ _ Hb Hb' Hf Lx Lo A D) as (x' & os' & rest' & -> & Lx' & Lo' & O & D' & _).
    eapply N_no_peek; eauto.
  - destruct (alike_next _ _ _ _ _ _ _ Hb Hb' Hf Lx Lo A D) as (x' & os' & rest' & -> & Lx' & Lo' & O & D' & Lr & Or & Or' & A').
    eapply N_header; eauto.
Qed.

Lemma place_group_form B B' g g' off : 
  map (fun s : seg => (fst s, length (snd s))) g = map (fun s : seg => (fst s, length (snd s))) g' ->
  Forall2 (fun p q => fst p = fst q /\ same_window (snd p) (snd q)) (place_group B off g) (place_group B' off g') /\
  length (seg_bytes g) = length (seg_bytes g').
Proof.
  revert g' off; induction g as [|[T x] g IH]; intros [|[T' x'] g'] off E; try discriminate; [split; constructor|].
  cbn [map fst snd] in E. injection E as -> E0 E. destruct (IH g' (off + length x)%nat E) as [F L]. split.
  - cbn [place_group]. constructor; [repeat split; cbn; congruence|]. rewrite <- E0. exact F.
  - unfold seg_bytes in *. cbn [map concat snd]. rewrite !app_length. congruence.
Qed.

Lemma Forall2_rev {A B} (R : A -> B -> Prop) l l' : Forall2 R l l' -> Forall2 R (rev l) (rev l').
Proof. induction 1; cbn [rev]; [constructor|]. apply Forall2_app; auto. Qed.

Lemma place_form B B' gs gs' off : form gs = form gs' ->
  Forall2 (fun p q => fst p = fst q /\ same_window (snd p) (snd q))
    (concat (map (@rev (htype * view)) (place B off gs))) (concat (map (@rev (htype * view)) (place B' off gs'))) /\
  length (seg_bytes (concat gs)) = length (seg_bytes (concat gs')).
Proof.
  revert gs' off; induction gs as [|g gs IH]; intros [|g' gs'] off E; try discriminate; [split; constructor|].
  unfold form in E. cbn [map] in E. injection E as E0 E.
  destruct (place_group_form B B' g g' off E0) as [F L].
  destruct (IH gs' (off + length (seg_bytes g))%nat E) as [F' L']. split.
  - cbn [place map concat]. apply Forall2_app; [apply Forall2_rev; exact F|]. rewrite <- L. exact F'.
  - cbn [concat]. rewrite !seg_bytes_app, !app_length. congruence.
Qed.

Lemma shdrs_form (l l' : list (htype * view)) :
  Forall2 (fun p q => fst p = fst q /\ same_window (snd p) (snd q)) l l' ->
  Forall2 (fun x y => s_ty x = s_ty y /\ same_window (s_view x) (s_view y))
    (map (fun p => SHdr (fst p) (snd p)) l) (map (fun p => SHdr (fst p) (snd p)) l').
Proof. induction 1; constructor; auto. Qed.

Lemma form_types gs gs' : form gs = form gs' -> map fst (reported gs) = map fst (reported gs').
Proof.
  revert gs'; induction gs as [|g gs IH]; intros [|g' gs'] E; try discriminate; auto.
  unfold form in E. cbn [map] in E. injection E as E0 E. unfold reported in *. cbn [map concat]. rewrite !map_app.
  f_equal; [|apply IH; exact E]. rewrite !map_rev. f_equal.
  apply (f_equal (map fst)) in E0. rewrite !map_map in E0. exact E0.
Qed.

(** ** Every deciding bit matters *)

Definition turn (b : list N) (i : nat) : list N :=
  firstn (i / 8) b ++ N.lxor (nth (i / 8) b 0) (2 ^ N.of_nat (7 - i mod 8)) :: skipn (S (i / 8)) b.

Lemma turn_length b i : (i / 8 < length b)%nat -> length (turn b i) = length b.
Proof. intros H. unfold turn. rewrite app_length, firstn_length. cbn [length]. rewrite skipn_length. lia. Qed.

Lemma turn_nth b i k : (i / 8 < length b)%nat ->
  nth k (turn b i) 0 = if (k =? i / 8)%nat then N.lxor (nth (i / 8) b 0) (2 ^ N.of_nat (7 - i mod 8)) else nth k b 0.
Proof.
  intros H. unfold turn. set (q := (i / 8)%nat) in *. set (v := N.lxor _ _). clearbody v.
  assert (Lf : length (firstn q b) = q) by (rewrite firstn_length; lia).
  destruct (Nat.eqb_spec k q) as [->|N].
  - rewrite app_nth2 by lia. rewrite Lf, Nat.sub_diag. reflexivity.
  - destruct (Nat.lt_ge_cases k q) as [K|K].
    + rewrite app_nth1 by lia. rewrite <- (firstn_skipn q b) at 2. rewrite app_nth1 by lia. reflexivity.
    + rewrite app_nth2 by lia. rewrite Lf. destruct (k - q)%nat as [|j] eqn:E; [lia|]. cbn [nth].
      rewrite <- (firstn_skipn (S q) b) at 2.
      rewrite app_nth2 by (rewrite firstn_length; lia). rewrite firstn_length. f_equal. lia.
Qed.

Lemma turn_ok b i : bytes_ok b -> bytes_ok (turn b i).
Proof.
  intros H. unfold turn. apply bytes_ok_app. split; [apply bytes_ok_firstn; auto|]. constructor; [|apply bytes_ok_skipn; auto].
  assert (V : nth (i / 8) b 0 < 2 ^ 8) by (apply bytes_ok_nth; auto).
  assert (M : (i mod 8 < 8)%nat) by (apply Nat.mod_upper_bound; lia).
  set (v := nth (i / 8) b 0) in *. set (k := N.of_nat (7 - i mod 8)). assert (k < 8) by lia. clearbody v k.
  assert (G : N.lxor v (2 ^ k) < 2 ^ 8); [|exact G].
  destruct (N.eq_dec (N.lxor v (2 ^ k)) 0) as [->|Z]; [reflexivity|].
  apply N.log2_lt_pow2; [lia|]. eapply N.le_lt_trans; [apply N.log2_lxor|]. apply N.max_lub_lt.
  - destruct (N.eq_dec v 0) as [->|]; [reflexivity|]. apply N.log2_lt_pow2; lia.
  - rewrite N.log2_pow2; lia.
Qed.

Lemma turn_turned b i : (i < 8 * length b)%nat -> turned b (turn b i) i.
Proof.
  intros H. assert (Q : (i / 8 < length b)%nat) by (apply Nat.div_lt_upper_bound; lia).
  split; [symmetry; apply turn_length; auto|]. split.
  - unfold bit. rewrite turn_nth, Nat.eqb_refl by auto. rewrite N.lxor_spec, N.pow2_bits_true. apply xorb_true_r.
  - intros j J. unfold bit. rewrite turn_nth by auto. destruct (Nat.eqb_spec (j / 8) (i / 8)) as [E|E]; auto.
    rewrite N.lxor_spec, E. rewrite N.pow2_bits_false; [apply xorb_false_r|].
    pose proof (Nat.mod_upper_bound i 8 ltac:(lia)). pose proof (Nat.mod_upper_bound j 8 ltac:(lia)).
    pose proof (Nat.div_mod_eq i 8). pose proof (Nat.div_mod_eq j 8). lia.
Qed.

Definition code (r : out packet_slice) : list nat :=
  match r with Ret p => 1%nat :: map (fun x => ht_id (s_ty x)) (ps_hdrs p) | _ => [] end.
Definition code_slow (r : out packet) : list nat :=
  match r with Ret p => 1%nat :: map (fun x => ht_id (h_ty x)) (p_hdrs p) | _ => [] end.
Lemma same_form_code r r' : same_form r r' -> code r = code r'.
Proof.
  destruct r as [p|e| | |], r' as [q|e'| | |]; cbn [same_form code]; try contradiction; auto. intros [F _]. f_equal.
  induction F as [|x y l l' [E _] _ IH]; cbn [map]; congruence.
Qed.
Lemma same_form_slow_code r r' : same_form_slow r r' -> code_slow r = code_slow r'.
Proof.
  destruct r as [p|e| | |], r' as [q|e'| | |]; cbn [same_form_slow code_slow]; try contradiction; auto. intros [F _]. f_equal.
  apply (f_equal (map ht_id)) in F. rewrite !map_map in F. exact F.
Qed.

Definition witness (f : pfun) : list N :=
  match f with
  | F_parse | F_ethernet => repeat 0 12 ++ [0x81; 0] ++ repeat 0 40
  | F_llc => [0xAA; 0xAA; 3] ++ repeat 0 40
  | F_vlan => [0; 0; 0x81; 0] ++ repeat 0 40
  | F_mpls => [0; 0; 1; 0] ++ repeat 0 40
  | F_mpls_bos => [0; 0; 0; 0; 0x45] ++ repeat 0 60
  | F_ipv4 => repeat 0 9 ++ [17] ++ repeat 0 60
  | F_ipv6 => repeat 0 6 ++ [17] ++ repeat 0 60
  | F_gre => [0; 0; 8; 0] ++ repeat 0 60
  | F_udp => [0; 0; 0x12; 0xB5] ++ repeat 0 60
  | _ => repeat 0 80
  end.
Lemma witness_ok f : bytes_ok (witness f).
Proof. apply bytes_okb_ok. destruct f; reflexivity. Qed.

Definition bits_of (f : pfun) : list nat := concat (map (fun p => seq (fst p) (snd p - fst p + 1)) (deciding f)).
Lemma needed_in f i : decides f i -> In i (bits_of f).
Proof.
  intros (s & e & I & L). apply in_concat. exists (seq s (e - s + 1)). split.
  - apply in_map_iff. exists (s, e). auto.
  - apply in_seq. lia.
Qed.

Definition pfuns : list pfun :=
  [F_parse; F_dot3; F_llc; F_snap; F_ethernet; F_vlan; F_mpls; F_mpls_bos; F_ipv4; F_ipv6; F_gre; F_erspan2; F_erspan3;
   F_arp; F_icmp; F_tcp; F_udp; F_vxlan; F_accept].
Lemma all_pfuns f : In f pfuns.
Proof. destruct f; cbn; tauto. Qed.

Definition codes_differ (a b : list nat) : bool := if list_eq_dec Nat.eq_dec a b then false else true.
Lemma needed_all : forallb (fun f => forallb (fun i => (i <? 8 * length (witness f))%nat &&
  codes_differ (code (fast Debug f (witness f))) (code (fast Debug f (turn (witness f) i)))) (bits_of f)) pfuns = true.
Proof. vm_compute. reflexivity. Qed.

Lemma arp_steers d a i : length d = 12%nat -> steers F_ethernet (d ++ [8; 6] ++ a) i -> (96 <= i < 112)%nat.
Proof.
  intros L S.
  assert (N1 : forall f j, deciding f = [] -> decides f j -> False) by (intros f j E (s & e & I & _); rewrite E in I; exact I).
  assert (NA : forall b j, steers F_accept b j -> False).
  { intros b j K. inversion K; subst; try discriminate. eapply N1; eauto. reflexivity. }
  assert (NR : forall b j, steers F_arp b j -> False).
  { intros b j K. inversion K; subst; [eapply N1; eauto; reflexivity|]. cbn [demux] in *.
    match goal with H : Some F_accept = Some ?g |- _ => injection H as <- end. eapply NA; eauto. }
  inversion S as [f b j D E1 E2 E3|b j L' K E1 E2|f T x os rest g j Hf Lx Lo D K E1 E2 E3]; subst; try discriminate.
  - destruct D as (s & e & [E|[]] & J). injection E as <- <-. lia.
  - exfalso. cbn [options map] in Lo. destruct os; [|discriminate]. cbn [concat app] in E2.
    injection Hf as <-. cbn in Lx.
    change (d ++ 8 :: 6 :: a) with (d ++ [8; 6] ++ a) in E2. rewrite app_assoc in E2.
    destruct (app_inj_len _ _ _ _ E2) as [-> ->]; [rewrite app_length, L; cbn; lia|].
    cbn [demux] in D. replace (sub (d ++ [8; 6]) 12 2) with [8; 6] in D.
    + injection D as <-. eapply NR; eauto.
    + unfold sub. rewrite skipn_app, <- L, skipn_all, Nat.sub_diag. reflexivity.
Qed.
