(** PanicCalls.v -- proofs for PropPanic.v: the faults of the calls that are not
    methods of owned headers or packets. *)

From Coq Require Import Lia.
From Verif Require Import Base Bits Types Layout Heap Packet Text Build Utils Slow Fast Show Ops Client Spec Grammar
  ClientSpec PanicSpec BitsProofs HeapProofs ShowProofs GrammarProofs SlowProofs FastProofs ChecksumProofs PropChecksum PanicProofs.
Open Scope N_scope.

(** The computation [o] panics with exactly the faults [F]. *)
Definition ofaults {A} (o : out A) (F : fault -> Prop) : Prop := forall e, o = Panic e <-> F e.
Lemma ofaults_ret {A} (a : A) F : (forall e, ~ F e) -> ofaults (Ret a) F.
Proof. intros H e. split; [discriminate|]. intros X. destruct (H e X). Qed.
Lemma ofaults_panic {A} e0 F : (forall e, F e <-> e = e0) -> ofaults (@Panic A e0) F.
Proof. intros H e. rewrite H. split; [congruence|]. intros ->. reflexivity. Qed.
Lemma ofaults_iff {A} (o : out A) F F' : ofaults o F -> (forall e, F e <-> F' e) -> ofaults o F'.
Proof. intros H K e. rewrite (H e). apply K. Qed.
Lemma faults_lift {A} (o : out A) h F : ofaults o F -> faults (lift o h) F.
Proof. intros H e. apply H. Qed.

(** ** Borrowed headers *)

Lemma v_bytes_len v : slice_ok v -> length (v_bytes v) = v_len v.
Proof. intros [_ H]. unfold v_bytes. rewrite firstn_length, skipn_length. lia. Qed.
Lemma v_bytes_ok v : slice_ok v -> bytes_ok (v_bytes v).
Proof. intros [H _]. apply bytes_ok_firstn, bytes_ok_skipn. exact H. Qed.

Lemma get_bits_faults m d msb lsb : bytes_ok d -> ofaults (get_bits m d msb lsb) (sread_fault m (length d) msb lsb).
Proof.
  intros Hd. unfold sread_fault, reversed. destruct (Nat.lt_ge_cases msb lsb) as [R|R].
  { rewrite get_bits_rev by auto. destruct m; [apply ofaults_panic|apply ofaults_ret]; intros e.
    - split; [intros [X|X]; [tauto|lia]|]. intros ->. auto.
    - intros [(_ & X & _)|X]; [discriminate|lia]. }
  destruct (Nat.le_gt_cases (8 * length d) msb) as [O|I].
  - rewrite get_bits_oob by auto. apply ofaults_panic. intros e. split.
    + intros [X|(_ & [X|X])]; [lia|tauto|lia].
    + intros ->. right. auto.
  - destruct (get_bits_in m d msb lsb Hd R I) as [(v & -> & W)|(-> & -> & W)].
    + apply ofaults_ret. intros e [X|(_ & [X|X])]; [lia|lia|tauto].
    + apply ofaults_panic. intros e. split; [intros [X|(_ & [X|X])]; [lia|lia|tauto]|]. intros ->. right. auto 6.
Qed.

Lemma bytes_of_faults m d msb lsb : bytes_ok d -> ofaults (bytes_of m d msb lsb) (sbytes_fault m (length d) msb lsb).
Proof.
  intros Hd. unfold sbytes_fault, bytes_of.
  destruct (bytes_guard_cases m msb lsb) as [(-> & G & Nd & W)|(e0 & -> & Ne & G & W)]; cbn [obind].
  2:{ apply ofaults_panic. intros e. rewrite G. tauto. }
  destruct (Nat.lt_ge_cases msb lsb) as [R|R].
  { unfold step8_len, range_len. replace (S msb - lsb)%nat with O by lia.
    change ((0 + 7) / 8)%nat with O. cbn [bytes_loop]. apply ofaults_ret. intros e [X|X]; [apply (G e X)|lia]. }
  specialize (W R). unfold step8_len, range_len. replace (S msb - lsb)%nat with (msb - lsb + 1)%nat by lia.
  destruct (mod8_len _ W) as [-> W8].
  destruct (Nat.le_gt_cases (8 * length d) msb) as [O|I].
  - rewrite bytes_loop_oob by (auto; lia). apply ofaults_panic. intros e.
    split; [intros [X|X]; [destruct (G e X)|tauto]|]. intros ->. right. auto 8.
  - rewrite bytes_loop_val by (auto; lia). apply ofaults_ret. intros e [X|X]; [apply (G e X)|lia].
Qed.

Lemma sshow_octets_oob m d i n : bytes_ok d -> (8 * length d < i + 8 * n)%nat -> (n <> 0)%nat ->
  sshow_octets m d i n = Panic PIndex.
Proof.
  intros Hd. revert i; induction n as [|n IH]; intros i H Hn; [congruence|]. cbn [sshow_octets].
  destruct (Nat.lt_ge_cases (i + 7) (8 * length d)) as [L|L].
  - rewrite get_bits_octet by (auto; lia). cbn [obind]. rewrite IH by lia. reflexivity.
  - rewrite get_bits_oob by lia. reflexivity.
Qed.
Lemma sshow_field_oob m d f : bytes_ok d -> (f_start f <= f_end f)%nat -> (8 * length d <= f_end f)%nat ->
  sshow_field m d f = Panic PIndex.
Proof.
  intros Hd H1 H2. unfold sshow_field.
  assert (Ew : f_width f = (f_end f - f_start f + 1)%nat) by reflexivity. set (w := f_width f) in *.
  pose proof (Nat.div_mod w 8 ltac:(lia)) as Dm. pose proof (Nat.mod_upper_bound w 8 ltac:(lia)) as Mb.
  destruct (Nat.leb_spec w 8).
  - rewrite get_bits_oob by auto. reflexivity.
  - destruct (Nat.eqb_spec (w mod 8) 0).
    + apply sshow_octets_oob; auto; lia.
    + destruct (Nat.le_gt_cases (f_start f + 8 * (w / 8)) (8 * length d)) as [L|L].
      * rewrite sshow_octets_ok by auto. cbn [obind]. rewrite get_bits_oob by lia. reflexivity.
      * rewrite sshow_octets_oob by (auto; lia). reflexivity.
Qed.

(** Either it is shown or it panics. *)
Lemma sshow_cases m x : slice_ok (s_view x) -> declared (s_ty x) ->
  (exists s, sshow m x = Ret s /\ forall e, ~ sshow_fault x e) \/
  (sshow m x = Panic PIndex /\ forall e, sshow_fault x e <-> e = PIndex).
Proof.
  intros Hv Hf. pose proof (v_bytes_ok _ Hv) as Hd. unfold sshow, sshow_fault. rewrite <- (v_bytes_len _ Hv).
  set (d := v_bytes (s_view x)) in *. unfold declared in Hf. induction (ht_fields (s_ty x)) as [|f l IH].
  - left. eexists. split; [reflexivity|]. intros e (_ & f & [] & _).
  - apply Forall_cons_iff in Hf as [Hf1 Hf]. cbn [sshow_fields].
    destruct (Nat.le_gt_cases (8 * length d) (f_end f)) as [L|L].
    + right. rewrite sshow_field_oob by auto. split; [reflexivity|]. intros e. split; [tauto|]. intros ->.
      split; auto. exists f. split; [left; auto|auto].
    + destruct (sshow_field_ok m d f Hd (conj Hf1 L)) as (s & -> & _). cbn [obind].
      destruct (IH Hf) as [(s' & E & N)|[E N]].
      * left. destruct (sshow_fields m d l); try discriminate. cbn [obind] in *. eexists. split; [reflexivity|].
        intros e (-> & g & [<-|I] & G); [lia|]. apply (N PIndex). split; eauto.
      * right. destruct (sshow_fields m d l); try discriminate. cbn [obind] in *. split; [congruence|].
        intros e. specialize (N e). split; [tauto|]. intros ->. destruct (proj2 N eq_refl) as (_ & g & I & G).
        split; auto. exists g. split; [right; auto|auto].
Qed.

Lemma sshow_faults m x : slice_ok (s_view x) -> declared (s_ty x) -> ofaults (sshow m x) (sshow_fault x).
Proof.
  intros Hv Hf. destruct (sshow_cases m x Hv Hf) as [(s & -> & N)|[-> N]]; [apply ofaults_ret; auto|apply ofaults_panic; auto].
Qed.

Lemma ps_show_faults m q : Forall shdr_ok (ps_hdrs q) -> Forall (fun x => declared (s_ty x)) (ps_hdrs q) ->
  ofaults (ps_show m q) (fun e => exists x, In x (ps_hdrs q) /\ sshow_fault x e).
Proof.
  intros Hq Hf. unfold ps_show. generalize (show_raw (ps_to_vec q)) as raw. intros raw.
  assert (C : (exists s, show_shdrs m (ps_hdrs q) = Ret s /\ forall x e, In x (ps_hdrs q) -> ~ sshow_fault x e) \/
    (show_shdrs m (ps_hdrs q) = Panic PIndex /\ exists x, In x (ps_hdrs q) /\ sshow_fault x PIndex)).
  { induction (ps_hdrs q) as [|x l IH]; cbn [show_shdrs].
    - left. eexists. split; [reflexivity|]. intros x e [].
    - apply Forall_cons_iff in Hq as [[Hx _] Hq]. apply Forall_cons_iff in Hf as [Hf1 Hf].
      destruct (sshow_cases m x Hx Hf1) as [(s & -> & N)|[-> N]]; cbn [obind].
      + destruct (IH Hq Hf) as [(r & -> & N')|(-> & y & Iy & Fy)]; cbn [obind].
        * left. eexists. split; [reflexivity|]. intros y e [<-|I]; [apply N|apply N'; auto].
        * right. split; [reflexivity|]. exists y. split; [right; auto|auto].
      + right. split; [reflexivity|]. exists x. split; [left; auto|]. apply N. reflexivity. }
  destruct C as [(s & -> & N)|(-> & x & I & F)]; cbn [obind].
  - apply ofaults_ret. intros e (x & I & F). apply (N x e I F).
  - apply ofaults_panic. intros e. split; [intros (_ & _ & E & _); exact E|]. intros ->. eauto.
Qed.

(** ** Parsing *)

Lemma cut_by_fun f b e : cut_by f b e -> forall e', cut_by f b e' -> e = e'.
Proof.
  induction 1 as [b L|b e L C IH|f T b Hf L|f T x rest Hf Lx L|f T x os rest Hf Lx Lo D|f T x os rest g e Hf Lx Lo D C IH];
    intros e' C'.
  - inversion C'; subst; try discriminate; auto. lia.
  - inversion C'; subst; try discriminate; auto. lia.
  - inversion C' as [? ?|? ? ? ?|f' T' b' Hf' L'|f' T' x' rest' Hf' Lx' L'|f' T' x' os' rest' Hf' Lx' Lo' D'
      |f' T' x' os' rest' g' e1 Hf' Lx' Lo' D' C1]; subst; try discriminate; auto;
      assert (T' = T) by congruence; subst; rewrite app_length in L; lia.
  - inversion C' as [? ?|? ? ? ?|f' T' b' Hf' L'|f' T' x' rest' Hf' Lx' L'|f' T' x' os' rest' Hf' Lx' Lo' D' E1 E2
      |f' T' x' os' rest' g' e1 Hf' Lx' Lo' D' C1 E1 E2]; subst; try discriminate; auto;
      assert (T' = T) by congruence; subst; destruct (app_inj_len _ _ _ _ E2) as [-> <-]; try congruence;
      rewrite app_length, concat_len, Lo' in L; lia.
  - inversion C' as [? ?|? ? ? ?|f' T' b' Hf' L' E1 E2 E3|f' T' x' rest' Hf' Lx' L' E1 E2 E3|f' T' x' os' rest' Hf' Lx' Lo' D' E1 E2
      |f' T' x' os' rest' g' e1 Hf' Lx' Lo' D' C1 E1 E2]; subst; try discriminate; auto.
    + assert (T' = T) by congruence. subst. rewrite app_length in L'. lia.
    + assert (T' = T) by congruence. subst. destruct (app_inj_len _ _ _ _ E2) as [-> ->]; [congruence|].
      rewrite app_length, concat_len, Lo in L'. lia.
    + destruct (header_split _ _ _ _ _ _ _ _ _ Hf' Hf Lx' Lx Lo' Lo E2) as (-> & -> & -> & ->). congruence.
  - inversion C' as [? ?|? ? ? ?|f' T' b' Hf' L' E1 E2 E3|f' T' x' rest' Hf' Lx' L' E1 E2 E3|f' T' x' os' rest' Hf' Lx' Lo' D' E1 E2
      |f' T' x' os' rest' g' e1 Hf' Lx' Lo' D' C1 E1 E2]; subst; try discriminate; auto.
    + assert (T' = T) by congruence. subst. rewrite app_length in L'. lia.
    + assert (T' = T) by congruence. subst. destruct (app_inj_len _ _ _ _ E2) as [-> ->]; [congruence|].
      rewrite app_length, concat_len, Lo in L'. lia.
    + destruct (header_split _ _ _ _ _ _ _ _ _ Hf' Hf Lx' Lx Lo' Lo E2) as (-> & -> & -> & ->). congruence.
    + destruct (header_split _ _ _ _ _ _ _ _ _ Hf' Hf Lx' Lx Lo' Lo E2) as (-> & -> & -> & ->).
      assert (g' = g) by congruence. subst. auto.
Qed.

Lemma slow_faults m f d h : bytes_ok d -> faults (slow m f d h) (cut_by f d).
Proof.
  intros Hd e. destruct (slow_res_by m f d h Hd) as [(gs & pl & hs & l & W & -> & _)|(e' & l & C & ->)]; cbn [fst].
  - split; [discriminate|]. intros X. destruct (wire_cut _ _ _ _ W (cut_by_cut _ _ _ X)).
  - split; [congruence|]. intros X. rewrite (cut_by_fun _ _ _ C _ X). reflexivity.
Qed.

Lemma fast_faults m f v : slice_ok v -> ofaults (fast_view m f v) (cut_by f (v_bytes v)).
Proof.
  intros Hv e. pose proof (v_bytes_len v Hv) as L.
  assert (W : win (v_buf v) (v_off v) (v_bytes v)).
  { exists (firstn (v_off v) (v_buf v)), (skipn (v_len v) (skipn (v_off v) (v_buf v))). unfold v_bytes.
    rewrite firstn_skipn, firstn_skipn. split; auto. rewrite firstn_length. destruct Hv. lia. }
  assert (R : fres f (v_buf v) (v_off v) (v_bytes v) (fast_view m f v)).
  { unfold fast_view. destruct v as [B o n]. pose proof (v_bytes_ok _ Hv) as Hb. cbn [v_len v_buf v_off] in *.
    revert L W Hb. generalize (v_bytes (View B o n)) as b. intros b <- W Hb.
    apply fast_fuel_res; auto. unfold is_parse. destruct f; lia. }
  destruct R as [(gs & pl & Wi & ->)|(e' & C & ->)].
  - split; [discriminate|]. intros X. destruct (wire_cut _ _ _ _ Wi (cut_by_cut _ _ _ X)).
  - split; [congruence|]. intros X. rewrite (cut_by_fun _ _ _ C _ X). reflexivity.
Qed.

(** ** The checksum *)

Lemma index_firstn {A} (d : list A) n i : (i < n)%nat -> index (firstn n d) i = index d i.
Proof.
  intros H. unfold index. replace (nth_error (firstn n d) i) with (nth_error d i); auto.
  revert i d H. induction n as [|n IH]; intros i [|x d] H; [lia|lia|destruct i; reflexivity|].
  destruct i as [|i]; [reflexivity|]. cbn. apply IH. lia.
Qed.

Lemma checksum_loop_odd m v n : length v = (2 * n + 1)%nat -> n <> 5%nat -> forall k i c, (i + 2 * k = 2 * n)%nat ->
  checksum_loop m v i (S k) c = olet _ := checksum_loop m (firstn (2 * n) v) i k c in Panic PIndex.
Proof.
  intros L N5. induction k as [|k IH]; intros i c Hi.
  - cbn [checksum_loop obind]. rewrite (proj2 (Nat.eqb_neq _ _)) by lia.
    rewrite (index_lt _ _ 0) by lia. cbn [obind]. rewrite index_ge by lia. reflexivity.
  - remember (S k) as k1 eqn:Ek. cbn [checksum_loop]. rewrite Ek at 2. cbn [checksum_loop]. subst k1.
    destruct (Nat.eqb_spec i 10) as [E|E]; [apply IH; lia|].
    rewrite !index_firstn by lia. destruct (index v i) as [a| | | |]; cbn [obind]; try reflexivity.
    destruct (index v (i + 1)) as [b| | | |]; cbn [obind]; try reflexivity.
    destruct (add32 m c (N.lor (shl16 a 8) b)) as [x| | | |]; cbn [obind]; try reflexivity. apply IH. lia.
Qed.

Lemma checksum_faults m d : bytes_ok d -> ofaults (ipv4_checksum m d) (checksum_fault m d).
Proof.
  intros Hd. unfold checksum_fault. destruct (Nat.even (length d)) eqn:Ev.
  - assert (Od : Nat.odd (length d) = false) by (unfold Nat.odd; rewrite Ev; reflexivity). rewrite Od.
    unfold whole_words. apply Nat.even_spec in Ev as Ev'. destruct Ev' as [n Hn].
    replace (2 * (length d / 2))%nat with (length d).
    2:{ rewrite Hn. rewrite (Nat.mul_comm 2 n), Nat.div_mul by lia. lia. }
    rewrite firstn_all. rewrite C20_value_any by auto. unfold other_words. cbv zeta.
    set (s := plain_sum (words (zero_checksum d))). clearbody s.
    set (P := 2 ^ 32). assert (D : P <= s -> P <= s / 65536 + s) by (intros Q; eapply N.le_trans; [exact Q|apply N.le_add_l]).
    destruct (N.ltb_spec (s / 65536 + s) P) as [L|L].
    + apply ofaults_ret. intros e [X|[X|X]]; [|destruct X as (_ & (X & _) & _); discriminate|]; lia.
    + destruct m.
      * apply ofaults_panic. intros e. split; [intros [X|[X|X]]; [tauto|destruct X as (_ & (X & _) & _); discriminate|tauto]|].
        intros ->. destruct (N.lt_ge_cases s P) as [S|S]; [right; right|left; auto].
        split; [reflexivity|]. split; [split; assumption|]. split; [intros [X _]; discriminate|reflexivity].
      * apply ofaults_ret. intros e [(X & _)|[(_ & (X & _) & _)|(X & _)]]; discriminate.
  - assert (Od : Nat.odd (length d) = true) by (unfold Nat.odd; rewrite Ev; reflexivity). rewrite Od.
    apply Nat.odd_spec in Od as [n Hn].
    assert (D2 : (length d / 2 = n)%nat).
    { rewrite Hn. replace (2 * n + 1)%nat with (1 + n * 2)%nat by lia. rewrite Nat.div_add by lia. reflexivity. }
    unfold whole_words. rewrite D2.
    assert (Lf : length (firstn (2 * n) d) = (2 * n)%nat) by (rewrite firstn_length; lia).
    assert (Ef : Nat.even (length (firstn (2 * n) d)) = true) by (rewrite Lf; apply Nat.even_spec; exists n; auto).
    assert (Of : bytes_ok (firstn (2 * n) d)) by (apply bytes_ok_firstn; auto).
    destruct (Nat.eq_dec n 5) as [->|N5].
    + change (2 * 5 + 1)%nat with 11%nat in Hn. change (2 * 5)%nat with 10%nat in *.
      rewrite C20_eleven by auto. rewrite C20_value_any by auto. unfold other_words. cbv zeta.
      set (s := plain_sum (words (zero_checksum (firstn 10 d)))). clearbody s.
      set (P := 2 ^ 32). assert (D : P <= s -> P <= s / 65536 + s) by (intros Q; eapply N.le_trans; [exact Q|apply N.le_add_l]).
      assert (NC : ~ (true = true /\ length d <> 11%nat)) by (intros [_ X]; auto).
      destruct (N.ltb_spec (s / 65536 + s) P) as [L|L].
      * apply ofaults_ret. intros e [X|[X|X]]; [|tauto|]; lia.
      * destruct m.
        -- apply ofaults_panic. intros e. split; [intros [X|[X|X]]; tauto|].
           intros ->. destruct (N.lt_ge_cases s P) as [S|S]; [right; right|left; auto].
           split; [reflexivity|]. split; [split; assumption|]. split; [assumption|reflexivity].
        -- apply ofaults_ret. intros e [(X & _)|[X|(X & _)]]; [discriminate|tauto|discriminate].
    + assert (CU : true = true /\ length d <> 11%nat) by (split; auto; lia).
      unfold ipv4_checksum. replace ((length d + 1) / 2)%nat with (S n).
      2:{ rewrite Hn. replace (2 * n + 1 + 1)%nat with ((n + 1) * 2)%nat by lia. rewrite Nat.div_mul; lia. }
      rewrite (checksum_loop_odd m d n) by (auto; lia).
      pose proof (checksum_loop_all m (firstn (2 * n) d) Of Ef) as A. rewrite Lf in A.
      replace ((2 * n + 1) / 2)%nat with n in A.
      2:{ replace (2 * n + 1)%nat with (1 + n * 2)%nat by lia. rewrite Nat.div_add by lia. reflexivity. }
      rewrite A. unfold addall. rewrite N.add_0_l.
      set (s := plain_sum (words (zero_checksum (firstn (2 * n) d)))). clearbody s.
      destruct (N.ltb_spec s (2 ^ 32)) as [L|L]; cbn [obind].
      * apply ofaults_panic. intros e. split; [intros [X|[X|X]]; [lia|tauto|tauto]|].
        intros ->. right. left. split; [|auto]. intros [_ X]. apply N.le_ngt in X. auto.
      * destruct m; cbn [obind].
        -- apply ofaults_panic. intros e. split; [intros [X|[(X & _)|X]]; [tauto|destruct X; auto|tauto]|]. intros ->. auto.
        -- apply ofaults_panic. intros e. split; [intros [X|[X|X]]; [destruct X; discriminate|tauto|destruct X; discriminate]|].
           intros ->. right. left. split; [|auto]. intros [X _]. discriminate.
Qed.
