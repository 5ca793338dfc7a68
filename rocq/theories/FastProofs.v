(** FastProofs.v -- the fast parser follows the wire grammar, with windows. *)

From Coq Require Import Lia Permutation.
From Verif Require Import Base Bits Types Layout Slow Fast Spec Grammar.
From Verif Require Import BitsProofs GrammarProofs SlowProofs.
Open Scope N_scope.

(** [b] is the part of [B] at offset [off]. *)
Definition win (B : list N) (off : nat) (b : list N) : Prop :=
  exists pre post, B = pre ++ b ++ post /\ off = length pre.

Lemma win_bytes B off b : win B off b -> v_bytes (View B off (length b)) = b.
Proof.
  intros (pre & post & -> & ->). unfold v_bytes. cbn [v_len v_off v_buf].
  rewrite skipn_app, skipn_all, Nat.sub_diag. cbn [app skipn].
  rewrite firstn_app, firstn_all, Nat.sub_diag. apply app_nil_r.
Qed.
Lemma win_app B off a b : win B off (a ++ b) -> win B off a /\ win B (off + length a) b.
Proof.
  intros (pre & post & -> & ->). split.
  - exists pre, (b ++ post). rewrite <- app_assoc. auto.
  - exists (pre ++ a), post. rewrite app_length, <- !app_assoc. auto.
Qed.
Lemma win_all B : win B 0 B.
Proof. exists [], []. rewrite app_nil_r. auto. Qed.

Lemma v_index_win B off b i : win B off b -> v_index (View B off (length b)) i = index b i.
Proof.
  intros (pre & post & -> & ->). unfold v_index, index. cbn [v_len v_buf v_off].
  destruct (Nat.ltb_spec i (length b)) as [H|H].
  - rewrite nth_error_app2 by lia. replace (length pre + i - length pre)%nat with i by lia.
    rewrite nth_error_app1 by auto. reflexivity.
  - rewrite (proj2 (nth_error_None b i)) by auto. reflexivity.
Qed.

Lemma stake_in T B off (done o rest : list N) n : n = length (done ++ o ++ rest) -> length o = ht_size T ->
  stake T (View B off n) (length done) = Ret (SHdr T (View B (off + length done) (length o))).
Proof.
  intros -> L. unfold stake, v_slice, sfrom, from_raw_parts. cbn [v_len v_buf v_off].
  rewrite !app_length. rewrite (proj2 (Nat.leb_le (length done) _)) by lia.
  rewrite (proj2 (Nat.leb_le (length done + ht_size T) _)) by lia. cbn [andb obind v_len v_buf v_off].
  replace (length done + ht_size T - length done)%nat with (ht_size T) by lia.
  rewrite Nat.leb_refl. cbn [obind]. rewrite L. reflexivity.
Qed.
Lemma stake_out T B off n i : (n < i + ht_size T)%nat -> stake T (View B off n) i = Panic PSlice.
Proof.
  intros H. unfold stake, v_slice. cbn [v_len]. rewrite (proj2 (Nat.leb_gt _ n)) by auto.
  rewrite andb_false_r. reflexivity.
Qed.
Lemma stake_0 T B off (x rest : list N) n : n = length (x ++ rest) -> length x = ht_size T ->
  stake T (View B off n) 0 = Ret (SHdr T (View B off (length x))).
Proof.
  intros -> L. pose proof (stake_in T B off [] x rest _ eq_refl L) as H. cbn [app length] in H.
  rewrite Nat.add_0_r in H. exact H.
Qed.
Lemma scall_in rec f B off (x rest : list N) i : i = length x ->
  scall rec f (View B off (length (x ++ rest))) i = rec f (View B (off + length x) (length rest)).
Proof.
  intros ->. unfold scall, v_slice_from. cbn [v_len v_buf v_off]. rewrite app_length.
  rewrite (proj2 (Nat.leb_le _ _)) by lia. cbn [obind].
  replace (length x + length rest - length x)%nat with (length rest) by lia. reflexivity.
Qed.
Lemma scall_out rec f B off n i : (n < i)%nat -> scall rec f (View B off n) i = Panic PSlice.
Proof. intros H. unfold scall, v_slice_from. cbn [v_len]. rewrite (proj2 (Nat.leb_gt _ _)) by auto. reflexivity. Qed.

Lemma sget_val m T B off x f : win B off x -> bytes_ok x -> field_in f (length x) -> (f_width f <= 64)%nat ->
  sget m (SHdr T (View B off (length x))) f = Ret (field_val x f).
Proof.
  intros W H [H1 H2] Hw. unfold sget. cbn [s_view]. rewrite win_bytes by auto.
  rewrite get_bits_val; auto.
Qed.

(** ** What a run must be *)

Definition shdrs (l : list (list (htype * view))) : list shdr :=
  map (fun p => SHdr (fst p) (snd p)) (concat (map (@rev (htype * view)) l)).
Definition fres (f : pfun) (B : list N) (off : nat) (b : list N) (r : out packet_slice) : Prop :=
  (exists gs pl, wire f b gs pl /\
     r = Ret (PS (shdrs (place B off gs)) (View B (off + length (seg_bytes (concat gs))) (length pl)))) \/
  (exists e, cut_by f b e /\ r = Panic e).

Definition swrap (xs : list shdr) (r : out packet_slice) : out packet_slice :=
  match r with
  | Ret p => Ret (PS (xs ++ ps_hdrs p) (ps_payload p))
  | r => r
  end.

Lemma fres_step f T x os rest g B off b off' xs r0 r :
  header_of f = Some T -> length x = ht_size T ->
  map (@length N) os = map ht_size (options f x) -> demux f x rest = Some g ->
  b = x ++ concat os ++ rest ->
  off' = (off + length x + length (concat os))%nat ->
  xs = SHdr T (View B off (length x)) ::
       map (fun p => SHdr (fst p) (snd p)) (rev (place_group B (off + length x) (combine (options f x) os))) ->
  fres g B off' rest r -> r0 = swrap xs r -> fres f B off b r0.
Proof.
  intros Hf Lx Lo D -> -> -> [(gs & pl & W & ->)|(e & C & ->)] ->.
  - left. exists ([(T, x)] :: combine (options f x) os :: gs), pl. split; [eapply W_header; eauto|].
    cbn [swrap ps_hdrs ps_payload]. do 2 f_equal.
    + unfold shdrs. cbn [place place_group map rev app concat fst snd].
      rewrite map_app. f_equal. unfold seg_bytes. cbn [map concat snd]. rewrite app_nil_r. f_equal.
      rewrite combine_snd by (eapply opts_len; eauto). reflexivity.
    + f_equal. cbn [concat]. rewrite !seg_bytes_app. rewrite !app_length.
      unfold seg_bytes at 2 3. cbn [map concat snd]. rewrite combine_snd by (eapply opts_len; eauto).
      rewrite app_nil_r. lia.
  - right. exists e. split; [eapply D_next; eauto|reflexivity].
Qed.

(** ** The bodies *)

Section Bodies.
Variable m : mode.
Variable rec : pfun -> view -> out packet_slice.
Variable B : list N.
Variable arr : list N.
Variable off : nat.
Hypothesis arr_ok : bytes_ok arr.
Hypothesis arr_win : win B off arr.
(** What is known of the calls, and what follows for the caller. *)
Variables P Q : pfun -> list N -> nat -> list N -> out packet_slice -> Prop.
Hypothesis IH : forall g o r, (length r + 3 <= length arr)%nat -> bytes_ok r -> win B o r -> g <> F_parse ->
  P g B o r (rec g (View B o (length r))).
Hypothesis Q_step : forall f T x os rest g B off b off' xs r0 r,
  header_of f = Some T -> length x = ht_size T ->
  map (@length N) os = map ht_size (options f x) -> demux f x rest = Some g ->
  b = x ++ concat os ++ rest ->
  off' = (off + length x + length (concat os))%nat ->
  xs = SHdr T (View B off (length x)) ::
       map (fun p => SHdr (fst p) (snd p)) (rev (place_group B (off + length x) (combine (options f x) os))) ->
  P g B off' rest r -> r0 = swrap xs r -> Q f B off b r0.
Hypothesis Q_cut : forall f B off b e, cut_here f b e -> Q f B off b (Panic e).
Hypothesis Q_accept : forall B off b, Q F_accept B off b (Ret (PS [] (View B off (length b)))).

Lemma fq_pre f T x rest g r :
  header_of f = Some T -> length x = ht_size T -> options f x = [] -> demux f x rest = Some g ->
  P g B (off + length x) rest r ->
  Q f B off (x ++ rest) (swrap [SHdr T (View B off (length x))] r).
Proof.
  intros Hf Lx O D R.
  eapply (Q_step f T x [] rest g B off _ (off + length x) [SHdr T (View B off (length x))]); eauto.
  - rewrite O. reflexivity.
  - rewrite O. reflexivity.
Qed.
Lemma fq_short f T b : header_of f = Some T -> (length b < ht_size T)%nat -> Q f B off b (Panic PSlice).
Proof. intros. apply Q_cut. eapply H_header; eauto. Qed.

Lemma fbody_pre f T r :
  header_of f = Some T -> (3 <= ht_size T)%nat ->
  ((length arr < ht_size T)%nat -> r = Panic PSlice) ->
  (forall x rest, arr = x ++ rest -> length x = ht_size T -> bytes_ok x -> bytes_ok rest -> win B off x ->
     options f x = [] /\
     ((exists g, demux f x rest = Some g /\
         r = swrap [SHdr T (View B off (length x))] (rec g (View B (off + length x) (length rest)))) \/
      (demux f x rest = None /\ r = Panic PIndex))) ->
  Q f B off arr r.
Proof.
  intros Hf S Short Long. destruct (le_lt_dec (ht_size T) (length arr)) as [L|L].
  - destruct (split_arr arr arr_ok _ L) as (E & Lx & Ox & Or). set (x := sub arr 0 (ht_size T)) in *.
    set (rest := skipn (ht_size T) arr) in *. clearbody x rest.
    assert (Lr : (length rest + 3 <= length arr)%nat) by (rewrite E, app_length; lia).
    pose proof arr_win as W. rewrite E in W. apply win_app in W. destruct W as [W1 W2].
    destruct (Long x rest E Lx Ox Or W1) as (O & [(g & D & ->)|(D & ->)]).
    + rewrite E. eapply fq_pre; eauto. apply IH; auto. eapply demux_parse; eauto.
    + apply Q_cut. rewrite E.
      change (x ++ rest) with (x ++ concat [] ++ rest). eapply H_peek; eauto. rewrite O. reflexivity.
  - rewrite Short by auto. eapply fq_short; eauto.
Qed.

Lemma swrap_bind k x : (olet p := k in Ret (ps_insert p x)) = swrap [x] k.
Proof. destruct k; reflexivity. Qed.

Ltac start T f :=
  apply (fbody_pre f T); [reflexivity|cbn; lia|
    intros HS; rewrite stake_out by exact HS; reflexivity|
    let x := fresh "x" in let rest := fresh "rest" in
    intros x rest E Lx Ox Or Wx; split; [reflexivity|]; rewrite E;
    rewrite (stake_0 T B off x rest _ eq_refl Lx); cbn [obind]].
Ltac getf Ox Lx Wx := 
  match goal with |- context [sget m (SHdr ?T (View B off (length ?x))) ?f] =>
    rewrite (sget_val m T B off x f Wx Ox
       ltac:(rewrite Lx; unfold field_in; cbn; lia) ltac:(unfold f_width; cbn; lia)); cbn [obind] end.
Ltac finish_pre Lx := rewrite swrap_bind; rewrite (scall_in _ _ _ _ _ _ _ (eq_sym Lx)); reflexivity.

Notation va := (View B off (length arr)).

Lemma f_dot3 : Q F_dot3 B off arr (fparse_dot3_body rec va).
Proof. unfold fparse_dot3_body. start Dot3 F_dot3. left. exists F_llc. split; [reflexivity|]. finish_pre Lx. Qed.

Lemma fis_snap_val b : win B off b -> fis_snap (View B off (length b)) = is_snap b.
Proof. intros W. unfold fis_snap, is_snap. rewrite !v_index_win by auto. reflexivity. Qed.

Lemma f_llc : Q F_llc B off arr (fparse_llc_body rec va).
Proof.
  unfold fparse_llc_body. start LLC F_llc. left. eexists. split; [reflexivity|].
  rewrite fis_snap_val by (rewrite <- E; auto). rewrite is_snap_val by auto. cbn [obind].
  destruct (be x =? 0xAAAA03); finish_pre Lx.
Qed.

Lemma f_snap : Q F_snap B off arr (fparse_snap_body rec va).
Proof. unfold fparse_snap_body. start SNAP F_snap. left. exists F_accept. split; [reflexivity|]. finish_pre Lx. Qed.

Lemma f_ethernet : Q F_ethernet B off arr (fparse_ethernet_body m rec va).
Proof.
  unfold fparse_ethernet_body. start Ether F_ethernet. left. eexists. split; [reflexivity|].
  getf Ox Lx Wx. rewrite (val_sub x Ether_etype 12 2) by (auto; rewrite Lx; cbn; lia).
  rewrite u16_sub by (auto; rewrite Lx; cbn; lia).
  rewrite (ether_demux (fun g => scall rec g _ (ht_size Ether))). finish_pre Lx.
Qed.

Lemma f_vlan : Q F_vlan B off arr (fparse_vlan_body m rec va).
Proof.
  unfold fparse_vlan_body. start Vlan F_vlan. left. eexists. split; [reflexivity|].
  getf Ox Lx Wx. rewrite (val_sub x Vlan_etype 2 2) by (auto; rewrite Lx; cbn; lia).
  rewrite u16_sub by (auto; rewrite Lx; cbn; lia).
  rewrite (ether_demux (fun g => scall rec g _ (ht_size Vlan))). finish_pre Lx.
Qed.

Lemma f_mpls : Q F_mpls B off arr (fparse_mpls_body m rec va).
Proof.
  unfold fparse_mpls_body. start MPLS F_mpls. left. eexists. split; [reflexivity|].
  getf Ox Lx Wx. rewrite (val_bit x MPLS_bos 23) by (auto; rewrite Lx; cbn; lia).
  rewrite b2n_eqb. destruct (bit x 23); finish_pre Lx.
Qed.

Lemma f_mpls_bos : Q F_mpls_bos B off arr (fparse_mpls_bos_body rec va).
Proof.
  unfold fparse_mpls_bos_body. start MPLS F_mpls_bos.
  rewrite v_index_win by (rewrite <- E; auto). unfold index. rewrite nth_error_app2 by (rewrite Lx; lia).
  replace (ht_size MPLS - length x)%nat with 0%nat by (rewrite Lx; reflexivity). destruct rest as [|b t].
  - right. split; reflexivity.
  - left. eexists. split; [reflexivity|]. cbn [nth_error obind]. inversion Or; subst.
    rewrite (iptype_demux (fun g => scall rec g (View B off (length (x ++ b :: t))) (ht_size MPLS))) by auto. finish_pre Lx.
Qed.

Lemma f_ipv4 : Q F_ipv4 B off arr (fparse_ipv4_body m rec va).
Proof.
  unfold fparse_ipv4_body. start IPv4 F_ipv4. left. eexists. split; [reflexivity|].
  getf Ox Lx Wx. rewrite (val_sub x IPv4_protocol 9 1) by (auto; rewrite Lx; cbn; lia).
  rewrite u8_sub by (auto; rewrite Lx; cbn; lia).
  rewrite (ip4_demux (fun g => scall rec g _ (ht_size IPv4))). finish_pre Lx.
Qed.

Lemma f_ipv6 : Q F_ipv6 B off arr (fparse_ipv6_body m rec va).
Proof.
  unfold fparse_ipv6_body. start IPv6 F_ipv6. left. eexists. split; [reflexivity|].
  getf Ox Lx Wx. rewrite (val_sub x IPv6_next_hdr 6 1) by (auto; rewrite Lx; cbn; lia).
  rewrite u8_sub by (auto; rewrite Lx; cbn; lia).
  rewrite (ip6_demux (fun g => scall rec g _ (ht_size IPv6))). finish_pre Lx.
Qed.

Lemma f_erspan2 : Q F_erspan2 B off arr (fparse_erspan2_body rec va).
Proof. unfold fparse_erspan2_body. start ERSPAN2 F_erspan2. left. exists F_ethernet. split; [reflexivity|]. finish_pre Lx. Qed.

Lemma f_udp : Q F_udp B off arr (fparse_udp_body m rec va).
Proof.
  unfold fparse_udp_body. start UDP F_udp. left. eexists. split; [reflexivity|].
  getf Ox Lx Wx. rewrite (val_sub x UDP_dst 2 2) by (auto; rewrite Lx; cbn; lia).
  rewrite u16_sub by (auto; rewrite Lx; cbn; lia).
  destruct (be (sub x 2 2) =? 4789); finish_pre Lx.
Qed.

Lemma fbody_post f T g :
  header_of f = Some T -> (3 <= ht_size T)%nat -> (forall x, options f x = []) ->
  (forall x rest, demux f x rest = Some g) ->
  Q f B off arr (olet pkt := scall rec g va (ht_size T) in olet x := stake T va 0 in Ret (ps_insert pkt x)).
Proof.
  intros Hf S O D. apply (fbody_pre f T); auto.
  - intros L. rewrite scall_out by auto. reflexivity.
  - intros x rest E Lx Ox Or Wx. split; auto. left. exists g. split; auto. rewrite E.
    rewrite (stake_0 T B off x rest _ eq_refl Lx). rewrite (scall_in _ _ _ _ _ _ _ (eq_sym Lx)).
    cbn [obind]. apply swrap_bind.
Qed.

(** Options. *)
Lemma sopt_total T (b : bool) (done rest : list N) i n : n = length (done ++ rest) -> i = length done ->
  (b = true /\ (length rest < ht_size T)%nat /\ sopt_hdr (b2n b) T (View B off n) i = Panic PSlice) \/
  exists o rest' oh, rest = o ++ rest' /\
    sopt_hdr (b2n b) T (View B off n) i = Ret (oh, length (done ++ o)) /\
    ((b = true /\ oh = Some (SHdr T (View B (off + length done) (length o))) /\ length o = ht_size T) \/
     (b = false /\ oh = None /\ o = [])).
Proof.
  intros -> ->. unfold sopt_hdr. rewrite b2n_eqb. destruct b.
  - destruct (le_lt_dec (ht_size T) (length rest)) as [L|L].
    + right. exists (firstn (ht_size T) rest), (skipn (ht_size T) rest). eexists. split; [symmetry; apply firstn_skipn|].
      assert (Lo : length (firstn (ht_size T) rest) = ht_size T) by (rewrite firstn_length; lia).
      split; [|left; split; [reflexivity|split; [reflexivity|exact Lo]]].
      rewrite (stake_in T B off done (firstn (ht_size T) rest) (skipn (ht_size T) rest))
        by (auto; rewrite firstn_skipn; reflexivity).
      cbn [obind]. rewrite (app_length done (firstn _ _)), Lo. reflexivity.
    + left. split; auto. split; auto. rewrite stake_out by (rewrite app_length; lia). reflexivity.
  - right. exists [], rest, None. split; [reflexivity|]. split; [rewrite app_nil_r; reflexivity|right; auto].
Qed.

Lemma f_erspan3 : Q F_erspan3 B off arr (fparse_erspan3_body m rec va).
Proof.
  unfold fparse_erspan3_body. destruct (le_lt_dec 12 (length arr)) as [L|L].
  2: { rewrite stake_out by exact L. eapply fq_short; [reflexivity|exact L]. }
  destruct (split_arr arr arr_ok 12 L) as (E & Lx & Ox & Or). set (x := sub arr 0 12) in *.
  set (rest := skipn 12 arr) in *. clearbody x rest. rewrite E.
  pose proof arr_win as W. rewrite E in W. pose proof (win_app _ _ _ _ W) as [Wx Wr].
  rewrite (stake_0 ERSPAN3 B off x rest _ eq_refl Lx). cbn [obind]. getf Ox Lx Wx.
  rewrite (val_bit x ERSPAN3_o 95) by (auto; rewrite Lx; cbn; lia).
  assert (Lr : length arr = (12 + length rest)%nat) by (rewrite E, app_length, Lx; reflexivity).
  assert (Opt : options F_erspan3 x = if bit x 95 then [ERSPANPLATFORM] else []) by reflexivity.
  remember (bit x 95) as o eqn:Bo. clear Bo.
  destruct (sopt_total ERSPANPLATFORM o x rest (0 + ht_size ERSPAN3) _ eq_refl ltac:(rewrite Lx; reflexivity))
    as [(-> & L1 & Run)|(o1 & rest1 & oh1 & E1 & Run1 & C1)].
  { rewrite Run. cbn [obind]. apply Q_cut. eapply H_options; [reflexivity|exact Lx|]. rewrite Opt. cbn in L1 |- *. lia. }
  rewrite Run1. cbn [obind]. rewrite E1, app_assoc in W. pose proof (win_app _ _ _ _ W) as [_ W1].
  rewrite E1, app_assoc. rewrite scall_in by reflexivity.
  assert (R : P F_ethernet B (off + length (x ++ o1)) rest1 (rec F_ethernet (View B (off + length (x ++ o1)) (length rest1)))).
  { apply IH; auto; [rewrite Lr, E1, app_length; lia|rewrite E1, bytes_ok_app in Or; tauto|discriminate]. }
  destruct C1 as [(-> & -> & Lo1)|(-> & -> & ->)]; cbn [app] in Opt.
  - eapply (Q_step F_erspan3 ERSPAN3 x [o1] rest1 F_ethernet B off _ _ _ _ _ eq_refl Lx);
      [rewrite Opt; cbn [map]; rewrite Lo1; reflexivity|reflexivity
      |cbn [concat]; rewrite app_nil_r, app_assoc; reflexivity
      |cbn [concat]; rewrite app_nil_r; reflexivity
      |rewrite Opt; reflexivity| |].
    + rewrite app_length, Nat.add_assoc in R. exact R.
    + rewrite app_length, Nat.add_assoc. match goal with |- context [rec ?g ?v] => destruct (rec g v) end; reflexivity.
  - rewrite app_nil_r in *. eapply (Q_step F_erspan3 ERSPAN3 x [] rest1 F_ethernet B off _ _ _ _ _ eq_refl Lx);
      [rewrite Opt; reflexivity|reflexivity|reflexivity|cbn [concat length]; rewrite Nat.add_0_r; reflexivity
      |rewrite Opt; reflexivity|exact R|].
    match goal with |- context [rec ?g ?v] => destruct (rec g v) end; reflexivity.
Qed.

Lemma f_gre : Q F_gre B off arr (fparse_gre_body m rec va).
Proof.
  unfold fparse_gre_body. destruct (le_lt_dec 4 (length arr)) as [L|L].
  2: { rewrite stake_out by exact L. eapply fq_short; [reflexivity|exact L]. }
  destruct (split_arr arr arr_ok 4 L) as (E & Lx & Ox & Or). set (x := sub arr 0 4) in *.
  set (rest := skipn 4 arr) in *. clearbody x rest. rewrite E.
  pose proof arr_win as W. rewrite E in W. pose proof (win_app _ _ _ _ W) as [Wx Wr].
  rewrite (stake_0 GRE B off x rest _ eq_refl Lx). cbn [obind]. do 4 getf Ox Lx Wx.
  rewrite (val_sub x GRE_proto 2 2) by (auto; rewrite Lx; cbn; lia).
  rewrite (val_bit x GRE_chksum_present 0), (val_bit x GRE_key_present 2), (val_bit x GRE_seqnum_present 3)
    by (auto; rewrite Lx; cbn; lia).
  rewrite u16_sub by (auto; rewrite Lx; cbn; lia).
  assert (Lr : length arr = (4 + length rest)%nat) by (rewrite E, app_length, Lx; reflexivity).
  assert (Opt : options F_gre x = (if bit x 0 then [GREChksumOffset] else []) ++
     (if bit x 2 then [GREKey] else []) ++ (if bit x 3 then [GRESequenceNum] else [])) by reflexivity.
  assert (D : forall r, demux F_gre x r = Some (entry gre_protocols (be (sub x 2 2)))) by reflexivity.
  set (v := be (sub x 2 2)) in *. clearbody v.
  remember (bit x 0) as c eqn:Bc. remember (bit x 2) as k eqn:Bk. remember (bit x 3) as s eqn:Bs. clear Bc Bk Bs.
  destruct (sopt_total GREChksumOffset c x rest (0 + ht_size GRE) _ eq_refl ltac:(rewrite Lx; reflexivity))
    as [(-> & L1 & Run)|(o1 & rest1 & oh1 & E1 & Run1 & C1)].
  { rewrite Run. cbn [obind]. apply Q_cut. eapply H_options; [reflexivity|exact Lx|].
    rewrite Opt. destruct k, s; cbn in L1 |- *; lia. }
  rewrite Run1. cbn [obind]. rewrite E1, app_assoc.
  destruct (sopt_total GREKey k (x ++ o1) rest1 (length (x ++ o1)) _ eq_refl eq_refl)
    as [(-> & L2 & Run)|(o2 & rest2 & oh2 & E2 & Run2 & C2)].
  { rewrite Run. cbn [obind]. apply Q_cut. rewrite <- app_assoc. eapply H_options; [reflexivity|exact Lx|].
    rewrite Opt. destruct C1 as [(-> & _ & Lo)|(-> & _ & ->)]; destruct s;
    rewrite app_length; cbn in L2 |- *; try (cbn in Lo); lia. }
  rewrite Run2. cbn [obind]. rewrite E2, app_assoc.
  destruct (sopt_total GRESequenceNum s ((x ++ o1) ++ o2) rest2 (length ((x ++ o1) ++ o2)) _ eq_refl eq_refl)
    as [(-> & L3 & Run)|(o3 & rest3 & oh3 & E3 & Run3 & C3)].
  { rewrite Run. cbn [obind]. apply Q_cut. rewrite <- !app_assoc. eapply H_options; [reflexivity|exact Lx|].
    rewrite Opt. destruct C1 as [(-> & _ & Lo)|(-> & _ & ->)];
      destruct C2 as [(-> & _ & Lo2)|(-> & _ & ->)];
    rewrite ?app_length; cbn in L3 |- *; try (cbn in Lo); try (cbn in Lo2); lia. }
  rewrite Run3. cbn [obind]. rewrite E3, app_assoc.
  rewrite (gre_demux (fun g => scall rec g (View B off (length ((((x ++ o1) ++ o2) ++ o3) ++ rest3)))
     (length (((x ++ o1) ++ o2) ++ o3)))).
  rewrite scall_in by reflexivity.
  assert (Wl : win B (off + length (((x ++ o1) ++ o2) ++ o3)) rest3).
  { rewrite E1, E2, E3, !app_assoc in W. apply win_app in W. tauto. }
  assert (R : P (entry gre_protocols v) B (off + length (((x ++ o1) ++ o2) ++ o3)) rest3
     (rec (entry gre_protocols v) (View B (off + length (((x ++ o1) ++ o2) ++ o3)) (length rest3)))).
  { apply IH; auto.
    - rewrite Lr, E1, E2, E3, !app_length. lia.
    - rewrite E1, E2, E3, !bytes_ok_app in Or. tauto.
    - eapply demux_parse. apply (D []). }
  set (g := entry gre_protocols v) in *. clear Run1 Run2 Run3 E1 E2 E3 Or E W Wr Wl.
  pose (os := (if c then [o1] else []) ++ (if k then [o2] else []) ++ (if s then [o3] else [])).
  eapply (Q_step F_gre GRE x os rest3 g B off _ (off + length (((x ++ o1) ++ o2) ++ o3)) _ _ _ eq_refl Lx);
    [|apply D| | |reflexivity|exact R|].
  - rewrite Opt. unfold os. destruct C1 as [(-> & -> & Lo1)|(-> & -> & ->)];
    destruct C2 as [(-> & -> & Lo2)|(-> & -> & ->)]; destruct C3 as [(-> & -> & Lo3)|(-> & -> & ->)];
    cbn [app map]; repeat f_equal; assumption.
  - unfold os. destruct C1 as [(-> & -> & Lo1)|(-> & -> & ->)];
    destruct C2 as [(-> & -> & Lo2)|(-> & -> & ->)]; destruct C3 as [(-> & -> & Lo3)|(-> & -> & ->)];
    cbn [app concat]; rewrite ?app_nil_r, <- ?app_assoc; reflexivity.
  - unfold os. destruct C1 as [(-> & -> & Lo1)|(-> & -> & ->)];
    destruct C2 as [(-> & -> & Lo2)|(-> & -> & ->)]; destruct C3 as [(-> & -> & Lo3)|(-> & -> & ->)];
    cbn [app concat]; rewrite ?app_nil_r, ?app_length; cbn [length]; lia.
  - rewrite Opt. unfold os. match goal with |- context [rec ?g ?v] => destruct (rec g v) as [p| | | |] end; [|reflexivity..].
    destruct C1 as [(-> & -> & Lo1)|(-> & -> & ->)];
    destruct C2 as [(-> & -> & Lo2)|(-> & -> & ->)]; destruct C3 as [(-> & -> & Lo3)|(-> & -> & ->)];
    cbn [app combine place_group rev map fst snd ps_insert_opt swrap obind]; unfold ps_insert; cbn [ps_hdrs ps_payload];
    rewrite ?app_nil_r, ?app_length, ?Nat.add_assoc; reflexivity.
Qed.

Lemma f_accept : Q F_accept B off arr (faccept_body va).
Proof.
  apply Q_accept.
Qed.

Lemma f_body f : f <> F_parse -> Q f B off arr (fast_body m rec f va).
Proof.
  intros Hf. destruct f; cbn [fast_body]; try congruence.
  - apply f_dot3.
  - apply f_llc.
  - apply f_snap.
  - apply f_ethernet.
  - apply f_vlan.
  - apply f_mpls.
  - apply f_mpls_bos.
  - apply f_ipv4.
  - apply f_ipv6.
  - apply f_gre.
  - apply f_erspan2.
  - apply f_erspan3.
  - unfold fparse_leaf_body. apply fbody_post; try reflexivity. cbn. lia.
  - unfold fparse_leaf_body. apply fbody_post; try reflexivity. cbn. lia.
  - unfold fparse_leaf_body. apply fbody_post; try reflexivity. cbn. lia.
  - apply f_udp.
  - unfold fparse_vxlan_body. apply fbody_post; try reflexivity. cbn. lia.
  - apply f_accept.
Qed.
End Bodies.

Lemma fres_cut B off f b e : cut_by f b e -> fres f B off b (Panic e).
Proof. intros C. right. exists e. auto. Qed.

Lemma f_parse rec B off arr : bytes_ok arr -> win B off arr ->
  (forall g, g = F_dot3 \/ g = F_ethernet -> fres g B off arr (rec g (View B off (length arr)))) ->
  fres F_parse B off arr (fparse_body rec (View B off (length arr))).
Proof.
  intros arr_ok arr_win R. unfold fparse_body. rewrite !v_index_win by auto. destruct (le_lt_dec 14 (length arr)) as [L|L].
  - rewrite (index_lt arr 12 0), (index_lt arr 13 0) by lia. cbn [obind].
    rewrite type_word by (apply bytes_ok_nth; auto).
    change [nth 12 arr 0; nth 13 arr 0] with [nth 12 arr 0; nth (12 + 1) arr 0].
    rewrite <- sub_bytes by lia.
    assert (R' : forall g, g = F_dot3 \/ g = F_ethernet ->
      g = (if be (sub arr 12 2) <? 1500 then F_dot3 else F_ethernet) -> fres F_parse B off arr (rec g (View B off (length arr)))).
    { intros g Hg Eg. destruct (R g Hg) as [(gs & pl & W & Q)|(e & C & Q)].
      - left. exists gs, pl. split; [constructor; auto; rewrite <- Eg; auto|auto].
      - right. exists e. split; [apply D_parse_next; auto; rewrite <- Eg; auto|auto]. }
    destruct (be (sub arr 12 2) <? 1500); apply R'; auto.
  - rewrite (index_ge arr 13) by lia. destruct (le_lt_dec (length arr) 12).
    + rewrite index_ge by lia. apply fres_cut. apply D_parse; auto.
    + rewrite (index_lt arr 12 0) by lia. apply fres_cut. apply D_parse; auto.
Qed.

Lemma fast_fuel_res m fuel f B off b : bytes_ok b -> win B off b -> (length b + 3 + 3 * is_parse f <= 3 * fuel)%nat ->
  fres f B off b (fast_fuel m fuel f (View B off (length b))).
Proof.
  revert f off b; induction fuel as [|n IH]; intros f off b Hb Wb Hn; [lia|]. cbn [fast_fuel].
  assert (H3 : forall g o r, (length r + 3 <= length b)%nat -> bytes_ok r -> win B o r -> g <> F_parse ->
    fres g B o r (fast_fuel m n g (View B o (length r)))).
  { intros g o r L Hr Wr Hg. apply IH; auto. destruct g; simpl; try lia; congruence. }
  assert (Q : f = F_parse \/ f <> F_parse) by (destruct f; ((left; reflexivity) || (right; discriminate))).
  destruct Q as [->|Hf].
  - cbn [fast_body]. apply f_parse; auto. intros g Hg. apply IH; auto. simpl in Hn. destruct Hg as [->| ->]; simpl; lia.
  - apply (f_body m _ B b off Hb Wb fres fres); auto.
    + exact fres_step.
    + intros f' B' o' b' e C. apply fres_cut, cut_here_by, C.
    + intros B' o' b'. left. exists [], b'. split; [constructor|]. cbn. rewrite Nat.add_0_r. reflexivity.
Qed.

Lemma fast_res_by m f b : bytes_ok b -> fres f b 0 b (fast m f b).
Proof.
  intros Hb. unfold fast, fast_view, v_all. cbn [v_len]. apply fast_fuel_res; auto; [apply win_all|].
  unfold is_parse. destruct f; lia.
Qed.

Lemma fast_res m f b : bytes_ok b ->
  (exists gs pl, wire f b gs pl /\
     fast m f b = Ret (PS (shdrs (place b 0 gs)) (View b (0 + length (seg_bytes (concat gs))) (length pl)))) \/
  (exists e, cut f b /\ fast m f b = Panic e).
Proof.
  intros Hb. destruct (fast_res_by m f b Hb) as [R|(e & C & R)]; [left; exact R|].
  right. exists e. split; auto. eapply cut_by_cut; eauto.
Qed.

(** ** Fuel *)

Definition ole {A} (x y : out A) : Prop := x = Fuel \/ x = y.
Lemma ole_refl {A} (x : out A) : ole x x.
Proof. right; auto. Qed.
Lemma ole_bind {A B} (x y : out A) (k l : A -> out B) : ole x y -> (forall a, ole (k a) (l a)) -> ole (obind x k) (obind y l).
Proof. intros [->| ->] K; [left; reflexivity|]. destruct y; try apply ole_refl. apply K. Qed.

(** A window lying in its buffer and showing bytes. *)
Definition ok_view (v : view) : Prop :=
  exists b, bytes_ok b /\ win (v_buf v) (v_off v) b /\ v_len v = length b.

Lemma ok_view_all b : bytes_ok b -> ok_view (v_all b).
Proof. intros H. exists b. split; auto. split; [apply win_all|reflexivity]. Qed.

Lemma ok_view_from v i w : ok_view v -> v_slice_from v i = Ret w -> ok_view w.
Proof.
  intros (b & Hb & W & L) E. unfold v_slice_from in E. destruct (Nat.leb_spec i (v_len v)) as [Hi|]; [|discriminate].
  injection E as <-. exists (skipn i b). cbn [v_buf v_off v_len]. split; [apply bytes_ok_skipn; auto|].
  rewrite <- (firstn_skipn i b) in W. apply win_app in W. destruct W as [_ W].
  rewrite firstn_length, Nat.min_l in W by lia. split; auto. rewrite skipn_length. lia.
Qed.

Section Mono.
Variable m : mode.
Variables rec rec' : pfun -> view -> out packet_slice.
Variable P : view -> Prop.
Hypothesis P_from : forall v i w, P v -> v_slice_from v i = Ret w -> P w.
Hypothesis R : forall f b, P b -> ole (rec f b) (rec' f b).

Lemma scall_mono f b i : P b -> ole (scall rec f b i) (scall rec' f b i).
Proof. intros Hb. unfold scall. destruct (v_slice_from b i) eqn:E; try apply ole_refl. cbn [obind]. apply R. eauto. Qed.

Lemma fbody_mono f b : P b -> ole (fast_body m rec f b) (fast_body m rec' f b).
Proof.
  intros Hb. destruct f; cbn [fast_body];
  unfold fparse_body, fparse_dot3_body, fparse_llc_body, fparse_snap_body, fparse_ethernet_body, fparse_vlan_body,
    fparse_mpls_body, fparse_mpls_bos_body, fparse_ipv4_body, fparse_ipv6_body, fparse_gre_body, fparse_erspan2_body,
    fparse_erspan3_body, fparse_leaf_body, fparse_udp_body, fparse_vxlan_body, faccept_body;
  repeat match goal with
  | |- ole (obind _ _) (obind _ _) => apply ole_bind; [|intros]
  | |- ole (scall rec _ _ _) (scall rec' _ _ _) => apply scall_mono; exact Hb
  | |- ole (rec _ _) (rec' _ _) => apply R; exact Hb
  | |- ole ?x ?x => apply ole_refl
  | |- ole (match ?a with _ => _ end) _ => destruct a
  end.
Qed.
End Mono.

Lemma ffuel_mono m n k f b : (n <= k)%nat -> ole (fast_fuel m n f b) (fast_fuel m k f b).
Proof.
  revert k f b; induction n as [|n IH]; intros k f b H; [left; reflexivity|].
  destruct k as [|k]; [lia|]. cbn [fast_fuel]. apply (fbody_mono m _ _ (fun _ => True)); auto. intros. apply IH. lia.
Qed.

Lemma fres_no_fuel f B o b r : fres f B o b r -> r <> Fuel /\ r <> UB /\ r <> Hang.
Proof. intros [(gs & pl & _ & ->)|(e & _ & ->)]; repeat split; discriminate. Qed.

Lemma fast_view_fuel m n f v : ok_view v -> (v_len v + 3 + 3 * is_parse f <= 3 * n)%nat ->
  fast_fuel m n f v <> Fuel.
Proof.
  intros (b & Hb & W & L) H. destruct v as [B o n0]. cbn [v_buf v_off v_len] in *. subst n0.
  destruct (fres_no_fuel _ _ _ _ _ (fast_fuel_res m n f _ _ b Hb W H)); auto.
Qed.

Lemma fast_fuel_eq m n f v : ok_view v -> (v_len v + 3 + 3 * is_parse f <= 3 * n)%nat ->
  fast_fuel m n f v = fast_view m f v.
Proof.
  intros Hv Hn. unfold fast_view. pose proof (fast_view_fuel m n f v Hv Hn) as F1.
  pose proof (fast_view_fuel m (v_len v + 3) f v Hv ltac:(unfold is_parse; destruct f; lia)) as F2.
  destruct (Nat.le_ge_cases n (v_len v + 3)) as [L|L].
  - destruct (ffuel_mono m n (v_len v + 3) f v L) as [E|E]; congruence.
  - destruct (ffuel_mono m (v_len v + 3) n f v L) as [E|E]; congruence.
Qed.

Lemma fast_fuel_or m n f v : ok_view v -> ole (fast_fuel m n f v) (fast_view m f v).
Proof.
  intros Hv. destruct (ffuel_mono m n (n + v_len v + 6) f v ltac:(lia)) as [E|E]; [left; auto|].
  right. rewrite E. apply fast_fuel_eq; auto. unfold is_parse. destruct f; lia.
Qed.

Lemma fast_unfold m f v : ok_view v -> fast_view m f v = fast_body m (fast_view m) f v.
Proof.
  intros Hv. rewrite <- (fast_fuel_eq m (S (v_len v + 3)) f v) by (auto; unfold is_parse; destruct f; lia).
  pose proof (fast_view_fuel m (S (v_len v + 3)) f v Hv ltac:(unfold is_parse; destruct f; lia)) as F.
  cbn [fast_fuel] in *.
  destruct (fbody_mono m (fast_fuel m (v_len v + 3)) (fast_view m) ok_view ok_view_from
    (fun g r Hr => fast_fuel_or m _ g r Hr) f v Hv) as [E|E]; congruence.
Qed.
