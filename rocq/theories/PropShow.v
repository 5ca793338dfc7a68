(** PropShow.v -- C53: what [show] prints. *)

From Coq Require Import Lia.
From Verif Require Import Base Bits Layout Heap Packet Slow Fast Show Spec ShowSpec BitsProofs HeapProofs PacketProofs
  TextProofs ShowProofs.
Open Scope N_scope.

(** * C53 *)

(** Every predefined layout lies within the declared size. *)
Lemma predefined_in T n : In T predefined -> (ht_size T <= n)%nat -> Forall (fun f => field_in f n) (ht_fields T).
Proof.
  assert (X : forallb (fun T => forallb (fun f => (f_start f <=? f_end f)%nat && (f_end f <? 8 * ht_size T)%nat)
    (ht_fields T)) predefined = true) by (vm_compute; reflexivity).
  intros Hi Hn. rewrite forallb_forall in X. specialize (X T Hi). rewrite forallb_forall in X.
  apply Forall_forall. intros f Hf. specialize (X f Hf). apply andb_prop in X as [A B].
  apply Nat.leb_le in A. apply Nat.ltb_lt in B. split; lia.
Qed.

(** A header whose fields all lie in its buffer prints its heading and one line per field. *)
Theorem C53_header : forall m x h d,
  cell_at h (h_ref x) d -> bytes_ok d -> Forall (fun f => field_in f (length d)) (ht_fields (h_ty x)) ->
  exists s, hshow m x h = (Ret s, h) /\ header_text (h_ty x) d s.
Proof. intros. apply hshow_ok; auto. Qed.
Print Assumptions C53_header.

(** In particular every predefined header of at least its declared size. *)
Theorem C53_full_size : forall m x h d,
  In (h_ty x) predefined -> cell_at h (h_ref x) d -> bytes_ok d -> (ht_size (h_ty x) <= length d)%nat ->
  exists s, hshow m x h = (Ret s, h) /\ header_text (h_ty x) d s.
Proof. intros. apply hshow_ok; auto. apply predefined_in; auto. Qed.
Print Assumptions C53_full_size.

(** Borrowed headers print the same text. *)
Theorem C53_borrowed : forall m x,
  bytes_ok (v_bytes (s_view x)) -> Forall (fun f => field_in f (length (v_bytes (s_view x)))) (ht_fields (s_ty x)) ->
  exists s, sshow m x = Ret s /\ header_text (s_ty x) (v_bytes (s_view x)) s.
Proof. intros m x Hb Hf. apply (sshow_text m (s_ty x)); auto. Qed.
Print Assumptions C53_borrowed.

(** The borrowed header over the same bytes prints the very same characters. *)
Theorem C53_owned_borrowed : forall m x y h d,
  cell_at h (h_ref x) d -> v_bytes (s_view y) = d -> s_ty y = h_ty x ->
  Forall (fun f => field_in f (length d)) (ht_fields (h_ty x)) ->
  hshow m x h = (sshow m y, h).
Proof.
  intros m x y h d Hc Hv Ht Hf. unfold hshow, sshow, bind. rewrite (hshow_fields_in m x h d), Ht, Hv by auto.
  destruct (sshow_fields m d (ht_fields (h_ty x))); reflexivity.
Qed.
Print Assumptions C53_owned_borrowed.

(** A buffer too short for some field: [show] panics, and the buffer is lost. *)
Theorem C53_short : forall m x h d f,
  cell_at h (h_ref x) d -> bytes_ok d -> Forall (fun f => (f_start f <= f_end f)%nat) (ht_fields (h_ty x)) ->
  In f (ht_fields (h_ty x)) -> (8 * length d <= f_end f)%nat ->
  exists h', hshow m x h = (Panic PIndex, h') /\ poisoned_at h' (h_ref x).
Proof.
  intros m x h d f Hc Hd Hf Hi L. eexists. split.
  - apply (hshow_short m x h d); auto. apply Exists_exists. eauto.
  - exists d. rewrite nth_error_upd, Nat.eqb_refl. apply cell_at_lt in Hc. apply Nat.ltb_lt in Hc. rewrite Hc. reflexivity.
Qed.
Print Assumptions C53_short.

(** Every bit of the value is on the line: equal texts mean equal values. *)
Theorem C53_readable : forall w v v' s,
  v < 2 ^ N.of_nat w -> v' < 2 ^ N.of_nat w -> groups w v s -> groups w v' s -> v = v'.
Proof.
  intros w v v' s Hv Hv' A B. remember s as t eqn:Et in B. destruct A as [L1|l L1 R1 N1 O1 V1|l L1 R1 N1 O1 V1];
    destruct B as [L2|l' L2 R2 N2 O2 V2|l' L2 R2 N2 O2 V2]; try lia.
  - assert (L : 2 ^ N.of_nat w <= 256) by (change 256 with (2 ^ 8); apply N.pow_le_mono_r; lia).
    apply hex2_inj; auto; lia.
  - rewrite <- V1, <- V2. f_equal. apply hexes_inj; auto.
  - destruct (hexes_app_inj l' l _ _ ltac:(congruence) O2 O1 Et) as [E1 E2].
    set (r := (w mod 8)%nat) in *.
    pose proof (Nat.mod_upper_bound w 8 ltac:(lia)) as Mb. fold r in Mb.
    assert (P : 2 ^ N.of_nat (S r) <= 256) by (change 256 with (2 ^ 8); apply N.pow_le_mono_r; lia).
    assert (Nz : 2 ^ N.of_nat (S r) <> 0) by (apply N.pow_nonzero; lia).
    apply hex2_inj in E2; [| |]; try (eapply N.lt_le_trans; [apply N.mod_lt; auto|auto]; fail).
    assert (Q : v / 2 ^ N.of_nat r = v' / 2 ^ N.of_nat r) by congruence.
    assert (D : forall a, a mod 2 ^ N.of_nat r = (a mod 2 ^ N.of_nat (S r)) mod 2 ^ N.of_nat r).
    { intros a. rewrite Nnat.Nat2N.inj_succ, N.pow_succ_r', (N.mul_comm 2).
      rewrite N.mod_mul_r by (try apply N.pow_nonzero; lia).
      rewrite (N.mul_comm _ (_ mod 2)), N.mod_add by (apply N.pow_nonzero; lia).
      symmetry. apply N.mod_small. apply N.mod_lt. apply N.pow_nonzero. lia. }
    rewrite (N.div_mod v (2 ^ N.of_nat r)), (N.div_mod v' (2 ^ N.of_nat r)) by (apply N.pow_nonzero; lia).
    rewrite (D v), (D v'), Q. congruence.
Qed.
Print Assumptions C53_readable.

(** The packet: the headers' texts, then all bytes in rows of 16. *)
Theorem C53_packet : forall m p h ds,
  Forall2 (fun x d => cell_at h (h_ref x) d /\ Forall (fun f => field_in f (length d)) (ht_fields (h_ty x))) (p_hdrs p) ds ->
  heap_ok h -> bytes_ok (p_payload p) ->
  exists texts raw, pkt_show m p h = (Ret (String.concat "" texts ++ raw)%string, h) /\
    Forall2 (fun xd s => header_text (h_ty (fst xd)) (snd xd) s) (combine (p_hdrs p) ds) texts /\
    raw_text (concat ds ++ p_payload p) raw.
Proof.
  intros m p h ds Hf Hh Hp.
  assert (C : forall l ds, Forall2 (fun x d => cell_at h (h_ref x) d /\
      Forall (fun f => field_in f (length d)) (ht_fields (h_ty x))) l ds ->
    hold h l ds /\ bytes_ok (concat ds) /\
    exists texts, show_hdrs m l h = (Ret (String.concat "" texts), h) /\
      Forall2 (fun xd s => header_text (h_ty (fst xd)) (snd xd) s) (combine l ds) texts).
  { clear -Hh. induction 1 as [|x d l ds [Hc Hx] Hl (IH1 & IH2 & texts & IH3 & IH4)].
    - repeat split; try constructor. exists []. split; [reflexivity|constructor].
    - assert (Hd : bytes_ok d).
      { unfold heap_ok in Hh. rewrite Forall_forall in Hh. apply (Hh (Cell d false)). eapply nth_error_In. exact Hc. }
      split; [constructor; auto|]. split; [cbn [concat]; apply bytes_ok_app; auto|].
      destruct (hshow_ok m x h d Hc Hd Hx) as (s & E & T). exists (s :: texts). split.
      + cbn [show_hdrs]. rewrite (bind_ret _ _ _ _ _ E), (bind_ret _ _ _ _ _ IH3). rewrite concat_cons. reflexivity.
      + cbn [combine]. constructor; auto. }
  destruct (C _ _ Hf) as (H1 & H2 & texts & H3 & H4). exists texts, (show_raw (concat ds ++ p_payload p)).
  split; [|split; auto].
  - unfold pkt_show. rewrite (bind_ret _ _ _ _ _ H3), (bind_ret _ _ _ _ _ (to_vec_hold p h ds H1)). reflexivity.
  - apply show_raw_text. apply bytes_ok_app. auto.
Qed.
Print Assumptions C53_packet.

(** The same for a parsed [PacketSlice]. *)
Theorem C53_packet_slice : forall m p,
  Forall (fun x => bytes_ok (v_bytes (s_view x)) /\
    Forall (fun f => field_in f (length (v_bytes (s_view x)))) (ht_fields (s_ty x))) (ps_hdrs p) ->
  bytes_ok (v_bytes (ps_payload p)) ->
  exists texts raw, ps_show m p = Ret (String.concat "" texts ++ raw)%string /\
    Forall2 (fun x s => header_text (s_ty x) (v_bytes (s_view x)) s) (ps_hdrs p) texts /\
    raw_text (concat (map (fun x => v_bytes (s_view x)) (ps_hdrs p)) ++ v_bytes (ps_payload p)) raw.
Proof.
  intros m [hs pl] Hf Hp. cbn [ps_hdrs ps_payload] in *.
  assert (C : bytes_ok (concat (map (fun x => v_bytes (s_view x)) hs)) /\
    exists texts, show_shdrs m hs = Ret (String.concat "" texts) /\
      Forall2 (fun x s => header_text (s_ty x) (v_bytes (s_view x)) s) hs texts).
  { clear Hp. induction Hf as [|x l [Hb Hx] Hl (IH1 & texts & IH2 & IH3)].
    - split; [constructor|]. exists []. split; [reflexivity|constructor].
    - split; [cbn [map concat]; apply bytes_ok_app; auto|].
      destruct (sshow_text m (s_ty x) _ Hb Hx) as (s & E & T). exists (s :: texts). split.
      + cbn [show_shdrs]. unfold sshow. rewrite E. cbn [obind]. rewrite IH2. cbn [obind].
        rewrite concat_cons. reflexivity.
      + constructor; auto. }
  destruct C as (H1 & texts & H2 & H3). eexists texts, _. split; [|split; auto].
  - unfold ps_show. cbn [ps_hdrs]. rewrite H2. cbn [obind]. reflexivity.
  - apply show_raw_text. apply bytes_ok_app. auto.
Qed.
Print Assumptions C53_packet_slice.

(** The dump can be read back: different bytes never print the same. *)
Theorem C53_dump_readable : forall a b s, bytes_ok a -> bytes_ok b -> raw_text a s -> raw_text b s -> a = b.
Proof.
  intros a b s Ha Hb (n & r & (Hn & _) & Hr & E) (n' & r' & (Hn' & _) & Hr' & E').
  rewrite E in E'. apply app_cancel_l in E'. apply (numeral_cancel 10 _ _ _ _ _ _ Hn Hn') in E' as [_ E'].
  repeat apply string_inj in E' as [_ E']. apply app_cancel_r in E'. subst r'.
  eapply rows_inj; eauto.
Qed.
Print Assumptions C53_dump_readable.

(** Witnesses. *)
Example C53_example :
  fst (hshow Debug (Hdr Vlan 0) [Cell [0x21; 0x33; 0x08; 0x00] false]) =
  Ret ("#### Vlan             Size   Data" ++ String nl (
       "-------------------------------------------" ++ String nl (
       "pcp                 :    3 : 01" ++ String nl (
       "cfi                 :    1 : 00" ++ String nl (
       "vid                 :   12 : 13 13" ++ String nl (
       "etype               :   16 : 08 00 " ++ String nl EmptyString))))))%string.
Proof. vm_compute. reflexivity. Qed.

Example C53_example_packet :
  fst (pkt_show Release (Pkt [Hdr Vlan 0] (map N.of_nat (seq 1 14))) [Cell [0x21; 0x33; 0x08; 0x00] false]) =
  Ret ("#### Vlan             Size   Data" ++ String nl (
       "-------------------------------------------" ++ String nl (
       "pcp                 :    3 : 01" ++ String nl (
       "cfi                 :    1 : 00" ++ String nl (
       "vid                 :   12 : 13 13" ++ String nl (
       "etype               :   16 : 08 00 " ++ String nl (String nl (
       "#### raw 18 bytes ####" ++ String nl (
       "21 33 08 00 01 02 03 04 05 06 07 08 09 0a 0b 0c " ++ String nl (
       "0d 0e " ++ String nl EmptyString))))))))))%string.
Proof. vm_compute. reflexivity. Qed.

Example C53_example_short :
  hshow Debug (Hdr Vlan 0) [Cell [0x21; 0x33; 0x08] false] = (Panic PIndex, [Cell [0x21; 0x33; 0x08] true]).
Proof. vm_compute. reflexivity. Qed.

Lemma numeral_1313 : numeral 16 "1313" 0x1313.
Proof.
  change 0x1313 with (1 * 16 ^ N.of_nat 3 + (3 * 16 ^ N.of_nat 2 + (1 * 16 ^ N.of_nat 1 + (3 * 16 ^ N.of_nat 0 + 0)))).
  repeat (apply Num_cons; [split; [reflexivity|left; eexists; split; [|split; [reflexivity|reflexivity]]; reflexivity]|]).
  constructor.
Qed.

(** 12-bit [vid] 0x133 is printed as "13 13": its last group holds five bits, one of which the
    first octet already shows. The text of the line is not the value in hexadecimal. *)
Theorem C53_value_refuted : exists d s,
  fst (hshow_field Debug (Hdr Vlan 0) Vlan_vid [Cell d false]) = Ret s /\ s = "13 13"%string /\
  field_val d Vlan_vid = 0x133 /\ ~ numeral 16 "1313" (field_val d Vlan_vid).
Proof.
  exists [0x21; 0x33; 0x08; 0x00], "13 13"%string. repeat split; try (vm_compute; reflexivity).
  intros H. pose proof (numeral_fun _ _ _ _ H (numeral_1313)) as E. vm_compute in E. discriminate.
Qed.
Print Assumptions C53_value_refuted.
