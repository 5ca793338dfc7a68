(** PropLegible.v -- C80: what [show] prints tells packets apart.

    [header_text], [raw_text] are in ShowSpec.v, [sized] in LegibleSpec.v. *)

From Coq Require Import Lia.
From Verif Require Import Base Bits BitsProofs Layout Heap HeapProofs Packet PacketProofs Slow Fast Show ShowSpec ShowProofs
  Spec Grammar GrammarProofs SlowProofs PropHeader PropPacket PropParse PropEdit PropShow LegibleSpec LegibleProofs.
Open Scope N_scope.

(** ** Helpers *)

Lemma show_hdrs_shown m h hs ss : holds h hs ss -> Forall sized ss -> show_hdrs m hs h = (shown m ss, h).
Proof.
  unfold holds. induction 1 as [|x s hs ss [T C] F IH]; intros Z; [reflexivity|].
  inversion Z as [|? ? Zs Zr]; subst. cbn [show_hdrs shown]. pose proof (sized_fields _ Zs) as Sf. rewrite <- T in Sf.
  unfold hshow, bind. rewrite (hshow_fields_in m x h (snd s)) by auto. rewrite <- T.
  destruct (sshow_fields m (snd s) (ht_fields (h_ty x))); cbn [obind ret]; auto.
  rewrite IH by auto. destruct (shown m ss); reflexivity.
Qed.

Lemma pkt_show_page m h p ss : holds h (p_hdrs p) ss -> Forall sized ss ->
  pkt_show m p h = (page m ss (p_payload p), h).
Proof.
  intros H Z. destruct p as [hs pl]; cbn [p_hdrs p_payload] in *. unfold pkt_show, page, bind.
  cbn [p_hdrs]. rewrite (show_hdrs_shown m h hs ss) by auto. destruct (shown m ss); cbn [obind]; auto.
  rewrite (holds_vec h (Pkt hs pl) ss H). reflexivity.
Qed.

Lemma ps_show_page m p ss : sholds (ps_hdrs p) ss -> Forall sized ss ->
  ps_show m p = page m ss (v_bytes (ps_payload p)).
Proof.
  intros H Z. destruct p as [hs pl]; cbn [ps_hdrs ps_payload] in *. unfold ps_show, page. cbn [ps_hdrs].
  assert (X : show_shdrs m hs = shown m ss /\ map sas_slice hs = map snd ss).
  { induction H as [|x s hs ss' [T C] F IH]; [split; reflexivity|]. inversion Z as [|? ? Zs Zr]; subst.
    destruct (IH Zr) as [A B]. cbn [show_shdrs shown map]. rewrite A, B, C, <- T. unfold sshow.
    unfold sas_slice in C. rewrite C. split; reflexivity. }
  destruct X as [-> X]. unfold ps_to_vec, all_bytes. cbn [ps_hdrs ps_payload]. rewrite <- X.
  destruct (shown m ss); reflexivity.
Qed.

(** What the parsers find are headers of their declared sizes. *)
Lemma wire_types f b gs pl : wire f b gs pl -> Forall (Forall (fun s : seg => In (fst s) predefined)) gs.
Proof.
  induction 1 as [b|b gs pl L W IH|f T x os rest g gs pl Hf Lx Lo D W IH]; auto.
  assert (IT : In T predefined).
  { destruct f; cbn [header_of] in Hf; try discriminate; injection Hf as <-; simpl; tauto. }
  assert (IO : Forall (fun U => In U predefined) (options f x)).
  { assert (J : forall U, In U [GREChksumOffset; GREKey; GRESequenceNum; ERSPANPLATFORM] -> In U predefined).
    { intros U H. cbn in H. repeat (destruct H as [<-|H]; [simpl; tauto|]). destruct H. }
    apply Forall_forall. intros U HU. apply J. destruct f; cbn [options] in HU; try destruct HU.
    - apply in_app_iff in HU as [HU|HU]; [|apply in_app_iff in HU as [HU|HU]];
        destruct (bit x _); cbn [In] in *; tauto.
    - destruct (bit x 95); cbn [In] in *; tauto. }
  constructor; [constructor; auto|]. constructor; [|exact IH].
  apply Forall_forall. intros [U d] HU. apply in_combine_l in HU. rewrite Forall_forall in IO. apply IO. exact HU.
Qed.
Lemma wire_sized f b gs pl : bytes_ok b -> wire f b gs pl -> Forall sized (reported gs).
Proof.
  intros Hb W. pose proof (wire_len _ _ _ _ W) as L. destruct (wire_ok _ _ _ _ Hb W) as [O _].
  assert (T : Forall (fun s : seg => In (fst s) predefined) (reported gs)).
  { unfold reported. pose proof (wire_types _ _ _ _ W) as F. clear - F.
    induction F as [|g gs Fg F IH]; [constructor|]. cbn [map concat]. apply Forall_app. split; auto. apply Forall_rev; auto. }
  rewrite Forall_forall in *. intros s I. repeat split; auto.
Qed.

(** ** C80 *)

(** Two headers that print the same text are of the same type and hold the same bytes. *)
Theorem C80_header : forall m m' x y h g d d' s,
  cell_at h (h_ref x) d -> cell_at g (h_ref y) d' -> sized (h_ty x, d) -> sized (h_ty y, d') ->
  hshow m x h = (Ret s, h) -> hshow m' y g = (Ret s, g) -> h_ty x = h_ty y /\ d = d'.
Proof.
  intros m m' x y h g d d' s C C' Z Z' E E'.
  destruct (hshow_ok m x h d C (proj1 (proj2 Z)) (sized_fields _ Z)) as (t & Et & Ht).
  destruct (hshow_ok m' y g d' C' (proj1 (proj2 Z')) (sized_fields _ Z')) as (t' & Et' & Ht').
  assert (t = s) by congruence. assert (t' = s) by congruence. subst t t'.
  destruct (text_inj _ _ _ _ _ _ EmptyString EmptyString (proj1 Z) (proj1 Z') (sized_fields _ Z) (sized_fields _ Z') Ht Ht' eq_refl)
    as (ET & Fv & _). cbn [fst snd] in *. split; [exact ET|].
  destruct Z as (I & B & L), Z' as (I' & B' & L'); cbn [fst snd] in *. rewrite <- ET in L'. exact (fields_all (h_ty x) d d' I B B' L L' Fv).
Qed.
Print Assumptions C80_header.

(** Two packets print the same text exactly if they have the same headers with the same
    contents and the same payload. *)
Theorem C80_packet : forall m m' p q h g ss ss',
  holds h (p_hdrs p) ss -> holds g (p_hdrs q) ss' -> Forall sized ss -> Forall sized ss' ->
  bytes_ok (p_payload p) -> bytes_ok (p_payload q) ->
  (fst (pkt_show m p h) = fst (pkt_show m' q g) <-> ss = ss' /\ p_payload p = p_payload q).
Proof.
  intros m m' p q h g ss ss' H H' Z Z' Hp Hq.
  rewrite (pkt_show_page m h p ss), (pkt_show_page m' g q ss') by auto. apply page_inj; auto.
Qed.
Print Assumptions C80_packet.

(** The same of parsed slices, and between a slice and a packet. *)
Theorem C80_slice : forall m m' p q ss ss',
  sholds (ps_hdrs p) ss -> sholds (ps_hdrs q) ss' -> Forall sized ss -> Forall sized ss' ->
  bytes_ok (v_bytes (ps_payload p)) -> bytes_ok (v_bytes (ps_payload q)) ->
  (ps_show m p = ps_show m' q <-> ss = ss' /\ v_bytes (ps_payload p) = v_bytes (ps_payload q)).
Proof.
  intros m m' p q ss ss' H H' Z Z' Hp Hq.
  rewrite (ps_show_page m p ss), (ps_show_page m' q ss') by auto. apply page_inj; auto.
Qed.
Print Assumptions C80_slice.

Theorem C80_both : forall m m' p q h ss ss',
  holds h (p_hdrs p) ss -> sholds (ps_hdrs q) ss' -> Forall sized ss -> Forall sized ss' ->
  bytes_ok (p_payload p) -> bytes_ok (v_bytes (ps_payload q)) ->
  (fst (pkt_show m p h) = ps_show m' q <-> ss = ss' /\ p_payload p = v_bytes (ps_payload q)).
Proof.
  intros m m' p q h ss ss' H H' Z Z' Hp Hq.
  rewrite (pkt_show_page m h p ss), (ps_show_page m' q ss') by auto. apply page_inj; auto.
Qed.
Print Assumptions C80_both.

(** Hence parsing and then printing loses nothing: inputs that print the same are the same,
    whichever of the parsers read them and in whichever build. *)
Theorem C80_parsed : forall m m' f b b' h h' p p' h1 h1',
  bytes_ok b -> bytes_ok b' -> slow m f b h = (Ret p, h1) -> slow m' f b' h' = (Ret p', h1') ->
  (fst (pkt_show m p h1) = fst (pkt_show m' p' h1') <-> b = b').
Proof.
  intros m m' f b b' h h' p p' h1 h1' Hb Hb' E E'.
  destruct (C34_slow_sound m f b h p h1 Hb E) as (gs & W & Hs).
  destruct (C34_slow_sound m' f b' h' p' h1' Hb' E') as (gs' & W' & Hs').
  pose proof (wire_sized _ _ _ _ Hb W) as Z. pose proof (wire_sized _ _ _ _ Hb' W') as Z'.
  destruct (wire_ok _ _ _ _ Hb W) as [_ Op]. destruct (wire_ok _ _ _ _ Hb' W') as [_ Op'].
  rewrite (C80_packet m m' p p' h1 h1' _ _ Hs Hs' Z Z' Op Op'). split.
  - intros [Er Ep].
    destruct (C55_reparse m Debug f b h p h1 _ [] Hb E (holds_vec _ _ _ Hs)) as (q & h3 & R & _ & _ & V & _).
    destruct (C55_reparse m' Debug f b' h' p' h1' _ [] Hb' E' (holds_vec _ _ _ Hs')) as (q' & h3' & R' & _ & _ & V' & _).
    rewrite Er, Ep, R' in R. injection R as -> ->. congruence.
  - intros <-. destruct (wire_fun _ _ _ _ W _ _ W') as [<- <-]. auto.
Qed.
Print Assumptions C80_parsed.

Theorem C80_parsed_fast : forall m m' f b b' p p',
  bytes_ok b -> bytes_ok b' -> fast m f b = Ret p -> fast m' f b' = Ret p' ->
  (ps_show m p = ps_show m' p' <-> b = b').
Proof.
  intros m m' f b b' p p' Hb Hb' E E'.
  destruct (C34_fast_sound m f b p Hb E) as (gs & W & Hs).
  destruct (C34_fast_sound m' f b' p' Hb' E') as (gs' & W' & Hs').
  destruct (C34_slow_complete m f b [] gs _ Hb W) as (ks & h1 & R & Hk).
  destruct (C34_slow_complete m' f b' [] gs' _ Hb' W') as (ks' & h1' & R' & Hk').
  pose proof (wire_sized _ _ _ _ Hb W) as Z. pose proof (wire_sized _ _ _ _ Hb' W') as Z'.
  rewrite <- (C80_parsed m m' f b b' _ _ _ _ _ _ Hb Hb' R R').
  rewrite (ps_show_page m p _ Hs Z), (ps_show_page m' p' _ Hs' Z').
  rewrite (pkt_show_page m h1 (Pkt ks (v_bytes (ps_payload p))) _ Hk Z).
  rewrite (pkt_show_page m' h1' (Pkt ks' (v_bytes (ps_payload p'))) _ Hk' Z'). reflexivity.
Qed.
Print Assumptions C80_parsed_fast.

(** A header longer than its type declares prints only the declared part ... *)
Theorem C80_longer_refuted : exists x h g d d', cell_at h (h_ref x) d /\ cell_at g (h_ref x) d' /\
  bytes_ok d /\ bytes_ok d' /\ d <> d' /\ fst (hshow Debug x h) = fst (hshow Debug x g) /\
  exists s, fst (hshow Debug x h) = Ret s.
Proof.
  exists (Hdr Vlan 0), [Cell [1;2;3;4;5] false], [Cell [1;2;3;4;6] false], [1;2;3;4;5], [1;2;3;4;6].
  split; [reflexivity|]. split; [reflexivity|]. split; [repeat constructor|]. split; [repeat constructor|].
  split; [discriminate|]. split; [vm_compute; reflexivity|]. eexists. vm_compute. reflexivity.
Qed.
Print Assumptions C80_longer_refuted.

(** ... so that two packets, one with the byte in the header and one with it in the payload,
    print the same although their headers hold different bytes. *)
Theorem C80_border_refuted : exists p q h g, p_payload p <> p_payload q /\
  fst (pkt_show Debug p h) = fst (pkt_show Debug q g) /\ exists s, fst (pkt_show Debug p h) = Ret s.
Proof.
  exists (Pkt [Hdr Vlan 0] []), (Pkt [Hdr Vlan 0] [5]), [Cell [1;2;3;4;5] false], [Cell [1;2;3;4] false].
  split; [discriminate|]. split; [vm_compute; reflexivity|]. eexists. vm_compute. reflexivity.
Qed.
Print Assumptions C80_border_refuted.

(** *** Examples *)

Example C80_example : exists s s', fst (hshow Debug (Hdr Vlan 0) [Cell [0x21; 0x33; 8; 0] false]) = Ret s /\
  fst (hshow Release (Hdr Vlan 0) [Cell [0x21; 0x32; 8; 0] false]) = Ret s' /\ s <> s'.
Proof. do 2 eexists. split; [vm_compute; reflexivity|]. split; [vm_compute; reflexivity|]. discriminate. Qed.
Example C80_example_sized : sized (Vlan, [0x21; 0x33; 8; 0]) /\ sized (Tester, ht_default Tester).
Proof. repeat split; try (simpl; tauto); repeat constructor. Qed.
(** A payload byte and the header type it is not part of. *)
Example C80_example_packets : exists s s', fst (pkt_show Debug (Pkt [Hdr MPLS 0] [9]) [Cell [1;2;3;4] false]) = Ret s /\
  fst (pkt_show Debug (Pkt [Hdr Vlan 0] [9]) [Cell [1;2;3;4] false]) = Ret s' /\ s <> s'.
Proof. do 2 eexists. split; [vm_compute; reflexivity|]. split; [vm_compute; reflexivity|]. discriminate. Qed.
Example C80_example_parsed : exists p h', slow Debug F_parse frame [] = (Ret p, h') /\ length (p_hdrs p) = 12%nat /\
  exists s, fst (pkt_show Debug p h') = Ret s.
Proof. do 2 eexists. split; [vm_compute; reflexivity|]. split; [reflexivity|]. eexists. vm_compute. reflexivity. Qed.
