(** PropIpv6.v -- C65: IPv6 address texts. *)

From Coq Require Import Lia.
From Verif Require Import Base Types Text Layout Heap Build Utils Spec ShowSpec Ipv6 Ipv6Spec UtilsSpec BitsProofs TextProofs
  ShowProofs BuildProofs Ipv6Proofs PropText PropBuild PropUtils.
Open Scope N_scope.

(** The texts of RFC 4291, and no others, with their values. *)
Theorem C65_ipv6 : forall s o,
  ipv6_from_str s = Some o <-> exists gs, ip6_text s gs /\ o = group_octets gs.
Proof.
  intros s o. unfold ipv6_from_str. split.
  - destruct (read_ipv6 s) as [[gs [|c r]]|] eqn:E; try discriminate. intros Q. injection Q as <-.
    apply read_ipv6_spec in E. exists gs. split; [exact E|]. apply group_octets_eq. apply (ip6_text_ok s gs E).
  - intros (gs & T & ->). rewrite (proj2 (read_ipv6_spec s gs) T). f_equal. apply group_octets_eq. apply (ip6_text_ok s gs T).
Qed.
Print Assumptions C65_ipv6.

(** A text has one value. *)
Theorem C65_unique : forall s gs gs', ip6_text s gs -> ip6_text s gs' -> gs = gs'.
Proof.
  intros s gs gs' A B. apply read_ipv6_spec in A. apply read_ipv6_spec in B. rewrite A in B. injection B as ->. reflexivity.
Qed.
Print Assumptions C65_unique.

Lemma group_octets_ok gs : length gs = 8%nat -> length (group_octets gs) = 16%nat /\ bytes_ok (group_octets gs).
Proof.
  intros L. unfold group_octets. split.
  - do 9 (destruct gs as [|? gs]; try discriminate). reflexivity.
  - clear L. induction gs as [|g gs IH]; [constructor|]. cbn [flat_map]. apply bytes_ok_app. split; [apply to_be_ok|exact IH].
Qed.

(** What the theorems on IPv6 headers (C27, C43-C48) assume about the function. *)
Theorem C65_octets16 : octets16 ipv6_from_str.
Proof.
  intros s o E. apply C65_ipv6 in E as (gs & T & ->). apply group_octets_ok. apply (ip6_text_ok s gs T).
Qed.
Print Assumptions C65_octets16.

Lemma ip6_text_dec s : (exists gs, ip6_text s gs) \/ forall gs, ~ ip6_text s gs.
Proof.
  destruct (read_ipv6 s) as [[gs [|c r]]|] eqn:E.
  - left. exists gs. apply read_ipv6_spec. exact E.
  - right. intros g T. apply read_ipv6_spec in T. congruence.
  - right. intros g T. apply read_ipv6_spec in T. congruence.
Qed.

(** [to_ipv6_bytes]: the address, or zeros if the text is not one; it never panics. *)
Theorem C65_to_bytes : forall s,
  (forall gs, ip6_text s gs -> to_ipv6_bytes ipv6_from_str s = group_octets gs) /\
  ((forall gs, ~ ip6_text s gs) -> to_ipv6_bytes ipv6_from_str s = repeat 0 16) /\
  length (to_ipv6_bytes ipv6_from_str s) = 16%nat /\ bytes_ok (to_ipv6_bytes ipv6_from_str s).
Proof.
  intros s.
  assert (A : forall gs, ip6_text s gs -> to_ipv6_bytes ipv6_from_str s = group_octets gs).
  { intros gs T. unfold to_ipv6_bytes. rewrite (proj2 (C65_ipv6 s (group_octets gs))); eauto. }
  assert (B : (forall gs, ~ ip6_text s gs) -> to_ipv6_bytes ipv6_from_str s = repeat 0 16).
  { intros N. unfold to_ipv6_bytes. destruct (ipv6_from_str s) as [o|] eqn:E; [|reflexivity].
    apply C65_ipv6 in E as (gs & T & _). exfalso. exact (N gs T). }
  split; [exact A|]. split; [exact B|].
  destruct (ip6_text_dec s) as [[gs T]|N].
  - rewrite (A gs T). apply group_octets_ok. apply (ip6_text_ok s gs T).
  - rewrite (B N). split; [reflexivity|apply bytes_okb_ok; reflexivity].
Qed.
Print Assumptions C65_to_bytes.

(** The claim "a text that is no address can be told from one that is" is false. *)
Theorem C65_unreadable_refuted : exists s t gs, (forall gs, ~ ip6_text s gs) /\ ip6_text t gs /\
  to_ipv6_bytes ipv6_from_str s = to_ipv6_bytes ipv6_from_str t.
Proof.
  exists "2001:db8::12345"%string, "::"%string, (repeat 0 8). split; [|split; [|reflexivity]].
  - intros gs T. apply read_ipv6_spec in T. vm_compute in T. discriminate.
  - apply read_ipv6_spec. reflexivity.
Qed.
Print Assumptions C65_unreadable_refuted.

(** ** Printing and reading *)

Lemma segs_join q ts gs : Forall2 hextet ts gs -> ts <> [] -> segs q (join ":" ts) gs.
Proof.
  induction 1 as [|t g ts gs H Hs IH]; [congruence|]. intros _. destruct ts as [|t2 ts].
  - inversion Hs; subst. apply S_one. exact H.
  - change (join ":" (t :: t2 :: ts)) with (t ++ ":" ++ join ":" (t2 :: ts))%string. apply S_cons; [exact H|].
    apply IH. discriminate.
Qed.
Lemma part_join q ts gs : Forall2 hextet ts gs -> part6 q (join ":" ts) gs.
Proof.
  intros H. destruct ts as [|t ts]; [inversion H; left; auto|]. right. apply segs_join; [exact H|discriminate].
Qed.

(** Eight groups of one to four digits, upper or lower case. *)
Theorem C65_full : forall ts gs, Forall2 hextet ts gs -> length gs = 8%nat ->
  to_ipv6_bytes ipv6_from_str (join ":" ts) = group_octets gs.
Proof.
  intros ts gs H L. apply C65_to_bytes. left. split; [|exact L]. apply segs_join; [exact H|].
  intros ->. inversion H; subst. discriminate.
Qed.
Print Assumptions C65_full.

(** [::] for any number of zero groups, anywhere. *)
Theorem C65_compressed : forall ts ga us gb, Forall2 hextet ts ga -> Forall2 hextet us gb ->
  (length ga + length gb <= 7)%nat ->
  to_ipv6_bytes ipv6_from_str (join ":" ts ++ "::" ++ join ":" us) =
  group_octets (ga ++ repeat 0 (8 - length ga - length gb) ++ gb).
Proof.
  intros ts ga us gb Ha Hb L. apply C65_to_bytes. right. exists (join ":" ts), ga, (join ":" us), gb.
  split; [apply part_join; exact Ha|]. split; [apply part_join; exact Hb|]. auto.
Qed.
Print Assumptions C65_compressed.

(** Every group can be printed: four digits, and every octet of a dotted quad. *)
Definition hex4 (g : N) : string := (hex2 (g / 256) ++ hex2 (g mod 256))%string.
Lemma hex4_hextet g : g < 65536 -> hextet (hex4 g) g.
Proof.
  intros L. split; [|cbn; lia].
  assert (H2 : forall b, b < 256 -> numeral 16 (hex2 b) b).
  { intros b Hb. assert (E : b = b / 16 * 16 + b mod 16) by (rewrite N.mul_comm; apply N.div_mod; lia).
    rewrite E at 2. unfold hex2.
    assert (Q : b / 16 * 16 + b mod 16 = b / 16 * 16 ^ N.of_nat (String.length (String (digit_char (b mod 16)) EmptyString)) + (b mod 16 * 16 ^ N.of_nat (String.length EmptyString) + 0))
      by (cbn [String.length]; change (16 ^ N.of_nat 1) with 16; change (16 ^ N.of_nat 0) with 1; lia).
    rewrite Q. constructor; [|constructor; [|constructor]].
    - apply digit_is; [apply N.div_lt_upper_bound; lia|lia].
    - apply digit_is; [apply N.mod_lt; lia|lia]. }
  assert (Hd : g / 256 < 256) by (apply N.div_lt_upper_bound; lia).
  assert (Hm : g mod 256 < 256) by (apply N.mod_lt; lia).
  pose proof (numeral_app 16 _ _ _ _ (H2 _ Hd) (H2 _ Hm)) as Q. fold (hex4 g) in Q.
  replace g with (g / 256 * 16 ^ N.of_nat (String.length (hex2 (g mod 256))) + g mod 256) at 2; [exact Q|].
  cbn [hex2 String.length]. change (16 ^ N.of_nat 2) with 256. rewrite N.mul_comm. symmetry. apply N.div_mod. lia.
Qed.

Theorem C65_roundtrip : forall gs, length gs = 8%nat -> Forall (fun g => g < 65536) gs ->
  to_ipv6_bytes ipv6_from_str (join ":" (map hex4 gs)) = group_octets gs.
Proof.
  intros gs L H. apply C65_full; [|exact L]. clear L. induction H as [|g gs Hg H IH]; constructor; auto. apply hex4_hextet; auto.
Qed.
Print Assumptions C65_roundtrip.

(** IPv4-mapped addresses. *)
Lemma dec_octet_dec b : b < 256 -> dec_octet (dec b) b.
Proof.
  intros L. split; [|exact L].
  assert (K : forallb (fun b => match read_number 10 256 3 false (dec b) with
     | Some (v, EmptyString) => N.eqb v b | _ => false end) (map N.of_nat (seq 0 256)) = true) by (vm_compute; reflexivity).
  pose proof (all_bytes _ K b L) as Q. cbv beta in Q. destruct (read_number 10 256 3 false (dec b)) as [[v [|]]|] eqn:E; try discriminate.
  apply N.eqb_eq in Q. subst v. apply read_dec_spec in E as (t & Et & [D _] & _). rewrite append_nil_r in Et. rewrite Et. exact D.
Qed.

Theorem C65_mapped : forall a b c d, a < 256 -> b < 256 -> c < 256 -> d < 256 ->
  to_ipv6_bytes ipv6_from_str ("::ffff:" ++ dec a ++ "." ++ dec b ++ "." ++ dec c ++ "." ++ dec d) =
  repeat 0 10 ++ [255; 255; a; b; c; d].
Proof.
  intros a b c d Ha Hb Hc Hd.
  assert (T : ip6_text ("::ffff:" ++ dec a ++ "." ++ dec b ++ "." ++ dec c ++ "." ++ dec d)
    (repeat 0 5 ++ [0xffff; 256 * a + b; 256 * c + d])).
  { right. exists EmptyString, [], ("ffff:" ++ dec a ++ "." ++ dec b ++ "." ++ dec c ++ "." ++ dec d)%string, [0xffff; 256 * a + b; 256 * c + d].
    split; [left; auto|]. split.
    - right. apply (S_cons true "ffff" 0xffff).
      + apply (hex4_hextet 0xffff). lia.
      + apply S_quad; [reflexivity|]. exists (dec a), (dec b), (dec c), (dec d), a, b, c, d.
        repeat (split; [apply dec_octet_dec; assumption|]). auto.
    - split; [cbn; lia|]. split; reflexivity. }
  rewrite (proj1 (C65_to_bytes _) _ T). unfold group_octets. cbn [repeat app flat_map].
  rewrite !to_be_2.
  replace ((256 * a + b) / 256) with a by (rewrite N.mul_comm, N.div_add_l, N.div_small by lia; lia).
  replace ((256 * c + d) / 256) with c by (rewrite N.mul_comm, N.div_add_l, N.div_small by lia; lia).
  replace ((256 * a + b) mod 256) with b by (rewrite N.add_comm, N.mul_comm, N.mod_add, N.mod_small by lia; lia).
  replace ((256 * c + d) mod 256) with d by (rewrite N.add_comm, N.mul_comm, N.mod_add, N.mod_small by lia; lia).
  rewrite (N.mod_small a), (N.mod_small c) by lia. reflexivity.
Qed.
Print Assumptions C65_mapped.

(** ** Headers and packets built from texts *)

Lemma addr6_text s gs : ip6_text s gs -> addr6 ipv6_from_str s (group_octets gs).
Proof. intros T. left. apply C65_ipv6. eauto. Qed.

(** [Packet::ipv6] with two address texts. *)
Theorem C65_header : forall tc fl nh hl src dst pktlen s d h,
  ip6_text src s -> ip6_text dst d ->
  tc < 256 -> fl < 2 ^ 20 -> nh < 256 -> hl < 256 -> pktlen < 65536 ->
  built (ipv6 ipv6_from_str tc fl nh hl src dst pktlen h) h IPv6
    [4 # 6; 8 # tc; 20 # fl; 16 # pktlen; 8 # nh; 8 # hl; 128 # (be (group_octets s)); 128 # (be (group_octets d))].
Proof. intros. apply C27_ipv6; auto using C65_octets16, addr6_text. Qed.
Print Assumptions C65_header.

(** The arguments of the builders with address texts are in range. *)
Theorem C65_args : forall i s d, ip6_text (ip6_src i) s -> ip6_text (ip6_dst i) d ->
  ip6_traffic_class i < 256 -> ip6_flow_label i < 2 ^ 32 -> ip6_hop_limit i < 256 ->
  ip6_in i ipv6_from_str (group_octets s) (group_octets d).
Proof.
  intros i s d Hs Hd Ht Hf Hh. split; [apply C65_octets16|]. split; [apply addr6_text; exact Hs|].
  split; [apply addr6_text; exact Hd|]. auto.
Qed.
Print Assumptions C65_args.

(** For example the TCP packet parses back for all addresses. *)
Theorem C65_tcpv6 : forall m e i t pl h d s a b, eth_in e d s ->
  ip6_text (ip6_src i) a -> ip6_text (ip6_dst i) b ->
  ip6_traffic_class i < 256 -> ip6_flow_label i < 2 ^ 32 -> ip6_hop_limit i < 256 -> tcp_in t -> bytes_ok pl ->
  round_trip (create_tcpv6_packet m ipv6_from_str e i t pl h).
Proof. intros. eapply C44_tcpv6; eauto using C65_args. Qed.
Print Assumptions C65_tcpv6.

(** The examples of RFC 4291, section 2.2, and some texts that are refused. *)
Example C65_example :
  ip6_text "ABCD:EF01:2345:6789:ABCD:EF01:2345:6789" [0xabcd; 0xef01; 0x2345; 0x6789; 0xabcd; 0xef01; 0x2345; 0x6789] /\
  ip6_text "2001:DB8:0:0:8:800:200C:417A" [0x2001; 0xdb8; 0; 0; 8; 0x800; 0x200c; 0x417a] /\
  ip6_text "2001:DB8::8:800:200C:417A" [0x2001; 0xdb8; 0; 0; 8; 0x800; 0x200c; 0x417a] /\
  ip6_text "FF01::101" [0xff01; 0; 0; 0; 0; 0; 0; 0x101] /\
  ip6_text "::1" [0; 0; 0; 0; 0; 0; 0; 1] /\
  ip6_text "0:0:0:0:0:0:13.1.68.3" [0; 0; 0; 0; 0; 0; 0x0d01; 0x4403] /\
  ip6_text "::FFFF:129.144.52.38" [0; 0; 0; 0; 0; 0xffff; 0x8190; 0x3426] /\
  Forall (fun s => ipv6_from_str s = None)
    ["1::2::3"; "1:2:3:4:5:6:7"; "1:2:3:4:5:6:7:8:9"; "1:2:3:4:5:6:7::8"; "12345::"; "::1.2.3"; "::01.2.3.4"; "1.2.3.4::"; ":1"; "::g"; ""]%string.
Proof.
  repeat split; try (apply read_ipv6_spec; reflexivity).
  repeat constructor; try reflexivity.
Qed.
