(** PropWide.v -- property C89: what the header builders make of arguments too
    wide for their field, and that arguments that fit can be read back. *)

From Coq Require Import Lia.
From Verif Require Import Base Bits Types Layout Heap Packet Text Build Spec BitsProofs HeapProofs
  TextProofs ChecksumProofs BuildProofs PropChecksum PropBuild WideSpec WideProofs.
Open Scope N_scope.

(** An or of parts is as wide as its parts. *)
Ltac lors := repeat apply lor_lt; try apply part_lt; try apply shl_lt; auto; try reflexivity.

(** * Any argument of the Rust type *)

Theorem C89_ipv4 : forall m ihl tos id ttl frag proto src dst pktlen s d h,
  ipv4_text src s -> ipv4_text dst d ->
  ihl < 256 -> tos < 256 -> pktlen < 65536 -> id < 65536 -> frag < 65536 -> ttl < 256 -> proto < 256 ->
  exists c, built (ipv4 m ihl tos id ttl frag proto src dst pktlen h) h IPv4
    [4 # (N.lor 4 (part ihl 4 4)); 4 # (part ihl 0 4); 8 # tos; 16 # pktlen; 16 # id;
     3 # (part frag 13 3); 13 # (part frag 0 13); 8 # ttl; 8 # proto; 16 # c; 32 # (be s); 32 # (be d)] /\
    forall b, snd (ipv4 m ihl tos id ttl frag proto src dst pktlen h) = h ++ [Cell b false] ->
      (~ carries (other_words b) -> c = rfc_checksum b) /\
      (carries (other_words b) -> c = rfc_checksum b + 1).
Proof.
  intros m ihl tos id ttl frag proto src dst pktlen s d h Hs Hd Hi Ht Hp Hid Hf Hl Hpr.
  pose proof (ipv4_ok _ _ Hs) as Os. pose proof (ipv4_ok _ _ Hd) as Od.
  pose proof (ipv4_len _ _ Hs) as Ls. pose proof (ipv4_len _ _ Hd) as Ld.
  destruct (ipv4_wide m ihl tos id ttl frag proto src dst pktlen s d h) as (c & Lc & Ec & E); auto.
  assert (V : N.lor 64 ihl < 256) by (apply (lor_lt 64 ihl 8); [reflexivity|auto]).
  exists c. split.
  - rewrite E, <- hfrom_run. apply built_intro; try reflexivity. unfold ip4_head.
    apply (diagram_app _ _ [_; _]).
    { pose proof (diagram_cut1 (N.lor 64 ihl) [4; 4]%nat eq_refl V) as D. cbn [cut] in D.
      rewrite !part_lor in D. exact D. }
    apply (diagram_app _ _ [_]); [apply diagb; auto|].
    apply (diagram_app _ _ [_]); [apply (diag1 2); auto|].
    apply (diagram_app _ _ [_]); [apply (diag1 2); auto|].
    apply (diagram_app _ _ [_; _]).
    { exact (diagram_cut 2 frag [3; 13]%nat eq_refl Hf). }
    apply (diagram_app _ _ [_]); [apply diagb; auto|].
    apply (diagram_app _ _ [_]); [apply diagb; auto|].
    apply (diagram_app _ _ [_]); [apply (diag1 2); change (2 ^ N.of_nat (8 * 2)) with 65536; lia|].
    apply (diagram_app _ _ [_]); [apply (diagd 4); auto|].
    apply (diagd 4); auto.
  - intros b Eb. rewrite E in Eb. cbn [snd] in Eb. apply app_inv_head in Eb. injection Eb as <-.
    destruct (C20_rfc m (ip4_head (N.lor 64 ihl) tos pktlen id frag ttl proto 0 s d)) as (c' & Ec' & _ & A & B).
    + apply ip4_head_ok; auto.
    + rewrite ip4_head_len by auto. reflexivity.
    + rewrite ip4_head_len by auto. discriminate.
    + rewrite Ec in Ec'. injection Ec' as <-. unfold other_words, rfc_checksum in *. rewrite ip4_head_zero in *.
      split; [apply A|apply B].
Qed.
Print Assumptions C89_ipv4.

Theorem C89_ipv6 : forall ip6 tc fl nh hl src dst pktlen s d h,
  octets16 ip6 -> addr6 ip6 src s -> addr6 ip6 dst d ->
  tc < 256 -> fl < 2 ^ 32 -> nh < 256 -> hl < 256 -> pktlen < 65536 ->
  built (ipv6 ip6 tc fl nh hl src dst pktlen h) h IPv6
    [4 # (N.lor 6 (part fl 28 4)); 8 # (N.lor tc (part fl 20 8)); 20 # (part fl 0 20);
     16 # pktlen; 8 # nh; 8 # hl; 128 # (be s); 128 # (be d)].
Proof.
  intros ip6 tc fl nh hl src dst pktlen s d h H6 Hs Hd Ht Hf Hn Hh Hp.
  destruct (addr6_ok _ _ _ H6 Hs) as [Ls Os]. destruct (addr6_ok _ _ _ H6 Hd) as [Ld Od].
  unfold ipv6. rewrite (addr6_eq _ _ _ Hs), (addr6_eq _ _ _ Hd).
  change (N.land (shl32 6 28) 0xF0000000) with (N.shiftl 6 28 mod 2 ^ 32).
  apply built_intro; try reflexivity.
  apply (diagram_app _ _ [_; _; _]).
  { pose proof (diagram_cut 4 (N.lor (N.lor (N.shiftl 6 28 mod 2 ^ 32) (shl32 tc 20)) fl) [4; 8; 20]%nat eq_refl) as D.
    cbn [cut] in D. rewrite !part_lor, shl32_part in D.
    change (N.of_nat (list_sum [8; 20]%nat)) with 28 in D. change (N.of_nat (list_sum [20]%nat)) with 20 in D.
    change (N.of_nat (list_sum [])) with 0 in D. change (N.of_nat 4) with 4 in D.
    change (N.of_nat 8) with 8 in D. change (N.of_nat 20) with 20 in D.
    rewrite (part_shl_above 32 6 28 28 4), (part_shl_above 32 tc 20 28 4), (part_shl_below 32 6 28 20 8),
      (part_shl_above 32 tc 20 20 8), (part_shl_below 32 6 28 0 20), (part_shl_below 32 tc 20 0 20) in D by (vm_compute; congruence).
    change (part 6 (28 - 28) 4) with 6 in D. change (20 - 20) with 0 in D. change (28 - 20) with 8 in D.
    rewrite (part_small tc 8), (part_zero tc 8) in D by auto. rewrite N.lor_0_r, !N.lor_0_l in D.
    apply D. lors. }
  apply (diagram_app _ _ [_]); [apply (diag1 2); auto|].
  apply (diagram_app _ _ [_]); [apply diagb; auto|].
  apply (diagram_app _ _ [_]); [apply diagb; auto|].
  apply (diagram_app _ _ [_]); [apply (diagd 16); auto|]. apply (diagd 16); auto.
Qed.
Print Assumptions C89_ipv6.

Theorem C89_tcp : forall src dst seq ack doff res flags window chk urg h,
  src < 65536 -> dst < 65536 -> seq < 2 ^ 32 -> ack < 2 ^ 32 -> doff < 256 -> res < 256 -> flags < 256 ->
  window < 65536 -> chk < 65536 -> urg < 65536 ->
  built (tcp src dst seq ack doff res flags window chk urg h) h TCP
    [16 # src; 16 # dst; 32 # seq; 32 # ack; 4 # (N.lor (part doff 0 4) (part res 4 4)); 4 # (part res 0 4);
     8 # flags; 16 # window; 16 # chk; 16 # urg].
Proof.
  intros src dst seq ack doff res flags window chk urg h Hs Hd Hq Ha Ho Hr Hf Hw Hc Hu.
  unfold tcp. apply built_intro; try reflexivity.
  apply (diagram_app _ _ [_]); [apply (diag1 2); auto|].
  apply (diagram_app _ _ [_]); [apply (diag1 2); auto|].
  apply (diagram_app _ _ [_]); [apply (diag1 4); auto|].
  apply (diagram_app _ _ [_]); [apply (diag1 4); auto|].
  apply (diagram_app _ _ [_; _]).
  { change 0xff with (N.ones 8). rewrite N.land_ones, N.mod_small by (change (2 ^ 8) with 256; lia).
    pose proof (diagram_cut1 (N.lor (shl8 doff 4) res) [4; 4]%nat eq_refl) as D.
    cbn [cut] in D. rewrite !part_lor, shl8_part in D.
    change (N.of_nat (list_sum [4]%nat)) with 4 in D. change (N.of_nat (list_sum [])) with 0 in D.
    change (N.of_nat 4) with 4 in D.
    rewrite (part_shl_above 8 doff 4 4 4), (part_shl_below 8 doff 4 0 4) in D by (vm_compute; congruence).
    rewrite N.lor_0_l in D. apply D. apply (lor_lt _ _ 8); lors. }
  apply (diagram_app _ _ [_]); [apply diagb; auto|].
  apply (diagram_app _ _ [_]); [apply (diag1 2); auto|].
  apply (diagram_app _ _ [_]); [apply (diag1 2); auto|]. apply (diag1 2); auto.
Qed.
Print Assumptions C89_tcp.

Theorem C89_vxlan : forall vni h, vni < 2 ^ 32 ->
  built (vxlan vni h) h Vxlan [8 # 8; 24 # 0; 24 # (part vni 0 24); 8 # 0].
Proof.
  intros vni h Hv. unfold vxlan. apply built_intro; try reflexivity.
  apply (diagram_app _ _ [_; _]).
  - apply diagram_word; [reflexivity|fits_tac|reflexivity].
  - pose proof (diagram_cut 4 (shl32 vni 8) [24; 8]%nat eq_refl) as D.
    cbn [cut] in D. rewrite shl32_part in D.
    change (N.of_nat (list_sum [8]%nat)) with 8 in D. change (N.of_nat (list_sum [])) with 0 in D.
    change (N.of_nat 24) with 24 in D. change (N.of_nat 8) with 8 in D.
    rewrite (part_shl_above 32 vni 8 8 24), (part_shl_below 32 vni 8 0 8) in D by (vm_compute; congruence).
    apply D. lors.
Qed.
Print Assumptions C89_vxlan.

Theorem C89_gre : forall c r k seqnum s flags ver proto h, flags < 256 -> ver < 256 -> proto < 65536 ->
  built (gre c r k seqnum s flags ver proto h) h GRE
    [1 # (b2n c); 1 # (b2n r); 1 # (b2n k); 1 # (b2n seqnum); 1 # (b2n s); 3 # 0;
     5 # (N.lor (part flags 0 5) (part ver 3 5)); 3 # (part ver 0 3); 16 # proto].
Proof.
  intros c r k seqnum s flags ver proto h Hf Hv Hp. unfold gre. apply built_intro; try reflexivity.
  apply (diagram_app _ _ [_; _; _; _; _; _]).
  { destruct c, r, k, seqnum, s; cbn [b2n]; (apply diagram_byte; [reflexivity|fits_tac|reflexivity]). }
  apply (diagram_app _ _ [_; _]).
  { pose proof (diagram_cut1 (N.lor (shl8 flags 3) ver) [5; 3]%nat eq_refl) as D.
    cbn [cut] in D. rewrite !part_lor, shl8_part in D.
    change (N.of_nat (list_sum [3]%nat)) with 3 in D. change (N.of_nat (list_sum [])) with 0 in D.
    change (N.of_nat 5) with 5 in D. change (N.of_nat 3) with 3 in D.
    rewrite (part_shl_above 8 flags 3 3 5), (part_shl_below 8 flags 3 0 3) in D by (vm_compute; congruence).
    rewrite N.lor_0_l in D. apply D. apply (lor_lt _ _ 8); lors. }
  apply (diag1 2); auto.
Qed.
Print Assumptions C89_gre.

Lemma er_b1 v vlan : v < 16 -> vlan < 65536 ->
  diagram (to_be 2 (N.lor (shl16 v 12) vlan)) [4 # (N.lor v (part vlan 12 4)); 12 # (part vlan 0 12)].
Proof.
  intros Hv Hl. pose proof (diagram_cut 2 (N.lor (shl16 v 12) vlan) [4; 12]%nat eq_refl) as D.
  cbn [cut] in D. rewrite !part_lor, shl16_part in D.
  change (N.of_nat (list_sum [12]%nat)) with 12 in D. change (N.of_nat (list_sum [])) with 0 in D.
  change (N.of_nat 12) with 12 in D. change (N.of_nat 4) with 4 in D.
  rewrite (part_shl_above 16 v 12 12 4), (part_shl_below 16 v 12 0 12) in D by (vm_compute; congruence).
  change (12 - 12) with 0 in D. rewrite (part_small v 4) in D by auto. rewrite N.lor_0_l in D.
  apply D. lors.
Qed.

Lemma er_b2 cos en t sid : cos < 256 -> en < 256 -> t < 256 -> sid < 65536 ->
  diagram (to_be 2 (erspan_b2 cos en t sid))
    [3 # (er_cos cos en t sid); 2 # (er_en en t sid); 1 # (er_t t sid); 10 # (part sid 0 10)].
Proof.
  intros Hc He Ht Hs. pose proof (diagram_cut 2 (erspan_b2 cos en t sid) [3; 2; 1; 10]%nat eq_refl) as D.
  unfold erspan_b2 in *. cbn [cut] in D. rewrite !part_lor, !shl16_part in D.
  change (N.of_nat (list_sum [2; 1; 10]%nat)) with 13 in D. change (N.of_nat (list_sum [1; 10]%nat)) with 11 in D.
  change (N.of_nat (list_sum [10]%nat)) with 10 in D.
  change (N.of_nat (list_sum [])) with 0 in D. change (N.of_nat 10) with 10 in D. change (N.of_nat 1) with 1 in D.
  change (N.of_nat 2) with 2 in D. change (N.of_nat 3) with 3 in D.
  rewrite (part_shl_above 16 cos 13 13 3), (part_shl_above 16 en 11 13 3), (part_shl_above 16 t 10 13 3),
    (part_shl_below 16 cos 13 11 2), (part_shl_above 16 en 11 11 2), (part_shl_above 16 t 10 11 2),
    (part_shl_below 16 cos 13 10 1), (part_shl_below 16 en 11 10 1), (part_shl_above 16 t 10 10 1),
    (part_shl_below 16 cos 13 0 10), (part_shl_below 16 en 11 0 10), (part_shl_below 16 t 10 0 10)
    in D by (vm_compute; congruence).
  rewrite !N.lor_0_l, <- !N.lor_assoc in D. unfold er_cos, er_en, er_t. rewrite <- !N.lor_assoc.
  rewrite <- !shl16_part in D.
  apply D. lors.
Qed.

Theorem C89_erspan2 : forall vlan cos en t sid idx h,
  vlan < 65536 -> cos < 256 -> en < 256 -> t < 256 -> sid < 65536 -> idx < 2 ^ 32 ->
  built (erspan2 vlan cos en t sid idx h) h ERSPAN2
    [4 # (N.lor 1 (part vlan 12 4)); 12 # (part vlan 0 12);
     3 # (er_cos cos en t sid); 2 # (er_en en t sid); 1 # (er_t t sid); 10 # (part sid 0 10);
     12 # (part idx 20 12); 20 # (part idx 0 20)].
Proof.
  intros vlan cos en t sid idx h Hv Hc He Ht Hs Hi. unfold erspan2. apply built_intro; try reflexivity.
  apply (diagram_app _ _ [_; _]); [apply (er_b1 1); auto; reflexivity|].
  apply (diagram_app _ _ [_; _; _; _]); [apply er_b2; auto|].
  exact (diagram_cut 4 idx [12; 20]%nat eq_refl Hi).
Qed.
Print Assumptions C89_erspan2.

Theorem C89_erspan3 : forall vlan cos en t sid ts sgt other h,
  vlan < 65536 -> cos < 256 -> en < 256 -> t < 256 -> sid < 65536 -> ts < 2 ^ 32 -> sgt < 65536 -> other < 65536 ->
  built (erspan3 vlan cos en t sid ts sgt other h) h ERSPAN3
    [4 # (N.lor 2 (part vlan 12 4)); 12 # (part vlan 0 12);
     3 # (er_cos cos en t sid); 2 # (er_en en t sid); 1 # (er_t t sid); 10 # (part sid 0 10);
     32 # ts; 16 # sgt; 1 # (part other 15 1); 5 # (part other 10 5); 6 # (part other 4 6);
     1 # (part other 3 1); 2 # (part other 1 2); 1 # (part other 0 1)].
Proof.
  intros vlan cos en t sid ts sgt other h Hv Hc He Ht Hs Hts Hg Ho. unfold erspan3. apply built_intro; try reflexivity.
  apply (diagram_app _ _ [_; _]); [apply (er_b1 2); auto; reflexivity|].
  apply (diagram_app _ _ [_; _; _; _]); [apply er_b2; auto|].
  apply (diagram_app _ _ [_]); [apply (diag1 4); auto|].
  apply (diagram_app _ _ [_]); [apply (diag1 2); auto|].
  exact (diagram_cut 2 other [1; 5; 6; 1; 2; 1]%nat eq_refl Ho).
Qed.
Print Assumptions C89_erspan3.

Theorem C89_vlan : forall pcp cfi vid etype h, pcp < 256 -> vid < 65536 -> etype < 65536 ->
  built (vlan pcp cfi vid etype h) h Vlan
    [3 # (N.lor (part vid 13 3) (part pcp 0 3)); 1 # (part vid 12 1); 12 # (part vid 0 12); 16 # etype].
Proof.
  intros pcp cfi vid etype h Hp Hv He. pose proof (C25_vlan_general pcp cfi vid etype h Hp Hv He) as B.
  unfold part. rewrite !N.pow_0_r, !N.div_1_r. change (2 ^ 13) with 8192. change (2 ^ 12) with 4096.
  rewrite (N.mod_small (vid / 8192)) by (apply N.div_lt_upper_bound; [discriminate|exact Hv]). exact B.
Qed.
Print Assumptions C89_vlan.

(** * The header holds the arguments exactly when they fit *)

Ltac fit F := apply built_fits in F; unfold fits in F;
  repeat match goal with
  | H : Forall _ (_ :: _) |- _ => let A := fresh "A" in inversion H as [|? ? A ?]; clear H; subst; cbn [fst snd] in A
  | H : Forall _ [] |- _ => clear H
  end.

Theorem C89_exactly :
  (forall ip6 tc fl nh hl src dst pktlen s d h, octets16 ip6 -> addr6 ip6 src s -> addr6 ip6 dst d ->
    tc < 256 -> fl < 2 ^ 32 -> nh < 256 -> hl < 256 -> pktlen < 65536 ->
    (built (ipv6 ip6 tc fl nh hl src dst pktlen h) h IPv6
      [4 # 6; 8 # tc; 20 # fl; 16 # pktlen; 8 # nh; 8 # hl; 128 # (be s); 128 # (be d)] <-> fl < 2 ^ 20)) /\
  (forall src dst seq ack doff res flags window chk urg h,
    src < 65536 -> dst < 65536 -> seq < 2 ^ 32 -> ack < 2 ^ 32 -> doff < 256 -> res < 256 -> flags < 256 ->
    window < 65536 -> chk < 65536 -> urg < 65536 ->
    (built (tcp src dst seq ack doff res flags window chk urg h) h TCP
      [16 # src; 16 # dst; 32 # seq; 32 # ack; 4 # doff; 4 # res; 8 # flags; 16 # window; 16 # chk; 16 # urg]
     <-> doff < 16 /\ res < 16)) /\
  (forall vni h, vni < 2 ^ 32 ->
    (built (vxlan vni h) h Vxlan [8 # 8; 24 # 0; 24 # vni; 8 # 0] <-> vni < 2 ^ 24)) /\
  (forall c r k seqnum s flags ver proto h, flags < 256 -> ver < 256 -> proto < 65536 ->
    (built (gre c r k seqnum s flags ver proto h) h GRE
      [1 # (b2n c); 1 # (b2n r); 1 # (b2n k); 1 # (b2n seqnum); 1 # (b2n s); 3 # 0; 5 # flags; 3 # ver; 16 # proto]
     <-> flags < 32 /\ ver < 8)) /\
  (forall vlan cos en t sid idx h,
    vlan < 65536 -> cos < 256 -> en < 256 -> t < 256 -> sid < 65536 -> idx < 2 ^ 32 ->
    (built (erspan2 vlan cos en t sid idx h) h ERSPAN2
      [4 # 1; 12 # vlan; 3 # cos; 2 # en; 1 # t; 10 # sid; 12 # 0; 20 # idx]
     <-> vlan < 4096 /\ cos < 8 /\ en < 4 /\ t < 2 /\ sid < 1024 /\ idx < 2 ^ 20)) /\
  (forall pcp vid etype h, pcp < 256 -> vid < 65536 -> etype < 65536 ->
    (built (vlan pcp 0 vid etype h) h Vlan [3 # pcp; 1 # 0; 12 # vid; 16 # etype] <-> pcp < 8 /\ vid < 4096)) /\
  (forall m ihl tos id ttl frag proto src dst pktlen s d h,
    ipv4_text src s -> ipv4_text dst d ->
    ihl < 256 -> tos < 256 -> pktlen < 65536 -> id < 65536 -> frag < 65536 -> ttl < 256 -> proto < 256 ->
    ((exists c, built (ipv4 m ihl tos id ttl frag proto src dst pktlen h) h IPv4
      [4 # 4; 4 # ihl; 8 # tos; 16 # pktlen; 16 # id; 3 # (frag / 8192); 13 # (frag mod 8192);
       8 # ttl; 8 # proto; 16 # c; 32 # (be s); 32 # (be d)]) <-> ihl < 16)) /\
  (forall vlan cos en t sid ts sgt other h,
    vlan < 65536 -> cos < 256 -> en < 256 -> t < 256 -> sid < 65536 -> ts < 2 ^ 32 -> sgt < 65536 -> other < 65536 ->
    (built (erspan3 vlan cos en t sid ts sgt other h) h ERSPAN3
      [4 # 2; 12 # vlan; 3 # cos; 2 # en; 1 # t; 10 # sid; 32 # ts; 16 # sgt;
       1 # (part other 15 1); 5 # (part other 10 5); 6 # (part other 4 6);
       1 # (part other 3 1); 2 # (part other 1 2); 1 # (part other 0 1)]
     <-> vlan < 4096 /\ cos < 8 /\ en < 4 /\ t < 2 /\ sid < 1024)).
Proof.
  split; [|split; [|split; [|split; [|split; [|split; [|split]]]]]].
  - intros. split; [intros F; fit F; auto|intros; apply C27_ipv6; auto].
  - intros. split; [intros F; fit F; auto|intros []; apply C28_tcp; auto].
  - intros. split; [intros F; fit F; auto|intros; apply C29_vxlan; auto].
  - intros. split; [intros F; fit F; auto|intros []; apply C29_gre; auto].
  - intros. split; [intros F; fit F; repeat split; auto|intros (? & ? & ? & ? & ? & ?); apply C30_erspan2; auto].
  - intros. split; [intros F; fit F; auto|intros []; apply C25_vlan; auto].
  - intros m ihl tos id ttl frag proto src dst pktlen s d h ? ? ? ? ? ? ? ? ?.
    split; [intros [c F]; fit F; auto|intros Hi].
    destruct (C26_ipv4 m ihl tos id ttl frag proto src dst pktlen s d h) as (b & c & E & L & D & F & _); auto.
    exists c, b. auto.
  - intros vlan cos en t sid ts sgt other h ? ? ? ? ? ? ? ?. split; [intros F; fit F; repeat split; auto|].
    intros (? & ? & ? & ? & ?).
    pose proof (C89_erspan3 vlan cos en t sid ts sgt other h) as B.
    rewrite (part_zero vlan 12), (part_small vlan 12), (part_small sid 10) in B by auto.
    unfold er_cos, er_en, er_t in B.
    rewrite (part_small cos 3), (part_zero en 2), (part_small en 2), (part_zero sid 13), (part_zero sid 11),
      (part_zero sid 10), (part_zero t 3), (part_zero t 1), (part_small t 1) in B
      by (auto; first [change (2 ^ 13) with 8192|change (2 ^ 11) with 2048|change (2 ^ 3) with 8]; lia).
    rewrite !N.lor_0_r in B. apply B; auto.
Qed.
Print Assumptions C89_exactly.

(** * Arguments that fit can be read back: equal headers, equal arguments *)

Theorem C89_lossless :
  (forall dst src et dst' src' et' d s d' s' h, mac_text dst d -> mac_text src s -> mac_text dst' d' -> mac_text src' s' ->
    et < 65536 -> et' < 65536 -> ethernet dst src et h = ethernet dst' src' et' h -> (d, s, et) = (d', s', et')) /\
  (forall m ihl tos id ttl frag proto src dst len m' ihl' tos' id' ttl' frag' proto' src' dst' len' s d s' d' h,
    ipv4_text src s -> ipv4_text dst d -> ipv4_text src' s' -> ipv4_text dst' d' ->
    ihl < 16 -> tos < 256 -> len < 65536 -> id < 65536 -> frag < 65536 -> ttl < 256 -> proto < 256 ->
    ihl' < 16 -> tos' < 256 -> len' < 65536 -> id' < 65536 -> frag' < 65536 -> ttl' < 256 -> proto' < 256 ->
    ipv4 m ihl tos id ttl frag proto src dst len h = ipv4 m' ihl' tos' id' ttl' frag' proto' src' dst' len' h ->
    (ihl, tos, id, ttl, frag, proto, s, d, len) = (ihl', tos', id', ttl', frag', proto', s', d', len')) /\
  (forall ip6 tc fl nh hl src dst len tc' fl' nh' hl' src' dst' len' s d s' d' h,
    octets16 ip6 -> addr6 ip6 src s -> addr6 ip6 dst d -> addr6 ip6 src' s' -> addr6 ip6 dst' d' ->
    tc < 256 -> fl < 2 ^ 20 -> nh < 256 -> hl < 256 -> len < 65536 ->
    tc' < 256 -> fl' < 2 ^ 20 -> nh' < 256 -> hl' < 256 -> len' < 65536 ->
    ipv6 ip6 tc fl nh hl src dst len h = ipv6 ip6 tc' fl' nh' hl' src' dst' len' h ->
    (tc, fl, nh, hl, s, d, len) = (tc', fl', nh', hl', s', d', len')) /\
  (forall src dst seq ack doff res flags window chk urg src' dst' seq' ack' doff' res' flags' window' chk' urg' h,
    src < 65536 -> dst < 65536 -> seq < 2 ^ 32 -> ack < 2 ^ 32 -> doff < 16 -> res < 16 -> flags < 256 ->
    window < 65536 -> chk < 65536 -> urg < 65536 ->
    src' < 65536 -> dst' < 65536 -> seq' < 2 ^ 32 -> ack' < 2 ^ 32 -> doff' < 16 -> res' < 16 -> flags' < 256 ->
    window' < 65536 -> chk' < 65536 -> urg' < 65536 ->
    tcp src dst seq ack doff res flags window chk urg h = tcp src' dst' seq' ack' doff' res' flags' window' chk' urg' h ->
    (src, dst, seq, ack, doff, res, flags, window, chk, urg) =
    (src', dst', seq', ack', doff', res', flags', window', chk', urg')) /\
  (forall src dst len src' dst' len' h, src < 65536 -> dst < 65536 -> len < 65536 ->
    src' < 65536 -> dst' < 65536 -> len' < 65536 ->
    udp src dst len h = udp src' dst' len' h -> (src, dst, len) = (src', dst', len')) /\
  (forall vni vni' h, vni < 2 ^ 24 -> vni' < 2 ^ 24 -> vxlan vni h = vxlan vni' h -> vni = vni') /\
  (forall c r k q s flags ver proto c' r' k' q' s' flags' ver' proto' h,
    flags < 32 -> ver < 8 -> proto < 65536 -> flags' < 32 -> ver' < 8 -> proto' < 65536 ->
    gre c r k q s flags ver proto h = gre c' r' k' q' s' flags' ver' proto' h ->
    (c, r, k, q, s, flags, ver, proto) = (c', r', k', q', s', flags', ver', proto')) /\
  (forall vlan cos en t sid idx vlan' cos' en' t' sid' idx' h,
    vlan < 4096 -> cos < 8 -> en < 4 -> t < 2 -> sid < 1024 -> idx < 2 ^ 20 ->
    vlan' < 4096 -> cos' < 8 -> en' < 4 -> t' < 2 -> sid' < 1024 -> idx' < 2 ^ 20 ->
    erspan2 vlan cos en t sid idx h = erspan2 vlan' cos' en' t' sid' idx' h ->
    (vlan, cos, en, t, sid, idx) = (vlan', cos', en', t', sid', idx')).
Proof.
  assert (Q : forall x y, x < 65536 -> y < 65536 -> x / 8192 = y / 8192 -> x mod 8192 = y mod 8192 -> x = y).
  { intros x y _ _ A B. rewrite (N.div_mod x 8192), (N.div_mod y 8192) by discriminate. congruence. }
  assert (Bi : forall a b, b2n a = b2n b -> a = b) by (intros [] []; cbn; congruence).
  split; [|split; [|split; [|split; [|split; [|split; [|split]]]]]].
  - intros dst src et dst' src' et' d s d' s' h Hd Hs Hd' Hs' He He' E.
    pose proof (built_same _ _ _ _ _ _ (C24_ethernet dst src et d s h Hd Hs He)
      (C24_ethernet dst' src' et' d' s' h Hd' Hs' He') E) as M.
    cbn [map snd] in M. injection M as M1 M2 M3.
    rewrite (be_inj d d'), (be_inj s s'), M3; auto; try (eapply mac_ok; eauto);
      [rewrite (mac_len _ _ Hs), (mac_len _ _ Hs')|rewrite (mac_len _ _ Hd), (mac_len _ _ Hd')]; reflexivity.
  - intros m ihl tos id ttl frag proto src dst len m' ihl' tos' id' ttl' frag' proto' src' dst' len' s d s' d' h
      Hs Hd Hs' Hd' ? ? ? ? Hf ? ? ? ? ? ? Hf' ? ? E.
    destruct (C26_ipv4 m ihl tos id ttl frag proto src dst len s d h) as (b & c & E1 & _ & _ & F1 & _); auto.
    destruct (C26_ipv4 m' ihl' tos' id' ttl' frag' proto' src' dst' len' s' d' h) as (b' & c' & E2 & _ & _ & F2 & _); auto.
    rewrite E1, E2 in E. injection E as E. apply app_inv_head in E. injection E as <-.
    rewrite F1 in F2. injection F2 as -> -> -> -> G1 G2 -> -> _ G3 G4.
    rewrite (Q frag frag') by auto.
    rewrite (be_inj d d'), (be_inj s s'); auto; try (eapply ipv4_ok; eauto);
      [rewrite (ipv4_len _ _ Hs), (ipv4_len _ _ Hs')|rewrite (ipv4_len _ _ Hd), (ipv4_len _ _ Hd')]; reflexivity.
  - intros ip6 tc fl nh hl src dst len tc' fl' nh' hl' src' dst' len' s d s' d' h H6 Hs Hd Hs' Hd'
      ? ? ? ? ? ? ? ? ? ? E.
    assert (B1 : built (ipv6 ip6 tc fl nh hl src dst len h) h IPv6
      [4 # 6; 8 # tc; 20 # fl; 16 # len; 8 # nh; 8 # hl; 128 # (be s); 128 # (be d)]) by (apply C27_ipv6; auto).
    assert (B2 : built (ipv6 ip6 tc' fl' nh' hl' src' dst' len' h) h IPv6
      [4 # 6; 8 # tc'; 20 # fl'; 16 # len'; 8 # nh'; 8 # hl'; 128 # (be s'); 128 # (be d')]) by (apply C27_ipv6; auto).
    pose proof (built_same _ _ _ _ _ _ B1 B2 E) as M. cbn [map snd] in M.
    injection M as -> -> -> -> -> G1 G2.
    destruct (addr6_ok _ _ _ H6 Hs) as [? ?], (addr6_ok _ _ _ H6 Hs') as [? ?],
      (addr6_ok _ _ _ H6 Hd) as [? ?], (addr6_ok _ _ _ H6 Hd') as [? ?].
    rewrite (be_inj s s'), (be_inj d d') by (auto; congruence). reflexivity.
  - intros src dst seq ack doff res flags window chk urg src' dst' seq' ack' doff' res' flags' window' chk' urg' h
      ? ? ? ? ? ? ? ? ? ? ? ? ? ? ? ? ? ? ? ? E.
    assert (B1 : built (tcp src dst seq ack doff res flags window chk urg h) h TCP
      [16 # src; 16 # dst; 32 # seq; 32 # ack; 4 # doff; 4 # res; 8 # flags; 16 # window; 16 # chk; 16 # urg])
      by (apply C28_tcp; auto).
    assert (B2 : built (tcp src' dst' seq' ack' doff' res' flags' window' chk' urg' h) h TCP
      [16 # src'; 16 # dst'; 32 # seq'; 32 # ack'; 4 # doff'; 4 # res'; 8 # flags'; 16 # window'; 16 # chk'; 16 # urg'])
      by (apply C28_tcp; auto).
    pose proof (built_same _ _ _ _ _ _ B1 B2 E) as M. cbn [map snd] in M.
    injection M as -> -> -> -> -> -> -> -> -> ->. reflexivity.
  - intros src dst len src' dst' len' h ? ? ? ? ? ? E.
    assert (B1 : built (udp src dst len h) h UDP [16 # src; 16 # dst; 16 # len; 16 # 0]) by (apply C28_udp; auto).
    assert (B2 : built (udp src' dst' len' h) h UDP [16 # src'; 16 # dst'; 16 # len'; 16 # 0]) by (apply C28_udp; auto).
    pose proof (built_same _ _ _ _ _ _ B1 B2 E) as M. cbn [map snd] in M. injection M as -> -> ->. reflexivity.
  - intros vni vni' h H H' E.
    pose proof (built_same _ _ _ _ _ _ (C29_vxlan vni h H) (C29_vxlan vni' h H') E) as M.
    cbn [map snd] in M. injection M as ->. reflexivity.
  - intros c r k q s flags ver proto c' r' k' q' s' flags' ver' proto' h ? ? ? ? ? ? E.
    assert (B1 : built (gre c r k q s flags ver proto h) h GRE
      [1 # (b2n c); 1 # (b2n r); 1 # (b2n k); 1 # (b2n q); 1 # (b2n s); 3 # 0; 5 # flags; 3 # ver; 16 # proto])
      by (apply C29_gre; auto).
    assert (B2 : built (gre c' r' k' q' s' flags' ver' proto' h) h GRE
      [1 # (b2n c'); 1 # (b2n r'); 1 # (b2n k'); 1 # (b2n q'); 1 # (b2n s'); 3 # 0; 5 # flags'; 3 # ver'; 16 # proto'])
      by (apply C29_gre; auto).
    pose proof (built_same _ _ _ _ _ _ B1 B2 E) as M. cbn [map snd] in M.
    injection M as G1 G2 G3 G4 G5 -> -> ->.
    rewrite (Bi c c'), (Bi r r'), (Bi k k'), (Bi q q'), (Bi s s') by auto. reflexivity.
  - intros vlan cos en t sid idx vlan' cos' en' t' sid' idx' h ? ? ? ? ? ? ? ? ? ? ? ? E.
    assert (B1 : built (erspan2 vlan cos en t sid idx h) h ERSPAN2
      [4 # 1; 12 # vlan; 3 # cos; 2 # en; 1 # t; 10 # sid; 12 # 0; 20 # idx]) by (apply C30_erspan2; auto).
    assert (B2 : built (erspan2 vlan' cos' en' t' sid' idx' h) h ERSPAN2
      [4 # 1; 12 # vlan'; 3 # cos'; 2 # en'; 1 # t'; 10 # sid'; 12 # 0; 20 # idx']) by (apply C30_erspan2; auto).
    pose proof (built_same _ _ _ _ _ _ B1 B2 E) as M. cbn [map snd] in M.
    injection M as -> -> -> -> -> ->. reflexivity.
Qed.
Print Assumptions C89_lossless.

(** The other two are not: MPLS mixes its arguments up even in range, VLAN
    forgets cfi; and out of range nothing is. *)
Theorem C89_lossless_refuted :
  (forall ttl h, mpls 8 0 0 ttl h = mpls 0 1 0 ttl h) /\
  (forall label ttl h, label < 2 ^ 32 -> mpls label 0 0 ttl h = mpls (label mod 2 ^ 12) 0 0 ttl h) /\
  (forall pcp cfi vid etype h, vlan pcp cfi vid etype h = vlan pcp 0 vid etype h) /\
  (forall vni h, vxlan vni h = vxlan (vni mod 2 ^ 24) h) /\
  (forall m tos id ttl frag proto src dst len h,
     ipv4 m 0x45 tos id ttl frag proto src dst len h = ipv4 m 5 tos id ttl frag proto src dst len h) /\
  (forall src dst seq ack flags window chk urg h,
     tcp src dst seq ack 5 0 flags window chk urg h = tcp src dst seq ack 0 0x50 flags window chk urg h).
Proof.
  split; [intros; reflexivity|]. split.
  { intros label ttl h _. unfold mpls.
    assert (E : shl32 label 20 = shl32 (label mod 2 ^ 12) 20); [|rewrite E; reflexivity].
    unfold shl32, u32. rewrite !N.shiftl_mul_pow2. change (2 ^ 32) with (2 ^ 12 * 2 ^ 20).
    rewrite !N.mul_mod_distr_r by discriminate. rewrite N.mod_mod by discriminate. reflexivity. }
  split; [intros; reflexivity|]. split.
  { intros vni h. unfold vxlan.
    assert (E : shl32 vni 8 = shl32 (vni mod 2 ^ 24) 8); [|rewrite E; reflexivity].
    unfold shl32, u32. rewrite !N.shiftl_mul_pow2. change (2 ^ 32) with (2 ^ 24 * 2 ^ 8).
    rewrite !N.mul_mod_distr_r by discriminate. rewrite N.mod_mod by discriminate. reflexivity. }
  split; intros; reflexivity.
Qed.
Print Assumptions C89_lossless_refuted.

(** A data offset of 0x15 and a reserved value of 0x23: offset 5 or 2, reserved 3. *)
Example C89_example :
  N.lor (part 0x15 0 4) (part 0x23 4 4) = 7 /\ part 0x23 0 4 = 3 /\
  tcp 1 2 3 4 0x15 0x23 0 0 0 0 [] =
    (Ret (Hdr TCP 0), [Cell [0; 1; 0; 2; 0; 0; 0; 3; 0; 0; 0; 4; 0x73; 0; 0; 0; 0; 0; 0; 0] false]) /\
  er_cos 0 0 0 0xffff = 7 /\ er_en 0 3 0 = 1 /\ er_t 2 0 = 0 /\ er_en 0 2 0 = 1.
Proof. repeat split. Qed.
