(** PropWrap.v -- property C98: the bytes of a tunnel packet say what the tunnel
    builder was asked for, down to the bytes of the inner packet. *)

From Coq Require Import Lia.
From Verif Require Import Base Bits Types Layout Heap Packet Text Build Utils Slow Fast Client Spec Grammar
  BitsProofs HeapProofs TextProofs BuildProofs GrammarProofs PropBuild PropParse
  UtilsSpec UtilsProofs PropUtils PropTunnel AskSpec AskProofs PropAsk WrapSpec WrapProofs.
Open Scope N_scope.

(** Two calls, perhaps of different builders, in different heaps and build
    modes: the same bytes only for the same tunnel. *)
Theorem C98_lossless : forall ip6 m m' c c' t t' h h' v, octets16 ip6 -> wraps ip6 h c t -> wraps ip6 h' c' t' ->
  sends m ip6 c h v -> sends m' ip6 c' h' v -> t = t'.
Proof.
  intros ip6 m m' c c' t t' h h' v H6 W W' S S'.
  apply (form_inj ip6 t t' v H6); eauto using wraps_ok, wraps_form.
Qed.
Print Assumptions C98_lossless.

(** Nor are they the bytes of a packet of C97, but for VXLAN over IPv6 around a
    packet without header bytes (or with 65536 and so on): create_udpv6_packet makes
    the same of the VXLAN header and the inner bytes. Over IPv4 the outdated
    checksum tells VXLAN from UDP. *)
Theorem C98_apart : forall ip6 m m' c a c' t h h' v, octets16 ip6 -> asks ip6 c a -> wraps ip6 h' c' t ->
  sends m ip6 c h v -> sends m' ip6 c' h' v ->
  exists q s d tc fl hop dst src pl vni w x hs, a = Q_ip6 q s d tc fl hop (L_udp dst src) pl /\
    t = T_6 q (Ip6Q s d tc fl hop) (I_vxlan dst src vni w) /\
    diagram x (vxlan_fields vni) /\ pl = x ++ hs ++ w /\ N.of_nat (length hs) mod 65536 = 0.
Proof.
  intros ip6 m m' c a c' t h h' v H6 A W S S'.
  destruct (apart ip6 m m' c a c' t h h' v H6 A W S S') as (q & s & d & tc & fl & hop & dst & src & pl & vni & w & hs & E1 & E2 & E3 & E4).
  exists q, s, d, tc, fl, hop, dst, src, pl, vni, w, (vxlan_bytes vni), hs. repeat (split; [assumption || apply vxlan_diagram|]). auto.
Qed.
Print Assumptions C98_apart.

(** ** An example *)

Definition exv : ip4_ask := Ip4Q [10; 0; 0; 1] [192; 168; 1; 2] 5 0 64 7 0x4000.
Lemma ex_eth_asks : eth_asks ex_eth exq.
Proof. destruct ex_eth_in as (X & Y & Z & W). repeat split; auto; try apply X; try apply Y. Qed.
Lemma ex_ip4_asks : ip4_asks ex_ip4 exv.
Proof. destruct ex_ip4_in as (X & Y & _). repeat split; auto; try apply X; try apply Y; reflexivity. Qed.
(** The packet of PropTunnel.v with two payload bytes changed. *)
Definition ex_other : packet := Pkt [Hdr IPv4 0; Hdr TCP 1] [7; 8].

(** IP in IP, VXLAN, GRE with all options and ERSPAN II around one packet: all
    are sent, and no bytes are sent for two of them or for another inner packet. *)
Example C98_example : forall m,
  let ipip p := P_ipv4ip ex_eth ex_ip4 p in
  let vx p := P_vxlan ex_eth ex_ip4 4789 1000 77 p in
  let gr p := P_gre_pkt ex_eth ex_ip4 (ex_gre false) (Some p) in
  let er p := P_erspan2 ex_eth ex_ip4 5 (ErA 100 1 2 1 33) 4 (Some p) in
  (forall c, In c [ipip; vx; gr; er] -> exists v, sends m none6 (c ex_inner) ex_inner_heap v) /\
  (forall c c' v, In c [ipip; vx; gr; er] -> In c' [ipip; vx; gr; er] ->
     sends m none6 (c ex_inner) ex_inner_heap v -> ~ sends m none6 (c' ex_other) ex_inner_heap v) /\
  (forall v, sends m none6 (ipip ex_inner) ex_inner_heap v -> ~ sends m none6 (vx ex_inner) ex_inner_heap v) /\
  (forall v, sends m none6 (gr ex_inner) ex_inner_heap v -> ~ sends m none6 (er ex_inner) ex_inner_heap v).
Proof.
  intros m ipip vx gr er.
  assert (V : to_vec ex_inner ex_inner_heap = (Ret (0x45 :: repeat 0 8 ++ [6] ++ repeat 0 10 ++ repeat 9 20 ++ [7; 7]), ex_inner_heap)) by reflexivity.
  assert (V' : to_vec ex_other ex_inner_heap = (Ret (0x45 :: repeat 0 8 ++ [6] ++ repeat 0 10 ++ repeat 9 20 ++ [7; 8]), ex_inner_heap)) by reflexivity.
  assert (W : forall p w b, to_vec p ex_inner_heap = (Ret (b :: w), ex_inner_heap) -> bytes_ok (b :: w) ->
    wraps none6 ex_inner_heap (ipip p) (T_4 exq exv (I_ip (b :: w))) /\
    wraps none6 ex_inner_heap (vx p) (T_4 exq exv (I_vxlan 4789 1000 77 (b :: w))) /\
    wraps none6 ex_inner_heap (gr p) (T_4 exq exv (I_gre true false true true false 0 0 (Some (7, 8)) (Some 9) (Some 10) (b :: w))) /\
    wraps none6 ex_inner_heap (er p) (T_4 exq exv (I_erspan 5 (ErA 100 1 2 1 33) 4 (b :: w)))).
  { intros p w b P O. split; [|split; [|split]].
    - apply wraps_ipip; auto using ex_eth_asks, ex_ip4_asks. discriminate.
    - apply wraps_vxlan; auto using ex_eth_asks, ex_ip4_asks; reflexivity.
    - apply (wraps_gre none6 _ ex_eth exq ex_ip4 exv (ex_gre false) (Some p)); auto using ex_eth_asks, ex_ip4_asks; try reflexivity. discriminate.
    - apply (wraps_erspan none6 _ ex_eth exq ex_ip4 exv 5 _ 4 (Some p)); auto using ex_eth_asks, ex_ip4_asks; try reflexivity.
      repeat split; reflexivity. }
  assert (O : forall z, z < 256 -> bytes_ok (0x45 :: repeat 0 8 ++ [6] ++ repeat 0 10 ++ repeat 9 20 ++ [7; z]))
    by (intros z Z; repeat constructor; auto).
  pose proof (W _ _ _ V (O 7 eq_refl)) as (A1 & A2 & A3 & A4). pose proof (W _ _ _ V' (O 8 eq_refl)) as (B1 & B2 & B3 & B4).
  split; [|split; [|split]].
  - intros c [<-|[<-|[<-|[<-|[]]]]]; do 3 eexists; split; destruct m; vm_compute; reflexivity.
  - intros c c' v I I' S S'.
    destruct I as [<-|[<-|[<-|[<-|[]]]]], I' as [<-|[<-|[<-|[<-|[]]]]];
      match goal with W1 : wraps _ _ ?a _, W2 : wraps _ _ ?b _, S1 : sends _ _ ?a _ _, S2 : sends _ _ ?b _ _ |- _ =>
        pose proof (C98_lossless none6 m m _ _ _ _ _ _ v none6_ok W1 W2 S S') as E end; discriminate E.
  - intros v S S'. pose proof (C98_lossless none6 m m _ _ _ _ _ _ v none6_ok A1 A2 S S') as E. discriminate E.
  - intros v S S'. pose proof (C98_lossless none6 m m _ _ _ _ _ _ v none6_ok A3 A4 S S') as E. discriminate E.
Qed.

(** The same over IPv6. *)
Example C98_example6 : forall m,
  let ipip p := P_ipv6ip ex_eth ex_ip6 p in
  let vx p := P_vxlan6 ex_eth ex_ip6 4789 1000 77 p in
  (forall c, In c [ipip; vx] -> exists v, sends m ex_parse6 (c ex_inner) ex_inner_heap v) /\
  (forall c c' v, In c [ipip; vx] -> In c' [ipip; vx] ->
     sends m ex_parse6 (c ex_inner) ex_inner_heap v -> ~ sends m ex_parse6 (c' ex_other) ex_inner_heap v).
Proof.
  intros m ipip vx. destruct ex_ip6_in as (H6 & X & Y & _).
  assert (J : ip6_asks ex_parse6 ex_ip6 (Ip6Q (repeat 0 15 ++ [1]) (repeat 0 16) 3 0xABCDE 64)) by (repeat split; auto).
  assert (W : forall z p, z < 256 -> to_vec p ex_inner_heap = (Ret (0x45 :: repeat 0 8 ++ [6] ++ repeat 0 10 ++ repeat 9 20 ++ [7; z]), ex_inner_heap) ->
    wraps ex_parse6 ex_inner_heap (ipip p) (T_6 exq (Ip6Q (repeat 0 15 ++ [1]) (repeat 0 16) 3 0xABCDE 64)
      (I_ip (0x45 :: repeat 0 8 ++ [6] ++ repeat 0 10 ++ repeat 9 20 ++ [7; z]))) /\
    wraps ex_parse6 ex_inner_heap (vx p) (T_6 exq (Ip6Q (repeat 0 15 ++ [1]) (repeat 0 16) 3 0xABCDE 64)
      (I_vxlan 4789 1000 77 (0x45 :: repeat 0 8 ++ [6] ++ repeat 0 10 ++ repeat 9 20 ++ [7; z])))).
  { intros z p Z P. split.
    - apply wraps_ip6ip; auto using ex_eth_asks; [discriminate|repeat constructor; auto].
    - apply wraps_vxlan6; auto using ex_eth_asks; reflexivity. }
  pose proof (W 7 ex_inner eq_refl eq_refl) as (A1 & A2). pose proof (W 8 ex_other eq_refl eq_refl) as (B1 & B2).
  split.
  - intros c [<-|[<-|[]]]; do 3 eexists; split; destruct m; vm_compute; reflexivity.
  - intros c c' v I I' S S'.
    destruct I as [<-|[<-|[]]], I' as [<-|[<-|[]]];
      match goal with W1 : wraps _ _ ?a _, W2 : wraps _ _ ?b _, S1 : sends _ _ ?a _ _, S2 : sends _ _ ?b _ _ |- _ =>
        pose proof (C98_lossless ex_parse6 m m _ _ _ _ _ _ v H6 W1 W2 S S') as E end; discriminate E.
Qed.

(** UDP over IPv6 with a VXLAN header as payload, and VXLAN around a packet that
    is only payload. *)
Example C98_apart_example : forall m, exists v,
  sends m ex_parse6 (P_udp6 ex_eth ex_ip6 4789 1000 ([8; 0; 0; 0; 0; 0; 77; 0] ++ [1; 2; 3])) [] v /\
  sends m ex_parse6 (P_vxlan6 ex_eth ex_ip6 4789 1000 77 (Pkt [] [1; 2; 3])) [] v.
Proof.
  intros m. eexists. split; do 2 eexists; split; [destruct m; vm_compute; reflexivity|vm_compute; reflexivity|destruct m; vm_compute; reflexivity|vm_compute; reflexivity].
Qed.

(** ** What is lost *)

(** create_erspan_3_packet stores the sequence number itself in the S bit, so an
    even one is sent without being announced. Then the same bytes come from
    sequence number 0x20000000 around an LLC header and from no sequence number,
    another timestamp and a SNAP header, every value being in range. *)
Definition ex_llc : packet := Pkt [Hdr LLC 0] [].
Definition ex_snap : packet := Pkt [Hdr SNAP 1] [].
Definition ex_link_heap : heap := [Cell (repeat 0 3) false; Cell (repeat 0 5) false].
Definition er0 : erspan_args := ErA 0 0 0 0 0.

Theorem C98_erspan3_refuted : forall m, exists v,
  sends m none6 (P_erspan3 ex_eth ex_ip4 0x20000000 er0 0 0 0 0 0 (Some ex_llc)) ex_link_heap v /\
  sends m none6 (P_erspan3 ex_eth ex_ip4 0 er0 0x20000000 0 0 0 0 (Some ex_snap)) ex_link_heap v /\
  to_vec ex_llc ex_link_heap = (Ret [0; 0; 0], ex_link_heap) /\
  to_vec ex_snap ex_link_heap = (Ret [0; 0; 0; 0; 0], ex_link_heap).
Proof.
  intros m. eexists. split; [do 2 eexists; split; [destruct m; vm_compute; reflexivity|vm_compute; reflexivity]|].
  split; [do 2 eexists; split; [destruct m; vm_compute; reflexivity|vm_compute; reflexivity]|]. split; reflexivity.
Qed.
Print Assumptions C98_erspan3_refuted.

(** Routing bytes are never sent; a VNI of more than 24 bits loses its top byte. *)
Theorem C98_values_refuted : forall m,
  (exists v, sends m none6 (P_gre_pkt ex_eth ex_ip4 (GreA false true false false false 0 0 0 0 0 0 [1; 2; 3]) (Some ex_inner)) ex_inner_heap v /\
             sends m none6 (P_gre_pkt ex_eth ex_ip4 (GreA false true false false false 0 0 0 0 0 0 [4; 5; 6]) (Some ex_inner)) ex_inner_heap v) /\
  (exists v, sends m none6 (P_vxlan ex_eth ex_ip4 4789 1000 0x1000007 ex_inner) ex_inner_heap v /\
             sends m none6 (P_vxlan ex_eth ex_ip4 4789 1000 7 ex_inner) ex_inner_heap v).
Proof.
  intros m. split; eexists; (split; do 2 eexists; split; [destruct m; vm_compute; reflexivity|vm_compute; reflexivity|destruct m; vm_compute; reflexivity|vm_compute; reflexivity]).
Qed.
Print Assumptions C98_values_refuted.
