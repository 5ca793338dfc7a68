(** PropAsk.v -- property C97: the bytes of a packet made by create_arp_packet or
    a transport-level builder say exactly what was asked for. *)

From Coq Require Import Lia.
From Verif Require Import Base Bits Types Layout Heap Packet Text Build Utils Slow Fast Client Spec Grammar
  BitsProofs HeapProofs TextProofs BuildProofs GrammarProofs PropBuild PropParse
  UtilsSpec UtilsProofs PropUtils AskSpec AskProofs.
Open Scope N_scope.

(** Two calls whose packets have the same bytes asked for the same: the same
    builder, addresses, tag, field values and payload. *)
Theorem C97_lossless : forall ip6 m m' c c' a a' h h' v, octets16 ip6 -> asks ip6 c a -> asks ip6 c' a' ->
  sends m ip6 c h v -> sends m' ip6 c' h' v -> a = a'.
Proof.
  intros ip6 m m' c c' a a' h h' v H6 A A' (p & g & R & V) (p' & g' & R' & V').
  destruct (asks_sends m ip6 c a h H6 A) as (q & k & S & W).
  destruct (asks_sends m' ip6 c' a' h' H6 A') as (q' & k' & S' & W').
  rewrite R in S. injection S as <- <-. rewrite V in W. injection W as ->.
  rewrite R' in S'. injection S' as <- <-. rewrite V' in W'. injection W' as E.
  exact (frame_inj ip6 c c' a a' H6 A A' E).
Qed.
Print Assumptions C97_lossless.

(** And the bytes depend on nothing else: not on the spelling of the addresses,
    on unused VLAN arguments, on the build mode or on the heap. *)
Theorem C97_same : forall ip6 c a, octets16 ip6 -> asks ip6 c a ->
  exists v, forall m c' h, asks ip6 c' a -> sends m ip6 c' h v.
Proof. intros ip6 c a H6 _. exists (frame_of a). intros m c' h A. apply asks_sends; auto. Qed.
Print Assumptions C97_same.

(** ** The builder of a lower layer can make the same bytes *)

Lemma sends_made m ip6 c h l pl v : sends m ip6 c h v -> pmake_run m ip6 c h = made h l pl -> v = seg_bytes l ++ pl.
Proof.
  intros (p & g & R & V) E. rewrite R in E. unfold made in E. injection E as -> ->. rewrite made_vec in V. congruence.
Qed.
Ltac same_bytes :=
  rewrite ?seg_bytes_app; unfold seg_bytes; cbn [map snd concat];
  rewrite ?app_nil_r, <- ?app_assoc; reflexivity.

Theorem C97_layers : forall ip6, octets16 ip6 ->
  (forall e q opcode smac tmac sip tip pl sm tm si ti,
     asks ip6 (P_arp e opcode smac tmac sip tip pl) (Q_arp q opcode sm tm si ti pl) ->
     exists x, length x = 28%nat /\ forall m h v,
       sends m ip6 (P_arp e opcode smac tmac sip tip pl) h v -> sends m ip6 (P_eth e 0x0806 (x ++ pl)) h v) /\
  (forall e i l pl d s a b, eth_in e d s -> ip4_in i a b -> l4_fit l ->
     exists x y, length x = 20%nat /\ length y = match l with L_tcp _ => 20 | L_udp _ _ => 8 | L_icmp _ _ => 4 end%nat /\
     forall m h v, sends m ip6 (over4 e i l pl) h v ->
       sends m ip6 (P_ipv4 e i match l with L_tcp _ => 6 | L_udp _ _ => 17 | L_icmp _ _ => 1 end (y ++ pl)) h v /\
       sends m ip6 (P_eth e 0x0800 (x ++ y ++ pl)) h v) /\
  (forall e i l pl d s a b, eth_in e d s -> ip6_in i ip6 a b -> l4_fit l ->
     exists x y, length x = 40%nat /\ length y = match l with L_tcp _ => 20 | L_udp _ _ => 8 | L_icmp _ _ => 4 end%nat /\
     forall m h v, sends m ip6 (over6 e i l pl) h v ->
       sends m ip6 (P_ipv6 e i match l with L_tcp _ => 6 | L_udp _ _ => 17 | L_icmp _ _ => 58 end (y ++ pl)) h v /\
       sends m ip6 (P_eth e 0x86DD (x ++ y ++ pl)) h v).
Proof.
  intros ip6 H6. split; [|split].
  - intros e q opcode smac tmac sip tip pl sm tm si ti A. inversion A as [e0 q0 op0 ? ? ? ? ? ? ? ? pl0 He Ho Hsm Htm Hsi Hti| |]; subst.
    pose proof (eth_asks_in _ _ He) as J. exists (arp_bytes opcode sm si tm ti). split.
    { unfold arp_bytes. rewrite !app_length, (mac_len _ _ Hsm), (mac_len _ _ Htm), (ipv4_len _ _ Hsi), (ipv4_len _ _ Hti). reflexivity. }
    intros m h v S.
    rewrite (sends_made _ _ _ _ _ _ _ S (arp_run e _ _ pl h J opcode smac tmac sip tip sm si tm ti Hsm Hsi Htm Hti)).
    eapply made_sends; [apply (eth_run e 0x806 _ _ _ h (proj1 J) (proj1 (proj2 J)))|]. same_bytes.
  - intros e i l pl d s a b He Hi Hl.
    exists (ip4h i (proto4 l) a b (20 + length pl + l4_size l)), (l4_of l (length pl) 0).
    assert (Ly : length (l4_of l (length pl) 0) = l4_size l) by (destruct l; reflexivity).
    split; [eapply ip4h_length; eauto; eapply ipv4_len; apply Hi|].
    split; [destruct l; reflexivity|]. intros m h v S.
    assert (V : v = seg_bytes (eth_segs e d s 0x800) ++ ip4h i (proto4 l) a b (20 + length pl + l4_size l) ++ l4_of l (length pl) 0 ++ pl).
    { destruct l as [t|dst src|ty code]; cbn [over4] in S;
        [rewrite (sends_made _ _ _ _ _ _ _ S (tcp_run m e d s pl h He i a b Hi t))
        |rewrite (sends_made _ _ _ _ _ _ _ S (udp_run m e d s pl h He i a b Hi dst src))
        |rewrite (sends_made _ _ _ _ _ _ _ S (icmp_run m e d s pl h He i a b Hi ty code))]; same_bytes. }
    rewrite V. split.
    + eapply made_sends; [apply (ipv4_packet_run m e i (proto4 l) _ d s a b h He Hi (proto4_byte l))|].
      rewrite app_length, Ly. replace (20 + (l4_size l + length pl))%nat with (20 + length pl + l4_size l)%nat by lia.
      same_bytes.
    + eapply made_sends; [apply (eth_run e 0x800 _ _ _ h (proj1 He) (proj1 (proj2 He)))|]. same_bytes.
  - intros e i l pl d s a b He Hi Hl.
    exists (ip6h i (proto6 l) a b (length pl + l4_size l)), (l4_of l (length pl) 0xffff).
    assert (Ly : length (l4_of l (length pl) 0xffff) = l4_size l) by (destruct l; reflexivity).
    split.
    { destruct Hi as (_ & Ha & Hb & _). unfold ip6h. rewrite ip6b_length; [reflexivity|apply (addr6_ok _ _ _ H6 Ha)|apply (addr6_ok _ _ _ H6 Hb)]. }
    split; [destruct l; reflexivity|]. intros m h v S.
    assert (V : v = seg_bytes (eth_segs e d s 0x86DD) ++ ip6h i (proto6 l) a b (length pl + l4_size l) ++ l4_of l (length pl) 0xffff ++ pl).
    { destruct l as [t|dst src|ty code]; cbn [over6] in S;
        [rewrite (sends_made _ _ _ _ _ _ _ S (tcpv6_run m e d s pl h He ip6 i a b Hi t))
        |rewrite (sends_made _ _ _ _ _ _ _ S (udpv6_run m e d s pl h He ip6 i a b Hi dst src))
        |rewrite (sends_made _ _ _ _ _ _ _ S (icmpv6_run m e d s pl h He ip6 i a b Hi ty code))]; same_bytes. }
    rewrite V. split.
    + eapply made_sends; [apply (ipv6_packet_run ip6 e i (proto6 l) _ d s a b h He Hi (proto6_byte l))|].
      rewrite app_length, Ly, (Nat.add_comm (l4_size l)). same_bytes.
    + eapply made_sends; [apply (eth_run e 0x86DD _ _ _ h (proj1 He) (proj1 (proj2 He)))|]. same_bytes.
Qed.
Print Assumptions C97_layers.

(** ** Examples, and what is lost when values do not fit *)

Definition exq : eth_ask := EthQ [0; 17; 34; 51; 68; 85] [10; 11; 12; 13; 14; 15] (Some (5, 100)).
Definition none6 (s : string) : option (list N) := None.
Lemma none6_ok : octets16 none6.
Proof. intros s o E. discriminate E. Qed.

(** The request of [ex_eth], [ex_ip4], [ex_tcp], also when it is spelled
    differently; a changed sequence number is another request. *)
Example C97_example :
  asks none6 (P_tcp4 ex_eth ex_ip4 ex_tcp [1; 2; 3])
    (Q_ip4 exq [10; 0; 0; 1] [192; 168; 1; 2] 5 0 64 7 0x4000 (L_tcp ex_tcp) [1; 2; 3]) /\
  asks none6 (P_tcp4 (EthA "0:11:22:33:44:55" "0A:0b:C:0d:e:F" true 100 5) (Ip4A 5 "010.0.0.1" "192.168.001.2" 0 64 7 0x4000) ex_tcp [1; 2; 3])
    (Q_ip4 exq [10; 0; 0; 1] [192; 168; 1; 2] 5 0 64 7 0x4000 (L_tcp ex_tcp) [1; 2; 3]) /\
  (exists v, sends Debug none6 (P_tcp4 ex_eth ex_ip4 ex_tcp [1; 2; 3]) [] v /\
     sends Release none6 (P_tcp4 (EthA "0:11:22:33:44:55" "0A:0b:C:0d:e:F" true 100 5) (Ip4A 5 "010.0.0.1" "192.168.001.2" 0 64 7 0x4000) ex_tcp [1; 2; 3]) [] v /\
     length v = 61%nat) /\
  (forall v, sends Debug none6 (P_tcp4 ex_eth ex_ip4 ex_tcp [1; 2; 3]) [] v ->
     ~ sends Debug none6 (P_tcp4 ex_eth ex_ip4 (TcpA 80 1234 7 2 5 0 2 100 0) [1; 2; 3]) [] v).
Proof.
  assert (A : forall t, l4_fit (L_tcp t) -> asks none6 (P_tcp4 ex_eth ex_ip4 t [1; 2; 3])
    (Q_ip4 exq [10; 0; 0; 1] [192; 168; 1; 2] 5 0 64 7 0x4000 (L_tcp t) [1; 2; 3])).
  { intros t F. apply (asks_ip4 none6 ex_eth exq ex_ip4 _ _ (L_tcp t)); try reflexivity; try apply ex_ip4_in; auto.
    destruct ex_eth_in as (X & Y & Z & W). repeat split; auto; try apply X; try apply Y. }
  assert (B : asks none6 (P_tcp4 (EthA "0:11:22:33:44:55" "0A:0b:C:0d:e:F" true 100 5) (Ip4A 5 "010.0.0.1" "192.168.001.2" 0 64 7 0x4000) ex_tcp [1; 2; 3])
    (Q_ip4 exq [10; 0; 0; 1] [192; 168; 1; 2] 5 0 64 7 0x4000 (L_tcp ex_tcp) [1; 2; 3])).
  { apply (asks_ip4 none6 (EthA "0:11:22:33:44:55" "0A:0b:C:0d:e:F" true 100 5) exq
      (Ip4A 5 "010.0.0.1" "192.168.001.2" 0 64 7 0x4000) _ _ (L_tcp ex_tcp)); try reflexivity;
      try (apply ipv4_ret; reflexivity); [|repeat split; reflexivity].
    split; [apply mac_ret; reflexivity|]. split; [apply mac_ret; reflexivity|]. repeat split; reflexivity. }
  split; [apply A; repeat split; reflexivity|]. split; [exact B|]. split.
  - eexists. split; [do 2 eexists; split; vm_compute; reflexivity|].
    split; [do 2 eexists; split; vm_compute; reflexivity|]. reflexivity.
  - intros v S S'.
    assert (E := C97_lossless none6 Debug Debug _ _ _ _ [] [] v none6_ok (A ex_tcp ltac:(repeat split; reflexivity))
      (A (TcpA 80 1234 7 2 5 0 2 100 0) ltac:(repeat split; reflexivity)) S S').
    discriminate E.
Qed.

(** Values wider than their fields: different requests, the same bytes. A VLAN
    id of 0x2064 is priority 1; a data offset can be given as reserved bits; the
    flow label spills into the traffic class. *)
Theorem C97_refuted : forall m h d s a b,
  let e pcp vid := EthA d s true vid pcp in
  let i6 tc fl := Ip6A tc fl 64 a b in
  let t off res := TcpA 80 1234 1 2 off res 2 100 0 in
  mac_text d (q_dst exq) -> mac_text s (q_src exq) ->
  (exists v, sends m none6 (P_arp (e 0 0x2064) 1 d s "1.2.3.4" "5.6.7.8" []) h v /\
             sends m none6 (P_arp (e 1 0x64) 1 d s "1.2.3.4" "5.6.7.8" []) h v) /\
  (exists v, sends m none6 (P_tcp6 (e 0 1) (i6 0 0) (t 5 0) []) h v /\
             sends m none6 (P_tcp6 (e 0 1) (i6 0 0) (t 0 0x50) []) h v) /\
  (exists v, sends m none6 (P_icmp6 (e 0 1) (i6 0 0x500000) 8 0 []) h v /\
             sends m none6 (P_icmp6 (e 0 1) (i6 5 0) 8 0 []) h v).
Proof.
  intros m h d s a b e i6 t Hd Hs.
  assert (I : forall pcp vid, pcp < 256 -> vid < 65536 -> eth_in (e pcp vid) (q_dst exq) (q_src exq))
    by (intros; repeat split; auto; try apply Hd; try apply Hs).
  assert (J : forall tc fl, tc < 256 -> fl < 2 ^ 32 -> ip6_in (i6 tc fl) none6 (repeat 0 16) (repeat 0 16))
    by (intros tc fl X Y; split; [exact none6_ok|]; split; [right; auto|]; split; [right; auto|]; repeat split; auto).
  assert (P1 : ipv4_text "1.2.3.4" [1; 2; 3; 4]) by (apply ipv4_ret; reflexivity).
  assert (P2 : ipv4_text "5.6.7.8" [5; 6; 7; 8]) by (apply ipv4_ret; reflexivity).
  split; [|split].
  - eexists. split.
    + eapply made_sends; [apply (arp_run (e 0 0x2064) _ _ [] h (I 0 0x2064 eq_refl eq_refl) 1 d s _ _ _ _ _ _ Hd P1 Hs P2)|reflexivity].
    + eapply made_sends; [apply (arp_run (e 1 0x64) _ _ [] h (I 1 0x64 eq_refl eq_refl) 1 d s _ _ _ _ _ _ Hd P1 Hs P2)|vm_compute; reflexivity].
  - eexists. split.
    + eapply made_sends; [apply (tcpv6_run m (e 0 1) _ _ [] h (I 0 1 eq_refl eq_refl) none6 (i6 0 0) _ _ (J 0 0 eq_refl eq_refl) (t 5 0))|reflexivity].
    + eapply made_sends; [apply (tcpv6_run m (e 0 1) _ _ [] h (I 0 1 eq_refl eq_refl) none6 (i6 0 0) _ _ (J 0 0 eq_refl eq_refl) (t 0 0x50))|vm_compute; reflexivity].
  - eexists. split.
    + eapply made_sends; [apply (icmpv6_run m (e 0 1) _ _ [] h (I 0 1 eq_refl eq_refl) none6 (i6 0 0x500000) _ _ (J 0 0x500000 eq_refl eq_refl) 8 0)|reflexivity].
    + eapply made_sends; [apply (icmpv6_run m (e 0 1) _ _ [] h (I 0 1 eq_refl eq_refl) none6 (i6 5 0) _ _ (J 5 0 eq_refl eq_refl) 8 0)|vm_compute; reflexivity].
Qed.
Print Assumptions C97_refuted.
