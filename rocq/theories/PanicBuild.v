(** PanicBuild.v -- proofs for PropPanic.v: the faults of the header and packet constructors. *)

From Coq Require Import Lia.
From Verif Require Import Base Bits Types Layout Heap Packet Text Build Utils Slow Fast Show Ops Client Spec Grammar
  ClientSpec UtilsSpec PanicSpec BitsProofs HeapProofs TextProofs BuildProofs PropText PropBuild UtilsProofs PropUtils
  PanicProofs.
Open Scope N_scope.

(** ** Texts *)

Lemma mac_not_long s b : mac_text s b -> ~ mac_long s.
Proof. intros H L. apply C22_mac in H. apply C22_mac_panics in L. congruence. Qed.
Lemma ip4_not_long s b : ipv4_text s b -> ~ ip4_long s.
Proof. intros H L. apply C23_ipv4 in H. apply C23_ipv4_panics in L. congruence. Qed.
Lemma mac_faults s h : faults (lift (to_mac_bytes s) h) (fun e => mac_long s /\ e = PIndex).
Proof.
  destruct (mac_cases s) as [[b H]|L].
  - pose proof (mac_not_long _ _ H). apply C22_mac in H. unfold lift. rewrite H. apply faults_ret. tauto.
  - pose proof (proj2 (C22_mac_panics s) L) as E. unfold lift. rewrite E. apply faults_panic. tauto.
Qed.
Lemma ip4_faults s h : faults (lift (to_ipv4_bytes s) h) (fun e => ip4_long s /\ e = PIndex).
Proof.
  destruct (ip4_cases s) as [[b H]|L].
  - pose proof (ip4_not_long _ _ H). apply C23_ipv4 in H. unfold lift. rewrite H. apply faults_ret. tauto.
  - pose proof (proj2 (C23_ipv4_panics s) L) as E. unfold lift. rewrite E. apply faults_panic. tauto.
Qed.

(** ** Headers *)

(** [r] panics with an index out of range exactly if [bad]. *)
Definition fails {A} (r : out A * heap) (bad : Prop) : Prop :=
  (bad /\ exists h', r = (Panic PIndex, h')) \/ (~ bad /\ exists a h', r = (Ret a, h')).
Lemma fails_faults {A} (r : out A * heap) bad : fails r bad -> faults r (fun e => bad /\ e = PIndex).
Proof.
  intros [[B (h' & ->)]|[B (a & h' & ->)]].
  - apply faults_panic. tauto.
  - apply faults_ret. tauto.
Qed.
Lemma fails_no {A} (r : out A * heap) a h' (bad : Prop) : ~ bad -> r = (Ret a, h') -> fails r bad.
Proof. intros B E. right. eauto. Qed.
Lemma fails_yes {A} (r : out A * heap) h' (bad : Prop) : bad -> r = (Panic PIndex, h') -> fails r bad.
Proof. intros B E. left. eauto. Qed.

Lemma ethernet_fails d s n h : fails (ethernet d s n h) (mac_long d \/ mac_long s) /\
  fails (dot3 d s n h) (mac_long d \/ mac_long s).
Proof.
  destruct (mac_cases d) as [[a Ha]|L]; [destruct (mac_cases s) as [[b Hb]|L]|].
  2,3: split; (eapply fails_yes; [auto|]); apply C24_panics; auto.
  pose proof (mac_not_long _ _ Ha). pose proof (mac_not_long _ _ Hb). apply C22_mac in Ha, Hb.
  split; (eapply fails_no; [tauto|]); unfold ethernet, dot3, bind, lift; rewrite Ha, Hb; apply hfrom_run.
Qed.

Lemma arp_fails o sm tm si ti h :
  fails (arp o sm tm si ti h) (mac_long sm \/ mac_long tm \/ ip4_long si \/ ip4_long ti).
Proof.
  destruct (mac_cases sm) as [[a Ha]|L]; [destruct (mac_cases tm) as [[b Hb]|L];
    [destruct (ip4_cases si) as [[c Hc]|L]; [destruct (ip4_cases ti) as [[g Hg]|L]|]|]|].
  2-5: (eapply fails_yes; [auto|]); apply C24_arp_panics; eauto 6.
  pose proof (mac_not_long _ _ Ha). pose proof (mac_not_long _ _ Hb). pose proof (ip4_not_long _ _ Hc).
  pose proof (ip4_not_long _ _ Hg). eapply fails_no; [tauto|]. eapply builds_arp; eauto.
Qed.

Lemma ipv4_fails m ihl tos id ttl frag proto s d n h : ihl < 256 -> tos < 256 -> ttl < 256 -> proto < 256 ->
  fails (ipv4 m ihl tos id ttl frag proto s d n h) (ip4_long s \/ ip4_long d).
Proof.
  intros. destruct (ip4_cases s) as [[a Ha]|L]; [destruct (ip4_cases d) as [[b Hb]|L]|].
  2,3: (eapply fails_yes; [auto|]); apply C26_panics; auto.
  pose proof (ip4_not_long _ _ Ha). pose proof (ip4_not_long _ _ Hb). eapply fails_no; [tauto|].
  eapply builds_ipv4; eauto.
Qed.

Lemma hmake_faults m ip6 b h : hmake_t b -> faults (hmake_run m ip6 b h) (hmake_fault b).
Proof.
  intros T. destruct b; cbn [hmake_run]; unfold hmake_fault;
    try (apply faults_ret; intros e X; destruct (proj1 X); fail).
  - apply fails_faults, ethernet_fails.
  - apply fails_faults, ethernet_fails.
  - apply fails_faults, arp_fails.
  - rewrite builds_vlan. apply faults_ret. intros e X. destruct (proj1 X).
  - cbn [hmake_t] in T. destruct T as (? & ? & ? & ? & ? & ? & ?). apply fails_faults, ipv4_fails; auto.
Qed.

(** ** Packets *)

Lemma eth_in_cases e : eth_t e -> (eth_long e /\ bad_mac e) \/ (~ eth_long e /\ exists d s, eth_in e d s).
Proof.
  intros [V P]. destruct (eth_cases e) as [B|(d & s & Hd & Hs)]; [left; split; [exact B|exact B]|].
  right. split; [|exists d, s; split; auto].
  intros [L|L]; [exact (mac_not_long _ _ Hd L)|exact (mac_not_long _ _ Hs L)].
Qed.
Lemma ip4_in_cases i : ip4_t i -> (ip_long i /\ bad_ip4 i) \/ (~ ip_long i /\ exists a b, ip4_in i a b).
Proof.
  intros (? & ? & ? & ? & ?). destruct (ip4_cases (ip_src i)) as [[a Ha]|L]; [|left; split; left; auto].
  destruct (ip4_cases (ip_dst i)) as [[b Hb]|L]; [|left; split; right; auto].
  right. split; [|exists a, b; repeat split; auto].
  intros [L|L]; [exact (ip4_not_long _ _ Ha L)|exact (ip4_not_long _ _ Hb L)].
Qed.
Lemma addr6_some ip6 s : exists b, addr6 ip6 s b.
Proof. unfold addr6. destruct (ip6 s) as [b|]; eauto. Qed.
Lemma ip6_in_some ip6 i : octets16 ip6 -> ip6_t i -> exists a b, ip6_in i ip6 a b.
Proof.
  intros O (? & ? & ?). destruct (addr6_some ip6 (ip6_src i)) as [a Ha]. destruct (addr6_some ip6 (ip6_dst i)) as [b Hb].
  exists a, b. split; [exact O|]. auto 8.
Qed.

(** Over IPv4: bad arguments stop [create_ipv4_packet], which every constructor calls. *)
Lemma v4_cases e i : eth_t e -> ip4_t i ->
  ((eth_long e \/ ip_long i) /\ (bad_mac e \/ bad_ip4 i)) \/
  (~ (eth_long e \/ ip_long i) /\ exists d s a b, eth_in e d s /\ ip4_in i a b).
Proof.
  intros He Hi. destruct (eth_in_cases e He) as [[L B]|[L (d & s & E)]]; [left; tauto|].
  destruct (ip4_in_cases i Hi) as [[L' B]|[L' (a & b & E')]]; [left; tauto|].
  right. split; [tauto|]. exists d, s, a, b. auto.
Qed.
Lemma v6_cases ip6 e i : octets16 ip6 -> eth_t e -> ip6_t i ->
  (eth_long e /\ bad_mac e) \/ (~ eth_long e /\ exists d s a b, eth_in e d s /\ ip6_in i ip6 a b).
Proof.
  intros O He Hi. destruct (eth_in_cases e He) as [[L B]|[L (d & s & E)]]; [left; tauto|].
  destruct (ip6_in_some ip6 i O Hi) as (a & b & E'). right. split; auto. exists d, s, a, b. auto.
Qed.
Lemma ipv6_packet_bad ip6 e i nh pl h : bad_mac e -> create_ipv6_packet ip6 e i nh pl h = (Panic PIndex, h).
Proof. intros B. apply bind_panic, eth_bad, B. Qed.

Lemma bind_ret_l {A B} (a : A) (f : A -> M B) h : bind (ret a) f h = f a h.
Proof. reflexivity. Qed.

(** The inner packet. *)
Lemma inner_faults {A} (x : list N -> M A) h p long : Forall (live h) (p_hdrs p) ->
  (forall v, to_vec p h = (Ret v, h) -> (byte_count h p 0 <-> v = []) -> fails (x v h) long) ->
  faults (bind (to_vec p) x h) (inner_fault h p long).
Proof.
  intros Hp Hx. unfold inner_fault, to_vec_fault.
  destruct (to_vec_cases h p Hp) as [(v & E & D & C)|(E & D & C)].
  - rewrite (bind_ret _ _ _ _ _ E). assert (Z : byte_count h p 0 <-> v = []).
    { rewrite C. destruct v; cbn; split; congruence. }
    eapply faults_iff; [apply fails_faults, (Hx v E Z)|]. intros e. cbv beta. tauto.
  - rewrite (bind_panic _ _ _ _ _ E). apply faults_panic. intros e. tauto.
Qed.

Lemma pmake_faults m ip6 b h : octets16 ip6 -> pmake_t b -> Forall (pkt_ok h) (pmake_inner b) ->
  faults (pmake_run m ip6 b h) (pmake_fault h b).
Proof.
  intros O T I. destruct b; cbn [pmake_run pmake_t pmake_fault pmake_inner] in *.
  - (* eth *) destruct T as (He & _). apply fails_faults.
    destruct (eth_in_cases e He) as [[L B]|[L (d & s & E)]].
    + eapply fails_yes; [exact L|]. apply eth_bad, B.
    + eapply fails_no; [exact L|]. apply (eth_run e etype pl d s h); apply E.
  - (* arp *) destruct T as (He & _). apply fails_faults.
    destruct (eth_in_cases e He) as [[L B]|[L (d & s & E)]].
    { eapply fails_yes; [auto|]. apply bind_panic, eth_bad, B. }
    unfold create_arp_packet. rewrite (bind_ret _ _ _ _ _ (eth_run e _ pl d s h (proj1 E) (proj1 (proj2 E)))).
    match goal with |- fails (bind (arp ?o ?sm ?tm ?si ?ti) ?k ?h0) _ =>
      destruct (arp_fails o sm tm si ti h0) as [[Ba (h' & R)]|[Ba (x & h' & R)]] end.
    + eapply fails_yes; [right; exact Ba|]. apply bind_panic. exact R.
    + eapply fails_no; [tauto|]. rewrite (bind_ret _ _ _ _ _ R). reflexivity.
  - (* ipv4 *) destruct T as (He & Hi & Hp & _). apply fails_faults.
    destruct (v4_cases e i He Hi) as [[L B]|[L (d & s & a & b & E & Ei)]].
    + destruct (ipv4_packet_bad m e i proto pl h B) as [l R]. eapply fails_yes; eauto.
    + eapply fails_no; [exact L|]. eapply ipv4_packet_run; eauto.
  - (* ipv6 *) destruct T as (He & Hi & Hp & _). apply fails_faults.
    destruct (v6_cases ip6 e i O He Hi) as [[L B]|[L (d & s & a & b & E & Ei)]].
    + eapply fails_yes; [exact L|]. apply ipv6_packet_bad, B.
    + eapply fails_no; [exact L|]. eapply ipv6_packet_run; eauto.
  - (* tcp4 *) destruct T as (He & Hi & _). apply fails_faults.
    destruct (v4_cases e i He Hi) as [[L B]|[L (d & s & a & b & E & Ei)]].
    + destruct (C42_panics m e i pl h B) as (_ & R & _ & _). destruct (R t) as [l ?]. eapply fails_yes; eauto.
    + eapply fails_no; [exact L|]. eapply tcp_run; eauto.
  - (* udp4 *) destruct T as (He & Hi & _). apply fails_faults.
    destruct (v4_cases e i He Hi) as [[L B]|[L (d & s & a & b & E & Ei)]].
    + destruct (C42_panics m e i pl h B) as (_ & _ & R & _). destruct (R dst src) as [l ?]. eapply fails_yes; eauto.
    + eapply fails_no; [exact L|]. eapply udp_run; eauto.
  - (* icmp4 *) destruct T as (He & Hi & _). apply fails_faults.
    destruct (v4_cases e i He Hi) as [[L B]|[L (d & s & a & b & E & Ei)]].
    + destruct (C42_panics m e i pl h B) as (_ & _ & _ & R). destruct (R ty code) as [l ?]. eapply fails_yes; eauto.
    + eapply fails_no; [exact L|]. eapply icmp_run; eauto.
  - (* ipv4ip *) destruct T as (He & Hi). apply Forall_inv in I. unfold create_ipv4ip_packet.
    apply inner_faults; [apply I|]. intros v Ev Z. destruct v as [|b0 v].
    { eapply fails_yes; [left; apply Z; reflexivity|]. apply bind_panic. reflexivity. }
    change (lift (index (b0 :: v) 0)) with (@ret N b0). rewrite bind_ret_l.
    assert (NZ : ~ byte_count h inner 0) by (rewrite Z; discriminate).
    destruct (v4_cases e i He Hi) as [[L B]|[L (d & s & a & b & E & Ei)]].
    + destruct (ipv4_packet_bad m e i (IpProtocol_code (inner_proto b0)) (b0 :: v) h B) as [l R].
      eapply fails_yes; [right; exact L|exact R].
    + eapply fails_no; [tauto|]. eapply ipv4_packet_run; eauto. unfold inner_proto.
      destruct (IpType_try_from _) as [[]|]; reflexivity.
  - (* ipv6ip *) destruct T as (He & Hi). apply Forall_inv in I. unfold create_ipv6ip_packet.
    apply inner_faults; [apply I|]. intros v Ev Z. destruct v as [|b0 v].
    { eapply fails_yes; [left; apply Z; reflexivity|]. apply bind_panic. reflexivity. }
    change (lift (index (b0 :: v) 0)) with (@ret N b0). rewrite bind_ret_l.
    assert (NZ : ~ byte_count h inner 0) by (rewrite Z; discriminate).
    destruct (v6_cases ip6 e i O He Hi) as [[L B]|[L (d & s & a & b & E & Ei)]].
    + eapply fails_yes; [right; exact L|]. apply ipv6_packet_bad, B.
    + eapply fails_no; [tauto|]. eapply ipv6_packet_run; eauto. unfold inner_proto.
      destruct (IpType_try_from _) as [[]|]; reflexivity.
  - (* tcp6 *) destruct T as (He & Hi & _). apply fails_faults.
    destruct (v6_cases ip6 e i O He Hi) as [[L B]|[L (d & s & a & b & E & Ei)]].
    + eapply fails_yes; [exact L|]. apply bind_panic, ipv6_packet_bad, B.
    + eapply fails_no; [exact L|]. eapply tcpv6_run; eauto.
  - (* udp6 *) destruct T as (He & Hi & _). apply fails_faults.
    destruct (v6_cases ip6 e i O He Hi) as [[L B]|[L (d & s & a & b & E & Ei)]].
    + eapply fails_yes; [exact L|]. apply bind_panic, ipv6_packet_bad, B.
    + eapply fails_no; [exact L|]. eapply udpv6_run; eauto.
  - (* icmp6 *) destruct T as (He & Hi & _). apply fails_faults.
    destruct (v6_cases ip6 e i O He Hi) as [[L B]|[L (d & s & a & b & E & Ei)]].
    + eapply fails_yes; [exact L|]. apply bind_panic, ipv6_packet_bad, B.
    + eapply fails_no; [exact L|]. eapply icmpv6_run; eauto.
  - (* vxlan *) destruct T as (He & Hi & _). apply Forall_inv in I. unfold create_vxlan_packet.
    apply inner_faults; [apply I|]. intros v Ev Z.
    destruct (v4_cases e i He Hi) as [[L B]|[L (d & s & a & b & E & Ei)]].
    + destruct (ipv4_packet_bad m e i (IpProtocol_code P_UDP) v h B) as [l R].
      eapply fails_yes; [exact L|]. apply bind_panic. exact R.
    + eapply fails_no; [exact L|]. pose proof (vxlan_run m e d s h E i a b Ei dst src vni inner v Ev) as R.
      unfold create_vxlan_packet in R. rewrite (bind_ret _ _ _ _ _ Ev) in R. exact R.
  - (* vxlan6 *) destruct T as (He & Hi & _). apply Forall_inv in I. unfold create_vxlanv6_packet.
    apply inner_faults; [apply I|]. intros v Ev Z.
    destruct (v6_cases ip6 e i O He Hi) as [[L B]|[L (d & s & a & b & E & Ei)]].
    + eapply fails_yes; [exact L|]. apply bind_panic, ipv6_packet_bad, B.
    + eapply fails_no; [exact L|]. pose proof (vxlanv6_run m e d s h E ip6 i a b Ei dst src vni inner v Ev) as R.
      unfold create_vxlanv6_packet in R. rewrite (bind_ret _ _ _ _ _ Ev) in R. exact R.
  - (* gre *) destruct T as (He & Hi & _). destruct inner as [p|]; cbn [opt_fault].
    + apply Forall_inv in I. unfold create_gre_packet. rewrite bind_assoc.
      apply inner_faults; [apply I|]. intros v Ev Z. destruct v as [|b0 v].
      { eapply fails_yes; [left; exists p; split; [reflexivity|apply Z; reflexivity]|]. apply bind_panic, bind_panic. reflexivity. }
      assert (NZ : ~ exists q, Some p = Some q /\ byte_count h q 0) by (intros (q & Q & C); injection Q as <-; rewrite Z in C; discriminate).
      match goal with |- fails _ ?bad => change (fails (gre_body m e i g (gre_inner_proto b0) (b0 :: v) h) bad) end.
      destruct (v4_cases e i He Hi) as [[L B]|[L (d & s & a & b & E & Ei)]].
      * destruct (ipv4_packet_bad m e i (IpProtocol_code P_GRE) (b0 :: v) h B) as [l R].
        eapply fails_yes; [right; exact L|]. unfold gre_body. apply bind_panic. exact R.
      * eapply fails_no; [tauto|]. exact (gre_body_run m e d s h E i a b Ei g (gre_inner_proto b0) (b0 :: v)).
    + apply fails_faults. assert (NZ : ~ exists q, @None packet = Some q /\ byte_count h q 0) by (intros (q & Q & _); discriminate).
      destruct (v4_cases e i He Hi) as [[L B]|[L (d & s & a & b & E & Ei)]].
      * destruct (ipv4_packet_bad m e i (IpProtocol_code P_GRE) [] h B) as [l R].
        eapply fails_yes; [right; exact L|]. unfold create_gre_packet. rewrite bind_ret_l. cbv beta iota. apply bind_panic. exact R.
      * eapply fails_no; [tauto|]. exact (gre_body_run m e d s h E i a b Ei g 0 []).
  - (* erspan2 *) destruct T as (He & Hi & _). destruct inner as [p|]; cbn [opt_fault].
    + apply Forall_inv in I. unfold create_erspan_2_packet. cbn [opt_to_vec].
      apply inner_faults; [apply I|]. intros v Ev Z.
      destruct (v4_cases e i He Hi) as [[L B]|[L (d & s & b & c & E & Ei)]].
      * destruct (ipv4_packet_bad m e i (IpProtocol_code P_GRE) v h B) as [l R].
        eapply fails_yes; [exact L|]. apply bind_panic. exact R.
      * eapply fails_no; [exact L|]. pose proof (erspan2_run m e d s h E i b c Ei seqnum a idx (Some p) v Ev) as R.
        unfold create_erspan_2_packet in R. cbn [opt_to_vec] in R. rewrite (bind_ret _ _ _ _ _ Ev) in R. exact R.
    + apply fails_faults. destruct (v4_cases e i He Hi) as [[L B]|[L (d & s & b & c & E & Ei)]].
      * destruct (ipv4_packet_bad m e i (IpProtocol_code P_GRE) [] h B) as [l R].
        eapply fails_yes; [exact L|]. unfold create_erspan_2_packet. cbn [opt_to_vec]. rewrite bind_ret_l. apply bind_panic. exact R.
      * eapply fails_no; [exact L|]. exact (erspan2_run m e d s h E i b c Ei seqnum a idx None [] eq_refl).
  - (* erspan3 *) destruct T as (He & Hi & _). destruct inner as [p|]; cbn [opt_fault].
    + apply Forall_inv in I. unfold create_erspan_3_packet. cbn [opt_to_vec].
      apply inner_faults; [apply I|]. intros v Ev Z.
      destruct (v4_cases e i He Hi) as [[L B]|[L (d & s & b & c & E & Ei)]].
      * destruct (ipv4_packet_bad m e i (IpProtocol_code P_GRE) v h B) as [l R].
        eapply fails_yes; [exact L|]. apply bind_panic. exact R.
      * eapply fails_no; [exact L|].
        pose proof (erspan3_run m e d s h E i b c Ei seqnum a ts sgt ft_d_other id info (Some p) v Ev) as R.
        unfold create_erspan_3_packet in R. cbn [opt_to_vec] in R. rewrite (bind_ret _ _ _ _ _ Ev) in R. exact R.
    + apply fails_faults. destruct (v4_cases e i He Hi) as [[L B]|[L (d & s & b & c & E & Ei)]].
      * destruct (ipv4_packet_bad m e i (IpProtocol_code P_GRE) [] h B) as [l R].
        eapply fails_yes; [exact L|]. unfold create_erspan_3_packet. cbn [opt_to_vec]. rewrite bind_ret_l. apply bind_panic. exact R.
      * eapply fails_no; [exact L|]. exact (erspan3_run m e d s h E i b c Ei seqnum a ts sgt ft_d_other id info None [] eq_refl).
Qed.
