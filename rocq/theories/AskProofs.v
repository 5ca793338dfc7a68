(** AskProofs.v -- lemmas for C97: the bytes of a requested packet, and reading
    the request back from them. *)

From Coq Require Import Lia.
From Verif Require Import Base Bits Types Layout Heap Packet Text Build Utils Slow Fast Client Spec Grammar
  BitsProofs HeapProofs TextProofs ChecksumProofs BuildProofs GrammarProofs PropChecksum PropBuild PropParse
  UtilsSpec UtilsProofs PropUtils AskSpec.
Open Scope N_scope.

(** ** The bytes of the requested packet *)

Definition eth_of (q : eth_ask) (et : N) : list N :=
  match q_tag q with
  | Some (pcp, vid) => eth_bytes (q_dst q) (q_src q) 0x8100 ++ vlan_bytes pcp vid et
  | None => eth_bytes (q_dst q) (q_src q) et
  end.
Definition l4_of (l : l4_ask) (n : nat) (c : N) : list N :=
  match l with
  | L_tcp t => tcp_bytes t
  | L_udp dst src => udp_bytes src dst (8 + n) c
  | L_icmp ty code => icmp_bytes ty code
  end.
Definition l4_size (l : l4_ask) : nat := match l with L_tcp _ => 20 | L_udp _ _ => 8 | L_icmp _ _ => 4 end.
Definition proto4 (l : l4_ask) : N := match l with L_tcp _ => 6 | L_udp _ _ => 17 | L_icmp _ _ => 1 end.
Definition proto6 (l : l4_ask) : N := match l with L_tcp _ => 6 | L_udp _ _ => 17 | L_icmp _ _ => 58 end.
Definition frame_of (a : ask) : list N :=
  match a with
  | Q_arp q op sm tm si ti pl => eth_of q 0x806 ++ arp_bytes op sm si tm ti ++ pl
  | Q_ip4 q a b ihl tos ttl id frag l pl => eth_of q 0x800 ++
      ip4h (Ip4A ihl "" "" tos ttl id frag) (proto4 l) a b (20 + length pl + l4_size l) ++
      l4_of l (length pl) 0 ++ pl
  | Q_ip6 q a b tc flow hop l pl => eth_of q 0x86DD ++
      ip6h (Ip6A tc flow hop "" "") (proto6 l) a b (length pl + l4_size l) ++
      l4_of l (length pl) 0xffff ++ pl
  end.

Lemma eth_asks_in e q : eth_asks e q -> eth_in e (q_dst q) (q_src q).
Proof. intros (A & B & C & D & _). repeat split; auto; try apply A; try apply B. Qed.
Lemma eth_asks_bytes e q et : eth_asks e q -> seg_bytes (eth_segs e (q_dst q) (q_src q) et) = eth_of q et.
Proof.
  intros (_ & _ & _ & _ & T). unfold eth_segs, eth_of, seg_bytes.
  destruct (vlan_enable e).
  - destruct T as (_ & _ & ->). cbn [map snd concat]. rewrite app_nil_r. reflexivity.
  - rewrite T. cbn [map snd concat]. apply app_nil_r.
Qed.

Lemma made_vec h l pl : to_vec (mpkt h l pl) (mheap h l) = (Ret (seg_bytes l ++ pl), mheap h l).
Proof. rewrite (holds_vec _ (mpkt h l pl) _ (holds_made h l)). reflexivity. Qed.
Lemma made_sends m ip6 c h l pl v : pmake_run m ip6 c h = made h l pl -> seg_bytes l ++ pl = v -> sends m ip6 c h v.
Proof. intros E <-. exists (mpkt h l pl), (mheap h l). split; [exact E|apply made_vec]. Qed.

Lemma asks_sends m ip6 c a h : octets16 ip6 -> asks ip6 c a -> sends m ip6 c h (frame_of a).
Proof.
  intros H6 A. destruct A as [e q op smac tmac sip tip sm tm si ti pl He Ho Hsm Htm Hsi Hti
    |e q i a b l pl He Ha Hb I1 I2 I3 I4 I5 Hl|e q i a b l pl He Ha Hb I1 I2 I3 Hl];
    pose proof (eth_asks_in _ _ He) as Hi.
  - eapply made_sends; [apply (arp_run e (q_dst q) (q_src q) pl h Hi op smac tmac sip tip sm si tm ti); auto|].
    rewrite seg_bytes_app, (eth_asks_bytes _ _ _ He), <- app_assoc.
    unfold seg_bytes. cbn [map snd concat frame_of]. rewrite app_nil_r. reflexivity.
  - assert (J : ip4_in i a b) by (repeat split; auto; lia || apply Ha || apply Hb).
    destruct l as [t|dst src|ty code]; (eapply made_sends; [|]);
      [apply (tcp_run m e (q_dst q) (q_src q) pl h Hi i a b J t)|
      |apply (udp_run m e (q_dst q) (q_src q) pl h Hi i a b J dst src)|
      |apply (icmp_run m e (q_dst q) (q_src q) pl h Hi i a b J ty code)|];
      rewrite seg_bytes_app, (eth_asks_bytes _ _ _ He), <- app_assoc;
      unfold seg_bytes; cbn [map snd concat frame_of]; rewrite app_nil_r, <- app_assoc; reflexivity.
  - assert (J : ip6_in i ip6 a b).
    { split; [auto|]. split; [auto|]. split; [auto|]. split; [auto|]. split; [|auto].
      apply (N.lt_trans _ (2 ^ 20)); auto. reflexivity. }
    destruct l as [t|dst src|ty code]; (eapply made_sends; [|]);
      [apply (tcpv6_run m e (q_dst q) (q_src q) pl h Hi ip6 i a b J t)|
      |apply (udpv6_run m e (q_dst q) (q_src q) pl h Hi ip6 i a b J dst src)|
      |apply (icmpv6_run m e (q_dst q) (q_src q) pl h Hi ip6 i a b J ty code)|];
      rewrite seg_bytes_app, (eth_asks_bytes _ _ _ He), <- app_assoc;
      unfold seg_bytes; cbn [map snd concat frame_of]; rewrite app_nil_r, <- app_assoc; reflexivity.
Qed.

(** ** Reading the request back *)

Lemma split_diagrams x x' l l' r r' : diagram x l -> diagram x' l' -> widths l = widths l' ->
  x ++ r = x' ++ r' -> x = x' /\ r = r'.
Proof. intros (_ & A & _) (_ & B & _) W E. apply app_inj_len; auto. lia. Qed.
Lemma read_same x x' l l' r r' fs : diagram x l -> diagram x' l' ->
  layout_is fs 0 l = true -> layout_is fs 0 l' = true -> widths l = widths l' ->
  x ++ r = x' ++ r' -> map snd l = map snd l' /\ r = r'.
Proof.
  intros D D' L L' W E. destruct (split_diagrams _ _ _ _ _ _ D D' W E) as [<- ->]. split; auto.
  rewrite <- (diagram_fields _ _ _ D L). apply (diagram_fields _ _ _ D' L').
Qed.

Lemma mac_same x x' d d' : mac_text x d -> mac_text x' d' -> be d = be d' -> d = d'.
Proof.
  intros H H' E. apply be_inj; auto; try (eapply mac_ok; eauto). rewrite (mac_len _ _ H), (mac_len _ _ H'). reflexivity.
Qed.
Lemma ip4_same x x' d d' : ipv4_text x d -> ipv4_text x' d' -> be d = be d' -> d = d'.
Proof.
  intros H H' E. apply be_inj; auto; try (eapply ipv4_ok; eauto). rewrite (ipv4_len _ _ H), (ipv4_len _ _ H'). reflexivity.
Qed.
Lemma ip6_same ip6 x x' d d' : octets16 ip6 -> addr6 ip6 x d -> addr6 ip6 x' d' -> be d = be d' -> d = d'.
Proof.
  intros H6 H H' E. destruct (addr6_ok _ _ _ H6 H) as [? ?], (addr6_ok _ _ _ H6 H') as [? ?].
  apply be_inj; auto. congruence.
Qed.

Lemma eth_read d s et d' s' et' r r' x y x' y' : mac_text x d -> mac_text y s -> mac_text x' d' -> mac_text y' s' ->
  eth_bytes d s et ++ r = eth_bytes d' s' et' ++ r' -> et < 65536 -> et' < 65536 ->
  d = d' /\ s = s' /\ et = et' /\ r = r'.
Proof.
  intros X Y X' Y' E T T'.
  destruct (read_same _ _ _ _ _ _ (ht_fields Ether) (eth_diagram _ _ _ _ _ X Y T) (eth_diagram _ _ _ _ _ X' Y' T')
    eq_refl eq_refl eq_refl E) as [M ->].
  cbn [map snd ether_fields] in M. injection M as M1 M2 ->.
  rewrite (mac_same _ _ _ _ X X' M1), (mac_same _ _ _ _ Y Y' M2). auto.
Qed.
Lemma vlan_read pcp vid et pcp' vid' et' r r' : pcp < 8 -> vid < 4096 -> pcp' < 8 -> vid' < 4096 ->
  et < 65536 -> et' < 65536 -> vlan_bytes pcp vid et ++ r = vlan_bytes pcp' vid' et' ++ r' ->
  pcp = pcp' /\ vid = vid' /\ et = et' /\ r = r'.
Proof.
  intros P V P' V' T T' E.
  assert (D := vlan_diagram pcp vid et ltac:(lia) ltac:(lia) T).
  assert (D' := vlan_diagram pcp' vid' et' ltac:(lia) ltac:(lia) T').
  unfold vlan_fields in D, D'.
  destruct (in_range_vlan pcp vid P V) as (R1 & R2 & R3). rewrite R1, R2, R3 in D.
  destruct (in_range_vlan pcp' vid' P' V') as (R1' & R2' & R3'). rewrite R1', R2', R3' in D'.
  destruct (read_same _ _ _ _ _ _ (ht_fields Vlan) D D' eq_refl eq_refl eq_refl E) as [M ->].
  cbn [map snd] in M. injection M as -> -> ->. auto.
Qed.
Lemma eth_of_read e e' q q' et et' r r' : eth_asks e q -> eth_asks e' q' ->
  eth_of q et ++ r = eth_of q' et' ++ r' ->
  et < 65536 -> et' < 65536 -> et <> 0x8100 -> et' <> 0x8100 -> q = q' /\ et = et' /\ r = r'.
Proof.
  intros (X & Y & _ & _ & Z) (X' & Y' & _ & _ & Z') E T T' N1 N2.
  destruct q as [d s o], q' as [d' s' o']. cbn [q_dst q_src q_tag] in *.
  unfold eth_of in E. cbn [q_dst q_src q_tag] in E.
  destruct (vlan_enable e); [destruct Z as (P & V & ->)|rewrite Z in *];
    (destruct (vlan_enable e'); [destruct Z' as (P' & V' & ->)|rewrite Z' in *]);
    rewrite <- ?app_assoc in E;
    destruct (eth_read _ _ _ _ _ _ _ _ _ _ _ _ X Y X' Y' E ltac:(assumption || reflexivity) ltac:(assumption || reflexivity))
      as (<- & <- & Et & F); try congruence; auto.
  destruct (vlan_read _ _ _ _ _ _ _ _ P V P' V' T T' F) as (-> & -> & -> & ->). auto.
Qed.

Lemma frag_same f f' : f / 8192 = f' / 8192 -> f mod 8192 = f' mod 8192 -> f = f'.
Proof. intros A B. rewrite (N.div_mod f 8192), (N.div_mod f' 8192), A, B by discriminate. reflexivity. Qed.

Lemma ip4_read i i' p p' a b a' b' n n' r r' : ip4_in i a b -> ip4_in i' a' b' -> ip_ihl i < 16 -> ip_ihl i' < 16 ->
  p < 256 -> p' < 256 -> ip4h i p a b n ++ r = ip4h i' p' a' b' n' ++ r' ->
  (a, b, ip_ihl i, ip_tos i, ip_ttl i, ip_id i, ip_frag i, p) =
  (a', b', ip_ihl i', ip_tos i', ip_ttl i', ip_id i', ip_frag i', p') /\ r = r'.
Proof.
  intros I I' L L' P P' E.
  destruct (ip4h_header i p a b n I P) as (c & D & _). destruct (ip4h_header i' p' a' b' n' I' P') as (c' & D' & _).
  unfold ip4_fields in D, D'.
  destruct (in_range_ihl _ L) as (R1 & R2). rewrite R1, R2 in D.
  destruct (in_range_ihl _ L') as (R1' & R2'). rewrite R1', R2' in D'.
  destruct (read_same _ _ _ _ _ _ (ht_fields IPv4) D D' eq_refl eq_refl eq_refl E) as [M ->].
  cbn [map snd] in M. injection M as -> -> _ -> F1 F2 -> -> _ A B.
  destruct I as (Ha & Hb & _), I' as (Ha' & Hb' & _).
  rewrite (frag_same _ _ F1 F2), (ip4_same _ _ _ _ Ha Ha' A), (ip4_same _ _ _ _ Hb Hb' B). auto.
Qed.
Lemma ip6_read ip6 i i' p p' a b a' b' n n' r r' : ip6_in i ip6 a b -> ip6_in i' ip6 a' b' ->
  ip6_flow_label i < 2 ^ 20 -> ip6_flow_label i' < 2 ^ 20 ->
  p < 256 -> p' < 256 -> ip6h i p a b n ++ r = ip6h i' p' a' b' n' ++ r' ->
  (a, b, ip6_traffic_class i, ip6_flow_label i, ip6_hop_limit i, p) =
  (a', b', ip6_traffic_class i', ip6_flow_label i', ip6_hop_limit i', p') /\ r = r'.
Proof.
  intros I I' L L' P P' E.
  pose proof (ip6h_diagram i ip6 p a b n I P) as D. pose proof (ip6h_diagram i' ip6 p' a' b' n' I' P') as D'.
  unfold ip6_fields in D, D'.
  destruct (in_range_flow (ip6_traffic_class i) _ L) as (R1 & R2 & R3). rewrite R1, R2, R3 in D.
  destruct (in_range_flow (ip6_traffic_class i') _ L') as (R1' & R2' & R3'). rewrite R1', R2', R3' in D'.
  destruct (read_same _ _ _ _ _ _ (ht_fields IPv6) D D' eq_refl eq_refl eq_refl E) as [M ->].
  cbn [map snd] in M. injection M as -> -> _ -> -> A B.
  destruct I as (H6 & Ha & Hb & _), I' as (_ & Ha' & Hb' & _).
  rewrite (ip6_same _ _ _ _ _ H6 Ha Ha' A), (ip6_same _ _ _ _ _ H6 Hb Hb' B). auto.
Qed.

Lemma l4_read l l' n n' c r r' : l4_fit l -> l4_fit l' -> c < 65536 -> proto4 l = proto4 l' ->
  l4_of l n c ++ r = l4_of l' n' c ++ r' -> l = l' /\ r = r'.
Proof.
  intros F F' Hc P E. destruct l as [t|dst src|ty code], l' as [t'|dst' src'|ty' code']; try discriminate P;
    cbn [l4_fit l4_of] in *.
  - assert (D : diagram (tcp_bytes t) (tcp_fields t)) by (apply tcp_diagram; repeat split; lia || apply F).
    assert (D' : diagram (tcp_bytes t') (tcp_fields t')) by (apply tcp_diagram; repeat split; lia || apply F').
    destruct F as (_ & _ & _ & _ & A & B & _), F' as (_ & _ & _ & _ & A' & B' & _).
    unfold tcp_fields in D, D'.
    destruct (in_range_tcp _ _ A B) as (R1 & R2). rewrite R1, R2 in D.
    destruct (in_range_tcp _ _ A' B') as (R1' & R2'). rewrite R1', R2' in D'.
    destruct (read_same _ _ _ _ _ _ (ht_fields TCP) D D' eq_refl eq_refl eq_refl E) as [M ->].
    cbn [map snd] in M. injection M as M1 M2 M3 M4 M5 M6 M7 M8 M9. split; auto.
    destruct t, t'. cbn in M1, M2, M3, M4, M5, M6, M7, M8, M9. congruence.
  - destruct F as [A B], F' as [A' B'].
    destruct (read_same _ _ _ _ _ _ (ht_fields UDP) (udp_diagram src dst (8 + n) c B A Hc)
      (udp_diagram src' dst' (8 + n') c B' A' Hc) eq_refl eq_refl eq_refl E) as [M ->].
    cbn [map snd udp_fields] in M. injection M as -> -> _. auto.
  - destruct F as [A B], F' as [A' B'].
    destruct (read_same _ _ _ _ _ _ (ht_fields ICMP) (icmp_diagram ty code A B)
      (icmp_diagram ty' code' A' B') eq_refl eq_refl eq_refl E) as [M ->].
    cbn [map snd icmp_fields] in M. injection M as -> ->. auto.
Qed.

Lemma ip4h_texts i p a b n :
  ip4h (Ip4A (ip_ihl i) "" "" (ip_tos i) (ip_ttl i) (ip_id i) (ip_frag i)) p a b n = ip4h i p a b n.
Proof. reflexivity. Qed.
Lemma ip6h_texts i p a b n :
  ip6h (Ip6A (ip6_traffic_class i) (ip6_flow_label i) (ip6_hop_limit i) "" "") p a b n = ip6h i p a b n.
Proof. reflexivity. Qed.
Lemma proto4_byte l : proto4 l < 256.
Proof. destruct l; reflexivity. Qed.
Lemma proto6_byte l : proto6 l < 256.
Proof. destruct l; reflexivity. Qed.
Lemma proto64 l l' : proto6 l = proto6 l' -> proto4 l = proto4 l'.
Proof. destruct l, l'; intros H; try discriminate H; reflexivity. Qed.

Lemma frame_inj ip6 c c' a a' : octets16 ip6 -> asks ip6 c a -> asks ip6 c' a' -> frame_of a = frame_of a' -> a = a'.
Proof.
  intros H6 A A' E.
  destruct A as [e q op smac tmac sip tip sm tm si ti pl He Ho Hsm Htm Hsi Hti
    |e q i a b l pl He Ha Hb I1 I2 I3 I4 I5 Hl|e q i a b l pl He Ha Hb I1 I2 I3 Hl];
  destruct A' as [e' q' op' smac' tmac' sip' tip' sm' tm' si' ti' pl' He' Ho' Hsm' Htm' Hsi' Hti'
    |e' q' i' a' b' l' pl' He' Ha' Hb' I1' I2' I3' I4' I5' Hl'|e' q' i' a' b' l' pl' He' Ha' Hb' I1' I2' I3' Hl'];
  cbn [frame_of] in E;
  destruct (eth_of_read _ _ _ _ _ _ _ _ He He' E ltac:(reflexivity) ltac:(reflexivity) ltac:(discriminate) ltac:(discriminate))
    as (<- & T & F); try discriminate T; clear E T.
  - destruct (C24_arp op smac tmac sip tip sm si tm ti [] Hsm Hsi Htm Hti Ho) as (x & B & _ & D & _).
    rewrite (builds_arp op _ _ _ _ _ _ _ _ Hsm Hsi Htm Hti []) in B. injection B as <-.
    destruct (C24_arp op' smac' tmac' sip' tip' sm' si' tm' ti' [] Hsm' Hsi' Htm' Hti' Ho') as (x & B & _ & D' & _).
    rewrite (builds_arp op' _ _ _ _ _ _ _ _ Hsm' Hsi' Htm' Hti' []) in B. injection B as <-.
    destruct (read_same _ _ _ _ _ _ (ht_fields ARP) D D' eq_refl eq_refl eq_refl F) as [M ->].
    cbn [map snd] in M. injection M as -> M1 M2 M3 M4.
    rewrite (mac_same _ _ _ _ Hsm Hsm' M1), (ip4_same _ _ _ _ Hsi Hsi' M2), (mac_same _ _ _ _ Htm Htm' M3),
      (ip4_same _ _ _ _ Hti Hti' M4). reflexivity.
  - rewrite !ip4h_texts in F.
    destruct (ip4_read i i' _ _ _ _ _ _ _ _ _ _ ltac:(repeat split; auto; lia || apply Ha || apply Hb)
      ltac:(repeat split; auto; lia || apply Ha' || apply Hb') I1 I1' (proto4_byte l) (proto4_byte l') F) as [M G].
    injection M as -> -> -> -> -> -> -> P.
    destruct (l4_read _ _ _ _ 0 _ _ Hl Hl' eq_refl P G) as [-> ->]. reflexivity.
  - rewrite !ip6h_texts in F.
    assert (W : forall x, x < 2 ^ 20 -> x < 2 ^ 32) by (intros x X; apply (N.lt_trans _ (2 ^ 20)); auto; reflexivity).
    assert (J : ip6_in i ip6 a b) by (unfold ip6_in; auto 10).
    assert (J' : ip6_in i' ip6 a' b') by (unfold ip6_in; auto 10).
    destruct (ip6_read ip6 i i' _ _ _ _ _ _ _ _ _ _ J J' I2 I2' (proto6_byte l) (proto6_byte l') F) as [M G].
    injection M as -> -> -> -> -> P.
    destruct (l4_read _ _ _ _ 0xffff _ _ Hl Hl' eq_refl (proto64 _ _ P) G) as [-> ->]. reflexivity.
Qed.
