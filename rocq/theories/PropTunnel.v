(** PropTunnel.v -- properties C45-C48: the builders of tunnel packets. *)

From Coq Require Import Lia.
From Verif Require Import Base Bits Types Layout Heap Packet Text Build Utils Slow Fast Spec Grammar
  BitsProofs HeapProofs TextProofs ChecksumProofs BuildProofs GrammarProofs PropChecksum PropBuild PropParse
  UtilsSpec UtilsProofs PropUtils.
Open Scope N_scope.

(** ** Reading on from a header *)

(** From entry point [f], [b] is the headers [gs] and then [rest], read from [g]. *)
Definition leads (f : pfun) (b : list N) (g : pfun) (rest : list N) (gs : list (list seg)) : Prop :=
  (forall gs' pl, wire g rest gs' pl -> wire f b (gs ++ gs') pl) /\ (cut g rest -> cut f b).

Lemma leads_trans f b g c g' r gs gs' : leads f b g c gs -> leads g c g' r gs' -> leads f b g' r (gs ++ gs').
Proof. intros [A B] [C D]. split; auto. intros. rewrite <- app_assoc. auto. Qed.
Lemma leads_options f T x os ts rest g : header_of f = Some T -> length x = ht_size T -> options f x = ts ->
  map (@length N) os = map ht_size ts -> demux f x rest = Some g ->
  leads f (x ++ concat os ++ rest) g rest [[(T, x)]; combine ts os].
Proof.
  intros Hf Lx <- Lo D. split.
  - intros. cbn [app]. apply W_header with (g := g); auto.
  - intros. eapply C_next; eauto.
Qed.
Lemma leads_plain f T x rest g : header_of f = Some T -> length x = ht_size T -> options f x = [] ->
  demux f x rest = Some g -> leads f (x ++ rest) g rest (groups [(T, x)]).
Proof. intros Hf Lx O D. apply (leads_options f T x [] [] rest g); auto. Qed.

Lemma leads_eth e d s et rest : eth_in e d s -> et < 65536 -> 1500 <= et ->
  leads F_parse (seg_bytes (eth_segs e d s et) ++ rest) (entry ethertypes et) rest (groups (eth_segs e d s et)).
Proof.
  intros He H1 H2. split; [intros; eapply wire_eth_part; eauto|]. intros C.
  destruct He as (Hd & Hs & _ & _).
  pose proof (mac_len _ _ Hd) as Ld. pose proof (mac_len _ _ Hs) as Ls.
  unfold eth_segs. destruct (vlan_enable e); unfold seg_bytes; cbn [map snd concat]; rewrite ?app_nil_r, <- ?app_assoc.
  - apply C_parse_next; [rewrite app_length, eth_bytes_length; auto; apply Nat.le_add_r|].
    rewrite eth_type by (auto; reflexivity). cbn [N.ltb N.compare Pos.compare Pos.compare_cont].
    apply (leads_plain F_ethernet Ether _ _ F_vlan); auto; [apply eth_bytes_length; auto| |].
    + cbn [demux]. rewrite <- (app_nil_r (eth_bytes d s 0x8100)), eth_type by (auto; reflexivity). reflexivity.
    + apply (leads_plain F_vlan Vlan _ _ (entry ethertypes et)); auto. cbn [demux]. rewrite vlan_type by auto. reflexivity.
  - apply C_parse_next; [rewrite app_length, eth_bytes_length; auto; apply Nat.le_add_r|].
    rewrite eth_type by auto. rewrite (proj2 (N.ltb_ge _ _)) by auto.
    apply (leads_plain F_ethernet Ether _ _ (entry ethertypes et)); auto; [apply eth_bytes_length; auto|].
    cbn [demux]. rewrite <- (app_nil_r (eth_bytes d s et)), eth_type by auto. reflexivity.
Qed.
Lemma ip4h_len i proto s d len : ip4_in i s d -> length (ip4h i proto s d len) = 20%nat.
Proof. intros Hi. apply (ip4h_length i proto s d len s d Hi); eapply ipv4_len; apply Hi. Qed.
Lemma ip6h_len i ip6 nh s d len : ip6_in i ip6 s d -> length (ip6h i nh s d len) = 40%nat.
Proof. intros (H6 & Ha & Hb & _). unfold ip6h. apply ip6b_length; [exact (proj1 (addr6_ok _ _ _ H6 Ha))|exact (proj1 (addr6_ok _ _ _ H6 Hb))]. Qed.
Lemma leads_ip4 i proto s d len rest : ip4_in i s d -> proto < 256 ->
  leads F_ipv4 (ip4h i proto s d len ++ rest) (entry ipv4_protocols proto) rest (groups [(IPv4, ip4h i proto s d len)]).
Proof.
  intros Hi Hp. apply leads_plain; auto; [apply ip4h_len; auto|]. cbn [demux]. rewrite ip4h_proto; auto.
Qed.
Lemma leads_ip6 i ip6 nh s d len rest : ip6_in i ip6 s d -> nh < 256 ->
  leads F_ipv6 (ip6h i nh s d len ++ rest) (entry ipv6_next_headers nh) rest (groups [(IPv6, ip6h i nh s d len)]).
Proof.
  intros Hi Hp. apply leads_plain; auto; [eapply ip6h_len; eauto|]. cbn [demux]. rewrite ip6h_proto; auto.
Qed.

Lemma packet_parses r h segs pl gs pl' : packet_is r h segs pl -> bytes_ok (seg_bytes segs ++ pl) ->
  wire F_parse (seg_bytes segs ++ pl) gs pl' -> parses_as r (reported gs) pl'.
Proof.
  intros P Hb W. destruct (packet_bytes _ _ _ _ P) as (p & h' & -> & V). exists p, h'. eexists.
  split; [reflexivity|]. split; [exact V|]. intros m. split.
  - intros h2. destruct (C34_slow_complete m F_parse _ h2 gs pl' Hb W) as (hs & h3 & R & H). exists (Pkt hs pl'), h3. auto.
  - exact (C34_fast_complete m F_parse _ gs pl' Hb W).
Qed.
Lemma packet_panics r h segs pl : packet_is r h segs pl -> bytes_ok (seg_bytes segs ++ pl) ->
  cut F_parse (seg_bytes segs ++ pl) -> parse_panics r.
Proof.
  intros P Hb C. destruct (packet_bytes _ _ _ _ P) as (p & h' & -> & V). exists p, h'. eexists.
  split; [reflexivity|]. split; [exact V|]. intros m. split.
  - intros h2. apply (C34_slow_panics m F_parse _ h2 Hb). auto.
  - apply (C34_fast_panics m F_parse _ Hb). auto.
Qed.

(** ** C45 *)

Lemma inner_proto_of b0 : b0 < 256 -> IpProtocol_code (inner_proto b0) = ip_proto_of b0.
Proof.
  intros H. pose proof (bytes1 (fun b0 => IpProtocol_code (inner_proto b0) =? ip_proto_of b0)
    ltac:(vm_compute; reflexivity) b0 H) as G. apply N.eqb_eq in G. exact G.
Qed.
Lemma ip_proto_byte b0 : ip_proto_of b0 < 256.
Proof. unfold ip_proto_of. destruct (_ =? _); reflexivity. Qed.
Lemma ip_entry4 b0 : entry ipv4_protocols (ip_proto_of b0) = ip_entry b0.
Proof. unfold ip_proto_of, ip_entry. destruct (_ =? _); reflexivity. Qed.
Lemma ip_entry6 b0 : entry ipv6_next_headers (ip_proto_of b0) = ip_entry b0.
Proof. unfold ip_proto_of, ip_entry. destruct (_ =? _); reflexivity. Qed.

Lemma bytes_app2 l T x (A : list N) : seg_bytes (l ++ [(T, x)]) ++ A = seg_bytes l ++ x ++ A.
Proof. rewrite seg_bytes_app. unfold seg_bytes at 2. cbn [map snd concat]. rewrite app_nil_r, <- app_assoc. reflexivity. Qed.

Theorem C45_ipv4ip : forall m e i q h d s a b b0 v, eth_in e d s -> ip4_in i a b ->
  to_vec q h = (Ret (b0 :: v), h) -> bytes_ok (b0 :: v) ->
  exists es x, ether_part e d s 0x0800 es /\
    ip4_header i (ip_proto_of b0) a b (20 + length (b0 :: v)) x /\
    packet_new (create_ipv4ip_packet m e i q h) h (es ++ [(IPv4, x)]) (b0 :: v) /\
    (** parsing goes on with the inner packet, and panics if it does not parse *)
    (forall gs pl, wire (ip_entry b0) (b0 :: v) gs pl ->
       parses_as (create_ipv4ip_packet m e i q h) (es ++ [(IPv4, x)] ++ reported gs) pl) /\
    (cut (ip_entry b0) (b0 :: v) -> parse_panics (create_ipv4ip_packet m e i q h)).
Proof.
  intros m e i q h d s a b b0 v He Hi Hq Ov. rewrite (ipv4ip_run m e d s h He i a b Hi q b0 v Hq).
  rewrite inner_proto_of by (inversion Ov; auto).
  set (x := ip4h _ _ _ _ _). set (es := eth_segs e d s 0x800).
  assert (Hx : ip4_header i (ip_proto_of b0) a b (20 + length (b0 :: v)) x)
    by (apply ip4h_header; auto; apply ip_proto_byte).
  exists es, x. split; [apply eth_part; auto; reflexivity|]. split; [exact Hx|].
  split; [apply made_new|].
  pose proof (packet_new_is _ _ _ _ (made_new h (es ++ [(IPv4, x)]) (b0 :: v))) as P.
  assert (L : leads F_parse (seg_bytes (es ++ [(IPv4, x)]) ++ b0 :: v) (ip_entry b0) (b0 :: v)
    (groups es ++ groups [(IPv4, x)])).
  { rewrite bytes_app2. eapply leads_trans; [apply leads_eth; auto; [reflexivity|discriminate]|].
    rewrite <- ip_entry4. apply leads_ip4; auto. apply ip_proto_byte. }
  assert (O : bytes_ok (seg_bytes (es ++ [(IPv4, x)]) ++ b0 :: v)).
  { rewrite bytes_app2, !bytes_ok_app. split; [apply eth_segs_ok; auto; reflexivity|]. split; auto.
    destruct Hx as (c & [Ox _] & _). exact Ox. }
  split.
  - intros gs pl W. pose proof (packet_parses _ _ _ _ _ _ P O (proj1 L _ _ W)) as R.
    rewrite <- groups_app, reported_groups, <- app_assoc in R. exact R.
  - intros C. exact (packet_panics _ _ _ _ P O (proj2 L C)).
Qed.
Print Assumptions C45_ipv4ip.

Theorem C45_ipv6ip : forall ip6 e i q h d s a b b0 v, eth_in e d s -> ip6_in i ip6 a b ->
  to_vec q h = (Ret (b0 :: v), h) -> bytes_ok (b0 :: v) ->
  exists es x, ether_part e d s 0x86DD es /\
    diagram x (ip6_fields i (ip_proto_of b0) a b (length (b0 :: v))) /\
    packet_new (create_ipv6ip_packet ip6 e i q h) h (es ++ [(IPv6, x)]) (b0 :: v) /\
    (forall gs pl, wire (ip_entry b0) (b0 :: v) gs pl ->
       parses_as (create_ipv6ip_packet ip6 e i q h) (es ++ [(IPv6, x)] ++ reported gs) pl) /\
    (cut (ip_entry b0) (b0 :: v) -> parse_panics (create_ipv6ip_packet ip6 e i q h)).
Proof.
  intros ip6 e i q h d s a b b0 v He Hi Hq Ov. rewrite (ipv6ip_run e d s h He ip6 i a b Hi q b0 v Hq).
  rewrite inner_proto_of by (inversion Ov; auto).
  set (x := ip6h _ _ _ _ _). set (es := eth_segs e d s 0x86DD).
  assert (Hx : diagram x (ip6_fields i (ip_proto_of b0) a b (length (b0 :: v))))
    by (eapply ip6h_diagram; eauto; apply ip_proto_byte).
  exists es, x. split; [apply eth_part; auto; reflexivity|]. split; [exact Hx|].
  split; [apply made_new|].
  pose proof (packet_new_is _ _ _ _ (made_new h (es ++ [(IPv6, x)]) (b0 :: v))) as P.
  assert (L : leads F_parse (seg_bytes (es ++ [(IPv6, x)]) ++ b0 :: v) (ip_entry b0) (b0 :: v)
    (groups es ++ groups [(IPv6, x)])).
  { rewrite bytes_app2. eapply leads_trans; [apply leads_eth; auto; [reflexivity|discriminate]|].
    rewrite <- ip_entry6. eapply leads_ip6; eauto. apply ip_proto_byte. }
  assert (O : bytes_ok (seg_bytes (es ++ [(IPv6, x)]) ++ b0 :: v)).
  { rewrite bytes_app2, !bytes_ok_app. split; [apply eth_segs_ok; auto; reflexivity|]. split; auto. apply Hx. }
  split.
  - intros gs pl W. pose proof (packet_parses _ _ _ _ _ _ P O (proj1 L _ _ W)) as R.
    rewrite <- groups_app, reported_groups, <- app_assoc in R. exact R.
  - intros C. exact (packet_panics _ _ _ _ P O (proj2 L C)).
Qed.
Print Assumptions C45_ipv6ip.

(** An inner packet without bytes panics before anything is built ... *)
Theorem C45_empty : forall m ip6 e i4 i6 q h, to_vec q h = (Ret [], h) ->
  create_ipv4ip_packet m e i4 q h = (Panic PIndex, h) /\ create_ipv6ip_packet ip6 e i6 q h = (Panic PIndex, h).
Proof.
  intros m ip6 e i4 i6 q h Hq. unfold create_ipv4ip_packet, create_ipv6ip_packet.
  rewrite !(bind_ret _ _ _ _ _ Hq). split; reflexivity.
Qed.
Print Assumptions C45_empty.
(** ... and so does one that cannot be serialised. *)
Theorem C45_inner_panics : forall m ip6 e i4 i6 q h f h', to_vec q h = (Panic f, h') ->
  create_ipv4ip_packet m e i4 q h = (Panic f, h') /\ create_ipv6ip_packet ip6 e i6 q h = (Panic f, h').
Proof.
  intros m ip6 e i4 i6 q h f h' Hq. unfold create_ipv4ip_packet, create_ipv6ip_packet.
  rewrite !(bind_panic _ _ _ _ _ Hq). split; reflexivity.
Qed.
Print Assumptions C45_inner_panics.

(** An inner IPv4/TCP packet. *)
Definition ex_inner : packet := Pkt [Hdr IPv4 0; Hdr TCP 1] [7; 7].
Definition ex_inner_heap : heap := [Cell (0x45 :: repeat 0 8 ++ [6] ++ repeat 0 10) false; Cell (repeat 9 20) false].
Example C45_example : exists p h, create_ipv4ip_packet Debug ex_eth ex_ip4 ex_inner ex_inner_heap = (Ret p, h) /\
  map hname (p_hdrs p) = ["Ether"; "Vlan"; "IPv4"]%string /\ length (p_payload p) = 42%nat /\
  exists v, to_vec p h = (Ret v, h) /\ exists q h3, slow Debug F_parse v [] = (Ret q, h3) /\
    map hname (p_hdrs q) = ["Ether"; "Vlan"; "IPv4"; "IPv4"; "TCP"]%string /\ p_payload q = [7; 7].
Proof.
  do 2 eexists. split; [vm_compute; reflexivity|]. split; [reflexivity|]. split; [reflexivity|].
  eexists. split; [vm_compute; reflexivity|].
  do 2 eexists. split; [vm_compute; reflexivity|]. split; reflexivity.
Qed.
Example C45_example_entry : exists v, to_vec ex_inner ex_inner_heap = (Ret (0x45 :: v), ex_inner_heap) /\
  bytes_ok (0x45 :: v) /\ exists gs, wire (ip_entry 0x45) (0x45 :: v) gs [7; 7].
Proof.
  eexists. split; [vm_compute; reflexivity|]. split; [apply bytes_okb_ok; reflexivity|].
  eexists. apply (wire_plain F_ipv4 IPv4 (0x45 :: repeat 0 8 ++ [6] ++ repeat 0 10) (repeat 9 20 ++ [7; 7]) F_tcp);
    try reflexivity.
  apply (wire_plain F_tcp TCP (repeat 9 20) [7; 7] F_accept); try reflexivity. constructor.
Qed.
Example C45_example_empty : to_vec (Pkt [] []) [] = (Ret [], []).
Proof. reflexivity. Qed.

(** ** C46 *)

Lemma seg_bytes_cons T x l : seg_bytes ((T, x) :: l) = x ++ seg_bytes l.
Proof. reflexivity. Qed.
Lemma seg_bytes_nil : seg_bytes [] = [].
Proof. reflexivity. Qed.
Ltac flat := rewrite ?seg_bytes_app, ?seg_bytes_cons, ?seg_bytes_nil, ?app_nil_r, <- ?app_assoc.

Lemma ip4b_proto v0 tos len id frag ttl proto c s d : proto < 256 ->
  be (sub (ip4b v0 tos len id frag ttl proto c s d) 9 1) = proto.
Proof.
  intros Hp. unfold ip4b.
  pose proof (sub_mid ([v0] ++ [tos] ++ to_be 2 len ++ to_be 2 id ++ to_be 2 frag ++ [ttl]) [proto]
    (to_be 2 c ++ s ++ d)) as E.
  rewrite <- !app_assoc in E. cbn [length] in E. rewrite !app_length, !to_be_length in E. cbn [length Nat.add] in E.
  rewrite E. cbn [be length]. change (N.of_nat (8 * 0)) with 0. rewrite N.pow_0_r. lia.
Qed.

Lemma udp_vxlan src len c pl : demux F_udp (udp_bytes src 4789 len c) pl = Some F_vxlan.
Proof.
  cbn [demux]. unfold udp_bytes.
  pose proof (sub_mid (to_be 2 src) (to_be 2 4789) (to_be 2 (N.of_nat len) ++ to_be 2 c)) as E.
  rewrite !to_be_length in E. rewrite E, be_2 by reflexivity. reflexivity.
Qed.

Lemma other_words_len v0 tos len id frag ttl proto c s d :
  length s = 4%nat -> length d = 4%nat ->
  other_words (ip4b v0 tos len id frag ttl proto c s d) =
  other_words (ip4b v0 tos 0 id frag ttl proto c s d) + len mod 65536.
Proof.
  intros Ls Ld. destruct s as [|s0 [|s1 [|s2 [|s3 [|]]]]]; try discriminate Ls.
  destruct d as [|d0 [|d1 [|d2 [|d3 [|]]]]]; try discriminate Ld.
  unfold other_words, ip4b, zero_checksum. rewrite !to_be_2.
  cbn [app firstn skipn words plain_sum fold_right].
  assert (E : len mod 65536 = (len / 256) mod 256 * 256 + len mod 256).
  { change 65536 with (256 * 256). rewrite N.mod_mul_r by discriminate. lia. }
  rewrite E. change (0 / 256) with 0. change (0 mod 256) with 0. lia.
Qed.

Lemma ip4v_checksum i a b n : ip4_in i a b -> ~ checksum_ok (ip4v i a b n).
Proof.
  intros Hi. pose proof Hi as (Hs & Hd & I1 & I2 & I3 & I4 & I5).
  pose proof (ipv4_ok _ _ Hs) as Os. pose proof (ipv4_ok _ _ Hd) as Od.
  pose proof (ipv4_len _ _ Hs) as Ls. pose proof (ipv4_len _ _ Hd) as Ld.
  assert (V : N.lor 64 (ip_ihl i) < 256) by (apply lor_byte; [reflexivity|auto]).
  set (old := ip4h i 17 a b (20 + n)).
  assert (Eo : old = ip4b (N.lor 64 (ip_ihl i)) (ip_tos i) (N.of_nat (20 + n)) (ip_id i) (ip_frag i)
    (ip_ttl i) 17 (csum old) a b) by reflexivity.
  assert (Lo : length old = 20%nat) by (apply ip4h_len; auto).
  assert (Lc : csum old < 65536) by (pose proof (csum_le old); lia).
  destruct (self_checksum ([N.lor 64 (ip_ihl i)] ++ [ip_tos i] ++ to_be 2 (N.of_nat (20 + n)) ++ to_be 2 (ip_id i) ++
    to_be 2 (ip_frag i) ++ [ip_ttl i] ++ [17]) (csum old) (a ++ b) old) as ((k & K) & _); auto; [bok|bok|].
  assert (B : exists dl, (dl = 0 \/ dl = 1) /\ other_words old + csum old = (k + 1) * 65535 + dl).
  { destruct (_ <? _) in K; eauto. }
  clear K. destruct B as (dl & Hdl & K).
  unfold ip4v. fold old. set (new := ip4b _ _ _ _ _ _ _ _ _ _).
  assert (En : new = ([N.lor 64 (ip_ihl i)] ++ [ip_tos i] ++ to_be 2 (N.of_nat (20 + n + 16)) ++ to_be 2 (ip_id i) ++
    to_be 2 (ip_frag i) ++ [ip_ttl i] ++ [17]) ++ to_be 2 (csum old) ++ (a ++ b))
    by (unfold new, ip4b; rewrite <- !app_assoc; reflexivity).
  assert (W : checksum_ok new <-> exists k, other_words new + csum old = (k + 1) * 65535).
  { rewrite En. apply checksum_ok_iff; auto; [bok|bok]. }
  rewrite W. intros (k' & K').
  assert (E1 : other_words old = other_words (ip4b (N.lor 64 (ip_ihl i)) (ip_tos i) 0 (ip_id i) (ip_frag i)
    (ip_ttl i) 17 (csum old) a b) + N.of_nat (20 + n) mod 65536) by (rewrite Eo at 1; apply other_words_len; auto).
  assert (E2 : other_words new = other_words (ip4b (N.lor 64 (ip_ihl i)) (ip_tos i) 0 (ip_id i) (ip_frag i)
    (ip_ttl i) 17 (csum old) a b) + N.of_nat (20 + n + 16) mod 65536) by (apply other_words_len; auto).
  rewrite Nat2N.inj_add in E2. set (t := N.of_nat (20 + n)) in *. change (N.of_nat 16) with 16 in E2.
  assert (M : (t + 16) mod 65536 = t mod 65536 + 16 \/ (t + 16) mod 65536 + 65520 = t mod 65536).
  { rewrite N.add_mod by discriminate. change (16 mod 65536) with 16.
    pose proof (N.mod_lt t 65536 ltac:(discriminate)). set (u := t mod 65536) in *. clearbody u.
    destruct (N.lt_ge_cases (u + 16) 65536) as [L|L]; [left; apply N.mod_small; auto|right].
    replace (u + 16) with (u - 65520 + 1 * 65536) by lia. rewrite N.mod_add, N.mod_small by lia. lia. }
  clearbody old new t. lia.
Qed.

Lemma ip4v_diagram i a b n : ip4_in i a b ->
  diagram (ip4v i a b n) (ip4_fields i 17 a b (36 + n) (csum (ip4h i 17 a b (20 + n)))).
Proof.
  intros Hi. unfold ip4v. replace (20 + n + 16)%nat with (36 + n)%nat by lia.
  apply ip4b_diagram; auto; [reflexivity|]. pose proof (csum_le (ip4h i 17 a b (20 + n))). lia.
Qed.

(** What is built; the lengths are right, the checksum never is. *)
Theorem C46_vxlan : forall m e i dst src vni q h d s a b v, eth_in e d s -> ip4_in i a b ->
  dst < 65536 -> src < 65536 -> to_vec q h = (Ret v, h) ->
  exists es x y z c, ether_part e d s 0x0800 es /\
    diagram x (ip4_fields i 17 a b (length (seg_bytes [(IPv4, x); (UDP, y); (Vxlan, z)] ++ v)) c) /\
    diagram y (udp_fields src dst (length (seg_bytes [(UDP, y); (Vxlan, z)] ++ v)) 0) /\
    diagram z (vxlan_fields vni) /\
    packet_new (create_vxlan_packet m e i dst src vni q h) h (es ++ [(IPv4, x); (UDP, y); (Vxlan, z)]) v /\
    ~ checksum_ok x.
Proof.
  intros m e i dst src vni q h d s a b v He Hi Hd Hs Hq.
  rewrite (vxlan_run m e d s h He i a b Hi dst src vni q v Hq).
  exists (eth_segs e d s 0x800). do 4 eexists. split; [apply eth_part; auto; reflexivity|].
  assert (L1 : length (ip4v i a b (length v)) = 20%nat) by (eapply diagram_len; [apply ip4v_diagram; auto|reflexivity]).
  split; [|split; [|split; [apply vxlan_diagram|split; [apply made_new|apply ip4v_checksum; auto]]]].
  - replace (length (_ ++ v)) with (36 + length v)%nat; [apply ip4v_diagram; auto|].
    rewrite app_length. flat. rewrite !app_length, L1. unfold udp_bytes, vxlan_bytes.
    rewrite !app_length, !to_be_length. lia.
  - replace (length (_ ++ v)) with (16 + length v)%nat; [apply udp_diagram; auto; reflexivity|].
    rewrite app_length. flat. rewrite !app_length. unfold udp_bytes, vxlan_bytes.
    rewrite !app_length, !to_be_length. lia.
Qed.
Print Assumptions C46_vxlan.

(** So the claim about the checksum is false for all arguments. A witness. *)
Theorem C46_checksum_refuted : exists e i d s a b q h p h' r x, eth_in e d s /\ ip4_in i a b /\
  create_vxlan_packet Debug e i 4789 1000 5 q h = (Ret p, h') /\
  get_header IPv4 p "IPv4" = Some (Hdr IPv4 r) /\ cell_at h' r x /\ ~ checksum_ok x.
Proof.
  exists ex_eth, ex_ip4. do 4 eexists. exists ex_inner, ex_inner_heap. do 4 eexists.
  split; [exact ex_eth_in|]. split; [exact ex_ip4_in|]. split; [vm_compute; reflexivity|].
  split; [reflexivity|]. split; [vm_compute; reflexivity|]. vm_compute. discriminate.
Qed.
Print Assumptions C46_checksum_refuted.

(** With the VXLAN port, parsing goes on with the inner packet as an Ethernet
    frame; with another port, the payload starts at the VXLAN header. *)
Theorem C46_parse : forall m e i dst src vni q h d s a b v, eth_in e d s -> ip4_in i a b ->
  dst < 65536 -> src < 65536 -> to_vec q h = (Ret v, h) -> bytes_ok v ->
  exists p h' segs x, create_vxlan_packet m e i dst src vni q h = (Ret p, h') /\
    holds h' (p_hdrs p) (segs ++ [(Vxlan, x)]) /\
    (dst <> 4789 -> parses_as (Ret p, h') segs (x ++ v)) /\
    (dst = 4789 -> forall gs pl, wire F_ethernet v gs pl ->
       parses_as (Ret p, h') (segs ++ [(Vxlan, x)] ++ reported gs) pl) /\
    (dst = 4789 -> cut F_ethernet v -> parse_panics (Ret p, h')).
Proof.
  intros m e i dst src vni q h d s a b v He Hi Hd Hs Hq Ov.
  rewrite (vxlan_run m e d s h He i a b Hi dst src vni q v Hq).
  set (es := eth_segs e d s 0x800). set (x := ip4v i a b (length v)). set (y := udp_bytes src dst (16 + length v) 0).
  set (z := vxlan_bytes vni). set (l := es ++ [(IPv4, x); (UDP, y); (Vxlan, z)]).
  exists (mpkt h l v), (mheap h l), (es ++ [(IPv4, x); (UDP, y)]), z. split; [reflexivity|].
  assert (El : l = (es ++ [(IPv4, x); (UDP, y)]) ++ [(Vxlan, z)]) by (unfold l; rewrite <- app_assoc; reflexivity).
  split; [exact (eq_ind l (fun L => holds (mheap h l) _ L) (holds_made h l) _ El)|].
  pose proof (ip4v_diagram i a b (length v) Hi) as Dx. fold x in Dx.
  pose proof (udp_diagram src dst (16 + length v) 0 Hs Hd eq_refl) as Dy. fold y in Dy.
  pose proof (vxlan_diagram vni) as Dz. fold z in Dz.
  assert (O : bytes_ok (seg_bytes l ++ v)).
  { unfold l. flat. rewrite !bytes_ok_app. split; [apply eth_segs_ok; auto; reflexivity|].
    split; [apply Dx|]. split; [apply Dy|]. split; [apply Dz|auto]. }
  pose proof (packet_new_is _ _ _ _ (made_new h l v)) as P.
  assert (Lx : length x = 20%nat) by (eapply diagram_len; [exact Dx|reflexivity]).
  assert (L : leads F_parse (seg_bytes l ++ v) F_udp (y ++ z ++ v) (groups es ++ groups [(IPv4, x)])).
  { unfold l. flat. eapply leads_trans; [apply leads_eth; auto; [reflexivity|discriminate]|].
    apply leads_plain; auto. }
  rewrite <- groups_app in L. change (Ret (mpkt h l v), mheap h l) with (made h l v).
  split; [|split].
  - intros Hn. assert (L2 : leads F_udp (y ++ z ++ v) F_accept (z ++ v) (groups [(UDP, y)])).
    { apply leads_plain; auto. apply udp_demux; auto. }
    pose proof (packet_parses _ _ _ _ _ _ P O (proj1 (leads_trans _ _ _ _ _ _ _ _ L L2) _ _ (W_accept _))) as R.
    rewrite <- groups_app, app_nil_r, reported_only, <- app_assoc in R. exact R.
  - intros -> gs pl W.
    assert (L2 : leads F_udp (y ++ z ++ v) F_vxlan (z ++ v) (groups [(UDP, y)])) by (apply leads_plain; auto; apply udp_vxlan).
    assert (L3 : leads F_vxlan (z ++ v) F_ethernet v (groups [(Vxlan, z)])) by (apply leads_plain; auto).
    pose proof (packet_parses _ _ _ _ _ _ P O (proj1 (leads_trans _ _ _ _ _ _ _ _
      (leads_trans _ _ _ _ _ _ _ _ L L2) L3) _ _ W)) as R.
    rewrite <- !groups_app, reported_groups, <- !app_assoc in R. rewrite <- !app_assoc. exact R.
  - intros -> C.
    assert (L2 : leads F_udp (y ++ z ++ v) F_vxlan (z ++ v) (groups [(UDP, y)])) by (apply leads_plain; auto; apply udp_vxlan).
    assert (L3 : leads F_vxlan (z ++ v) F_ethernet v (groups [(Vxlan, z)])) by (apply leads_plain; auto).
    exact (packet_panics _ _ _ _ P O (proj2 L (proj2 L2 (proj2 L3 C)))).
Qed.
Print Assumptions C46_parse.

Lemma holds_app h a b A B : holds h a A -> holds h b B -> holds h (a ++ b) (A ++ B).
Proof. apply Forall2_app. Qed.
Lemma holds_grow h l hs ss : holds h hs ss -> holds (h ++ l) hs ss.
Proof.
  intros H. induction H as [|x s hs ss [T C] F IH]; constructor; auto. split; auto.
  unfold cell_at in *. rewrite nth_error_app1; [exact C|]. apply nth_error_Some. congruence.
Qed.
Lemma says_add n k j : says (n + k) (n + k + j) <-> says 0 j.
Proof.
  unfold says. rewrite !Nat2N.inj_add. set (t := N.of_nat n + N.of_nat k). set (u := N.of_nat j). clearbody t u.
  change (N.of_nat 0 mod 65536) with 0. rewrite N.add_mod by discriminate.
  pose proof (N.mod_lt t 65536 ltac:(discriminate)). pose proof (N.mod_lt u 65536 ltac:(discriminate)).
  set (t' := t mod 65536) in *. set (u' := u mod 65536) in *. clearbody t' u'.
  destruct (N.lt_ge_cases (t' + u') 65536) as [L|L].
  - rewrite N.mod_small by auto. lia.
  - replace (t' + u') with (t' + u' - 65536 + 1 * 65536) by lia. rewrite N.mod_add, N.mod_small by lia. lia.
Qed.
Lemma says_sym n k : says n k <-> says k n.
Proof. unfold says. split; congruence. Qed.

(** The IPv6 variant appends the inner headers to the packet although the
    payload already contains them, so it carries them twice; the IPv6 payload
    length and the UDP length count them once. *)
Theorem C46_vxlanv6 : forall m ip6 e i dst src vni q h d s a b isegs, eth_in e d s -> ip6_in i ip6 a b ->
  dst < 65536 -> src < 65536 -> holds h (p_hdrs q) isegs ->
  exists es x y z n, ether_part e d s 0x86DD es /\
    diagram x (ip6_fields i 17 a b n) /\ diagram y (udp_fields src dst n 0xffff) /\ diagram z (vxlan_fields vni) /\
    n = (16 + length (seg_bytes isegs ++ p_payload q))%nat /\
    packet_is (create_vxlanv6_packet m ip6 e i dst src vni q h) h
      (es ++ [(IPv6, x); (UDP, y); (Vxlan, z)] ++ isegs) (seg_bytes isegs ++ p_payload q) /\
    (says n (length (seg_bytes ([(UDP, y); (Vxlan, z)] ++ isegs) ++ seg_bytes isegs ++ p_payload q)) <->
     says 0 (length (seg_bytes isegs))).
Proof.
  intros m ip6 e i dst src vni q h d s a b isegs He Hi Hd Hs Hq.
  pose proof (holds_vec _ _ _ Hq) as V. set (v := seg_bytes isegs ++ p_payload q) in *.
  rewrite (vxlanv6_run m e d s h He ip6 i a b Hi dst src vni q v V).
  exists (eth_segs e d s 0x86DD). do 3 eexists. exists (16 + length v)%nat.
  split; [apply eth_part; auto; reflexivity|].
  split; [apply ip6h_diagram with (ip6 := ip6); auto; reflexivity|].
  split; [apply udp_diagram; auto; reflexivity|]. split; [apply vxlan_diagram|]. split; [reflexivity|].
  split.
  - eexists. exists (cells (vx6_segs e d s i a b src dst vni (length v))). split; [reflexivity|]. cbn [p_hdrs p_payload].
    split; [|reflexivity]. rewrite app_assoc. apply holds_app; [|apply holds_grow; auto].
    replace (16 + length v)%nat with (length v + 16)%nat at 1 by lia. apply holds_made.
  - rewrite app_length. flat. rewrite !app_length. unfold udp_bytes at 1, vxlan_bytes at 1.
    rewrite !app_length, !to_be_length.
    replace (_ + _ + length v)%nat with (16 + length v + length (seg_bytes isegs))%nat by lia. apply says_add.
Qed.
Print Assumptions C46_vxlanv6.

(** "The inner packet is carried once" is false: a witness, which also parses
    wrongly. *)
Theorem C46_vxlanv6_refuted : exists m ip6 e i d s a b q h p h' w, eth_in e d s /\ ip6_in i ip6 a b /\
  create_vxlanv6_packet m ip6 e i 4789 1000 5 q h = (Ret p, h') /\
  to_vec q h = (Ret w, h) /\ p_payload p = w /\
  map hname (p_hdrs q) = ["Ether"]%string /\
  map hname (p_hdrs p) = ["Ether"; "Vlan"; "IPv6"; "UDP"; "Vxlan"; "Ether"]%string /\
  exists v, to_vec p h' = (Ret v, h') /\ length v = (14 + 4 + 40 + 8 + 8 + 14 + 16)%nat /\
    length w = 16%nat /\ exists q' h3, slow m F_parse v [] = (Ret q', h3) /\ p_payload q' = w.
Proof.
  exists Debug, ex_parse6, ex_eth, ex_ip6. do 4 eexists.
  exists (Pkt [Hdr Ether 0] [1; 2]), [Cell (repeat 3 14) false]. do 3 eexists.
  split; [exact ex_eth_in|]. split; [exact ex_ip6_in|]. split; [vm_compute; reflexivity|].
  split; [reflexivity|]. split; [reflexivity|]. split; [reflexivity|]. split; [reflexivity|].
  eexists. split; [vm_compute; reflexivity|]. split; [reflexivity|]. split; [reflexivity|].
  do 2 eexists. split; [vm_compute; reflexivity|]. reflexivity.
Qed.
Print Assumptions C46_vxlanv6_refuted.

Example C46_example : exists p h', create_vxlan_packet Debug ex_eth ex_ip4 4789 1000 5
    (Pkt [Hdr Ether 0] [1; 2]) [Cell (repeat 8 14) false] = (Ret p, h') /\
  exists v, to_vec p h' = (Ret v, h') /\ exists q h3, slow Debug F_parse v [] = (Ret q, h3) /\
    map hname (p_hdrs q) = ["Ether"; "Vlan"; "IPv4"; "UDP"; "Vxlan"; "Ether"]%string /\ p_payload q = [1; 2].
Proof.
  do 2 eexists. split; [vm_compute; reflexivity|]. eexists. split; [vm_compute; reflexivity|].
  do 2 eexists. split; [vm_compute; reflexivity|]. split; reflexivity.
Qed.

(** ** C47 *)

Lemma gre_proto_of_ok b0 : b0 < 256 -> gre_inner_proto b0 = gre_proto_of b0.
Proof.
  intros H. pose proof (bytes1 (fun b0 => gre_inner_proto b0 =? gre_proto_of b0)
    ltac:(vm_compute; reflexivity) b0 H) as G. apply N.eqb_eq in G. exact G.
Qed.
Definition greb (g : gre_args) (proto : N) : list N :=
  gre_bytes (gre_chksum_present g) (gre_routing_present g) (gre_key_present g)
    (gre_seqnum_present g) (gre_strict_route_src g) (gre_flags g) (gre_version g) proto.
Lemma greb_diagram g proto : gre_in g -> proto < 65536 -> diagram (greb g proto) (gre_fields g proto).
Proof.
  intros (H1 & H2 & _) Hp. unfold greb, gre_bytes, gre_fields.
  apply (diagram_app _ _ [_; _; _; _; _; _]).
  { destruct (gre_chksum_present g), (gre_routing_present g), (gre_key_present g), (gre_seqnum_present g),
      (gre_strict_route_src g); cbn [b2n]; (apply diagram_byte; [reflexivity|fits_tac|reflexivity]). }
  apply (diagram_app _ _ [_; _]).
  { pose proof (bytes2 (fun o r => (N.lor (shl8 o 3) r =? N.lor (o mod 32) (r / 8) * 8 + r mod 8)
      && (N.lor (o mod 32) (r / 8) <? 32)) ltac:(vm_compute; reflexivity) _ _ H1 H2) as G. cbv beta in G.
    apply andb_true_iff in G as [G1 G2]. apply N.eqb_eq in G1. apply N.ltb_lt in G2. rewrite G1.
    assert (gre_version g mod 8 < 8) by (apply N.mod_lt; discriminate).
    set (p := N.lor _ _) in *. set (q := gre_version g mod 8) in *. clearbody p q.
    apply diagram_byte; [reflexivity|fits_tac|]. pack_tac. lia. }
  apply (diag1 2); auto.
Qed.
Lemma gre_opts_words g : gre_in g -> headers_are (gre_opts g) (gre_words g).
Proof.
  intros (_ & _ & H1 & H2 & H3 & H4). unfold gre_opts, gre_words, headers_are.
  apply Forall2_app; [|apply Forall2_app].
  - destruct (gre_chksum_present g); constructor; [|constructor]. split; [reflexivity|].
    apply (diagram_app _ _ [_]); apply (diag1 2); auto.
  - destruct (gre_key_present g); constructor; [|constructor]. split; [reflexivity|]. apply (diag1 4); auto.
  - destruct (gre_seqnum_present g); constructor; [|constructor]. split; [reflexivity|]. apply (diag1 4); auto.
Qed.
Lemma greb_options g proto : options F_gre (greb g proto) = map fst (gre_opts g).
Proof.
  unfold options, gre_opts, greb, gre_bytes.
  destruct (gre_chksum_present g), (gre_routing_present g), (gre_key_present g), (gre_seqnum_present g),
    (gre_strict_route_src g); reflexivity.
Qed.
Lemma greb_proto g proto rest : proto < 65536 -> demux F_gre (greb g proto) rest = Some (entry gre_protocols proto).
Proof.
  intros Hp. cbn [demux]. do 2 f_equal. unfold greb, gre_bytes.
  match goal with |- context [[?p] ++ [?q] ++ to_be 2 proto] => pose proof (sub_mid [p; q] (to_be 2 proto) []) as E end.
  rewrite app_nil_r, to_be_length in E. cbn [length app] in *. rewrite E. apply be_2; auto.
Qed.
Lemma seg_split (l : list seg) : combine (map fst l) (map snd l) = l.
Proof. induction l as [|[T x] l IH]; [reflexivity|]. cbn [map combine fst snd]. rewrite IH. reflexivity. Qed.

Lemma headers_ok l ws : headers_are l ws -> bytes_ok (seg_bytes l).
Proof.
  intros H. induction H as [|[T x] w l ws [_ D] F IH]; [constructor|]. rewrite seg_bytes_cons.
  apply bytes_ok_app. split; [apply D|auto].
Qed.
Lemma gre_opts_sizes g : map (@length N) (map snd (gre_opts g)) = map ht_size (map fst (gre_opts g)).
Proof.
  unfold gre_opts. destruct (gre_chksum_present g), (gre_key_present g), (gre_seqnum_present g);
    cbn [app map snd fst]; rewrite ?app_length, ?to_be_length; reflexivity.
Qed.

(** Both forms of the inner packet: given, with first byte [b0]; absent. *)
Definition gre_inner (q : option packet) (h : heap) (proto : N) (f : pfun) (v : list N) : Prop :=
  match q with
  | Some p => exists b0 t, v = b0 :: t /\ to_vec p h = (Ret v, h) /\ proto = gre_proto_of b0 /\ f = gre_entry b0
  | None => v = [] /\ proto = 0 /\ f = F_accept
  end.

Theorem C47_gre : forall m e i g q h d s a b proto f v, eth_in e d s -> ip4_in i a b -> gre_in g ->
  gre_inner q h proto f v -> bytes_ok v ->
  exists es x y os n, ether_part e d s 0x0800 es /\ ip4_header i 47 a b n x /\
    diagram y (gre_fields g proto) /\
    (** the options in RFC order, as the flags announce *)
    headers_are os (gre_words g) /\ options F_gre y = map fst os /\
    packet_new (create_gre_packet m e i g q h) h (es ++ [(IPv4, x); (GRE, y)] ++ os) v /\
    (** the length is right exactly when no routing bytes are given *)
    n = (length (seg_bytes ([(IPv4, x); (GRE, y)] ++ os) ++ v) + routing_len g)%nat /\
    (says n (length (seg_bytes ([(IPv4, x); (GRE, y)] ++ os) ++ v)) <-> says 0 (routing_len g)) /\
    (** parsing goes on with the inner packet; options come back reversed *)
    (forall gs pl, wire f v gs pl ->
       parses_as (create_gre_packet m e i g q h) (es ++ [(IPv4, x); (GRE, y)] ++ rev os ++ reported gs) pl) /\
    (cut f v -> parse_panics (create_gre_packet m e i g q h)).
Proof.
  intros m e i g q h d s a b proto f v He Hi Hg Hq Ov.
  assert (R : proto < 65536 /\ entry gre_protocols proto = f /\
    create_gre_packet m e i g q h = gre_body m e i g proto v h).
  { destruct q as [p|].
    - destruct Hq as (b0 & t & -> & V & -> & ->).
      assert (E : entry gre_protocols (gre_proto_of b0) = gre_entry b0).
      { unfold gre_proto_of, gre_entry. destruct (_ =? 4); [reflexivity|]. destruct (_ =? 6); reflexivity. }
      split; [unfold gre_proto_of; destruct (_ =? 4); [reflexivity|]; destruct (_ =? 6); reflexivity|].
      split; [exact E|]. rewrite <- gre_proto_of_ok by (inversion Ov; auto). apply gre_run. exact V.
    - destruct Hq as (-> & -> & ->). split; [reflexivity|]. split; [reflexivity|]. apply gre_run_none. }
  destruct R as (Hp & Hf & ->). rewrite (gre_body_run m e d s h He i a b Hi g proto v). fold (greb g proto).
  set (n := (20 + length v + _)%nat).
  set (x := ip4h _ _ _ _ _). set (es := eth_segs e d s 0x800). set (y := greb g proto). set (os := gre_opts g).
  assert (Hx : ip4_header i 47 a b n x) by (apply ip4h_header; auto; reflexivity).
  pose proof (greb_diagram g proto Hg Hp) as Dy. fold y in Dy.
  pose proof (gre_opts_words g Hg) as Do. fold os in Do.
  assert (Lx : length x = 20%nat) by (apply ip4h_len; auto).
  assert (Ly : length y = 4%nat) by (eapply diagram_len; [exact Dy|reflexivity]).
  exists es, x, y, os, n. split; [apply eth_part; auto; reflexivity|]. split; [exact Hx|]. split; [exact Dy|].
  split; [exact Do|]. split; [apply greb_options|]. split; [apply made_new|].
  assert (En : n = (length (seg_bytes ([(IPv4, x); (GRE, y)] ++ os) ++ v) + routing_len g)%nat).
  { rewrite app_length. flat. rewrite !app_length, Lx, Ly. unfold n, os, gre_extra, routing_len. lia. }
  split; [exact En|]. split.
  { rewrite En, says_sym. pose proof (says_add 0 (length (seg_bytes ([(IPv4, x); (GRE, y)] ++ os) ++ v)) (routing_len g)) as Q.
    exact Q. }
  set (l := es ++ [(IPv4, x); (GRE, y)] ++ os).
  pose proof (packet_new_is _ _ _ _ (made_new h l v)) as P.
  assert (O : bytes_ok (seg_bytes l ++ v)).
  { unfold l. flat. rewrite !bytes_ok_app. split; [apply eth_segs_ok; auto; reflexivity|].
    split; [destruct Hx as (c & [Ox _] & _); exact Ox|]. split; [apply Dy|]. split; [eapply headers_ok; eauto|auto]. }
  assert (L : leads F_parse (seg_bytes l ++ v) f v (groups es ++ groups [(IPv4, x)] ++ [[(GRE, y)]; os])).
  { unfold l. flat. eapply leads_trans; [apply leads_eth; auto; [reflexivity|discriminate]|eapply leads_trans].
    - apply leads_ip4; auto. reflexivity.
    - unfold seg_bytes. rewrite <- (seg_split os) at 2. cbn [entry]. rewrite <- Hf.
      apply (leads_options F_gre GRE); auto; [apply greb_options|apply gre_opts_sizes|apply greb_proto; auto]. }
  split.
  - intros gs pl W. pose proof (packet_parses _ _ _ _ _ _ P O (proj1 L _ _ W)) as R.
    rewrite <- !app_assoc, !reported_groups in R.
    unfold reported in R. cbn [app map concat rev] in R. exact R.
  - intros C. exact (packet_panics _ _ _ _ P O (proj2 L C)).
Qed.
Print Assumptions C47_gre.

(** An inner packet without bytes panics. *)
Theorem C47_empty : forall m e i g q h, to_vec q h = (Ret [], h) ->
  create_gre_packet m e i g (Some q) h = (Panic PIndex, h).
Proof.
  intros m e i g q h Hq. unfold create_gre_packet. rewrite bind_assoc, (bind_ret _ _ _ _ _ Hq). reflexivity.
Qed.
Print Assumptions C47_empty.

Definition ex_gre (routing : bool) : gre_args :=
  GreA true routing true true false 0 0 7 8 9 10 (if routing then [1; 2; 3] else []).
(** Three routing bytes: counted in the length but not sent. *)
Theorem C47_routing_refuted : exists p h' r x v,
  create_gre_packet Debug ex_eth ex_ip4 (ex_gre true) None [] = (Ret p, h') /\
  get_header IPv4 p "IPv4" = Some (Hdr IPv4 r) /\ cell_at h' r x /\ to_vec p h' = (Ret v, h') /\
  field_val x IPv4_total_len = 39 /\ (length v - 18 = 36)%nat.
Proof.
  do 5 eexists. split; [vm_compute; reflexivity|]. split; [reflexivity|]. split; [reflexivity|].
  split; [vm_compute; reflexivity|]. split; reflexivity.
Qed.
Print Assumptions C47_routing_refuted.

Example C47_example : exists p h', create_gre_packet Debug ex_eth ex_ip4 (ex_gre false)
    (Some ex_inner) ex_inner_heap = (Ret p, h') /\
  map hname (p_hdrs p) = ["Ether"; "Vlan"; "IPv4"; "GRE"; "GREChksumOffset"; "GREKey"; "GRESequenceNum"]%string /\
  exists v, to_vec p h' = (Ret v, h') /\ exists q h3, slow Debug F_parse v [] = (Ret q, h3) /\
    map hname (p_hdrs q) = ["Ether"; "Vlan"; "IPv4"; "GRE"; "GRESequenceNum"; "GREKey"; "GREChksumOffset";
      "IPv4"; "TCP"]%string /\ p_payload q = [7; 7].
Proof.
  do 2 eexists. split; [vm_compute; reflexivity|]. split; [reflexivity|]. eexists. split; [vm_compute; reflexivity|].
  do 2 eexists. split; [vm_compute; reflexivity|]. split; reflexivity.
Qed.
Example C47_example_in : forall r, gre_in (ex_gre r).
Proof. intros []; repeat split. Qed.

(** ** C48 *)

Lemma inner_vec h q isegs ipl : inner_is h q isegs ipl -> opt_to_vec q h = (Ret (seg_bytes isegs ++ ipl), h).
Proof.
  destruct q as [p|]; cbn [inner_is opt_to_vec].
  - intros [H <-]. apply holds_vec. exact H.
  - intros [-> ->]. reflexivity.
Qed.
Lemma inner_len h q isegs ipl : inner_is h q isegs ipl -> opt_len q = nominal_len isegs ipl.
Proof.
  destruct q as [p|]; cbn [inner_is opt_len]; unfold nominal_len.
  - intros [H <-]. unfold pkt_len. f_equal. induction H as [|x s hs ss [T _] F IH]; [reflexivity|].
    cbn [map list_sum fold_right]. unfold list_sum in IH. rewrite IH. unfold hlen. rewrite T. reflexivity.
  - intros [-> ->]. reflexivity.
Qed.
Lemma inner_holds h q isegs ipl : inner_is h q isegs ipl -> holds h (opt_hdrs q) isegs.
Proof. destruct q as [p|]; cbn [inner_is opt_hdrs]; [intros [H _]; exact H|intros [-> _]; constructor]. Qed.
Lemma sized_len isegs ipl : sized isegs -> nominal_len isegs ipl = length (seg_bytes isegs ++ ipl).
Proof.
  intros H. unfold nominal_len. rewrite app_length. f_equal.
  induction H as [|[T x] l Hx F IH]; [reflexivity|]. rewrite seg_bytes_cons, app_length, <- IH. cbn [snd] in Hx. rewrite Hx. reflexivity.
Qed.

Lemma er_gre_diagram fl proto : proto < 65536 -> diagram (er_gre fl proto) (er_gre_fields fl proto).
Proof.
  intros Hp. unfold er_gre, er_gre_fields.
  change ([if fl then 16 else 0; 0] ++ to_be 2 proto) with ([if fl then 16 else 0] ++ [0] ++ to_be 2 proto).
  apply (diagram_app _ _ [_; _; _; _; _; _]).
  { destruct fl; cbn [b2n]; (apply diagram_byte; [reflexivity|fits_tac|reflexivity]). }
  apply (diagram_app _ _ [_; _]); [|apply (diag1 2); auto].
  apply diagram_byte; [reflexivity|fits_tac|reflexivity].
Qed.
Lemma er_seq_words n : n < 2 ^ 32 -> headers_are (er_seq n) (seq_words n).
Proof.
  intros H. unfold er_seq, seq_words. destruct (n =? 0); constructor; [|constructor].
  split; [reflexivity|]. apply (diag1 4); auto.
Qed.
Lemma er_seq_options n proto : options F_gre (er_gre (negb (n =? 0)) proto) = map fst (er_seq n).
Proof. unfold er_seq. destruct (n =? 0); reflexivity. Qed.
Lemma er_seq_sizes n : map (@length N) (map snd (er_seq n)) = map ht_size (map fst (er_seq n)).
Proof. unfold er_seq. destruct (negb _); reflexivity. Qed.
Lemma er_seq_rev n : rev (er_seq n) = er_seq n.
Proof. unfold er_seq. destruct (negb _); reflexivity. Qed.
Lemma er_gre_proto fl proto rest : proto < 65536 ->
  demux F_gre (er_gre fl proto) rest = Some (entry gre_protocols proto).
Proof.
  intros Hp. cbn [demux]. do 2 f_equal. unfold er_gre.
  pose proof (sub_mid [if fl then 16 else 0; 0] (to_be 2 proto) []) as E.
  rewrite app_nil_r, to_be_length in E. cbn [length] in E. rewrite E. apply be_2; auto.
Qed.

Lemma er2_diagram xa idx : er_in xa -> idx < 2 ^ 20 -> diagram (er2_bytes xa idx) (er2_fields xa idx).
Proof.
  intros (H1 & H2 & H3 & H4 & H5) Hi.
  destruct (C30_erspan2 _ _ _ _ _ _ [] H1 H2 H3 H4 H5 Hi) as (b & E & _ & D & _).
  assert (b = er2_bytes xa idx) as <-; [|exact D].
  unfold erspan2 in E. rewrite (builds_hfrom ERSPAN2 _ []) in E. injection E as <-. reflexivity.
Qed.
Lemma er3_diagram xa ts sgt other : er_in xa -> ts < 2 ^ 32 -> sgt < 65536 -> other < 65536 ->
  diagram (er3_bytes xa ts sgt other) (er3_fields xa ts sgt other).
Proof.
  intros (H1 & H2 & H3 & H4 & H5) Ht Hs Ho. unfold er3_bytes, er3_fields.
  rewrite erspan_b2_val by auto. rewrite erspan_b1_val by (auto; reflexivity).
  apply (diagram_app _ _ [_; _]).
  { apply diagram_word; [reflexivity|fits_tac|]. pack_tac. lia. }
  apply (diagram_app _ _ [_; _; _; _]).
  { apply diagram_word; [reflexivity|fits_tac|]. pack_tac. lia. }
  apply (diagram_app _ _ [_]); [apply (diag1 4); auto|].
  apply (diagram_app _ _ [_]); [apply (diag1 2); auto|]. apply (diag1 2); auto.
Qed.
Lemma land_1_odd n : (N.land n 1 =? 1) = N.odd n.
Proof.
  change 1 with (N.ones 1) at 1. rewrite N.land_ones. change (2 ^ 1) with 2.
  rewrite <- N.bit0_odd, N.testbit_eqb. change (2 ^ 0) with 1. rewrite N.div_1_r. reflexivity.
Qed.
Lemma er_plat_words other id info : id < 256 -> info < 2 ^ 64 ->
  headers_are (er_plat other id info) (plat_words other id info).
Proof.
  intros Hid Hin. unfold er_plat, plat_words. rewrite land_1_odd. destruct (N.odd other); constructor; [|constructor].
  split; [reflexivity|]. cbn [snd].
  assert (E1 : shl64 id 58 = id mod 64 * 2 ^ 58).
  { unfold shl64, u64. rewrite N.shiftl_mul_pow2. change (2 ^ 64) with (64 * 2 ^ 58).
    apply N.mul_mod_distr_r; discriminate. }
  assert (M : id mod 64 < 64) by (apply N.mod_lt; discriminate).
  assert (R : info mod 2 ^ 58 < 2 ^ 58) by (apply N.mod_lt; discriminate).
  assert (Q : info / 2 ^ 58 < 64) by (apply N.div_lt_upper_bound; [discriminate|exact Hin]).
  assert (B : N.lor (id mod 64) (info / 2 ^ 58) < 64) by (apply (lor_lt _ _ 6); auto).
  assert (E : N.lor (shl64 id 58) info = N.lor (id mod 64) (info / 2 ^ 58) * 2 ^ 58 + info mod 2 ^ 58).
  { rewrite E1, <- lor_split by auto. f_equal. rewrite (N.div_mod info (2 ^ 58)) at 1 by discriminate. lia. }
  rewrite E. set (p := N.lor _ _) in *. set (r := info mod 2 ^ 58) in *. clearbody p r.
  apply diagram_word; [reflexivity| |].
  - constructor; [exact B|]. constructor; [exact R|constructor].
  - unfold pack, widths. cbn [map fst list_sum fold_right Nat.add]. change (N.of_nat 58) with 58.
    change (N.of_nat 0) with 0. rewrite N.pow_0_r. lia.
Qed.
Lemma er_plat_options xa ts sgt other id info :
  options F_erspan3 (er3_bytes xa ts sgt other) = map fst (er_plat other id info).
Proof.
  unfold er_plat. rewrite land_1_odd.
  assert (E : bit (er3_bytes xa ts sgt other) 95 = N.odd other).
  { unfold er3_bytes, bit. change (95 / 8)%nat with 11%nat. change (N.of_nat (7 - 95 mod 8)) with 0.
    cbn [to_be app nth]. rewrite <- N.bit0_odd. change 256 with (2 ^ 8). apply N.mod_pow2_bits_low. reflexivity. }
  cbn [options]. rewrite E. destruct (N.odd other); reflexivity.
Qed.
Lemma er_plat_sizes other id info :
  map (@length N) (map snd (er_plat other id info)) = map ht_size (map fst (er_plat other id info)).
Proof. unfold er_plat. destruct (_ =? 1); reflexivity. Qed.
Lemma er_plat_rev other id info : rev (er_plat other id info) = er_plat other id info.
Proof. unfold er_plat. destruct (_ =? 1); reflexivity. Qed.

(** ERSPAN II: the headers are right and parse, the flag says whether there is a
    sequence word; the total length counts the inner packet twice. *)
Theorem C48_erspan2 : forall m e i seq xa idx q h d s a b isegs ipl, eth_in e d s -> ip4_in i a b ->
  seq < 2 ^ 32 -> inner_is h q isegs ipl -> bytes_ok (seg_bytes isegs ++ ipl) ->
  let v := seg_bytes isegs ++ ipl in
  let r := create_erspan_2_packet m e i seq xa idx q h in
  exists es x y os z n, ether_part e d s 0x0800 es /\ ip4_header i 47 a b n x /\
    diagram y (er_gre_fields (negb (seq =? 0)) 0x88BE) /\ headers_are os (seq_words seq) /\
    (er_in xa -> idx < 2 ^ 20 -> diagram z (er2_fields xa idx)) /\
    packet_new r h (es ++ [(IPv4, x); (GRE, y)] ++ os ++ [(ERSPAN2, z)]) v /\
    n = (length (seg_bytes ([(IPv4, x); (GRE, y)] ++ os ++ [(ERSPAN2, z)]) ++ v) + nominal_len isegs ipl)%nat /\
    (forall gs pl, wire F_ethernet v gs pl ->
       parses_as r (es ++ [(IPv4, x); (GRE, y)] ++ os ++ [(ERSPAN2, z)] ++ reported gs) pl) /\
    (cut F_ethernet v -> parse_panics r).
Proof.
  intros m e i seq xa idx q h d s a b isegs ipl He Hi Hs Hq Ov v r. unfold r.
  rewrite (erspan2_run m e d s h He i a b Hi seq xa idx q v (inner_vec _ _ _ _ Hq)).
  rewrite (inner_len _ _ _ _ Hq).
  set (n := (20 + length v + _)%nat).
  set (x := ip4h _ _ _ _ _). set (es := eth_segs e d s 0x800). set (y := er_gre _ _). set (os := er_seq seq).
  set (z := er2_bytes xa idx). set (l := es ++ [(IPv4, x); (GRE, y)] ++ os ++ [(ERSPAN2, z)]).
  assert (Hx : ip4_header i 47 a b n x) by (apply ip4h_header; auto; reflexivity).
  pose proof (er_gre_diagram (negb (seq =? 0)) 0x88BE eq_refl) as Dy. fold y in Dy.
  pose proof (er_seq_words seq Hs) as Do. fold os in Do.
  assert (Lx : length x = 20%nat) by (apply ip4h_len; auto).
  exists es, x, y, os, z, n. split; [apply eth_part; auto; reflexivity|]. split; [exact Hx|]. split; [exact Dy|].
  split; [exact Do|]. split; [apply er2_diagram|]. split; [apply made_new|].
  split.
  { rewrite app_length. flat. rewrite !app_length, Lx. unfold n, os. change (length y) with 4%nat.
    change (length z) with 8%nat. lia. }
  pose proof (packet_new_is _ _ _ _ (made_new h l v)) as P.
  assert (O : bytes_ok (seg_bytes l ++ v)).
  { unfold l. flat. rewrite !bytes_ok_app. split; [apply eth_segs_ok; auto; reflexivity|].
    split; [destruct Hx as (c & [Ox _] & _); exact Ox|]. split; [apply Dy|]. split; [eapply headers_ok; eauto|].
    split; [unfold z, er2_bytes; bok|auto]. }
  assert (L : leads F_parse (seg_bytes l ++ v) F_ethernet v
    (groups es ++ groups [(IPv4, x)] ++ [[(GRE, y)]; os] ++ groups [(ERSPAN2, z)])).
  { unfold l. flat. eapply leads_trans; [apply leads_eth; auto; [reflexivity|discriminate]|eapply leads_trans].
    - apply leads_ip4; auto. reflexivity.
    - eapply leads_trans.
      + unfold seg_bytes. rewrite <- (seg_split os) at 2.
        apply (leads_options F_gre GRE); auto; [apply er_seq_options|apply er_seq_sizes|apply er_gre_proto; reflexivity].
      + apply leads_plain; auto. }
  split.
  - intros gs pl W. pose proof (packet_parses _ _ _ _ _ _ P O (proj1 L _ _ W)) as R.
    rewrite <- !app_assoc, !reported_groups in R.
    unfold reported in R. cbn [app map concat rev groups] in R. change (rev os) with (rev (er_seq seq)) in R.
    rewrite er_seq_rev in R. exact R.
  - intros C. exact (packet_panics _ _ _ _ P O (proj2 L C)).
Qed.
Print Assumptions C48_erspan2.

(** So for an inner packet of [k] bytes the length is wrong unless [k] is a
    multiple of 65536. *)
Corollary C48_erspan2_length : forall isegs ipl k, sized isegs ->
  (says (k + nominal_len isegs ipl) k <-> says 0 (length (seg_bytes isegs ++ ipl))).
Proof.
  intros isegs ipl k Hs. rewrite (sized_len _ _ Hs), says_sym. exact (says_add 0 k _).
Qed.
Print Assumptions C48_erspan2_length.

(** ERSPAN III: the inner headers are carried twice, before and in the payload,
    and the total length counts headers and payload of the inner packet twice;
    the flag is the parity of the sequence number. *)
Theorem C48_erspan3 : forall m e i seq xa ts sgt other id info q h d s a b isegs ipl,
  eth_in e d s -> ip4_in i a b -> seq < 2 ^ 32 -> ts < 2 ^ 32 -> sgt < 65536 -> other < 65536 ->
  id < 256 -> info < 2 ^ 64 -> inner_is h q isegs ipl -> bytes_ok (seg_bytes isegs ++ ipl) ->
  let v := seg_bytes isegs ++ ipl in
  let r := create_erspan_3_packet m e i seq xa ts sgt other id info q h in
  exists es x y os z ps n, ether_part e d s 0x0800 es /\ ip4_header i 47 a b n x /\
    diagram y (er_gre_fields (N.odd seq) 0x22EB) /\ headers_are os (seq_words seq) /\
    (er_in xa -> diagram z (er3_fields xa ts sgt other)) /\ headers_are ps (plat_words other id info) /\
    packet_is r h (es ++ [(IPv4, x); (GRE, y)] ++ os ++ [(ERSPAN3, z)] ++ ps ++ isegs) v /\
    n = (length (seg_bytes ([(IPv4, x); (GRE, y)] ++ os ++ [(ERSPAN3, z)] ++ ps)) +
         length v + nominal_len isegs ipl)%nat /\
    (** with a right flag, the rest is read as an Ethernet frame *)
    ((seq = 0 \/ N.odd seq = true) ->
     (forall gs pl, wire F_ethernet (seg_bytes isegs ++ v) gs pl ->
        parses_as r (es ++ [(IPv4, x); (GRE, y)] ++ os ++ [(ERSPAN3, z)] ++ ps ++ reported gs) pl) /\
     (cut F_ethernet (seg_bytes isegs ++ v) -> parse_panics r)).
Proof.
  intros m e i seq xa ts sgt other id info q h d s a b isegs ipl He Hi Hs Ht Hg Ho Hid Hin Hq Ov v r. unfold r.
  rewrite (erspan3_run m e d s h He i a b Hi seq xa ts sgt other id info q v (inner_vec _ _ _ _ Hq)).
  rewrite (inner_len _ _ _ _ Hq). cbv zeta. unfold er3_segs.
  set (n := (20 + length v + _)%nat).
  set (x := ip4h _ _ _ _ _). set (es := eth_segs e d s 0x800). set (y := er_gre _ _). set (os := er_seq seq).
  set (z := er3_bytes xa ts sgt other). set (ps := er_plat other id info).
  set (l := es ++ [(IPv4, x); (GRE, y)] ++ os ++ [(ERSPAN3, z)] ++ ps).
  assert (Hx : ip4_header i 47 a b n x) by (apply ip4h_header; auto; reflexivity).
  pose proof (er_gre_diagram (N.odd seq) 0x22EB eq_refl) as Dy. fold y in Dy.
  pose proof (er_seq_words seq Hs) as Do. fold os in Do.
  pose proof (er_plat_words other id info Hid Hin) as Dp. fold ps in Dp.
  assert (Lx : length x = 20%nat) by (apply ip4h_len; auto).
  assert (P : packet_is (Ret (Pkt (hdrs_at (length h) l ++ opt_hdrs q) v), mheap h l) h (l ++ isegs) v).
  { eexists. exists (cells l). split; [reflexivity|]. split; [|reflexivity]. cbn [p_hdrs].
    apply holds_app; [apply holds_made|apply holds_grow; eapply inner_holds; eauto]. }
  exists es, x, y, os, z, ps, n. split; [apply eth_part; auto; reflexivity|]. split; [exact Hx|]. split; [exact Dy|].
  split; [exact Do|]. split; [intros; apply er3_diagram; auto|]. split; [exact Dp|].
  split; [revert P; unfold l; rewrite <- !app_assoc; auto|].
  split.
  { flat. rewrite !app_length, Lx. unfold n, os, ps, er3_len. change (length y) with 4%nat.
    change (length z) with 12%nat. lia. }
  intros Hfl.
  assert (Ev : forall w, seg_bytes (l ++ isegs) ++ w = seg_bytes es ++ x ++ y ++ seg_bytes os ++ z ++ seg_bytes ps ++ seg_bytes isegs ++ w).
  { intros w. unfold l. flat. reflexivity. }
  assert (O : bytes_ok (seg_bytes (l ++ isegs) ++ v)).
  { rewrite Ev, !bytes_ok_app. split; [apply eth_segs_ok; auto; reflexivity|].
    split; [destruct Hx as (c & [Ox _] & _); exact Ox|]. split; [apply Dy|]. split; [eapply headers_ok; eauto|].
    split; [unfold z, er3_bytes; bok|]. split; [eapply headers_ok; eauto|].
    split; [apply bytes_ok_app in Ov; apply Ov|auto]. }
  assert (L : leads F_parse (seg_bytes (l ++ isegs) ++ v) F_ethernet (seg_bytes isegs ++ v)
    (groups es ++ groups [(IPv4, x)] ++ [[(GRE, y)]; os] ++ [[(ERSPAN3, z)]; ps])).
  { rewrite Ev. eapply leads_trans; [apply leads_eth; auto; [reflexivity|discriminate]|eapply leads_trans].
    - apply leads_ip4; auto. reflexivity.
    - eapply leads_trans.
      + unfold seg_bytes at 1. rewrite <- (seg_split os) at 2.
        assert (Ey : y = er_gre (negb (seq =? 0)) 0x22EB).
        { unfold y. f_equal. destruct Hfl as [->|E]; [reflexivity|]. rewrite E.
          destruct (N.eqb_spec seq 0) as [->|]; [discriminate E|reflexivity]. }
        apply (leads_options F_gre GRE); auto; [rewrite Ey; apply er_seq_options|apply er_seq_sizes|apply er_gre_proto; reflexivity].
      + unfold seg_bytes at 1. rewrite <- (seg_split ps) at 2.
        apply (leads_options F_erspan3 ERSPAN3); auto; [apply er_plat_options|apply er_plat_sizes]. }
  split.
  - intros gs pl W. pose proof (packet_parses _ _ _ _ _ _ P O (proj1 L _ _ W)) as R.
    rewrite <- !app_assoc, !reported_groups in R.
    unfold reported in R. cbn [app map concat rev groups] in R. change (rev os) with (rev (er_seq seq)) in R.
    change (rev ps) with (rev (er_plat other id info)) in R. rewrite er_seq_rev, er_plat_rev in R. exact R.
  - intros C. exact (packet_panics _ _ _ _ P O (proj2 L C)).
Qed.
Print Assumptions C48_erspan3.

(** The length exceeds the real one by the inner payload. *)
Corollary C48_erspan3_length : forall isegs ipl k, sized isegs ->
  let v := seg_bytes isegs ++ ipl in
  (says (k + length v + nominal_len isegs ipl) (k + length (seg_bytes isegs ++ v)) <-> says 0 (length ipl)).
Proof.
  intros isegs ipl k Hs v. rewrite (sized_len _ _ Hs), says_sym. fold v.
  rewrite (app_length _ v). unfold v at 3. rewrite (app_length (seg_bytes isegs) ipl).
  replace (k + length v + (length (seg_bytes isegs) + length ipl))%nat
    with (k + (length (seg_bytes isegs) + length v) + length ipl)%nat by lia.
  apply says_add.
Qed.
Print Assumptions C48_erspan3_length.

(** Witnesses. An inner frame of 16 bytes; II: 52 bytes sent, 68 announced. *)
Definition ex_frame : packet := Pkt [Hdr Ether 0] [1; 2].
Definition ex_frame_heap : heap := [Cell (repeat 8 14) false].
Theorem C48_total_len_refuted : exists p h' r x v,
  create_erspan_2_packet Debug ex_eth ex_ip4 3 (ErA 1 2 3 1 4) 5 (Some ex_frame) ex_frame_heap = (Ret p, h') /\
  get_header IPv4 p "IPv4" = Some (Hdr IPv4 r) /\ cell_at h' r x /\ to_vec p h' = (Ret v, h') /\
  field_val x IPv4_total_len = 68 /\ (length v - 18 = 52)%nat.
Proof.
  do 5 eexists. split; [vm_compute; reflexivity|]. split; [reflexivity|]. split; [reflexivity|].
  split; [vm_compute; reflexivity|]. split; reflexivity.
Qed.
Print Assumptions C48_total_len_refuted.
Theorem C48_total_len3_refuted : exists p h' r x v,
  create_erspan_3_packet Debug ex_eth ex_ip4 3 (ErA 1 2 3 1 4) 5 6 1 7 8 (Some ex_frame) ex_frame_heap = (Ret p, h') /\
  map hname (p_hdrs p) = ["Ether"; "Vlan"; "IPv4"; "GRE"; "GRESequenceNum"; "ERSPAN3"; "ERSPANPLATFORM"; "Ether"]%string /\
  p_payload p = repeat 8 14 ++ [1; 2] /\
  get_header IPv4 p "IPv4" = Some (Hdr IPv4 r) /\ cell_at h' r x /\ to_vec p h' = (Ret v, h') /\
  field_val x IPv4_total_len = 80 /\ (length v - 18 = 78)%nat.
Proof.
  do 5 eexists. split; [vm_compute; reflexivity|]. split; [reflexivity|]. split; [reflexivity|].
  split; [reflexivity|]. split; [reflexivity|].
  split; [vm_compute; reflexivity|]. split; reflexivity.
Qed.
Print Assumptions C48_total_len3_refuted.
(** III with sequence number 2: the word is sent but the flag is clear, and the
    parser takes it for the beginning of the ERSPAN header. *)
Theorem C48_flag_refuted : exists p h' v q h3 w,
  create_erspan_3_packet Debug ex_eth ex_ip4 2 (ErA 1 2 3 1 4) 4 6 0 7 8 None [] = (Ret p, h') /\
  map hname (p_hdrs p) = ["Ether"; "Vlan"; "IPv4"; "GRE"; "GRESequenceNum"; "ERSPAN3"]%string /\
  cell_at h' 3 w /\ field_val w GRE_seqnum_present = 0 /\
  to_vec p h' = (Ret v, h') /\ slow Debug F_parse (v ++ repeat 0 10) [] = (Ret q, h3) /\
  map hname (p_hdrs q) = ["Ether"; "Vlan"; "IPv4"; "GRE"; "ERSPAN3"; "Ether"]%string.
Proof.
  do 6 eexists. split; [vm_compute; reflexivity|]. split; [reflexivity|]. split; [reflexivity|].
  split; [reflexivity|]. split; [vm_compute; reflexivity|]. split; [vm_compute; reflexivity|]. reflexivity.
Qed.
Print Assumptions C48_flag_refuted.

Example C48_example : exists isegs, inner_is ex_frame_heap (Some ex_frame) isegs [1; 2] /\ sized isegs /\
  bytes_ok (seg_bytes isegs ++ [1; 2]) /\ er_in (ErA 1 2 3 1 4) /\
  exists gs, wire F_ethernet (seg_bytes isegs ++ [1; 2]) gs [1; 2].
Proof.
  exists [(Ether, repeat 8 14)]. split; [split; [|reflexivity]; constructor; [split; reflexivity|constructor]|].
  split; [repeat constructor|]. split; [apply bytes_okb_ok; reflexivity|]. split; [repeat split|].
  eexists. apply (wire_plain F_ethernet Ether (repeat 8 14) [1; 2] F_accept); try reflexivity. constructor.
Qed.
