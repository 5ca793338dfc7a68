(** PropUtils.v -- properties C42-C48: the packet builders of utils.rs. *)

From Coq Require Import Lia.
From Verif Require Import Base Bits Types Layout Heap Packet Text Build Utils Slow Fast Spec Grammar
  BitsProofs HeapProofs TextProofs ChecksumProofs BuildProofs GrammarProofs PropChecksum PropBuild PropParse
  UtilsSpec UtilsProofs.
Open Scope N_scope.

(** ** Lemmas *)

Lemma bytes1 (P : N -> bool) :
  forallb P (map N.of_nat (seq 0 256)) = true -> forall a, a < 256 -> P a = true.
Proof.
  intros H a Ha. rewrite forallb_forall in H. apply H. apply in_map_iff. exists (N.to_nat a).
  split; [apply N2Nat.id|]. apply in_seq. lia.
Qed.

Lemma holds_made h l : holds (mheap h l) (hdrs_at (length h) l) l.
Proof.
  assert (G : forall l pre, holds (mheap h (pre ++ l)) (hdrs_at (length h + length pre) l) l).
  { clear l. induction l as [|[T x] l IH]; intros pre; [constructor|].
    cbn [hdrs_at]. constructor.
    - split; [reflexivity|]. cbn [h_ref snd]. apply mheap_cell.
    - specialize (IH (pre ++ [(T, x)])). rewrite <- app_assoc in IH.
      replace (length h + length (pre ++ [(T, x)]))%nat with (S (length h + length pre)) in IH; auto.
      rewrite app_length. cbn [length]. lia. }
  specialize (G l []). cbn [length app] in G. rewrite Nat.add_0_r in G. exact G.
Qed.

Lemma hdrs_at_refs n l : map h_ref (hdrs_at n l) = seq n (length l).
Proof. revert n; induction l as [|s l IH]; intros n; [reflexivity|]. cbn [hdrs_at map h_ref length seq]. rewrite IH. reflexivity. Qed.

Lemma made_new h l pl : packet_new (made h l pl) h l pl.
Proof.
  exists (mpkt h l pl), (cells l). split; [reflexivity|]. split; [apply holds_made|]. split; [reflexivity|].
  unfold mpkt. cbn [p_hdrs]. rewrite hdrs_at_refs. split; [apply seq_NoDup|].
  rewrite Forall_forall. intros x Ix. apply (in_map h_ref) in Ix. rewrite hdrs_at_refs, in_seq in Ix. lia.
Qed.

Lemma packet_new_is r h segs pl : packet_new r h segs pl -> packet_is r h segs pl.
Proof. intros (p & l & A & B & C & _). exists p, l. auto. Qed.

(** The bytes of such a packet. *)
Lemma packet_bytes r h segs pl : packet_is r h segs pl ->
  exists p h', r = (Ret p, h') /\ to_vec p h' = (Ret (seg_bytes segs ++ pl), h').
Proof.
  intros (p & l & -> & H & E). exists p, (h ++ l). split; auto. rewrite (holds_vec _ _ _ H), E. reflexivity.
Qed.

(** *** Header diagrams *)

Lemma eth_diagram dst src d s etype : mac_text dst d -> mac_text src s -> etype < 65536 ->
  diagram (eth_bytes d s etype) (ether_fields d s etype).
Proof.
  intros Hd Hs He. destruct (C24_ethernet dst src etype d s [] Hd Hs He) as (b & E & _ & D & _).
  rewrite (builds_ethernet dst src etype d s Hd Hs []) in E. injection E as <-. exact D.
Qed.
Lemma vlan_diagram pcp vid etype : pcp < 256 -> vid < 65536 -> etype < 65536 ->
  diagram (vlan_bytes pcp vid etype) (vlan_fields pcp vid etype).
Proof.
  intros Hp Hv He. destruct (C25_vlan_general pcp 0 vid etype [] Hp Hv He) as (b & E & _ & D & _).
  rewrite (builds_vlan pcp 0 vid etype []) in E. injection E as <-. exact D.
Qed.
Lemma eth_part e d s etype : eth_in e d s -> etype < 65536 -> ether_part e d s etype (eth_segs e d s etype).
Proof.
  intros (Hd & Hs & Hv & Hp) He. unfold ether_part, eth_segs. destruct (vlan_enable e).
  - do 2 eexists. split; [reflexivity|]. split; [eapply eth_diagram; eauto; reflexivity|]. apply vlan_diagram; auto.
  - eexists. split; [reflexivity|]. eapply eth_diagram; eauto.
Qed.

Lemma ihl_byte ihl : ihl < 256 -> N.lor 64 ihl = N.lor 4 (ihl / 16) * 16 + ihl mod 16 /\ N.lor 4 (ihl / 16) < 16.
Proof.
  intros H. pose proof (bytes1 (fun ihl => (N.lor 64 ihl =? N.lor 4 (ihl / 16) * 16 + ihl mod 16) && (N.lor 4 (ihl / 16) <? 16))
    ltac:(vm_compute; reflexivity) ihl H) as G. cbv beta in G. apply andb_true_iff in G as [G1 G2].
  split; [apply N.eqb_eq, G1|apply N.ltb_lt, G2].
Qed.

Lemma to_be_mod_self n v : to_be n (v mod 2 ^ N.of_nat (8 * n)) = to_be n v.
Proof. apply to_be_mod. apply N.mod_mod. apply N.pow_nonzero. discriminate. Qed.

Lemma ip4b_diagram i proto c s d total : ip4_in i s d -> proto < 256 -> c < 65536 ->
  diagram (ip4b (N.lor 64 (ip_ihl i)) (ip_tos i) (N.of_nat total) (ip_id i) (ip_frag i) (ip_ttl i) proto c s d)
    (ip4_fields i proto s d total c).
Proof.
  intros (Hs & Hd & I1 & I2 & I3 & I4 & I5) Hp Hc.
  pose proof (ipv4_ok _ _ Hs) as Os. pose proof (ipv4_ok _ _ Hd) as Od.
  pose proof (ipv4_len _ _ Hs) as Ls. pose proof (ipv4_len _ _ Hd) as Ld.
  unfold ip4b, ip4_fields.
  destruct (ihl_byte _ I1) as [E B]. rewrite E.
  assert (ip_ihl i mod 16 < 16) by (apply N.mod_lt; discriminate).
  set (p := N.lor 4 (ip_ihl i / 16)) in *. set (q := ip_ihl i mod 16) in *. clearbody p q.
  apply (diagram_app _ _ [_; _]).
  { apply diagram_byte; [reflexivity|fits_tac|]. pack_tac. lia. }
  apply (diagram_app _ _ [_]); [apply diagb; auto|].
  apply (diagram_app _ _ [_]).
  { rewrite <- (to_be_mod_self 2). apply (diag1 2). apply N.mod_lt. discriminate. }
  apply (diagram_app _ _ [_]); [apply (diag1 2); auto|].
  apply (diagram_app _ _ [_; _]).
  { pose proof (N.div_mod (ip_frag i) 8192 ltac:(discriminate)) as DM.
    assert (ip_frag i mod 8192 < 8192) by (apply N.mod_lt; discriminate).
    assert (ip_frag i / 8192 < 8) by (apply N.div_lt_upper_bound; lia).
    set (u := ip_frag i / 8192) in *. set (w := ip_frag i mod 8192) in *. clearbody u w.
    apply diagram_word; [reflexivity|fits_tac|]. pack_tac. lia. }
  apply (diagram_app _ _ [_]); [apply diagb; auto|].
  apply (diagram_app _ _ [_]); [apply diagb; auto|].
  apply (diagram_app _ _ [_]); [apply (diag1 2); auto|].
  apply (diagram_app _ _ [_]); [apply (diagd 4); auto|].
  apply (diagd 4); auto.
Qed.

(** A header whose checksum word is what the library computes for it. *)
Lemma self_checksum a c b x : x = a ++ to_be 2 c ++ b -> bytes_ok a -> length a = 10%nat -> bytes_ok b ->
  length x = 20%nat -> c = csum x ->
  (exists k, other_words x + c = (k + 1) * 65535 + (if other_words x / 65536 + other_words x mod 65536 <? 65536 then 0 else 1)) /\
  (checksum_ok x <-> ~ carries (other_words x)) /\ (carries (other_words x) -> c = rfc_checksum x + 1).
Proof.
  intros Ex Oa La Ob Lx Ec.
  assert (Lc : c < 65536) by (pose proof (csum_le x); lia).
  assert (Ox : bytes_ok x) by (rewrite Ex; bok).
  assert (K : checksum_ok x <-> exists k, other_words x + c = (k + 1) * 65535)
    by (rewrite Ex; apply checksum_ok_iff; auto).
  unfold csum in Ec.
  assert (Small : other_words x / 65536 + other_words x < 2 ^ 32)
    by (apply (ssum_small x); [auto|rewrite Lx; discriminate]).
  destruct (checksum_vs_rfc x Ox Small) as [A B]. change (ssum x) with (other_words x) in *.
  cbv zeta in A, B. rewrite <- Ec in A, B.
  assert (B' := B). unfold rfc_checksum in A, B. rewrite oc_sum_val in A, B by (apply words_lt, zero_checksum_ok; auto).
  fold (other_words x) in A, B. set (S := other_words x) in *.
  destruct (ocn_repr S) as [k Hk]. pose proof (ocn_bound S) as Ob'.
  split; [|split].
  - exists k. destruct (N.ltb_spec (S / 65536 + S mod 65536) 65536) as [L|L].
    + assert (C : ~ carries S) by (unfold carries; lia). specialize (A C). lia.
    + assert (C : carries S) by (unfold carries; lia). destruct (B C) as [B1 B2]. lia.
  - rewrite K. clear - A B Hk Ob'. split.
    + intros [j Hj] C. destruct (B C) as [B1 B2].
      assert (S + c = (k + 1) * 65535 + 1) by lia.
      assert (65535 * (j + 1) = 65535 * (k + 1) + 1) by lia.
      assert (j <= k \/ k + 1 <= j) as [|] by lia; nia.
    + intros C. specialize (A C). exists k. lia.
  - intros C. apply B'; auto.
Qed.

Lemma ip4h_header i proto s d len : ip4_in i s d -> proto < 256 ->
  ip4_header i proto s d len (ip4h i proto s d len).
Proof.
  intros Hi Hp. exists (csum (ip4h i proto s d len)).
  assert (E : ip4h i proto s d len = ip4b (N.lor 64 (ip_ihl i)) (ip_tos i) (N.of_nat len) (ip_id i) (ip_frag i)
    (ip_ttl i) proto (csum (ip4h i proto s d len)) s d) by reflexivity.
  split.
  - rewrite E at 1. apply ip4b_diagram; auto. pose proof (csum_le (ip4h i proto s d len)). lia.
  - destruct Hi as (Hs & Hd & I1 & I2 & I3 & I4 & I5).
    pose proof (ipv4_ok _ _ Hs) as Os. pose proof (ipv4_ok _ _ Hd) as Od.
    pose proof (ipv4_len _ _ Hs) as Ls. pose proof (ipv4_len _ _ Hd) as Ld.
    assert (V : N.lor 64 (ip_ihl i) < 256) by (apply lor_byte; [reflexivity|auto]).
    apply (self_checksum ([N.lor 64 (ip_ihl i)] ++ [ip_tos i] ++ to_be 2 (N.of_nat len) ++ to_be 2 (ip_id i) ++
      to_be 2 (ip_frag i) ++ [ip_ttl i] ++ [proto]) _ (s ++ d) (ip4h i proto s d len)).
    + rewrite E at 1. unfold ip4b. rewrite <- !app_assoc. reflexivity.
    + bok.
    + reflexivity.
    + bok.
    + apply ip4b_length; auto.
    + reflexivity.
Qed.

Lemma lor_split a q r k : r < 2 ^ k -> N.lor (a * 2 ^ k) (q * 2 ^ k + r) = N.lor a q * 2 ^ k + r.
Proof.
  intros H. rewrite <- (lor_add q r k H), N.lor_assoc.
  rewrite <- !N.shiftl_mul_pow2, <- N.shiftl_lor, N.shiftl_mul_pow2. apply lor_add; auto.
Qed.
Lemma lor_lt a b k : a < 2 ^ k -> b < 2 ^ k -> N.lor a b < 2 ^ k.
Proof.
  intros Ha Hb. destruct (N.eq_dec (N.lor a b) 0) as [->|Z].
  - pose proof (N.pow_nonzero 2 k ltac:(discriminate)). lia.
  - apply N.log2_lt_pow2; [lia|]. rewrite N.log2_lor. apply N.max_lub_lt.
    + destruct (N.eq_dec a 0) as [->|]; [|apply N.log2_lt_pow2; auto; lia].
      destruct (N.eq_dec k 0) as [->|]; [|cbn; lia]. assert (b = 0) by (cbn in Hb; lia).
      subst. destruct Z. reflexivity.
    + destruct (N.eq_dec b 0) as [->|]; [|apply N.log2_lt_pow2; auto; lia].
      destruct (N.eq_dec k 0) as [->|]; [|cbn; lia]. assert (a = 0) by (cbn in Ha; lia).
      subst. destruct Z. reflexivity.
Qed.

Lemma ip6_word_diagram tc fl : tc < 256 -> fl < 2 ^ 32 ->
  diagram (to_be 4 (ip6_word tc fl)) [4 # (N.lor 6 (fl / 2 ^ 28)); 8 # (N.lor tc (fl / 2 ^ 20 mod 256)); 20 # (fl mod 2 ^ 20)].
Proof.
  intros Ht Hf. unfold ip6_word. change (N.land (shl32 6 28) 0xF0000000) with (6 * 2 ^ 28).
  rewrite (shl32_small tc 20) by (change (2 ^ 20) with 1048576; change (2 ^ 32) with 4294967296; lia).
  replace (6 * 2 ^ 28) with (1536 * 2 ^ 20) by reflexivity.
  assert (Q : fl / 2 ^ 28 = fl / 2 ^ 20 / 256) by (rewrite N.div_div by discriminate; reflexivity).
  rewrite Q.
  pose proof (N.div_mod fl (2 ^ 20) ltac:(discriminate)) as DM.
  assert (R : fl mod 2 ^ 20 < 2 ^ 20) by (apply N.mod_lt; discriminate).
  assert (Bq : fl / 2 ^ 20 < 4096)
    by (apply N.div_lt_upper_bound; [discriminate|change (2 ^ 20 * 4096) with (2 ^ 32); auto]).
  set (q := fl / 2 ^ 20) in *. set (r := fl mod 2 ^ 20) in *. clearbody q r. subst fl.
  rewrite (N.mul_comm (2 ^ 20) q).
  rewrite <- !N.shiftl_mul_pow2, <- N.shiftl_lor, !N.shiftl_mul_pow2, lor_split by auto.
  change 1536 with (6 * 2 ^ 8). rewrite lor_add by auto.
  pose proof (N.div_mod q 256 ltac:(discriminate)) as DM.
  assert (R2 : q mod 256 < 256) by (apply N.mod_lt; discriminate).
  assert (B2 : q / 256 < 16) by (apply N.div_lt_upper_bound; lia).
  set (u := q / 256) in *. set (w := q mod 256) in *. clearbody u w. subst q.
  rewrite (N.mul_comm 256 u). change 256 with (2 ^ 8) at 1.
  rewrite <- (lor_add 6 tc 8) by auto. rewrite <- N.lor_assoc.
  assert (E : N.lor tc (u * 2 ^ 8 + w) = u * 2 ^ 8 + N.lor tc w).
  { rewrite <- (lor_add u w 8), N.lor_assoc, (N.lor_comm tc), <- N.lor_assoc by auto.
    apply lor_add. apply lor_lt; auto. }
  rewrite E, lor_split by (apply lor_lt; auto).
  assert (L1 : N.lor 6 u < 16) by (apply (lor_lt 6 u 4); [reflexivity|auto]).
  assert (L2 : N.lor tc w < 256) by (apply (lor_lt tc w 8); auto).
  set (y := N.lor 6 u) in *. set (z := N.lor tc w) in *. clearbody y z.
  change (2 ^ 20) with 1048576 in *. change (2 ^ 8) with 256.
  apply diagram_word; [reflexivity|fits_tac|]. pack_tac. lia.
Qed.

Lemma ip6h_diagram i ip6 nh s d len : ip6_in i ip6 s d -> nh < 256 ->
  diagram (ip6h i nh s d len) (ip6_fields i nh s d len).
Proof.
  intros (H6 & Hs & Hd & I1 & I2 & I3) Hn.
  destruct (addr6_ok _ _ _ H6 Hs) as [Ls Os]. destruct (addr6_ok _ _ _ H6 Hd) as [Ld Od].
  unfold ip6h, ip6b, ip6_fields.
  apply (diagram_app _ _ [_; _; _]); [apply ip6_word_diagram; auto|].
  apply (diagram_app _ _ [_]).
  { rewrite <- (to_be_mod_self 2). apply (diag1 2). apply N.mod_lt. discriminate. }
  apply (diagram_app _ _ [_]); [apply diagb; auto|].
  apply (diagram_app _ _ [_]); [apply diagb; auto|].
  apply (diagram_app _ _ [_]); [apply (diagd 16); auto|].
  apply (diagd 16); auto.
Qed.

Lemma tcp_diagram t : tcp_in t -> diagram (tcp_bytes t) (tcp_fields t).
Proof.
  intros (H1 & H2 & H3 & H4 & H5 & H6 & H7 & H8 & H9). unfold tcp_bytes, tcp_fields.
  apply (diagram_app _ _ [_]); [apply (diag1 2); auto|].
  apply (diagram_app _ _ [_]); [apply (diag1 2); auto|].
  apply (diagram_app _ _ [_]); [apply (diag1 4); auto|].
  apply (diagram_app _ _ [_]); [apply (diag1 4); auto|].
  apply (diagram_app _ _ [_; _]).
  { pose proof (bytes2 (fun o r => (N.lor (shl8 o 4) (N.land r 255) =? N.lor (o mod 16) (r / 16) * 16 + r mod 16)
      && (N.lor (o mod 16) (r / 16) <? 16)) ltac:(vm_compute; reflexivity) _ _ H5 H6) as G. cbv beta in G.
    apply andb_true_iff in G as [G1 G2]. apply N.eqb_eq in G1. apply N.ltb_lt in G2. rewrite G1.
    assert (tcp_res t mod 16 < 16) by (apply N.mod_lt; discriminate).
    set (p := N.lor _ _) in *. set (q := tcp_res t mod 16) in *. clearbody p q.
    apply diagram_byte; [reflexivity|fits_tac|]. pack_tac. lia. }
  apply (diagram_app _ _ [_]); [apply diagb; auto|].
  apply (diagram_app _ _ [_]); [apply (diag1 2); auto|].
  apply (diagram_app _ _ [_]); [apply (diag1 2); reflexivity|]. apply (diag1 2); auto.
Qed.
Lemma udp_diagram src dst len c : src < 65536 -> dst < 65536 -> c < 65536 ->
  diagram (udp_bytes src dst len c) (udp_fields src dst len c).
Proof.
  intros. unfold udp_bytes, udp_fields.
  apply (diagram_app _ _ [_]); [apply (diag1 2); auto|].
  apply (diagram_app _ _ [_]); [apply (diag1 2); auto|].
  apply (diagram_app _ _ [_]).
  { rewrite <- (to_be_mod_self 2). apply (diag1 2). apply N.mod_lt. discriminate. }
  apply (diag1 2); auto.
Qed.
Lemma icmp_diagram ty code : ty < 256 -> code < 256 -> diagram (icmp_bytes ty code) (icmp_fields ty code).
Proof.
  intros. unfold icmp_bytes, icmp_fields.
  apply (diagram_app _ _ [_]); [apply diagb; auto|].
  apply (diagram_app _ _ [_]); [apply diagb; auto|]. apply (diag1 2); reflexivity.
Qed.
Lemma vxlan_diagram vni : diagram (vxlan_bytes vni) (vxlan_fields vni).
Proof.
  unfold vxlan_bytes, vxlan_fields. apply (diagram_app _ _ [_; _]).
  - apply diagram_word; [reflexivity|fits_tac|reflexivity].
  - assert (E : shl32 vni 8 = vni mod 2 ^ 24 * 2 ^ 8).
    { unfold shl32, u32. rewrite N.shiftl_mul_pow2. change (2 ^ 32) with (2 ^ 24 * 2 ^ 8).
      apply N.mul_mod_distr_r; discriminate. }
    rewrite E. assert (vni mod 2 ^ 24 < 2 ^ 24) by (apply N.mod_lt; discriminate).
    set (v := vni mod 2 ^ 24) in *. clearbody v. change (2 ^ 24) with 16777216 in *. change (2 ^ 8) with 256.
    apply diagram_word; [reflexivity|fits_tac|]. pack_tac. lia.
Qed.
Lemma diagram_len b l n : diagram b l -> (8 * n)%nat = widths l -> length b = n.
Proof. intros (_ & D & _) W. lia. Qed.

(** In range, the entries are the arguments. *)
Lemma in_range_ihl ihl : ihl < 16 -> N.lor 4 (ihl / 16) = 4 /\ ihl mod 16 = ihl.
Proof. intros H. rewrite N.div_small, N.mod_small by auto. split; reflexivity. Qed.
Lemma in_range_vlan pcp vid : pcp < 8 -> vid < 4096 ->
  N.lor (vid / 8192) (pcp mod 8) = pcp /\ vid / 4096 mod 2 = 0 /\ vid mod 4096 = vid.
Proof.
  intros Hp Hv. rewrite (N.div_small vid 8192), (N.div_small vid 4096), !N.mod_small by lia. auto.
Qed.
Lemma in_range_flow tc fl : fl < 2 ^ 20 ->
  N.lor 6 (fl / 2 ^ 28) = 6 /\ N.lor tc (fl / 2 ^ 20 mod 256) = tc /\ fl mod 2 ^ 20 = fl.
Proof.
  intros H. assert (fl < 2 ^ 28) by (apply (N.lt_trans _ (2 ^ 20)); [auto|reflexivity]).
  rewrite (N.div_small fl (2 ^ 28)), (N.div_small fl (2 ^ 20)), (N.mod_small fl) by auto.
  change (0 mod 256) with 0. rewrite !N.lor_0_r. auto.
Qed.
Lemma in_range_tcp doff res : doff < 16 -> res < 16 -> N.lor (doff mod 16) (res / 16) = doff /\ res mod 16 = res.
Proof. intros. rewrite N.div_small, !N.mod_small by auto. rewrite N.lor_0_r. auto. Qed.
Lemma in_range_gre flags ver : flags < 32 -> ver < 8 -> N.lor (flags mod 32) (ver / 8) = flags /\ ver mod 8 = ver.
Proof. intros. rewrite N.div_small, !N.mod_small by auto. rewrite N.lor_0_r. auto. Qed.

(** ** C42 *)

Theorem C42_eth : forall e etype pl h d s, eth_in e d s -> etype < 65536 ->
  exists es, packet_new (create_eth_packet e etype pl h) h es pl /\ ether_part e d s etype es.
Proof.
  intros e etype pl h d s He Ht. exists (eth_segs e d s etype). split; [|apply eth_part; auto].
  destruct He as (Hd & Hs & _). rewrite (eth_run e etype pl d s h Hd Hs). apply made_new.
Qed.
Print Assumptions C42_eth.

Theorem C42_arp : forall e opcode smac tmac sip tip pl h d s a b c g,
  eth_in e d s -> opcode < 65536 ->
  mac_text smac a -> ipv4_text sip b -> mac_text tmac c -> ipv4_text tip g ->
  exists es x, packet_new (create_arp_packet e opcode smac tmac sip tip pl h) h (es ++ [(ARP, x)]) pl /\
    ether_part e d s 0x0806 es /\
    diagram x [16 # 1; 16 # 0x0800; 8 # 6; 8 # 4; 16 # opcode; 48 # (be a); 32 # (be b); 48 # (be c); 32 # (be g)].
Proof.
  intros e opcode smac tmac sip tip pl h d s a b c g He Ho Ha Hb Hc Hg.
  exists (eth_segs e d s 0x806), (arp_bytes opcode a b c g).
  rewrite (arp_run e d s pl h He opcode smac tmac sip tip a b c g Ha Hb Hc Hg).
  split; [apply made_new|]. split; [apply eth_part; auto; reflexivity|].
  destruct (C24_arp opcode smac tmac sip tip a b c g [] Ha Hb Hc Hg Ho) as (x & E & _ & D & _).
  rewrite (builds_arp opcode _ _ _ _ _ _ _ _ Ha Hb Hc Hg []) in E. injection E as <-. exact D.
Qed.
Print Assumptions C42_arp.

Theorem C42_ipv4 : forall m e i proto pl h d s a b, eth_in e d s -> ip4_in i a b -> proto < 256 ->
  exists es x, packet_new (create_ipv4_packet m e i proto pl h) h (es ++ [(IPv4, x)]) pl /\
    ether_part e d s 0x0800 es /\ ip4_header i proto a b (length x + length pl) x.
Proof.
  intros m e i proto pl h d s a b He Hi Hp.
  rewrite (ipv4_packet_run m e i proto pl d s a b h He Hi Hp).
  do 2 eexists. split; [apply made_new|]. split; [apply eth_part; auto; reflexivity|].
  rewrite (ip4h_length i proto a b _ a b Hi) by (eapply ipv4_len; apply Hi). apply ip4h_header; auto.
Qed.
Print Assumptions C42_ipv4.

Theorem C42_tcp : forall m e i t pl h d s a b, eth_in e d s -> ip4_in i a b -> tcp_in t ->
  exists es x y,
    packet_new (create_tcp_packet m e i t pl h) h (es ++ [(IPv4, x); (TCP, y)]) pl /\
    ether_part e d s 0x0800 es /\
    ip4_header i 6 a b (length x + length y + length pl) x /\
    diagram y (tcp_fields t).
Proof.
  intros m e i t pl h d s a b He Hi Ht. rewrite (tcp_run m e d s pl h He i a b Hi t).
  do 3 eexists. split; [apply made_new|]. split; [apply eth_part; auto; reflexivity|].
  split; [|apply tcp_diagram; auto].
  rewrite (diagram_len _ _ 20 (tcp_diagram t Ht)) by reflexivity.
  rewrite (ip4h_length i 6 a b _ a b Hi) by (eapply ipv4_len; apply Hi).
  replace (20 + 20 + length pl)%nat with (20 + length pl + 20)%nat by lia. apply ip4h_header; auto. reflexivity.
Qed.
Print Assumptions C42_tcp.

Theorem C42_udp : forall m e i dst src pl h d s a b, eth_in e d s -> ip4_in i a b -> dst < 65536 -> src < 65536 ->
  exists es x y,
    packet_new (create_udp_packet m e i dst src pl h) h (es ++ [(IPv4, x); (UDP, y)]) pl /\
    ether_part e d s 0x0800 es /\
    ip4_header i 17 a b (length x + length y + length pl) x /\
    diagram y (udp_fields src dst (length y + length pl) 0).
Proof.
  intros m e i dst src pl h d s a b He Hi Hd Hs. rewrite (udp_run m e d s pl h He i a b Hi dst src).
  do 3 eexists. split; [apply made_new|]. split; [apply eth_part; auto; reflexivity|].
  pose proof (udp_diagram src dst (8 + length pl) 0 Hs Hd eq_refl) as D.
  rewrite (diagram_len _ _ 8 D) by reflexivity. split; [|exact D].
  rewrite (ip4h_length i 17 a b _ a b Hi) by (eapply ipv4_len; apply Hi).
  replace (20 + 8 + length pl)%nat with (20 + length pl + 8)%nat by lia. apply ip4h_header; auto. reflexivity.
Qed.
Print Assumptions C42_udp.

Theorem C42_icmp : forall m e i ty code pl h d s a b, eth_in e d s -> ip4_in i a b -> ty < 256 -> code < 256 ->
  exists es x y,
    packet_new (create_icmp_packet m e i ty code pl h) h (es ++ [(IPv4, x); (ICMP, y)]) pl /\
    ether_part e d s 0x0800 es /\
    ip4_header i 1 a b (length x + length y + length pl) x /\
    diagram y (icmp_fields ty code).
Proof.
  intros m e i ty code pl h d s a b He Hi Hd Hs. rewrite (icmp_run m e d s pl h He i a b Hi ty code).
  do 3 eexists. split; [apply made_new|]. split; [apply eth_part; auto; reflexivity|].
  pose proof (icmp_diagram ty code Hd Hs) as D.
  rewrite (diagram_len _ _ 4 D) by reflexivity. split; [|exact D].
  rewrite (ip4h_length i 1 a b _ a b Hi) by (eapply ipv4_len; apply Hi).
  replace (20 + 4 + length pl)%nat with (20 + length pl + 4)%nat by lia. apply ip4h_header; auto. reflexivity.
Qed.
Print Assumptions C42_icmp.

(** With in-range arguments the IPv4 and TCP entries are the arguments. *)
Theorem C42_in_range : forall i t proto s d total c,
  ip_ihl i < 16 -> tcp_data_offset t < 16 -> tcp_res t < 16 -> N.of_nat total < 65536 ->
  ip4_fields i proto s d total c =
    [4 # 4; 4 # (ip_ihl i); 8 # (ip_tos i); 16 # (N.of_nat total); 16 # (ip_id i);
     3 # (ip_frag i / 8192); 13 # (ip_frag i mod 8192); 8 # (ip_ttl i); 8 # proto; 16 # c;
     32 # (be s); 32 # (be d)] /\
  tcp_fields t =
    [16 # (tcp_src t); 16 # (tcp_dst t); 32 # (tcp_seq_no t); 32 # (tcp_ack_no t); 4 # (tcp_data_offset t);
     4 # (tcp_res t); 8 # (tcp_flags t); 16 # (tcp_window t); 16 # 0; 16 # (tcp_urgent_ptr t)].
Proof.
  intros i t proto s d total c Hi Ho Hr Hl. unfold ip4_fields, tcp_fields.
  destruct (in_range_ihl _ Hi) as [-> ->]. destruct (in_range_tcp _ _ Ho Hr) as [-> ->].
  rewrite N.mod_small by auto. auto.
Qed.
Print Assumptions C42_in_range.

(** The only failure: an address text with too many parts. Then the call panics
    and no buffer that existed before has changed. *)
Definition bad_mac (e : eth_args) : Prop :=
  addr_too_long ":"%char 6 (eth_dst e) \/ addr_too_long ":"%char 6 (eth_src e).
Definition bad_ip4 (i : ip4_args) : Prop :=
  addr_too_long "."%char 4 (ip_src i) \/ addr_too_long "."%char 4 (ip_dst i).

Lemma eth_bad e etype pl h : bad_mac e -> create_eth_packet e etype pl h = (Panic PIndex, h).
Proof.
  intros B. unfold create_eth_packet.
  assert (E : forall et, ethernet (eth_dst e) (eth_src e) et h = (Panic PIndex, h))
    by (intros et; apply (C24_panics (eth_dst e) (eth_src e) et h B)).
  apply bind_panic. destruct (vlan_enable e); apply bind_panic; apply E.
Qed.
Lemma mac_cases s : (exists b, mac_text s b) \/ addr_too_long ":"%char 6 s.
Proof. apply (addr_total ":"%char 16 6 s). lia. Qed.
Lemma ip4_cases s : (exists b, ipv4_text s b) \/ addr_too_long "."%char 4 s.
Proof. apply (addr_total "."%char 10 4 s). lia. Qed.
Lemma eth_cases e : bad_mac e \/ exists d s, mac_text (eth_dst e) d /\ mac_text (eth_src e) s.
Proof.
  unfold bad_mac. destruct (mac_cases (eth_dst e)) as [[d ?]|?]; auto.
  destruct (mac_cases (eth_src e)) as [[s ?]|?]; auto. right. eauto.
Qed.
Lemma ipv4_bad m i proto len h : bad_ip4 i ->
  ipv4 m (ip_ihl i) (ip_tos i) (ip_id i) (ip_ttl i) (ip_frag i) proto (ip_src i) (ip_dst i) len h = (Panic PIndex, h).
Proof.
  intros B. assert (E4 : forall s, addr_too_long "."%char 4 s -> to_ipv4_bytes s = Panic PIndex)
    by (intros s; apply fill_panic; lia).
  unfold ipv4. destruct B as [B|B].
  - apply bind_panic. unfold lift. rewrite (E4 _ B). reflexivity.
  - destruct (ip4_cases (ip_src i)) as [[a Ha]|Ha].
    + rewrite (bind_ret _ _ h a h) by (unfold lift; f_equal; apply ipv4_ret; auto).
      apply bind_panic. unfold lift. rewrite (E4 _ B). reflexivity.
    + apply bind_panic. unfold lift. rewrite (E4 _ Ha). reflexivity.
Qed.
Lemma ipv4_packet_bad m e i proto pl h : bad_mac e \/ bad_ip4 i ->
  exists l, create_ipv4_packet m e i proto pl h = (Panic PIndex, h ++ l).
Proof.
  intros B. unfold create_ipv4_packet. destruct (eth_cases e) as [Be|(d & s & Hd & Hs)].
  - exists []. rewrite app_nil_r. apply bind_panic, eth_bad, Be.
  - destruct B as [B|B]; [exists []; rewrite app_nil_r; apply bind_panic, eth_bad, B|].
    rewrite (bind_ret _ _ _ _ _ (eth_run e _ pl d s h Hd Hs)). eexists. apply bind_panic. apply ipv4_bad, B.
Qed.

Theorem C42_panics : forall m e i pl h, bad_mac e \/ bad_ip4 i ->
  (forall proto, exists l, create_ipv4_packet m e i proto pl h = (Panic PIndex, h ++ l)) /\
  (forall t, exists l, create_tcp_packet m e i t pl h = (Panic PIndex, h ++ l)) /\
  (forall dst src, exists l, create_udp_packet m e i dst src pl h = (Panic PIndex, h ++ l)) /\
  (forall ty code, exists l, create_icmp_packet m e i ty code pl h = (Panic PIndex, h ++ l)).
Proof.
  intros m e i pl h B. split; [intros; apply ipv4_packet_bad; auto|].
  repeat split; intros; match goal with |- exists l, ?f = _ => idtac end;
    [destruct (ipv4_packet_bad m e i (IpProtocol_code P_TCP) pl h B) as [l E]
    |destruct (ipv4_packet_bad m e i (IpProtocol_code P_UDP) pl h B) as [l E]
    |destruct (ipv4_packet_bad m e i (IpProtocol_code P_ICMP) pl h B) as [l E]];
    exists l; apply bind_panic; exact E.
Qed.
Print Assumptions C42_panics.

(** Every text is readable or has too many parts, so the two cases are all. *)
Theorem C42_cases : forall e i,
  (bad_mac e \/ bad_ip4 i) \/
  (exists d s a b, mac_text (eth_dst e) d /\ mac_text (eth_src e) s /\
     ipv4_text (ip_src i) a /\ ipv4_text (ip_dst i) b).
Proof.
  intros e i. destruct (eth_cases e) as [?|(d & s & ? & ?)]; auto. unfold bad_ip4.
  destruct (ip4_cases (ip_src i)) as [[a ?]|?]; auto. destruct (ip4_cases (ip_dst i)) as [[b ?]|?]; auto.
  right. exists d, s, a, b. auto.
Qed.
Print Assumptions C42_cases.

Definition ex_eth : eth_args := EthA "00:11:22:33:44:55" "a:b:c:d:e:f" true 100 5.
Definition ex_ip4 : ip4_args := Ip4A 5 "10.0.0.1" "192.168.1.2" 0 64 7 0x4000.
Definition ex_tcp : tcp_args := TcpA 80 1234 1 2 5 0 2 100 0.
Lemma ex_eth_in : eth_in ex_eth [0; 17; 34; 51; 68; 85] [10; 11; 12; 13; 14; 15].
Proof. split; [apply mac_ret; reflexivity|]. split; [apply mac_ret; reflexivity|]. split; reflexivity. Qed.
Lemma ex_ip4_in : ip4_in ex_ip4 [10; 0; 0; 1] [192; 168; 1; 2].
Proof. split; [apply ipv4_ret; reflexivity|]. split; [apply ipv4_ret; reflexivity|]. repeat split; reflexivity. Qed.
Example C42_example : eth_in ex_eth [0; 17; 34; 51; 68; 85] [10; 11; 12; 13; 14; 15] /\
  ip4_in ex_ip4 [10; 0; 0; 1] [192; 168; 1; 2] /\ tcp_in ex_tcp /\
  bad_ip4 (Ip4A 5 "1.2.3.4.5" "" 0 0 0 0) /\
  exists p h', create_tcp_packet Debug ex_eth ex_ip4 ex_tcp [1; 2; 3] [] = (Ret p, h') /\
    map hname (p_hdrs p) = ["Ether"; "Vlan"; "IPv4"; "TCP"]%string /\
    map c_data h' = [[0; 17; 34; 51; 68; 85; 10; 11; 12; 13; 14; 15; 0x81; 0]; [0xA0; 100; 8; 0];
      [0x45; 0; 0; 43; 0; 7; 0x40; 0; 64; 6; 111; 27; 10; 0; 0; 1; 192; 168; 1; 2];
      [4; 210; 0; 80; 0; 0; 0; 1; 0; 0; 0; 2; 0x50; 2; 0; 100; 0; 0; 0; 0]].
Proof.
  split; [exact ex_eth_in|]. split; [exact ex_ip4_in|]. split; [repeat split; reflexivity|].
  split; [left; apply fill_panic with (radix := 10); [lia|reflexivity]|].
  do 2 eexists. split; [vm_compute; reflexivity|]. split; vm_compute; reflexivity.
Qed.
(** Lengths wrap: a 65536-byte payload gives total_len 40. *)
Example C42_example_wrap : N.of_nat (20 + 20 + N.to_nat 65536) mod 65536 = 40.
Proof. rewrite !Nat2N.inj_add, N2Nat.id. reflexivity. Qed.

(** ** C43 *)

Section C43.
Variable ip6 : string -> option (list N).

Theorem C43_ipv6 : forall e i nh pl h d s a b, eth_in e d s -> ip6_in i ip6 a b -> nh < 256 ->
  exists es x, packet_new (create_ipv6_packet ip6 e i nh pl h) h (es ++ [(IPv6, x)]) pl /\
    ether_part e d s 0x86DD es /\ diagram x (ip6_fields i nh a b (length pl)).
Proof.
  intros e i nh pl h d s a b He Hi Hn. rewrite (ipv6_packet_run ip6 e i nh pl d s a b h He Hi Hn).
  do 2 eexists. split; [apply made_new|]. split; [apply eth_part; auto; reflexivity|]. eapply ip6h_diagram; eauto.
Qed.

Theorem C43_tcpv6 : forall m e i t pl h d s a b, eth_in e d s -> ip6_in i ip6 a b -> tcp_in t ->
  exists es x y,
    packet_new (create_tcpv6_packet m ip6 e i t pl h) h (es ++ [(IPv6, x); (TCP, y)]) pl /\
    ether_part e d s 0x86DD es /\
    diagram x (ip6_fields i 6 a b (length y + length pl)) /\
    diagram y (tcp_fields t).
Proof.
  intros m e i t pl h d s a b He Hi Ht. rewrite (tcpv6_run m e d s pl h He ip6 i a b Hi t).
  do 3 eexists. split; [apply made_new|]. split; [apply eth_part; auto; reflexivity|].
  split; [|apply tcp_diagram; auto].
  rewrite (diagram_len _ _ 20 (tcp_diagram t Ht)) by reflexivity.
  rewrite (Nat.add_comm 20). eapply ip6h_diagram; eauto. reflexivity.
Qed.

(** The UDP checksum is the constant 0xffff. *)
Theorem C43_udpv6 : forall m e i dst src pl h d s a b, eth_in e d s -> ip6_in i ip6 a b -> dst < 65536 -> src < 65536 ->
  exists es x y,
    packet_new (create_udpv6_packet m ip6 e i dst src pl h) h (es ++ [(IPv6, x); (UDP, y)]) pl /\
    ether_part e d s 0x86DD es /\
    diagram x (ip6_fields i 17 a b (length y + length pl)) /\
    diagram y (udp_fields src dst (length y + length pl) 0xffff).
Proof.
  intros m e i dst src pl h d s a b He Hi Hd Hs. rewrite (udpv6_run m e d s pl h He ip6 i a b Hi dst src).
  do 3 eexists. split; [apply made_new|]. split; [apply eth_part; auto; reflexivity|].
  pose proof (udp_diagram src dst (8 + length pl) 0xffff Hs Hd eq_refl) as D.
  rewrite (diagram_len _ _ 8 D) by reflexivity. split; [|exact D].
  rewrite (Nat.add_comm 8 (length pl)). eapply ip6h_diagram; eauto. reflexivity.
Qed.

Theorem C43_icmpv6 : forall m e i ty code pl h d s a b, eth_in e d s -> ip6_in i ip6 a b -> ty < 256 -> code < 256 ->
  exists es x y,
    packet_new (create_icmpv6_packet m ip6 e i ty code pl h) h (es ++ [(IPv6, x); (ICMP, y)]) pl /\
    ether_part e d s 0x86DD es /\
    diagram x (ip6_fields i 58 a b (length y + length pl)) /\
    diagram y (icmp_fields ty code).
Proof.
  intros m e i ty code pl h d s a b He Hi Hd Hs. rewrite (icmpv6_run m e d s pl h He ip6 i a b Hi ty code).
  do 3 eexists. split; [apply made_new|]. split; [apply eth_part; auto; reflexivity|].
  pose proof (icmp_diagram ty code Hd Hs) as D.
  rewrite (diagram_len _ _ 4 D) by reflexivity. split; [|exact D].
  rewrite (Nat.add_comm 4). eapply ip6h_diagram; eauto. reflexivity.
Qed.

(** The only failure is a MAC text with too many parts. *)
Theorem C43_panics : forall m e i pl h, bad_mac e ->
  (forall nh, create_ipv6_packet ip6 e i nh pl h = (Panic PIndex, h)) /\
  (forall t, create_tcpv6_packet m ip6 e i t pl h = (Panic PIndex, h)) /\
  (forall dst src, create_udpv6_packet m ip6 e i dst src pl h = (Panic PIndex, h)) /\
  (forall ty code, create_icmpv6_packet m ip6 e i ty code pl h = (Panic PIndex, h)).
Proof.
  intros m e i pl h B.
  assert (E : forall nh, create_ipv6_packet ip6 e i nh pl h = (Panic PIndex, h))
    by (intros nh; apply bind_panic, eth_bad, B).
  split; auto. repeat split; intros; apply bind_panic; apply E.
Qed.
End C43.
Print Assumptions C43_ipv6.
Print Assumptions C43_tcpv6.
Print Assumptions C43_udpv6.
Print Assumptions C43_icmpv6.
Print Assumptions C43_panics.

Theorem C43_in_range : forall i nh s d len, ip6_flow_label i < 2 ^ 20 -> N.of_nat len < 65536 ->
  ip6_fields i nh s d len =
    [4 # 6; 8 # (ip6_traffic_class i); 20 # (ip6_flow_label i); 16 # (N.of_nat len); 8 # nh;
     8 # (ip6_hop_limit i); 128 # (be s); 128 # (be d)].
Proof.
  intros i nh s d len Hf Hl. unfold ip6_fields. destruct (in_range_flow (ip6_traffic_class i) _ Hf) as (-> & -> & ->).
  rewrite N.mod_small by auto. reflexivity.
Qed.
Print Assumptions C43_in_range.

Definition ex_parse6 (s : string) : option (list N) :=
  if String.eqb s "::1" then Some (repeat 0 15 ++ [1]) else None.
Definition ex_ip6 : ip6_args := Ip6A 3 0xABCDE 64 "::1" "junk".
Lemma ex_ip6_in : ip6_in ex_ip6 ex_parse6 (repeat 0 15 ++ [1]) (repeat 0 16).
Proof.
  split.
  { intros s o. unfold ex_parse6. destruct (String.eqb s "::1"); [|discriminate]. intros E. injection E as <-.
    split; [reflexivity|apply bytes_okb_ok; reflexivity]. }
  split; [left; reflexivity|]. split; [right; split; reflexivity|]. repeat split; reflexivity.
Qed.
Example C43_example : ip6_in ex_ip6 ex_parse6 (repeat 0 15 ++ [1]) (repeat 0 16) /\
  exists p h', create_udpv6_packet Debug ex_parse6 ex_eth ex_ip6 53 1000 [9; 9] [] = (Ret p, h') /\
    map hname (p_hdrs p) = ["Ether"; "Vlan"; "IPv6"; "UDP"]%string /\
    nth 2 (map c_data h') [] = [0x60; 0x3A; 0xBC; 0xDE; 0; 10; 17; 64] ++ repeat 0 15 ++ [1] ++ repeat 0 16 /\
    nth 3 (map c_data h') [] = [3; 232; 0; 53; 0; 10; 255; 255].
Proof.
  split; [exact ex_ip6_in|]. do 2 eexists. split; [vm_compute; reflexivity|]. split; vm_compute; auto.
Qed.

(** ** C44 *)

Lemma sub_mid (a x b : list N) : sub (a ++ x ++ b) (length a) (length x) = x.
Proof.
  unfold sub. rewrite skipn_app, skipn_all2, Nat.sub_diag by lia. cbn [skipn app].
  rewrite firstn_app, firstn_all2, Nat.sub_diag by lia. cbn [firstn]. apply app_nil_r.
Qed.
Lemma be_2 v : v < 65536 -> be (to_be 2 v) = v.
Proof. intros H. rewrite be_to_be. apply N.mod_small. exact H. Qed.

(** Headers without options, grouped. *)
Definition groups (l : list seg) : list (list seg) := concat (map (fun s => [[s]; []]) l).
Lemma reported_groups l gs : reported (groups l ++ gs) = l ++ reported gs.
Proof.
  unfold groups. induction l as [|s l IH]; [reflexivity|]. cbn [map concat app]. unfold reported in *.
  cbn [map concat rev app]. f_equal. exact IH.
Qed.

Lemma eth_bytes_length d s et : length d = 6%nat -> length s = 6%nat -> length (eth_bytes d s et) = 14%nat.
Proof. intros Hd Hs. unfold eth_bytes. rewrite !app_length, to_be_length, Hd, Hs. reflexivity. Qed.
Lemma eth_type d s et rest : length d = 6%nat -> length s = 6%nat -> et < 65536 ->
  be (sub (eth_bytes d s et ++ rest) 12 2) = et.
Proof.
  intros Hd Hs He. unfold eth_bytes.
  pose proof (sub_mid (d ++ s) (to_be 2 et) rest) as E.
  rewrite app_length, Hd, Hs, to_be_length in E. rewrite <- !app_assoc in *. cbn [Nat.add] in E. rewrite E.
  apply be_2; auto.
Qed.
Lemma vlan_type pcp vid et : et < 65536 -> be (sub (vlan_bytes pcp vid et) 2 2) = et.
Proof.
  intros He. unfold vlan_bytes.
  pose proof (sub_mid [N.lor (vid / 256 mod 256) (shl8 pcp 5); vid mod 256] (to_be 2 et) []) as E.
  rewrite app_nil_r, to_be_length in E. cbn [length] in E. rewrite E. apply be_2; auto.
Qed.

Lemma wire_ether d s et f rest gs pl : length d = 6%nat -> length s = 6%nat -> et < 65536 ->
  entry ethertypes et = f -> wire f rest gs pl ->
  wire F_ethernet (eth_bytes d s et ++ rest) ([(Ether, eth_bytes d s et)] :: [] :: gs) pl.
Proof.
  intros Hd Hs He Hf W. apply (wire_plain F_ethernet Ether _ rest f); auto.
  - apply eth_bytes_length; auto.
  - cbn [demux]. rewrite <- Hf. do 2 f_equal. rewrite <- (app_nil_r (eth_bytes d s et)). apply eth_type; auto.
Qed.
Lemma wire_vlan pcp vid et f rest gs pl : et < 65536 ->
  entry ethertypes et = f -> wire f rest gs pl ->
  wire F_vlan (vlan_bytes pcp vid et ++ rest) ([(Vlan, vlan_bytes pcp vid et)] :: [] :: gs) pl.
Proof.
  intros He Hf W. apply (wire_plain F_vlan Vlan _ rest f); auto.
  cbn [demux]. rewrite <- Hf. do 2 f_equal. apply vlan_type; auto.
Qed.

Lemma wire_eth_part e d s et f rest gs pl : eth_in e d s -> et < 65536 -> 1500 <= et ->
  entry ethertypes et = f -> wire f rest gs pl ->
  wire F_parse (seg_bytes (eth_segs e d s et) ++ rest) (groups (eth_segs e d s et) ++ gs) pl.
Proof.
  intros (Hd & Hs & _ & _) He Hl Hf W.
  pose proof (mac_len _ _ Hd) as Ld. pose proof (mac_len _ _ Hs) as Ls.
  unfold eth_segs. destruct (vlan_enable e); unfold seg_bytes, groups; cbn [map snd concat app];
    rewrite ?app_nil_r, <- ?app_assoc.
  - apply W_parse; [rewrite app_length, eth_bytes_length; auto; apply Nat.le_add_r|].
    rewrite eth_type by (auto; reflexivity). apply (wire_ether _ _ _ F_vlan); auto; [reflexivity|].
    apply (wire_vlan _ _ _ f); auto.
  - apply W_parse; [rewrite app_length, eth_bytes_length; auto; apply Nat.le_add_r|].
    rewrite eth_type by auto. rewrite (proj2 (N.ltb_ge _ _)) by auto. apply (wire_ether _ _ _ f); auto.
Qed.

Lemma eth_segs_ok e d s et : eth_in e d s -> et < 65536 -> bytes_ok (seg_bytes (eth_segs e d s et)).
Proof.
  intros (Hd & Hs & Hv & Hp) He. unfold eth_segs, seg_bytes.
  pose proof (eth_diagram _ _ _ _ et Hd Hs He) as [O1 _].
  pose proof (eth_diagram _ _ _ _ 0x8100 Hd Hs eq_refl) as [O2 _].
  pose proof (vlan_diagram _ _ et Hp Hv He) as [O3 _].
  destruct (vlan_enable e); cbn [map snd concat]; rewrite ?app_nil_r; auto. apply bytes_ok_app. auto.
Qed.

Lemma made_round_trip h segs gs pl : bytes_ok (seg_bytes segs ++ pl) ->
  wire F_parse (seg_bytes segs ++ pl) gs pl -> reported gs = segs -> round_trip (made h segs pl).
Proof.
  intros Hb W E. exists (mpkt h segs pl), (mheap h segs), (seg_bytes segs ++ pl), segs.
  split; [reflexivity|]. split; [apply holds_made|]. split; [apply (holds_vec _ (mpkt h segs pl)), holds_made|].
  intros m. cbn [p_payload mpkt]. split.
  - intros h2. destruct (C34_slow_complete m F_parse _ h2 gs pl Hb W) as (hs & h3 & R & H).
    exists (Pkt hs pl), h3. rewrite E in H. auto.
  - destruct (C34_fast_complete m F_parse _ gs pl Hb W) as (q & R & H & P). exists q. rewrite E in H. auto.
Qed.

(** One header without options, then the payload. *)
Lemma wire_last f T x pl : header_of f = Some T -> length x = ht_size T -> options f x = [] ->
  demux f x pl = Some F_accept -> wire f (x ++ pl) (groups [(T, x)]) pl.
Proof. intros Hf L O D. apply (wire_plain f T x pl F_accept [] pl); auto. constructor. Qed.

Lemma ip4h_proto i proto s d len : ip4_in i s d -> proto < 256 -> be (sub (ip4h i proto s d len) 9 1) = proto.
Proof.
  intros Hi Hp. unfold ip4h, ip4s. set (c := csum _). clearbody c. unfold ip4b.
  pose proof (sub_mid ([N.lor 64 (ip_ihl i)] ++ [ip_tos i] ++ to_be 2 (N.of_nat len) ++ to_be 2 (ip_id i) ++
    to_be 2 (ip_frag i) ++ [ip_ttl i]) [proto] (to_be 2 c ++ s ++ d)) as E.
  rewrite <- !app_assoc in E. cbn [length] in E. rewrite !app_length, !to_be_length in E. cbn [length Nat.add] in E.
  rewrite E. cbn [be length]. change (N.of_nat (8 * 0)) with 0. rewrite N.pow_0_r. lia.
Qed.
Lemma ip6h_proto i nh s d len : nh < 256 -> be (sub (ip6h i nh s d len) 6 1) = nh.
Proof.
  intros Hp. unfold ip6h, ip6b.
  pose proof (sub_mid (to_be 4 (ip6_word (ip6_traffic_class i) (ip6_flow_label i)) ++ to_be 2 (N.of_nat len))
    [nh] ([ip6_hop_limit i] ++ s ++ d)) as E.
  rewrite <- !app_assoc in E. cbn [length] in E. rewrite !app_length, !to_be_length in E. cbn [length Nat.add] in E.
  rewrite E. cbn [be length]. change (N.of_nat (8 * 0)) with 0. rewrite N.pow_0_r. lia.
Qed.

Lemma wire_ip4 i proto s d len f rest gs pl : ip4_in i s d -> proto < 256 ->
  entry ipv4_protocols proto = f -> wire f rest gs pl ->
  wire F_ipv4 (ip4h i proto s d len ++ rest) (groups [(IPv4, ip4h i proto s d len)] ++ gs) pl.
Proof.
  intros Hi Hp Hf W. apply (wire_plain F_ipv4 IPv4 _ rest f); auto.
  - apply (ip4h_length i proto s d len s d Hi); eapply ipv4_len; apply Hi.
  - cbn [demux]. rewrite <- Hf. do 2 f_equal. apply ip4h_proto; auto.
Qed.
Lemma wire_ip6 i ip6 nh s d len f rest gs pl : ip6_in i ip6 s d -> nh < 256 ->
  entry ipv6_next_headers nh = f -> wire f rest gs pl ->
  wire F_ipv6 (ip6h i nh s d len ++ rest) (groups [(IPv6, ip6h i nh s d len)] ++ gs) pl.
Proof.
  intros Hi Hp Hf W. apply (wire_plain F_ipv6 IPv6 _ rest f); auto.
  - destruct Hi as (H6 & Ha & Hb & _). unfold ip6h. apply ip6b_length; [exact (proj1 (addr6_ok _ _ _ H6 Ha))|exact (proj1 (addr6_ok _ _ _ H6 Hb))].
  - cbn [demux]. rewrite <- Hf. do 2 f_equal. apply ip6h_proto; auto.
Qed.

Lemma groups_app a b : groups (a ++ b) = groups a ++ groups b.
Proof. unfold groups. rewrite map_app. apply concat_app. Qed.
Lemma reported_only l : reported (groups l) = l.
Proof. rewrite <- (app_nil_r (groups l)), reported_groups. apply app_nil_r. Qed.

(** Ethernet, IPv4, one more header, payload. *)
Lemma round_trip4 e d s i a b proto len T x f pl h : eth_in e d s -> ip4_in i a b -> proto < 256 ->
  entry ipv4_protocols proto = f -> header_of f = Some T -> length x = ht_size T -> options f x = [] ->
  demux f x pl = Some F_accept -> bytes_ok x -> bytes_ok pl ->
  round_trip (made h (eth_segs e d s 0x800 ++ [(IPv4, ip4h i proto a b len); (T, x)]) pl).
Proof.
  intros He Hi Hp Hf Hh Lx Ho Hd Ox Opl. set (es := eth_segs e d s 0x800).
  assert (Eb : seg_bytes (es ++ [(IPv4, ip4h i proto a b len); (T, x)]) ++ pl =
    seg_bytes es ++ ip4h i proto a b len ++ x ++ pl).
  { rewrite seg_bytes_app. unfold seg_bytes at 2. cbn [map snd concat]. rewrite app_nil_r, <- !app_assoc. reflexivity. }
  destruct (ip4h_header i proto a b len Hi Hp) as (_ & [Oi _] & _).
  apply made_round_trip with (gs := groups (es ++ [(IPv4, ip4h i proto a b len)] ++ [(T, x)])).
  - rewrite Eb. rewrite !bytes_ok_app. split; [apply eth_segs_ok; auto; reflexivity|]. auto.
  - rewrite Eb, !groups_app. apply wire_eth_part with (f := F_ipv4); auto; try reflexivity; [discriminate|].
    apply wire_ip4 with (f := f); auto. apply wire_last; auto.
  - apply reported_only.
Qed.
Lemma round_trip6 e d s i ip6 a b nh len T x f pl h : eth_in e d s -> ip6_in i ip6 a b -> nh < 256 ->
  entry ipv6_next_headers nh = f -> header_of f = Some T -> length x = ht_size T -> options f x = [] ->
  demux f x pl = Some F_accept -> bytes_ok x -> bytes_ok pl ->
  round_trip (made h (eth_segs e d s 0x86DD ++ [(IPv6, ip6h i nh a b len); (T, x)]) pl).
Proof.
  intros He Hi Hp Hf Hh Lx Ho Hd Ox Opl. set (es := eth_segs e d s 0x86DD).
  assert (Eb : seg_bytes (es ++ [(IPv6, ip6h i nh a b len); (T, x)]) ++ pl =
    seg_bytes es ++ ip6h i nh a b len ++ x ++ pl).
  { rewrite seg_bytes_app. unfold seg_bytes at 2. cbn [map snd concat]. rewrite app_nil_r, <- !app_assoc. reflexivity. }
  destruct (ip6h_diagram i ip6 nh a b len Hi Hp) as [Oi _].
  apply made_round_trip with (gs := groups (es ++ [(IPv6, ip6h i nh a b len)] ++ [(T, x)])).
  - rewrite Eb. rewrite !bytes_ok_app. split; [apply eth_segs_ok; auto; reflexivity|]. auto.
  - rewrite Eb, !groups_app. apply wire_eth_part with (f := F_ipv6); auto; try reflexivity; [discriminate|].
    apply wire_ip6 with (ip6 := ip6) (f := f); auto. apply wire_last; auto.
  - apply reported_only.
Qed.

Lemma udp_demux src dst len c pl : dst < 65536 -> dst <> 4789 ->
  demux F_udp (udp_bytes src dst len c) pl = Some F_accept.
Proof.
  intros Hd Hn. cbn [demux]. unfold udp_bytes.
  pose proof (sub_mid (to_be 2 src) (to_be 2 dst) (to_be 2 (N.of_nat len) ++ to_be 2 c)) as E.
  rewrite !to_be_length in E. rewrite E, be_2 by auto. rewrite (proj2 (N.eqb_neq _ _) Hn). reflexivity.
Qed.

Theorem C44_arp : forall e opcode smac tmac sip tip pl h d s a b c g,
  eth_in e d s -> opcode < 65536 ->
  mac_text smac a -> ipv4_text sip b -> mac_text tmac c -> ipv4_text tip g -> bytes_ok pl ->
  round_trip (create_arp_packet e opcode smac tmac sip tip pl h).
Proof.
  intros e opcode smac tmac sip tip pl h d s a b c g He Ho Ha Hb Hc Hg Opl.
  rewrite (arp_run e d s pl h He opcode smac tmac sip tip a b c g Ha Hb Hc Hg).
  set (es := eth_segs e d s 0x806). set (x := arp_bytes opcode a b c g).
  destruct (C24_arp opcode smac tmac sip tip a b c g [] Ha Hb Hc Hg Ho) as (y & E & Ly & (Oy & _) & _).
  rewrite (builds_arp opcode _ _ _ _ _ _ _ _ Ha Hb Hc Hg []) in E. injection E as E. fold x in E. subst y.
  assert (Eb : seg_bytes (es ++ [(ARP, x)]) ++ pl = seg_bytes es ++ x ++ pl).
  { rewrite seg_bytes_app. unfold seg_bytes at 2. cbn [map snd concat]. rewrite app_nil_r, <- !app_assoc. reflexivity. }
  apply made_round_trip with (gs := groups (es ++ [(ARP, x)])).
  - rewrite Eb, !bytes_ok_app. split; [apply eth_segs_ok; auto; reflexivity|]. auto.
  - rewrite Eb, groups_app. apply wire_eth_part with (f := F_arp); auto; try reflexivity; [discriminate|].
    apply wire_last; auto.
  - apply reported_only.
Qed.
Print Assumptions C44_arp.

Theorem C44_tcp : forall m e i t pl h d s a b, eth_in e d s -> ip4_in i a b -> tcp_in t -> bytes_ok pl ->
  round_trip (create_tcp_packet m e i t pl h).
Proof.
  intros m e i t pl h d s a b He Hi Ht Opl. rewrite (tcp_run m e d s pl h He i a b Hi t).
  pose proof (tcp_diagram t Ht) as D.
  apply round_trip4 with (f := F_tcp); auto; try reflexivity. apply D.
Qed.
Print Assumptions C44_tcp.

Theorem C44_udp : forall m e i dst src pl h d s a b, eth_in e d s -> ip4_in i a b -> dst < 65536 -> src < 65536 ->
  dst <> 4789 -> bytes_ok pl ->
  round_trip (create_udp_packet m e i dst src pl h).
Proof.
  intros m e i dst src pl h d s a b He Hi Hd Hs Hn Opl. rewrite (udp_run m e d s pl h He i a b Hi dst src).
  pose proof (udp_diagram src dst (8 + length pl) 0 Hs Hd eq_refl) as D.
  apply round_trip4 with (f := F_udp); auto; try reflexivity; [apply udp_demux; auto|apply D].
Qed.
Print Assumptions C44_udp.

Theorem C44_icmp : forall m e i ty code pl h d s a b, eth_in e d s -> ip4_in i a b -> ty < 256 -> code < 256 ->
  bytes_ok pl -> round_trip (create_icmp_packet m e i ty code pl h).
Proof.
  intros m e i ty code pl h d s a b He Hi Hd Hs Opl. rewrite (icmp_run m e d s pl h He i a b Hi ty code).
  pose proof (icmp_diagram ty code Hd Hs) as D.
  apply round_trip4 with (f := F_icmp); auto; try reflexivity. apply D.
Qed.
Print Assumptions C44_icmp.

Theorem C44_tcpv6 : forall m ip6 e i t pl h d s a b, eth_in e d s -> ip6_in i ip6 a b -> tcp_in t -> bytes_ok pl ->
  round_trip (create_tcpv6_packet m ip6 e i t pl h).
Proof.
  intros m ip6 e i t pl h d s a b He Hi Ht Opl. rewrite (tcpv6_run m e d s pl h He ip6 i a b Hi t).
  pose proof (tcp_diagram t Ht) as D.
  apply round_trip6 with (ip6 := ip6) (f := F_tcp); auto; try reflexivity. apply D.
Qed.
Print Assumptions C44_tcpv6.

Theorem C44_udpv6 : forall m ip6 e i dst src pl h d s a b, eth_in e d s -> ip6_in i ip6 a b ->
  dst < 65536 -> src < 65536 -> dst <> 4789 -> bytes_ok pl ->
  round_trip (create_udpv6_packet m ip6 e i dst src pl h).
Proof.
  intros m ip6 e i dst src pl h d s a b He Hi Hd Hs Hn Opl. rewrite (udpv6_run m e d s pl h He ip6 i a b Hi dst src).
  pose proof (udp_diagram src dst (8 + length pl) 0xffff Hs Hd eq_refl) as D.
  apply round_trip6 with (ip6 := ip6) (f := F_udp); auto; try reflexivity; [apply udp_demux; auto|apply D].
Qed.
Print Assumptions C44_udpv6.

Theorem C44_icmpv6 : forall m ip6 e i ty code pl h d s a b, eth_in e d s -> ip6_in i ip6 a b ->
  ty < 256 -> code < 256 -> bytes_ok pl -> round_trip (create_icmpv6_packet m ip6 e i ty code pl h).
Proof.
  intros m ip6 e i ty code pl h d s a b He Hi Hd Hs Opl. rewrite (icmpv6_run m e d s pl h He ip6 i a b Hi ty code).
  pose proof (icmp_diagram ty code Hd Hs) as D.
  apply round_trip6 with (ip6 := ip6) (f := F_icmp); auto; try reflexivity. apply D.
Qed.
Print Assumptions C44_icmpv6.

(** Port 4789: a payload too short for a VXLAN header makes the parser panic. *)
Theorem C44_vxlan_port_refuted : exists e i d s a b p h v,
  eth_in e d s /\ ip4_in i a b /\
  (forall m, create_udp_packet m e i 4789 1000 [1; 2; 3] [] = (Ret p, h)) /\ to_vec p h = (Ret v, h) /\
  forall m, fst (slow m F_parse v []) = Panic PSlice /\ fast m F_parse v = Panic PSlice.
Proof.
  exists ex_eth, ex_ip4. do 7 eexists. split; [exact ex_eth_in|]. split; [exact ex_ip4_in|].
  split; [intros []; vm_compute; reflexivity|]. split; [vm_compute; reflexivity|].
  intros []; split; vm_compute; reflexivity.
Qed.
Print Assumptions C44_vxlan_port_refuted.

Example C44_example : exists p h, create_udp_packet Debug ex_eth ex_ip4 53 1000 [1; 2; 3] [] = (Ret p, h) /\
  exists v, to_vec p h = (Ret v, h) /\ exists q h3, slow Debug F_parse v [] = (Ret q, h3) /\
    map hname (p_hdrs q) = ["Ether"; "Vlan"; "IPv4"; "UDP"]%string /\ p_payload q = [1; 2; 3].
Proof.
  do 2 eexists. split; [vm_compute; reflexivity|]. eexists. split; [vm_compute; reflexivity|].
  do 2 eexists. split; [vm_compute; reflexivity|]. split; reflexivity.
Qed.
