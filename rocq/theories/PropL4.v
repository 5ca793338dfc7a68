(** PropL4.v -- C69: the checksums of TCP, UDP and ICMP. *)

From Coq Require Import Lia.
From Verif Require Import Base Layout Heap Packet Text Utils Spec UtilsSpec L4Spec.
From Verif Require Import BitsProofs HeapProofs TextProofs ChecksumProofs PropChecksum BuildProofs PropBuild UtilsProofs PropUtils.
Open Scope N_scope.

(** ** Sums modulo 65535 *)

Definition cong (a b : N) : Prop := exists i j, a + i * 65535 = b + j * 65535.
Lemma cong_refl a : cong a a.
Proof. exists 0, 0. reflexivity. Qed.
Lemma cong_sym a b : cong a b -> cong b a.
Proof. intros (i & j & E). exists j, i. auto. Qed.
Lemma cong_trans a b c : cong a b -> cong b c -> cong a c.
Proof. intros (i & j & E) (k & l & F). exists (i + k), (l + j). lia. Qed.
Lemma cong_add a b c d : cong a b -> cong c d -> cong (a + c) (b + d).
Proof. intros (i & j & E) (k & l & F). exists (i + k), (j + l). lia. Qed.
Lemma cong_divide a b : cong a b -> ((65535 | a) <-> (65535 | b)).
Proof.
  intros (i & j & E).
  assert (D : forall x k, (65535 | x) <-> (65535 | x + k * 65535)).
  { intros x k. split; intros H.
    - apply N.divide_add_r; [auto|]. exists k. reflexivity.
    - apply N.divide_add_cancel_r with (k * 65535); [exists k; reflexivity|]. rewrite N.add_comm. auto. }
  rewrite (D a i), (D b j), E. reflexivity.
Qed.

Lemma total_app a b : Nat.even (length a) = true -> total (a ++ b) = total a + total b.
Proof. intros E. unfold total. rewrite words_app by auto. apply plain_sum_app. Qed.
Lemma total_cons2 a b t : total (a :: b :: t) = a * 256 + b + total t.
Proof. reflexivity. Qed.

Lemma pow_cong n : cong (2 ^ N.of_nat (16 * n)) 1.
Proof.
  induction n as [|n (i & j & E)]; [apply cong_refl|].
  replace (16 * S n)%nat with (16 + 16 * n)%nat by lia. rewrite Nat2N.inj_add, N.pow_add_r.
  change (2 ^ N.of_nat 16) with 65536. set (p := 2 ^ N.of_nat (16 * n)) in *. exists i, (j + p). lia.
Qed.
Lemma cong_mul a b c : cong a b -> cong (c * a) (c * b).
Proof. intros (i & j & E). exists (c * i), (c * j). nia. Qed.

(** A byte string read as one number. *)
Lemma be_total d : Nat.even (length d) = true -> cong (be d) (total d).
Proof.
  assert (G : forall n d, (length d <= n)%nat -> Nat.even (length d) = true -> cong (be d) (total d)).
  { induction n as [|n IH]; intros [|a [|b t]] L E; cbn [length] in L; try lia; try discriminate; try apply cong_refl.
    change (a :: b :: t) with ([a; b] ++ t). rewrite be_app. change ([a; b] ++ t) with (a :: b :: t). rewrite total_cons2.
    apply cong_add; [|apply IH; [lia|exact E]].
    cbn [length] in E. apply Nat.even_spec in E as [k E].
    replace (8 * length t)%nat with (16 * (k - 1))%nat by lia.
    apply cong_trans with (be [a; b] * 1); [apply cong_mul, pow_cong|].
    replace (be [a; b] * 1) with (a * 256 + b); [apply cong_refl|]. cbn [be length].
    change (256 ^ N.of_nat 1) with 256. change (256 ^ N.of_nat 0) with 1. lia. }
  intros E. eapply G; eauto.
Qed.

Lemma total_zero d : total d = 0 -> Forall (fun b => b = 0) d.
Proof.
  assert (G : forall n d, (length d <= n)%nat -> total d = 0 -> Forall (fun b => b = 0) d).
  { induction n as [|n IH]; intros [|a [|b t]] L E; cbn [length] in L; try lia; auto.
    - unfold total in E. cbn [words plain_sum fold_right] in E. repeat constructor. lia.
    - rewrite total_cons2 in E. constructor; [lia|]. constructor; [lia|]. apply IH; lia. }
  intros E. eapply G; eauto.
Qed.

(** Accepted: the sum is a multiple of 65535, but not zero. *)
Lemma accepted_iff ph msg : bytes_ok ph -> bytes_ok msg ->
  (accepted ph msg <-> total (ph ++ msg) <> 0 /\ (65535 | total (ph ++ msg))).
Proof.
  intros Hp Hm. unfold accepted, checksum_ok. rewrite oc_sum_val by (apply words_lt, bytes_ok_app; auto).
  fold (total (ph ++ msg)). rewrite ocn_ok. split.
  - intros [k ->]. split; [lia|]. exists (k + 1). reflexivity.
  - intros [N [k E]]. exists (k - 1). lia.
Qed.

Lemma pseudo4_total s d p len : length s = 4%nat -> length d = 4%nat -> (N.of_nat len < 65536) ->
  cong (total (pseudo4 s d p len)) (be s + be d + p + N.of_nat len) /\ Nat.even (length (pseudo4 s d p len)) = true /\
  p <= total (pseudo4 s d p len).
Proof.
  intros Ls Ld L. unfold pseudo4. rewrite !total_app by (rewrite ?Ls, ?Ld; reflexivity). rewrite !total_cons2.
  change (total []) with 0. pose proof (N.div_mod (N.of_nat len) 256 ltac:(lia)) as E.
  split; [|split; [rewrite !app_length, Ls, Ld; reflexivity|lia]].
  apply cong_trans with (total s + total d + p + N.of_nat len);
    [replace (total s + (total d + (0 * 256 + p + (N.of_nat len / 256 * 256 + N.of_nat len mod 256 + 0))))
       with (total s + total d + p + N.of_nat len) by lia; apply cong_refl|].
  repeat apply cong_add; try apply cong_refl; apply cong_sym, be_total; rewrite ?Ls, ?Ld; reflexivity.
Qed.
Lemma pseudo6_total s d p len : length s = 16%nat -> length d = 16%nat -> (N.of_nat len < 2 ^ 32) ->
  cong (total (pseudo6 s d p len)) (be s + be d + p + N.of_nat len) /\ Nat.even (length (pseudo6 s d p len)) = true /\
  p <= total (pseudo6 s d p len).
Proof.
  intros Ls Ld L. unfold pseudo6. cbv zeta. rewrite !total_app by (rewrite ?Ls, ?Ld; reflexivity). rewrite !total_cons2.
  change (total []) with 0. set (n := N.of_nat len) in *.
  pose proof (N.div_mod n 256 ltac:(lia)) as E1. pose proof (N.div_mod (n / 256) 256 ltac:(lia)) as E2.
  pose proof (N.div_mod (n / 256 / 256) 256 ltac:(lia)) as E3.
  assert (D2 : n / 2 ^ 16 = n / 256 / 256) by (rewrite N.div_div by lia; reflexivity).
  assert (D3 : n / 2 ^ 24 = n / 256 / 256 / 256) by (rewrite !N.div_div by lia; reflexivity).
  rewrite D2, D3. set (a := n / 256 / 256 / 256) in *. set (b := n / 256 / 256 mod 256) in *.
  set (c := n / 256 mod 256) in *. set (e := n mod 256) in *.
  split; [|split; [rewrite !app_length, Ls, Ld; reflexivity|lia]].
  apply cong_trans with (total s + total d + p + n).
  - exists (a * 256 + b), 0. lia.
  - repeat apply cong_add; try apply cong_refl; apply cong_sym, be_total; rewrite ?Ls, ?Ld; reflexivity.
Qed.

(** ** The headers built *)

Definition tcp_total (t : tcp_args) : N :=
  tcp_src t + tcp_dst t + tcp_seq_no t + tcp_ack_no t + 4096 * tcp_data_offset t + 256 * tcp_res t + tcp_flags t +
  tcp_window t + tcp_urgent_ptr t.

Lemma tcp_cong y t : tcp_data_offset t < 16 -> tcp_res t < 16 -> diagram y (tcp_fields t) ->
  length y = 20%nat /\ bytes_ok y /\ cong (total y) (tcp_total t) /\ field_val y TCP_checksum = 0.
Proof.
  intros Ho Hr D. pose proof (diagram_len _ _ 20 D eq_refl) as L.
  pose proof (diagram_fields _ _ (ht_fields TCP) D eq_refl) as F.
  destruct D as (Hy & _ & _ & E). split; auto. split; auto. split.
  - apply cong_trans with (be y); [apply cong_sym, be_total; rewrite L; reflexivity|]. rewrite E.
    unfold tcp_fields. destruct (in_range_tcp _ _ Ho Hr) as [-> ->].
    unfold pack, widths, tcp_total. cbn [map fst list_sum fold_right Nat.add].
    exists 0, (tcp_src t * ((2 ^ 144 - 1) / 65535) + tcp_dst t * ((2 ^ 128 - 1) / 65535) + tcp_seq_no t * ((2 ^ 96 - 1) / 65535) +
      tcp_ack_no t * ((2 ^ 64 - 1) / 65535) + tcp_data_offset t * 4096 * ((2 ^ 48 - 1) / 65535) +
      tcp_res t * 256 * ((2 ^ 48 - 1) / 65535) + tcp_flags t * ((2 ^ 48 - 1) / 65535) +
      tcp_window t * ((2 ^ 32 - 1) / 65535)).
    repeat match goal with |- context [2 ^ ?n] => let v := eval vm_compute in (2 ^ n) in progress change (2 ^ n) with v end.
    repeat match goal with |- context [(?a - 1) / 65535] => let v := eval vm_compute in ((a - 1) / 65535) in change ((a - 1) / 65535) with v end.
    lia.
  - cbn [ht_fields TCP map] in F. injection F. intros. assumption.
Qed.
Lemma udp_cong y src dst n c : N.of_nat n < 65536 -> diagram y (udp_fields src dst n c) ->
  length y = 8%nat /\ bytes_ok y /\ cong (total y) (src + dst + N.of_nat n + c) /\ field_val y UDP_checksum = c.
Proof.
  intros Hn D. pose proof (diagram_len _ _ 8 D eq_refl) as L.
  pose proof (diagram_fields _ _ (ht_fields UDP) D eq_refl) as F.
  destruct D as (Hy & _ & _ & E). split; auto. split; auto. split.
  - apply cong_trans with (be y); [apply cong_sym, be_total; rewrite L; reflexivity|]. rewrite E.
    unfold udp_fields. rewrite (N.mod_small (N.of_nat n)) by auto.
    unfold pack, widths. cbn [map fst list_sum fold_right Nat.add].
    exists 0, (src * ((2 ^ 48 - 1) / 65535) + dst * ((2 ^ 32 - 1) / 65535) + N.of_nat n).
    repeat match goal with |- context [2 ^ N.of_nat ?n] => let v := eval vm_compute in (2 ^ N.of_nat n) in progress change (2 ^ N.of_nat n) with v end.
    repeat match goal with |- context [(?a - 1) / 65535] => let v := eval vm_compute in ((a - 1) / 65535) in change ((a - 1) / 65535) with v end.
    lia.
  - cbn [ht_fields UDP map] in F. injection F. intros. assumption.
Qed.
Lemma icmp_cong y ty code : diagram y (icmp_fields ty code) ->
  length y = 4%nat /\ bytes_ok y /\ total y = 256 * ty + code /\ field_val y ICMP_chksum = 0.
Proof.
  intros D. pose proof (diagram_len _ _ 4 D eq_refl) as L.
  pose proof (diagram_fields _ _ (ht_fields ICMP) D eq_refl) as F.
  destruct D as (Hy & _ & Fi & E). split; auto. split; auto. split.
  - unfold icmp_fields, fits in Fi. apply Forall_cons_iff in Fi as [H1 Fi]. apply Forall_cons_iff in Fi as [H2 _].
    cbn [fst snd] in H1, H2. change (2 ^ N.of_nat 8) with 256 in *.
    assert (Ey : y = [ty; code; 0; 0]).
    { apply be_inj; [auto|repeat constructor; auto; reflexivity|rewrite L; reflexivity|]. rewrite E. unfold pack, widths, icmp_fields.
      cbn [map fst list_sum fold_right Nat.add be length].
      repeat match goal with |- context [2 ^ N.of_nat ?n] => let v := eval vm_compute in (2 ^ N.of_nat n) in progress change (2 ^ N.of_nat n) with v end.
      repeat match goal with |- context [256 ^ N.of_nat ?n] => let v := eval vm_compute in (256 ^ N.of_nat n) in progress change (256 ^ N.of_nat n) with v end.
      lia. }
    rewrite Ey. unfold total. cbn [words plain_sum fold_right]. lia.
  - cbn [ht_fields ICMP map] in F. injection F. intros. assumption.
Qed.

(** Pseudo header, header and payload together. *)
Lemma accepted_cong ph y pl P Y : bytes_ok ph -> bytes_ok y -> bytes_ok pl ->
  Nat.even (length ph) = true -> Nat.even (length y) = true -> cong (total ph) P -> cong (total y) Y -> total ph <> 0 ->
  (accepted ph (y ++ pl) <-> (65535 | P + Y + total pl)).
Proof.
  intros Hp Hy Hl Ep Ey Cp Cy Nz. rewrite accepted_iff by (try apply bytes_ok_app; auto).
  rewrite !total_app by auto.
  assert (D : (65535 | total ph + (total y + total pl)) <-> (65535 | P + Y + total pl)).
  { apply cong_divide. rewrite N.add_assoc. repeat apply cong_add; auto. apply cong_refl. }
  rewrite D. split; [tauto|]. intros H. split; auto. lia.
Qed.
Lemma pseudo4_ok s d p len : bytes_ok s -> bytes_ok d -> p < 256 -> N.of_nat len < 65536 -> bytes_ok (pseudo4 s d p len).
Proof.
  intros Hs Hd Hp Hl. unfold pseudo4. apply bytes_ok_app. split; [auto|]. apply bytes_ok_app. split; [auto|]. unfold bytes_ok, byte_ok.
  assert (N.of_nat len / 256 < 256) by (apply N.div_lt_upper_bound; lia).
  assert (N.of_nat len mod 256 < 256) by (apply N.mod_lt; lia). repeat constructor; auto; lia.
Qed.
Lemma pseudo6_ok s d p len : bytes_ok s -> bytes_ok d -> p < 256 -> N.of_nat len < 2 ^ 32 -> bytes_ok (pseudo6 s d p len).
Proof.
  intros Hs Hd Hp Hl. unfold pseudo6. cbv zeta. apply bytes_ok_app. split; [auto|]. apply bytes_ok_app. split; [auto|]. unfold bytes_ok, byte_ok.
  assert (N.of_nat len / 2 ^ 24 < 256) by (apply N.div_lt_upper_bound; lia).
  repeat constructor; auto; try (apply N.mod_lt; lia); lia.
Qed.

(** ** What the constructors leave *)

Lemma addr4_ok s a : ipv4_text s a -> length a = 4%nat /\ bytes_ok a.
Proof. intros H. split; [eapply ipv4_len|eapply ipv4_ok]; eauto. Qed.

(** [create_tcp_packet] leaves the checksum zero. The receiver accepts the segment exactly if
    65535 divides the sum of addresses, protocol, length, header fields and payload words. *)
Theorem C69_tcp : forall m e i t pl h d s a b, eth_in e d s -> ip4_in i a b -> tcp_in t ->
  tcp_data_offset t < 16 -> tcp_res t < 16 -> bytes_ok pl -> N.of_nat (20 + length pl) < 65536 ->
  exists es x y,
    packet_new (create_tcp_packet m e i t pl h) h (es ++ [(IPv4, x); (TCP, y)]) pl /\
    field_val y TCP_checksum = 0 /\
    (accepted (pseudo4 a b 6 (length y + length pl)) (y ++ pl) <->
     (65535 | be a + be b + 6 + N.of_nat (20 + length pl) + tcp_total t + total pl)).
Proof.
  intros m e i t pl h d s a b He Hi Ht Ho Hr Hpl Hn.
  destruct (C42_tcp m e i t pl h d s a b He Hi Ht) as (es & x & y & P & _ & _ & D).
  destruct (tcp_cong y t Ho Hr D) as (L & Hy & C & F). exists es, x, y. split; auto. split; auto. rewrite L.
  destruct Hi as (Ha & Hb & _). destruct (addr4_ok _ _ Ha) as [La Oa]. destruct (addr4_ok _ _ Hb) as [Lb Ob].
  destruct (pseudo4_total a b 6 (20 + length pl) La Lb Hn) as (C1 & E1 & G1).
  apply accepted_cong; auto; [apply pseudo4_ok; auto; reflexivity|rewrite L; reflexivity|lia].
Qed.
Print Assumptions C69_tcp.

Theorem C69_tcpv6 : forall m ip6 e i t pl h d s a b, eth_in e d s -> ip6_in i ip6 a b -> tcp_in t ->
  tcp_data_offset t < 16 -> tcp_res t < 16 -> bytes_ok pl -> N.of_nat (20 + length pl) < 2 ^ 32 ->
  exists es x y,
    packet_new (create_tcpv6_packet m ip6 e i t pl h) h (es ++ [(IPv6, x); (TCP, y)]) pl /\
    field_val y TCP_checksum = 0 /\
    (accepted (pseudo6 a b 6 (length y + length pl)) (y ++ pl) <->
     (65535 | be a + be b + 6 + N.of_nat (20 + length pl) + tcp_total t + total pl)).
Proof.
  intros m ip6 e i t pl h d s a b He Hi Ht Ho Hr Hpl Hn.
  destruct (C43_tcpv6 ip6 m e i t pl h d s a b He Hi Ht) as (es & x & y & P & _ & _ & D).
  destruct (tcp_cong y t Ho Hr D) as (L & Hy & C & F). exists es, x, y. split; auto. split; auto. rewrite L.
  destruct Hi as (H6 & Ha & Hb & _). destruct (addr6_ok _ _ _ H6 Ha) as [La Oa]. destruct (addr6_ok _ _ _ H6 Hb) as [Lb Ob].
  destruct (pseudo6_total a b 6 (20 + length pl) La Lb Hn) as (C1 & E1 & G1).
  apply accepted_cong; auto; [apply pseudo6_ok; auto; reflexivity|rewrite L; reflexivity|lia].
Qed.
Print Assumptions C69_tcpv6.

(** [create_udp_packet] leaves it zero, which means that there is none. *)
Theorem C69_udp : forall m e i dst src pl h d s a b, eth_in e d s -> ip4_in i a b -> dst < 65536 -> src < 65536 ->
  N.of_nat (8 + length pl) < 65536 ->
  exists es x y,
    packet_new (create_udp_packet m e i dst src pl h) h (es ++ [(IPv4, x); (UDP, y)]) pl /\
    field_val y UDP_checksum = 0 /\ forall ph, udp4_accepted ph y.
Proof.
  intros m e i dst src pl h d s a b He Hi Hd Hs Hn.
  destruct (C42_udp m e i dst src pl h d s a b He Hi Hd Hs) as (es & x & y & P & _ & _ & D).
  pose proof (diagram_len _ _ 8 D eq_refl) as L. rewrite L in D.
  destruct (udp_cong y src dst (8 + length pl) 0 Hn D) as (_ & Hy & C & F). exists es, x, y. split; auto. split; auto.
  intros ph. left. exact F.
Qed.
Print Assumptions C69_udp.

(** [create_udpv6_packet] writes 0xffff: right exactly if 65535 divides the rest. *)
Theorem C69_udpv6 : forall m ip6 e i dst src pl h d s a b, eth_in e d s -> ip6_in i ip6 a b -> dst < 65536 -> src < 65536 ->
  bytes_ok pl -> N.of_nat (8 + length pl) < 65536 ->
  exists es x y,
    packet_new (create_udpv6_packet m ip6 e i dst src pl h) h (es ++ [(IPv6, x); (UDP, y)]) pl /\
    field_val y UDP_checksum = 0xffff /\
    (accepted (pseudo6 a b 17 (length y + length pl)) (y ++ pl) <->
     (65535 | be a + be b + 17 + 2 * N.of_nat (8 + length pl) + src + dst + total pl)).
Proof.
  intros m ip6 e i dst src pl h d s a b He Hi Hd Hs Hpl Hn.
  destruct (C43_udpv6 ip6 m e i dst src pl h d s a b He Hi Hd Hs) as (es & x & y & P & _ & _ & D).
  pose proof (diagram_len _ _ 8 D eq_refl) as L. rewrite L in D.
  destruct (udp_cong y src dst (8 + length pl) 0xffff Hn D) as (_ & Hy & C & F). exists es, x, y. split; auto. split; auto.
  rewrite L. destruct Hi as (H6 & Ha & Hb & _). destruct (addr6_ok _ _ _ H6 Ha) as [La Oa]. destruct (addr6_ok _ _ _ H6 Hb) as [Lb Ob].
  destruct (pseudo6_total a b 17 (8 + length pl) La Lb ltac:(lia)) as (C1 & E1 & G1).
  rewrite (accepted_cong _ y pl _ _ (pseudo6_ok a b 17 (8 + length pl) Oa Ob eq_refl ltac:(lia)) Hy Hpl E1 ltac:(rewrite L; reflexivity) C1 C ltac:(lia)).
  apply cong_divide. exists 0, 1. lia.
Qed.
Print Assumptions C69_udpv6.

(** ICMP has no pseudo header; a message of zeros only is not accepted either. *)
Theorem C69_icmp : forall m e i ty code pl h d s a b, eth_in e d s -> ip4_in i a b -> ty < 256 -> code < 256 ->
  bytes_ok pl ->
  exists es x y,
    packet_new (create_icmp_packet m e i ty code pl h) h (es ++ [(IPv4, x); (ICMP, y)]) pl /\
    field_val y ICMP_chksum = 0 /\
    (accepted [] (y ++ pl) <-> 256 * ty + code + total pl <> 0 /\ (65535 | 256 * ty + code + total pl)).
Proof.
  intros m e i ty code pl h d s a b He Hi Ht Hc Hpl.
  destruct (C42_icmp m e i ty code pl h d s a b He Hi Ht Hc) as (es & x & y & P & _ & _ & D).
  destruct (icmp_cong y ty code D) as (L & Hy & T & F). exists es, x, y. split; auto. split; auto.
  rewrite accepted_iff by (try apply bytes_ok_app; auto; constructor). cbn [app].
  rewrite total_app by (rewrite L; reflexivity). rewrite T. reflexivity.
Qed.
Print Assumptions C69_icmp.

Theorem C69_icmpv6 : forall m ip6 e i ty code pl h d s a b, eth_in e d s -> ip6_in i ip6 a b -> ty < 256 -> code < 256 ->
  bytes_ok pl -> N.of_nat (4 + length pl) < 2 ^ 32 ->
  exists es x y,
    packet_new (create_icmpv6_packet m ip6 e i ty code pl h) h (es ++ [(IPv6, x); (ICMP, y)]) pl /\
    field_val y ICMP_chksum = 0 /\
    (accepted (pseudo6 a b 58 (length y + length pl)) (y ++ pl) <->
     (65535 | be a + be b + 58 + N.of_nat (4 + length pl) + (256 * ty + code) + total pl)).
Proof.
  intros m ip6 e i ty code pl h d s a b He Hi Ht Hc Hpl Hn.
  destruct (C43_icmpv6 ip6 m e i ty code pl h d s a b He Hi Ht Hc) as (es & x & y & P & _ & _ & D).
  destruct (icmp_cong y ty code D) as (L & Hy & T & F). exists es, x, y. split; auto. split; auto. rewrite L.
  destruct Hi as (H6 & Ha & Hb & _). destruct (addr6_ok _ _ _ H6 Ha) as [La Oa]. destruct (addr6_ok _ _ _ H6 Hb) as [Lb Ob].
  destruct (pseudo6_total a b 58 (4 + length pl) La Lb Hn) as (C1 & E1 & G1).
  apply accepted_cong; auto; [apply pseudo6_ok; auto; reflexivity|rewrite L; reflexivity|rewrite T; apply cong_refl|lia].
Qed.
Print Assumptions C69_icmpv6.

(** ** Setting it *)

Lemma skipn_skipn {A} a b (l : list A) : skipn a (skipn b l) = skipn (b + a) l.
Proof. revert l. induction b as [|b IH]; intros [|x l]; cbn [skipn Nat.add]; auto. apply skipn_nil. Qed.


(** Writing [v] into a 16-bit field at an even offset: accepted exactly for the sender's value, 0
    and 0xffff being the same when the latter can occur. Every other byte stays. *)
Theorem C69_set : forall x f k h y ph pl v,
  cell_at h (h_ref x) y -> bytes_ok y -> bytes_ok ph -> bytes_ok pl -> v < 65536 ->
  f_start f = (8 * k)%nat -> f_end f = (8 * k + 15)%nat -> Nat.even k = true -> (k + 2 <= length y)%nat ->
  Nat.even (length ph) = true ->
  let c := sender_value ph k (y ++ pl) in
  exists h', hset x f v h = (Ret tt, h') /\ only_changes (h_ref x) h h' /\
    cell_at h' (h_ref x) (with_word k v y) /\ field_val (with_word k v y) f = v /\
    (accepted ph (with_word k v y ++ pl) <-> v = c \/ (c = 0 /\ v = 65535)).
Proof.
  intros x f k h y ph pl v C Oy Op Ol Hv Fs Fe Ek Lk Ep c.
  set (A := firstn k y). set (o := firstn 2 (skipn k y)). set (B := skipn (k + 2) y).
  assert (La : length A = k) by (unfold A; rewrite firstn_length_le; lia).
  assert (Lo : length o = 2%nat) by (unfold o; rewrite firstn_length_le; rewrite ?skipn_length; lia).
  assert (Ed : y = A ++ o ++ B).
  { unfold A, o, B. rewrite <- (firstn_skipn k y) at 1. f_equal.
    rewrite <- (firstn_skipn 2 (skipn k y)) at 1. f_equal. apply skipn_skipn. }
  assert (Oa : bytes_ok A) by (apply bytes_ok_firstn; auto).
  assert (Ob : bytes_ok B) by (apply bytes_ok_skipn; auto).
  assert (Oo : bytes_ok o) by (apply bytes_ok_firstn, bytes_ok_skipn; auto).
  assert (Ev : to_be 2 v = [v / 256; v mod 256]).
  { rewrite to_be_2. rewrite (N.mod_small (v / 256)) by (apply N.div_lt_upper_bound; lia). reflexivity. }
  assert (Ef : fset y f v = with_word k v y).
  { rewrite Ed at 1. transitivity (A ++ to_be (length o) v ++ B); [|rewrite Lo, Ev; reflexivity].
    apply fset_middle; auto; [destruct o; [discriminate|congruence]|lia|lia]. }
  assert (Fi : field_in f (length y)) by (split; lia).
  exists (upd h (h_ref x) (Cell (with_word k v y) false)).
  split; [rewrite (hset_in x h y _ v C Oy Fi), Ef; reflexivity|].
  split; [split; [apply upd_length|intros; apply cell_at_upd_other; auto]|].
  split; [eapply cell_at_upd; eauto|]. split.
  { rewrite <- Ef, field_val_fset by auto. apply N.mod_small. unfold f_width. rewrite Fs, Fe.
    replace (8 * k + 15 - 8 * k + 1)%nat with 16%nat by lia. exact Hv. }
  assert (Ew : forall u, with_word k u (y ++ pl) = with_word k u y ++ pl).
  { intros u. unfold with_word. rewrite firstn_app, skipn_app.
    replace (k - length y)%nat with 0%nat by lia. replace (k + 2 - length y)%nat with 0%nat by lia.
    cbn [firstn skipn]. rewrite app_nil_r, <- !app_assoc. reflexivity. }
  assert (T : forall u, u < 65536 -> total (ph ++ with_word k u y ++ pl) = u + (total ph + (total A + total (B ++ pl)))).
  { intros u Hu. unfold with_word. fold A B. rewrite <- !app_assoc. rewrite !total_app by (rewrite ?La; auto).
    cbn [app]. rewrite total_cons2. change (total []) with 0. pose proof (N.div_mod u 256 ltac:(lia)). lia. }
  assert (Ow : forall u, u < 65536 -> bytes_ok (with_word k u y ++ pl)).
  { intros u Hu. unfold with_word. fold A B. apply bytes_ok_app. split; [|auto].
    apply bytes_ok_app. split; [auto|]. apply bytes_ok_app. split; [|auto].
    assert (u / 256 < 256) by (apply N.div_lt_upper_bound; lia). assert (u mod 256 < 256) by (apply N.mod_lt; lia).
    repeat constructor; auto. }
  assert (Ec : c = 65535 - ocn (total ph + (total A + total (B ++ pl)))).
  { unfold c, sender_value. rewrite Ew, oc_sum_val by (apply words_lt, bytes_ok_app; split; [auto|apply Ow; lia]).
    fold (total (ph ++ with_word k 0 y ++ pl)). rewrite T by lia. reflexivity. }
  rewrite accepted_iff by auto. rewrite T by auto. clearbody c. set (S := total ph + (total A + total (B ++ pl))) in *.
  pose proof (ocn_bound S) as Bd. destruct (ocn_repr S) as [q Hq].
  clear - Ec Bd Hq Hv. destruct (N.eq_dec S 0) as [Z|Z].
  - rewrite Z in Ec. change (ocn 0) with 0 in Ec. rewrite Z, N.add_0_r. split.
    + intros [N0 [j Hj]]. left. lia.
    + intros [->|[E _]]; [|lia]. split; [lia|]. exists 1. lia.
  - pose proof (ocn_nonzero S Z) as Nz. split.
    + intros [_ [j Hj]]. assert (v + ocn S = (j - q) * 65535) by nia.
      assert (j - q = 1 \/ j - q = 2) as [J|J] by nia; [left; nia|right; nia].
    + intros [->|[E ->]]; split; try lia; [exists (q + 1)|exists (q + 2)]; lia.
Qed.
Print Assumptions C69_set.

(** The checksum fields of the three headers. *)
Theorem C69_set_fields : forall x h y ph pl v,
  cell_at h (h_ref x) y -> bytes_ok y -> bytes_ok ph -> bytes_ok pl -> v < 65536 -> Nat.even (length ph) = true ->
  Forall (fun fk : field * nat =>
    let (f, k) := fk in (k + 2 <= length y)%nat ->
    exists h', hset x f v h = (Ret tt, h') /\ cell_at h' (h_ref x) (with_word k v y) /\
      (accepted ph (with_word k v y ++ pl) <->
       v = sender_value ph k (y ++ pl) \/ (sender_value ph k (y ++ pl) = 0 /\ v = 65535)))
    [(TCP_checksum, 16%nat); (UDP_checksum, 6%nat); (ICMP_chksum, 2%nat)].
Proof.
  intros x h y ph pl v C Oy Op Ol Hv Ep. repeat constructor; intros Lk;
    match goal with |- exists h', hset x ?f _ _ = _ /\ cell_at _ _ (with_word ?k _ _) /\ _ =>
      destruct (C69_set x f k h y ph pl v C Oy Op Ol Hv eq_refl eq_refl eq_refl Lk Ep) as (h' & E & _ & C' & _ & A)
    end; exists h'; auto.
Qed.
Print Assumptions C69_set_fields.

(** [Packet::ipv4_checksum] is no help: over a pseudo header it skips the length, which stands where
    an IPv4 header has its checksum. *)
Theorem C69_ipv4_checksum : forall m a b p len msg,
  length a = 4%nat -> length b = 4%nat -> bytes_ok a -> bytes_ok b -> p < 256 -> N.of_nat len < 65536 ->
  bytes_ok msg -> Nat.even (length msg) = true -> N.of_nat (length msg) <= 65523 ->
  exists c, ipv4_checksum m (pseudo4 a b p len ++ msg) = Ret c /\
    (~ carries (total (pseudo4 a b p 0 ++ msg)) -> c = 65535 - oc_sum (words (pseudo4 a b p 0 ++ msg))) /\
    (carries (total (pseudo4 a b p 0 ++ msg)) -> c = 65535 - oc_sum (words (pseudo4 a b p 0 ++ msg)) + 1).
Proof.
  intros m a b p len msg La Lb Oa Ob Hp Hl Om Em Lm.
  assert (Z : zero_checksum (pseudo4 a b p len ++ msg) = pseudo4 a b p 0 ++ msg).
  { unfold zero_checksum, pseudo4. do 5 (destruct a as [|? a]; try discriminate). do 5 (destruct b as [|? b]; try discriminate).
    reflexivity. }
  assert (Lp : length (pseudo4 a b p len) = 12%nat) by (unfold pseudo4; rewrite !app_length, La, Lb; reflexivity).
  destruct (C20_rfc m (pseudo4 a b p len ++ msg)) as (c & E & _ & A & B).
  - apply bytes_ok_app. split; [apply pseudo4_ok|]; auto.
  - rewrite app_length, Lp. exact Em.
  - rewrite app_length, Lp. lia.
  - exists c. split; [exact E|]. unfold other_words, rfc_checksum in A, B. rewrite Z in A, B.
    split; [intros N; apply A; exact N|exact B].
Qed.
Print Assumptions C69_ipv4_checksum.

(** ** What does not hold *)

Lemma not_divide a : a mod 65535 <> 0 -> ~ (65535 | a).
Proof. intros H D. apply H. apply N.mod_divide; [discriminate|exact D]. Qed.

(** That the packets built carry checksums a receiver accepts. *)
Theorem C69_tcp_refuted : exists e i t pl a b, forall m h, exists es x y,
  packet_new (create_tcp_packet m e i t pl h) h (es ++ [(IPv4, x); (TCP, y)]) pl /\
  ip4_in i a b /\ ~ accepted (pseudo4 a b 6 (length y + length pl)) (y ++ pl).
Proof.
  exists ex_eth, ex_ip4, ex_tcp, [1; 2; 3], [10; 0; 0; 1], [192; 168; 1; 2]. intros m h.
  destruct (C69_tcp m ex_eth ex_ip4 ex_tcp [1; 2; 3] h _ _ _ _ ex_eth_in ex_ip4_in) as (es & x & y & P & _ & A);
    try reflexivity; [repeat split; reflexivity|apply bytes_okb_ok; reflexivity|].
  exists es, x, y. split; auto. split; [apply ex_ip4_in|]. rewrite A. apply not_divide. vm_compute. discriminate.
Qed.
Print Assumptions C69_tcp_refuted.
Theorem C69_udpv6_refuted : exists ip6 e i dst src pl a b, forall m h, exists es x y,
  packet_new (create_udpv6_packet m ip6 e i dst src pl h) h (es ++ [(IPv6, x); (UDP, y)]) pl /\
  ip6_in i ip6 a b /\ ~ accepted (pseudo6 a b 17 (length y + length pl)) (y ++ pl).
Proof.
  exists ex_parse6, ex_eth, ex_ip6, 53, 1000, [9; 9], (repeat 0 15 ++ [1]), (repeat 0 16). intros m h.
  destruct (C69_udpv6 m ex_parse6 ex_eth ex_ip6 53 1000 [9; 9] h _ _ _ _ ex_eth_in ex_ip6_in) as (es & x & y & P & _ & A);
    try reflexivity; [apply bytes_okb_ok; reflexivity|].
  exists es, x, y. split; auto. split; [apply ex_ip6_in|]. rewrite A. apply not_divide. vm_compute. discriminate.
Qed.
Print Assumptions C69_udpv6_refuted.
(** An echo request; and with one payload it happens to be right. *)
Theorem C69_icmp_refuted : exists e i pl pl', forall m h,
  (exists es x y, packet_new (create_icmp_packet m e i 8 0 pl h) h (es ++ [(IPv4, x); (ICMP, y)]) pl /\
   ~ accepted [] (y ++ pl)) /\
  (exists es x y, packet_new (create_icmp_packet m e i 8 0 pl' h) h (es ++ [(IPv4, x); (ICMP, y)]) pl' /\
   accepted [] (y ++ pl')).
Proof.
  exists ex_eth, ex_ip4, [0; 1; 0; 1], [0xf7; 0xff]. intros m h. split.
  - destruct (C69_icmp m ex_eth ex_ip4 8 0 [0; 1; 0; 1] h _ _ _ _ ex_eth_in ex_ip4_in) as (es & x & y & P & _ & A);
      try reflexivity; [apply bytes_okb_ok; reflexivity|].
    exists es, x, y. split; auto. rewrite A. intros [_ D]. revert D. apply not_divide. vm_compute. discriminate.
  - destruct (C69_icmp m ex_eth ex_ip4 8 0 [0xf7; 0xff] h _ _ _ _ ex_eth_in ex_ip4_in) as (es & x & y & P & _ & A);
      try reflexivity; [apply bytes_okb_ok; reflexivity|].
    exists es, x, y. split; auto. rewrite A. split; [discriminate|]. exists 1. reflexivity.
Qed.
Print Assumptions C69_icmp_refuted.
(** That [ipv4_checksum] of pseudo header and segment is what a sender puts in the segment. *)
Theorem C69_ipv4_checksum_refuted : exists a b seg c,
  length a = 4%nat /\ length b = 4%nat /\ length seg = 20%nat /\ field_val seg TCP_checksum = 0 /\
  (forall m, ipv4_checksum m (pseudo4 a b 6 20 ++ seg) = Ret c) /\ c <> sender_value (pseudo4 a b 6 20) 16 seg /\
  sender_value (pseudo4 a b 6 20) 16 seg = c - 20.
Proof.
  exists [10; 0; 0; 1], [192; 168; 1; 2], [4; 210; 0; 80; 0; 0; 0; 1; 0; 0; 0; 2; 0x50; 2; 0; 100; 0; 0; 0; 0].
  exists 57026. do 4 (split; [reflexivity|]). split; [intros []; vm_compute; reflexivity|].
  split; [vm_compute; discriminate|vm_compute; reflexivity].
Qed.
Print Assumptions C69_ipv4_checksum_refuted.

(** ** Concrete cases *)

(** A DNS query over IPv6 from ::1, its checksum set afterwards. *)
Example C69_example :
  let ph := pseudo6 (repeat 0 15 ++ [1]) (repeat 0 16) 17 10 in
  let y := [3; 232; 0; 53; 0; 10; 255; 255] in
  sender_value ph 6 (y ++ [9; 9]) = 0xf2b3 /\
  hset (Hdr UDP 0) UDP_checksum 0xf2b3 [Cell y false] = (Ret tt, [Cell [3; 232; 0; 53; 0; 10; 0xf2; 0xb3] false]) /\
  accepted ph ([3; 232; 0; 53; 0; 10; 0xf2; 0xb3] ++ [9; 9]) /\ ~ accepted ph (y ++ [9; 9]).
Proof. repeat split; try (vm_compute; reflexivity). intros H. vm_compute in H. discriminate. Qed.
(** An odd payload counts as if a zero followed. *)
Example C69_example_odd : total [1; 2; 3] = 0x102 + 0x300 /\ total [] = 0.
Proof. split; reflexivity. Qed.
