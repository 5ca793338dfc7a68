(** PropBuild.v -- properties C21 and C24-C32: the header builders. *)

From Coq Require Import Lia.
From Verif Require Import Base Bits Types Layout Heap Packet Text Build Spec BitsProofs HeapProofs
  TextProofs ChecksumProofs BuildProofs PropChecksum.
Open Scope N_scope.

(** The call returned one new header of type [T] whose bytes are the diagram [l],
    so that its fields, in declaration order, have the values of [l]; nothing
    else changed. *)
Definition built (r : out hdr * heap) (h : heap) (T : htype) (l : list (nat * N)) : Prop :=
  exists b, r = (Ret (Hdr T (length h)), h ++ [Cell b false]) /\
    length b = ht_size T /\ diagram b l /\ map (field_val b) (ht_fields T) = map snd l.

Lemma built_intro T b h l : diagram b l -> layout_is (ht_fields T) 0 l = true ->
  (8 * ht_size T)%nat = widths l -> built (hfrom T b h) h T l.
Proof.
  intros D L W. exists b. split; [apply hfrom_run|]. split; [destruct D as (_ & D & _); lia|].
  split; auto. apply diagram_fields; auto.
Qed.

(** What a getter of the new header returns (fields up to 64 bits). *)
Lemma built_get r h T l m f : built r h T l -> In f (ht_fields T) ->
  field_in f (ht_size T) -> (f_width f <= 64)%nat ->
  exists x h' v, r = (Ret x, h') /\ hget m x f h' = (Ret v, h') /\ In (f, v) (combine (ht_fields T) (map snd l)).
Proof.
  intros (b & -> & Lb & (Hb & _) & E) If Fi W.
  exists (Hdr T (length h)), (h ++ [Cell b false]), (field_val b f). split; auto. split.
  - apply hget_val; auto; [apply cell_at_last|rewrite Lb; auto].
  - rewrite <- E. clear - If. induction (ht_fields T) as [|g fs IH]; [contradiction|].
    destruct If as [->|If]; [left; auto|right; auto].
Qed.

Ltac fits_tac := repeat (apply Forall_cons || apply Forall_nil); cbn [fst snd];
  repeat match goal with |- context [2 ^ N.of_nat ?w] => 
    let y := eval vm_compute in (2 ^ N.of_nat w) in change (2 ^ N.of_nat w) with y end; try lia; auto.
Ltac pack_tac := unfold pack, widths; cbn [map fst list_sum fold_right Nat.add];
  repeat match goal with |- context [2 ^ N.of_nat ?w] => 
    let y := eval vm_compute in (2 ^ N.of_nat w) in change (2 ^ N.of_nat w) with y end.
(** A chunk [to_be n v] or [v] on its own that is one field. *)
Lemma diag1 n v : v < 2 ^ N.of_nat (8 * n) -> diagram (to_be n v) [((8 * n)%nat, v)].
Proof.
  intros H. apply diagram_word; [unfold widths; simpl; lia|repeat constructor; auto|].
  unfold pack, widths. cbn [map list_sum fold_right]. change (N.of_nat 0) with 0. rewrite N.pow_0_r. lia.
Qed.
Lemma diagb v : v < 256 -> diagram [v] [(8%nat, v)].
Proof.
  intros H. apply diagram_byte; [reflexivity|repeat constructor; auto|].
  unfold pack, widths. cbn [map list_sum fold_right]. change (N.of_nat 0) with 0. rewrite N.pow_0_r. lia.
Qed.
Lemma diagd n d : bytes_ok d -> length d = n -> diagram d [((8 * n)%nat, be d)].
Proof. intros H <-. apply diagram_bytes; auto. Qed.

(** * C24 *)

Theorem C24_ethernet : forall dst src etype d s h,
  mac_text dst d -> mac_text src s -> etype < 65536 ->
  built (ethernet dst src etype h) h Ether [48 # (be d); 48 # (be s); 16 # etype].
Proof.
  intros dst src etype d s h Hd Hs He. unfold ethernet, bind, lift.
  rewrite (proj2 (mac_ret _ _) Hd), (proj2 (mac_ret _ _) Hs).
  apply built_intro; try reflexivity.
  apply (diagram_app d _ [_]); [apply (diagd 6); [eapply mac_ok|eapply mac_len]; eauto|].
  apply (diagram_app s _ [_]); [apply (diagd 6); [eapply mac_ok|eapply mac_len]; eauto|].
  apply (diag1 2); auto.
Qed.
Print Assumptions C24_ethernet.

Theorem C24_dot3 : forall dst src len d s h,
  mac_text dst d -> mac_text src s -> len < 65536 ->
  built (dot3 dst src len h) h Dot3 [48 # (be d); 48 # (be s); 16 # len].
Proof.
  intros dst src etype d s h Hd Hs He. unfold dot3, bind, lift.
  rewrite (proj2 (mac_ret _ _) Hd), (proj2 (mac_ret _ _) Hs).
  apply built_intro; try reflexivity.
  apply (diagram_app d _ [_]); [apply (diagd 6); [eapply mac_ok|eapply mac_len]; eauto|].
  apply (diagram_app s _ [_]); [apply (diagd 6); [eapply mac_ok|eapply mac_len]; eauto|].
  apply (diag1 2); auto.
Qed.
Print Assumptions C24_dot3.

(** Hardware type 1 (Ethernet), protocol type 0x0800, lengths 6 and 4. *)
Theorem C24_arp : forall opcode smac tmac sip tip a b c d h,
  mac_text smac a -> ipv4_text sip b -> mac_text tmac c -> ipv4_text tip d -> opcode < 65536 ->
  built (arp opcode smac tmac sip tip h) h ARP
    [16 # 1; 16 # 0x0800; 8 # 6; 8 # 4; 16 # opcode; 48 # (be a); 32 # (be b); 48 # (be c); 32 # (be d)].
Proof.
  intros opcode smac tmac sip tip a b c d h Ha Hb Hc Hd Ho. unfold arp, bind, lift.
  rewrite (proj2 (mac_ret _ _) Ha), (proj2 (ipv4_ret _ _) Hb), (proj2 (mac_ret _ _) Hc), (proj2 (ipv4_ret _ _) Hd).
  apply built_intro; try reflexivity.
  apply (diagram_app _ _ [_]); [apply (diag1 2); reflexivity|].
  apply (diagram_app _ _ [_]); [apply (diag1 2); reflexivity|].
  apply (diagram_app _ _ [_]); [apply diagb; reflexivity|].
  apply (diagram_app _ _ [_]); [apply diagb; reflexivity|].
  apply (diagram_app _ _ [_]); [apply (diag1 2); auto|].
  apply (diagram_app _ _ [_]); [apply (diagd 6); [eapply mac_ok|eapply mac_len]; eauto|].
  apply (diagram_app _ _ [_]); [apply (diagd 4); [eapply ipv4_ok|eapply ipv4_len]; eauto|].
  apply (diagram_app _ _ [_]); [apply (diagd 6); [eapply mac_ok|eapply mac_len]; eauto|].
  apply (diagd 4); [eapply ipv4_ok|eapply ipv4_len]; eauto.
Qed.
Print Assumptions C24_arp.

(** The only failure is an address text with too many parts; then nothing is built. *)
Theorem C24_panics : forall dst src n h,
  (addr_too_long ":"%char 6 dst \/ addr_too_long ":"%char 6 src) ->
  ethernet dst src n h = (Panic PIndex, h) /\ dot3 dst src n h = (Panic PIndex, h).
Proof.
  intros dst src n h H.
  assert (E : forall s, addr_too_long ":"%char 6 s -> to_mac_bytes s = Panic PIndex)
    by (intros s; apply fill_panic; lia).
  unfold ethernet, dot3, bind, lift. destruct H as [H|H]; apply E in H.
  - rewrite H. auto.
  - destruct (addr_total ":"%char 16 6 dst) as [[d Hd]|Hd]; [lia| |].
    + apply mac_ret in Hd. rewrite Hd, H. auto.
    + apply E in Hd. rewrite Hd. auto.
Qed.
Print Assumptions C24_panics.

Theorem C24_arp_panics : forall opcode smac tmac sip tip h,
  (exists s, (s = smac \/ s = tmac) /\ addr_too_long ":"%char 6 s) \/
  (exists s, (s = sip \/ s = tip) /\ addr_too_long "."%char 4 s) ->
  arp opcode smac tmac sip tip h = (Panic PIndex, h).
Proof.
  intros opcode smac tmac sip tip h H.
  assert (E : forall s, addr_too_long ":"%char 6 s -> to_mac_bytes s = Panic PIndex)
    by (intros s; apply fill_panic; lia).
  assert (E4 : forall s, addr_too_long "."%char 4 s -> to_ipv4_bytes s = Panic PIndex)
    by (intros s; apply fill_panic; lia).
  assert (T : forall s, (exists b, to_mac_bytes s = Ret b) \/ to_mac_bytes s = Panic PIndex).
  { intros s. destruct (addr_total ":"%char 16 6 s) as [[d Hd]|Hd]; [lia| |]; auto.
    left. exists d. apply mac_ret; auto. }
  assert (T4 : forall s, (exists b, to_ipv4_bytes s = Ret b) \/ to_ipv4_bytes s = Panic PIndex).
  { intros s. destruct (addr_total "."%char 10 4 s) as [[d Hd]|Hd]; [lia| |]; auto.
    left. exists d. apply ipv4_ret; auto. }
  unfold arp, bind, lift.
  destruct (T smac) as [[a Ea]|Ea]; rewrite Ea; auto.
  destruct (T4 sip) as [[b Eb]|Eb]; rewrite Eb; auto.
  destruct (T tmac) as [[c Ec]|Ec]; rewrite Ec; auto.
  destruct (T4 tip) as [[d Ed]|Ed]; rewrite Ed; auto.
  exfalso. destruct H as [(s & [->| ->] & H)|(s & [->| ->] & H)]; (apply E in H || apply E4 in H); congruence.
Qed.
Print Assumptions C24_arp_panics.

Lemma mac_example : mac_text "00:11:22:33:44:55" [0; 17; 34; 51; 68; 85].
Proof. apply mac_ret. reflexivity. Qed.
Lemma ip_example : ipv4_text "10.0.0.1" [10; 0; 0; 1].
Proof. apply ipv4_ret. reflexivity. Qed.
Example C24_example :
  mac_text "00:11:22:33:44:55" [0; 17; 34; 51; 68; 85] /\ ipv4_text "10.0.0.1" [10; 0; 0; 1] /\
  addr_too_long ":"%char 6 "1:2:3:4:5:6:7" /\
  ethernet "00:11:22:33:44:55" "a:b" 0x800 [] =
    (Ret (Hdr Ether 0), [Cell [0; 17; 34; 51; 68; 85; 10; 11; 0; 0; 0; 0; 8; 0] false]).
Proof.
  split; [exact mac_example|]. split; [exact ip_example|].
  split; [apply fill_panic with (radix := 16); [lia|reflexivity]|reflexivity].
Qed.

(** * C25 *)

Lemma bytes2 (P : N -> N -> bool) :
  forallb (fun a => forallb (P a) (map N.of_nat (seq 0 256))) (map N.of_nat (seq 0 256)) = true ->
  forall a b, a < 256 -> b < 256 -> P a b = true.
Proof.
  intros H a b Ha Hb. rewrite forallb_forall in H.
  assert (I : forall x, x < 256 -> In x (map N.of_nat (seq 0 256))).
  { intros x Hx. apply in_map_iff. exists (N.to_nat x). split; [apply N2Nat.id|]. apply in_seq. lia. }
  specialize (H a (I a Ha)). rewrite forallb_forall in H. apply H. auto.
Qed.

(** Any arguments: pcp is or-ed into the top bits of vid, cfi is ignored. *)
Theorem C25_vlan_general : forall pcp cfi vid etype h, pcp < 256 -> vid < 65536 -> etype < 65536 ->
  built (vlan pcp cfi vid etype h) h Vlan
    [3 # (N.lor (vid / 8192) (pcp mod 8)); 1 # (vid / 4096 mod 2); 12 # (vid mod 4096); 16 # etype].
Proof.
  intros pcp cfi vid etype h Hp Hv He. unfold vlan. rewrite to_be_2. unfold bind, lift, index.
  cbn [nth_error upd].
  apply built_intro; try reflexivity.
  set (b1 := vid / 256 mod 256).
  assert (B1 : b1 < 256) by (apply N.mod_lt; discriminate).
  assert (E1 : vid = b1 * 256 + vid mod 256).
  { unfold b1. rewrite (N.mod_small (vid / 256)) by (apply N.div_lt_upper_bound; lia).
    rewrite (N.div_mod vid 256) at 1 by discriminate. lia. }
  set (b0 := vid mod 256) in *. assert (B0 : b0 < 256) by (apply N.mod_lt; discriminate).
  clearbody b0 b1.
  assert (Q : vid / 256 = b1)
    by (rewrite E1, N.div_add_l by discriminate; rewrite (N.div_small b0) by auto; apply N.add_0_r).
  assert (D1 : vid / 8192 = b1 / 32)
    by (change 8192 with (256 * 32); rewrite <- N.div_div by discriminate; rewrite Q; reflexivity).
  assert (D2 : vid / 4096 = b1 / 16)
    by (change 4096 with (256 * 16); rewrite <- N.div_div by discriminate; rewrite Q; reflexivity).
  assert (M : vid mod 4096 = (b1 mod 16) * 256 + b0).
  { change 4096 with (256 * 16). rewrite N.mod_mul_r by discriminate. rewrite Q.
    assert (Z : vid mod 256 = b0)
      by (rewrite E1, N.add_comm, N.mod_add by discriminate; apply N.mod_small; auto).
    rewrite Z. lia. }
  rewrite D1, D2, M.
  assert (F : N.lor b1 (shl8 pcp 5) = N.lor (b1 / 32) (pcp mod 8) * 32 + b1 / 16 mod 2 * 16 + b1 mod 16
              /\ N.lor (b1 / 32) (pcp mod 8) < 8 /\ b1 / 16 mod 2 < 2 /\ b1 mod 16 < 16).
  { pose proof (bytes2 (fun b1 pcp => (N.lor b1 (shl8 pcp 5) =? N.lor (b1 / 32) (pcp mod 8) * 32 + b1 / 16 mod 2 * 16 + b1 mod 16) && (N.lor (b1 / 32) (pcp mod 8) <? 8))) as G.
    specialize (G ltac:(vm_compute; reflexivity) b1 pcp B1 Hp). cbv beta in G.
    apply andb_true_iff in G as [G1 G2]. apply N.eqb_eq in G1. apply N.ltb_lt in G2.
    split; auto. split; auto. split; apply N.mod_lt; discriminate. }
  destruct F as (F & F1 & F2 & F3). rewrite F.
  set (x := N.lor (b1 / 32) (pcp mod 8)) in *. set (y := b1 / 16 mod 2) in *. set (z := b1 mod 16) in *.
  clearbody x y z.
  apply (diagram_app [_; _] _ [_; _; _]); [|apply (diag1 2); auto].
  replace [x * 32 + y * 16 + z; b0] with (to_be 2 ((x * 32 + y * 16 + z) * 256 + b0)).
  - apply diagram_word; [reflexivity|fits_tac|]. pack_tac. lia.
  - apply to_be_pair; lia.
Qed.
Print Assumptions C25_vlan_general.

(** In range: the arguments, with cfi 0. *)
Theorem C25_vlan : forall pcp cfi vid etype h, pcp < 8 -> vid < 4096 -> etype < 65536 ->
  built (vlan pcp cfi vid etype h) h Vlan [3 # pcp; 1 # 0; 12 # vid; 16 # etype].
Proof.
  intros pcp cfi vid etype h Hp Hv He.
  pose proof (C25_vlan_general pcp cfi vid etype h ltac:(lia) ltac:(lia) He) as B.
  rewrite (N.div_small vid 8192), (N.div_small vid 4096), (N.mod_small vid), (N.mod_small pcp) in B by lia.
  exact B.
Qed.
Print Assumptions C25_vlan.

Theorem C25_cfi_refuted : exists pcp cfi vid etype b,
  pcp < 8 /\ cfi < 2 /\ vid < 4096 /\ etype < 65536 /\
  vlan pcp cfi vid etype [] = (Ret (Hdr Vlan 0), [Cell b false]) /\ field_val b Vlan_cfi <> cfi.
Proof.
  exists 0, 1, 5, 0x800, [0; 5; 8; 0]. do 5 (split; [reflexivity|]). vm_compute. discriminate.
Qed.
Print Assumptions C25_cfi_refuted.

Theorem C25_vid_refuted : exists pcp vid etype b,
  pcp < 8 /\ vlan pcp 0 vid etype [] = (Ret (Hdr Vlan 0), [Cell b false]) /\ field_val b Vlan_pcp <> pcp.
Proof. exists 0, 8192, 0x800, [32; 0; 8; 0]. do 2 (split; [reflexivity|]). vm_compute. discriminate. Qed.
Print Assumptions C25_vid_refuted.

Example C25_example : vlan 5 1 100 0x800 [] = (Ret (Hdr Vlan 0), [Cell [160; 100; 8; 0] false]).
Proof. reflexivity. Qed.

(** * C26 and C21 *)

Ltac bok := rewrite ?bytes_ok_app;
  repeat match goal with |- _ /\ _ => split end;
  try apply to_be_ok; try assumption;
  repeat (apply Forall_cons; [unfold byte_ok; lia|]); try apply Forall_nil.

(** The header bytes with checksum word [c]. *)
Definition ip4_bytes (ihl tos pktlen id frag ttl proto c : N) (s d : list N) : list N :=
  [64 + ihl] ++ [tos] ++ to_be 2 pktlen ++ to_be 2 id ++ to_be 2 frag
  ++ [ttl] ++ [proto] ++ to_be 2 c ++ s ++ d.

Lemma ip4_bytes_ok ihl tos pktlen id frag ttl proto c s d :
  ihl < 16 -> tos < 256 -> ttl < 256 -> proto < 256 -> bytes_ok s -> bytes_ok d ->
  bytes_ok (ip4_bytes ihl tos pktlen id frag ttl proto c s d).
Proof.
  intros. unfold ip4_bytes.
  bok.
Qed.

Lemma ip4_diagram ihl tos pktlen id frag ttl proto c s d :
  ihl < 16 -> tos < 256 -> pktlen < 65536 -> id < 65536 -> frag < 65536 -> ttl < 256 -> proto < 256 ->
  c < 65536 -> bytes_ok s -> length s = 4%nat -> bytes_ok d -> length d = 4%nat ->
  diagram (ip4_bytes ihl tos pktlen id frag ttl proto c s d)
    [4 # 4; 4 # ihl; 8 # tos; 16 # pktlen; 16 # id; 3 # (frag / 8192); 13 # (frag mod 8192);
     8 # ttl; 8 # proto; 16 # c; 32 # (be s); 32 # (be d)].
Proof.
  intros. unfold ip4_bytes.
  apply (diagram_app _ _ [_; _]).
  { apply diagram_byte; [reflexivity|fits_tac|]. pack_tac. lia. }
  apply (diagram_app _ _ [_]); [apply diagb; auto|].
  apply (diagram_app _ _ [_]); [apply (diag1 2); auto|].
  apply (diagram_app _ _ [_]); [apply (diag1 2); auto|].
  apply (diagram_app _ _ [_; _]).
  { pose proof (N.div_mod frag 8192 ltac:(discriminate)) as DM.
    assert (frag mod 8192 < 8192) by (apply N.mod_lt; discriminate).
    assert (frag / 8192 < 8) by (apply N.div_lt_upper_bound; lia).
    set (q := frag / 8192) in *. set (r := frag mod 8192) in *. clearbody q r.
    apply diagram_word; [reflexivity|fits_tac|]. pack_tac. lia. }
  apply (diagram_app _ _ [_]); [apply diagb; auto|].
  apply (diagram_app _ _ [_]); [apply diagb; auto|].
  apply (diagram_app _ _ [_]); [apply (diag1 2); auto|].
  apply (diagram_app _ _ [_]); [apply (diagd 4); auto|].
  apply (diagd 4); auto.
Qed.

Lemma zero_checksum_mid a c b : length a = 10%nat -> zero_checksum (a ++ to_be 2 c ++ b) = a ++ [0; 0] ++ b.
Proof.
  intros L. unfold zero_checksum. f_equal; [|f_equal].
  - rewrite firstn_app, L, Nat.sub_diag, firstn_O, app_nil_r. apply firstn_all2. lia.
  - rewrite skipn_app, L. rewrite skipn_all2 by lia. reflexivity.
Qed.

Lemma ip4_zero ihl tos pktlen id frag ttl proto c s d :
  zero_checksum (ip4_bytes ihl tos pktlen id frag ttl proto c s d) =
  ip4_bytes ihl tos pktlen id frag ttl proto 0 s d.
Proof.
  unfold ip4_bytes. rewrite !to_be_2. reflexivity.
Qed.

Lemma hset_last T h d f v : bytes_ok d -> field_in f (length d) ->
  hset (Hdr T (length h)) f v (h ++ [Cell d false]) = (Ret tt, h ++ [Cell (fset d f v) false]).
Proof.
  intros Hd Hf. rewrite (hset_in _ _ d) by (auto; apply cell_at_last).
  cbn [h_ref]. rewrite upd_app2 by lia. rewrite Nat.sub_diag. reflexivity.
Qed.

Lemma ipv4_run m ihl tos id ttl frag proto src dst pktlen s d h :
  ipv4_text src s -> ipv4_text dst d ->
  ihl < 16 -> tos < 256 -> pktlen < 65536 -> id < 65536 -> frag < 65536 -> ttl < 256 -> proto < 256 ->
  exists c, c <= 65535 /\
    ipv4_checksum m (ip4_bytes ihl tos pktlen id frag ttl proto 0 s d) = Ret c /\
    ipv4 m ihl tos id ttl frag proto src dst pktlen h =
    (Ret (Hdr IPv4 (length h)), h ++ [Cell (ip4_bytes ihl tos pktlen id frag ttl proto c s d) false]).
Proof.
  intros Hs Hd Hi Ht Hp Hid Hf Hl Hpr.
  pose proof (ipv4_ok _ _ Hs) as Os. pose proof (ipv4_ok _ _ Hd) as Od.
  pose proof (ipv4_len _ _ Hs) as Ls. pose proof (ipv4_len _ _ Hd) as Ld.
  unfold ipv4. assert (V : N.lor 64 ihl = 64 + ihl) by (apply (lor_add 4 ihl 4); auto).
  rewrite V.
  rewrite (bind_ret _ _ h s h) by (unfold lift; f_equal; apply ipv4_ret; auto).
  rewrite (bind_ret _ _ h d h) by (unfold lift; f_equal; apply ipv4_ret; auto).
  cbv zeta. fold (ip4_bytes ihl tos pktlen id frag ttl proto 0 s d).
  set (data := ip4_bytes ihl tos pktlen id frag ttl proto 0 s d).
  assert (Odata : bytes_ok data) by (apply ip4_bytes_ok; auto).
  assert (Ldata : length data = 20%nat)
    by (unfold data, ip4_bytes; rewrite !app_length, !to_be_length, Ls, Ld; reflexivity).
  destruct (C20_rfc m data Odata) as (c & Ec & Lc & _);
    [rewrite Ldata; reflexivity|rewrite Ldata; discriminate|].
  exists c. split; auto. split; auto.
  rewrite (bind_ret _ _ h c h) by (unfold lift; rewrite Ec; reflexivity).
  rewrite (bind_ret _ _ h _ _ (hfrom_run _ _ _)).
  assert (Fi : field_in IPv4_header_checksum (length data)) by (rewrite Ldata; split; simpl; lia).
  rewrite (bind_ret _ _ _ _ _ (hset_last IPv4 h data IPv4_header_checksum c Odata Fi)).
  unfold ret. do 4 f_equal.
  assert (Ed : forall x, ip4_bytes ihl tos pktlen id frag ttl proto x s d =
    ([64 + ihl] ++ [tos] ++ to_be 2 pktlen ++ to_be 2 id ++ to_be 2 frag ++ [ttl] ++ [proto])
    ++ to_be 2 x ++ (s ++ d)) by (intros; unfold ip4_bytes; rewrite <- !app_assoc; reflexivity).
  unfold data. rewrite !Ed. rewrite fset_middle.
  - rewrite to_be_length. reflexivity.
  - bok.
  - apply to_be_ok.
  - apply bytes_ok_app; auto.
  - discriminate.
  - rewrite !app_length, !to_be_length. reflexivity.
  - rewrite !app_length, !to_be_length. reflexivity.
Qed.

(** RFC 791 diagram, with [frag] the 16 bits of flags and fragment offset. The
    checksum word is the RFC checksum of the header, or one more when the sum carries. *)
Theorem C26_ipv4 : forall m ihl tos id ttl frag proto src dst pktlen s d h,
  ipv4_text src s -> ipv4_text dst d ->
  ihl < 16 -> tos < 256 -> pktlen < 65536 -> id < 65536 -> frag < 65536 -> ttl < 256 -> proto < 256 ->
  exists b c, ipv4 m ihl tos id ttl frag proto src dst pktlen h =
      (Ret (Hdr IPv4 (length h)), h ++ [Cell b false]) /\ length b = 20%nat /\
    diagram b [4 # 4; 4 # ihl; 8 # tos; 16 # pktlen; 16 # id; 3 # (frag / 8192); 13 # (frag mod 8192);
               8 # ttl; 8 # proto; 16 # c; 32 # (be s); 32 # (be d)] /\
    map (field_val b) (ht_fields IPv4) =
      [4; ihl; tos; pktlen; id; frag / 8192; frag mod 8192; ttl; proto; c; be s; be d] /\
    (~ carries (other_words b) -> c = rfc_checksum b) /\
    (carries (other_words b) -> c = rfc_checksum b + 1).
Proof.
  intros m ihl tos id ttl frag proto src dst pktlen s d h Hs Hd Hi Ht Hp Hid Hf Hl Hpr.
  pose proof (ipv4_ok _ _ Hs) as Os. pose proof (ipv4_ok _ _ Hd) as Od.
  pose proof (ipv4_len _ _ Hs) as Ls. pose proof (ipv4_len _ _ Hd) as Ld.
  destruct (ipv4_run m ihl tos id ttl frag proto src dst pktlen s d h) as (c & Lc & Ec & E); auto.
  exists (ip4_bytes ihl tos pktlen id frag ttl proto c s d), c.
  assert (D : diagram (ip4_bytes ihl tos pktlen id frag ttl proto c s d)
    [4 # 4; 4 # ihl; 8 # tos; 16 # pktlen; 16 # id; 3 # (frag / 8192); 13 # (frag mod 8192);
     8 # ttl; 8 # proto; 16 # c; 32 # (be s); 32 # (be d)]) by (apply ip4_diagram; auto; lia).
  split; auto. split; [unfold ip4_bytes; rewrite !app_length, !to_be_length, Ls, Ld; reflexivity|].
  split; auto. split; [apply (diagram_fields _ _ (ht_fields IPv4) D); reflexivity|].
  destruct (C20_rfc m (ip4_bytes ihl tos pktlen id frag ttl proto 0 s d)) as (c' & Ec' & _ & A & B).
  - apply ip4_bytes_ok; auto.
  - unfold ip4_bytes; rewrite !app_length, !to_be_length, Ls, Ld; reflexivity.
  - unfold ip4_bytes; rewrite !app_length, !to_be_length, Ls, Ld; discriminate.
  - rewrite Ec in Ec'. injection Ec' as <-. unfold other_words, rfc_checksum in *. rewrite ip4_zero in *.
    split; [apply A|apply B].
Qed.
Print Assumptions C26_ipv4.

Theorem C26_panics : forall m ihl tos id ttl frag proto src dst pktlen h,
  (addr_too_long "."%char 4 src \/ addr_too_long "."%char 4 dst) ->
  ipv4 m ihl tos id ttl frag proto src dst pktlen h = (Panic PIndex, h).
Proof.
  intros m ihl tos id ttl frag proto src dst pktlen h H.
  assert (E : forall s, addr_too_long "."%char 4 s -> to_ipv4_bytes s = Panic PIndex)
    by (intros s; apply fill_panic; lia).
  unfold ipv4, bind, lift. destruct H as [H|H]; apply E in H.
  - rewrite H. auto.
  - destruct (addr_total "."%char 10 4 src) as [[d Hd]|Hd]; [lia| |].
    + apply ipv4_ret in Hd. rewrite Hd, H. auto.
    + apply E in Hd. rewrite Hd. auto.
Qed.
Print Assumptions C26_panics.

Example C26_example : ipv4 Debug 5 0 1 64 0 6 "10.0.0.1" "10.0.0.2" 40 [] =
  (Ret (Hdr IPv4 0), [Cell [69; 0; 0; 40; 0; 1; 0; 0; 64; 6; 102; 205; 10; 0; 0; 1; 10; 0; 0; 2] false]).
Proof. vm_compute. reflexivity. Qed.

(** A header in which the checksum word is [c] and the rest sums to [s]. *)
Lemma checksum_ok_iff a c b : bytes_ok a -> length a = 10%nat -> bytes_ok b -> c < 65536 ->
  checksum_ok (a ++ to_be 2 c ++ b) <->
  exists k, other_words (a ++ to_be 2 c ++ b) + c = (k + 1) * 65535.
Proof.
  intros Ha La Hb Hc. unfold checksum_ok, other_words. rewrite zero_checksum_mid by auto.
  rewrite oc_sum_val by (apply words_lt; bok).
  rewrite ocn_ok.
  rewrite (words_app a (to_be 2 c ++ b)), (words_app a ([0; 0] ++ b)) by (rewrite La; reflexivity).
  rewrite (words_app (to_be 2 c)) by (rewrite to_be_length; reflexivity).
  change (words ([0; 0] ++ b)) with (0 :: words b). rewrite !plain_sum_app, plain_sum_cons.
  assert (E : plain_sum (words (to_be 2 c)) = c).
  { rewrite to_be_2. cbn [words plain_sum fold_right]. rewrite N.add_0_r.
    rewrite (N.mod_small (c / 256)) by (apply N.div_lt_upper_bound; lia).
    rewrite (N.div_mod c 256) at 3 by discriminate. lia. }
  rewrite E.
  split; intros [k K]; exists k; lia.
Qed.

(** The built header verifies exactly when folding the sum of its other words
    does not carry. *)
Theorem C21_built_checksum : forall m ihl tos id ttl frag proto src dst pktlen s d h,
  ipv4_text src s -> ipv4_text dst d ->
  ihl < 16 -> tos < 256 -> pktlen < 65536 -> id < 65536 -> frag < 65536 -> ttl < 256 -> proto < 256 ->
  exists b, ipv4 m ihl tos id ttl frag proto src dst pktlen h =
      (Ret (Hdr IPv4 (length h)), h ++ [Cell b false]) /\
    (checksum_ok b <-> ~ carries (other_words b)).
Proof.
  intros m ihl tos id ttl frag proto src dst pktlen s d h Hs Hd Hi Ht Hp Hid Hf Hl Hpr.
  pose proof (ipv4_ok _ _ Hs) as Os. pose proof (ipv4_ok _ _ Hd) as Od.
  pose proof (ipv4_len _ _ Hs) as Ls. pose proof (ipv4_len _ _ Hd) as Ld.
  destruct (ipv4_run m ihl tos id ttl frag proto src dst pktlen s d h) as (c & Lc & Ec & E); auto.
  eexists. split; [exact E|].
  set (b := ip4_bytes ihl tos pktlen id frag ttl proto c s d).
  assert (Ob : bytes_ok b) by (apply ip4_bytes_ok; auto).
  assert (Lb : length b = 20%nat)
    by (unfold b, ip4_bytes; rewrite !app_length, !to_be_length, Ls, Ld; reflexivity).
  assert (Eb : b = ([64 + ihl] ++ [tos] ++ to_be 2 pktlen ++ to_be 2 id ++ to_be 2 frag
    ++ [ttl] ++ [proto]) ++ to_be 2 c ++ (s ++ d)).
  { unfold b, ip4_bytes. rewrite <- !app_assoc. reflexivity. }
  assert (K : checksum_ok b <-> exists k, other_words b + c = (k + 1) * 65535).
  { rewrite Eb. apply checksum_ok_iff; [|reflexivity| |lia].
    - bok.
    - apply bytes_ok_app; auto. }
  rewrite K.
  assert (Ec' : ipv4_checksum m (ip4_bytes ihl tos pktlen id frag ttl proto 0 s d) =
    Ret (65535 - (other_words b / 65536 + other_words b) mod 65536)).
  { rewrite C20_value.
    - unfold other_words, b. rewrite !ip4_zero. reflexivity.
    - apply ip4_bytes_ok; auto.
    - unfold ip4_bytes; rewrite !app_length, !to_be_length, Ls, Ld; reflexivity.
    - unfold ip4_bytes; rewrite !app_length, !to_be_length, Ls, Ld; discriminate. }
  assert (Ec2 : c = 65535 - (other_words b / 65536 + other_words b) mod 65536) by congruence.
  assert (Small : other_words b / 65536 + other_words b < 2 ^ 32)
    by (apply (ssum_small b); [auto|rewrite Lb; discriminate]).
  destruct (checksum_vs_rfc b Ob Small) as [A B]. change (ssum b) with (other_words b) in *.
  cbv zeta in A, B. rewrite <- Ec2 in A, B.
  unfold rfc_checksum in A, B. rewrite oc_sum_val in A, B by (apply words_lt, zero_checksum_ok; auto).
  fold (other_words b) in A, B. set (S := other_words b) in *.
  destruct (ocn_repr S) as [k Hk]. pose proof (ocn_bound S) as Ob'.
  clear - A B Hk Ob'. split.
  - intros [j Hj] C. destruct (B C) as [B1 B2].
    assert (S + c = (k + 1) * 65535 + 1) by lia.
    assert (65535 * (j + 1) = 65535 * (k + 1) + 1) by lia.
    assert (j <= k \/ k + 1 <= j) as [|] by lia; nia.
  - intros C. specialize (A C). exists k. lia.
Qed.
Print Assumptions C21_built_checksum.

Theorem C21_built_checksum_refuted : exists ihl tos id ttl frag proto src dst pktlen b,
  ihl = 5 /\ tos < 256 /\ id < 65536 /\ ttl < 256 /\ frag < 65536 /\ proto < 256 /\ pktlen < 65536 /\
  (forall m, ipv4 m ihl tos id ttl frag proto src dst pktlen [] = (Ret (Hdr IPv4 0), [Cell b false])) /\
  ~ checksum_ok b.
Proof.
  exists 5, 0, 31442, 64, 0, 6, "255.255.255.255"%string, "255.255.0.0"%string, 40.
  eexists. do 7 (split; [reflexivity|]). split; [intros []; vm_compute; reflexivity|].
  vm_compute. discriminate.
Qed.
Print Assumptions C21_built_checksum_refuted.

(** * C27 *)

(** [ip6] stands for the standard library's [Ipv6Addr::from_str] followed by
    [octets]: all that is assumed is that it yields 16 octets. *)
Definition octets16 (ip6 : string -> option (list N)) : Prop :=
  forall s o, ip6 s = Some o -> length o = 16%nat /\ bytes_ok o.
Definition addr6 (ip6 : string -> option (list N)) (s : string) (b : list N) : Prop :=
  ip6 s = Some b \/ (ip6 s = None /\ b = repeat 0 16).

Lemma addr6_ok ip6 s b : octets16 ip6 -> addr6 ip6 s b -> length b = 16%nat /\ bytes_ok b.
Proof.
  intros H [E|[_ ->]]; [eapply H; eauto|]. split; [reflexivity|apply bytes_okb_ok; reflexivity].
Qed.
Lemma addr6_eq ip6 s b : addr6 ip6 s b -> to_ipv6_bytes ip6 s = b.
Proof. unfold to_ipv6_bytes. intros [->|[-> ->]]; reflexivity. Qed.

Definition ip6_bytes (tc fl pktlen nh hl : N) (s d : list N) : list N :=
  to_be 4 (6 * 2 ^ 28 + tc * 2 ^ 20 + fl) ++ to_be 2 pktlen ++ [nh] ++ [hl] ++ s ++ d.

Lemma ipv6_run ip6 tc fl nh hl src dst pktlen s d h :
  addr6 ip6 src s -> addr6 ip6 dst d -> tc < 256 -> fl < 2 ^ 20 ->
  ipv6 ip6 tc fl nh hl src dst pktlen h =
  (Ret (Hdr IPv6 (length h)), h ++ [Cell (ip6_bytes tc fl pktlen nh hl s d) false]).
Proof.
  intros Hs Hd Ht Hf. unfold ipv6. rewrite (addr6_eq _ _ _ Hs), (addr6_eq _ _ _ Hd).
  change (N.land (shl32 6 28) 0xF0000000) with (6 * 2 ^ 28).
  rewrite (shl32_small tc 20) by (change (2 ^ 20) with 1048576; change (2 ^ 32) with 4294967296; lia).
  assert (E1 : N.lor (6 * 2 ^ 28) (tc * 2 ^ 20) = 6 * 2 ^ 28 + tc * 2 ^ 20).
  { apply lor_add. change (2 ^ 20) with 1048576; change (2 ^ 28) with 268435456; lia. }
  rewrite E1.
  assert (E2 : N.lor (6 * 2 ^ 28 + tc * 2 ^ 20) fl = 6 * 2 ^ 28 + tc * 2 ^ 20 + fl).
  { replace (6 * 2 ^ 28 + tc * 2 ^ 20) with ((6 * 2 ^ 8 + tc) * 2 ^ 20) by (change (2 ^ 28) with (2 ^ 8 * 2 ^ 20); ring).
    apply lor_add; auto. }
  rewrite E2. apply hfrom_run.
Qed.

Theorem C27_ipv6 : forall ip6 tc fl nh hl src dst pktlen s d h,
  octets16 ip6 -> addr6 ip6 src s -> addr6 ip6 dst d ->
  tc < 256 -> fl < 2 ^ 20 -> nh < 256 -> hl < 256 -> pktlen < 65536 ->
  built (ipv6 ip6 tc fl nh hl src dst pktlen h) h IPv6
    [4 # 6; 8 # tc; 20 # fl; 16 # pktlen; 8 # nh; 8 # hl; 128 # (be s); 128 # (be d)].
Proof.
  intros ip6 tc fl nh hl src dst pktlen s d h H6 Hs Hd Ht Hf Hn Hh Hp.
  rewrite (ipv6_run ip6 tc fl nh hl src dst pktlen s d h) by auto.
  destruct (addr6_ok _ _ _ H6 Hs) as [Ls Os]. destruct (addr6_ok _ _ _ H6 Hd) as [Ld Od].
  rewrite <- hfrom_run. apply built_intro; try reflexivity. unfold ip6_bytes.
  change (2 ^ 20) with 1048576 in *. change (2 ^ 28) with 268435456.
  apply (diagram_app _ _ [_; _; _]).
  { apply diagram_word; [reflexivity|fits_tac|]. pack_tac. lia. }
  apply (diagram_app _ _ [_]); [apply (diag1 2); auto|].
  apply (diagram_app _ _ [_]); [apply diagb; auto|].
  apply (diagram_app _ _ [_]); [apply diagb; auto|].
  apply (diagram_app _ _ [_]); [apply (diagd 16); auto|]. apply (diagd 16); auto.
Qed.
Print Assumptions C27_ipv6.

(** A flow label above 20 bits corrupts the other fields of the first word. *)
Theorem C27_flow_refuted : exists tc fl b, tc < 256 /\ fl < 2 ^ 32 /\
  ipv6 (fun _ => None) tc fl 17 64 "" "" 0 [] = (Ret (Hdr IPv6 0), [Cell b false]) /\
  field_val b IPv6_traffic_class <> tc.
Proof.
  exists 0, (2 ^ 20). eexists. do 3 (split; [reflexivity|]). vm_compute. discriminate.
Qed.
Print Assumptions C27_flow_refuted.

Example C27_example :
  let ip6 := fun s => if String.eqb s "::1" then Some (repeat 0 15 ++ [1]) else None in
  octets16 ip6 /\ addr6 ip6 "::1" (repeat 0 15 ++ [1]) /\ addr6 ip6 "junk" (repeat 0 16).
Proof.
  cbv zeta. split.
  - intros s o. destruct (String.eqb s "::1"); [|discriminate]. intros E. injection E as <-.
    split; [reflexivity|apply bytes_okb_ok; reflexivity].
  - split; [left; reflexivity|right; split; reflexivity].
Qed.

(** * C28 *)

Theorem C28_udp : forall src dst len h, src < 65536 -> dst < 65536 -> len < 65536 ->
  built (udp src dst len h) h UDP [16 # src; 16 # dst; 16 # len; 16 # 0].
Proof.
  intros src dst len h Hs Hd Hl. unfold udp. apply built_intro; try reflexivity.
  apply (diagram_app _ _ [_]); [apply (diag1 2); auto|].
  apply (diagram_app _ _ [_]); [apply (diag1 2); auto|].
  apply (diagram_app _ _ [_]); [apply (diag1 2); auto|]. apply (diag1 2); reflexivity.
Qed.
Print Assumptions C28_udp.

Theorem C28_icmp : forall ty code h, ty < 256 -> code < 256 ->
  built (icmp ty code h) h ICMP [8 # ty; 8 # code; 16 # 0].
Proof.
  intros ty code h Ht Hc. unfold icmp. apply built_intro; try reflexivity.
  apply (diagram_app _ _ [_]); [apply diagb; auto|].
  apply (diagram_app _ _ [_]); [apply diagb; auto|]. apply (diag1 2); reflexivity.
Qed.
Print Assumptions C28_icmp.

Theorem C28_tcp : forall src dst seq ack doff res flags window chk urg h,
  src < 65536 -> dst < 65536 -> seq < 2 ^ 32 -> ack < 2 ^ 32 -> doff < 16 -> res < 16 -> flags < 256 ->
  window < 65536 -> chk < 65536 -> urg < 65536 ->
  built (tcp src dst seq ack doff res flags window chk urg h) h TCP
    [16 # src; 16 # dst; 32 # seq; 32 # ack; 4 # doff; 4 # res; 8 # flags; 16 # window; 16 # chk; 16 # urg].
Proof.
  intros src dst seq ack doff res flags window chk urg h Hs Hd Hq Ha Ho Hr Hf Hw Hc Hu.
  unfold tcp. apply built_intro; try reflexivity.
  apply (diagram_app _ _ [_]); [apply (diag1 2); auto|].
  apply (diagram_app _ _ [_]); [apply (diag1 2); auto|].
  apply (diagram_app _ _ [_]); [apply (diag1 4); auto|].
  apply (diagram_app _ _ [_]); [apply (diag1 4); auto|].
  apply (diagram_app _ _ [_; _]).
  { rewrite shl8_small by (change (2 ^ 4) with 16; change (2 ^ 8) with 256; lia).
    change 0xff with (N.ones 8). rewrite N.land_ones, N.mod_small by (change (2 ^ 8) with 256; lia).
    rewrite lor_add by (change (2 ^ 4) with 16; auto).
    apply diagram_byte; [reflexivity|fits_tac|]. pack_tac. change (2 ^ 4) with 16. lia. }
  apply (diagram_app _ _ [_]); [apply diagb; auto|].
  apply (diagram_app _ _ [_]); [apply (diag1 2); auto|].
  apply (diagram_app _ _ [_]); [apply (diag1 2); auto|]. apply (diag1 2); auto.
Qed.
Print Assumptions C28_tcp.

(** A reserved value above 4 bits is or-ed into the data offset. *)
Theorem C28_res_refuted : exists doff res b, doff < 16 /\ res < 256 /\
  tcp 1 2 3 4 doff res 0 0 0 0 [] = (Ret (Hdr TCP 0), [Cell b false]) /\ field_val b TCP_data_startset <> doff.
Proof. exists 5, 0x20. eexists. do 3 (split; [reflexivity|]). vm_compute. discriminate. Qed.
Print Assumptions C28_res_refuted.

Example C28_example : tcp 1234 80 7 8 5 3 2 100 9 10 [] =
  (Ret (Hdr TCP 0), [Cell [4; 210; 0; 80; 0; 0; 0; 7; 0; 0; 0; 8; 83; 2; 0; 100; 0; 9; 0; 10] false]).
Proof. reflexivity. Qed.

(** * C29 *)

Theorem C29_vxlan : forall vni h, vni < 2 ^ 24 ->
  built (vxlan vni h) h Vxlan [8 # 8; 24 # 0; 24 # vni; 8 # 0].
Proof.
  intros vni h Hv. unfold vxlan. apply built_intro; try reflexivity.
  change (2 ^ 24) with 16777216 in Hv.
  apply (diagram_app _ _ [_; _]).
  - apply diagram_word; [reflexivity|fits_tac|reflexivity].
  - rewrite shl32_small by (change (2 ^ 8) with 256; change (2 ^ 32) with 4294967296; lia).
    apply diagram_word; [reflexivity|fits_tac|]. pack_tac. change (2 ^ 8) with 256. lia.
Qed.
Print Assumptions C29_vxlan.

Theorem C29_gre : forall c r k seqnum s flags ver proto h, flags < 32 -> ver < 8 -> proto < 65536 ->
  built (gre c r k seqnum s flags ver proto h) h GRE
    [1 # (b2n c); 1 # (b2n r); 1 # (b2n k); 1 # (b2n seqnum); 1 # (b2n s); 3 # 0; 5 # flags; 3 # ver; 16 # proto].
Proof.
  intros c r k seqnum s flags ver proto h Hf Hv Hp. unfold gre. apply built_intro; try reflexivity.
  apply (diagram_app _ _ [_; _; _; _; _; _]).
  { destruct c, r, k, seqnum, s; cbn [b2n]; (apply diagram_byte; [reflexivity|fits_tac|reflexivity]). }
  apply (diagram_app _ _ [_; _]).
  { rewrite shl8_small by (change (2 ^ 3) with 8; change (2 ^ 8) with 256; lia).
    rewrite lor_add by (change (2 ^ 3) with 8; auto).
    apply diagram_byte; [reflexivity|fits_tac|]. pack_tac. change (2 ^ 3) with 8. lia. }
  apply (diag1 2); auto.
Qed.
Print Assumptions C29_gre.

Theorem C29_gre_chksum_offset : forall chk off h, chk < 65536 -> off < 65536 ->
  built (gre_chksum_offset chk off h) h GREChksumOffset [16 # chk; 16 # off].
Proof.
  intros. unfold gre_chksum_offset. apply built_intro; try reflexivity.
  apply (diagram_app _ _ [_]); apply (diag1 2); auto.
Qed.
Print Assumptions C29_gre_chksum_offset.
Theorem C29_gre_key : forall key h, key < 2 ^ 32 -> built (gre_key key h) h GREKey [32 # key].
Proof. intros. apply built_intro; try reflexivity. apply (diag1 4); auto. Qed.
Print Assumptions C29_gre_key.
Theorem C29_gre_sequence_number : forall n h, n < 2 ^ 32 ->
  built (gre_sequence_number n h) h GRESequenceNum [32 # n].
Proof. intros. apply built_intro; try reflexivity. apply (diag1 4); auto. Qed.
Print Assumptions C29_gre_sequence_number.

Example C29_example : gre true false true true false 9 1 0x88be [] =
  (Ret (Hdr GRE 0), [Cell [176; 73; 136; 190] false]).
Proof. reflexivity. Qed.

(** * C30 *)

Lemma erspan_b2_val cos en t sid : cos < 8 -> en < 4 -> t < 2 -> sid < 1024 ->
  erspan_b2 cos en t sid = cos * 8192 + en * 2048 + t * 1024 + sid.
Proof.
  intros Hc He Ht Hs. unfold erspan_b2. change (2 ^ 13) with 8192.
  rewrite !shl16_small by (first [change (2 ^ 13) with 8192|change (2 ^ 11) with 2048|change (2 ^ 10) with 1024];
    change (2 ^ 16) with 65536; lia).
  rewrite (lor_add cos (en * 2 ^ 11) 13) by (change (2 ^ 11) with 2048; change (2 ^ 13) with 8192; lia).
  replace (cos * 2 ^ 13 + en * 2 ^ 11) with ((cos * 4 + en) * 2 ^ 11) by (change (2 ^ 13) with (4 * 2 ^ 11); ring).
  rewrite lor_add by (change (2 ^ 10) with 1024; change (2 ^ 11) with 2048; lia).
  replace ((cos * 4 + en) * 2 ^ 11 + t * 2 ^ 10) with (((cos * 4 + en) * 2 + t) * 2 ^ 10)
    by (change (2 ^ 11) with (2 * 2 ^ 10); ring).
  rewrite lor_add by (change (2 ^ 10) with 1024; auto). change (2 ^ 10) with 1024. lia.
Qed.

Lemma erspan_b1_val v vlan : v < 16 -> vlan < 4096 -> N.lor (shl16 v 12) vlan = v * 4096 + vlan.
Proof.
  intros Hv Hl. rewrite shl16_small by (change (2 ^ 12) with 4096; change (2 ^ 16) with 65536; lia).
  apply lor_add. auto.
Qed.

(** Type II: version 1. *)
Theorem C30_erspan2 : forall vlan cos en t sid idx h,
  vlan < 4096 -> cos < 8 -> en < 4 -> t < 2 -> sid < 1024 -> idx < 2 ^ 20 ->
  built (erspan2 vlan cos en t sid idx h) h ERSPAN2
    [4 # 1; 12 # vlan; 3 # cos; 2 # en; 1 # t; 10 # sid; 12 # 0; 20 # idx].
Proof.
  intros vlan cos en t sid idx h Hv Hc He Ht Hs Hi. change (2 ^ 20) with 1048576 in Hi.
  unfold erspan2. rewrite erspan_b2_val by auto. rewrite erspan_b1_val by (auto; reflexivity).
  apply built_intro; try reflexivity.
  apply (diagram_app _ _ [_; _]).
  { apply diagram_word; [reflexivity|fits_tac|]. pack_tac. change (ErspanVersion_code EV_II) with 1. lia. }
  apply (diagram_app _ _ [_; _; _; _]).
  { apply diagram_word; [reflexivity|fits_tac|]. pack_tac. lia. }
  apply diagram_word; [reflexivity|fits_tac|]. pack_tac. lia.
Qed.
Print Assumptions C30_erspan2.

(** Type III: version 2; the last 16 bits (p, ft, hw_id, d, gra, o) are one argument. *)
Theorem C30_erspan3 : forall vlan cos en t sid ts sgt p ft hw d gra o h,
  vlan < 4096 -> cos < 8 -> en < 4 -> t < 2 -> sid < 1024 -> ts < 2 ^ 32 -> sgt < 65536 ->
  p < 2 -> ft < 32 -> hw < 64 -> d < 2 -> gra < 4 -> o < 2 ->
  built (erspan3 vlan cos en t sid ts sgt (pack [1 # p; 5 # ft; 6 # hw; 1 # d; 2 # gra; 1 # o]) h) h ERSPAN3
    [4 # 2; 12 # vlan; 3 # cos; 2 # en; 1 # t; 10 # sid; 32 # ts; 16 # sgt;
     1 # p; 5 # ft; 6 # hw; 1 # d; 2 # gra; 1 # o].
Proof.
  intros vlan cos en t sid ts sgt p ft hw d gra o h Hv Hc He Ht Hs Hts Hg Hp Hf Hh Hd Hr Ho.
  unfold erspan3. rewrite erspan_b2_val by auto. rewrite erspan_b1_val by (auto; reflexivity).
  apply built_intro; try reflexivity.
  apply (diagram_app _ _ [_; _]).
  { apply diagram_word; [reflexivity|fits_tac|]. pack_tac. change (ErspanVersion_code EV_III) with 2. lia. }
  apply (diagram_app _ _ [_; _; _; _]).
  { apply diagram_word; [reflexivity|fits_tac|]. pack_tac. lia. }
  apply (diagram_app _ _ [_]); [apply (diag1 4); auto|].
  apply (diagram_app _ _ [_]); [apply (diag1 2); auto|].
  apply diagram_word; [reflexivity|fits_tac|reflexivity].
Qed.
Print Assumptions C30_erspan3.

(** A session id above 10 bits spills into t, en and cos. *)
Theorem C30_session_refuted : exists sid b, sid < 65536 /\
  erspan2 1 0 0 0 sid 0 [] = (Ret (Hdr ERSPAN2 0), [Cell b false]) /\ field_val b ERSPAN2_t <> 0.
Proof. exists 1024. eexists. do 2 (split; [reflexivity|]). vm_compute. discriminate. Qed.
Print Assumptions C30_session_refuted.

Example C30_example : erspan2 100 5 3 1 7 9 [] =
  (Ret (Hdr ERSPAN2 0), [Cell [16; 100; 188; 7; 0; 0; 0; 9] false]).
Proof. reflexivity. Qed.

(** * C31 *)

(** What is really built, for all arguments. *)
Theorem C31_mpls_actual : forall label exp bos ttl h,
  label < 2 ^ 32 -> exp < 256 -> bos < 256 -> ttl < 256 ->
  built (mpls label exp bos ttl h) h MPLS
    [20 # (N.lor (N.lor ((label * 2 ^ 8) mod 2 ^ 20) ((exp * 2 ^ 11) mod 2 ^ 20)) ((bos * 2 ^ 12) mod 2 ^ 20));
     3 # 0; 1 # 0; 8 # ttl].
Proof.
  intros label exp bos ttl h Hl He Hb Ht. unfold mpls. apply built_intro; try reflexivity.
  assert (S : forall x a b, b + 12 = a -> shl32 x a = ((x * 2 ^ b) mod 2 ^ 20) * 2 ^ 12).
  { intros x a b <-. unfold shl32, u32. rewrite N.shiftl_mul_pow2. rewrite N.pow_add_r, N.mul_assoc.
    change (2 ^ 32) with (2 ^ 20 * 2 ^ 12). rewrite N.mul_mod_distr_r by discriminate. reflexivity. }
  rewrite (S label 20 8), (S exp 23 11), (S bos 24 12) by reflexivity.
  set (x := (label * 2 ^ 8) mod 2 ^ 20). set (y := (exp * 2 ^ 11) mod 2 ^ 20). set (z := (bos * 2 ^ 12) mod 2 ^ 20).
  assert (Bx : x < 2 ^ 20) by (apply N.mod_lt; discriminate).
  assert (By : y < 2 ^ 20) by (apply N.mod_lt; discriminate).
  assert (Bz : z < 2 ^ 20) by (apply N.mod_lt; discriminate).
  clearbody x y z.
  assert (D : forall p q, N.lor (p * 2 ^ 12) (q * 2 ^ 12) = N.lor p q * 2 ^ 12)
    by (intros; rewrite <- !N.shiftl_mul_pow2; symmetry; apply N.shiftl_lor).
  rewrite !D. rewrite lor_add by (change (2 ^ 12) with 4096; lia).
  assert (L : forall p q, p < 2 ^ 20 -> q < 2 ^ 20 -> N.lor p q < 2 ^ 20).
  { intros p q Hp Hq. destruct (N.eq_dec (N.lor p q) 0) as [->|Z]; [reflexivity|].
    apply N.log2_lt_pow2; [lia|]. rewrite N.log2_lor. apply N.max_lub_lt.
    - destruct (N.eq_dec p 0) as [->|]; [reflexivity|apply N.log2_lt_pow2; auto; lia].
    - destruct (N.eq_dec q 0) as [->|]; [reflexivity|apply N.log2_lt_pow2; auto; lia]. }
  pose proof (L _ _ (L _ _ Bx By) Bz) as B. set (w := N.lor (N.lor x y) z) in *. clearbody w.
  change (2 ^ 20) with 1048576 in B. change (2 ^ 12) with 4096.
  apply diagram_word; [reflexivity|fits_tac|]. pack_tac. lia.
Qed.
Print Assumptions C31_mpls_actual.

(** The claim fails for every call that asks for a bottom-of-stack entry or a
    traffic class. *)
Theorem C31_mpls_refuted : forall label exp bos ttl h,
  label < 2 ^ 32 -> exp < 256 -> bos < 256 -> ttl < 256 -> exp <> 0 \/ bos <> 0 ->
  ~ built (mpls label exp bos ttl h) h MPLS [20 # label; 3 # exp; 1 # bos; 8 # ttl].
Proof.
  intros label exp bos ttl h Hl He Hb Ht NZ (b & E & _ & _ & F).
  destruct (C31_mpls_actual label exp bos ttl h Hl He Hb Ht) as (b' & E' & _ & _ & F').
  rewrite E in E'. injection E' as E'. apply app_inv_head in E'. injection E' as <-.
  rewrite F in F'. cbn [map snd] in F'. injection F' as _ H1 H2. destruct NZ; congruence.
Qed.
Print Assumptions C31_mpls_refuted.

(** Even the label alone is wrong. *)
Theorem C31_label_refuted : exists label b, label < 2 ^ 20 /\
  mpls label 0 0 64 [] = (Ret (Hdr MPLS 0), [Cell b false]) /\ field_val b MPLS_label <> label.
Proof. exists 16. eexists. do 2 (split; [reflexivity|]). vm_compute. discriminate. Qed.
Print Assumptions C31_label_refuted.

Example C31_example : mpls 16 1 1 64 [] = (Ret (Hdr MPLS 0), [Cell [1; 128; 0; 64] false]).
Proof. reflexivity. Qed.

(** * C32 *)

Theorem C32_snap : forall oui code h, oui < 2 ^ 32 -> code < 65536 ->
  built (snap oui code h) h SNAP [24 # (oui mod 65536 * 256 + oui / 65536 mod 256); 16 # code].
Proof.
  intros oui code h Ho Hc. unfold snap, u16, u8. rewrite N.shiftr_div_pow2.
  change (2 ^ 16) with 65536. change (2 ^ 8) with 256.
  set (x := oui mod 65536). set (y := oui / 65536 mod 256).
  assert (Bx : x < 65536) by (apply N.mod_lt; discriminate).
  assert (By : y < 256) by (apply N.mod_lt; discriminate). clearbody x y.
  apply built_intro; try reflexivity.
  replace (to_be 2 x ++ to_be 1 y ++ to_be 2 code) with (to_be 3 (x * 256 + y) ++ to_be 2 code).
  - apply (diagram_app _ _ [_]); [|apply (diag1 2); auto].
    apply (diag1 3). change (2 ^ N.of_nat (8 * 3)) with 16777216. lia.
  - rewrite app_assoc. f_equal. change (to_be 3 (x * 256 + y)) with (to_be 2 ((x * 256 + y) / 256) ++ [(x * 256 + y) mod 256]).
    change (to_be 1 y) with [y mod 256].
    rewrite N.div_add_l by discriminate. rewrite (N.div_small y) by auto. rewrite N.add_0_r.
    rewrite (N.add_comm (x * 256)), N.mod_add by discriminate. reflexivity.
Qed.
Print Assumptions C32_snap.

(** For a 24-bit oui the field reads back as given only when its three bytes are equal. *)
Theorem C32_snap_oui_iff : forall oui code h, oui < 2 ^ 24 -> code < 65536 ->
  (built (snap oui code h) h SNAP [24 # oui; 16 # code] <-> exists k, k < 256 /\ oui = k * 65793).
Proof.
  intros oui code h Ho Hc. change (2 ^ 24) with 16777216 in Ho.
  pose proof (C32_snap oui code h ltac:(change (2 ^ 32) with 4294967296; lia) Hc) as B.
  assert (Eq : built (snap oui code h) h SNAP [24 # oui; 16 # code] <->
    oui mod 65536 * 256 + oui / 65536 mod 256 = oui).
  { split.
    - intros (b & E & _ & _ & F). destruct B as (b' & E' & _ & _ & F').
      rewrite E in E'. injection E' as E'. apply app_inv_head in E'. injection E' as <-.
      rewrite F in F'. cbn [map snd] in F'. congruence.
    - intros E. rewrite E in B. exact B. }
  rewrite Eq. rewrite (N.mod_small (oui / 65536)) by (apply N.div_lt_upper_bound; lia).
  pose proof (N.div_mod oui 65536 ltac:(discriminate)) as DM.
  pose proof (N.mod_lt oui 65536 ltac:(discriminate)) as HM.
  set (q := oui / 65536) in *. set (r := oui mod 65536) in *. clearbody q r. split.
  - intros E. exists q. split; lia.
  - intros (k & Hk & ->). assert (q = k) by lia. subst q. lia.
Qed.
Print Assumptions C32_snap_oui_iff.

(** [Packet::llc] returns a [Dot3], not an [LLC]; its 3 bytes hold the arguments,
    but none of the three accessors of the returned header works. *)
Theorem C32_llc_refuted : forall dsap ssap ctrl h,
  exists x h', llc dsap ssap ctrl h = (Ret x, h') /\ h_ty x = Dot3 /\ h_ty x <> LLC /\
    hlen x = 14%nat /\ cell_at h' (h_ref x) [dsap; ssap; ctrl] /\
    forall m f, In f (ht_fields Dot3) -> exists h'', hget m x f h' = (Panic PIndex, h'').
Proof.
  intros dsap ssap ctrl h. do 2 eexists. split; [reflexivity|]. split; [reflexivity|].
  split; [discriminate|]. split; [reflexivity|]. split; [apply cell_at_last|].
  intros m f Hf. eexists. unfold hget. apply (hbit_range_oob _ _ _ [dsap; ssap; ctrl]).
  - apply cell_at_last.
  - destruct Hf as [<-|[<-|[<-|[]]]]; simpl; lia.
  - destruct Hf as [<-|[<-|[<-|[]]]]; simpl; lia.
Qed.
Print Assumptions C32_llc_refuted.

Example C32_example : snap 0x00000c 0x2000 [] = (Ret (Hdr SNAP 0), [Cell [0; 12; 0; 32; 0] false]).
Proof. reflexivity. Qed.
