(** UtilsProofs.v -- runs of the packet builders of utils.rs: what is allocated,
    in which order, with which bytes. *)

From Coq Require Import Lia.
From Verif Require Import Base Bits Types Layout Heap Packet Text Build Utils Slow Fast Spec Grammar
  BitsProofs HeapProofs TextProofs ChecksumProofs BuildProofs PropChecksum PropBuild PropParse UtilsSpec.
Open Scope N_scope.

(** ** Packets made of consecutive new buffers *)

Fixpoint hdrs_at (n : nat) (l : list seg) : list hdr :=
  match l with
  | [] => []
  | s :: t => Hdr (fst s) n :: hdrs_at (S n) t
  end.
Definition cells (l : list seg) : heap := map (fun s : seg => Cell (snd s) false) l.
(** The packet with headers [l] in buffers allocated from heap [h] on ... *)
Definition mpkt (h : heap) (l : list seg) (pl : list N) : packet := Pkt (hdrs_at (length h) l) pl.
(** ... and the heap with these buffers. *)
Definition mheap (h : heap) (l : list seg) : heap := h ++ cells l.
Definition made (h : heap) (l : list seg) (pl : list N) : out packet * heap :=
  (Ret (mpkt h l pl), mheap h l).

Lemma hdrs_at_app n a b : hdrs_at n (a ++ b) = hdrs_at n a ++ hdrs_at (n + length a) b.
Proof.
  revert n; induction a as [|s a IH]; intros n; cbn [hdrs_at app length].
  - rewrite Nat.add_0_r. reflexivity.
  - rewrite IH. do 2 f_equal. f_equal. lia.
Qed.
Lemma hdrs_at_length n l : length (hdrs_at n l) = length l.
Proof. revert n; induction l; intros; cbn [hdrs_at length]; auto. Qed.
Lemma cells_app a b : cells (a ++ b) = cells a ++ cells b.
Proof. apply map_app. Qed.
Lemma cells_length l : length (cells l) = length l.
Proof. apply map_length. Qed.
Lemma mheap_length h l : length (mheap h l) = (length h + length l)%nat.
Proof. unfold mheap. rewrite app_length, cells_length. reflexivity. Qed.
Lemma mheap_snoc h l T x : mheap h (l ++ [(T, x)]) = mheap h l ++ [Cell x false].
Proof. unfold mheap. rewrite cells_app, app_assoc. reflexivity. Qed.
Lemma mheap_nil h : mheap h [] = h.
Proof. apply app_nil_r. Qed.

(** A builder: allocates one buffer, returns a header on it. *)
Definition builds (b : M hdr) (T : htype) (x : list N) : Prop :=
  forall h, b h = (Ret (Hdr T (length h)), h ++ [Cell x false]).

Lemma push_new {b T x} h l pl : builds b T x ->
  (mlet v := b in push (mpkt h l pl) v) (mheap h l) =
  (Ret (mpkt h (l ++ [(T, x)]) pl), mheap h (l ++ [(T, x)])).
Proof.
  intros B. rewrite (bind_ret _ _ _ _ _ (B _)), mheap_snoc, mheap_length.
  unfold push, push_any, to_owned, bind, ret, mpkt. cbn [p_hdrs p_payload].
  rewrite hdrs_at_app. reflexivity.
Qed.

Lemma push_new_k {A b T x} h l pl (k : packet -> M A) : builds b T x ->
  (mlet v := b in mlet p := push (mpkt h l pl) v in k p) (mheap h l) =
  k (mpkt h (l ++ [(T, x)]) pl) (mheap h (l ++ [(T, x)])).
Proof.
  intros B. rewrite <- bind_assoc. rewrite (bind_ret _ _ _ _ _ (push_new h l pl B)). reflexivity.
Qed.

(** ** Single headers *)

Lemma builds_hfrom T x : builds (hfrom T x) T x.
Proof. intros h. apply hfrom_run. Qed.
Lemma builds_hnew T : builds (hnew T) T (ht_default T).
Proof. intros h. reflexivity. Qed.

Definition eth_bytes (d s : list N) (etype : N) : list N := d ++ s ++ to_be 2 etype.
Lemma builds_ethernet dst src etype d s : mac_text dst d -> mac_text src s ->
  builds (ethernet dst src etype) Ether (eth_bytes d s etype).
Proof.
  intros Hd Hs h. unfold ethernet, bind, lift.
  rewrite (proj2 (mac_ret _ _) Hd), (proj2 (mac_ret _ _) Hs). apply hfrom_run.
Qed.

Definition vlan_bytes (pcp vid etype : N) : list N :=
  [N.lor (vid / 256 mod 256) (shl8 pcp 5); vid mod 256] ++ to_be 2 etype.
Lemma builds_vlan pcp cfi vid etype : builds (vlan pcp cfi vid etype) Vlan (vlan_bytes pcp vid etype).
Proof. intros h. reflexivity. Qed.

Definition arp_bytes (opcode : N) (sm si tm ti : list N) : list N :=
  to_be 2 1 ++ to_be 2 0x800 ++ [6] ++ [4] ++ to_be 2 opcode ++ sm ++ si ++ tm ++ ti.
Lemma builds_arp opcode smac tmac sip tip a b c d :
  mac_text smac a -> ipv4_text sip b -> mac_text tmac c -> ipv4_text tip d ->
  builds (arp opcode smac tmac sip tip) ARP (arp_bytes opcode a b c d).
Proof.
  intros Ha Hb Hc Hd h. unfold arp, bind, lift.
  rewrite (proj2 (mac_ret _ _) Ha), (proj2 (ipv4_ret _ _) Hb), (proj2 (mac_ret _ _) Hc), (proj2 (ipv4_ret _ _) Hd).
  apply hfrom_run.
Qed.

(** The IPv4 header for any [ihl]; [v0] is the first byte. *)
Definition ip4b (v0 tos len id frag ttl proto c : N) (s d : list N) : list N :=
  [v0] ++ [tos] ++ to_be 2 len ++ to_be 2 id ++ to_be 2 frag ++ [ttl] ++ [proto] ++ to_be 2 c ++ s ++ d.

Lemma ip4b_bytes ihl tos len id frag ttl proto c s d : ihl < 16 ->
  ip4b (N.lor 64 ihl) tos len id frag ttl proto c s d = ip4_bytes ihl tos len id frag ttl proto c s d.
Proof.
  intros H. unfold ip4b, ip4_bytes.
  replace (N.lor 64 ihl) with (64 + ihl) by (symmetry; apply (lor_add 4 ihl 4); auto). reflexivity.
Qed.

Lemma ip4b_length v0 tos len id frag ttl proto c s d : length s = 4%nat -> length d = 4%nat ->
  length (ip4b v0 tos len id frag ttl proto c s d) = 20%nat.
Proof. intros Ls Ld. unfold ip4b. rewrite !app_length, !to_be_length, Ls, Ld. reflexivity. Qed.

Lemma ip4b_ok v0 tos len id frag ttl proto c s d :
  v0 < 256 -> tos < 256 -> ttl < 256 -> proto < 256 -> bytes_ok s -> bytes_ok d ->
  bytes_ok (ip4b v0 tos len id frag ttl proto c s d).
Proof. intros. unfold ip4b. bok. Qed.

(** The checksum function on a header-sized buffer. *)
Definition csum (x : list N) : N := 65535 - (other_words x / 65536 + other_words x) mod 65536.
Lemma csum_run m x : bytes_ok x -> length x = 20%nat -> ipv4_checksum m x = Ret (csum x).
Proof. intros H L. apply C20_value; auto; rewrite L; [reflexivity|discriminate]. Qed.
Lemma csum_le x : csum x <= 65535.
Proof. apply N.le_sub_l. Qed.

Lemma other_words_c v0 tos len id frag ttl proto c c' s d :
  other_words (ip4b v0 tos len id frag ttl proto c s d) =
  other_words (ip4b v0 tos len id frag ttl proto c' s d).
Proof. unfold other_words, ip4b. rewrite !to_be_2. reflexivity. Qed.

Lemma csum_c v0 tos len id frag ttl proto c c' s d :
  csum (ip4b v0 tos len id frag ttl proto c s d) = csum (ip4b v0 tos len id frag ttl proto c' s d).
Proof. unfold csum. rewrite (other_words_c v0 tos len id frag ttl proto c c'). reflexivity. Qed.

(** With the checksum that the library computes for it. *)
Definition ip4s (v0 tos len id frag ttl proto : N) (s d : list N) : list N :=
  ip4b v0 tos len id frag ttl proto (csum (ip4b v0 tos len id frag ttl proto 0 s d)) s d.

Lemma lor_byte a b : a < 256 -> b < 256 -> N.lor a b < 256.
Proof.
  intros Ha Hb. pose proof (bytes2 (fun a b => N.lor a b <? 256) ltac:(vm_compute; reflexivity) a b Ha Hb) as G.
  apply N.ltb_lt. exact G.
Qed.

Lemma fset_ip4_checksum v0 tos len id frag ttl proto c s d v :
  v0 < 256 -> tos < 256 -> ttl < 256 -> proto < 256 -> bytes_ok s -> bytes_ok d ->
  fset (ip4b v0 tos len id frag ttl proto c s d) IPv4_header_checksum v =
  ip4b v0 tos len id frag ttl proto v s d.
Proof.
  intros. unfold ip4b.
  pose proof (fset_middle ([v0] ++ [tos] ++ to_be 2 len ++ to_be 2 id ++ to_be 2 frag ++ [ttl] ++ [proto])
    (to_be 2 c) (s ++ d) IPv4_header_checksum v) as F.
  rewrite <- !app_assoc in F. rewrite to_be_length in F. apply F; try reflexivity; try discriminate.
  - bok.
  - apply to_be_ok.
  - bok.
Qed.

Lemma fset_ip4_len v0 tos len id frag ttl proto c s d v :
  v0 < 256 -> tos < 256 -> ttl < 256 -> proto < 256 -> bytes_ok s -> bytes_ok d ->
  fset (ip4b v0 tos len id frag ttl proto c s d) IPv4_total_len v =
  ip4b v0 tos v id frag ttl proto c s d.
Proof.
  intros. unfold ip4b.
  pose proof (fset_middle ([v0] ++ [tos]) (to_be 2 len)
    (to_be 2 id ++ to_be 2 frag ++ [ttl] ++ [proto] ++ to_be 2 c ++ s ++ d) IPv4_total_len v) as F.
  rewrite <- !app_assoc in F. rewrite to_be_length in F. apply F; try reflexivity; try discriminate.
  - bok.
  - apply to_be_ok.
  - bok.
Qed.

Lemma get_ip4_len v0 tos len id frag ttl proto c s d :
  v0 < 256 -> tos < 256 -> ttl < 256 -> proto < 256 -> bytes_ok s -> bytes_ok d ->
  length s = 4%nat -> length d = 4%nat ->
  field_val (ip4b v0 tos len id frag ttl proto c s d) IPv4_total_len = len mod 65536.
Proof.
  intros. rewrite <- (fset_ip4_len v0 tos 0 id frag ttl proto c s d len) by auto.
  rewrite field_val_fset; [reflexivity|apply ip4b_ok; auto|].
  rewrite ip4b_length by auto. split; vm_compute; lia.
Qed.

Lemma to_be_mod n v w : v mod 2 ^ N.of_nat (8 * n) = w mod 2 ^ N.of_nat (8 * n) -> to_be n v = to_be n w.
Proof.
  intros E. apply be_inj; try apply to_be_ok; [rewrite !to_be_length; auto|].
  rewrite !be_to_be. exact E.
Qed.
Lemma ip4b_len v0 tos len len' id frag ttl proto c s d : len mod 65536 = len' mod 65536 ->
  ip4b v0 tos len id frag ttl proto c s d = ip4b v0 tos len' id frag ttl proto c s d.
Proof. intros E. unfold ip4b. rewrite (to_be_mod 2 len len') by exact E. reflexivity. Qed.
Lemma ip4s_len v0 tos len len' id frag ttl proto s d : len mod 65536 = len' mod 65536 ->
  ip4s v0 tos len id frag ttl proto s d = ip4s v0 tos len' id frag ttl proto s d.
Proof.
  intros E. unfold ip4s.
  rewrite (ip4b_len _ _ len len' _ _ _ _ 0) by auto. apply ip4b_len. auto.
Qed.

Lemma builds_ipv4 m ihl tos id ttl frag proto src dst len s d :
  ipv4_text src s -> ipv4_text dst d -> ihl < 256 -> tos < 256 -> ttl < 256 -> proto < 256 ->
  builds (ipv4 m ihl tos id ttl frag proto src dst len) IPv4
    (ip4s (N.lor 64 ihl) tos len id frag ttl proto s d).
Proof.
  intros Hs Hd Hi Ht Hl Hp h.
  pose proof (ipv4_ok _ _ Hs) as Os. pose proof (ipv4_ok _ _ Hd) as Od.
  pose proof (ipv4_len _ _ Hs) as Ls. pose proof (ipv4_len _ _ Hd) as Ld.
  assert (V : N.lor 64 ihl < 256) by (apply lor_byte; [reflexivity|auto]).
  unfold ipv4. 
  rewrite (bind_ret _ _ h s h) by (unfold lift; f_equal; apply ipv4_ret; auto).
  rewrite (bind_ret _ _ h d h) by (unfold lift; f_equal; apply ipv4_ret; auto).
  cbv zeta. fold (ip4b (N.lor 64 ihl) tos len id frag ttl proto 0 s d).
  set (data := ip4b (N.lor 64 ihl) tos len id frag ttl proto 0 s d).
  assert (Odata : bytes_ok data) by (apply ip4b_ok; auto).
  assert (Ldata : length data = 20%nat) by (apply ip4b_length; auto).
  rewrite (bind_ret _ _ h (csum data) h) by (unfold lift; rewrite csum_run; auto).
  rewrite (bind_ret _ _ _ _ _ (hfrom_run IPv4 data h)).
  rewrite (bind_ret _ _ _ tt (h ++ [Cell (fset data IPv4_header_checksum (csum data)) false])).
  - unfold ret. do 3 f_equal. f_equal. unfold ip4s. fold data. unfold data at 1.
    apply fset_ip4_checksum; auto.
  - apply hset_last; auto. rewrite Ldata. split; vm_compute; lia.
Qed.

(** The IPv6 header. *)
Definition ip6b (word len nh hop : N) (s d : list N) : list N :=
  to_be 4 word ++ to_be 2 len ++ [nh] ++ [hop] ++ s ++ d.
Definition ip6_word (tc fl : N) : N := N.lor (N.lor (N.land (shl32 6 28) 0xF0000000) (shl32 tc 20)) fl.

Lemma ip6b_length word len nh hop s d : length s = 16%nat -> length d = 16%nat ->
  length (ip6b word len nh hop s d) = 40%nat.
Proof. intros Ls Ld. unfold ip6b. rewrite !app_length, !to_be_length, Ls, Ld. reflexivity. Qed.
Lemma ip6b_ok word len nh hop s d : nh < 256 -> hop < 256 -> bytes_ok s -> bytes_ok d ->
  bytes_ok (ip6b word len nh hop s d).
Proof. intros. unfold ip6b. bok. Qed.
Lemma fset_ip6_len word len nh hop s d v : nh < 256 -> hop < 256 -> bytes_ok s -> bytes_ok d ->
  fset (ip6b word len nh hop s d) IPv6_payload_len v = ip6b word v nh hop s d.
Proof.
  intros. unfold ip6b.
  pose proof (fset_middle (to_be 4 word) (to_be 2 len) ([nh] ++ [hop] ++ s ++ d) IPv6_payload_len v) as F.
  rewrite <- ?app_assoc in F. rewrite to_be_length in F. apply F; try reflexivity; try discriminate.
  - apply to_be_ok.
  - apply to_be_ok.
  - bok.
Qed.
Lemma get_ip6_len word len nh hop s d : nh < 256 -> hop < 256 -> bytes_ok s -> bytes_ok d ->
  length s = 16%nat -> length d = 16%nat ->
  field_val (ip6b word len nh hop s d) IPv6_payload_len = len mod 65536.
Proof.
  intros. rewrite <- (fset_ip6_len word 0 nh hop s d len) by auto.
  rewrite field_val_fset; [reflexivity|apply ip6b_ok; auto|].
  rewrite ip6b_length by auto. split; vm_compute; lia.
Qed.
Lemma ip6b_len word len len' nh hop s d : len mod 65536 = len' mod 65536 ->
  ip6b word len nh hop s d = ip6b word len' nh hop s d.
Proof. intros E. unfold ip6b. rewrite (to_be_mod 2 len len') by exact E. reflexivity. Qed.
Lemma builds_ipv6 ip6 tc fl nh hop src dst len :
  builds (ipv6 ip6 tc fl nh hop src dst len) IPv6
    (ip6b (ip6_word tc fl) len nh hop (to_ipv6_bytes ip6 src) (to_ipv6_bytes ip6 dst)).
Proof. intros h. apply hfrom_run. Qed.

(** ** The Ethernet part *)

Definition eth_segs (e : eth_args) (d s : list N) (etype : N) : list seg :=
  if vlan_enable e
  then [(Ether, eth_bytes d s 0x8100); (Vlan, vlan_bytes (vlan_pcp e) (vlan_vid e) etype)]
  else [(Ether, eth_bytes d s etype)].

Lemma eth_run e etype pl d s h : mac_text (eth_dst e) d -> mac_text (eth_src e) s ->
  create_eth_packet e etype pl h = made h (eth_segs e d s etype) pl.
Proof.
  intros Hd Hs. unfold create_eth_packet, eth_segs.
  assert (E : forall et, (mlet eth := ethernet (eth_dst e) (eth_src e) et in push pkt_new eth) h =
    (Ret (mpkt h [(Ether, eth_bytes d s et)] []), mheap h [(Ether, eth_bytes d s et)])).
  { intros et. pose proof (push_new h [] [] (builds_ethernet _ _ et d s Hd Hs)) as P.
    rewrite mheap_nil in P. exact P. }
  destruct (vlan_enable e).
  - change (EtherType_code E_DOT1Q) with 0x8100. rewrite bind_assoc.
    rewrite (bind_ret _ _ _ _ _ (builds_ethernet _ _ 0x8100 d s Hd Hs h)).
    specialize (E 0x8100). rewrite (bind_ret _ _ _ _ _ (builds_ethernet _ _ 0x8100 d s Hd Hs h)) in E.
    rewrite bind_assoc, (bind_ret _ _ _ _ _ E).
    rewrite (bind_ret _ _ _ _ _ (push_new h _ [] (builds_vlan (vlan_pcp e) 0 (vlan_vid e) etype))).
    reflexivity.
  - rewrite (bind_ret _ _ _ _ _ (E etype)). reflexivity.
Qed.

(** None of the headers before the IP header is called [name]. *)
Definition unnamed (name : string) (l : list seg) : Prop :=
  Forall (fun s : seg => String.eqb (ht_name (fst s)) name = false) l.
Lemma eth_unnamed e d s etype name : name = "IPv4"%string \/ name = "IPv6"%string ->
  unnamed name (eth_segs e d s etype).
Proof.
  intros H. unfold unnamed, eth_segs. destruct H; subst; destruct (vlan_enable e); repeat constructor.
Qed.

Lemma find_at name n es T x l : unnamed name es -> ht_name T = name ->
  find_name name (hdrs_at n (es ++ (T, x) :: l)) = Some (Hdr T (n + length es)).
Proof.
  intros U E. revert n; induction U as [|s es Us U IH]; intros n; cbn [hdrs_at app find_name fst].
  - unfold hname. cbn [h_ty]. rewrite E, String.eqb_refl. cbn [length]. rewrite Nat.add_0_r. reflexivity.
  - unfold hname. cbn [h_ty]. rewrite Us. rewrite IH. do 2 f_equal. cbn [length]. lia.
Qed.

Lemma mheap_cell h es T x l : cell_at (mheap h (es ++ (T, x) :: l)) (length h + length es) x.
Proof.
  unfold cell_at, mheap. rewrite cells_app. rewrite nth_error_app2 by apply Nat.le_add_r.
  replace (length h + length es - length h)%nat with (length es) by lia.
  rewrite nth_error_app2 by (rewrite cells_length; apply Nat.le_refl). rewrite cells_length, Nat.sub_diag. reflexivity.
Qed.
Lemma mheap_upd h es T x y l :
  upd (mheap h (es ++ (T, x) :: l)) (length h + length es) (Cell y false) = mheap h (es ++ (T, y) :: l).
Proof.
  unfold mheap. rewrite !cells_app. rewrite upd_app2 by lia.
  replace (length h + length es - length h)%nat with (length es) by lia.
  rewrite upd_app2 by (rewrite cells_length; apply Nat.le_refl). rewrite cells_length, Nat.sub_diag. reflexivity.
Qed.

Lemma bump_run m h es x pl extra : unnamed "IPv4" es -> bytes_ok x -> length x = 20%nat ->
  bump_total_len m (mpkt h (es ++ [(IPv4, x)]) pl) extra (mheap h (es ++ [(IPv4, x)])) =
  (Ret (Hdr IPv4 (length h + length es)),
   mheap h (es ++ [(IPv4, fset x IPv4_total_len (field_val x IPv4_total_len + N.of_nat extra))])).
Proof.
  intros U Ox Lx. unfold bump_total_len.
  rewrite (bind_ret _ _ _ (Hdr IPv4 (length h + length es)) (mheap h (es ++ [(IPv4, x)]))).
  2:{ unfold index_name, mpkt. cbn [p_hdrs]. rewrite find_at by auto. reflexivity. }
  rewrite (bind_ret _ _ _ (Hdr IPv4 (length h + length es)) (mheap h (es ++ [(IPv4, x)]))) by reflexivity.
  assert (Fi : field_in IPv4_total_len (length x)) by (rewrite Lx; split; vm_compute; lia).
  pose proof (mheap_cell h es IPv4 x []) as C.
  rewrite (bind_ret _ _ _ _ _ (hget_val m (Hdr IPv4 (length h + length es)) _ x IPv4_total_len C Ox Fi
    ltac:(vm_compute; lia))).
  rewrite (bind_ret _ _ _ _ _ (hset_in (Hdr IPv4 (length h + length es)) _ x IPv4_total_len _ C Ox Fi)).
  cbn [h_ref]. rewrite mheap_upd. reflexivity.
Qed.

Lemma refresh_run m h es x : bytes_ok x -> length x = 20%nat ->
  refresh_checksum m (Hdr IPv4 (length h + length es)) (mheap h (es ++ [(IPv4, x)])) =
  (Ret tt, mheap h (es ++ [(IPv4, fset x IPv4_header_checksum (csum x))])).
Proof.
  intros Ox Lx. unfold refresh_checksum.
  pose proof (mheap_cell h es IPv4 x []) as C.
  rewrite (bind_ret _ _ _ _ _ (hto_vec_cell (Hdr IPv4 (length h + length es)) _ x C)).
  rewrite (bind_ret _ _ _ (csum x) (mheap h (es ++ [(IPv4, x)])))
    by (unfold lift; rewrite csum_run by auto; reflexivity).
  assert (Fi : field_in IPv4_header_checksum (length x)) by (rewrite Lx; split; vm_compute; lia).
  rewrite (hset_in (Hdr IPv4 (length h + length es)) _ x _ _ C Ox Fi). cbn [h_ref]. rewrite mheap_upd. reflexivity.
Qed.

Lemma bump6_run m h es x pl extra : unnamed "IPv6" es -> bytes_ok x -> length x = 40%nat ->
  bump_payload_len m (mpkt h (es ++ [(IPv6, x)]) pl) extra (mheap h (es ++ [(IPv6, x)])) =
  (Ret tt,
   mheap h (es ++ [(IPv6, fset x IPv6_payload_len (field_val x IPv6_payload_len + N.of_nat extra))])).
Proof.
  intros U Ox Lx. unfold bump_payload_len.
  rewrite (bind_ret _ _ _ (Hdr IPv6 (length h + length es)) (mheap h (es ++ [(IPv6, x)]))).
  2:{ unfold index_name, mpkt. cbn [p_hdrs]. rewrite find_at by auto. reflexivity. }
  rewrite (bind_ret _ _ _ (Hdr IPv6 (length h + length es)) (mheap h (es ++ [(IPv6, x)]))) by reflexivity.
  assert (Fi : field_in IPv6_payload_len (length x)) by (rewrite Lx; split; vm_compute; lia).
  pose proof (mheap_cell h es IPv6 x []) as C.
  rewrite (bind_ret _ _ _ _ _ (hget_val m (Hdr IPv6 (length h + length es)) _ x IPv6_payload_len C Ox Fi
    ltac:(vm_compute; lia))).
  rewrite (hset_in (Hdr IPv6 (length h + length es)) _ x IPv6_payload_len _ C Ox Fi).
  cbn [h_ref]. rewrite mheap_upd. reflexivity.
Qed.

(** ** IP packets *)

(** The IPv4 header for total length [len], with the checksum the library computes. *)
Definition ip4h (i : ip4_args) (proto : N) (s d : list N) (len : nat) : list N :=
  ip4s (N.lor 64 (ip_ihl i)) (ip_tos i) (N.of_nat len) (ip_id i) (ip_frag i) (ip_ttl i) proto s d.

Lemma usize_mod n : usize_u16 n mod 65536 = N.of_nat n mod 65536.
Proof. unfold usize_u16, u16. apply N.mod_mod. discriminate. Qed.

Lemma ip4h_length i proto s d len a b : ip4_in i a b -> length s = 4%nat -> length d = 4%nat ->
  length (ip4h i proto s d len) = 20%nat.
Proof. intros _ Ls Ld. apply ip4b_length; auto. Qed.

Lemma ipv4_packet_run m e i proto pl d s a b h : eth_in e d s -> ip4_in i a b -> proto < 256 ->
  create_ipv4_packet m e i proto pl h =
  made h (eth_segs e d s 0x800 ++ [(IPv4, ip4h i proto a b (20 + length pl))]) pl.
Proof.
  intros (Hd & Hs & _) (Ha & Hb & I1 & I2 & I3 & I4 & I5) Hp. unfold create_ipv4_packet.
  rewrite (bind_ret _ _ _ _ _ (eth_run e _ pl d s h Hd Hs)).
  rewrite (push_new h _ pl (builds_ipv4 m _ _ (ip_id i) _ (ip_frag i) proto _ _ _ a b Ha Hb I1 I2 I3 Hp)).
  unfold ip4h. rewrite (ip4s_len _ _ (usize_u16 (ht_size IPv4 + length pl)) (N.of_nat (20 + length pl)))
    by apply usize_mod.
  reflexivity.
Qed.

(** The length update: [extra] more bytes, checksum as it was. *)
Lemma bump_ip4 m h es i proto a b pl len extra :
  ip4_in i a b -> proto < 256 -> unnamed "IPv4" es ->
  exists x, length x = 20%nat /\ bytes_ok x /\
  bump_total_len m (mpkt h (es ++ [(IPv4, ip4h i proto a b len)]) pl) extra
    (mheap h (es ++ [(IPv4, ip4h i proto a b len)])) =
  (Ret (Hdr IPv4 (length h + length es)), mheap h (es ++ [(IPv4, x)])) /\
  x = ip4b (N.lor 64 (ip_ihl i)) (ip_tos i) (N.of_nat (len + extra)) (ip_id i) (ip_frag i) (ip_ttl i) proto
        (csum (ip4h i proto a b len)) a b.
Proof.
  intros (Ha & Hb & I1 & I2 & I3 & I4 & I5) Hp U.
  pose proof (ipv4_ok _ _ Ha) as Oa. pose proof (ipv4_ok _ _ Hb) as Ob.
  pose proof (ipv4_len _ _ Ha) as La. pose proof (ipv4_len _ _ Hb) as Lb.
  assert (V : N.lor 64 (ip_ihl i) < 256) by (apply lor_byte; [reflexivity|auto]).
  eexists. split; [|split; [|split; [|reflexivity]]].
  - apply ip4b_length; auto.
  - apply ip4b_ok; auto.
  - rewrite bump_run; [|auto|apply ip4b_ok; auto|apply ip4b_length; auto].
    match goal with |- (_, mheap h (es ++ [(IPv4, ?p)])) = (_, mheap h (es ++ [(IPv4, ?q)])) =>
      assert (E : p = q); [|rewrite E; reflexivity] end.
    unfold ip4h at 1 2. unfold ip4s. rewrite fset_ip4_len, get_ip4_len by auto.
    rewrite (ip4b_len _ _ _ (N.of_nat (len + extra))).
    + reflexivity.
    + rewrite Nat2N.inj_add. apply N.add_mod_idemp_l. discriminate.
Qed.

Lemma mpkt_bytes h es T x y pl : mpkt h (es ++ [(T, x)]) pl = mpkt h (es ++ [(T, y)]) pl.
Proof. unfold mpkt. rewrite !hdrs_at_app. reflexivity. Qed.

(** Update followed by the checksum refresh. *)
Lemma rebuild_ip4 {A} m h es i proto a b pl len extra (k : packet -> M A) :
  ip4_in i a b -> proto < 256 -> unnamed "IPv4" es ->
  (mlet ip := bump_total_len m (mpkt h (es ++ [(IPv4, ip4h i proto a b len)]) pl) extra in
   mlet _ := refresh_checksum m ip in k (mpkt h (es ++ [(IPv4, ip4h i proto a b len)]) pl))
    (mheap h (es ++ [(IPv4, ip4h i proto a b len)])) =
  k (mpkt h (es ++ [(IPv4, ip4h i proto a b (len + extra))]) pl)
    (mheap h (es ++ [(IPv4, ip4h i proto a b (len + extra))])).
Proof.
  intros Hi Hp U. destruct (bump_ip4 m h es i proto a b pl len extra Hi Hp U) as (x & Lx & Ox & R & E).
  rewrite (bind_ret _ _ _ _ _ R). rewrite (bind_ret _ _ _ _ _ (refresh_run m h es x Ox Lx)).
  rewrite (mpkt_bytes h es IPv4 _ (ip4h i proto a b (len + extra)) pl).
  match goal with |- k _ (mheap h (es ++ [(IPv4, ?p)])) = k _ (mheap h (es ++ [(IPv4, ?q)])) =>
    assert (E2 : p = q); [|rewrite E2; reflexivity] end.
  destruct Hi as (Ha & Hb & I1 & I2 & I3 & I4 & I5).
  pose proof (ipv4_ok _ _ Ha) as Oa. pose proof (ipv4_ok _ _ Hb) as Ob.
  assert (V : N.lor 64 (ip_ihl i) < 256) by (apply lor_byte; [reflexivity|auto]).
  subst x. rewrite fset_ip4_checksum by auto. unfold ip4h at 2. unfold ip4s. f_equal; apply csum_c.
Qed.

Lemma push_last h l pl T x :
  push (mpkt h l pl) (Hdr T (length (mheap h l))) (mheap h l ++ [Cell x false]) =
  made h (l ++ [(T, x)]) pl.
Proof. 
  pose proof (push_new h l pl (builds_hfrom T x)) as P.
  rewrite (bind_ret _ _ _ _ _ (hfrom_run T x (mheap h l))) in P. exact P.
Qed.

(** The IPv6 header for payload length [len]. *)
Definition ip6h (i : ip6_args) (nh : N) (s d : list N) (len : nat) : list N :=
  ip6b (ip6_word (ip6_traffic_class i) (ip6_flow_label i)) (N.of_nat len) nh (ip6_hop_limit i) s d.

Lemma ipv6_packet_run ip6 e i nh pl d s a b h : eth_in e d s -> ip6_in i ip6 a b -> nh < 256 ->
  create_ipv6_packet ip6 e i nh pl h =
  made h (eth_segs e d s 0x86DD ++ [(IPv6, ip6h i nh a b (length pl))]) pl.
Proof.
  intros (Hd & Hs & _) (H6 & Ha & Hb & I1 & I2 & I3) Hp. unfold create_ipv6_packet.
  rewrite (bind_ret _ _ _ _ _ (eth_run e _ pl d s h Hd Hs)).
  rewrite (push_new h _ pl (builds_ipv6 ip6 _ _ _ _ _ _ _)).
  unfold ip6h. rewrite (addr6_eq _ _ _ Ha), (addr6_eq _ _ _ Hb).
  rewrite (ip6b_len _ (usize_u16 (length pl)) (N.of_nat (length pl))) by apply usize_mod. reflexivity.
Qed.

Lemma rebuild_ip6 {A} m h es i ip6 nh a b pl len extra (k : packet -> M A) :
  ip6_in i ip6 a b -> nh < 256 -> unnamed "IPv6" es ->
  (mlet _ := bump_payload_len m (mpkt h (es ++ [(IPv6, ip6h i nh a b len)]) pl) extra in
   k (mpkt h (es ++ [(IPv6, ip6h i nh a b len)]) pl))
    (mheap h (es ++ [(IPv6, ip6h i nh a b len)])) =
  k (mpkt h (es ++ [(IPv6, ip6h i nh a b (len + extra))]) pl)
    (mheap h (es ++ [(IPv6, ip6h i nh a b (len + extra))])).
Proof.
  intros (H6 & Ha & Hb & I1 & I2 & I3) Hp U.
  destruct (addr6_ok _ _ _ H6 Ha) as [La Oa]. destruct (addr6_ok _ _ _ H6 Hb) as [Lb Ob].
  rewrite (bind_ret _ _ _ _ _ (bump6_run m h es (ip6h i nh a b len) pl extra U
    (ip6b_ok _ _ _ _ _ _ Hp I3 Oa Ob) (ip6b_length _ _ _ _ _ _ La Lb))).
  rewrite (mpkt_bytes h es IPv6 _ (ip6h i nh a b (len + extra)) pl).
  match goal with |- k _ (mheap h (es ++ [(IPv6, ?p)])) = k _ (mheap h (es ++ [(IPv6, ?q)])) =>
    assert (E2 : p = q); [|rewrite E2; reflexivity] end.
  unfold ip6h. rewrite fset_ip6_len, get_ip6_len by auto. apply ip6b_len.
  rewrite Nat2N.inj_add. apply N.add_mod_idemp_l. discriminate.
Qed.

(** ** The packets of utils.rs *)

Definition tcp_bytes (t : tcp_args) : list N :=
  to_be 2 (tcp_src t) ++ to_be 2 (tcp_dst t) ++ to_be 4 (tcp_seq_no t) ++ to_be 4 (tcp_ack_no t)
  ++ [N.lor (shl8 (tcp_data_offset t) 4) (N.land (tcp_res t) 0xff)] ++ [tcp_flags t]
  ++ to_be 2 (tcp_window t) ++ to_be 2 0 ++ to_be 2 (tcp_urgent_ptr t).
Definition udp_bytes (src dst : N) (len : nat) (c : N) : list N :=
  to_be 2 src ++ to_be 2 dst ++ to_be 2 (N.of_nat len) ++ to_be 2 c.
Definition icmp_bytes (ty code : N) : list N := [ty] ++ [code] ++ to_be 2 0.
Definition vxlan_bytes (vni : N) : list N := to_be 4 (shl32 8 24) ++ to_be 4 (shl32 vni 8).

Lemma builds_udp src dst len : builds (udp src dst (usize_u16 len)) UDP (udp_bytes src dst len 0).
Proof.
  intros h. unfold udp, udp_bytes. rewrite (to_be_mod 2 (usize_u16 len) (N.of_nat len)) by apply usize_mod.
  apply hfrom_run.
Qed.

Lemma udp6_push {A} h l pl src dst len (k : packet -> M A) :
  (mlet u := udp src dst (usize_u16 len) in
   mlet _ := hset u UDP_checksum 0xffff in
   mlet p := push (mpkt h l pl) u in k p) (mheap h l) =
  k (mpkt h (l ++ [(UDP, udp_bytes src dst len 0xffff)]) pl)
    (mheap h (l ++ [(UDP, udp_bytes src dst len 0xffff)])).
Proof.
  rewrite (bind_ret _ _ _ _ _ (builds_udp src dst len (mheap h l))).
  assert (Oc : bytes_ok (udp_bytes src dst len 0)) by (unfold udp_bytes; bok).
  rewrite (bind_ret _ _ _ _ _ (hset_last UDP (mheap h l) (udp_bytes src dst len 0) UDP_checksum 0xffff Oc
    ltac:(unfold udp_bytes; rewrite !app_length, !to_be_length; split; vm_compute; lia))).
  replace (fset (udp_bytes src dst len 0) UDP_checksum 65535) with (udp_bytes src dst len 65535).
  - rewrite (bind_ret _ _ _ _ _ (push_last h l pl UDP _)). reflexivity.
  - unfold udp_bytes. symmetry.
    pose proof (fset_middle (to_be 2 src ++ to_be 2 dst ++ to_be 2 (N.of_nat len)) (to_be 2 0) [] UDP_checksum 65535) as F.
    rewrite to_be_length, <- !app_assoc, !app_nil_r in F. apply F; try reflexivity; try discriminate; bok.
Qed.

Lemma bind_ret_r {A} (x : M A) h : bind x ret h = x h.
Proof. unfold bind, ret. destruct (x h) as [[] ?]; reflexivity. Qed.
Lemma bind_ext {A B} (x : M A) (k k' : A -> M B) h : (forall a h', k a h' = k' a h') -> bind x k h = bind x k' h.
Proof. intros E. unfold bind. destruct (x h) as [[] ?]; auto. Qed.

Section Runs.
Variables (m : mode) (e : eth_args) (d s : list N) (pl : list N) (h : heap).
Hypothesis He : eth_in e d s.

Lemma arp_run opcode smac tmac sip tip a b c g :
  mac_text smac a -> ipv4_text sip b -> mac_text tmac c -> ipv4_text tip g ->
  create_arp_packet e opcode smac tmac sip tip pl h =
  made h (eth_segs e d s 0x806 ++ [(ARP, arp_bytes opcode a b c g)]) pl.
Proof.
  intros Ha Hb Hc Hg. destruct He as (Hd & Hs & _). unfold create_arp_packet.
  rewrite (bind_ret _ _ _ _ _ (eth_run e _ pl d s h Hd Hs)).
  rewrite (push_new h _ pl (builds_arp opcode _ _ _ _ _ _ _ _ Ha Hb Hc Hg)). reflexivity.
Qed.

Section V4.
Variables (i : ip4_args) (a b : list N).
Hypothesis Hi : ip4_in i a b.
Let es := eth_segs e d s 0x800.

Lemma U4 : unnamed "IPv4" es.
Proof. apply eth_unnamed; auto. Qed.

(** [create_ipv4_packet], length and checksum update, then the rest. *)
Lemma ip4_start {A} proto p extra (k : packet -> M A) : proto < 256 ->
  (mlet pkt := create_ipv4_packet m e i proto p in
   mlet ip := bump_total_len m pkt extra in
   mlet _ := refresh_checksum m ip in k pkt) h =
  k (mpkt h (es ++ [(IPv4, ip4h i proto a b (20 + length p + extra))]) p)
    (mheap h (es ++ [(IPv4, ip4h i proto a b (20 + length p + extra))])).
Proof.
  intros Hp.
  rewrite (bind_ret _ _ _ _ _ (ipv4_packet_run m e i proto p d s a b h He Hi Hp)).
  apply (rebuild_ip4 m h es i proto a b p (20 + length p) extra k Hi Hp U4).
Qed.

Ltac start := match goal with
  |- (mlet pkt := create_ipv4_packet _ _ _ ?p ?v in mlet ip := bump_total_len _ pkt ?n in
      mlet _ := refresh_checksum _ ip in @?K pkt) h = _ =>
    rewrite (ip4_start p v n K) by reflexivity; cbv beta end.

Lemma tcp_run t : create_tcp_packet m e i t pl h =
  made h (es ++ [(IPv4, ip4h i 6 a b (20 + length pl + 20)); (TCP, tcp_bytes t)]) pl.
Proof.
  unfold create_tcp_packet. start.
  rewrite (push_new h _ pl (builds_hfrom TCP (tcp_bytes t))). rewrite <- app_assoc. reflexivity.
Qed.

Lemma udp_run dst src : create_udp_packet m e i dst src pl h =
  made h (es ++ [(IPv4, ip4h i 17 a b (20 + length pl + 8)); (UDP, udp_bytes src dst (8 + length pl) 0)]) pl.
Proof.
  unfold create_udp_packet. start.
  rewrite (push_new h _ pl (builds_udp src dst (ht_size UDP + length pl))). rewrite <- app_assoc. reflexivity.
Qed.

Lemma icmp_run ty code : create_icmp_packet m e i ty code pl h =
  made h (es ++ [(IPv4, ip4h i 1 a b (20 + length pl + 4)); (ICMP, icmp_bytes ty code)]) pl.
Proof.
  unfold create_icmp_packet. start.
  rewrite (push_new h _ pl (builds_hfrom ICMP (icmp_bytes ty code))). rewrite <- app_assoc. reflexivity.
Qed.

Lemma ipv4ip_run q b0 v : to_vec q h = (Ret (b0 :: v), h) ->
  create_ipv4ip_packet m e i q h =
  made h (es ++ [(IPv4, ip4h i (IpProtocol_code (inner_proto b0)) a b (20 + length (b0 :: v)))]) (b0 :: v).
Proof.
  intros Hq. unfold create_ipv4ip_packet. rewrite (bind_ret _ _ _ _ _ Hq).
  rewrite (bind_ret _ _ _ b0 h) by reflexivity.
  apply (ipv4_packet_run m e i _ (b0 :: v) d s a b h He Hi). destruct (inner_proto b0); reflexivity.
Qed.

(** The IPv4 header of [create_vxlan_packet]: the new length, the old checksum. *)
Definition ip4v (n : nat) : list N :=
  ip4b (N.lor 64 (ip_ihl i)) (ip_tos i) (N.of_nat (20 + n + 16)) (ip_id i) (ip_frag i) (ip_ttl i) 17
    (csum (ip4h i 17 a b (20 + n))) a b.

Lemma vxlan_run dst src vni q v : to_vec q h = (Ret v, h) ->
  create_vxlan_packet m e i dst src vni q h =
  made h (es ++ [(IPv4, ip4v (length v)); (UDP, udp_bytes src dst (16 + length v) 0);
                 (Vxlan, vxlan_bytes vni)]) v.
Proof.
  intros Hq. unfold create_vxlan_packet. rewrite (bind_ret _ _ _ _ _ Hq).
  rewrite (bind_ret _ _ _ _ _ (ipv4_packet_run m e i (IpProtocol_code P_UDP) v d s a b h He Hi eq_refl)).
  fold es. destruct (bump_ip4 m h es i 17 a b v (20 + length v) 16 Hi eq_refl U4) as (x & _ & _ & R & ->).
  change (IpProtocol_code P_UDP) with 17.
  change (ht_size UDP + ht_size Vxlan)%nat with 16%nat.
  rewrite (bind_ret _ _ _ _ _ R). fold (ip4v (length v)).
  rewrite (mpkt_bytes h es IPv4 _ (ip4v (length v)) v).
  rewrite (push_new_k h _ v _ (builds_udp src dst (16 + length v))).
  rewrite (push_new h _ v (builds_hfrom Vxlan (vxlan_bytes vni))). rewrite <- !app_assoc. reflexivity.
Qed.

(** GRE *)
Definition gre_bytes (c r k q t : bool) (flags ver proto : N) : list N :=
  [N.lor (N.lor (N.lor (N.lor (shl8 (b2n c) 7) (shl8 (b2n r) 6)) (shl8 (b2n k) 5))
                        (shl8 (b2n q) 4)) (shl8 (b2n t) 3)]
  ++ [N.lor (shl8 flags 3) ver] ++ to_be 2 proto.
Definition gre_opts (g : gre_args) : list seg :=
  (if gre_chksum_present g then [(GREChksumOffset, to_be 2 (gre_chksum g) ++ to_be 2 (gre_offset g))] else [])
  ++ (if gre_key_present g then [(GREKey, to_be 4 (gre_keyval g))] else [])
  ++ (if gre_seqnum_present g then [(GRESequenceNum, to_be 4 (gre_seqnum g))] else []).
(** What the routing flag adds to the total length; no such bytes are in the packet. *)
Definition gre_extra (g : gre_args) : nat := if gre_routing_present g then length (gre_routing g) else 0.

Definition gre_body (g : gre_args) (proto : N) (v : list N) : M packet :=
  let pktlen := ht_size GRE in
  let pktlen := if gre_chksum_present g then (pktlen + ht_size GREChksumOffset)%nat else pktlen in
  let pktlen := if gre_key_present g then (pktlen + ht_size GREKey)%nat else pktlen in
  let pktlen := if gre_seqnum_present g then (pktlen + ht_size GRESequenceNum)%nat else pktlen in
  let pktlen := if gre_routing_present g then (pktlen + length (gre_routing g))%nat else pktlen in
  mlet pkt := create_ipv4_packet m e i (IpProtocol_code P_GRE) v in
  mlet ip := bump_total_len m pkt pktlen in
  mlet _ := refresh_checksum m ip in
  mlet x := gre (gre_chksum_present g) (gre_routing_present g) (gre_key_present g)
                (gre_seqnum_present g) (gre_strict_route_src g) (gre_flags g) (gre_version g) proto in
  mlet pkt := push pkt x in
  mlet pkt := (if gre_chksum_present g then
                 mlet o := gre_chksum_offset (gre_chksum g) (gre_offset g) in push pkt o
               else ret pkt) in
  mlet pkt := (if gre_key_present g then
                 mlet o := gre_key (gre_keyval g) in push pkt o
               else ret pkt) in
  (if gre_seqnum_present g then
     mlet o := gre_sequence_number (gre_seqnum g) in push pkt o
   else ret pkt).

Lemma push_opt (c : bool) l v b' T x : builds b' T x ->
  (if c then mlet o := b' in push (mpkt h l v) o else ret (mpkt h l v)) (mheap h l) =
  made h (l ++ if c then [(T, x)] else []) v.
Proof.
  intros B. destruct c; [apply push_new; auto|]. rewrite app_nil_r. reflexivity.
Qed.

Lemma gre_body_run g proto v :
  gre_body g proto v h =
  made h (es ++ [(IPv4, ip4h i 47 a b (20 + length v + (4 + length (seg_bytes (gre_opts g)) + gre_extra g)));
                 (GRE, gre_bytes (gre_chksum_present g) (gre_routing_present g) (gre_key_present g)
                         (gre_seqnum_present g) (gre_strict_route_src g) (gre_flags g) (gre_version g) proto)]
            ++ gre_opts g) v.
Proof.
  unfold gre_body. cbv zeta.
  set (n := (if gre_routing_present g then _ else _)).
  assert (N1 : n = (4 + length (seg_bytes (gre_opts g)) + gre_extra g)%nat).
  { unfold n, gre_opts, gre_extra, seg_bytes.
    destruct (gre_chksum_present g), (gre_key_present g), (gre_seqnum_present g), (gre_routing_present g); 
      cbn [app map snd concat]; rewrite ?app_length, ?to_be_length; cbn [length]; 
      change (ht_size GRE) with 4%nat; change (ht_size GREChksumOffset) with 4%nat;
      change (ht_size GREKey) with 4%nat; change (ht_size GRESequenceNum) with 4%nat; lia. }
  clearbody n. subst n. set (n := (4 + _ + _)%nat). clearbody n.
  start.
  set (hd := gre_bytes _ _ _ _ _ _ _ _).
  rewrite (push_new_k h _ v _ (builds_hfrom GRE hd)).
  rewrite (bind_ret _ _ _ _ _ (push_opt _ _ v _ _ _ (builds_hfrom GREChksumOffset (to_be 2 (gre_chksum g) ++ to_be 2 (gre_offset g))))).
  rewrite (bind_ret _ _ _ _ _ (push_opt _ _ v _ _ _ (builds_hfrom GREKey (to_be 4 (gre_keyval g))))).
  rewrite (push_opt _ _ v _ _ _ (builds_hfrom GRESequenceNum (to_be 4 (gre_seqnum g)))).
  unfold gre_opts. rewrite <- !app_assoc. reflexivity.
Qed.

Lemma gre_run g q b0 v : to_vec q h = (Ret (b0 :: v), h) ->
  create_gre_packet m e i g (Some q) h = gre_body g (gre_inner_proto b0) (b0 :: v) h.
Proof.
  intros Hq. unfold create_gre_packet. rewrite bind_assoc, (bind_ret _ _ _ _ _ Hq). reflexivity.
Qed.
Lemma gre_run_none g : create_gre_packet m e i g None h = gre_body g 0 [] h.
Proof. reflexivity. Qed.

(** ERSPAN *)
Definition er_gre (flag : bool) (proto : N) : list N := [if flag then 16 else 0; 0] ++ to_be 2 proto.
Definition er2_bytes (x : erspan_args) (idx : N) : list N :=
  to_be 2 (N.lor (shl16 1 12) (er_vlan x)) ++
  to_be 2 (erspan_b2 (er_cos x) (er_en x) (er_t x) (er_session_id x)) ++ to_be 4 idx.
Definition er3_bytes (x : erspan_args) (ts sgt other : N) : list N :=
  to_be 2 (N.lor (shl16 2 12) (er_vlan x)) ++
  to_be 2 (erspan_b2 (er_cos x) (er_en x) (er_t x) (er_session_id x)) ++
  to_be 4 ts ++ to_be 2 sgt ++ to_be 2 other.
Definition er_seq (n : N) : list seg := if negb (n =? 0) then [(GRESequenceNum, to_be 4 n)] else [].
Definition er_plat (other pid info : N) : list seg :=
  if N.land other 1 =? 1 then [(ERSPANPLATFORM, to_be 8 (N.lor (shl64 pid 58) info))] else [].

(** A header built by [hnew GRE] and setters, then pushed. *)
Lemma er2_gre_push {A} (c : bool) l v (k : packet -> M A) :
  (mlet g := hnew GRE in
   mlet _ := hset g GRE_proto (EtherType_code E_ERSPANII) in
   mlet _ := (if c then hset g GRE_seqnum_present 1 else ret tt) in
   mlet pkt := push (mpkt h l v) g in k pkt) (mheap h l) =
  k (mpkt h (l ++ [(GRE, er_gre c 0x88be)]) v) (mheap h (l ++ [(GRE, er_gre c 0x88be)])).
Proof.
  rewrite (bind_ret _ _ _ _ _ (builds_hnew GRE (mheap h l))).
  assert (O : bytes_ok (ht_default GRE)) by (apply bytes_okb_ok; reflexivity).
  rewrite (bind_ret _ _ _ _ _ (hset_last GRE (mheap h l) (ht_default GRE) GRE_proto _ O ltac:(split; vm_compute; lia))).
  change (fset (ht_default GRE) GRE_proto (EtherType_code E_ERSPANII)) with [0; 0; 0x88; 0xbe].
  assert (O2 : bytes_ok [0; 0; 0x88; 0xbe]) by (apply bytes_okb_ok; reflexivity).
  rewrite (bind_ret _ _ _ tt (mheap h l ++ [Cell (er_gre c 0x88be) false])).
  - rewrite (bind_ret _ _ _ _ _ (push_last h l v GRE _)). reflexivity.
  - destruct c; [|reflexivity].
    rewrite (hset_last GRE (mheap h l) _ GRE_seqnum_present _ O2 ltac:(split; vm_compute; lia)). reflexivity.
Qed.

Lemma fset_seqnum n : fset [0; 0; 0x22; 0xeb] GRE_seqnum_present n = er_gre (N.odd n) 0x22eb.
Proof.
  rewrite <- N.bit0_odd. unfold fset. change (f_width GRE_seqnum_present) with 1%nat.
  cbn [wbits]. destruct (N.testbit n 0); reflexivity.
Qed.

Lemma er3_gre_push {A} n l v (k : packet -> M A) :
  (mlet g := hnew GRE in
   mlet _ := hset g GRE_proto (EtherType_code E_ERSPANIII) in
   mlet _ := hset g GRE_seqnum_present n in
   mlet pkt := push (mpkt h l v) g in k pkt) (mheap h l) =
  k (mpkt h (l ++ [(GRE, er_gre (N.odd n) 0x22eb)]) v) (mheap h (l ++ [(GRE, er_gre (N.odd n) 0x22eb)])).
Proof.
  rewrite (bind_ret _ _ _ _ _ (builds_hnew GRE (mheap h l))).
  assert (O : bytes_ok (ht_default GRE)) by (apply bytes_okb_ok; reflexivity).
  rewrite (bind_ret _ _ _ _ _ (hset_last GRE (mheap h l) (ht_default GRE) GRE_proto _ O ltac:(split; vm_compute; lia))).
  change (fset (ht_default GRE) GRE_proto (EtherType_code E_ERSPANIII)) with [0; 0; 0x22; 0xeb].
  assert (O2 : bytes_ok [0; 0; 0x22; 0xeb]) by (apply bytes_okb_ok; reflexivity).
  rewrite (bind_ret _ _ _ _ _ (hset_last GRE (mheap h l) _ GRE_seqnum_present n O2 ltac:(split; vm_compute; lia))).
  rewrite fset_seqnum.
  rewrite (bind_ret _ _ _ _ _ (push_last h l v GRE _)). reflexivity.
Qed.

Lemma erspan2_run seq x idx q v : opt_to_vec q h = (Ret v, h) ->
  create_erspan_2_packet m e i seq x idx q h =
  made h (es ++ [(IPv4, ip4h i 47 a b (20 + length v + (12 + length (seg_bytes (er_seq seq)) + opt_len q)));
                 (GRE, er_gre (negb (seq =? 0)) 0x88be)] ++ er_seq seq ++ [(ERSPAN2, er2_bytes x idx)]) v.
Proof.
  intros Hq. unfold create_erspan_2_packet. rewrite (bind_ret _ _ _ _ _ Hq). cbv zeta.
  set (n := ((if negb (seq =? 0)%N then _ else _) + _)%nat).
  assert (N1 : n = (12 + length (seg_bytes (er_seq seq)) + opt_len q)%nat).
  { unfold n, er_seq, seg_bytes.
    destruct (negb (seq =? 0)); cbn [app map snd concat]; rewrite ?app_length, ?to_be_length; cbn [length];
      change (ht_size GRE) with 4%nat; change (ht_size ERSPAN2) with 8%nat;
      change (ht_size GRESequenceNum) with 4%nat; lia. }
  clearbody n. subst n. set (n := (12 + _ + _)%nat). clearbody n.
  start. rewrite er2_gre_push.
  rewrite (bind_ret _ _ _ _ _ (push_opt _ _ v _ _ _ (builds_hfrom GRESequenceNum (to_be 4 seq)))).
  rewrite (push_new h _ v (builds_hfrom ERSPAN2 (er2_bytes x idx))).
  unfold er_seq. rewrite <- !app_assoc. reflexivity.
Qed.

Lemma clone_hdrs_same l h0 : clone_hdrs l h0 = (Ret l, h0).
Proof.
  revert h0; induction l as [|[T r] l IH]; intros h0; [reflexivity|]. cbn [clone_hdrs].
  rewrite (bind_ret _ _ _ (Hdr T r) h0) by reflexivity. rewrite (bind_ret _ _ _ _ _ (IH h0)). reflexivity.
Qed.
Lemma pkt_add_same p q h0 : pkt_add p q h0 = (Ret (Pkt (p_hdrs p ++ p_hdrs q) (p_payload p)), h0).
Proof. unfold pkt_add. rewrite (bind_ret _ _ _ _ _ (clone_hdrs_same _ h0)). reflexivity. Qed.

Definition opt_hdrs (q : option packet) : list hdr := match q with Some p => p_hdrs p | None => [] end.

Definition er3_len (seq other : N) (pid info : N) : nat :=
  (16 + length (seg_bytes (er_seq seq)) + length (seg_bytes (er_plat other pid info)))%nat.
Definition er3_segs (seq : N) (x : erspan_args) (ts sgt other pid info : N) (len : nat) : list seg :=
  es ++ [(IPv4, ip4h i 47 a b len); (GRE, er_gre (N.odd seq) 0x22eb)] ++ er_seq seq
     ++ [(ERSPAN3, er3_bytes x ts sgt other)] ++ er_plat other pid info.

Lemma erspan3_run seq x ts sgt other pid info q v : opt_to_vec q h = (Ret v, h) ->
  create_erspan_3_packet m e i seq x ts sgt other pid info q h =
  let l := er3_segs seq x ts sgt other pid info (20 + length v + (er3_len seq other pid info + opt_len q)) in
  (Ret (Pkt (hdrs_at (length h) l ++ opt_hdrs q) v), mheap h l).
Proof.
  intros Hq. unfold create_erspan_3_packet. rewrite (bind_ret _ _ _ _ _ Hq). cbv zeta.
  set (n := ((if (N.land other 1 =? 1)%N then _ else _) + _)%nat).
  assert (N1 : n = (er3_len seq other pid info + opt_len q)%nat).
  { unfold n, er3_len, er_seq, er_plat, seg_bytes.
    destruct (negb (seq =? 0)), (N.land other 1 =? 1); cbn [app map snd concat];
      rewrite ?app_length, ?to_be_length; cbn [length];
      change (ht_size GRE) with 4%nat; change (ht_size ERSPAN3) with 12%nat;
      change (ht_size ERSPANPLATFORM) with 8%nat; change (ht_size GRESequenceNum) with 4%nat; lia. }
  clearbody n. subst n. set (n := (er3_len _ _ _ _ + _)%nat). clearbody n.
  start. rewrite er3_gre_push.
  rewrite (bind_ret _ _ _ _ _ (push_opt _ _ v _ _ _ (builds_hfrom GRESequenceNum (to_be 4 seq)))).
  rewrite (push_new_k h _ v _ (builds_hfrom ERSPAN3 (er3_bytes x ts sgt other))).
  rewrite (bind_ret _ _ _ _ _ (push_opt _ _ v _ _ _ (builds_hfrom ERSPANPLATFORM (to_be 8 (N.lor (shl64 pid 58) info))))).
  match goal with |- context [mheap h ?l] => replace l with 
    (er3_segs seq x ts sgt other pid info (20 + length v + n)) end.
  2:{ unfold er3_segs, er_seq, er_plat. rewrite <- !app_assoc. reflexivity. }
  destruct q as [p|]; [apply pkt_add_same|]. cbn [opt_hdrs]. rewrite app_nil_r. reflexivity.
Qed.
End V4.

Section V6.
Variables (ip6 : string -> option (list N)) (i : ip6_args) (a b : list N).
Hypothesis Hi : ip6_in i ip6 a b.
Let es := eth_segs e d s 0x86DD.

Lemma U6 : unnamed "IPv6" es.
Proof. apply eth_unnamed; auto. Qed.

Lemma ip6_start {A} nh p extra (k : packet -> M A) : nh < 256 ->
  (mlet pkt := create_ipv6_packet ip6 e i nh p in
   mlet _ := bump_payload_len m pkt extra in k pkt) h =
  k (mpkt h (es ++ [(IPv6, ip6h i nh a b (length p + extra))]) p)
    (mheap h (es ++ [(IPv6, ip6h i nh a b (length p + extra))])).
Proof.
  intros Hp.
  rewrite (bind_ret _ _ _ _ _ (ipv6_packet_run ip6 e i nh p d s a b h He Hi Hp)).
  apply (rebuild_ip6 m h es i ip6 nh a b p (length p) extra k Hi Hp U6).
Qed.

Ltac start := match goal with
  |- (mlet pkt := create_ipv6_packet _ _ _ ?p ?v in mlet _ := bump_payload_len _ pkt ?n in @?K pkt) h = _ =>
    rewrite (ip6_start p v n K) by reflexivity; cbv beta end.

Lemma tcpv6_run t : create_tcpv6_packet m ip6 e i t pl h =
  made h (es ++ [(IPv6, ip6h i 6 a b (length pl + 20)); (TCP, tcp_bytes t)]) pl.
Proof.
  unfold create_tcpv6_packet. start.
  rewrite (push_new h _ pl (builds_hfrom TCP (tcp_bytes t))). rewrite <- app_assoc. reflexivity.
Qed.

Lemma udpv6_run dst src : create_udpv6_packet m ip6 e i dst src pl h =
  made h (es ++ [(IPv6, ip6h i 17 a b (length pl + 8)); (UDP, udp_bytes src dst (8 + length pl) 0xffff)]) pl.
Proof.
  unfold create_udpv6_packet. start. cbv zeta.
  match goal with |- ?x ?h0 = _ => transitivity (bind x ret h0); [symmetry; apply bind_ret_r|] end.
  rewrite bind_assoc. etransitivity; [apply bind_ext; intros; apply bind_assoc|].
  etransitivity; [exact (udp6_push h _ pl src dst (8 + length pl) ret)|]. rewrite <- app_assoc. reflexivity.
Qed.

Lemma icmpv6_run ty code : create_icmpv6_packet m ip6 e i ty code pl h =
  made h (es ++ [(IPv6, ip6h i 58 a b (length pl + 4)); (ICMP, icmp_bytes ty code)]) pl.
Proof.
  unfold create_icmpv6_packet. start.
  rewrite (push_new h _ pl (builds_hfrom ICMP (icmp_bytes ty code))). rewrite <- app_assoc. reflexivity.
Qed.

Lemma ipv6ip_run q b0 v : to_vec q h = (Ret (b0 :: v), h) ->
  create_ipv6ip_packet ip6 e i q h =
  made h (es ++ [(IPv6, ip6h i (IpProtocol_code (inner_proto b0)) a b (length (b0 :: v)))]) (b0 :: v).
Proof.
  intros Hq. unfold create_ipv6ip_packet. rewrite (bind_ret _ _ _ _ _ Hq).
  rewrite (bind_ret _ _ _ b0 h) by reflexivity.
  apply (ipv6_packet_run ip6 e i _ (b0 :: v) d s a b h He Hi). destruct (inner_proto b0); reflexivity.
Qed.

Definition vx6_segs (src dst vni : N) (n : nat) : list seg :=
  es ++ [(IPv6, ip6h i 17 a b (n + 16)); (UDP, udp_bytes src dst (16 + n) 0xffff); (Vxlan, vxlan_bytes vni)].

Lemma vxlanv6_run dst src vni q v : to_vec q h = (Ret v, h) ->
  create_vxlanv6_packet m ip6 e i dst src vni q h =
  (Ret (Pkt (hdrs_at (length h) (vx6_segs src dst vni (length v)) ++ p_hdrs q) v),
   mheap h (vx6_segs src dst vni (length v))).
Proof.
  intros Hq. unfold create_vxlanv6_packet. rewrite (bind_ret _ _ _ _ _ Hq). start. cbv zeta.
  change (ht_size UDP + ht_size Vxlan)%nat with 16%nat.
  rewrite udp6_push.
  rewrite (push_new_k h _ v _ (builds_hfrom Vxlan (vxlan_bytes vni))).
  rewrite <- !app_assoc. fold (vx6_segs src dst vni (length v)). apply pkt_add_same.
Qed.
End V6.
End Runs.
