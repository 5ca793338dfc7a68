(** WrapProofs.v -- lemmas for C98: reading a tunnel request back from the bytes. *)

From Coq Require Import Lia.
From Verif Require Import Base Bits Types Layout Heap Packet Text Build Utils Slow Fast Client Spec Grammar
  BitsProofs HeapProofs TextProofs PacketProofs ChecksumProofs BuildProofs GrammarProofs PropChecksum PropBuild PropParse
  UtilsSpec UtilsProofs PropUtils PropTunnel DetectSpec DetectProofs AskSpec AskProofs WrapSpec.
Open Scope N_scope.

(** ** Shape of the bytes *)

(** An IPv4 or IPv6 packet with this protocol and the bytes [r] behind its header. *)
Definition form4 (q : eth_ask) (v : ip4_ask) (p : N) (r b : list N) : Prop :=
  exists e i x n c, eth_asks e q /\ ip4_asks i v /\ b = eth_of q 0x800 ++ x ++ r /\
    diagram x (ip4_fields i p (v4_src v) (v4_dst v) n c).
Definition form6 ip6 (q : eth_ask) (v : ip6_ask) (p : N) (n : nat) (r b : list N) : Prop :=
  exists e i x, eth_asks e q /\ ip6_asks ip6 i v /\ b = eth_of q 0x86DD ++ x ++ r /\
    diagram x (ip6_fields i p (v6_src v) (v6_dst v) n).

Lemma ip4_asks_in i v : ip4_asks i v -> ip4_in i (v4_src v) (v4_dst v).
Proof. intros (A & B & _ & _ & _ & _ & _ & H1 & H2 & H3 & H4 & H5). repeat split; auto; lia || apply A || apply B. Qed.
Lemma ip6_asks_in ip6 i v : octets16 ip6 -> ip6_asks ip6 i v -> ip6_in i ip6 (v6_src v) (v6_dst v).
Proof.
  intros H6 (A & B & _ & _ & _ & H1 & H2 & H3). unfold ip6_in.
  assert (ip6_flow_label i < 2 ^ 32) by (apply (N.lt_trans _ (2 ^ 20)); auto; reflexivity). auto 10.
Qed.

Lemma form4_read q v p r q' v' p' r' b : form4 q v p r b -> form4 q' v' p' r' b -> q = q' /\ v = v' /\ p = p' /\ r = r'.
Proof.
  intros (e & i & x & n & c & He & Hi & -> & D) (e' & i' & x' & n' & c' & He' & Hi' & E & D').
  destruct (eth_of_read _ _ _ _ _ _ _ _ He He' E ltac:(reflexivity) ltac:(reflexivity) ltac:(discriminate) ltac:(discriminate))
    as (<- & _ & F). clear E.
  destruct Hi as (Ha & Hb & E1 & E2 & E3 & E4 & E5 & L & _), Hi' as (Ha' & Hb' & E1' & E2' & E3' & E4' & E5' & L' & _).
  unfold ip4_fields in D, D'.
  destruct (in_range_ihl _ L) as (R1 & R2). rewrite R1, R2 in D.
  destruct (in_range_ihl _ L') as (R1' & R2'). rewrite R1', R2' in D'.
  destruct (read_same _ _ _ _ _ _ (ht_fields IPv4) D D' eq_refl eq_refl eq_refl F) as [M ->].
  cbn [map snd] in M. injection M as M1 M2 _ M3 F1 F2 M4 -> _ A B.
  pose proof (frag_same _ _ F1 F2) as Fr. pose proof (ip4_same _ _ _ _ Ha Ha' A). pose proof (ip4_same _ _ _ _ Hb Hb' B).
  split; auto. split; [|auto]. destruct v, v'. cbn in *. congruence.
Qed.
Lemma form6_read ip6 q v p n r q' v' p' n' r' b : octets16 ip6 -> form6 ip6 q v p n r b -> form6 ip6 q' v' p' n' r' b ->
  q = q' /\ v = v' /\ p = p' /\ N.of_nat n mod 65536 = N.of_nat n' mod 65536 /\ r = r'.
Proof.
  intros H6 (e & i & x & He & Hi & -> & D) (e' & i' & x' & He' & Hi' & E & D').
  destruct (eth_of_read _ _ _ _ _ _ _ _ He He' E ltac:(reflexivity) ltac:(reflexivity) ltac:(discriminate) ltac:(discriminate))
    as (<- & _ & F). clear E.
  destruct Hi as (Ha & Hb & E1 & E2 & E3 & _ & L & _), Hi' as (Ha' & Hb' & E1' & E2' & E3' & _ & L' & _).
  unfold ip6_fields in D, D'.
  destruct (in_range_flow (ip6_traffic_class i) _ L) as (R1 & R2 & R3). rewrite R1, R2, R3 in D.
  destruct (in_range_flow (ip6_traffic_class i') _ L') as (R1' & R2' & R3'). rewrite R1', R2', R3' in D'.
  destruct (read_same _ _ _ _ _ _ (ht_fields IPv6) D D' eq_refl eq_refl eq_refl F) as [M ->].
  cbn [map snd] in M. injection M as M1 M2 Mn -> M3 A B.
  pose proof (ip6_same _ _ _ _ _ H6 Ha Ha' A). pose proof (ip6_same _ _ _ _ _ H6 Hb Hb' B).
  split; auto. split; [|auto]. destruct v, v'. cbn in *. congruence.
Qed.
Lemma form46 ip6 q v p r q' v' p' n' r' b : form4 q v p r b -> form6 ip6 q' v' p' n' r' b -> False.
Proof.
  intros (e & i & x & n & c & He & Hi & -> & D) (e' & i' & x' & He' & Hi' & E & D').
  destruct (eth_of_read _ _ _ _ _ _ _ _ He He' E ltac:(reflexivity) ltac:(reflexivity) ltac:(discriminate) ltac:(discriminate))
    as (_ & T & _). discriminate T.
Qed.

(** The protocol number and the bytes behind the IPv4 header. *)
Definition opt_word (o : option N) : list N := match o with Some k => to_be 4 k | None => [] end.
Definition opt_pair (o : option (N * N)) : list N := match o with Some (c, o) => to_be 2 c ++ to_be 2 o | None => [] end.
Definition rest4 (x : inside) : N * list N :=
  match x with
  | I_ip w => (ip_proto_of (nth 0 w 0), w)
  | I_vxlan dst src vni w => (17, udp_bytes src dst (16 + length w) 0 ++ vxlan_bytes vni ++ w)
  | I_gre c r k q s flags ver chk key seq w =>
      (47, gre_bytes c r k q s flags ver (match w with [] => 0 | b0 :: _ => gre_proto_of b0 end) ++
           opt_pair chk ++ opt_word key ++ opt_word seq ++ w)
  | I_erspan seq er idx w =>
      (47, er_gre (negb (seq =? 0)) 0x88be ++ opt_word (if negb (seq =? 0) then Some seq else None) ++ er2_bytes er idx ++ w)
  end.

Lemma sends_wrap m ip6 c h l pl v : sends m ip6 c h v -> pmake_run m ip6 c h = made h l pl -> v = seg_bytes l ++ pl.
Proof.
  intros (p & g & R & V) E. rewrite R in E. unfold made in E. injection E as -> ->. rewrite made_vec in V. congruence.
Qed.

Definition form ip6 (t : tunnel) (b : list N) : Prop :=
  match t with
  | T_4 q v x => form4 q v (fst (rest4 x)) (snd (rest4 x)) b
  | T_6 q v (I_ip w) => form6 ip6 q v (ip_proto_of (nth 0 w 0)) (length w) w b
  | T_6 q v (I_vxlan dst src vni w) => N.of_nat (16 + length w) < 65536 /\ exists hs,
      form6 ip6 q v 17 (length w + 16) (udp_bytes src dst (16 + length w) 0xffff ++ vxlan_bytes vni ++ hs ++ w) b
  | _ => False
  end.

Lemma opt_vec h o w : inner_bytes h o w -> opt_to_vec o h = (Ret w, h).
Proof. destruct o; cbn [inner_bytes opt_to_vec]; [auto|intros ->; reflexivity]. Qed.

Lemma wraps_form m ip6 h c t b : octets16 ip6 -> wraps ip6 h c t -> sends m ip6 c h b -> form ip6 t b.
Proof.
  intros H6 W S. destruct W as [e q i v p w He Hi Hp Hw Ow|e q i v p w He Hi Hp Hw Ow|e q i v dst src vni p w He Hi Hd Hs Hv Hp
    |e q i v dst src vni p w He Hi Hd Hs Hv Hp Hn|e q i v g o w He Hi G1 G2 G3 G4 G5 G6 Ho Ow Hw|e q i v seq er idx o w He Hi Hs Her Hx Ho];
    pose proof (eth_asks_in _ _ He) as Je.
  - pose proof (ip4_asks_in _ _ Hi) as Ji. destruct w as [|b0 w]; [contradiction|].
    rewrite (sends_wrap _ _ _ _ _ _ _ S (ipv4ip_run m e _ _ h Je i _ _ Ji p b0 w Hp)).
    rewrite inner_proto_of by (inversion Ow; auto).
    destruct (ip4h_header i (ip_proto_of b0) _ _ (20 + length (b0 :: w)) Ji (ip_proto_byte b0)) as (c & D & _).
    exists e, i, (ip4h i (ip_proto_of b0) (v4_src v) (v4_dst v) (20 + length (b0 :: w))). do 2 eexists. split; [exact He|]. split; [exact Hi|]. split.
    + flat. rewrite (eth_asks_bytes _ _ _ He). reflexivity.
    + apply D.
  - pose proof (ip6_asks_in _ _ _ H6 Hi) as Ji. destruct w as [|b0 w]; [contradiction|].
    rewrite (sends_wrap _ _ _ _ _ _ _ S (ipv6ip_run e _ _ h Je ip6 i _ _ Ji p b0 w Hp)).
    rewrite inner_proto_of by (inversion Ow; auto).
    exists e, i, (ip6h i (ip_proto_of b0) (v6_src v) (v6_dst v) (length (b0 :: w))). split; [exact He|]. split; [exact Hi|]. split.
    + flat. rewrite (eth_asks_bytes _ _ _ He). reflexivity.
    + eapply ip6h_diagram; eauto. apply ip_proto_byte.
  - pose proof (ip4_asks_in _ _ Hi) as Ji.
    rewrite (sends_wrap _ _ _ _ _ _ _ S (vxlan_run m e _ _ h Je i _ _ Ji dst src vni p w Hp)).
    exists e, i, (ip4v i (v4_src v) (v4_dst v) (length w)). do 2 eexists. split; [exact He|]. split; [exact Hi|]. split; [|apply ip4v_diagram; auto].
    flat. rewrite (eth_asks_bytes _ _ _ He). reflexivity.
  - pose proof (ip6_asks_in _ _ _ H6 Hi) as Ji. split; [exact Hn|].
    destruct (to_vec_inv p h w h Hp) as (_ & ds & Hold & Ew).
    assert (Hh : exists isegs, holds h (p_hdrs p) isegs /\ map snd isegs = ds).
    { clear - Hold. induction Hold as [|x d hs l C F IH]; [exists []; split; constructor|].
      destruct IH as (is & A & B). exists ((h_ty x, d) :: is). split; [constructor; auto; split; auto|]. cbn. congruence. }
    destruct Hh as (isegs & Hh & Eds).
    destruct S as (pk & g & R & V). cbn [pmake_run] in R.
    rewrite (vxlanv6_run m e _ _ h Je ip6 i _ _ Ji dst src vni p w Hp) in R. injection R as <- <-.
    rewrite (holds_vec _ (Pkt (_ ++ _) w) _ (holds_app _ _ _ _ _ (holds_made h _) (holds_grow h _ _ _ Hh))) in V.
    injection V as <-. exists (seg_bytes isegs).
    exists e, i, (ip6h i 17 (v6_src v) (v6_dst v) (length w + 16)). split; [exact He|]. split; [exact Hi|]. split.
    + unfold vx6_segs. cbn [p_payload]. flat. rewrite (eth_asks_bytes _ _ _ He). reflexivity.
    + eapply ip6h_diagram; eauto. reflexivity.
  - pose proof (ip4_asks_in _ _ Hi) as Ji.
    assert (R : pmake_run m ip6 (P_gre_pkt e i g o) h =
      gre_body m e i g (match w with [] => 0 | b0 :: _ => gre_proto_of b0 end) w h).
    { cbn [pmake_run]. destruct o as [p|]; cbn [inner_bytes] in Ho.
      - destruct w as [|b0 w]; [exfalso; apply Hw; [discriminate|reflexivity]|].
        rewrite (gre_run m e h i g p b0 w Ho), gre_proto_of_ok by (inversion Ow; auto). reflexivity.
      - subst w. apply gre_run_none. }
    rewrite (gre_body_run m e _ _ h Je i _ _ Ji) in R. rewrite (sends_wrap _ _ _ _ _ _ _ S R).
    destruct (ip4h_header i 47 _ _ (20 + length w + (4 + length (seg_bytes (gre_opts g)) + gre_extra g)) Ji eq_refl)
      as (c & D & _).
    exists e, i, (ip4h i 47 (v4_src v) (v4_dst v) (20 + length w + (4 + length (seg_bytes (gre_opts g)) + gre_extra g))).
    do 2 eexists. split; [exact He|]. split; [exact Hi|]. split; [|exact D].
    unfold gre_opts. flat. rewrite (eth_asks_bytes _ _ _ He). cbn [rest4 snd]. do 3 f_equal.
    destruct (gre_chksum_present g), (gre_key_present g), (gre_seqnum_present g); flat; reflexivity.
  - pose proof (ip4_asks_in _ _ Hi) as Ji.
    rewrite (sends_wrap _ _ _ _ _ _ _ S (erspan2_run m e _ _ h Je i _ _ Ji seq er idx o w (opt_vec _ _ _ Ho))).
    destruct (ip4h_header i 47 _ _ (20 + length w + (12 + length (seg_bytes (er_seq seq)) + opt_len o)) Ji eq_refl)
      as (c & D & _).
    exists e, i, (ip4h i 47 (v4_src v) (v4_dst v) (20 + length w + (12 + length (seg_bytes (er_seq seq)) + opt_len o))).
    do 2 eexists. split; [exact He|]. split; [exact Hi|]. split; [|exact D].
    unfold er_seq. flat. rewrite (eth_asks_bytes _ _ _ He). cbn [rest4 snd]. do 3 f_equal.
    destruct (seq =? 0); flat; reflexivity.
Qed.

(** ** Reading what is inside *)

Definition inside_ok (x : inside) : Prop :=
  match x with
  | I_ip w => True
  | I_vxlan dst src vni w => dst < 65536 /\ src < 65536 /\ vni < 2 ^ 24
  | I_gre c r k q s flags ver chk key seq w =>
      flags < 32 /\ ver < 8 /\
      (if c then exists a b, chk = Some (a, b) /\ a < 65536 /\ b < 65536 else chk = None) /\
      (if k then exists a, key = Some a /\ a < 2 ^ 32 else key = None) /\
      (if q then exists a, seq = Some a /\ a < 2 ^ 32 else seq = None) /\ bytes_ok w
  | I_erspan seq er idx w => seq < 2 ^ 32 /\ er_in er /\ idx < 2 ^ 20
  end.
Definition what (t : tunnel) : inside := match t with T_4 _ _ x => x | T_6 _ _ x => x end.
Lemma wraps_ok ip6 h c t : wraps ip6 h c t -> inside_ok (what t).
Proof.
  intros W. destruct W as [| | | |e q i v g o w He Hi G1 G2 G3 G4 G5 G6 Ho Ow Hw|]; cbn [what inside_ok]; auto.
  split; [auto|]. split; [auto|]. split; [destruct (gre_chksum_present g); eauto|].
  split; [destruct (gre_key_present g); eauto|]. split; [destruct (gre_seqnum_present g); eauto|auto].
Qed.

Lemma to_be_read n u v r r' : u < 2 ^ N.of_nat (8 * n) -> v < 2 ^ N.of_nat (8 * n) ->
  to_be n u ++ r = to_be n v ++ r' -> u = v /\ r = r'.
Proof.
  intros U V E. apply app_inj_len in E as [E ->]; [|rewrite !to_be_length; reflexivity].
  apply (f_equal be) in E. rewrite !be_to_be, !N.mod_small in E by auto. auto.
Qed.
Lemma word_read (k : bool) o o' r r' :
  (if k then exists a, o = Some a /\ a < 2 ^ 32 else o = None) -> (if k then exists a, o' = Some a /\ a < 2 ^ 32 else o' = None) ->
  opt_word o ++ r = opt_word o' ++ r' -> o = o' /\ r = r'.
Proof.
  destruct k.
  - intros (a & -> & A) (a' & -> & A') E. apply to_be_read in E as [-> ->]; auto.
  - intros -> -> E. auto.
Qed.
Lemma pair_read (k : bool) o o' r r' :
  (if k then exists a b, o = Some (a, b) /\ a < 65536 /\ b < 65536 else o = None) ->
  (if k then exists a b, o' = Some (a, b) /\ a < 65536 /\ b < 65536 else o' = None) ->
  opt_pair o ++ r = opt_pair o' ++ r' -> o = o' /\ r = r'.
Proof.
  destruct k.
  - intros (a & b & -> & A & B) (a' & b' & -> & A' & B') E. cbn [opt_pair] in E. rewrite <- !app_assoc in E.
    apply to_be_read in E as [-> E]; auto. apply to_be_read in E as [-> ->]; auto.
  - intros -> -> E. auto.
Qed.

Lemma b2n_inj a b : b2n a = b2n b -> a = b.
Proof. destruct a, b; cbn; congruence. Qed.
Lemma gre_read c r k q s flags ver p c' r' k' q' s' flags' ver' p' x x' :
  gre_bytes c r k q s flags ver p ++ x = gre_bytes c' r' k' q' s' flags' ver' p' ++ x' ->
  flags < 32 -> ver < 8 -> p < 65536 -> flags' < 32 -> ver' < 8 -> p' < 65536 ->
  (c, r, k, q, s, flags, ver, p) = (c', r', k', q', s', flags', ver', p') /\ x = x'.
Proof.
  intros E F V P F' V' P'.
  assert (D : diagram (gre_bytes c r k q s flags ver p) (gre_fields (GreA c r k q s flags ver 0 0 0 0 []) p)).
  { apply (greb_diagram (GreA c r k q s flags ver 0 0 0 0 [])); auto. repeat split; cbn; lia. }
  assert (D' : diagram (gre_bytes c' r' k' q' s' flags' ver' p') (gre_fields (GreA c' r' k' q' s' flags' ver' 0 0 0 0 []) p')).
  { apply (greb_diagram (GreA c' r' k' q' s' flags' ver' 0 0 0 0 [])); auto. repeat split; cbn; lia. }
  unfold gre_fields in D, D'.
  cbn [gre_chksum_present gre_routing_present gre_key_present gre_seqnum_present gre_strict_route_src gre_flags gre_version] in D, D'.
  destruct (in_range_gre _ _ F V) as (R1 & R2). rewrite R1, R2 in D.
  destruct (in_range_gre _ _ F' V') as (R1' & R2'). rewrite R1', R2' in D'.
  destruct (read_same _ _ _ _ _ _ (ht_fields GRE) D D' eq_refl eq_refl eq_refl E) as [M ->].
  cbn [map snd] in M. injection M as M1 M2 M3 M4 M5 -> -> ->.
  apply b2n_inj in M1, M2, M3, M4, M5. subst. auto.
Qed.
Lemma er_gre_bytes fl p : er_gre fl p = gre_bytes false false false fl false 0 0 p.
Proof. destruct fl; reflexivity. Qed.
Lemma er2_read er idx er' idx' r r' : er_in er -> idx < 2 ^ 20 -> er_in er' -> idx' < 2 ^ 20 ->
  er2_bytes er idx ++ r = er2_bytes er' idx' ++ r' -> er = er' /\ idx = idx' /\ r = r'.
Proof.
  intros A B A' B' E.
  destruct (read_same _ _ _ _ _ _ (ht_fields ERSPAN2) (er2_diagram er idx A B) (er2_diagram er' idx' A' B')
    eq_refl eq_refl eq_refl E) as [M ->].
  cbn [map snd er2_fields] in M. injection M as M1 M2 M3 M4 M5 ->. destruct er, er'. cbn in *. subst. auto.
Qed.
Lemma vxlan_read vni vni' r r' : vni < 2 ^ 24 -> vni' < 2 ^ 24 -> vxlan_bytes vni ++ r = vxlan_bytes vni' ++ r' ->
  vni = vni' /\ r = r'.
Proof.
  intros A A' E. pose proof (vxlan_diagram vni) as D. pose proof (vxlan_diagram vni') as D'.
  unfold vxlan_fields in D, D'. rewrite (N.mod_small vni) in D by auto. rewrite (N.mod_small vni') in D' by auto.
  destruct (read_same _ _ _ _ _ _ (ht_fields Vxlan) D D' eq_refl eq_refl eq_refl E) as [M ->].
  cbn [map snd] in M. injection M as ->. auto.
Qed.
Lemma udp_read src dst n src' dst' n' c r r' : src < 65536 -> dst < 65536 -> src' < 65536 -> dst' < 65536 -> c < 65536 ->
  udp_bytes src dst n c ++ r = udp_bytes src' dst' n' c ++ r' -> src = src' /\ dst = dst' /\ r = r'.
Proof.
  intros A B A' B' C E.
  destruct (read_same _ _ _ _ _ _ (ht_fields UDP) (udp_diagram src dst n c A B C) (udp_diagram src' dst' n' c A' B' C)
    eq_refl eq_refl eq_refl E) as [M ->].
  cbn [map snd udp_fields] in M. injection M as -> -> _. auto.
Qed.
Lemma gre_proto_small w : match w with [] => 0 | b0 :: _ => gre_proto_of b0 end < 65536 /\
  match w with [] => 0 | b0 :: _ => gre_proto_of b0 end <> 0x88be.
Proof.
  destruct w as [|b0 w]; [split; [reflexivity|discriminate]|]. unfold gre_proto_of.
  destruct (_ =? 4); [split; [reflexivity|discriminate]|]. destruct (_ =? 6); split; reflexivity || discriminate.
Qed.
Lemma ip_proto_cases b0 : ip_proto_of b0 = 4 \/ ip_proto_of b0 = 41.
Proof. unfold ip_proto_of. destruct (_ =? _); auto. Qed.

Lemma rest4_read x x' : inside_ok x -> inside_ok x' -> fst (rest4 x) = fst (rest4 x') -> snd (rest4 x) = snd (rest4 x') -> x = x'.
Proof.
  intros K K' P E.
  destruct x as [w|dst src vni w|c r k q s flags ver chk key seq w|seq er idx w],
    x' as [w'|dst' src' vni' w'|c' r' k' q' s' flags' ver' chk' key' seq' w'|seq' er' idx' w'];
    cbn [rest4 fst snd inside_ok] in *; try discriminate P;
    try (destruct (ip_proto_cases (nth 0 w 0)) as [G|G]; rewrite G in P; discriminate P);
    try (destruct (ip_proto_cases (nth 0 w' 0)) as [G|G]; rewrite G in P; discriminate P).
  - congruence.
  - destruct K as (A & B & C), K' as (A' & B' & C').
    destruct (udp_read _ _ _ _ _ _ 0 _ _ B A B' A' eq_refl E) as (-> & -> & F).
    destruct (vxlan_read _ _ _ _ C C' F) as (-> & ->). reflexivity.
  - destruct K as (A & B & C & D & S & _), K' as (A' & B' & C' & D' & S' & _).
    destruct (gre_read _ _ _ _ _ _ _ _ _ _ _ _ _ _ _ _ _ _ E A B (proj1 (gre_proto_small w)) A' B' (proj1 (gre_proto_small w')))
      as (M & F). clear E. injection M as <- <- <- <- <- <- <- _.
    destruct (pair_read _ _ _ _ _ C C' F) as (-> & F1).
    destruct (word_read _ _ _ _ _ D D' F1) as (-> & F2).
    destruct (word_read _ _ _ _ _ S S' F2) as (-> & ->). reflexivity.
  - destruct K as (A & B & _). rewrite er_gre_bytes in E.
    destruct (gre_read _ _ _ _ _ _ _ _ _ _ _ _ _ _ _ _ _ _ E A B (proj1 (gre_proto_small w)) eq_refl eq_refl eq_refl) as (M & _).
    injection M as _ _ _ _ _ _ _ M. destruct (gre_proto_small w). contradiction.
  - destruct K' as (A & B & _). rewrite er_gre_bytes in E.
    destruct (gre_read _ _ _ _ _ _ _ _ _ _ _ _ _ _ _ _ _ _ E eq_refl eq_refl eq_refl A B (proj1 (gre_proto_small w'))) as (M & _).
    injection M as _ _ _ _ _ _ _ M. destruct (gre_proto_small w'). congruence.
  - destruct K as (A & B & C), K' as (A' & B' & C'). rewrite !er_gre_bytes in E.
    destruct (gre_read _ _ _ _ _ _ _ _ _ _ _ _ _ _ _ _ _ _ E eq_refl eq_refl eq_refl eq_refl eq_refl eq_refl) as (M & F).
    injection M as M.
    assert (G : seq = seq' /\ er2_bytes er idx ++ w = er2_bytes er' idx' ++ w').
    { destruct (N.eqb_spec seq 0) as [Z|Z], (N.eqb_spec seq' 0) as [Z'|Z']; try discriminate M; cbn [negb opt_word app] in F.
      - split; [congruence|exact F].
      - apply to_be_read in F as [-> F]; auto. }
    destruct G as [-> G]. destruct (er2_read _ _ _ _ _ _ B C B' C' G) as (-> & -> & ->). reflexivity.
Qed.

Lemma form_inj ip6 t t' b : octets16 ip6 -> inside_ok (what t) -> inside_ok (what t') -> form ip6 t b -> form ip6 t' b -> t = t'.
Proof.
  intros H6 K K' F F'. destruct t as [q v x|q v x], t' as [q' v' x'|q' v' x']; cbn [what form] in *.
  - destruct (form4_read _ _ _ _ _ _ _ _ _ F F') as (-> & -> & P & E). rewrite (rest4_read x x' K K' P E). reflexivity.
  - exfalso. destruct x'; try contradiction; [|destruct F' as (_ & hs & F')]; eapply form46; eauto.
  - exfalso. destruct x; try contradiction; [|destruct F as (_ & hs & F)]; eapply form46; eauto.
  - destruct x as [w|dst src vni w| |]; try contradiction; destruct x' as [w'|dst' src' vni' w'| |]; try contradiction.
    + destruct (form6_read ip6 _ _ _ _ _ _ _ _ _ _ _ H6 F F') as (-> & -> & _ & _ & ->). reflexivity.
    + destruct F' as (_ & hs & F'). destruct (form6_read ip6 _ _ _ _ _ _ _ _ _ _ _ H6 F F') as (_ & _ & P & _).
      exfalso. destruct (ip_proto_cases (nth 0 w 0)) as [G|G]; rewrite G in P; discriminate P.
    + destruct F as (_ & hs & F). destruct (form6_read ip6 _ _ _ _ _ _ _ _ _ _ _ H6 F F') as (_ & _ & P & _).
      exfalso. destruct (ip_proto_cases (nth 0 w' 0)) as [G|G]; rewrite G in P; discriminate P.
    + destruct F as (L & hs & F), F' as (L' & hs' & F'). cbn [inside_ok] in K, K'.
      destruct (form6_read ip6 _ _ _ _ _ _ _ _ _ _ _ H6 F F') as (-> & -> & _ & W & E).
      destruct K as (A & B & C), K' as (A' & B' & C').
      destruct (udp_read _ _ _ _ _ _ 0xffff _ _ B A B' A' eq_refl E) as (-> & -> & G).
      destruct (vxlan_read _ _ _ _ C C' G) as (-> & G1).
      rewrite !N.mod_small in W by lia.
      assert (Lw : length w = length w') by lia.
      assert (Lh : length hs = length hs') by (apply (f_equal (@length N)) in G1; rewrite !app_length in G1; lia).
      apply app_inj_len in G1 as [_ ->]; auto.
Qed.

(** ** Requests of C97 against tunnels *)

Lemma folded_moves s s' : s' = s + 16 \/ s = s' + 65520 -> folded s <> folded s'.
Proof.
  intros D E. destruct (folded_char s) as (hi & lo & k & S & L & F & _), (folded_char s') as (hi' & lo' & k' & S' & L' & F' & _).
  rewrite E in F. lia.
Qed.
Lemma ip4h_not_ip4v i a b N n : length a = 4%nat -> length b = 4%nat -> ip4h i 17 a b N <> ip4v i a b n.
Proof.
  intros La Lb E.
  set (X := ip4h i 17 a b N) in *. set (Y := ip4h i 17 a b (20 + n)).
  assert (EX : X = ip4b (N.lor 64 (ip_ihl i)) (ip_tos i) (N.of_nat N) (ip_id i) (ip_frag i) (ip_ttl i) 17 (csum X) a b) by reflexivity.
  assert (EY : Y = ip4b (N.lor 64 (ip_ihl i)) (ip_tos i) (N.of_nat (20 + n)) (ip_id i) (ip_frag i) (ip_ttl i) 17 (csum Y) a b) by reflexivity.
  assert (OX : other_words X = other_words (ip4b (N.lor 64 (ip_ihl i)) (ip_tos i) 0 (ip_id i) (ip_frag i) (ip_ttl i) 17 (csum X) a b)
    + N.of_nat N mod 65536) by (rewrite EX at 1; apply other_words_len; auto).
  assert (OY : other_words Y = other_words (ip4b (N.lor 64 (ip_ihl i)) (ip_tos i) 0 (ip_id i) (ip_frag i) (ip_ttl i) 17 (csum Y) a b)
    + N.of_nat (20 + n) mod 65536) by (rewrite EY at 1; apply other_words_len; auto).
  assert (P : N.of_nat N mod 65536 = N.of_nat (20 + n + 16) mod 65536 /\ csum X = csum Y).
  { unfold ip4v in E. fold Y in E. rewrite EX in E. unfold ip4b in E.
    do 2 (apply app_inv_head in E). apply app_inj_len in E as [E1 E]; [|rewrite !to_be_length; reflexivity].
    do 4 (apply app_inv_head in E). apply app_inj_len in E as [E2 _]; [|rewrite !to_be_length; reflexivity].
    apply (f_equal be) in E1, E2. rewrite !be_to_be in E1, E2. change (2 ^ N.of_nat (8 * 2)) with 65536 in *.
    pose proof (csum_le X). pose proof (csum_le Y). rewrite !N.mod_small in E2 by lia. auto. }
  destruct P as (P & C). rewrite C in OX.
  assert (F : folded (other_words X) = folded (other_words Y)).
  { unfold csum in C. fold (folded (other_words X)) in C. fold (folded (other_words Y)) in C.
    assert (folded (other_words X) < 65536) by (apply N.mod_lt; discriminate).
    assert (folded (other_words Y) < 65536) by (apply N.mod_lt; discriminate). lia. }
  rewrite P, Nat2N.inj_add in OX. set (t := N.of_nat (20 + n)) in *. change (N.of_nat 16) with 16 in OX.
  assert (M : (t + 16) mod 65536 = t mod 65536 + 16 \/ (t + 16) mod 65536 + 65520 = t mod 65536).
  { rewrite N.add_mod by discriminate. change (16 mod 65536) with 16.
    pose proof (N.mod_lt t 65536 ltac:(discriminate)). set (u := t mod 65536) in *. clearbody u.
    destruct (N.lt_ge_cases (u + 16) 65536) as [L|L]; [left; apply N.mod_small; auto|right].
    replace (u + 16) with (u - 65520 + 1 * 65536) by lia. rewrite N.mod_add, N.mod_small by lia. lia. }
  symmetry in F. revert F. apply folded_moves. lia.
Qed.

(** A VXLAN packet over IPv4, with its header. *)
Lemma wraps_vxlan_bytes m ip6 h c q v dst src vni w b : wraps ip6 h c (T_4 q v (I_vxlan dst src vni w)) -> sends m ip6 c h b ->
  exists e i, eth_asks e q /\ ip4_asks i v /\
    b = eth_of q 0x800 ++ ip4v i (v4_src v) (v4_dst v) (length w) ++ udp_bytes src dst (16 + length w) 0 ++ vxlan_bytes vni ++ w.
Proof.
  intros W S. remember (T_4 q v (I_vxlan dst src vni w)) as t eqn:Et.
  destruct W as [| |e q0 i v0 dst0 src0 vni0 p w0 He Hi Hd Hs Hv Hp| | |]; try discriminate Et. injection Et as -> -> -> -> -> ->.
  pose proof (eth_asks_in _ _ He) as Je. pose proof (ip4_asks_in _ _ Hi) as Ji.
  rewrite (sends_wrap _ _ _ _ _ _ _ S (vxlan_run m e _ _ h Je i _ _ Ji dst src vni p w Hp)).
  exists e, i. split; [exact He|]. split; [exact Hi|]. flat. rewrite (eth_asks_bytes _ _ _ He). reflexivity.
Qed.

Lemma ask_sent m ip6 c a h v : octets16 ip6 -> asks ip6 c a -> sends m ip6 c h v -> v = frame_of a.
Proof.
  intros H6 A (p & g & R & V). destruct (asks_sends m ip6 c a h H6 A) as (q & k & S & W).
  rewrite R in S. injection S as <- <-. congruence.
Qed.
Lemma apart ip6 m m' c a c' t h h' v : octets16 ip6 -> asks ip6 c a -> wraps ip6 h' c' t ->
  sends m ip6 c h v -> sends m' ip6 c' h' v ->
  exists q s d tc fl hop dst src pl vni w hs, a = Q_ip6 q s d tc fl hop (L_udp dst src) pl /\
    t = T_6 q (Ip6Q s d tc fl hop) (I_vxlan dst src vni w) /\ pl = vxlan_bytes vni ++ hs ++ w /\
    N.of_nat (length hs) mod 65536 = 0.
Proof.
  intros H6 A W S S'. pose proof (ask_sent _ _ _ _ _ _ H6 A S) as Ev.
  pose proof (wraps_form m' ip6 h' c' t v H6 W S') as F. pose proof (wraps_ok _ _ _ _ W) as K.
  destruct A as [e q op smac tmac sip tip sm tm si ti pl He Ho Hsm Htm Hsi Hti
    |e q i a b l pl He Ha Hb I1 I2 I3 I4 I5 Hl|e q i a b l pl He Ha Hb I1 I2 I3 Hl]; cbn [frame_of] in Ev.
  - exfalso. rewrite Ev in F. destruct t as [q' v' x|q' v' x]; cbn [form] in F.
    + destruct F as (e' & i' & x' & n & cc & He' & _ & E & _).
      destruct (eth_of_read _ _ _ _ _ _ _ _ He He' E ltac:(reflexivity) ltac:(reflexivity) ltac:(discriminate) ltac:(discriminate)) as (_ & T & _).
      discriminate T.
    + assert (F' : exists p n r, form6 ip6 q' v' p n r (eth_of q 0x806 ++ arp_bytes op sm si tm ti ++ pl)).
      { destruct x; try contradiction; [eauto|]. destruct F as (_ & hs & F). eauto. }
      clear F. destruct F' as (p & n & r & e' & i' & x' & He' & _ & E & _).
      destruct (eth_of_read _ _ _ _ _ _ _ _ He He' E ltac:(reflexivity) ltac:(reflexivity) ltac:(discriminate) ltac:(discriminate)) as (_ & T & _).
      discriminate T.
  - exfalso.
    set (iq := Ip4A (ip_ihl i) "" "" (ip_tos i) (ip_ttl i) (ip_id i) (ip_frag i)) in *.
    set (vq := Ip4Q a b (ip_ihl i) (ip_tos i) (ip_ttl i) (ip_id i) (ip_frag i)).
    assert (Hi : ip4_asks i vq) by (repeat split; auto; try apply Ha; try apply Hb).
    assert (G : form4 q vq (proto4 l) (l4_of l (length pl) 0 ++ pl) v).
    { pose proof (ip4_asks_in _ _ Hi) as Ji. 
      destruct (ip4h_header i (proto4 l) _ _ (20 + length pl + l4_size l) Ji ltac:(destruct l; reflexivity)) as (cc & D & _).
      exists e, i, (ip4h i (proto4 l) a b (20 + length pl + l4_size l)). do 2 eexists. split; [exact He|]. split; [exact Hi|].
      split; [exact Ev|exact D]. }
    destruct t as [q' v' x|q' v' x]; cbn [form] in F.
    + destruct (form4_read _ _ _ _ _ _ _ _ _ G F) as (<- & <- & P & _).
      destruct x as [w|dst src vni w|? ? ? ? ? ? ? ? ? ? ?|? ? ? ?]; cbn [rest4 fst] in P.
      * destruct (ip_proto_cases (nth 0 w 0)) as [X|X]; rewrite X in P; destruct l; discriminate P.
      * destruct l as [t|d s|ty code]; try discriminate P.
        destruct (wraps_vxlan_bytes _ _ _ _ _ _ _ _ _ _ _ W S') as (e' & i' & He' & Hi' & E).
        rewrite Ev in E. apply app_inv_head in E.
        destruct Hi' as (_ & _ & V1 & V2 & V3 & V4 & V5 & _). cbn [v4_ihl v4_tos v4_ttl v4_id v4_frag v4_src v4_dst vq] in *.
        apply app_inj_len in E as [E _].
        2:{ pose proof (ipv4_len _ _ Ha). pose proof (ipv4_len _ _ Hb). unfold ip4h, ip4v, ip4s. rewrite !ip4b_length; auto. }
        assert (Ei : ip4v i' a b (length w) = ip4v iq a b (length w)).
        { unfold ip4v, ip4h. subst iq. cbn [ip_ihl ip_tos ip_ttl ip_id ip_frag]. rewrite V1, V2, V3, V4, V5. reflexivity. }
        rewrite Ei in E. revert E. apply ip4h_not_ip4v; [apply (ipv4_len _ _ Ha)|apply (ipv4_len _ _ Hb)].
      * destruct l; discriminate P.
      * destruct l; discriminate P.
    + destruct x; try contradiction; [|destruct F as (_ & hs & F)]; eapply form46; eauto.
  - set (vq := Ip6Q a b (ip6_traffic_class i) (ip6_flow_label i) (ip6_hop_limit i)).
    assert (Hi : ip6_asks ip6 i vq) by (repeat split; auto).
    assert (G : form6 ip6 q vq (proto6 l) (length pl + l4_size l) (l4_of l (length pl) 0xffff ++ pl) v).
    { pose proof (ip6_asks_in _ _ _ H6 Hi) as Ji.
      exists e, i, (ip6h i (proto6 l) a b (length pl + l4_size l)). split; [exact He|]. split; [exact Hi|]. split; [exact Ev|].
      eapply ip6h_diagram; eauto. destruct l; reflexivity. }
    destruct t as [q' v' x|q' v' x]; cbn [form] in F; [exfalso; eapply form46; eauto|].
    destruct x as [w|dst src vni w|? ? ? ? ? ? ? ? ? ? ?|? ? ? ?]; try contradiction.
    + exfalso. destruct (form6_read ip6 _ _ _ _ _ _ _ _ _ _ _ H6 G F) as (_ & _ & P & _).
      destruct (ip_proto_cases (nth 0 w 0)) as [X|X]; rewrite X in P; destruct l; discriminate P.
    + destruct F as (L & hs & F). destruct (form6_read ip6 _ _ _ _ _ _ _ _ _ _ _ H6 G F) as (<- & <- & P & Ln & E).
      destruct l as [t|d s|ty code]; try discriminate P. cbn [l4_of] in E. cbn [inside_ok what] in K. destruct Hl as (Hd & Hs), K as (A1 & A2 & _).
      destruct (udp_read _ _ _ _ _ _ 0xffff _ _ Hs Hd A2 A1 eq_refl E) as (-> & -> & ->).
      exists q, a, b, (ip6_traffic_class i), (ip6_flow_label i), (ip6_hop_limit i), dst, src. do 2 eexists. exists w, hs.
      split; [reflexivity|]. split; [reflexivity|]. split; [reflexivity|].
      cbn [l4_size] in Ln. rewrite !app_length in Ln. assert (Lv : length (vxlan_bytes vni) = 8%nat) by reflexivity. rewrite Lv in Ln.
      replace (N.of_nat (8 + (length hs + length w) + 8)) with (N.of_nat (length hs) + N.of_nat (length w + 16)) in Ln by lia.
      rewrite (N.mod_small (N.of_nat (length w + 16))) in Ln by lia.
      rewrite <- N.add_mod_idemp_l in Ln by discriminate.
      pose proof (N.mod_lt (N.of_nat (length hs)) 65536 ltac:(discriminate)) as U. set (u := N.of_nat (length hs) mod 65536) in *. clearbody u.
      destruct (N.lt_ge_cases (u + N.of_nat (length w + 16)) 65536) as [Q|Q].
      * rewrite N.mod_small in Ln by auto. lia.
      * replace (u + N.of_nat (length w + 16)) with ((u + N.of_nat (length w + 16) - 65536) + 1 * 65536) in Ln by lia.
        rewrite N.mod_add, N.mod_small in Ln by lia. lia.
Qed.
