(** PropParse.v -- C33-C41: the two parsers.

    [wire], [cut], [reported], [place] are the protocol tables of Grammar.v. *)

From Coq Require Import Lia Permutation.
From Verif Require Import Base Bits BitsProofs Types Layout Heap HeapProofs Ops OpsProofs Packet PacketProofs
  Slow Fast Spec Grammar GrammarProofs SlowProofs FastProofs PropPacket.
Open Scope N_scope.

(** A frame with nesting: Ethernet, two VLAN tags, IPv4, GRE with all three
    options, IPv6, UDP to port 4789, VXLAN, Ethernet, ARP-less payload. *)
Definition fr_eth : list N := [1;2;3;4;5;6; 7;8;9;10;11;12; 0x81;0].
Definition fr_tag1 : list N := [0;5; 0x81;0].
Definition fr_tag2 : list N := [0;6; 8;0].
Definition fr_ip : list N := [0x45;0;0;0; 0;1;0;0; 64;47;0;0; 10;0;0;1; 10;0;0;2].
Definition fr_gre : list N := [0xB0;0;0x86;0xDD].
Definition fr_sum : list N := [0x11;0x11;0;0].
Definition fr_key : list N := [0x22;0;0;0].
Definition fr_seq : list N := [0x33;0;0;0].
Definition fr_ip6 : list N := [0x60;0;0;0; 0;0;17;64] ++ repeat 0xAB 32.
Definition fr_udp : list N := [0;9; 0x12;0xB5; 0;0;0;0].
Definition fr_vxlan : list N := [8;0;0;0; 0;0;1;0].
Definition fr_eth2 : list N := [1;2;3;4;5;6; 7;8;9;10;11;12; 0x12;0x34].
Definition fr_pl : list N := [0xDE;0xAD;0xBE].
Definition frame : list N := fr_eth ++ fr_tag1 ++ fr_tag2 ++ fr_ip ++ fr_gre ++ fr_sum ++ fr_key ++ fr_seq ++
  fr_ip6 ++ fr_udp ++ fr_vxlan ++ fr_eth2 ++ fr_pl.
Definition frame_headers : list (list seg) :=
  [[(Ether, fr_eth)]; []; [(Vlan, fr_tag1)]; []; [(Vlan, fr_tag2)]; []; [(IPv4, fr_ip)]; [];
   [(GRE, fr_gre)]; [(GREChksumOffset, fr_sum); (GREKey, fr_key); (GRESequenceNum, fr_seq)];
   [(IPv6, fr_ip6)]; []; [(UDP, fr_udp)]; []; [(Vxlan, fr_vxlan)]; []; [(Ether, fr_eth2)]; []].

Lemma frame_ok : bytes_ok frame.
Proof. apply bytes_okb_ok. reflexivity. Qed.

(** ** C33: parsing is total and safe *)

(** The slow parser returns or panics: no non-termination, no deadlock, no
    undefined behaviour. *)
Theorem C33_slow_total : forall m f b h, bytes_ok b ->
  exists h', (exists p, slow m f b h = (Ret p, h')) \/ (exists e, slow m f b h = (Panic e, h')).
Proof.
  intros m f b h Hb. destruct (slow_res m f b h Hb) as [(gs & pl & hs & l & _ & -> & _)|(e & l & _ & ->)];
    exists (h ++ l); eauto.
Qed.
Print Assumptions C33_slow_total.

(** So does the fast one, on every valid slice. *)
Theorem C33_fast_total : forall m f v, ok_view v ->
  (exists p, fast_view m f v = Ret p) \/ (exists e, fast_view m f v = Panic e).
Proof.
  intros m f [B o n] (b & Hb & W & L). cbn [v_buf v_off v_len] in *. subst n.
  destruct (fast_fuel_res m (length b + 3) f B o b Hb W ltac:(unfold is_parse; destruct f; lia))
    as [(gs & pl & _ & E)|(e & _ & E)]; unfold fast_view; cbn [v_len]; rewrite E; eauto.
Qed.
Print Assumptions C33_fast_total.

(** The functions of the model are the Rust functions: each is its body, calling
    the others (the model ties the recursion with fuel). *)
Theorem C33_slow_equations : forall m f b h, bytes_ok b -> slow m f b h = slow_body m (slow m) f b h.
Proof. exact slow_unfold. Qed.
Print Assumptions C33_slow_equations.

Theorem C33_fast_equations : forall m f v, ok_view v -> fast_view m f v = fast_body m (fast_view m) f v.
Proof. exact fast_unfold. Qed.
Print Assumptions C33_fast_equations.

(** Calls nest at most [length b / 3 + 2] deep: [slow_fuel m n] fails with [Fuel]
    as soon as calls nest deeper than [n]. *)
Theorem C33_slow_depth : forall m n f b h, bytes_ok b -> (length b + 6 <= 3 * n)%nat ->
  slow_fuel m n f b h = slow m f b h /\ fst (slow_fuel m n f b h) <> Fuel.
Proof.
  intros m n f b h Hb Hn.
  assert (E : slow_fuel m n f b h = slow m f b h) by (apply slow_fuel_eq; auto; unfold is_parse; destruct f; lia).
  split; auto. rewrite E. destruct (C33_slow_total m f b h Hb) as (h' & [(p & ->)|(e & ->)]); discriminate.
Qed.
Print Assumptions C33_slow_depth.

Theorem C33_fast_depth : forall m n f v, ok_view v -> (v_len v + 6 <= 3 * n)%nat ->
  fast_fuel m n f v = fast_view m f v /\ fast_fuel m n f v <> Fuel.
Proof.
  intros m n f v Hv Hn.
  assert (E : fast_fuel m n f v = fast_view m f v) by (apply fast_fuel_eq; auto; unfold is_parse; destruct f; lia).
  split; auto. rewrite E. destruct (C33_fast_total m f v Hv) as [(p & ->)|(e & ->)]; discriminate.
Qed.
Print Assumptions C33_fast_depth.

(** No constant bounds the depth: a stack of [n] VLAN tags nests more than [n]
    calls, at four bytes a call. *)
Definition tags (n : nat) : list N := concat (repeat [0; 1; 0x81; 0] n).

Lemma tags_ok n : bytes_ok (tags n).
Proof.
  induction n; [constructor|]. change (tags (S n)) with ([0; 1; 0x81; 0] ++ tags n). apply bytes_ok_app.
  split; auto. apply bytes_okb_ok. reflexivity.
Qed.

Lemma tags_depth m n h : fst (slow_fuel m n F_vlan (tags n) h) = Fuel.
Proof.
  revert h; induction n as [|n IH]; intros h; [reflexivity|].
  change (tags (S n)) with ([0; 1; 0x81; 0] ++ tags n). cbn [slow_fuel slow_body].
  unfold parse_vlan_body.
  rewrite (bind_ret _ _ _ _ _ (take_hdr_app Vlan [0; 1; 0x81; 0] (tags n) h eq_refl)).
  rewrite (bind_ret _ _ _ _ _ (hget_val m (Hdr Vlan (length h)) (h ++ [Cell [0; 1; 0x81; 0] false]) [0; 1; 0x81; 0]
    Vlan_etype (cell_at_last _ _) (proj1 (bytes_okb_ok [0;1;0x81;0]) eq_refl) ltac:(split; cbn; lia) ltac:(cbn; lia))).
  change (EtherType_try_from (u16 (field_val [0; 1; 0x81; 0] Vlan_etype))) with (Some E_DOT1Q). cbn iota.
  specialize (IH (h ++ [Cell [0; 1; 0x81; 0] false])).
  unfold bind at 1. unfold call, slice_from, bind, lift.
  change (ht_size Vlan <=? length ([0; 1; 0x81; 0]%N ++ tags n))%nat with true. cbn iota.
  change (skipn (ht_size Vlan) ([0; 1; 0x81; 0] ++ tags n)) with (tags n).
  destruct (slow_fuel m n F_vlan (tags n) _) as [o h'] eqn:E. cbn [fst] in IH. subst o. reflexivity.
Qed.

Theorem C33_depth_unbounded : forall m n h, exists b,
  bytes_ok b /\ length b = (4 * n)%nat /\ fst (slow_fuel m n F_vlan b h) = Fuel.
Proof.
  intros m n h. exists (tags n). split; [apply tags_ok|]. split; [|apply tags_depth].
  unfold tags. rewrite concat_len. induction n; auto. cbn [repeat map list_sum length]. simpl in *. lia.
Qed.
Print Assumptions C33_depth_unbounded.

Example C33_example_return : exists p, fst (slow Debug F_parse frame []) = Ret p.
Proof. eexists. vm_compute. reflexivity. Qed.
Example C33_example_panic : fst (slow Debug F_parse (firstn 30 frame) []) = Panic PSlice.
Proof. vm_compute. reflexivity. Qed.
Example C33_example_views : ok_view (v_all frame) /\ ok_view (View frame 14 4) /\
  (exists p, fast_view Debug F_vlan (View frame 14 117) = Ret p).
Proof.
  split; [apply ok_view_all, frame_ok|]. split; [|eexists; vm_compute; reflexivity].
  exists fr_tag1. split; [apply bytes_okb_ok; reflexivity|]. split; [|reflexivity].
  exists fr_eth, (fr_tag2 ++ fr_ip ++ fr_gre ++ fr_sum ++ fr_key ++ fr_seq ++
    fr_ip6 ++ fr_udp ++ fr_vxlan ++ fr_eth2 ++ fr_pl). split; reflexivity.
Qed.

(** ** C34: what parsing returns *)

(** The tables give every input one reading, or cut it short. *)
Theorem C34_tables_total : forall f b, bytes_ok b ->
  ((exists gs pl, wire f b gs pl) \/ cut f b) /\
  (forall gs pl, wire f b gs pl -> ~ cut f b) /\
  (forall gs pl gs' pl', wire f b gs pl -> wire f b gs' pl' -> gs = gs' /\ pl = pl').
Proof.
  intros f b Hb. split; [|split].
  - destruct (slow_res Debug f b [] Hb) as [(gs & pl & _ & _ & W & _)|(_ & _ & C & _)]; eauto.
  - intros. eapply wire_cut; eauto.
  - intros. eapply wire_fun; eauto.
Qed.
Print Assumptions C34_tables_total.

(** Headers [hs] of the heap are the segments [ss]: types and contents. *)
Definition holds (h : heap) (hs : list hdr) (ss : list seg) : Prop :=
  Forall2 (fun x s => h_ty x = fst s /\ cell_at h (h_ref x) (snd s)) hs ss.
(** The same for borrowed headers. *)
Definition sholds (hs : list shdr) (ss : list seg) : Prop :=
  Forall2 (fun x s => s_ty x = fst s /\ sas_slice x = snd s) hs ss.

(** What the tables call for is returned ... *)
Theorem C34_slow_complete : forall m f b h gs pl, bytes_ok b -> wire f b gs pl ->
  exists hs h', slow m f b h = (Ret (Pkt hs pl), h') /\ holds h' hs (reported gs).
Proof.
  intros m f b h gs pl Hb W. destruct (slow_res m f b h Hb) as [(gs' & pl' & hs & l & W' & E & F & _)|(e & l & C & _)].
  - destruct (wire_fun _ _ _ _ W _ _ W') as [<- <-]. exists hs, (h ++ l). auto.
  - destruct (wire_cut _ _ _ _ W C).
Qed.
Print Assumptions C34_slow_complete.

(** ... nothing else is ... *)
Theorem C34_slow_sound : forall m f b h p h', bytes_ok b -> slow m f b h = (Ret p, h') ->
  exists gs, wire f b gs (p_payload p) /\ holds h' (p_hdrs p) (reported gs).
Proof.
  intros m f b h p h' Hb E. destruct (slow_res m f b h Hb) as [(gs & pl & hs & l & W & E' & F & _)|(e & l & C & E')];
    rewrite E in E'; [|discriminate]. injection E' as -> ->. exists gs. auto.
Qed.
Print Assumptions C34_slow_sound.

(** ... and a panic means a header that does not fit. *)
Theorem C34_slow_panics : forall m f b h, bytes_ok b ->
  (cut f b <-> exists e h', slow m f b h = (Panic e, h')).
Proof.
  intros m f b h Hb. destruct (slow_res m f b h Hb) as [(gs & pl & hs & l & W & E' & F & _)|(e & l & C & E')].
  - split; [intros C; destruct (wire_cut _ _ _ _ W C)|]. intros (e & h' & E). rewrite E in E'. discriminate.
  - split; eauto.
Qed.
Print Assumptions C34_slow_panics.

(** The fast parser likewise. *)
Lemma place_group_holds B off g post pre : B = pre ++ seg_bytes g ++ post -> off = length pre ->
  map (fun p => (fst p, v_bytes (snd p))) (place_group B off g) = g.
Proof.
  revert off pre; induction g as [|[T x] g IH]; intros off pre EB ->; [reflexivity|].
  cbn [place_group map fst snd]. unfold seg_bytes in EB. cbn [map concat snd] in EB. fold (seg_bytes g) in EB.
  apply (f_equal2 (@cons seg)).
  - apply (f_equal (pair T)). apply win_bytes. exists pre, (seg_bytes g ++ post). rewrite EB, <- app_assoc. auto.
  - apply (IH _ (pre ++ x)); [rewrite EB, <- !app_assoc; reflexivity|]. rewrite app_length. reflexivity.
Qed.

Lemma place_holds B off gs post pre : B = pre ++ seg_bytes (concat gs) ++ post -> off = length pre ->
  map (map (fun p => (fst p, v_bytes (snd p)))) (place B off gs) = gs.
Proof.
  revert off pre; induction gs as [|g gs IH]; intros off pre EB ->; [reflexivity|].
  cbn [concat] in EB. rewrite seg_bytes_app, <- app_assoc in EB. cbn [place map].
  apply (f_equal2 (@cons (list seg))).
  - eapply place_group_holds; eauto.
  - apply (IH _ (pre ++ seg_bytes g)); [rewrite EB, <- !app_assoc; reflexivity|]. rewrite app_length. reflexivity.
Qed.

Lemma shdrs_holds B off gs post pre : B = pre ++ seg_bytes (concat gs) ++ post -> off = length pre ->
  sholds (shdrs (place B off gs)) (reported gs).
Proof.
  intros EB Eo. rewrite <- (place_holds B off gs post pre EB Eo) at 2. unfold reported, shdrs.
  generalize (place B off gs) as l. clear. intros l. rewrite map_map.
  induction l as [|g l IH]; [constructor|]. cbn [map concat]. rewrite map_app. apply Forall2_app; auto.
  rewrite <- map_rev. generalize (rev g) as r. induction r as [|[T v] r IHr]; constructor; auto.
Qed.

Theorem C34_fast_complete : forall m f b gs pl, bytes_ok b -> wire f b gs pl ->
  exists p, fast m f b = Ret p /\ sholds (ps_hdrs p) (reported gs) /\ v_bytes (ps_payload p) = pl.
Proof.
  intros m f b gs pl Hb W. destruct (fast_res m f b Hb) as [(gs' & pl' & W' & E)|(e & C & _)].
  - destruct (wire_fun _ _ _ _ W _ _ W') as [<- <-]. rewrite E. eexists. split; [reflexivity|].
    pose proof (wire_bytes _ _ _ _ W) as Eb. split.
    + apply (shdrs_holds b 0 gs pl []); auto.
    + apply win_bytes. exists (seg_bytes (concat gs)), []. rewrite app_nil_r. auto.
  - destruct (wire_cut _ _ _ _ W C).
Qed.
Print Assumptions C34_fast_complete.

Theorem C34_fast_sound : forall m f b p, bytes_ok b -> fast m f b = Ret p ->
  exists gs, wire f b gs (v_bytes (ps_payload p)) /\ sholds (ps_hdrs p) (reported gs).
Proof.
  intros m f b p Hb E. destruct (fast_res m f b Hb) as [(gs & pl & W & E')|(e & _ & E')]; [|congruence].
  destruct (C34_fast_complete m f b gs pl Hb W) as (q & Eq & Hs & <-).
  assert (p = q) as -> by congruence. eauto.
Qed.
Print Assumptions C34_fast_sound.

Theorem C34_fast_panics : forall m f b, bytes_ok b -> (cut f b <-> exists e, fast m f b = Panic e).
Proof.
  intros m f b Hb. destruct (fast_res m f b Hb) as [(gs & pl & W & E')|(e & C & E')].
  - split; [intros C; destruct (wire_cut _ _ _ _ W C)|]. intros (e & E). congruence.
  - split; eauto.
Qed.
Print Assumptions C34_fast_panics.

(** The frame above, read off the tables. *)
Example C34_example_wire : wire F_parse frame frame_headers fr_pl.
Proof.
  apply W_parse; [vm_compute; lia|].
  change (be (sub frame 12 2) <? 1500) with false. cbn iota. unfold frame, frame_headers.
  do 4 (eapply wire_plain; [reflexivity..|]).
  apply (wire_options F_gre GRE fr_gre [fr_sum; fr_key; fr_seq] [GREChksumOffset; GREKey; GRESequenceNum]
    (fr_ip6 ++ fr_udp ++ fr_vxlan ++ fr_eth2 ++ fr_pl) F_ipv6); try reflexivity.
  do 4 (eapply wire_plain; [reflexivity..|]). apply W_accept.
Qed.
Example C34_example_cut : cut F_ethernet (firstn 30 frame).
Proof. apply (C34_slow_panics Debug _ _ []); [apply bytes_okb_ok; reflexivity|]. do 2 eexists. vm_compute. reflexivity. Qed.
Example C34_example_fast : exists p, fast Release F_parse frame = Ret p /\ v_bytes (ps_payload p) = fr_pl /\
  map s_ty (ps_hdrs p) = [Ether; Vlan; Vlan; IPv4; GRE; GRESequenceNum; GREKey; GREChksumOffset;
                          IPv6; UDP; Vxlan; Ether].
Proof. eexists. vm_compute. repeat split. Qed.

(** ** C35: the parsers agree *)

Lemma holds_vec h p ss : holds h (p_hdrs p) ss -> to_vec p h = (Ret (seg_bytes ss ++ p_payload p), h).
Proof.
  intros H. apply (to_vec_hold p h (map snd ss)). unfold holds in H.
  induction H as [|x s hs ss [_ C] F IH]; [constructor|]. constructor; auto.
Qed.

Lemma sholds_vec hs ss : sholds hs ss -> concat (map sas_slice hs) = seg_bytes ss.
Proof. unfold sholds. induction 1 as [|x s hs ss [_ C] F IH]; [reflexivity|]. cbn. rewrite C, IH. reflexivity. Qed.

Lemma Forall2_meet {A B C} (P : A -> C -> Prop) (Q : B -> C -> Prop) (R : A -> B -> Prop) xs ys zs :
  (forall x y z, P x z -> Q y z -> R x y) -> Forall2 P xs zs -> Forall2 Q ys zs -> Forall2 R xs ys.
Proof.
  intros H F. revert ys. induction F as [|x z xs zs Px F IH]; intros ys G; inversion G; subst; constructor; eauto.
Qed.
Lemma Forall2_map_eq {A B C} (f : A -> C) (g : B -> C) xs ys : Forall2 (fun x y => f x = g y) xs ys -> map f xs = map g ys.
Proof. induction 1; cbn [map]; congruence. Qed.

Theorem C35_agree : forall m m' f b h, bytes_ok b ->
  (exists e e' h', slow m f b h = (Panic e, h') /\ fast m' f b = Panic e') \/
  (exists p q h' v, slow m f b h = (Ret p, h') /\ fast m' f b = Ret q /\
     Forall2 (fun x y => h_ty x = s_ty y /\ cell_at h' (h_ref x) (sas_slice y)) (p_hdrs p) (ps_hdrs q) /\
     p_payload p = v_bytes (ps_payload q) /\
     to_vec p h' = (Ret v, h') /\ ps_to_vec q = v /\
     pkt_len p = ps_len q).
Proof.
  intros m m' f b h Hb. destruct (slow_res m f b h Hb) as [(gs & pl & hs & l & W & E & F & _)|(e & l & C & E)].
  - right. destruct (C34_fast_complete m' f b gs pl Hb W) as (q & Eq & Hs & Ep).
    exists (Pkt hs pl), q, (h ++ l), (seg_bytes (reported gs) ++ pl).
    split; [auto|]. split; [auto|]. cbn [p_hdrs p_payload]. split; [|split; [|split; [|split]]].
    + refine (Forall2_meet _ _ _ _ _ _ _ F Hs). intros x y z [T C] [T' C']. rewrite C'. split; congruence.
    + auto.
    + apply (holds_vec (h ++ l) (Pkt hs pl)). exact F.
    + unfold ps_to_vec. rewrite (sholds_vec _ _ Hs), Ep. reflexivity.
    + unfold pkt_len, ps_len. cbn [p_hdrs p_payload]. f_equal.
      * f_equal. apply Forall2_map_eq. refine (Forall2_meet _ _ _ _ _ _ _ F Hs).
        intros x y z [T C] [T' C']. unfold hlen, slen. congruence.
      * destruct (fast_res m' f b Hb) as [(gs' & pl' & W' & E')|(e & C & _)].
        -- destruct (wire_fun _ _ _ _ W _ _ W') as [<- <-]. rewrite Eq in E'. injection E' as ->. reflexivity.
        -- destruct (wire_cut _ _ _ _ W C).
  - left. apply (C34_fast_panics m' f b Hb) in C as [e' E']. eauto.
Qed.
Print Assumptions C35_agree.

Example C35_example : exists p h' q, slow Debug F_parse frame [] = (Ret p, h') /\ fast Release F_parse frame = Ret q /\
  fst (to_vec p h') = Ret (ps_to_vec q) /\ pkt_len p = ps_len q /\ pkt_len p = 131%nat.
Proof. do 3 eexists. vm_compute. repeat split. Qed.

(** ** C36: parse, then serialise *)

(** The general fact: the headers as reported, then the payload. *)
Theorem C36_bytes : forall m f b h p h', bytes_ok b -> slow m f b h = (Ret p, h') ->
  exists gs pl, b = seg_bytes (concat gs) ++ pl /\
    to_vec p h' = (Ret (seg_bytes (concat (map (@rev seg) gs)) ++ pl), h') /\ wire f b gs pl.
Proof.
  intros m f b h p h' Hb E. destruct (C34_slow_sound m f b h p h' Hb E) as (gs & W & Hs).
  exists gs, (p_payload p). split; [eapply wire_bytes; eauto|]. split; auto. apply holds_vec. exact Hs.
Qed.
Print Assumptions C36_bytes.

Lemma rev_len (g : list seg) : length (seg_bytes (rev g)) = length (seg_bytes g).
Proof.
  induction g as [|s g IH]; [reflexivity|]. cbn [rev]. rewrite seg_bytes_app, app_length, IH.
  unfold seg_bytes. cbn [map concat]. rewrite app_nil_r, app_length. lia.
Qed.

Lemma reported_same gs (pl : list N) : seg_bytes (reported gs) ++ pl = seg_bytes (concat gs) ++ pl <->
  Forall (fun g => seg_bytes (rev g) = seg_bytes g) gs.
Proof.
  unfold reported. induction gs as [|g gs IH]; [split; auto|]. cbn [map concat]. rewrite !seg_bytes_app, <- !app_assoc.
  rewrite Forall_cons_iff, <- IH. split.
  - intros E. apply app_inj_len in E; auto using rev_len.
  - intros [-> ->]. reflexivity.
Qed.

(** Serialising gives the input back exactly when reversing the options of each
    GRE header does not change the bytes. *)
Theorem C36_identity_iff : forall m f b h p h' gs pl, bytes_ok b -> slow m f b h = (Ret p, h') -> wire f b gs pl ->
  (to_vec p h' = (Ret b, h') <-> Forall (fun g => seg_bytes (rev g) = seg_bytes g) gs).
Proof.
  intros m f b h p h' gs pl Hb E W. destruct (C36_bytes m f b h p h' Hb E) as (gs' & pl' & Eb & V & W').
  destruct (wire_fun _ _ _ _ W _ _ W') as [<- <-]. rewrite V, Eb at 1. rewrite <- (reported_same gs pl). unfold reported.
  split; congruence.
Qed.
Print Assumptions C36_identity_iff.

(** So always when no GRE header is met. *)
Lemma wire_single f b gs pl : wire f b gs pl -> ~ In GRE (map fst (concat gs)) -> Forall (fun g => length g <= 1)%nat gs.
Proof.
  induction 1 as [b|b gs pl L W IH|f T x os rest g gs pl Hf Lx Lo D W IH]; intros Hn; auto.
  constructor; [simpl; lia|]. constructor.
  - etransitivity; [apply Nat.eq_le_incl, combine_length|]. etransitivity; [apply Nat.le_min_l|]. destruct f; cbn [options]; try (simpl; lia).
    + destruct Hn. injection Hf as <-. simpl. auto.
    + destruct (bit x 95); simpl; lia.
  - apply IH. intros I. apply Hn. cbn [concat]. rewrite !map_app, !in_app_iff. auto.
Qed.

Theorem C36_identity_without_gre : forall m f b h p h', bytes_ok b -> slow m f b h = (Ret p, h') ->
  ~ In GRE (map h_ty (p_hdrs p)) -> to_vec p h' = (Ret b, h').
Proof.
  intros m f b h p h' Hb E Hn. destruct (C34_slow_sound m f b h p h' Hb E) as (gs & W & Hs).
  apply (C36_identity_iff m f b h p h' gs _ Hb E W).
  assert (S : Forall (fun g => length g <= 1)%nat gs).
  { apply (wire_single _ _ _ _ W). intros I. apply Hn.
    apply (Permutation_in (l' := map fst (reported gs))) in I; [|apply Permutation_map, Permutation_sym, reported_perm].
    revert I. unfold holds in Hs. clear -Hs. induction Hs as [|x s hs ss [T C] F IH]; auto.
    cbn [map]. intros [I|I]; [left|right]; auto. congruence. }
  eapply Forall_impl; [|exact S]. intros g L. destruct g as [|s [|s' g]]; try reflexivity. simpl in L. lia.
Qed.
Print Assumptions C36_identity_without_gre.

(** In general the output is the input with whole headers permuted. *)
Theorem C36_permutation : forall m f b h p h', bytes_ok b -> slow m f b h = (Ret p, h') ->
  exists segs segs' pl, b = seg_bytes segs ++ pl /\ Permutation segs segs' /\
    Forall (fun s => length (snd s) = ht_size (fst s)) segs /\
    to_vec p h' = (Ret (seg_bytes segs' ++ pl), h') /\
    length (seg_bytes segs' ++ pl) = length b /\ pkt_len p = length b.
Proof.
  intros m f b h p h' Hb E. destruct (C34_slow_sound m f b h p h' Hb E) as (gs & W & Hs).
  pose proof (holds_vec _ _ _ Hs) as V. pose proof (wire_bytes _ _ _ _ W) as Eb.
  assert (L : forall gs, length (seg_bytes (reported gs)) = length (seg_bytes (concat gs))).
  { clear. unfold reported. induction gs as [|g gs IH]; [reflexivity|]. cbn [map concat].
    rewrite !seg_bytes_app, !app_length, rev_len. lia. }
  exists (concat gs), (reported gs), (p_payload p). split; [auto|]. split; [apply Permutation_sym, reported_perm|].
  split.
  { pose proof (wire_sizes _ _ _ _ W) as F. clear -F. induction F; cbn; [constructor|]. apply Forall_app; auto. }
  split; [auto|].
  assert (LL : length (seg_bytes (reported gs) ++ p_payload p) = length b).
  { rewrite Eb, !app_length, L. reflexivity. }
  split; [auto|]. rewrite <- LL. apply (C14_len p h'); [rewrite V; reflexivity|].
  intros x d I C. assert (exists s, In s (reported gs) /\ h_ty x = fst s /\ cell_at h' (h_ref x) (snd s)) as (s & Is & T & C').
  { unfold holds in Hs. clear -Hs I. induction Hs as [|y s hs ss [T C] F IH]; [destruct I|].
    destruct I as [->|I]; [exists s; simpl; auto|]. destruct (IH I) as (s' & ? & ?). exists s'. simpl. auto. }
  assert (d = snd s) as -> by (unfold cell_at in *; congruence). rewrite T.
  apply (Permutation_in _ (reported_perm gs)) in Is. pose proof (wire_sizes _ _ _ _ W) as F.
  clear -F Is. induction F as [|g gs Fg F IH]; [destruct Is|]. cbn [concat] in Is. apply in_app_iff in Is as [I|I]; auto.
  rewrite Forall_forall in Fg. auto.
Qed.
Print Assumptions C36_permutation.

(** The fast parser writes the same bytes ([C35_agree]). *)
Theorem C36_fast_same : forall m m' f b h p h' q, bytes_ok b -> slow m f b h = (Ret p, h') -> fast m' f b = Ret q ->
  to_vec p h' = (Ret (ps_to_vec q), h').
Proof.
  intros m m' f b h p h' q Hb E F.
  destruct (C35_agree m m' f b h Hb) as [(e & e' & h2 & E1 & _)|(p2 & q2 & h2 & v & E1 & E2 & _ & _ & V & V' & _)];
    [congruence|]. rewrite E in E1. injection E1 as -> ->. rewrite F in E2. injection E2 as ->. congruence.
Qed.
Print Assumptions C36_fast_same.

(** The claim as stated fails: GRE with a key and a sequence number. *)
Definition gre2 : list N := [0x30;0;0;0; 1;1;1;1; 2;2;2;2].
Theorem C36_identity_refuted : exists b p h' q, bytes_ok b /\
  slow Debug F_gre b [] = (Ret p, h') /\ fast Debug F_gre b = Ret q /\
  fst (to_vec p h') = Ret [0x30;0;0;0; 2;2;2;2; 1;1;1;1] /\ ps_to_vec q = [0x30;0;0;0; 2;2;2;2; 1;1;1;1] /\
  b = [0x30;0;0;0; 1;1;1;1; 2;2;2;2].
Proof. exists gre2. do 3 eexists. split; [apply bytes_okb_ok; reflexivity|]. vm_compute. repeat split. Qed.
Print Assumptions C36_identity_refuted.

Example C36_example_identity : exists p h', slow Debug F_parse (fr_eth ++ fr_tag2 ++ [0x45] ++ repeat 6 40) [] = (Ret p, h') /\
  fst (to_vec p h') = Ret (fr_eth ++ fr_tag2 ++ [0x45] ++ repeat 6 40) /\ ~ In GRE (map h_ty (p_hdrs p)).
Proof. do 2 eexists. vm_compute. repeat split. intros H. repeat destruct H as [H|H]; try discriminate H; auto. Qed.

(** ** C37: fresh buffers *)

(** Nothing that existed changes, the headers are in new buffers, one each. *)
Theorem C37_fresh : forall m f b h p h', bytes_ok b -> slow m f b h = (Ret p, h') ->
  (forall r, (r < length h)%nat -> nth_error h' r = nth_error h r) /\
  NoDup (map h_ref (p_hdrs p)) /\
  (forall x, In x (p_hdrs p) -> (length h <= h_ref x < length h')%nat).
Proof.
  intros m f b h p h' Hb E.
  destruct (slow_res m f b h Hb) as [(gs & pl & hs & l & W & E' & F & ND & Lw)|(e & l & C & E')];
    rewrite E in E'; [|discriminate]. injection E' as -> ->. cbn [p_hdrs].
  split; [intros r Hr; apply nth_error_app1; auto|]. split; auto.
  intros x I. rewrite Forall_forall in Lw. split; [auto|].
  pose proof (Forall2_seg_lt _ _ _ F) as G. rewrite Forall_forall in G. auto.
Qed.
Print Assumptions C37_fresh.

Lemma hto_vec_ext x h h' : nth_error h' (h_ref x) = nth_error h (h_ref x) ->
  fst (hto_vec x h') = fst (hto_vec x h) /\ snd (hto_vec x h') = h' /\ snd (hto_vec x h) = h.
Proof.
  intros E. unfold hto_vec, with_lock. rewrite E. destruct (nth_error h (h_ref x)) as [[d [|]]|] eqn:F; auto.
  cbn [fst snd c_poisoned c_data]. split; [reflexivity|]. split; apply upd_same; congruence.
Qed.
Lemma to_vec_ext p h h' : (forall x, In x (p_hdrs p) -> nth_error h' (h_ref x) = nth_error h (h_ref x)) ->
  fst (to_vec p h') = fst (to_vec p h).
Proof.
  intros H. unfold to_vec, bind.
  assert (G : fst (concat_vecs (p_hdrs p) h') = fst (concat_vecs (p_hdrs p) h)).
  { induction (p_hdrs p) as [|x t IH]; [reflexivity|]. cbn [concat_vecs]. unfold bind.
    destruct (hto_vec_ext x h h' (H x (or_introl eq_refl))) as (E1 & E2 & E3).
    destruct (hto_vec x h') as [o1 g1]. destruct (hto_vec x h) as [o2 g2]. cbn [fst snd] in *. subst.
    destruct o2; try reflexivity. specialize (IH (fun y I => H y (or_intror I))).
    destruct (concat_vecs t h') as [o1 g1]. destruct (concat_vecs t h) as [o2 g2]. cbn [fst] in IH. subst.
    destruct o2; reflexivity. }
  destruct (concat_vecs (p_hdrs p) h') as [o1 g1]. destruct (concat_vecs (p_hdrs p) h) as [o2 g2]. cbn [fst] in G. subst.
  destruct o2; reflexivity.
Qed.

(** Any history of operations on the new packet's headers (and on headers made
    later) leaves every earlier packet as it was ... *)
Theorem C37_writes_local : forall m f b h p h' os q, bytes_ok b -> slow m f b h = (Ret p, h') ->
  (forall o r, In o os -> target o = Some r -> (length h <= r)%nat) ->
  (forall x, In x (p_hdrs q) -> (h_ref x < length h)%nat) ->
  fst (to_vec q (snd (hrun m os h'))) = fst (to_vec q h).
Proof.
  intros m f b h p h' os q Hb E Hos Hq. destruct (C37_fresh m f b h p h' Hb E) as (Same & _ & Fresh).
  apply to_vec_ext. intros x I. specialize (Hq x I).
  assert (L : (length h <= length h')%nat).
  { destruct (slow_res m f b h Hb) as [(gs & pl & hs & l & _ & E' & _)|(e & l & C & E')];
      rewrite E in E'; [|discriminate]. injection E' as -> ->. rewrite app_length. lia. }
  rewrite hrun_frame; [auto|lia|]. intros o Io T. specialize (Hos o _ Io T). lia.
Qed.
Print Assumptions C37_writes_local.

(** ... and histories on other buffers leave the new packet, header by header. *)
Theorem C37_isolated : forall m f b h p h' os x, bytes_ok b -> slow m f b h = (Ret p, h') -> In x (p_hdrs p) ->
  (forall o, In o os -> target o <> Some (h_ref x)) ->
  fst (hto_vec x (snd (hrun m os h'))) = fst (hto_vec x h').
Proof.
  intros m f b h p h' os x Hb E I Hos. destruct (C37_fresh m f b h p h' Hb E) as (_ & _ & Fresh).
  destruct (Fresh x I) as [_ L]. apply hto_vec_ext. apply hrun_frame; auto.
Qed.
Print Assumptions C37_isolated.

(** The same frame parsed twice: writing one TTL leaves the other packet alone. *)
Example C37_example : exists p h1 q h2 x,
  slow Debug F_parse frame [] = (Ret p, h1) /\ slow Debug F_parse frame h1 = (Ret q, h2) /\
  nth_error (p_hdrs q) 3 = Some x /\ h_ty x = IPv4 /\
  (let h3 := snd (hrun Debug [OSet x IPv4_ttl 7] h2) in
   fst (to_vec p h3) = fst (to_vec p h1) /\ fst (to_vec q h3) <> fst (to_vec p h3)).
Proof.
  do 5 eexists. split; [vm_compute; reflexivity|]. split; [vm_compute; reflexivity|].
  split; [vm_compute; reflexivity|]. split; [reflexivity|]. split; [vm_compute; reflexivity|]. vm_compute. discriminate.
Qed.

(** ** C38: fast parsing is zero-copy *)

(** The windows: each header where it lies on the wire, the payload last. *)
Theorem C38_windows : forall m f b p, bytes_ok b -> fast m f b = Ret p ->
  exists gs pl, wire f b gs pl /\
    ps_hdrs p = map (fun w => SHdr (fst w) (snd w)) (concat (map (@rev (htype * view)) (place b 0 gs))) /\
    ps_payload p = View b (length b - length pl) (length pl).
Proof.
  intros m f b p Hb E. destruct (fast_res m f b Hb) as [(gs & pl & W & E')|(e & _ & E')]; [|congruence].
  rewrite E in E'. injection E' as ->. exists gs, pl. cbn [ps_hdrs ps_payload]. split; auto. split; [reflexivity|].
  f_equal. rewrite (wire_bytes _ _ _ _ W) at 1. rewrite app_length. lia.
Qed.
Print Assumptions C38_windows.

(** Windows of [B] that follow one another from offset [off] to [fin]. *)
Fixpoint tiles (B : list N) (off : nat) (vs : list view) (fin : nat) : Prop :=
  match vs with
  | [] => off = fin
  | v :: t => v_buf v = B /\ v_off v = off /\ tiles B (off + v_len v) t fin
  end.

Lemma tiles_app B vs ws off mid fin : tiles B off vs mid -> tiles B mid ws fin -> tiles B off (vs ++ ws) fin.
Proof. revert off; induction vs; cbn; intros off H; [subst; auto|]. intuition. Qed.

Lemma tiles_group B off g : tiles B off (map snd (place_group B off g)) (off + length (seg_bytes g)).
Proof.
  revert off; induction g as [|[T x] g IH]; intros off; cbn [place_group map tiles snd v_buf v_off v_len].
  - unfold seg_bytes. cbn. lia.
  - split; auto. split; auto. pose proof (IH (off + length x)%nat) as H.
    rewrite <- Nat.add_assoc, <- app_length in H. exact H.
Qed.
Lemma tiles_place B off gs : tiles B off (map snd (concat (place B off gs))) (off + length (seg_bytes (concat gs))).
Proof.
  revert off; induction gs as [|g gs IH]; intros off; cbn [place concat map tiles]; [unfold seg_bytes; cbn; lia|].
  rewrite map_app, seg_bytes_app, app_length, Nat.add_assoc. eapply tiles_app; [apply tiles_group|apply IH].
Qed.

Lemma place_sizes f b gs pl B off : wire f b gs pl ->
  Forall (fun w => v_len (snd w) = ht_size (fst w)) (concat (place B off gs)).
Proof.
  intros W. pose proof (wire_sizes _ _ _ _ W) as F. clear W. revert off.
  induction F as [|g gs Fg F IH]; intros off; cbn [place concat]; [constructor|]. apply Forall_app. split; auto.
  clear -Fg. revert off. induction Fg as [|[T x] g H Fg IH]; intros off; cbn [place_group]; constructor; auto.
Qed.

(** Put in wire order, the windows and the payload tile the input; each has the
    size of its type. *)
Theorem C38_tile : forall m f b p, bytes_ok b -> fast m f b = Ret p ->
  exists ws, Permutation ws (ps_hdrs p) /\ tiles b 0 (map s_view ws ++ [ps_payload p]) (length b) /\
    Forall (fun x => v_len (s_view x) = ht_size (s_ty x)) ws.
Proof.
  intros m f b p Hb E. destruct (C38_windows m f b p Hb E) as (gs & pl & W & Eh & Ep).
  exists (map (fun w => SHdr (fst w) (snd w)) (concat (place b 0 gs))). split; [|split].
  - rewrite Eh. apply Permutation_map. generalize (place b 0 gs). clear. induction l as [|g l IH]; [constructor|].
    cbn [map concat]. apply Permutation_app; auto. apply Permutation_rev.
  - rewrite map_map. cbn [s_view]. eapply tiles_app; [apply tiles_place|]. rewrite Ep.
    pose proof (f_equal (@length N) (wire_bytes _ _ _ _ W)) as L. rewrite app_length in L.
    cbn [tiles v_buf v_off v_len]. repeat split; lia.
  - pose proof (place_sizes _ _ _ _ b 0 W) as F. clear -F. induction F; constructor; auto.
Qed.
Print Assumptions C38_tile.

Example C38_example : exists p, fast Debug F_parse frame = Ret p /\
  map (fun x => (v_off (s_view x), v_len (s_view x))) (ps_hdrs p) =
    [(0, 14); (14, 4); (18, 4); (22, 20); (42, 4); (54, 4); (50, 4); (46, 4); (58, 40); (98, 8); (106, 8); (114, 14)]%nat /\
  ps_payload p = View frame 128 3.
Proof. eexists. split; [vm_compute; reflexivity|]. split; vm_compute; reflexivity. Qed.

(** ** C39: [XSlice::from] on short input *)

(** It is undefined behaviour exactly on slices shorter than the header. *)
Theorem C39_from_ub_iff : forall T v, sfrom T v = UB <-> (v_len v < ht_size T)%nat.
Proof.
  intros T v. unfold sfrom, from_raw_parts. destruct (Nat.leb_spec (ht_size T) (v_len v)); cbn [obind]; split; intros; try discriminate; try lia; auto.
Qed.
Print Assumptions C39_from_ub_iff.

(** Otherwise it is the first [X::size()] bytes, in place. *)
Theorem C39_from_ok : forall T v, (ht_size T <= v_len v)%nat ->
  exists x, sfrom T v = Ret x /\ s_ty x = T /\ v_buf (s_view x) = v_buf v /\ v_off (s_view x) = v_off v /\
    sas_slice x = firstn (ht_size T) (v_bytes v).
Proof.
  intros T v H. unfold sfrom, from_raw_parts. rewrite (proj2 (Nat.leb_le _ _)) by auto. cbn [obind].
  eexists. split; [reflexivity|]. repeat split. unfold sas_slice, v_bytes. cbn. rewrite firstn_firstn, Nat.min_l; auto.
Qed.
Print Assumptions C39_from_ok.

(** The safe constructor is unsound: for every predefined header there is such a slice. *)
Theorem C39_from_refuted : forall T, In T protocol_headers -> sfrom T (v_all []) = UB.
Proof.
  intros T H. apply C39_from_ub_iff. cbn [v_all v_len length].
  repeat (destruct H as [<-|H]; [cbn; lia|]). destruct H.
Qed.
Print Assumptions C39_from_refuted.

Example C39_example : sfrom IPv4 (View frame 22 20) = Ret (SHdr IPv4 (View frame 22 20)) /\
  sfrom IPv4 (View frame 120 11) = UB.
Proof. split; reflexivity. Qed.

(** ** C40: 802.3 or Ethernet II *)

Lemma parse_is m b h : bytes_ok b -> (14 <= length b)%nat ->
  slow m F_parse b h = slow m (if be (sub b 12 2) <? 1500 then F_dot3 else F_ethernet) b h.
Proof.
  intros Hb L. rewrite slow_unfold by auto. cbn [slow_body]. unfold parse_body, bind, lift.
  rewrite (index_lt b 12 0), (index_lt b 13 0) by lia. rewrite type_word by (apply bytes_ok_nth; auto).
  change [nth 12 b 0; nth 13 b 0] with [nth 12 b 0; nth (12 + 1) b 0]. rewrite <- sub_bytes by lia.
  destruct (_ <? _); reflexivity.
Qed.

Lemma fparse_is m b : bytes_ok b -> (14 <= length b)%nat ->
  fast m F_parse b = fast m (if be (sub b 12 2) <? 1500 then F_dot3 else F_ethernet) b.
Proof.
  intros Hb L. unfold fast. rewrite fast_unfold by (apply ok_view_all; auto). cbn [fast_body]. unfold fparse_body, v_all.
  rewrite !(v_index_win b 0 b) by apply win_all.
  rewrite (index_lt b 12 0), (index_lt b 13 0) by lia. cbn [obind].
  rewrite type_word by (apply bytes_ok_nth; auto).
  change [nth 12 b 0; nth 13 b 0] with [nth 12 b 0; nth (12 + 1) b 0]. rewrite <- sub_bytes by lia.
  destruct (_ <? _); reflexivity.
Qed.

(** Right for every length word but 1500 ... *)
Theorem C40_except_1500 : forall m b h, bytes_ok b -> (14 <= length b)%nat -> be (sub b 12 2) <> 1500 ->
  slow m F_parse b h = slow m (if be (sub b 12 2) <=? 1500 then F_dot3 else F_ethernet) b h /\
  fast m F_parse b = fast m (if be (sub b 12 2) <=? 1500 then F_dot3 else F_ethernet) b.
Proof.
  intros m b h Hb L H. rewrite parse_is, fparse_is by auto.
  assert (E : (be (sub b 12 2) <? 1500) = (be (sub b 12 2) <=? 1500)).
  { destruct (N.ltb_spec (be (sub b 12 2)) 1500), (N.leb_spec (be (sub b 12 2)) 1500); auto; lia. }
  rewrite E. auto.
Qed.
Print Assumptions C40_except_1500.

(** ... and wrong for every frame of length 1500. *)
Theorem C40_at_1500 : forall m b h, bytes_ok b -> (14 <= length b)%nat -> be (sub b 12 2) = 1500 ->
  slow m F_parse b h = slow m F_ethernet b h /\ fast m F_parse b = fast m F_ethernet b.
Proof. intros m b h Hb L H. rewrite parse_is, fparse_is by auto. rewrite H. auto. Qed.
Print Assumptions C40_at_1500.

(** The header type tells: a maximal 802.3/LLC frame comes back as Ethernet II
    with all of the LLC in the payload. *)
Theorem C40_refuted : exists b p h' q, bytes_ok b /\ length b = (14 + 1500)%nat /\ be (sub b 12 2) = 1500 /\
  slow Debug F_parse b [] = (Ret p, h') /\ map h_ty (p_hdrs p) = [Ether] /\
  fast Debug F_parse b = Ret q /\ map s_ty (ps_hdrs q) = [Ether].
Proof.
  exists (repeat 2 12 ++ [0x05; 0xDC] ++ repeat 0xAA 1500). do 3 eexists.
  split; [apply bytes_okb_ok; vm_compute; reflexivity|]. split; [vm_compute; reflexivity|].
  split; [vm_compute; reflexivity|]. split; [vm_compute; reflexivity|]. split; [reflexivity|].
  split; [vm_compute; reflexivity|]. reflexivity.
Qed.
Print Assumptions C40_refuted.

Example C40_example : exists p h', slow Debug F_parse (repeat 2 12 ++ [0x05; 0xDB] ++ [0xAA; 0xAA; 3] ++ repeat 0 1496) [] = (Ret p, h') /\
  map h_ty (p_hdrs p) = [Dot3; LLC; SNAP].
Proof. do 2 eexists. split; [vm_compute; reflexivity|]. reflexivity. Qed.

(** ** C41: the bottom of an MPLS stack *)

(** A label stack: four-byte entries, the bottom-of-stack bit set in the last one only. *)
Inductive label_stack : list (list N) -> Prop :=
| LS_bottom x : length x = 4%nat -> bit x 23 = true -> label_stack [x]
| LS_push x ls : length x = 4%nat -> bit x 23 = false -> label_stack ls -> label_stack (x :: ls).

Fixpoint mpls_groups (ls : list (list N)) : list (list seg) :=
  match ls with [] => [] | x :: t => [(MPLS, x)] :: [] :: mpls_groups t end.

Lemma stack_wire ls rest gs pl : label_stack ls -> wire F_mpls_bos rest gs pl ->
  wire F_mpls (concat ls ++ rest) (mpls_groups ls ++ gs) pl.
Proof.
  intros S W. induction S as [x L B|x ls L B S IH]; cbn [concat mpls_groups app].
  - rewrite app_nil_r. eapply wire_plain; eauto; try reflexivity. cbn [demux]. rewrite B. reflexivity.
  - rewrite <- app_assoc. eapply wire_plain; eauto; try reflexivity. cbn [demux]. rewrite B. reflexivity.
Qed.

(** With one extra four-byte word after the bottom of the stack (whatever its
    bits), an IPv4 packet is found ... *)
Theorem C41_extra_word_ipv4 : forall ls w b t gs pl, label_stack ls -> length w = 4%nat -> b / 16 = 4 ->
  wire F_ipv4 (b :: t) gs pl ->
  wire F_mpls (concat ls ++ w ++ b :: t) (mpls_groups (ls ++ [w]) ++ gs) pl.
Proof.
  intros ls w b t gs pl S L B W.
  replace (mpls_groups (ls ++ [w]) ++ gs) with (mpls_groups ls ++ [(MPLS, w)] :: [] :: gs).
  - apply stack_wire; auto. eapply wire_plain; eauto; try reflexivity. cbn [demux]. rewrite B. reflexivity.
  - clear. induction ls; cbn [mpls_groups app]; [reflexivity|do 2 f_equal; assumption].
Qed.
Print Assumptions C41_extra_word_ipv4.

(** ... and so is an IPv6 packet, and anything else is taken for Ethernet. *)
Theorem C41_extra_word_other : forall ls w b t gs pl, label_stack ls -> length w = 4%nat -> b / 16 <> 4 ->
  wire (if b / 16 =? 6 then F_ipv6 else F_ethernet) (b :: t) gs pl ->
  wire F_mpls (concat ls ++ w ++ b :: t) (mpls_groups (ls ++ [w]) ++ gs) pl.
Proof.
  intros ls w b t gs pl S L B W.
  replace (mpls_groups (ls ++ [w]) ++ gs) with (mpls_groups ls ++ [(MPLS, w)] :: [] :: gs).
  - apply stack_wire; auto. eapply wire_plain; eauto; try reflexivity. cbn [demux].
    rewrite (proj2 (N.eqb_neq _ _) B). reflexivity.
  - clear. induction ls; cbn [mpls_groups app]; [reflexivity|do 2 f_equal; assumption].
Qed.
Print Assumptions C41_extra_word_other.

Lemma firstn_stack ls (hs : list hdr) ss h : holds h hs (map (pair MPLS) ls ++ ss) ->
  holds h (firstn (length ls) hs) (map (pair MPLS) ls) /\ holds h (skipn (length ls) hs) ss.
Proof.
  revert hs; induction ls as [|x ls IH]; intros hs H; cbn [map app length firstn skipn] in *.
  - split; [constructor|auto].
  - inversion H as [|y s hs' ss' Hy Ht]; subst. destruct (IH _ Ht). split; auto. constructor; auto.
Qed.

(** What always happens: the four bytes after the bottom of the stack (the first
    ones of the IP packet) are reported as one more MPLS entry. *)
Theorem C41_one_more_entry : forall m ls rest h p h', label_stack ls -> bytes_ok (concat ls ++ rest) ->
  slow m F_mpls (concat ls ++ rest) h = (Ret p, h') ->
  exists x hs, skipn (length ls) (p_hdrs p) = x :: hs /\ h_ty x = MPLS /\ cell_at h' (h_ref x) (firstn 4 rest) /\
    (4 < length rest)%nat /\ holds h' (firstn (length ls) (p_hdrs p)) (map (pair MPLS) ls).
Proof.
  intros m ls rest h p h' S Hb E. destruct (C34_slow_sound m _ _ h p h' Hb E) as (gs & W & Hs).
  assert (exists gs', gs = mpls_groups ls ++ gs' /\ wire F_mpls_bos rest gs' (p_payload p)) as (gs' & -> & W').
  { clear -S W. revert gs W. induction S as [x L B|x ls L B S IH]; intros gs W; cbn [concat app] in W.
    - rewrite app_nil_r in W. destruct (wire_plain_inv F_mpls MPLS x rest gs _ W eq_refl L eq_refl) as (g & gs' & D & -> & W').
      cbn [demux] in D. rewrite B in D. injection D as <-. exists gs'. auto.
    - rewrite <- app_assoc in W. destruct (wire_plain_inv F_mpls MPLS x _ gs _ W eq_refl L eq_refl) as (g & gs' & D & -> & W').
      cbn [demux] in D. rewrite B in D. injection D as <-. destruct (IH _ W') as (g2 & -> & W2). exists g2. auto. }
  assert (R : reported (mpls_groups ls ++ gs') = map (pair MPLS) ls ++ reported gs').
  { clear. induction ls as [|a ls IH]; [reflexivity|]. exact (f_equal (@cons seg (MPLS, a)) IH). }
  rewrite R in Hs. apply firstn_stack in Hs as [H1 H2].
  assert (L4 : (4 <= length rest)%nat).
  { destruct (le_lt_dec 4 (length rest)); auto. exfalso. apply (wire_cut _ _ _ _ W'). eapply C_header; [reflexivity|]. auto. }
  rewrite <- (firstn_skipn 4 rest) in W'.
  destruct (wire_plain_inv F_mpls_bos MPLS _ _ _ _ W' eq_refl ltac:(rewrite firstn_length, Nat.min_l by lia; reflexivity) eq_refl)
    as (g & gs2 & D & -> & W2).
  unfold reported in H2. cbn [map rev app concat] in H2. inversion H2 as [|x s hs ss [T C] F E1 E2]; subst.
  exists x, hs. split; [auto|]. split; [exact T|]. split; [exact C|]. split; auto.
  destruct (skipn 4 rest) eqn:Es; [discriminate D|]. pose proof (f_equal (@length N) Es) as Ls.
  rewrite skipn_length in Ls. simpl in Ls. lia.
Qed.
Print Assumptions C41_one_more_entry.

(** So the claim fails: one label, then an IPv4 header with a TCP header, comes
    back without any IPv4 header. *)
Definition mpls_ip : list N := [0; 1; 1; 64] ++ [0x45;0;0;40; 0;1;0;0; 64;6;0;0; 10;0;0;1; 10;0;0;2] ++ repeat 0 20.
Theorem C41_refuted : exists ls ip p h', label_stack ls /\ bytes_ok (concat ls ++ ip) /\
  (exists gs pl, wire F_ipv4 ip gs pl) /\
  slow Debug F_mpls (concat ls ++ ip) [] = (Ret p, h') /\ ~ In IPv4 (map h_ty (p_hdrs p)).
Proof.
  exists [[0; 1; 1; 64]], ([0x45;0;0;40; 0;1;0;0; 64;6;0;0; 10;0;0;1; 10;0;0;2] ++ repeat 0 20). do 2 eexists.
  split; [apply LS_bottom; reflexivity|]. split; [apply bytes_okb_ok; reflexivity|]. split.
  - do 2 eexists. eapply wire_plain; [reflexivity..|]. rewrite <- (app_nil_r (repeat 0 20)).
    eapply wire_plain; [reflexivity..|]. apply W_accept.
  - split; [vm_compute; reflexivity|]. intros H. cbn in H. repeat destruct H as [H|H]; try discriminate H; auto.
Qed.
Print Assumptions C41_refuted.

Example C41_example : exists p h', slow Debug F_mpls ([0;1;0;64] ++ [0;2;1;64] ++ [9;9;9;9] ++ fr_ip ++ gre2) [] = (Ret p, h') /\
  map h_ty (p_hdrs p) = [MPLS; MPLS; MPLS; IPv4; GRE; GRESequenceNum; GREKey] /\
  label_stack [[0;1;0;64]; [0;2;1;64]].
Proof.
  do 2 eexists. split; [vm_compute; reflexivity|]. split; [reflexivity|].
  apply LS_push; [reflexivity|reflexivity|]. apply LS_bottom; reflexivity.
Qed.
