(** SlowProofs.v -- the slow parser follows the wire grammar. *)

From Coq Require Import Lia Permutation.
From Verif Require Import Base Bits Types Layout Heap Packet Slow Spec Grammar.
From Verif Require Import BitsProofs HeapProofs PacketProofs BuildProofs GrammarProofs.
Open Scope N_scope.

(** ** The demultiplexing matches *)

Ltac eqb_cases v := repeat match goal with
  | |- context [v =? ?k] => destruct (N.eqb_spec v k) as [->|?]; [reflexivity|]
  end.
Ltac neq_false := repeat match goal with
  | H : ?v <> ?k |- context [?k =? ?v] => rewrite (proj2 (N.eqb_neq k v)) by (apply not_eq_sym; exact H)
  end.

Lemma ether_demux {A} (K : pfun -> A) v :
  match EtherType_try_from v with
  | Some E_DOT1Q => K F_vlan
  | Some E_ARP => K F_arp
  | Some E_IPV4 => K F_ipv4
  | Some E_IPV6 => K F_ipv6
  | Some E_MPLS => K F_mpls
  | _ => K F_accept
  end = K (entry ethertypes v).
Proof.
  unfold EtherType_try_from, EtherType_code, entry, ethertypes. eqb_cases v. neq_false. reflexivity.
Qed.

Lemma gre_demux {A} (K : pfun -> A) v :
  match EtherType_try_from v with
  | Some E_IPV4 => K F_ipv4
  | Some E_IPV6 => K F_ipv6
  | Some E_ERSPANII => K F_erspan2
  | Some E_ERSPANIII => K F_erspan3
  | _ => K F_accept
  end = K (entry gre_protocols v).
Proof.
  unfold EtherType_try_from, EtherType_code, entry, gre_protocols. eqb_cases v. neq_false. reflexivity.
Qed.

Lemma ip4_demux {A} (K : pfun -> A) v :
  match IpProtocol_try_from v with
  | Some P_ICMP => K F_icmp
  | Some P_IPIP => K F_ipv4
  | Some P_TCP => K F_tcp
  | Some P_UDP => K F_udp
  | Some P_IPV6 => K F_ipv6
  | Some P_GRE => K F_gre
  | _ => K F_accept
  end = K (entry ipv4_protocols v).
Proof.
  unfold IpProtocol_try_from, IpProtocol_code, entry, ipv4_protocols. eqb_cases v. neq_false. reflexivity.
Qed.

Lemma ip6_demux {A} (K : pfun -> A) v :
  match IpProtocol_try_from v with
  | Some P_ICMPV6 => K F_icmp
  | Some P_IPIP => K F_ipv4
  | Some P_TCP => K F_tcp
  | Some P_UDP => K F_udp
  | Some P_IPV6 => K F_ipv6
  | Some P_GRE => K F_gre
  | _ => K F_accept
  end = K (entry ipv6_next_headers v).
Proof.
  unfold IpProtocol_try_from, IpProtocol_code, entry, ipv6_next_headers. eqb_cases v. neq_false. reflexivity.
Qed.

Lemma nibble b : b < 256 -> N.land (N.shiftr b 4) 0xf = b / 16.
Proof.
  intros H. change 0xf with (N.ones 4). rewrite N.land_ones, N.shiftr_div_pow2.
  change (2 ^ 4) with 16. apply N.mod_small. apply N.div_lt_upper_bound; lia.
Qed.

Lemma iptype_demux {A} (K : pfun -> A) b : b < 256 ->
  match IpType_try_from (N.land (N.shiftr b 4) 0xf) with
  | Some V4 => K F_ipv4
  | Some V6 => K F_ipv6
  | None => K F_ethernet
  end = K (if b / 16 =? 4 then F_ipv4 else if b / 16 =? 6 then F_ipv6 else F_ethernet).
Proof.
  intros H. rewrite nibble by auto. unfold IpType_try_from, IpType_code. generalize (b / 16). intros v.
  destruct (v =? 4); auto. destruct (v =? 6); auto.
Qed.

Lemma type_word a b : a < 256 -> b < 256 -> N.lor (shl16 a 8) b = be [a; b].
Proof.
  intros Ha Hb. rewrite be2. unfold shl16, u16. rewrite N.shiftl_mul_pow2.
  rewrite N.mod_small by (change (2 ^ 8) with 256; change (2 ^ 16) with 65536; lia).
  apply lor_add. exact Hb.
Qed.

Lemma sub_bytes arr i : (i + 2 <= length arr)%nat -> sub arr i 2 = [nth i arr 0; nth (i + 1) arr 0].
Proof.
  revert arr; induction i as [|i IH]; intros arr H.
  - destruct arr as [|a [|b t]]; simpl in H; try lia. reflexivity.
  - destruct arr as [|a t]; simpl in H; [lia|]. cbn [Nat.add nth]. rewrite <- IH by lia. reflexivity.
Qed.

Lemma is_snap_val x rest : length x = 3%nat -> bytes_ok x ->
  is_snap (x ++ rest) = Ret (be x =? 0xAAAA03).
Proof.
  intros L H. destruct x as [|a [|b [|c [|]]]]; try discriminate. clear L.
  inversion H as [|? ? Ha H1]; subst. inversion H1 as [|? ? Hb H2]; subst. inversion H2 as [|? ? Hc H3]; subst.
  unfold byte_ok in *. unfold is_snap. cbn [app index nth_error obind].
  assert (E : be [a; b; c] = a * 65536 + b * 256 + c).
  { unfold be. cbn [length]. change (256 ^ N.of_nat 2) with 65536. change (256 ^ N.of_nat 1) with 256.
    change (256 ^ N.of_nat 0) with 1. lia. }
  rewrite E. clear E.
  destruct (N.eqb_spec a 0xAA) as [->|Na]; [destruct (N.eqb_spec b 0xAA) as [->|Nb];
    [cbn [obind]; destruct (N.eqb_spec c 0x03) as [->|Nc]; [reflexivity|]|]|];
    f_equal; symmetry; apply N.eqb_neq; lia.
Qed.

(** ** Pieces of the bodies *)

Lemma take_hdr_in T arr i h : (i + ht_size T <= length arr)%nat ->
  take_hdr T arr i h = (Ret (Hdr T (length h)), h ++ [Cell (sub arr i (ht_size T)) false]).
Proof.
  intros H. unfold take_hdr, slice, bind, lift.
  rewrite (proj2 (Nat.leb_le i (i + ht_size T))) by lia. rewrite (proj2 (Nat.leb_le _ _)) by auto.
  cbn [andb]. replace (i + ht_size T - i)%nat with (ht_size T) by lia. reflexivity.
Qed.
Lemma take_hdr_out T arr i h : (length arr < i + ht_size T)%nat ->
  take_hdr T arr i h = (Panic PSlice, h).
Proof.
  intros H. unfold take_hdr, slice, bind, lift.
  rewrite (proj2 (Nat.leb_gt (i + ht_size T) _)) by auto. rewrite andb_false_r. reflexivity.
Qed.
Lemma call_in rec f arr i h : (i <= length arr)%nat -> call rec f arr i h = rec f (skipn i arr) h.
Proof. intros H. unfold call, slice_from, bind, lift. rewrite (proj2 (Nat.leb_le _ _)) by auto. reflexivity. Qed.
Lemma call_out rec f arr i h : (length arr < i)%nat -> call rec f arr i h = (Panic PSlice, h).
Proof. intros H. unfold call, slice_from, bind, lift. rewrite (proj2 (Nat.leb_gt _ _)) by auto. reflexivity. Qed.

Lemma hget_fresh m T f d h : bytes_ok d -> field_in f (length d) -> (f_width f <= 64)%nat ->
  hget m (Hdr T (length h)) f (h ++ [Cell d false]) = (Ret (field_val d f), h ++ [Cell d false]).
Proof. intros. apply hget_val; auto. apply cell_at_last. Qed.

Lemma insert_run p x h : insert p x h = (Ret (Pkt (x :: p_hdrs p) (p_payload p)), h).
Proof. reflexivity. Qed.

Lemma take_hdr_app T x rest h : length x = ht_size T ->
  take_hdr T (x ++ rest) 0 h = (Ret (Hdr T (length h)), h ++ [Cell x false]).
Proof.
  intros L. rewrite take_hdr_in by (rewrite app_length; lia). unfold sub. cbn [skipn].
  rewrite firstn_app, <- L, firstn_all, Nat.sub_diag, app_nil_r. reflexivity.
Qed.
Lemma call_app rec f x rest n h : length x = n -> call rec f (x ++ rest) n h = rec f rest h.
Proof.
  intros <-. rewrite call_in by (rewrite app_length; lia).
  rewrite skipn_app, skipn_all, Nat.sub_diag. reflexivity.
Qed.

(** ** What a run of the slow parser must be *)

Definition seg_at (h : heap) (x : hdr) (s : seg) : Prop := h_ty x = fst s /\ cell_at h (h_ref x) (snd s).

Definition sres (f : pfun) (b : list N) (h : heap) (r : out packet * heap) : Prop :=
  (exists gs pl hs l, wire f b gs pl /\ r = (Ret (Pkt hs pl), h ++ l) /\
     Forall2 (seg_at (h ++ l)) hs (reported gs) /\ NoDup (map h_ref hs) /\
     Forall (fun x => (length h <= h_ref x)%nat) hs) \/
  (exists e l, cut_by f b e /\ r = (Panic e, h ++ l)).

Lemma Forall2_seg_app h l hs s : Forall2 (seg_at h) hs s -> Forall2 (seg_at (h ++ l)) hs s.
Proof. induction 1 as [|x s hs ss [E C]]; constructor; auto. split; auto. apply cell_at_app; auto. Qed.

Lemma Forall2_seg_lt h hs s : Forall2 (seg_at h) hs s -> Forall (fun x => (h_ref x < length h)%nat) hs.
Proof. induction 1 as [|x s hs ss [E C]]; constructor; auto. eapply cell_at_lt; eauto. Qed.

Lemma NoDup_split_lt n (a b : list nat) : NoDup a -> NoDup b ->
  Forall (fun x => (x < n)%nat) a -> Forall (fun x => (n <= x)%nat) b -> NoDup (a ++ b).
Proof.
  intros Ha Hb Fa Fb. induction a as [|x a IH]; auto. inversion Ha; subst. inversion Fa; subst.
  simpl. constructor; auto. rewrite in_app_iff. intros [I|I]; auto.
  rewrite Forall_forall in Fb. specialize (Fb _ I). lia.
Qed.

Definition wrap (xs : list hdr) (r : out packet * heap) : out packet * heap :=
  match r with
  | (Ret p, h') => (Ret (Pkt (xs ++ p_hdrs p) (p_payload p)), h')
  | r => r
  end.

Lemma sres_step f T x os rest g h l1 xs r :
  header_of f = Some T -> length x = ht_size T ->
  map (@length N) os = map ht_size (options f x) -> demux f x rest = Some g ->
  Forall2 (seg_at (h ++ l1)) xs ((T, x) :: rev (combine (options f x) os)) ->
  NoDup (map h_ref xs) -> Forall (fun y => (length h <= h_ref y)%nat) xs ->
  sres g rest (h ++ l1) r ->
  sres f (x ++ concat os ++ rest) h (wrap xs r).
Proof.
  intros Hf Lx Lo D F ND Lw [(gs & pl & hs & l & W & -> & F2 & ND2 & Lw2)|(e & l & C & ->)].
  - left. exists ([(T, x)] :: combine (options f x) os :: gs), pl, (xs ++ hs), (l1 ++ l).
    rewrite <- app_assoc in *. split; [eapply W_header; eauto|]. split; [reflexivity|]. split.
    + unfold reported. cbn [map concat rev app].
      change ((T, x) :: rev (combine (options f x) os) ++ concat (map (@rev seg) gs))
        with (((T, x) :: rev (combine (options f x) os)) ++ reported gs).
      apply Forall2_app; auto. rewrite app_assoc. apply Forall2_seg_app. auto.
    + split.
      * rewrite map_app. apply (NoDup_split_lt (length (h ++ l1))); auto.
        -- apply Forall_map. apply (Forall2_seg_lt _ _ _ F).
        -- apply Forall_map. exact Lw2.
      * apply Forall_app. split; auto. eapply Forall_impl; [|exact Lw2]. intros a. cbv beta.
        rewrite app_length. lia.
  - right. exists e, (l1 ++ l). rewrite <- app_assoc. split; [eapply D_next; eauto|reflexivity].
Qed.

(** The first header, or what must follow it at once, is missing. *)
Inductive cut_here : pfun -> list N -> fault -> Prop :=
| H_header f T b : header_of f = Some T -> (length b < ht_size T)%nat -> cut_here f b PSlice
| H_options f T x rest :
    header_of f = Some T -> length x = ht_size T ->
    (length rest < list_sum (map ht_size (options f x)))%nat -> cut_here f (x ++ rest) PSlice
| H_peek f T x os rest :
    header_of f = Some T -> length x = ht_size T ->
    map (@length N) os = map ht_size (options f x) ->
    demux f x rest = None -> cut_here f (x ++ concat os ++ rest) PIndex.
Lemma cut_here_by f b e : cut_here f b e -> cut_by f b e.
Proof. destruct 1; [eapply D_header|eapply D_options|eapply D_peek]; eauto. Qed.

(** A header copied after the rest is parsed. *)
Definition wrap_post (T : htype) (x : list N) (r : out packet * heap) : out packet * heap :=
  match r with
  | (Ret p, h') => (Ret (Pkt (Hdr T (length h') :: p_hdrs p) (p_payload p)), h' ++ [Cell x false])
  | r => r
  end.
Lemma sres_post f T x rest g h r :
  header_of f = Some T -> length x = ht_size T -> options f x = [] -> demux f x rest = Some g ->
  sres g rest h r ->
  sres f (x ++ rest) h (wrap_post T x r).
Proof.
  intros Hf Lx O D [(gs & pl & hs & l & W & -> & F2 & ND2 & Lw2)|(e & l & C & ->)].
  - left. exists ([(T, x)] :: [] :: gs), pl, (Hdr T (length (h ++ l)) :: hs), (l ++ [Cell x false]).
    split.
    { change (x ++ rest) with (x ++ concat [] ++ rest).
      replace ([] : list seg) with (combine (options f x) (@nil (list N))) by (rewrite O; reflexivity).
      eapply W_header; eauto. rewrite O. reflexivity. }
    split; [cbn [wrap_post]; rewrite app_assoc; reflexivity|]. rewrite app_assoc. split.
    + unfold reported. cbn [map concat rev app]. constructor.
      * split; [reflexivity|apply cell_at_last].
      * apply Forall2_seg_app; auto.
    + split.
      * cbn [map h_ref]. constructor; auto. intros I. apply in_map_iff in I. destruct I as (y & E & I).
        apply Forall2_seg_lt in F2. rewrite Forall_forall in F2. specialize (F2 _ I). lia.
      * constructor; auto. cbn [h_ref]. rewrite app_length. lia.
  - right. exists e, l. split; [|reflexivity]. change (x ++ rest) with (x ++ concat [] ++ rest).
    eapply D_next; eauto. rewrite O. reflexivity.
Qed.

Lemma entry_parse t v : Forall (fun p => snd p <> F_parse) t -> entry t v <> F_parse.
Proof.
  induction t as [|[k f] t IHt]; intros H; [discriminate|]. inversion H; subst. cbn [entry].
  destruct (k =? v); auto.
Qed.
Lemma tables_parse : Forall (Forall (fun p : N * pfun => snd p <> F_parse))
  [ethertypes; gre_protocols; ipv4_protocols; ipv6_next_headers].
Proof. repeat constructor; discriminate. Qed.
Lemma demux_parse f x rest g : demux f x rest = Some g -> g <> F_parse.
Proof.
  pose proof tables_parse as T. rewrite !Forall_cons_iff in T. destruct T as (T1 & T2 & T3 & T4 & _).
  intros D. destruct f; cbn [demux] in D; try discriminate; try (destruct rest; [discriminate|]);
    repeat match type of D with Some (if ?b then _ else _) = _ => destruct b end;
    match type of D with Some ?X = Some _ => assert (EE : g = X) by congruence; rewrite EE end;
    first [discriminate|apply entry_parse; assumption].
Qed.

Lemma sres_step' f T x os rest g h l1 h1 xs b r0 r :
  header_of f = Some T -> length x = ht_size T ->
  map (@length N) os = map ht_size (options f x) -> demux f x rest = Some g -> h1 = h ++ l1 ->
  Forall2 (seg_at h1) xs ((T, x) :: rev (combine (options f x) os)) ->
  NoDup (map h_ref xs) -> Forall (fun y => (length h <= h_ref y)%nat) xs ->
  sres g rest h1 r -> b = x ++ concat os ++ rest -> r0 = wrap xs r ->
  sres f b h r0.
Proof. intros; subst; eapply sres_step; eauto. Qed.

Lemma sres_cut f b h h1 l e : cut_by f b e -> h1 = h ++ l -> sres f b h (Panic e, h1).
Proof. intros C ->. right. exists e, l. auto. Qed.

(** ** The bodies *)

Section Bodies.
Variable m : mode.
Variable rec : pfun -> list N -> M packet.
Variable arr : list N.
Hypothesis arr_ok : bytes_ok arr.
(** What is known of the calls, and what follows for the caller. *)
Variables P Q : pfun -> list N -> heap -> out packet * heap -> Prop.
Hypothesis IH : forall g r h, (length r + 3 <= length arr)%nat -> bytes_ok r -> g <> F_parse -> P g r h (rec g r h).
Hypothesis Q_step : forall f T x os rest g h l1 h1 xs b r0 r,
  header_of f = Some T -> length x = ht_size T ->
  map (@length N) os = map ht_size (options f x) -> demux f x rest = Some g -> h1 = h ++ l1 ->
  Forall2 (seg_at h1) xs ((T, x) :: rev (combine (options f x) os)) ->
  NoDup (map h_ref xs) -> Forall (fun y => (length h <= h_ref y)%nat) xs ->
  P g rest h1 r -> b = x ++ concat os ++ rest -> r0 = wrap xs r ->
  Q f b h r0.
Hypothesis Q_post : forall f T x rest g h r,
  header_of f = Some T -> length x = ht_size T -> options f x = [] -> demux f x rest = Some g ->
  P g rest h r -> Q f (x ++ rest) h (wrap_post T x r).
Hypothesis Q_cut : forall f b h h1 l e, cut_here f b e -> h1 = h ++ l -> Q f b h (Panic e, h1).
Hypothesis Q_accept : forall b h, Q F_accept b h (Ret (Pkt [] b), h).

Lemma q_pre f T x rest g h r :
  header_of f = Some T -> length x = ht_size T -> options f x = [] -> demux f x rest = Some g ->
  P g rest (h ++ [Cell x false]) r ->
  Q f (x ++ rest) h (wrap [Hdr T (length h)] r).
Proof.
  intros Hf Lx O D R. change (x ++ rest) with (x ++ concat [] ++ rest).
  eapply (Q_step f T x [] rest g h [Cell x false] _ [Hdr T (length h)]); eauto.
  - rewrite O. reflexivity.
  - rewrite O. simpl. constructor; [|constructor]. split; [reflexivity|]. apply cell_at_last.
  - repeat constructor. auto.
Qed.
Lemma q_short f T b h : header_of f = Some T -> (length b < ht_size T)%nat -> Q f b h (Panic PSlice, h).
Proof. intros. eapply Q_cut; [eapply H_header; eauto|symmetry; apply app_nil_r]. Qed.

(** Splitting off the first header. *)
Lemma split_arr n : (n <= length arr)%nat ->
  arr = sub arr 0 n ++ skipn n arr /\ length (sub arr 0 n) = n /\ bytes_ok (sub arr 0 n) /\ bytes_ok (skipn n arr).
Proof.
  intros H. split; [symmetry; apply firstn_skipn|]. split; [apply sub_length; auto|].
  split; [apply sub_ok; auto|apply bytes_ok_skipn; auto].
Qed.

(** A body of the shape: copy the header, decide, parse the rest, insert. *)
Lemma body_pre f T h (r : out packet * heap) :
  header_of f = Some T -> (3 <= ht_size T)%nat ->
  ((length arr < ht_size T)%nat -> r = (Panic PSlice, h)) ->
  (forall x rest, arr = x ++ rest -> length x = ht_size T -> bytes_ok x -> bytes_ok rest ->
     options f x = [] /\
     ((exists g, demux f x rest = Some g /\ r = wrap [Hdr T (length h)] (rec g rest (h ++ [Cell x false]))) \/
      (demux f x rest = None /\ r = (Panic PIndex, h ++ [Cell x false])))) ->
  Q f arr h r.
Proof.
  intros Hf S Short Long. destruct (le_lt_dec (ht_size T) (length arr)) as [L|L].
  - destruct (split_arr _ L) as (E & Lx & Ox & Or). set (x := sub arr 0 (ht_size T)) in *.
    set (rest := skipn (ht_size T) arr) in *.
    assert (Lr : (length rest + 3 <= length arr)%nat) by (rewrite E, app_length; lia).
    destruct (Long x rest E Lx Ox Or) as (O & [(g & D & ->)|(D & ->)]).
    + rewrite E. eapply q_pre; eauto. apply IH; auto. eapply demux_parse; eauto.
    + eapply Q_cut; [|reflexivity]. rewrite E.
      change (x ++ rest) with (x ++ concat [] ++ rest). eapply H_peek; eauto. rewrite O. reflexivity.
  - rewrite Short by auto. eapply q_short; eauto.
Qed.

Lemma wrap_bind (k : M packet) hd h : bind k (fun p => insert p hd) h = wrap [hd] (k h).
Proof. unfold bind, wrap. destruct (k h) as [[| | | |] ?]; reflexivity. Qed.

Ltac start T f :=
  apply (body_pre f T); [reflexivity|cbn; lia|
    intros HS; unfold bind; rewrite take_hdr_out by exact HS; reflexivity|
    let x := fresh "x" in let rest := fresh "rest" in
    intros x rest E Lx Ox Or; split; [reflexivity|]; rewrite E;
    rewrite (bind_ret _ _ _ _ _ (take_hdr_app T x rest _ Lx))].
Ltac getf Ox Lx := 
  match goal with |- context [bind (hget m (Hdr ?T (length ?h)) ?f) _ (?h ++ [Cell ?x false])] =>
    rewrite (bind_ret _ _ _ _ _ (hget_fresh m T f x h Ox
       ltac:(rewrite Lx; unfold field_in; cbn; lia) ltac:(unfold f_width; cbn; lia))) end.
Ltac finish_pre Lx := rewrite wrap_bind; cbv beta; rewrite (call_app _ _ _ _ _ _ Lx); reflexivity.

Lemma val_sub x f i n : bytes_ok x -> f_start f = (8 * i)%nat -> f_end f = (8 * i + 8 * n - 1)%nat ->
  (i + n <= length x)%nat -> (0 < n)%nat -> field_val x f = be (sub x i n).
Proof. intros. unfold field_val. rewrite H0, H1. apply bits_val_sub; auto. Qed.
Lemma val_bit x f i : bytes_ok x -> f_start f = i -> f_end f = i -> (i < 8 * length x)%nat ->
  field_val x f = b2n (bit x i).
Proof. intros. unfold field_val. rewrite H0, H1. apply bits_val_bit; auto. Qed.
Lemma u16_sub x i : bytes_ok x -> (i + 2 <= length x)%nat -> u16 (be (sub x i 2)) = be (sub x i 2).
Proof. intros. unfold u16. apply N.mod_small. apply (be_sub_bound x i 2); auto. Qed.
Lemma u8_sub x i : bytes_ok x -> (i + 1 <= length x)%nat -> u8 (be (sub x i 1)) = be (sub x i 1).
Proof. intros. unfold u8. apply N.mod_small. apply (be_sub_bound x i 1); auto. Qed.
Lemma b2n_eqb b : (b2n b =? 1) = b.
Proof. destruct b; reflexivity. Qed.

Lemma s_dot3 h : Q F_dot3 arr h (parse_dot3_body rec arr h).
Proof. unfold parse_dot3_body. start Dot3 F_dot3. left. exists F_llc. split; [reflexivity|]. finish_pre Lx. Qed.

Lemma s_llc h : Q F_llc arr h (parse_llc_body rec arr h).
Proof.
  unfold parse_llc_body. start LLC F_llc. left. eexists. split; [reflexivity|].
  unfold bind at 1. unfold lift. rewrite is_snap_val by auto. destruct (be x =? 0xAAAA03); finish_pre Lx.
Qed.

Lemma s_snap h : Q F_snap arr h (parse_snap_body rec arr h).
Proof. unfold parse_snap_body. start SNAP F_snap. left. exists F_accept. split; [reflexivity|]. finish_pre Lx. Qed.

Lemma s_ethernet h : Q F_ethernet arr h (parse_ethernet_body m rec arr h).
Proof.
  unfold parse_ethernet_body. start Ether F_ethernet. left. eexists. split; [reflexivity|].
  getf Ox Lx. rewrite (val_sub x Ether_etype 12 2) by (auto; rewrite Lx; cbn; lia).
  rewrite u16_sub by (auto; rewrite Lx; cbn; lia).
  rewrite (ether_demux (fun g => call rec g (x ++ rest) (ht_size Ether))). finish_pre Lx.
Qed.

Lemma s_vlan h : Q F_vlan arr h (parse_vlan_body m rec arr h).
Proof.
  unfold parse_vlan_body. start Vlan F_vlan. left. eexists. split; [reflexivity|].
  getf Ox Lx. rewrite (val_sub x Vlan_etype 2 2) by (auto; rewrite Lx; cbn; lia).
  rewrite u16_sub by (auto; rewrite Lx; cbn; lia).
  rewrite (ether_demux (fun g => call rec g (x ++ rest) (ht_size Vlan))). finish_pre Lx.
Qed.

Lemma s_mpls h : Q F_mpls arr h (parse_mpls_body m rec arr h).
Proof.
  unfold parse_mpls_body. start MPLS F_mpls. left. eexists. split; [reflexivity|].
  getf Ox Lx. rewrite (val_bit x MPLS_bos 23) by (auto; rewrite Lx; cbn; lia).
  rewrite b2n_eqb. destruct (bit x 23); finish_pre Lx.
Qed.

Lemma s_mpls_bos h : Q F_mpls_bos arr h (parse_mpls_bos_body rec arr h).
Proof.
  unfold parse_mpls_bos_body. start MPLS F_mpls_bos.
  unfold bind at 1. unfold lift, index. rewrite nth_error_app2 by (rewrite Lx; lia).
  rewrite Lx, Nat.sub_diag. destruct rest as [|b t].
  - right. split; reflexivity.
  - left. eexists. split; [reflexivity|]. cbn [nth_error]. inversion Or; subst.
    rewrite (iptype_demux (fun g => call rec g (x ++ b :: t) (ht_size MPLS))) by auto. finish_pre Lx.
Qed.

Lemma s_ipv4 h : Q F_ipv4 arr h (parse_ipv4_body m rec arr h).
Proof.
  unfold parse_ipv4_body. start IPv4 F_ipv4. left. eexists. split; [reflexivity|].
  getf Ox Lx. rewrite (val_sub x IPv4_protocol 9 1) by (auto; rewrite Lx; cbn; lia).
  rewrite u8_sub by (auto; rewrite Lx; cbn; lia).
  rewrite (ip4_demux (fun g => call rec g (x ++ rest) (ht_size IPv4))). finish_pre Lx.
Qed.

Lemma s_ipv6 h : Q F_ipv6 arr h (parse_ipv6_body m rec arr h).
Proof.
  unfold parse_ipv6_body. start IPv6 F_ipv6. left. eexists. split; [reflexivity|].
  getf Ox Lx. rewrite (val_sub x IPv6_next_hdr 6 1) by (auto; rewrite Lx; cbn; lia).
  rewrite u8_sub by (auto; rewrite Lx; cbn; lia).
  rewrite (ip6_demux (fun g => call rec g (x ++ rest) (ht_size IPv6))). finish_pre Lx.
Qed.

Lemma s_erspan2 h : Q F_erspan2 arr h (parse_erspan2_body rec arr h).
Proof. unfold parse_erspan2_body. start ERSPAN2 F_erspan2. left. exists F_ethernet. split; [reflexivity|]. finish_pre Lx. Qed.

Lemma s_udp h : Q F_udp arr h (parse_udp_body m rec arr h).
Proof.
  unfold parse_udp_body. start UDP F_udp. left. eexists. split; [reflexivity|].
  getf Ox Lx. rewrite (val_sub x UDP_dst 2 2) by (auto; rewrite Lx; cbn; lia).
  rewrite u16_sub by (auto; rewrite Lx; cbn; lia).
  destruct (be (sub x 2 2) =? 4789); finish_pre Lx.
Qed.

Lemma body_post f T g h :
  header_of f = Some T -> (3 <= ht_size T)%nat -> (forall x, options f x = []) ->
  (forall x rest, demux f x rest = Some g) ->
  Q f arr h ((mlet pkt := call rec g arr (ht_size T) in mlet x := take_hdr T arr 0 in insert pkt x) h).
Proof.
  intros Hf S O D. destruct (le_lt_dec (ht_size T) (length arr)) as [L|L].
  - destruct (split_arr _ L) as (E & Lx & Ox & Or). set (x := sub arr 0 (ht_size T)) in *.
    set (rest := skipn (ht_size T) arr) in *.
    assert (Lr : (length rest + 3 <= length arr)%nat) by (rewrite E, app_length; lia).
    pose proof (Q_post f T x rest g h _ Hf Lx (O x) (D x rest) (IH g rest h Lr Or (demux_parse _ _ _ _ (D x rest)))) as R.
    rewrite E. unfold bind at 1. rewrite call_app by auto.
    destruct (rec g rest h) as [[p| | | |] h']; try exact R.
    unfold bind. rewrite take_hdr_app by auto. exact R.
  - unfold bind. rewrite call_out by auto. eapply q_short; eauto.
Qed.


(** Options. *)
Lemma opt_ok T (b : bool) done rest h off : off = length done -> (b = true -> (ht_size T <= length rest)%nat) ->
  exists o rest' oh l, rest = o ++ rest' /\
    opt_hdr (b2n b) T (done ++ rest) off h = (Ret (oh, length (done ++ o)), h ++ l) /\
    ((b = true /\ oh = Some (Hdr T (length h)) /\ l = [Cell o false] /\ length o = ht_size T) \/
     (b = false /\ oh = None /\ l = [] /\ o = [])).
Proof.
  intros -> H. unfold opt_hdr. rewrite b2n_eqb. destruct b.
  - specialize (H eq_refl). exists (firstn (ht_size T) rest), (skipn (ht_size T) rest), (Some (Hdr T (length h))).
    eexists. split; [symmetry; apply firstn_skipn|].
    assert (Lo : length (firstn (ht_size T) rest) = ht_size T) by (rewrite firstn_length; lia).
    split; [|left; split; [reflexivity|split; [reflexivity|split; [reflexivity|exact Lo]]]].
    unfold bind. rewrite take_hdr_in by (rewrite app_length; lia).
    unfold sub. rewrite skipn_app, skipn_all, Nat.sub_diag. cbn [skipn app].
    rewrite app_length, Lo. reflexivity.
  - exists [], rest, None, []. split; [reflexivity|]. split; [rewrite !app_nil_r; reflexivity|right; auto].
Qed.
Lemma opt_cut T done rest h off : off = length done -> (length rest < ht_size T)%nat ->
  opt_hdr (b2n true) T (done ++ rest) off h = (Panic PSlice, h).
Proof.
  intros -> H. unfold opt_hdr. cbn [b2n]. change (1 =? 1) with true. cbn iota.
  unfold bind. rewrite take_hdr_out by (rewrite app_length; lia). reflexivity.
Qed.

Ltac heaps := rewrite ?app_nil_r; rewrite <- ?app_assoc; reflexivity.
Ltac segs := repeat match goal with
  | |- Forall2 _ [] [] => constructor
  | |- Forall2 _ (_ :: _) (_ :: _) => constructor
  | |- seg_at _ _ _ => split; [reflexivity|cbn [h_ref snd]]
  | |- cell_at _ _ _ => first [apply cell_at_last|apply cell_at_app]
  end.
Ltac nodup := cbn [map h_ref]; rewrite ?app_nil_r, ?app_length; cbn [length];
  repeat constructor; cbn [In]; intuition lia.
Ltac lows := repeat constructor; cbn [h_ref]; rewrite ?app_length; lia.

Lemma s_erspan3 h : Q F_erspan3 arr h (parse_erspan3_body m rec arr h).
Proof.
  unfold parse_erspan3_body. destruct (le_lt_dec 12 (length arr)) as [L|L].
  2: { unfold bind. rewrite take_hdr_out by exact L. eapply q_short; [reflexivity|exact L]. }
  destruct (split_arr 12 L) as (E & Lx & Ox & Or). set (x := sub arr 0 12) in *.
  set (rest := skipn 12 arr) in *. clearbody x rest. rewrite E.
  rewrite (bind_ret _ _ _ _ _ (take_hdr_app ERSPAN3 x rest h Lx)). getf Ox Lx.
  rewrite (val_bit x ERSPAN3_o 95) by (auto; rewrite Lx; cbn; lia).
  assert (Lr : length arr = (12 + length rest)%nat) by (rewrite E, app_length, Lx; reflexivity).
  assert (Opt : options F_erspan3 x = if bit x 95 then [ERSPANPLATFORM] else []) by reflexivity.
  destruct (bit x 95) eqn:B.
  - destruct (le_lt_dec (ht_size ERSPANPLATFORM) (length rest)) as [L2|L2].
    2: { unfold bind. rewrite opt_cut by (auto; rewrite Lx; reflexivity).
         eapply Q_cut; [|reflexivity]. eapply H_options; [reflexivity|exact Lx|].
         rewrite Opt. cbn in L2 |- *. lia. }
    destruct (opt_ok ERSPANPLATFORM true x rest (h ++ [Cell x false]) (0 + ht_size ERSPAN3)) as
      (o & rest' & oh & l & Eo & Run & [(_ & -> & -> & Lo)|(K & _)]); [rewrite Lx; reflexivity|auto| |discriminate].
    rewrite (bind_ret _ _ _ _ _ Run). cbv beta iota. rewrite Eo, app_assoc.
    eapply (Q_step F_erspan3 ERSPAN3 x [o] rest' F_ethernet h ([Cell x false] ++ [Cell o false]) ((h ++ [Cell x false]) ++ [Cell o false])).
    1-2: first [reflexivity|exact Lx].
    2: reflexivity.
    + rewrite Opt. cbn. rewrite Lo. reflexivity.
    + rewrite app_assoc. reflexivity.
    + rewrite Opt. cbn [rev combine app].
      instantiate (1 := [Hdr ERSPAN3 (length h); Hdr ERSPANPLATFORM (length (h ++ [Cell x false]))]). segs.
    + nodup.
    + lows.
    + apply IH; [| |discriminate].
      * rewrite Lr, Eo, app_length. lia.
      * rewrite Eo in Or. apply bytes_ok_app in Or. tauto.
    + cbn [concat]. rewrite app_nil_r, app_assoc. reflexivity.
    + unfold bind at 1. rewrite call_app by reflexivity. unfold wrap.
      destruct (rec F_ethernet rest' _) as [[p| | | |] h']; reflexivity.
  - destruct (opt_ok ERSPANPLATFORM false x rest (h ++ [Cell x false]) (0 + ht_size ERSPAN3)) as
      (o & rest' & oh & l & Eo & Run & [(K & _)|(_ & -> & -> & ->)]); [rewrite Lx; reflexivity|discriminate|discriminate|].
    rewrite (bind_ret _ _ _ _ _ Run). cbv beta iota. cbn [app] in Eo. subst rest'. rewrite !app_nil_r.
    eapply (Q_step F_erspan3 ERSPAN3 x [] rest F_ethernet h [Cell x false] (h ++ [Cell x false])).
    1-2: first [reflexivity|exact Lx].
    2-3: reflexivity.
    + rewrite Opt. reflexivity.
    + rewrite Opt. cbn [rev combine app]. instantiate (1 := [Hdr ERSPAN3 (length h)]). segs.
    + nodup.
    + lows.
    + apply IH; auto; [lia|discriminate].
    + reflexivity.
    + unfold bind at 1. rewrite call_app by reflexivity. unfold wrap.
      destruct (rec F_ethernet rest _) as [[p| | | |] h']; reflexivity.
Qed.

Lemma opt_total T (b : bool) done rest h off : off = length done ->
  (b = true /\ (length rest < ht_size T)%nat /\ opt_hdr (b2n b) T (done ++ rest) off h = (Panic PSlice, h)) \/
  exists o rest' oh l, rest = o ++ rest' /\
    opt_hdr (b2n b) T (done ++ rest) off h = (Ret (oh, length (done ++ o)), h ++ l) /\
    ((b = true /\ oh = Some (Hdr T (length h)) /\ l = [Cell o false] /\ length o = ht_size T) \/
     (b = false /\ oh = None /\ l = [] /\ o = [])).
Proof.
  intros Eo. destruct b.
  - destruct (le_lt_dec (ht_size T) (length rest)) as [L|L].
    + right. apply opt_ok; auto.
    + left. split; auto. split; auto. apply opt_cut; auto.
  - right. apply opt_ok; auto. discriminate.
Qed.

Ltac gre_case x h g rest3 Lx Opt D R os h1 xs :=
  eapply (Q_step F_gre GRE x os rest3 g h _ h1 xs);
    [reflexivity|exact Lx|rewrite Opt; cbn [map]; repeat f_equal; assumption
    |apply D|rewrite <- ?app_assoc; reflexivity
    |rewrite Opt; cbn [rev combine app]; segs|nodup|lows|apply R
    |cbn [concat]; rewrite ?app_nil_r, <- ?app_assoc; reflexivity|];
  unfold bind at 1; rewrite call_app by reflexivity; unfold wrap;
  destruct (rec g rest3 _) as [[p| | | |] h']; reflexivity.

Lemma s_gre h : Q F_gre arr h (parse_gre_body m rec arr h).
Proof.
  unfold parse_gre_body. destruct (le_lt_dec 4 (length arr)) as [L|L].
  2: { unfold bind. rewrite take_hdr_out by exact L. eapply q_short; [reflexivity|exact L]. }
  destruct (split_arr 4 L) as (E & Lx & Ox & Or). set (x := sub arr 0 4) in *.
  set (rest := skipn 4 arr) in *. clearbody x rest. rewrite E.
  rewrite (bind_ret _ _ _ _ _ (take_hdr_app GRE x rest h Lx)). do 4 getf Ox Lx.
  rewrite (val_sub x GRE_proto 2 2) by (auto; rewrite Lx; cbn; lia).
  rewrite (val_bit x GRE_chksum_present 0), (val_bit x GRE_key_present 2), (val_bit x GRE_seqnum_present 3)
    by (auto; rewrite Lx; cbn; lia).
  rewrite u16_sub by (auto; rewrite Lx; cbn; lia).
  assert (Lr : length arr = (4 + length rest)%nat) by (rewrite E, app_length, Lx; reflexivity).
  assert (Opt : options F_gre x = (if bit x 0 then [GREChksumOffset] else []) ++
     (if bit x 2 then [GREKey] else []) ++ (if bit x 3 then [GRESequenceNum] else [])) by reflexivity.
  assert (D : forall r, demux F_gre x r = Some (entry gre_protocols (be (sub x 2 2)))) by reflexivity.
  set (v := be (sub x 2 2)) in *. clearbody v.
  remember (bit x 0) as c eqn:Bc. remember (bit x 2) as k eqn:Bk. remember (bit x 3) as s eqn:Bs. clear Bc Bk Bs.
  destruct (opt_total GREChksumOffset c x rest (h ++ [Cell x false]) (0 + ht_size GRE) ltac:(rewrite Lx; reflexivity))
    as [(-> & L1 & Run)|(o1 & rest1 & oh1 & l1 & E1 & Run1 & C1)].
  { rewrite (bind_panic _ _ _ _ _ Run). eapply Q_cut; [|reflexivity]. eapply H_options; [reflexivity|exact Lx|].
    rewrite Opt. destruct k, s; cbn in L1 |- *; lia. }
  rewrite (bind_ret _ _ _ _ _ Run1). cbv beta iota. rewrite E1, app_assoc.
  destruct (opt_total GREKey k (x ++ o1) rest1 ((h ++ [Cell x false]) ++ l1) (length (x ++ o1)) eq_refl)
    as [(-> & L2 & Run)|(o2 & rest2 & oh2 & l2 & E2 & Run2 & C2)].
  { rewrite (bind_panic _ _ _ _ _ Run). rewrite <- app_assoc.
    eapply Q_cut; [|rewrite <- app_assoc; reflexivity]. eapply H_options; [reflexivity|exact Lx|].
    rewrite Opt. destruct C1 as [(-> & _ & _ & Lo)|(-> & _ & _ & ->)]; destruct s;
    rewrite app_length; cbn in L2 |- *; try (cbn in Lo); lia. }
  rewrite (bind_ret _ _ _ _ _ Run2). cbv beta iota. rewrite E2, app_assoc.
  destruct (opt_total GRESequenceNum s ((x ++ o1) ++ o2) rest2 (((h ++ [Cell x false]) ++ l1) ++ l2)
      (length ((x ++ o1) ++ o2)) eq_refl)
    as [(-> & L3 & Run)|(o3 & rest3 & oh3 & l3 & E3 & Run3 & C3)].
  { rewrite (bind_panic _ _ _ _ _ Run). rewrite <- !app_assoc.
    eapply Q_cut; [|reflexivity]. eapply H_options; [reflexivity|exact Lx|].
    rewrite Opt. destruct C1 as [(-> & _ & _ & Lo)|(-> & _ & _ & ->)];
      destruct C2 as [(-> & _ & _ & Lo2)|(-> & _ & _ & ->)];
    rewrite ?app_length; cbn in L3 |- *; try (cbn in Lo); try (cbn in Lo2); lia. }
  rewrite (bind_ret _ _ _ _ _ Run3). cbv beta iota. rewrite E3, app_assoc.
  rewrite (gre_demux (fun g => call rec g ((((x ++ o1) ++ o2) ++ o3) ++ rest3) (length (((x ++ o1) ++ o2) ++ o3)))).
  assert (R : forall hh, P (entry gre_protocols v) rest3 hh (rec (entry gre_protocols v) rest3 hh)).
  { intros hh. apply IH.
    - rewrite Lr, E1, E2, E3, !app_length. lia.
    - rewrite E1, E2, E3, !bytes_ok_app in Or. tauto.
    - eapply demux_parse. apply (D []). }
  set (g := entry gre_protocols v) in *.
  clear Run1 Run2 Run3 E1 E2 E3 Or E.
  destruct C1 as [(-> & -> & -> & Lo1)|(-> & -> & -> & ->)];
  destruct C2 as [(-> & -> & -> & Lo2)|(-> & -> & -> & ->)];
  destruct C3 as [(-> & -> & -> & Lo3)|(-> & -> & -> & ->)]; cbn [app] in Opt; rewrite ?app_nil_r.
  - gre_case x h g rest3 Lx Opt D R ([o1; o2; o3]) ((((h ++ [Cell x false]) ++ [Cell o1 false]) ++ [Cell o2 false]) ++ [Cell o3 false])
      [Hdr GRE (length h); Hdr GRESequenceNum (length (((h ++ [Cell x false]) ++ [Cell o1 false]) ++ [Cell o2 false])); Hdr GREKey (length ((h ++ [Cell x false]) ++ [Cell o1 false])); Hdr GREChksumOffset (length (h ++ [Cell x false]))].
  - gre_case x h g rest3 Lx Opt D R ([o1; o2]) (((h ++ [Cell x false]) ++ [Cell o1 false]) ++ [Cell o2 false])
      [Hdr GRE (length h); Hdr GREKey (length ((h ++ [Cell x false]) ++ [Cell o1 false])); Hdr GREChksumOffset (length (h ++ [Cell x false]))].
  - gre_case x h g rest3 Lx Opt D R ([o1; o3]) (((h ++ [Cell x false]) ++ [Cell o1 false]) ++ [Cell o3 false])
      [Hdr GRE (length h); Hdr GRESequenceNum (length ((h ++ [Cell x false]) ++ [Cell o1 false])); Hdr GREChksumOffset (length (h ++ [Cell x false]))].
  - gre_case x h g rest3 Lx Opt D R ([o1]) ((h ++ [Cell x false]) ++ [Cell o1 false])
      [Hdr GRE (length h); Hdr GREChksumOffset (length (h ++ [Cell x false]))].
  - gre_case x h g rest3 Lx Opt D R ([o2; o3]) (((h ++ [Cell x false]) ++ [Cell o2 false]) ++ [Cell o3 false])
      [Hdr GRE (length h); Hdr GRESequenceNum (length ((h ++ [Cell x false]) ++ [Cell o2 false])); Hdr GREKey (length (h ++ [Cell x false]))].
  - gre_case x h g rest3 Lx Opt D R ([o2]) ((h ++ [Cell x false]) ++ [Cell o2 false])
      [Hdr GRE (length h); Hdr GREKey (length (h ++ [Cell x false]))].
  - gre_case x h g rest3 Lx Opt D R ([o3]) ((h ++ [Cell x false]) ++ [Cell o3 false])
      [Hdr GRE (length h); Hdr GRESequenceNum (length (h ++ [Cell x false]))].
  - gre_case x h g rest3 Lx Opt D R (@nil (list N)) (h ++ [Cell x false])
      [Hdr GRE (length h)].
Qed.

Lemma s_accept h : Q F_accept arr h (accept_body arr h).
Proof.
  apply Q_accept.
Qed.

Lemma s_body f h : f <> F_parse -> Q f arr h (slow_body m rec f arr h).
Proof.
  intros Hf. destruct f; cbn [slow_body]; try congruence.
  - apply s_dot3.
  - apply s_llc.
  - apply s_snap.
  - apply s_ethernet.
  - apply s_vlan.
  - apply s_mpls.
  - apply s_mpls_bos.
  - apply s_ipv4.
  - apply s_ipv6.
  - apply s_gre.
  - apply s_erspan2.
  - apply s_erspan3.
  - unfold parse_leaf_body. apply body_post; try reflexivity. cbn. lia.
  - unfold parse_leaf_body. apply body_post; try reflexivity. cbn. lia.
  - unfold parse_leaf_body. apply body_post; try reflexivity. cbn. lia.
  - apply s_udp.
  - unfold parse_vxlan_body. apply body_post; try reflexivity. cbn. lia.
  - apply s_accept.
Qed.
End Bodies.

Lemma s_parse rec arr h : bytes_ok arr ->
  (forall g hh, g = F_dot3 \/ g = F_ethernet -> sres g arr hh (rec g arr hh)) ->
  sres F_parse arr h (parse_body rec arr h).
Proof.
  intros arr_ok R. unfold parse_body. destruct (le_lt_dec 14 (length arr)) as [L|L].
  - unfold bind, lift. rewrite (index_lt arr 12 0), (index_lt arr 13 0) by lia.
    rewrite type_word by (apply bytes_ok_nth; auto).
    change [nth 12 arr 0; nth 13 arr 0] with [nth 12 arr 0; nth (12 + 1) arr 0].
    rewrite <- sub_bytes by lia.
    assert (R' : forall g, g = F_dot3 \/ g = F_ethernet ->
      g = (if be (sub arr 12 2) <? 1500 then F_dot3 else F_ethernet) -> sres F_parse arr h (rec g arr h)).
    { intros g Hg Eg. destruct (R g h Hg) as [(gs & pl & hs & l & W & Q & F & ND & Lw)|(e & l & C & Q)].
      - left. exists gs, pl, hs, l. split; [constructor; auto; rewrite <- Eg; auto|auto].
      - right. exists e, l. split; [apply D_parse_next; auto; rewrite <- Eg; auto|auto]. }
    destruct (be (sub arr 12 2) <? 1500); apply R'; auto.
  - replace (bind _ _ h) with ((Panic PIndex, h) : out packet * heap);
      [eapply sres_cut; [apply D_parse; auto|symmetry; apply app_nil_r]|].
    unfold bind, lift. rewrite (index_ge arr 13) by lia.
    destruct (le_lt_dec (length arr) 12).
    + rewrite index_ge by lia. reflexivity.
    + rewrite (index_lt arr 12 0) by lia. reflexivity.
Qed.

Definition is_parse (f : pfun) : nat := match f with F_parse => 1 | _ => 0 end.

(** Three bytes are consumed per call, so this much fuel suffices. *)
Lemma slow_fuel_res m fuel f b h : bytes_ok b -> (length b + 3 + 3 * is_parse f <= 3 * fuel)%nat ->
  sres f b h (slow_fuel m fuel f b h).
Proof.
  revert f b h; induction fuel as [|n IH]; intros f b h Hb Hn; [lia|]. cbn [slow_fuel].
  assert (H3 : forall g r hh, (length r + 3 <= length b)%nat -> bytes_ok r -> g <> F_parse -> sres g r hh (slow_fuel m n g r hh)).
  { intros g r hh L Hr Hg. apply IH; auto. destruct g; simpl; try lia; congruence. }
  assert (Q : f = F_parse \/ f <> F_parse) by (destruct f; ((left; reflexivity) || (right; discriminate))).
  destruct Q as [->|Hf].
  - cbn [slow_body]. apply s_parse; auto. intros g hh Hg. apply IH; auto. simpl in Hn. destruct Hg as [->| ->]; simpl; lia.
  - apply (s_body m _ b Hb sres sres); auto.
    + exact sres_step'.
    + exact sres_post.
    + intros f' b' h' h1 l e C. apply sres_cut, cut_here_by, C.
    + intros b' h'. left. exists [], b', [], []. split; [constructor|]. split; [rewrite app_nil_r; reflexivity|].
      split; [constructor|]. split; constructor.
Qed.

Lemma slow_res_by m f b h : bytes_ok b -> sres f b h (slow m f b h).
Proof. intros Hb. apply slow_fuel_res; auto. unfold is_parse. destruct f; lia. Qed.

Lemma cut_by_cut f b e : cut_by f b e -> cut f b.
Proof.
  induction 1; [apply C_parse|apply C_parse_next|eapply C_header|eapply C_options|eapply C_peek|eapply C_next]; eauto.
Qed.
Lemma cut_cut_by f b : cut f b -> exists e, cut_by f b e.
Proof.
  induction 1 as [b L|b L C [e IH]|f T b Hf L|f T x rest Hf Lx L|f T x os rest Hf Lx Lo D|f T x os rest g Hf Lx Lo D C [e IH]].
  - eexists. apply D_parse; auto.
  - exists e. apply D_parse_next; auto.
  - eexists. eapply D_header; eauto.
  - eexists. eapply D_options; eauto.
  - eexists. eapply D_peek; eauto.
  - exists e. eapply D_next; eauto.
Qed.

Lemma slow_res m f b h : bytes_ok b ->
  (exists gs pl hs l, wire f b gs pl /\ slow m f b h = (Ret (Pkt hs pl), h ++ l) /\
     Forall2 (seg_at (h ++ l)) hs (reported gs) /\ NoDup (map h_ref hs) /\
     Forall (fun x => (length h <= h_ref x)%nat) hs) \/
  (exists e l, cut f b /\ slow m f b h = (Panic e, h ++ l)).
Proof.
  intros Hb. destruct (slow_res_by m f b h Hb) as [R|(e & l & C & R)]; [left; exact R|].
  right. exists e, l. split; auto. eapply cut_by_cut; eauto.
Qed.

(** ** More fuel does not change a result *)

Definition ple {A} (x y : M A) : Prop := forall h, fst (x h) = Fuel \/ x h = y h.

Lemma ple_refl {A} (x : M A) : ple x x.
Proof. intros h; auto. Qed.
Lemma ple_bind {A B} (x y : M A) (k l : A -> M B) : ple x y -> (forall a, ple (k a) (l a)) -> ple (bind x k) (bind y l).
Proof.
  intros H K h. unfold bind. destruct (H h) as [E|E].
  - left. destruct (x h) as [[| | | |] h']; try discriminate. reflexivity.
  - rewrite <- E. destruct (x h) as [[a| | | |] h']; auto. apply K.
Qed.

Section Mono.
Variable m : mode.
Variables rec rec' : pfun -> list N -> M packet.
Variable P : list N -> Prop.
Hypothesis P_skipn : forall i b, P b -> P (skipn i b).
Hypothesis R : forall f b, P b -> ple (rec f b) (rec' f b).

Lemma call_mono f b i : P b -> ple (call rec f b i) (call rec' f b i).
Proof.
  intros Hb h. unfold call, slice_from, bind, lift. destruct (i <=? length b)%nat; auto. apply R. auto.
Qed.

Lemma body_mono f b : P b -> ple (slow_body m rec f b) (slow_body m rec' f b).
Proof.
  intros Hb. destruct f; cbn [slow_body];
  unfold parse_body, parse_dot3_body, parse_llc_body, parse_snap_body, parse_ethernet_body, parse_vlan_body,
    parse_mpls_body, parse_mpls_bos_body, parse_ipv4_body, parse_ipv6_body, parse_gre_body, parse_erspan2_body,
    parse_erspan3_body, parse_leaf_body, parse_udp_body, parse_vxlan_body, accept_body;
  repeat match goal with
  | |- ple (bind _ _) (bind _ _) => apply ple_bind; [|intros]
  | |- ple (call rec _ _ _) (call rec' _ _ _) => apply call_mono; exact Hb
  | |- ple (rec _ _) (rec' _ _) => apply R; exact Hb
  | |- ple ?x ?x => apply ple_refl
  | |- ple (match ?a with _ => _ end) _ => destruct a
  end.
Qed.
End Mono.

Lemma fuel_mono m n k f b : (n <= k)%nat -> ple (slow_fuel m n f b) (slow_fuel m k f b).
Proof.
  revert k f b; induction n as [|n IH]; intros k f b H; [intros h; left; reflexivity|].
  destruct k as [|k]; [lia|]. cbn [slow_fuel]. apply (body_mono m _ _ (fun _ => True)); auto. intros. apply IH. lia.
Qed.

Lemma sres_no_fuel f b h r : sres f b h r -> fst r <> Fuel /\ fst r <> UB /\ fst r <> Hang.
Proof. intros [(gs & pl & hs & l & _ & -> & _)|(e & l & _ & ->)]; repeat split; discriminate. Qed.

(** Any sufficient fuel gives the same run ... *)
Lemma slow_fuel_eq m n f b h : bytes_ok b -> (length b + 3 + 3 * is_parse f <= 3 * n)%nat ->
  slow_fuel m n f b h = slow m f b h.
Proof.
  intros Hb Hn. unfold slow. destruct (Nat.le_ge_cases n (length b + 3)) as [L|L].
  - destruct (fuel_mono m n (length b + 3) f b L h) as [E|E]; auto.
    destruct (sres_no_fuel _ _ _ _ (slow_fuel_res m n f b h Hb Hn)). congruence.
  - destruct (fuel_mono m (length b + 3) n f b L h) as [E|E]; auto.
    destruct (sres_no_fuel _ _ _ _ (slow_res_by m f b h Hb)). unfold slow in *. congruence.
Qed.

(** ... insufficient fuel shows as [Fuel] ... *)
Lemma slow_fuel_or m n f b h : bytes_ok b -> fst (slow_fuel m n f b h) = Fuel \/ slow_fuel m n f b h = slow m f b h.
Proof.
  intros Hb. destruct (fuel_mono m n (n + length b + 6) f b ltac:(lia) h) as [E|E]; auto.
  right. rewrite E. apply slow_fuel_eq; auto. unfold is_parse. destruct f; lia.
Qed.

(** ... and the Rust equations hold: each function is its body, with the
    functions it calls as recursive calls. *)
Lemma slow_unfold m f b h : bytes_ok b -> slow m f b h = slow_body m (slow m) f b h.
Proof.
  intros Hb. rewrite <- (slow_fuel_eq m (S (length b + 3)) f b h) by (auto; unfold is_parse; destruct f; lia).
  cbn [slow_fuel].
  destruct (body_mono m (slow_fuel m (length b + 3)) (slow m) bytes_ok (fun i x => bytes_ok_skipn i x)
    (fun g r Hr hh => slow_fuel_or m _ g r hh Hr) f b Hb h) as [E|E]; auto.
  exfalso. change (slow_body m (slow_fuel m (length b + 3)) f b h) with (slow_fuel m (S (length b + 3)) f b h) in E.
  rewrite slow_fuel_eq in E by (auto; unfold is_parse; destruct f; lia).
  destruct (sres_no_fuel _ _ _ _ (slow_res_by m f b h Hb)). congruence.
Qed.
