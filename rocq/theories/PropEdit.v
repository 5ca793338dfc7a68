(** PropEdit.v -- C54-C57: parsed packets that are edited, serialised and parsed
    again.

    [selects], [unselected], [last_type] are in EditSpec.v. *)

From Coq Require Import Lia Permutation.
From Verif Require Import Base Bits BitsProofs Layout Heap HeapProofs Packet PacketProofs
  Slow Fast Spec Grammar GrammarProofs SlowProofs PropPacket PropParse EditSpec EditProofs.
Open Scope N_scope.

(** The bytes of a header list, by declared sizes. *)
Definition sizes (hs : list hdr) : nat := list_sum (map (fun y => ht_size (h_ty y)) hs).

(** Headers [ys] in heap [g] have the types and the contents of [xs] in heap [h]. *)
Definition same_headers (h : heap) (xs : list hdr) (g : heap) (ys : list hdr) : Prop :=
  Forall2 (fun x y => h_ty y = h_ty x /\ exists d, cell_at h (h_ref x) d /\ cell_at g (h_ref y) d) xs ys.

(** ** Helpers *)

Lemma bit_app_l a b i : (i < 8 * length a)%nat -> bit (a ++ b) i = bit a i.
Proof.
  intros H. unfold bit. rewrite app_nth1; auto. apply Nat.div_lt_upper_bound; lia.
Qed.
Lemma bit_app_r a b i : bit (a ++ b) (8 * length a + i) = bit b i.
Proof.
  unfold bit. rewrite (Nat.mul_comm 8), Nat.add_comm, Nat.div_add, Nat.mod_add by lia.
  rewrite app_nth2 by lia. rewrite Nat.add_sub. reflexivity.
Qed.

Lemma holds_types h hs ss : holds h hs ss -> map h_ty hs = map fst ss.
Proof. unfold holds. induction 1 as [|x s hs ss [T C] F IH]; [reflexivity|]. cbn [map]. congruence. Qed.

Lemma holds_same h hs g ks ss : holds h hs ss -> holds g ks ss -> same_headers h hs g ks.
Proof.
  unfold holds, same_headers. intros H. revert ks. induction H as [|x s hs ss [T C] F IH]; intros ks K; inversion K as [|y ? ks' ? [T' C'] K']; subst; constructor; auto.
  split; [congruence|]. eauto.
Qed.

Lemma wire_len f b gs pl : wire f b gs pl -> Forall (fun s : seg => length (snd s) = ht_size (fst s)) (reported gs).
Proof.
  intros W. pose proof (wire_sizes _ _ _ _ W) as F. clear W. unfold reported.
  induction F as [|g gs Fg F IH]; [constructor|]. cbn [map concat]. apply Forall_app. split; auto. apply Forall_rev; auto.
Qed.

Lemma wire_ok f b gs pl : bytes_ok b -> wire f b gs pl ->
  Forall (fun s : seg => bytes_ok (snd s)) (reported gs) /\ bytes_ok pl.
Proof.
  intros Hb W. rewrite (wire_bytes _ _ _ _ W) in Hb. apply bytes_ok_app in Hb as [H1 H2]. split; [|auto].
  assert (G : Forall (fun s : seg => bytes_ok (snd s)) (concat gs)).
  { unfold seg_bytes in H1. induction (concat gs) as [|s l IH]; [constructor|]. cbn [map concat] in H1.
    apply bytes_ok_app in H1 as [H1 H3]. constructor; auto. }
  rewrite Forall_forall in *. intros s I. apply G. eapply Permutation_in; [apply reported_perm|exact I].
Qed.

Lemma seg_ok_bytes l : Forall (fun s : seg => bytes_ok (snd s)) l -> bytes_ok (seg_bytes l).
Proof.
  induction 1 as [|s l Hs Hl IH]; [constructor|]. unfold seg_bytes. cbn [map concat]. apply bytes_ok_app. split; auto.
Qed.

Lemma reported_len gs : length (seg_bytes (reported gs)) = length (seg_bytes (concat gs)).
Proof.
  unfold reported. induction gs as [|g gs IH]; [reflexivity|]. cbn [map concat].
  rewrite !seg_bytes_app, !app_length, rev_len, IH. reflexivity.
Qed.

Lemma holds_sizes h hs ss : holds h hs ss -> Forall (fun s : seg => length (snd s) = ht_size (fst s)) ss ->
  length (seg_bytes ss) = sizes hs.
Proof.
  unfold holds, sizes. induction 1 as [|x s hs ss [T C] F IH]; intros G; [reflexivity|]. inversion G; subst.
  destruct s as [T' d]. rewrite seg_bytes_cons, app_length, IH by auto. cbn [map list_sum fold_right fst snd] in *.
  rewrite T. f_equal. auto.
Qed.

Lemma no_gre_single f b gs pl h hs : wire f b gs pl -> holds h hs (reported gs) -> ~ In GRE (map h_ty hs) ->
  Forall (fun g => length g <= 1)%nat gs.
Proof.
  intros W H G. apply (wire_single _ _ _ _ W). intros I. apply G. rewrite (holds_types _ _ _ H).
  eapply Permutation_in; [apply Permutation_map, Permutation_sym, reported_perm|exact I].
Qed.

Lemma fst_snd_inj (l l' : list seg) : map fst l = map fst l' -> map snd l = map snd l' -> l = l'.
Proof.
  revert l'; induction l as [|[T x] l IH]; intros [|[T' x'] l'] E F; try discriminate; [reflexivity|].
  cbn [map fst snd] in *. injection E as -> E. injection F as -> F. f_equal. auto.
Qed.

Lemma types_reported (gs gs' : list (list seg)) : map (map fst) gs' = map (map fst) gs ->
  map fst (reported gs') = map fst (reported gs) /\ map fst (concat gs') = map fst (concat gs).
Proof.
  revert gs'; induction gs as [|g gs IH]; intros [|g' gs'] E; try discriminate; [auto|]. cbn [map] in E.
  injection E as E1 E2. destruct (IH gs' E2) as [I1 I2]. rewrite !reported_cons. cbn [concat].
  rewrite !map_app, !map_rev. split; f_equal; auto. f_equal. exact E1.
Qed.

Lemma shape_single (gs gs' : list (list seg)) : map (map fst) gs' = map (map fst) gs ->
  Forall (fun g => length g <= 1)%nat gs -> Forall (fun g => length g <= 1)%nat gs'.
Proof.
  revert gs'; induction gs as [|g gs IH]; intros [|g' gs'] E F; try discriminate; constructor; inversion F; subst;
    cbn [map] in E; injection E as E1 E2; auto.
  apply (f_equal (@length htype)) in E1. rewrite !map_length in E1. unfold seg in *. lia.
Qed.

(** Reading back edited headers. *)
Lemma reparse f b gs pl ss : bytes_ok b -> wire f b gs pl -> agree None (reported gs) ss ->
  forall m h, exists q h', slow m f (seg_bytes ss ++ pl) h = (Ret q, h') /\
    map h_ty (p_hdrs q) = map fst (reported gs) /\ p_payload q = pl /\
    (Forall (fun g => length g <= 1)%nat gs -> holds h' (p_hdrs q) ss).
Proof.
  intros Hb W A m h. destruct (wire_agree _ _ _ _ W _ _ A) as (gs' & Es & Et & W').
  destruct (wire_ok _ _ _ _ Hb W) as [_ Hp].
  assert (Ho : bytes_ok (seg_bytes ss ++ pl)).
  { apply bytes_ok_app. split; [|auto]. apply seg_ok_bytes. clear -A. induction A; constructor; auto. }
  destruct (C34_slow_complete m f _ h gs' pl Ho W') as (hs & h' & E & H). exists (Pkt hs pl), h'. split; [auto|].
  cbn [p_hdrs p_payload]. split; [rewrite (holds_types _ _ _ H); exact (proj1 (types_reported _ _ Et))|]. split; [auto|].
  intros S. destruct (flip_single _ (shape_single _ _ Et S)) as [_ R]. destruct (flip_single _ S) as [_ R0].
  assert (reported gs' = ss) as <-; [|exact H]. apply fst_snd_inj; [|rewrite R; auto].
  rewrite (proj1 (agree_snd _ _ _ A)), (proj1 (types_reported _ _ Et)). reflexivity.
Qed.

(** * C54 *)

(** Setting a field of a parsed packet changes, in the serialised packet, exactly
    the bits of that field: those after the declared sizes of the headers before
    it. *)
Theorem C54_edit : forall m f b h p h1 hs1 x hs2 fd v, bytes_ok b -> slow m f b h = (Ret p, h1) ->
  p_hdrs p = hs1 ++ x :: hs2 -> field_in fd (ht_size (h_ty x)) ->
  exists h2 u w, hset x fd v h1 = (Ret tt, h2) /\ to_vec p h1 = (Ret u, h1) /\ to_vec p h2 = (Ret w, h2) /\
    length u = length b /\ length w = length b /\ bytes_ok w /\
    let off := (8 * sizes hs1)%nat in
    (forall i, (f_start fd <= i <= f_end fd)%nat -> bit w (off + i) = N.testbit v (N.of_nat (f_end fd - i))) /\
    (forall i, ~ (off + f_start fd <= i <= off + f_end fd)%nat -> bit w i = bit u i).
Proof.
  intros m f b h p h1 hs1 x hs2 fd v Hb E El Hf.
  destruct (C34_slow_sound m f b h p h1 Hb E) as (gs & W & Hs).
  destruct (C37_fresh m f b h p h1 Hb E) as (_ & ND & _).
  pose proof (holds_vec _ _ _ Hs) as V. pose proof (wire_len _ _ _ _ W) as Sz. destruct (wire_ok _ _ _ _ Hb W) as [Ho Hp].
  assert (Lb : length (seg_bytes (reported gs) ++ p_payload p) = length b).
  { rewrite (wire_bytes _ _ _ _ W), !app_length, reported_len. reflexivity. }
  rewrite El in Hs. unfold holds in Hs. apply Forall2_app_inv_l in Hs as (s1 & s2 & H1 & H2 & Er).
  inversion H2 as [|? [T d] ? s2' [Tx Hx] H2']; subst. clear H2. cbn [fst snd] in *.
  rewrite Er in *. apply Forall_app in Ho as [Ho1 Ho2]. inversion Ho2 as [|? ? Hd Ho3]; subst. clear Ho2.
  apply Forall_app in Sz as [Sz1 Sz2]. inversion Sz2 as [|? ? Ld Sz3]; subst. clear Sz2. cbn [fst snd] in *.
  rewrite <- Ld in Hf. pose proof (holds_sizes _ _ _ H1 Sz1) as L1.
  rewrite seg_bytes_app, seg_bytes_cons in *.
  set (d' := fset d fd v). exists (upd h1 (h_ref x) (Cell d' false)). eexists.
  exists ((seg_bytes s1 ++ d' ++ seg_bytes s2') ++ p_payload p).
  split; [apply hset_in; auto|]. split; [exact V|].
  assert (HB : bytes_ok ((seg_bytes s1 ++ d' ++ seg_bytes s2') ++ p_payload p)).
  { repeat (apply bytes_ok_app; split); auto using seg_ok_bytes. apply fset_ok; auto. }
  split; [|split; [|split; [|split; [|split]]]].
  - assert (H : holds (upd h1 (h_ref x) (Cell d' false)) (p_hdrs p) (s1 ++ (h_ty x, d') :: s2')).
    { rewrite El in ND |- *. rewrite map_app in ND. cbn [map] in ND. apply NoDup_remove_2 in ND.
      assert (K : forall hs ss, Forall2 (fun x s => h_ty x = fst s /\ cell_at h1 (h_ref x) (snd s)) hs ss -> ~ In (h_ref x) (map h_ref hs) ->
        holds (upd h1 (h_ref x) (Cell d' false)) hs ss).
      { clear. intros hs ss. unfold holds. induction 1 as [|y s hs ss [T C] F IH]; intros N; constructor; [split; auto|].
        - unfold cell_at. rewrite cell_at_upd_other; auto. intros Q. apply N. left. auto.
        - apply IH. intros I. apply N. right. auto. }
      apply Forall2_app; [apply K; auto; intros I; apply ND; apply in_or_app; auto|]. constructor.
      - cbn [fst snd]. split; [auto|]. eapply cell_at_upd. exact Hx.
      - apply K; auto. intros I. apply ND. apply in_or_app. auto. }
    rewrite (holds_vec _ _ _ H), seg_bytes_app, seg_bytes_cons. reflexivity.
  - rewrite <- Lb. reflexivity.
  - rewrite <- Lb, !app_length. unfold d'. rewrite fset_length. reflexivity.
  - exact HB.
  - intros i Hi. rewrite <- L1, <- app_assoc, bit_app_r, <- app_assoc.
    rewrite bit_app_l by (unfold d'; rewrite fset_length; destruct Hf; lia).
    unfold d'. rewrite bit_fset by auto. rewrite (proj2 (Nat.leb_le _ _) (proj1 Hi)), (proj2 (Nat.leb_le _ _) (proj2 Hi)). reflexivity.
  - intros i Hi. rewrite <- !app_assoc. destruct (Nat.lt_ge_cases i (8 * length (seg_bytes s1))) as [Q|Q].
    + rewrite !bit_app_l by auto. reflexivity.
    + replace i with (8 * length (seg_bytes s1) + (i - 8 * length (seg_bytes s1)))%nat by lia.
      rewrite !bit_app_r. rewrite <- L1 in Hi. set (j := (i - 8 * length (seg_bytes s1))%nat) in *.
      destruct (Nat.lt_ge_cases j (8 * length d)) as [Q'|Q'].
      * rewrite !bit_app_l by (unfold d'; rewrite ?fset_length; lia). unfold d'. rewrite bit_fset by auto.
        destruct (Nat.leb_spec (f_start fd) j), (Nat.leb_spec j (f_end fd)); cbn [andb]; try reflexivity. exfalso. apply Hi. lia.
      * replace j with (8 * length d + (j - 8 * length d))%nat by lia.
        assert (L' : length d' = length d) by (unfold d'; apply fset_length). rewrite <- L' at 1.
        rewrite !bit_app_r. reflexivity.
Qed.
Print Assumptions C54_edit.

(** If those bits do not select a parser branch, the serialised packet parses to
    the same types and payload, on any heap and in any build mode; without GRE
    the contents are those of the edited packet (with GRE the options of one
    header come back in the other order, C36). *)
Theorem C54_reparse : forall m m' f b h p h1 hs1 x hs2 fd v h2 w h3, bytes_ok b -> slow m f b h = (Ret p, h1) ->
  p_hdrs p = hs1 ++ x :: hs2 -> field_in fd (ht_size (h_ty x)) ->
  unselected (last_type None (map h_ty hs1)) (h_ty x) fd ->
  hset x fd v h1 = (Ret tt, h2) -> to_vec p h2 = (Ret w, h2) ->
  exists q h4, slow m' f w h3 = (Ret q, h4) /\
    map h_ty (p_hdrs q) = map h_ty (p_hdrs p) /\ p_payload q = p_payload p /\
    (~ In GRE (map h_ty (p_hdrs p)) -> same_headers h2 (p_hdrs p) h4 (p_hdrs q) /\ to_vec q h4 = (Ret w, h4)).
Proof.
  intros m m' f b h p h1 hs1 x hs2 fd v h2 w h3 Hb E El Hf U Es Ew.
  destruct (C34_slow_sound m f b h p h1 Hb E) as (gs & W & Hs).
  destruct (C37_fresh m f b h p h1 Hb E) as (_ & ND & _).
  pose proof (wire_len _ _ _ _ W) as Sz. destruct (wire_ok _ _ _ _ Hb W) as [Ho _]. pose proof Hs as Hs'.
  rewrite El in Hs. unfold holds in Hs. apply Forall2_app_inv_l in Hs as (s1 & s2 & H1 & H2 & Er).
  inversion H2 as [|? [T d] ? s2' [Tx Hx] H2']; subst. clear H2. cbn [fst snd] in *.
  assert (Ho' := Ho). rewrite Er in Ho'. apply Forall_app in Ho' as [Ho1 Ho2]. inversion Ho2 as [|? ? Hd Ho3]; subst. clear Ho2.
  assert (Ld : length d = ht_size (h_ty x)).
  { rewrite Er in Sz. apply Forall_app in Sz as [_ Sz]. inversion Sz; subst. auto. }
  cbn [snd] in Hd. rewrite <- Ld in Hf. set (d' := fset d fd v).
  rewrite (hset_in x h1 d fd v Hx Hd Hf) in Es. injection Es as <-. fold d' in Ew |- *.
  assert (H : holds (upd h1 (h_ref x) (Cell d' false)) (p_hdrs p) (s1 ++ (h_ty x, d') :: s2')).
  { rewrite El in ND |- *. rewrite map_app in ND. cbn [map] in ND. apply NoDup_remove_2 in ND.
    assert (K : forall hs ss, Forall2 (fun x s => h_ty x = fst s /\ cell_at h1 (h_ref x) (snd s)) hs ss -> ~ In (h_ref x) (map h_ref hs) ->
      holds (upd h1 (h_ref x) (Cell d' false)) hs ss).
    { clear. intros hs ss. unfold holds. induction 1 as [|y s hs ss [T C] F IH]; intros N; constructor; [split; auto|].
      - unfold cell_at. rewrite cell_at_upd_other; auto. intros Q. apply N. left. auto.
      - apply IH. intros I. apply N. right. auto. }
    apply Forall2_app; [apply K; auto; intros I; apply ND; apply in_or_app; auto|]. constructor.
    - cbn [fst snd]. split; [auto|]. eapply cell_at_upd. exact Hx.
    - apply K; auto. intros I. apply ND. apply in_or_app. auto. }
  assert (A : agree None (reported gs) (s1 ++ (h_ty x, d') :: s2')).
  { rewrite Er. apply agree_app; [apply agree_refl; auto|].
    change (map fst s1) with (map (@fst htype (list N)) s1). rewrite <- (holds_types _ _ _ H1).
    constructor; auto.
    - apply fset_length.
    - apply fset_ok. auto.
    - intros s e i S Hi. unfold d'. rewrite bit_fset by auto. destruct (U s e S);
        destruct (Nat.leb_spec (f_start fd) i), (Nat.leb_spec i (f_end fd)); cbn [andb]; try reflexivity; lia.
    - apply agree_refl. auto. }
  rewrite (holds_vec _ _ _ H) in Ew. injection Ew as <-.
  destruct (reparse f b gs (p_payload p) _ Hb W A m' h3) as (q & h4 & Eq & Tq & Pq & Hq).
  exists q, h4. split; [auto|]. split; [rewrite Tq, (holds_types _ _ _ Hs'); reflexivity|]. split; [auto|].
  intros G. specialize (Hq (no_gre_single _ _ _ _ _ _ W Hs' G)). split; [eapply holds_same; eauto|].
  rewrite (holds_vec _ _ _ Hq), Pq. reflexivity.
Qed.
Print Assumptions C54_reparse.

(** Bits that do select a branch are needed: turning the type of the first tag of
    [frame] into IPv4 makes the parser read the second tag as an IPv4 header. *)
Definition after_edit (b : list N) (i : nat) (fd : field) (v : N) : option (list htype * list htype * N) :=
  match slow Debug F_parse b [] with
  | (Ret p, h1) =>
      match nth_error (p_hdrs p) i with
      | Some x =>
          match to_vec p (snd (hset x fd v h1)) with
          | (Ret w, h2) =>
              match slow Debug F_parse w h2 with
              | (Ret q, h3) => Some (map h_ty (p_hdrs p), map h_ty (p_hdrs q), field_val w (Fld "" (14 * 8 + f_start fd) (14 * 8 + f_end fd)))
              | _ => None
              end
          | _ => None
          end
      | None => None
      end
  | _ => None
  end.

Example C54_example_kept : after_edit frame 1 Vlan_vid 0xABC =
  Some ([Ether; Vlan; Vlan; IPv4; GRE; GRESequenceNum; GREKey; GREChksumOffset; IPv6; UDP; Vxlan; Ether],
        [Ether; Vlan; Vlan; IPv4; GRE; GRESequenceNum; GREKey; GREChksumOffset; IPv6; UDP; Vxlan; Ether], 0xABC) /\
  unselected (last_type None [Ether]) Vlan Vlan_vid.
Proof. split; [vm_compute; reflexivity|]. intros s e S. inversion S; subst; cbn [f_start f_end Vlan_vid]; lia. Qed.
Example C54_example_selecting : after_edit frame 1 Vlan_etype 0x0800 =
  Some ([Ether; Vlan; Vlan; IPv4; GRE; GRESequenceNum; GREKey; GREChksumOffset; IPv6; UDP; Vxlan; Ether],
        [Ether; Vlan; IPv4; ICMP], 0x0800) /\
  ~ unselected (last_type None [Ether]) Vlan Vlan_etype.
Proof.
  split; [vm_compute; reflexivity|]. intros U. destruct (U 16%nat 31%nat (Sel_vlan _)) as [L|L]; vm_compute in L; lia.
Qed.

(** * C55 *)

(** Parsing what [to_vec] wrote gives the same types and payload, and writing
    that gives the input of the first parse. *)
Theorem C55_reparse : forall m m' f b h p h1 u h2, bytes_ok b -> slow m f b h = (Ret p, h1) ->
  to_vec p h1 = (Ret u, h1) ->
  exists q h3, slow m' f u h2 = (Ret q, h3) /\
    map h_ty (p_hdrs q) = map h_ty (p_hdrs p) /\ p_payload q = p_payload p /\ to_vec q h3 = (Ret b, h3) /\
    (~ In GRE (map h_ty (p_hdrs p)) -> u = b /\ same_headers h1 (p_hdrs p) h3 (p_hdrs q)).
Proof.
  intros m m' f b h p h1 u h2 Hb E V.
  destruct (C34_slow_sound m f b h p h1 Hb E) as (gs & W & Hs).
  rewrite (holds_vec _ _ _ Hs) in V. injection V as <-.
  destruct (wire_ok _ _ _ _ Hb W) as [Ho Hp].
  assert (Hu : bytes_ok (seg_bytes (reported gs) ++ p_payload p)).
  { apply bytes_ok_app. split; [apply seg_ok_bytes; auto|auto]. }
  destruct (C34_slow_complete m' f _ h2 _ _ Hu (wire_flip _ _ _ _ W)) as (ks & h3 & Eq & Hq).
  exists (Pkt ks (p_payload p)), h3. cbn [p_hdrs p_payload]. split; [auto|].
  split; [rewrite (holds_types _ _ _ Hq), (holds_types _ _ _ Hs); apply flip_types|]. split; [auto|].
  split.
  - rewrite (holds_vec h3 (Pkt ks (p_payload p)) _ Hq), flip_bytes. cbn [p_payload].
    rewrite <- (wire_bytes _ _ _ _ W). reflexivity.
  - intros G. destruct (flip_single _ (no_gre_single _ _ _ _ _ _ W Hs G)) as [F R].
    rewrite F in Hq. split; [rewrite R; symmetry; eapply wire_bytes; eauto|]. eapply holds_same; eauto.
Qed.
Print Assumptions C55_reparse.

Lemma sholds_types hs ss : sholds hs ss -> map s_ty hs = map fst ss.
Proof. unfold sholds. induction 1 as [|x s hs ss [T C] F IH]; [reflexivity|]. cbn [map]. congruence. Qed.

(** The fast parser likewise. *)
Theorem C55_fast : forall m m' f b p, bytes_ok b -> fast m f b = Ret p ->
  exists q, fast m' f (ps_to_vec p) = Ret q /\ map s_ty (ps_hdrs q) = map s_ty (ps_hdrs p) /\
    v_bytes (ps_payload q) = v_bytes (ps_payload p) /\ ps_to_vec q = b.
Proof.
  intros m m' f b p Hb E. destruct (C34_fast_sound m f b p Hb E) as (gs & W & Hs).
  destruct (wire_ok _ _ _ _ Hb W) as [Ho Hp].
  assert (Hu : bytes_ok (seg_bytes (reported gs) ++ v_bytes (ps_payload p))).
  { apply bytes_ok_app. split; [apply seg_ok_bytes; auto|auto]. }
  destruct (C34_fast_complete m' f _ _ _ Hu (wire_flip _ _ _ _ W)) as (q & Eq & Hq & Pq).
  exists q. unfold ps_to_vec. rewrite (sholds_vec _ _ Hs), (sholds_vec _ _ Hq), Pq, flip_bytes.
  split; [auto|]. split; [rewrite (sholds_types _ _ Hs), (sholds_types _ _ Hq); apply flip_types|].
  split; [auto|]. symmetry. eapply wire_bytes; eauto.
Qed.
Print Assumptions C55_fast.

(** A fresh packet compares equal to exactly the bytes it serialises to. *)
Theorem C55_compare : forall m f b h p h1 c, bytes_ok b -> slow m f b h = (Ret p, h1) ->
  exists r, compare_with_slice p c h1 = (Ret r, h1) /\ (r = true <-> to_vec p h1 = (Ret c, h1)).
Proof.
  intros m f b h p h1 c Hb E. destruct (C36_permutation m f b h p h1 Hb E) as (segs & segs' & pl & Eb & _ & _ & V & L & Lp).
  destruct (compare_with_slice_run p c h1 _ V) as (r & Er & Hr). exists r. split; [auto|]. rewrite Hr, V.
  split.
  - intros [Lc Ec]. rewrite firstn_all2 in Ec by lia. congruence.
  - intros Q. injection Q as <-. split; [congruence|]. apply firstn_all.
Qed.
Print Assumptions C55_compare.

Example C55_example : exists p h1 u q h2, slow Debug F_parse frame [] = (Ret p, h1) /\ to_vec p h1 = (Ret u, h1) /\
  u <> frame /\ slow Release F_parse u h1 = (Ret q, h2) /\ fst (to_vec q h2) = Ret frame /\
  compare_with_slice p frame h1 = (Ret false, h1) /\ compare_with_slice p u h1 = (Ret true, h1).
Proof.
  do 5 eexists. split; [vm_compute; reflexivity|]. split; [vm_compute; reflexivity|]. split; [vm_compute; discriminate|].
  split; [vm_compute; reflexivity|]. repeat split; vm_compute; reflexivity.
Qed.

(** * C56 *)

(** The bytes from any header on (but not from an option) parse, from the entry
    point of that header, to the rest of the packet: same types, contents, payload. *)
Theorem C56_suffix : forall m m' f b h p h1 hs1 x hs2 g0 h3, bytes_ok b -> slow m f b h = (Ret p, h1) ->
  p_hdrs p = hs1 ++ x :: hs2 -> header_of g0 = Some (h_ty x) ->
  exists g, header_of g = Some (h_ty x) /\ (h_ty x <> MPLS -> g = g0) /\
    exists q h4, slow m' g (skipn (sizes hs1) b) h3 = (Ret q, h4) /\
      same_headers h1 (x :: hs2) h4 (p_hdrs q) /\ p_payload q = p_payload p.
Proof.
  intros m m' f b h p h1 hs1 x hs2 g0 h3 Hb E El Hg0.
  destruct (C34_slow_sound m f b h p h1 Hb E) as (gs & W & Hs). pose proof (wire_len _ _ _ _ W) as Sz.
  rewrite El in Hs. unfold holds in Hs. apply Forall2_app_inv_l in Hs as (s1 & s2 & H1 & H2 & Er).
  assert (H2' := H2). inversion H2 as [|? [T d] ? s2' [Tx Hx] _]; subst. cbn [fst snd] in *. subst T.
  destruct (wire_reenter _ _ _ _ W _ _ _ _ _ Er Hg0) as (gs1 & gs2 & g & -> & R1 & R2 & Hg & W2).
  exists g. split; [auto|]. split; [intros N; eapply header_of_inj; eauto|].
  rewrite Er in Sz. apply Forall_app in Sz as [Sz1 _].
  assert (Eb : skipn (sizes hs1) b = seg_bytes (concat gs2) ++ p_payload p).
  { rewrite (wire_bytes _ _ _ _ W), concat_app, seg_bytes_app, <- app_assoc.
    rewrite <- (holds_sizes _ _ _ H1 Sz1), <- R1, reported_len, skipn_app, skipn_all, Nat.sub_diag. reflexivity. }
  rewrite Eb. assert (Hb2 : bytes_ok (seg_bytes (concat gs2) ++ p_payload p)).
  { rewrite <- Eb. unfold bytes_ok in *. rewrite <- (firstn_skipn (sizes hs1) b) in Hb. apply Forall_app in Hb. apply Hb. }
  destruct (C34_slow_complete m' g _ h3 _ _ Hb2 W2) as (ks & h4 & Eq & Hq). exists (Pkt ks (p_payload p)), h4.
  cbn [p_hdrs p_payload]. split; [auto|]. split; [|auto]. rewrite R2 in Hq. eapply holds_same; [exact H2'|exact Hq].
Qed.
Print Assumptions C56_suffix.

Lemma remove_first n : forall p hs1 hs2, p_hdrs p = hs1 ++ hs2 -> length hs1 = n ->
  Nat.iter n (fun p => remove p 0) p = Pkt hs2 (p_payload p).
Proof.
  induction n as [|n IH]; intros p hs1 hs2 El L.
  - destruct hs1; [|discriminate]. cbn [app] in El. subst hs2. destruct p; reflexivity.
  - destruct hs1 as [|y hs1]; [discriminate|]. cbn [length] in L. injection L as L.
    change (Nat.iter (S n) (fun p => remove p 0) p) with (remove (Nat.iter n (fun p => remove p 0) p) 0).
    destruct (rev (y :: hs1)) as [|z r] eqn:R; [apply (f_equal (@length hdr)) in R; rewrite rev_length in R; discriminate|].
    assert (Ez : y :: hs1 = rev r ++ [z]) by (rewrite <- (rev_involutive (y :: hs1)), R; reflexivity).
    rewrite (IH p (rev r) (z :: hs2)); [reflexivity| |].
    + rewrite El, Ez, <- app_assoc. reflexivity.
    + apply (f_equal (@length hdr)) in Ez. rewrite app_length in Ez. cbn [length] in Ez. lia.
Qed.

(** Decapsulating: removing the headers before [x] one by one and serialising
    what is left gives bytes that parse, from the entry point of [x], to the same
    types and payload (and contents, if no GRE header is left). *)
Theorem C56_decapsulate : forall m m' f b h p h1 hs1 x hs2 g0 h3, bytes_ok b -> slow m f b h = (Ret p, h1) ->
  p_hdrs p = hs1 ++ x :: hs2 -> header_of g0 = Some (h_ty x) ->
  let r := Nat.iter (length hs1) (fun p => remove p 0) p in
  exists g u v, header_of g = Some (h_ty x) /\ (h_ty x <> MPLS -> g = g0) /\
    p_hdrs r = x :: hs2 /\ to_vec p h1 = (Ret u, h1) /\ to_vec r h1 = (Ret v, h1) /\ v = skipn (sizes hs1) u /\
    exists q h4, slow m' g v h3 = (Ret q, h4) /\
      map h_ty (p_hdrs q) = h_ty x :: map h_ty hs2 /\ p_payload q = p_payload p /\
      (~ In GRE (h_ty x :: map h_ty hs2) -> same_headers h1 (x :: hs2) h4 (p_hdrs q)).
Proof.
  intros m m' f b h p h1 hs1 x hs2 g0 h3 Hb E El Hg0 r. unfold r. rewrite (remove_first _ p hs1 (x :: hs2) El eq_refl).
  destruct (C34_slow_sound m f b h p h1 Hb E) as (gs & W & Hs). pose proof (wire_len _ _ _ _ W) as Sz.
  pose proof (holds_vec _ _ _ Hs) as V. destruct (wire_ok _ _ _ _ Hb W) as [Ho Hp].
  rewrite El in Hs. unfold holds in Hs. apply Forall2_app_inv_l in Hs as (s1 & s2 & H1 & H2 & Er).
  assert (H2' := H2). inversion H2 as [|? [T d] ? s2' [Tx Hx] _]; subst. cbn [fst snd] in *. subst T.
  destruct (wire_reenter _ _ _ _ W _ _ _ _ _ Er Hg0) as (gs1 & gs2 & g & -> & R1 & R2 & Hg & W2).
  rewrite Er in Sz, V, Ho. apply Forall_app in Sz as [Sz1 _]. apply Forall_app in Ho as [_ Ho2].
  exists g, (seg_bytes (s1 ++ (h_ty x, d) :: s2') ++ p_payload p), (seg_bytes ((h_ty x, d) :: s2') ++ p_payload p).
  split; [auto|]. split; [intros N; eapply header_of_inj; eauto|]. split; [reflexivity|]. split; [exact V|].
  split; [apply (holds_vec h1 (Pkt (x :: hs2) (p_payload p))); exact H2'|].
  split.
  { rewrite seg_bytes_app, <- app_assoc, <- (holds_sizes _ _ _ H1 Sz1), skipn_app, skipn_all, Nat.sub_diag. reflexivity. }
  pose proof (wire_flip _ _ _ _ W2) as W3. rewrite R2 in W3.
  assert (Hv : bytes_ok (seg_bytes ((h_ty x, d) :: s2') ++ p_payload p)).
  { apply bytes_ok_app. split; [apply seg_ok_bytes; auto|auto]. }
  destruct (C34_slow_complete m' g _ h3 _ _ Hv W3) as (ks & h4 & Eq & Hq). exists (Pkt ks (p_payload p)), h4.
  cbn [p_hdrs p_payload]. split; [auto|]. split; [|split; [auto|]].
  - rewrite (holds_types _ _ _ Hq). change (h_ty x :: map h_ty hs2) with (map h_ty (x :: hs2)).
    rewrite (holds_types _ _ _ H2'). rewrite <- R2. apply flip_types.
  - intros G. rewrite <- R2 in H2'. change (h_ty x :: map h_ty hs2) with (map h_ty (x :: hs2)) in G.
    destruct (flip_single _ (no_gre_single _ _ _ _ _ _ W2 H2' G)) as [F _]. rewrite F in Hq. eapply holds_same; eauto.
Qed.
Print Assumptions C56_decapsulate.

(** Encapsulating: a header with no announced options, inserted in front of a
    parsed packet, whose demultiplexing field leads to the entry point the packet
    was parsed from. *)
Theorem C56_encapsulate : forall m m' f g b h p h1 y d h3, bytes_ok b -> slow m g b h = (Ret p, h1) ->
  header_of f = Some (h_ty y) -> cell_at h1 (h_ref y) d -> length d = ht_size (h_ty y) -> bytes_ok d ->
  options f d = [] -> demux f d b = Some g ->
  exists p' w, insert p y h1 = (Ret p', h1) /\ to_vec p' h1 = (Ret w, h1) /\
    exists q h4, slow m' f w h3 = (Ret q, h4) /\
      map h_ty (p_hdrs q) = h_ty y :: map h_ty (p_hdrs p) /\ p_payload q = p_payload p /\
      (~ In GRE (map h_ty (p_hdrs p)) -> same_headers h1 (y :: p_hdrs p) h4 (p_hdrs q)).
Proof.
  intros m m' f g b h p h1 y d h3 Hb E Hf Cy Ld Hd No D.
  destruct (C34_slow_sound m g b h p h1 Hb E) as (gs & W & Hs). destruct (wire_ok _ _ _ _ Hb W) as [Ho Hp].
  exists (Pkt (y :: p_hdrs p) (p_payload p)). eexists. split; [reflexivity|].
  assert (Hy : holds h1 (y :: p_hdrs p) ((h_ty y, d) :: reported gs)) by (constructor; auto).
  split; [apply (holds_vec h1 (Pkt (y :: p_hdrs p) (p_payload p))); exact Hy|]. cbn [p_payload].
  assert (D' : demux f d (seg_bytes (reported gs) ++ p_payload p) = Some g).
  { destruct (wire_reported_head _ _ _ _ W) as [Pk _]. destruct f; auto. cbn [demux] in *. destruct b as [|a r]; [discriminate|].
    destruct (seg_bytes (reported gs) ++ p_payload p); [discriminate|]. cbn [peek] in Pk. injection Pk as ->. exact D. }
  assert (W' := W_header f (h_ty y) d [] _ g _ _ Hf Ld (eq_sym (f_equal (map ht_size) No)) D' (wire_flip _ _ _ _ W)).
  rewrite No in W'. cbn [concat app combine] in W'. rewrite seg_bytes_cons, <- app_assoc.
  assert (Hw : bytes_ok (d ++ seg_bytes (reported gs) ++ p_payload p)).
  { apply bytes_ok_app. split; [auto|]. apply bytes_ok_app. split; [apply seg_ok_bytes; auto|auto]. }
  destruct (C34_slow_complete m' f _ h3 _ _ Hw W') as (ks & h4 & Eq & Hq). exists (Pkt ks (p_payload p)), h4.
  cbn [p_hdrs p_payload]. rewrite !reported_cons in Hq. cbn [rev app] in Hq.
  split; [auto|]. split; [|split; [auto|]].
  - rewrite (holds_types _ _ _ Hq). cbn [map fst]. f_equal. rewrite (holds_types _ _ _ Hs). apply flip_types.
  - intros G. destruct (flip_single _ (no_gre_single _ _ _ _ _ _ W Hs G)) as [F _]. rewrite F in Hq. eapply holds_same; eauto.
Qed.
Print Assumptions C56_encapsulate.

(** The inner frame of [frame]: the nine headers before UDP removed. *)
Example C56_example : exists p h1 v q h2, slow Debug F_parse frame [] = (Ret p, h1) /\
  to_vec (Nat.iter 9 (fun p => remove p 0) p) h1 = (Ret v, h1) /\ v = fr_udp ++ fr_vxlan ++ fr_eth2 ++ fr_pl /\
  slow Debug F_udp v h1 = (Ret q, h2) /\ map h_ty (p_hdrs q) = [UDP; Vxlan; Ether] /\ p_payload q = fr_pl /\
  slow Debug F_udp (skipn 98 frame) h1 = (Ret q, h2).
Proof.
  do 5 eexists. split; [vm_compute; reflexivity|]. split; [vm_compute; reflexivity|]. split; [reflexivity|].
  split; [vm_compute; reflexivity|]. repeat split; vm_compute; reflexivity.
Qed.
(** An option has no entry point of its own, and from the wrong entry point the
    result differs: the bytes of the GRE key read as UDP. *)
Example C56_example_option : forall g, header_of g <> Some GREKey.
Proof. destruct g; discriminate. Qed.

(** * C57 *)

(** No length field is looked at: bytes after a packet that parses go to the
    payload, whatever they are ... *)
Theorem C57_trailing : forall m m' f b e h p h1 h2, bytes_ok (b ++ e) -> slow m f b h = (Ret p, h1) ->
  exists q h3, slow m' f (b ++ e) h2 = (Ret q, h3) /\
    same_headers h1 (p_hdrs p) h3 (p_hdrs q) /\ p_payload q = p_payload p ++ e.
Proof.
  intros m m' f b e h p h1 h2 Hbe E. assert (Hb : bytes_ok b) by (apply bytes_ok_app in Hbe; apply Hbe).
  destruct (C34_slow_sound m f b h p h1 Hb E) as (gs & W & Hs).
  destruct (C34_slow_complete m' f _ h2 _ _ Hbe (wire_trailing _ _ _ _ e W)) as (ks & h3 & Eq & Hq).
  exists (Pkt ks (p_payload p ++ e)), h3. split; [auto|]. split; [|reflexivity]. eapply holds_same; eauto.
Qed.
Print Assumptions C57_trailing.

Theorem C57_trailing_fast : forall m m' f b e p, bytes_ok (b ++ e) -> fast m f b = Ret p ->
  exists q, fast m' f (b ++ e) = Ret q /\
    Forall2 (fun x y => s_ty y = s_ty x /\ sas_slice y = sas_slice x) (ps_hdrs p) (ps_hdrs q) /\
    v_bytes (ps_payload q) = v_bytes (ps_payload p) ++ e.
Proof.
  intros m m' f b e p Hbe E. assert (Hb : bytes_ok b) by (apply bytes_ok_app in Hbe; apply Hbe).
  destruct (C34_fast_sound m f b p Hb E) as (gs & W & Hs).
  destruct (C34_fast_complete m' f _ _ _ Hbe (wire_trailing _ _ _ _ e W)) as (q & Eq & Hq & Pq).
  exists q. split; [auto|]. split; [|auto]. refine (Forall2_meet _ _ _ _ _ _ _ Hs Hq).
  intros x y z [T C] [T' C']. split; congruence.
Qed.
Print Assumptions C57_trailing_fast.

(** ... and these are all the declared fields that decide anything ... *)
Definition deciding : list (htype * field) :=
  [(Ether, Ether_etype); (Dot3, Dot3_length); (LLC, LLC_dsap); (LLC, LLC_ssap); (LLC, LLC_ctrl);
   (Vlan, Vlan_etype); (MPLS, MPLS_bos); (IPv4, IPv4_protocol); (IPv6, IPv6_next_hdr); (UDP, UDP_dst);
   (GRE, GRE_chksum_present); (GRE, GRE_key_present); (GRE, GRE_seqnum_present); (GRE, GRE_proto);
   (ERSPAN3, ERSPAN3_o)].
Definition deciding_after_mpls : list (htype * field) :=
  [(IPv4, IPv4_version); (IPv6, IPv6_version); (Ether, Ether_dst)].

Theorem C57_fields : forall prev T fd, In fd (ht_fields T) ->
  (unselected prev T fd <->
   ~ In (T, fd) deciding /\ (prev = Some MPLS -> ~ In (T, fd) deciding_after_mpls)).
Proof.
  intros prev T fd If. split.
  - intros U.
    assert (K : forall s e, selects prev T s e -> (f_start fd <= e)%nat -> (s <= f_end fd)%nat -> False).
    { intros s e S L1 L2. destruct (U s e S); lia. }
    split.
    + intros I. unfold deciding in I. cbn [In] in I.
      repeat destruct I as [I|I]; try contradiction; injection I as <- <-; eapply K; try constructor; vm_compute; lia.
    + intros -> I. unfold deciding_after_mpls in I. cbn [In] in I.
      repeat destruct I as [I|I]; try contradiction; injection I as <- <-;
        (eapply (K 0%nat 3%nat); [apply Sel_version; [reflexivity|cbn [In]; auto]|vm_compute; lia|vm_compute; lia]).
  - intros [N1 N2] s e S.
    destruct S; try (
      cbn [In ht_fields Ether Dot3 LLC Vlan MPLS IPv4 IPv6 UDP GRE ERSPAN3] in If;
      repeat destruct If as [<-|If]; try contradiction;
      solve [cbv; lia | exfalso; apply N1; unfold deciding; cbn [In]; repeat ((left; reflexivity) || right)]).
    subst prev. specialize (N2 eq_refl). cbn [In] in H0. repeat destruct H0 as [<-|H0]; try contradiction;
      cbn [In ht_fields Ether IPv4 IPv6] in If; repeat destruct If as [<-|If]; try contradiction;
      solve [cbv; lia | exfalso; apply N2; unfold deciding_after_mpls; cbn [In]; repeat ((left; reflexivity) || right)].
Qed.
Print Assumptions C57_fields.

(** ... so writing any length, offset or fragmentation field of a parsed packet
    leaves the parse as it was. *)
Definition length_fields : list (htype * field) :=
  [(IPv4, IPv4_ihl); (IPv4, IPv4_total_len); (IPv4, IPv4_flags); (IPv4, IPv4_frag_startset);
   (IPv6, IPv6_payload_len); (TCP, TCP_data_startset); (UDP, UDP_length);
   (ARP, ARP_hwlen); (ARP, ARP_proto_len); (GRE, GRE_routing_present)].

Theorem C57_lengths_ignored : forall m m' f b h p h1 hs1 x hs2 fd v h3, bytes_ok b -> slow m f b h = (Ret p, h1) ->
  p_hdrs p = hs1 ++ x :: hs2 -> In (h_ty x, fd) length_fields ->
  exists h2 w q h4, hset x fd v h1 = (Ret tt, h2) /\ to_vec p h2 = (Ret w, h2) /\ slow m' f w h3 = (Ret q, h4) /\
    map h_ty (p_hdrs q) = map h_ty (p_hdrs p) /\ p_payload q = p_payload p /\
    (~ In GRE (map h_ty (p_hdrs p)) -> same_headers h2 (p_hdrs p) h4 (p_hdrs q)).
Proof.
  intros m m' f b h p h1 hs1 x hs2 fd v h3 Hb E El I.
  assert (J : In fd (ht_fields (h_ty x)) /\ field_in fd (ht_size (h_ty x)) /\
    ~ In (h_ty x, fd) deciding /\ ~ In (h_ty x, fd) deciding_after_mpls).
  { unfold length_fields in I. cbn [In] in I.
    repeat destruct I as [I|I]; try contradiction; injection I as <- <-;
      (split; [cbn [In ht_fields IPv4 IPv6 TCP UDP ARP GRE]; repeat ((left; reflexivity) || right)|]);
      (split; [split; vm_compute; lia|]); unfold deciding, deciding_after_mpls; cbn [In];
      (split; intros Q; repeat destruct Q as [Q|Q]; try discriminate Q; contradiction). }
  destruct J as (If & Fi & N1 & N2).
  destruct (C54_edit m f b h p h1 hs1 x hs2 fd v Hb E El Fi) as (h2 & u & w & Es & _ & Ew & _).
  assert (U : unselected (last_type None (map h_ty hs1)) (h_ty x) fd) by (apply C57_fields; auto).
  destruct (C54_reparse m m' f b h p h1 hs1 x hs2 fd v h2 w h3 Hb E El Fi U Es Ew) as (q & h4 & Eq & Tq & Pq & G).
  exists h2, w, q, h4. split; [auto|]. split; [auto|]. split; [auto|]. split; [auto|]. split; [auto|].
  intros N. apply G. exact N.
Qed.
Print Assumptions C57_lengths_ignored.

(** In particular IPv4 options are not skipped: with IHL 6 the TCP header is taken
    20 bytes in, not 24 ... *)
Definition ip_options : list N :=
  [0x46;0;0;44; 0;1;0;0; 64;6;0;0; 10;0;0;1; 10;0;0;2] ++ [1;1;1;0] ++ [0;80;0x1F;0x90] ++ repeat 0 16.
Theorem C57_ihl_refuted : exists p h' x, slow Debug F_ipv4 ip_options [] = (Ret p, h') /\
  field_val ip_options IPv4_ihl = 6 /\ nth_error (p_hdrs p) 1 = Some x /\ h_ty x = TCP /\
  cell_at h' (h_ref x) (sub ip_options 20 20) /\ sub ip_options 20 20 <> sub ip_options 24 20.
Proof.
  do 3 eexists. split; [vm_compute; reflexivity|]. split; [reflexivity|]. split; [vm_compute; reflexivity|].
  split; [reflexivity|]. split; [vm_compute; reflexivity|]. vm_compute. discriminate.
Qed.
Print Assumptions C57_ihl_refuted.

(** ... nor TCP options, which end up in the payload ... *)
Definition tcp_options : list N := [0;80;0x1F;0x90; 0;0;0;1; 0;0;0;0; 0x60;2;0;0; 0;0;0;0] ++ [2;4;5;0xB4] ++ [0xAA].
Theorem C57_data_offset_refuted : exists p h', slow Debug F_tcp tcp_options [] = (Ret p, h') /\
  field_val tcp_options TCP_data_startset = 6 /\ p_payload p = [2;4;5;0xB4; 0xAA] /\ sub tcp_options 24 1 = [0xAA].
Proof. do 2 eexists. split; [vm_compute; reflexivity|]. repeat split; reflexivity. Qed.
Print Assumptions C57_data_offset_refuted.

(** ... and Ethernet padding after a short IPv4 packet is payload too: total length
    28 (IPv4 and UDP, no data), yet two payload bytes. *)
Definition padded : list N :=
  [0x45;0;0;28; 0;1;0;0; 64;17;0;0; 10;0;0;1; 10;0;0;2] ++ [0;9;0;9; 0;8;0;0] ++ [0;0].
Theorem C57_total_len_refuted : exists p h', slow Debug F_ipv4 padded [] = (Ret p, h') /\
  field_val padded IPv4_total_len = 28 /\ map h_ty (p_hdrs p) = [IPv4; UDP] /\ p_payload p = [0;0] /\
  length padded = 30%nat.
Proof. do 2 eexists. split; [vm_compute; reflexivity|]. repeat split; reflexivity. Qed.
Print Assumptions C57_total_len_refuted.

(** A second fragment (offset 185) is read as if it began with a TCP header. *)
Definition fragment : list N := [0x45;0;0;60; 0;1;0;185; 64;6;0;0; 10;0;0;1; 10;0;0;2] ++ repeat 7 40.
Theorem C57_fragment_refuted : exists p h', slow Debug F_ipv4 fragment [] = (Ret p, h') /\
  field_val fragment IPv4_frag_startset = 185 /\ map h_ty (p_hdrs p) = [IPv4; TCP] /\ p_payload p = repeat 7 20.
Proof. do 2 eexists. split; [vm_compute; reflexivity|]. repeat split; reflexivity. Qed.
Print Assumptions C57_fragment_refuted.

Example C57_example_trailing : exists p h1 q h2, slow Debug F_parse frame [] = (Ret p, h1) /\
  slow Debug F_parse (frame ++ [1;2]) h1 = (Ret q, h2) /\ p_payload q = p_payload p ++ [1;2] /\
  map h_ty (p_hdrs q) = map h_ty (p_hdrs p).
Proof. do 4 eexists. split; [vm_compute; reflexivity|]. split; [vm_compute; reflexivity|]. split; reflexivity. Qed.
(** The first four bits do matter behind MPLS, and only there. *)
Example C57_example_version : ~ unselected (Some MPLS) IPv4 IPv4_version /\ unselected (Some Ether) IPv4 IPv4_version.
Proof.
  split.
  - rewrite C57_fields by (cbn [In ht_fields IPv4]; auto). intros [_ N]. apply (N eq_refl). left. reflexivity.
  - apply C57_fields; [cbn [In ht_fields IPv4]; auto|]. split; [|discriminate]. unfold deciding. cbn [In].
    intros Q. repeat destruct Q as [Q|Q]; try discriminate Q; contradiction.
Qed.
