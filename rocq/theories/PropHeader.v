(** PropHeader.v -- properties C01-C11: header fields, bytes, layouts, clone, replace. *)

From Coq Require Import Lia.
From Verif Require Import Base Bits Layout Heap Ops Fast Spec BitsProofs HeapProofs OpsProofs.
Open Scope N_scope.

(** A heap for the examples: an IPv4 header, an Ethernet header, and a buffer of
    one byte used as an Ethernet header. *)
Definition ex_heap : heap :=
  [Cell (ht_default IPv4) false; Cell (ht_default Ether) false; Cell [0xAB] false].
Definition ex_ip : hdr := Hdr IPv4 0.
Definition ex_eth : hdr := Hdr Ether 1.
Definition ex_short : hdr := Hdr Ether 2.

Example ex_heap_ok : heap_ok ex_heap.
Proof. repeat constructor. Qed.
Example ex_ip_cell : cell_at ex_heap (h_ref ex_ip) (ht_default IPv4) /\ bytes_ok (ht_default IPv4)
  /\ field_in IPv4_frag_startset (length (ht_default IPv4)) /\ (f_width IPv4_frag_startset <= 64)%nat.
Proof. repeat split; try (repeat constructor; fail); simpl; lia. Qed.

(** * C01 *)

Theorem C01_getter : forall m x h d f,
  cell_at h (h_ref x) d -> bytes_ok d -> field_in f (length d) -> (f_width f <= 64)%nat ->
  hget m x f h = (Ret (field_val d f), h).
Proof. intros m x h d f. apply hget_val. Qed.
Print Assumptions C01_getter.

(** Bit by bit: bit [k] of the value is bit [end - k] of the buffer, counted from
    the most significant bit of byte 0. *)
Theorem C01_getter_bits : forall m x h d f k,
  cell_at h (h_ref x) d -> bytes_ok d -> field_in f (length d) -> (f_width f <= 64)%nat ->
  exists v, hget m x f h = (Ret v, h) /\ v < 2 ^ N.of_nat (f_width f) /\
    ((k < f_width f)%nat -> N.testbit v (N.of_nat k) = bit d (f_end f - k)).
Proof.
  intros m x h d f k H Hd Hf Hw. exists (field_val d f). split; [apply hget_val; auto|].
  destruct Hf as [H1 H2]. unfold field_val. rewrite <- rv_bits_val by auto. split; [apply rv_bound|].
  intros Hk. unfold f_width in *. rewrite rv_testbit by (auto; lia).
  rewrite (proj2 (Nat.ltb_lt _ _)) by lia. f_equal. lia.
Qed.
Print Assumptions C01_getter_bits.

(** The borrowed header. *)
Theorem C01_getter_slice : forall m x f,
  bytes_ok (sas_slice x) -> field_in f (length (sas_slice x)) -> (f_width f <= 64)%nat ->
  sget m x f = Ret (field_val (sas_slice x) f).
Proof. intros m x f Hd [H1 H2] Hw. apply get_bits_val; auto. Qed.
Print Assumptions C01_getter_slice.

Example C01_example : hget Debug ex_ip IPv4_frag_startset ex_heap = (Ret 221, ex_heap).
Proof. reflexivity. Qed.

(** * C02 *)

Theorem C02_set_get : forall m x h d f v,
  cell_at h (h_ref x) d -> bytes_ok d -> field_in f (length d) -> (f_width f <= 64)%nat ->
  exists h', hset x f v h = (Ret tt, h') /\
    hget m x f h' = (Ret (v mod 2 ^ N.of_nat (f_width f)), h').
Proof.
  intros m x h d f v H Hd Hf Hw. eexists. split; [apply hset_in; eauto|].
  rewrite (hget_val m x _ (fset d f v)).
  - rewrite field_val_fset by auto. reflexivity.
  - eapply cell_at_upd; eauto.
  - apply fset_ok; auto.
  - rewrite fset_length; auto.
  - auto.
Qed.
Print Assumptions C02_set_get.

Corollary C02_set_get_exact : forall m x h d f v,
  cell_at h (h_ref x) d -> bytes_ok d -> field_in f (length d) -> (f_width f <= 64)%nat ->
  v < 2 ^ N.of_nat (f_width f) ->
  exists h', hset x f v h = (Ret tt, h') /\ hget m x f h' = (Ret v, h').
Proof.
  intros m x h d f v H Hd Hf Hw Hv. destruct (C02_set_get m x h d f v H Hd Hf Hw) as (h' & H1 & H2).
  rewrite N.mod_small in H2 by auto. eauto.
Qed.
Print Assumptions C02_set_get_exact.

(** Writing back what was read changes nothing at all. *)
Theorem C02_get_set : forall m x h d f v h',
  cell_at h (h_ref x) d -> bytes_ok d -> field_in f (length d) -> (f_width f <= 64)%nat ->
  hget m x f h = (Ret v, h') -> hset x f v h' = (Ret tt, h).
Proof.
  intros m x h d f v h' H Hd Hf Hw E. rewrite (hget_val m x h d) in E by auto.
  injection E as <- <-. rewrite (hset_in x h d) by auto. f_equal.
  unfold fset, field_val, f_width. destruct Hf as [H1 H2].
  rewrite <- rv_bits_val, wbits_same by (auto; lia). apply upd_same; auto.
Qed.
Print Assumptions C02_get_set.

Example C02_example :
  let h' := snd (hset ex_ip IPv4_frag_startset 0x3FFF ex_heap) in
  hget Release ex_ip IPv4_frag_startset h' = (Ret 0x1FFF, h').
Proof. reflexivity. Qed.

(** * C03 *)

Theorem C03_setter_frame : forall x h d f v,
  cell_at h (h_ref x) d -> bytes_ok d -> field_in f (length d) ->
  exists h' d', hset x f v h = (Ret tt, h') /\
    only_changes (h_ref x) h h' /\
    cell_at h' (h_ref x) d' /\ bytes_ok d' /\ length d' = length d /\
    (forall i, ~ (f_start f <= i <= f_end f)%nat -> bit d' i = bit d i) /\
    (forall g, field_in g (length d) -> disjoint f g -> field_val d' g = field_val d g).
Proof.
  intros x h d f v H Hd Hf. do 2 eexists. split; [apply hset_in; eauto|].
  split; [split; [apply upd_length|intros; apply cell_at_upd_other; auto]|].
  split; [eapply cell_at_upd; eauto|].
  split; [apply fset_ok; auto|]. split; [apply fset_length|].
  assert (B : forall i, ~ (f_start f <= i <= f_end f)%nat -> bit (fset d f v) i = bit d i).
  { intros i Hi. rewrite bit_fset by auto.
    destruct (Nat.leb_spec (f_start f) i); destruct (Nat.leb_spec i (f_end f)); simpl; auto; lia. }
  split; [exact B|].
  intros g Hg Hdis. apply field_val_ext; auto using fset_ok, fset_length.
  - rewrite fset_length; auto.
  - intros j Hj. apply B. destruct Hdis; destruct Hf; lia.
Qed.
Print Assumptions C03_setter_frame.

(** Disjoint sets commute: the final heap does not depend on the order. *)
Theorem C03_disjoint_commute : forall x h d f g v w,
  cell_at h (h_ref x) d -> bytes_ok d -> field_in f (length d) -> field_in g (length d) ->
  disjoint f g ->
  bind (hset x f v) (fun _ => hset x g w) h = bind (hset x g w) (fun _ => hset x f v) h.
Proof.
  intros x h d f g v w H Hd Hf Hg Hdis.
  rewrite (bind_ret _ _ _ _ _ (hset_in x h d f v H Hd Hf)).
  rewrite (bind_ret _ _ _ _ _ (hset_in x h d g w H Hd Hg)).
  rewrite (hset_in x _ (fset d f v)).
  rewrite (hset_in x _ (fset d g w)).
  - rewrite !upd_upd. do 3 f_equal. apply bytes_ext; auto using fset_ok.
    + rewrite !fset_length. reflexivity.
    + intros i _. rewrite !bit_fset by (rewrite ?fset_length; auto).
      destruct Hf, Hg.
      destruct (Nat.leb_spec (f_start f) i); destruct (Nat.leb_spec i (f_end f));
        destruct (Nat.leb_spec (f_start g) i); destruct (Nat.leb_spec i (f_end g)); simpl; auto.
      destruct Hdis; lia.
  - eapply cell_at_upd; eauto.
  - apply fset_ok; auto.
  - rewrite fset_length; auto.
  - eapply cell_at_upd; eauto.
  - apply fset_ok; auto.
  - rewrite fset_length; auto.
Qed.
Print Assumptions C03_disjoint_commute.

Example C03_example : field_in IPv4_flags 20 /\ disjoint IPv4_flags IPv4_frag_startset
  /\ c_data (nth 0 (snd (hset ex_ip IPv4_flags 7 ex_heap)) (Cell [] true))
     = [0x45; 0x00; 0x00; 0x14; 0x00; 0x33; 0xe0; 0xdd; 0x40; 0x06; 0xfa; 0xec; 0xc0; 0xa8; 0x0; 0x1; 0xc0; 0xa8; 0x0; 0x2].
Proof. repeat split; try (simpl; lia). left; simpl; lia. Qed.

(** * C04 *)

(** Owned and borrowed getters agree, also when they panic; the owned one leaves
    the heap alone whenever it returns. *)
Theorem C04_getters_agree : forall m x s h f,
  cell_at h (h_ref x) (sas_slice s) ->
  fst (hget m x f h) = sget m s f.
Proof.
  intros m x s h f H. unfold hget, sget, hbit_range, get_bits, bind.
  rewrite (hget_loop_cell _ _ _ _ _ _ H). fold (sas_slice s).
  destruct (get_loop_cases (sas_slice s) (f_start f) (range_len (f_end f) (f_start f)) 0) as [[v ->]| ->];
    reflexivity.
Qed.
Print Assumptions C04_getters_agree.

Lemma hbit_range_fst m x d h msb lsb : cell_at h (h_ref x) d ->
  fst (hbit_range m x msb lsb h) = get_bits m d msb lsb /\
  (forall v, fst (hbit_range m x msb lsb h) = Ret v -> snd (hbit_range m x msb lsb h) = h).
Proof.
  intros H. unfold hbit_range, get_bits, bind.
  rewrite (hget_loop_cell _ _ _ _ _ _ H).
  destruct (get_loop_cases d lsb (range_len msb lsb) 0) as [[v ->]| ->]; simpl; split; auto; discriminate.
Qed.

Theorem C04_bytes_agree : forall m x s h msb lsb,
  cell_at h (h_ref x) (sas_slice s) ->
  fst (hbytes m x msb lsb h) = sbytes m s msb lsb.
Proof.
  intros m x s h msb lsb H. unfold hbytes, sbytes, bytes_of, bind, lift.
  fold (sas_slice s). destruct (bytes_guard m msb lsb); try reflexivity. cbn [obind].
  generalize (step8_len msb lsb). intros n. revert lsb; induction n as [|n IH]; intros i; [reflexivity|].
  cbn [hbytes_loop bytes_loop]. unfold bind.
  destruct (hbit_range_fst m x _ h (i + 7) i H) as [E1 E2].
  destruct (hbit_range m x (i + 7) i h) as [o h1]. simpl in *. rewrite <- E1.
  destruct o; try reflexivity. rewrite (E2 _ eq_refl). cbn [obind].
  rewrite <- IH. destruct (hbytes_loop m x (i + 8) n h) as [[| | | |] ?]; reflexivity.
Qed.
Print Assumptions C04_bytes_agree.

Example C04_example : exists s, s_ty s = IPv4 /\ cell_at ex_heap (h_ref ex_ip) (sas_slice s).
Proof. exists (SHdr IPv4 (v_all (ht_default IPv4))). split; reflexivity. Qed.

(** * C05 *)

(** "A getter of a predefined header never panics on a full-size buffer" is false. *)
Theorem C05_wide_getter_refuted : exists T f d,
  In T protocol_headers /\ In f (ht_fields T) /\ bytes_ok d /\ length d = ht_size T /\
  forall h r, cell_at h r d -> fst (hget Debug (Hdr T r) f h) = Panic POverflow /\
    (exists v, fst (hget Release (Hdr T r) f h) = Ret v /\ v <> field_val d f).
Proof.
  exists IPv6, IPv6_src, (ht_default IPv6). repeat split; try (simpl; tauto).
  - apply bytes_okb_ok. reflexivity.
  - rewrite (hget_in _ _ _ (ht_default IPv6)) by (auto; simpl; lia). reflexivity.
  - eexists. split.
    + rewrite (hget_in _ _ _ (ht_default IPv6)) by (auto; simpl; lia). reflexivity.
    + vm_compute. discriminate.
Qed.
Print Assumptions C05_wide_getter_refuted.

(** What does happen, for every field wider than 64 bits of every header type:
    checked builds panic (without poisoning); unchecked builds return the low
    [w mod 64] bits, or the low 64 bits when [w] is a multiple of 64. *)
Theorem C05_wide_getter : forall m x h d f,
  cell_at h (h_ref x) d -> bytes_ok d -> field_in f (length d) -> (64 < f_width f)%nat ->
  hget m x f h =
  (match m with
   | Debug => Panic POverflow
   | Release =>
       let keep := if (f_width f mod 64 =? 0)%nat then 64%nat else (f_width f mod 64)%nat in
       Ret (field_val d f mod 2 ^ N.of_nat keep)
   end, h).
Proof.
  intros m x h d f H Hd [H1 H2] Hw. rewrite (hget_in m x h d) by auto. unfold f_width in *.
  rewrite get_bits_wide by auto. destruct m; auto. f_equal. f_equal. unfold field_val. f_equal. f_equal. f_equal.
  pose proof (Nat.mod_upper_bound (f_end f - f_start f + 1) 64 ltac:(lia)).
  destruct (Nat.eqb_spec ((f_end f - f_start f + 1) mod 64) 0) as [->|E]; [reflexivity|].
  rewrite Nat.mod_small by lia. lia.
Qed.
Print Assumptions C05_wide_getter.

(** Only IPv6 src and dst (and Tester's byte16) are that wide. *)
Theorem C05_only_ipv6 : forall T f,
  In T protocol_headers -> In f (ht_fields T) -> (64 < f_width f)%nat ->
  T = IPv6 /\ (f = IPv6_src \/ f = IPv6_dst).
Proof.
  intros T f HT Hf Hw.
  assert (C : forallb (fun T => forallb (fun f => (f_width f <=? 64)%nat ||
     ((ht_id T =? 3)%nat && (f_start f <=? 192)%nat && (64 <=? f_start f)%nat)) (ht_fields T)) protocol_headers = true)
    by reflexivity.
  rewrite forallb_forall in C. specialize (C T HT). rewrite forallb_forall in C. specialize (C f Hf).
  rewrite (proj2 (Nat.leb_gt _ _) Hw) in C. cbn [orb] in C.
  simpl in HT. repeat destruct HT as [<-|HT]; try discriminate; try contradiction.
  split; auto. simpl in Hf. repeat destruct Hf as [<-|Hf]; auto; try (vm_compute in Hw; lia); contradiction.
Qed.
Print Assumptions C05_only_ipv6.

(** * C06 *)

Theorem C06_read_out_of_buffer : forall m x h d f,
  cell_at h (h_ref x) d -> (f_start f <= f_end f)%nat -> (8 * length d <= f_end f)%nat ->
  exists h', hget m x f h = (Panic PIndex, h') /\ only_changes (h_ref x) h h' /\
    nth_error h' (h_ref x) = Some (Cell d true).
Proof.
  intros m x h d f H H1 H2. eexists. split; [apply hbit_range_oob; eauto|].
  split; [split; [apply upd_length|intros; apply cell_at_upd_other; auto]|].
  eapply cell_at_upd; eauto.
Qed.
Print Assumptions C06_read_out_of_buffer.

Theorem C06_write_out_of_buffer : forall x h d f v,
  cell_at h (h_ref x) d -> (f_start f <= f_end f)%nat -> (8 * length d <= f_end f)%nat ->
  exists h', hset x f v h = (Panic PIndex, h') /\ only_changes (h_ref x) h h' /\
    nth_error h' (h_ref x) = Some (Cell d true).
Proof.
  intros x h d f v H H1 H2. eexists. split; [apply hset_oob; eauto|].
  split; [split; [apply upd_length|intros; apply cell_at_upd_other; auto]|].
  eapply cell_at_upd; eauto.
Qed.
Print Assumptions C06_write_out_of_buffer.

(** An operation that has something to lock: a non-empty range, headers of this heap. *)
Definition proper (h : heap) (o : hop) : Prop :=
  Forall (fun r => (r < length h)%nat) (uses o) /\
  match o with
  | OGet _ f | OSet _ f _ => (f_start f <= f_end f)%nat
  | OBitRange _ msb lsb | OSetBitRange _ msb lsb _ | OBytes _ msb lsb | OSetBytes _ msb lsb _ => (lsb <= msb)%nat
  | _ => True
  end.

(** Once poisoned, a buffer stays so whatever is done, keeps its bytes, and every
    operation that uses it panics, through whichever clone. *)
Theorem C06_poison_for_ever : forall m os h r d o,
  nth_error h r = Some (Cell d true) ->
  let h' := snd (hrun m os h) in
  nth_error h' r = Some (Cell d true) /\
  (In r (uses o) -> proper h' o -> exists f, fst (hexec m o h') = Panic f).
Proof.
  intros m os h r d o Hp h'.
  assert (Hp' : nth_error h' r = Some (Cell d true)).
  { unfold h'. clear h' o. revert h Hp; induction os as [|o os IH]; intros h Hp; [exact Hp|].
    rewrite hrun_cons. simpl. apply IH. destruct (hexec_local m o h) as (_ & _ & P). auto. }
  split; [exact Hp'|]. clearbody h'. clear Hp os h. rename h' into h.
  intros Hu [Hv Hw].
  assert (Po : poisoned_at h r) by (exists d; auto).
  destruct o; cbn [uses] in *; try (contradiction);
    try (destruct Hu as [Hu|[]]; subst r); cbn [hexec]; unfold bind at 1.
  - unfold hget. rewrite (hbit_range_poisoned m x h) by auto. eexists; reflexivity.
  - rewrite (hset_poisoned x h) by auto. eexists; reflexivity.
  - rewrite (hbit_range_poisoned m x h) by auto. eexists; reflexivity.
  - pose proof (hset_poisoned x h (Fld "" lsb msb) v Po Hw) as E. unfold hset in E. simpl in E.
    rewrite E. eexists; reflexivity.
  - unfold hbytes, bind at 1, lift.
    assert (G : (exists f, bytes_guard m msb lsb = Panic f) \/ bytes_guard m msb lsb = Ret tt).
    { unfold bytes_guard. destruct (msb <? lsb)%nat; destruct m;
        repeat match goal with |- context [if ?c then _ else _] => destruct c end; eauto. }
    destruct G as [[f ->]| ->]; [eexists; reflexivity|].
    unfold step8_len, range_len.
    replace ((S msb - lsb + 7) / 8)%nat with (S ((msb - lsb) / 8)).
    2:{ replace (S msb - lsb + 7)%nat with (msb - lsb + 1 * 8)%nat by lia. rewrite Nat.div_add by lia. lia. }
    cbn [hbytes_loop]. unfold bind at 1. rewrite (hbit_range_poisoned m x h) by (auto; lia).
    eexists; reflexivity.
  - unfold hset_bytes, bind at 1, lift.
    assert (G : (exists f, set_bytes_guard m (length v) msb lsb = Panic f) \/
                (set_bytes_guard m (length v) msb lsb = Ret tt /\ (v = [] \/ 0 < length v)%nat)).
    { unfold set_bytes_guard. rewrite (proj2 (Nat.ltb_ge _ _)) by lia. destruct (whole_usize msb lsb).
      { destruct m; [eauto|]. destruct v; cbn [length Nat.eqb]; eauto. }
      destruct (Nat.eqb_spec (length v * 8) (msb - lsb + 1)); [right|left]; eauto. split; auto. lia. }
    destruct G as [[f ->]|[-> Hl]]; [eexists; reflexivity|].
    unfold step8_len, range_len.
    replace ((S msb - lsb + 7) / 8)%nat with (S ((msb - lsb) / 8)).
    2:{ replace (S msb - lsb + 7)%nat with (msb - lsb + 1 * 8)%nat by lia. rewrite Nat.div_add by lia. lia. }
    cbn [hset_bytes_loop]. unfold bind at 1. unfold lift.
    destruct Hl as [->|Hl]; [eexists; reflexivity|]. rewrite (index_lt v 0 0) by auto.
    unfold bind at 1.
    pose proof (hset_poisoned x h (Fld "" lsb (lsb + 7)) (nth 0 v 0) Po ltac:(simpl; lia)) as E.
    unfold hset in E. cbn [f_start f_end] in E. rewrite E. eexists; reflexivity.
  - (* replace *)
    apply Forall_cons_iff in Hv as [Hv1 Hv]. apply Forall_cons_iff in Hv as [Hv2 _].
    unfold hreplace.
    destruct (nth_error h (h_ref x)) as [[dx px]|] eqn:Ex; [|apply nth_error_None in Ex; lia].
    destruct (nth_error h (h_ref y)) as [[dy py]|] eqn:Ey; [|apply nth_error_None in Ey; lia].
    simpl. destruct px; [eexists; reflexivity|].
    destruct Hu as [Hu|[Hu|[]]]; [congruence|].
    destruct (Nat.eqb_spec (h_ref x) (h_ref y)) as [E|E]; [congruence|].
    assert (py = true) as -> by congruence. eexists; reflexivity.
  - rewrite hto_vec_poisoned by auto. eexists; reflexivity.
Qed.
Print Assumptions C06_poison_for_ever.

Example C06_example :
  let h' := snd (hget Release ex_short Ether_etype ex_heap) in
  nth_error h' 2 = Some (Cell [0xAB] true) /\ proper h' (OToVec ex_short) /\
  hget Release ex_ip IPv4_ttl h' = (Ret 64, h').
Proof. vm_compute. repeat split. repeat constructor. Qed.

(** * C07 *)

Theorem C07_bytes : forall m x h d msb lsb,
  cell_at h (h_ref x) d -> bytes_ok d -> (lsb <= msb)%nat -> (msb < 8 * length d)%nat -> addressable d ->
  ((msb - lsb + 1) mod 8 = 0)%nat ->
  exists bs, hbytes m x msb lsb h = (Ret bs, h) /\
    bytes_ok bs /\ (8 * length bs = msb - lsb + 1)%nat /\ be bs = bits_val d lsb msb.
Proof.
  intros m x h d msb lsb H Hd H1 H2 Ha Hm.
  pose proof (Nat.div_mod_eq (msb - lsb + 1) 8) as Ediv. set (n := ((msb - lsb + 1) / 8)%nat) in *.
  assert (En : step8_len msb lsb = n).
  { unfold step8_len, range_len. symmetry. apply Nat.div_unique with (r := 7%nat); lia. }
  exists (octets d lsb n). split.
  - unfold hbytes, bind, lift, bytes_guard.
    rewrite (proj2 (Nat.ltb_ge _ _)), (not_whole _ _ _ Ha H2) by lia. rewrite Hm. simpl (0 =? 0)%nat. cbv iota.
    rewrite En, (hbytes_loop_in m x h d), bytes_loop_val by (auto; lia). reflexivity.
  - split; [apply octets_ok|]. rewrite octets_length. split; [lia|].
    rewrite be_octets by (auto; lia). rewrite <- rv_bits_val by auto. f_equal. lia.
Qed.
Print Assumptions C07_bytes.

Theorem C07_set_bytes : forall m x h d msb lsb vs,
  cell_at h (h_ref x) d -> bytes_ok d -> bytes_ok vs ->
  (lsb <= msb)%nat -> (msb < 8 * length d)%nat -> addressable d -> (8 * length vs = msb - lsb + 1)%nat ->
  exists h' d', hset_bytes m x msb lsb vs h = (Ret tt, h') /\ only_changes (h_ref x) h h' /\
    cell_at h' (h_ref x) d' /\ bytes_ok d' /\ length d' = length d /\
    bits_val d' lsb msb = be vs /\
    (forall i, ~ (lsb <= i <= msb)%nat -> bit d' i = bit d i) /\
    hbytes m x msb lsb h' = (Ret vs, h').
Proof.
  intros m x h d msb lsb vs H Hd Hvs H1 H2 Ha Hl.
  assert (En : step8_len msb lsb = length vs).
  { unfold step8_len, range_len. symmetry. apply Nat.div_unique with (r := 7%nat); lia. }
  assert (R : hset_bytes m x msb lsb vs h = (Ret tt, upd h (h_ref x) (Cell (woctets d lsb vs) false))).
  { unfold hset_bytes, bind, lift, set_bytes_guard.
    rewrite (proj2 (Nat.ltb_ge _ _)), (not_whole _ _ _ Ha H2) by lia. rewrite (proj2 (Nat.eqb_eq _ _)) by lia.
    rewrite En. apply hset_bytes_loop_in; auto. lia. }
  exists (upd h (h_ref x) (Cell (woctets d lsb vs) false)), (woctets d lsb vs).
  split; [exact R|]. split; [split; [apply upd_length|intros; apply cell_at_upd_other; auto]|].
  assert (C : cell_at (upd h (h_ref x) (Cell (woctets d lsb vs) false)) (h_ref x) (woctets d lsb vs))
    by (eapply cell_at_upd; eauto).
  split; [exact C|]. split; [apply woctets_ok; auto|]. split; [apply woctets_length|].
  assert (O : octets (woctets d lsb vs) lsb (length vs) = vs) by (apply octets_woctets; auto; lia).
  split; [|split].
  - rewrite <- O at 2. rewrite be_octets by (try apply woctets_ok; auto; rewrite woctets_length; lia).
    rewrite <- rv_bits_val by auto. f_equal. lia.
  - intros i Hi. apply bit_woctets_out; lia.
  - unfold hbytes, bind, lift, bytes_guard. rewrite (proj2 (Nat.ltb_ge _ _)), (not_whole _ _ _ Ha H2) by lia.
    replace ((msb - lsb + 1) mod 8)%nat with 0%nat.
    2:{ rewrite <- Hl, Nat.mul_comm, Nat.mod_mul; lia. }
    simpl (0 =? 0)%nat. cbv iota. rewrite En.
    rewrite (hbytes_loop_in m x _ (woctets d lsb vs)) by (auto; rewrite woctets_length; lia).
    rewrite bytes_loop_val by (try apply woctets_ok; auto; rewrite woctets_length; lia).
    rewrite O. reflexivity.
Qed.
Print Assumptions C07_set_bytes.

(** The asserts: a range that is not whole octets, or a value of another length,
    is rejected and nothing is locked or changed. (The one range excepted for
    [set_bytes] is the subject of the next theorem.) *)
Theorem C07_asserts : forall m x h msb lsb vs,
  (lsb <= msb)%nat ->
  (((msb - lsb + 1) mod 8 <> 0)%nat -> hbytes m x msb lsb h = (Panic PAssert, h)) /\
  ((8 * length vs <> msb - lsb + 1)%nat -> N.of_nat msb <> 2 ^ 64 - 1 -> hset_bytes m x msb lsb vs h = (Panic PAssert, h)).
Proof.
  intros m x h msb lsb vs H1. split; [intros Hn|intros Hn Hm].
  - unfold hbytes, bind, lift, bytes_guard. rewrite (proj2 (Nat.ltb_ge _ _)) by lia.
    destruct (whole_usize msb lsb) eqn:Wh; [apply whole_spec in Wh as [W1 W2]; destruct (Hn (whole_mod _ _ W1 W2))|].
    rewrite (proj2 (Nat.eqb_neq _ _)) by auto. reflexivity.
  - unfold hset_bytes, bind, lift, set_bytes_guard. rewrite (proj2 (Nat.ltb_ge _ _)) by lia.
    destruct (whole_usize msb lsb) eqn:Wh; [apply whole_spec in Wh as [W1 W2]; destruct (Hm W1)|].
    rewrite (proj2 (Nat.eqb_neq _ _)) by lia. reflexivity.
Qed.
Print Assumptions C07_asserts.

(** The range of all bits a [usize] can count: its width overflows. With overflow
    checks this is the panic; without, the width is 0, which fits the empty value:
    [set_bytes] then panics at the first byte it takes from it, having locked nothing. *)
Theorem C07_widest : forall x h msb vs, N.of_nat msb = 2 ^ 64 - 1 ->
  hbytes Debug x msb 0 h = (Panic POverflow, h) /\ hset_bytes Debug x msb 0 vs h = (Panic POverflow, h) /\
  hset_bytes Release x msb 0 vs h = (Panic (match vs with [] => PIndex | _ => PAssert end), h).
Proof.
  intros x h msb vs E.
  assert (W : whole_usize msb 0 = true) by (apply whole_spec; auto).
  unfold hbytes, hset_bytes, bytes_guard, set_bytes_guard. unfold bind at 1 2 3. unfold lift.
  rewrite (proj2 (Nat.ltb_ge _ _)), W by lia. split; [reflexivity|]. split; [reflexivity|].
  destruct vs as [|v vs]; [|reflexivity]. cbn [length Nat.eqb]. unfold step8_len, range_len.
  replace (S msb - 0 + 7)%nat with (msb + 1 * 8)%nat by lia. rewrite Nat.div_add by lia.
  replace (msb / 8 + 1)%nat with (S (msb / 8)) by lia. reflexivity.
Qed.
Print Assumptions C07_widest.
Example C07_widest_example : N.of_nat (N.to_nat (2 ^ 64 - 1)) = 2 ^ 64 - 1.
Proof. apply N2Nat.id. Qed.

(** Without overflow checks a range that ends before it begins has a width modulo 2^64.
    A value of that many bits is accepted, and nothing is written. *)
Theorem C07_reversed : forall x h msb lsb vs, (msb < lsb)%nat ->
  hset_bytes Debug x msb lsb vs h = (Panic POverflow, h) /\
  ((exists k, N.of_nat lsb + 8 * N.of_nat (length vs) = N.of_nat msb + 1 + k * 2 ^ 64) -> hset_bytes Release x msb lsb vs h = (Ret tt, h)) /\
  (~ (exists k, N.of_nat lsb + 8 * N.of_nat (length vs) = N.of_nat msb + 1 + k * 2 ^ 64) -> hset_bytes Release x msb lsb vs h = (Panic PAssert, h)) /\
  hbytes Debug x msb lsb h = (Panic POverflow, h) /\
  hbytes Release x msb lsb h = ((if (lsb - msb - 1) mod 8 =? 0 then Ret [] else Panic PAssert)%nat, h).
Proof.
  intros x h msb lsb vs H. unfold hset_bytes, hbytes, set_bytes_guard, bytes_guard. unfold bind, lift. rewrite (proj2 (Nat.ltb_lt _ _) H).
  assert (Z : step8_len msb lsb = O) by (unfold step8_len, range_len; replace (S msb - lsb)%nat with O by lia; reflexivity).
  split; [reflexivity|]. split; [|split; [|split; [reflexivity|]]].
  - intros [k E]. replace (N.of_nat (length vs * 8 + (lsb - msb - 1))) with (k * 2 ^ 64) by lia. rewrite N.mod_mul by lia. rewrite Z. reflexivity.
  - intros Nk. destruct (N.eqb_spec (N.of_nat (length vs * 8 + (lsb - msb - 1)) mod 2 ^ 64) 0) as [E|E]; [|reflexivity]. destruct Nk.
    apply N.mod_divide in E; [|lia]. destruct E as [k E]. exists k. lia.
  - destruct (_ =? 0)%nat; [|reflexivity]. rewrite Z. reflexivity.
Qed.
Print Assumptions C07_reversed.
Example C07_reversed_example : forall x h b, hset_bytes Release x 0 (N.to_nat (2 ^ 64 - 7)) [b] h = (Ret tt, h).
Proof. intros x h b. apply C07_reversed; [lia|]. exists 1. rewrite N2Nat.id. reflexivity. Qed.

(** Unlike the setters, [set_bytes] past the end leaves the octets before the end
    written: a panic does not mean nothing changed. *)
Theorem C07_set_bytes_partial_write_refuted : exists x h d msb lsb vs,
  cell_at h (h_ref x) d /\ bytes_ok d /\ bytes_ok vs /\ (8 * length vs = msb - lsb + 1)%nat /\
  exists f d', fst (hset_bytes Debug x msb lsb vs h) = Panic f /\
    nth_error (snd (hset_bytes Debug x msb lsb vs h)) (h_ref x) = Some (Cell d' true) /\ d' <> d.
Proof.
  exists ex_short, ex_heap, [0xAB], 15%nat, 0%nat, [0x11; 0x22].
  repeat split; try (repeat constructor; fail).
  do 2 eexists. split; [reflexivity|]. split; [reflexivity|]. discriminate.
Qed.
Print Assumptions C07_set_bytes_partial_write_refuted.

Example C07_example : hbytes Debug ex_ip 18 3 ex_heap = (Ret [0x28; 0x00], ex_heap) /\
  fst (hset_bytes Debug ex_ip 18 3 [0xFF; 0xFF] ex_heap) = Ret tt.
Proof. split; reflexivity. Qed.

(** * C08 *)

Definition covers (f : field) (i : nat) : Prop := (f_start f <= i <= f_end f)%nat.
Definition coversb (f : field) (i : nat) : bool := (f_start f <=? i)%nat && (i <=? f_end f)%nat.

(** Every bit of a header belongs to exactly one field, and fields have at least
    one bit and lie inside the header. *)
Theorem C08_layouts_sound : forall T, In T protocol_headers ->
  NoDup (map f_name (ht_fields T)) /\
  (forall f, In f (ht_fields T) -> field_in f (ht_size T)) /\
  (forall i, (i < 8 * ht_size T)%nat ->
     exists f, In f (ht_fields T) /\ covers f i /\
       forall g, In g (ht_fields T) -> covers g i -> g = f) /\
  (forall i j f g, nth_error (ht_fields T) i = Some f -> nth_error (ht_fields T) j = Some g ->
     i <> j -> disjoint f g).
Proof.
  assert (C : forallb (fun T =>
      forallb (fun f => (f_start f <=? f_end f)%nat && (f_end f <? 8 * ht_size T)%nat) (ht_fields T) &&
      forallb (fun i => (length (filter (fun f => coversb f i) (ht_fields T)) =? 1)%nat) (seq 0 (8 * ht_size T)))
      protocol_headers = true) by (vm_compute; reflexivity).
  intros T HT. rewrite forallb_forall in C. specialize (C T HT).
  apply andb_prop in C as [C1 C2]. rewrite forallb_forall in C1, C2.
  assert (FI : forall f, In f (ht_fields T) -> field_in f (ht_size T)).
  { intros f Hf. specialize (C1 f Hf). apply andb_prop in C1 as [A B].
    apply Nat.leb_le in A. apply Nat.ltb_lt in B. split; auto. }
  assert (CV : forall f i, coversb f i = true <-> covers f i).
  { intros f i. unfold coversb, covers. rewrite andb_true_iff, !Nat.leb_le. reflexivity. }
  assert (ND : NoDup (map f_name (ht_fields T))).
  { clear -HT. simpl in HT.
    repeat destruct HT as [<-|HT]; try contradiction;
      repeat constructor; simpl; intuition discriminate. }
  split; [exact ND|]. split; [exact FI|].
  assert (UQ : forall i, (i < 8 * ht_size T)%nat ->
     exists f, filter (fun f => coversb f i) (ht_fields T) = [f]).
  { intros i Hi. assert (Is : In i (seq 0 (8 * ht_size T))) by (apply in_seq; lia).
    specialize (C2 i Is). apply Nat.eqb_eq in C2.
    destruct (filter (fun f => coversb f i) (ht_fields T)) as [|f [|]]; try discriminate. eauto. }
  split.
  - intros i Hi. destruct (UQ i Hi) as [f E].
    assert (Hf : In f (filter (fun f => coversb f i) (ht_fields T))) by (rewrite E; left; auto).
    apply filter_In in Hf as [Hf Hc]. exists f. split; auto. split; [apply CV; auto|].
    intros g Hg Hc'. assert (Hgf : In g (filter (fun f => coversb f i) (ht_fields T)))
      by (apply filter_In; split; [auto|apply CV; auto]).
    rewrite E in Hgf. destruct Hgf as [->|[]]. reflexivity.
  - intros i j f g Hi Hj Hn.
    assert (Hfi := nth_error_In _ _ Hi). assert (Hgi := nth_error_In _ _ Hj).
    destruct (FI f Hfi) as [F1 F2]. destruct (FI g Hgi) as [G1 G2].
    unfold disjoint. destruct (Nat.lt_ge_cases (f_end f) (f_start g)) as [|L1]; [auto|].
    destruct (Nat.lt_ge_cases (f_end g) (f_start f)) as [|L2]; [auto|]. exfalso.
    set (b := Nat.max (f_start f) (f_start g)).
    destruct (UQ b ltac:(unfold b; lia)) as [u E].
    assert (Iu : forall k, In k (ht_fields T) -> covers k b -> k = u).
    { intros k Hk Hc. assert (I : In k (filter (fun f => coversb f b) (ht_fields T)))
        by (apply filter_In; split; [auto|apply CV; auto]).
      rewrite E in I. destruct I as [->|[]]; reflexivity. }
    assert (f = u) by (apply Iu; auto; unfold covers, b; lia).
    assert (g = u) by (apply Iu; auto; unfold covers, b; lia). subst f. subst g.
    apply Hn. apply (proj1 (NoDup_nth_error (map f_name (ht_fields T))) ND).
    + rewrite map_length. apply nth_error_Some. congruence.
    + rewrite !nth_error_map, Hi, Hj. reflexivity.
Qed.
Print Assumptions C08_layouts_sound.

Theorem C08_tester_refuted : exists f g,
  In f (ht_fields Tester) /\ In g (ht_fields Tester) /\ f <> g /\ ~ disjoint f g.
Proof.
  exists Tester_byte2, Tester_byte4. repeat split; try (simpl; tauto); try discriminate.
  intros [H|H]; simpl in H; lia.
Qed.
Print Assumptions C08_tester_refuted.

Example C08_example : In ERSPAN3 protocol_headers /\ length (ht_fields ERSPAN3) = 14%nat.
Proof. split; [simpl; tauto|reflexivity]. Qed.

(** * C09 *)

Theorem C09_default_length : forall T h, In T predefined -> T <> ICMP ->
  exists x h' d, hnew T h = (Ret x, h') /\ h_ty x = T /\ hto_vec x h' = (Ret d, h') /\
    length d = ht_size T /\ hlen x = length d /\ bytes_ok d /\
    (forall r, (r < length h)%nat -> nth_error h' r = nth_error h r /\ h_ref x <> r).
Proof.
  intros T h HT Hn. do 3 eexists. split; [apply hnew_run|]. split; [reflexivity|].
  split; [apply hto_vec_cell; apply cell_at_last|].
  assert (L : length (ht_default T) = ht_size T).
  { simpl in HT. repeat destruct HT as [<-|HT]; try reflexivity; try congruence; contradiction. }
  split; [exact L|]. split; [symmetry; exact L|]. split.
  - apply bytes_okb_ok. simpl in HT. repeat destruct HT as [<-|HT]; try reflexivity; contradiction.
  - intros r Hr. split; [apply nth_error_app1; auto|]. simpl. lia.
Qed.
Print Assumptions C09_default_length.

Theorem C09_icmp_refuted : exists T, In T protocol_headers /\
  forall h, exists x h' d, hnew T h = (Ret x, h') /\ hto_vec x h' = (Ret d, h') /\
    length d <> ht_size T /\ length d = 6%nat /\ hlen x = 4%nat.
Proof.
  exists ICMP. split; [simpl; tauto|]. intros h. do 3 eexists. split; [apply hnew_run|].
  split; [apply hto_vec_cell; apply cell_at_last|]. repeat split; try reflexivity. discriminate.
Qed.
Print Assumptions C09_icmp_refuted.

Example C09_example : In Ether predefined /\ Ether <> ICMP.
Proof. split; [simpl; tauto|discriminate]. Qed.

(** * C10 *)

(** "A clone is independent of the original" is false. *)
Theorem C10_clone_independent_refuted : exists x y h h1 h2 f v,
  hclone x h = (Ret y, h1) /\ hset y f v h1 = (Ret tt, h2) /\
  (exists a b, fst (hto_vec x h) = Ret a /\ fst (hto_vec x h2) = Ret b /\ a <> b).
Proof.
  exists ex_ip, ex_ip, ex_heap, ex_heap. do 3 eexists. split; [reflexivity|].
  split; [apply (hset_in ex_ip ex_heap (ht_default IPv4) IPv4_ttl 7); [reflexivity|apply bytes_okb_ok; reflexivity|split; simpl; lia]|].
  do 2 eexists. split; [reflexivity|]. split; [reflexivity|]. vm_compute. discriminate.
Qed.
Print Assumptions C10_clone_independent_refuted.

(** A write through either handle is read through the other. *)
Theorem C10_write_seen_through_clone : forall m x y h h1 d f v,
  hclone x h = (Ret y, h1) ->
  cell_at h (h_ref x) d -> bytes_ok d -> field_in f (length d) -> (f_width f <= 64)%nat ->
  h1 = h /\
  (exists h2, hset y f v h1 = (Ret tt, h2) /\ hget m x f h2 = (Ret (v mod 2 ^ N.of_nat (f_width f)), h2)) /\
  (exists h2, hset x f v h1 = (Ret tt, h2) /\ hget m y f h2 = (Ret (v mod 2 ^ N.of_nat (f_width f)), h2)).
Proof.
  intros m [T r] y h h1 d f v E H Hd Hf Hw. injection E as <- <-. split; auto.
  split; apply (C02_set_get m _ h d); auto.
Qed.
Print Assumptions C10_write_seen_through_clone.

(** For ever: after any history the two handles read the same, of the same type. *)
Theorem C10_clone_shares_for_ever : forall m x y h h1 os,
  hclone x h = (Ret y, h1) ->
  let h' := snd (hrun m os h1) in
  h_ty y = h_ty x /\ hto_vec y h' = hto_vec x h' /\
  (forall f, hget m y f h' = hget m x f h') /\
  (forall f v, hset y f v h' = hset x f v h').
Proof. intros m [T r] y h h1 os E. injection E as <- <-. repeat split. Qed.
Print Assumptions C10_clone_shares_for_ever.

Example C10_example : hclone ex_ip ex_heap = (Ret ex_ip, ex_heap) /\ field_in IPv4_ttl 20.
Proof. split; [reflexivity|split; simpl; lia]. Qed.

(** * C11 *)

Theorem C11_replace : forall m x y h dx dy,
  cell_at h (h_ref x) dx -> cell_at h (h_ref y) dy -> h_ref x <> h_ref y ->
  exists h', hreplace x y h = (Ret tt, h') /\
    cell_at h' (h_ref x) dy /\ cell_at h' (h_ref y) dy /\ only_changes (h_ref x) h h' /\
    (* later histories that do not touch one of them leave it as it is *)
    (forall os, (forall o, In o os -> target o <> Some (h_ref x)) ->
       cell_at (snd (hrun m os h')) (h_ref x) dy) /\
    (forall os, (forall o, In o os -> target o <> Some (h_ref y)) ->
       cell_at (snd (hrun m os h')) (h_ref y) dy).
Proof.
  intros m x y h dx dy Hx Hy Hn.
  assert (R : hreplace x y h = (Ret tt, upd h (h_ref x) (Cell dy false))).
  { unfold hreplace. rewrite Hx, Hy. cbn [c_poisoned].
    rewrite (proj2 (Nat.eqb_neq _ _) Hn). reflexivity. }
  eexists. split; [exact R|].
  assert (C1 : cell_at (upd h (h_ref x) (Cell dy false)) (h_ref x) dy) by (eapply cell_at_upd; eauto).
  assert (C2 : cell_at (upd h (h_ref x) (Cell dy false)) (h_ref y) dy)
    by (unfold cell_at; rewrite cell_at_upd_other; auto).
  split; [exact C1|]. split; [exact C2|].
  split; [split; [apply upd_length|intros; apply cell_at_upd_other; auto]|].
  split; intros os Hos; unfold cell_at; rewrite hrun_frame; auto.
  - rewrite upd_length. eapply cell_at_lt; eauto.
  - rewrite upd_length. eapply cell_at_lt; eauto.
Qed.
Print Assumptions C11_replace.

(** Replacing a header by one sharing its buffer never returns, and has already
    emptied it. *)
Theorem C11_replace_alias : forall x y h d,
  cell_at h (h_ref x) d -> h_ref y = h_ref x ->
  hreplace x y h = (Hang, upd h (h_ref x) (Cell [] false)).
Proof.
  intros x y h d Hx E. unfold hreplace. rewrite E, !Hx. cbn [c_poisoned].
  rewrite Nat.eqb_refl. reflexivity.
Qed.
Print Assumptions C11_replace_alias.

(** Replacing by a poisoned header loses the contents and poisons the receiver too. *)
Theorem C11_replace_poisoned : forall x y h d,
  cell_at h (h_ref x) d -> poisoned_at h (h_ref y) ->
  hreplace x y h = (Panic PPoison, upd h (h_ref x) (Cell [] true)).
Proof.
  intros x y h d Hx [dy Hy]. unfold hreplace. rewrite Hx, Hy. cbn [c_poisoned].
  destruct (Nat.eqb_spec (h_ref x) (h_ref y)) as [E|E]; [|reflexivity].
  unfold cell_at in Hx. rewrite E in Hx. congruence.
Qed.
Print Assumptions C11_replace_poisoned.

Example C11_example : cell_at ex_heap (h_ref ex_eth) (ht_default Ether) /\
  cell_at ex_heap (h_ref ex_short) [0xAB] /\ h_ref ex_eth <> h_ref ex_short.
Proof. repeat split; discriminate. Qed.
