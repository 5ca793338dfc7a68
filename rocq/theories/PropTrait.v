(** PropTrait.v -- C58-C63: field constants and [bytes], the
    [Header] trait, refreshing a checksum, diagnostics, [new()], Python tables. *)

From Coq Require Import Lia.
From Verif Require Import Base Bits BitsProofs Layout Heap HeapProofs Ops OpsProofs Packet PacketProofs
  Slow Fast Show ShowSpec ShowProofs Trait Python Text Build Utils Spec ChecksumProofs TextProofs BuildProofs
  PropHeader PropPacket PropShow PropChecksum PropBuild Grammar GrammarProofs PropParse EditProofs PropEdit.
Open Scope N_scope.

(** Buffers of a heap, one by one. *)
Lemma heap_ext (h g : heap) : (forall n, nth_error h n = nth_error g n) -> h = g.
Proof.
  revert g. induction h as [|c h IH]; intros [|c' g] H; try (specialize (H 0%nat); discriminate); [reflexivity|].
  pose proof (H 0%nat) as H0. injection H0 as <-. f_equal. apply IH. intros n. exact (H (S n)).
Qed.

(** * C58 *)

(** The constants of a field, and of a header: the widths of the fields of a
    protocol header add up to its size. *)
Theorem C58_constants : forall T, In T protocol_headers ->
  (forall f, In f (ht_fields T) ->
     field_lsb f = f_start f /\ field_msb f = f_end f /\ (field_lsb f <= field_msb f)%nat /\
     field_size f = length (seq (field_lsb f) (S (field_msb f) - field_lsb f)) /\
     (field_msb f < 8 * size_of T)%nat) /\
  list_sum (map field_size (ht_fields T)) = (8 * size_of T)%nat.
Proof.
  intros T I. split.
  - intros f If. destruct (C08_layouts_sound T I) as (_ & F & _). destruct (F f If) as [H1 H2].
    unfold field_lsb, field_msb, field_size, size_of. rewrite seq_length. repeat split; auto. lia.
  - simpl in I. repeat (destruct I as [<-|I]; [reflexivity|]). contradiction.
Qed.
Print Assumptions C58_constants.

(** [x.bytes(X::f_msb(), X::f_lsb())] reads a field of whole octets, however wide. *)
Theorem C58_bytes : forall m x h d f,
  cell_at h (h_ref x) d -> bytes_ok d -> addressable d -> field_in f (length d) -> (field_size f mod 8 = 0)%nat ->
  exists bs, hbytes m x (field_msb f) (field_lsb f) h = (Ret bs, h) /\
    bytes_ok bs /\ (8 * length bs = field_size f)%nat /\ be bs = field_val d f /\
    ((f_width f <= 64)%nat -> hget m x f h = (Ret (be bs), h)).
Proof.
  intros m x h d f C O Ad [H1 H2] E.
  destruct (C07_bytes m x h d (field_msb f) (field_lsb f) C O H1 H2 Ad E) as (bs & R & Ob & L & V).
  exists bs. repeat split; auto. intros W. rewrite (C01_getter m x h d f C O (conj H1 H2) W).
  f_equal. f_equal. symmetry. exact V.
Qed.
Print Assumptions C58_bytes.

(** [x.set_bytes(X::f_msb(), X::f_lsb(), v)] writes it, and does what the setter does. *)
Theorem C58_set_bytes : forall m x h d f vs,
  cell_at h (h_ref x) d -> bytes_ok d -> addressable d -> bytes_ok vs -> field_in f (length d) ->
  (8 * length vs = field_size f)%nat ->
  exists h' d', hset_bytes m x (field_msb f) (field_lsb f) vs h = (Ret tt, h') /\
    only_changes (h_ref x) h h' /\ cell_at h' (h_ref x) d' /\ bytes_ok d' /\ length d' = length d /\
    field_val d' f = be vs /\
    (forall g, field_in g (length d) -> disjoint f g -> field_val d' g = field_val d g) /\
    hbytes m x (field_msb f) (field_lsb f) h' = (Ret vs, h') /\
    hset x f (be vs) h = (Ret tt, h').
Proof.
  intros m x h d f vs C O Ad Ov [H1 H2] E.
  destruct (C07_set_bytes m x h d (field_msb f) (field_lsb f) vs C O Ov H1 H2 Ad) as
    (h' & d' & R & Oc & C' & O' & L' & V & Fr & B); [exact E|].
  exists h', d'. split; [exact R|]. split; [exact Oc|]. split; [exact C'|]. split; [exact O'|]. split; [exact L'|].
  split; [exact V|]. unfold field_msb, field_lsb in *.
  split; [|split; [exact B|]].
  - intros g Hg Dj. apply field_val_ext; auto; [rewrite L'; auto|].
    intros j Hj. apply Fr. destruct Dj; lia.
  - rewrite (hset_in x h d f (be vs) C O (conj H1 H2)). f_equal.
    assert (Ed : fset d f (be vs) = d').
    { apply bytes_ext; auto using fset_ok; [rewrite fset_length; auto|].
      intros i Hi. rewrite fset_length in Hi. rewrite bit_fset by (split; auto).
      destruct (Nat.leb_spec (f_start f) i) as [A1|A1]; cbn [andb]; [|symmetry; apply Fr; lia].
      destruct (Nat.leb_spec i (f_end f)) as [A2|A2]; [|symmetry; apply Fr; lia].
      rewrite <- V. unfold field_val. rewrite <- rv_bits_val by auto.
      rewrite rv_testbit by (auto; lia). rewrite (proj2 (Nat.ltb_lt _ _)) by lia. f_equal. lia. }
    rewrite Ed. destruct Oc as [Ll Oc]. apply heap_ext. intros n. destruct (Nat.eq_dec n (h_ref x)) as [->|Ne].
    + rewrite C'. eapply cell_at_upd; eauto.
    + rewrite (Oc n Ne). apply cell_at_upd_other; auto.
Qed.
Print Assumptions C58_set_bytes.

(** An octet-aligned field: the octets are put in place of the old ones. This is how
    [IPv6::dst] and [IPv6::src] are written and read (packet.rs:699-711). *)
Theorem C58_aligned : forall m x h a old b f vs,
  cell_at h (h_ref x) (a ++ old ++ b) -> bytes_ok (a ++ old ++ b) -> addressable (a ++ old ++ b) ->
  bytes_ok vs -> old <> [] ->
  f_start f = (8 * length a)%nat -> f_end f = (8 * (length a + length old) - 1)%nat -> length vs = length old ->
  hbytes m x (field_msb f) (field_lsb f) h = (Ret old, h) /\
  exists h', hset_bytes m x (field_msb f) (field_lsb f) vs h = (Ret tt, h') /\
    only_changes (h_ref x) h h' /\ cell_at h' (h_ref x) (a ++ vs ++ b).
Proof.
  intros m x h a old b f vs C O Ad Ov NE Hs He Lv.
  pose proof O as O3. apply bytes_ok_app in O3 as [Oa O3]. apply bytes_ok_app in O3 as [Oo Ob].
  assert (0 < length old)%nat by (destruct old; simpl; [congruence|lia]).
  assert (Fi : field_in f (length (a ++ old ++ b))) by (split; [lia|rewrite !app_length; lia]).
  assert (V : forall w, bytes_ok w -> length w = length old -> field_val (a ++ w ++ b) f = be w).
  { intros w Ow Lw. unfold field_val, bits_val. rewrite He, Hs, !app_length, Lw.
    replace (8 * (length a + length old) - 1 - 8 * length a + 1)%nat with (8 * length w)%nat by lia.
    replace (8 * (length a + (length old + length b)) - 1 - (8 * (length a + length old) - 1))%nat
      with (8 * length b)%nat by lia.
    rewrite app_assoc, be_app. rewrite N.div_add_l by (apply N.pow_nonzero; discriminate).
    rewrite (N.div_small (be b)) by (apply be_bound; auto). rewrite N.add_0_r, be_app, N.add_comm.
    rewrite N.mod_add by (apply N.pow_nonzero; discriminate). apply N.mod_small. apply be_bound; auto. }
  split.
  - destruct (C58_bytes m x h _ f C O Ad Fi) as (bs & R & Obs & L & Vb & _).
    { unfold field_size. rewrite Hs, He.
      replace (8 * (length a + length old) - 1 - 8 * length a + 1)%nat with (length old * 8)%nat by lia.
      apply Nat.mod_mul. lia. }
    rewrite R. f_equal. f_equal. apply be_inj; auto.
    + unfold field_size in L. lia.
    + rewrite Vb. apply V; auto.
  - destruct (C58_set_bytes m x h _ f vs C O Ad Ov Fi) as (h' & d' & R & Oc & C' & O' & L' & Vd & Fr & _ & Se).
    { unfold field_size. lia. }
    exists h'. split; [exact R|]. split; [exact Oc|].
    rewrite (hset_in x h _ f (be vs) C O Fi) in Se. injection Se as Se. subst h'.
    rewrite (fset_middle a old b f (be vs) Oa Oo Ob NE Hs He) in C' |- *.
    assert (Ed : to_be (length old) (be vs) = vs).
    { apply be_inj; auto using to_be_ok; [rewrite to_be_length; auto|].
      rewrite <- (V (to_be (length old) (be vs))) by (auto using to_be_ok, to_be_length).
      assert (Q : d' = a ++ to_be (length old) (be vs) ++ b).
      { assert (Q : cell_at (upd h (h_ref x) (Cell (a ++ to_be (length old) (be vs) ++ b) false)) (h_ref x)
          (a ++ to_be (length old) (be vs) ++ b)) by (eapply cell_at_upd; eauto).
        exact (cell_at_fun _ _ _ _ C' Q). }
      rewrite <- Q. exact Vd. }
    rewrite Ed. eapply cell_at_upd; eauto.
Qed.
Print Assumptions C58_aligned.

(** The whole header is [bytes(8 * size - 1, 0)]. *)
Theorem C58_all_bytes : forall m x h d,
  cell_at h (h_ref x) d -> bytes_ok d -> addressable d -> length d = size_of (h_ty x) -> d <> [] ->
  hbytes m x (8 * size_of (h_ty x) - 1) 0 h = hto_vec x h.
Proof.
  intros m x h d C O Ad L NE.
  assert (C1 : cell_at h (h_ref x) ([] ++ d ++ [])) by (rewrite app_nil_r; exact C).
  destruct (C58_aligned m x h [] d [] (Fld "" 0 (8 * length d - 1)) d C1) as [R _]; auto.
  - rewrite app_nil_r. exact O.
  - rewrite app_nil_r. exact Ad.
  - rewrite (hto_vec_cell x h d C). rewrite <- L. exact R.
Qed.
Print Assumptions C58_all_bytes.

(** An IPv6 destination, 128 bits: [set_bytes] and [bytes] work where the getter of
    C05 does not. *)
Definition ex_addr : list N :=
  [0x20; 0x01; 0x0d; 0xb8; 0; 0; 0; 0; 0; 0; 0; 0; 0; 0; 0x12; 0x34].
Example C58_example :
  let h := [Cell (ht_default IPv6) false] in
  let h' := snd (hset_bytes Debug (Hdr IPv6 0) (field_msb IPv6_dst) (field_lsb IPv6_dst) ex_addr h) in
  field_in IPv6_dst (length (ht_default IPv6)) /\ field_size IPv6_dst = 128%nat /\
  hbytes Debug (Hdr IPv6 0) (field_msb IPv6_dst) (field_lsb IPv6_dst) h' = (Ret ex_addr, h') /\
  h' = [Cell (firstn 24 (ht_default IPv6) ++ ex_addr) false] /\
  fst (hget Debug (Hdr IPv6 0) IPv6_dst h') = Panic POverflow.
Proof. vm_compute. repeat split; lia. Qed.

(** * C59 *)

(** Name, length and contents are available from every [dyn Header]. *)
Theorem C59_common : forall a h,
  match a with
  | Owned x => d_name a = ht_name (h_ty x) /\ d_len a = ht_size (h_ty x) /\
      forall d, cell_at h (h_ref x) d -> d_to_vec a h = (Ret d, h)
  | Borrowed T d => d_name a = ht_name T /\ d_len a = ht_size T /\ d_to_vec a h = (Ret d, h)
  end.
Proof.
  intros [x|T d] h; repeat split. intros d C. apply hto_vec_cell. exact C.
Qed.
Print Assumptions C59_common.

(** [as_slice] works for borrowed headers only. *)
Theorem C59_as_slice : forall a h,
  (exists T d, a = Borrowed T d /\ d_as_slice a h = (Ret d, h)) \/
  (exists x, a = Owned x /\ d_as_slice a h = (Panic PUnimpl, h)).
Proof. intros [x|T d] h; [right|left]; eauto. Qed.
Print Assumptions C59_as_slice.

Theorem C59_as_slice_refuted : exists a h v, d_to_vec a h = (Ret v, h) /\ d_as_slice a h <> (Ret v, h).
Proof. exists (Owned ex_eth), ex_heap, (ht_default Ether). split; [reflexivity|discriminate]. Qed.
Print Assumptions C59_as_slice_refuted.

(** [clone], [to_owned] and [as_any] work for owned headers only, and never copy contents. *)
Theorem C59_owned_only : forall a h,
  (exists x, a = Owned x /\ d_clone a h = (Ret (Owned x), h) /\ to_owned a h = (Ret x, h) /\
     d_as_any a h = (Ret x, h)) \/
  (exists T d, a = Borrowed T d /\ d_clone a h = (Panic PUnimpl, h) /\ to_owned a h = (Panic PUnimpl, h) /\
     d_as_any a h = (Panic PUnimpl, h)).
Proof. intros [x|T d] h; [left|right]; eauto 6. destruct x. eauto 6. Qed.
Print Assumptions C59_owned_only.

Theorem C59_clone_refuted : exists T d h, length d = ht_size T /\
  d_clone (Borrowed T d) h = (Panic PUnimpl, h).
Proof. exists Ether, (ht_default Ether), []. split; reflexivity. Qed.
Print Assumptions C59_clone_refuted.

(** [X::from(&boxed)], [(&boxed).into()], [(&mut boxed).into()]: exactly the owned
    headers of type [X], and the buffer is shared. A borrowed header of the right type
    is refused too. *)
Theorem C59_downcast : forall T a h y,
  (d_downcast T a h = (Ret y, h) <-> a = Owned y /\ ht_id T = ht_id (h_ty y)) /\
  (d_from_boxed T a h = (Ret y, h) <-> a = Owned y /\ ht_id T = ht_id (h_ty y)) /\
  ((forall z, a = Owned z -> ht_id T <> ht_id (h_ty z)) ->
     exists f, d_downcast T a h = (Panic f, h) /\ d_from_boxed T a h = (Panic f, h)).
Proof.
  intros T [x|S d] h y; unfold d_downcast, d_from_boxed, d_as_any, hfrom_boxed, hdowncast, hclone, bind, ret, fail.
  - destruct x as [X r]. cbn [h_ty h_ref]. destruct (Nat.eqb_spec (ht_id T) (ht_id X)) as [E|E].
    + split; [|split].
      * split; [intros Q; injection Q as <-; auto|intros [Q _]; injection Q as <-; auto].
      * split; [intros Q; injection Q as <-; auto|intros [Q _]; injection Q as <-; auto].
      * intros Q. exfalso. apply (Q (Hdr X r)); auto.
    + split; [|split].
      * split; [discriminate|]. intros [Q1 Q2]. injection Q1 as <-. contradiction.
      * split; [discriminate|]. intros [Q1 Q2]. injection Q1 as <-. contradiction.
      * intros _. eauto.
  - split; [|split]; [split; [discriminate|intros [Q _]; discriminate]|split; [discriminate|intros [Q _]; discriminate]|eauto].
Qed.
Print Assumptions C59_downcast.

(** The way to own a borrowed header: [X::from(slice.to_vec())]. Its fields are those of
    the slice and nothing is shared. *)
Theorem C59_own_copy : forall m T d h, bytes_ok d ->
  exists x h', bind (d_to_vec (Borrowed T d)) (fun v => hfrom T v) h = (Ret x, h') /\
    h_ty x = T /\ cell_at h' (h_ref x) d /\ (length h <= h_ref x)%nat /\
    (forall r, (r < length h)%nat -> nth_error h' r = nth_error h r) /\
    (forall f, field_in f (length d) -> hget m x f h' = (sget m (SHdr T (v_all d)) f, h')).
Proof.
  intros m T d h O. do 2 eexists. split; [exact (hfrom_run T d h)|].
  split; [reflexivity|]. split; [apply cell_at_last|]. split; [apply le_n|].
  split; [intros r Hr; apply nth_error_app1; auto|].
  intros f [H1 H2]. rewrite (hget_in m _ _ d) by (auto; apply cell_at_last).
  f_equal. unfold sget, s_view, v_all, v_bytes, v_len, v_off, v_buf. rewrite skipn_O, firstn_all. reflexivity.
Qed.
Print Assumptions C59_own_copy.

(** [PacketSlice::to_vec] calls [as_slice] on each stored header, all borrowed: it never
    panics and is the concatenation. *)
Theorem C59_packet_slice : forall p h,
  bind (d_slices (map d_slice (ps_hdrs p))) (fun r => ret (r ++ v_bytes (ps_payload p))) h =
  (Ret (ps_to_vec p), h).
Proof.
  intros p h. unfold ps_to_vec.
  assert (G : forall l, d_slices (map d_slice l) h = (Ret (concat (map sas_slice l)), h)).
  { induction l as [|x l IH]; [reflexivity|]. cbn [map d_slices d_slice d_as_slice concat].
    unfold bind at 1. unfold ret at 1. rewrite (bind_ret _ _ _ _ _ IH). reflexivity. }
  rewrite (bind_ret _ _ _ _ _ (G _)). reflexivity.
Qed.
Print Assumptions C59_packet_slice.

Example C59_example :
  d_downcast Ether (Owned ex_eth) ex_heap = (Ret ex_eth, ex_heap) /\
  d_downcast IPv4 (Owned ex_eth) ex_heap = (Panic PDowncast, ex_heap) /\
  d_downcast Ether (Borrowed Ether (ht_default Ether)) ex_heap = (Panic PUnimpl, ex_heap).
Proof. repeat split. Qed.

(** * C60 *)

Lemma even_add_even a n : Nat.even n = true -> Nat.even (a + n) = Nat.even a.
Proof. intros H. rewrite Nat.even_add, H. destruct (Nat.even a); reflexivity. Qed.

Lemma sum_self a c b x : x = a ++ to_be 2 c ++ b -> bytes_ok a -> length a = 10%nat -> bytes_ok b ->
  N.of_nat (length x) <= 65535 -> c = 65535 - (other_words x / 65536 + other_words x) mod 65536 ->
  (checksum_ok x <-> ~ carries (other_words x)).
Proof.
  intros Ex Oa La Ob Lx Ec.
  assert (Lc : c < 65536) by (rewrite Ec; apply (N.le_lt_trans _ 65535); [apply N.le_sub_l|reflexivity]).
  assert (Ox : bytes_ok x) by (rewrite Ex; bok).
  assert (K : checksum_ok x <-> exists k, other_words x + c = (k + 1) * 65535)
    by (rewrite Ex; apply checksum_ok_iff; auto).
  assert (Small : other_words x / 65536 + other_words x < 2 ^ 32) by (apply (ssum_small x); auto).
  destruct (checksum_vs_rfc x Ox Small) as [A B]. change (ssum x) with (other_words x) in *.
  cbv zeta in A, B. rewrite <- Ec in A, B.
  unfold rfc_checksum in A, B. rewrite oc_sum_val in A, B by (apply words_lt, zero_checksum_ok; auto).
  fold (other_words x) in A, B. set (S := other_words x) in *.
  destruct (ocn_repr S) as [k Hk]. pose proof (ocn_bound S) as Ob'.
  rewrite K. clear - A B Hk Ob'. split.
  - intros [j Hj] C. destruct (B C) as [B1 B2].
    assert (S + c = (k + 1) * 65535 + 1) by lia.
    assert (65535 * (j + 1) = 65535 * (k + 1) + 1) by lia.
    assert (j <= k \/ k + 1 <= j) as [|] by lia; nia.
  - intros C. specialize (A C). exists k. lia.
Qed.

(** After [x.set_header_checksum(Packet::ipv4_checksum(&x.to_vec()))] only bytes 10 and 11
    differ, they hold the RFC 791 checksum (one more if folding carries), and the header
    verifies exactly when folding does not carry. The header may have options. *)
Theorem C60_refresh : forall m x h d,
  cell_at h (h_ref x) d -> bytes_ok d -> Nat.even (length d) = true ->
  (12 <= length d)%nat -> N.of_nat (length d) <= 65535 ->
  exists h' c, refresh_checksum m x h = (Ret tt, h') /\ only_changes (h_ref x) h h' /\
    let d' := firstn 10 d ++ [c / 256; c mod 256] ++ skipn 12 d in
    cell_at h' (h_ref x) d' /\ field_val d' IPv4_header_checksum = c /\
    (checksum_ok d' <-> ~ carries (other_words d)) /\
    (~ carries (other_words d) -> c = rfc_checksum d) /\
    (carries (other_words d) -> c = rfc_checksum d + 1).
Proof.
  intros m x h d C O Ev L Lu.
  set (a := firstn 10 d). set (b := skipn 12 d). set (o := firstn 2 (skipn 10 d)).
  assert (La : length a = 10%nat) by (unfold a; rewrite firstn_length_le; lia).
  assert (Lo : length o = 2%nat) by (unfold o; rewrite firstn_length_le; rewrite ?skipn_length; lia).
  assert (Ed : d = a ++ o ++ b).
  { unfold a, o, b. rewrite <- (firstn_skipn 10 d) at 1. f_equal.
    rewrite <- (firstn_skipn 2 (skipn 10 d)) at 1. f_equal. do 12 (destruct d as [|? d]; [simpl in L; lia|]). reflexivity. }
  assert (Oa : bytes_ok a) by (apply bytes_ok_firstn; auto).
  assert (Ob : bytes_ok b) by (apply bytes_ok_skipn; auto).
  assert (Oo : bytes_ok o) by (apply bytes_ok_firstn, bytes_ok_skipn; auto).
  set (c := 65535 - (other_words d / 65536 + other_words d) mod 65536).
  assert (Lc : c < 65536) by (unfold c; apply (N.le_lt_trans _ 65535); [apply N.le_sub_l|reflexivity]).
  assert (Ec : ipv4_checksum m d = Ret c) by (apply C20_value; auto).
  assert (Ef : fset d IPv4_header_checksum c = a ++ to_be 2 c ++ b).
  { rewrite Ed at 1. rewrite <- Lo. apply fset_middle; auto.
    - destruct o; [discriminate|congruence].
    - rewrite La. reflexivity.
    - rewrite La, Lo. reflexivity. }
  assert (Eb : to_be 2 c = [c / 256; c mod 256]).
  { rewrite to_be_2. rewrite (N.mod_small (c / 256)) by (apply N.div_lt_upper_bound; lia). reflexivity. }
  assert (Fi : field_in IPv4_header_checksum (length d)) by (split; simpl; lia).
  exists (upd h (h_ref x) (Cell (a ++ to_be 2 c ++ b) false)), c.
  split.
  - unfold refresh_checksum. rewrite (bind_ret _ _ _ _ _ (hto_vec_cell x h d C)).
    rewrite (bind_ret _ _ _ c h) by (unfold lift; rewrite Ec; reflexivity).
    rewrite (hset_in x h d _ c C O Fi), Ef. reflexivity.
  - split; [split; [apply upd_length|intros; apply cell_at_upd_other; auto]|].
    rewrite <- Eb. cbv zeta. fold a b. split; [eapply cell_at_upd; eauto|].
    split.
    { rewrite <- Ef. rewrite field_val_fset by auto. apply N.mod_small. exact Lc. }
    assert (Ew : other_words (a ++ to_be 2 c ++ b) = other_words d).
    { unfold other_words. rewrite zero_checksum_mid by auto. reflexivity. }
    assert (Lx : length (a ++ to_be 2 c ++ b) = length d)
      by (rewrite Ed, !app_length, to_be_length, Lo; reflexivity).
    split; [|split].
    + rewrite <- Ew. apply (sum_self a c b); auto; rewrite ?Lx, ?Ew; auto.
    + intros Nc. destruct (C20_rfc m d O Ev Lu) as (c' & R & _ & I & _). rewrite Ec in R. injection R as <-. apply I; auto.
    + intros Nc. destruct (C20_rfc m d O Ev Lu) as (c' & R & _ & _ & I). rewrite Ec in R. injection R as <-. apply I; auto.
Qed.
Print Assumptions C60_refresh.

(** Doing it again changes nothing. *)
Theorem C60_idempotent : forall m x h d h',
  cell_at h (h_ref x) d -> bytes_ok d -> Nat.even (length d) = true ->
  (12 <= length d)%nat -> N.of_nat (length d) <= 65535 ->
  refresh_checksum m x h = (Ret tt, h') -> refresh_checksum m x h' = (Ret tt, h').
Proof.
  intros m x h d h' C O Ev L Lu R.
  destruct (C60_refresh m x h d C O Ev L Lu) as (h1 & c & R1 & [Ll Oc] & C1 & _ & _ & A & B).
  rewrite R in R1. injection R1 as <-. set (d1 := firstn 10 d ++ [c / 256; c mod 256] ++ skipn 12 d) in *.
  assert (Ew : zero_checksum d1 = zero_checksum d).
  { unfold zero_checksum, d1.
    assert (La : length (firstn 10 d) = 10%nat) by (rewrite firstn_length_le; lia).
    f_equal.
    - rewrite firstn_app, La, Nat.sub_diag, firstn_O, app_nil_r, firstn_firstn. reflexivity.
    - f_equal. rewrite skipn_app, La. rewrite skipn_all2 by lia. reflexivity. }
  assert (L1 : length d1 = length d).
  { unfold d1. rewrite !app_length, firstn_length_le, skipn_length by lia. simpl. lia. }
  assert (Lc : c < 65536).
  { destruct (C20_rfc m d O Ev Lu) as (c' & R' & B' & I1 & I2).
    unfold refresh_checksum in R. rewrite (bind_ret _ _ _ _ _ (hto_vec_cell x h d C)) in R.
    assert (K : carries (other_words d) \/ ~ carries (other_words d))
      by (unfold carries; destruct (N.le_gt_cases 65536 (other_words d / 65536 + other_words d mod 65536)); [auto|right; lia]).
    destruct K as [K|K]; [rewrite (B K), <- (I2 K); lia|rewrite (A K), <- (proj2 I1 K); lia]. }
  assert (O1 : bytes_ok d1).
  { unfold d1. apply bytes_ok_app. split; [apply bytes_ok_firstn; auto|]. apply bytes_ok_app. split; [|apply bytes_ok_skipn; auto].
    repeat constructor; unfold byte_ok; [apply N.div_lt_upper_bound; lia|apply N.mod_lt; discriminate]. }
  destruct (C60_refresh m x h' d1 C1 O1) as (h2 & c2 & R2 & [Ll2 Oc2] & C2 & _ & _ & A2 & B2); try (rewrite L1; auto); auto.
  rewrite R2. f_equal.
  assert (Ewd : other_words d1 = other_words d) by (unfold other_words; rewrite Ew; reflexivity).
  assert (Erf : rfc_checksum d1 = rfc_checksum d) by (unfold rfc_checksum; rewrite Ew; reflexivity).
  rewrite Ewd, Erf in *.
  assert (c2 = c).
  { assert (K : carries (other_words d) \/ ~ carries (other_words d))
      by (unfold carries; destruct (N.le_gt_cases 65536 (other_words d / 65536 + other_words d mod 65536)); [auto|right; lia]).
    destruct K as [K|K]; [rewrite (B K), (B2 K)|rewrite (A K), (A2 K)]; reflexivity. }
  subst c2.
  assert (Ed2 : firstn 10 d1 ++ [c / 256; c mod 256] ++ skipn 12 d1 = d1).
  { unfold d1 at 3. assert (La : length (firstn 10 d) = 10%nat) by (rewrite firstn_length_le; lia).
    unfold d1. f_equal.
    - rewrite firstn_app, La, Nat.sub_diag, firstn_O, app_nil_r, firstn_firstn. reflexivity.
    - f_equal. rewrite skipn_app, La. rewrite skipn_all2 by lia. reflexivity. }
  rewrite Ed2 in C2.
  apply heap_ext. intros n. destruct (Nat.eq_dec n (h_ref x)) as [->|Ne].
  - unfold cell_at in *. rewrite C2, C1. reflexivity.
  - rewrite (Oc2 n Ne). reflexivity.
Qed.
Print Assumptions C60_idempotent.

(** The claim "after a refresh the header verifies" is false. *)
Theorem C60_valid_refuted : exists m x h d, cell_at h (h_ref x) d /\ bytes_ok d /\ length d = 20%nat /\
  exists h' d', refresh_checksum m x h = (Ret tt, h') /\ cell_at h' (h_ref x) d' /\ ~ checksum_ok d'.
Proof.
  exists Debug, (Hdr IPv4 0), [Cell carry_header false], carry_header.
  split; [reflexivity|]. split; [apply bytes_okb_ok; reflexivity|]. split; [reflexivity|].
  do 2 eexists. split; [vm_compute; reflexivity|]. split; [reflexivity|]. vm_compute. discriminate.
Qed.
Print Assumptions C60_valid_refuted.

Example C60_example :
  let h := [Cell (ht_default IPv4) false] in
  let h' := snd (refresh_checksum Debug (Hdr IPv4 0) h) in
  ~ carries (other_words (ht_default IPv4)) /\
  hget Debug (Hdr IPv4 0) IPv4_header_checksum h = (Ret 0xfaec, h) /\
  hget Debug (Hdr IPv4 0) IPv4_header_checksum h' = (Ret 0xb880, h').
Proof. vm_compute. repeat split. intros H. apply H. reflexivity. Qed.

(** * C61 *)

(** [get_header::<T>(name)] is [Ok] of the stored header or this text; the text names what
    was asked for. *)
Theorem C61_get_header : forall T p name,
  match get_header_text T p name with
  | inl x => get_header T p name = Some x
  | inr s => get_header T p name = None /\ exists t, s = (name ++ t)%string /\ t = " header not found"%string
  end.
Proof. intros T p name. unfold get_header_text. destruct (get_header T p name); eauto. Qed.
Print Assumptions C61_get_header.

(** [compare_with_slice] prints nothing when it answers [true]; otherwise one line with the
    packet's [len()], the length of the slice and, when these are equal, the number of
    positions where the bytes agree. *)
Definition agreeing (a b : list N) : nat :=
  length (filter (fun p => N.eqb (fst p) (snd p)) (combine a b)).

Theorem C61_compare : forall p b h v,
  to_vec p h = (Ret v, h) ->
  exists r s, compare_text p b h = (Ret (r, s), h) /\ compare_with_slice p b h = (Ret r, h) /\
    (r = true <-> s = EmptyString) /\
    (r = false -> exists n1 n2, decimal n1 (N.of_nat (pkt_len p)) /\ decimal n2 (N.of_nat (length b)) /\
       ((pkt_len p <> length b /\ s = ("this " ++ n1 ++ " other " ++ n2 ++ String nl "")%string) \/
        (pkt_len p = length b /\ exists n3, decimal n3 (N.of_nat (agreeing v b)) /\
           (agreeing v b <> length b) /\
           s = ("this " ++ n1 ++ " other " ++ n2 ++ ", matching upto " ++ n3 ++ " bytes" ++ String nl "")%string))).
Proof.
  intros p b h v E.
  assert (Em : matching v b = agreeing v b).
  { unfold agreeing. clear E. revert b. induction v as [|x v IH]; intros [|y b]; try reflexivity.
    cbn [matching combine filter fst snd]. rewrite IH. destruct (N.eqb x y); reflexivity. }
  unfold compare_text, compare_with_slice. destruct (Nat.eqb_spec (pkt_len p) (length b)) as [L|L]; cbn [negb].
  - rewrite !(bind_ret _ _ _ _ _ E). cbv zeta.
    destruct (Nat.eqb_spec (pkt_len p) (matching v b)) as [L2|L2]; cbn [negb orb].
    + rewrite <- L2, L, Nat.eqb_refl. cbn [negb]. do 2 eexists. split; [reflexivity|]. split; [reflexivity|].
      split; [tauto|discriminate].
    + do 2 eexists. split; [reflexivity|]. split; [reflexivity|]. split; [split; discriminate|]. intros _.
      exists (fmt_usize (pkt_len p)), (fmt_usize (length b)). split; [apply fmt_num_decimal|]. split; [apply fmt_num_decimal|].
      right. split; [exact L|]. exists (fmt_usize (matching v b)). rewrite <- Em. split; [apply fmt_num_decimal|].
      split; [congruence|]. reflexivity.
  - do 2 eexists. split; [reflexivity|]. split; [reflexivity|]. split; [split; discriminate|]. intros _.
    exists (fmt_usize (pkt_len p)), (fmt_usize (length b)). split; [apply fmt_num_decimal|]. split; [apply fmt_num_decimal|].
    left. split; [exact L|]. reflexivity.
Qed.
Print Assumptions C61_compare.

Example C61_example :
  fst (compare_text (Pkt [ex_eth] [1; 2]) (ht_default Ether ++ [1; 3]) ex_heap) =
  Ret (false, ("this 16 other 16, matching upto 15 bytes" ++ String nl "")%string).
Proof. vm_compute. reflexivity. Qed.

(** * C62 *)

(** What [X::new()] holds, field by field, in decimal (from the [vec!]s of headers.rs:529-854). *)
Definition new_values : list (htype * list (string * N)) :=
  [
   (Ether, [("dst"%string, 4328719365); ("src"%string, 6627269347851); ("etype"%string, 2048)]);
   (Vlan, [("pcp"%string, 0); ("cfi"%string, 0); ("vid"%string, 10); ("etype"%string, 2048)]);
   (IPv4, [("version"%string, 4); ("ihl"%string, 5); ("diffserv"%string, 0); ("total_len"%string, 20); ("identification"%string, 51); ("flags"%string, 2); ("frag_startset"%string, 221); ("ttl"%string, 64); ("protocol"%string, 6); ("header_checksum"%string, 64236); ("src"%string, 3232235521); ("dst"%string, 3232235522)]);
   (IPv6, [("version"%string, 6); ("traffic_class"%string, 0); ("flow_label"%string, 0); ("payload_len"%string, 46); ("next_hdr"%string, 6); ("hop_limit"%string, 64); ("src"%string, 42540766452641154071740215577757643572); ("dst"%string, 42540766452641154071740215577757643573)]);
   (ICMP, [("icmp_type"%string, 8); ("icmp_code"%string, 0); ("chksum"%string, 0)]);
   (TCP, [("src"%string, 1234); ("dst"%string, 80); ("seq_no"%string, 0); ("ack_no"%string, 0); ("data_startset"%string, 5); ("res"%string, 0); ("flags"%string, 2); ("window"%string, 8192); ("checksum"%string, 3372); ("urgent_ptr"%string, 0)]);
   (UDP, [("src"%string, 1234); ("dst"%string, 80); ("length"%string, 0); ("checksum"%string, 0)]);
   (ARP, [("hwtype"%string, 1); ("proto_type"%string, 2048); ("hwlen"%string, 6); ("proto_len"%string, 4); ("opcode"%string, 1); ("sender_hw_addr"%string, 4328719365); ("sender_proto_addr"%string, 167772161); ("target_hw_addr"%string, 0); ("target_proto_addr"%string, 0)]);
   (Vxlan, [("flags"%string, 8); ("reserved"%string, 0); ("vni"%string, 2000); ("reserved2"%string, 0)]);
   (Dot3, [("dst"%string, 4328719365); ("src"%string, 6627269347851); ("length"%string, 0)]);
   (LLC, [("dsap"%string, 0); ("ssap"%string, 0); ("ctrl"%string, 0)]);
   (SNAP, [("oui"%string, 0); ("code"%string, 0)]);
   (GRE, [("chksum_present"%string, 0); ("routing_present"%string, 0); ("key_present"%string, 0); ("seqnum_present"%string, 0); ("strict_route_src"%string, 0); ("recurse"%string, 0); ("flags"%string, 0); ("version"%string, 0); ("proto"%string, 0)]);
   (GREChksumOffset, [("chksum"%string, 0); ("offset"%string, 0)]);
   (GRESequenceNum, [("seqnum"%string, 0)]);
   (GREKey, [("key"%string, 0)]);
   (ERSPAN2, [("version"%string, 1); ("vlan"%string, 0); ("cos"%string, 0); ("en"%string, 0); ("t"%string, 0); ("session_id"%string, 0); ("reserved"%string, 0); ("index"%string, 0)]);
   (ERSPAN3, [("version"%string, 2); ("vlan"%string, 0); ("cos"%string, 0); ("bos"%string, 0); ("t"%string, 0); ("session_id"%string, 0); ("timestamp"%string, 0); ("sgt"%string, 0); ("p"%string, 0); ("ft"%string, 0); ("hw_id"%string, 0); ("d"%string, 0); ("gra"%string, 0); ("o"%string, 0)]);
   (ERSPANPLATFORM, [("id"%string, 0); ("info"%string, 0)]);
   (STP, [("proto"%string, 0); ("version"%string, 0); ("bpdu_type"%string, 0); ("flags"%string, 0); ("root_id"%string, 0); ("root_mac"%string, 0); ("root_path_cost"%string, 0); ("bridge_id"%string, 0); ("bridge_mac"%string, 0); ("port_id"%string, 0); ("message_age"%string, 1); ("max_age"%string, 20); ("hello_time"%string, 2); ("fwd_delay"%string, 15)]);
   (MPLS, [("label"%string, 0); ("exp"%string, 0); ("bos"%string, 0); ("ttl"%string, 0)]);
   (Tester, [("bit1"%string, 1); ("bit2"%string, 3); ("bit3"%string, 7); ("bit4"%string, 15); ("bit5"%string, 31); ("bit6"%string, 63); ("bit7"%string, 127); ("bit8"%string, 255); ("bit9"%string, 511); ("bit10"%string, 7); ("byte1"%string, 32); ("byte2"%string, 269); ("byte3"%string, 12092835); ("byte4"%string, 988687057375252672); ("byte8"%string, 9956899607666771303); ("byte16"%string, 42540766452641154071740215577757643573)])
  ].

Theorem C62_new : forall T vs, In (T, vs) new_values -> forall h,
  exists x h' d, hnew T h = (Ret x, h') /\ h_ty x = T /\ cell_at h' (h_ref x) d /\
    (forall r, (r < length h)%nat -> nth_error h' r = nth_error h r) /\ (length h <= h_ref x)%nat /\
    map f_name (ht_fields T) = map fst vs /\
    map (field_val d) (ht_fields T) = map snd vs /\
    (forall m f, In f (ht_fields T) -> (f_width f <= 64)%nat -> hget m x f h' = (Ret (field_val d f), h')).
Proof.
  intros T vs I h. exists (Hdr T (length h)), (h ++ [Cell (ht_default T) false]), (ht_default T).
  split; [apply hnew_run|]. split; [reflexivity|]. split; [apply cell_at_last|].
  split; [intros r Hr; apply nth_error_app1; auto|]. split; [apply le_n|].
  assert (G : map f_name (ht_fields T) = map fst vs /\ map (field_val (ht_default T)) (ht_fields T) = map snd vs /\
    bytes_okb (ht_default T) = true /\
    forallb (fun f => (f_start f <=? f_end f)%nat && (f_end f <? 8 * length (ht_default T))%nat) (ht_fields T) = true).
  { unfold new_values in I. cbn [In] in I.
    repeat (destruct I as [I|I]; [injection I as <- <-; vm_compute; repeat split|]). contradiction. }
  destruct G as (G1 & G2 & G3 & G4). repeat split; auto.
  intros m f If W. apply C01_getter; auto.
  - apply cell_at_last.
  - apply bytes_okb_ok; auto.
  - rewrite forallb_forall in G4. specialize (G4 f If). apply andb_prop in G4 as [A B].
    apply Nat.leb_le in A. apply Nat.ltb_lt in B. split; auto.
Qed.
Print Assumptions C62_new.

(** All predefined types are in the table. *)
Theorem C62_complete : map fst new_values = predefined.
Proof. reflexivity. Qed.
Print Assumptions C62_complete.

(** [Ether::new(), IPv4::new(), TCP::new()] (lib.rs:57-60) serialises to a packet that both
    parsers read back as these three headers. *)
Definition new_stack : M packet :=
  mlet e := hnew Ether in mlet i := hnew IPv4 in mlet t := hnew TCP in
  mlet p := push pkt_new e in mlet p := push p i in push p t.

Theorem C62_stack : forall m h, exists p h1 b q h2,
  new_stack h = (Ret p, h1) /\ to_vec p h1 = (Ret b, h1) /\ length b = 54%nat /\
  slow m F_parse b h1 = (Ret q, h2) /\ map h_ty (p_hdrs q) = [Ether; IPv4; TCP] /\ p_payload q = [] /\
  to_vec q h2 = (Ret b, h2) /\
  exists s, fast m F_parse b = Ret s /\ map s_ty (ps_hdrs s) = [Ether; IPv4; TCP] /\ ps_to_vec s = b.
Proof.
  intros m h.
  set (c := fun T => Cell (ht_default T) false).
  set (h1 := ((h ++ [c Ether]) ++ [c IPv4]) ++ [c TCP]).
  set (hs := [Hdr Ether (length h); Hdr IPv4 (length (h ++ [c Ether])); Hdr TCP (length ((h ++ [c Ether]) ++ [c IPv4]))]).
  set (ss := [(Ether, ht_default Ether); (IPv4, ht_default IPv4); (TCP, ht_default TCP)] : list seg).
  set (b := seg_bytes ss ++ []).
  assert (Hs : holds h1 hs ss).
  { unfold holds, hs, ss, h1. repeat constructor; cbn [h_ref snd].
    - apply cell_at_app, cell_at_app, cell_at_last.
    - apply cell_at_app, cell_at_last.
    - apply cell_at_last. }
  assert (Ob : bytes_ok b) by (apply bytes_okb_ok; vm_compute; reflexivity).
  assert (W : wire F_parse b [[(Ether, ht_default Ether)]; []; [(IPv4, ht_default IPv4)]; []; [(TCP, ht_default TCP)]; []] []).
  { apply W_parse; [vm_compute; lia|]. change (be (sub b 12 2) <? 1500) with false. cbn iota.
    change b with (ht_default Ether ++ ht_default IPv4 ++ ht_default TCP ++ []).
    do 3 (eapply wire_plain; [reflexivity..|]). apply W_accept. }
  destruct (C34_slow_complete m F_parse b h1 _ _ Ob W) as (hs2 & h2 & E & H2).
  destruct (C34_fast_complete m F_parse b _ _ Ob W) as (s & Es & Hs2 & Pl).
  change (reported [[(Ether, ht_default Ether)]; []; [(IPv4, ht_default IPv4)]; []; [(TCP, ht_default TCP)]; []]) with ss in *.
  exists (Pkt hs []), h1, b, (Pkt hs2 []), h2.
  split; [unfold new_stack; rewrite !(bind_ret _ _ _ _ _ (hnew_run _ _)); reflexivity|].
  split; [apply (holds_vec h1 (Pkt hs []) ss Hs)|]. split; [reflexivity|]. split; [exact E|].
  split; [exact (holds_types _ _ _ H2)|]. split; [reflexivity|].
  pose proof (holds_vec h2 (Pkt hs2 []) ss H2) as V.
  split; [exact V|]. exists s. split; [exact Es|].
  split.
  - clear -Hs2. unfold ss in Hs2. unfold sholds in Hs2. inversion Hs2 as [|? ? ? ? [A _] R]; subst.
    inversion R as [|? ? ? ? [B _] R2]; subst. inversion R2 as [|? ? ? ? [D _] R3]; subst. inversion R3; subst.
    cbn [map]. rewrite A, B, D. reflexivity.
  - pose proof (C36_fast_same m m F_parse b h1 (Pkt hs2 []) h2 s Ob E Es) as Q. rewrite V in Q. injection Q as Q. symmetry. exact Q.
Qed.
Print Assumptions C62_stack.

(** The claim "[IPv4::new()] has a valid checksum" is false (and its fragment offset is 221
    with "don't fragment" set). *)
Theorem C62_checksum_refuted : forall h, exists x h' d, hnew IPv4 h = (Ret x, h') /\ cell_at h' (h_ref x) d /\
  ~ checksum_ok d /\ field_val d IPv4_header_checksum <> rfc_checksum d /\
  field_val d IPv4_flags = 2 /\ field_val d IPv4_frag_startset = 221.
Proof.
  intros h. do 3 eexists. split; [apply hnew_run|]. split; [apply cell_at_last|].
  vm_compute. repeat split; discriminate.
Qed.
Print Assumptions C62_checksum_refuted.

Example C62_example : In (Vlan, [("pcp"%string, 0); ("cfi"%string, 0); ("vid"%string, 10); ("etype"%string, 0x0800)]) new_values.
Proof. simpl. tauto. Qed.

(** * C63 *)

(** The three Python tables name every protocol header once, each with its own type. *)
Theorem C63_tables : forall name T,
  (In (name, T) to_object_table <-> In T protocol_headers /\ name = ht_name T) /\
  (In (name, T) extract_table <-> In T protocol_headers /\ name = ht_name T) /\
  (In T module_classes <-> In T protocol_headers) /\
  NoDup (map fst to_object_table) /\ NoDup (map fst extract_table) /\ NoDup (map ht_id module_classes).
Proof.
  intros name T.
  assert (A : forall tab, (forall n S, In (n, S) tab -> In S protocol_headers /\ n = ht_name S) ->
    (forall S, In S protocol_headers -> In (ht_name S, S) tab) ->
    (In (name, T) tab <-> In T protocol_headers /\ name = ht_name T)).
  { intros tab H1 H2. split; [apply H1|]. intros [I ->]. apply H2; auto. }
  assert (B : forall n S, In (n, S) to_object_table -> In S protocol_headers /\ n = ht_name S).
  { intros n S I. cbn [to_object_table In] in I.
    repeat (destruct I as [I|I]; [injection I as <- <-; split; [simpl; tauto|reflexivity]|]). contradiction. }
  assert (C : forall S, In S protocol_headers -> In (ht_name S, S) to_object_table).
  { intros S I. cbn [protocol_headers In] in I.
    repeat (destruct I as [<-|I]; [simpl; tauto|]). contradiction. }
  split; [apply A; auto|]. split; [apply A; auto|]. split.
  - split; intros I; cbn [module_classes protocol_headers In] in I;
      repeat (destruct I as [<-|I]; [simpl; tauto|]); contradiction.
  - assert (D : NoDup (map fst to_object_table)).
    { simpl. repeat (constructor; [simpl; intros Q; repeat (destruct Q as [Q|Q]; [discriminate|]); contradiction|]). constructor. }
    split; [exact D|]. split; [exact D|].
    simpl. repeat (constructor; [simpl; intros Q; repeat (destruct Q as [Q|Q]; [discriminate|]); contradiction|]). constructor.
Qed.
Print Assumptions C63_tables.

Lemma lookup_in tab name T : NoDup (map fst tab) -> (lookup tab name = Some T <-> In (name, T) tab).
Proof.
  induction tab as [|[n S] tab IH]; cbn [lookup map fst]; intros ND; [split; [discriminate|intros []]|].
  inversion ND as [|? ? N1 N2]; subst. destruct (String.eqb_spec n name) as [->|Ne].
  - split; [intros Q; injection Q as <-; left; reflexivity|].
    intros [Q|Q]; [injection Q as <-; reflexivity|]. exfalso. apply N1. change name with (fst (name, T)). apply in_map; auto.
  - rewrite (IH N2). split; [right; auto|]. intros [Q|Q]; [injection Q as -> ->; contradiction|auto].
Qed.

(** [pkt["X"]] from Python: a header sharing the buffer of the first header of that name, for
    the crate's protocol types; any other stored type panics. *)
Theorem C63_getitem : forall p name x h, first_named p name x ->
  (In (h_ty x) protocol_headers -> getitem p name h = (Ret x, h)) /\
  ((forall T, In T protocol_headers -> ht_name T <> name) -> exists f, getitem p name h = (Panic f, h)).
Proof.
  intros p name x h F. pose proof (proj2 (find_name_some _ _ _) F) as E.
  assert (Nx : hname x = name) by (destruct F as (? & ? & ? & Q & ?); exact Q).
  assert (ND : NoDup (map fst to_object_table)) by apply (C63_tables name (h_ty x)).
  unfold getitem, index_name. rewrite E. unfold bind, ret, to_object. cbn [d_name]. rewrite Nx. split.
  - intros I. rewrite (proj2 (lookup_in _ name (h_ty x) ND)).
    + unfold d_from_boxed, d_as_any, hfrom_boxed, hdowncast, hclone, bind, ret. rewrite Nat.eqb_refl. destruct x; reflexivity.
    + apply (C63_tables name (h_ty x)). split; [auto|]. symmetry. exact Nx.
  - intros Nn. destruct (lookup to_object_table name) as [T|] eqn:El; [|unfold fail; eauto].
    apply (lookup_in _ _ _ ND) in El. apply (C63_tables name T) in El as [I Q]. exfalso. apply (Nn T I). auto.
Qed.
Print Assumptions C63_getitem.

(** [pkt[name] = e]: replaces the contents of the first header of that name if it is an
    [Ether], panics otherwise; and [pkt["Ether"] = pkt["Ether"]] never returns. *)
Theorem C63_setitem : forall p name e h,
  (forall x d d', first_named p name x -> ht_id (h_ty x) = ht_id Ether -> cell_at h (h_ref x) d ->
     cell_at h (h_ref e) d' -> h_ref x <> h_ref e ->
     exists h', setitem p name e h = (Ret tt, h') /\ cell_at h' (h_ref x) d' /\ only_changes (h_ref x) h h') /\
  ((forall x, first_named p name x -> ht_id (h_ty x) <> ht_id Ether) -> setitem p name e h = (Panic PUnwrap, h)).
Proof.
  intros p name e h. split.
  - intros x d d' F I C C' Ne. unfold setitem.
    rewrite (proj2 (C19_get_header Ether p name x)) by auto.
    destruct (C11_replace Debug x e h d d' C C' Ne) as (h' & R & A & _ & B & _). eauto 6.
  - intros N. unfold setitem. destruct (get_header Ether p name) as [x|] eqn:G; [|reflexivity].
    apply C19_get_header in G as [F I]. exfalso. apply (N x F). auto.
Qed.
Print Assumptions C63_setitem.

Theorem C63_self_assignment_refuted : forall p x h d, first_named p "Ether" x ->
  h_ty x = Ether -> cell_at h (h_ref x) d ->
  fst (bind (getitem p "Ether") (fun e => setitem p "Ether" e) h) = Hang.
Proof.
  intros p x h d F T C. assert (I : ht_id (h_ty x) = ht_id Ether) by (rewrite T; reflexivity). rewrite (bind_ret _ _ _ _ _ (proj1 (C63_getitem p "Ether" x h F) ltac:(rewrite T; simpl; tauto))).
  unfold setitem. rewrite (proj2 (C19_get_header Ether p "Ether" x)) by auto.
  unfold hreplace. unfold cell_at in C. rewrite C. cbn [c_poisoned]. rewrite Nat.eqb_refl. reflexivity.
Qed.
Print Assumptions C63_self_assignment_refuted.

Example C63_example :
  fst (getitem (Pkt [ex_ip; ex_eth] []) "Ether" ex_heap) = Ret ex_eth /\
  fst (getitem (Pkt [Hdr Tester 0] []) "Tester" ex_heap) = Panic PDowncast /\
  extract ex_ip = Some ex_ip /\ extract (Hdr Tester 0) = None.
Proof. repeat split. Qed.
