(** PropEdits.v -- C90: after any history of header calls each bit is what the last write gave it. *)

From Coq Require Import Lia Permutation.
From Verif Require Import Base Bits Types Layout Heap Packet Ops Spec BitsProofs HeapProofs OpsProofs ClientSpec PanicSpec
  PanicProofs RemainsSpec RemainsProofs EditsSpec EditsProofs.
Open Scope N_scope.

(** Every buffer after a history in which [set_bytes] and [replace] did not panic, poisoned or
    not: which there are, how long, and each bit. *)
Theorem C90_now : forall m os h rs h', heap_ok h -> Forall hop_typed os -> hrun m os h = (rs, h') -> untorn os rs ->
  length h' = (length h + born (history os rs))%nat /\
  forall r, (r < length h')%nat -> exists d, bytes_at h' r d /\ length d = size h (history os rs) r /\
    forall j, bit d j = now h (history os rs) r j.
Proof.
  intros m os h rs h' Hh Ht E U. destruct (all_now m os h rs h' Hh Ht E U) as (_ & B & C). split; auto.
  intros r L. apply nth_error_Some in L. destruct (nth_error h' r) as [[d p]|] eqn:X; [|congruence].
  assert (At : bytes_at h' r d) by (exists p; auto). exists d. split; auto. destruct (C r) as [C1 C2].
  rewrite (data_at _ _ _ At) in C1. split; auto. intros j. rewrite <- C2, (data_at _ _ _ At). reflexivity.
Qed.
Print Assumptions C90_now.

(** Whatever calls panicked, halfway or not: every buffer that is not poisoned. *)
Theorem C90_readable : forall m os h rs h', heap_ok h -> Forall hop_typed os -> hrun m os h = (rs, h') -> none_hangs rs ->
  length h' = (length h + born (history os rs))%nat /\
  forall r d, cell_at h' r d -> length d = size h (history os rs) r /\ forall j, bit d j = now h (history os rs) r j.
Proof.
  intros m os h rs h' Hh Ht E U. destruct (readable m os h rs h' Hh Ht E U) as (_ & B & C). split; auto.
  intros r d At. assert (P : ~ poisoned_at h' r) by (intros (d' & X); unfold cell_at in At; congruence).
  destruct (C r P) as [C1 C2]. assert (D : data h' r = d) by (unfold data; unfold cell_at in At; rewrite At; reflexivity).
  rewrite D in C1, C2. auto.
Qed.
Print Assumptions C90_readable.

(** A numeric read after the history. *)
Theorem C90_reads : forall m os h rs h' x msb lsb n h'', heap_ok h -> Forall hop_typed os -> hrun m os h = (rs, h') -> none_hangs rs ->
  (lsb <= msb)%nat -> (msb - lsb < 64)%nat -> hexec m (OBitRange x msb lsb) h' = (Ret (VNum n), h'') ->
  (msb < 8 * size h (history os rs) (h_ref x))%nat /\
  forall k, N.testbit n (N.of_nat k) = (k <=? msb - lsb)%nat && now h (history os rs) (h_ref x) (msb - k).
Proof.
  intros m os h rs h' x msb lsb n h'' Hh Ht E U L W X. destruct (readable m os h rs h' Hh Ht E U) as (A & _ & C).
  cbn [hexec] in X. unfold bind in X. destruct (hbit_range m x msb lsb h') as [[v| | | |] h1] eqn:R; try discriminate X.
  injection X as -> _. apply bit_range_ret in R as (d & Cd & I & -> & G); auto.
  assert (Hd : bytes_ok d) by (eapply heap_ok_cell; eauto).
  rewrite get_bits_val in G by (auto; lia). injection G as <-. rewrite <- rv_bits_val by auto.
  assert (D : data h' (h_ref x) = d) by (unfold data, cell_at in *; rewrite Cd; reflexivity).
  destruct (C (h_ref x)) as [C1 C2]; [exact (not_dead _ _ _ Cd)|]. rewrite D in C1. split; [lia|]. intros k. rewrite rv_testbit by (auto; lia).
  destruct (Nat.ltb_spec k (msb - lsb + 1)); destruct (Nat.leb_spec k (msb - lsb)); try lia; cbn [andb]; auto.
  rewrite <- C2, D. f_equal. lia.
Qed.
Print Assumptions C90_reads.

(** A getter is the read of its field. *)
Theorem C90_gets : forall m os h rs h' x f n h'', heap_ok h -> Forall hop_typed os -> hrun m os h = (rs, h') -> none_hangs rs ->
  (f_start f <= f_end f)%nat -> (f_end f - f_start f < 64)%nat -> hexec m (OGet x f) h' = (Ret (VNum n), h'') ->
  forall k, N.testbit n (N.of_nat k) = (k <=? f_end f - f_start f)%nat && now h (history os rs) (h_ref x) (f_end f - k).
Proof. intros m os h rs h' x f n h'' Hh Ht E U L W X. eapply C90_reads; eauto. Qed.
Print Assumptions C90_gets.

(** [bytes] and [to_vec] after the history. *)
Theorem C90_bytes : forall m os h rs h' x msb lsb l h'', heap_ok h -> Forall hop_typed os -> hrun m os h = (rs, h') -> none_hangs rs ->
  (lsb <= msb)%nat -> hexec m (OBytes x msb lsb) h' = (Ret (VBytes l), h'') ->
  (8 * length l = msb - lsb + 1)%nat /\
  forall k, (k < 8 * length l)%nat -> bit l k = now h (history os rs) (h_ref x) (lsb + k).
Proof.
  intros m os h rs h' x msb lsb l h'' Hh Ht E U L X. destruct (readable m os h rs h' Hh Ht E U) as (A & _ & C).
  cbn [hexec] in X. unfold bind in X. destruct (hbytes m x msb lsb h') as [[v| | | |] h1] eqn:R; try discriminate X.
  injection X as -> _. destruct (bytes_ret _ _ _ _ _ _ _ A L R) as [R1 R2]. split; auto.
  intros k K. rewrite (R2 k K). apply (C (h_ref x)). exact (bytes_live _ _ _ _ _ _ _ L R).
Qed.
Print Assumptions C90_bytes.
Theorem C90_to_vec : forall m os h rs h' x l h'', heap_ok h -> Forall hop_typed os -> hrun m os h = (rs, h') -> none_hangs rs ->
  hexec m (OToVec x) h' = (Ret (VBytes l), h'') ->
  length l = size h (history os rs) (h_ref x) /\ forall j, bit l j = now h (history os rs) (h_ref x) j.
Proof.
  intros m os h rs h' x l h'' Hh Ht E U X. destruct (readable m os h rs h' Hh Ht E U) as (A & _ & C).
  cbn [hexec] in X. unfold bind in X. destruct (hto_vec x h') as [[v| | | |] h1] eqn:R; try discriminate X.
  injection X as -> _. rewrite (to_vec_ret _ _ _ _ R). apply (C (h_ref x)). eapply to_vec_live; eauto.
Qed.
Print Assumptions C90_to_vec.

(** Writes of ranges with no bit in common can be made in any order. *)
Theorem C90_any_order : forall m os os' h h', heap_ok h -> Forall proper os -> ForallOrdPairs apart os -> Permutation os os' ->
  hrun m os h = (map (fun _ => Ret VUnit) os, h') -> hrun m os' h = (map (fun _ => Ret VUnit) os', h').
Proof. intros m os os' h h' Hh P F Pe E. exact (run_perm m os os' Pe h h' Hh P F E). Qed.
Print Assumptions C90_any_order.

(** A write directly before one that covers it can be left out. *)
Theorem C90_absorb : forall m a b h v w h1 h2, heap_ok h -> proper a -> proper b -> within a b ->
  hexec m a h = (Ret v, h1) -> hexec m b h1 = (Ret w, h2) -> hexec m b h = (Ret w, h2).
Proof.
  intros m a b h v w h1 h2 Hh Pa Pb W Ea Eb. rewrite (absorbed m a b h v w h1 h2) by auto. f_equal.
  destruct Pa as (ra & la & ha & Wa & La), Pb as (rb & lb & hb & Wb & Lb).
  destruct (write_ret m a h _ _ _ _ _ Hh Wa La Ea) as (_ & _ & d & Ca & _ & ->).
  destruct (write_ret m b _ _ _ _ _ _ (heap_ok_wr _ _ a _ Hh Ca) Wb Lb Eb) as (-> & _). reflexivity.
Qed.
Print Assumptions C90_absorb.

(** ** Concrete cases *)

Definition c90_T : htype := {| ht_id := 0; ht_size := 2; ht_name := "two"; ht_fields := []; ht_default := [1; 2] |}.
Definition c90_x : hdr := {| h_ty := c90_T; h_ref := 0 |}.
Definition c90_y : hdr := {| h_ty := c90_T; h_ref := 1 |}.
(** Make one, write it, fail to write it, copy it to another. *)
Definition c90_os : list hop :=
  [ONew c90_T; OFrom c90_T [255; 255; 255]; OSetBitRange c90_x 7 4 10; OSetBytes c90_x 12 5 [0]; OReplace c90_y c90_x;
   OSetBitRange c90_x 3 0 15].

(** Overlapping writes do not commute. *)
Theorem C90_any_order_refuted : exists os os' h h', heap_ok h /\ Forall proper os /\ Permutation os os' /\
  (forall m, hrun m os h = (map (fun _ => Ret VUnit) os, h')) /\
  forall m, hrun m os' h <> (map (fun _ => Ret VUnit) os', h').
Proof.
  exists [OSetBitRange c90_x 7 0 1; OSetBitRange c90_x 7 0 2], [OSetBitRange c90_x 7 0 2; OSetBitRange c90_x 7 0 1],
    [Cell [0] false], [Cell [2] false].
  split; [repeat constructor|]. split.
  { repeat constructor; exists 0%nat, 0%nat, 7%nat; split; auto; lia. }
  split; [apply perm_swap|]. split; intros m; [reflexivity|]. vm_compute. intros X. discriminate X.
Qed.
Print Assumptions C90_any_order_refuted.

(** A [set_bytes] that panics leaves a buffer (poisoned) that no returned write explains. *)
Theorem C90_torn_refuted : exists os h rs h', heap_ok h /\ Forall hop_typed os /\ (forall m, hrun m os h = (rs, h')) /\
  exists d j, bytes_at h' 0 d /\ bit d j <> now h (history os rs) 0 j.
Proof.
  exists [OSetBytes c90_x 15 0 [255; 255]], [Cell [0] false], [Panic PIndex], [Cell [255] true].
  split; [repeat constructor|]. split; [repeat constructor|]. split; [intros []; reflexivity|].
  exists [255], 0%nat. split; [exists true; reflexivity|]. vm_compute. discriminate.
Qed.
Print Assumptions C90_torn_refuted.

Example C90_example : exists rs, forall m, hrun m c90_os [] = (rs, [Cell [248; 2] false; Cell [8; 2] false]) /\
  Forall hop_typed c90_os /\ untorn c90_os rs /\
  map (now [] (history c90_os rs) 0) (seq 0 16) = map (bit [248; 2]) (seq 0 16) /\
  map (now [] (history c90_os rs) 1) (seq 0 16) = map (bit [8; 2]) (seq 0 16) /\
  size [] (history c90_os rs) 1 = 2%nat.
Proof.
  exists [Ret (VHdr c90_x); Ret (VHdr c90_y); Ret VUnit; Ret VUnit; Ret VUnit; Ret VUnit]. intros m.
  split; [destruct m; reflexivity|]. split; [repeat constructor|]. split; [repeat constructor|]. repeat split; reflexivity.
Qed.
(** Three writes of one header, no bit in common, two orders. *)
Example C90_order_example : forall m,
  let a := OSetBitRange c90_x 3 0 15 in let b := OSetBitRange c90_x 7 4 1 in let c := OSetBytes c90_x 15 8 [9] in
  Forall proper [a; b; c] /\ ForallOrdPairs apart [a; b; c] /\
  snd (hrun m [a; b; c] [Cell [0; 0] false]) = [Cell [241; 9] false] /\
  snd (hrun m [c; a; b] [Cell [0; 0] false]) = [Cell [241; 9] false].
Proof.
  intros m a b c. split.
  { repeat constructor; repeat eexists; cbn; lia. }
  split; [|split; destruct m; reflexivity].
  repeat apply FOP_cons; repeat apply Forall_cons; try apply Forall_nil; try apply FOP_nil;
    intros r lo hi r' lo' hi' A B _; injection A as <- <- <-; injection B as <- <- <-; lia.
Qed.
(** One header written halfway and copied to a second, which is then empty; both poisoned. The
    third has been written and can be read. *)
Definition c90_z : hdr := {| h_ty := c90_T; h_ref := 2 |}.
Definition c90_torn : list hop :=
  [OFrom c90_T [0]; ONew c90_T; ONew c90_T; OSetBytes c90_x 15 0 [255; 255]; OReplace c90_y c90_x; OSetBytes c90_z 15 8 [7];
   OSetBytes c90_z 8 3 [5]; OSetBitRange c90_z 3 0 15].
Example C90_torn_example : forall m, exists rs,
  hrun m c90_torn [] = (rs, [Cell [255] true; Cell [] true; Cell [241; 7] false]) /\ Forall hop_typed c90_torn /\ none_hangs rs /\
  ~ untorn c90_torn rs /\ map (now [] (history c90_torn rs) 2) (seq 0 16) = map (bit [241; 7]) (seq 0 16).
Proof.
  intros m. eexists. split; [destruct m; reflexivity|]. split; [repeat constructor|]. split; [repeat constructor; discriminate|].
  split; [|reflexivity].
  intros U. do 3 apply Forall_inv_tail in U. apply Forall_inv in U. discriminate (U eq_refl).
Qed.
