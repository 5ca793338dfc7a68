(** PropDetect.v -- C87: which errors in a header the IPv4 checksum detects. *)

From Coq Require Import Lia.
From Verif Require Import Base Bits Types Layout Heap Packet Text Build Spec BitsProofs HeapProofs BuildProofs ChecksumProofs PropChecksum TextProofs PropBuild DetectSpec DetectProofs.
Open Scope N_scope.

(** If up to 15 bits next to each other are garbled, anywhere in the header, the
    checksum included, a header that passed the check no longer does. *)
Theorem C87_burst : forall m v v' i, header_bytes v -> header_bytes v' -> garbled i 15 v v' ->
  verifies m v -> v' <> v -> ~ verifies m v'.
Proof. intros m v v' i H H' G V N V'. apply N. symmetry. eapply burst; eauto. Qed.
Print Assumptions C87_burst.

(** A single bit, in particular. *)
Theorem C87_bit : forall m v v' i, header_bytes v -> header_bytes v' -> length v' = length v -> (i < 8 * length v)%nat ->
  bit v' i = negb (bit v i) -> (forall j, (j < 8 * length v)%nat -> j <> i -> bit v' j = bit v j) ->
  verifies m v -> ~ verifies m v'.
Proof.
  intros m v v' i H H' L I B O V. apply (C87_burst m v v' i); auto.
  - split; auto. intros j J N. apply O; auto. lia.
  - intros ->. destruct (bit v i); discriminate.
Qed.
Print Assumptions C87_bit.

(** If the bits of one of the words are garbled, the only errors that pass are those that
    put 65535 in the place of 0, or 0 in that of 65535, and the word is not the checksum. *)
Theorem C87_word : forall m v v' k, header_bytes v -> header_bytes v' -> garbled (16 * k) 16 v v' ->
  verifies m v -> v' <> v ->
  (verifies m v' -> k <> 5%nat /\ (word v k = 0 /\ word v' k = 65535 \/ word v k = 65535 /\ word v' k = 0)).
Proof. intros m v v' k H H' G V N V'. apply (one_word m v v'); auto. Qed.
Print Assumptions C87_word.

(** The value of the function alone: it differs if the garbled bits do anywhere but in
    the checksum field, whatever stands there. *)
Theorem C87_value : forall m v v' i, header_bytes v -> header_bytes v' -> garbled i 15 v v' ->
  (exists j, (j < 80 \/ 96 <= j)%nat /\ bit v j <> bit v' j) -> ipv4_checksum m v <> ipv4_checksum m v'.
Proof. intros m v v' i H H' G (j & J & D) E. apply D. eapply value_burst; eauto. Qed.
Print Assumptions C87_value.

(** The headers that [Packet::ipv4] makes pass, and pass no more once garbled. *)
Theorem C87_built : forall m ihl tos id ttl frag proto src dst pktlen s d h,
  ipv4_text src s -> ipv4_text dst d ->
  ihl < 16 -> tos < 256 -> pktlen < 65536 -> id < 65536 -> frag < 65536 -> ttl < 256 -> proto < 256 ->
  exists b, ipv4 m ihl tos id ttl frag proto src dst pktlen h = (Ret (Hdr IPv4 (length h)), h ++ [Cell b false]) /\
    header_bytes b /\ verifies m b /\
    forall i b', header_bytes b' -> garbled i 15 b b' -> b' <> b -> ~ verifies m b'.
Proof.
  intros m ihl tos id ttl frag proto src dst pktlen s d h Hs Hd Hi Ht Hp Hid Hf Hl Hpr.
  pose proof (ipv4_ok _ _ Hs) as Os. pose proof (ipv4_ok _ _ Hd) as Od.
  pose proof (ipv4_len _ _ Hs) as Ls. pose proof (ipv4_len _ _ Hd) as Ld.
  destruct (ipv4_run m ihl tos id ttl frag proto src dst pktlen s d h) as (c & Lc & Ec & E); auto.
  exists (ip4_bytes ihl tos pktlen id frag ttl proto c s d). split; auto.
  assert (LL : forall c, length (ip4_bytes ihl tos pktlen id frag ttl proto c s d) = 20%nat)
    by (intros; unfold ip4_bytes; rewrite !app_length, !to_be_length, Ls, Ld; reflexivity).
  assert (HB : forall c, header_bytes (ip4_bytes ihl tos pktlen id frag ttl proto c s d)).
  { intros x. split; [apply ip4_bytes_ok; auto|]. rewrite LL. split; [reflexivity|]. split; [lia|discriminate]. }
  assert (F : filled c (ip4_bytes ihl tos pktlen id frag ttl proto 0 s d) = ip4_bytes ihl tos pktlen id frag ttl proto c s d).
  { unfold filled, ip4_bytes, to_be. cbn [app firstn skipn]. do 10 f_equal. f_equal. symmetry. apply N.mod_small. apply N.div_lt_upper_bound; lia. }
  assert (V : verifies m (ip4_bytes ihl tos pktlen id frag ttl proto c s d)) by (rewrite <- F; apply filled_verifies; auto).
  split; auto. split; auto. intros i b' H' G N. eapply (C87_burst m); [apply HB|exact H'|exact G|exact V|exact N].
Qed.
Print Assumptions C87_built.

(** The sixteenth bit is one too many. *)
Definition sent : list N := [69; 0; 0; 40; 0; 0; 0; 0; 64; 6; 102; 206; 10; 0; 0; 1; 10; 0; 0; 2].
Theorem C87_burst_refuted : exists v v' i, header_bytes v /\ header_bytes v' /\ garbled i 16 v v' /\ v' <> v /\
  forall m, verifies m v /\ verifies m v'.
Proof.
  exists sent, [69; 0; 0; 40; 255; 255; 0; 0; 64; 6; 102; 206; 10; 0; 0; 1; 10; 0; 0; 2], 32%nat.
  repeat split; try (apply bytes_okb_ok; reflexivity); try (cbn; lia); try discriminate; try (intros []; vm_compute; reflexivity); try (destruct m; vm_compute; reflexivity).
  intros j J N. do 20 (do 8 (destruct j as [|j]; [try reflexivity; exfalso; lia|])). cbn in J. lia.
Qed.
Print Assumptions C87_burst_refuted.

(** Errors in two places can cancel, and words in the wrong order are not noticed. *)
Theorem C87_swap_refuted : exists v v', header_bytes v /\ header_bytes v' /\ length v' = length v /\ v' <> v /\
  (exists j k, j <> k /\ word v' j = word v k /\ word v' k = word v j /\ forall i, (i < 10)%nat -> i <> j -> i <> k -> word v' i = word v i) /\
  forall m, verifies m v /\ verifies m v'.
Proof.
  exists sent, [69; 0; 0; 40; 0; 0; 0; 0; 64; 6; 102; 206; 10; 0; 0; 2; 10; 0; 0; 1].
  repeat split; try (apply bytes_okb_ok; reflexivity); try (cbn; lia); try discriminate; try (destruct m; vm_compute; reflexivity).
  exists 7%nat, 9%nat. repeat split; try discriminate. intros i I N1 N2. do 10 (destruct i as [|i]; [try reflexivity; congruence|]). lia.
Qed.
Print Assumptions C87_swap_refuted.

Theorem C87_bits_refuted : exists v v', header_bytes v /\ header_bytes v' /\ v' <> v /\
  (exists i j, i <> j /\ forall x, (x < 160)%nat -> bit v' x = if (x =? i)%nat || (x =? j)%nat then negb (bit v x) else bit v x) /\
  forall m, verifies m v /\ verifies m v'.
Proof.
  exists sent, [69; 0; 0; 40; 0; 0; 0; 0; 64; 6; 102; 206; 10; 0; 0; 0; 10; 0; 0; 3].
  repeat split; try (apply bytes_okb_ok; reflexivity); try (cbn; lia); try discriminate; try (destruct m; vm_compute; reflexivity).
  exists 127%nat, 159%nat. split; [discriminate|]. intros x X. do 20 (do 8 (destruct x as [|x]; [reflexivity|])). lia.
Qed.
Print Assumptions C87_bits_refuted.

Example C87_example : header_bytes sent /\ verifies Debug sent /\
  (* the time to live one less, and four bits set across the end of a word *)
  ~ verifies Debug [69; 0; 0; 40; 0; 0; 0; 0; 63; 6; 102; 206; 10; 0; 0; 1; 10; 0; 0; 2] /\
  garbled 14 15 sent [69; 3; 192; 40; 0; 0; 0; 0; 64; 6; 102; 206; 10; 0; 0; 1; 10; 0; 0; 2] /\
  ~ verifies Debug [69; 3; 192; 40; 0; 0; 0; 0; 64; 6; 102; 206; 10; 0; 0; 1; 10; 0; 0; 2].
Proof.
  repeat split; try (apply bytes_okb_ok; reflexivity); try (cbn; lia); try (vm_compute; congruence).
  intros j J N. do 20 (do 8 (destruct j as [|j]; [try reflexivity; exfalso; lia|])). cbn in J. lia.
Qed.

Example C87_example_built :
  ipv4 Debug 5 0 0 64 0 6 "10.0.0.1" "10.0.0.2" 40 [] = (Ret (Hdr IPv4 0), [Cell sent false]) /\
  ipv4_checksum Debug sent = Ret 26318 /\ ipv4_checksum Debug (upd (upd sent 10 1) 0 70) = Ret 26062.
Proof. vm_compute. auto. Qed.
