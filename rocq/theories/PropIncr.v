(** PropIncr.v -- property C99: when the checksum of a changed header can be had
    by an incremental update. *)

From Coq Require Import Lia.
From Verif Require Import Base Bits Types Layout Packet Heap Spec BitsProofs HeapProofs ChecksumProofs PropHeader PropChecksum
  DetectSpec DetectProofs IncrSpec IncrProofs.
Open Scope N_scope.

Lemma ret_inj (a b : N) : Ret a = Ret b -> a = b.
Proof. congruence. Qed.

(** Any words but the checksum changed: the update of RFC 1624 gives what the
    function computes anew, if neither of its two sums carries twice. *)
Theorem C99_incremental : forall m v v' ks, header_bytes v -> reworded ks v v' -> nonzero v' ->
  ~ carries (other_words v) -> ~ carries (other_words v') ->
  exists c, ipv4_checksum m v = Ret c /\ ipv4_checksum m v' = Ret (rfc1624_all v v' ks c).
Proof.
  intros m v v' ks H R NZ C C'. pose proof (reworded_bytes _ _ _ H R) as H'.
  rewrite (value_plain m v H C), (value_plain m v' H' C'). eexists. split; [reflexivity|]. f_equal.
  destruct (all_steps v v' ks (ocn (other_words v)) ltac:(intros k K; apply R; auto) (ocn_bound _)) as (-> & B). f_equal.
  pose proof (steps_reworded ks v v' 0 _ H R (ocn_tracks _)) as T.
  pose proof (steps_reworded_pos ks v v' _ H R (ocn_bound _) (ocn_zero _) NZ (ocn_tracks _)) as P.
  apply (nonzero_sum v' H') in NZ. pose proof (ocn_nonzero _ NZ).
  destruct (tracks_same _ _ _ _ (ocn_tracks (other_words v')) T) as [E|[(E & _)|(_ & E)]]; lia.
Qed.
Print Assumptions C99_incremental.

(** If just one of them does, the update never gives the function's value. *)
Theorem C99_one_carry : forall m v v' ks, header_bytes v -> reworded ks v v' ->
  (carries (other_words v) <-> ~ carries (other_words v')) ->
  exists c, ipv4_checksum m v = Ret c /\ ipv4_checksum m v' <> Ret (rfc1624_all v v' ks c).
Proof.
  intros m v v' ks H R X. pose proof (reworded_bytes _ _ _ H R) as H'.
  assert (Ks : forall k, In k ks -> k <> 5%nat) by (intros k K; apply R; auto).
  assert (D : carries (other_words v) \/ ~ carries (other_words v)) by (unfold carries; lia).
  assert (D' : carries (other_words v') \/ ~ carries (other_words v')) by (unfold carries; lia).
  assert (Y : (carries (other_words v) /\ ~ carries (other_words v')) \/ (~ carries (other_words v) /\ carries (other_words v'))) by tauto.
  destruct Y as [(C & C')|(C & C')].
  - destruct (value_carry m v H C) as (O & ->). rewrite (value_plain m v' H' C'). eexists. split; [reflexivity|].
    destruct (all_steps v v' ks (ocn (other_words v) - 1) Ks ltac:(pose proof (ocn_bound (other_words v)); lia)) as (-> & B).
    intros E. apply ret_inj in E.
    assert (T1 : tracks 1 (ocn (other_words v) - 1) (other_words v)).
    { destruct (ocn_tracks (other_words v)) as (b & i & j & T). split; [lia|]. exists i, j. lia. }
    pose proof (steps_reworded ks v v' 1 _ H R T1) as T.
    pose proof (ocn_bound (other_words v')).
    assert (G : ocn (other_words v') = steps (but5 v) (but5 v') ks (ocn (other_words v) - 1)) by lia.
    rewrite <- G in T. exact (tracks_apart _ _ (ocn_tracks _) T).
  - destruct (value_carry m v' H' C') as (O & ->). rewrite (value_plain m v H C). eexists. split; [reflexivity|].
    destruct (all_steps v v' ks (ocn (other_words v)) Ks (ocn_bound _)) as (-> & B).
    intros E. apply ret_inj in E.
    pose proof (steps_reworded ks v v' 0 _ H R (ocn_tracks _)) as T. pose proof (ocn_bound (other_words v')).
    assert (G : steps (but5 v) (but5 v') ks (ocn (other_words v)) = ocn (other_words v') - 1) by lia.
    rewrite G in T. apply (tracks_apart _ _ T).
    destruct (ocn_tracks (other_words v')) as (b & i & j & T'). split; [lia|]. exists i, j. lia.
Qed.
Print Assumptions C99_one_carry.

(** If both do, it does, but for 0 in place of 65535. *)
Theorem C99_two_carries : forall m v v' ks, header_bytes v -> reworded ks v v' ->
  carries (other_words v) -> carries (other_words v') ->
  exists c c', ipv4_checksum m v = Ret c /\ ipv4_checksum m v' = Ret c' /\
    (rfc1624_all v v' ks c = c' \/ (rfc1624_all v v' ks c = 0 /\ c' = 65535)).
Proof.
  intros m v v' ks H R C C'. pose proof (reworded_bytes _ _ _ H R) as H'.
  destruct (value_carry m v H C) as (O & ->), (value_carry m v' H' C') as (O' & ->). do 2 eexists. do 2 (split; [reflexivity|]).
  pose proof (ocn_bound (other_words v)). pose proof (ocn_bound (other_words v')).
  destruct (all_steps v v' ks (ocn (other_words v) - 1) ltac:(intros k K; apply R; auto) ltac:(lia)) as (-> & B).
  assert (T1 : forall s, 1 <= ocn s -> tracks 1 (ocn s - 1) s).
  { intros s S. destruct (ocn_tracks s) as (b & i & j & T). split; [lia|]. exists i, j. lia. }
  pose proof (steps_reworded ks v v' 1 _ H R (T1 _ O)) as T.
  destruct (tracks_same _ _ _ _ (T1 _ O') T) as [E|[(E & E')|(E & E')]]; lia.
Qed.
Print Assumptions C99_two_carries.

(** In the library: any setter of a header's field outside the checksum. *)
Theorem C99_setter : forall m x h v f val, cell_at h (h_ref x) v -> header_bytes v -> field_in f (length v) ->
  (f_end f < 80 \/ 96 <= f_start f)%nat ->
  exists h' v', hset x f val h = (Ret tt, h') /\ cell_at h' (h_ref x) v' /\ reworded (touched f) v v' /\
    (nonzero v' -> ~ carries (other_words v) -> ~ carries (other_words v') ->
     exists c, ipv4_checksum m v = Ret c /\ ipv4_checksum m v' = Ret (rfc1624_all v v' (touched f) c)).
Proof.
  intros m x h v f val HC H F Out. destruct (C03_setter_frame x h v f val HC (proj1 H) F) as (h' & v' & S & _ & HC' & B & L & E & _).
  pose proof (reworded_field v v' f H B L F Out E) as R. exists h', v'. repeat (split; [assumption|]).
  intros NZ C C'. apply C99_incremental; auto.
Qed.
Print Assumptions C99_setter.

(** A router that decrements the TTL: it is enough to add 256 (RFC 1141), unless
    the checksum was 0xFEFF, when the function gives 0 and the addition 0xFFFF. *)
Theorem C99_ttl : forall m v v', header_bytes v -> reworded [4%nat] v v' -> nonzero v' ->
  256 <= word v 4 -> word v' 4 = word v 4 - 256 ->
  ~ carries (other_words v) -> ~ carries (other_words v') ->
  exists c, ipv4_checksum m v = Ret c /\
    ipv4_checksum m v' = Ret (if c =? 0xFEFF then 0 else rfc1141 c) /\ rfc1141 0xFEFF = 0xFFFF.
Proof.
  intros m v v' H R NZ W W' C C'. destruct (C99_incremental m v v' _ H R NZ C C') as (c & V & V').
  exists c. split; [exact V|]. split; [|reflexivity]. rewrite V'. f_equal.
  assert (Hc : c <= 65535) by (rewrite (value_plain m v H C) in V; apply ret_inj in V; lia).
  unfold rfc1624_all. cbn [fold_left]. rewrite W'. pose proof (word_lt v 4) as L. unfold rfc1624, rfc1141, oc_add.
  (* the old word is not above the old sum, so the sum is not zero *)
  assert (Hc' : c <> 65535).
  { rewrite (value_plain m v H C) in V. apply ret_inj in V. intros X.
    assert (Z : ocn (other_words v) = 0) by (pose proof (ocn_bound (other_words v)); lia).
    apply ocn_zero in Z. assert (N : nonzero v).
    { exists 4%nat. destruct H as (_ & _ & H & _). split; [lia|]. split; [discriminate|lia]. }
    apply (nonzero_sum v H) in N. auto. }
  destruct (N.eqb_spec c 0xFEFF) as [->|NE].
  - destruct (N.ltb_spec (65535 - 0xFEFF + (65535 - word v 4)) 65536); destruct (N.ltb_spec 0 0);
      repeat match goal with |- context [?a <? ?b] => destruct (N.ltb_spec a b) end; lia.
  - repeat match goal with |- context [?a <? ?b] => destruct (N.ltb_spec a b) end; lia.
Qed.
Print Assumptions C99_ttl.

(** ** Examples *)

(** A header from 172.16.10.99 to 172.16.10.12 with this identification, TTL and source. *)
Definition hop (id ttl s3 s4 : N) : list N :=
  [0x45; 0; 0; 60] ++ to_be 2 id ++ [0x40; 0; ttl; 6; 0; 0; 172; 16; s3; s4; 172; 16; 10; 12].
Definition route (id : N) : heap := [Cell (hop id 64 10 99) false].

(** The TTL goes from 64 to 63; the source is replaced by 172.16.200.1, which
    are two words. *)
Example C99_example : forall m,
  header_bytes (hop 0x1c46 64 10 99) /\ ~ carries (other_words (hop 0x1c46 64 10 99)) /\
  hset (Hdr IPv4 0) IPv4_ttl 63 (route 0x1c46) = (Ret tt, [Cell (hop 0x1c46 63 10 99) false]) /\
  hset (Hdr IPv4 0) IPv4_src 0xAC10C801 (route 0x1c46) = (Ret tt, [Cell (hop 0x1c46 64 200 1) false]) /\
  touched IPv4_ttl = [4%nat] /\ touched IPv4_src = [6%nat; 7%nat] /\
  ipv4_checksum m (hop 0x1c46 64 10 99) = Ret 0xB1E6 /\
  ipv4_checksum m (hop 0x1c46 63 10 99) = Ret 0xB2E6 /\ rfc1141 0xB1E6 = 0xB2E6 /\
  rfc1624_all (hop 0x1c46 64 10 99) (hop 0x1c46 63 10 99) [4%nat] 0xB1E6 = 0xB2E6 /\
  ipv4_checksum m (hop 0x1c46 64 200 1) = Ret (rfc1624_all (hop 0x1c46 64 10 99) (hop 0x1c46 64 200 1) [6%nat; 7%nat] 0xB1E6).
Proof.
  intros m. split; [repeat split; try reflexivity; try (apply bytes_okb_ok; reflexivity); cbn; lia|].
  split; [vm_compute; auto|]. repeat split; destruct m; vm_compute; reflexivity.
Qed.

(** Whether a router may update incrementally depends on the identification:
    here the function's value for the decremented TTL is not the updated one, and
    a header that the router sends on does not verify. *)
Theorem C99_always_refuted : forall m,
  hset (Hdr IPv4 0) IPv4_ttl 63 (route 0xce2d) = (Ret tt, [Cell (hop 0xce2d 63 10 99) false]) /\
  header_bytes (hop 0xce2d 64 10 99) /\ nonzero (hop 0xce2d 63 10 99) /\
  ipv4_checksum m (hop 0xce2d 64 10 99) = Ret 0xFFFF /\
  ipv4_checksum m (hop 0xce2d 63 10 99) = Ret 0xFF /\
  rfc1624_all (hop 0xce2d 64 10 99) (hop 0xce2d 63 10 99) (touched IPv4_ttl) 0xFFFF = 0x100.
Proof.
  intros m. split; [reflexivity|].
  split; [repeat split; try reflexivity; try (apply bytes_okb_ok; reflexivity); cbn; lia|].
  split; [exists 0%nat; split; [cbn; lia|]; split; [discriminate|vm_compute; discriminate]|].
  repeat split; destruct m; vm_compute; reflexivity.
Qed.
Print Assumptions C99_always_refuted.

(** Two carries, and 0 in place of 65535. *)
Example C99_two_carries_example : forall m,
  carries (other_words (hop 0xce2e 64 10 99)) /\ carries (other_words (hop 0xce2d 64 10 99)) /\
  ipv4_checksum m (hop 0xce2e 64 10 99) = Ret 65534 /\ ipv4_checksum m (hop 0xce2d 64 10 99) = Ret 65535 /\
  rfc1624_all (hop 0xce2e 64 10 99) (hop 0xce2d 64 10 99) [2%nat] 65534 = 0.
Proof. intros m. split; [vm_compute; discriminate|]. split; [vm_compute; discriminate|]. repeat split; destruct m; vm_compute; reflexivity. Qed.
