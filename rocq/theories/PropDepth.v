(** PropDepth.v -- C95: how deeply the calls of the parsers nest.

    [slow_fuel m k] and [fast_fuel m k] are the parsers on a stack that has room
    for [k] nested calls: the call that does not fit gives [Fuel]. *)

From Coq Require Import Lia.
From Verif Require Import Base Bits BitsProofs Types Layout Heap Packet Slow Fast Spec Grammar DepthSpec
  GrammarProofs SlowProofs FastProofs PropParse DepthProofs.
Open Scope N_scope.

(** The depth is determined by the bytes and the function called. *)
Theorem C95_determined : forall f b, bytes_ok b -> exists n, nests f b n /\ (1 <= n)%nat /\ forall k, nests f b k -> k = n.
Proof.
  intros f b Hb. destruct (nests_total f b Hb) as [n K]. exists n. split; auto. split; [eapply nests_pos; eauto|].
  intros k K'. eapply nests_fun; eauto.
Qed.
Print Assumptions C95_determined.

(** A stack with room for fewer calls overflows; any other gives the result of
    an unlimited one. *)
Theorem C95_slow : forall m f b h n k, bytes_ok b -> nests f b n ->
  ((k < n)%nat -> fst (slow_fuel m k f b h) = Fuel) /\
  ((n <= k)%nat -> slow_fuel m k f b h = slow m f b h /\ fst (slow m f b h) <> Fuel).
Proof.
  intros m f b h n k Hb K. destruct (slow_dres m k f b h Hb) as (j & J & E).
  rewrite (nests_fun _ _ _ J _ K) in E. split; [apply E|]. intros L.
  destruct (slow_fuel_or m k f b h Hb) as [F|F].
  - apply E in F. lia.
  - split; auto. apply (sres_no_fuel f b h), slow_res_by; auto.
Qed.
Print Assumptions C95_slow.

Theorem C95_fast : forall m f pre b post n k, bytes_ok b -> nests f b n ->
  let v := View (pre ++ b ++ post) (length pre) (length b) in
  ((k < n)%nat -> fast_fuel m k f v = Fuel) /\
  ((n <= k)%nat -> fast_fuel m k f v = fast_view m f v /\ fast_view m f v <> Fuel).
Proof.
  intros m f pre b post n k Hb K v.
  assert (W : win (pre ++ b ++ post) (length pre) b) by (exists pre, post; auto).
  assert (V : ok_view v) by (exists b; auto).
  destruct (fast_dres m k f _ _ b Hb W) as (j & J & E). fold v in E.
  rewrite (nests_fun _ _ _ J _ K) in E. split; [apply E|]. intros L.
  destruct (fast_fuel_or m k f v V) as [F|F].
  - apply E in F. lia.
  - split; auto. destruct (C33_fast_total m f v V) as [(p & ->)|(e & ->)]; discriminate.
Qed.
Print Assumptions C95_fast.

(** The two parsers need the same stack. *)
Theorem C95_same : forall m m' f b h k, bytes_ok b ->
  (fst (slow_fuel m k f b h) = Fuel <-> fast_fuel m' k f (v_all b) = Fuel).
Proof.
  intros m m' f b h k Hb. destruct (slow_dres m k f b h Hb) as (i & I & E).
  destruct (fast_dres m' k f b 0 b Hb (win_all b)) as (j & J & F).
  rewrite (nests_fun _ _ _ J _ I) in F. change (v_all b) with (View b 0 (length b)). rewrite E, F. reflexivity.
Qed.
Print Assumptions C95_same.

(** What is returned shows the depth that was needed. *)
Theorem C95_slow_shown : forall m f b h p h', bytes_ok b -> slow m f b h = (Ret p, h') ->
  nests f b (shown f (map h_ty (p_hdrs p))).
Proof.
  intros m f b h p h' Hb E. destruct (C34_slow_sound m f b h p h' Hb E) as (gs & W & H).
  replace (map h_ty (p_hdrs p)) with (map fst (reported gs)); [eapply wire_nests; eauto|].
  clear -H. induction H as [|x s hs ss [T _] _ IH]; cbn [map]; congruence.
Qed.
Print Assumptions C95_slow_shown.

Theorem C95_fast_shown : forall m f b p, bytes_ok b -> fast m f b = Ret p ->
  nests f b (shown f (map s_ty (ps_hdrs p))).
Proof.
  intros m f b p Hb E. destruct (C34_fast_sound m f b p Hb E) as (gs & W & H).
  replace (map s_ty (ps_hdrs p)) with (map fst (reported gs)); [eapply wire_nests; eauto|].
  clear -H. induction H as [|x s hs ss [T _] _ IH]; cbn [map]; congruence.
Qed.
Print Assumptions C95_fast_shown.

(** [worst L] is the greatest depth of [parse] on [L] bytes ... *)
Theorem C95_worst : forall L,
  (forall b n, length b = L -> nests F_parse b n -> (n <= worst L)%nat) /\
  exists b, bytes_ok b /\ length b = L /\ nests F_parse b (worst L).
Proof.
  intros L. split; [intros b n <-; apply nests_worst|]. destruct (worst_reached L) as (b & H). exists b. exact H.
Qed.
Print Assumptions C95_worst.

(** ... and so the room that [parse] needs to be safe on all inputs of at most [L] bytes. *)
Theorem C95_enough : forall m b h k, bytes_ok b -> (worst (length b) <= k)%nat ->
  slow_fuel m k F_parse b h = slow m F_parse b h /\ fast_fuel m k F_parse (v_all b) = fast m F_parse b.
Proof.
  intros m b h k Hb L. destruct (nests_total F_parse b Hb) as [n K]. pose proof (nests_worst b n K).
  destruct (C95_slow m F_parse b h n k Hb K) as [_ S]. destruct (C95_fast m F_parse [] b [] n k Hb K) as [_ F].
  cbn [app length] in F. rewrite app_nil_r in F. split; [apply S|apply F]; lia.
Qed.
Print Assumptions C95_enough.

(** Any function called from outside: at least four bytes a call, less five in all. *)
Theorem C95_any : forall f b n, nests f b n -> (4 * n <= length b + 5)%nat.
Proof. exact nests_any. Qed.
Print Assumptions C95_any.

(** The claim that some stack is large enough for every input is false, for both parsers. *)
Theorem C95_constant_refuted : forall k, exists b, bytes_ok b /\ length b = (4 * k + 10)%nat /\
  (forall m h, fst (slow_fuel m k F_parse b h) = Fuel) /\
  (forall m, fast_fuel m k F_parse (v_all b) = Fuel).
Proof.
  intros k. destruct (worst_reached (4 * k + 10)) as (b & Hb & L & K). exists b. split; auto. split; auto.
  assert (W : (k < worst (4 * k + 10))%nat).
  { unfold worst. destruct (Nat.ltb_spec (4 * k + 10) 14); [lia|]. destruct (Nat.eqb_spec (4 * k + 10) 17); [lia|].
    replace (4 * k + 10 - 2)%nat with ((k + 2) * 4)%nat by lia. rewrite Nat.div_mul; lia. }
  split.
  - intros m h. apply (C95_slow m F_parse b h _ k Hb K). exact W.
  - intros m. pose proof (proj1 (C95_fast m F_parse [] b [] _ k Hb K) W) as F.
    cbn [app length] in F. rewrite app_nil_r in F. exact F.
Qed.
Print Assumptions C95_constant_refuted.

(** The frame of C33: nine headers with functions of their own and three options. *)
Example C95_example_frame : nests F_parse frame 11 /\
  fst (slow_fuel Debug 10 F_parse frame []) = Fuel /\ fst (slow_fuel Debug 11 F_parse frame []) <> Fuel.
Proof.
  split.
  - destruct (slow Debug F_parse frame []) as [[p| | | |] h'] eqn:E; try (vm_compute in E; discriminate).
    pose proof (C95_slow_shown Debug F_parse frame [] p h' frame_ok E) as K.
    assert (X : match fst (slow Debug F_parse frame []) with Ret q => shown F_parse (map h_ty (p_hdrs q)) | _ => 0%nat end = 11%nat)
      by (vm_compute; reflexivity).
    rewrite E in X. cbn [fst] in X. rewrite X in K. exact K.
  - split; [vm_compute; reflexivity|vm_compute; discriminate].
Qed.

(** A frame that is cut off: the calls up to the one that finds too little. *)
Example C95_example_cut : nests F_parse (firstn 30 frame) 5 /\ fst (slow Debug F_parse (firstn 30 frame) []) = Panic PSlice.
Proof.
  split; [|vm_compute; reflexivity].
  destruct (nests_total F_parse (firstn 30 frame)) as [n K]; [apply bytes_okb_ok; reflexivity|].
  assert (H : bytes_ok (firstn 30 frame)) by (apply bytes_okb_ok; reflexivity).
  destruct (le_lt_dec n 4) as [L|L].
  { destruct (proj2 (C95_slow Debug F_parse _ [] n 4 H K) L) as [E N]. rewrite <- E in N. exfalso. apply N. vm_compute. reflexivity. }
  destruct (le_lt_dec n 5) as [L'|L'].
  - assert (E : n = 5%nat) by lia. rewrite E in K. exact K.
  - pose proof (proj1 (C95_slow Debug F_parse _ [] n 5 H K) L') as E. vm_compute in E. discriminate.
Qed.

(** A jumbo frame (9000 bytes) of VLAN tags nests 2249 calls, an Ethernet frame (1514 bytes) 378. *)
Example C95_example_sizes : worst 60 = 14%nat /\ worst 1514 = 378%nat /\ N.of_nat (worst (N.to_nat 9000)) = 2249 /\
  worst 13 = 1%nat /\ worst 14 = 3%nat /\ worst 17 = 4%nat /\ worst 18 = 4%nat.
Proof. vm_compute. repeat split. Qed.

(** The bound for all functions is reached: LLC alone. *)
Example C95_example_llc : nests F_llc [1; 2; 3] 2.
Proof.
  change [1; 2; 3] with ([1; 2; 3] ++ concat [] ++ []).
  eapply N_header; [reflexivity|reflexivity|reflexivity|reflexivity|apply N_accept].
Qed.
