(** PropAbort.v -- C78: programs built with [panic = "abort"].

    [areach] (AbortSpec.v) are the executions of Threads.v that end with the first panic. *)

From Coq Require Import Lia.
From Verif Require Import Base Bits BitsProofs Types Layout Heap Packet Build Utils Ops Client Threads Ipv6 Spec ClientSpec ThreadsSpec ThreadsProofs
  AbortSpec AbortProofs PropIpv6 PropThreads.
Open Scope N_scope.

(** They are executions of Threads.v, so what C67 says of those holds. *)
Theorem C78_same : forall m ip6 w, areach m ip6 w -> wreach m ip6 w.
Proof. apply areach_reach. Qed.
Print Assumptions C78_same.

(** As long as the process lives no lock is poisoned, ... *)
Theorem C78_sound : forall m ip6 w r c, areach m ip6 w -> ~ panicked w -> nth_error (w_heap w) r = Some c -> c_poisoned c = false.
Proof. intros m ip6 w r c R N E. destruct (areach_inv m ip6 w R) as [_ [S|S]]; [eapply S; eauto|destruct (N S)]. Qed.
Print Assumptions C78_sound.

(** ... and it never ends because one is: the panic that ends it is another. *)
Theorem C78_no_poison : forall m ip6 w i k own e, areach m ip6 w -> busy w i k own (TRun (ADone (Panic e))) -> e <> PPoison.
Proof. intros m ip6 w i k own e R B ->. destruct (areach_inv m ip6 w R) as [F _]. exact (F _ _ _ _ B eq_refl). Qed.
Print Assumptions C78_no_poison.

(** It is the panic of one thread, in the step just made. *)
Theorem C78_one : forall m ip6 w i j k own e k' own' e', areach m ip6 w ->
  busy w i k own (TRun (ADone (Panic e))) -> busy w j k' own' (TRun (ADone (Panic e'))) -> i = j.
Proof.
  intros m ip6 w i j k own e k' own' e' R Bi Bj. destruct R as [|w w' R N St]; [destruct i; discriminate Bi|].
  assert (X : exists n, forall q t, q <> n -> nth_error (snd w') q = Some t -> t = Idle \/ nth_error (snd w) q = Some t).
  { destruct St as [[c ts]|[c ts] n k1 w' _ _ E|w n w' E|[c ts] n w' E].
    - exists O. intros q t _ Q. cbn [wspawn snd] in *. destruct (Nat.lt_ge_cases q (length ts)) as [L|L].
      + rewrite nth_error_app1 in Q by auto. auto.
      + rewrite nth_error_app2 in Q by auto. destruct (q - length ts)%nat as [|[|z]]; try discriminate. injection Q as <-. auto.
    - exists n. intros q t Ne Q. cbn [wcall] in E. destruct (nth_error ts n) as [[|? ? ?]|]; try discriminate. injection E as <-. cbn [snd] in *.
      destruct (upd_cases _ _ _ _ _ Q) as [(-> & _)|(_ & Q')]; [destruct (Ne eq_refl)|auto].
    - exists n. intros q t Ne Q. destruct (wdo_inv _ _ _ E) as (k1 & own1 & t1 & h & new & t' & B & T & ->). cbn [snd] in *.
      destruct (upd_cases _ _ _ _ _ Q) as [(-> & _)|(_ & Q')]; [destruct (Ne eq_refl)|auto].
    - exists n. intros q t Ne Q.
      assert (K : exists c', w' = (c', upd ts n Idle)).
      { cbn [wback] in E. destruct (nth_error ts n) as [[|k1 own1 [[[v|e1| | |]| | | | |]|]]|]; try discriminate; injection E as <-; eauto. }
      destruct K as (c' & ->). cbn [snd] in *. destruct (upd_cases _ _ _ _ _ Q) as [(-> & _)|(_ & Q')]; [destruct (Ne eq_refl)|auto]. }
  destruct X as (n & X). assert (P : forall q k own e, busy w' q k own (TRun (ADone (Panic e))) -> q = n).
  { intros q k1 own1 e1 B. destruct (Nat.eq_dec q n) as [|Ne]; auto. destruct (X _ _ Ne B) as [Q|Q]; [discriminate|].
    destruct N. exists q, k1, own1, e1. exact Q. }
  rewrite (P _ _ _ _ Bi), (P _ _ _ _ Bj). reflexivity.
Qed.
Print Assumptions C78_one.

(** Builds that unwind go the same way up to the first panic, and a lock found poisoned goes back to it: to a panic of
    another kind. *)
Theorem C78_first : forall m ip6 w, wreach m ip6 w ->
  areach m ip6 w \/ exists w0 i k own e, areach m ip6 w0 /\ busy w0 i k own (TRun (ADone (Panic e))) /\ e <> PPoison /\ wsteps m ip6 w0 w.
Proof.
  intros m ip6 w R. destruct (first_panic m ip6 w R) as [A|(w0 & A & (i & k & own & e & B) & S)]; [auto|right].
  exists w0, i, k, own, e. repeat split; auto. eapply C78_no_poison; eauto.
Qed.
Print Assumptions C78_first.
Theorem C78_origin : forall m ip6 w, wreach m ip6 w ->
  (exists r c, nth_error (w_heap w) r = Some c /\ c_poisoned c = true) \/ (exists i k own, busy w i k own (TRun (ADone (Panic PPoison)))) ->
  exists w0 i k own e, areach m ip6 w0 /\ busy w0 i k own (TRun (ADone (Panic e))) /\ e <> PPoison /\ wsteps m ip6 w0 w.
Proof.
  intros m ip6 w R H. destruct (C78_first m ip6 w R) as [A|X]; [|exact X]. destruct H as [(r & c & E & P)|(i & k & own & B)].
  - destruct (panicked_dec w) as [(i & k & own & e & B)|N].
    + exists w, i, k, own, e. repeat split; auto; [eapply C78_no_poison; eauto|apply WS_refl].
    + rewrite (C78_sound m ip6 w r c A N E) in P. discriminate.
  - destruct (C78_no_poison m ip6 w i k own PPoison A B eq_refl).
Qed.
Print Assumptions C78_origin.

(** "No call ever finds a lock poisoned" is false in builds that unwind: a read beyond a short buffer is caught, and the next
    call on that header panics for no reason of its own. *)
Definition ab1 := wgo Release (wgo Release w_start Spawn) (Begin 0 (K_hdr (OFrom Tester [1]))).
Definition ab2 := fold_left (wgo Release) [Do 0; Back 0] ab1.
Definition ab_x := Hdr Tester 0.
Definition ab3 := wgo Release ab2 (Begin 0 (K_hdr (OBitRange ab_x 8 0))).
Definition ab4 := fold_left (wgo Release) (repeat (Do 0) 9) ab3.
Definition ab5 := wgo Release (wgo Release ab4 (Back 0)) (Begin 0 (K_hdr (OToVec ab_x))).
Definition ab6 := wgo Release ab5 (Do 0).
Lemma ab_reach6 : wreach Release ipv6_from_str ab6.
Proof.
  apply wgo_reach; [|exact I]. apply wgo_reach; [apply wgo_reach; [|exact I]|].
  - apply wgos_reach; [|reflexivity]. apply wgo_reach; [apply wgos_reach; [|reflexivity]; apply wgo_reach; [|]|].
    + apply wgo_reach; [constructor|exact I].
    + split; [intros x []|apply bytes_okb_ok; reflexivity].
    + split; [|exact I]. change (k_hdrs (fst ab2)) with [ab_x]. intros x [<-|[]]. left. reflexivity.
  - split; [|exact I]. intros x [<-|[]]. vm_compute. left. reflexivity.
Qed.
Theorem C78_unwinding_refuted : exists w i k own, wreach Release ipv6_from_str w /\ busy w i k own (TRun (ADone (Panic PPoison))).
Proof. exists ab6, O. eexists _, _. split; [exact ab_reach6|]. vm_compute. reflexivity. Qed.
Print Assumptions C78_unwinding_refuted.

(** The same program when a panic ends it: it is over with the read, while the lock is poisoned. *)
Definition alive (w : world) : bool := negb (existsb panics (snd w)).
Lemma alive_ok w : alive w = true -> ~ panicked w.
Proof.
  unfold alive. intros E (i & k & own & e & B). apply Bool.negb_true_iff, Bool.not_true_iff_false in E. apply E. apply existsb_exists.
  eexists. split; [eapply nth_error_In; exact B|reflexivity].
Qed.
Lemma wgo_areach m w e : areach m ipv6_from_str w -> alive w = true -> legal_event w e -> areach m ipv6_from_str (wgo m w e).
Proof.
  intros R A L. apply alive_ok in A. destruct e as [|i k|i|i]; cbn [wgo].
  - eapply AR_step; [exact R|exact A|constructor].
  - destruct (wcall m ipv6_from_str w i k) eqn:E; cbn [try_]; auto. destruct L. eapply AR_step; [exact R|exact A|eapply W_call; eauto].
  - destruct (wdo w i) eqn:E; cbn [try_]; auto. eapply AR_step; [exact R|exact A|eapply W_do; eauto].
  - destruct (wback w i) eqn:E; cbn [try_]; auto. eapply AR_step; [exact R|exact A|eapply W_back; eauto].
Qed.
Fixpoint all_alive (m : mode) (l : list event) (w : world) : bool :=
  match l with [] => true | e :: t => alive w && all_alive m t (wgo m w e) end.
Lemma wgos_areach m l w : areach m ipv6_from_str w -> existsb is_begin l = false -> all_alive m l w = true ->
  areach m ipv6_from_str (fold_left (wgo m) l w).
Proof.
  revert w. induction l as [|e l IH]; intros w R B A; [exact R|]. cbn [existsb] in B. apply Bool.orb_false_elim in B. destruct B as (B & Bl).
  cbn [all_alive] in A. apply Bool.andb_true_iff in A as [A1 A2]. apply IH; auto. apply wgo_areach; auto. destruct e; try exact I. discriminate.
Qed.
Example C78_example_end : areach Release ipv6_from_str ab4 /\ panicked ab4 /\
  map see (snd ab4) = [SDone (Panic PIndex)] /\ map c_poisoned (w_heap ab4) = [true] /\ map c_poisoned (w_heap ab3) = [false].
Proof.
  split; [|split; [|vm_compute; auto]].
  - apply wgos_areach; [|reflexivity|vm_compute; reflexivity]. apply wgo_areach; [apply wgos_areach; [|reflexivity|vm_compute; reflexivity]|vm_compute; reflexivity|].
    + apply wgo_areach; [|vm_compute; reflexivity|].
      * apply wgo_areach; [constructor|reflexivity|exact I].
      * split; [intros x []|apply bytes_okb_ok; reflexivity].
    + split; [|exact I]. change (k_hdrs (fst ab2)) with [ab_x]. intros x [<-|[]]. left. reflexivity.
  - exists O. eexists _, _, _. vm_compute. reflexivity.
Qed.
Example C78_example_later : map see (snd ab6) = [SDone (Panic PPoison)] /\ wsteps Release ipv6_from_str ab4 ab6.
Proof.
  split; [vm_compute; reflexivity|]. unfold ab6, ab5.
  eapply WS_step; [eapply WS_step; [eapply WS_step; [apply WS_refl|]|]|].
  - apply (W_back _ _ _ 0). vm_compute. reflexivity.
  - apply (W_call _ _ _ 0 (K_hdr (OToVec ab_x))); [intros x [<-|[]]; vm_compute; left; reflexivity|exact I|]. vm_compute. reflexivity.
  - apply (W_do _ _ _ 0). vm_compute. reflexivity.
Qed.
