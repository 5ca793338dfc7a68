(** PropTPoison.v -- C101 with several threads. *)

From Coq Require Import Lia.
From Verif Require Import Base Bits Types Layout Heap Packet Text Ops Client Threads Spec ClientSpec ThreadsSpec Ipv6 PropBuild PropIpv6
  PoisonSpec PoisonProofs TPoisonSpec TPoisonProofs.
Open Scope N_scope.

(** Every execution of Threads.v has a number of caught panics, and only those have. *)
Theorem C101_threads_counted : forall m ip6 w, wreach m ip6 w <-> exists n, caught m ip6 n w.
Proof. intros m ip6 w. split; [apply reach_caught|]. intros [n C]. eapply caught_reach. exact C. Qed.
Print Assumptions C101_threads_counted.

(** However the calls of the threads are interleaved: no more buffers are poisoned than calls have
    panicked, those counted whose panic has not been caught yet. *)
Theorem C101_threads : forall m ip6 n w, caught m ip6 n w ->
  forall rs, NoDup rs -> Forall (poisoned_at (w_heap w)) rs -> (length rs <= n + panicking w)%nat.
Proof. exact caught_poison. Qed.
Print Assumptions C101_threads.

(** While no call of any thread has panicked nothing is poisoned. *)
Theorem C101_threads_none : forall m ip6 w, caught m ip6 0 w ->
  (forall i t, nth_error (snd w) i = Some t -> panicked t = false) -> forall r, ~ poisoned_at (w_heap w) r.
Proof.
  intros m ip6 w C N r P.
  assert (L : (length [r] <= 0 + panicking w)%nat).
  { eapply caught_poison; [exact C| |]; constructor; auto using NoDup_nil. }
  unfold panicking in L. destruct (filter panicked (snd w)) as [|t l] eqn:F; [cbn in L; lia|].
  assert (I : In t (t :: l)) by (left; auto). rewrite <- F in I. apply filter_In in I. destruct I as [I Q].
  apply In_nth_error in I. destruct I as [i I]. rewrite (N i t I) in Q. discriminate.
Qed.
Print Assumptions C101_threads_none.

(** No thread makes a poisoned buffer usable again, and a buffer whose lock is held is not poisoned. *)
Theorem C101_threads_stays : forall m w w' r, wreach m ipv6_from_str w -> wstep m ipv6_from_str w w' ->
  poisoned_at (w_heap w) r -> poisoned_at (w_heap w') r.
Proof. intros m w w' r R S P. eapply stays_poisoned; eauto using C65_octets16. Qed.
Print Assumptions C101_threads_stays.
Theorem C101_threads_held : forall m w r, wreach m ipv6_from_str w -> held (snd w) r = true -> ~ poisoned_at (w_heap w) r.
Proof.
  intros m w r R H. apply ThreadsProofs.held_inv in H. destruct H as (i & k & own & o & p & B).
  eapply (sound_reach m ipv6_from_str w); eauto using C65_octets16.
Qed.
Print Assumptions C101_threads_held.

(** Two threads use a header whose buffer is empty. The first reads a bit and poisons the buffer; the
    second then panics on the lock: two panics, one of them caught, and one poisoned buffer. *)
Definition force (o : option world) : world := match o with Some w => w | None => w_start end.
Definition tp1 (m : mode) : world := wspawn (wspawn w_start).
Definition tp2 (m : mode) : world := force (wcall m ipv6_from_str (tp1 m) 0 (K_hdr (OFrom Ether []))).
Definition tp3 (m : mode) : world := force (wdo (tp2 m) 0).
Definition tp4 (m : mode) : world := force (wback (tp3 m) 0).
Definition tp5 (m : mode) : world := force (wcall m ipv6_from_str (tp4 m) 0 (K_hdr (OBitRange (Hdr Ether 0) 0 0))).
Definition tp6 (m : mode) : world := force (wcall m ipv6_from_str (tp5 m) 1 (K_hdr (OToVec (Hdr Ether 0)))).
Definition tp7 (m : mode) : world := force (wdo (tp6 m) 0).
Definition tp8 (m : mode) : world := force (wdo (tp7 m) 1).
Definition tp9 (m : mode) : world := force (wback (tp8 m) 0).
Example C101_threads_example : forall m, caught m ipv6_from_str 1 (tp9 m) /\ panicking (tp9 m) = 1%nat /\
  poisoned_at (w_heap (tp9 m)) 0 /\ length (w_heap (tp9 m)) = 1%nat.
Proof.
  intros m. split; [|split; [reflexivity|split; [exists []; reflexivity|reflexivity]]].
  refine (C_back _ _ 0 (tp8 m) 0 _ _ _ eq_refl eq_refl).
  refine (C_do _ _ _ (tp7 m) 1 _ _ eq_refl). refine (C_do _ _ _ (tp6 m) 0 _ _ eq_refl).
  refine (C_call _ _ _ (tp5 m) 1 _ _ _ _ _ eq_refl); [|cbn; intros x H; exact H|exact I].
  refine (C_call _ _ _ (tp4 m) 0 _ _ _ _ _ eq_refl); [|cbn; intros x H; exact H|cbn; lia].
  refine (C_back _ _ 0 (tp3 m) 0 _ _ _ eq_refl eq_refl). refine (C_do _ _ _ (tp2 m) 0 _ _ eq_refl).
  refine (C_call _ _ _ (tp1 m) 0 _ _ _ _ _ eq_refl); [|intros x []|constructor].
  apply C_spawn, C_spawn, C_start.
Qed.
