(** PropRace.v -- C84: no data races. *)

From Coq Require Import Lia.
From Verif Require Import Base Bits Types Layout Heap Packet Text Ipv6 Build Utils Slow Fast Ops Client Threads Race Spec ClientSpec ThreadsSpec RaceSpec
  BitsProofs HeapProofs PropBuild PropIpv6 ClientProofs PropClient ThreadsProofs PropThreads RaceProofs.
Open Scope N_scope.

(** Whenever a thread can proceed, all earlier accesses to the buffers that it is about to
    access happened before: locking has made them visible. *)
Theorem C84_no_race : forall m y i k own t w', yreach rust m ipv6_from_str y -> busy (y_world y) i k own t -> wdo (y_world y) i = Some w' ->
  forall r, In r (accesses t) -> In r (args k ++ own) /\ sees y i t r = y_stamp y r.
Proof.
  intros m y i k own t w' R B E r A. destruct (yreach_inv _ _ _ C65_octets16 R) as (V & _). destruct (wdo_inv _ _ _ E) as (k1 & own1 & t1 & h & new & t' & B1 & S & _).
  unfold busy in *. rewrite B in B1. injection B1 as <- <- <-. split; [eapply accesses_args; eauto|].
  rewrite <- (no_race _ _ _ _ _ _ _ _ _ _ _ V B S A). unfold sees, v1. destruct t as [[]|]; reflexivity.
Qed.
Print Assumptions C84_no_race.

(** So an execution with views is one of C67, in which all threads work on one memory:
    nothing stale is read and nothing is undefined that is not undefined there. *)
Theorem C84_same : forall m y, yreach rust m ipv6_from_str y -> wreach m ipv6_from_str (y_world y) /\
  (forall i y', ydo rust y i = Some y' -> wdo (y_world y) i = Some (y_world y')).
Proof.
  intros m y R. destruct (yreach_inv _ _ _ C65_octets16 R) as (V & W). split; [exact W|]. intros i y' E. eapply yinv_do; eauto using C65_octets16.
Qed.
Print Assumptions C84_same.
Theorem C84_complete : forall m w, wreach m ipv6_from_str w -> exists y, yreach rust m ipv6_from_str y /\ y_world y = w.
Proof. intros m w R. apply yreach_complete; auto using C65_octets16. Qed.
Print Assumptions C84_complete.
Theorem C84_safety : forall m y i k own o, yreach rust m ipv6_from_str y -> busy (y_world y) i k own (TRun (ADone o)) ->
  (o = UB <-> short_from k) /\ (comes_back o <-> ~ short_from k).
Proof. intros m y i k own o R B. destruct (yreach_inv _ _ _ C65_octets16 R) as (_ & W). eapply C67_safety; eauto. Qed.
Print Assumptions C84_safety.

(** ** Examples *)

Definition yget (o : option yworld) : yworld := match o with Some y => y | None => y_start end.
Definition ra_set : call := K_hdr (OSet (Hdr Vlan 0) (Fld "cfi" 3 3) 1).
Definition ra_get : call := K_hdr (OToVec (Hdr Vlan 0)).
(** Thread 0 makes a header, thread 1 sets a bit of it, thread 0 reads it. *)
Definition ra_make (u : rules) : yworld :=
  let y1 := yspawn (yspawn y_start) in
  let y2 := yget (ycall u Release ipv6_from_str y1 0 (K_hdr (ONew Vlan))) in
  let y3 := yget (ydo u y2 0) in yget (yback y3 0).
Definition ra_mid (u : rules) : yworld :=
  let y2 := yget (ycall u Release ipv6_from_str (ra_make u) 1 ra_set) in
  let y3 := yget (ydo u y2 1) in yget (yback y3 1).
Definition ra_end (u : rules) : yworld :=
  let y2 := yget (ycall u Release ipv6_from_str (ra_mid u) 0 ra_get) in yget (ydo u y2 0).
Lemma ra_make_reach u : yreach u Release ipv6_from_str (ra_make u).
Proof.
  eapply Y_back with (i := 0%nat); [eapply Y_do with (i := 0%nat); [eapply Y_call with (i := 0%nat) (k := K_hdr (ONew Vlan)); [apply Y_spawn, Y_spawn, Y_start|intros x []|apply bytes_okb_ok; reflexivity|reflexivity]|reflexivity]|].
  destruct u as [[] []]; reflexivity.
Qed.
Lemma ra_mid_reach u : handles_order u = true -> yreach u Release ipv6_from_str (ra_mid u).
Proof.
  intros H. eapply Y_back with (i := 1%nat); [eapply Y_do with (i := 1%nat); [eapply Y_call with (i := 1%nat) (k := ra_set); [apply ra_make_reach| | |reflexivity]|reflexivity]|].
  - intros x [<-|[]]. destruct u as [[] []]; left; reflexivity.
  - vm_compute; repeat constructor.
  - destruct u as [[] []]; try discriminate; reflexivity.
Qed.
Lemma ra_end_reach u : handles_order u = true -> yreach u Release ipv6_from_str (ra_end u).
Proof.
  intros H. destruct u as [[] []]; try discriminate;
    (eapply Y_do with (i := 0%nat); [eapply Y_call with (i := 0%nat) (k := ra_get); [apply ra_mid_reach, H|intros x [<-|[]]; left; reflexivity|vm_compute; repeat constructor|reflexivity]|reflexivity]).
Qed.
(** Thread 0 had seen the creation only; having locked, it sees the bit. *)
Example C84_example : yreach rust Release ipv6_from_str (ra_end rust) /\
  y_view (ra_mid rust) 0%nat 0%nat = 1%nat /\ y_stamp (ra_mid rust) 0%nat = 2%nat /\
  nth_error (snd (y_world (ra_end rust))) 0 = Some (Busy ra_get [] (TRun (ADone (Ret (KVal (VBytes [16; 10; 8; 0])))))).
Proof. split; [apply ra_end_reach; reflexivity|]. split; [reflexivity|]. split; reflexivity. Qed.

(** Were locks not to order what they protect (as with relaxed operations), this would
    be a race. *)
Theorem C84_relaxed_refuted : ~ forall m y i k own o, yreach (Rules false true) m ipv6_from_str y -> busy (y_world y) i k own (TRun (ADone o)) -> o = UB -> short_from k.
Proof.
  intros H. apply (H Release (ra_end (Rules false true)) 0%nat ra_get [] UB); [apply ra_end_reach; reflexivity| |reflexivity]. reflexivity.
Qed.
Print Assumptions C84_relaxed_refuted.
(** And were a handle passed on without the creation of the buffer being visible, the
    first access would be. *)
Theorem C84_unpublished_refuted : ~ forall m y i k own o, yreach (Rules true false) m ipv6_from_str y -> busy (y_world y) i k own (TRun (ADone o)) -> o = UB -> short_from k.
Proof.
  set (u := Rules true false). intros H.
  apply (H Release (yget (ydo u (yget (ycall u Release ipv6_from_str (ra_make u) 1 ra_get)) 1)) 1%nat ra_get [] UB); [|reflexivity|reflexivity].
  eapply Y_do with (i := 1%nat); [eapply Y_call with (i := 1%nat) (k := ra_get); [apply ra_make_reach| |vm_compute; repeat constructor|reflexivity]|reflexivity].
  intros x [<-|[]]. left. reflexivity.
Qed.
Print Assumptions C84_unpublished_refuted.
