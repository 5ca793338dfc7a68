(** PropThreads.v -- C67: any number of threads making public calls. *)

From Coq Require Import Lia.
From Verif Require Import Base Bits Types Layout Heap Packet Text Ipv6 Build Utils Slow Fast Ops Client Threads Spec ClientSpec ThreadsSpec
  BitsProofs HeapProofs PropBuild PropIpv6 ClientProofs PropClient ThreadsSim ThreadsProofs.
Open Scope N_scope.

(** ** One thread *)

(** The calls as sequences of critical sections, each section executed at once, are the
    calls of the rest of the model. *)
Theorem C67_alone : forall m ip6 k h, asolo (a_kexec m ip6 k) h = kexec m ip6 k h.
Proof. intros m ip6 k h. apply sim_kexec. Qed.
Print Assumptions C67_alone.

(** A thread that begins a call when no lock is held and proceeds without interruption
    ends with the outcome and the buffers that the one-thread model gives. *)
Theorem C67_uninterrupted : forall m ip6 w i k w1 o h, wcall m ip6 w i k = Some w1 -> (forall j x y, ~ waiting w j x y) ->
  kexec m ip6 k (w_heap w) = (o, h) -> comes_back o ->
  exists w2 own, only i w1 w2 /\ fst w2 = set_heap (fst w) h /\ busy w2 i k own (TRun (ADone o)).
Proof.
  intros m ip6 [c ts] i k w1 o h E F Ex Cb. cbn [wcall fst] in *. unfold w_heap in Ex. cbn [fst] in Ex.
  destruct (nth_error ts i) as [[|? ? ?]|] eqn:Ei; try discriminate. injection E as <-.
  destruct (only_run i (a_kexec m ip6 k) c (upd ts i (Busy k [] (TRun (a_kexec m ip6 k)))) k [] o h) as (own & O); auto.
  - eapply nth_upd_at; eauto.
  - intros r. destruct (held _ r) eqn:H; auto. destruct (held_upd _ _ _ _ H) as [H'|H']; [|discriminate].
    destruct (held_inv _ _ H') as (j & k1 & own & y & p & B). destruct (F j r y). exists k1, own, p. exact B.
  - rewrite C67_alone. exact Ex.
  - eexists _, own. split; [exact O|]. split; [reflexivity|]. unfold busy. cbn [snd]. rewrite upd_twice. eapply nth_upd_at; eauto.
Qed.
Print Assumptions C67_uninterrupted.

(** ** Safety under every interleaving *)

(** In every world that any number of threads can reach, every reference leads to a
    buffer, every buffer and payload holds bytes, and every borrowed header lies within
    its slice. *)
Theorem C67_invariant : forall m w, wreach m ipv6_from_str w -> client_ok (fst w).
Proof. intros m w R. apply (inv_client m ipv6_from_str). apply inv_reach; auto using C65_octets16. Qed.
Print Assumptions C67_invariant.

(** A call that ends has returned or panicked, unless it was [XSlice::from] of a slice
    shorter than the header: the other threads make no difference. *)
Theorem C67_safety : forall m w i k own o, wreach m ipv6_from_str w -> busy w i k own (TRun (ADone o)) ->
  (o = UB <-> short_from k) /\ (comes_back o <-> ~ short_from k).
Proof.
  intros m w i k own o R B. destruct (fin_outcome m _ w i k own o C65_octets16 (inv_reach _ _ _ C65_octets16 R) B) as [(Z & ->)|(Z & Cb)].
  - split; split; auto; [|contradiction]. intros [(a & [=])|(a & [=])].
  - split; split; auto; [|contradiction]. intros ->. destruct Cb as [(a & [=])|(a & [=])].
Qed.
Print Assumptions C67_safety.

(** ** Who can change what *)

(** One step of a thread changes only buffers its call was given or has allocated, and
    none of the values obtained so far. *)
Theorem C67_frame : forall m w i w' k own t r, wreach m ipv6_from_str w -> busy w i k own t -> wdo w i = Some w' ->
  (r < length (w_heap w))%nat -> ~ In r (args k) -> ~ In r own ->
  nth_error (w_heap w') r = nth_error (w_heap w) r /\ fst w' = set_heap (fst w) (w_heap w').
Proof.
  intros m w i w' k own t r R B E L N1 N2. pose proof (inv_reach _ _ _ C65_octets16 R) as V.
  destruct (wdo_inv _ _ _ E) as (k1 & own1 & t1 & h & new & t' & B1 & S & ->). unfold busy in *. rewrite B in B1. injection B1 as <- <- <-.
  destruct (wdo_change _ _ _ _ _ _ _ _ _ _ V B S) as (_ & Ch & _). split; [|reflexivity].
  eapply change_other; eauto. intros X. apply in_app_or in X. tauto.
Qed.
Print Assumptions C67_frame.

(** What a call allocates belongs to it alone until it returns: no value obtained so far
    and no other call in progress has it, and no step of another thread changes it. *)
Theorem C67_private : forall m w i k own t r, wreach m ipv6_from_str w -> busy w i k own t -> In r own ->
  (r < length (w_heap w))%nat /\ ~ shared (fst w) r /\
  (forall j k' own' t', j <> i -> busy w j k' own' t' -> ~ In r (args k') /\ ~ In r own') /\
  (forall w', wstep m ipv6_from_str w w' -> wdo w i <> Some w' -> nth_error (w_heap w') r = nth_error (w_heap w) r).
Proof.
  intros m w i k own t r R B O. pose proof (inv_reach _ _ _ C65_octets16 R) as V.
  pose proof (inv_tok _ _ _ V _ _ _ _ B) as T. destruct (tok_own _ _ _ _ _ _ T _ O) as (L & N').
  assert (Oth : forall j k' own' t', j <> i -> busy w j k' own' t' -> ~ In r (args k') /\ ~ In r own').
  { intros j k' own' t' Ne B'. pose proof (inv_tok _ _ _ V _ _ _ _ B') as T'. split.
    - intros A. apply N'. apply (tok_args _ _ _ _ _ _ T'). exact A.
    - exact (inv_own _ _ _ V i j _ _ _ _ _ _ r B B' (fun e => Ne (eq_sym e)) O). }
  split; [exact L|]. split; [exact N'|]. split; [exact Oth|].
  intros w' S Ne. destruct S as [[c ts]|[c ts] j k' w' _ _ E|w j w' E|[c ts] j w' E].
  - reflexivity.
  - cbn [wcall] in E. destruct (nth_error ts j) as [[|? ? ?]|]; try discriminate. injection E as <-. reflexivity.
  - destruct (Nat.eq_dec j i) as [->|Nj]; [congruence|].
    destruct (wdo_inv _ _ _ E) as (k1 & own1 & t1 & h & new & t' & B1 & S & ->). destruct (Oth _ _ _ _ Nj B1).
    destruct (wdo_change _ _ _ _ _ _ _ _ _ _ V B1 S) as (_ & Ch & _). eapply change_other; eauto.
    intros X. apply in_app_or in X. tauto.
  - cbn [wback] in E. destruct (nth_error ts j) as [[|k1 own1 [[[v|e| | |]| | | | |]|]]|]; try discriminate; injection E as <-; try reflexivity.
    destruct v; reflexivity.
Qed.
Print Assumptions C67_private.

(** A poisoned buffer never changes again, whatever any thread does. *)
Theorem C67_poison : forall m w w' r c, wreach m ipv6_from_str w -> wsteps m ipv6_from_str w w' ->
  nth_error (w_heap w) r = Some c -> c_poisoned c = true -> nth_error (w_heap w') r = Some c.
Proof.
  intros m w w' r c R S E P. assert (X : wreach m ipv6_from_str w' /\ nth_error (w_heap w') r = Some c); [|apply X].
  induction S as [w|w w1 w2 S IH S1]; [auto|]. destruct (IH R E) as (R1 & E1). split; [eapply WR_step; eauto|].
  pose proof (inv_reach _ _ _ C65_octets16 R1) as V. destruct S1 as [[c0 ts]|[c0 ts] j k' w' _ _ E2|w1 j w' E2|[c0 ts] j w' E2].
  - exact E1.
  - cbn [wcall] in E2. destruct (nth_error ts j) as [[|? ? ?]|]; try discriminate. injection E2 as <-. exact E1.
  - destruct (wdo_inv _ _ _ E2) as (k1 & own1 & t1 & h & new & t' & B1 & S2 & ->).
    destruct (wdo_change _ _ _ _ _ _ _ _ _ _ V B1 S2) as (_ & Ch & _). unfold w_heap in *. cbn [fst set_heap k_heap].
    destruct Ch as [|q c1 c' _ Q Pq _|d _]; auto.
    + rewrite upd_other; auto. intros ->. congruence.
    + rewrite nth_error_app1; auto. apply nth_error_Some. congruence.
  - cbn [wback] in E2. destruct (nth_error ts j) as [[|k1 own1 [[[v|e| | |]| | | | |]|]]|]; try discriminate; injection E2 as <-; auto.
    destruct v; exact E1.
Qed.
Print Assumptions C67_poison.

(** ** What a call computes among others *)

(** If no other thread changes the buffers a call was given while it executes (others
    may read them), its outcome, what it leaves in them and what it has allocated are
    those of the same call executed alone from where it began, up to the names of the
    new buffers. *)
Theorem C67_isolated : forall m w w' i k own o, wreach m ipv6_from_str w -> undisturbed m ipv6_from_str i k w w' ->
  busy w' i k own (TRun (ADone o)) -> ~ short_from k ->
  exists o0 h0, kexec m ipv6_from_str k (w_heap w) = (o0, h0) /\ o = rename_out (call_names (length (w_heap w)) own) o0 /\
  length h0 = (length (w_heap w) + length own)%nat /\
  (forall r, In r (args k) -> nth_error (w_heap w') r = nth_error h0 r) /\
  (forall j r, nth_error own j = Some r -> nth_error (w_heap w') r = nth_error h0 (length (w_heap w) + j)).
Proof.
  intros m w w' i k own o R U B Z.
  assert (X : wreach m ipv6_from_str w' /\ (forall r, In r (args k) -> (r < length (w_heap w))%nat) /\
    exists own t, busy w' i k own t /\ mirror m ipv6_from_str (w_heap w) (w_heap w') k own t).
  { clear B own o. induction U as [w w' K T E|w w1 w2 U IH E|w w1 w2 U IH S Th A].
    - pose proof (inv_reach _ _ _ C65_octets16 R) as V. pose proof (inv_client _ _ _ V) as C.
      split; [eapply WR_step; [exact R|eapply W_call; eauto]|]. split; [intros r A; apply shared_live; auto; eapply known_shared; eauto|].
      destruct w as [c ts]. cbn [wcall fst] in *. destruct (nth_error ts i) as [[|? ? ?]|] eqn:Ei; try discriminate. injection E as <-.
      exists [], (TRun (a_kexec m ipv6_from_str k)). split; [eapply nth_upd_at; eauto|]. unfold w_heap. cbn [fst].
      apply mirror_start; auto using C65_octets16.
    - destruct (IH R) as (R1 & A & own & t & B & M). split; [eapply WR_step; [exact R1|eapply W_do; eauto]|]. split; [exact A|].
      pose proof (inv_reach _ _ _ C65_octets16 R1) as V. pose proof (inv_client _ _ _ V) as C. pose proof (inv_tok _ _ _ V _ _ _ _ B) as T.
      destruct (wdo_inv _ _ _ E) as (k1 & own1 & t1 & h & new & t' & B1 & S & ->). unfold busy in *. rewrite B in B1. injection B1 as <- <- <-.
      exists (own ++ new), t'. split; [eapply nth_upd_at; eauto|]. eapply mirror_step; eauto; [apply C|eapply tok_apart; eauto|].
      intros x y p ->. split; [exact (tok_wait _ _ _ _ _ _ T _ _ _ eq_refl)|eapply held_true; eauto].
    - destruct (IH R) as (R1 & As & own & t & B & M). split; [eapply WR_step; eauto|]. split; [exact As|].
      assert (B2 : busy w2 i k own t) by (unfold busy; rewrite Th; exact B). exists own, t. split; [exact B2|].
      destruct (inv_reach _ _ _ C65_octets16 R1) as [_ _ _ _]. eapply mirror_keep; [exact M|].
      intros r r' [(_ & X)|(j & X & _)]; [auto|]. apply nth_error_In in X.
      destruct (C67_private m w1 i k own t r R1 B X) as (_ & _ & _ & K). apply K; auto. intros E.
      destruct (wdo_inv _ _ _ E) as (k1 & own1 & t1 & h & new & t' & B1 & S' & ->). unfold busy in *. rewrite B in B1. injection B1 as <- <- <-.
      cbn [snd] in B2. rewrite (nth_upd_at _ _ _ _ B) in B2. injection B2 as _ ->.
      assert (Ir : forall t, ~ next t t) by (intros s; induction (tstate_acc s) as [s _ Is]; intros N'; exact (Is s N' N')).
      apply (Ir t). exists (snd w1), (w_heap w1), h, new. exact S'. }
  destruct X as (R' & As & own' & t & B' & M). unfold busy in *. rewrite B in B'. injection B' as <- <-.
  apply fin_same; auto. apply (C67_safety m w' i k own o R' B). exact Z.
Qed.
Print Assumptions C67_isolated.

(** In particular a call that is given no buffer ([parse], [create_...], [new], ...) is
    not affected by the other threads at all. *)
Theorem C67_fresh : forall m w i k own o, wreach m ipv6_from_str w -> args k = [] -> busy w i k own (TRun (ADone o)) -> ~ short_from k ->
  exists o0 h0, kexec m ipv6_from_str k [] = (o0, h0) /\ o = rename_out (fun j => nth j own O) o0 /\
  map (nth_error (w_heap w)) own = map Some h0.
Proof.
  intros m w i k own o R A B Z. pose proof (inv_reach _ _ _ C65_octets16 R) as V. pose proof (inv_tok _ _ _ V _ _ _ _ B) as T.
  destruct (fin_same m ipv6_from_str [] (w_heap w) k own o) as (o0 & h0 & E & O & Len & _ & C).
  - rewrite A. intros r [].
  - apply (tok_mirror _ _ _ _ _ _ T); auto.
  - apply (C67_safety m w i k own o R B). exact Z.
  - exists o0, h0. split; [exact E|]. split.
    + subst o. destruct o0 as [v| | | |]; cbn [rename_out]; auto. f_equal.
      assert (Ex : forall j, call_names (length (@nil cell)) own j = nth j own O).
      { intros j. unfold call_names. cbn. rewrite Nat.sub_0_r. reflexivity. }
      destruct v; cbn [rename]; auto.
      * unfold rename_hdr. rewrite Ex. reflexivity.
      * unfold rename_pkt. do 2 f_equal. apply map_ext. intros x. unfold rename_hdr. rewrite Ex. reflexivity.
    + cbn [length plus] in *. assert (C' : forall j r, nth_error own j = Some r -> nth_error (w_heap w) r = nth_error h0 j) by exact C.
      clear - C' Len. revert h0 Len C'. induction own as [|r own IH]; intros [|c h0] Len C'; cbn in Len; try discriminate; [reflexivity|].
      cbn [map]. rewrite (C' O r eq_refl). cbn [nth_error]. f_equal. apply IH; [lia|]. intros j q. apply (C' (S j)).
Qed.
Print Assumptions C67_fresh.

(** ** Waiting, deadlock, termination *)

(** A thread cannot proceed with an unfinished call exactly if it needs a buffer whose
    lock is held by a thread inside [replace]; so nobody reads, writes or copies a
    buffer while it is being replaced. *)
Theorem C67_blocked : forall m w i k own t, wreach m ipv6_from_str w -> busy w i k own t -> ~ done t ->
  (wdo w i = None <-> exists r j y own' p a b, wants t = Some r /\ busy w j (K_hdr (OReplace a b)) own' (TWait r y p) /\ h_ref a = r /\ h_ref b = y).
Proof.
  intros m w i k own t R B D. pose proof (inv_reach _ _ _ C65_octets16 R) as V. split.
  - intros E. destruct (stuck_wants _ _ _ _ _ _ _ V B D E) as (r & W & H).
    destruct (held_inv _ _ H) as (j & k' & own' & y & p & B'). destruct (wait_call _ _ _ _ _ _ _ _ _ C65_octets16 R B') as (a & b & -> & X & Y).
    exists r, j, y, own', p, a, b. auto.
  - intros (r & j & y & own' & p & a & b & W & B' & _). unfold busy in *. apply held_true in B'. destruct w as [c ts]. cbn [wdo snd] in *. rewrite B.
    destruct t as [[o|d f|q i0 f|q i0 v f|q f|x z f]|x z q]; cbn [wants] in W; try discriminate; injection W as ->; cbn [tstep]; rewrite B'; reflexivity.
Qed.
Print Assumptions C67_blocked.

(** Two threads never hold one lock. *)
Theorem C67_exclusion : forall m w i j x y y', wreach m ipv6_from_str w -> waiting w i x y -> waiting w j x y' -> i = j.
Proof.
  intros m w i j x y y' R (k & own & p & B) (k' & own' & p' & B').
  eapply (inv_wait _ _ _ (inv_reach _ _ _ C65_octets16 R)); eauto.
Qed.
Print Assumptions C67_exclusion.

(** If the buffers can be ranked so that every [a.replace(&b)] in progress has [b] before
    [a], some thread with an unfinished call can always proceed. *)
Theorem C67_ordered : forall m w (rank : nat -> nat) i k own t, wreach m ipv6_from_str w ->
  (forall j a b own' t', busy w j (K_hdr (OReplace a b)) own' t' -> (rank (h_ref b) < rank (h_ref a))%nat) ->
  busy w i k own t -> ~ done t -> exists j w', wdo w j = Some w'.
Proof.
  intros m w rank i k own t R O B D. destruct (wdo w i) as [w'|] eqn:E; [eauto|].
  destruct (proj1 (C67_blocked m w i k own t R B D) E) as (r & j & y & own' & p & a & b & _ & B' & <- & Hy). clear i k own t B D E.
  remember (rank (h_ref a)) as n eqn:En. revert j y own' p a b B' Hy En. induction n as [n IH] using lt_wf_ind. intros j y own' p a b B Hy ->.
  destruct (wdo w j) as [w'|] eqn:E; [eauto|].
  destruct (proj1 (C67_blocked m w j _ _ _ R B ltac:(intros (o & [=]))) E) as (r1 & j1 & y1 & own1 & p1 & a1 & b1 & W & B1 & X1 & Y1).
  cbn [wants] in W. injection W as <-. pose proof (O _ _ _ _ _ B) as Lt.
  eapply (IH (rank (h_ref a1))); [|rewrite X1; exact B1|exact Y1|reflexivity]. rewrite X1, <- Hy. exact Lt.
Qed.
Print Assumptions C67_ordered.

(** Threads inside [replace] that wait for each other (one alone, if it waits for the
    buffer it holds) stay there whatever the others do. *)
Theorem C67_deadlock : forall m w w' (D : nat -> Prop), wsteps m ipv6_from_str w w' ->
  (forall i, D i -> exists x y j z, waiting w i x y /\ D j /\ waiting w j y z) ->
  forall i, D i -> nth_error (snd w') i = nth_error (snd w) i.
Proof.
  intros m w w' D S H. induction S as [w|w w1 w2 S IH S1]; [auto|]. intros i Di. rewrite <- (IH H i Di). specialize (IH H).
  assert (H1 : forall i, D i -> exists x y j z, waiting w1 i x y /\ D j /\ waiting w1 j y z).
  { intros q Dq. destruct (H q Dq) as (x & y & j & z & W1 & Dj & W2). exists x, y, j, z. unfold waiting, busy in *.
    rewrite (IH q Dq), (IH j Dj). auto. }
  clear IH H S w. destruct (H1 i Di) as (x & y & j & z & (k & own & p & B) & Dj & (k' & own' & p' & B')). unfold busy in *.
  destruct S1 as [[c ts]|[c ts] q k1 w' _ _ E|w q w' E|[c ts] q w' E]; cbn [snd] in *.
  - cbn [wspawn snd]. apply nth_error_app1. apply nth_error_Some. congruence.
  - cbn [wcall] in E. destruct (nth_error ts q) as [[|? ? ?]|] eqn:Eq; try discriminate. injection E as <-. cbn [snd].
    apply upd_other. intros ->. congruence.
  - destruct (wdo_inv _ _ _ E) as (k1 & own1 & t1 & h & new & t' & B1 & S & ->). cbn [snd]. apply upd_other. intros ->.
    unfold busy in B1. rewrite B in B1. injection B1 as <- <- <-. cbn [tstep] in S. rewrite (held_true _ _ _ _ _ _ _ B') in S. discriminate.
  - cbn [wback] in E. destruct (nth_error ts q) as [[|k1 own1 [[[v|e| | |]| | | | |]|]]|] eqn:Eq; try discriminate; injection E as <-;
      cbn [snd]; apply upd_other; intros ->; congruence.
Qed.
Print Assumptions C67_deadlock.

(** Calls in progress cannot proceed for ever. *)
Theorem C67_finite : forall f : nat -> world, ~ (forall n, exists i, wdo (f n) i = Some (f (S n))).
Proof.
  intros f H. assert (X : forall w, Acc (fun w' w : world => exists i, wdo w i = Some w') w -> forall n, f n = w -> False).
  { intros w A. induction A as [w _ IH]. intros n <-. eapply (IH (f (S n)) (H n)). reflexivity. }
  exact (X _ (wdo_acc (f O)) O eq_refl).
Qed.
Print Assumptions C67_finite.

(** ** Concrete executions *)

Inductive event := Spawn | Begin (i : nat) (k : call) | Do (i : nat) | Back (i : nat).
Definition try_ (w : world) (o : option world) : world := match o with Some w' => w' | None => w end.
Definition wgo (m : mode) (w : world) (e : event) : world :=
  match e with
  | Spawn => wspawn w
  | Begin i k => try_ w (wcall m ipv6_from_str w i k)
  | Do i => try_ w (wdo w i)
  | Back i => try_ w (wback w i)
  end.
Definition legal_event (w : world) (e : event) : Prop := match e with Begin _ k => known (fst w) k /\ typed k | _ => True end.
Lemma wgo_reach m w e : wreach m ipv6_from_str w -> legal_event w e -> wreach m ipv6_from_str (wgo m w e).
Proof.
  intros R L. destruct e as [|i k|i|i]; cbn [wgo].
  - eapply WR_step; [exact R|constructor].
  - destruct (wcall m ipv6_from_str w i k) eqn:E; cbn [try_]; auto. destruct L. eapply WR_step; [exact R|eapply W_call; eauto].
  - destruct (wdo w i) eqn:E; cbn [try_]; auto. eapply WR_step; [exact R|eapply W_do; eauto].
  - destruct (wback w i) eqn:E; cbn [try_]; auto. eapply WR_step; [exact R|eapply W_back; eauto].
Qed.
Definition is_begin (e : event) : bool := match e with Begin _ _ => true | _ => false end.
Lemma wgos_reach m l w : wreach m ipv6_from_str w -> existsb is_begin l = false -> wreach m ipv6_from_str (fold_left (wgo m) l w).
Proof.
  revert w. induction l as [|e l IH]; intros w R B; [exact R|]. cbn [existsb] in B. apply Bool.orb_false_elim in B. destruct B as (B & Bl).
  apply IH; auto. apply wgo_reach; auto. destruct e; try exact I. discriminate.
Qed.
(** What is seen of a thread from outside. *)
Inductive seen := SIdle | SDone (o : out kres) | SRun (wants : option nat).
Definition see (t : thread) : seen :=
  match t with Idle => SIdle | Busy _ _ (TRun (ADone o)) => SDone o | Busy _ _ t => SRun (wants t) end.

(** "Calls that come back when executed alone never wait for each other for ever" is
    false: [x.replace(&y)] and [y.replace(&x)]. *)
Definition dl_make (i : nat) : list event := [Do i; Back i].
Definition dl_x := Hdr Ether 0.
Definition dl_y := Hdr Ether 1.
Definition dl1 := fold_left (wgo Debug) [Spawn; Spawn] w_start.
Definition dl2 := fold_left (wgo Debug) (dl_make 0) (wgo Debug dl1 (Begin 0 (K_hdr (ONew Ether)))).
Definition dl3 := fold_left (wgo Debug) (dl_make 1) (wgo Debug dl2 (Begin 1 (K_hdr (ONew Ether)))).
Definition dl4 := wgo Debug dl3 (Begin 0 (K_hdr (OReplace dl_x dl_y))).
Definition dl5 := wgo Debug dl4 (Begin 1 (K_hdr (OReplace dl_y dl_x))).
Definition dl6 := fold_left (wgo Debug) [Do 0; Do 1] dl5.
Lemma dl_reach3 : wreach Debug ipv6_from_str dl3.
Proof.
  apply wgos_reach; [|reflexivity]. apply wgo_reach.
  - apply wgos_reach; [|reflexivity]. apply wgo_reach.
    + apply wgos_reach; [constructor|reflexivity].
    + split; [intros x []|apply bytes_okb_ok; reflexivity].
  - split; [intros x []|apply bytes_okb_ok; reflexivity].
Qed.
Lemma dl_reach : wreach Debug ipv6_from_str dl6.
Proof.
  apply wgos_reach; [|reflexivity]. apply wgo_reach; [apply wgo_reach; [exact dl_reach3|]|].
  - split; [|exact I]. change (k_hdrs (fst dl3)) with [dl_y; dl_x]. intros x [<-|[<-|[]]]; cbn; auto.
  - split; [|exact I]. change (k_hdrs (fst dl4)) with [dl_y; dl_x]. intros x [<-|[<-|[]]]; cbn; auto.
Qed.
Theorem C67_no_deadlock_refuted : ~ (forall m w i k own t, wreach m ipv6_from_str w ->
  (forall j k' own' t', busy w j k' own' t' -> ~ short_from k' /\ comes_back (fst (kexec m ipv6_from_str k' (w_heap w)))) ->
  busy w i k own t -> ~ done t -> exists j w', wdo w j = Some w').
Proof.
  intros A. destruct (A Debug dl6 O (K_hdr (OReplace dl_x dl_y)) [] (TWait 0 1 (ADone (Ret (KVal VUnit)))) dl_reach) as (j & w' & E).
  - intros [|[|[|j]]] k own t B; try discriminate B; injection B as <- _ _; (split; [intros []|left; eexists; vm_compute; reflexivity]).
  - reflexivity.
  - intros (o & [=]).
  - destruct j as [|[|[|j]]]; discriminate E.
Qed.
Print Assumptions C67_no_deadlock_refuted.

(** One thread makes a packet while another parses bytes, step by step in turn: their
    buffers interleave, their packets are those of the calls alone. Then one prints
    while the other compares. *)
Definition turns (n : nat) : list event := concat (repeat [Do 0; Do 1] n).
Definition pl0 := fold_left (wgo Debug) [Spawn; Spawn] w_start.
Definition pl_make : call := K_create (P_udp4 (EthA "00:11:22:33:44:55" "a:b:c:d:e:f" false 0 0)
  (Ip4A 5 "10.0.0.1" "192.168.1.2" 0 64 7 0) 53 1024 [1; 2; 3]).
Definition pl_parse : call := K_parse F_parse ex_bytes.
Definition pl1 := wgo Debug (wgo Debug pl0 (Begin 0 pl_make)) (Begin 1 pl_parse).
Definition pl2 := fold_left (wgo Debug) (turns 20) pl1.
Definition pl3 := fold_left (wgo Debug) (turns 2000) pl1.
Definition pl4 := fold_left (wgo Debug) [Back 0; Back 1] pl3.
Definition look (w : world) : list seen := map see (snd w).
Definition pl_p : packet := Pkt [Hdr Ether 0; Hdr IPv4 2; Hdr UDP 5] [1; 2; 3].
Definition pl_q : packet := Pkt [Hdr Ether 1; Hdr IPv4 3; Hdr UDP 4] [1; 2; 3].
Definition pl5 := wgo Debug (wgo Debug pl4 (Begin 0 (K_pto_vec pl_p))) (Begin 1 (K_compare pl_p pl_q)).
Definition pl6 := fold_left (wgo Debug) (turns 20) pl5.
Lemma pl_reach : wreach Debug ipv6_from_str pl3 /\ wreach Debug ipv6_from_str pl6.
Proof.
  assert (R3 : wreach Debug ipv6_from_str pl3).
  { apply wgos_reach; [|vm_compute; reflexivity]. apply wgo_reach; [apply wgo_reach; [apply wgos_reach; [constructor|reflexivity]|]|].
    - split; [intros x []|unfold pl_make; bk].
    - split; [exact I|unfold pl_parse; bk]. }
  split; [exact R3|]. assert (K : k_pkts (fst pl4) = [pl_q; pl_p]) by (vm_compute; reflexivity).
  apply wgos_reach; [|vm_compute; reflexivity]. apply wgo_reach; [apply wgo_reach; [apply wgos_reach; [exact R3|reflexivity]|]|].
  - split; [|exact I]. cbn [known]. rewrite K. cbn; auto.
  - assert (K' : k_pkts (fst (wgo Debug pl4 (Begin 0 (K_pto_vec pl_p)))) = [pl_q; pl_p]) by (vm_compute; reflexivity).
    split; [|exact I]. cbn [known]. rewrite K'. cbn; auto.
Qed.
Example C67_example :
  (* under way *) look pl2 = [SRun (Some 2%nat); SRun (Some 3%nat)] /\
  look pl3 = [SDone (Ret (KPkt pl_p)); SDone (Ret (KPkt pl_q))] /\
  kexec Debug ipv6_from_str pl_make [] = (Ret (KPkt ex_p1), map (fun r => nth r (w_heap pl3) (Cell [] false)) [0; 2; 5]%nat) /\
  kexec Debug ipv6_from_str pl_parse [] = (Ret (KPkt ex_p1), map (fun r => nth r (w_heap pl3) (Cell [] false)) [1; 3; 4]%nat) /\
  look pl6 = [SDone (Ret (KVal (VBytes ex_bytes))); SDone (Ret (KBool true))] /\
  wreach Debug ipv6_from_str pl3 /\ wreach Debug ipv6_from_str pl6.
Proof.
  split; [vm_compute; reflexivity|]. split; [vm_compute; reflexivity|]. split; [vm_compute; reflexivity|].
  split; [vm_compute; reflexivity|]. split; [vm_compute; reflexivity|]. exact pl_reach.
Qed.
(** The deadlock above: from there on nothing the other threads do helps. *)
Example C67_deadlock_example : forall w', wsteps Debug ipv6_from_str dl6 w' ->
  firstn 2 (look w') = [SRun (Some 1%nat); SRun (Some 0%nat)].
Proof.
  intros w' S. assert (X : forall i, (i < 2)%nat -> nth_error (snd w') i = nth_error (snd dl6) i).
  { apply (C67_deadlock Debug dl6 w' (fun i => (i < 2)%nat) S). intros [|[|i]] L; [| |lia].
    - exists 0%nat, 1%nat, 1%nat, 0%nat. split; [|split; [lia|]]; do 3 eexists; reflexivity.
    - exists 1%nat, 0%nat, 0%nat, 1%nat. split; [|split; [lia|]]; do 3 eexists; reflexivity. }
  unfold look. pose proof (X 0%nat ltac:(lia)) as X0. pose proof (X 1%nat ltac:(lia)) as X1.
  destruct (snd w') as [|t0 [|t1 l]]; try discriminate X0; try discriminate X1.
  injection X0 as ->. injection X1 as ->. reflexivity.
Qed.
(** A world to which [C67_isolated] applies with another thread at work: thread 0 copies
    its packet out while thread 1 compares both. *)
Example C67_isolated_example : undisturbed Debug ipv6_from_str 0 (K_pto_vec pl_p) pl4 pl6.
Proof.
  set (w0 := wgo Debug pl4 (Begin 0 (K_pto_vec pl_p))).
  assert (H : forall l w, undisturbed Debug ipv6_from_str 0 (K_pto_vec pl_p) pl4 w ->
    (forall n, (n <= length l)%nat -> w_heap (fold_left (wgo Debug) (firstn n l) w) = w_heap w) ->
    forallb (fun e => match e with Do 0 | Do 1 => true | _ => false end) l = true ->
    undisturbed Debug ipv6_from_str 0 (K_pto_vec pl_p) pl4 (fold_left (wgo Debug) l w)).
  { induction l as [|e l IH]; intros w U Hp F; [exact U|]. cbn [forallb] in F. apply andb_prop in F. destruct F as (Fe & Fl).
    cbn [fold_left]. apply IH; auto.
    - destruct e as [|i k|i|i]; try discriminate. cbn [wgo]. destruct (wdo w i) as [w'|] eqn:E; cbn [try_]; [|exact U].
      destruct i as [|[|i]]; try discriminate; [eapply U_do; eauto|].
      eapply U_other; [exact U|eapply W_do; eauto| |].
      + destruct (wdo_inv _ _ _ E) as (k1 & own1 & t1 & h & new & t' & B1 & S & ->). cbn [snd]. rewrite upd_other by lia. reflexivity.
      + intros r _. pose proof (Hp 1%nat ltac:(cbn; lia)) as H1. cbn [firstn fold_left wgo] in H1. rewrite E in H1. cbn [try_] in H1.
        rewrite H1. reflexivity.
    - intros n L. pose proof (Hp (S n) ltac:(cbn; lia)) as H1. cbn [firstn fold_left] in H1. rewrite H1.
      pose proof (Hp 1%nat ltac:(cbn; lia)) as H2. cbn [firstn fold_left] in H2. rewrite H2. reflexivity. }
  apply (H (turns 20) pl5).
  - eapply U_other; [eapply (U_call _ _ _ _ pl4 w0)| | |].
    + cbn [known]. assert (K : k_pkts (fst pl4) = [pl_q; pl_p]) by (vm_compute; reflexivity). rewrite K. cbn; auto.
    + exact I.
    + destruct (wcall Debug ipv6_from_str pl4 0 (K_pto_vec pl_p)) eqn:E; [|vm_compute in E; discriminate].
      unfold w0. cbn [wgo]. rewrite E. reflexivity.
    + eapply W_call with (i := 1%nat) (k := K_compare pl_p pl_q).
      * cbn [known]. assert (K : k_pkts (fst w0) = [pl_q; pl_p]) by (vm_compute; reflexivity). rewrite K. cbn; auto.
      * exact I.
      * unfold pl5. fold w0. cbn [wgo]. destruct (wcall Debug ipv6_from_str w0 1 (K_compare pl_p pl_q)) eqn:E; [reflexivity|vm_compute in E; discriminate].
    + unfold pl5. fold w0. cbn [wgo]. destruct (wcall Debug ipv6_from_str w0 1 (K_compare pl_p pl_q)) as [w'|] eqn:E; [|reflexivity].
      destruct w0 as [c ts]. cbn [wcall] in E. destruct (nth_error ts 1) as [[|? ? ?]|]; try discriminate. injection E as <-.
      cbn [try_ snd]. rewrite upd_other by lia. reflexivity.
    + intros r _. vm_compute. reflexivity.
  - intros n L. change (n <= 40)%nat in L. do 41 (destruct n as [|n]; [vm_compute; reflexivity|]). lia.
  - vm_compute. reflexivity.
Qed.
