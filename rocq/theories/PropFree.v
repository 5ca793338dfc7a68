(** PropFree.v -- C83: buffers that are freed and places that are used again. *)

From Coq Require Import Lia.
From Verif Require Import Base Bits Types Layout Heap Packet Text Ipv6 Build Utils Slow Fast Show Ops Client Threads Free Spec ClientSpec ThreadsSpec CostSpec
  LinSpec LocalSpec FreeSpec BitsProofs HeapProofs PropBuild ClientProofs PropClient ThreadsProofs PropIpv6 PropThreads FreeProofs.
Open Scope N_scope.

(** An execution in which buffers are freed and their places used again is, place by
    place, one of C67, in which they never are: the same calls have ended in the same order
    with the same results, the values and the calls in progress are the same, and so is what
    is in the buffers that can still be reached. *)
Theorem C83_same : forall m w l, vruns m ipv6_from_str w l ->
  exists f w0 l0, wruns m ipv6_from_str w0 l0 /\ wreach m ipv6_from_str w0 /\ stands_for f w w0 /\ Forall2 same_end l l0.
Proof.
  intros m w l R. destruct (vruns_sim _ _ _ _ C65_octets16 R) as (f & w0 & l0 & R0 & S & F). exists f, w0, l0.
  split; [exact R0|]. split; [eapply wruns_reach; eauto|]. split; [apply sim_stands; exact S|exact F].
Qed.
Print Assumptions C83_same.

(** Conversely nothing need be freed: every execution of C67 is one of these. *)
Theorem C83_complete : forall m w0, wreach m ipv6_from_str w0 ->
  exists w l, vruns m ipv6_from_str w l /\ wruns m ipv6_from_str w0 l /\
  v_client w = set_heap (fst w0) [] /\ v_threads w = snd w0 /\ forall r, v_mem w r = nth_error (w_heap w0) r.
Proof.
  intros m w0 R. assert (X : exists l, wruns m ipv6_from_str w0 l).
  { induction R as [|w w' R (l & IH) S]; [exists []; constructor|]. destruct S as [w|w i k w' K T E|w i w' E|w i w' E].
    - exists l. constructor; auto.
    - exists l. eapply X_call; eauto.
    - exists l. eapply X_do; eauto.
    - destruct w as [c ts]. pose proof E as E'. cbn [wback] in E'. destruct (nth_error ts i) as [[|k own [[o| | | | |]|]]|] eqn:B; try discriminate.
      exists (l ++ [(i, k, o)]). eapply X_back; eauto. }
  destruct X as (l & X). destruct (vruns_complete _ _ _ _ X) as (w & V & Y). exists w, l. auto.
Qed.
Print Assumptions C83_complete.

(** Where a handle leads there is a buffer. *)
Theorem C83_alive : forall m w l r, vruns m ipv6_from_str w l -> handle w r ->
  exists c, v_mem w r = Some c /\ bytes_ok (c_data c).
Proof.
  intros m w l r R H. destruct (vruns_sim _ _ _ _ C65_octets16 R) as (f & w0 & l0 & R0 & S & F). destruct (s_bytes _ _ _ S _ H) as (c & E & E0).
  exists c. split; [exact E|]. destruct (C67_invariant m w0 (wruns_reach _ _ _ _ R0)) as (Hok & _). eapply Forall_forall in Hok; [exact Hok|]. eapply nth_error_In; eauto.
Qed.
Print Assumptions C83_alive.

(** No call accesses a buffer that has been freed: a call that has ended has returned or
    panicked, unless it was [XSlice::from] of a slice shorter than the header. *)
Theorem C83_safety : forall m w l i k own o, vruns m ipv6_from_str w l -> nth_error (v_threads w) i = Some (Busy k own (TRun (ADone o))) ->
  (o = UB <-> short_from k) /\ (comes_back o <-> ~ short_from k).
Proof.
  intros m w l i k own o R B. destruct (vruns_sim _ _ _ _ C65_octets16 R) as (f & w0 & l0 & R0 & S & F). destruct (done_sim _ _ _ _ _ _ _ S B) as (B0 & _).
  pose proof (C67_safety m w0 i _ _ _ (wruns_reach _ _ _ _ R0) B0) as (X & Y). rewrite short_rename in X, Y. assert (U : o = UB <-> rename_out f o = UB) by (destruct o; cbn [rename_out]; split; auto; discriminate).
  assert (C : comes_back o <-> comes_back (rename_out f o)).
  { unfold comes_back. destruct o; cbn [rename_out]; split; intros [(z & [=])|(z & [=])]; eauto. }
  tauto.
Qed.
Print Assumptions C83_safety.

(** What a call in progress has allocated is its own: no value that the program has and no
    other call has a handle to it, whatever was in those places before. *)
Theorem C83_private : forall m w l i k own t r, vruns m ipv6_from_str w l -> nth_error (v_threads w) i = Some (Busy k own t) -> In r own ->
  ~ shared (v_client w) r /\ ~ In r (args k) /\
  (forall j k' own' t', j <> i -> nth_error (v_threads w) j = Some (Busy k' own' t') -> ~ In r (args k' ++ own')).
Proof.
  intros m w l i k own t r R B I. destruct (vruns_sim _ _ _ _ C65_octets16 R) as (f & w0 & l0 & R0 & S & F). pose proof (wruns_reach _ _ _ _ R0) as W.
  assert (Bs : forall j k own t, nth_error (v_threads w) j = Some (Busy k own t) -> exists t0, busy w0 j (rename_call f k) (map f own) t0).
  { intros j k1 own1 t1 B1. destruct (Forall2_nth _ _ _ _ _ (s_threads _ _ _ S) B1) as ([|k0 own0 t0] & E0 & M); [contradiction|]. destruct M as (-> & -> & _). eauto. }
  assert (Sh : forall r, shared (v_client w) r -> shared (fst w0) (f r)).
  { intros q [(x & X & <-)|(p & x & X & Y & <-)].
    - left. exists (rename_hdr f x). split; [apply (s_hdrs _ _ _ S); exact X|reflexivity].
    - right. exists (rename_pkt f p), (rename_hdr f x). split; [apply (s_pkts _ _ _ S); exact X|]. split; [|reflexivity]. unfold rename_pkt. cbn [p_hdrs]. apply in_map. exact Y. }
  assert (Ar : forall k r, In r (args k) -> In (f r) (args (rename_call f k))) by (intros; rewrite args_rename; apply in_map; auto).
  destruct (Bs _ _ _ _ B) as (t0 & B0). destruct (C67_private m w0 i _ _ _ (f r) W B0 (in_map f _ _ I)) as (_ & N & O & _).
  split; [intros X; apply N, Sh, X|]. split.
  - intros X. apply N. apply (tok_args _ _ _ _ _ _ (inv_tok _ _ _ (inv_reach _ _ _ C65_octets16 W) _ _ _ _ B0)). apply Ar. exact X.
  - intros j k' own' t' Ne B' X. destruct (Bs _ _ _ _ B') as (t1 & B1). destruct (O j _ _ _ Ne B1) as (O1 & O2). apply in_app_or in X.
    destruct X as [X|X]; [apply O1, Ar, X|apply O2, in_map, X].
Qed.
Print Assumptions C83_private.

(** There is always a free place: a call that cannot proceed waits for a lock that is
    held by [replace]. *)
Theorem C83_blocked : forall m w l i k own t, vruns m ipv6_from_str w l -> nth_error (v_threads w) i = Some (Busy k own t) -> ~ done t ->
  ((forall new, vdo w i new = None) <->
   exists r j k' own' y p, wants t = Some r /\ nth_error (v_threads w) j = Some (Busy k' own' (TWait r y p))).
Proof.
  intros m w l i k own t R B D. destruct (mem_finite _ _ _ _ R) as (n & Fr). specialize (Fr n (le_n n)). split.
  - intros H. specialize (H n). unfold vdo in H. rewrite B in H.
    assert (X : exists r, wants t = Some r /\ held (v_threads w) r = true).
    { destruct t as [[o|d F|r j F|r j v F|r F|x o F]|x o F]; cbn [mstep wants] in *; try (destruct D; eexists; reflexivity).
      - rewrite Fr in H. discriminate.
      - exists r. split; [reflexivity|]. destruct (held (v_threads w) r); [reflexivity|]. destruct (mafter _ _) as ((?, ?), ?). discriminate.
      - exists r. split; [reflexivity|]. destruct (held (v_threads w) r); [reflexivity|]. destruct (mafter _ _) as ((?, ?), ?). discriminate.
      - exists r. split; [reflexivity|]. destruct (held (v_threads w) r); [reflexivity|]. destruct (mafter _ _) as ((?, ?), ?). discriminate.
      - exists x. split; [reflexivity|]. destruct (held (v_threads w) x); [reflexivity|]. destruct (mafter _ _) as ((?, ?), ?). discriminate.
      - exists o. split; [reflexivity|]. destruct (held (v_threads w) o); [reflexivity|].
        destruct (v_mem w x); [|discriminate]. destruct (v_mem w o); [|discriminate]. destruct (c_poisoned c0); discriminate. }
    destruct X as (r & W & Hr). destruct (held_inv _ _ Hr) as (j & k' & own' & y & p & Bj). exists r, j, k', own', y, p. auto.
  - intros (r & j & k' & own' & y & p & W & Bj) new. apply held_true in Bj. unfold vdo. rewrite B.
    destruct t as [[o|d F|q j0 F|q j0 v F|q F|x o F]|x o F]; cbn [wants] in W; try discriminate; injection W as ->; cbn [mstep]; rewrite Bj; reflexivity.
Qed.
Print Assumptions C83_blocked.

(** Nothing leaks: whatever is not reached can be freed, and the rest stays. *)
Theorem C83_reclaim : forall m w l, vruns m ipv6_from_str w l ->
  exists w', vruns m ipv6_from_str w' l /\ v_client w' = v_client w /\ v_threads w' = v_threads w /\
  forall r, (handle w r -> v_mem w' r = v_mem w r) /\ (v_mem w' r <> None <-> handle w r).
Proof.
  intros m w l R. destruct (mem_finite _ _ _ _ R) as (n & Fr). destruct (reclaim _ _ _ _ n R) as (w' & R' & Ec & Et & Hh & Hn & Ho).
  exists w'. split; [exact R'|]. split; [exact Ec|]. split; [exact Et|]. intros r. split; [apply Hh|]. split.
  - intros Z. destruct (handle_dec w r) as [X|X]; [exact X|]. destruct Z. destruct (Nat.lt_ge_cases r n); [apply Hn; auto|]. rewrite Ho by auto. apply Fr; auto.
  - intros X. rewrite Hh by auto. destruct (C83_alive m w l r R X) as (c & E & _). congruence.
Qed.
Print Assumptions C83_reclaim.

(** Once every thread is idle and the program has dropped its values all of the memory
    can be free. *)
Theorem C83_empty : forall m w l, vruns m ipv6_from_str w l -> (forall i t, nth_error (v_threads w) i = Some t -> t = Idle) ->
  exists w', vruns m ipv6_from_str w' l /\ v_client w' = k_start /\ forall r, v_mem w' r = None.
Proof.
  intros m w l R Hi.
  assert (Eh : k_heap (v_client w) = []).
  { clear Hi. induction R as [|w l R IH|w l i k w' R IH K T E|w l i new w' R IH E|w l i k own o w' R IH B E|w l c R IH P|w l r R IH N]; auto.
    - unfold vcall in E. destruct (nth_error _ _) as [[|? ? ?]|]; try discriminate. injection E as <-. exact IH.
    - unfold vdo in E. destruct (nth_error _ _) as [[|? ? ?]|]; try discriminate. destruct (mstep _ _ _ _) as [((?, ?), ?)|]; [|discriminate]. injection E as <-. exact IH.
    - unfold vback in E. rewrite B in E. destruct o as [[]| | | |]; try discriminate; injection E as <-; first [reflexivity|exact IH].
    - destruct P as (P & _). cbn [vdrop v_client]. congruence. }
  assert (R1 : vruns m ipv6_from_str (vdrop w k_start) l).
  { apply V_drop; [exact R|]. split; [symmetry; exact Eh|]. repeat split; intros x []. }
  destruct (C83_reclaim m _ l R1) as (w' & R' & Ec & _ & H). exists w'. split; [exact R'|]. split; [exact Ec|]. intros r. destruct (v_mem w' r) as [c|] eqn:E; [|reflexivity].
  assert (X : handle (vdrop w k_start) r) by (apply H; congruence). destruct X as [[(x & [] & _)|(p & x & [] & _)]|(i & k & own & t & Ei & _)]. apply Hi in Ei. discriminate.
Qed.
Print Assumptions C83_empty.

(** ** Examples *)

Definition got (o : option vworld) : vworld := match o with Some w => w | None => v_start end.
(** [Vlan::new()] at place 0; the header is dropped and its buffer freed while another
    thread is making [UDP::new()] at place 1; then [IPv4::new()] at place 0 again. *)
Definition fr1 : vworld := vspawn (vspawn v_start).
Definition fr2 : vworld := got (vcall Release ipv6_from_str fr1 0 (K_hdr (ONew Vlan))).
Definition fr3 : vworld := got (vdo fr2 0 0).
Definition fr4 : vworld := got (vback fr3 0).
Definition fr5 : vworld := got (vcall Release ipv6_from_str fr4 1 (K_hdr (ONew UDP))).
Definition fr6 : vworld := got (vdo fr5 1 1).
Definition fr7 : vworld := vdrop fr6 k_start.
Definition fr8 : vworld := vfree fr7 0.
Definition fr9 : vworld := got (vcall Release ipv6_from_str fr8 0 (K_hdr (ONew IPv4))).
Definition fr10 : vworld := got (vdo fr9 0 0).
Definition fr11 : vworld := got (vback fr10 1).
Definition fr12 : vworld := got (vback fr11 0).
Definition fr_log : list ended :=
  [(0, K_hdr (ONew Vlan), Ret (KHdr (Hdr Vlan 0))); (1, K_hdr (ONew UDP), Ret (KHdr (Hdr UDP 1)));
   (0, K_hdr (ONew IPv4), Ret (KHdr (Hdr IPv4 0)))]%nat.
Lemma fr4_runs : vruns Release ipv6_from_str fr4 [(0%nat, K_hdr (ONew Vlan), Ret (KHdr (Hdr Vlan 0)))].
Proof.
  assert (R1 : vruns Release ipv6_from_str fr1 []) by (repeat constructor).
  assert (R2 : vruns Release ipv6_from_str fr2 []).
  { apply (V_call _ _ fr1 [] 0 (K_hdr (ONew Vlan))); [exact R1|intros x []|apply bytes_okb_ok; reflexivity|reflexivity]. }
  assert (R3 : vruns Release ipv6_from_str fr3 []) by (apply (V_do _ _ fr2 [] 0 0); [exact R2|reflexivity]).
  apply (V_back _ _ fr3 [] 0 (K_hdr (ONew Vlan)) [0%nat]); [exact R3|reflexivity|reflexivity].
Qed.
Lemma fr12_runs : vruns Release ipv6_from_str fr12 fr_log.
Proof.
  pose proof fr4_runs as R4. set (l := [(0%nat, K_hdr (ONew Vlan), Ret (KHdr (Hdr Vlan 0)))]) in *.
  assert (R5 : vruns Release ipv6_from_str fr5 l).
  { apply (V_call _ _ fr4 l 1 (K_hdr (ONew UDP))); [exact R4|intros x []|apply bytes_okb_ok; reflexivity|reflexivity]. }
  assert (R6 : vruns Release ipv6_from_str fr6 l) by (apply (V_do _ _ fr5 l 1 1); [exact R5|reflexivity]).
  assert (R7 : vruns Release ipv6_from_str fr7 l).
  { apply V_drop; [exact R6|]. split; [reflexivity|]. repeat split; intros x []. }
  assert (R8 : vruns Release ipv6_from_str fr8 l).
  { apply V_free; [exact R7|]. rewrite <- refs_handle. vm_compute. intros [X|[]]. discriminate. }
  assert (R9 : vruns Release ipv6_from_str fr9 l).
  { apply (V_call _ _ fr8 l 0 (K_hdr (ONew IPv4))); [exact R8|intros x []|apply bytes_okb_ok; reflexivity|reflexivity]. }
  assert (R10 : vruns Release ipv6_from_str fr10 l) by (apply (V_do _ _ fr9 l 0 0); [exact R9|reflexivity]).
  assert (R11 : vruns Release ipv6_from_str fr11 (l ++ [(1%nat, K_hdr (ONew UDP), Ret (KHdr (Hdr UDP 1)))])).
  { apply (V_back _ _ fr10 l 1 (K_hdr (ONew UDP)) [1%nat]); [exact R10|reflexivity|reflexivity]. }
  apply (V_back _ _ fr11 _ 0 (K_hdr (ONew IPv4)) [0%nat] _ fr12 R11); reflexivity.
Qed.
Example C83_example : vruns Release ipv6_from_str fr12 fr_log /\ k_hdrs (v_client fr12) = [Hdr IPv4 0; Hdr UDP 1] /\ v_threads fr12 = [Idle; Idle] /\
  v_mem fr12 0%nat = Some (Cell (ht_default IPv4) false) /\ v_mem fr12 1%nat = Some (Cell (ht_default UDP) false) /\ v_mem fr12 2%nat = None.
Proof. split; [exact fr12_runs|]. repeat split. Qed.

(** That only what no handle leads to is freed matters: were the buffer of the first
    header freed while the program still has it, reading it would be undefined. *)
Example C83_early_free : In (Hdr Vlan 0) (k_hdrs (v_client (vfree fr4 0))) /\
  exists w1 w2, vcall Release ipv6_from_str (vfree fr4 0) 0 (K_hdr (OToVec (Hdr Vlan 0))) = Some w1 /\ vdo w1 0 0 = Some w2 /\
  nth_error (v_threads w2) 0 = Some (Busy (K_hdr (OToVec (Hdr Vlan 0))) [] (TRun (ADone UB))).
Proof. split; [left; reflexivity|]. do 2 eexists. split; [reflexivity|]. split; reflexivity. Qed.

(** It is not so that headers made by different calls have different places. *)
Theorem C83_new_places_refuted : ~ forall m w l a b i j T1 T2 x y, vruns m ipv6_from_str w l -> a <> b ->
  nth_error l a = Some (i, K_hdr (ONew T1), Ret (KHdr x)) -> nth_error l b = Some (j, K_hdr (ONew T2), Ret (KHdr y)) -> h_ref x <> h_ref y.
Proof.
  intros H. apply (H Release fr12 fr_log 0%nat 2%nat 0%nat 0%nat Vlan IPv4 (Hdr Vlan 0) (Hdr IPv4 0) fr12_runs); [discriminate|reflexivity|reflexivity|reflexivity].
Qed.
Print Assumptions C83_new_places_refuted.
