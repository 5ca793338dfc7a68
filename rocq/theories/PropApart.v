(** PropApart.v -- property C93: threads that exchange no values do not notice each other. *)

From Coq Require Import Lia.
From Verif Require Import Base Bits Types Layout Heap Packet Text Ipv6 Build Utils Slow Fast Show Ops Client Threads Free Spec ClientSpec ThreadsSpec CostSpec
  LinSpec LocalSpec FreeSpec SourceSpec ApartSpec BitsProofs HeapProofs PropBuild PropIpv6 ClientProofs PropClient ThreadsSim ThreadsRel ThreadsProofs PropThreads CostProofs
  LocalProofs LinProofs FreeProofs PropSource ApartProofs.
Open Scope N_scope.

(** ** Groups *)

(** The threads in groups, each using only values its own group has obtained; any
    schedule. To the threads of one group it is as if the others did nothing: there is an
    execution in which only they make calls, with the same calls, outcomes, values and
    contents of buffers, up to the names of the buffers. *)
Theorem C93_groups : forall m col w l q, gruns m ipv6_from_str col w l -> exists f w0, without_others m ipv6_from_str col q f w l w0.
Proof.
  intros m col w l q R. destruct (ginv_all m ipv6_from_str col C65_octets16 q w l R) as (v & f & w0 & G). exists f, w0. eapply ginv_without; eauto.
Qed.
Print Assumptions C93_groups.

(** Two groups never have a buffer in common: neither in values nor in calls in progress. *)
Theorem C93_disjoint : forall m col w l q q' r, gruns m ipv6_from_str col w l -> uses col w l q r -> uses col w l q' r -> q = q'.
Proof. intros m col w l q q' r R. apply (uses_one m ipv6_from_str col C65_octets16 w l q q' r R). Qed.
Print Assumptions C93_disjoint.

(** What a group uses is changed by its own threads only. *)
Theorem C93_untouched : forall m col w l i w' q r, gruns m ipv6_from_str col w l -> wdo w i = Some w' -> col i <> q -> uses col w l q r ->
  nth_error (w_heap w') r = nth_error (w_heap w) r.
Proof.
  intros m col w l i w' q r R E Q U. pose proof (inv_reach _ _ _ C65_octets16 (gruns_reach _ _ _ _ _ R)) as V.
  destruct (wdo_inv _ _ _ E) as (k & own & t & h & new & t' & B & S & ->). destruct (wdo_change _ _ _ _ _ _ _ _ _ _ V B S) as (_ & Ch & _).
  change (nth_error h r = nth_error (w_heap w) r). eapply change_other; eauto; [eapply uses_live; eauto using C65_octets16|]. intros X. apply Q.
  eapply C93_disjoint; eauto. right. exists i, k, own, t. auto.
Qed.
Print Assumptions C93_untouched.

(** A thread waits only for threads of its group. *)
Theorem C93_waits : forall m col w l i k own t, gruns m ipv6_from_str col w l -> busy w i k own t -> ~ done t -> wdo w i = None ->
  exists r j y, wants t = Some r /\ waiting w j r y /\ col j = col i.
Proof.
  intros m col w l i k own t R B D E. pose proof (gruns_reach _ _ _ _ _ R) as Rw. pose proof (inv_reach _ _ _ C65_octets16 Rw) as V.
  destruct (proj1 (C67_blocked m w i k own t Rw B D) E) as (r & j & y & own' & p & a & b & W & B' & Ha & Hb).
  exists r, j, y. split; [exact W|]. split; [exists (K_hdr (OReplace a b)), own', p; exact B'|].
  eapply C93_disjoint; [exact R| |].
  - right. exists j, (K_hdr (OReplace a b)), own', (TWait r y p). split; [exact B'|]. split; [reflexivity|]. left. exact Ha.
  - right. exists i, k, own, t. split; [exact B|]. split; [reflexivity|].
    pose proof (inv_tok _ _ _ V _ _ _ _ B) as T. destruct (short_dec k) as [Z|Z]; [rewrite (tok_short _ _ _ _ _ _ T Z) in D; destruct D; eexists; reflexivity|].
    pose proof (tok_good _ _ _ _ _ _ T Z _ (on_refl _)) as G.
    destruct t as [[o|d F|x n F|x n v F|x F|x o F]|x o F]; cbn [wants rl] in *; try discriminate; injection W as ->; apply G.
Qed.
Print Assumptions C93_waits.

(** ** A thread on its own *)

(** A thread that uses only what it has obtained itself and that shares nothing of it: its
    calls have the outcomes, and leave the contents, that they have in a program of one
    thread, one after the other, whatever the other threads do. *)
Theorem C93_alone : forall m col w l i, gruns m ipv6_from_str col w l -> (forall j, col j = col i -> j = i) ->
  exists f c, one_by_one m ipv6_from_str (map (renamed f) (side col (col i) l)) c /\ same_values f (obtained (side col (col i) l)) c /\
  ((forall k own t, ~ busy w i k own t) ->
    forall r, shared (obtained (side col (col i) l)) r -> exists b, nth_error (w_heap w) r = Some b /\ nth_error (k_heap c) (f r) = Some b) /\
  (forall k own o, busy w i k own (TRun (ADone o)) ->
    known c (rename_call f k) /\ exists h, kexec m ipv6_from_str (rename_call f k) (k_heap c) = (rename_out f o, h) /\
    forall r, uses col w l (col i) r -> exists b, nth_error (w_heap w) r = Some b /\ nth_error h (f r) = Some b).
Proof.
  intros m col w l i R On. destruct (C93_groups m col w l (col i) R) as (f & w0 & Wo). pose proof (wo_runs _ _ _ _ _ _ _ _ Wo) as Ru.
  assert (Sg : single i w0 (map (ren f) (side col (col i) l))).
  { split.
    - intros j t Ne E. eapply (wo_others _ _ _ _ _ _ _ _ Wo); eauto.
    - intros e X. apply in_map_iff in X. destruct X as ([[j k] o] & <- & X). cbn [ren fst]. apply filter_In in X. destruct X as (_ & X). cbn [fst] in X.
      apply Nat.eqb_eq in X. auto. }
  assert (Ms : map strip (map (ren f) (side col (col i) l)) = map (renamed f) (side col (col i) l)).
  { rewrite map_map. apply map_ext. intros [[j k] o]. reflexivity. }
  pose proof (single_seq m ipv6_from_str C65_octets16 i w0 _ Ru Sg) as Sq. unfold seq in Sq. rewrite Ms in Sq. exists f.
  pose proof (wo_values _ _ _ _ _ _ _ _ Wo) as Va. pose proof (wo_count _ _ _ _ _ _ _ _ Wo) as Cn. pose proof (wo_same _ _ _ _ _ _ _ _ Wo) as Sm.
  pose proof (wo_bytes _ _ _ _ _ _ _ _ Wo) as By.
  assert (Sv : forall c h, fst w0 = set_heap c h -> same_values f (obtained (side col (col i) l)) c) by (intros c h Ec; rewrite Ec in Va; exact Va).
  destruct (nth_error (snd w0) i) as [[|k0 own0 t0]|] eqn:E0.
  - exists (fst w0). split; [exact Sq|]. split; [exact Va|]. destruct (nth_error (snd w) i) as [[|k own t]|] eqn:E.
    + split; [intros _ r Sr; apply By; left; exact Sr|]. intros k own o B. unfold busy in B. congruence.
    + destruct (Sm i _ _ E E0 eq_refl).
    + split; [intros _ r Sr; apply By; left; exact Sr|]. intros k own o B. unfold busy in B. congruence.
  - destruct Sq as (c & O & K & T & Ec & Tw). exists c. split; [exact O|]. split; [eapply Sv; eauto|].
    destruct (nth_error (snd w) i) as [[|k own t]|] eqn:E.
    + destruct (Sm i _ _ E E0 eq_refl).
    + destruct (Sm i _ _ E E0 eq_refl) as (-> & -> & Dn & _). split; [intros N; destruct (N k own t E)|]. intros k1 own1 o B. unfold busy in B.
      assert (X : k1 = k /\ own1 = own /\ t = TRun (ADone o)) by (split; [|split]; congruence). destruct X as (-> & -> & Et). split; [exact K|].
      rewrite (Dn o Et) in Tw. cbn [toward asolo] in Tw. unfold lift in Tw. exists (w_heap w0). split; [symmetry; exact Tw|exact By].
    + apply nth_error_None in E. assert (X : (i < length (snd w0))%nat) by (apply nth_error_Some; congruence). lia.
  - exists (fst w0). split; [exact Sq|]. split; [exact Va|]. split; [intros _ r Sr; apply By; left; exact Sr|].
    intros k own o B. apply nth_error_None in E0. unfold busy in B. assert (X : (i < length (snd w))%nat) by (apply nth_error_Some; congruence). lia.
Qed.
Print Assumptions C93_alone.

(** Such a thread never waits, except for itself in [x.replace(&x)]. *)
Theorem C93_never_waits : forall m col w l i k own t, gruns m ipv6_from_str col w l -> (forall j, col j = col i -> j = i) ->
  busy w i k own t -> ~ done t -> (exists w', wdo w i = Some w') \/ exists a b, k = K_hdr (OReplace a b) /\ h_ref a = h_ref b.
Proof.
  intros m col w l i k own t R On B D. destruct (wdo w i) as [w'|] eqn:E; [eauto|]. right.
  destruct (C93_waits m col w l i k own t R B D E) as (r & j & y & W & (k1 & own1 & p & B1) & Q). apply On in Q. subst j. unfold busy in *.
  rewrite B in B1. injection B1 as <- <- ->. cbn [wants] in W. injection W as ->.
  destruct (wait_call _ _ _ _ _ _ _ _ _ C65_octets16 (gruns_reach _ _ _ _ _ R) B) as (a & b & -> & X & Y). exists a, b. split; [reflexivity|congruence].
Qed.
Print Assumptions C93_never_waits.

(** ** Concrete executions *)

Definition glog (w : world) (e : event) : list ended :=
  match e with Back i => match nth_error (snd w) i with Some (Busy k _ (TRun (ADone o))) => [(i, k, o)] | _ => [] end | _ => [] end.
Fixpoint glogs (m : mode) (w : world) (es : list event) : list ended :=
  match es with [] => [] | e :: t => glog w e ++ glogs m (wgo m w e) t end.
Lemma gruns_go m col es : forall w l, gruns m ipv6_from_str col w l -> all_go m w es = true -> existsb is_begin es = false ->
  gruns m ipv6_from_str col (fold_left (wgo m) es w) (l ++ glogs m w es).
Proof.
  induction es as [|e es IH]; intros w l R G B; [cbn; rewrite app_nil_r; exact R|]. cbn [all_go existsb fold_left glogs] in *. apply andb_prop in G. destruct G as (Ge & Gs).
  apply Bool.orb_false_elim in B. destruct B as (Be & Bs). rewrite app_assoc. apply IH; auto. destruct e as [|i k|i|i]; try discriminate; cbn [glog wgo goes] in *; rewrite ?app_nil_r.
  - constructor. exact R.
  - destruct (wdo w i) eqn:E; [|discriminate]. eapply G_do; eauto.
  - destruct (wback w i) as [w'|] eqn:E; [|discriminate]. cbn [try_].
    assert (X : exists k own o, busy w i k own (TRun (ADone o))).
    { destruct w as [c ts]. cbn [wback] in E. unfold busy. cbn [snd]. destruct (nth_error ts i) as [[|k own [[o| | | | |]|]]|]; try discriminate. eauto. }
    destruct X as (k & own & o & X). unfold busy in X. rewrite X. eapply G_back; eauto.
Qed.
Lemma gruns_to m col es w l w' l' : gruns m ipv6_from_str col w l -> all_go m w es = true -> existsb is_begin es = false ->
  w' = fold_left (wgo m) es w -> l' = l ++ glogs m w es -> gruns m ipv6_from_str col w' l'.
Proof. intros R G B -> ->. apply gruns_go; assumption. Qed.
Lemma gruns_begin m col w l i k : gruns m ipv6_from_str col w l -> goes m w (Begin i k) = true -> known (obtained (side col (col i) l)) k -> typed k ->
  gruns m ipv6_from_str col (wgo m w (Begin i k)) l.
Proof. intros R G K T. cbn [goes wgo] in *. destruct (wcall m ipv6_from_str w i k) eqn:E; [|discriminate]. eapply G_call; eauto. Qed.

(** Threads 0 and 1, each in a group of its own, make an Ethernet header each, thread 1
    first, and set its ethertype bit by bit in turn; then thread 0 reads its own. *)
Definition ap_x := Hdr Ether 1.
Definition ap_y := Hdr Ether 0.
Definition ap1 := fold_left (wgo Debug) [Spawn; Spawn] w_start.
Definition ap2 := wgo Debug (wgo Debug ap1 (Begin 0 (K_hdr (ONew Ether)))) (Begin 1 (K_hdr (ONew Ether))).
Definition ap3 := fold_left (wgo Debug) [Do 1; Do 0; Back 0; Back 1] ap2.
Definition ap4 := wgo Debug (wgo Debug ap3 (Begin 0 (K_hdr (OSet ap_x Ether_etype 0xffff)))) (Begin 1 (K_hdr (OSet ap_y Ether_etype 0))).
Definition ap5 := fold_left (wgo Debug) (turns 16 ++ [Back 1; Back 0]) ap4.
Definition ap6 := wgo Debug ap5 (Begin 0 (K_hdr (OGet ap_x Ether_etype))).
Definition ap7 := fold_left (wgo Debug) (repeat (Do 0) 16 ++ [Back 0]) ap6.
Definition ap_log : list ended :=
  [(0, K_hdr (ONew Ether), Ret (KHdr ap_x)); (1, K_hdr (ONew Ether), Ret (KHdr ap_y));
   (1, K_hdr (OSet ap_y Ether_etype 0), Ret (KVal VUnit)); (0, K_hdr (OSet ap_x Ether_etype 0xffff), Ret (KVal VUnit));
   (0, K_hdr (OGet ap_x Ether_etype), Ret (KVal (VNum 0xffff)))]%nat.
Lemma ap_runs : gruns Debug ipv6_from_str (fun i => i) ap7 ap_log.
Proof.
  assert (R1 : gruns Debug ipv6_from_str (fun i => i) ap1 []) by (apply (gruns_go Debug (fun i => i) [Spawn; Spawn] w_start []); [constructor|reflexivity|reflexivity]).
  assert (R2 : gruns Debug ipv6_from_str (fun i => i) ap2 []).
  { apply gruns_begin; [apply gruns_begin; [exact R1|reflexivity|intros x []|apply bytes_okb_ok; reflexivity]|reflexivity|intros x []|apply bytes_okb_ok; reflexivity]. }
  assert (R3 : gruns Debug ipv6_from_str (fun i => i) ap3 (firstn 2 ap_log)) by (apply (gruns_to _ _ _ _ _ _ _ R2 (eq_refl : all_go Debug ap2 [Do 1; Do 0; Back 0; Back 1] = true)); [reflexivity|reflexivity|vm_compute; reflexivity]).
  assert (R4 : gruns Debug ipv6_from_str (fun i => i) ap4 (firstn 2 ap_log)).
  { apply gruns_begin; [apply gruns_begin; [exact R3|vm_compute; reflexivity| |reflexivity]|vm_compute; reflexivity| |reflexivity]; intros x [<-|[]]; left; reflexivity. }
  assert (G5 : all_go Debug ap4 (turns 16 ++ [Back 1; Back 0]) = true) by (vm_compute; reflexivity).
  assert (R5 : gruns Debug ipv6_from_str (fun i => i) ap5 (firstn 4 ap_log)) by (apply (gruns_to _ _ _ _ _ _ _ R4 G5); [reflexivity|reflexivity|vm_compute; reflexivity]).
  assert (R6 : gruns Debug ipv6_from_str (fun i => i) ap6 (firstn 4 ap_log)).
  { apply gruns_begin; [exact R5|vm_compute; reflexivity| |reflexivity]. intros x [<-|[]]. left. reflexivity. }
  assert (G7 : all_go Debug ap6 (repeat (Do 0) 16 ++ [Back 0]) = true) by (vm_compute; reflexivity).
  apply (gruns_to _ _ _ _ _ _ _ R6 G7); [reflexivity|reflexivity|vm_compute; reflexivity].
Qed.
(** What thread 0 does alone: its header has buffer 0 then. *)
Example C93_example : gruns Debug ipv6_from_str (fun i => i) ap7 ap_log /\ (exists f c,
  one_by_one Debug ipv6_from_str (map (renamed f) (side (fun i => i) 0 ap_log)) c /\
  map (renamed f) (side (fun i => i) 0 ap_log) =
    [(K_hdr (ONew Ether), Ret (KHdr (Hdr Ether 0))); (K_hdr (OSet (Hdr Ether 0) Ether_etype 0xffff), Ret (KVal VUnit));
     (K_hdr (OGet (Hdr Ether 0) Ether_etype), Ret (KVal (VNum 0xffff)))]) /\
  snd ap7 = [Idle; Idle].
Proof.
  split; [exact ap_runs|]. split; [|vm_compute; reflexivity]. destruct (C93_alone _ _ _ _ 0%nat ap_runs ltac:(auto)) as (f & c & O & _). exists f, c. split; [exact O|].
  assert (F : f 1%nat = 0%nat).
  { change (side (fun i => i) 0 ap_log) with [(0%nat, K_hdr (ONew Ether), Ret (KHdr ap_x)); (0%nat, K_hdr (OSet ap_x Ether_etype 0xffff), Ret (KVal VUnit)); (0%nat, K_hdr (OGet ap_x Ether_etype), Ret (KVal (VNum 0xffff)))] in O.
    cbn [map renamed rename_call rename_hop rename_out rename rename_hdr h_ty h_ref ap_x] in O.
    inversion O as [|l1 c1 k1 o1 h1 O1 K1 T1 E1 B1 H1]; subst. apply (f_equal (@rev _)) in H1. rewrite rev_app_distr in H1. cbn [rev app] in H1. injection H1 as _ _ H1.
    apply (f_equal (@rev _)) in H1. rewrite rev_involutive in H1. cbn [rev app] in H1. subst l1.
    inversion O1 as [|l2 c2 k2 o2 h2 O2 K2 T2 E2 B2 H2]; subst. apply (f_equal (@rev _)) in H2. rewrite rev_app_distr in H2. cbn [rev app] in H2. injection H2 as _ _ H2.
    apply (f_equal (@rev _)) in H2. rewrite rev_involutive in H2. cbn [rev app] in H2. subst l2.
    inversion O2 as [|l3 c3 k3 o3 h3 O3 K3 T3 E3 B3 H3]; subst. apply (f_equal (@rev _)) in H3. rewrite rev_app_distr in H3. cbn [rev app] in H3. injection H3 as -> -> H3.
    apply (f_equal (@rev _)) in H3. rewrite rev_involutive in H3. cbn [rev app] in H3. subst l3.
    inversion O3 as [H4|l4 c4 k4 o4 h4 O4 K4 T4 E4 B4 H4]; [subst|destruct l4; discriminate H4]. cbn in E3. injection E3 as E3 _. symmetry. exact E3. }
  unfold side, ap_log, renamed, ap_x. cbn [filter fst snd Nat.eqb map rename_call rename_hop rename_out rename rename_hdr h_ty h_ref]. unfold rename_hdr. cbn [h_ty h_ref].
  rewrite F. reflexivity.
Qed.

(** It matters that nobody else uses the values: thread 0 makes a header, thread 1 sets
    its ethertype, thread 0 reads it. *)
Definition sh1 := wgo Debug ap1 (Begin 0 (K_hdr (ONew Ether))).
Definition sh2 := fold_left (wgo Debug) [Do 0; Back 0] sh1.
Definition sh3 := wgo Debug sh2 (Begin 1 (K_hdr (OSet ap_y Ether_etype 0xffff))).
Definition sh4 := fold_left (wgo Debug) (repeat (Do 1) 16 ++ [Back 1]) sh3.
Definition sh5 := wgo Debug sh4 (Begin 0 (K_hdr (OGet ap_y Ether_etype))).
Definition sh6 := fold_left (wgo Debug) (repeat (Do 0) 16 ++ [Back 0]) sh5.
Definition sh_log : list ended :=
  [(0, K_hdr (ONew Ether), Ret (KHdr ap_y)); (1, K_hdr (OSet ap_y Ether_etype 0xffff), Ret (KVal VUnit));
   (0, K_hdr (OGet ap_y Ether_etype), Ret (KVal (VNum 0xffff)))]%nat.
Lemma sh_runs : gruns Debug ipv6_from_str (fun _ => O) sh6 sh_log.
Proof.
  assert (R1 : gruns Debug ipv6_from_str (fun _ => O) ap1 []) by (apply (gruns_go Debug (fun _ => O) [Spawn; Spawn] w_start []); [constructor|reflexivity|reflexivity]).
  assert (R2 : gruns Debug ipv6_from_str (fun _ => O) sh1 []) by (apply gruns_begin; [exact R1|reflexivity|intros x []|apply bytes_okb_ok; reflexivity]).
  assert (R3 : gruns Debug ipv6_from_str (fun _ => O) sh2 (firstn 1 sh_log)) by (apply (gruns_to _ _ _ _ _ _ _ R2 (eq_refl : all_go Debug sh1 [Do 0; Back 0] = true)); [reflexivity|reflexivity|vm_compute; reflexivity]).
  assert (R4 : gruns Debug ipv6_from_str (fun _ => O) sh3 (firstn 1 sh_log)) by (apply gruns_begin; [exact R3|vm_compute; reflexivity|intros x [<-|[]]; left; reflexivity|reflexivity]).
  assert (G5 : all_go Debug sh3 (repeat (Do 1) 16 ++ [Back 1]) = true) by (vm_compute; reflexivity).
  assert (R5 : gruns Debug ipv6_from_str (fun _ => O) sh4 (firstn 2 sh_log)) by (apply (gruns_to _ _ _ _ _ _ _ R4 G5); [reflexivity|reflexivity|vm_compute; reflexivity]).
  assert (R6 : gruns Debug ipv6_from_str (fun _ => O) sh5 (firstn 2 sh_log)) by (apply gruns_begin; [exact R5|vm_compute; reflexivity|intros x [<-|[]]; left; reflexivity|reflexivity]).
  assert (G7 : all_go Debug sh5 (repeat (Do 0) 16 ++ [Back 0]) = true) by (vm_compute; reflexivity).
  apply (gruns_to _ _ _ _ _ _ _ R6 G7); [reflexivity|reflexivity|vm_compute; reflexivity].
Qed.
Theorem C93_own_values_refuted : ~ (forall m w l i, wruns m ipv6_from_str w l ->
  (forall e, In e (side (fun j => j) i l) -> known (obtained (side (fun j => j) i l)) (snd (fst e))) ->
  exists f c, one_by_one m ipv6_from_str (map (renamed f) (side (fun j => j) i l)) c).
Proof.
  intros A. destruct (A Debug sh6 sh_log 0%nat (gruns_wruns _ _ _ _ _ sh_runs)) as (f & c & O).
  { intros e [<-|[<-|[]]]; [intros x []|intros x [<-|[]]; left; reflexivity]. }
  change (side (fun i => i) 0 sh_log) with [(0%nat, K_hdr (ONew Ether), Ret (KHdr ap_y)); (0%nat, K_hdr (OGet ap_y Ether_etype), Ret (KVal (VNum 0xffff)))] in O.
  cbn [map renamed rename_call rename_hop rename_out rename rename_hdr h_ty h_ref ap_y] in O.
  inversion O as [|l2 c2 k2 o2 h2 O2 K2 T2 E2 B2 H2]; subst. apply (f_equal (@rev _)) in H2. rewrite rev_app_distr in H2. cbn [rev app] in H2. injection H2 as -> -> H2.
  apply (f_equal (@rev _)) in H2. rewrite rev_involutive in H2. cbn [rev app] in H2. subst l2.
  inversion O2 as [|l3 c3 k3 o3 h3 O3 K3 T3 E3 B3 H3]; subst. apply (f_equal (@rev _)) in H3. rewrite rev_app_distr in H3. cbn [rev app] in H3. injection H3 as -> -> H3.
  apply (f_equal (@rev _)) in H3. rewrite rev_involutive in H3. cbn [rev app] in H3. subst l3.
  inversion O3 as [H4|l4 c4 k4 o4 h4 O4 K4 T4 E4 B4 H4]; [subst|destruct l4; discriminate H4]. cbn in E3. injection E3 as E3 Eh.
  assert (X : rename_hdr f ap_y = Hdr Ether 0) by (unfold rename_hdr, ap_y; cbn [h_ty h_ref]; rewrite <- E3; reflexivity). rewrite X, <- Eh in E2.
  vm_compute in E2. discriminate E2.
Qed.
Print Assumptions C93_own_values_refuted.
