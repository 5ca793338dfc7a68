(** PropTPrint.v -- property C71: standard output of several threads. *)

From Coq Require Import Lia Permutation.
From Verif Require Import Base Bits Types Layout Heap Packet Text Ipv6 Build Utils Slow Fast Show Trait Ops Client Print Threads TPrint
  Spec ShowSpec ClientSpec PrintSpec ThreadsSpec TPrintSpec BitsProofs HeapProofs PropBuild PropIpv6 ClientProofs PropClient PropPrint ThreadsSim ThreadsRel
  ThreadsProofs PropThreads TPrintSim TPrintRel TPrintErase TPrintProofs.
Open Scope N_scope.

(** ** One thread alone, and threads without printing *)

Theorem C71_alone : forall m ip6 k h, qsolo (q_call m ip6 k) h = w_call m ip6 k h.
Proof. intros m ip6 k h. apply qsim_call. Qed.
Print Assumptions C71_alone.

(** Printing adds nothing to and takes nothing from what threads can do (C67): the same
    values, buffers, calls, waits and results are reachable with it and without it. *)
Theorem C71_erase : forall m w, preach m ipv6_from_str w ->
  exists w0, wreach m ipv6_from_str w0 /\ fst w0 = pw_client w /\ Forall2 same_thread (pw_threads w) (snd w0).
Proof.
  intros m w R. destruct (preach_match _ _ _ R) as (w0 & R0 & C & F). exists w0. split; [auto|]. split; [auto|].
  clear - F. induction F; constructor; auto using mthread_same.
Qed.
Print Assumptions C71_erase.
Theorem C71_complete : forall m w0, wreach m ipv6_from_str w0 ->
  exists w, preach m ipv6_from_str w /\ fst w0 = pw_client w /\ Forall2 same_thread (pw_threads w) (snd w0).
Proof.
  intros m w0 R0. destruct (wreach_match _ _ _ R0) as (w & R & C & F). exists w. split; [auto|]. split; [auto|].
  clear - F. induction F; constructor; auto using mthread_same.
Qed.
Print Assumptions C71_complete.

Theorem C71_safety : forall m w i k own said o, preach m ipv6_from_str w -> pbusy w i k own said (QRun (QDone o)) ->
  (o = UB <-> short_from k) /\ (comes_back o <-> ~ short_from k).
Proof.
  intros m w i k own said o R B. destruct (preach_match _ _ _ R) as (w0 & R0 & M).
  destruct (mbusy _ _ _ _ _ _ _ M B) as (t0 & B0 & Mt). destruct t0 as [p|]; [|contradiction]. cbn [mstate] in Mt.
  destruct p as [o0| | | | |]; try contradiction. cbn [qer] in Mt. destruct (C67_safety m w0 i k own o0 R0 B0) as (U & Cb).
  assert (X : (o = UB <-> o0 = UB) /\ (comes_back o <-> comes_back o0)).
  { unfold comes_back. destruct o, o0; cbn [oer] in Mt; try contradiction; split; split; intros H;
      first [discriminate H | reflexivity | left; eexists; reflexivity | right; eexists; reflexivity | destruct H as [(? & [=])|(? & [=])]]. }
  destruct X as (X1 & X2). rewrite X1, X2. auto.
Qed.
Print Assumptions C71_safety.

(** Printing never waits; a thread that cannot proceed waits for one inside [replace]. *)
Theorem C71_blocked : forall m w i k own said t, preach m ipv6_from_str w -> pbusy w i k own said t -> pdo w i = None ->
  (exists o, t = QRun (QDone o)) \/
  exists j a b own' said' p, pbusy w j (K_hdr (OReplace a b)) own' said' (QWait (h_ref a) (h_ref b) p).
Proof.
  intros m w i k own said t R B E. unfold pdo in E. unfold pbusy in B. rewrite B in E.
  destruct (qstep (pw_threads w) (k_heap (pw_client w)) t) as [[[[h new] s] t']|] eqn:S; [discriminate|].
  destruct (qstep_none _ _ _ S) as [D|(r & H)]; [auto|]. right. destruct (pheld_inv _ _ H) as (j & k' & own' & said' & o & p & B').
  destruct (preach_match _ _ _ R) as (w0 & R0 & M). destruct (mbusy _ _ _ _ _ _ _ M B') as (t0 & B0 & Mt).
  destruct t0 as [|x0 o0 p0]; [contradiction|]. destruct Mt as (<- & <- & _).
  destruct (wait_call _ _ _ _ _ _ _ _ _ C65_octets16 R0 B0) as (a & b & -> & <- & <-). exists j, a, b, own', said', p. exact B'.
Qed.
Print Assumptions C71_blocked.

(** ** What is printed *)

(** One step of a thread prints one piece and changes no buffer, or prints nothing. *)
Theorem C71_step : forall w i w', pdo w i = Some w' ->
  exists s, pw_out w' = pw_out w ++ emit i s /\ stdout w' = (stdout w ++ s)%string /\ (s <> EmptyString -> p_heap w' = p_heap w).
Proof.
  intros w i w' E. destruct (pdo_inv _ _ _ E) as (k & own & said & t & h & new & s & t' & B & S & ->). exists s. split; [reflexivity|]. split.
  - unfold stdout. cbn [pw_out]. rewrite map_app, concat_nil_app. destruct s; reflexivity.
  - intros Ne. unfold p_heap in *. cbn [pw_client set_heap k_heap].
    assert (Af : forall B (o : out B * heap) f, pafter o f = (h, new, s, t') -> s = EmptyString).
    { intros B' o f A. destruct o as [[] ?]; cbn [pafter] in A; injection A as _ _ <- _; reflexivity. }
    destruct t as [[o|u f|d f|r j f|r j v f|r f|x o f]|x o q]; cbn [qstep] in S; try discriminate.
    + injection S as <- _ _ _. reflexivity.
    + injection S as _ _ <- _. contradiction.
    + destruct (pheld _ r); [discriminate|]. injection S as S. apply Af in S. contradiction.
    + destruct (pheld _ r); [discriminate|]. injection S as S. apply Af in S. contradiction.
    + destruct (pheld _ r); [discriminate|]. injection S as S. apply Af in S. contradiction.
    + destruct (pheld _ x); [discriminate|]. injection S as S. apply Af in S. contradiction.
    + destruct (pheld _ o); [discriminate|].
      destruct (nth_error _ x); [destruct (nth_error _ o); [destruct (c_poisoned _)|]|]; injection S as _ _ <- _; contradiction.
Qed.
Print Assumptions C71_step.

(** What thread [i] has written is what its calls have printed, one after another. *)
Theorem C71_by_thread : forall m w l i, pruns m ipv6_from_str w l -> text_of i (pw_out w) = (texts i l ++ in_progress w i)%string.
Proof. intros m w l i R. eapply by_thread; eauto. Qed.
Print Assumptions C71_by_thread.
(** Every reachable state has such a record, and only threads write. *)
Theorem C71_runs : forall m w, (preach m ipv6_from_str w <-> exists l, pruns m ipv6_from_str w l) /\
  (preach m ipv6_from_str w -> forall i s, In (i, s) (pw_out w) -> (i < length (pw_threads w))%nat /\ s <> EmptyString).
Proof.
  intros m w. split; [split; [apply preach_runs|intros (l & R); eapply pruns_reach; eauto]|].
  induction 1 as [|w j w' R IH S]; intros i s H; [contradiction|]. destruct S as [|j k' w' K T E|j w' E|j w' E].
  - destruct (IH _ _ H). split; auto. cbn. rewrite app_length. lia.
  - destruct (pcall_inv _ _ _ _ _ _ E) as (_ & ->). cbn [pw_threads]. rewrite upd_len. auto.
  - destruct (pdo_inv _ _ _ E) as (k & own & said & t & h & new & u & t' & B & S & ->). cbn [pw_threads pw_out] in *. rewrite upd_len.
    apply in_app_or in H. destruct H as [H|H]; [auto|]. destruct u as [|a u]; [contradiction|]. destruct H as [[= <- <-]|[]].
    split; [|discriminate]. apply nth_error_Some. unfold pbusy in B. congruence.
  - destruct (pback_inv _ _ _ E) as (k & own & said & o & B & _ & ->). cbn [pw_threads]. rewrite upd_len. auto.
Qed.
Print Assumptions C71_runs.

(** A call whose buffers no other thread changes prints what it prints alone, in the
    same order (so far: the beginning of it), and ends as it does alone. *)
Theorem C71_prefix : forall m w w' i k own said t, preach m ipv6_from_str w -> pundisturbed m ipv6_from_str i k w w' ->
  pbusy w' i k own said t -> ~ short_from k -> exists rest, printed (w_call m ipv6_from_str k) (p_heap w) = (said ++ rest)%string.
Proof.
  intros m w w' i k own said t R U B Z.
  destruct (mirror_run m ipv6_from_str i k w w' (p_heap w) C65_octets16 R U Z (fun _ _ => eq_refl)) as (_ & own1 & said1 & t1 & B1 & M).
  unfold pbusy in *. rewrite B in B1. injection B1 as <- <- <-. eapply qmirror_prefix; eauto.
Qed.
Print Assumptions C71_prefix.
Theorem C71_isolated : forall m w w' i k own said o, preach m ipv6_from_str w -> pundisturbed m ipv6_from_str i k w w' ->
  pbusy w' i k own said (QRun (QDone o)) -> ~ short_from k ->
  exists o0 h0, w_call m ipv6_from_str k (p_heap w) = (said, (o0, h0)) /\ o = rename_out (call_names (length (p_heap w)) own) o0 /\
  length h0 = (length (p_heap w) + length own)%nat /\
  (forall r, In r (args k) -> nth_error (p_heap w') r = nth_error h0 r) /\
  (forall j r, nth_error own j = Some r -> nth_error (p_heap w') r = nth_error h0 (length (p_heap w) + j)).
Proof.
  intros m w w' i k own said o R U B Z.
  destruct (mirror_run m ipv6_from_str i k w w' (p_heap w) C65_octets16 R U Z (fun _ _ => eq_refl)) as (R' & own1 & said1 & t1 & B1 & M).
  assert (K : known (pw_client w) k) by (clear - U; induction U; auto).
  unfold pbusy in *. rewrite B in B1. injection B1 as <- <- <-. eapply qfin_same; eauto.
  - intros r A. destruct (preach_inv _ _ _ C65_octets16 R) as (w0 & (C & _) & V). unfold p_heap. rewrite <- C in *.
    apply shared_live; [apply V|]. eapply known_shared; eauto.
  - apply (C71_safety m w' i k own said o R' B). exact Z.
Qed.
Print Assumptions C71_isolated.
(** In particular a call that is given no buffer, whatever the other threads do. *)
Theorem C71_fresh : forall m w i k own said t, preach m ipv6_from_str w -> pbusy w i k own said t -> args k = [] -> ~ short_from k ->
  (exists rest, printed (w_call m ipv6_from_str k) [] = (said ++ rest)%string) /\
  (forall o, t = QRun (QDone o) -> printed (w_call m ipv6_from_str k) [] = said).
Proof.
  intros m w i k own said t R B A Z. destruct (begun _ _ _ _ _ _ _ _ C65_octets16 R B A) as (w1 & R1 & U).
  destruct (mirror_run m ipv6_from_str i k w1 w [] C65_octets16 R1 U Z) as (_ & own1 & said1 & t1 & B1 & M); [rewrite A; intros r []|].
  unfold pbusy in *. rewrite B in B1. injection B1 as <- <- <-. split; [eapply qmirror_prefix; eauto|].
  intros o ->. eapply qmirror_done; eauto.
Qed.
Print Assumptions C71_fresh.
Theorem C71_ended : forall m w l i k said, pruns m ipv6_from_str w l -> In (i, k, said) l ->
  ~ short_from k /\ (args k = [] -> said = printed (w_call m ipv6_from_str k) []) /\ (~ may_print k -> said = EmptyString).
Proof.
  intros m w l i k said R. revert i k said.
  induction R as [|w l R IH|w l j k w' R IH K T E|w l j w' R IH E|w l j k own said t w' R IH B E]; intros i k1 said1 H; eauto; [contradiction|].
  apply in_app_or in H. destruct H as [H|[[= <- <- <-]|[]]]; [eauto|]. pose proof (pruns_reach _ _ _ _ R) as Re.
  destruct (pback_inv _ _ _ E) as (k2 & own2 & said2 & o & B2 & Cb & _). unfold pbusy in *. rewrite B in B2. injection B2 as <- <- <- ->.
  assert (Z : ~ short_from k) by (apply (C71_safety m w j k own said o Re B); exact Cb). split; [exact Z|]. split.
  - intros A. symmetry. eapply (C71_fresh m w j k own said _ Re B A Z). reflexivity.
  - intros N. eapply mute_reach; eauto.
Qed.
Print Assumptions C71_ended.

(** A thread whose call is not interrupted writes exactly the text of the call. *)
Theorem C71_uninterrupted : forall m ip6 w i k w1 s o h, pcall m ip6 w i k = Some w1 ->
  (forall j k' own said x y p, ~ pbusy w j k' own said (QWait x y p)) ->
  w_call m ip6 k (p_heap w) = (s, (o, h)) -> comes_back o ->
  exists w2 own, ponly i w1 w2 /\ pbusy w2 i k own s (QRun (QDone o)) /\ pw_client w2 = set_heap (pw_client w) h /\
  stdout w2 = (stdout w ++ s)%string.
Proof.
  intros m ip6 w i k w1 s o h E F Ex Cb. destruct (pcall_inv _ _ _ _ _ _ E) as (Ei & ->).
  destruct (only_prun i (q_call m ip6 k) (PW (pw_client w) (upd (pw_threads w) i (PBusy k [] "" (QRun (q_call m ip6 k)))) (pw_out w)) k [] "" s o h)
    as (own & l & O & _ & C); auto.
  - eapply nth_upd_at; eauto.
  - intros r. cbn [pw_threads]. apply pheld_run. destruct (pheld (pw_threads w) r) eqn:H; auto.
    destruct (pheld_inv _ _ H) as (j & k' & own & said & y & p & B). destruct (F j k' own said r y p B).
  - rewrite C71_alone. exact Ex.
  - eexists _, own. split; [exact O|]. cbn [pw_client pw_threads pw_out]. rewrite upd_twice. split; [eapply nth_upd_at; eauto|]. split; [reflexivity|].
    unfold stdout. cbn [pw_out]. rewrite map_app, concat_nil_app, C. reflexivity.
Qed.
Print Assumptions C71_uninterrupted.

(** Calls other than [show] write whole lines: no other thread gets in between. *)
Theorem C71_lines : forall m w i w' k own said t, preach m ipv6_from_str w -> pbusy w i k own said t -> ~ shows k -> pdo w i = Some w' ->
  pw_out w' = pw_out w \/ exists line, pw_out w' = pw_out w ++ [(i, (line ++ newline)%string)].
Proof.
  intros m w i w' k own said t R B N E. pose proof (whole_reach _ _ _ _ _ _ _ _ R B N) as Wh.
  destruct (pdo_inv _ _ _ E) as (k1 & own1 & said1 & t1 & h & new & s & t' & B1 & S & ->). unfold pbusy in *. rewrite B in B1. injection B1 as <- <- <- <-.
  cbn [pw_out]. destruct (proj1 (whole_step _ _ _ _ _ _ _ Wh S)) as [->|(u & ->)]; [left; apply app_nil_r|].
  right. exists u. destruct u; reflexivity.
Qed.
Print Assumptions C71_lines.

(** ** Concrete executions *)

Definition prun := (pworld * list (nat * call * string))%type.
Definition pgo (m : mode) (r : prun) (e : event) : prun :=
  let '(w, l) := r in
  match e with
  | Spawn => (pspawn w, l)
  | Begin i k => match pcall m ipv6_from_str w i k with Some w' => (w', l) | None => r end
  | Do i => match pdo w i with Some w' => (w', l) | None => r end
  | Back i =>
      match nth_error (pw_threads w) i, pback w i with
      | Some (PBusy k _ said _), Some w' => (w', l ++ [(i, k, said)])
      | _, _ => r
      end
  end.
Definition plegal (w : pworld) (e : event) : Prop := match e with Begin _ k => known (pw_client w) k /\ typed k | _ => True end.
Definition pok (m : mode) (r : prun) : Prop := pruns m ipv6_from_str (fst r) (snd r).
Lemma pgo_runs m r e : pok m r -> plegal (fst r) e -> pok m (pgo m r e).
Proof.
  unfold pok. destruct r as [w l]. cbn [fst snd]. intros R L. destruct e as [|i k|i|i]; cbn [pgo].
  - constructor; auto.
  - destruct (pcall m ipv6_from_str w i k) eqn:E; cbn [fst snd]; auto. destruct L. eapply PX_call; eauto.
  - destruct (pdo w i) eqn:E; cbn [fst snd]; auto. eapply PX_do; eauto.
  - destruct (nth_error (pw_threads w) i) as [[|k own said t]|] eqn:B; cbn [fst snd]; auto.
    destruct (pback w i) eqn:E; cbn [fst snd]; auto. eapply PX_back; eauto.
Qed.
Lemma pgos_runs m es r : pok m r -> existsb is_begin es = false -> pok m (fold_left (pgo m) es r).
Proof.
  revert r. induction es as [|e es IH]; intros r R B; [exact R|]. cbn [existsb] in B. apply Bool.orb_false_elim in B. destruct B as (B & Bl).
  apply IH; auto. apply pgo_runs; auto. destruct e; try exact I. discriminate.
Qed.

(** One thread shows a VLAN header; when it has printed the name of the first field,
    another converts "zz". *)
Definition mx1 : prun := fold_left (pgo Debug) [Spawn; Spawn] (pw_start, []).
Definition mx2 : prun := fold_left (pgo Debug) [Do 0; Do 0; Back 0] (pgo Debug mx1 (Begin 0 (K_hdr (ONew Vlan)))).
Definition mx3 : prun := fold_left (pgo Debug) [Do 0; Do 0; Do 0] (pgo Debug mx2 (Begin 0 (K_hshow (Hdr Vlan 0)))).
Definition mx4 : prun := fold_left (pgo Debug) [Do 1; Back 1] (pgo Debug mx3 (Begin 1 (K_mac "zz"))).
Definition mx5 : prun := fold_left (pgo Debug) (repeat (Do 0) 80 ++ [Back 0]) mx4.
Lemma mx_runs : pok Debug mx5.
Proof.
  apply pgos_runs; [|vm_compute; reflexivity]. apply pgos_runs; [|vm_compute; reflexivity]. apply pgo_runs; [|split; [exact I|exact I]].
  apply pgos_runs; [|vm_compute; reflexivity]. apply pgo_runs.
  - apply pgos_runs; [|vm_compute; reflexivity]. apply pgo_runs; [apply pgos_runs; [constructor|reflexivity]|].
    split; [intros x []|apply bytes_okb_ok; reflexivity].
  - split; [|exact I]. cbn [known]. assert (K : k_hdrs (pw_client (fst mx2)) = [Hdr Vlan 0]) by (vm_compute; reflexivity). rewrite K. left. reflexivity.
Qed.
Fixpoint inserts {A} (a : A) (l : list A) : list (list A) :=
  match l with [] => [[a]] | b :: t => (a :: b :: t) :: map (cons b) (inserts a t) end.
Fixpoint perms {A} (l : list A) : list (list A) :=
  match l with [] => [[]] | a :: t => flat_map (inserts a) (perms t) end.
Lemma inserts_mid {A} (a : A) l1 l2 : In (l1 ++ a :: l2) (inserts a (l1 ++ l2)).
Proof.
  induction l1 as [|b l1 IH]; cbn; [destruct l2; left; reflexivity|]. right. apply in_map. exact IH.
Qed.
Lemma perms_all {A} (l t : list A) : Permutation l t -> In t (perms l).
Proof.
  revert t. induction l as [|a l IH]; intros t P.
  - apply Permutation_nil in P. subst. left. reflexivity.
  - assert (H : In a t) by (eapply Permutation_in; [exact P|left; reflexivity]). apply in_split in H. destruct H as (l1 & l2 & ->).
    apply Permutation_cons_app_inv in P. cbn [perms]. apply in_flat_map. exists (l1 ++ l2). split; [apply IH; exact P|apply inserts_mid].
Qed.
Definition all_idle (w : pworld) : Prop := Forall (fun t => t = PIdle) (pw_threads w).
Definition mx_record : list (nat * call * string) :=
  [(0%nat, K_hdr (ONew Vlan), EmptyString);
   (1%nat, K_mac "zz", lines ["Error: invalid digit found in string - zz in zz"%string]);
   (0%nat, K_hshow (Hdr Vlan 0), lines
     ["#### Vlan             Size   Data"%string; "-------------------------------------------"%string;
      "pcp                 :    3 : 00"%string; "cfi                 :    1 : 00"%string;
      "vid                 :   12 : 00 0a"%string; "etype               :   16 : 08 00 "%string])].
Example C71_example : pok Debug mx5 /\ all_idle (fst mx5) /\ snd mx5 = mx_record /\
  stdout (fst mx5) = lines
    ["#### Vlan             Size   Data"%string; "-------------------------------------------"%string;
     "pcp                 :    3 : Error: invalid digit found in string - zz in zz"%string; "00"%string;
     "cfi                 :    1 : 00"%string; "vid                 :   12 : 00 0a"%string; "etype               :   16 : 08 00 "%string] /\
  text_of 0 (pw_out (fst mx5)) = snd (nth 2 mx_record (0%nat, K_pnew, EmptyString)) /\
  text_of 1 (pw_out (fst mx5)) = snd (nth 1 mx_record (0%nat, K_pnew, EmptyString)).
Proof.
  split; [exact mx_runs|]. split; [vm_compute; repeat constructor|]. split; [vm_compute; reflexivity|]. split; [vm_compute; reflexivity|].
  split; vm_compute; reflexivity.
Qed.

(** "When no call is in progress, every line of the output is a line that some call has
    printed" is false. *)
Theorem C71_whole_lines_refuted : ~ (forall m w l, pruns m ipv6_from_str w l -> all_idle w ->
  forall s, In s (split nl (stdout w)) -> exists i k said, In (i, k, said) l /\ In s (split nl said)).
Proof.
  intros A. destruct C71_example as (R & I & L & S & _).
  destruct (A Debug (fst mx5) (snd mx5) R I "pcp                 :    3 : Error: invalid digit found in string - zz in zz"%string) as (i & k & said & H & Hs).
  - rewrite S. vm_compute. auto.
  - rewrite L in H. destruct H as [[= <- <- <-]|[[= <- <- <-]|[[= <- <- <-]|[]]]]; vm_compute in Hs;
      repeat match goal with H : _ \/ _ |- _ => destruct H as [H|H] end; try discriminate Hs; contradiction.
Qed.
Print Assumptions C71_whole_lines_refuted.
(** "When no call is in progress, the output is what the calls have printed, one call
    after another in some order" is false. *)
Theorem C71_serial_refuted : ~ (forall m w l, pruns m ipv6_from_str w l -> all_idle w ->
  exists l', Permutation l l' /\ stdout w = String.concat "" (map snd l')).
Proof.
  intros A. destruct C71_example as (R & I & L & S & _). destruct (A Debug (fst mx5) (snd mx5) R I) as (l' & P & E). rewrite L in P. rewrite S in E.
  clear - P E. apply Permutation_map with (f := snd) in P. remember (map snd l') as t eqn:Et. clear Et l'. revert E.
  assert (X : In t (perms (map snd mx_record))) by (apply perms_all; exact P). 
  vm_compute in X. repeat (destruct X as [<-|X]; [vm_compute; discriminate|]). contradiction.
Qed.
Print Assumptions C71_serial_refuted.

(** A world to which [C71_isolated] applies: the call of thread 0 above, during which
    thread 1 made one. *)
Definition some {A} (o : option A) : bool := match o with Some _ => true | None => false end.
Lemma pgo_call m r i k : some (pcall m ipv6_from_str (fst r) i k) = true -> pcall m ipv6_from_str (fst r) i k = Some (fst (pgo m r (Begin i k))).
Proof. destruct r as [w l]. cbn [fst pgo]. destruct (pcall m ipv6_from_str w i k); [reflexivity|discriminate]. Qed.
Lemma pgo_do m r i : some (pdo (fst r) i) = true -> pdo (fst r) i = Some (fst (pgo m r (Do i))).
Proof. destruct r as [w l]. cbn [fst pgo]. destruct (pdo w i); [reflexivity|discriminate]. Qed.
Lemma pgo_back m r i : some (pback (fst r) i) = true -> pback (fst r) i = Some (fst (pgo m r (Back i))).
Proof.
  destruct r as [w l]. cbn [fst pgo]. unfold pback. destruct (nth_error (pw_threads w) i) as [[|k own said t]|]; try discriminate.
  destruct t as [[[]| | | | | |]|]; try discriminate; reflexivity.
Qed.
Example C71_isolated_example : pundisturbed Debug ipv6_from_str 0 (K_hshow (Hdr Vlan 0)) (fst mx2) (fst mx4) /\
  preach Debug ipv6_from_str (fst mx2) /\ ~ shows (K_mac "zz") /\ args (K_mac "zz") = [].
Proof.
  assert (K : k_hdrs (pw_client (fst mx2)) = [Hdr Vlan 0]) by (vm_compute; reflexivity).
  assert (U3 : pundisturbed Debug ipv6_from_str 0 (K_hshow (Hdr Vlan 0)) (fst mx2) (fst mx3)).
  { unfold mx3. cbn [fold_left]. eapply PU_do; [eapply PU_do; [eapply PU_do; [eapply PU_call; [| |apply pgo_call]|apply pgo_do]|apply pgo_do]|apply pgo_do];
      try exact I; try (vm_compute; reflexivity). cbn [known]. rewrite K. left. reflexivity. }
  split; [|split; [|split; [intros []|reflexivity]]].
  - unfold mx4. cbn [fold_left]. eapply (PU_other _ _ _ _ _ _ (Some 1%nat)); [eapply (PU_other _ _ _ _ _ _ (Some 1%nat));
      [eapply (PU_other _ _ _ _ _ _ (Some 1%nat)); [exact U3|eapply PM_call; [| |apply pgo_call]|..]|eapply PM_do; apply pgo_do|..]|eapply PM_back; apply pgo_back|..];
      try discriminate; try exact I; try (intros r _; vm_compute; reflexivity); vm_compute; reflexivity.
  - eapply pruns_reach. apply (pgos_runs Debug [Do 0; Do 0; Back 0]); [|vm_compute; reflexivity].
    apply pgo_runs; [apply (pgos_runs Debug [Spawn; Spawn]); [constructor|reflexivity]|]. split; [intros x []|apply bytes_okb_ok; reflexivity].
Qed.
