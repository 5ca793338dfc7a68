(** PropLin.v -- C81: calls of several threads that take effect at one moment. *)

From Coq Require Import Lia Permutation.
From Verif Require Import Base Bits Types Layout Heap Packet Text Build Utils Slow Fast Show Ops Client Ipv6 Threads Spec ClientSpec
  ThreadsSpec CostSpec LinSpec PropIpv6 BitsProofs PropBuild ClientProofs ThreadsProofs PropThreads LinProofs.
Open Scope N_scope.

(** Whatever threads make of calls that are given no buffer, take at most one step, or
    are [replace]: one thread can make the same calls one after the other, in the order
    in which they took effect, with the same outcomes and ending up with the same headers
    and packets, up to the names of buffers; and every buffer holds the same, unless it
    is just being replaced. *)
Theorem C81_linear : forall m log rets w, history m ipv6_from_str atomic log rets w ->
  exists g c, one_by_one m ipv6_from_str (map (renamed g) log) c /\ same_values g (fst w) c /\
  forall r, shared (fst w) r ->
    if held (snd w) r then exists d, nth_error (k_heap c) (g r) = Some (Cell d false)
    else nth_error (k_heap c) (g r) = nth_error (w_heap w) r.
Proof.
  intros m log rets w H.
  destruct (hsteps_lin m ipv6_from_str _ _ C65_octets16 H) as (g & hs & L); [constructor|exists (fun r => r), []; apply lin_start; exact C65_octets16|].
  cbn [fst snd] in L. exists g, (cmap g (fst w) hs). split; [apply (l_seq _ _ _ _ _ _ L)|]. split.
  - repeat split. apply (l_inj _ _ _ _ _ _ L).
  - intros r S. destruct (held (snd w) r) eqn:E; [apply (l_held _ _ _ _ _ _ L)|apply (l_free _ _ _ _ _ _ L)]; auto.
Qed.
Print Assumptions C81_linear.

(** The calls of each thread are in that order as the thread made them, with the outcomes
    it got: those that have ended, and possibly one that is about to. *)
Theorem C81_threads : forall m ip6 P log rets w i, history m ip6 P log rets w ->
  of_thread i log = of_thread i rets ++ pending m ip6 w i.
Proof.
  intros m ip6 P log rets w i H. unfold history in H. remember ([], [], w_start) as s eqn:E0. remember (log, rets, w) as s' eqn:E.
  revert log rets w E. induction H as [s|s s1 s2 S IH S1]; intros log rets w E.
  { rewrite E0 in E. injection E as <- <- <-. unfold pending. destruct i; reflexivity. }
  specialize (IH E0). assert (Ft : forall a l j e, of_thread i (l ++ [(j, a, e)]) = of_thread i l ++ if (j =? i)%nat then [(j, a, e)] else []).
  { intros a l j e. unfold of_thread. rewrite filter_app. reflexivity. }
  assert (Fe : forall l j k t, of_thread i (l ++ effect m ip6 j k t) = of_thread i l ++ if (j =? i)%nat then effect m ip6 j k t else []).
  { intros l j k t. unfold effect. destruct t as [[]|]; try (rewrite app_nil_r; destruct (j =? i)%nat; rewrite app_nil_r; reflexivity).
    destruct (silent m ip6 k); [rewrite app_nil_r; destruct (j =? i)%nat; rewrite app_nil_r; reflexivity|apply Ft]. }
  destruct S1 as [log1 rets1 w1|log1 rets1 w1 j k w' Kn Ty At Ew|log1 rets1 w1 j k own t w' Ew B|log1 rets1 w1 j k own o w' B Ew];
    injection E as <- <- <-; specialize (IH _ _ _ eq_refl).
  - rewrite IH. f_equal. destruct w1 as [c ts]. unfold pending. cbn [wspawn snd]. destruct (Nat.lt_ge_cases i (length ts)) as [X|X].
    + rewrite nth_error_app1 by auto. reflexivity.
    + rewrite nth_error_app2 by auto. rewrite (proj2 (nth_error_None _ _) X). destruct (i - length ts)%nat as [|[|z]]; reflexivity.
  - rewrite IH. f_equal. destruct w1 as [c ts]. cbn [wcall] in Ew. destruct (nth_error ts j) as [[|? ? ?]|] eqn:Ej; try discriminate.
    injection Ew as <-. unfold pending. cbn [snd]. destruct (Nat.eq_dec i j) as [->|Ne]; [|rewrite upd_other by auto; reflexivity].
    rewrite Ej, (nth_upd_at _ _ _ _ Ej). unfold effect, silent. destruct (a_kexec m ip6 k); auto. destruct (args k); reflexivity.
  - rewrite Fe, IH, <- app_assoc. f_equal. destruct (wdo_inv _ _ _ Ew) as (k0 & own0 & t0 & h & new & t' & B0 & St & ->). unfold busy in *. cbn [snd] in B.
    rewrite (nth_upd_at _ _ _ _ B0) in B. injection B as <- <- <-. unfold pending. cbn [snd].
    destruct (Nat.eqb_spec j i) as [->|Ne].
    + rewrite B0, (nth_upd_at _ _ _ _ B0). destruct t0 as [[]|]; try reflexivity. discriminate.
    + rewrite upd_other by auto. rewrite app_nil_r. reflexivity.
  - destruct (wback_learn _ _ _ _ _ _ B Ew) as (_ & ->). unfold busy in B. unfold pending in *. cbn [snd]. rewrite Ft.
    destruct (Nat.eqb_spec j i) as [->|Ne].
    + rewrite B in IH. rewrite (nth_upd_at _ _ _ _ B), app_nil_r. unfold effect in IH. destruct (silent m ip6 k).
      * rewrite app_nil_r in IH. rewrite Ft, IH, Nat.eqb_refl. reflexivity.
      * rewrite app_nil_r. exact IH.
    + rewrite app_nil_r, upd_other by auto. rewrite <- IH. destruct (silent m ip6 k); [rewrite Ft, (proj2 (Nat.eqb_neq _ _) Ne)|]; rewrite app_nil_r; reflexivity.
Qed.
Print Assumptions C81_threads.

(** The order never changes, it only grows: a call that has ended before another begins
    comes before it. *)
Theorem C81_extends : forall m ip6 P s s', hsteps m ip6 P s s' -> exists l, fst (fst s') = fst (fst s) ++ l.
Proof.
  intros m ip6 P s s' H. induction H as [s|s s1 s2 S (l & IH) S1]; [exists []; rewrite app_nil_r; reflexivity|].
  destruct S1; cbn [fst] in *; rewrite IH, <- ?app_assoc; eexists; try reflexivity; rewrite app_nil_r; reflexivity.
Qed.
Print Assumptions C81_extends.

(** When no call is in progress, all there is are the calls that have ended. *)
Theorem C81_quiet : forall m log rets w, history m ipv6_from_str atomic log rets w -> (forall t, In t (snd w) -> t = Idle) ->
  exists g c, one_by_one m ipv6_from_str (map (renamed g) log) c /\ reach m ipv6_from_str c /\ same_values g (fst w) c /\
  (forall i, of_thread i log = of_thread i rets) /\
  forall r, shared (fst w) r -> nth_error (k_heap c) (g r) = nth_error (w_heap w) r.
Proof.
  intros m log rets w H Q. destruct (C81_linear _ _ _ _ H) as (g & c & O & V & C). exists g, c. split; [exact O|]. split; [|split; [exact V|split]].
  - clear - O. induction O; [constructor|econstructor; eauto].
  - intros i. rewrite (C81_threads _ _ _ _ _ _ i H). unfold pending. destruct (nth_error (snd w) i) eqn:E; [|apply app_nil_r].
    rewrite (Q t) by (eapply nth_error_In; eauto). apply app_nil_r.
  - intros r S. specialize (C r S). destruct (held (snd w) r) eqn:E; [|exact C]. apply held_inv in E. destruct E as (i & k & own & y & p & E).
    apply nth_error_In in E. apply Q in E. discriminate.
Qed.
Print Assumptions C81_quiet.

(** ** Concrete executions *)

Definition hgo (m : mode) (s : state) (e : event) : state :=
  let '(log, rets, w) := s in
  match e with
  | Spawn => (log, rets, wspawn w)
  | Begin i k => (log, rets, try_ w (wcall m ipv6_from_str w i k))
  | Do i =>
      match wdo w i with
      | Some w' => (log ++ match nth_error (snd w') i with Some (Busy k _ t) => effect m ipv6_from_str i k t | _ => [] end, rets, w')
      | None => s
      end
  | Back i =>
      match nth_error (snd w) i, wback w i with
      | Some (Busy k _ (TRun (ADone o))), Some w' =>
          (log ++ (if silent m ipv6_from_str k then [(i, k, o)] else []), rets ++ [(i, k, o)], w')
      | _, _ => s
      end
  end.
Definition hstart : state := ([], [], w_start).
Lemma hgo_history m (P : call -> Prop) s e : hsteps m ipv6_from_str P hstart s ->
  match e with Begin _ k => known (fst (snd s)) k /\ typed k /\ P k | _ => True end -> hsteps m ipv6_from_str P hstart (hgo m s e).
Proof.
  intros H L. destruct s as [[log rets] w]. destruct e as [|i k|i|i]; cbn [hgo snd] in *.
  - eapply HS_step; [exact H|constructor].
  - destruct (wcall m ipv6_from_str w i k) as [w'|] eqn:E; cbn [try_]; [|exact H]. destruct L as (K & T & Pk). eapply HS_step; [exact H|econstructor; eauto].
  - destruct (wdo w i) as [w'|] eqn:E; [|exact H]. destruct (wdo_inv _ _ _ E) as (k & own & t & h & new & t' & B & S & ->). cbn [snd].
    unfold busy in B. rewrite (nth_upd_at _ _ _ _ B). eapply HS_step; [exact H|]. eapply H_do; [exact E|]. unfold busy. cbn [snd].
    eapply nth_upd_at; eauto.
  - destruct (nth_error (snd w) i) as [[|k own [[o| | | | |]|]]|] eqn:B; try exact H. destruct (wback w i) as [w'|] eqn:E; [|exact H].
    eapply HS_step; [exact H|]. eapply H_back; eauto.
Qed.
Lemma hgos_history m (P : call -> Prop) l s : hsteps m ipv6_from_str P hstart s -> existsb is_begin l = false ->
  hsteps m ipv6_from_str P hstart (fold_left (hgo m) l s).
Proof.
  revert s. induction l as [|e l IH]; intros s H B; [exact H|]. cbn [existsb] in B. apply Bool.orb_false_elim in B. destruct B as (B & Bl).
  apply IH; auto. apply hgo_history; auto. destruct e; try exact I. discriminate.
Qed.

(** One thread makes a header and another clones it, sets its flag and copies it out
    while the first replaces it by another header. *)
Definition ln_x := Hdr MPLS 0.
Definition ln_y := Hdr MPLS 1.
Definition ln_bos : field := nth 2 (ht_fields MPLS) (Fld "" 0 0).
Definition ln_go (l : list event) (k : nat * call) (s : state) : state := fold_left (hgo Debug) l (hgo Debug s (Begin (fst k) (snd k))).
Definition ln1 := fold_left (hgo Debug) [Spawn; Spawn] hstart.
Definition ln2 := ln_go [Do 0; Back 0] (0%nat, K_hdr (OFrom MPLS [1; 2; 3; 4])) ln1.
Definition ln3 := ln_go [Do 0; Back 0] (0%nat, K_hdr (OFrom MPLS [5; 6; 6; 8])) ln2.
Definition ln4 := ln_go [Do 0] (0%nat, K_hdr (OReplace ln_x ln_y)) ln3.
Definition ln5 := ln_go [Do 1; Back 1] (1%nat, K_hdr (OSet ln_y ln_bos 1)) ln4.
Definition ln6 := ln_go [Do 1; Do 0; Do 1; Back 1; Back 0] (1%nat, K_hdr (OToVec ln_x)) ln5.
Definition ln_log : list entry :=
  [(0%nat, K_hdr (OFrom MPLS [1; 2; 3; 4]), Ret (KHdr ln_x)); (0%nat, K_hdr (OFrom MPLS [5; 6; 6; 8]), Ret (KHdr ln_y));
   (1%nat, K_hdr (OSet ln_y ln_bos 1), Ret (KVal VUnit)); (0%nat, K_hdr (OReplace ln_x ln_y), Ret (KVal VUnit));
   (1%nat, K_hdr (OToVec ln_x), Ret (KVal (VBytes [5; 6; 7; 8])))].
Ltac kn l := match goal with |- incl _ ?h => replace h with l by (vm_compute; reflexivity) end; intros z Hz; cbn [hop_hdrs In] in *; tauto.
Ltac hist := repeat first [apply hgos_history; [|reflexivity] | apply hgo_history]; try exact I; try apply HS_refl.
Ltac legal l := cbn [known typed];
  split; [first [intros z []; fail | exact I | kn l] | split; [first [exact I | apply bytes_okb_ok; vm_compute; reflexivity | vm_compute; reflexivity]|]];
  first [exact I | left; vm_compute; reflexivity | right; left; vm_compute; lia | right; right; reflexivity].
Ltac legal2 l := cbn [known typed];
  split; [first [intros z []; fail | exact I | kn l] | split; [first [exact I | apply bytes_okb_ok; vm_compute; reflexivity | vm_compute; reflexivity]|]];
  first [exact I | left; vm_compute; reflexivity | right; vm_compute; lia].
Lemma ln_history : hsteps Debug ipv6_from_str atomic hstart ln6.
Proof. unfold ln6, ln5, ln4, ln3, ln2, ln1, ln_go. cbn [fst snd]. hist; legal [ln_y; ln_x]. Qed.
(** The flag is set while the other thread is inside [replace]; so [replace] takes effect
    after it, and the copy, which had to wait, after that. *)
Example C81_example :
    fst (fst ln6) = ln_log /\ snd (fst ln6) = map (fun j => nth j ln_log (0%nat, K_pnew, UB)) [0; 1; 2; 4; 3]%nat /\
  map c_data (w_heap (snd ln6)) = [[5; 6; 7; 8]; [5; 6; 7; 8]] /\ snd (snd ln6) = [Idle; Idle] /\
  (* before [replace] goes on *)
  look (snd ln5) = [SRun (Some 1%nat); SIdle] /\ map c_data (w_heap (snd ln5)) = [[]; [5; 6; 7; 8]] /\
  hsteps Debug ipv6_from_str atomic hstart ln6.
Proof.
  split; [vm_compute; reflexivity|]. split; [vm_compute; reflexivity|]. split; [vm_compute; reflexivity|]. split; [vm_compute; reflexivity|].
  split; [vm_compute; reflexivity|]. split; [vm_compute; reflexivity|]. exact ln_history.
Qed.

(** Two steps are too many: one thread reads a field of two bits while another sets it to
    3, and gets 1. No order of the calls explains that. *)
Definition to_x := Hdr ERSPAN2 0.
Definition to_f : field := nth 3 (ht_fields ERSPAN2) (Fld "" 0 0).
Definition to1 := fold_left (hgo Debug) [Spawn; Spawn] hstart.
Definition to2 := ln_go [Do 0; Back 0] (0%nat, K_hdr (ONew ERSPAN2)) to1.
Definition to3 := ln_go [Do 0] (0%nat, K_hdr (OGet to_x to_f)) to2.
Definition to4 := ln_go [Do 1; Do 1; Back 1; Do 0; Back 0] (1%nat, K_hdr (OSet to_x to_f 3)) to3.
Definition to_log : list entry :=
  [(0%nat, K_hdr (ONew ERSPAN2), Ret (KHdr to_x)); (1%nat, K_hdr (OSet to_x to_f 3), Ret (KVal VUnit));
   (0%nat, K_hdr (OGet to_x to_f), Ret (KVal (VNum 1)))].
(** Calls that take at most two steps. *)
Definition few (k : call) : Prop := args k = [] \/ (budget k <= 2)%nat.
Lemma to_history : hsteps Debug ipv6_from_str few hstart to4.
Proof. unfold to4, to3, to2, to1, ln_go. cbn [fst snd]. hist; legal2 [to_x]. Qed.
Example C81_torn : f_name to_f = "en"%string /\ fst (fst to4) = to_log /\ snd (snd to4) = [Idle; Idle].
Proof. split; [vm_compute; reflexivity|]. split; vm_compute; reflexivity. Qed.

Inductive chain (m : mode) (ip6 : string -> option (list N)) : heap -> list (call * out kres) -> heap -> Prop :=
| Ch_nil h : chain m ip6 h [] h
| Ch_cons h k o h1 l h2 : kexec m ip6 k h = (o, h1) -> chain m ip6 h1 l h2 -> chain m ip6 h ((k, o) :: l) h2.
Lemma chain_snoc m ip6 h l h1 k o h2 : chain m ip6 h l h1 -> kexec m ip6 k h1 = (o, h2) -> chain m ip6 h (l ++ [(k, o)]) h2.
Proof. intros H E. induction H; cbn [app]; econstructor; eauto. constructor. Qed.
Lemma chain_cons m ip6 h e l h2 : chain m ip6 h (e :: l) h2 -> exists h1, kexec m ip6 (fst e) h = (snd e, h1) /\ chain m ip6 h1 l h2.
Proof. intros H. inversion H; subst. eexists. split; eauto. Qed.
Lemma one_chain m ip6 l c : one_by_one m ip6 l c -> chain m ip6 [] l (k_heap c).
Proof.
  intros H. induction H as [|l c k o h H IH K T E C]; [constructor|]. replace (k_heap (learn c o h)) with h by (destruct o as [[]| | | |]; reflexivity). eapply chain_snoc; eauto.
Qed.

Theorem C81_two_steps_refuted : ~ (forall m log rets w, history m ipv6_from_str few log rets w ->
  exists log' g c, Permutation log log' /\ one_by_one m ipv6_from_str (map (renamed g) log') c).
Proof.
  intros F. assert (H : history Debug ipv6_from_str few to_log (snd (fst to4)) (snd to4)).
  { unfold history. rewrite <- (proj1 (proj2 C81_torn)). destruct to4 as [[log rets] w] eqn:E. cbn [fst snd]. rewrite <- E. exact to_history. }
  destruct (F _ _ _ _ H) as (log' & g & c & P & O). apply one_chain in O. clear F H.
  assert (N : NoDup log') by (apply (Permutation_NoDup P); repeat constructor; cbn [In to_log]; intuition discriminate).
  pose proof (Permutation_length P) as L. assert (I : forall e, In e log' -> In e to_log) by (intros e Ie; apply (Permutation_in _ (Permutation_sym P)); exact Ie).
  destruct log' as [|a [|b [|d [|? ?]]]]; try discriminate. clear L P.
  pose proof (I a (or_introl eq_refl)) as Ia. pose proof (I b (or_intror (or_introl eq_refl))) as Ib.
  pose proof (I d (or_intror (or_intror (or_introl eq_refl)))) as Id. clear I.
  cbn [map] in O. apply chain_cons in O. destruct O as (h1 & E1 & O). apply chain_cons in O. destruct O as (h2 & E2 & O).
  apply chain_cons in O. destruct O as (h3 & E3 & _).
  cbn [renamed to_log In] in Ia, Ib, Id.
  destruct Ia as [<-|[<-|[<-|[]]]]; cbn [renamed rename_call rename_hop rename_hdr h_ty h_ref rename_out rename to_x fst snd] in E1;
    [|vm_compute in E1; destruct (g 0%nat); discriminate|vm_compute in E1; destruct (g 0%nat); discriminate].
  assert (G : g 0%nat = 0%nat /\ h1 = [Cell (ht_default ERSPAN2) false]) by (vm_compute in E1; injection E1; intros; split; [congruence|subst; reflexivity]).
  destruct G as (G & ->). clear E1.
  assert (R : rename_hdr g to_x = to_x) by (unfold rename_hdr, to_x; cbn [h_ty h_ref]; rewrite G; reflexivity).
  destruct Ib as [<-|[<-|[<-|[]]]]; [inversion N as [|? ? X]; elim X; left; reflexivity| |];
    cbn [renamed rename_call rename_hop fst snd] in E2; rewrite R in E2; [|vm_compute in E2; discriminate].
  destruct Id as [<-|[<-|[<-|[]]]];
    [inversion N as [|? ? X]; elim X; right; left; reflexivity|inversion N as [|? ? _ N2]; inversion N2 as [|? ? X]; elim X; left; reflexivity|].
  cbn [renamed rename_call rename_hop fst snd] in E3. rewrite R in E3.
  vm_compute in E2. injection E2 as <-. vm_compute in E3. discriminate.
Qed.
Print Assumptions C81_two_steps_refuted.
