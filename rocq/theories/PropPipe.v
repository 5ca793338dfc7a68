(** PropPipe.v -- C82: when standard output fails. *)

From Coq Require Import Lia.
From Verif Require Import Base Bits Types Layout Heap Packet Text Ipv6 Build Utils Slow Fast Show Trait Ops Client Print Threads TPrint Pipe
  Spec ClientSpec PrintSpec ThreadsSpec TPrintSpec PipeSpec BitsProofs HeapProofs PropBuild PropIpv6 ClientProofs PropClient ThreadsSim ThreadsRel ThreadsProofs
  PropPrint PropThreads TPrintSim TPrintRel TPrintErase TPrintProofs PropTPrint PipeProofs.
Open Scope N_scope.

(** ** Programs of several threads *)

(** Writes that fail add nothing to what threads can do (C71): every state that is
    reached with them is reached without, by a program that has more threads, each of
    them waiting for a write for ever. *)
Theorem C82_erase : forall m ip6 w, freach m ip6 w -> exists g w', preach m ip6 w' /\ more_threads g w w'.
Proof. exact freach_more. Qed.
Print Assumptions C82_erase.
Theorem C82_complete : forall m ip6 w, preach m ip6 w -> freach m ip6 w.
Proof. intros m ip6 w. induction 1 as [|w j w1 R IH S]; [constructor|]. eapply FR_move; [exact IH|]. apply FM_move. exact S. Qed.
Print Assumptions C82_complete.

(** Every write of a call in progress may fail, after any number of its bytes; then this
    thread goes on after the call, which has no result, and nothing else changes: no
    value, no buffer, no lock, no other thread. *)
Theorem C82_fail : forall w i n w', pfail w i n = Some w' <-> exists k own said s q, pbusy w i k own said (QRun (QSay s q)) /\
  pw_client w' = pw_client w /\ length (pw_threads w') = length (pw_threads w) /\ nth_error (pw_threads w') i = Some PIdle /\
  (forall j, j <> i -> nth_error (pw_threads w') j = nth_error (pw_threads w) j) /\
  pw_out w' = pw_out w ++ emit i (String.substring 0 n s).
Proof.
  intros w i n w'. split.
  - intros E. destruct (pfail_inv _ _ _ _ E) as (k & own & said & s & q & B & ->). exists k, own, said, s, q. split; [exact B|]. split; [reflexivity|].
    cbn [pw_threads pw_out]. split; [apply upd_len|]. split; [eapply nth_upd_at; eauto|]. split; [|reflexivity]. intros j Ne. apply upd_other. auto.
  - intros (k & own & said & s & q & B & C & L & I & O & T). unfold pfail. unfold pbusy in B. rewrite B. f_equal. destruct w' as [c ts o].
    cbn [pw_client pw_threads pw_out] in *. subst c o. f_equal. apply nth_ext with (d := PIdle) (d' := PIdle); [rewrite upd_len; auto|].
    intros j _. assert (X : nth_error (upd (pw_threads w) i PIdle) j = nth_error ts j).
    { destruct (Nat.eq_dec j i) as [->|Ne]; [rewrite I; eapply nth_upd_at; eauto|]. rewrite O by auto. apply upd_other. auto. }
    rewrite <- !nth_default_eq. unfold nth_default. rewrite X. reflexivity.
Qed.
Print Assumptions C82_fail.

(** The guarantees of C71 hold on: undefined behaviour only in [from] with too few bytes,
    every other call that ends comes back, and a call waits only for [replace]. *)
Theorem C82_safety : forall m w i k own said o, freach m ipv6_from_str w -> pbusy w i k own said (QRun (QDone o)) ->
  (o = UB <-> short_from k) /\ (comes_back o <-> ~ short_from k).
Proof.
  intros m w i k own said o R B. destruct (freach_more _ _ _ R) as (g & w' & R' & M). eapply (C71_safety m w' (g i)); [exact R'|]. apply M. exact B.
Qed.
Print Assumptions C82_safety.
Theorem C82_blocked : forall m w i k own said t, freach m ipv6_from_str w -> pbusy w i k own said t -> pdo w i = None ->
  (exists o, t = QRun (QDone o)) \/
  exists j a b own' said' p, pbusy w j (K_hdr (OReplace a b)) own' said' (QWait (h_ref a) (h_ref b) p).
Proof.
  intros m w i k own said t R B E. destruct (freach_more _ _ _ R) as (g & w' & R' & M). pose proof (proj1 (proj2 M) _ _ B) as B'.
  destruct (C71_blocked m w' (g i) k own said t R' B') as [X|(j & a & b & own1 & said1 & p & Bj)]; [|left; exact X|right].
  - unfold pdo in *. unfold pbusy in B. rewrite B in E. rewrite B', (proj1 M), (qstep_held (pw_threads w)) by (intros; apply (pheld_more _ _ _ _ M)).
    destruct (qstep _ _ t) as [[[[h new] s] t']|]; [discriminate|reflexivity].
  - destruct (proj2 (proj2 (proj2 M)) j (nth_lt _ _ _ Bj)) as [(z & L & <-)|(k1 & own2 & said2 & s & q & B1)]; [|unfold pbusy in *; congruence].
    destruct (lt_nth _ _ L) as (tz & Ez). exists z, a, b, own1, said1, p. unfold pbusy in *. pose proof (proj1 (proj2 M) _ _ Ez) as X. congruence.
Qed.
Print Assumptions C82_blocked.

(** A call that is cut off has changed no buffer: each of its steps has at most added
    buffers, which are not poisoned. *)
Theorem C82_untouched : forall m ip6 w i w1 w2 n w3, freach m ip6 w -> pdo w i = Some w1 -> same_call m ip6 i w1 w2 -> pfail w2 i n = Some w3 ->
  exists new, p_heap w1 = p_heap w ++ new /\ Forall (fun c => c_poisoned c = false) new.
Proof.
  intros m ip6 w i w1 w2 n w3 R E S F. destruct (pdo_inv _ _ _ E) as (k & own & said & t & h & new & s & t' & B & St & ->).
  destruct (gentle_step _ _ _ _ _ _ _ (gentle_freach _ _ _ _ _ _ _ _ R B) St) as (_ & [M|Gr]); [|exact Gr]. exfalso.
  match type of S with same_call _ _ _ ?w1 _ => assert (B1 : pbusy w1 i k (own ++ new) (said ++ s) t') by (eapply nth_upd_at; eauto) end.
  destruct (mute_stays _ _ _ _ _ _ _ _ _ S B1 M) as (own' & said' & t2 & B2 & M2). destruct (pfail_inv _ _ _ _ F) as (k1 & own1 & said1 & u & q & Bf & _).
  unfold pbusy in *. rewrite B2 in Bf. injection Bf as _ _ _ ->. exact M2.
Qed.
Print Assumptions C82_untouched.

(** What it had added is lost: nobody has it, nobody gets it, it does not change. *)
Theorem C82_lost : forall m w i n w1 w2 k own said t r, freach m ipv6_from_str w -> pbusy w i k own said t -> pfail w i n = Some w1 ->
  fsteps m ipv6_from_str w1 w2 -> In r own ->
  ~ shared (pw_client w2) r /\ (forall j k' own' said' t', pbusy w2 j k' own' said' t' -> ~ In r (args k') /\ ~ In r own') /\
  nth_error (p_heap w2) r = nth_error (p_heap w) r.
Proof.
  intros m w i n w1 w2 k own said t r R B F S Ir. destruct (lost _ _ _ _ _ _ _ _ _ _ _ C65_octets16 R B F S) as (g & z & w' & R' & M & B' & N & Hp).
  destruct (preach_match _ _ _ R') as (w0 & R0 & Mw). destruct (mbusy _ _ _ _ _ _ _ Mw B') as (t0 & B0 & _).
  destruct (C67_private m w0 z k own t0 r R0 B0 Ir) as (_ & Sh & Ot & _). split; [|split; [|apply Hp; exact Ir]].
  - rewrite <- (proj1 M). destruct Mw as (<- & _). exact Sh.
  - intros j k' own' said' t' Bj. pose proof (proj1 (proj2 M) _ _ Bj) as Bg. destruct (mbusy _ _ _ _ _ _ _ Mw Bg) as (tj & B0j & _).
    eapply Ot; [|exact B0j]. apply N. eapply nth_lt; eauto.
Qed.
Print Assumptions C82_lost.

(** What is written: for each thread the texts of its calls, in order, of a call that has
    been cut off what it had written by then. *)
Theorem C82_by_thread : forall m ip6 w l i, fruns m ip6 w l -> text_of i (pw_out w) = (texts i l ++ in_progress w i)%string.
Proof. exact fby_thread. Qed.
Print Assumptions C82_by_thread.
Theorem C82_runs : forall m ip6 w, freach m ip6 w <-> exists l, fruns m ip6 w l.
Proof. intros m ip6 w. split; [apply freach_runs|intros (l & R); eapply fruns_reach; eauto]. Qed.
Print Assumptions C82_runs.

(** ** One call *)

(** A call makes its writes in a certain order, none of them empty, together the text of
    C66. If all of them succeed it is the call of C66; if one fails, the writes before it
    have been made, the buffers there were are as before and some may have been added. *)
Theorem C82_alone : forall m ip6 k h, exists l, Forall (fun s => s <> EmptyString) l /\ String.concat "" l = printed (w_call m ip6 k) h /\
  (forall n, (length l <= n)%nat -> exists o h', w_call m ip6 k h = (String.concat "" l, (o, h')) /\ qcut n (q_call m ip6 k) h = (l, Some o, h')) /\
  (forall n, (n < length l)%nat -> exists new, qcut n (q_call m ip6 k) h = (firstn n l, None, h ++ new) /\ Forall (fun c => c_poisoned c = false) new).
Proof.
  intros m ip6 k h. destruct (cut_spec (q_call m ip6 k) h) as (l & E & Ne & _ & Ge & Lt). exists l. unfold printed. rewrite <- C71_alone. rewrite E. cbn [fst].
  split; [apply Ne, gentle_call|]. split; [reflexivity|]. split.
  - intros n L. destruct (snd (qsolo (q_call m ip6 k) h)) as [o h'] eqn:Eq. exists o, h'. split; [reflexivity|]. rewrite (Ge n L). reflexivity.
  - intros n L. destruct (Lt n L) as (h' & Ec & Gr). destruct (Gr (gentle_call _ _ _)) as (new & -> & F). eauto.
Qed.
Print Assumptions C82_alone.
(** Without standard output exactly the calls that print nothing come to an end. *)
Theorem C82_closed : forall m ip6 k h, (exists o, snd (fst (qcut 0 (q_call m ip6 k) h)) = Some o) <-> printed (w_call m ip6 k) h = EmptyString.
Proof.
  intros m ip6 k h. destruct (C82_alone m ip6 k h) as (l & Ne & <- & Ge & Lt). destruct l as [|s l].
  - destruct (Ge 0%nat) as (o & h' & _ & ->); [apply Nat.le_refl|]. cbn. split; eauto.
  - destruct (Lt 0%nat) as (new & -> & _); [apply Nat.lt_0_succ|]. cbn [fst snd]. split; [intros (o & [=])|]. rewrite concat_cons. apply Forall_inv in Ne.
    destruct s; [congruence|discriminate].
Qed.
Print Assumptions C82_closed.
(** A thread that is not interrupted and whose write number [n] fails is cut off as that. *)
Theorem C82_uninterrupted : forall m ip6 w i k w1 n l h, pcall m ip6 w i k = Some w1 ->
  (forall j k' own said x y p, ~ pbusy w j k' own said (QWait x y p)) -> qcut n (q_call m ip6 k) (p_heap w) = (l, None, h) ->
  exists w2 own w3, ponly i w1 w2 /\ pfail w2 i 0 = Some w3 /\ pw_client w3 = set_heap (pw_client w) h /\
  in_progress w2 i = String.concat "" l /\ stdout w3 = (stdout w ++ String.concat "" l)%string /\ (exists t, pbusy w2 i k own (String.concat "" l) t).
Proof.
  intros m ip6 w i k w1 n l h E F Ex. destruct (pcall_inv _ _ _ _ _ _ E) as (Ei & ->).
  destruct (cut_run i (q_call m ip6 k) n (PW (pw_client w) (upd (pw_threads w) i (PBusy k [] "" (QRun (q_call m ip6 k)))) (pw_out w)) k [] "" l h)
    as (w2 & own & s & q & O & B & C & T); auto.
  - apply gentle_call.
  - eapply nth_upd_at; eauto.
  - intros r. cbn [pw_threads]. apply pheld_run. destruct (pheld (pw_threads w) r) eqn:H; auto.
    destruct (pheld_inv _ _ H) as (j & k' & own & said & y & p & B). destruct (F j k' own said r y p B).
  - eexists w2, own, _. split; [exact O|]. unfold pfail, in_progress. pose proof B as B'. unfold pbusy in B'. rewrite B'. split; [reflexivity|].
    cbn [pw_client]. split; [exact C|]. split; [reflexivity|]. split; [|eauto]. unfold stdout in *. cbn [pw_out] in *. rewrite <- T.
    destruct s; cbn [String.substring emit]; rewrite app_nil_r; reflexivity.
Qed.
Print Assumptions C82_uninterrupted.

(** ** An execution *)

Inductive fevent := Ev (e : event) | Fail (i n : nat).
Definition fgo (m : mode) (r : prun) (e : fevent) : prun :=
  match e with
  | Ev e => pgo m r e
  | Fail i n =>
      let '(w, l) := r in
      match nth_error (pw_threads w) i, pfail w i n with
      | Some (PBusy k _ said (QRun (QSay s _))), Some w' => (w', l ++ [(i, k, (said ++ String.substring 0 n s)%string)])
      | _, _ => r
      end
  end.
Definition flegal (w : pworld) (e : fevent) : Prop := match e with Ev e => plegal w e | Fail _ _ => True end.
Definition fok (m : mode) (r : prun) : Prop := fruns m ipv6_from_str (fst r) (snd r).
Lemma fgo_runs m r e : fok m r -> flegal (fst r) e -> fok m (fgo m r e).
Proof.
  unfold fok. destruct r as [w l]. cbn [fst snd]. intros R L. destruct e as [[|i k|i|i]|i n]; cbn [fgo pgo].
  - constructor; auto.
  - destruct (pcall m ipv6_from_str w i k) eqn:E; cbn [fst snd]; auto. destruct L. eapply FX_call; eauto.
  - destruct (pdo w i) eqn:E; cbn [fst snd]; auto. eapply FX_do; eauto.
  - destruct (nth_error (pw_threads w) i) as [[|k own said t]|] eqn:B; cbn [fst snd]; auto.
    destruct (pback w i) eqn:E; cbn [fst snd]; auto. eapply FX_back; eauto.
  - destruct (nth_error (pw_threads w) i) as [[|k own said [[o|s q| | | | |]|]]|] eqn:B; cbn [fst snd]; auto.
    destruct (pfail w i n) eqn:E; cbn [fst snd]; auto. eapply FX_fail; eauto.
Qed.
Definition no_begin (e : fevent) : bool := match e with Ev e => negb (is_begin e) | Fail _ _ => true end.
Lemma fgos_runs m es r : fok m r -> forallb no_begin es = true -> fok m (fold_left (fgo m) es r).
Proof.
  revert r. induction es as [|e es IH]; intros r R B; [exact R|]. cbn [forallb] in B. apply Bool.andb_true_iff in B. destruct B as (B & Bl).
  apply IH; auto. apply fgo_runs; auto. destruct e as [[]|]; try exact I. discriminate.
Qed.

(** One thread shows a VLAN header; the write of the first field name fails after three
    bytes. It shows the header again. Meanwhile another thread converts "zz"; its message
    cannot be written at all. *)
Definition px1 : prun := fold_left (fgo Debug) [Ev Spawn; Ev Spawn] (pw_start, []).
Definition px2 : prun := fold_left (fgo Debug) [Ev (Do 0); Ev (Do 0); Ev (Back 0)] (fgo Debug px1 (Ev (Begin 0 (K_hdr (ONew Vlan))))).
Definition px3 : prun := fold_left (fgo Debug) [Ev (Do 0); Ev (Do 0); Fail 0 3] (fgo Debug px2 (Ev (Begin 0 (K_hshow (Hdr Vlan 0))))).
Definition px4 : prun := fold_left (fgo Debug) [Ev (Do 0); Ev (Do 0); Ev (Do 0)] (fgo Debug px3 (Ev (Begin 0 (K_hshow (Hdr Vlan 0))))).
Definition px5 : prun := fold_left (fgo Debug) [Fail 1 0] (fgo Debug px4 (Ev (Begin 1 (K_mac "zz")))).
Definition px6 : prun := fold_left (fgo Debug) (repeat (Ev (Do 0)) 80 ++ [Ev (Back 0)]) px5.
Lemma px_runs : fok Debug px6.
Proof.
  apply fgos_runs; [|vm_compute; reflexivity]. apply fgos_runs; [|vm_compute; reflexivity]. apply fgo_runs; [|split; exact I].
  apply fgos_runs; [|vm_compute; reflexivity]. apply fgo_runs.
  - apply fgos_runs; [|vm_compute; reflexivity]. apply fgo_runs.
    + apply fgos_runs; [|vm_compute; reflexivity]. apply fgo_runs; [apply fgos_runs; [constructor|reflexivity]|]. split; [intros x []|apply bytes_okb_ok; reflexivity].
    + split; [|exact I]. cbn [known]. assert (K : k_hdrs (pw_client (fst px2)) = [Hdr Vlan 0]) by (vm_compute; reflexivity). rewrite K. left. reflexivity.
  - split; [|exact I]. cbn [known]. assert (K : k_hdrs (pw_client (fst px3)) = [Hdr Vlan 0]) by (vm_compute; reflexivity). rewrite K. left. reflexivity.
Qed.
Definition vlan_head : list string := ["#### Vlan             Size   Data"; "-------------------------------------------"]%string.
Definition vlan_body : list string :=
  ["pcp                 :    3 : 00"; "cfi                 :    1 : 00"; "vid                 :   12 : 00 0a"; "etype               :   16 : 08 00 "]%string.
Example C82_example : fok Debug px6 /\ all_idle (fst px6) /\
  snd px6 = [(0%nat, K_hdr (ONew Vlan), EmptyString); (0%nat, K_hshow (Hdr Vlan 0), (lines vlan_head ++ "pcp")%string);
             (1%nat, K_mac "zz", EmptyString); (0%nat, K_hshow (Hdr Vlan 0), lines (vlan_head ++ vlan_body))] /\
  stdout (fst px6) = (lines vlan_head ++ "pcp" ++ lines (vlan_head ++ vlan_body))%string /\
  p_heap (fst px6) = p_heap (fst px2).
Proof. split; [exact px_runs|]. split; [vm_compute; repeat constructor|]. repeat split; vm_compute; reflexivity. Qed.

(** Calls alone: [show], cut off at its fourth write and not cut off; the conversion of a
    malformed and of a well-formed address without standard output. *)
Definition vlan_heap : heap := [Cell [0; 10; 8; 0] false].
Example C82_alone_example :
  qcut 3 (q_call Debug ipv6_from_str (K_hshow (Hdr Vlan 0))) vlan_heap =
    ([lines ["#### Vlan             Size   Data"]; lines ["-------------------------------------------"]; "pcp                 :    3 : "]%string, None, vlan_heap) /\
  (exists o, snd (fst (qcut 100 (q_call Debug ipv6_from_str (K_hshow (Hdr Vlan 0))) vlan_heap)) = Some (Ret o)) /\
  qcut 0 (q_call Debug ipv6_from_str (K_mac "zz")) vlan_heap = ([], None, vlan_heap) /\
  (exists o, snd (fst (qcut 0 (q_call Debug ipv6_from_str (K_mac "00:01:02:03:04:05")) vlan_heap)) = Some (Ret o)).
Proof. split; [vm_compute; reflexivity|]. split; [eexists; vm_compute; reflexivity|]. split; [vm_compute; reflexivity|]. eexists; vm_compute; reflexivity. Qed.

(** "Only the [show] methods need standard output" is false. *)
Theorem C82_show_only_refuted : ~ (forall m k h, ~ shows k -> exists o, snd (fst (qcut 0 (q_call m ipv6_from_str k) h)) = Some o).
Proof. intros A. destruct (A Debug (K_mac "zz") vlan_heap (fun x => x)) as (o & E). vm_compute in E. discriminate. Qed.
Print Assumptions C82_show_only_refuted.
