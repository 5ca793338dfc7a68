(** PropClient.v -- C66: whatever calls a program makes, references stay valid and
    buffers keep holding bytes; undefined behaviour and deadlock have one cause each. *)

From Coq Require Import Lia.
From Verif Require Import Base Bits Types Layout Heap Packet Text Build Utils Slow Fast Show Ops Client Ipv6 Spec ClientSpec
  BitsProofs HeapProofs PropBuild PropIpv6 ClientProofs.
Open Scope N_scope.

(** ** What a call can come to *)

Lemma kexec_ok m ip6 c k o h : octets16 ip6 -> client_ok c -> known c k -> typed k -> kexec m ip6 k (k_heap c) = (o, h) ->
  comes_back o -> grows (length (k_heap c)) (touches k) (k_heap c) h /\ heap_ok h /\ (forall r, o = Ret r -> kres_ok r h).
Proof.
  intros O6 C K T E B.
  assert (S : ~ short_from k).
  { destruct k; cbn [short_from]; auto. intros Z. cbn [kexec] in E. unfold lift, bind, sfrom, from_raw_parts in E.
    rewrite (proj2 (Nat.leb_gt _ _) Z) in E. cbn in E. injection E as <- _. destruct B as [(a & [=])|(a & [=])]. }
  assert (R : ~ self_replace (k_heap c) k).
  { destruct k; cbn [self_replace]; auto. destruct o0; auto. intros (Eq & P). cbn [kexec hexec] in E.
    unfold bind, hreplace in E. rewrite <- Eq in E. cbn [known hop_hdrs] in K. destruct C as (_ & Fh & _).
    assert (L : live (k_heap c) x) by (eapply Forall_forall in Fh; [exact Fh|apply K; left; auto]). unfold live in L.
    destruct (nth_error (k_heap c) (h_ref x)) as [cx|] eqn:Ex; [|apply nth_error_None in Ex; lia].
    destruct cx as [d []]; cbn [c_poisoned] in E; [apply P; exists d; exact Ex|]. rewrite Nat.eqb_refl in E.
    injection E as <- _. destruct B as [(a & [=])|(a & [=])]. }
  destruct (ok_kexec m ip6 c O6 C k K T S R) as (G & H & O). rewrite E in *. cbn [fst snd] in *. split; auto. split; auto.
  intros r ->. exact O.
Qed.

(** Undefined behaviour: exactly [XSlice::from] of a slice that is too short. Waiting
    for itself: exactly [x.replace(&y)] with [x] and [y] sharing an unpoisoned buffer.
    Every other call returns or panics. *)
Theorem C66_safety : forall m ip6 c k, octets16 ip6 -> client_ok c -> known c k -> typed k ->
  let o := fst (kexec m ip6 k (k_heap c)) in
  (o = UB <-> short_from k) /\ (o = Hang <-> self_replace (k_heap c) k) /\
  (comes_back o <-> ~ short_from k /\ ~ self_replace (k_heap c) k).
Proof.
  intros m ip6 c k O6 C K T o.
  assert (S : short_from k -> o = UB).
  { destruct k; cbn [short_from]; try contradiction. intros Z. unfold o. cbn [kexec]. unfold lift, bind, sfrom, from_raw_parts.
    rewrite (proj2 (Nat.leb_gt _ _) Z). reflexivity. }
  assert (R : self_replace (k_heap c) k -> o = Hang).
  { destruct k; cbn [self_replace]; try contradiction. destruct o0; try contradiction. intros (Eq & P). unfold o. cbn [kexec hexec].
    unfold bind, hreplace. rewrite <- Eq. cbn [known hop_hdrs] in K. destruct C as (_ & Fh & _).
    assert (L : live (k_heap c) x) by (eapply Forall_forall in Fh; [exact Fh|apply K; left; auto]). unfold live in L.
    destruct (nth_error (k_heap c) (h_ref x)) as [cx|] eqn:Ex; [|apply nth_error_None in Ex; lia].
    destruct cx as [d []]; cbn [c_poisoned]; [destruct P; exists d; exact Ex|]. rewrite Nat.eqb_refl. reflexivity. }
  assert (D : short_from k \/ ~ short_from k).
  { destruct k; cbn [short_from]; auto. destruct (Nat.lt_ge_cases (v_len v) (ht_size T0)); [left|right]; lia. }
  assert (D' : self_replace (k_heap c) k \/ ~ self_replace (k_heap c) k).
  { destruct k; cbn [self_replace]; auto. destruct o0; auto. destruct (Nat.eq_dec (h_ref x) (h_ref y)); [|tauto].
    destruct (nth_error (k_heap c) (h_ref x)) as [[d []]|] eqn:Ex.
    - right. intros (_ & P). apply P. exists d. exact Ex.
    - left. split; auto. intros (d' & P). unfold heap in *. congruence.
    - left. split; auto. intros (d' & P). unfold heap in *. congruence. }
  assert (B : ~ short_from k -> ~ self_replace (k_heap c) k -> comes_back o).
  { intros NS NR. destruct (ok_kexec m ip6 c O6 C k K T NS NR) as (_ & _ & O). fold o in O.
    destruct o; cbn [outcome] in O; try contradiction; try discriminate; [left|right]; eauto. }
  assert (U : ~ comes_back (@UB kres) /\ ~ comes_back (@Hang kres)) by (split; intros [(a & [=])|(a & [=])]).
  destruct D as [s|s], D' as [r|r].
  - exfalso. rewrite (S s) in R. discriminate (R r).
  - pose proof (S s) as E. rewrite E in *. repeat split; intros; try tauto; discriminate.
  - pose proof (R r) as E. rewrite E in *. repeat split; intros; try tauto; discriminate.
  - specialize (B s r). destruct B as [(a & E)|(e & E)]; rewrite E in *; repeat split; intros; try tauto; try discriminate;
      [left; eauto|right; eauto].
Qed.
Print Assumptions C66_safety.

(** ** Along a program *)

Lemma client_more c h : client_ok c -> heap_ok h -> (length (k_heap c) <= length h)%nat ->
  client_ok (Cl h (k_hdrs c) (k_pkts c) (k_shdrs c) (k_slices c)).
Proof.
  intros (_ & Fh & Fp & Fs & Fq) H L. split; [exact H|]. split; [|split; [|split; auto]].
  - eapply Forall_impl; [|exact Fh]. intros x. apply live_more. exact L.
  - eapply Forall_impl; [|exact Fp]. intros x. apply pkt_more. exact L.
Qed.

Theorem C66_invariant : forall m ip6 c k o h, octets16 ip6 -> client_ok c -> known c k -> typed k ->
  kexec m ip6 k (k_heap c) = (o, h) -> comes_back o -> client_ok (learn c o h).
Proof.
  intros m ip6 c k o h O6 C K T E B. destruct (kexec_ok m ip6 c k o h O6 C K T E B) as (G & H & R).
  pose proof (client_more c h C H (grows_len _ _ _ _ G)) as D. unfold learn.
  destruct o as [r|e| | |]; try exact D. specialize (R r eq_refl). destruct D as (D1 & D2 & D3 & D4 & D5).
  destruct r; cbn [kres_ok] in R; cbn [k_heap k_hdrs k_pkts k_shdrs k_slices] in *; repeat split; cbn; auto.
Qed.
Print Assumptions C66_invariant.

Theorem C66_reachable : forall m ip6 c, octets16 ip6 -> reach m ip6 c -> client_ok c.
Proof.
  intros m ip6 c O6 R. induction R as [|c k o h R IH K T E B].
  - repeat split; constructor.
  - eapply C66_invariant; eauto.
Qed.
Print Assumptions C66_reachable.

(** With the address parser of [Ipv6.v], nothing is assumed of the program. *)
Theorem C66_history : forall m c k, reach m ipv6_from_str c -> known c k -> typed k ->
  let o := fst (kexec m ipv6_from_str k (k_heap c)) in
  (o = UB <-> short_from k) /\ (o = Hang <-> self_replace (k_heap c) k) /\
  (comes_back o <-> ~ short_from k /\ ~ self_replace (k_heap c) k).
Proof.
  intros m c k R K T. apply C66_safety; auto using C65_octets16. eapply C66_reachable; eauto using C65_octets16.
Qed.
Print Assumptions C66_history.

(** A program that keeps its slices long enough and replaces no header by one that
    shares its buffer never meets undefined behaviour and never waits for itself. *)
Theorem C66_careful : forall m c k, reach m ipv6_from_str c -> known c k -> typed k ->
  (forall T v, k = K_sfrom T v -> (ht_size T <= v_len v)%nat) ->
  (forall x y, k = K_hdr (OReplace x y) -> h_ref x <> h_ref y) ->
  comes_back (fst (kexec m ipv6_from_str k (k_heap c))).
Proof.
  intros m c k R K T S Q. apply (C66_history m c k R K T). split.
  - destruct k; cbn [short_from]; auto. specialize (S _ _ eq_refl). lia.
  - destruct k; cbn [self_replace]; auto. destruct o; auto. intros (E & _). exact (Q _ _ eq_refl E).
Qed.
Print Assumptions C66_careful.

(** ** What a call leaves alone *)

(** No buffer disappears, and only those of [touches] change. *)
Theorem C66_frame : forall m ip6 c k o h r, octets16 ip6 -> client_ok c -> known c k -> typed k ->
  kexec m ip6 k (k_heap c) = (o, h) -> comes_back o -> (r < length (k_heap c))%nat -> ~ In r (touches k) ->
  nth_error h r = nth_error (k_heap c) r.
Proof.
  intros m ip6 c k o h r O6 C K T E B L N'. destruct (kexec_ok m ip6 c k o h O6 C K T E B) as ((_ & F & _) & _). auto.
Qed.
Print Assumptions C66_frame.

(** A poisoned buffer stays as it is, for good. *)
Theorem C66_poison : forall m ip6 c k o h r x, octets16 ip6 -> client_ok c -> known c k -> typed k ->
  kexec m ip6 k (k_heap c) = (o, h) -> comes_back o ->
  nth_error (k_heap c) r = Some x -> c_poisoned x = true -> nth_error h r = Some x.
Proof.
  intros m ip6 c k o h r x O6 C K T E B X P. destruct (kexec_ok m ip6 c k o h O6 C K T E B) as ((_ & _ & F) & _). auto.
Qed.
Print Assumptions C66_poison.

(** A call that is no write and returns changes no existing buffer. *)
Theorem C66_reads : forall m ip6 c k a h r, octets16 ip6 -> client_ok c -> known c k -> typed k ->
  kexec m ip6 k (k_heap c) = (Ret a, h) -> writes k = false -> (r < length (k_heap c))%nat ->
  nth_error h r = nth_error (k_heap c) r.
Proof.
  intros m ip6 c k a h r O6 C K T E Wr L. destruct (kexec_still m ip6 k Wr) as [Z|Z].
  - eapply C66_frame; eauto; [left; eauto|]. rewrite Z. auto.
  - rewrite (Z _ _ _ E). reflexivity.
Qed.
Print Assumptions C66_reads.

(** ** The two dangerous calls can be reached *)

Definition kstep (m : mode) (c : client) (k : call) : client :=
  let (o, h) := kexec m ipv6_from_str k (k_heap c) in learn c o h.
Lemma reach_step m c k : reach m ipv6_from_str c -> known c k -> typed k ->
  comes_back (fst (kexec m ipv6_from_str k (k_heap c))) -> reach m ipv6_from_str (kstep m c k).
Proof.
  intros R K T B. unfold kstep. destruct (kexec m ipv6_from_str k (k_heap c)) as [o h] eqn:E. eapply Reach_call; eauto.
Qed.

(** "Safe code cannot cause undefined behaviour" is false: one call of a safe function
    with a slice of three bytes. *)
Theorem C66_no_ub_refuted : forall m, ~ (forall c k, reach m ipv6_from_str c -> known c k -> typed k ->
  fst (kexec m ipv6_from_str k (k_heap c)) <> UB).
Proof.
  intros m A. apply (A k_start (K_sfrom Ether (v_all [1; 2; 3]))); [constructor|exact I| |reflexivity].
  cbn. split; [apply bytes_okb_ok; reflexivity|cbn; lia].
Qed.
Print Assumptions C66_no_ub_refuted.

(** "No call blocks for ever in a program with one thread" is false: a header replaced by its clone. *)
Theorem C66_no_hang_refuted : forall m, ~ (forall c k, reach m ipv6_from_str c -> known c k -> typed k ->
  fst (kexec m ipv6_from_str k (k_heap c)) <> Hang).
Proof.
  intros m A. set (c1 := kstep m k_start (K_hdr (ONew Ether))). set (c2 := kstep m c1 (K_hdr (OClone (Hdr Ether 0)))).
  assert (R1 : reach m ipv6_from_str c1).
  { apply reach_step; [constructor|intros x []|apply bytes_okb_ok; reflexivity|left; eexists; reflexivity]. }
  assert (R2 : reach m ipv6_from_str c2).
  { apply reach_step; [exact R1|intros x [<-|[]]; left; reflexivity|exact I|left; eexists; reflexivity]. }
  apply (A c2 (K_hdr (OReplace (Hdr Ether 0) (Hdr Ether 0)))); [exact R2| |exact I|reflexivity].
  intros x [<-|[<-|[]]]; left; reflexivity.
Qed.
Print Assumptions C66_no_hang_refuted.

(** ** A program: make a packet, parse its bytes, write to the copy, read it out of
    range (which poisons the buffer), read it again, then go on with the rest. *)

Definition ex_bytes : list N :=
  [0; 17; 34; 51; 68; 85; 10; 11; 12; 13; 14; 15; 8; 0;
   69; 0; 0; 31; 0; 7; 0; 0; 64; 17; 175; 28; 10; 0; 0; 1; 192; 168; 1; 2;
   4; 0; 0; 53; 0; 11; 0; 0; 1; 2; 3].
Definition ex_p1 : packet := Pkt [Hdr Ether 0; Hdr IPv4 1; Hdr UDP 2] [1; 2; 3].
Definition ex_p2 : packet := Pkt [Hdr Ether 3; Hdr IPv4 4; Hdr UDP 5] [1; 2; 3].
Definition ex_calls : list call :=
  [K_create (P_udp4 (EthA "00:11:22:33:44:55" "a:b:c:d:e:f" false 0 0)
             (Ip4A 5 "10.0.0.1" "192.168.1.2" 0 64 7 0) 53 1024 [1; 2; 3]);
   K_pto_vec ex_p1; K_parse F_parse ex_bytes; K_index ex_p2 "IPv4"; K_hdr (OSet (Hdr IPv4 4) IPv4_ttl 1);
   K_compare ex_p1 ex_p2; K_hdr (OBitRange (Hdr IPv4 4) 167 160); K_pto_vec ex_p2; K_hdr (OGet (Hdr IPv4 4) IPv4_ttl);
   K_compare ex_p1 ex_p1; K_sfrom IPv4 (View ex_bytes 14 31); K_sget (SHdr IPv4 (View ex_bytes 14 20)) IPv4_src].
Fixpoint outcomes (m : mode) (c : client) (ks : list call) : list (out kres) :=
  match ks with
  | [] => []
  | k :: t => fst (kexec m ipv6_from_str k (k_heap c)) :: outcomes m (kstep m c k) t
  end.
(** Calls on what is known, all coming back. *)
Fixpoint legal (m : mode) (c : client) (ks : list call) : Prop :=
  match ks with
  | [] => True
  | k :: t => known c k /\ typed k /\ comes_back (fst (kexec m ipv6_from_str k (k_heap c))) /\ legal m (kstep m c k) t
  end.
Lemma legal_reach m ks c : reach m ipv6_from_str c -> legal m c ks -> reach m ipv6_from_str (fold_left (kstep m) ks c).
Proof. revert c. induction ks as [|k ks IH]; intros c R L; [exact R|]. destruct L as (K & T & B & L). apply IH; auto. apply reach_step; auto. Qed.

Lemma legal_cons m c k ks c' : known c k -> typed k -> comes_back (fst (kexec m ipv6_from_str k (k_heap c))) ->
  kstep m c k = c' -> legal m c' ks -> legal m c (k :: ks).
Proof. intros K T B <- L. cbn [legal]. auto. Qed.
Ltac bk := cbv beta iota delta [typed pmake_t eth_t ip4_t u8t u16t u64t slice_ok];
  repeat match goal with |- _ /\ _ => split end;
  first [exact I | (apply bytes_okb_ok; vm_compute; reflexivity) | (vm_compute; reflexivity) | (cbn; lia)].
Ltac step := eapply legal_cons; [|bk|first [left; eexists; vm_compute; reflexivity | right; eexists; vm_compute; reflexivity]
  |vm_compute; reflexivity|].
Example C66_example :
  outcomes Debug k_start ex_calls =
    [Ret (KPkt ex_p1); Ret (KVal (VBytes ex_bytes)); Ret (KPkt ex_p2); Ret (KHdr (Hdr IPv4 4)); Ret (KVal VUnit);
     Ret (KBool false); Panic PIndex; Panic PPoison; Panic PPoison;
     Ret (KBool true); Ret (KSHdr (SHdr IPv4 (View ex_bytes 14 20))); Ret (KVal (VNum 0x0a000001))] /\
  reach Debug ipv6_from_str (fold_left (kstep Debug) ex_calls k_start) /\
  poisoned_at (k_heap (fold_left (kstep Debug) ex_calls k_start)) 4.
Proof.
  split; [vm_compute; reflexivity|]. split.
  - apply legal_reach; [constructor|]. unfold ex_calls.
    do 12 (step; [try exact I; cbn [known hop_hdrs pmake_inner k_hdrs k_pkts k_shdrs]; try (intros ? [<-|[]]); repeat split;
      try (intros ? []; fail); unfold ex_p1, ex_p2; cbn [In]; auto; fail|]). exact I.
  - eexists. vm_compute. reflexivity.
Qed.
