(** PropPanic.v -- C70: exactly when a public call panics, with what message, and
    what it leaves poisoned. *)

From Coq Require Import Lia.
From Verif Require Import Base Bits Types Layout Heap Packet Text Build Utils Slow Fast Show Ops Client Spec Grammar
  ClientSpec PanicSpec HeapProofs PacketProofs PropBuild Ipv6 PropIpv6 ClientProofs BitsProofs PropClient PanicProofs PanicCalls PanicBuild.
Open Scope N_scope.

Lemma known_hdr c x : client_ok c -> In x (k_hdrs c) -> live (k_heap c) x.
Proof. intros (_ & F & _) I. eapply Forall_forall in F; eauto. Qed.
Lemma known_pkt c p : client_ok c -> In p (k_pkts c) -> Forall (live (k_heap c)) (p_hdrs p).
Proof. intros (_ & _ & F & _) I. eapply Forall_forall in F; eauto. apply F. Qed.

(** ** When *)

Theorem C70_panics : forall m ip6 c k e, octets16 ip6 -> client_ok c -> known c k -> typed k -> shows_declared k ->
  (fst (kexec m ip6 k (k_heap c)) = Panic e <-> call_fault m (k_heap c) k e).
Proof.
  intros m ip6 c k e O6 C K T D. revert e. fold (faults (kexec m ip6 k (k_heap c)) (call_fault m (k_heap c) k)).
  pose proof C as (Hh & Fh & Fp & Fs & Fq).
  destruct k; unfold call_fault; cbn [kexec known typed shows_declared] in *; cbv beta iota;
    try (apply faults_ret; intros ? ?; tauto); try (apply faults_wrap).
  - eapply spec_faults, hexec_spec; auto. apply Forall_forall. intros x I. eapply known_hdr; eauto.
  - unfold hdowncast. destruct (Nat.eqb_spec (ht_id T0) (ht_id (h_ty x))) as [E|E].
    + apply faults_ret. intros e [X _]. auto.
    + apply faults_panic. intros e. tauto.
  - eapply spec_faults, hshow_spec; auto. eapply known_hdr; eauto.
  - apply hmake_faults; auto.
  - destruct a; cbn [push_any to_owned]; [apply faults_ret; intros ? ?; tauto|apply faults_panic; intros ?; tauto].
  - destruct a; cbn [insert_any to_owned]; [apply faults_ret; intros ? ?; tauto|apply faults_panic; intros ?; tauto].
  - unfold pkt_add. apply faults_wrap. rewrite PacketProofs.clone_hdrs_run. apply faults_ret. intros ? X. exact X.
  - unfold pkt_clone. apply faults_wrap. rewrite PacketProofs.clone_hdrs_run. apply faults_ret. intros ? X. exact X.
  - unfold index_name. clear -name. assert (F : match find_name name (p_hdrs p) with
      | Some _ => exists x, In x (p_hdrs p) /\ ht_name (h_ty x) = name
      | None => forall x, In x (p_hdrs p) -> ht_name (h_ty x) <> name end).
    { induction (p_hdrs p) as [|y l IH]; cbn [find_name]; [intros x []|]. unfold hname.
      destruct (String.eqb_spec (ht_name (h_ty y)) name) as [E|E].
      - exists y. split; [left; auto|auto].
      - destruct (find_name name l); [destruct IH as (x & I & Q); exists x; split; [right; auto|auto]|].
        intros x [<-|I]; auto. }
    destruct (find_name name (p_hdrs p)); [apply faults_ret|apply faults_panic].
    + intros e [X _]. destruct F as (x & I & Q). apply (X x I Q).
    + intros e. tauto.
  - apply to_vec_faults. eapply known_pkt; eauto.
  - apply compare_faults; eapply known_pkt; eauto; apply K.
  - apply compare_slice_faults. eapply known_pkt; eauto.
  - eapply spec_faults, pshow_spec; auto. eapply known_pkt; eauto.
  - apply faults_lift, checksum_faults; auto.
  - apply mac_faults.
  - apply ip4_faults.
  - apply pmake_faults; auto. apply Forall_forall. intros p I. eapply Forall_forall in Fp; eauto.
  - apply slow_faults; auto.
  - apply faults_lift, fast_faults; auto.
  - unfold lift, sfrom, from_raw_parts. destruct (ht_size T0 <=? v_len v)%nat; intros e; cbn; split; try discriminate; tauto.
  - eapply Forall_forall in Fs; eauto. destruct Fs as [V _]. apply faults_lift.
    rewrite <- (v_bytes_len _ V). apply get_bits_faults, v_bytes_ok, V.
  - eapply Forall_forall in Fs; eauto. destruct Fs as [V _]. apply faults_lift.
    rewrite <- (v_bytes_len _ V). apply bytes_of_faults, v_bytes_ok, V.
  - eapply Forall_forall in Fs; eauto. destruct Fs as [V _]. apply faults_lift, sshow_faults; auto.
  - eapply Forall_forall in Fq; eauto. destruct Fq as [V _]. apply faults_lift, ps_show_faults; auto.
  - destruct q; cbn [query_run query_known] in *; try (apply faults_ret; intros ? ?; tauto); try (apply faults_panic; intros ?; tauto).
    eapply Forall_forall in Fs; eauto. destruct Fs as [V _]. rewrite <- (v_bytes_len _ V).
    change (lift (olet v := get_bits m (v_bytes (s_view x)) msb lsb in Ret (KVal (VNum v))) (k_heap c))
      with (olet v := get_bits m (v_bytes (s_view x)) msb lsb in Ret (KVal (VNum v)), k_heap c).
    pose proof (get_bits_faults m (v_bytes (s_view x)) msb lsb (v_bytes_ok _ V)) as G. intros e. specialize (G e).
    destruct (get_bits m (v_bytes (s_view x)) msb lsb); cbn in *; rewrite <- G; split; congruence.
Qed.
Print Assumptions C70_panics.

(** The conditions leave no two messages, and with C66 they say when a call returns. *)
Theorem C70_one : forall m ip6 c k e e', octets16 ip6 -> client_ok c -> known c k -> typed k -> shows_declared k ->
  call_fault m (k_heap c) k e -> call_fault m (k_heap c) k e' -> e = e'.
Proof.
  intros m ip6 c k e e' O6 C K T D F F'. apply (C70_panics m ip6 c k e O6 C K T D) in F.
  apply (C70_panics m ip6 c k e' O6 C K T D) in F'. congruence.
Qed.
Print Assumptions C70_one.

Theorem C70_returns : forall m ip6 c k, octets16 ip6 -> client_ok c -> known c k -> typed k -> shows_declared k ->
  ((exists a, fst (kexec m ip6 k (k_heap c)) = Ret a) <->
   (forall e, ~ call_fault m (k_heap c) k e) /\ ~ short_from k /\ ~ self_replace (k_heap c) k).
Proof.
  intros m ip6 c k O6 C K T D. destruct (C66_safety m ip6 c k O6 C K T) as (_ & _ & B). cbv zeta in B.
  pose proof (fun e => C70_panics m ip6 c k e O6 C K T D) as P. split.
  - intros [a E]. split; [intros e F; apply P in F; congruence|]. apply B. left. eauto.
  - intros [N R]. apply B in R. destruct R as [R|[e R]]; auto. destruct (N e). apply P. exact R.
Qed.
Print Assumptions C70_returns.

(** A reachable program state is one of those. *)
Theorem C70_history : forall m c k, reach m ipv6_from_str c -> known c k -> typed k -> shows_declared k ->
  (forall e, fst (kexec m ipv6_from_str k (k_heap c)) = Panic e <-> call_fault m (k_heap c) k e).
Proof.
  intros m c k R K T D e. apply C70_panics; auto using C65_octets16. eapply C66_reachable; eauto using C65_octets16.
Qed.
Print Assumptions C70_history.

(** ** What is poisoned *)

Theorem C70_poisons : forall m ip6 c k o h r, octets16 ip6 -> client_ok c -> known c k -> typed k -> shows_declared k ->
  kexec m ip6 k (k_heap c) = (o, h) -> comes_back o -> (r < length (k_heap c))%nat ->
  (poisoned_at h r <-> poisoned_at (k_heap c) r \/ poisons m (k_heap c) k r).
Proof.
  intros m ip6 c k o h r O6 C K T D E B L. pose proof C as (Hh & Fh & _).
  assert (S : forall F, spec (kexec m ip6 k (k_heap c)) (k_heap c) F (poisons m (k_heap c) k) ->
    (poisoned_at h r <-> poisoned_at (k_heap c) r \/ poisons m (k_heap c) k r)).
  { intros F [_ P]. specialize (P r). rewrite E in P. exact P. }
  assert (N : touches k = [] -> (forall q, ~ poisons m (k_heap c) k q) ->
    (poisoned_at h r <-> poisoned_at (k_heap c) r \/ poisons m (k_heap c) k r)).
  { intros Z P. unfold poisoned_at. rewrite (C66_frame m ip6 c k o h r O6 C K T E B L) by (rewrite Z; auto).
    specialize (P r). tauto. }
  destruct k; try (apply N; [reflexivity|intros ? X; exact X]).
  - eapply S. apply spec_wrap. apply hexec_spec; auto. apply Forall_forall. intros x I. eapply known_hdr; eauto.
  - eapply S. cbn [kexec poisons call_fault] in *. apply spec_wrap. apply hshow_spec; auto. eapply known_hdr; eauto.
  - eapply S. cbn [kexec] in *. apply spec_wrap. apply pshow_spec; auto. eapply known_pkt; eauto.
Qed.
Print Assumptions C70_poisons.

(** ** Consequences *)

(** Builds without overflow checks never report an overflow. *)
Theorem C70_release : forall ip6 c k, octets16 ip6 -> client_ok c -> known c k -> typed k -> shows_declared k ->
  fst (kexec Release ip6 k (k_heap c)) <> Panic POverflow.
Proof.
  intros ip6 c k O6 C K T D E. apply (C70_panics Release ip6 c k POverflow O6 C K T D) in E.
  assert (NT : forall h x i, ~ touch h x i POverflow).
  { intros h x i [[_ X]|(d & _ & _ & X)]; discriminate. }
  assert (NR : forall msb lsb, ~ reversed Release msb lsb POverflow) by (intros msb lsb (_ & X & _); discriminate).
  assert (NO : forall msb lsb, ~ not_octets Release msb lsb POverflow).
  { intros msb lsb [X|[(_ & X & _)|[_ X]]]; [exact (NR _ _ X)|discriminate|discriminate]. }
  assert (NI : forall h p (l : Prop), ~ inner_fault h p l POverflow).
  { intros h p l [[_ X]|(_ & _ & X)]; discriminate. }
  assert (NF : forall h o (l : Prop), ~ opt_fault h o l POverflow).
  { intros h [p|] l; [apply NI|]. intros [_ X]. discriminate. }
  assert (NS : forall h x, ~ show_fault h x POverflow) by (intros h x (f & _ & X); exact (NT _ _ _ X)).
  assert (NC : forall f d e, cut_by f d e -> e <> POverflow) by (induction 1; congruence).
  assert (RF : forall h x a b, ~ read_fault Release h x a b POverflow).
  { intros h x a b [X|(_ & [X|(_ & X & _)])]; [exact (NR _ _ X)|exact (NT _ _ _ X)|discriminate]. }
  destruct k; cbn [call_fault] in E; try exact E; try (destruct E as [_ E]; discriminate E).
  - destruct o; cbn [hop_fault] in E; try exact E; try (eapply RF; exact E); try (eapply NT; exact (proj2 E)).
    + destruct E as [X|(_ & _ & _ & X)]; [exact (NO _ _ X)|exact (NT _ _ _ X)].
    + destruct E as [[X|[(_ & X & _)|[_ X]]]|[(_ & _ & _ & X)|(_ & _ & _ & X)]];
        [exact (NR _ _ X)|discriminate|discriminate|discriminate|exact (NT _ _ _ X)].
    + destruct E; discriminate.
    + destruct E; discriminate.
  - exact (NS _ _ E).
  - destruct a; [exact E|discriminate].
  - destruct a; [exact E|discriminate].
  - destruct E as [[_ X]|(n & _ & _ & _ & X)]; discriminate.
  - destruct E as (_ & _ & X). discriminate.
  - destruct E as [(pre & x & post & _ & _ & X)|(_ & _ & X)]; [exact (NS _ _ X)|discriminate].
  - destruct E as [(X & _)|[(_ & _ & X)|(X & _)]]; discriminate.
  - destruct b; cbn [pmake_fault] in E; try (destruct E; discriminate); try (eapply NI; exact E); eapply NF; exact E.
  - exact (NC _ _ _ E eq_refl).
  - exact (NC _ _ _ E eq_refl).
  - destruct E as [X|(_ & [(_ & X)|(_ & _ & X & _)])]; [exact (NR _ _ X)|discriminate|discriminate].
  - destruct E as [X|(_ & _ & _ & _ & X)]; [exact (NO _ _ X)|discriminate].
  - destruct E. discriminate.
  - destruct E as (x & _ & X & _). discriminate.
  - destruct q; try exact E; try discriminate E.
    destruct E as [X|(_ & [(_ & X)|(_ & _ & X & _)])]; [exact (NR _ _ X)|discriminate|discriminate].
Qed.
Print Assumptions C70_release.

(** Every header type of the crate is one that can be shown. *)
Theorem C70_predefined : Forall declared predefined.
Proof. unfold predefined. repeat constructor. Qed.
Print Assumptions C70_predefined.

(** ** What one may expect and does not hold *)

(** "No public call panics on well-typed arguments": a parser given too few bytes. *)
Theorem C70_never_refuted : forall m, ~ (forall c k e, reach m ipv6_from_str c -> known c k -> typed k ->
  fst (kexec m ipv6_from_str k (k_heap c)) <> Panic e).
Proof.
  intros m A. apply (A k_start (K_parse F_ipv4 [69; 0]) PSlice); [apply Reach_start|exact I|apply bytes_okb_ok; reflexivity|].
  destruct m; reflexivity.
Qed.
Print Assumptions C70_never_refuted.

(** "A call that panics has no effect": reading bit 8 of a one-byte Ethernet header
    makes every later [to_vec] of a packet that holds it panic. *)
Definition short_eth : call := K_hdr (OFrom Ether [7]).
Definition c70_hdr : hdr := Hdr Ether 0.
Definition c70_pkt : packet := Pkt [c70_hdr] [1; 2].
Definition c70_state (m : mode) (read : bool) : client :=
  let c := kstep m (kstep m k_start short_eth) K_pnew in
  let c := kstep m c (K_push (Pkt [] []) (Owned c70_hdr)) in
  let c := kstep m c (K_set_payload (Pkt [c70_hdr] []) [1; 2]) in
  if read then kstep m c (K_hdr (OBitRange c70_hdr 8 0)) else c.
Lemma c70_reach m read : reach m ipv6_from_str (c70_state m read).
Proof.
  assert (R : reach m ipv6_from_str (c70_state m false)).
  { unfold c70_state.
    apply reach_step; [apply reach_step; [apply reach_step; [apply reach_step; [apply Reach_start| | |]| | |]| | |]| | |].
    - intros x [].
    - apply bytes_okb_ok. reflexivity.
    - left. eexists. reflexivity.
    - exact I.
    - exact I.
    - left. eexists. reflexivity.
    - split; left; reflexivity.
    - exact I.
    - left. eexists. reflexivity.
    - left. reflexivity.
    - apply bytes_okb_ok. reflexivity.
    - left. eexists. reflexivity. }
  destruct read; [|exact R]. unfold c70_state. apply reach_step; [exact R| |exact I|right; exists PIndex; reflexivity].
  intros x [<-|[]]. left. reflexivity.
Qed.

Theorem C70_no_effect_refuted : forall m, ~ (forall c k k' e e', reach m ipv6_from_str c -> known c k -> typed k ->
  known c k' -> typed k' -> fst (kexec m ipv6_from_str k (k_heap c)) = Panic e ->
  (fst (kexec m ipv6_from_str k' (k_heap (kstep m c k))) = Panic e' <->
   fst (kexec m ipv6_from_str k' (k_heap c)) = Panic e')).
Proof.
  intros m A.
  assert (P : fst (kexec m ipv6_from_str (K_pto_vec c70_pkt) (k_heap (c70_state m false))) = Panic PPoison).
  { apply (A (c70_state m false) (K_hdr (OBitRange c70_hdr 8 0)) (K_pto_vec c70_pkt) PIndex PPoison);
      [apply c70_reach| | | | | |]; try exact I; try reflexivity.
    - intros x [<-|[]]. left. reflexivity.
    - left. reflexivity. }
  discriminate P.
Qed.
Print Assumptions C70_no_effect_refuted.

(** ** Examples *)

(** The poisoning read, its message, what it poisons, and the later failure. *)
Example C70_example_poison : forall m,
  let h := k_heap (c70_state m false) in let h' := k_heap (c70_state m true) in
  call_fault m h (K_hdr (OBitRange c70_hdr 8 0)) PIndex /\ poisons m h (K_hdr (OBitRange c70_hdr 8 0)) 0 /\
  ~ poisoned_at h 0 /\ poisoned_at h' 0 /\
  (forall e, ~ call_fault m h (K_pto_vec c70_pkt) e) /\ call_fault m h' (K_pto_vec c70_pkt) PPoison.
Proof.
  intros m h h'.
  assert (F : call_fault m h (K_hdr (OBitRange c70_hdr 8 0)) PIndex).
  { right. split; [lia|]. left. right. exists [7]. split; [reflexivity|]. split; [cbn; lia|reflexivity]. }
  assert (D : forall x, In x (p_hdrs c70_pkt) -> ~ dead h x).
  { intros x [<-|[]] [d X]. cbn in X. discriminate. }
  split; [exact F|]. split; [split; [reflexivity|exact F]|].
  split; [intros [d X]; discriminate|]. split; [exists [7]; reflexivity|]. split.
  - intros e [(x & I & X) _]. exact (D x I X).
  - split; [|reflexivity]. exists c70_hdr. split; [left; reflexivity|]. exists [7]. reflexivity.
Qed.

(** One call of each kind, with the message the conditions give. *)
Example C70_example_calls :
  let h := [Cell (ht_default Ether) false] in
  (* 65 bits of a 14-byte header: only with overflow checks *)
  call_fault Debug h (K_hdr (OBitRange c70_hdr 64 0)) POverflow /\
  (forall e, ~ call_fault Release h (K_hdr (OBitRange c70_hdr 64 0)) e) /\
  (* 9 bits as bytes; 16 bits from three bytes *)
  call_fault Release h (K_hdr (OBytes c70_hdr 8 0)) PAssert /\
  call_fault Release h (K_hdr (OSetBytes c70_hdr 15 0 [1; 2; 3])) PAssert /\
  (* a header is not there, or is of another type *)
  call_fault Debug h (K_index c70_pkt "IPv4") PUnwrap /\
  call_fault Debug h (K_downcast IPv4 c70_hdr) PDowncast /\
  (* a borrowed header cannot be pushed *)
  call_fault Debug h (K_push c70_pkt (Borrowed Ether (ht_default Ether))) PUnimpl /\
  (* an odd number of bytes *)
  call_fault Debug h (K_checksum [1; 2; 3]) PIndex /\
  (* seven parts in a MAC address *)
  call_fault Debug h (K_mac "1:2:3:4:5:6:7") PIndex /\
  (* thirteen bytes; a complete Ethernet header and no IPv4 header; the last label and nothing after *)
  call_fault Debug h (K_parse F_parse (repeat 1 13)) PIndex /\
  call_fault Debug h (K_parse F_parse (repeat 1 12 ++ [8; 0; 69])) PSlice /\
  call_fault Debug h (K_parse F_mpls_bos [0; 0; 1; 64]) PIndex.
Proof.
  cbv zeta. set (h := [Cell (ht_default Ether) false]).
  assert (C : client_ok (Cl h [c70_hdr] [c70_pkt] [] [])).
  { assert (L : Forall (live h) [c70_hdr]) by (constructor; [apply Nat.lt_0_1|constructor]).
    split; [constructor; [apply bytes_okb_ok; reflexivity|constructor]|]. split; [exact L|].
    split; [constructor; [split; [exact L|apply bytes_okb_ok; reflexivity]|constructor]|split; constructor]. }
  assert (P : forall m k e, known (Cl h [c70_hdr] [c70_pkt] [] []) k -> typed k -> shows_declared k ->
    fst (kexec m ipv6_from_str k h) = Panic e -> call_fault m h k e).
  { intros m k e K T S E. apply (C70_panics m ipv6_from_str (Cl h [c70_hdr] [c70_pkt] [] [])) in E; auto using C65_octets16. }
  assert (Kn : In c70_hdr [c70_hdr]) by (left; reflexivity).
  repeat match goal with |- _ /\ _ => split end;
    try (apply P; [cbn; try exact I; try (intros x [<-|[]]); left; reflexivity| | |vm_compute; reflexivity];
         try exact I; apply bytes_okb_ok; reflexivity);
    try (apply P; [exact I|apply bytes_okb_ok; reflexivity|exact I|vm_compute; reflexivity]);
    try (apply P; [exact I|exact I|exact I|vm_compute; reflexivity]).
  intros e E. apply (C70_panics Release ipv6_from_str (Cl h [c70_hdr] [c70_pkt] [] [])) in E; auto using C65_octets16.
  - vm_compute in E. discriminate E.
  - intros x [<-|[]]. exact Kn.
  - exact I.
  - exact I.
Qed.
