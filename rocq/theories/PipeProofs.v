(** PipeProofs.v -- proofs about Pipe.v. *)

From Coq Require Import Lia.
From Verif Require Import Base Bits Types Layout Heap Packet Text Ipv6 Build Utils Slow Fast Show Trait Ops Client Print Threads TPrint Pipe
  Spec ClientSpec PrintSpec ThreadsSpec TPrintSpec PipeSpec BitsProofs HeapProofs PropBuild PropIpv6 ClientProofs PropClient ThreadsSim ThreadsRel ThreadsProofs
  TPrintSim TPrintRel TPrintErase TPrintProofs.
Open Scope N_scope.

(** ** A thread that is cut off, and one that waits for ever *)

Lemma pfail_inv w i n w' : pfail w i n = Some w' -> exists k own said s q, pbusy w i k own said (QRun (QSay s q)) /\
  w' = PW (pw_client w) (upd (pw_threads w) i PIdle) (pw_out w ++ emit i (String.substring 0 n s)).
Proof.
  unfold pfail, pbusy. destruct (nth_error (pw_threads w) i) as [[|k own said [[o|s q| | | | |]|]]|] eqn:E; try discriminate. intros [= <-].
  exists k, own, said, s, q. auto.
Qed.

Lemma nth_lt {A} (l : list A) i a : nth_error l i = Some a -> (i < length l)%nat.
Proof. intros E. apply nth_error_Some. rewrite E. discriminate. Qed.
Lemma lt_nth {A} (l : list A) i : (i < length l)%nat -> exists a, nth_error l i = Some a.
Proof. intros L. destruct (nth_error l i) eqn:E; eauto. apply nth_error_None in E. lia. Qed.

Lemma pheld_more g w w' r : more_threads g w w' -> pheld (pw_threads w') r = pheld (pw_threads w) r.
Proof.
  intros (_ & T & _ & W). destruct (pheld (pw_threads w) r) eqn:E.
  - destruct (pheld_inv _ _ E) as (i & k & own & said & o & p & B). eapply pheld_true. apply T. exact B.
  - destruct (pheld (pw_threads w') r) eqn:E'; [|reflexivity]. destruct (pheld_inv _ _ E') as (j & k & own & said & o & p & B).
    destruct (W j (nth_lt _ _ _ B)) as [(i & L & <-)|(k1 & own1 & said1 & s & q & B1)]; [|unfold pbusy in B1; congruence].
    destruct (lt_nth _ _ L) as (t & Et). pose proof (T _ _ Et) as X. rewrite B in X. injection X as <-. apply pheld_true in Et. congruence.
Qed.
Lemma qstep_held ts ts' h t : (forall r, pheld ts' r = pheld ts r) -> qstep ts' h t = qstep ts h t.
Proof. intros H. destruct t as [[]|]; cbn [qstep]; rewrite ?H; reflexivity. Qed.

Lemma more_upd g w w' i t0 t c o o' : more_threads g w w' -> nth_error (pw_threads w) i = Some t0 ->
  more_threads g (PW c (upd (pw_threads w) i t) o) (PW c (upd (pw_threads w') (g i) t) o').
Proof.
  intros (C & T & I & W) E. pose proof (nth_lt _ _ _ E) as L. pose proof (T _ _ E) as E'. split; [reflexivity|]. cbn [pw_threads]. rewrite !upd_len.
  split; [|split; [exact I|]].
  - intros j u Ej. apply upd_cases in Ej. destruct Ej as [(-> & ->)|(Ne & Ej)]; [eapply nth_upd_at; eauto|].
    rewrite upd_other; [auto|]. intros X. apply Ne. symmetry. apply I; auto. eapply nth_lt; eauto.
  - intros j Lj. destruct (W j Lj) as [X|(k & own & said & s & q & B)]; [left; exact X|].
    destruct (Nat.eq_dec j (g i)) as [->|Ne]; [left; exists i; auto|]. right. exists k, own, said, s, q. unfold pbusy in *. cbn [pw_threads].
    rewrite upd_other by auto. exact B.
Qed.

Definition onto (g : nat -> nat) (i j : nat) (x : nat) : nat := if (x =? i)%nat then j else g x.

Lemma more_spawn g w w' : more_threads g w w' ->
  more_threads (onto g (length (pw_threads w)) (length (pw_threads w'))) (pspawn w) (pspawn w').
Proof.
  intros (C & T & I & W). assert (Lt : forall i, (i < length (pw_threads w))%nat -> (g i < length (pw_threads w'))%nat).
  { intros i L. destruct (lt_nth _ _ L) as (t & E). eapply nth_lt; eauto. }
  unfold more_threads, onto, pspawn. cbn [pw_client pw_threads]. rewrite !app_length. cbn [length].
  split; [exact C|]. split; [|split].
  - intros i t E. destruct (Nat.eqb_spec i (length (pw_threads w))) as [->|Ne].
    + rewrite nth_error_app2 in E by lia. rewrite Nat.sub_diag in E. rewrite nth_error_app2, Nat.sub_diag by lia. exact E.
    + assert (L : (i < length (pw_threads w))%nat) by (apply nth_lt in E; rewrite app_length in E; cbn [length] in E; lia).
      rewrite nth_error_app1 in E by auto. rewrite nth_error_app1; [auto|]. auto.
  - intros i j Li Lj. destruct (Nat.eqb_spec i (length (pw_threads w))) as [->|Ni], (Nat.eqb_spec j (length (pw_threads w))) as [->|Nj]; auto; intros E.
    + specialize (Lt j). lia.
    + specialize (Lt i). lia.
    + apply I; auto; lia.
  - intros j Lj. destruct (Nat.eq_dec j (length (pw_threads w'))) as [->|Ne].
    + left. exists (length (pw_threads w)). rewrite Nat.eqb_refl. split; [lia|reflexivity].
    + destruct (W j) as [(i & L & <-)|(k & own & said & s & q & B)]; [lia| |].
      * left. exists i. split; [lia|]. destruct (Nat.eqb_spec i (length (pw_threads w))); [lia|reflexivity].
      * right. exists k, own, said, s, q. unfold pbusy in *. cbn [pw_threads]. rewrite nth_error_app1; [exact B|]. eapply nth_lt; eauto.
Qed.

Lemma more_fail g w w' i n w1 : more_threads g w w' -> pfail w i n = Some w1 -> more_threads (onto g i (length (pw_threads w'))) w1 (pspawn w').
Proof.
  intros (C & T & I & W) E. destruct (pfail_inv _ _ _ _ E) as (k & own & said & s & q & B & ->). unfold pbusy in B.
  assert (Lt : forall i, (i < length (pw_threads w))%nat -> (g i < length (pw_threads w'))%nat).
  { intros j L. destruct (lt_nth _ _ L) as (t & Et). eapply nth_lt; eauto. }
  pose proof (nth_lt _ _ _ B) as Li. unfold more_threads, onto, pspawn. cbn [pw_client pw_threads]. rewrite upd_len, app_length. cbn [length].
  split; [exact C|]. split; [|split].
  - intros j t Ej. apply upd_cases in Ej. destruct Ej as [(-> & ->)|(Ne & Ej)].
    + rewrite Nat.eqb_refl, nth_error_app2, Nat.sub_diag by lia. reflexivity.
    + rewrite (proj2 (Nat.eqb_neq _ _)) by auto. rewrite nth_error_app1; [auto|]. apply Lt. eapply nth_lt; eauto.
  - intros j j' Lj Lj'. destruct (Nat.eqb_spec j i) as [->|Nj], (Nat.eqb_spec j' i) as [->|Nj']; auto; intros X.
    + specialize (Lt j'). lia.
    + specialize (Lt j). lia.
  - intros j Lj. destruct (Nat.eq_dec j (length (pw_threads w'))) as [->|Ne].
    + left. exists i. rewrite Nat.eqb_refl. split; [auto|reflexivity].
    + assert (Wj : forall k own said s q, nth_error (pw_threads w') j = Some (PBusy k own said (QRun (QSay s q))) ->
        writing (PW (pw_client w') (pw_threads w' ++ [PIdle]) (pw_out w')) j).
      { intros k1 own1 said1 s1 q1 B1. exists k1, own1, said1, s1, q1. unfold pbusy. cbn [pw_threads]. rewrite nth_error_app1; [exact B1|]. eapply nth_lt; eauto. }
      destruct (W j) as [(z & L & <-)|(k1 & own1 & said1 & s1 & q1 & B1)]; [lia| |right; eapply Wj; exact B1].
      destruct (Nat.eq_dec z i) as [->|Nz]; [right; eapply Wj; apply T; exact B|].
      left. exists z. split; [auto|]. rewrite (proj2 (Nat.eqb_neq _ _)) by auto. reflexivity.
Qed.

Lemma more_lt g w w' i : more_threads g w w' -> (i < length (pw_threads w))%nat -> (g i < length (pw_threads w'))%nat.
Proof. intros M L. destruct (lt_nth _ _ L) as (t & E). eapply nth_lt. apply M. exact E. Qed.
Lemma more_move m ip6 g w w' j w1 : more_threads g w w' -> fmove m ip6 w j w1 ->
  exists g' j' w1', pmove m ip6 w' j' w1' /\ more_threads g' w1 w1' /\
  (forall z, (z < length (pw_threads w'))%nat -> (forall i, (i < length (pw_threads w))%nat -> g i <> z) ->
    j' <> Some z /\ forall i, (i < length (pw_threads w1))%nat -> g' i <> z).
Proof.
  intros M S.
  assert (Keep : forall i t0 t, nth_error (pw_threads w) i = Some t0 -> forall z, (forall i, (i < length (pw_threads w))%nat -> g i <> z) ->
    Some (g i) <> Some z /\ forall x, (x < length (upd (pw_threads w) i t))%nat -> g x <> z).
  { intros i t0 t E z N. split; [|rewrite upd_len; exact N]. intros [= <-]. eapply N; [|reflexivity]. eapply nth_lt; eauto. }
  destruct S as [j w1 S|i n w1 E].
  - destruct S as [|i k w1 K Ty E|i w1 E|i w1 E].
    + eexists _, _, (pspawn w'). split; [constructor|]. split; [apply more_spawn; exact M|]. intros z Lz N. split; [discriminate|].
      cbn [pspawn pw_threads]. rewrite app_length. cbn [length]. intros i Li. unfold onto. destruct (Nat.eqb_spec i (length (pw_threads w))); [lia|]. apply N. lia.
    + destruct (pcall_inv _ _ _ _ _ _ E) as (Ei & ->). pose proof (proj1 (proj2 M) _ _ Ei) as Ei'.
      eexists g, _, _. split; [eapply (PM_call _ _ _ (g i) k); [rewrite (proj1 M); exact K|exact Ty|unfold pcall; rewrite Ei'; reflexivity]|].
      split; [rewrite (proj1 M); eapply more_upd; eauto|]. intros z _; eapply Keep; eauto.
    + destruct (pdo_inv _ _ _ E) as (k & own & said & t & h & new & s & t' & B & S & ->). pose proof (proj1 (proj2 M) _ _ B) as B'.
      eexists g, _, _. split; [eapply (PM_do _ _ _ (g i)); unfold pdo; rewrite B', (proj1 M);
        rewrite (qstep_held (pw_threads w)) by (intros; apply (pheld_more _ _ _ _ M)); unfold p_heap in S; rewrite S; reflexivity|].
      split; [eapply more_upd; eauto|]. intros z _; eapply Keep; eauto.
    + destruct (pback_inv _ _ _ E) as (k & own & said & o & B & Cb & ->). pose proof (proj1 (proj2 M) _ _ B) as B'.
      destruct Cb as [(v & ->)|(e & ->)]; eexists g, _, _; (split; [eapply (PM_back _ _ _ (g i)); unfold pback; rewrite B'; reflexivity|]);
        (split; [rewrite (proj1 M); eapply more_upd; eauto|]); intros z _; eapply Keep; eauto.
  - eexists _, _, (pspawn w'). split; [constructor|]. split; [eapply more_fail; eauto|].
    destruct (pfail_inv _ _ _ _ E) as (k & own & said & s & q & B & ->). unfold pbusy in B. cbn [pw_threads]. rewrite upd_len.
    intros z Lz N. split; [discriminate|]. intros x Lx. unfold onto. destruct (Nat.eqb_spec x i); [lia|]. apply N. exact Lx.
Qed.
Lemma freach_more m ip6 w : freach m ip6 w -> exists g w', preach m ip6 w' /\ more_threads g w w'.
Proof.
  induction 1 as [|w j w1 R (g & w' & R' & M) S].
  { exists (fun i => i), pw_start. split; [constructor|]. split; [reflexivity|]. split; [auto|]. split; [auto|]. cbn. intros j L. lia. }
  destruct (more_move _ _ _ _ _ _ _ M S) as (g' & j' & w1' & S' & M' & _). exists g', w1'. split; [eapply PR_move; eauto|exact M'].
Qed.

(** ** What a call that is cut off had allocated *)

Lemma lost m ip6 w i n w1 w2 k own said t : octets16 ip6 -> freach m ip6 w -> pbusy w i k own said t -> pfail w i n = Some w1 -> fsteps m ip6 w1 w2 ->
  exists g z w', preach m ip6 w' /\ more_threads g w2 w' /\ pbusy w' z k own said t /\
  (forall i, (i < length (pw_threads w2))%nat -> g i <> z) /\ (forall r, In r own -> nth_error (p_heap w2) r = nth_error (p_heap w) r).
Proof.
  intros O6 R B F S. destruct (freach_more _ _ _ R) as (g0 & w0 & R0 & M0). induction S as [|w2 j w3 S IH Mv].
  - exists (onto g0 i (length (pw_threads w0))), (g0 i), (pspawn w0). split; [eapply PR_move; [exact R0|constructor]|]. split; [eapply more_fail; eauto|].
    pose proof (proj1 (proj2 M0) _ _ B) as B0. pose proof (nth_lt _ _ _ B0) as L0. split; [unfold pbusy, pspawn; cbn [pw_threads]; rewrite nth_error_app1; auto|].
    destruct (pfail_inv _ _ _ _ F) as (k1 & own1 & said1 & s & q & B1 & ->). cbn [pw_threads]. rewrite upd_len. split; [|reflexivity].
    intros x Lx. unfold onto. destruct (Nat.eqb_spec x i) as [->|Ne]; [lia|]. intros X. apply Ne. apply (proj1 (proj2 (proj2 M0))); auto. eapply nth_lt; eauto.
  - destruct IH as (g & z & w' & R' & M & B' & N & Hp). destruct (more_move _ _ _ _ _ _ _ M Mv) as (g' & j' & w1' & S' & M' & K).
    destruct (K z (nth_lt _ _ _ B') N) as (Nj & N'). destruct (other_keep _ _ _ _ _ _ _ _ _ _ O6 R' B' S' Nj) as (B1 & H1).
    exists g', z, w1'. split; [eapply PR_move; eauto|]. split; [exact M'|]. split; [exact B1|]. split; [exact N'|]. intros r Ir. rewrite <- (Hp r Ir).
    unfold p_heap in *. rewrite <- (proj1 M'), <- (proj1 M). auto.
Qed.
Lemma fsteps_reach m ip6 w w' : freach m ip6 w -> fsteps m ip6 w w' -> freach m ip6 w'.
Proof. intros R. induction 1; [auto|]. eapply FR_move; eauto. Qed.

(** ** Nothing is written to a buffer before something is printed *)

Fixpoint reads {A} (q : pact A) : Prop :=
  match q with
  | QDone _ => True
  | QSay s k => s <> EmptyString /\ reads k
  | QAlloc _ k => forall r, reads (k r)
  | QRead _ _ k => forall b, reads (k b)
  | QWrite _ _ _ _ | QRepl _ _ _ => False
  | QCopy _ k => forall d, reads (k d)
  end.
Fixpoint gentle {A} (q : pact A) : Prop :=
  match q with
  | QDone _ => True
  | QSay s k => s <> EmptyString /\ gentle k
  | QAlloc _ k => forall r, gentle (k r)
  | QRead _ _ k => forall b, gentle (k b)
  | QWrite _ _ _ k | QRepl _ _ k => mute k
  | QCopy _ k => forall d, gentle (k d)
  end.
Lemma reads_gentle {A} (q : pact A) : reads q -> gentle q.
Proof. induction q; cbn; auto; try tauto. Qed.
Lemma mute_gentle {A} (q : pact A) : mute q -> gentle q.
Proof. induction q; cbn; auto; try tauto. Qed.
Lemma reads_bind {A B} (p : pact A) (f : A -> pact B) : reads p -> (forall a, reads (f a)) -> reads (qbind p f).
Proof. intros M F. induction p as [[]|s k IH| | | | |]; cbn in *; auto; try tauto. Qed.
Lemma gentle_bind {A B} (p : pact A) (f : A -> pact B) : reads p -> (forall a, gentle (f a)) -> gentle (qbind p f).
Proof. intros M F. induction p as [[]|s k IH| | | | |]; cbn in *; auto; try tauto. Qed.
Lemma gentle_then {A B} (p : pact A) (f : A -> pact B) : gentle p -> (forall a, mute (f a)) -> gentle (qbind p f).
Proof.
  intros M F. induction p as [[]|s k IH| | | | |]; cbn in *; auto; try (apply mute_bind; auto; fail).
  - apply mute_gentle. auto.
  - destruct M as (S & M). split; auto.
Qed.
Lemma reads_say s : s <> EmptyString -> reads (qsay s).
Proof. intros N. cbn. auto. Qed.
Lemma ends_nonempty s t : t <> EmptyString -> (s ++ t)%string <> EmptyString.
Proof. destruct s; [auto|discriminate]. Qed.
Lemma begins_nonempty s t : s <> EmptyString -> (s ++ t)%string <> EmptyString.
Proof. destruct s; [congruence|discriminate]. Qed.

Fixpoint areads {A} (p : act A) : Prop :=
  match p with
  | ADone _ => True
  | AAlloc _ k => forall r, areads (k r)
  | ARead _ _ k => forall b, areads (k b)
  | AWrite _ _ _ _ | ARepl _ _ _ => False
  | ACopy _ k => forall d, areads (k d)
  end.
Lemma reads_act {A} (p : act A) : areads p -> reads (qact p).
Proof. induction p; cbn; auto. Qed.
Lemma areads_bind {A B} (p : act A) (f : A -> act B) : areads p -> (forall a, areads (f a)) -> areads (abind p f).
Proof. intros M F. induction p as [[]| | | | |]; cbn in *; auto; try tauto. Qed.
Lemma areads_bits m x msb lsb : areads (a_hbit_range m x msb lsb).
Proof.
  unfold a_hbit_range. apply areads_bind; [|intros; exact I]. generalize 0 at 1. generalize lsb at 1. induction (range_len msb lsb) as [|n IH]; intros i v; cbn; auto.
Qed.
Lemma areads_vec p : areads (a_to_vec p).
Proof.
  unfold a_to_vec. apply areads_bind; [|intros; exact I]. induction (p_hdrs p) as [|x t IH]; cbn [a_concat_vecs]; [exact I|].
  apply areads_bind; [|intros; apply areads_bind; auto; intros; exact I]. cbn. auto.
Qed.
Ltac rd := repeat first
  [ assumption
  | apply reads_act; first [exact I|apply areads_bits|apply areads_vec|intros ?; exact I]
  | apply reads_bind; [|intros]
  | match goal with |- reads (if ?b then _ else _) => destruct b end
  | match goal with |- reads (let '(_, _) := ?x in _) => destruct x end
  | match goal with |- reads (match ?x with Some _ => _ | None => _ end) => destruct x end
  | match goal with |- reads (qsay ?s) => apply reads_say; first [discriminate|apply ends_nonempty; discriminate|apply begins_nonempty; discriminate] end
  | progress cbv zeta ].
Lemma reads_fill radix self parts i a : reads (q_fill radix self parts i a).
Proof.
  revert i a. induction parts as [|v t IH]; intros i a; cbn [q_fill]; [rd|].
  apply reads_bind; [destruct (parse_u8 radix v); rd|]. intros x. rd. apply IH.
Qed.
Lemma reads_ip6 ip6 s : reads (q_ip6 ip6 s).
Proof. unfold q_ip6. rd. Qed.
Lemma reads_eth e t pl : reads (q_create_eth_packet e t pl).
Proof. unfold q_create_eth_packet, q_ethernet, q_mac. repeat first [apply reads_fill|progress rd]. Qed.
Ltac mt := repeat first
  [ apply mute_act
  | apply mute_bind; [|intros]
  | match goal with |- mute (if ?b then _ else _) => destruct b end
  | match goal with |- mute (let '(_, _) := ?x in _) => destruct x end
  | match goal with |- mute (match ?x with Some _ => _ | None => _ end) => destruct x end
  | progress cbv zeta ].
Lemma gentle_ipv4 m a b c d e f g h i : gentle (q_ipv4 m a b c d e f g h i).
Proof.
  unfold q_ipv4, q_ip4. apply gentle_bind; [apply reads_fill|intros s]. apply gentle_bind; [apply reads_fill|intros t]. apply mute_gentle. mt.
Qed.
Lemma gentle_hmake m ip6 b : gentle (q_hmake m ip6 b).
Proof.
  destruct b; cbn [q_hmake]; try (apply mute_gentle, mute_act); try apply gentle_ipv4; apply reads_gentle;
    unfold q_ethernet, q_dot3, q_arp, q_ipv6, q_mac, q_ip4; repeat first [apply reads_fill|apply reads_ip6|progress rd].
Qed.
Lemma gentle_v4 m e i t pl : gentle (q_create_ipv4_packet m e i t pl).
Proof.
  unfold q_create_ipv4_packet. apply gentle_bind; [apply reads_eth|intros]. cbv zeta. apply gentle_then; [apply gentle_ipv4|intros; mt].
Qed.
Lemma reads_v6 ip6 e i t pl : reads (q_create_ipv6_packet ip6 e i t pl).
Proof. unfold q_create_ipv6_packet, q_ipv6. repeat first [apply reads_fill|apply reads_ip6|apply reads_eth|progress rd]. Qed.
Lemma gentle_v6 ip6 e i t pl : gentle (q_create_ipv6_packet ip6 e i t pl).
Proof. apply reads_gentle, reads_v6. Qed.
Lemma gentle_pmake m ip6 b : gentle (q_pmake m ip6 b).
Proof.
  assert (Rv : forall p, reads (qact (a_to_vec p))) by (intros; apply reads_act, areads_vec).
  assert (Ro : forall o, reads (qact (a_opt_to_vec o))) by (intros [p|]; [apply Rv|exact I]).
  assert (Ri : forall (d : list N) i, reads (qact (alift (index d i)))) by (intros; exact I).
  destruct b; cbn [q_pmake];
    unfold q_create_arp_packet, q_create_tcp_packet, q_create_udp_packet, q_create_icmp_packet, q_create_ipv4ip_packet, q_create_ipv6ip_packet,
      q_create_tcpv6_packet, q_create_udpv6_packet, q_create_icmpv6_packet, q_create_vxlan_packet, q_create_vxlanv6_packet, q_create_gre_packet,
      q_create_erspan_2_packet, q_create_erspan_3_packet;
    repeat (apply gentle_bind; [solve [apply Rv|apply Ro|apply Ri|repeat first [apply Rv|apply Ri|progress rd]]|intros]; cbv zeta);
    try (match goal with |- gentle (let '(_, _) := ?x in _) => destruct x end);
    try solve [apply gentle_v4|apply gentle_v6|apply reads_gentle, reads_eth
      |apply gentle_then; [first [apply gentle_v4|apply gentle_v6]|intros; mt]].
  apply reads_gentle. unfold q_arp, q_mac, q_ip4. repeat first [apply reads_eth|apply reads_fill|progress rd].
Qed.

Lemma fmt_nonempty v : fmt_02x v <> EmptyString.
Proof. unfold fmt_02x, fmt_right. destruct (fmt_num 16 v) as [|c [|c' s]]; cbn; discriminate. Qed.
Lemma label_nonempty f : show_label f <> EmptyString.
Proof. unfold show_label. apply ends_nonempty. discriminate. Qed.
Lemma reads_header bits T : (forall a b, areads (bits a b)) -> reads (q_show_header bits T).
Proof.
  intros R. assert (O : forall n i, reads (q_show_octets bits i n)).
  { induction n as [|n IH]; intros i; cbn [q_show_octets]; [exact I|]. apply reads_bind; [apply reads_act, R|intros v].
    apply reads_bind; [apply reads_say, ends_nonempty; discriminate|auto]. }
  assert (F : forall f, reads (q_show_field bits f)).
  { intros f. unfold q_show_field. cbv zeta. apply reads_bind; [apply reads_say, label_nonempty|intros _]. apply reads_bind; [|intros; apply reads_say; discriminate].
    destruct (f_width f <=? 8)%nat; [|destruct (f_width f mod 8 =? 0)%nat; [apply O|apply reads_bind; [apply O|intros _]]];
      (apply reads_bind; [apply reads_act, R|intros v; apply reads_say, fmt_nonempty]). }
  unfold q_show_header. apply reads_bind; [apply reads_say; discriminate|intros _]. apply reads_bind; [apply reads_say; discriminate|intros _].
  induction (ht_fields T) as [|f l IH]; cbn [q_show_fields]; [exact I|]. apply reads_bind; auto.
Qed.
Lemma reads_raw v : reads (q_show_raw v).
Proof.
  unfold q_show_raw. apply reads_bind; [apply reads_say; discriminate|intros _]. apply reads_bind; [|intros; apply reads_say; discriminate].
  generalize 0%nat. induction v as [|b v IH]; intros x; cbn [q_dump]; [exact I|]. apply reads_bind; [apply reads_say, ends_nonempty; discriminate|intros _].
  cbv zeta. destruct (S x mod 16 =? 0)%nat; [apply reads_bind; [apply reads_say; discriminate|auto]|auto].
Qed.
Lemma gentle_call m ip6 k : gentle (q_call m ip6 k).
Proof.
  destruct k; cbn [q_call]; try (apply mute_gentle, mute_act); (apply gentle_then; [|intros; exact I]);
    first [apply gentle_hmake|apply gentle_pmake|apply reads_gentle].
  - apply reads_header. intros. apply areads_bits.
  - unfold q_compare, q_compare_with_slice. rd.
  - unfold q_compare_with_slice. rd.
  - unfold q_pkt_show. apply reads_bind; [|intros _; apply reads_bind; [apply reads_act, areads_vec|intros; apply reads_raw]].
    induction (p_hdrs p) as [|x l IH]; cbn [q_show_hdrs]; [exact I|]. apply reads_bind; [apply reads_header; intros; apply areads_bits|auto].
  - apply reads_fill.
  - apply reads_fill.
  - apply reads_header. intros. exact I.
  - unfold q_ps_show. apply reads_bind; [|intros; apply reads_raw].
    induction (ps_hdrs q) as [|x l IH]; cbn [q_show_shdrs]; [exact I|]. apply reads_bind; [apply reads_header; intros; exact I|auto].
  - apply reads_ip6.
Qed.

(** ** Steps *)

Definition gentle_state (t : qstate) : Prop := match t with QRun q => gentle q | QWait _ _ q => mute q end.
Definition grows (h h' : heap) : Prop := exists new, h' = h ++ new /\ Forall (fun c => c_poisoned c = false) new.
Lemma grows_refl h : grows h h.
Proof. exists []. rewrite app_nil_r. auto. Qed.
Lemma grows_trans h h1 h2 : grows h h1 -> grows h1 h2 -> grows h h2.
Proof. intros (a & -> & A) (b & -> & B). exists (a ++ b). rewrite app_assoc. split; auto. apply Forall_app. auto. Qed.
Lemma lock_same {A} r (f : list N -> out A) h a h' : with_lock r (fun d => (f d, d)) h = (Ret a, h') -> h' = h.
Proof.
  unfold with_lock. destruct (nth_error h r) as [[d [|]]|] eqn:E; cbn [c_poisoned c_data]; try discriminate.
  destruct (f d); try discriminate. intros [= _ <-]. apply upd_same. exact E.
Qed.
Lemma gentle_after {A} (f : list N -> out A) r h k h' new s t : (forall b, gentle (k b)) ->
  pafter (with_lock r (fun d => (f d, d)) h) (fun b => QRun (k b)) = (h', new, s, t) -> gentle_state t /\ (mute_state t \/ grows h h').
Proof.
  intros G E. destruct (with_lock r (fun d => (f d, d)) h) as [[b|e| | |] h1] eqn:L; cbn [pafter] in E; injection E as <- <- <- <-; cbn [gentle_state mute_state gentle mute]; auto.
  apply lock_same in L. subst. split; [apply G|right; apply grows_refl].
Qed.
Lemma gentle_step ts h t h' new s t' : gentle_state t -> qstep ts h t = Some (h', new, s, t') -> gentle_state t' /\ (mute_state t' \/ grows h h').
Proof.
  intros G E. destruct t as [[o|u f|d f|r i f|r i v f|r f|x o f]|x o q]; cbn [qstep gentle_state gentle] in *; try discriminate.
  - injection E as <- <- <- <-. split; [apply G|right; apply grows_refl].
  - injection E as <- <- <- <-. split; [apply G|right]. exists [Cell d false]. split; auto.
  - destruct (pheld ts r); [discriminate|]. injection E as E. eapply (gentle_after (fun d => index d i)); eauto.
  - destruct (pheld ts r); [discriminate|]. injection E as E. assert (M : mute_state t') by (eapply mute_after; [|exact E]; intros; exact G).
    split; [|auto]. destruct t'; cbn in *; auto using mute_gentle.
  - destruct (pheld ts r); [discriminate|]. injection E as E. eapply (gentle_after (fun d => Ret d)); eauto.
  - destruct (pheld ts x); [discriminate|]. injection E as E. assert (M : mute_state t') by (eapply mute_after; [|exact E]; intros; exact G).
    split; [|auto]. destruct t'; cbn in *; auto using mute_gentle.
  - assert (M : mute_state t') by (eapply (mute_step ts h (QWait x o q)); [exact G|exact E]). split; [|auto]. destruct t'; cbn in *; auto using mute_gentle.
Qed.
Lemma gentle_preach m ip6 w i k own said t : preach m ip6 w -> pbusy w i k own said t -> gentle_state t.
Proof.
  intros R. revert i k own said t. induction R as [|w j w' R IH S]; intros i k own said t B; [destruct i; discriminate|].
  destruct S as [|j k' w' K T E|j w' E|j w' E]; unfold pbusy in *.
  - cbn [pspawn pw_threads] in B. destruct (Nat.lt_ge_cases i (length (pw_threads w))) as [L|L].
    + rewrite nth_error_app1 in B by auto. eauto.
    + rewrite nth_error_app2 in B by auto. destruct (i - length (pw_threads w))%nat as [|[|z]]; discriminate.
  - destruct (pcall_inv _ _ _ _ _ _ E) as (Ei & ->). cbn [pw_threads] in B. apply upd_cases in B. destruct B as [(-> & [= -> -> -> ->])|(Ne & B)].
    + apply gentle_call.
    + eauto.
  - destruct (pdo_inv _ _ _ E) as (k1 & own1 & said1 & t1 & h & new & s & t' & B1 & S & ->). cbn [pw_threads] in B. apply upd_cases in B.
    destruct B as [(-> & [= -> -> -> ->])|(Ne & B)]; [|eauto]. apply (gentle_step _ _ _ _ _ _ _ (IH _ _ _ _ _ B1) S).
  - destruct (pback_inv _ _ _ E) as (k1 & own1 & said1 & o & B1 & Cb & ->). cbn [pw_threads] in B. apply upd_cases in B.
    destruct B as [(_ & [=])|(Ne & B)]. eauto.
Qed.
Lemma gentle_freach m ip6 w i k own said t : freach m ip6 w -> pbusy w i k own said t -> gentle_state t.
Proof. intros R B. destruct (freach_more _ _ _ R) as (g & w' & R' & M). eapply (gentle_preach m ip6 w' (g i)); [exact R'|]. apply M. exact B. Qed.

Lemma fmove_other m ip6 w j w' i k own said t : fmove m ip6 w j w' -> j <> Some i -> pbusy w i k own said t -> pbusy w' i k own said t.
Proof.
  intros S N B. unfold pbusy in *. destruct S as [j w' S|j n w' E].
  - destruct S as [|j k' w' K T E|j w' E|j w' E].
    + cbn [pspawn pw_threads]. rewrite nth_error_app1; [exact B|]. eapply nth_lt; eauto.
    + destruct (pcall_inv _ _ _ _ _ _ E) as (Ei & ->). cbn [pw_threads]. rewrite upd_other; [exact B|congruence].
    + destruct (pdo_inv _ _ _ E) as (k1 & own1 & said1 & t1 & h & new & s & t' & B1 & S & ->). cbn [pw_threads]. rewrite upd_other; [exact B|congruence].
    + destruct (pback_inv _ _ _ E) as (k1 & own1 & said1 & o & B1 & Cb & ->). cbn [pw_threads]. rewrite upd_other; [exact B|congruence].
  - destruct (pfail_inv _ _ _ _ E) as (k1 & own1 & said1 & s & q & B1 & ->). cbn [pw_threads]. rewrite upd_other; [exact B|congruence].
Qed.
Lemma mute_stays m ip6 i w w' k own said t : same_call m ip6 i w w' -> pbusy w i k own said t -> mute_state t ->
  exists own' said' t', pbusy w' i k own' said' t' /\ mute_state t'.
Proof.
  intros S B M. induction S as [w|w w1 w2 S IH E|w w1 j w2 S IH Mv N]; [eauto| |].
  - destruct (IH B) as (own1 & said1 & t1 & B1 & M1). destruct (pdo_inv _ _ _ E) as (k2 & own2 & said2 & t2 & h & new & s & t' & B2 & S2 & ->).
    unfold pbusy in *. rewrite B1 in B2. injection B2 as <- <- <- <-. cbn [pw_threads]. rewrite (nth_upd_at _ _ _ _ B1).
    destruct (mute_step _ _ _ _ _ _ _ M1 S2) as (_ & M'). eauto.
  - destruct (IH B) as (own1 & said1 & t1 & B1 & M1). pose proof (fmove_other _ _ _ _ _ _ _ _ _ _ Mv N B1). eauto.
Qed.

(** ** Alone *)

Lemma concat_cons s l : String.concat "" (s :: l) = (s ++ String.concat "" l)%string.
Proof. change (s :: l) with ([s] ++ l). rewrite concat_nil_app. reflexivity. Qed.

Lemma cut_spec {A} (q : pact A) : forall h, exists l, qsolo q h = (String.concat "" l, snd (qsolo q h)) /\
  (gentle q -> Forall (fun s => s <> EmptyString) l) /\ (mute q -> l = []) /\
  (forall n, (length l <= n)%nat -> qcut n q h = (l, Some (fst (snd (qsolo q h))), snd (snd (qsolo q h)))) /\
  (forall n, (n < length l)%nat -> exists h', qcut n q h = (firstn n l, None, h') /\ (gentle q -> grows h h')).
Proof.
  assert (On : forall B (o : out B * heap) (f : B -> pact A) h, (forall b h', exists l, qsolo (f b) h' = (String.concat "" l, snd (qsolo (f b) h')) /\
    (gentle (f b) -> Forall (fun s => s <> EmptyString) l) /\ (mute (f b) -> l = []) /\
    (forall n, (length l <= n)%nat -> qcut n (f b) h' = (l, Some (fst (snd (qsolo (f b) h'))), snd (snd (qsolo (f b) h')))) /\
    (forall n, (n < length l)%nat -> exists h'', qcut n (f b) h' = (firstn n l, None, h'') /\ (gentle (f b) -> grows h' h''))) ->
    forall G : Prop, (G -> forall b, gentle (f b)) -> (G -> (forall b, mute (f b)) \/ forall b h', o = (Ret b, h') -> grows h h') ->
    forall C : nat -> list string * option (out A) * heap,
    (forall n, C n = match o with (Ret b, h') => qcut n (f b) h' | (Panic e, h') => ([], Some (Panic e), h') | (UB, h') => ([], Some UB, h')
      | (Hang, h') => ([], Some Hang, h') | (Fuel, h') => ([], Some Fuel, h') end) ->
    let W := wbind (run (fun _ => o)) (fun b => qsolo (f b)) h in
    exists l, W = (String.concat "" l, snd W) /\ (G -> Forall (fun s => s <> EmptyString) l) /\ ((forall b, mute (f b)) -> l = []) /\
    (forall n, (length l <= n)%nat -> C n = (l, Some (fst (snd W)), snd (snd W))) /\
    (forall n, (n < length l)%nat -> exists h', C n = (firstn n l, None, h') /\ (G -> grows h h'))).
  { intros B o f h IH G Gf Gr C HC W. destruct o as [[b|e| | |] h1]; unfold W, wbind, run; try (exists []; split; [reflexivity|]; split; [intros; constructor|]; split; [reflexivity|]; split; [intros n _; apply HC|cbn; intros n L; lia]).
    destruct (IH b h1) as (l & E & Ne & Mu & Ge & Lt). exists l. rewrite E. cbn [fst snd append]. split; [reflexivity|]. split; [auto|]. split; [auto|]. split.
    - intros n L. rewrite HC. auto.
    - intros n L. destruct (Lt n L) as (h2 & E2 & G2). exists h2. rewrite HC. split; [exact E2|]. intros g. destruct (Gr g) as [M|M].
      + rewrite (Mu (M b)) in L. cbn in L. lia.
      + eapply grows_trans; [apply (M _ _ eq_refl)|]. auto. }
  induction q as [o|s k IH|d k IH|r i k IH|r i v k IH|r k IH|x o k IH]; intros h.
  - exists []. cbn. repeat split; auto. intros n L. lia.
  - destruct (IH h) as (l & E & Ne & Mu & Ge & Lt). exists (s :: l). cbn [qsolo]. unfold wbind, say. rewrite E. cbn [fst snd]. rewrite concat_cons.
    split; [reflexivity|]. split; [intros (N & G); constructor; auto|]. split; [intros []|]. split.
    + intros [|n] L; cbn [length] in L; [lia|]. cbn [qcut]. rewrite Ge by lia. reflexivity.
    + intros [|n] L; cbn [length] in L; cbn [qcut firstn].
      * exists h. split; [reflexivity|]. intros _. apply grows_refl.
      * destruct (Lt n) as (h' & E' & G'); [lia|]. rewrite E'. exists h'. split; [reflexivity|]. intros (_ & G). auto.
  - apply (On _ (alloc d h) k h IH (gentle (QAlloc d k))); auto. intros _. right. intros b h' [= <- <-]. exists [Cell d false]. auto.
  - apply (On _ (with_lock r (fun d => (index d i, d)) h) k h IH (gentle (QRead r i k))); auto. intros _. right. intros b h' E. apply lock_same in E. subst. apply grows_refl.
  - destruct (On _ (with_lock r (fun d => set_bit_step d i v) h) (fun _ => k) h (fun _ => IH) (gentle (QWrite r i v k))
      (fun G _ => mute_gentle _ G) (fun G => or_introl (fun _ => G)) (fun n => qcut n (QWrite r i v k) h) (fun n => eq_refl)) as (l & H1 & H2 & H3 & H4). exists l.
    split; [exact H1|]. split; [exact H2|]. split; [intros M; apply H3; auto|exact H4].
  - apply (On _ (with_lock r (fun d => (Ret d, d)) h) k h IH (gentle (QCopy r k))); auto. intros _. right. intros b h' E. apply (lock_same r (fun d => Ret d)) in E. subst. apply grows_refl.
  - destruct (On _ (hreplace (Hdr Tester x) (Hdr Tester o) h) (fun _ => k) h (fun _ => IH) (gentle (QRepl x o k))
      (fun G _ => mute_gentle _ G) (fun G => or_introl (fun _ => G)) (fun n => qcut n (QRepl x o k) h) (fun n => eq_refl)) as (l & H1 & H2 & H3 & H4). exists l.
    split; [exact H1|]. split; [exact H2|]. split; [intros M; apply H3; auto|exact H4].
Qed.

(** ** The text of a thread *)

Lemma fby_thread m ip6 w l i : fruns m ip6 w l -> text_of i (pw_out w) = (texts i l ++ in_progress w i)%string.
Proof.
  induction 1 as [|w l R IH|w l j k w' R IH K T E|w l j w' R IH E|w l j k own said t w' R IH B E|w l j n k own said s q w' R IH B E]; unfold in_progress in *.
  - destruct i; reflexivity.
  - cbn [pspawn pw_out pw_threads]. rewrite IH. f_equal. destruct (Nat.lt_ge_cases i (length (pw_threads w))) as [L|L].
    + rewrite nth_error_app1 by auto. reflexivity.
    + rewrite nth_error_app2 by auto. rewrite (proj2 (nth_error_None _ _) L). destruct (i - length (pw_threads w))%nat as [|[|z]]; reflexivity.
  - destruct (pcall_inv _ _ _ _ _ _ E) as (Ei & ->). cbn [pw_out pw_threads]. rewrite IH. f_equal. destruct (Nat.eq_dec i j) as [->|Ne].
    + rewrite Ei. rewrite (nth_upd_at _ _ _ _ Ei). reflexivity.
    + rewrite upd_other by auto. reflexivity.
  - destruct (pdo_inv _ _ _ E) as (k1 & own1 & said1 & t1 & h & new & s & t' & B1 & S & ->). cbn [pw_out pw_threads]. unfold pbusy in B1.
    rewrite text_app, IH, text_emit. destruct (Nat.eq_dec i j) as [->|Ne].
    + rewrite B1, (nth_upd_at _ _ _ _ B1), Nat.eqb_refl. rewrite TPrintSim.append_assoc. reflexivity.
    + rewrite upd_other by auto. rewrite (proj2 (Nat.eqb_neq j i)) by auto. apply TPrintSim.append_nil.
  - destruct (pback_inv _ _ _ E) as (k1 & own1 & said1 & o & B1 & Cb & ->). cbn [pw_out pw_threads]. unfold pbusy in *. rewrite B in B1.
    injection B1 as <- <- <- ->. rewrite texts_app, IH. destruct (Nat.eq_dec i j) as [->|Ne].
    + rewrite B, (nth_upd_at _ _ _ _ B). unfold texts. cbn [filter fst map snd]. rewrite Nat.eqb_refl. cbn [map String.concat].
      rewrite TPrintSim.append_nil. reflexivity.
    + rewrite upd_other by auto. unfold texts at 3. cbn [filter fst]. rewrite (proj2 (Nat.eqb_neq j i)) by auto. cbn [map String.concat].
      rewrite TPrintSim.append_nil. reflexivity.
  - destruct (pfail_inv _ _ _ _ E) as (k1 & own1 & said1 & s1 & q1 & B1 & ->). cbn [pw_out pw_threads]. unfold pbusy in *. rewrite B in B1.
    injection B1 as <- <- <- <- <-. rewrite texts_app, text_app, text_emit, IH. destruct (Nat.eq_dec i j) as [->|Ne].
    + rewrite B, (nth_upd_at _ _ _ _ B), Nat.eqb_refl. unfold texts. cbn [filter fst map snd]. rewrite Nat.eqb_refl. cbn [map String.concat].
      rewrite !TPrintSim.append_nil, !TPrintSim.append_assoc. reflexivity.
    + rewrite upd_other by auto. rewrite (proj2 (Nat.eqb_neq j i)) by auto. unfold texts at 3. cbn [filter fst]. rewrite (proj2 (Nat.eqb_neq j i)) by auto. cbn [map String.concat].
      rewrite !TPrintSim.append_nil. reflexivity.
Qed.
Lemma fruns_reach m ip6 w l : fruns m ip6 w l -> freach m ip6 w.
Proof.
  induction 1 as [|w l R IH|w l j k w' R IH K T E|w l j w' R IH E|w l j k own said t w' R IH B E|w l j n k own said s q w' R IH B E]; [constructor|..];
    (eapply FR_move; [exact IH|]).
  - apply FM_move. constructor.
  - apply FM_move. eapply PM_call; eauto.
  - apply FM_move. eapply PM_do; eauto.
  - apply FM_move. eapply PM_back; eauto.
  - eapply FM_fail; eauto.
Qed.
Lemma freach_runs m ip6 w : freach m ip6 w -> exists l, fruns m ip6 w l.
Proof.
  induction 1 as [|w j w' R (l & IH) S]; [exists []; constructor|]. destruct S as [j w' S|j n w' E].
  - destruct S as [|j k' w' K T E|j w' E|j w' E].
    + exists l. constructor; auto.
    + exists l. eapply FX_call; eauto.
    + exists l. eapply FX_do; eauto.
    + destruct (pback_inv _ _ _ E) as (k1 & own1 & said1 & o & B1 & Cb & _). eexists. eapply FX_back; eauto.
  - destruct (pfail_inv _ _ _ _ E) as (k1 & own1 & said1 & s1 & q1 & B1 & _). eexists. eapply FX_fail; eauto.
Qed.

(** ** A thread that is cut off and not interrupted *)

Definition stops (i : nat) (w : pworld) (k : call) (said : string) (l : list string) (h : heap) : Prop :=
  exists w2 own s q, ponly i w w2 /\ pbusy w2 i k own (said ++ String.concat "" l) (QRun (QSay s q)) /\ pw_client w2 = set_heap (pw_client w) h /\
  stdout w2 = (stdout w ++ String.concat "" l)%string.
Lemma stops_step i w k own said t h1 new s1 t1 l l' h : pbusy w i k own said t -> qstep (pw_threads w) (p_heap w) t = Some (h1, new, s1, t1) ->
  stops i (PW (set_heap (pw_client w) h1) (upd (pw_threads w) i (PBusy k (own ++ new) (said ++ s1) t1)) (pw_out w ++ emit i s1)) k (said ++ s1) l h ->
  String.concat "" l' = (s1 ++ String.concat "" l)%string -> stops i w k said l' h.
Proof.
  intros B S (w2 & own' & s & q & O & B2 & C & T) El. exists w2, own', s, q. rewrite El. cbn [pw_client] in C. rewrite set_set in C.
  rewrite TPrintSim.append_assoc in B2. split; [|split; [exact B2|split; [exact C|]]].
  - eapply POnly_step; [|exact O]. unfold pdo. unfold pbusy in B. unfold p_heap in S. rewrite B, S. reflexivity.
  - rewrite T. unfold stdout. cbn [pw_out]. rewrite map_app, concat_nil_app. rewrite TPrintSim.append_assoc. f_equal. destruct s1; reflexivity.
Qed.
Lemma cut_run i q : forall n w k own said l h, gentle q -> pbusy w i k own said (QRun q) -> (forall r, pheld (pw_threads w) r = false) ->
  qcut n q (p_heap w) = (l, None, h) -> stops i w k said l h.
Proof.
  assert (Mute : forall (q : pact kres) h n l h', mute q -> qcut n q h <> (l, None, h')).
  { intros q0 h n l h' M. destruct (cut_spec q0 h) as (l0 & _ & _ & Mu & Ge & _). rewrite (Mu M) in Ge. rewrite (Ge n) by apply Nat.le_0_l. discriminate. }
  assert (Sec : forall B r (g : list N -> out B) (f : B -> pact kres) n w k own said l h q,
    (forall b n w k own said l h, gentle (f b) -> pbusy w i k own said (QRun (f b)) -> (forall r, pheld (pw_threads w) r = false) ->
      qcut n (f b) (p_heap w) = (l, None, h) -> stops i w k said l h) -> (forall b, gentle (f b)) ->
    pbusy w i k own said (QRun q) -> (forall r, pheld (pw_threads w) r = false) ->
    qstep (pw_threads w) (p_heap w) (QRun q) = Some (pafter (with_lock r (fun d => (g d, d)) (p_heap w)) (fun b => QRun (f b))) ->
    match with_lock r (fun d => (g d, d)) (p_heap w) with
    | (Ret b, h') => qcut n (f b) h' | (Panic e, h') => ([], Some (Panic e), h') | (UB, h') => ([], Some UB, h')
    | (Hang, h') => ([], Some Hang, h') | (Fuel, h') => ([], Some Fuel, h') end = (l, None, h) -> stops i w k said l h).
  { intros B r g f n w k own said l h q0 IH G E F S Ex. destruct (with_lock r _ (p_heap w)) as [[b|e| | |] h1] eqn:El; try discriminate. cbn [pafter] in S.
    eapply (stops_step _ _ _ _ _ _ _ _ _ _ l l); [exact E|exact S| |reflexivity]. eapply (IH b n); [apply G|..].
    - eapply nth_upd_at; eauto.
    - intros r'. cbn [pw_threads]. apply pheld_run. auto.
    - exact Ex. }
  induction q as [o1|u f IH|d f IH|r j f IH|r j v f IH|r f IH|x y f IH]; intros n w k own said l h G E F Ex; cbn [gentle] in G.
  - discriminate.
  - cbn [qcut] in Ex. destruct n as [|n].
    + injection Ex as <- <-. exists w, own, u, f. cbn [String.concat]. rewrite !TPrintSim.append_nil. split; [constructor|]. split; [exact E|].
      unfold p_heap. rewrite set_same. auto.
    + destruct (qcut n f (p_heap w)) as [[l1 o1] h1] eqn:Ef. injection Ex as <- -> <-. destruct G as (_ & G).
      eapply stops_step; [exact E|reflexivity| |apply concat_cons]. eapply IH; eauto; [eapply nth_upd_at; eauto|]. intros r'. cbn [pw_threads]. apply pheld_run. auto.
  - cbn [qcut alloc] in Ex. eapply (stops_step _ _ _ _ _ _ _ _ _ _ l l); [exact E|reflexivity| |reflexivity]. eapply (IH (length (p_heap w)) n); [apply G|..].
    + eapply nth_upd_at; eauto.
    + intros r'. cbn [pw_threads]. apply pheld_run. auto.
    + exact Ex.
  - eapply (Sec N r (fun d => index d j) f n); eauto. cbn [qstep]. rewrite F. reflexivity.
  - destruct (Mute (QWrite r j v f) _ _ _ _ G Ex).
  - eapply (Sec (list N) r (fun d => Ret d) f n); eauto. cbn [qstep]. rewrite F. reflexivity.
  - destruct (Mute (QRepl x y f) _ _ _ _ G Ex).
Qed.
