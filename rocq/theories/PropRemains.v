(** PropRemains.v -- C88: what a call that panics leaves behind. *)

From Coq Require Import Lia.
From Verif Require Import Base Bits Types Layout Heap Packet Text Build Utils Slow Fast Show Ops Client Spec Grammar
  ClientSpec PanicSpec BitsProofs HeapProofs OpsProofs PacketProofs PropBuild Ipv6 PropIpv6 ClientProofs PropClient PanicProofs PropPanic RemainsSpec RemainsProofs.
Open Scope N_scope.

(** The bytes of every buffer that was there are as they were, unless the call was
    [set_bytes] or [replace] on that buffer. Setters in particular are all or nothing. *)
Theorem C88_kept : forall m ip6 c k e h' r d, octets16 ip6 -> client_ok c -> known c k -> typed k ->
  kexec m ip6 k (k_heap c) = (Panic e, h') -> bytes_at (k_heap c) r d -> ~ halfway k r -> bytes_at h' r d.
Proof.
  intros m ip6 c k e h' r d O6 C K T E H N.
  assert (Lr : (r < length (k_heap c))%nat) by (destruct H as (p & H); apply nth_error_Some; rewrite H; discriminate).
  assert (F : ~ In r (touches k) -> bytes_at h' r d).
  { intros X. destruct H as (p & H). exists p. rewrite <- H. eapply C66_frame; eauto. right. eauto. }
  assert (G : forall x : M kres, keepd x -> x (k_heap c) = (Panic e, h') -> bytes_at h' r d).
  { intros x X Y. specialize (X _ _ _ H). rewrite Y in X. exact X. }
  assert (Live : forall x, In x (k_hdrs c) -> live (k_heap c) x) by (intros x; apply known_hdr; auto).
  destruct k; cbn [touches] in F; try (apply F; intros []; fail).
  - destruct o; cbn [touches hop_hdrs map] in F; try (apply F; intros []; fail); cbn [kexec hexec known hop_hdrs] in *.
    + eapply G; [|exact E]. apply keepd_bind; [apply keepd_bind; [apply keepd_bit_range|]|]; intros; apply keepd_ret.
    + unfold bind, hset in E. destruct (hset_bit_range x (f_end f) (f_start f) v (k_heap c)) as [[|e0| | |] h1] eqn:S; try discriminate E. injection E as -> ->.
      eapply setter_kept; eauto; [apply C|]. apply Live, K. left; auto.
    + eapply G; [|exact E]. apply keepd_bind; [apply keepd_bind; [apply keepd_bit_range|]|]; intros; apply keepd_ret.
    + unfold bind in E. destruct (hset_bit_range x msb lsb v (k_heap c)) as [[|e0| | |] h1] eqn:S; try discriminate E. injection E as -> ->.
      eapply setter_kept; eauto; [apply C|]. apply Live, K. left; auto.
    + eapply G; [|exact E]. apply keepd_bind; [apply keepd_bind; [apply keepd_hbytes|]|]; intros; apply keepd_ret.
    + apply F. intros [X|[]]. apply N. cbn. auto.
    + apply F. intros [X|[]]. apply N. cbn. auto.
  - eapply G; [|exact E]. cbn [kexec]. apply keepd_bind; [apply keepd_show|]. intros; apply keepd_ret.
  - eapply G; [|exact E]. cbn [kexec]. apply keepd_bind; [apply keepd_pshow|]. intros; apply keepd_ret.
Qed.
Print Assumptions C88_kept.

(** [set_bytes] writes the bytes for which there is room before it panics with an index
    out of bounds, and none if it panics otherwise. *)
Theorem C88_set_bytes : forall m ip6 c x msb lsb v e h' d, octets16 ip6 -> client_ok c -> In x (k_hdrs c) -> bytes_ok v ->
  kexec m ip6 (K_hdr (OSetBytes x msb lsb v)) (k_heap c) = (Panic e, h') -> bytes_at (k_heap c) (h_ref x) d ->
  (e <> PIndex \/ v = [] -> h' = k_heap c) /\
  (e = PIndex -> v <> [] -> (whole_bytes d lsb < length v)%nat /\
     exists d', nth_error h' (h_ref x) = Some (Cell d' true) /\ written (whole_bytes d lsb) v lsb d d').
Proof.
  intros m ip6 c x msb lsb v e h' d O6 C K V E H. set (h := k_heap c) in *. cbn [kexec hexec] in E.
  pose proof (known_hdr _ _ C K) as Hx. destruct C as (Hh & _). fold h in Hh, Hx.
  assert (Sb : hset_bytes m x msb lsb v h = (Panic e, h')).
  { unfold bind in E. destruct (hset_bytes m x msb lsb v h) as [[|e0| | |] h1]; try discriminate E. injection E as -> ->. reflexivity. }
  assert (Z : h' = h -> (e = PIndex -> v = []) -> (e <> PIndex \/ v = [] -> h' = h) /\
    (e = PIndex -> v <> [] -> (whole_bytes d lsb < length v)%nat /\
     exists d', nth_error h' (h_ref x) = Some (Cell d' true) /\ written (whole_bytes d lsb) v lsb d d')).
  { intros -> W. split; auto. intros X Y. destruct (Y (W X)). }
  unfold hset_bytes in Sb. unfold bind at 1 in Sb. unfold lift in Sb.
  destruct (set_bytes_guard_cases m v msb lsb) as [(G0 & G & W)|(e0 & G0 & Ne & _)]; rewrite G0 in Sb.
  2:{ injection Sb as <- <-. apply Z; auto. intros ->. congruence. }
  destruct W as [R|[(Wd & -> & ->)|(NW & R & W)]].
  { unfold step8_len, range_len in Sb. replace (S msb - lsb)%nat with O in Sb by lia. discriminate Sb. }
  { unfold step8_len in Sb. assert (S8 : exists n, ((range_len msb lsb + 7) / 8 = S n)%nat).
    { destruct Wd as [_ ->]. unfold range_len. replace (S msb - 0 + 7)%nat with (msb + 1 * 8)%nat by lia.
      rewrite Nat.div_add by lia. exists (msb / 8)%nat. lia. }
    destruct S8 as [n S8]. rewrite S8 in Sb. cbn [hset_bytes_loop] in Sb. unfold bind at 1, lift in Sb. cbn [index nth_error] in Sb. injection Sb as _ <-. apply Z; auto. }
  unfold step8_len, range_len in Sb. replace (S msb - lsb)%nat with (msb - lsb + 1)%nat in Sb by lia.
  assert (W8 : ((msb - lsb + 1) mod 8 = 0)%nat) by (rewrite <- W, Nat.mul_comm; apply Nat.mod_mul; lia).
  destruct (mod8_len _ W8) as [Y W8']. rewrite Y in Sb. replace ((msb - lsb + 1) / 8)%nat with (length v) in Sb by lia.
  destruct (live_cases h x Hx) as [[d0 Hd]|D].
  - assert (d0 = d) by (destruct H as (p & H); unfold cell_at in Hd; congruence). subst d0. pose proof (heap_ok_cell _ _ _ Hh Hd) as Hb.
    destruct (Nat.le_gt_cases (8 * length d) msb) as [Ov|I].
    + rewrite (set_bytes_part x h d lsb (length v) v 0) in Sb by (auto; lia). injection Sb as <- <-.
      split; [intros [Q|Q]; [congruence|subst v; cbn [length] in W; lia]|]. intros _ _.
      assert (Q : (8 * whole_bytes d lsb <= 8 * length d - lsb)%nat) by (unfold whole_bytes; apply Nat.mul_div_le; lia).
      split; [lia|]. exists (woctets d lsb (firstn (whole_bytes d lsb) (skipn 0 v))). split; [eapply cell_at_upd; eauto|]. cbn [skipn].
      destruct (whole_bytes d lsb) as [|n] eqn:En.
      * split; auto. split; [intros; lia|auto].
      * apply written_woctets; auto; lia.
    + exfalso. destruct (hset_bytes_loop_cases x h d lsb (length v) v 0 Hd Hb ltac:(lia)) as [A _]. destruct (A ltac:(lia)) as [d' E']. rewrite E' in Sb. discriminate Sb.
  - destruct v as [|a v']; [cbn [length] in W; lia|]. remember (length (a :: v')) as n. destruct n as [|n]; [discriminate Heqn|]. cbn [hset_bytes_loop] in Sb. unfold lift, bind at 1 in Sb.
    rewrite (index_lt (a :: v') 0 0) in Sb by (cbn; lia). unfold bind at 1 in Sb.
    rewrite hset_bit_range_dead in Sb by (auto; lia). injection Sb as <- <-. rewrite Heqn in *. apply Z; auto. discriminate.
Qed.
Print Assumptions C88_set_bytes.

(** [replace] clears its header before it looks at the other, so a poisoned other leaves
    it empty, and poisoned too. *)
Theorem C88_replace : forall m ip6 c x y e h', client_ok c -> In x (k_hdrs c) -> In y (k_hdrs c) ->
  kexec m ip6 (K_hdr (OReplace x y)) (k_heap c) = (Panic e, h') ->
  e = PPoison /\ (poisoned_at (k_heap c) (h_ref x) /\ h' = k_heap c \/
    ~ poisoned_at (k_heap c) (h_ref x) /\ poisoned_at (k_heap c) (h_ref y) /\ nth_error h' (h_ref x) = Some (Cell [] true) /\ only_changes (h_ref x) (k_heap c) h').
Proof.
  intros m ip6 c x y e h' C X Y E. pose proof (known_hdr _ _ C X) as Lx. pose proof (known_hdr _ _ C Y) as Ly. cbn [kexec hexec] in E. unfold bind, hreplace in E.
  set (h := k_heap c) in *. destruct (live_cases h x Lx) as [[d Hd]|[d Hd]].
  - pose proof (not_dead _ _ _ Hd) as Nx. unfold cell_at in Hd. rewrite Hd in E. cbn [c_poisoned] in E.
    destruct (live_cases h y Ly) as [[d' Hd']|[d' Hd']]; [unfold cell_at in Hd'|]; rewrite Hd' in E; cbn [c_poisoned c_data] in E.
    + destruct (h_ref x =? h_ref y)%nat; discriminate E.
    + destruct (Nat.eqb_spec (h_ref x) (h_ref y)); [discriminate E|]. injection E as <- <-. split; auto. right. split; auto. split; [eexists; exact Hd'|].
      split; [eapply cell_at_upd; exact Hd|]. split; [apply upd_length|]. intros q Q. apply cell_at_upd_other. auto.
  - rewrite Hd in E. cbn [c_poisoned] in E. destruct (live_cases h y Ly) as [[d' Hd']|[d' Hd']]; [unfold cell_at in Hd'|]; rewrite Hd' in E; injection E as <- <-;
      (split; auto; left; split; auto; eexists; exact Hd).
Qed.
Print Assumptions C88_replace.

(** What the program can see: a header that is not poisoned afterwards has the bytes it had. *)
Theorem C88_to_vec : forall m ip6 c k e h' x d, octets16 ip6 -> client_ok c -> known c k -> typed k ->
  kexec m ip6 k (k_heap c) = (Panic e, h') -> In x (k_hdrs c) ->
  hto_vec x h' = (Ret d, h') -> hto_vec x (k_heap c) = (Ret d, k_heap c).
Proof.
  intros m ip6 c k e h' x d O6 C K T E X V. pose proof (known_hdr _ _ C X) as Lx.
  assert (P : forall h, (exists p, nth_error h (h_ref x) = Some p) -> (hto_vec x h = (Ret d, h) <-> cell_at h (h_ref x) d)).
  { intros h ([d0 p0] & Q). unfold hto_vec, with_lock, cell_at. rewrite Q. cbn [c_poisoned c_data]. destruct p0; [split; discriminate|].
    rewrite upd_same by auto. split; [intros R|intros R]; [injection R as ->|injection R as ->]; auto. }
  assert (Q : exists p, nth_error (k_heap c) (h_ref x) = Some p).
  { unfold live in Lx. apply nth_error_Some in Lx. destruct (nth_error (k_heap c) (h_ref x)); [eauto|congruence]. }
  apply P; auto. assert (Q' : exists p, nth_error h' (h_ref x) = Some p).
  { unfold hto_vec, with_lock in V. destruct (nth_error h' (h_ref x)); [eauto|discriminate V]. }
  apply P in V; auto. unfold cell_at in V. destruct Q as ([d0 p0] & Q). assert (p0 = false).
  { destruct p0; auto. rewrite (C66_poison m ip6 c k (Panic e) h' (h_ref x) _ O6 C K T E ltac:(right; eauto) Q eq_refl) in V. discriminate V. }
  subst p0. unfold cell_at in *. rewrite Q. do 2 f_equal.
  assert (NH : h' = k_heap c \/ ~ halfway k (h_ref x)).
  { destruct k as [o| | | | | | | | | | | | | | | | | | | | | | | | | | | | | |]; auto. destruct o as [| | | | | | | |x0 msb lsb v|x0 y|]; auto; cbn [halfway].
    - destruct (Nat.eq_dec (h_ref x) (h_ref x0)) as [HW|]; auto. left.
      destruct (C88_set_bytes m ip6 c x0 msb lsb v e h' d0 O6 C) as (A & B); auto; [apply K; left; auto|exists false; rewrite <- HW; exact Q|].
      destruct v as [|a v]; [auto|]. destruct e; try (apply A; left; discriminate).
      destruct (B eq_refl ltac:(discriminate)) as (_ & d' & R & _). rewrite <- HW in R. congruence.
    - destruct (Nat.eq_dec (h_ref x) (h_ref x0)) as [HW|]; auto. left.
      destruct (C88_replace m ip6 c x0 y e h') as (_ & [(_ & D)|(_ & _ & D & _)]); auto; [apply K; left; auto|apply K; right; left; auto|].
      rewrite <- HW in D. congruence. }
  destruct NH as [NH|NH]; [rewrite NH in V; congruence|].
  destruct (C88_kept m ip6 c k e h' (h_ref x) d0 O6 C K T E (ex_intro _ false Q) NH) as (p & R). congruence.
Qed.
Print Assumptions C88_to_vec.

(** A call that panics changes no buffers but those that it poisons (C70), in any way. *)
Theorem C88_exactly : forall m ip6 c k e h' r, octets16 ip6 -> client_ok c -> known c k -> typed k -> shows_declared k ->
  kexec m ip6 k (k_heap c) = (Panic e, h') -> (r < length (k_heap c))%nat ->
  (nth_error h' r = nth_error (k_heap c) r <-> ~ poisons m (k_heap c) k r).
Proof.
  intros m ip6 c k e h' r O6 C K T D E L.
  assert (B : comes_back (@Panic kres e)) by (right; eauto).
  pose proof (C70_poisons m ip6 c k (Panic e) h' r O6 C K T D E B L) as P.
  destruct (nth_error (k_heap c) r) as [[d p]|] eqn:H; [|apply nth_error_None in H; lia].
  assert (Np : poisons m (k_heap c) k r -> p = false).
  { intros X. destruct p; auto. exfalso. clear P.
    assert (TP : forall x i, r = h_ref x -> ~ touch (k_heap c) x i PIndex) by (intros x i -> [[_ Y]|(d1 & Y & _)]; [discriminate Y|unfold cell_at in Y; congruence]).
    destruct k as [o| |x| | | | | | | | | | | | | | |p| | | | | | | | | | | | |]; try contradiction; cbn [poisons] in X.
    - destruct o as [| | |x f|x f v|x msb lsb|x msb lsb v|x msb lsb|x msb lsb v|x y|x]; try contradiction; cbn [call_fault hop_fault] in X.
      + destruct X as (Rx & [(_ & _ & Y)|(_ & [Y|(_ & _ & Y & _)])]); try discriminate Y. exact (TP _ _ Rx Y).
      + destruct X as (Rx & _ & Y). exact (TP _ _ Rx Y).
      + destruct X as (Rx & [(_ & _ & Y)|(_ & [Y|(_ & _ & Y & _)])]); try discriminate Y. exact (TP _ _ Rx Y).
      + destruct X as (Rx & _ & Y). exact (TP _ _ Rx Y).
      + destruct X as (Rx & [[(_ & _ & Y)|[(_ & _ & Y)|(_ & Y)]]|(_ & _ & _ & Y)]); try discriminate Y. exact (TP _ _ Rx Y).
      + destruct X as (Rx & Nv & [[(_ & _ & Y)|[(_ & _ & Y)|(_ & Y)]]|[(_ & _ & Y & _)|(_ & _ & _ & Y)]]); try discriminate Y; [destruct (Nv Y)|exact (TP _ _ Rx Y)].
      + destruct X as (Rx & Y & _). apply Y. exists d. rewrite <- Rx. exact H.
    - destruct X as (Rx & f & _ & Y). exact (TP _ _ Rx Y).
    - destruct X as (pre & x & post & _ & _ & (f & _ & Y) & Rx). exact (TP _ _ Rx Y). }
  split.
  - intros Eq X. assert (R : poisoned_at h' r) by (apply P; auto). destruct R as (d1 & R). rewrite (Np X) in Eq. congruence.
  - intros X. assert (NH : h' = k_heap c \/ ~ halfway k r).
    { destruct k as [o| | | | | | | | | | | | | | | | | | | | | | | | | | | | | |]; auto. destruct o as [| | | | | | | |x0 msb lsb v|x0 y|]; auto; cbn [halfway].
      - destruct (Nat.eq_dec r (h_ref x0)) as [->|]; auto. left. pose proof (C70_panics m ip6 c _ e O6 C K T D) as Y. rewrite E in Y.
        destruct (C88_set_bytes m ip6 c x0 msb lsb v e h' d O6 C) as (A & _); auto; [apply K; left; auto|exists p; exact H|].
        apply A. destruct v as [|a v]; [auto|]. left. intros ->. apply X. split; auto. split; [discriminate|]. apply Y. reflexivity.
      - destruct (Nat.eq_dec r (h_ref x0)) as [->|]; auto. left.
        destruct (C88_replace m ip6 c x0 y e h') as (_ & [(_ & Q)|(Q1 & Q2 & _)]); auto; [apply K; left; auto|apply K; right; left; auto|].
        destruct X. repeat split; auto. }
    destruct NH as [->|NH]; auto.
    destruct (C88_kept m ip6 c k e h' r d O6 C K T E (ex_intro _ p H) NH) as (p' & R). rewrite R. do 2 f_equal.
    unfold poisoned_at in P. rewrite R in P. destruct p, p'; auto.
    + destruct (proj2 P (or_introl (ex_intro _ d H))) as (d1 & Q). discriminate Q.
    + destruct (proj1 P (ex_intro _ d eq_refl)) as [(d1 & Q)|Q]; [congruence|destruct (X Q)].
Qed.
Print Assumptions C88_exactly.

(** "A call that panics changes no bytes" is false of both. *)
Definition c88_two : hdr := Hdr Ether 0.
Definition c88_set : call := K_hdr (OSetBytes c88_two 23 0 [9; 8; 7]).
Definition c88_short (m : mode) : client := kstep m k_start (K_hdr (OFrom Ether [1; 2])).
Lemma c88_reach m : reach m ipv6_from_str (c88_short m).
Proof. unfold c88_short. apply reach_step; [apply Reach_start|intros x []|apply bytes_okb_ok; reflexivity|left; eexists; reflexivity]. Qed.
Theorem C88_bytes_refuted : forall m, ~ (forall c k e h' r d, reach m ipv6_from_str c -> known c k -> typed k ->
  kexec m ipv6_from_str k (k_heap c) = (Panic e, h') -> bytes_at (k_heap c) r d -> bytes_at h' r d).
Proof.
  intros m A. destruct (A (c88_short m) c88_set PIndex [Cell [9; 8] true] 0%nat [1; 2] (c88_reach m)) as (p & X).
  - intros x [<-|[]]. left. reflexivity.
  - apply bytes_okb_ok. reflexivity.
  - destruct m; reflexivity.
  - exists false. reflexivity.
  - discriminate X.
Qed.
Print Assumptions C88_bytes_refuted.

(** A header that was whole is empty after [replace] with a poisoned one. *)
Definition c88_state (m : mode) : client := kstep m (kstep m (c88_short m) (K_hdr (OFrom ICMP [8; 0]))) (K_hdr (OBitRange c88_two 16 0)).
Lemma c88_reach2 m : reach m ipv6_from_str (c88_state m).
Proof.
  unfold c88_state. apply reach_step; [apply reach_step; [apply c88_reach|intros x []|apply bytes_okb_ok; reflexivity|left; eexists; reflexivity]|
    intros x [<-|[]]; right; left; reflexivity|exact I|right; eexists; reflexivity].
Qed.
Theorem C88_replace_refuted : forall m, ~ (forall c x y e h' d, reach m ipv6_from_str c -> In x (k_hdrs c) -> In y (k_hdrs c) ->
  kexec m ipv6_from_str (K_hdr (OReplace x y)) (k_heap c) = (Panic e, h') -> bytes_at (k_heap c) (h_ref x) d -> bytes_at h' (h_ref x) d).
Proof.
  intros m A. destruct (A (c88_state m) (Hdr ICMP 1) c88_two PPoison [Cell [1; 2] true; Cell [] true] [8; 0] (c88_reach2 m)) as (p & X).
  - left. reflexivity.
  - right. left. reflexivity.
  - reflexivity.
  - exists false. reflexivity.
  - discriminate X.
Qed.
Print Assumptions C88_replace_refuted.

Example C88_example : forall m,
  kexec m ipv6_from_str (K_hdr (OSetBitRange c88_two 16 0 5)) (k_heap (c88_short m)) = (Panic PIndex, [Cell [1; 2] true]) /\
  kexec m ipv6_from_str (K_hdr (OSetBytes c88_two 20 5 [255; 8])) (k_heap (c88_short m)) = (Panic PIndex, [Cell [7; 250] true]) /\
  kexec m ipv6_from_str (K_hdr (OSetBytes c88_two 15 0 [255])) (k_heap (c88_short m)) = (Panic PAssert, [Cell [1; 2] false]) /\
  written 1 [255; 8] 5 [1; 2] [7; 250].
Proof.
  intros m. repeat split; try (destruct m; reflexivity).
  - intros j J. destruct j; [reflexivity|lia].
  - intros j J. do 5 (destruct j as [|j]; [reflexivity|]). do 8 (destruct j as [|j]; [exfalso; lia|]). do 3 (destruct j as [|j]; [reflexivity|]).
    unfold bit. replace (S (S (S (S (S (S (S (S (S (S (S (S (S (S (S (S j)))))))))))))))) with (j + 2 * 8)%nat by lia.
    rewrite Nat.div_add by lia. rewrite !nth_overflow by (cbn; lia). reflexivity.
Qed.
