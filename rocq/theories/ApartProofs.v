(** ApartProofs.v -- lemmas for PropApart.v. *)

From Coq Require Import Lia.
From Verif Require Import Base Bits Types Layout Heap Packet Text Build Utils Slow Fast Show Ops Client Threads Free Spec ClientSpec ThreadsSpec CostSpec
  LinSpec LocalSpec FreeSpec ApartSpec BitsProofs HeapProofs PropBuild ClientProofs PropClient ThreadsSim ThreadsRel ThreadsProofs CostProofs LocalProofs LinProofs
  FreeProofs.
Open Scope N_scope.

(** ** What has been obtained *)

Lemma obtained_snoc l e : obtained (l ++ [e]) = learn (obtained l) (snd e) [].
Proof. unfold obtained. rewrite fold_left_app. reflexivity. Qed.
Lemma obtained_heap l : k_heap (obtained l) = [].
Proof. induction l as [|e l _] using rev_ind; [reflexivity|]. rewrite obtained_snoc. destruct e as [? [[]| | | |]]; reflexivity. Qed.
Lemma learn_panic l e : learn (obtained l) (Panic e) [] = obtained l.
Proof. pose proof (obtained_heap l) as H. destruct (obtained l). cbn in *. subst. reflexivity. Qed.
Lemma side_snoc col q l e : side col q (l ++ [e]) = side col q l ++ (if (col (fst (fst e)) =? q)%nat then [e] else []).
Proof. unfold side. rewrite filter_app. cbn [filter]. destruct (_ =? _)%nat; reflexivity. Qed.
Lemma obtained_ren f l : obtained (map (ren f) l) = cmap f (obtained l) [].
Proof.
  induction l as [|[[i k] o] l IH] using rev_ind; [reflexivity|]. rewrite map_app. cbn [map ren]. rewrite !obtained_snoc, IH. cbn [snd]. apply learn_cmap.
Qed.

Definition parts (c' c : client) : Prop :=
  incl (k_hdrs c') (k_hdrs c) /\ incl (k_pkts c') (k_pkts c) /\ incl (k_shdrs c') (k_shdrs c) /\ incl (k_slices c') (k_slices c).
Lemma parts_refl c : parts c c.
Proof. repeat split; apply incl_refl. Qed.
Lemma incl_cons2 {A} (a : A) l l' : incl l l' -> incl (a :: l) (a :: l').
Proof. intros H x [->|X]; [left; auto|right; auto]. Qed.
Lemma parts_both c c' o h h' : parts c c' -> parts (learn c o h) (learn c' o h').
Proof. intros (A & B & C & D). destruct o as [[]| | | |]; cbn [learn]; repeat split; cbn; auto using incl_cons2. Qed.
Lemma parts_more c c' o h' : parts c c' -> parts c (learn c' o h').
Proof. intros (A & B & C & D). destruct o as [[]| | | |]; cbn [learn]; repeat split; cbn; auto using incl_tl. Qed.
Lemma side_parts col q l : parts (obtained (side col q l)) (obtained l).
Proof.
  induction l as [|e l IH] using rev_ind; [apply parts_refl|]. rewrite side_snoc, (obtained_snoc l). destruct (_ =? _)%nat.
  - rewrite obtained_snoc. apply parts_both. exact IH.
  - rewrite app_nil_r. apply parts_more. exact IH.
Qed.

Lemma wruns_obtained m ip6 w l : wruns m ip6 w l -> obtained l = set_heap (fst w) [].
Proof.
  induction 1 as [|[c ts] l R IH|[c ts] l i k w' R IH K T E|w l i w' R IH E|[c ts] l i k own o w' R IH B E]; [reflexivity|exact IH|..].
  - cbn [wcall] in E. destruct (nth_error ts i) as [[|? ? ?]|]; try discriminate. injection E as <-. exact IH.
  - destruct (wdo_inv _ _ _ E) as (k & own & t & h & new & t' & _ & _ & ->). exact IH.
  - rewrite obtained_snoc, IH. unfold busy in B. cbn [wback snd fst] in *. rewrite B in E. destruct o as [v|e| | |]; try discriminate; injection E as <-; [|reflexivity].
    destruct v; reflexivity.
Qed.
Lemma gruns_wruns m ip6 col w l : gruns m ip6 col w l -> wruns m ip6 w l.
Proof.
  induction 1 as [|w l R IH|w l i k w' R IH K T E|w l i w' R IH E|w l i k own o w' R IH B E]; [constructor|constructor; auto| |eapply X_do; eauto|eapply X_back; eauto].
  eapply X_call; eauto. apply (known_heap _ (w_heap w)) in K.
  destruct (side_parts col (col i) l) as (A & B & C & D). rewrite (wruns_obtained _ _ _ _ IH) in A, B, C, D.
  eapply known_incl; [| | | |exact K]; assumption.
Qed.
Lemma gruns_reach m ip6 col w l : gruns m ip6 col w l -> wreach m ip6 w.
Proof. intros R. eapply wruns_reach, gruns_wruns; eauto. Qed.

(** ** Who uses what *)

Section Groups.
Variables (m : mode) (ip6 : string -> option (list N)) (col : nat -> nat).
Hypothesis O6 : octets16 ip6.

Lemma done_within w i k own o : winv m ip6 w -> busy w i k own (TRun (ADone o)) -> within (fun r => In r (args k ++ own)) o.
Proof.
  intros V B. pose proof (inv_tok _ _ _ V _ _ _ _ B) as T. destruct (short_dec k) as [Z|Z].
  { pose proof (tok_short _ _ _ _ _ _ T Z) as [= ->]. exact I. }
  pose proof (tok_good _ _ _ _ _ _ T Z _ (on_refl _)) as G. cbn [rl] in G. destruct o as [v| | | |]; try exact I. cbn [orl] in G.
  eapply rl_within. exact G.
Qed.
Lemma side_live w l q r : gruns m ip6 col w l -> shared (obtained (side col q l)) r -> shared (fst w) r.
Proof.
  intros R S. destruct (side_parts col q l) as (A & B & _). apply (shared_less _ _ r A B) in S.
  rewrite (wruns_obtained _ _ _ _ (gruns_wruns _ _ _ _ _ R)) in S. exact S.
Qed.
Lemma uses_live w l q r : gruns m ip6 col w l -> uses col w l q r -> (r < length (w_heap w))%nat.
Proof.
  intros R U. pose proof (inv_reach _ _ _ O6 (gruns_reach _ _ _ _ _ R)) as V. pose proof (inv_client _ _ _ V) as C. destruct U as [S|(i & k & own & t & B & _ & X)].
  - apply shared_live; auto. eapply side_live; eauto.
  - apply (tok_apart _ _ _ _ _ _ C (inv_tok _ _ _ V _ _ _ _ B)). exact X.
Qed.
Lemma spawn_busy w i k own t : busy (wspawn w) i k own t -> busy w i k own t.
Proof.
  destruct w as [c ts]. unfold busy. cbn [wspawn snd]. destruct (Nat.lt_ge_cases i (length ts)) as [L|L]; [rewrite nth_error_app1 by exact L; auto|].
  rewrite nth_error_app2 by exact L. destruct (i - length ts)%nat as [|j]; [discriminate|destruct j; discriminate].
Qed.
Lemma call_uses w l i k w' q r : known (obtained (side col (col i) l)) k -> wcall m ip6 w i k = Some w' -> uses col w' l q r -> uses col w l q r.
Proof.
  intros K E [S|(j & k1 & own & t & B & Q & X)]; [left; exact S|]. destruct w as [c ts]. cbn [wcall] in E. destruct (nth_error ts i) as [[|? ? ?]|] eqn:Ei; try discriminate.
  injection E as <-. unfold busy in B. cbn [snd] in B. destruct (upd_cases _ _ _ _ _ B) as [(-> & [= -> -> ->])|(_ & B')].
  - rewrite app_nil_r in X. left. rewrite <- Q. eapply known_shared; eauto.
  - right. exists j, k1, own, t. auto.
Qed.
Lemma do_uses w l i k own t h new t' q r : winv m ip6 w -> busy w i k own t -> tstep (snd w) (w_heap w) t = Some (h, new, t') ->
  uses col (set_heap (fst w) h, upd (snd w) i (Busy k (own ++ new) t')) l q r -> uses col w l q r \/ (q = col i /\ new = [length (w_heap w)] /\ r = length (w_heap w)).
Proof.
  intros V B S [U|(j & k1 & own1 & t1 & B1 & Q & X)]; [left; left; exact U|]. unfold busy in B1. cbn [snd] in B1.
  destruct (upd_cases _ _ _ _ _ B1) as [(-> & [= -> -> ->])|(_ & B')]; [|left; right; exists j, k1, own1, t1; auto].
  rewrite app_assoc in X. apply in_app_or in X. destruct X as [X|X]; [left; right; exists i, k, own, t; auto|]. right.
  destruct (wdo_change _ _ _ _ _ _ _ _ _ _ V B S) as (_ & Ch & _). destruct Ch as [|? ? ? ? ? ? ?|d ?]; try contradiction. destruct X as [<-|[]]. auto.
Qed.
Lemma back_uses w l i k own o w' q r : winv m ip6 w -> busy w i k own (TRun (ADone o)) -> wback w i = Some w' ->
  uses col w' (l ++ [(i, k, o)]) q r -> uses col w l q r.
Proof.
  intros V B E U. pose proof (done_within _ _ _ _ _ V B) as W.
  assert (Bs : forall j k1 own1 t1, busy w' j k1 own1 t1 -> busy w j k1 own1 t1).
  { intros j k1 own1 t1 B1. destruct w as [c ts]. unfold busy in *. cbn [wback snd] in *. rewrite B in E.
    assert (X : snd w' = upd ts i Idle) by (destruct o; try discriminate; injection E as <-; reflexivity). rewrite X in B1.
    destruct (upd_cases _ _ _ _ _ B1) as [(_ & [=])|(_ & B')]. exact B'. }
  destruct U as [S|(j & k1 & own1 & t1 & B1 & Q & X)]; [|right; exists j, k1, own1, t1; auto].
  rewrite side_snoc in S. cbn [fst] in S. destruct (Nat.eqb_spec (col i) q) as [Q|Q]; [|rewrite app_nil_r in S; left; exact S].
  rewrite obtained_snoc in S. cbn [snd] in S. destruct (shared_cmap _ _ _ _ _ W S) as [X|X]; [left; exact X|]. right. exists i, k, own, (TRun (ADone o)). auto.
Qed.
Lemma uses_one w l q q' r : gruns m ip6 col w l -> uses col w l q r -> uses col w l q' r -> q = q'.
Proof.
  intros R. revert q q' r. induction R as [|w l R IH|w l i k w' R IH K T E|w l i w' R IH E|w l i k own o w' R IH B E]; intros q q' r U U'.
  - exfalso. destruct U as [[(x & [] & _)|(p & x & [] & _)]|(i & k & own & t & B & _)]. destruct i; discriminate B.
  - apply (IH q q' r); [destruct U as [U|(i & k & own & t & B & X)]|destruct U' as [U'|(i & k & own & t & B & X)]]; try (left; assumption); right; exists i, k, own, t; split; auto using spawn_busy.
  - apply (IH q q' r); eapply call_uses; eauto.
  - pose proof (inv_reach _ _ _ O6 (gruns_reach _ _ _ _ _ R)) as V. destruct (wdo_inv _ _ _ E) as (k & own & t & h & new & t' & B & S & ->).
    destruct (do_uses _ _ _ _ _ _ _ _ _ _ _ V B S U) as [X|(Q & _ & L)], (do_uses _ _ _ _ _ _ _ _ _ _ _ V B S U') as [X'|(Q' & _ & L')].
    + eapply IH; eauto.
    + apply (uses_live _ _ _ _ R) in X. lia.
    + apply (uses_live _ _ _ _ R) in X'. lia.
    + congruence.
  - pose proof (inv_reach _ _ _ O6 (gruns_reach _ _ _ _ _ R)) as V. apply (IH q q' r); eapply back_uses; eauto.
Qed.

(** ** One group as a program of its own *)

Section Side.
Variable q : nat.

Record proj (w : world) (l : list ended) (v : vworld) : Prop := {
  pj_client : v_client v = obtained (side col q l);
  pj_count : length (v_threads v) = length (snd w);
  pj_in : forall i, col i = q -> nth_error (v_threads v) i = nth_error (snd w) i;
  pj_out : forall i t, col i <> q -> nth_error (v_threads v) i = Some t -> t = Idle;
  pj_mem : forall r, handle v r -> v_mem v r = nth_error (w_heap w) r;
  pj_new : forall r, (length (w_heap w) <= r)%nat -> v_mem v r = None }.
Lemma handle_uses w l v r : proj w l v -> handle v r <-> uses col w l q r.
Proof.
  intros [C N I O M F]. unfold handle, uses. rewrite C. split.
  - intros [S|(i & k & own & t & B & X)]; [left; exact S|]. right. exists i, k, own, t. destruct (Nat.eq_dec (col i) q) as [Q|Q].
    + unfold busy. rewrite <- (I i Q). auto.
    + apply (O i _ Q) in B. discriminate.
  - intros [S|(i & k & own & t & B & Q & X)]; [left; exact S|]. right. exists i, k, own, t. split; [rewrite (I i Q); exact B|exact X].
Qed.
Lemma proj_held w l v r : gruns m ip6 col w l -> proj w l v -> uses col w l q r -> held (v_threads v) r = held (snd w) r.
Proof.
  intros R P U. destruct (held (snd w) r) eqn:E.
  - destruct (held_inv _ _ E) as (i & k & own & o & p & B). destruct (wait_call _ _ _ _ _ _ _ _ _ O6 (gruns_reach _ _ _ _ _ R) B) as (a & b & -> & <- & Hb).
    assert (Q : col i = q). { eapply uses_one; eauto. right. exists i, (K_hdr (OReplace a b)), own, (TWait (h_ref a) o p). split; [exact B|]. split; [reflexivity|]. left. reflexivity. }
    eapply held_true. rewrite (pj_in _ _ _ P i Q). exact B.
  - destruct (held (v_threads v) r) eqn:E'; [|reflexivity]. destruct (held_inv _ _ E') as (i & k & own & o & p & B).
    destruct (Nat.eq_dec (col i) q) as [Q|Q]; [|apply (pj_out _ _ _ P i _ Q) in B; discriminate]. rewrite (pj_in _ _ _ P i Q) in B. apply held_true in B. congruence.
Qed.

(** A step of the group is a step of the program. *)
Lemma lock_both {B} r (body : list N -> out B * list N) Q (mm : mem) (h : heap) (F : B -> tstate) :
  heap_ok h -> (r < length h)%nat -> body_ok body Q -> mm r = nth_error h r ->
  exists c' t', mafter (mlock r body mm) F = (mput mm r (Some c'), [], t') /\ after (with_lock r body h) F = (upd h r c', [], t').
Proof.
  intros Hok L Bo M. destruct (nth_error h r) as [c|] eqn:E; [|apply nth_error_None in E; lia]. destruct (mlock_spec r r body _ _ _ M E) as (o & c' & E1 & E2).
  pose proof (lock_out h r body Q Hok L Bo) as O. rewrite E1, E2 in *. cbn [fst] in O.
  destruct O as [(b & -> & _)|(e & ->)]; cbn [mafter after]; eauto.
Qed.
Lemma step_proj w l v i k own t h new t' : gruns m ip6 col w l -> proj w l v -> col i = q -> busy w i k own t ->
  tstep (snd w) (w_heap w) t = Some (h, new, t') ->
  exists mm, mstep (v_threads v) (v_mem v) (length (w_heap w)) t = Some (mm, new, t') /\
  (forall r, v_mem v r = nth_error (w_heap w) r -> mm r = nth_error h r) /\
  (forall r, In r new -> mm r = nth_error h r) /\ (forall r, (length h <= r)%nat -> mm r = None).
Proof.
  intros R P Q B S. pose proof (inv_reach _ _ _ O6 (gruns_reach _ _ _ _ _ R)) as V. pose proof (inv_client _ _ _ V) as C. destruct C as (Hok & C).
  destruct (wdo_change _ _ _ _ _ _ _ _ _ _ V B S) as (Z & _ & _). pose proof (tok_good _ _ _ _ _ _ (inv_tok _ _ _ V _ _ _ _ B) Z _ (on_refl _)) as G.
  pose proof (tok_wait _ _ _ _ _ _ (inv_tok _ _ _ V _ _ _ _ B)) as Tw.
  assert (U : forall r, In r (args k ++ own) -> uses col w l q r) by (intros r X; right; exists i, k, own, t; auto).
  assert (Lv : forall r, In r (args k ++ own) -> (r < length (w_heap w))%nat) by (intros r X; eapply uses_live; eauto).
  assert (Mr : forall r, In r (args k ++ own) -> v_mem v r = nth_error (w_heap w) r) by (intros r X; apply (pj_mem _ _ _ P), (handle_uses _ _ _ _ P); auto).
  assert (Up : forall r c, In r (args k ++ own) -> (forall a, v_mem v a = nth_error (w_heap w) a -> mput (v_mem v) r (Some c) a = nth_error (upd (w_heap w) r c) a) /\
    forall a, (length (upd (w_heap w) r c) <= a)%nat -> mput (v_mem v) r (Some c) a = None).
  { intros r c X. split.
    - intros a A. destruct (Nat.eq_dec a r) as [->|Ne]; [rewrite mput_same|rewrite mput_other, upd_other by auto; exact A].
      destruct (nth_error (w_heap w) r) eqn:Er; [|apply nth_error_None in Er; specialize (Lv r X); lia]. symmetry. eapply nth_upd_at; eauto.
    - intros a A. rewrite upd_len in A. specialize (Lv r X). rewrite mput_other by lia. apply (pj_new _ _ _ P). exact A. }
  assert (Hd : forall r, In r (args k ++ own) -> held (v_threads v) r = held (snd w) r) by (intros r X; eapply proj_held; eauto).
  assert (Sec : forall A r (body : list N -> out A * list N) Q0 (F : A -> tstate), body_ok body Q0 -> In r (args k ++ own) -> after (with_lock r body (w_heap w)) F = (h, new, t') ->
    exists mm, mafter (mlock r body (v_mem v)) F = (mm, new, t') /\ (forall r, v_mem v r = nth_error (w_heap w) r -> mm r = nth_error h r) /\
    (forall r, In r new -> mm r = nth_error h r) /\ (forall r, (length h <= r)%nat -> mm r = None)).
  { intros A r body Q0 F Bo X E. destruct (lock_both r body Q0 (v_mem v) (w_heap w) F Hok (Lv r X) Bo (Mr r X)) as (c' & t1 & E1 & E2). rewrite E2 in E. injection E as <- <- <-.
    destruct (Up r c' X). eexists. split; [exact E1|]. split; [auto|]. split; [intros ? []|auto]. }
  destruct t as [[o|d F|r j F|r j b F|r F|x o F]|x o F]; cbn [tstep mstep rl] in *; try discriminate.
  - injection S as <- <- <-. rewrite (pj_new _ _ _ P _ (le_n _)). eexists. split; [reflexivity|]. split; [|split].
    + intros r A. destruct (lt_eq_lt_dec r (length (w_heap w))) as [[L|L]|L].
      * rewrite mput_other by lia. rewrite nth_error_app1 by exact L. exact A.
      * subst r. rewrite mput_same, nth_error_app2, Nat.sub_diag by lia. reflexivity.
      * rewrite mput_other by lia. rewrite A. rewrite !(proj2 (nth_error_None _ _)); auto; [rewrite app_length; cbn; lia|lia].
    + intros r [<-|[]]. rewrite mput_same, nth_error_app2, Nat.sub_diag by lia. reflexivity.
    + intros r L. rewrite app_length in L. cbn in L. rewrite mput_other by lia. apply (pj_new _ _ _ P). lia.
  - destruct G as ((_ & X) & _). rewrite (Hd r X). destruct (held (snd w) r); [discriminate|]. injection S as S.
    destruct (Sec _ r _ _ _ (read_ok j) X S) as (mm & E & Y). exists mm. rewrite E. auto.
  - destruct G as ((_ & X) & _ & _ & Vb & _). rewrite (Hd r X). destruct (held (snd w) r); [discriminate|]. injection S as S.
    destruct (Sec _ r _ _ _ (set_bit_step_ok j b Vb) X S) as (mm & E & Y). exists mm. rewrite E. auto.
  - destruct G as ((_ & X) & _). rewrite (Hd r X). destruct (held (snd w) r); [discriminate|]. injection S as S.
    destruct (Sec _ r _ _ _ copy_ok X S) as (mm & E & Y). exists mm. rewrite E. auto.
  - destruct G as (_ & (_ & X) & _). rewrite (Hd x X). destruct (held (snd w) x); [discriminate|]. injection S as S.
    destruct (Sec _ x _ _ _ clear_ok X S) as (mm & E & Y). exists mm. rewrite E. auto.
  - destruct G as (_ & (_ & X) & (_ & O) & _). rewrite (Hd o O). destruct (held (snd w) o); [discriminate|]. rewrite (Mr x X), (Mr o O).
    destruct (nth_error (w_heap w) x) as [cx|] eqn:Ex; [|apply nth_error_None in Ex; specialize (Lv x X); lia].
    destruct (nth_error (w_heap w) o) as [co|] eqn:Eo; [|apply nth_error_None in Eo; specialize (Lv o O); lia].
    destruct (c_poisoned co); injection S as <- <- <-; eexists; (split; [reflexivity|]); (split; [|split; [intros ? []|]]); apply Up; exact X.
Qed.
Lemma proj_start : proj w_start [] v_start.
Proof.
  split; try reflexivity; auto.
  - intros i t _. destruct i; discriminate.
  - intros r _. destruct r; reflexivity.
Qed.
Lemma proj_spawn w l v : proj w l v -> proj (wspawn w) l (vspawn v).
Proof.
  destruct w as [c ts]. intros [C N I O M F]. cbn [snd] in *.
  assert (Hd : forall r, handle (vspawn v) r -> handle v r).
  { intros r [R|(i & k & own & t & E & R)]; [left; exact R|]. right. exists i, k, own, t. split; auto. cbn [vspawn v_threads] in E.
    destruct (Nat.lt_ge_cases i (length (v_threads v))); [rewrite nth_error_app1 in E; auto|]. rewrite nth_error_app2 in E by auto.
    destruct (i - length (v_threads v))%nat as [|j]; [discriminate|destruct j; discriminate]. }
  split; cbn [vspawn wspawn v_client v_threads v_mem snd]; auto.
  - rewrite !app_length, N. reflexivity.
  - intros i Q. destruct (Nat.lt_ge_cases i (length ts)) as [L|L]; [rewrite !nth_error_app1 by lia; auto|]. rewrite !nth_error_app2 by lia. rewrite N. reflexivity.
  - intros i t Q. destruct (Nat.lt_ge_cases i (length (v_threads v))) as [L|L]; [rewrite nth_error_app1 by exact L; eauto|]. rewrite nth_error_app2 by exact L.
    destruct (i - length (v_threads v))%nat as [|j]; [intros [= <-]; reflexivity|destruct j; discriminate].
Qed.
(** What other threads do. *)
Lemma proj_other w l v i w' l' b : proj w l v -> col i <> q -> side col q l' = side col q l -> snd w' = upd (snd w) i b ->
  (length (w_heap w) <= length (w_heap w'))%nat -> (forall r, uses col w l q r -> nth_error (w_heap w') r = nth_error (w_heap w) r) -> proj w' l' v.
Proof.
  intros P Q Sl E L H. pose proof (fun r => proj1 (handle_uses w l v r P)) as Hu. destruct P as [C N I O M F]. split; auto.
  - rewrite Sl. exact C.
  - rewrite E, upd_len. exact N.
  - intros j J. rewrite E, upd_other by congruence. auto.
  - intros r R. rewrite M by exact R. symmetry. auto.
  - intros r R. apply F. lia.
Qed.
Lemma proj_own w l v i t0 b c mm w' l' : proj w l v -> col i = q -> nth_error (snd w) i = Some t0 -> snd w' = upd (snd w) i b -> c = obtained (side col q l') ->
  (forall r, handle (VW c mm (upd (v_threads v) i b)) r -> mm r = nth_error (w_heap w') r) ->
  (forall r, (length (w_heap w') <= r)%nat -> mm r = None) -> proj w' l' (VW c mm (upd (v_threads v) i b)).
Proof.
  intros [C N I O M F] Q B E Ec Hm Hf. split; cbn [v_client v_threads v_mem]; auto.
  - rewrite E, !upd_len. exact N.
  - intros j J. rewrite E. destruct (Nat.eq_dec j i) as [->|Ne]; [|rewrite !upd_other by exact Ne; auto].
    rewrite (nth_upd_at (snd w) _ _ _ B). eapply nth_upd_at. rewrite I by exact J. exact B.
  - intros j t J Ej. destruct (upd_cases _ _ _ _ _ Ej) as [(-> & _)|(_ & X)]; [contradiction|eauto].
Qed.

(** ** The invariant *)

Record ginv (w : world) (l : list ended) (v : vworld) (f : nat -> nat) (w0 : world) : Prop := {
  gi_runs : wruns m ip6 w0 (map (ren f) (side col q l));
  gi_sim : sim f v w0;
  gi_proj : proj w l v;
  gi_log : Forall (in_log (obtained (side col q l))) (side col q l) }.
Lemma ren_ext c f g log : Forall (in_log c) log -> (forall r, shared c r -> f r = g r) -> map (ren f) log = map (ren g) log.
Proof.
  intros L E. apply map_ext_in. intros e X. eapply Forall_forall in L; [|exact X]. destruct e as [[i k] o]. destruct L as (A & B).
  cbn [ren]. f_equal; [f_equal; apply rename_call_ext; auto|apply rename_out_ext]. eapply within_imp; [|exact B]. auto.
Qed.
Lemma busy_known w l i k own t : gruns m ip6 col w l -> busy w i k own t -> forall r, In r (args k) -> shared (obtained (side col (col i) l)) r.
Proof.
  intros R. revert i k own t. induction R as [|w l R IH|[c ts] l j k1 w' R IH K T E|w l j w' R IH E|[c ts] l j k1 own1 o w' R IH B1 E]; intros i k own t B.
  - destruct i; discriminate B.
  - eapply IH. apply spawn_busy. exact B.
  - cbn [wcall] in E. destruct (nth_error ts j) as [[|? ? ?]|] eqn:Ej; try discriminate. injection E as <-. unfold busy in B. cbn [snd] in B.
    destruct (upd_cases _ _ _ _ _ B) as [(-> & [= -> -> ->])|(_ & B')]; [|eapply IH; exact B']. intros r X. eapply known_shared; eauto.
  - destruct (wdo_inv _ _ _ E) as (k1 & own1 & t1 & h & new & t' & B1 & S & ->). unfold busy in B. cbn [snd] in B.
    destruct (upd_cases _ _ _ _ _ B) as [(-> & [= -> -> ->])|(_ & B')]; eapply IH; eauto.
  - unfold busy in *. cbn [wback snd] in *. rewrite B1 in E.
    assert (X : snd w' = upd ts j Idle) by (destruct o; try discriminate; injection E as <-; reflexivity). rewrite X in B.
    destruct (upd_cases _ _ _ _ _ B) as [(_ & [=])|(_ & B')]. intros r A. rewrite side_snoc. destruct (_ =? _)%nat; [|rewrite app_nil_r; eapply IH; eauto].
    rewrite obtained_snoc. apply learn_more. eapply IH; eauto.
Qed.
Lemma ginv_all w l : gruns m ip6 col w l -> exists v f w0, ginv w l v f w0.
Proof.
  induction 1 as [|w l R IH|w l i k w' R IH K T E|w l i w' R IH E|w l i k own o w' R IH B E].
  { exists v_start, (fun r => r), w_start. split; [constructor|apply sim_start|apply proj_start|constructor]. }
  all: destruct IH as (v & f & w0 & [Ru Si Pj Lg]); pose proof (inv_reach _ _ _ O6 (wruns_reach _ _ _ _ Ru)) as V0;
    pose proof (inv_reach _ _ _ O6 (gruns_reach _ _ _ _ _ R)) as V.
  - exists (vspawn v), f, (wspawn w0). split; [constructor; auto|apply sim_spawn; auto|apply proj_spawn; auto|auto].
  - destruct w as [c ts]. cbn [wcall] in E. destruct (nth_error ts i) as [[|? ? ?]|] eqn:Ei; try discriminate. injection E as <-.
    destruct (Nat.eq_dec (col i) q) as [Q|Q].
    + assert (Kv : known (v_client v) k) by (rewrite (pj_client _ _ _ Pj), <- Q; exact K).
      assert (Ev : vcall m ip6 v i k = Some (VW (v_client v) (v_mem v) (upd (v_threads v) i (Busy k [] (TRun (a_kexec m ip6 k)))))).
      { unfold vcall. rewrite (pj_in _ _ _ Pj i Q). cbn [snd]. rewrite Ei. reflexivity. }
      destruct (sim_call _ _ _ _ _ _ _ _ O6 V0 Si Kv T Ev) as (w0' & E0 & S'). eexists _, f, w0'. split; [|exact S'| |exact Lg].
      * apply (X_call _ _ w0 _ i (rename_call f k)); auto; [apply (known_sim f v); auto|apply typed_rename; auto].
      * eapply (proj_own (c, ts)); [exact Pj|exact Q|exact Ei|reflexivity|exact (pj_client _ _ _ Pj)| |].
        -- intros r [S|(j & k1 & own1 & t1 & B1 & X)]; [apply (pj_mem _ _ _ Pj); left; exact S|]. apply (pj_mem _ _ _ Pj). cbn [v_threads] in B1.
           destruct (upd_cases _ _ _ _ _ B1) as [(-> & [= -> -> ->])|(_ & B')]; [|right; eauto 8]. left. rewrite app_nil_r in X. eapply known_shared; eauto.
        -- exact (pj_new _ _ _ Pj).
    + exists v, f, w0. split; auto. eapply (proj_other (c, ts)); eauto; reflexivity.
  - destruct (wdo_inv _ _ _ E) as (k & own & t & h & new & t' & B & S & ->). destruct (wdo_change _ _ _ _ _ _ _ _ _ _ V B S) as (Z & Ch & _).
    destruct (Nat.eq_dec (col i) q) as [Q|Q].
    + destruct (step_proj _ _ _ _ _ _ _ _ _ _ R Pj Q B S) as (mm & Em & M1 & M2 & M3).
      assert (Ev : vdo v i (length (w_heap w)) = Some (VW (v_client v) mm (upd (v_threads v) i (Busy k (own ++ new) t')))).
      { unfold vdo. rewrite (pj_in _ _ _ Pj i Q). unfold busy in B. rewrite B, Em. reflexivity. }
      destruct (sim_do _ _ _ _ _ _ _ _ V0 Si Ev) as (g & w0' & E0 & S' & Gf). eexists _, g, w0'. split; [|exact S'| |exact Lg].
      * rewrite (ren_ext (obtained (side col q l)) g f); [eapply X_do; eauto|exact Lg|]. intros r Sr. apply Gf. left. rewrite (pj_client _ _ _ Pj). exact Sr.
      * eapply (proj_own w); [exact Pj|exact Q|exact B|reflexivity|exact (pj_client _ _ _ Pj)| |exact M3].
        intros r [Sr|(j & k1 & own1 & t1 & B1 & X)]; [apply M1, (pj_mem _ _ _ Pj); left; exact Sr|]. cbn [v_threads] in B1.
        destruct (upd_cases _ _ _ _ _ B1) as [(-> & [= -> -> ->])|(_ & B')]; [|apply M1, (pj_mem _ _ _ Pj); right; eauto 8].
        rewrite app_assoc in X. apply in_app_or in X. destruct X as [X|X]; [|auto]. apply M1, (pj_mem _ _ _ Pj). right. exists i, k, own, t.
        rewrite (pj_in _ _ _ Pj i Q). split; [exact B|exact X].
    + exists v, f, w0. split; auto. eapply (proj_other w); [exact Pj|exact Q|reflexivity|reflexivity| |]; [change (length (w_heap w) <= length h)%nat; rewrite (change_len _ _ _ _ Ch); lia|].
      intros r U. change (nth_error h r = nth_error (w_heap w) r). eapply change_other; eauto; [eapply uses_live; eauto|]. intros X. apply Q.
      eapply uses_one; eauto. right. exists i, k, own, t. auto.
  - pose proof (done_within _ _ _ _ _ V B) as Wi.
    assert (Hw : snd w' = upd (snd w) i Idle /\ w_heap w' = w_heap w).
    { destruct w as [c ts]. unfold busy in B. cbn [wback snd] in *. rewrite B in E. destruct o as [u|e| | |]; try discriminate; injection E as <-; split; auto. destruct u; reflexivity. }
    destruct Hw as (Hs & Hh). destruct (Nat.eq_dec (col i) q) as [Q|Q].
    + assert (Bv : nth_error (v_threads v) i = Some (Busy k own (TRun (ADone o)))) by (rewrite (pj_in _ _ _ Pj i Q); exact B).
      assert (Ev : vback v i = Some (VW (learn (v_client v) o []) (v_mem v) (upd (v_threads v) i Idle))).
      { unfold vback. rewrite Bv. destruct w as [c ts]. unfold busy in B. cbn [wback snd] in *. rewrite B in E. destruct o as [u|e| | |]; try discriminate; [reflexivity|].
        rewrite (pj_client _ _ _ Pj), learn_panic. reflexivity. }
      destruct (sim_back _ _ _ _ _ _ _ _ Si Bv Ev) as (w0' & E0 & S'). destruct (done_sim _ _ _ _ _ _ _ Si Bv) as (B0 & _). eexists _, f, w0'.
      assert (Sd : side col q (l ++ [(i, k, o)]) = side col q l ++ [(i, k, o)]) by (rewrite side_snoc; cbn [fst]; rewrite (proj2 (Nat.eqb_eq _ _) Q); reflexivity).
      split; [|exact S'| |].
      * rewrite Sd, map_app. cbn [map ren]. eapply X_back; eauto.
      * eapply (proj_own w); [exact Pj|exact Q|exact B|exact Hs| | |].
        -- rewrite Sd, obtained_snoc, (pj_client _ _ _ Pj). reflexivity.
        -- intros r X. rewrite Hh. apply (pj_mem _ _ _ Pj). destruct X as [Sr|(j & k1 & own1 & t1 & B1 & X)].
           ++ destruct (shared_cmap _ _ _ _ _ Wi Sr) as [Y|Y]; [left; exact Y|]. right. exists i, k, own, (TRun (ADone o)). split; [exact Bv|exact Y].
           ++ cbn [v_threads] in B1. destruct (upd_cases _ _ _ _ _ B1) as [(_ & [=])|(_ & B')]. right. eauto 8.
        -- rewrite Hh. exact (pj_new _ _ _ Pj).
      * rewrite Sd, obtained_snoc. cbn [snd]. apply Forall_app. split; [apply log_more; exact Lg|]. constructor; [|constructor]. split; [|apply learned].
        intros r X. apply learn_more. rewrite <- Q. eapply busy_known; eauto.
    + assert (Sd : side col q (l ++ [(i, k, o)]) = side col q l) by (rewrite side_snoc; cbn [fst]; rewrite (proj2 (Nat.eqb_neq _ _) Q); apply app_nil_r).
      exists v, f, w0. rewrite <- Sd in Ru, Lg. split; auto. eapply (proj_other w); eauto; rewrite Hh; auto.
Qed.
Lemma ginv_without w l v f w0 : ginv w l v f w0 -> without_others m ip6 col q f w l w0.
Proof.
  intros [Ru Si Pj Lg]. pose proof (sim_stands _ _ _ Si) as St.
  pose proof (fun r => proj2 (handle_uses w l v r Pj)) as Hu. pose proof (wruns_obtained _ _ _ _ Ru) as Ob. rewrite obtained_ren in Ob. split; auto.
  - unfold cmap, set_heap in Ob. injection Ob as A B C D. split; [auto|]. split; [auto|]. split; [auto|]. split; [auto|].
    intros r r' X Y. apply (s_apart _ _ _ Si); left; rewrite (pj_client _ _ _ Pj); assumption.
  - intros r r' X Y. apply (s_apart _ _ _ Si); auto.
  - intros r X. destruct (s_bytes _ _ _ Si r (Hu r X)) as (c & M & E). exists c. rewrite <- (pj_mem _ _ _ Pj r (Hu r X)). auto.
  - rewrite <- (pj_count _ _ _ Pj). pose proof (s_threads _ _ _ Si) as F. clear -F. induction F; cbn [length]; auto.
  - intros i t t0 E E0 Q. rewrite <- (pj_in _ _ _ Pj i Q) in E. destruct (Forall2_nth _ _ _ _ _ (sf_threads _ _ _ St) E) as (t1 & E1 & M). congruence.
  - intros i t0 E0 Q. destruct (Forall2_nth' _ _ _ _ _ (s_threads _ _ _ Si) E0) as (t & E & M). apply (pj_out _ _ _ Pj i _ Q) in E. subst t. destruct t0; [reflexivity|contradiction].
Qed.
End Side.
End Groups.

(** ** One thread alone *)

Section One.
Variables (m : mode) (ip6 : string -> option (list N)).
Hypothesis O6 : octets16 ip6.

(** Executing what is left of the call in one go comes to [r]. *)
Definition toward (t : tstate) (h : heap) (r : out kres * heap) : Prop :=
  match t with
  | TRun p => asolo p h = r
  | TWait x o p => exists cx hp, nth_error hp x = Some cx /\ c_poisoned cx = false /\ h = upd hp x (Cell [] false) /\ asolo (ARepl x o p) hp = r
  end.
Lemma step_toward ts h t h' new t' r : tstep ts h t = Some (h', new, t') ->
  (forall x o p, t = TWait x o p -> held ts x = true /\ (o < length h)%nat) ->
  (forall x o p, t = TRun (ARepl x o p) -> (o < length h)%nat) -> toward t h r -> toward t' h' r.
Proof.
  intros S W L T.
  assert (Sec : forall B a (body : list N -> out B * list N) (f : B -> act kres), after (with_lock a body h) (fun b => TRun (f b)) = (h', new, t') ->
    bind (with_lock a body) (fun b => asolo (f b)) h = r -> toward t' h' r).
  { intros B a body f E Ex. unfold bind in Ex. destruct (with_lock a body h) as [[b|e| | |] h1]; cbn [after] in E; injection E as <- <- <-; cbn [toward asolo]; exact Ex. }
  destruct t as [[o|d f|a j f|a j v f|a f|x o f]|x o f]; cbn [tstep] in S; try discriminate; cbn [toward asolo] in T.
  - injection S as <- <- <-. exact T.
  - destruct (held ts a); [discriminate|]. injection S as S. eapply Sec; eauto.
  - destruct (held ts a); [discriminate|]. injection S as S. eapply (Sec _ _ _ (fun _ => f)); eauto.
  - destruct (held ts a); [discriminate|]. injection S as S. eapply Sec; eauto.
  - destruct (held ts x); [discriminate|]. injection S as S. unfold with_lock in S. destruct (nth_error h x) as [cx|] eqn:Ex.
    + destruct (c_poisoned cx) eqn:Px; cbn [after] in S; injection S as <- <- <-.
      * cbn [toward asolo]. unfold bind, hreplace in T. cbn [h_ref] in T. rewrite Ex, Px in T. destruct (nth_error h o) eqn:Eo; [exact T|].
        specialize (L _ _ _ eq_refl). apply nth_error_None in Eo. lia.
      * exists cx, h. auto.
    + cbn [after] in S. injection S as <- <- <-. unfold bind, hreplace in T. cbn [h_ref] in T. rewrite Ex in T. exact T.
  - destruct (W x o f eq_refl) as (Hx & Lo). destruct (held ts o) eqn:Ho; [discriminate|]. destruct T as (cx & hp & Ex & Px & -> & T).
    assert (Ne : x <> o) by congruence. unfold bind, hreplace in T. cbn [h_ref] in T. rewrite Ex, Px in T. rewrite (proj2 (Nat.eqb_neq _ _) Ne) in T.
    rewrite (nth_upd_at _ _ _ _ Ex), upd_other in S by auto. rewrite upd_len in Lo. destruct (nth_error hp o) as [co|] eqn:Eo; [|apply nth_error_None in Eo; lia].
    destruct (c_poisoned co); injection S as <- <- <-; rewrite upd_twice; exact T.
Qed.

Definition strip (e : ended) : call * out kres := (snd (fst e), snd e).
(** Only thread [i] has done anything. *)
Definition single (i : nat) (w : world) (l : list ended) : Prop :=
  (forall j t, j <> i -> nth_error (snd w) j = Some t -> t = Idle) /\ (forall e, In e l -> fst (fst e) = i).
Definition seq (i : nat) (w : world) (l : list ended) : Prop :=
  match nth_error (snd w) i with
  | Some (Busy k own t) => exists c, one_by_one m ip6 (map strip l) c /\ known c k /\ typed k /\ fst w = set_heap c (w_heap w) /\
      toward t (w_heap w) (kexec m ip6 k (k_heap c))
  | _ => one_by_one m ip6 (map strip l) (fst w)
  end.
Lemma upd_idle ts i b j t : j <> i -> (forall j t, j <> i -> nth_error ts j = Some t -> t = Idle) -> nth_error (upd ts i b) j = Some t -> t = Idle.
Proof. intros Ne H E. rewrite upd_other in E by exact Ne. eauto. Qed.
Lemma single_seq i w l : wruns m ip6 w l -> single i w l -> seq i w l.
Proof.
  induction 1 as [|[c ts] l R IH|[c ts] l j k w' R IH K T E|w l j w' R IH E|[c ts] l j k own o w' R IH B E]; intros (Id & En).
  - unfold seq. cbn. destruct i; constructor.
  - assert (Sg : single i (c, ts) l).
    { split; [|exact En]. intros j t Ne Ej. apply (Id j t Ne). cbn [wspawn snd]. rewrite nth_error_app1; [exact Ej|]. apply nth_error_Some. cbn [snd] in Ej. congruence. }
    specialize (IH Sg). unfold seq, w_heap in *. cbn [wspawn fst snd] in *. destruct (Nat.lt_ge_cases i (length ts)) as [L|L]; [rewrite nth_error_app1 by exact L; exact IH|].
    rewrite (proj2 (nth_error_None ts i) L) in IH. rewrite nth_error_app2 by exact L. destruct (i - length ts)%nat as [|z]; [exact IH|destruct z; exact IH].
  - cbn [wcall fst] in *. destruct (nth_error ts j) as [[|? ? ?]|] eqn:Ej; try discriminate. injection E as <-. cbn [snd] in Id.
    destruct (Nat.eq_dec j i) as [->|Ne].
    2: { specialize (Id j _ Ne (nth_upd_at _ _ _ _ Ej)). discriminate. }
    assert (Sg : single i (c, ts) l).
    { split; [|exact En]. intros z t Nz Ez. apply (Id z t Nz). rewrite upd_other by exact Nz. exact Ez. }
    specialize (IH Sg). unfold seq, w_heap in *. cbn [fst snd] in *. rewrite Ej in IH. rewrite (nth_upd_at _ _ _ _ Ej). exists c. split; [exact IH|]. split; [exact K|]. split; [exact T|].
    split; [destruct c; reflexivity|]. cbn [toward]. apply sim_kexec.
  - pose proof (wruns_reach _ _ _ _ R) as Rw. pose proof (inv_reach _ _ _ O6 Rw) as V.
    destruct (wdo_inv _ _ _ E) as (k & own & t & h & new & t' & B & S & ->). destruct (wdo_change _ _ _ _ _ _ _ _ _ _ V B S) as (Z & _ & _).
    cbn [snd] in Id. unfold busy in B. destruct (Nat.eq_dec j i) as [->|Ne].
    2: { specialize (Id j _ Ne (nth_upd_at _ _ _ _ B)). discriminate. }
    assert (Sg : single i w l).
    { split; [|exact En]. intros z u Nz Ez. apply (Id z u Nz). rewrite upd_other by exact Nz. exact Ez. }
    specialize (IH Sg). unfold seq in *. rewrite B in IH. cbn [fst snd]. rewrite (nth_upd_at _ _ _ _ B). destruct IH as (c & O & K & T & Ec & Tw). exists c.
    split; [exact O|]. split; [exact K|]. split; [exact T|]. split; [rewrite Ec; reflexivity|]. unfold w_heap at 1. cbn [fst set_heap k_heap].
    pose proof (inv_tok _ _ _ V _ _ _ _ B) as Tk. pose proof (tok_good _ _ _ _ _ _ Tk Z _ (on_refl _)) as G. pose proof (inv_client _ _ _ V) as Cl.
    destruct (tok_apart _ _ _ _ _ _ Cl Tk) as (_ & _ & Lv).
    eapply step_toward; [exact S| | |exact Tw].
    + intros x o p ->. destruct G as (_ & _ & (_ & X) & _). split; [eapply held_true; eauto|apply Lv; exact X].
    + intros x o p ->. cbn [rl] in G. destruct G as (_ & _ & (_ & X) & _). apply Lv. exact X.
  - unfold busy in B. cbn [wback snd] in *. rewrite B in E.
    assert (Ew : snd w' = upd ts j Idle) by (destruct o; try discriminate; injection E as <-; reflexivity).
    assert (J : j = i) by (apply (En (j, k, o)); apply in_or_app; right; left; reflexivity). subst j.
    assert (Sg : single i (c, ts) l).
    { split; [|intros e X; apply En, in_or_app; auto]. intros z t Nz Ez. apply (Id z t Nz). rewrite Ew, upd_other by exact Nz. exact Ez. }
    specialize (IH Sg). unfold seq in *. cbn [snd] in IH. rewrite B in IH. rewrite Ew, (nth_upd_at _ _ _ _ B). destruct IH as (c0 & O & K & T & Ec & Tw). cbn [toward asolo fst] in *. unfold lift in Tw.
    rewrite map_app. cbn [map strip fst snd]. unfold w_heap in *. cbn [fst] in *.
    assert (X : fst w' = learn c0 o (k_heap c)).
    { destruct o as [u|e| | |]; try discriminate; injection E as <-; cbn [fst]; rewrite Ec; [destruct u; reflexivity|reflexivity]. }
    rewrite X. apply One_call; auto. destruct o; try discriminate; [left|right]; eauto.
Qed.
End One.
