(** TPoisonProofs.v -- poisoning by several threads, for C101. *)

From Coq Require Import Lia.
From Verif Require Import Base Bits Types Layout Heap Packet Text Ops Client Threads Spec ClientSpec ThreadsSpec PoisonSpec PoisonProofs TPoisonSpec PropBuild ThreadsProofs.
Open Scope N_scope.

Lemma caught_reach m ip6 n w : caught m ip6 n w -> wreach m ip6 w.
Proof.
  induction 1.
  - constructor.
  - eapply WR_step; [eassumption|]. apply W_spawn.
  - eapply WR_step; [eassumption|]. eapply W_call; eauto.
  - eapply WR_step; [eassumption|]. eapply W_do; eauto.
  - eapply WR_step; [eassumption|]. eapply W_back; eauto.
Qed.
Lemma reach_caught m ip6 w : wreach m ip6 w -> exists n, caught m ip6 n w.
Proof.
  induction 1 as [|w w' _ [n C] S]; [exists 0%nat; constructor|]. inversion S; subst.
  - exists n. constructor. exact C.
  - exists n. eapply C_call; eauto.
  - exists n. eapply C_do; eauto.
  - destruct w as [c ts]. destruct (nth_error ts i) as [t|] eqn:E.
    + eexists. eapply C_back; eauto.
    + unfold wback in H. rewrite E in H. discriminate.
Qed.

(** One step of a call poisons nothing, or one buffer and the call panics. *)
Definition tame_step (h h' : heap) (p : bool) : Prop :=
  exists x, forall r, poisoned_at h' r -> poisoned_at h r \/ (p = true /\ r = x).
Lemma tame_step_same h p : tame_step h h p.
Proof. exists 0%nat. auto. Qed.
Lemma after_tame {B} (c : M B) (k : B -> tstate) h h' new t' : tame c ->
  after (c h) k = (h', new, t') -> tame_step h h' (panicked (Busy K_pnew [] t')).
Proof.
  intros T E. destruct (c h) as [o h1] eqn:C. destruct (T _ _ _ C) as (_ & O & N). unfold after in E.
  assert (Q : forall r, poisoned_at h1 r -> ~ newly_poisoned h h1 r -> poisoned_at h r).
  { intros r P X. destruct (is_poisoned h r) eqn:Z; [apply is_poisoned_iff, Z|]. elim X. split; auto.
    intros Y. apply is_poisoned_iff in Y. congruence. }
  destruct o as [b|e| | |]; injection E as <- <- <-;
    try (exists 0%nat; intros r P; left; apply Q; [exact P|]; apply N; congruence).
  cbn [panicked].
  destruct (filter (fun r => is_poisoned h1 r && negb (is_poisoned h r))%bool (seq 0 (length h1))) as [|x l] eqn:F.
  - exists 0%nat. intros r P. left. apply Q; auto. intros [P1 P2].
    assert (I : In r []).
    { rewrite <- F. apply filter_In. split.
      - apply in_seq. destruct P as [d P]. assert (r < length h1)%nat by (apply nth_error_Some; congruence). lia.
      - rewrite (proj2 (is_poisoned_iff h1 r) P1). destruct (is_poisoned h r) eqn:Z; auto. elim P2. apply is_poisoned_iff, Z. }
    exact I.
  - exists x. intros r P. destruct (is_poisoned h r) eqn:Z; [left; apply is_poisoned_iff, Z|]. right. split; auto.
    assert (I : In x (x :: l)) by (left; auto). rewrite <- F in I. apply filter_In in I. destruct I as [_ I].
    apply andb_prop in I. destruct I as [I1 I2]. apply O.
    + split; [exact P|]. intros Y. apply is_poisoned_iff in Y. congruence.
    + split; [apply is_poisoned_iff, I1|]. intros Y. apply is_poisoned_iff in Y. rewrite Y in I2. discriminate.
Qed.
Lemma upd_poison_le h x d b r : poisoned_at (upd h x (Cell d b)) r -> poisoned_at h r \/ (b = true /\ r = x).
Proof.
  unfold poisoned_at. rewrite nth_upd. destruct (Nat.eqb_spec r x) as [->|D]; [|auto].
  intros [d' E]. destruct (nth_error h x); [|discriminate]. right. split; congruence.
Qed.
Lemma tstep_tame ts h t h' new t' k own : tstep ts h t = Some (h', new, t') -> tame_step h h' (panicked (Busy k own t')).
Proof.
  change (panicked (Busy k own t')) with (panicked (Busy K_pnew [] t')).
  intros E. destruct t as [[o|d a|r i a|r i v a|r a|x o a]|x o a]; cbn [tstep] in E.
  - discriminate.
  - injection E as <- <- <-. exists 0%nat. intros r P. left. destruct (tame_alloc d h _ _ eq_refl) as (_ & _ & N).
    destruct (is_poisoned h r) eqn:Z; [apply is_poisoned_iff, Z|]. exfalso. apply (N ltac:(congruence) r). split; [exact P|].
    intros Y. apply is_poisoned_iff in Y. congruence.
  - destruct (held ts r); [discriminate|]. injection E as E. eapply after_tame; [apply tame_lock|exact E].
  - destruct (held ts r); [discriminate|]. injection E as E. eapply after_tame; [apply tame_lock|exact E].
  - destruct (held ts r); [discriminate|]. injection E as E. eapply after_tame; [apply tame_lock|exact E].
  - destruct (held ts x); [discriminate|]. injection E as E. eapply after_tame; [apply tame_lock|exact E].
  - destruct (held ts o); [discriminate|]. destruct (nth_error h x) as [cx|]; [destruct (nth_error h o) as [co|]|].
    + destruct (c_poisoned co); injection E as <- <- <-; exists x; intros r P; apply upd_poison_le in P; cbn [panicked];
        intuition discriminate.
    + injection E as <- <- <-. apply tame_step_same.
    + injection E as <- <- <-. apply tame_step_same.
Qed.

Lemma filter_upd ts : forall i t t', nth_error ts i = Some t ->
  (length (filter panicked (upd ts i t')) + (if panicked t then 1 else 0) =
   length (filter panicked ts) + (if panicked t' then 1 else 0))%nat.
Proof.
  induction ts as [|a ts IH]; intros [|i] t t' E; try discriminate; cbn in E.
  - injection E as ->. cbn. destruct (panicked t), (panicked t'); cbn; lia.
  - specialize (IH _ _ t' E). cbn. destruct (panicked a); cbn; lia.
Qed.

Lemma caught_poison m ip6 n w : caught m ip6 n w ->
  forall rs, NoDup rs -> Forall (poisoned_at (w_heap w)) rs -> (length rs <= n + panicking w)%nat.
Proof.
  induction 1 as [|n w C IH|n w i k w' C IH _ _ E|n w i w' C IH E|n w i t w' C IH I E]; intros rs D F.
  - destruct rs as [|r rs]; [cbn; lia|]. inversion F as [|? ? [d P]]. destruct r; discriminate.
  - destruct w as [c ts]. specialize (IH rs D F). unfold panicking, wspawn in *. cbn [snd] in *. rewrite filter_app, app_length. lia.
  - destruct w as [c ts]. unfold wcall in E. destruct (nth_error ts i) as [[|]|] eqn:I; try discriminate. injection E as <-.
    specialize (IH rs D F). unfold panicking in *. cbn [snd] in *.
    pose proof (filter_upd ts i _ (Busy k [] (TRun (a_kexec m ip6 k))) I) as L. cbn [panicked] in L. lia.
  - destruct w as [c ts]. unfold wdo in E. destruct (nth_error ts i) as [[|k own t]|] eqn:I; try discriminate.
    destruct (tstep ts (k_heap c) t) as [[[h new] t']|] eqn:St; [|discriminate]. injection E as <-.
    unfold panicking, w_heap in *. cbn [fst snd set_heap k_heap] in *.
    pose proof (filter_upd ts i _ (Busy k (own ++ new) t') I) as L.
    assert (Z : panicked (Busy k own t) = false).
    { destruct t as [[[]| | | | |]|]; try reflexivity. discriminate St. }
    rewrite Z in L. destruct (tstep_tame _ _ _ _ _ _ k (own ++ new) St) as [x T]. rewrite Forall_forall in F.
    destruct (panicked (Busy k (own ++ new) t')).
    + assert (G : (length rs <= S (length (filter (fun r => negb (r =? x)%nat) rs)))%nat).
      { clear -D. induction D as [|a l N D IHD]; [cbn; lia|]. cbn. destruct (Nat.eqb_spec a x) as [->|]; cbn; [|lia].
        assert (Q : filter (fun r => negb (r =? x)%nat) l = l).
        { clear IHD D. induction l as [|b l IHl]; auto. cbn. destruct (Nat.eqb_spec b x) as [->|]; cbn.
          - elim N. left. auto.
          - f_equal. apply IHl. intros Y. apply N. right. auto. }
        rewrite Q. lia. }
      specialize (IH (filter (fun r => negb (r =? x)%nat) rs) (NoDup_filter _ D)).
      assert (Y : Forall (poisoned_at (k_heap c)) (filter (fun r => negb (r =? x)%nat) rs)).
      { apply Forall_forall. intros r J. apply filter_In in J. destruct J as [J B]. destruct (T r (F r J)) as [P|[_ ->]]; auto.
        rewrite Nat.eqb_refl in B. discriminate. }
      specialize (IH Y). lia.
    + assert (Y : Forall (poisoned_at (k_heap c)) rs).
      { apply Forall_forall. intros r J. destruct (T r (F r J)) as [P|[X _]]; auto. discriminate. }
      specialize (IH rs D Y). lia.
  - destruct w as [c ts]. unfold wback in E. cbn [snd] in I. rewrite I in E.
    destruct t as [|k own [[[v|e| | |]| | | | |]|]]; try discriminate; [destruct v|]; injection E as <-; cbn [panicked];
      specialize (IH rs D F); unfold panicking in *; cbn [snd] in *; pose proof (filter_upd ts i _ Idle I) as L; cbn [panicked] in L; lia.
Qed.

(** ** A lock that is held is not poisoned, so poison stays *)

Definition sound (w : world) : Prop := forall i k own x o p, busy w i k own (TWait x o p) -> ~ poisoned_at (w_heap w) x.
Lemma tame_new {A} (c : M A) h a h' r : tame c -> c h = (Ret a, h') -> poisoned_at h' r -> poisoned_at h r.
Proof.
  intros T E P. destruct (T _ _ _ E) as (_ & _ & N). destruct (is_poisoned h r) eqn:Z; [apply is_poisoned_iff, Z|].
  exfalso. apply (N ltac:(congruence) r). split; [exact P|]. intros Y. apply is_poisoned_iff in Y. congruence.
Qed.
Lemma lock_other {A} r (b : list N -> out A * list N) h o h' x : with_lock r b h = (o, h') -> x <> r -> nth_error h' x = nth_error h x.
Proof.
  unfold with_lock. intros E D. destruct (nth_error h r) as [c|]; [|injection E as _ <-; auto].
  destruct (c_poisoned c); [injection E as _ <-; auto|].
  destruct (b (c_data c)) as [[a|e| | |] d]; injection E as _ <-; rewrite nth_upd; destruct (Nat.eqb_spec x r); congruence.
Qed.
Lemma after_heap {B} (o : out B * heap) k h new t : after o k = (h, new, t) -> h = snd o.
Proof. destruct o as [[] h0]; cbn; congruence. Qed.
(** The buffer that a step of another thread may poison is not one that is held. *)
Lemma tstep_held ts h t h' new t' x : tstep ts h t = Some (h', new, t') -> held ts x = true -> (forall o p, t <> TWait x o p) ->
  ~ poisoned_at h x -> ~ poisoned_at h' x.
Proof.
  intros E H W N. destruct t as [[o|d a|r i a|r i v a|r a|y o a]|y o a]; cbn [tstep] in E.
  - discriminate.
  - injection E as <- <- <-. intros P. apply N. eapply (tame_new (alloc d)); [apply tame_alloc|reflexivity|exact P].
  - destruct (held ts r) eqn:R; [discriminate|]. assert (D : x <> r) by congruence. injection E as E. apply after_heap in E. subst h'.
    destruct (with_lock _ _ h) as [o1 h1] eqn:L. cbn [snd]. unfold poisoned_at in *. rewrite (lock_other _ _ _ _ _ _ L D). exact N.
  - destruct (held ts r) eqn:R; [discriminate|]. assert (D : x <> r) by congruence. injection E as E. apply after_heap in E. subst h'.
    destruct (with_lock _ _ h) as [o1 h1] eqn:L. cbn [snd]. unfold poisoned_at in *. rewrite (lock_other _ _ _ _ _ _ L D). exact N.
  - destruct (held ts r) eqn:R; [discriminate|]. assert (D : x <> r) by congruence. injection E as E. apply after_heap in E. subst h'.
    destruct (with_lock _ _ h) as [o1 h1] eqn:L. cbn [snd]. unfold poisoned_at in *. rewrite (lock_other _ _ _ _ _ _ L D). exact N.
  - destruct (held ts y) eqn:R; [discriminate|]. assert (D : x <> y) by congruence. injection E as E. apply after_heap in E. subst h'.
    destruct (with_lock _ _ h) as [o1 h1] eqn:L. cbn [snd]. unfold poisoned_at in *. rewrite (lock_other _ _ _ _ _ _ L D). exact N.
  - assert (D : x <> y) by (intros ->; apply (W o a); reflexivity).
    destruct (held ts o); [discriminate|]. destruct (nth_error h y) as [cx|]; [destruct (nth_error h o) as [co|]|];
      [destruct (c_poisoned co)| |]; injection E as <- <- <-; auto;
      intros P; apply upd_poison_le in P; destruct P as [P|[_ P]]; auto.
Qed.
Lemma tstep_waits ts h t h' new x o p : tstep ts h t = Some (h', new, TWait x o p) -> ~ poisoned_at h' x.
Proof.
  intros E. destruct t as [[o1|d a|r i a|r i v a|r a|y o1 a]|y o1 a]; cbn [tstep] in E; try discriminate.
  1-3: destruct (held ts r); [discriminate|]; injection E as E; unfold after in E;
    destruct (with_lock _ _ h) as [[b|e| | |] h1]; discriminate.
  - destruct (held ts y); [discriminate|]. injection E as E. unfold after, with_lock in E.
    destruct (nth_error h y) as [c|] eqn:Y; [|discriminate]. destruct (c_poisoned c); [discriminate|]. injection E as <- _ <- _ _.
    intros [d P]. rewrite nth_upd, Nat.eqb_refl, Y in P. discriminate.
  - destruct (held ts o1); [discriminate|]. destruct (nth_error h y); [destruct (nth_error h o1) as [co|]|];
      [destruct (c_poisoned co)| |]; discriminate.
Qed.
Lemma nth_upd_thread (ts : list thread) i t j : nth_error (upd ts i t) j = (if (j =? i)%nat then match nth_error ts j with Some _ => Some t | None => None end else nth_error ts j).
Proof.
  revert i j. induction ts as [|a ts IH]; intros [|i] [|j]; cbn; auto. destruct (j =? i)%nat; auto.
Qed.
Lemma sound_reach m ip6 w : octets16 ip6 -> wreach m ip6 w -> sound w.
Proof.
  intros O R. induction R as [|w w' R IH S]; [intros [|i] k own x o p B; discriminate|].
  pose proof (inv_reach m ip6 w O R) as V. destruct S as [w|w i k w' _ _ E|w i w' E|w i w' E].
  - destruct w as [c ts]. intros j k own x o p B. unfold busy, wspawn in B. cbn [snd] in B.
    destruct (Nat.lt_ge_cases j (length ts)) as [L|L]; [rewrite nth_error_app1 in B by lia; eapply IH; exact B|].
    rewrite nth_error_app2 in B by lia. destruct (j - length ts)%nat as [|[|n]]; discriminate B.
  - destruct w as [c ts]. unfold wcall in E. destruct (nth_error ts i) as [[|]|] eqn:I; try discriminate. injection E as <-.
    intros j k1 own x o p B. unfold busy in B. cbn [snd] in B. rewrite nth_upd_thread in B. destruct (Nat.eqb_spec j i) as [->|].
    + rewrite I in B. discriminate.
    + eapply IH. exact B.
  - destruct (wdo_inv w i w' E) as (k & own & t & h & new & t' & B & S & ->). intros j k1 own1 x o p Bj.
    unfold busy in Bj. cbn [snd] in Bj. rewrite nth_upd_thread in Bj. change (~ poisoned_at h x). destruct (Nat.eqb_spec j i) as [->|D].
    + unfold busy in B. rewrite B in Bj. injection Bj as _ _ ->. eapply tstep_waits. exact S.
    + eapply tstep_held; [exact S|eapply held_true; exact Bj| |eapply IH; exact Bj].
      intros o2 p2 ->. apply D. symmetry. eapply (inv_wait _ _ _ V); [exact B|exact Bj].
  - destruct w as [c ts]. unfold wback in E. destruct (nth_error ts i) as [t|] eqn:I; [|discriminate].
    assert (X : w_heap w' = k_heap c /\ snd w' = upd ts i Idle).
    { destruct t as [|k own [[[v|e| | |]| | | | |]|]]; try discriminate; [destruct v|]; injection E as <-; auto. }
    destruct X as [X1 X2]. intros j k1 own x o p B. unfold busy in B. rewrite X2, nth_upd_thread in B. rewrite X1.
    destruct (Nat.eqb_spec j i) as [->|]; [rewrite I in B; discriminate|]. eapply IH. exact B.
Qed.
Lemma stays_poisoned m ip6 w w' r : octets16 ip6 -> wreach m ip6 w -> wstep m ip6 w w' -> poisoned_at (w_heap w) r -> poisoned_at (w_heap w') r.
Proof.
  intros O R S P. pose proof (sound_reach m ip6 w O R) as V. destruct S as [w|w i k w' _ _ E|w i w' E|w i w' E].
  - destruct w. exact P.
  - destruct w as [c ts]. unfold wcall in E. destruct (nth_error ts i) as [[|]|]; try discriminate. injection E as <-. exact P.
  - destruct (wdo_inv w i w' E) as (k & own & t & h & new & t' & B & S & ->). change (poisoned_at h r).
    destruct t as [[o|d a|q j a|q j v a|q a|y o a]|y o a]; cbn [tstep] in S.
    + discriminate.
    + injection S as <- <- <-. apply (tame_alloc d _ _ _ eq_refl). exact P.
    + destruct (held (snd w) q); [discriminate|]. injection S as S. apply after_heap in S. subst h.
      destruct (with_lock _ _ _) as [o1 h1] eqn:L. apply (tame_lock _ _ _ _ _ L). exact P.
    + destruct (held (snd w) q); [discriminate|]. injection S as S. apply after_heap in S. subst h.
      destruct (with_lock _ _ _) as [o1 h1] eqn:L. apply (tame_lock _ _ _ _ _ L). exact P.
    + destruct (held (snd w) q); [discriminate|]. injection S as S. apply after_heap in S. subst h.
      destruct (with_lock _ _ _) as [o1 h1] eqn:L. apply (tame_lock _ _ _ _ _ L). exact P.
    + destruct (held (snd w) y); [discriminate|]. injection S as S. apply after_heap in S. subst h.
      destruct (with_lock _ _ _) as [o1 h1] eqn:L. apply (tame_lock _ _ _ _ _ L). exact P.
    + assert (D : r <> y) by (intros ->; eapply V; [exact B|exact P]).
      destruct (held (snd w) o); [discriminate|].
      destruct (nth_error (w_heap w) y) as [cx|]; [destruct (nth_error (w_heap w) o) as [co|]|];
        [destruct (c_poisoned co)| |]; injection S as <- <- <-; auto; unfold poisoned_at in *; rewrite nth_upd;
        destruct (Nat.eqb_spec r y); auto; contradiction.
  - destruct w as [c ts]. unfold wback in E. destruct (nth_error ts i) as [t|]; [|discriminate].
    destruct t as [|k own [[[v|e| | |]| | | | |]|]]; try discriminate; [destruct v|]; injection E as <-; exact P.
Qed.
