(** PoisonProofs.v -- what any call can do to the poison flags, for C101. *)

From Coq Require Import Lia.
From Verif Require Import Base Bits Types Layout Heap Packet Text Build Utils Slow Fast Show Ops Client Spec PoisonSpec.
Open Scope N_scope.

Definition tame {A} (x : M A) : Prop := forall h o h', x h = (o, h') ->
  (forall r, poisoned_at h r -> poisoned_at h' r) /\
  (forall r s, newly_poisoned h h' r -> newly_poisoned h h' s -> r = s) /\
  ((forall e, o <> Panic e) -> forall r, ~ newly_poisoned h h' r).

Lemma tame_stay {A} (x : M A) : (forall h, snd (x h) = h) -> tame x.
Proof.
  intros S h o h' E. specialize (S h). rewrite E in S. cbn [snd] in S. subst h'. unfold newly_poisoned.
  split; [auto|]. split; [intros r s [P N]; contradiction|]. intros _ r [P N]. contradiction.
Qed.
Lemma tame_ret {A} (a : A) : tame (ret a).
Proof. apply tame_stay. reflexivity. Qed.
Lemma tame_lift {A} (o : out A) : tame (lift o).
Proof. apply tame_stay. reflexivity. Qed.
Lemma tame_fail {A} e : tame (@fail A e).
Proof. apply tame_stay. reflexivity. Qed.
Lemma tame_bind {A B} (x : M A) (k : A -> M B) : tame x -> (forall a, tame (k a)) -> tame (bind x k).
Proof.
  intros X K h o h' E. unfold bind in E. destruct (x h) as [o1 h1] eqn:Y. destruct (X _ _ _ Y) as (M1 & O1 & N1).
  destruct o1 as [a|e| | |]; try (injection E as <- <-; split; [auto|]; split; [auto|]; intros D; apply N1; intros e' X';
    first [discriminate X'|injection X' as ->; apply (D e' eq_refl)]).
  assert (N1' : forall r, ~ newly_poisoned h h1 r) by (apply N1; congruence).
  destruct (K a _ _ _ E) as (M2 & O2 & N2). split; [auto|].
  assert (S : forall r, newly_poisoned h h' r -> newly_poisoned h1 h' r).
  { intros r [P N]. split; [exact P|]. intros P1. apply (N1' r). split; auto. }
  split; [intros r s R R'; apply O2; auto|]. intros D r R. apply (N2 D r). auto.
Qed.
Lemma nth_upd h r (c : cell) i : nth_error (upd h r c) i = (if (i =? r)%nat then match nth_error h i with Some _ => Some c | None => None end else nth_error h i).
Proof.
  revert r i. induction h as [|y t IH]; intros [|r] [|i]; cbn; auto.
  destruct (i =? r)%nat; auto.
Qed.
Lemma upd_poison h r d d' b : nth_error h r = Some (Cell d false) ->
  forall s, poisoned_at (upd h r (Cell d' b)) s <-> poisoned_at h s \/ (s = r /\ b = true).
Proof.
  intros E s. unfold poisoned_at. rewrite nth_upd. destruct (Nat.eqb_spec s r) as [->|D].
  - rewrite E. split; [intros [x X]; right; split; congruence|]. intros [[x X]|[_ ->]]; [congruence|eauto].
  - split; [auto|]. intros [X|[X _]]; [auto|contradiction].
Qed.
Lemma tame_upd h r d d' b (o : Prop) : nth_error h r = Some (Cell d false) -> (o -> b = false) ->
  (forall s, poisoned_at h s -> poisoned_at (upd h r (Cell d' b)) s) /\
  (forall s t, newly_poisoned h (upd h r (Cell d' b)) s -> newly_poisoned h (upd h r (Cell d' b)) t -> s = t) /\
  (o -> forall s, ~ newly_poisoned h (upd h r (Cell d' b)) s).
Proof.
  intros E O. pose proof (upd_poison h r d d' b E) as U. unfold newly_poisoned. split; [intros s P; apply U; auto|].
  split.
  - intros s t [P N] [P' N']. apply U in P. apply U in P'. intuition congruence.
  - intros X s [P N]. apply U in P. rewrite (O X) in P. intuition discriminate.
Qed.
Lemma tame_lock {A} r (b : list N -> out A * list N) : tame (with_lock r b).
Proof.
  intros h o h' E. unfold with_lock in E. destruct (nth_error h r) as [[d p]|] eqn:Z.
  2:{ injection E as <- <-. eapply (tame_stay (fun h => (@UB A, h))); reflexivity. }
  cbn [c_poisoned c_data] in E. destruct p; [injection E as <- <-; eapply (tame_stay (fun h => (@Panic A PPoison, h))); reflexivity|].
  destruct (b d) as [[a|e| | |] d']; injection E as <- <-; (eapply tame_upd; [exact Z|]); auto.
  intros X. destruct (X e eq_refl).
Qed.
Lemma tame_alloc d : tame (alloc d).
Proof.
  intros h o h' E. injection E as <- <-.
  assert (U : forall r, poisoned_at (h ++ [Cell d false]) r <-> poisoned_at h r).
  { intros r. unfold poisoned_at. destruct (Nat.lt_ge_cases r (length h)) as [L|L].
    - rewrite nth_error_app1 by lia. tauto.
    - rewrite nth_error_app2 by lia. rewrite (proj2 (nth_error_None h r)) by lia.
      split; [|intros [x X]; discriminate]. intros [x X]. destruct (r - length h)%nat as [|[|n]]; cbn in X; congruence. }
  unfold newly_poisoned. split; [intros r P; apply U, P|]. split; [intros r s [P N]|intros _ r [P N]]; apply U in P; contradiction.
Qed.
Lemma tame_replace x y : tame (hreplace x y).
Proof.
  intros h o h' E. unfold hreplace in E.
  destruct (nth_error h (h_ref x)) as [[d p]|] eqn:Zx; [|injection E as <- <-; eapply (tame_stay (fun h => (@UB unit, h))); reflexivity].
  destruct (nth_error h (h_ref y)) as [[d' p']|] eqn:Zy; [|injection E as <- <-; eapply (tame_stay (fun h => (@UB unit, h))); reflexivity].
  cbn [c_poisoned c_data] in E. destruct p; [injection E as <- <-; eapply (tame_stay (fun h => (@Panic unit PPoison, h))); reflexivity|].
  destruct (_ =? _)%nat; [injection E as <- <-; eapply tame_upd; eauto|].
  destruct p'; injection E as <- <-; (eapply tame_upd; [exact Zx|]); auto. intros X. destruct (X _ eq_refl).
Qed.

Ltac hd t := match t with ?f _ => hd f | _ => t end.
Ltac tm := cbv beta zeta;
  first
  [ apply tame_ret | apply tame_lift | apply tame_fail | apply tame_lock | apply tame_alloc | apply tame_replace
  | solve [auto with tame]
  | apply tame_bind; [tm|intros; tm]
  | match goal with
    | |- tame (match ?x with _ => _ end) => destruct x; tm
    | |- tame ?t => let f := hd t in unfold f; tm
    end ].

Create HintDb tame.
Lemma tame_get r n : forall i v, tame (hget_loop r i n v).
Proof. induction n as [|n IH]; intros i v; cbn [hget_loop]; tm; auto. Qed.
#[local] Hint Resolve tame_get : tame.
Lemma tame_set r l n : forall v, tame (hset_loop r l n v).
Proof. induction n as [|n IH]; intros v; cbn [hset_loop]; tm; auto. Qed.
#[local] Hint Resolve tame_set : tame.
Lemma tame_bits m x a b : tame (hbit_range m x a b).
Proof. tm. Qed.
#[local] Hint Resolve tame_bits : tame.
Lemma tame_bytes m x n : forall i, tame (hbytes_loop m x i n).
Proof. induction n as [|n IH]; intros i; cbn [hbytes_loop]; tm. Qed.
#[local] Hint Resolve tame_bytes : tame.
Lemma tame_set_bytes x v n : forall i k, tame (hset_bytes_loop x i n v k).
Proof. induction n as [|n IH]; intros i k; cbn [hset_bytes_loop]; tm. Qed.
#[local] Hint Resolve tame_set_bytes : tame.
Lemma tame_hexec m o : tame (hexec m o).
Proof. destruct o; cbn [hexec]; tm. Qed.

Lemma tame_concat l : tame (concat_vecs l).
Proof. induction l as [|x l IH]; cbn [concat_vecs]; tm. Qed.
Lemma tame_clones l : tame (clone_hdrs l).
Proof. induction l as [|x l IH]; cbn [clone_hdrs]; tm. Qed.
#[local] Hint Resolve tame_concat tame_clones : tame.
Lemma tame_octets m x n : forall i, tame (hshow_octets m x i n).
Proof. induction n as [|n IH]; intros i; cbn [hshow_octets]; tm. Qed.
#[local] Hint Resolve tame_octets : tame.
Lemma tame_fields m x l : tame (hshow_fields m x l).
Proof. induction l as [|f l IH]; cbn [hshow_fields]; tm. Qed.
#[local] Hint Resolve tame_fields : tame.
Lemma tame_hshow m x : tame (hshow m x).
Proof. tm. Qed.
#[local] Hint Resolve tame_hshow : tame.
Lemma tame_shows m l : tame (show_hdrs m l).
Proof. induction l as [|x l IH]; cbn [show_hdrs]; tm. Qed.
#[local] Hint Resolve tame_shows : tame.
Lemma tame_hmake m ip6 b : tame (hmake_run m ip6 b).
Proof. destruct b; cbn [hmake_run]; tm. Qed.
Lemma tame_pmake m ip6 b : tame (pmake_run m ip6 b).
Proof. destruct b; cbn [pmake_run]; tm. Qed.
Lemma tame_slow m : forall n f d, tame (slow_fuel m n f d).
Proof.
  induction n as [|n IH]; intros f d; cbn [slow_fuel]; [apply tame_stay; reflexivity|].
  destruct f; cbn [slow_body]; tm.
Qed.
#[local] Hint Resolve tame_hexec tame_hmake tame_pmake tame_slow : tame.
Lemma tame_kexec m ip6 k : tame (kexec m ip6 k).
Proof. destruct k; cbn [kexec]; tm. Qed.

Definition is_poisoned (h : heap) (r : nat) : bool := match nth_error h r with Some c => c_poisoned c | None => false end.
Lemma is_poisoned_iff h r : is_poisoned h r = true <-> poisoned_at h r.
Proof.
  unfold is_poisoned, poisoned_at. destruct (nth_error h r) as [[d [|]]|]; cbn; split; intros H; try discriminate; eauto;
    destruct H; congruence.
Qed.
Lemma program_poison m ip6 : forall l h os h', program m ip6 l h = (os, h') ->
  (forall r, poisoned_at h r -> poisoned_at h' r) /\
  (forall rs, NoDup rs -> Forall (newly_poisoned h h') rs -> (length rs <= panics os)%nat).
Proof.
  induction l as [|k l IH]; intros h os h' E; cbn [program] in E.
  - injection E as <- <-. split; auto. intros [|r rs] _ F; [cbn; lia|]. inversion F as [|? ? [P N]]. contradiction.
  - destruct (kexec m ip6 k h) as [o h1] eqn:K. destruct (program m ip6 l h1) as [os1 h2] eqn:R. injection E as <- <-.
    destruct (tame_kexec m ip6 k _ _ _ K) as (M1 & O1 & N1). destruct (IH _ _ _ R) as [M2 C2]. split; [auto|].
    intros rs D F. set (p := is_poisoned h1).
    assert (L : forall l, (length l = length (filter p l) + length (filter (fun r => negb (p r)) l))%nat).
    { induction l0 as [|a l0 IH0]; cbn; auto. destruct (p a); cbn; lia. }
    rewrite (L rs). rewrite Forall_forall in F.
    assert (Q : (length (filter (fun r => negb (p r)) rs) <= panics os1)%nat).
    { apply C2; [apply NoDup_filter, D|]. apply Forall_forall. intros r I. apply filter_In in I. destruct I as [I B].
      split; [apply F, I|]. intros X. apply is_poisoned_iff in X. unfold p in B. rewrite X in B. discriminate. }
    assert (G : forall r, In r (filter p rs) -> newly_poisoned h h1 r).
    { intros r I. apply filter_In in I. destruct I as [I B]. split; [apply is_poisoned_iff, B|apply F, I]. }
    assert (Z : (length (filter p rs) <= 1)%nat).
    { pose proof (NoDup_filter p D) as ND. destruct (filter p rs) as [|a [|b t]]; cbn; try lia. exfalso.
      inversion ND as [|? ? NI]. apply NI. left. symmetry. apply O1; apply G; cbn; auto. }
    destruct o as [a|e| | |]; cbn [panics]; try lia;
      (destruct (filter p rs) as [|r t]; [cbn; lia|]; exfalso; eapply N1; [congruence|apply G; left; reflexivity]).
Qed.
