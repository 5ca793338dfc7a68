(** TPrintProofs.v -- proofs about TPrint.v. *)

From Coq Require Import Lia.
From Verif Require Import Base Bits Types Layout Heap Packet Text Ipv6 Build Utils Slow Fast Show Trait Ops Client Print Threads TPrint
  Spec ClientSpec PrintSpec ThreadsSpec TPrintSpec BitsProofs HeapProofs PropBuild PropIpv6 ClientProofs PropClient ThreadsSim ThreadsRel ThreadsProofs
  TPrintSim TPrintRel TPrintErase.
Open Scope N_scope.

(** ** The execution without what is printed *)

Definition mstate (t : qstate) (t0 : tstate) : Prop :=
  match t, t0 with
  | QRun q, TRun p => qer untold q p
  | QWait x o q, TWait x' o' p => x = x' /\ o = o' /\ qer untold q p
  | _, _ => False
  end.
Definition mthread (t : pthread) (t0 : thread) : Prop :=
  match t, t0 with
  | PIdle, Idle => True
  | PBusy k own _ q, Busy k0 own0 q0 => k = k0 /\ own = own0 /\ mstate q q0
  | _, _ => False
  end.
Definition mworld (w : pworld) (w0 : world) : Prop := fst w0 = pw_client w /\ Forall2 mthread (pw_threads w) (snd w0).

Lemma Forall2_nth {A B} (P : A -> B -> Prop) l l' i a : Forall2 P l l' -> nth_error l i = Some a ->
  exists b, nth_error l' i = Some b /\ P a b.
Proof.
  intros F. revert i. induction F as [|x y l l' X F IH]; intros [|i] E; cbn in *; try discriminate; [injection E as <-; eauto|auto].
Qed.
Lemma Forall2_nth' {A B} (P : A -> B -> Prop) l l' i b : Forall2 P l l' -> nth_error l' i = Some b ->
  exists a, nth_error l i = Some a /\ P a b.
Proof.
  intros F. revert i. induction F as [|x y l l' X F IH]; intros [|i] E; cbn in *; try discriminate; [injection E as <-; eauto|auto].
Qed.
Lemma Forall2_upd {A B} (P : A -> B -> Prop) l l' i a b : Forall2 P l l' -> P a b -> Forall2 P (upd l i a) (upd l' i b).
Proof.
  intros F H. revert i. induction F as [|x y l l' X F IH]; intros [|i]; cbn [upd]; try constructor; auto.
Qed.
Lemma mheld ts ts0 r : Forall2 mthread ts ts0 -> pheld ts r = held ts0 r.
Proof.
  unfold pheld, held. induction 1 as [|t t0 ts ts0 M F IH]; cbn [existsb]; auto. rewrite IH. f_equal.
  destruct t as [|k own said [q|x o q]], t0 as [|k0 own0 [p|x0 o0 p]]; cbn in *; try tauto.
  destruct M as (_ & _ & -> & _). reflexivity.
Qed.

Lemma mafter {B} (o : out B * heap) f g h new s t : (forall b, mstate (f b) (g b)) -> pafter o f = (h, new, s, t) ->
  s = EmptyString /\ exists t0, after o g = (h, new, t0) /\ mstate t t0.
Proof.
  intros M E. destruct o as [[b|e| | |] h1]; cbn [pafter after] in *; injection E as <- <- <- <-; (split; [reflexivity|]); eexists;
    (split; [reflexivity|]); cbn; auto.
Qed.
Lemma qstep_match ts ts0 h t t0 h' new s t' : Forall2 mthread ts ts0 -> mstate t t0 -> qstep ts h t = Some (h', new, s, t') ->
  (h' = h /\ new = [] /\ mstate t' t0 /\ exists k, t = QRun (QSay s k) /\ t' = QRun k) \/
  (s = EmptyString /\ exists t0', tstep ts0 h t0 = Some (h', new, t0') /\ mstate t' t0').
Proof.
  intros F M E. destruct t as [q|x o q].
  - destruct t0 as [p|]; [|contradiction]. cbn [mstate] in M.
    destruct q as [r|u k|d k|r i k|r i v k|r k|x o k]; cbn [qstep] in E; [discriminate| | | | | |].
    { injection E as <- <- <- <-. left. repeat split; auto. eauto. }
    all: right; destruct p as [o'|d' k'|r' i' k'|r' i' v' k'|r' k'|x' o' k']; cbn [qer] in M; try contradiction; cbn [tstep].
    + destruct M as (<- & M). injection E as <- <- <- <-. split; auto. eexists. split; [reflexivity|]. cbn. auto.
    + destruct M as (<- & <- & M). rewrite (mheld _ _ _ F) in E. destruct (held ts0 r); [discriminate|]. injection E as E.
      eapply (mafter _ _ (fun b => TRun (k' b))) in E; [|intros b; exact (M b)]. destruct E as (-> & t0 & E & M'). split; auto. exists t0. split; [f_equal; exact E|exact M'].
    + destruct M as (<- & <- & <- & M). rewrite (mheld _ _ _ F) in E. destruct (held ts0 r); [discriminate|]. injection E as E.
      eapply (mafter _ _ (fun _ => TRun k')) in E; [|intros b; exact M]. destruct E as (-> & t0 & E & M'). split; auto. exists t0. split; [f_equal; exact E|exact M'].
    + destruct M as (<- & M). rewrite (mheld _ _ _ F) in E. destruct (held ts0 r); [discriminate|]. injection E as E.
      eapply (mafter _ _ (fun b => TRun (k' b))) in E; [|intros b; exact (M b)]. destruct E as (-> & t0 & E & M'). split; auto. exists t0. split; [f_equal; exact E|exact M'].
    + destruct M as (<- & <- & M). rewrite (mheld _ _ _ F) in E. destruct (held ts0 x); [discriminate|]. injection E as E.
      eapply (mafter _ _ (fun _ => TWait x o k')) in E; [|intros b; split; auto]. destruct E as (-> & t0 & E & M'). split; auto. exists t0. split; [f_equal; exact E|exact M'].
  - right. destruct t0 as [|x' o' p]; [contradiction|]. cbn [mstate qstep tstep] in *. destruct M as (<- & <- & M).
    rewrite (mheld _ _ _ F) in E. destruct (held ts0 o); [discriminate|].
    destruct (nth_error h x) as [cx|]; [destruct (nth_error h o) as [co|]; [destruct (c_poisoned co)|]|]; injection E as <- <- <- <-;
      (split; [reflexivity|]); eexists; (split; [reflexivity|]); cbn; auto.
Qed.

Lemma pdo_inv w i w' : pdo w i = Some w' -> exists k own said t h new s t', pbusy w i k own said t /\
  qstep (pw_threads w) (p_heap w) t = Some (h, new, s, t') /\
  w' = PW (set_heap (pw_client w) h) (upd (pw_threads w) i (PBusy k (own ++ new) (said ++ s) t')) (pw_out w ++ emit i s).
Proof.
  unfold pdo, pbusy, p_heap. destruct (nth_error (pw_threads w) i) as [[|k own said t]|] eqn:E; try discriminate.
  destruct (qstep (pw_threads w) _ t) as [[[[h new] s] t']|] eqn:S; [|discriminate]. intros [= <-].
  exists k, own, said, t, h, new, s, t'. auto.
Qed.
Lemma pcall_inv m ip6 w i k w' : pcall m ip6 w i k = Some w' -> nth_error (pw_threads w) i = Some PIdle /\
  w' = PW (pw_client w) (upd (pw_threads w) i (PBusy k [] EmptyString (QRun (q_call m ip6 k)))) (pw_out w).
Proof. unfold pcall. destruct (nth_error (pw_threads w) i) as [[|? ? ? ?]|]; try discriminate. intros [= <-]. auto. Qed.
Lemma pback_inv w i w' : pback w i = Some w' -> exists k own said o, pbusy w i k own said (QRun (QDone o)) /\ comes_back o /\
  w' = PW (match o with Ret v => learn (pw_client w) (Ret v) (p_heap w) | _ => pw_client w end) (upd (pw_threads w) i PIdle) (pw_out w).
Proof.
  unfold pback, pbusy, p_heap. destruct (nth_error (pw_threads w) i) as [[|k own said [[[v|e| | |]| | | | | |]|]]|]; try discriminate; intros [= <-].
  - exists k, own, said, (Ret v). repeat split; auto. left; eauto.
  - exists k, own, said, (Panic e). repeat split; auto. right; eauto.
Qed.
Lemma learn_untold c v v' h : untold v v' -> learn c (Ret v) h = learn c (Ret v') h.
Proof. unfold untold. intros ->. destruct v'; reflexivity. Qed.

(** Every move is a move of the execution without printing, or none. *)
Lemma pmove_match m ip6 w w0 j w' : mworld w w0 -> pmove m ip6 w j w' ->
  exists w0', mworld w' w0' /\ (w0' = w0 \/ wstep m ip6 w0 w0').
Proof.
  intros (C & F) S. destruct w0 as [c ts0]. cbn [fst snd] in *. subst c. destruct S as [|i k w' K T E|i w' E|i w' E].
  - exists (wspawn (pw_client w, ts0)). split; [|right; constructor]. split; [reflexivity|]. cbn. apply Forall2_app; auto. constructor; [exact I|constructor].
  - apply pcall_inv in E. destruct E as (Ei & ->). destruct (Forall2_nth _ _ _ _ _ F Ei) as (t0 & E0 & M). destruct t0; [|contradiction].
    eexists. split; [|right; eapply (W_call _ _ (pw_client w, ts0) i k); auto; cbn [wcall]; rewrite E0; reflexivity].
    split; [reflexivity|]. cbn. apply Forall2_upd; auto. repeat split; auto. apply qer_call.
  - apply pdo_inv in E. destruct E as (k & own & said & t & h & new & s & t' & B & S & ->).
    destruct (Forall2_nth _ _ _ _ _ F B) as (t1 & E0 & M). destruct t1 as [|k0 own0 t0]; [contradiction|]. destruct M as (<- & <- & M).
    destruct (qstep_match _ _ _ _ _ _ _ _ _ F M S) as [(-> & -> & M' & _)|(-> & t0' & S0 & M')].
    + exists (pw_client w, ts0). split; [|left; reflexivity]. unfold p_heap. split; cbn; [symmetry; apply set_same|]. rewrite app_nil_r.
      rewrite <- (upd_idem ts0 i (Busy k own t0) E0). apply Forall2_upd; auto. repeat split; auto.
    + eexists. split; [|right; eapply (W_do _ _ (pw_client w, ts0) i); cbn [wdo]; rewrite E0; unfold p_heap in S0; rewrite S0; reflexivity].
      split; [reflexivity|]. cbn. apply Forall2_upd; auto. repeat split; auto.
  - apply pback_inv in E. destruct E as (k & own & said & o & B & Cb & ->).
    destruct (Forall2_nth _ _ _ _ _ F B) as (t1 & E0 & M). destruct t1 as [|k0 own0 [p|]]; try contradiction; destruct M as (<- & <- & M); [|contradiction].
    cbn [mstate qer] in M. destruct p as [o0| | | | |]; try contradiction.
    destruct Cb as [(v & ->)|(e & ->)]; destruct o0 as [v0|e0| | |]; cbn [oer] in M; try contradiction.
    + eexists. split; [|right; eapply (W_back _ _ (pw_client w, ts0) i); cbn [wback]; rewrite E0; reflexivity].
      split; cbn; [symmetry; apply learn_untold; exact M|]. apply Forall2_upd; auto. exact I.
    + eexists. split; [|right; eapply (W_back _ _ (pw_client w, ts0) i); cbn [wback]; rewrite E0; reflexivity].
      split; [reflexivity|]. cbn. apply Forall2_upd; auto. exact I.
Qed.
Lemma preach_match m ip6 w : preach m ip6 w -> exists w0, wreach m ip6 w0 /\ mworld w w0.
Proof.
  induction 1 as [|w j w' R (w0 & R0 & M) S].
  - exists w_start. split; [constructor|]. split; [reflexivity|constructor].
  - destruct (pmove_match _ _ _ _ _ _ M S) as (w1 & M1 & [->|S1]); exists w1 || exists w0; split; auto. eapply WR_step; eauto.
Qed.
Lemma mthread_same t t0 : mthread t t0 -> same_thread t t0.
Proof.
  destruct t as [|k own said q], t0 as [|k0 own0 p]; cbn; auto. intros (-> & -> & M). split; [auto|]. split; [auto|]. split.
  - intros o ->. destruct p as [p|]; [|contradiction]. cbn in M. destruct p as [o0| | | | |]; try contradiction. exists o0. split; [reflexivity|].
    destruct o as [v| | | |], o0 as [v0| | | |]; cbn in M; try contradiction; try reflexivity; [|cbn; congruence].
    unfold untold in M. rewrite M. destruct v0; reflexivity.
  - intros x y. split; intros (p1 & ->).
    + destruct p as [p|x' y' p]; [contradiction|]. destruct M as (<- & <- & _). eauto.
    + destruct q as [q|x' y' q]; [contradiction|]. destruct M as (-> & -> & _). eauto.
Qed.

(** And every execution without printing is one of these. *)
Definition quiet (t : qstate) : Prop := forall s k, t <> QRun (QSay s k).
Lemma after_pafter {B} (o : out B * heap) f g h new t0 : (forall b, mstate (f b) (g b)) -> after o g = (h, new, t0) ->
  exists t, pafter o f = (h, new, EmptyString, t) /\ mstate t t0.
Proof.
  intros M E. destruct o as [[b|e| | |] h1]; cbn [pafter after] in *; injection E as <- <- <-; eexists; (split; [reflexivity|]); cbn; auto.
Qed.
Lemma tstep_match ts ts0 h t t0 h' new t0' : Forall2 mthread ts ts0 -> mstate t t0 -> quiet t -> tstep ts0 h t0 = Some (h', new, t0') ->
  exists t', qstep ts h t = Some (h', new, EmptyString, t') /\ mstate t' t0'.
Proof.
  intros F M Q E. destruct t0 as [p|x o p].
  - destruct t as [q|]; [|contradiction]. cbn [mstate] in M.
    destruct p as [r|d k|r i k|r i v k|r k|x o k]; cbn [tstep] in E; [discriminate| | | | |];
      (destruct q as [o'|u k'|d' k'|r' i' k'|r' i' v' k'|r' k'|x' o' k'];
         [contradiction|exfalso; exact (Q _ _ eq_refl)|idtac..]); cbn [qer] in M; try contradiction; cbn [qstep].
    + destruct M as (-> & M). injection E as <- <- <-. eexists. split; [reflexivity|]. cbn. auto.
    + destruct M as (-> & -> & M). rewrite (mheld _ _ _ F). destruct (held ts0 r); [discriminate|]. injection E as E.
      eapply (after_pafter _ (fun b => QRun (k' b))) in E; [|intros b; exact (M b)]. destruct E as (t' & -> & M'). eauto.
    + destruct M as (-> & -> & -> & M). rewrite (mheld _ _ _ F). destruct (held ts0 r); [discriminate|]. injection E as E.
      eapply (after_pafter _ (fun b => QRun k')) in E; [|intros b; exact M]. destruct E as (t' & -> & M'). eauto.
    + destruct M as (-> & M). rewrite (mheld _ _ _ F). destruct (held ts0 r); [discriminate|]. injection E as E.
      eapply (after_pafter _ (fun b => QRun (k' b))) in E; [|intros b; exact (M b)]. destruct E as (t' & -> & M'). eauto.
    + destruct M as (-> & -> & M). rewrite (mheld _ _ _ F). destruct (held ts0 x); [discriminate|]. injection E as E.
      eapply (after_pafter _ (fun b => QWait x o k')) in E; [|intros b; split; auto]. destruct E as (t' & -> & M'). eauto.
  - destruct t as [|x' o' q]; [contradiction|]. cbn [mstate qstep tstep] in *. destruct M as (-> & -> & M).
    rewrite (mheld _ _ _ F). destruct (held ts0 o); [discriminate|].
    destruct (nth_error h x) as [cx|]; [destruct (nth_error h o) as [co|]; [destruct (c_poisoned co)|]|]; injection E as <- <- <-;
      eexists; (split; [reflexivity|]); cbn; auto.
Qed.
(** A thread can always print what it has to print next. *)
Lemma flush m ip6 i q : forall w w0 k own said, preach m ip6 w -> mworld w w0 -> pbusy w i k own said (QRun q) ->
  exists w' said' q', preach m ip6 w' /\ mworld w' w0 /\ pbusy w' i k own said' (QRun q') /\ quiet (QRun q').
Proof.
  induction q as [o|s q IH|d q _|r n q _|r n v q _|r q _|x o q _]; intros w w0 k own said R M B;
    try (eexists w, said, _; repeat split; eauto; try apply M; intros ? ?; discriminate).
  set (w1 := PW (set_heap (pw_client w) (p_heap w)) (upd (pw_threads w) i (PBusy k (own ++ []) (said ++ s) (QRun q))) (pw_out w ++ emit i s)).
  assert (E : pdo w i = Some w1) by (unfold pdo; unfold pbusy in B; rewrite B; reflexivity).
  apply (IH w1 w0 k own (said ++ s)%string).
  - eapply PR_move; [exact R|eapply PM_do; exact E].
  - destruct M as (C & F). split; [rewrite C; symmetry; apply set_same|]. unfold w1. cbn [pw_threads].
    destruct (Forall2_nth _ _ _ _ _ F B) as (t1 & E0 & Mt). rewrite app_nil_r, <- (upd_idem _ _ _ E0).
    apply Forall2_upd; auto.
  - unfold w1, pbusy. cbn [pw_threads]. rewrite app_nil_r. eapply nth_upd_at; eauto.
Qed.
Lemma flushed m ip6 i t : forall w w0 k own said, preach m ip6 w -> mworld w w0 -> pbusy w i k own said t ->
  exists w' said' t', preach m ip6 w' /\ mworld w' w0 /\ pbusy w' i k own said' t' /\ quiet t'.
Proof.
  intros w w0 k own said R M B. destruct t as [q|x o q].
  - destruct (flush _ _ _ _ _ _ _ _ _ R M B) as (w' & said' & q' & H). eauto 7.
  - exists w, said, (QWait x o q). split; [auto|]. split; [auto|]. split; [auto|]. intros ? ?; discriminate.
Qed.
Lemma wstep_match m ip6 w w0 w0' : preach m ip6 w -> mworld w w0 -> wstep m ip6 w0 w0' ->
  exists w', preach m ip6 w' /\ mworld w' w0'.
Proof.
  intros R M S. destruct w0 as [c ts0]. inversion S as [w1 Ew1 Ew2|w1 i k w2 K T E Ew1 Ew2|w1 i w2 E Ew1 Ew2|w1 i w2 E Ew1 Ew2]; subst w1; try subst w2; clear S.
  - exists (pspawn w). split; [eapply PR_move; [exact R|constructor]|]. destruct M as (C & F). split; [exact C|]. cbn. apply Forall2_app; auto.
    constructor; [exact I|constructor].
  - destruct M as (C & F). cbn [fst snd wcall] in *. subst c. destruct (nth_error ts0 i) as [[|? ? ?]|] eqn:E0; try discriminate. injection E as <-.
    destruct (Forall2_nth' _ _ _ _ _ F E0) as (t & Et & Mt). destruct t; [|contradiction].
    eexists. split; [eapply PR_move; [exact R|eapply PM_call; eauto; unfold pcall; rewrite Et; reflexivity]|].
    split; [reflexivity|]. cbn. apply Forall2_upd; auto. repeat split; auto. apply qer_call.
  - cbn [wdo] in E. destruct (nth_error ts0 i) as [[|k own t0]|] eqn:E0; try discriminate.
    destruct (tstep ts0 (k_heap c) t0) as [[[h new] t0']|] eqn:St; [|discriminate]. injection E as <-.
    destruct (Forall2_nth' _ _ _ _ _ (proj2 M) E0) as (t & Et & Mt). destruct t as [|k1 own1 said t]; [contradiction|].
    destruct Mt as (-> & -> & Mt). destruct (flushed _ _ _ _ _ _ _ _ _ R M Et) as (w1 & said' & t1 & R1 & M1 & B1 & Q).
    destruct M1 as (C & F). cbn [fst snd] in *. subst c.
    destruct (Forall2_nth _ _ _ _ _ F B1) as (t2 & E2 & Mt2). rewrite E0 in E2. injection E2 as <-. destruct Mt2 as (_ & _ & Mt2).
    destruct (tstep_match _ _ _ _ _ _ _ _ F Mt2 Q St) as (t' & S' & M').
    eexists. split; [eapply PR_move; [exact R1|eapply PM_do; unfold pdo; unfold pbusy in B1; rewrite B1, S'; reflexivity]|].
    split; [reflexivity|]. cbn. apply Forall2_upd; auto. repeat split; auto.
  - cbn [wback] in E. destruct (nth_error ts0 i) as [[|k own t0]|] eqn:E0; try discriminate.
    destruct (Forall2_nth' _ _ _ _ _ (proj2 M) E0) as (t & Et & Mt). destruct t as [|k1 own1 said t]; [contradiction|].
    destruct Mt as (-> & -> & Mt). destruct (flushed _ _ _ _ _ _ _ _ _ R M Et) as (w1 & said' & t1 & R1 & M1 & B1 & Q).
    destruct M1 as (C & F). cbn [fst snd] in *. subst c.
    destruct (Forall2_nth _ _ _ _ _ F B1) as (t2 & E2 & Mt2). rewrite E0 in E2. injection E2 as <-. destruct Mt2 as (_ & _ & Mt2).
    destruct t0 as [[o0| | | | |]|]; try discriminate. destruct t1 as [q|]; [|contradiction]. cbn [mstate] in Mt2.
    destruct q as [o|s q| | | | |]; try contradiction; [|exfalso; exact (Q _ _ eq_refl)]. cbn [qer] in Mt2.
    destruct o0 as [v0|e0| | |]; try discriminate; destruct o as [v|e| | |]; cbn [oer] in Mt2; try contradiction; injection E as <-.
    + eexists. split; [eapply PR_move; [exact R1|eapply PM_back; unfold pback; unfold pbusy in B1; rewrite B1; reflexivity]|].
      split; cbn; [symmetry; apply learn_untold; exact Mt2|]. apply Forall2_upd; auto. exact I.
    + eexists. split; [eapply PR_move; [exact R1|eapply PM_back; unfold pback; unfold pbusy in B1; rewrite B1; reflexivity]|].
      split; [reflexivity|]. cbn. apply Forall2_upd; auto. exact I.
Qed.
Lemma wreach_match m ip6 w0 : wreach m ip6 w0 -> exists w, preach m ip6 w /\ mworld w w0.
Proof.
  induction 1 as [|w0 w0' R0 (w & R & M) S].
  - exists pw_start. split; [constructor|]. split; [reflexivity|constructor].
  - eapply wstep_match; eauto.
Qed.

(** ** The call next to the same call alone *)

Definition qmirror (m : mode) (ip6 : string -> option (list N)) (hs h : heap) (k : call) (own : list nat) (said : string) (t : qstate) : Prop :=
  exists q' h0, (let '(s, r) := qsolo q' h0 in ((said ++ s)%string, r)) = w_call m ip6 k hs /\
  length h0 = (length hs + length own)%nat /\
  let E := names (length hs) (args k) own in
  match t with
  | QRun q => (forall r r', E r r' -> nth_error h0 r' = nth_error h r) /\
      forall rho : nat -> nat -> Prop, (forall r r', E r r' -> rho r r') -> qrl (parses k) (replaces k) rho (vrel rho) q q'
  | QWait x o q => exists x' o' q1 d, q' = QRepl x' o' q1 /\ E x x' /\ E o o' /\ nth_error h0 x' = Some (Cell d false) /\
      (forall r r', E r r' -> r <> x -> nth_error h0 r' = nth_error h r) /\
      forall rho : nat -> nat -> Prop, (forall r r', E r r' -> rho r r') -> qrl (parses k) (replaces k) rho (vrel rho) q q1
  end.

Section Mirror.
Variables (m : mode) (ip6 : string -> option (list N)) (hs : heap) (k : call).
Hypothesis As : forall r, In r (args k) -> (r < length hs)%nat.
Notation names := (names (length hs) (args k)).

Lemma qmirror_section {B} h own said r r' (body : list N -> out B * list N) (f f' : B -> pact kres) h1 new s t1 (Q : B -> Prop) h0 :
  heap_ok h -> body_ok body Q -> apart k own h -> names own r r' ->
  (let '(s, r) := wbind (run (with_lock r' body)) (fun b => qsolo (f' b)) h0 in ((said ++ s)%string, r)) = w_call m ip6 k hs ->
  length h0 = (length hs + length own)%nat ->
  (forall q j, names own q j -> nth_error h0 j = nth_error h q) ->
  (forall b, Q b -> forall rho : nat -> nat -> Prop, (forall q j, names own q j -> rho q j) ->
     qrl (parses k) (replaces k) rho (vrel rho) (f b) (f' b)) ->
  pafter (with_lock r body h) (fun b => QRun (f b)) = (h1, new, s, t1) -> qmirror m ip6 hs h1 k (own ++ new) (said ++ s) t1.
Proof.
  intros H Bo D J Ex Len A K E.
  destruct (lock_same h h0 r r' body (A _ _ J)) as (F & S).
  pose proof (lock_out h r body Q H (names_in hs k _ _ _ _ D J) Bo) as O. unfold wbind, run in Ex.
  destruct (with_lock r body h) as [ob hb] eqn:E1, (with_lock r' body h0) as [ob' hb'] eqn:E2. cbn [fst snd] in *. subst ob'.
  assert (N1 : new = [] /\ s = EmptyString /\ h1 = hb).
  { destruct O as [(b & -> & _)|(e & ->)]; cbn [pafter] in E; injection E as <- <- <- <-; auto. }
  destruct N1 as (-> & -> & ->). rewrite app_nil_r, TPrintSim.append_nil.
  assert (A' : length hb' = (length hs + length own)%nat /\
    forall q j, names own q j -> nth_error hb' j = nth_error hb q).
  { destruct S as [(-> & ->)|(c & -> & ->)]; [auto|]. rewrite upd_len. split; auto. apply names_upd; auto. }
  destruct A' as (Len' & A').
  destruct O as [(b & -> & Qb)|(e & ->)]; cbn [pafter] in E; injection E as <-.
  - exists (f' b), hb'. split; [destruct (qsolo (f' b) hb'); exact Ex|]. split; [auto|]. split; [auto|]. apply K. exact Qb.
  - exists (QDone (Panic e)), hb'. split; [exact Ex|]. split; [auto|]. split; [auto|]. intros rho Hr. reflexivity.
Qed.

Lemma qmirror_step ts h own said t h' new s t' : heap_ok h -> apart k own h ->
  (forall x o p, t = QWait x o p -> nth_error h x = Some (Cell [] false) /\ pheld ts x = true) ->
  qmirror m ip6 hs h k own said t -> qstep ts h t = Some (h', new, s, t') -> qmirror m ip6 hs h' k (own ++ new) (said ++ s) t'.
Proof.
  intros H D W (p' & h0 & Ex & Len & Mt) E. destruct t as [p|x o p]; cbn [qstep] in E.
  - destruct Mt as (A & G). pose proof (G _ (fun r r' X => X)) as G0.
    destruct p as [o|u f|d f|r i f|r i v f|r f|x o f]; [discriminate| | | | | |];
      destruct p' as [o'|u' f'|d' f'|r' i' f'|r' i' v' f'|r' f'|x' o' f']; cbn [qrl] in G0; try contradiction.
    + injection E as <- <- <- <-. destruct G0 as (<- & _). rewrite app_nil_r. exists f', h0. split; [|split; [auto|split; [auto|]]].
      * rewrite <- Ex. cbn [qsolo]. unfold wbind, say. destruct (qsolo f' h0) as [t r]. rewrite TPrintSim.append_assoc. reflexivity.
      * intros rho Hr. apply (G rho Hr).
    + injection E as <- <- <- <-. destruct G0 as (<- & Dd & _). rewrite TPrintSim.append_nil. exists (f' (length h0)), (h0 ++ [Cell d false]).
      split; [rewrite <- Ex; cbn [qsolo]; unfold wbind, run, alloc; destruct (qsolo (f' (length h0)) _); reflexivity|].
      split; [rewrite !app_length, Len; cbn; lia|]. split.
      * intros r r' [(<- & X)|(j & X & ->)].
        -- rewrite !nth_error_app1; [apply A; left; auto|apply D, in_or_app; auto|apply As in X; lia].
        -- destruct (Nat.lt_ge_cases j (length own)) as [Lj|Lj].
           ++ rewrite nth_error_app1 in X by auto. rewrite !nth_error_app1; [apply A; right; eauto| |lia].
              apply D, in_or_app. right. eapply nth_error_In; eauto.
           ++ rewrite nth_error_app2 in X by auto. destruct (j - length own)%nat as [|z] eqn:Z; [|destruct z; discriminate].
              cbn in X. injection X as <-. replace (length hs + j)%nat with (length h0) by lia.
              rewrite !nth_error_app2, !Nat.sub_diag by lia. reflexivity.
      * intros rho Hr. destruct (G rho) as (_ & _ & K); [intros; apply Hr, names_more; auto|].
        apply K. apply Hr. right. exists (length own). split; [|lia]. rewrite nth_error_app2, Nat.sub_diag by lia. reflexivity.
    + destruct (pheld ts r); [discriminate|]. injection E as E. destruct G0 as (J & <- & _). cbn [qsolo] in Ex.
      eapply (qmirror_section h own said r r' (fun d => (index d i, d)) f f'); eauto using read_ok.
      intros b _ rho Hr. apply (G rho Hr).
    + destruct (pheld ts r); [discriminate|]. injection E as E. destruct G0 as (J & <- & <- & V & _). cbn [qsolo] in Ex.
      eapply (qmirror_section h own said r r' (fun d => set_bit_step d i v) (fun _ => f) (fun _ => f')); eauto using set_bit_step_ok.
      intros b _ rho Hr. apply (G rho Hr).
    + destruct (pheld ts r); [discriminate|]. injection E as E. destruct G0 as (J & _). cbn [qsolo] in Ex.
      eapply (qmirror_section h own said r r' (fun d => (Ret d, d)) f f'); eauto using copy_ok.
      intros b Qb rho Hr. apply (G rho Hr). exact Qb.
    + destruct (pheld ts x); [discriminate|]. injection E as E. destruct G0 as (_ & X & O & _).
      pose proof (A _ _ X) as Ax. pose proof (names_in hs k _ _ _ _ D X) as Lx. unfold with_lock in E.
      destruct (nth_error h x) as [[d b]|] eqn:Eh; [|apply nth_error_None in Eh; lia]. cbn [c_poisoned c_data] in E.
      destruct b; cbn [pafter] in E; injection E as <- <- <- <-; rewrite app_nil_r, TPrintSim.append_nil.
      * exists (QDone (Panic PPoison)), h0. split; [|split; [auto|split; [auto|intros; reflexivity]]].
        rewrite <- Ex. cbn [qsolo]. unfold wbind, run, hreplace, lift. cbn [h_ref]. rewrite Ax.
        pose proof (A _ _ O) as Ao. pose proof (names_in hs k _ _ _ _ D O) as Lo.
        destruct (nth_error h o) as [co|] eqn:Eo; [|apply nth_error_None in Eo; lia]. rewrite Ao. reflexivity.
      * exists (QRepl x' o' f'), h0. split; [exact Ex|]. split; [auto|]. exists x', o', f', d.
        split; [auto|]. split; [auto|]. split; [auto|]. split; [auto|]. split.
        -- intros r r' R Ne. rewrite upd_other by auto. auto.
        -- intros rho Hr. apply (G rho Hr).
  - destruct Mt as (x' & o' & q & d & -> & X & O & Ax & A & G). destruct (W x o p eq_refl) as (Ehx & Hx).
    destruct (pheld ts o) eqn:Ho; [discriminate|]. assert (Ne : o <> x) by congruence.
    assert (Ne' : x' <> o') by (intros ->; apply Ne; exact (names_inj _ _ _ _ _ _ As (proj1 D) O X)).
    pose proof (A _ _ O Ne) as Ao. pose proof (names_in hs k _ _ _ _ D O) as Lo.
    rewrite Ehx in E. destruct (nth_error h o) as [co|] eqn:Eo; [|apply nth_error_None in Eo; lia].
    cbn [qsolo] in Ex. unfold wbind, run, hreplace in Ex. cbn [h_ref] in Ex. rewrite Ax, Ao in Ex. cbn [c_poisoned] in Ex.
    rewrite (proj2 (Nat.eqb_neq _ _) Ne') in Ex.
    assert (Up : forall c r r', names own r r' -> nth_error (upd h0 x' c) r' = nth_error (upd h x c) r).
    { intros c r r' R. destruct (Nat.eq_dec r x) as [->|Nr].
      - assert (r' = x') by exact (names_fun _ _ _ _ _ _ (proj1 (proj2 D)) (proj1 D) R X). subst r'. rewrite !nth_error_upd, !Nat.eqb_refl.
        rewrite (proj2 (Nat.ltb_lt _ _)), (proj2 (Nat.ltb_lt _ _)); auto; apply nth_error_Some; congruence.
      - assert (r' <> x') by (intros ->; apply Nr; exact (names_inj _ _ _ _ _ _ As (proj1 D) R X)). rewrite !upd_other; auto. }
    cbn [c_data app] in *. destruct (c_poisoned co); injection E as <- <- <- <-; rewrite app_nil_r, TPrintSim.append_nil.
    + exists (QDone (Panic PPoison)), (upd h0 x' (Cell [] true)). split; [exact Ex|]. rewrite upd_len. split; [auto|]. split; auto.
      intros rho Hr. reflexivity.
    + exists q, (upd h0 x' (Cell (c_data co) false)). split; [destruct (qsolo q (upd h0 x' (Cell (c_data co) false))); exact Ex|].
      rewrite upd_len. split; [auto|]. split; auto.
Qed.

(** Other threads leave the buffers alone. *)
Lemma qmirror_keep h h' own said t : qmirror m ip6 hs h k own said t ->
  (forall r r', names own r r' -> nth_error h' r = nth_error h r) -> qmirror m ip6 hs h' k own said t.
Proof.
  intros (p' & h0 & Ex & Len & Mt) K. exists p', h0. split; [auto|]. split; [auto|]. destruct t as [p|x o p].
  - destruct Mt as (A & G). split; auto. intros r r' R. rewrite (A _ _ R), (K _ _ R). reflexivity.
  - destruct Mt as (x' & o' & q & d & P & X & O & Ax & A & G). exists x', o', q, d. repeat split; auto.
    intros r r' R Ne. rewrite (A _ _ R Ne), (K _ _ R). reflexivity.
Qed.
End Mirror.

Lemma qrl_rename m ip6 c k g (rho : nat -> nat -> Prop) : octets16 ip6 -> client_ok c -> known c k -> typed k -> ~ short_from k ->
  (forall r, In r (args k) -> rho r (g r)) ->
  qrl (parses k) (replaces k) rho (vrel rho) (q_call m ip6 k) (q_call m ip6 (rename_call g k)).
Proof.
  intros O6 C K T S A. apply qrl_call; auto.
  - intros x X. split; auto. apply A. apply in_map. apply in_or_app. auto.
  - intros p P. split; [|split; auto].
    + assert (B : forall x, In x (p_hdrs p) -> rho (h_ref x) (g (h_ref x))).
      { intros x X. apply A. apply in_map. apply in_or_app. right. apply in_flat_map. eauto. }
      clear - B. unfold rename_pkt. cbn [p_hdrs].
      induction (p_hdrs p) as [|x l IH]; constructor; [split; auto; apply B; left; auto|].
      apply IH. intros y Y. apply B. right; auto.
    + destruct C as (_ & _ & Fp & _). eapply Forall_forall in Fp; [apply Fp|eapply known_pkts; eauto].
Qed.
Lemma qmirror_start m ip6 c k hs : octets16 ip6 -> client_ok c -> known c k -> typed k -> ~ short_from k ->
  (forall r, In r (args k) -> nth_error hs r = nth_error (k_heap c) r) ->
  qmirror m ip6 hs (k_heap c) k [] EmptyString (QRun (q_call m ip6 k)).
Proof.
  intros O6 C K T S A. exists (q_call m ip6 k), hs. split; [rewrite qsim_call; destruct (w_call m ip6 k hs); reflexivity|].
  split; [cbn; lia|]. split.
  - intros r r' [(<- & X)|(j & X & _)]; [auto|destruct j; discriminate].
  - intros rho Hr. rewrite <- (rename_call_id k) at 4. eapply qrl_rename; eauto. intros r R. apply Hr. left; auto.
Qed.

(** ** One thread among the others *)

Lemma pmove_inv m ip6 w j w' : octets16 ip6 -> preach m ip6 w -> pmove m ip6 w j w' -> preach m ip6 w'.
Proof. intros O6 R S. eapply PR_move; eauto. Qed.
Lemma preach_inv m ip6 w : octets16 ip6 -> preach m ip6 w -> exists w0, mworld w w0 /\ winv m ip6 w0.
Proof. intros O6 R. destruct (preach_match _ _ _ R) as (w0 & R0 & M). exists w0. split; auto. apply inv_reach; auto. Qed.
Lemma pheld_true ts i k own said x o p : nth_error ts i = Some (PBusy k own said (QWait x o p)) -> pheld ts x = true.
Proof.
  intros E. unfold pheld. apply existsb_exists. exists (PBusy k own said (QWait x o p)). split; [eapply nth_error_In; eauto|].
  cbn. apply Nat.eqb_refl.
Qed.
Lemma mbusy w w0 i k own said t : mworld w w0 -> pbusy w i k own said t -> exists t0, busy w0 i k own t0 /\ mstate t t0.
Proof.
  intros (_ & F) B. destruct (Forall2_nth _ _ _ _ _ F B) as (t1 & E0 & M). destruct t1 as [|k0 own0 t0]; [contradiction|].
  destruct M as (<- & <- & M). exists t0. split; [exact E0|exact M].
Qed.
Lemma learn_heap c v h : k_heap (learn c (Ret v) h) = h.
Proof. destruct v; reflexivity. Qed.
Lemma other_keep m ip6 w i k own said t j w' : octets16 ip6 -> preach m ip6 w -> pbusy w i k own said t -> pmove m ip6 w j w' -> j <> Some i ->
  pbusy w' i k own said t /\ forall r, In r own -> nth_error (p_heap w') r = nth_error (p_heap w) r.
Proof.
  intros O6 R B S Ne. destruct S as [|j k' w' K T E|j w' E|j w' E].
  - split; [|reflexivity]. unfold pbusy, pspawn. cbn [pw_threads]. rewrite nth_error_app1; auto. apply nth_error_Some. unfold pbusy in B. congruence.
  - apply pcall_inv in E. destruct E as (_ & ->). split; [|reflexivity]. unfold pbusy. cbn [pw_threads]. rewrite upd_other by congruence. exact B.
  - apply pdo_inv in E. destruct E as (k1 & own1 & said1 & t1 & h & new & s & t' & B1 & S & ->). split.
    { unfold pbusy. cbn [pw_threads]. rewrite upd_other by congruence. exact B. }
    intros r Ro. unfold p_heap. cbn [pw_client set_heap k_heap]. destruct (preach_inv _ _ _ O6 R) as (w0 & M & V).
    destruct (mbusy _ _ _ _ _ _ _ M B) as (t0 & B0 & M0). destruct (mbusy _ _ _ _ _ _ _ M B1) as (t1' & B1' & M1).
    destruct (qstep_match _ _ _ _ _ _ _ _ _ (proj2 M) M1 S) as [(-> & _)|(_ & t0' & S0 & _)]; [reflexivity|].
    unfold p_heap in S0. rewrite <- (proj1 M) in *. destruct (wdo_change _ _ _ _ _ _ _ _ _ _ V B1' S0) as (_ & Ch & _).
    pose proof (inv_tok _ _ _ V _ _ _ _ B0) as T0. destruct (tok_own _ _ _ _ _ _ T0 _ Ro) as (L & N').
    eapply change_other; eauto. intros X. apply in_app_or in X. destruct X as [X|X].
    + apply N'. apply (tok_args _ _ _ _ _ _ (inv_tok _ _ _ V _ _ _ _ B1')). exact X.
    + eapply (inv_own _ _ _ V i j); eauto.
  - apply pback_inv in E. destruct E as (k1 & own1 & said1 & o & B1 & Cb & ->). split.
    { unfold pbusy. cbn [pw_threads]. rewrite upd_other by congruence. exact B. }
    intros r _. unfold p_heap. cbn [pw_client]. destruct o; auto. rewrite learn_heap. reflexivity.
Qed.

Lemma mirror_run m ip6 i k w w' hs : octets16 ip6 -> preach m ip6 w -> pundisturbed m ip6 i k w w' -> ~ short_from k ->
  (forall r, In r (args k) -> nth_error hs r = nth_error (p_heap w) r) ->
  preach m ip6 w' /\ exists own said t, pbusy w' i k own said t /\ qmirror m ip6 hs (p_heap w') k own said t.
Proof.
  intros O6 R U Z A.
  assert (As : known (pw_client w) k -> forall r, In r (args k) -> (r < length hs)%nat).
  { intros K r Ar. apply nth_error_Some. rewrite A by auto. apply nth_error_Some. destruct (preach_inv _ _ _ O6 R) as (w0 & (C & _) & V).
    unfold p_heap. rewrite <- C in *. apply shared_live; [apply V|]. eapply known_shared; eauto. }
  induction U as [w w' K T E|w w1 w2 U IH E|w w1 j w2 U IH S Ne Ar].
  - split; [eapply PR_move; [exact R|eapply PM_call; eauto]|]. apply pcall_inv in E. destruct E as (Ei & ->).
    exists [], EmptyString, (QRun (q_call m ip6 k)). split; [eapply nth_upd_at; eauto|].
    destruct (preach_inv _ _ _ O6 R) as (w0 & (C & _) & V). apply qmirror_start; auto. rewrite <- C. apply V.
  - destruct (IH R A As) as (R1 & own & said & t & B & M). split; [eapply PR_move; [exact R1|eapply PM_do; eauto]|].
    assert (K : known (pw_client w) k) by (clear - U; induction U; auto).
    apply pdo_inv in E. destruct E as (k1 & own1 & said1 & t1 & h & new & s & t' & B1 & S & ->). unfold pbusy in *. rewrite B in B1.
    injection B1 as <- <- <- <-. exists (own ++ new), (said ++ s)%string, t'. split; [eapply nth_upd_at; eauto|].
    destruct (preach_inv _ _ _ O6 R1) as (w0 & M0 & V). destruct (mbusy _ _ _ _ _ _ _ M0 B) as (t0 & B0 & Mt).
    pose proof (inv_tok _ _ _ V _ _ _ _ B0) as T0. pose proof (inv_client _ _ _ V) as C. rewrite (proj1 M0) in *.
    unfold p_heap. cbn [pw_client set_heap k_heap]. eapply qmirror_step; eauto.
    + apply C.
    + eapply tok_apart; eauto.
    + intros x o p ->. destruct t0 as [|x0 o0 p0]; [contradiction|]. destruct Mt as (<- & <- & _). split; [eapply (tok_wait _ _ _ _ _ _ T0); eauto|].
      eapply pheld_true; eauto.
  - destruct (IH R A As) as (R1 & own & said & t & B & M). split; [eapply PR_move; [exact R1|exact S]|].
    destruct (other_keep _ _ _ _ _ _ _ _ _ _ O6 R1 B S Ne) as (B' & Own). exists own, said, t. split; [exact B'|].
    eapply qmirror_keep; [exact M|]. intros r r' [(_ & X)|(n & X & _)]; [auto|]. apply Own. eapply nth_error_In; eauto.
Qed.
Lemma qmirror_prefix m ip6 hs h k own said t : qmirror m ip6 hs h k own said t -> exists rest, fst (w_call m ip6 k hs) = (said ++ rest)%string.
Proof. intros (q' & h0 & Ex & _). destruct (qsolo q' h0) as [s r]. exists s. rewrite <- Ex. reflexivity. Qed.
Lemma qmirror_done m ip6 hs h k own said o : qmirror m ip6 hs h k own said (QRun (QDone o)) ->
  fst (w_call m ip6 k hs) = said.
Proof.
  intros (q' & h0 & Ex & _ & _ & G). pose proof (G _ (fun r r' X => X)) as G0. destruct q' as [o'| | | | | |]; cbn [qrl] in G0; try contradiction.
  cbn [qsolo] in Ex. unfold run, lift in Ex. rewrite <- Ex. cbn [fst]. apply TPrintSim.append_nil.
Qed.

(** Every call in progress was begun some time ago. *)
Lemma begun m ip6 w i k own said t : octets16 ip6 -> preach m ip6 w -> pbusy w i k own said t -> args k = [] ->
  exists w1, preach m ip6 w1 /\ pundisturbed m ip6 i k w1 w.
Proof.
  intros O6 R. revert i k own said t. induction R as [|w j w' R IH S]; intros i k own said t B A; [destruct i; discriminate|].
  assert (Oth : forall t1, pbusy w i k own said t1 -> j <> Some i -> exists w1, preach m ip6 w1 /\ pundisturbed m ip6 i k w1 w').
  { intros t1 B1 Ne. destruct (IH _ _ _ _ _ B1 A) as (w1 & R1 & U). exists w1. split; auto. eapply PU_other; eauto. rewrite A. intros r []. }
  destruct S as [|j k' w' K T E|j w' E|j w' E]; unfold pbusy in *.
  - apply (Oth t); [|discriminate]. cbn [pspawn pw_threads] in B. destruct (Nat.lt_ge_cases i (length (pw_threads w))) as [L|L].
    + rewrite nth_error_app1 in B by auto. auto.
    + rewrite nth_error_app2 in B by auto. destruct (i - length (pw_threads w))%nat as [|[|z]]; discriminate.
  - destruct (pcall_inv _ _ _ _ _ _ E) as (Ei & ->). cbn [pw_threads] in B. apply upd_cases in B. destruct B as [(-> & [= -> -> -> ->])|(Ne & B)].
    + exists w. split; auto. eapply PU_call; eauto.
    + eapply Oth; eauto. congruence.
  - destruct (pdo_inv _ _ _ E) as (k1 & own1 & said1 & t1 & h & new & s & t' & B1 & S & ->). cbn [pw_threads] in B. apply upd_cases in B.
    destruct B as [(-> & [= -> -> -> ->])|(Ne & B)].
    + destruct (IH _ _ _ _ _ B1 A) as (w1 & R1 & U). exists w1. split; auto. eapply PU_do; eauto.
    + eapply Oth; eauto. congruence.
  - destruct (pback_inv _ _ _ E) as (k1 & own1 & said1 & o & B1 & Cb & ->). cbn [pw_threads] in B. apply upd_cases in B.
    destruct B as [(_ & [=])|(Ne & B)]. eapply Oth; eauto. congruence.
Qed.

(** ** Calls that print nothing *)

Fixpoint mute {A} (q : pact A) : Prop :=
  match q with
  | QDone _ => True
  | QSay _ _ => False
  | QAlloc _ k => forall r, mute (k r)
  | QRead _ _ k => forall b, mute (k b)
  | QWrite _ _ _ k | QRepl _ _ k => mute k
  | QCopy _ k => forall d, mute (k d)
  end.
Lemma mute_act {A} (p : act A) : mute (qact p).
Proof. induction p; cbn; auto. Qed.
Lemma mute_bind {A B} (p : pact A) (f : A -> pact B) : mute p -> (forall a, mute (f a)) -> mute (qbind p f).
Proof. intros M F. induction p as [[]| | | | | |]; cbn in *; auto; contradiction. Qed.
Definition mute_state (t : qstate) : Prop := match t with QRun q | QWait _ _ q => mute q end.
Lemma mute_after {B} (o : out B * heap) f h new s t : (forall b, mute_state (f b)) -> pafter o f = (h, new, s, t) -> s = EmptyString /\ mute_state t.
Proof. intros M E. destruct o as [[b|e| | |] h1]; cbn [pafter] in *; injection E as <- <- <- <-; split; cbn; auto. Qed.
Lemma mute_step ts h t h' new s t' : mute_state t -> qstep ts h t = Some (h', new, s, t') -> s = EmptyString /\ mute_state t'.
Proof.
  intros M E. destruct t as [[o|u f|d f|r i f|r i v f|r f|x o f]|x o q]; cbn [qstep mute_state mute] in *; try discriminate; try contradiction.
  - injection E as <- <- <- <-. split; cbn; auto.
  - destruct (pheld ts r); [discriminate|]. injection E as E. eapply mute_after; [|exact E]. intros b. apply M.
  - destruct (pheld ts r); [discriminate|]. injection E as E. eapply mute_after; [|exact E]. intros b. apply M.
  - destruct (pheld ts r); [discriminate|]. injection E as E. eapply mute_after; [|exact E]. intros b. apply M.
  - destruct (pheld ts x); [discriminate|]. injection E as E. eapply mute_after; [|exact E]. intros b. apply M.
  - destruct (pheld ts o); [discriminate|].
    destruct (nth_error h x) as [cx|]; [destruct (nth_error h o) as [co|]; [destruct (c_poisoned co)|]|]; injection E as <- <- <- <-; split; cbn; auto.
Qed.
Lemma mute_call m ip6 k : ~ may_print k -> mute (q_call m ip6 k).
Proof.
  intros N. destruct k; cbn [may_print] in N; try tauto; cbn [q_call]; try apply mute_act.
  apply mute_bind; [|intros; exact I]. destruct b; cbn [hmake_addrs] in N; try (elim N; discriminate); cbn [q_hmake]; apply mute_act.
Qed.
Lemma mute_reach m ip6 w i k own said t : preach m ip6 w -> pbusy w i k own said t -> ~ may_print k -> said = EmptyString /\ mute_state t.
Proof.
  intros R. revert i k own said t. induction R as [|w j w' R IH S]; intros i k own said t B N; [destruct i; discriminate|].
  destruct S as [|j k' w' K T E|j w' E|j w' E]; unfold pbusy in *.
  - cbn [pspawn pw_threads] in B. destruct (Nat.lt_ge_cases i (length (pw_threads w))) as [L|L].
    + rewrite nth_error_app1 in B by auto. eauto.
    + rewrite nth_error_app2 in B by auto. destruct (i - length (pw_threads w))%nat as [|[|z]]; discriminate.
  - destruct (pcall_inv _ _ _ _ _ _ E) as (Ei & ->). cbn [pw_threads] in B. apply upd_cases in B. destruct B as [(-> & [= -> -> -> ->])|(Ne & B)].
    + split; auto. apply mute_call; auto.
    + eauto.
  - destruct (pdo_inv _ _ _ E) as (k1 & own1 & said1 & t1 & h & new & s & t' & B1 & S & ->). cbn [pw_threads] in B. apply upd_cases in B.
    destruct B as [(-> & [= -> -> -> ->])|(Ne & B)]; [|eauto]. destruct (IH _ _ _ _ _ B1 N) as (-> & M).
    destruct (mute_step _ _ _ _ _ _ _ M S) as (-> & M'). auto.
  - destruct (pback_inv _ _ _ E) as (k1 & own1 & said1 & o & B1 & Cb & ->). cbn [pw_threads] in B. apply upd_cases in B.
    destruct B as [(_ & [=])|(Ne & B)]. eauto.
Qed.

(** ** What one thread has written *)

Lemma concat_nil_app l l' : String.concat "" (l ++ l') = (String.concat "" l ++ String.concat "" l')%string.
Proof.
  induction l as [|s l IH]; [reflexivity|]. cbn [app]. destruct l as [|t l].
  - cbn [app]. destruct l' as [|t' l']; [cbn; symmetry; apply TPrintSim.append_nil|]. reflexivity.
  - cbn [app] in *. change (String.concat "" (s :: t :: l ++ l')) with (s ++ "" ++ String.concat "" (t :: l ++ l'))%string.
    change (String.concat "" (s :: t :: l)) with (s ++ "" ++ String.concat "" (t :: l))%string. cbn [append]. rewrite IH.
    rewrite TPrintSim.append_assoc. reflexivity.
Qed.
Lemma text_app i l l' : text_of i (l ++ l') = (text_of i l ++ text_of i l')%string.
Proof. unfold text_of. rewrite filter_app, map_app. apply concat_nil_app. Qed.
Lemma texts_app i l l' : texts i (l ++ l') = (texts i l ++ texts i l')%string.
Proof. unfold texts. rewrite filter_app, map_app. apply concat_nil_app. Qed.
Lemma text_emit i j s : text_of i (emit j s) = if (j =? i)%nat then s else EmptyString.
Proof. destruct s; unfold text_of; cbn [emit filter fst map]; destruct (j =? i)%nat; reflexivity. Qed.

Lemma by_thread m ip6 w l i : pruns m ip6 w l -> text_of i (pw_out w) = (texts i l ++ in_progress w i)%string.
Proof.
  induction 1 as [|w l R IH|w l j k w' R IH K T E|w l j w' R IH E|w l j k own said t w' R IH B E]; unfold in_progress in *.
  - destruct i; reflexivity.
  - cbn [pspawn pw_out pw_threads]. rewrite IH. f_equal. destruct (Nat.lt_ge_cases i (length (pw_threads w))) as [L|L].
    + rewrite nth_error_app1 by auto. reflexivity.
    + rewrite nth_error_app2 by auto. rewrite (proj2 (nth_error_None _ _) L). destruct (i - length (pw_threads w))%nat as [|[|z]]; reflexivity.
  - destruct (pcall_inv _ _ _ _ _ _ E) as (Ei & ->). cbn [pw_out pw_threads]. rewrite IH. f_equal. destruct (Nat.eq_dec i j) as [->|Ne].
    + rewrite Ei. rewrite (nth_upd_at _ _ _ _ Ei). reflexivity.
    + rewrite upd_other by auto. reflexivity.
  - destruct (pdo_inv _ _ _ E) as (k1 & own1 & said1 & t1 & h & new & s & t' & B1 & S & ->). cbn [pw_out pw_threads]. unfold pbusy in B1.
    rewrite text_app, IH, text_emit. destruct (Nat.eq_dec i j) as [->|Ne].
    + rewrite B1, (nth_upd_at _ _ _ _ B1), Nat.eqb_refl. rewrite TPrintSim.append_assoc. reflexivity.
    + rewrite upd_other by auto. rewrite (proj2 (Nat.eqb_neq j i)) by auto. apply TPrintSim.append_nil.
  - destruct (pback_inv _ _ _ E) as (k1 & own1 & said1 & o & B1 & Cb & ->). cbn [pw_out pw_threads]. unfold pbusy in *. rewrite B in B1.
    injection B1 as <- <- <- ->. rewrite texts_app, IH. destruct (Nat.eq_dec i j) as [->|Ne].
    + rewrite B, (nth_upd_at _ _ _ _ B). unfold texts. cbn [filter fst map snd]. rewrite Nat.eqb_refl. cbn [map String.concat].
      rewrite TPrintSim.append_nil. reflexivity.
    + rewrite upd_other by auto. unfold texts at 3. cbn [filter fst]. rewrite (proj2 (Nat.eqb_neq j i)) by auto. cbn [map String.concat].
      rewrite TPrintSim.append_nil. reflexivity.
Qed.
Lemma pruns_reach m ip6 w l : pruns m ip6 w l -> preach m ip6 w.
Proof.
  induction 1 as [|w l R IH|w l j k w' R IH K T E|w l j w' R IH E|w l j k own said t w' R IH B E]; [constructor|..]; (eapply PR_move; [exact IH|]).
  - constructor.
  - eapply PM_call; eauto.
  - eapply PM_do; eauto.
  - eapply PM_back; eauto.
Qed.
Lemma preach_runs m ip6 w : preach m ip6 w -> exists l, pruns m ip6 w l.
Proof.
  induction 1 as [|w j w' R (l & IH) S]; [exists []; constructor|]. destruct S as [|j k' w' K T E|j w' E|j w' E].
  - exists l. constructor; auto.
  - exists l. eapply PX_call; eauto.
  - exists l. eapply PX_do; eauto.
  - destruct (pback_inv _ _ _ E) as (k1 & own1 & said1 & o & B1 & Cb & _). eexists. eapply PX_back; eauto.
Qed.

(** ** Without interruption *)

Lemma pheld_upd ts i t r : pheld (upd ts i t) r = true -> pheld ts r = true \/ pholds r t = true.
Proof.
  unfold pheld. revert i. induction ts as [|a ts IH]; intros [|i]; cbn [upd existsb]; auto; intros H; apply Bool.orb_true_iff in H;
    rewrite Bool.orb_true_iff; destruct H as [H|H]; auto. destruct (IH _ H); auto.
Qed.
Lemma pheld_run ts i k own said q r : pheld ts r = false -> pheld (upd ts i (PBusy k own said (QRun q))) r = false.
Proof. intros F. destruct (pheld (upd _ _ _) r) eqn:H; auto. apply pheld_upd in H. destruct H as [H|H]; [congruence|discriminate]. Qed.

Definition ran (i : nat) (w : pworld) (k : call) (said s : string) (o : out kres) (h : heap) : Prop :=
  exists own' l, ponly i w (PW (set_heap (pw_client w) h) (upd (pw_threads w) i (PBusy k own' (said ++ s) (QRun (QDone o)))) (pw_out w ++ l)) /\
  Forall (fun e => fst e = i) l /\ String.concat "" (map snd l) = s.
Lemma ran_step i w k own said t h1 new s1 t1 s o h : pbusy w i k own said t -> qstep (pw_threads w) (p_heap w) t = Some (h1, new, s1, t1) ->
  ran i (PW (set_heap (pw_client w) h1) (upd (pw_threads w) i (PBusy k (own ++ new) (said ++ s1) t1)) (pw_out w ++ emit i s1)) k (said ++ s1) s o h ->
  ran i w k said (s1 ++ s) o h.
Proof.
  intros B S (own' & l & O & F & C). cbn [pw_client pw_threads pw_out] in O. rewrite upd_twice, set_set, TPrintSim.append_assoc, <- app_assoc in O.
  exists own', (emit i s1 ++ l). split; [|split].
  - eapply POnly_step; [|exact O]. unfold pdo. unfold pbusy in B. unfold p_heap in S. rewrite B, S. reflexivity.
  - apply Forall_app. split; auto. destruct s1; repeat constructor.
  - rewrite map_app, concat_nil_app, C. destruct s1; reflexivity.
Qed.
Lemma ran_end i w k own said o : pbusy w i k own said (QRun (QDone o)) -> ran i w k said EmptyString o (p_heap w).
Proof.
  intros B. exists own, []. unfold p_heap. rewrite set_same, TPrintSim.append_nil, app_nil_r, upd_idem by exact B.
  split; [|split; [constructor|reflexivity]]. destruct w. constructor.
Qed.
Lemma only_prun i q : forall w k own said s o h, pbusy w i k own said (QRun q) -> (forall r, pheld (pw_threads w) r = false) ->
  qsolo q (p_heap w) = (s, (o, h)) -> comes_back o -> ran i w k said s o h.
Proof.
  assert (Sec : forall B r (body : list N -> out B * list N) (f : B -> pact kres) w k own said s o h q,
    (forall b w k own said s o h, pbusy w i k own said (QRun (f b)) -> (forall r, pheld (pw_threads w) r = false) ->
      qsolo (f b) (p_heap w) = (s, (o, h)) -> comes_back o -> ran i w k said s o h) ->
    pbusy w i k own said (QRun q) -> (forall r, pheld (pw_threads w) r = false) ->
    qstep (pw_threads w) (p_heap w) (QRun q) = Some (pafter (with_lock r body (p_heap w)) (fun b => QRun (f b))) ->
    wbind (run (with_lock r body)) (fun b => qsolo (f b)) (p_heap w) = (s, (o, h)) -> comes_back o ->
    ran i w k said s o h).
  { intros B r body f w k own said s o h q0 IH E F S Ex Cb. unfold wbind, run in Ex.
    destruct (with_lock r body (p_heap w)) as [[b|e| | |] h1]; cbn [pafter] in S.
    - change s with ("" ++ s)%string. eapply ran_step; [exact E|exact S|]. eapply IH with (b := b).
      + eapply nth_upd_at; eauto.
      + intros r'. cbn [pw_threads]. apply pheld_run. auto.
      + cbn [p_heap pw_client set_heap k_heap]. destruct (qsolo (f b) h1) as [t [o' h']]. exact Ex.
      + exact Cb.
    - injection Ex as <- <- <-. eapply (ran_step _ _ _ _ _ _ _ _ "" _ ""); [exact E|exact S|].
      match goal with |- ran _ ?w1 _ _ _ _ _ => change h1 with (p_heap w1) end. eapply ran_end. eapply nth_upd_at; eauto.
    - injection Ex as <- <- <-. destruct Cb as [(a & [=])|(a & [=])].
    - injection Ex as <- <- <-. destruct Cb as [(a & [=])|(a & [=])].
    - injection Ex as <- <- <-. destruct Cb as [(a & [=])|(a & [=])]. }
  induction q as [o1|u f IH|d f IH|r j f IH|r j v f IH|r f IH|x y f IH]; intros w k own said s o h E F Ex Cb; cbn [qsolo] in Ex.
  - unfold run, lift in Ex. injection Ex as <- <- <-. eapply ran_end; eauto.
  - unfold wbind, say in Ex. destruct (qsolo f (p_heap w)) as [t [o' h']] eqn:Ef. injection Ex as <- <- <-.
    eapply ran_step; [exact E|reflexivity|]. eapply IH; eauto; [eapply nth_upd_at; eauto|]. intros r'. cbn [pw_threads]. apply pheld_run. auto.
  - unfold wbind, run, alloc in Ex. change s with ("" ++ s)%string. eapply ran_step; [exact E|reflexivity|]. eapply IH.
    + eapply nth_upd_at; eauto.
    + intros r'. cbn [pw_threads]. apply pheld_run. auto.
    + cbn [p_heap pw_client set_heap k_heap].
      destruct (qsolo (f (length (p_heap w))) (p_heap w ++ [Cell d false])) as [t [o' h']]. exact Ex.
    + exact Cb.
  - eapply (Sec N r _ f); eauto. cbn [qstep]. rewrite F. reflexivity.
  - eapply (Sec unit r _ (fun _ => f)); eauto. cbn [qstep]. rewrite F. reflexivity.
  - eapply (Sec (list N) r _ f); eauto. cbn [qstep]. rewrite F. reflexivity.
  - unfold wbind, run, hreplace in Ex. cbn [h_ref] in Ex.
    destruct (nth_error (p_heap w) x) as [cx|] eqn:Ecx; [|injection Ex as <- <- <-; destruct Cb as [(a & [=])|(a & [=])]].
    destruct (nth_error (p_heap w) y) as [cy|] eqn:Ecy; [|injection Ex as <- <- <-; destruct Cb as [(a & [=])|(a & [=])]].
    assert (S1 : qstep (pw_threads w) (p_heap w) (QRun (QRepl x y f)) =
      Some (pafter (with_lock x (fun _ => (Ret tt, [])) (p_heap w)) (fun _ => QWait x y f))) by (cbn [qstep]; rewrite F; reflexivity).
    unfold with_lock in S1. rewrite Ecx in S1. destruct (c_poisoned cx); cbn [pafter] in S1.
    + injection Ex as <- <- <-. eapply (ran_step _ _ _ _ _ _ _ _ "" _ ""); [exact E|exact S1|].
      match goal with |- ran _ ?w1 _ _ _ _ _ => change (p_heap w) with (p_heap w1) end. eapply ran_end. eapply nth_upd_at; eauto.
    + destruct (Nat.eqb_spec x y) as [->|Ne]; [injection Ex as <- <- <-; destruct Cb as [(a & [=])|(a & [=])]|].
      change s with ("" ++ s)%string. eapply ran_step; [exact E|exact S1|].
      set (h1 := upd (p_heap w) x (Cell [] false)) in *.
      set (w1 := PW (set_heap (pw_client w) h1) (upd (pw_threads w) i (PBusy k (own ++ []) (said ++ "") (QWait x y f))) (pw_out w ++ emit i "")).
      assert (E1 : pbusy w1 i k (own ++ []) (said ++ "") (QWait x y f)) by (eapply nth_upd_at; eauto).
      assert (Hy : pheld (pw_threads w1) y = false).
      { destruct (pheld (pw_threads w1) y) eqn:H; auto. apply pheld_upd in H. destruct H as [H|H]; [rewrite F in H; discriminate|].
        cbn in H. apply Nat.eqb_eq in H. contradiction. }
      assert (Hx1 : nth_error h1 x = Some (Cell [] false)) by (eapply nth_upd_at; eauto).
      assert (Hy1 : nth_error h1 y = Some cy) by (unfold h1; rewrite upd_other; auto).
      assert (U : forall z, upd h1 x z = upd (p_heap w) x z) by (intros; apply upd_twice).
      destruct (c_poisoned cy) eqn:Py.
      * injection Ex as <- <- <-. eapply (ran_step _ _ _ _ _ _ (upd (p_heap w) x (Cell [] true)) [] "" _ ""); [exact E1| |].
        { cbn [qstep]. rewrite Hy. unfold w1. cbn [p_heap pw_client set_heap k_heap]. rewrite Hx1, Hy1, Py. cbn [c_data]. rewrite U. reflexivity. }
        match goal with |- ran _ ?w2 _ _ _ _ _ => change (upd (p_heap w) x (Cell [] true)) with (p_heap w2) end.
        eapply ran_end. eapply nth_upd_at; eauto.
      * change s with ("" ++ s)%string. eapply (ran_step _ _ _ _ _ _ (upd (p_heap w) x (Cell (c_data cy) false)) [] "" (QRun f)); [exact E1| |].
        { cbn [qstep]. rewrite Hy. unfold w1. cbn [p_heap pw_client set_heap k_heap]. rewrite Hx1, Hy1, Py. cbn [c_data app]. rewrite U. reflexivity. }
        eapply IH.
        -- eapply nth_upd_at; eauto.
        -- intros r'. unfold w1. cbn [pw_threads]. rewrite upd_twice. apply pheld_run. auto.
        -- cbn [app] in Ex. cbn [p_heap pw_client set_heap k_heap].
           destruct (qsolo f (upd (p_heap w) x (Cell (c_data cy) false))) as [t [o' h']]. exact Ex.
        -- exact Cb.
Qed.

(** ** Whole lines *)

Fixpoint whole {A} (q : pact A) : Prop :=
  match q with
  | QDone _ => True
  | QSay s k => (exists t, s = (t ++ newline)%string) /\ whole k
  | QAlloc _ k => forall r, whole (k r)
  | QRead _ _ k => forall b, whole (k b)
  | QWrite _ _ _ k | QRepl _ _ k => whole k
  | QCopy _ k => forall d, whole (k d)
  end.
Lemma whole_act {A} (p : act A) : whole (qact p).
Proof. induction p; cbn; auto. Qed.
Lemma whole_bind {A B} (p : pact A) (f : A -> pact B) : whole p -> (forall a, whole (f a)) -> whole (qbind p f).
Proof.
  intros M F. induction p as [[]|s k IH| | | | |]; cbn in *; auto. destruct M as (S & M). split; auto.
Qed.
Lemma whole_say s t : s = (t ++ newline)%string -> whole (qsay s).
Proof. intros ->. cbn. eauto. Qed.
Definition whole_state (t : qstate) : Prop := match t with QRun q | QWait _ _ q => whole q end.
Lemma whole_after {B} (o : out B * heap) f h new s t : (forall b, whole_state (f b)) -> pafter o f = (h, new, s, t) -> s = EmptyString /\ whole_state t.
Proof. intros M E. destruct o as [[b|e| | |] h1]; cbn [pafter] in *; injection E as <- <- <- <-; split; cbn; auto. Qed.
Lemma whole_step ts h t h' new s t' : whole_state t -> qstep ts h t = Some (h', new, s, t') ->
  (s = EmptyString \/ exists u, s = (u ++ newline)%string) /\ whole_state t'.
Proof.
  intros M E. assert (X : s = EmptyString /\ whole_state t' \/ exists k, t = QRun (QSay s k) /\ t' = QRun k).
  { destruct t as [[o|u f|d f|r i f|r i v f|r f|x o f]|x o q]; cbn [qstep whole_state whole] in *; try discriminate.
    - injection E as <- <- <- <-. eauto.
    - injection E as <- <- <- <-. left. split; cbn; auto.
    - left. destruct (pheld ts r); [discriminate|]. injection E as E. eapply whole_after; [|exact E]. intros b. apply M.
    - left. destruct (pheld ts r); [discriminate|]. injection E as E. eapply whole_after; [|exact E]. intros b. apply M.
    - left. destruct (pheld ts r); [discriminate|]. injection E as E. eapply whole_after; [|exact E]. intros b. apply M.
    - left. destruct (pheld ts x); [discriminate|]. injection E as E. eapply whole_after; [|exact E]. intros b. apply M.
    - left. destruct (pheld ts o); [discriminate|].
      destruct (nth_error h x) as [cx|]; [destruct (nth_error h o) as [co|]; [destruct (c_poisoned co)|]|]; injection E as <- <- <- <-; split; cbn; auto. }
  destruct X as [(-> & M')|(k & -> & ->)]; [auto|]. destruct M as ((u & ->) & M). split; [eauto|exact M].
Qed.
Ltac wh := repeat first
  [ assumption
  | apply whole_act
  | apply whole_bind; [|intros]
  | match goal with |- whole (if ?b then _ else _) => destruct b end
  | match goal with |- whole (let '(_, _) := ?x in _) => destruct x end
  | match goal with |- whole (match ?x with Some _ => _ | None => _ end) => destruct x end
  | match goal with |- whole (qsay ?s) => eapply whole_say; rewrite <- ?TPrintSim.append_assoc; reflexivity end
  | progress cbv zeta ].
Lemma whole_fill radix self parts i a : whole (q_fill radix self parts i a).
Proof.
  revert i a. induction parts as [|v t IH]; intros i a; cbn [q_fill]; [apply whole_act|].
  apply whole_bind; [destruct (parse_u8 radix v); wh|]. intros x. wh. apply IH.
Qed.
Lemma whole_ip6 ip6 s : whole (q_ip6 ip6 s).
Proof. unfold q_ip6. wh. Qed.
Lemma whole_hmake m ip6 b : whole (q_hmake m ip6 b).
Proof.
  destruct b; cbn [q_hmake]; try apply whole_act; unfold q_ethernet, q_dot3, q_arp, q_ipv4, q_ipv6, q_mac, q_ip4;
    repeat first [apply whole_fill|apply whole_ip6|progress wh].
Qed.
Lemma whole_eth e t pl : whole (q_create_eth_packet e t pl).
Proof. unfold q_create_eth_packet, q_ethernet, q_mac. repeat first [apply whole_fill|progress wh]. Qed.
Lemma whole_v4 m e i t pl : whole (q_create_ipv4_packet m e i t pl).
Proof. unfold q_create_ipv4_packet, q_ipv4, q_ip4. repeat first [apply whole_fill|apply whole_eth|progress wh]. Qed.
Lemma whole_v6 ip6 e i t pl : whole (q_create_ipv6_packet ip6 e i t pl).
Proof. unfold q_create_ipv6_packet, q_ipv6. repeat first [apply whole_fill|apply whole_ip6|apply whole_eth|progress wh]. Qed.
Lemma whole_pmake m ip6 b : whole (q_pmake m ip6 b).
Proof.
  destruct b; cbn [q_pmake];
    unfold q_create_arp_packet, q_create_tcp_packet, q_create_udp_packet, q_create_icmp_packet, q_create_ipv4ip_packet, q_create_ipv6ip_packet,
      q_create_tcpv6_packet, q_create_udpv6_packet, q_create_icmpv6_packet, q_create_vxlan_packet, q_create_vxlanv6_packet, q_create_gre_packet,
      q_create_erspan_2_packet, q_create_erspan_3_packet, q_arp, q_mac, q_ip4;
    repeat first [apply whole_fill|apply whole_ip6|apply whole_eth|apply whole_v4|apply whole_v6|progress wh].
Qed.
Lemma whole_call m ip6 k : ~ shows k -> whole (q_call m ip6 k).
Proof.
  intros N. destruct k; cbn [shows] in N; try tauto; cbn [q_call]; try apply whole_act; (apply whole_bind; [|intros; exact I]);
    unfold q_compare, q_compare_with_slice, q_mac, q_ip4; repeat first [apply whole_fill|apply whole_hmake|apply whole_pmake|apply whole_ip6|progress wh].
Qed.
Lemma whole_reach m ip6 w i k own said t : preach m ip6 w -> pbusy w i k own said t -> ~ shows k -> whole_state t.
Proof.
  intros R. revert i k own said t. induction R as [|w j w' R IH S]; intros i k own said t B N; [destruct i; discriminate|].
  destruct S as [|j k' w' K T E|j w' E|j w' E]; unfold pbusy in *.
  - cbn [pspawn pw_threads] in B. destruct (Nat.lt_ge_cases i (length (pw_threads w))) as [L|L].
    + rewrite nth_error_app1 in B by auto. eauto.
    + rewrite nth_error_app2 in B by auto. destruct (i - length (pw_threads w))%nat as [|[|z]]; discriminate.
  - destruct (pcall_inv _ _ _ _ _ _ E) as (Ei & ->). cbn [pw_threads] in B. apply upd_cases in B. destruct B as [(-> & [= -> -> -> ->])|(Ne & B)].
    + apply whole_call; auto.
    + eauto.
  - destruct (pdo_inv _ _ _ E) as (k1 & own1 & said1 & t1 & h & new & s & t' & B1 & S & ->). cbn [pw_threads] in B. apply upd_cases in B.
    destruct B as [(-> & [= -> -> -> ->])|(Ne & B)]; [|eauto]. apply (whole_step _ _ _ _ _ _ _ (IH _ _ _ _ _ B1 N) S).
  - destruct (pback_inv _ _ _ E) as (k1 & own1 & said1 & o & B1 & Cb & ->). cbn [pw_threads] in B. apply upd_cases in B.
    destruct B as [(_ & [=])|(Ne & B)]. eauto.
Qed.

(** ** Blocked threads *)

Lemma pheld_inv ts r : pheld ts r = true -> exists i k own said o p, nth_error ts i = Some (PBusy k own said (QWait r o p)).
Proof.
  intros E. apply existsb_exists in E. destruct E as (t & T & E). apply In_nth_error in T. destruct T as (i & T).
  destruct t as [|k own said [p|x o p]]; cbn in E; try discriminate. apply Nat.eqb_eq in E. subst. eauto 8.
Qed.
Lemma qstep_none ts h t : qstep ts h t = None -> (exists o, t = QRun (QDone o)) \/ exists r, pheld ts r = true.
Proof.
  intros E. destruct t as [[o|u f|d f|r i f|r i v f|r f|x o f]|x o q]; cbn [qstep] in E; try discriminate; [eauto|..].
  - destruct (pheld ts r) eqn:H; [eauto|discriminate].
  - destruct (pheld ts r) eqn:H; [eauto|discriminate].
  - destruct (pheld ts r) eqn:H; [eauto|discriminate].
  - destruct (pheld ts x) eqn:H; [eauto|discriminate].
  - destruct (pheld ts o) eqn:H; [eauto|]. destruct (nth_error h x); [destruct (nth_error h o); [destruct (c_poisoned _)|]|]; discriminate.
Qed.

(** ** The end of a call *)

Lemma qfin_same m ip6 hs h k own said o : (forall r, In r (args k) -> (r < length hs)%nat) -> qmirror m ip6 hs h k own said (QRun (QDone o)) ->
  comes_back o ->
  exists o0 h0, w_call m ip6 k hs = (said, (o0, h0)) /\ o = rename_out (call_names (length hs) own) o0 /\
  length h0 = (length hs + length own)%nat /\
  (forall r, In r (args k) -> nth_error h r = nth_error h0 r) /\
  (forall j r, nth_error own j = Some r -> nth_error h r = nth_error h0 (length hs + j)).
Proof.
  intros L (q' & h0 & Ex & Len & A & G) B. pose proof (G _ (fun r r' X => X)) as G0. destruct q' as [o'| | | | | |]; cbn [qrl] in G0; try contradiction.
  cbn [qsolo] in Ex. unfold run, lift in Ex. rewrite TPrintSim.append_nil in Ex. exists o', h0. split; [auto|]. split; [|split; [auto|split]].
  - destruct B as [(v & ->)|(e & ->)]; destruct o'; cbn [orl rename_out] in *; try contradiction; [|congruence].
    f_equal. eapply vrel_rename; [|exact G0]. intros r r'. apply names_call. auto.
  - intros r R. symmetry. apply A. left; auto.
  - intros j r R. symmetry. apply A. right; eauto.
Qed.
