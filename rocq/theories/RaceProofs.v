(** RaceProofs.v -- proofs about Race.v. *)

From Coq Require Import Lia.
From Verif Require Import Base Bits Types Layout Heap Packet Build Utils Slow Fast Ops Client Threads Race Spec ClientSpec ThreadsSpec RaceSpec
  BitsProofs HeapProofs PropBuild ClientProofs PropClient ThreadsSim ThreadsRel ThreadsProofs.
Open Scope N_scope.

Lemma existsb_in r l : existsb (Nat.eqb r) l = true <-> In r l.
Proof.
  rewrite existsb_exists. split; [intros (q & Q & E); apply Nat.eqb_eq in E; congruence|]. intros I. exists r. split; [exact I|apply Nat.eqb_refl].
Qed.
Lemma vput_in v l n r : In r l -> vput v l n r = n r.
Proof. intros I. unfold vput. rewrite (proj2 (existsb_in _ _) I). reflexivity. Qed.
Lemma vput_out v l n r : ~ In r l -> vput v l n r = v r.
Proof. intros I. unfold vput. destruct (existsb _ _) eqn:E; [|reflexivity]. apply existsb_in in E. contradiction. Qed.

Record yinv (m : mode) (ip6 : string -> option (list N)) (y : yworld) : Prop := {
  y_inv : winv m ip6 (y_world y);
  y_len : length (y_views y) = length (snd (y_world y));
  y_none : forall r, (length (w_heap (y_world y)) <= r)%nat -> y_stamp y r = O;
  y_some : forall r, (r < length (w_heap (y_world y)))%nat -> (1 <= y_stamp y r)%nat;
  y_le : forall i r, (y_view y i r <= y_stamp y r)%nat;
  y_lle : forall q r, (y_lock y q r <= y_stamp y r)%nat;
  y_free : forall r, held (snd (y_world y)) r = false -> y_lock y r r = y_stamp y r \/ (y_stamp y r <= 1)%nat;
  y_held : forall i k own x o p, busy (y_world y) i k own (TWait x o p) -> y_view y i x = y_stamp y x;
  y_has : forall i k own t r, busy (y_world y) i k own t -> In r (args k ++ own) -> (1 <= y_view y i r)%nat }.

Lemma y_view_upd y i j v c ts st lk : (i < length (y_views y))%nat -> y_view (YW (c, ts) st lk (upd (y_views y) i v)) j = if (j =? i)%nat then v else y_view y j.
Proof.
  intros L. unfold y_view. cbn [y_views]. destruct (Nat.eqb_spec j i) as [->|N].
  - destruct (nth_error (y_views y) i) eqn:E; [|apply nth_error_None in E; lia]. rewrite (nth_error_nth _ _ _ (nth_upd_at _ _ _ _ E)). reflexivity.
  - destruct (nth_error (y_views y) j) eqn:E.
    + rewrite (nth_error_nth _ _ _ E). apply nth_error_nth. rewrite upd_other; auto.
    + rewrite (nth_overflow (y_views y)) by (apply nth_error_None; exact E). apply nth_overflow. rewrite upd_len. apply nth_error_None. exact E.
Qed.

(** What a thread that has taken its locks sees of what it accesses. *)
Lemma accesses_args m ip6 y i k own t h new t' r : yinv m ip6 y -> busy (y_world y) i k own t -> tstep (snd (y_world y)) (w_heap (y_world y)) t = Some (h, new, t') ->
  In r (accesses t) -> In r (args k ++ own).
Proof.
  intros V B S R. pose proof (inv_tok _ _ _ (y_inv _ _ _ V) _ _ _ _ B) as T. destruct (wdo_change _ _ _ _ _ _ _ _ _ _ (y_inv _ _ _ V) B S) as (Z & _).
  pose proof (tok_good _ _ _ _ _ _ T Z _ (on_refl _)) as G.
  destruct t as [[o|d F|q j F|q j v F|q F|x o F]|x o F]; cbn [accesses enters rl In] in *; try contradiction; repeat (destruct R as [<-|R]); try contradiction; unfold on in G; tauto.
Qed.
Lemma enters_free ts h t h' new t' r : tstep ts h t = Some (h', new, t') -> In r (enters t) -> held ts r = false.
Proof.
  intros S R. destruct t as [[o|d F|q j F|q j v F|q F|x o F]|x o F]; cbn [enters In tstep] in *; try contradiction; destruct R as [<-|[]];
    match goal with |- ?a = false => destruct a; [discriminate|reflexivity] end.
Qed.
Definition v1 (y : yworld) (i : nat) (t : tstate) : view := fold_left (fun v r => vjoin v (y_lock y r)) (enters t) (y_view y i).
Lemma v1_ge y i t r : (y_view y i r <= v1 y i t r)%nat.
Proof. unfold v1. destruct t as [[]|]; cbn [enters fold_left]; unfold vjoin; lia. Qed.
Lemma v1_lock y i t q r : In q (enters t) -> (y_lock y q r <= v1 y i t r)%nat.
Proof. unfold v1. destruct t as [[]|]; cbn [enters fold_left In]; intros [<-|[]] || intros []; unfold vjoin; lia. Qed.
Lemma v1_le m ip6 y i t r : yinv m ip6 y -> (v1 y i t r <= y_stamp y r)%nat.
Proof.
  intros V. pose proof (y_le _ _ _ V i r). pose proof (fun q => y_lle _ _ _ V q r) as L. unfold v1.
  destruct t as [[]|]; cbn [enters fold_left]; unfold vjoin; try lia; match goal with |- context [y_lock y ?q r] => specialize (L q) end; lia.
Qed.
Lemma no_race m ip6 y i k own t h new t' r : yinv m ip6 y -> busy (y_world y) i k own t -> tstep (snd (y_world y)) (w_heap (y_world y)) t = Some (h, new, t') ->
  In r (accesses t) -> v1 y i t r = y_stamp y r.
Proof.
  intros V B S R. pose proof (accesses_args _ _ _ _ _ _ _ _ _ _ _ V B S R) as A. pose proof (y_has _ _ _ V _ _ _ _ _ B A) as H1.
  pose proof (v1_ge y i t r) as G. pose proof (v1_le _ _ _ i t r V) as L.
  assert (X : In r (enters t) \/ exists o p, t = TWait r o p).
  { destruct t as [[]|]; cbn [accesses] in R; auto. destruct R as [<-|R]; [eauto|left; exact R]. }
  destruct X as [X|(o & p & ->)].
  - pose proof (v1_lock y i t r r X). pose proof (enters_free _ _ _ _ _ _ _ S X) as Fr. destruct (y_free _ _ _ V r Fr); lia.
  - rewrite (y_held _ _ _ V _ _ _ _ _ _ B) in G. lia.
Qed.
Lemma ydo_spec m ip6 y i y' : yinv m ip6 y -> ydo rust y i = Some y' -> exists k own t h new t', busy (y_world y) i k own t /\
  tstep (snd (y_world y)) (w_heap (y_world y)) t = Some (h, new, t') /\
  y_world y' = (set_heap (fst (y_world y)) h, upd (snd (y_world y)) i (Busy k (own ++ new) t')) /\
  y_stamp y' = vput (vput (y_stamp y) (accesses t) (fun r => S (y_stamp y r))) new (fun _ => 1%nat) /\
  y_views y' = upd (y_views y) i (vput (v1 y i t) (accesses t ++ new) (y_stamp y')) /\
  y_lock y' = fun r => if existsb (Nat.eqb r) (leaves t t') then vput (v1 y i t) (accesses t ++ new) (y_stamp y') else y_lock y r.
Proof.
  intros V E. unfold ydo in E. destruct (y_world y) as [c ts] eqn:W. destruct (nth_error ts i) as [[|k own t]|] eqn:B; try discriminate.
  destruct (tstep ts (k_heap c) t) as [[[h new] t']|] eqn:S; [|discriminate]. cbn [locks_order rust] in E. fold (v1 y i t) in E.
  assert (R : existsb (fun r => negb (v1 y i t r =? y_stamp y r)%nat) (accesses t) = false).
  { destruct (existsb _ _) eqn:X; [|reflexivity]. apply existsb_exists in X. destruct X as (r & R & X).
    rewrite (no_race m ip6 y i k own t h new t' r V) in X; auto; [rewrite Nat.eqb_refl in X; discriminate|unfold busy; rewrite W; exact B|rewrite W; exact S]. }
  rewrite R in E. injection E as <-. exists k, own, t, h, new, t'. cbn [y_world y_stamp y_views y_lock]. repeat split; auto.
Qed.
Lemma new_cases ts h t h' new t' : tstep ts h t = Some (h', new, t') ->
  (new = [] /\ length h' = length h) \/ (new = [length h] /\ length h' = S (length h) /\ accesses t = [] /\ exists p, t' = TRun p).
Proof.
  assert (WL : forall A r (body : list N -> out A * list N) F, after (with_lock r body h) F = (h', new, t') -> new = [] /\ length h' = length h).
  { intros A r body F E. unfold with_lock in E. destruct (nth_error h r) as [c|]; [|injection E as <- <- <-; auto].
    destruct (c_poisoned c); [injection E as <- <- <-; auto|]. destruct (body (c_data c)) as [[]]; injection E as <- <- <-; rewrite ?upd_len; auto. }
  intros E. destruct t as [[o|d F|q j F|q j v F|q F|x o F]|x o F]; cbn [tstep] in E; try discriminate;
    try (destruct (held _ _); [discriminate|]; injection E as E; left; eapply WL; eauto; fail).
  - injection E as <- <- <-. right. rewrite app_length. cbn. repeat split; [lia|eauto].
  - destruct (held _ _); [discriminate|]. left. destruct (nth_error h x); [|injection E as <- <- <-; auto]. destruct (nth_error h o); [|injection E as <- <- <-; auto].
    destruct (c_poisoned _); injection E as <- <- <-; rewrite upd_len; auto.
Qed.
(** A step that ends inside [replace] has entered it. *)
Lemma wait_enters ts h t h' new x o p : tstep ts h t = Some (h', new, TWait x o p) -> t = TRun (ARepl x o p) /\ new = [].
Proof.
  assert (WL : forall A r (body : list N -> out A * list N) F, after (with_lock r body h) F = (h', new, TWait x o p) -> new = [] /\ exists b, F b = TWait x o p).
  { intros A r body F E. unfold with_lock in E. destruct (nth_error h r) as [c|]; [|discriminate].
    destruct (c_poisoned c); [discriminate|]. destruct (body (c_data c)) as [[]]; try discriminate. injection E as _ <- E. eauto. }
  intros E. destruct t as [[o1|d F|q j F|q j v F|q F|x1 o1 F]|x1 o1 F]; cbn [tstep] in E; try discriminate;
    try (destruct (held _ _); [discriminate|]; injection E as E; apply WL in E; destruct E as (-> & b & E); try discriminate E; injection E as -> -> ->; auto).
  destruct (held _ _); [discriminate|]. destruct (nth_error h x1); [|discriminate]. destruct (nth_error h o1); [|discriminate]. destruct (c_poisoned _); discriminate.
Qed.

(** ** The invariant is kept *)

Lemma yinv_start m ip6 : yinv m ip6 y_start.
Proof.
  constructor; cbn [y_start y_world y_stamp y_lock y_views]; auto.
  - apply inv_start.
  - intros r L. cbn in L. lia.
  - intros i r. unfold y_view. cbn. destruct i; auto.
  - intros [|i] k own x o p B; discriminate.
  - intros [|i] k own t r B; discriminate.
Qed.
Lemma y_view_spawn y j : y_view (yspawn y) j = y_view y j \/ y_view (yspawn y) j = fun _ => O.
Proof.
  unfold y_view, yspawn. cbn [y_views]. destruct (Nat.lt_ge_cases j (length (y_views y))) as [L|L]; [left; apply app_nth1; exact L|].
  right. rewrite app_nth2 by exact L. destruct (j - length (y_views y))%nat as [|n]; [reflexivity|]. destruct n; reflexivity.
Qed.
Lemma busy_spawn w i k own t : busy (wspawn w) i k own t -> busy w i k own t /\ (i < length (snd w))%nat.
Proof.
  destruct w as [c ts]. unfold busy. cbn [wspawn snd]. intros B. destruct (Nat.lt_ge_cases i (length ts)) as [L|L]; [rewrite nth_error_app1 in B; auto|].
  rewrite nth_error_app2 in B by auto. destruct (i - length ts)%nat as [|j]; [discriminate|destruct j; discriminate].
Qed.
Lemma y_view_old y j : (j < length (y_views y))%nat -> y_view (yspawn y) j = y_view y j.
Proof. intros L. unfold y_view, yspawn. cbn [y_views]. apply app_nth1. exact L. Qed.
Lemma held_spawn w r : held (snd (wspawn w)) r = held (snd w) r.
Proof. destruct w as [c ts]. cbn [wspawn snd]. unfold held. rewrite existsb_app. cbn. apply orb_false_r. Qed.
Lemma yinv_spawn m ip6 y : yinv m ip6 y -> yinv m ip6 (yspawn y).
Proof.
  intros V. assert (Hp : w_heap (y_world (yspawn y)) = w_heap (y_world y)) by (unfold yspawn; cbn [y_world]; destruct (y_world y); reflexivity).
  constructor.
  - apply inv_spawn, V.
  - unfold yspawn. cbn [y_views y_world]. rewrite app_length, (y_len _ _ _ V). destruct (y_world y). cbn [wspawn snd]. rewrite app_length. reflexivity.
  - rewrite Hp. apply V.
  - rewrite Hp. apply V.
  - intros i r. destruct (y_view_spawn y i) as [->| ->]; [apply V|lia].
  - apply V.
  - intros r. unfold yspawn at 1. cbn [y_world]. rewrite held_spawn. apply (y_free _ _ _ V).
  - intros i k own x o p B. apply busy_spawn in B. destruct B as (B & L). rewrite y_view_old by (rewrite (y_len _ _ _ V); exact L). eapply (y_held _ _ _ V); eauto.
  - intros i k own t r B R. apply busy_spawn in B. destruct B as (B & L). rewrite y_view_old by (rewrite (y_len _ _ _ V); exact L). eapply (y_has _ _ _ V); eauto.
Qed.
Lemma ycall_spec u m ip6 y i k y' : ycall u m ip6 y i k = Some y' -> exists w, wcall m ip6 (y_world y) i k = Some w /\ y_world y' = w /\ y_stamp y' = y_stamp y /\ y_lock y' = y_lock y.
Proof. unfold ycall. destruct (wcall _ _ _ _ _) as [w|]; [|discriminate]. intros [= <-]. eauto. Qed.
Lemma yinv_call m ip6 y i k y' : octets16 ip6 -> yinv m ip6 y -> known (fst (y_world y)) k -> typed k -> ycall rust m ip6 y i k = Some y' -> yinv m ip6 y'.
Proof.
  intros O6 V K T E. unfold ycall in E. destruct (wcall m ip6 (y_world y) i k) as [w|] eqn:Ew; [|discriminate]. injection E as <-. cbn [handles_order rust].
  assert (Vw : winv m ip6 w) by (eapply (inv_step m ip6 (y_world y)); eauto; [apply V|econstructor; eauto]).
  pose proof (inv_client _ _ _ (y_inv _ _ _ V)) as Ck. pose proof (y_len _ _ _ V) as Ln.
  destruct (y_world y) as [c ts] eqn:W. cbn [wcall fst snd] in *. destruct (nth_error ts i) as [[|? ? ?]|] eqn:B; try discriminate. injection Ew as <-.
  assert (L : (i < length (y_views y))%nat) by (rewrite Ln; apply nth_error_Some; congruence).
  pose proof (y_some _ _ _ V) as Sm. rewrite W in Sm. unfold w_heap in Sm. cbn [fst] in Sm.
  set (v := vput (y_view y i) (args k) (vjoin (y_view y i) (fun _ => 1%nat))) in *.
  assert (Vl : forall r, (v r <= y_stamp y r)%nat).
  { intros r. unfold v. destruct (in_dec Nat.eq_dec r (args k)) as [I|I]; [rewrite vput_in by exact I|rewrite vput_out by exact I; apply V].
    pose proof (y_le _ _ _ V i r). assert (1 <= y_stamp y r)%nat by (apply Sm; eapply shared_live; eauto; eapply known_shared; eauto). unfold vjoin. lia. }
  constructor; cbn [y_world y_stamp y_lock snd].
  - exact Vw.
  - cbn [y_views]. rewrite !upd_len. exact Ln.
  - pose proof (y_none _ _ _ V) as X. rewrite W in X. exact X.
  - exact Sm.
  - intros j r. rewrite y_view_upd by exact L. destruct (j =? i)%nat; [apply Vl|apply V].
  - apply V.
  - intros r F. apply (y_free _ _ _ V). rewrite W. cbn [snd]. destruct (held ts r) eqn:H; [|reflexivity]. destruct (held_inv _ _ H) as (j & k1 & own1 & o & p & B1).
    erewrite held_true in F; [discriminate|]. rewrite upd_other; [exact B1|]. congruence.
  - intros j k1 own1 x o p B1. rewrite y_view_upd by exact L. destruct (upd_cases _ _ _ _ _ B1) as [(-> & X)|(N & X)]; [discriminate|].
    rewrite (proj2 (Nat.eqb_neq _ _) N). eapply (y_held _ _ _ V); unfold busy; rewrite W; exact X.
  - intros j k1 own1 t r B1 R. rewrite y_view_upd by exact L. destruct (upd_cases _ _ _ _ _ B1) as [(-> & X)|(N & X)].
    + injection X as -> -> ->. rewrite Nat.eqb_refl, app_nil_r in *. unfold v. rewrite vput_in by exact R. unfold vjoin. lia.
    + rewrite (proj2 (Nat.eqb_neq _ _) N). eapply (y_has _ _ _ V); [unfold busy; rewrite W; exact X|exact R].
Qed.
Lemma yinv_back m ip6 y i y' : octets16 ip6 -> yinv m ip6 y -> yback y i = Some y' -> yinv m ip6 y'.
Proof.
  intros O6 V E. unfold yback in E. destruct (wback (y_world y) i) as [w|] eqn:Ew; [|discriminate]. injection E as <-.
  assert (Vw : winv m ip6 w) by (eapply (inv_step m ip6 (y_world y)); eauto; [apply V|eapply W_back; eauto]).
  assert (X : w_heap w = w_heap (y_world y) /\ snd w = upd (snd (y_world y)) i Idle /\ exists k own o, nth_error (snd (y_world y)) i = Some (Busy k own (TRun (ADone o)))).
  { destruct (y_world y) as [c ts]. cbn [wback snd] in *. destruct (nth_error ts i) as [[|k own [[o| | | | |]|]]|]; try discriminate.
    destruct o as [v|e| | |]; try discriminate; injection Ew as <-; unfold w_heap; cbn [fst snd]; (split; [|split; [reflexivity|eauto]]); [destruct v; reflexivity|reflexivity]. }
  destruct X as (Hp & Ts & k0 & own0 & o0 & B0).
  constructor; cbn [y_world y_stamp y_lock y_views]; rewrite ?Hp, ?Ts.
  - exact Vw.
  - rewrite upd_len. apply V.
  - apply V.
  - apply V.
  - apply V.
  - apply V.
  - intros r F. apply (y_free _ _ _ V). destruct (held (snd (y_world y)) r) eqn:H; [|reflexivity]. destruct (held_inv _ _ H) as (j & k1 & own1 & o & p & B1).
    erewrite held_true in F; [discriminate|]. rewrite upd_other; [exact B1|]. congruence.
  - intros j k1 own1 x o p B1. unfold busy in B1. cbn [snd] in B1. rewrite Ts in B1. destruct (upd_cases _ _ _ _ _ B1) as [(-> & X)|(N & X)]; [discriminate|]. eapply (y_held _ _ _ V); exact X.
  - intros j k1 own1 t r B1 R. unfold busy in B1. cbn [snd] in B1. rewrite Ts in B1. destruct (upd_cases _ _ _ _ _ B1) as [(-> & X)|(N & X)]; [discriminate|]. eapply (y_has _ _ _ V); [exact X|exact R].
Qed.
Lemma yinv_do m ip6 y i y' : octets16 ip6 -> yinv m ip6 y -> ydo rust y i = Some y' -> yinv m ip6 y' /\ wdo (y_world y) i = Some (y_world y').
Proof.
  intros O6 V E. destruct (ydo_spec m ip6 _ _ _ V E) as (k & own & t & h & new & t' & B & Stp & Ew & Es & Ev & El).
  assert (Wd : wdo (y_world y) i = Some (y_world y')).
  { rewrite Ew. destruct (y_world y) as [c ts]. unfold busy in B. cbn [wdo fst snd] in *. rewrite B. unfold w_heap in Stp. cbn [fst] in Stp. rewrite Stp. reflexivity. }
  split; [|exact Wd].
  assert (Vw : winv m ip6 (y_world y')) by (eapply (inv_step m ip6 (y_world y)); eauto; [apply V|eapply W_do; eauto]).
  assert (Ts : snd (y_world y') = upd (snd (y_world y)) i (Busy k (own ++ new) t')) by (rewrite Ew; reflexivity).
  assert (Hp : w_heap (y_world y') = h) by (rewrite Ew; reflexivity).
  assert (L : (i < length (y_views y))%nat) by (rewrite (y_len _ _ _ V); apply nth_error_Some; unfold busy in B; congruence).
  set (v2 := vput (v1 y i t) (accesses t ++ new) (y_stamp y')) in *.
  assert (Vu : forall j, y_view y' j = if (j =? i)%nat then v2 else y_view y j).
  { intros j. pose proof (y_view_upd y i j v2 k_start [] (y_stamp y) (y_lock y) L) as X. unfold y_view at 1 in X. cbn [y_views] in X. unfold y_view at 1. rewrite Ev. exact X. }
  assert (Live : forall r, In r (args k ++ own) -> (r < length (w_heap (y_world y)))%nat).
  { intros r R. apply (tok_apart _ _ _ _ _ _ (inv_client _ _ _ (y_inv _ _ _ V)) (inv_tok _ _ _ (y_inv _ _ _ V) _ _ _ _ B)). exact R. }
  assert (Acc : forall r, In r (accesses t) -> In r (args k ++ own)) by (intros r R; eapply accesses_args; eauto).
  (* stamps *)
  assert (St : forall r, (In r new /\ y_stamp y' r = 1%nat /\ y_stamp y r = O) \/ (~ In r new /\ In r (accesses t) /\ y_stamp y' r = S (y_stamp y r) /\ (1 <= y_stamp y r)%nat) \/
    (~ In r new /\ ~ In r (accesses t) /\ y_stamp y' r = y_stamp y r)).
  { intros r. rewrite Es. destruct (in_dec Nat.eq_dec r new) as [I|I].
    - left. rewrite vput_in by exact I. repeat split; auto. apply (y_none _ _ _ V). destruct (new_cases _ _ _ _ _ _ Stp) as [(-> & _)|(-> & _)]; [destruct I|]. destruct I as [<-|[]]. lia.
    - right. rewrite vput_out by exact I. destruct (in_dec Nat.eq_dec r (accesses t)) as [A|A].
      + left. rewrite vput_in by exact A. repeat split; auto. apply (y_some _ _ _ V). auto.
      + right. rewrite vput_out by exact A. auto. }
  assert (Ge : forall r, (y_stamp y r <= y_stamp y' r)%nat) by (intros r; destruct (St r) as [(_ & _ & ?)|[(_ & _ & ? & _)|(_ & _ & ?)]]; lia).
  assert (V2 : forall r, (v2 r <= y_stamp y' r)%nat).
  { intros r. unfold v2. destruct (in_dec Nat.eq_dec r (accesses t ++ new)) as [I|I]; [rewrite vput_in by exact I; lia|rewrite vput_out by exact I].
    pose proof (v1_le _ _ _ i t r V). specialize (Ge r). lia. }
  assert (V2in : forall r, In r (accesses t ++ new) -> v2 r = y_stamp y' r) by (intros r I; unfold v2; rewrite vput_in by exact I; reflexivity).
  constructor.
  - exact Vw.
  - rewrite Ev, Ts, !upd_len. apply V.
  - intros r R. rewrite Hp in R. destruct (St r) as [(I & _ & _)|[(_ & A & _)|(_ & _ & ->)]].
    + destruct (new_cases _ _ _ _ _ _ Stp) as [(-> & _)|(-> & X & _)]; [destruct I|]. destruct I as [<-|[]]. lia.
    + apply Acc, Live in A. destruct (new_cases _ _ _ _ _ _ Stp) as [(_ & X)|(_ & X & _)]; lia.
    + apply (y_none _ _ _ V). destruct (new_cases _ _ _ _ _ _ Stp) as [(_ & X)|(_ & X & _)]; lia.
  - intros r R. rewrite Hp in R. destruct (St r) as [(_ & -> & _)|[(_ & A & -> & _)|(I & _ & ->)]]; [lia|lia|]. apply (y_some _ _ _ V).
    destruct (new_cases _ _ _ _ _ _ Stp) as [(_ & X)|(-> & X & _)]; [lia|]. assert (r <> length (w_heap (y_world y))) by (intros ->; apply I; left; reflexivity). lia.
  - intros j r. rewrite Vu. destruct (j =? i)%nat; [apply V2|]. pose proof (y_le _ _ _ V j r). specialize (Ge r). lia.
  - intros q r. rewrite El. destruct (existsb _ _); [apply V2|]. pose proof (y_lle _ _ _ V q r). specialize (Ge r). lia.
  - intros r F. rewrite Ts in F. rewrite El. destruct (existsb (Nat.eqb r) (leaves t t')) eqn:X.
    + left. apply existsb_in in X. apply V2in. apply in_or_app. left. unfold leaves in X. destruct t'; [exact X|destruct X].
    + destruct (St r) as [(_ & E1 & _)|[(_ & A & _)|(_ & A & E1)]]; [right; lia| |].
      * exfalso. assert (N : ~ In r (leaves t t')) by (rewrite <- existsb_in; congruence). destruct t' as [p'|x o p']; [apply N; exact A|].
        destruct (wait_enters _ _ _ _ _ _ _ _ Stp) as (-> & ->). cbn [accesses enters In] in A. destruct A as [<-|[]]. unfold busy in B.
        erewrite held_true in F; [discriminate|]. eapply nth_upd_at; eauto.
      * rewrite E1. apply (y_free _ _ _ V). destruct (held (snd (y_world y)) r) eqn:H; [|reflexivity]. destruct (held_inv _ _ H) as (j & k1 & own1 & o & p & B1).
        destruct (Nat.eq_dec j i) as [->|N].
        { unfold busy in B. rewrite B in B1. injection B1 as <- <- ->. destruct A. left. reflexivity. }
        erewrite held_true in F; [discriminate|]. rewrite upd_other; [exact B1|auto].
  - intros j k1 own1 x o p B1. unfold busy in B1. rewrite Ts in B1. rewrite Vu. destruct (upd_cases _ _ _ _ _ B1) as [(-> & X)|(N & X)].
    + injection X as -> -> <-. rewrite Nat.eqb_refl. destruct (wait_enters _ _ _ _ _ _ _ _ Stp) as (-> & ->). apply V2in. left. reflexivity.
    + rewrite (proj2 (Nat.eqb_neq _ _) N). pose proof (y_held _ _ _ V _ _ _ _ _ _ X) as Hx. destruct (St x) as [(I & _ & Z)|[(_ & A & _)|(_ & A & ->)]]; [| |exact Hx].
      * exfalso. assert (Lx : In x (args k1 ++ own1)).
        { pose proof (inv_tok _ _ _ (y_inv _ _ _ V) _ _ _ _ X) as T. destruct (short_dec k1) as [Zs|Zs]; [pose proof (tok_short _ _ _ _ _ _ T Zs); discriminate|].
          pose proof (tok_good _ _ _ _ _ _ T Zs _ (on_refl _)) as G. cbn in G. unfold on in G. tauto. }
        pose proof (y_has _ _ _ V _ _ _ _ _ X Lx). lia.
      * exfalso. assert (W : In x (enters t) \/ exists o1 p1, t = TWait x o1 p1).
        { destruct t as [[]|]; cbn [accesses] in A; auto. destruct A as [<-|A]; [eauto|left; exact A]. }
        destruct W as [W|(o1 & p1 & ->)].
        -- apply (enters_free _ _ _ _ _ _ _ Stp) in W. unfold busy in X. erewrite held_true in W; [discriminate|exact X].
        -- apply N. eapply (inv_wait _ _ _ (y_inv _ _ _ V)); eauto.
  - intros j k1 own1 t1 r B1 R. unfold busy in B1. rewrite Ts in B1. rewrite Vu. destruct (upd_cases _ _ _ _ _ B1) as [(-> & X)|(N & X)].
    + injection X as -> -> ->. rewrite Nat.eqb_refl. rewrite app_assoc in R. destruct (in_dec Nat.eq_dec r (accesses t ++ new)) as [I|I].
      * rewrite V2in by exact I. destruct (St r) as [(_ & -> & _)|[(_ & _ & -> & _)|(I1 & I2 & _)]]; [lia|lia|]. apply in_app_or in I. tauto.
      * unfold v2. rewrite vput_out by exact I. apply in_app_or in R. destruct R as [R|R]; [|exfalso; apply I, in_or_app; auto].
        pose proof (y_has _ _ _ V _ _ _ _ _ B R). pose proof (v1_ge y i t r). lia.
    + rewrite (proj2 (Nat.eqb_neq _ _) N). eapply (y_has _ _ _ V); [exact X|exact R].
Qed.
Lemma yreach_inv m ip6 y : octets16 ip6 -> yreach rust m ip6 y -> yinv m ip6 y /\ wreach m ip6 (y_world y).
Proof.
  intros O6. induction 1 as [|y R (V & W)|y i k y' R (V & W) K T E|y i y' R (V & W) E|y i y' R (V & W) E].
  - split; [apply yinv_start|constructor].
  - split; [apply yinv_spawn; auto|]. eapply WR_step; [exact W|constructor].
  - split; [eapply yinv_call; eauto|]. destruct (ycall_spec _ _ _ _ _ _ _ E) as (w & Ew & -> & _). eapply WR_step; [exact W|]. eapply W_call; eauto.
  - destruct (yinv_do _ _ _ _ _ O6 V E) as (V' & E'). split; [exact V'|]. eapply WR_step; [exact W|]. eapply W_do; eauto.
  - split; [eapply yinv_back; eauto|]. unfold yback in E. destruct (wback (y_world y) i) as [w|] eqn:Ew; [|discriminate]. injection E as <-. eapply WR_step; [exact W|]. eapply W_back; eauto.
Qed.
Lemma yreach_complete m ip6 w : octets16 ip6 -> wreach m ip6 w -> exists y, yreach rust m ip6 y /\ y_world y = w.
Proof.
  intros O6. induction 1 as [|w w' R (y & Y & <-) S]; [exists y_start; split; [constructor|reflexivity]|].
  inversion S as [w E1 E2|w i k w1 K T E E1 E2|w i w1 E E1 E2|w i w1 E E1 E2]; subst.
  - exists (yspawn y). split; [constructor; auto|reflexivity].
  - eexists. split; [eapply Y_call with (i := i) (k := k); eauto; unfold ycall; rewrite E; reflexivity|reflexivity].
  - destruct (ydo rust y i) as [y'|] eqn:Ey.
    + exists y'. split; [eapply Y_do; eauto|]. destruct (yreach_inv _ _ _ O6 Y) as (V & _). destruct (yinv_do _ _ _ _ _ O6 V Ey) as (_ & X). congruence.
    + exfalso. unfold ydo in Ey. destruct (y_world y) as [c ts]. cbn [wdo] in E. destruct (nth_error ts i) as [[|? ? ?]|]; try discriminate.
      destruct (tstep _ _ _) as [[[? ?] ?]|]; discriminate.
  - eexists. split; [eapply Y_back with (i := i); eauto; unfold yback; rewrite E; reflexivity|reflexivity].
Qed.
