(** FreeProofs.v -- proofs about Free.v. *)

From Coq Require Import Lia.
From Verif Require Import Base Bits Types Layout Heap Packet Text Build Utils Slow Fast Show Ops Client Threads Free Spec ClientSpec ThreadsSpec CostSpec
  LinSpec LocalSpec FreeSpec BitsProofs HeapProofs PropBuild ClientProofs PropClient ThreadsSim ThreadsRel ThreadsProofs CostProofs LocalProofs LinProofs.
Open Scope N_scope.

(** ** Memory and heap *)

Lemma mlock_spec {B} r r0 (body : list N -> out B * list N) (mm : mem) (h : heap) c : mm r = Some c -> nth_error h r0 = Some c ->
  exists o c', mlock r body mm = (o, mput mm r (Some c')) /\ with_lock r0 body h = (o, upd h r0 c').
Proof.
  intros M E. unfold mlock, with_lock. rewrite M, E. cbn [nth_error]. destruct (c_poisoned c).
  - exists (Panic PPoison), c. rewrite upd_same by exact E. auto.
  - destruct (body (c_data c)) as [[a|e| | |] d']; cbn [upd]; eauto.
Qed.
Lemma mput_same mm r o : mput mm r o r = o.
Proof. unfold mput. rewrite Nat.eqb_refl. reflexivity. Qed.
Lemma mput_other mm r o q : q <> r -> mput mm r o q = mm q.
Proof. intros N. unfold mput. rewrite (proj2 (Nat.eqb_neq _ _) N). reflexivity. Qed.

(** ** The simulation *)

Definition scall (f : nat -> nat) (k : call) (own : list nat) (t t0 : tstate) : Prop :=
  match t, t0 with
  | TRun p, TRun p0 => forall rho : nat -> nat -> Prop, (forall r, In r (args k ++ own) -> rho r (f r)) ->
      rl (parses k) (replaces k) rho (vrel rho) p p0
  | TWait x o p, TWait x0 o0 p0 => In x (args k ++ own) /\ In o (args k ++ own) /\ x0 = f x /\ o0 = f o /\
      forall rho : nat -> nat -> Prop, (forall r, In r (args k ++ own) -> rho r (f r)) ->
      rl (parses k) (replaces k) rho (vrel rho) p p0
  | _, _ => False
  end.
Definition sthread (f : nat -> nat) (t t0 : thread) : Prop :=
  match t, t0 with
  | Idle, Idle => True
  | Busy k own t, Busy k0 own0 t0 => k0 = rename_call f k /\ own0 = map f own /\
      (short_from k -> t = TRun (ADone UB) /\ t0 = TRun (ADone UB)) /\ (~ short_from k -> scall f k own t t0)
  | _, _ => False
  end.
Record sim (f : nat -> nat) (w : vworld) (w0 : world) : Prop := {
  s_hdrs : forall x, In x (k_hdrs (v_client w)) -> In (rename_hdr f x) (k_hdrs (fst w0));
  s_pkts : forall p, In p (k_pkts (v_client w)) -> In (rename_pkt f p) (k_pkts (fst w0));
  s_shdrs : incl (k_shdrs (v_client w)) (k_shdrs (fst w0));
  s_slices : incl (k_slices (v_client w)) (k_slices (fst w0));
  s_apart : forall r q, handle w r -> handle w q -> f r = f q -> r = q;
  s_bytes : forall r, handle w r -> exists c, v_mem w r = Some c /\ nth_error (w_heap w0) (f r) = Some c;
  s_threads : Forall2 (sthread f) (v_threads w) (snd w0) }.

Lemma scall_ext f g k own t t0 : (forall r, In r (args k ++ own) -> f r = g r) -> scall f k own t t0 -> scall g k own t t0.
Proof.
  intros E. destruct t as [p|x o p], t0 as [p0|x0 o0 p0]; cbn [scall]; auto.
  - intros S rho H. apply S. intros r R. rewrite E by exact R. auto.
  - intros (X & O & -> & -> & S). rewrite !E by auto. repeat split; auto. intros rho H. apply S. intros r R. rewrite E by exact R. auto.
Qed.
Lemma sthread_ext f g t t0 : (forall k own p r, t = Busy k own p -> In r (args k ++ own) -> f r = g r) -> sthread f t t0 -> sthread g t t0.
Proof.
  destruct t as [|k own p], t0 as [|k0 own0 p0]; cbn [sthread]; auto. intros E (-> & -> & Sh & Sc).
  assert (E' : forall r, In r (args k ++ own) -> f r = g r) by (intros; eapply E; eauto). split; [|split; [|split; [exact Sh|]]].
  - apply rename_call_ext. intros r R. apply E', in_or_app. auto.
  - apply map_ext_in. intros r R. apply E', in_or_app. auto.
  - intros N. eapply scall_ext; eauto.
Qed.

Lemma Forall2_nth {A B} (P : A -> B -> Prop) l l' i a : Forall2 P l l' -> nth_error l i = Some a -> exists b, nth_error l' i = Some b /\ P a b.
Proof. intros F. revert i. induction F as [|x y l l' Pxy F IH]; intros [|i] E; try discriminate; [injection E as <-; exists y; auto|]. cbn in *. auto. Qed.
Lemma Forall2_nth' {A B} (P : A -> B -> Prop) l l' i b : Forall2 P l l' -> nth_error l' i = Some b -> exists a, nth_error l i = Some a /\ P a b.
Proof. intros F. revert i. induction F as [|x y l l' Pxy F IH]; intros [|i] E; try discriminate; [injection E as <-; exists x; auto|]. cbn in *. auto. Qed.
Lemma Forall2_upd {A B} (P : A -> B -> Prop) l l' i a b : Forall2 P l l' -> P a b -> Forall2 P (upd l i a) (upd l' i b).
Proof. intros F Pab. revert i. induction F as [|x y l l' Pxy F IH]; intros [|i]; cbn [upd]; constructor; auto. Qed.
Lemma Forall2_imp_in {A B} (P Q : A -> B -> Prop) l l' : Forall2 P l l' -> (forall i a b, nth_error l i = Some a -> P a b -> Q a b) -> Forall2 Q l l'.
Proof.
  intros F. induction F as [|x y l l' Pxy F IH]; intros H; constructor; [apply (H 0%nat x y); auto|]. apply IH. intros i a b E. apply (H (S i)). exact E.
Qed.

Lemma shared_call c k r : known c k -> In r (args k) -> shared c r.
Proof. apply known_shared. Qed.
Lemma handle_call w i k own t r : nth_error (v_threads w) i = Some (Busy k own t) -> In r (args k ++ own) -> handle w r.
Proof. intros E I. right. eauto 6. Qed.

Lemma held_sim f w w0 r : sim f w w0 -> handle w r -> held (snd w0) (f r) = held (v_threads w) r.
Proof.
  intros S Hr. destruct (held (v_threads w) r) eqn:E.
  - destruct (held_inv _ _ E) as (i & k & own & o & p & B). destruct (Forall2_nth _ _ _ _ _ (s_threads _ _ _ S) B) as (t0 & B0 & M).
    destruct t0 as [|k0 own0 t0]; [contradiction|]. destruct M as (_ & _ & Sh & Sc). destruct (short_dec k) as [Z|Z]; [destruct (Sh Z); discriminate|].
    specialize (Sc Z). destruct t0 as [|x0 o0 p0]; [contradiction|]. destruct Sc as (X & O & -> & -> & _). eapply held_true; eauto.
  - destruct (held (snd w0) (f r)) eqn:E0; [|reflexivity]. destruct (held_inv _ _ E0) as (i & k & own & o & p & B).
    destruct (Forall2_nth' _ _ _ _ _ (s_threads _ _ _ S) B) as (t & B0 & M). destruct t as [|k1 own1 t]; [contradiction|].
    destruct M as (_ & _ & Sh & Sc). destruct (short_dec k1) as [Z|Z]; [destruct (Sh Z); discriminate|]. specialize (Sc Z).
    destruct t as [|x1 o1 p1]; [contradiction|]. destruct Sc as (X & O & Ex & _). assert (r = x1) by (eapply s_apart; eauto using handle_call). subst x1.
    apply held_true in B0. congruence.
Qed.

(** ** Steps *)

(** What a step does to memory and to the heap. *)
Lemma step_sim f w w0 m ip6 i k own t new mm nw t' : winv m ip6 w0 -> sim f w w0 -> nth_error (v_threads w) i = Some (Busy k own t) ->
  mstep (v_threads w) (v_mem w) new t = Some (mm, nw, t') ->
  exists t0 h nw0 t0', busy w0 i (rename_call f k) (map f own) t0 /\ tstep (snd w0) (w_heap w0) t0 = Some (h, nw0, t0') /\ ~ short_from k /\
  ((nw = [] /\ nw0 = [] /\ scall f k own t' t0' /\ forall q, handle w q -> exists c, mm q = Some c /\ nth_error h (f q) = Some c) \/
   (nw = [new] /\ v_mem w new = None /\ nw0 = [length (w_heap w0)] /\ mm = mput (v_mem w) new (nth_error h (length (w_heap w0))) /\
    (exists d, h = w_heap w0 ++ [Cell d false]) /\ forall g, (forall r, handle w r -> g r = f r) -> g new = length (w_heap w0) -> scall g k (own ++ [new]) t' t0')).
Proof.
  intros V S B E. destruct (Forall2_nth _ _ _ _ _ (s_threads _ _ _ S) B) as (th0 & B0 & M). destruct th0 as [|k0 own0 t0]; [contradiction|].
  destruct M as (-> & -> & Sh & Sc). destruct (short_dec k) as [Z|Z]; [destruct (Sh Z) as (-> & _); discriminate|]. specialize (Sc Z).
  pose proof (inv_client _ _ _ V) as (Hok & _).
  assert (Hd : forall r, In r (args k ++ own) -> handle w r) by (intros r R; eapply handle_call; eauto).
  assert (Put : forall r c, handle w r -> forall q, handle w q -> exists c0, mput (v_mem w) r (Some c) q = Some c0 /\ nth_error (upd (w_heap w0) (f r) c) (f q) = Some c0).
  { intros r c Hr q Hq. destruct (Nat.eq_dec q r) as [->|N].
    - exists c. rewrite mput_same. split; [reflexivity|]. destruct (s_bytes _ _ _ S r Hr) as (c0 & _ & E0). eapply nth_upd_at; eauto.
    - rewrite mput_other by auto. rewrite upd_other; [apply (s_bytes _ _ _ S q Hq)|]. intros X. apply N. eapply s_apart; eauto. }
  assert (Sec : forall A r (body : list N -> out A * list N) Q (F F0 : A -> tstate), body_ok body Q -> In r (args k ++ own) ->
    mafter (mlock r body (v_mem w)) F = (mm, nw, t') -> (forall b, Q b -> scall f k own (F b) (F0 b)) ->
    exists h nw0 t0', after (with_lock (f r) body (w_heap w0)) F0 = (h, nw0, t0') /\ nw = [] /\ nw0 = [] /\ scall f k own t' t0' /\
    forall q, handle w q -> exists c, mm q = Some c /\ nth_error h (f q) = Some c).
  { intros A r body Q F F0 Bo R Ea Fs. destruct (s_bytes _ _ _ S r (Hd _ R)) as (c & Mc & Hc). destruct (mlock_spec r (f r) body _ _ _ Mc Hc) as (o & c' & E1 & E2).
    assert (L : (f r < length (w_heap w0))%nat) by (apply nth_error_Some; congruence).
    pose proof (lock_out (w_heap w0) (f r) body Q Hok L Bo) as O. rewrite E1 in Ea. rewrite E2 in *. cbn [fst] in O.
    destruct O as [(b & -> & Qb)|(e & ->)]; cbn [mafter after] in *; injection Ea as <- <- <-; eexists _, _, _; (split; [reflexivity|]); repeat split; auto. }
  assert (K : exists h nw0 t0', tstep (snd w0) (w_heap w0) t0 = Some (h, nw0, t0') /\
    ((nw = [] /\ nw0 = [] /\ scall f k own t' t0' /\ forall q, handle w q -> exists c, mm q = Some c /\ nth_error h (f q) = Some c) \/
     (nw = [new] /\ v_mem w new = None /\ nw0 = [length (w_heap w0)] /\ mm = mput (v_mem w) new (nth_error h (length (w_heap w0))) /\
      (exists d, h = w_heap w0 ++ [Cell d false]) /\ forall g, (forall r, handle w r -> g r = f r) -> g new = length (w_heap w0) -> scall g k (own ++ [new]) t' t0'))).
  2: { destruct K as (h & nw0 & t0' & S0 & K). exists t0, h, nw0, t0'. auto. }
  destruct t as [p|x o p], t0 as [p0|x0 o0 p0]; cbn [scall] in Sc; try contradiction.
  - assert (Sc0 : rl (parses k) (replaces k) (fun r r' => In r (args k ++ own) /\ r' = f r) (vrel (fun r r' => In r (args k ++ own) /\ r' = f r)) p p0) by (apply Sc; auto).
    destruct p as [o|d F|r j F|r j v F|r F|x o F], p0 as [o0|d0 F0|r0 j0 F0|r0 j0 v0 F0|r0 F0|x0 o0 F0]; cbn [rl] in Sc0; try contradiction; cbn [mstep tstep] in *; try discriminate.
    + destruct (v_mem w new) eqn:En; [discriminate|]. injection E as <- <- <-. destruct Sc0 as (<- & Bd & _). eexists _, _, _. split; [reflexivity|]. right.
      split; [reflexivity|]. split; [reflexivity|]. split; [reflexivity|]. rewrite nth_error_app2, Nat.sub_diag by lia. split; [reflexivity|]. split; [eauto|].
      intros g G Gn rho H. destruct (Sc rho) as (_ & _ & X); [|apply X; rewrite <- Gn; apply H; rewrite !in_app_iff; cbn; auto].
      intros r R. rewrite <- G by auto. apply H. rewrite !in_app_iff in *. tauto.
    + destruct Sc0 as ((R & ->) & <- & _). rewrite (held_sim f w w0 r S (Hd _ R)). destruct (held (v_threads w) r); [discriminate|]. injection E as E.
      destruct (Sec _ r _ (fun _ => True) (fun b => TRun (F b)) (fun b => TRun (F0 b)) (read_ok j) R E) as (h & nw0 & t0' & E0 & X); [|rewrite E0; eauto 6].
      intros b _ rho H. apply (Sc rho H).
    + destruct Sc0 as ((R & ->) & <- & <- & V2 & _). rewrite (held_sim f w w0 r S (Hd _ R)). destruct (held (v_threads w) r); [discriminate|]. injection E as E.
      destruct (Sec _ r _ (fun _ => True) (fun b => TRun F) (fun b => TRun F0) (set_bit_step_ok j v V2) R E) as (h & nw0 & t0' & E0 & X); [|rewrite E0; eauto 6].
      intros b _ rho H. apply (Sc rho H).
    + destruct Sc0 as ((R & ->) & _). rewrite (held_sim f w w0 r S (Hd _ R)). destruct (held (v_threads w) r); [discriminate|]. injection E as E.
      destruct (Sec _ r _ bytes_ok (fun b => TRun (F b)) (fun b => TRun (F0 b)) copy_ok R E) as (h & nw0 & t0' & E0 & X); [|rewrite E0; eauto 6].
      intros b Qb rho H. apply (Sc rho H). exact Qb.
    + destruct Sc0 as (Rp & (R & ->) & (Ro & ->) & _). rewrite (held_sim f w w0 x S (Hd _ R)). destruct (held (v_threads w) x); [discriminate|]. injection E as E.
      destruct (Sec _ x _ (fun _ => True) (fun _ => TWait x o F) (fun _ => TWait (f x) (f o) F0) clear_ok R E) as (h & nw0 & t0' & E0 & X); [|rewrite E0; eauto 6].
      intros b _. cbn [scall]. repeat split; auto. intros rho H. apply (Sc rho H).
  - destruct Sc as (X & O & -> & -> & Sc). cbn [mstep tstep] in *. rewrite (held_sim f w w0 o S (Hd _ O)). destruct (held (v_threads w) o); [discriminate|].
    destruct (s_bytes _ _ _ S x (Hd _ X)) as (cx & Mx & Hx). destruct (s_bytes _ _ _ S o (Hd _ O)) as (co & Mo & Ho). rewrite Mx, Mo in E. rewrite Hx, Ho.
    destruct (c_poisoned co); injection E as <- <- <-; eexists _, _, _; (split; [reflexivity|]); left; repeat split; auto.
Qed.

(** ** Worlds *)

Lemma known_incl c c' k : incl (k_hdrs c) (k_hdrs c') -> incl (k_pkts c) (k_pkts c') -> incl (k_shdrs c) (k_shdrs c') -> incl (k_slices c) (k_slices c') ->
  known c k -> known c' k.
Proof.
  intros H P S L. destruct k; cbn [known]; try (intros K; auto; fail); try (intros (K & K'); auto; fail).
  - intros K x X. apply H, K, X.
  - destruct a; [intros (K & K'); auto|auto].
  - destruct a; [intros (K & K'); auto|auto].
  - intros K x X. apply P, K, X.
  - destruct q; cbn [query_known]; auto.
Qed.
Lemma known_sim f w w0 k : sim f w w0 -> known (v_client w) k -> known (fst w0) (rename_call f k).
Proof.
  intros S K. apply (known_cmap f _ []) in K. eapply known_incl; [| | | |exact K]; cbn [cmap k_hdrs k_pkts k_shdrs k_slices].
  - intros x X. apply in_map_iff in X. destruct X as (y & <- & Y). apply (s_hdrs _ _ _ S). exact Y.
  - intros x X. apply in_map_iff in X. destruct X as (y & <- & Y). apply (s_pkts _ _ _ S). exact Y.
  - apply (s_shdrs _ _ _ S).
  - apply (s_slices _ _ _ S).
Qed.
Lemma short_rename f k : short_from (rename_call f k) <-> short_from k.
Proof. destruct k; cbn [rename_call short_from]; tauto. Qed.

(** The client as the program sees it, for [rl_rename]. *)
Lemma rl_start m ip6 f w w0 k (rho : nat -> nat -> Prop) : octets16 ip6 -> winv m ip6 w0 -> sim f w w0 -> known (v_client w) k -> typed k -> ~ short_from k ->
  (forall r, In r (args k) -> rho r (f r)) -> rl (parses k) (replaces k) rho (vrel rho) (a_kexec m ip6 k) (a_kexec m ip6 (rename_call f k)).
Proof.
  intros O6 V S K T Z Ar. apply rl_kexec; auto.
  - intros x X. split; auto. apply Ar. apply in_map. apply in_or_app. auto.
  - intros p P. split; [|split; auto].
    + assert (B : forall x, In x (p_hdrs p) -> rho (h_ref x) (f (h_ref x))).
      { intros x X. apply Ar. apply in_map. apply in_or_app. right. apply in_flat_map. eauto. }
      clear - B. unfold rename_pkt. cbn [p_hdrs].
      induction (p_hdrs p) as [|x l IH]; constructor; [split; auto; apply B; left; auto|].
      apply IH. intros y Y. apply B. right; auto.
    + destruct (inv_client _ _ _ V) as (_ & _ & Fp & _). eapply known_pkts in P; [|exact K]. apply (s_pkts _ _ _ S) in P.
      eapply Forall_forall in Fp; [|exact P]. apply Fp.
Qed.

Lemma sim_start f : sim f v_start w_start.
Proof.
  assert (N : forall r, ~ handle v_start r).
  { intros r [[(x & [] & _)|(p & x & [] & _)]|(i & k & own & t & E & _)]. destruct i; discriminate. }
  constructor; try (intros x []; fail); try (intros r H; destruct (N _ H); fail); try (intros r q H; destruct (N _ H); fail). constructor.
Qed.
(** Handles that there were. *)
Lemma sim_less f w w' w0 : sim f w w0 -> (forall r, handle w' r -> handle w r /\ v_mem w' r = v_mem w r) ->
  incl (k_hdrs (v_client w')) (k_hdrs (v_client w)) -> incl (k_pkts (v_client w')) (k_pkts (v_client w)) ->
  incl (k_shdrs (v_client w')) (k_shdrs (v_client w)) -> incl (k_slices (v_client w')) (k_slices (v_client w)) ->
  v_threads w' = v_threads w -> sim f w' w0.
Proof.
  intros [H P S L A B T] Hd Ih Ip Is Il Et. constructor; try rewrite Et; auto.
  - intros x X. apply S, Is, X.
  - intros x X. apply L, Il, X.
  - intros r q R Q. apply A; apply Hd; auto.
  - intros r R. destruct (Hd r R) as (R' & ->). auto.
Qed.
Lemma shared_less c c' r : incl (k_hdrs c') (k_hdrs c) -> incl (k_pkts c') (k_pkts c) -> shared c' r -> shared c r.
Proof. intros H P [(x & X & E)|(p & x & X & Y & E)]; [left|right]; eauto 6. Qed.
Lemma sim_drop f w c w0 : sim f w w0 -> part_of c (v_client w) -> sim f (vdrop w c) w0.
Proof.
  intros S (_ & H & P & Sh & L). eapply sim_less; eauto. intros r [R|R]; split; auto; [left; eapply shared_less; eauto|right; exact R].
Qed.
Lemma sim_free f w r w0 : sim f w w0 -> ~ handle w r -> sim f (vfree w r) w0.
Proof.
  intros S N. eapply sim_less; eauto using incl_refl. intros q Q. split; [exact Q|]. apply mput_other. intros ->. apply N. exact Q.
Qed.
Lemma Forall2_app1 {A B} (P : A -> B -> Prop) l l' a b : Forall2 P l l' -> P a b -> Forall2 P (l ++ [a]) (l' ++ [b]).
Proof. intros F Q. apply Forall2_app; auto. Qed.
Lemma sim_spawn f w w0 : sim f w w0 -> sim f (vspawn w) (wspawn w0).
Proof.
  intros S. destruct w0 as [c0 ts0].
  assert (Hd : forall r, handle (vspawn w) r -> handle w r).
  { intros r [R|(i & k & own & t & E & R)]; [left; exact R|]. right. exists i, k, own, t. split; auto. cbn [vspawn v_threads] in E.
    destruct (Nat.lt_ge_cases i (length (v_threads w))); [rewrite nth_error_app1 in E; auto|]. rewrite nth_error_app2 in E by auto.
    destruct (i - length (v_threads w))%nat as [|j]; [discriminate|destruct j; discriminate]. }
  destruct S as [H P S L A B T]. constructor; [exact H|exact P|exact S|exact L|intros r q R Q; apply A; auto|intros r R; apply B; auto|]. apply Forall2_app1; auto. exact I.
Qed.
Lemma sim_call m ip6 f w w0 i k w' : octets16 ip6 -> winv m ip6 w0 -> sim f w w0 -> known (v_client w) k -> typed k -> vcall m ip6 w i k = Some w' ->
  exists w0', wcall m ip6 w0 i (rename_call f k) = Some w0' /\ sim f w' w0'.
Proof.
  intros O6 V S K Ty E. unfold vcall in E. destruct (nth_error (v_threads w) i) as [[|? ? ?]|] eqn:Ei; try discriminate. injection E as <-.
  destruct (Forall2_nth _ _ _ _ _ (s_threads _ _ _ S) Ei) as (t0 & E0 & M). destruct t0; [|contradiction]. destruct w0 as [c0 ts0] eqn:W0. cbn [wcall snd] in *.
  rewrite E0. eexists. split; [reflexivity|].
  assert (Hd : forall r, handle (VW (v_client w) (v_mem w) (upd (v_threads w) i (Busy k [] (TRun (a_kexec m ip6 k))))) r -> handle w r).
  { intros r [R|(j & k1 & own1 & t1 & E1 & R)]; [left; exact R|]. cbn [v_threads] in E1. destruct (upd_cases _ _ _ _ _ E1) as [(-> & X)|(_ & E2)]; [injection X as -> -> ->|].
    - rewrite app_nil_r in R. left. eapply known_shared; eauto.
    - right. eauto 6. }
  destruct S as [H P Sh L A B T]. constructor; [exact H|exact P|exact Sh|exact L|intros r q R Q; apply A; auto|intros r R; apply B; auto|]. apply Forall2_upd; auto. cbn [sthread map]. split; [reflexivity|]. split; [reflexivity|]. split.
  - intros Z. rewrite !a_short; auto. apply short_rename. exact Z.
  - intros Z rho R. eapply (rl_start _ _ _ w (c0, ts0)); eauto; [constructor; auto|]. intros r X. apply R, in_or_app. auto.
Qed.
Lemma sim_do m ip6 f w w0 i new w' : winv m ip6 w0 -> sim f w w0 -> vdo w i new = Some w' ->
  exists g w0', wdo w0 i = Some w0' /\ sim g w' w0' /\ forall r, handle w r -> g r = f r.
Proof.
  intros V S E. unfold vdo in E. destruct (nth_error (v_threads w) i) as [[|k own t]|] eqn:B; try discriminate.
  destruct (mstep (v_threads w) (v_mem w) new t) as [((mm, nw), t')|] eqn:Es; [|discriminate]. injection E as <-.
  destruct (step_sim _ _ _ _ _ _ _ _ _ _ _ _ _ V S B Es) as (t0 & h & nw0 & t0' & B0 & E0 & Z & K).
  assert (Hd : forall r, handle (VW (v_client w) mm (upd (v_threads w) i (Busy k (own ++ nw) t'))) r -> handle w r \/ In r nw).
  { intros r [R|(j & k1 & own1 & t1 & E1 & R)]; [left; left; exact R|]. cbn [v_threads] in E1. destruct (upd_cases _ _ _ _ _ E1) as [(-> & X)|(_ & E2)].
    - injection X as -> -> ->. rewrite app_assoc in R. apply in_app_or in R. destruct R as [R|R]; [left; eapply handle_call; eauto|auto].
    - left. right. eauto 6. }
  destruct w0 as [c0 ts0] eqn:W0. unfold busy in B0. cbn [wdo snd] in *. unfold w_heap in E0. cbn [fst] in E0. rewrite B0, E0.
  destruct K as [(-> & -> & Sc & Bt)|(-> & Mn & -> & -> & (d & ->) & Sc)].
  - exists f. eexists. split; [reflexivity|]. split; [|auto]. rewrite !app_nil_r in *.
    assert (Hd' : forall r, handle (VW (v_client w) mm (upd (v_threads w) i (Busy k own t'))) r -> handle w r) by (intros r R; destruct (Hd r R) as [X|[]]; exact X).
    destruct S as [H P Sh L A Bs T]. constructor; [exact H|exact P|exact Sh|exact L|intros r q R Q; apply A; auto|intros r R; apply Bt; auto|]. apply Forall2_upd; auto. cbn [sthread]. tauto.
  - set (n := length (w_heap (c0, ts0))) in *. set (g := fun r => if (r =? new)%nat then n else f r).
    assert (Hn : forall r, handle w r -> r <> new). { intros r R ->. destruct (s_bytes _ _ _ S _ R) as (c & X & _). congruence. }
    assert (G : forall r, handle w r -> g r = f r). { intros r R. unfold g. rewrite (proj2 (Nat.eqb_neq _ _) (Hn _ R)). reflexivity. }
    assert (Gn : g new = n) by (unfold g; rewrite Nat.eqb_refl; reflexivity).
    assert (Fl : forall r, handle w r -> (f r < n)%nat). { intros r R. destruct (s_bytes _ _ _ S _ R) as (c & _ & X). apply nth_error_Some. unfold n, w_heap in *. congruence. }
    exists g. eexists. split; [reflexivity|]. split; [|auto]. constructor; cbn [v_client v_mem v_threads fst snd set_heap k_hdrs k_pkts k_shdrs k_slices].
    + intros x X. rewrite (rename_hdr_ext g f); [apply (s_hdrs _ _ _ S); exact X|]. apply G. left. left. eauto.
    + intros p X. rewrite (rename_pkt_ext g f); [apply (s_pkts _ _ _ S); exact X|]. intros x Y. apply G. left. right. eauto 6.
    + apply (s_shdrs _ _ _ S).
    + apply (s_slices _ _ _ S).
    + intros r q R Q Eq. destruct (Hd _ R) as [R'|[<-|[]]], (Hd _ Q) as [Q'|[<-|[]]]; auto.
      * rewrite !G in Eq by auto. eapply s_apart; eauto.
      * rewrite Gn, (G _ R') in Eq. specialize (Fl _ R'). lia.
      * rewrite Gn, (G _ Q') in Eq. specialize (Fl _ Q'). lia.
    + intros r R. destruct (Hd _ R) as [R'|[<-|[]]].
      * rewrite mput_other by (apply Hn; auto). rewrite (G _ R'). destruct (s_bytes _ _ _ S _ R') as (c & X & Y). exists c. split; auto.
        unfold w_heap in *. cbn [fst set_heap k_heap] in *. rewrite nth_error_app1; auto.
      * rewrite mput_same, Gn. exists (Cell d false). unfold n, w_heap. cbn [fst set_heap k_heap]. rewrite nth_error_app2, Nat.sub_diag by lia. auto.
    + assert (T : Forall2 (sthread g) (v_threads w) ts0).
      { eapply Forall2_imp_in; [apply (s_threads _ _ _ S)|]. intros j a b Ej. apply sthread_ext. intros k1 own1 p1 r -> R. symmetry. apply G. eapply handle_call; eauto. }
      apply Forall2_upd; [exact T|]. cbn [sthread]. split; [|split; [|split]].
      * apply rename_call_ext. intros r R. symmetry. apply G. eapply handle_call; eauto. apply in_or_app; auto.
      * rewrite map_app. cbn [map]. rewrite Gn. f_equal. apply map_ext_in. intros r R. symmetry. apply G. eapply handle_call; eauto. apply in_or_app; auto.
      * intros X. contradiction.
      * intros _. apply Sc; auto.
Qed.

(** What a finished call has made of the same arguments. *)
Lemma done_sim f w w0 i k own o : sim f w w0 -> nth_error (v_threads w) i = Some (Busy k own (TRun (ADone o))) ->
  busy w0 i (rename_call f k) (map f own) (TRun (ADone (rename_out f o))) /\ within (fun r => In r (args k ++ own)) o.
Proof.
  intros S B. destruct (Forall2_nth _ _ _ _ _ (s_threads _ _ _ S) B) as (t0 & B0 & M). destruct t0 as [|k0 own0 t0]; [contradiction|].
  destruct M as (-> & -> & Sh & Sc). unfold busy. rewrite B0. destruct (short_dec k) as [Z|Z]; [destruct (Sh Z) as ([= ->] & ->); cbn; auto|].
  specialize (Sc Z). destruct t0 as [p0|]; [|contradiction]. cbn [scall] in Sc. specialize (Sc (fun r r' => In r (args k ++ own) /\ r' = f r) (fun r R => conj R eq_refl)).
  destruct p0 as [o0| | | | |]; try contradiction. cbn [rl] in Sc. destruct o as [v|e| | |], o0 as [v0|e0| | |]; cbn [orl] in Sc; try contradiction; cbn [rename_out within]; auto; [|subst; auto].
  split.
  - rewrite (vrel_carry _ f v v0) with (2 := Sc); auto. intros r r' (_ & ->). reflexivity.
  - destruct v, v0; cbn [vrel within] in *; try contradiction; auto.
    + apply Sc.
    + destruct Sc as (F & _). intros x X. clear -F X. induction F as [|a b l l' D F IH]; [destruct X|]. destruct X as [->|X]; [apply D|auto].
Qed.
Lemma within_refs S o : within S o <-> forall r, In r (result_refs o) -> S r.
Proof.
  destruct o as [[]| | | |]; cbn [within result_refs]; split; auto; try (intros _ r []; fail).
  - intros X r [<-|[]]. exact X.
  - intros H. apply H. left. reflexivity.
  - intros H r X. apply in_map_iff in X. destruct X as (y & <- & Y). auto.
  - intros H x X. apply H, in_map, X.
Qed.
Lemma sim_back f w w0 i k own o w' : sim f w w0 -> nth_error (v_threads w) i = Some (Busy k own (TRun (ADone o))) -> vback w i = Some w' ->
  exists w0', wback w0 i = Some w0' /\ sim f w' w0'.
Proof.
  intros S B E. destruct (done_sim _ _ _ _ _ _ _ S B) as (B0 & W). destruct w0 as [c0 ts0] eqn:W0. unfold vback in E. rewrite B in E. unfold busy in B0. cbn [wback snd] in *. rewrite B0.
  destruct S as [H P Sh L A Bs T].
  assert (T' : Forall2 (sthread f) (upd (v_threads w) i Idle) (upd ts0 i Idle)) by (apply Forall2_upd; [exact T|exact I]).
  assert (Hc : forall c, (forall r, shared c r -> handle w r) -> forall r, handle (VW c (v_mem w) (upd (v_threads w) i Idle)) r -> handle w r).
  { intros c Hs r [R|(j & k1 & own1 & t1 & E1 & R)]; [auto|]. cbn [v_threads] in E1. destruct (upd_cases _ _ _ _ _ E1) as [(_ & X)|(_ & E2)]; [discriminate|].
    right. eauto 6. }
  destruct o as [v|e| | |]; try discriminate; injection E as <-; cbn [rename_out].
  - eexists. split; [reflexivity|].
    assert (Hs : forall r, shared (learn (v_client w) (Ret v) []) r -> handle w r).
    { intros r R. destruct (shared_cmap _ _ _ _ _ W R) as [X|X]; [left; exact X|]. eapply handle_call; eauto. }
    specialize (Hc _ Hs). constructor; cbn [v_client v_mem v_threads fst snd]; [| | | |intros r q R Q; apply A; auto| |exact T'].
    + intros x X. destruct v; cbn [learn rename k_hdrs In] in *; auto. destruct X as [->|X]; auto.
    + intros x X. destruct v; cbn [learn rename k_pkts In] in *; auto. destruct X as [->|X]; auto.
    + intros x X. destruct v; cbn [learn rename k_shdrs In] in *; auto. destruct X as [->|X]; auto.
    + intros x X. destruct v; cbn [learn rename k_slices In] in *; auto. destruct X as [->|X]; auto.
    + intros r R. destruct (Bs r (Hc r R)) as (c & X & Y). exists c. split; auto. unfold w_heap in *. cbn [fst] in *. destruct v; exact Y.
  - eexists. split; [reflexivity|]. specialize (Hc (v_client w) ltac:(intros r R; left; exact R)). constructor; [exact H|exact P|exact Sh|exact L|intros r q R Q; apply A; auto|intros r R; apply Bs; auto|exact T'].
Qed.

Lemma args_rename f k : args (rename_call f k) = map f (args k).
Proof.
  assert (P : forall p, map h_ref (p_hdrs (rename_pkt f p)) = map f (map h_ref (p_hdrs p))) by (intros p; unfold rename_pkt; cbn [p_hdrs]; rewrite !map_map; reflexivity).
  unfold args. destruct k; cbn [rename_call call_hdrs call_pkts flat_map app map h_ref]; rewrite ?app_nil_r; auto.
  - destruct o; reflexivity.
  - destruct a; cbn [rename_any app map h_ref rename_hdr]; rewrite ?P; auto.
  - destruct a; cbn [rename_any app map h_ref rename_hdr]; rewrite ?P; auto.
  - rewrite !map_app, !P. reflexivity.
  - rewrite !map_app, !P. reflexivity.
  - destruct b; cbn [rename_pmake pmake_inner flat_map app map]; rewrite ?app_nil_r; auto; destruct inner; cbn [option_map pmake_inner flat_map app map]; rewrite ?app_nil_r; auto.
  - destruct q; cbn [rename_query query_hdrs query_pkts flat_map app map h_ref rename_hdr]; rewrite ?app_nil_r; auto.
Qed.

(** ** Executions *)

Lemma wruns_reach m ip6 w l : wruns m ip6 w l -> wreach m ip6 w.
Proof.
  induction 1 as [|w l R IH|w l i k w' R IH K T E|w l i w' R IH E|w l i k own o w' R IH B E]; [constructor|..]; (eapply WR_step; [exact IH|]).
  - constructor.
  - econstructor; eauto.
  - eapply W_do; eauto.
  - eapply W_back; eauto.
Qed.
Lemma vruns_sim m ip6 w l : octets16 ip6 -> vruns m ip6 w l -> exists f w0 l0, wruns m ip6 w0 l0 /\ sim f w w0 /\ Forall2 same_end l l0.
Proof.
  intros O6. induction 1 as [|w l R IH|w l i k w' R IH K T E|w l i new w' R IH E|w l i k own o w' R IH B E|w l c R IH P|w l r R IH N].
  { exists (fun r => r), w_start, []. split; [constructor|]. split; [apply sim_start|constructor]. }
  all: destruct IH as (f & w0 & l0 & R0 & S & F); pose proof (inv_reach _ _ _ O6 (wruns_reach _ _ _ _ R0)) as V.
  - exists f, (wspawn w0), l0. split; [constructor; auto|]. split; [apply sim_spawn; auto|auto].
  - destruct (sim_call _ _ _ _ _ _ _ _ O6 V S K T E) as (w0' & E0 & S'). exists f, w0', l0. split; [|auto].
    apply (X_call _ _ w0 l0 i (rename_call f k)); auto; [apply (known_sim f w); auto|apply typed_rename; auto].
  - destruct (sim_do _ _ _ _ _ _ _ _ V S E) as (g & w0' & E0 & S' & _). exists g, w0', l0. split; [|auto]. eapply X_do; eauto.
  - destruct (sim_back _ _ _ _ _ _ _ _ S B E) as (w0' & E0 & S'). destruct (done_sim _ _ _ _ _ _ _ S B) as (B0 & W).
    exists f, w0', (l0 ++ [(i, rename_call f k, rename_out f o)]). split; [eapply X_back; eauto|]. split; [exact S'|]. apply Forall2_app1; [exact F|].
    split; [reflexivity|]. exists f. split; [reflexivity|]. split; [reflexivity|].
    assert (Hd : forall r, In r (args k ++ result_refs o) -> handle w r).
    { intros r X. eapply handle_call; [exact B|]. apply in_app_or in X. destruct X as [X|X]; [apply in_or_app; auto|]. apply (proj1 (within_refs _ _) W). exact X. }
    intros r q X Y. apply (s_apart _ _ _ S); auto.
  - exists f, w0, l0. split; [auto|]. split; [apply sim_drop; auto|auto].
  - exists f, w0, l0. split; [auto|]. split; [apply sim_free; auto|auto].
Qed.
Lemma sim_stands f w w0 : sim f w w0 -> stands_for f w w0.
Proof.
  intros S. pose proof (fun i k own o => done_sim f w w0 i k own o S) as D. destruct S as [H P Sh L A B T]. constructor; auto.
  apply Forall2_imp_in with (1 := T). intros i a b E M. destruct a as [|k own t], b as [|k0 own0 t0]; try contradiction; [exact I|].
  destruct (Forall2_nth _ _ _ _ _ T E) as (b & Eb & Mb). assert (Eb' : exists b', nth_error (snd w0) i = Some b') by eauto. clear b Eb Mb.
  destruct M as (-> & -> & Z1 & Z2). cbn [same_busy]. split; [reflexivity|]. split; [reflexivity|].
  assert (G : (t = TRun (ADone UB) /\ t0 = TRun (ADone UB)) \/ scall f k own t t0) by (destruct (short_dec k); auto). clear Z1 Z2 D.
  destruct G as [(-> & ->)|G].
  { split; [intros o [= <-]; reflexivity|]. split; [eauto|]. split; [intros x y (q & [=])|intros x y (q & [=])]. }
  destruct t as [p|x o p], t0 as [p0|x0 o0 p0]; cbn [scall] in G; try contradiction.
  - specialize (G (fun r r' => In r (args k ++ own) /\ r' = f r) (fun r R => conj R eq_refl)). split; [|split; [|split; [intros x y (q & [=])|intros x y (q & [=])]]].
    + intros o [= ->]. destruct p0 as [o0| | | | |]; try contradiction. cbn [rl] in G. destruct o as [v|e| | |], o0 as [v0|e0| | |]; cbn [orl] in G; try contradiction; cbn [rename_out]; auto; [|subst; auto].
      rewrite (vrel_carry _ f v v0) with (2 := G); auto. intros r r' (_ & ->). reflexivity.
    + intros o [= ->]. destruct p as [o0| | | | |]; try contradiction. eauto.
  - destruct G as (_ & _ & -> & -> & _). split; [intros o1 [=]|]. split; [intros o1 [=]|]. split; [intros x1 y1 (q & [= -> -> ->]); eauto|intros; eauto].
Qed.

(** ** Memory is finite *)

Lemma mem_finite m ip6 w l : vruns m ip6 w l -> exists n, forall r, (n <= r)%nat -> v_mem w r = None.
Proof.
  assert (P : forall (mm : mem) r o n, (forall r, (n <= r)%nat -> mm r = None) -> exists n, forall r0, (n <= r0)%nat -> mput mm r o r0 = None).
  { intros mm r o n H. exists (Nat.max n (S r)). intros q Q. rewrite mput_other by lia. apply H. lia. }
  assert (M : forall B (r : nat) (body : list N -> out B * list N) (mm : mem) F n, (forall r, (n <= r)%nat -> mm r = None) ->
    exists n, forall r0, (n <= r0)%nat -> fst (fst (mafter (mlock r body mm) F)) r0 = None).
  { intros B r body mm F n H. unfold mlock. destruct (mm r) eqn:E; [|exists n; cbn; auto]. destruct (with_lock 0 body [c]) as [o [|c' h]]; [exists n; destruct o; auto|].
    destruct (P mm r (Some c') n H) as (n' & H'). exists n'. destruct o; auto. }
  induction 1 as [|w l R IH|w l i k w' R IH K T E|w l i new w' R IH E|w l i k own o w' R IH B E|w l c R IH Pt|w l r R IH N]; try destruct IH as (n & IH); auto.
  - exists O. reflexivity.
  - exists n. exact IH.
  - unfold vcall in E. destruct (nth_error _ _) as [[|? ? ?]|]; try discriminate. injection E as <-. exists n. exact IH.
  - unfold vdo in E. destruct (nth_error _ _) as [[|k own t]|]; try discriminate. destruct (mstep _ _ _ _) as [((mm, nw), t')|] eqn:Es; [|discriminate]. injection E as <-. cbn [v_mem].
    destruct t as [[o|d F|r j F|r j v F|r F|x o F]|x o F]; cbn [mstep] in Es; try discriminate;
      try (destruct (held _ _); [discriminate|]; injection Es as Es; match type of Es with mafter (mlock ?r ?b ?mm) ?F = _ => destruct (M _ r b mm F n IH) as (n' & H'); exists n'; rewrite Es in H'; exact H' end).
    + destruct (v_mem w new); [discriminate|]. injection Es as <- _ _. eapply P; eauto.
    + destruct (held _ _); [discriminate|]. destruct (v_mem w x); [|injection Es as <- _ _; eauto]. destruct (v_mem w o); [|injection Es as <- _ _; eauto].
      destruct (c_poisoned _); injection Es as <- _ _; eapply P; eauto.
  - unfold vback in E. rewrite B in E. destruct o; try discriminate; injection E as <-; exists n; exact IH.
  - exists n. exact IH.
  - eapply P; eauto.
Qed.

(** The places with a handle. *)
Definition t_refs (t : thread) : list nat := match t with Busy k own _ => args k ++ own | Idle => [] end.
Definition refs (w : vworld) : list nat :=
  map h_ref (k_hdrs (v_client w)) ++ flat_map (fun p => map h_ref (p_hdrs p)) (k_pkts (v_client w)) ++ flat_map t_refs (v_threads w).
Lemma refs_handle w r : In r (refs w) <-> handle w r.
Proof.
  unfold refs. rewrite !in_app_iff. unfold handle, shared. split.
  - intros [X|[X|X]].
    + apply in_map_iff in X. destruct X as (x & <- & X). left. left. eauto.
    + apply in_flat_map in X. destruct X as (p & P & X). apply in_map_iff in X. destruct X as (x & <- & X). left. right. eauto 6.
    + apply in_flat_map in X. destruct X as ([|k own t] & T & X); [destruct X|]. apply In_nth_error in T. destruct T as (i & T). right. eauto 8.
  - intros [[(x & X & <-)|(p & x & P & X & <-)]|(i & k & own & t & T & X)].
    + left. apply in_map. exact X.
    + right. left. apply in_flat_map. exists p. split; auto. apply in_map. exact X.
    + right. right. apply in_flat_map. exists (Busy k own t). split; [eapply nth_error_In; eauto|exact X].
Qed.
Lemma handle_dec w r : handle w r \/ ~ handle w r.
Proof. destruct (in_dec Nat.eq_dec r (refs w)) as [X|X]; rewrite refs_handle in X; auto. Qed.
Lemma reclaim m ip6 w l n : vruns m ip6 w l -> exists w', vruns m ip6 w' l /\ v_client w' = v_client w /\ v_threads w' = v_threads w /\
  (forall r, handle w r -> v_mem w' r = v_mem w r) /\ (forall r, ~ handle w r -> (r < n)%nat -> v_mem w' r = None) /\ (forall r, (n <= r)%nat -> v_mem w' r = v_mem w r).
Proof.
  intros R. induction n as [|n IH]; [exists w; repeat split; auto; lia|]. destruct IH as (w' & R' & Ec & Et & Hh & Hn & Ho).
  assert (Hd : forall r, handle w' r <-> handle w r) by (intros r; unfold handle; rewrite Ec, Et; tauto).
  destruct (handle_dec w n) as [X|X].
  - exists w'. repeat split; auto; intros r; [intros N L|intros L; apply Ho; lia]. assert (r <> n) by congruence. apply Hn; auto. lia.
  - exists (vfree w' n). split; [constructor; auto; rewrite Hd; auto|]. cbn [vfree v_client v_threads v_mem]. repeat split; auto; intros r.
    + intros Y. rewrite mput_other by congruence. auto.
    + intros Y L. destruct (Nat.eq_dec r n) as [->|Ne]; [apply mput_same|]. rewrite mput_other by auto. apply Hn; auto. lia.
    + intros L. rewrite mput_other by lia. apply Ho. lia.
Qed.

(** ** Executions that never free *)

Lemma mput_upd (mm : mem) h r c c' : (forall r, mm r = nth_error h r) -> nth_error h r = Some c -> forall q, mput mm r (Some c') q = nth_error (upd h r c') q.
Proof.
  intros H E q. destruct (Nat.eq_dec q r) as [->|N].
  - rewrite mput_same. symmetry. eapply nth_upd_at; eauto.
  - rewrite mput_other, upd_other by auto. apply H.
Qed.
Lemma mlock_heap {B} r (body : list N -> out B * list N) (mm : mem) h F h' nw t' : (forall r, mm r = nth_error h r) ->
  after (with_lock r body h) F = (h', nw, t') -> exists mm', mafter (mlock r body mm) F = (mm', nw, t') /\ forall r, mm' r = nth_error h' r.
Proof.
  intros H E. destruct (nth_error h r) as [c|] eqn:Er.
  - destruct (mlock_spec r r body mm h c ltac:(rewrite H; exact Er) Er) as (o & c' & E1 & E2). rewrite E1. rewrite E2 in E.
    pose proof (mput_upd mm h r c c' H Er) as X. destruct o; cbn [after mafter] in *; injection E as <- <- <-; eexists; split; eauto.
  - unfold mlock. rewrite H, Er. unfold with_lock in E. rewrite Er in E. cbn [after mafter] in *. injection E as <- <- <-. eauto.
Qed.
Lemma mstep_heap ts (mm : mem) h t h' nw t' : (forall r, mm r = nth_error h r) -> tstep ts h t = Some (h', nw, t') ->
  exists mm', mstep ts mm (length h) t = Some (mm', nw, t') /\ forall r, mm' r = nth_error h' r.
Proof.
  intros H E. destruct t as [[o|d F|r j F|r j v F|r F|x o F]|x o F]; cbn [mstep tstep] in *; try discriminate;
    try (destruct (held _ _); [discriminate|]; injection E as E; destruct (mlock_heap _ _ _ _ _ _ _ _ H E) as (mm' & -> & X); eauto).
  - injection E as <- <- <-. rewrite H, (proj2 (nth_error_None _ _)) by lia. eexists. split; [reflexivity|]. intros r. destruct (Nat.eq_dec r (length h)) as [->|N].
    + rewrite mput_same, nth_error_app2, Nat.sub_diag by lia. reflexivity.
    + rewrite mput_other, H by auto. destruct (Nat.lt_ge_cases r (length h)); [rewrite nth_error_app1; auto|].
      transitivity (@None cell); [|symmetry]; apply nth_error_None; auto. rewrite app_length. cbn. lia.
  - destruct (held _ _); [discriminate|]. rewrite !H. destruct (nth_error h x) as [cx|] eqn:Ex; [|injection E as <- <- <-; eauto].
    destruct (nth_error h o) as [co|] eqn:Eo; [|injection E as <- <- <-; eauto].
    destruct (c_poisoned co); injection E as <- <- <-; eexists; (split; [reflexivity|]); eapply mput_upd; eauto.
Qed.
Lemma vruns_complete m ip6 w0 l : wruns m ip6 w0 l -> exists w, vruns m ip6 w l /\ v_client w = set_heap (fst w0) [] /\
  v_threads w = snd w0 /\ forall r, v_mem w r = nth_error (w_heap w0) r.
Proof.
  induction 1 as [|w0 l R IH|w0 l i k w' R IH K T E|w0 l i w' R IH E|w0 l i k own o w' R IH B E].
  { exists v_start. split; [constructor|]. split; [reflexivity|]. split; [reflexivity|]. intros r. destruct r; reflexivity. }
  all: destruct IH as (w & R' & Ec & Et & Em).
  - exists (vspawn w). split; [constructor; auto|]. destruct w0 as [c0 ts0]. cbn [vspawn wspawn v_client v_threads v_mem fst snd] in *. rewrite Et. auto.
  - destruct w0 as [c0 ts0]. cbn [wcall fst snd] in *. destruct (nth_error ts0 i) as [[|? ? ?]|] eqn:Ei; try discriminate. injection E as <-.
    eexists. split.
    { eapply V_call with (k := k); [exact R'| | |unfold vcall; rewrite Et, Ei; reflexivity]; auto. rewrite Ec. exact K. }
    cbn [v_client v_threads v_mem fst snd] in *. auto.
  - destruct w0 as [c0 ts0]. cbn [wdo fst snd] in *. destruct (nth_error ts0 i) as [[|k own t]|] eqn:Ei; try discriminate.
    destruct (tstep ts0 (k_heap c0) t) as [((h', nw), t')|] eqn:Es; [|discriminate]. injection E as <-.
    destruct (mstep_heap _ _ _ _ _ _ _ Em Es) as (mm' & Ems & X).
    eexists. split.
    { eapply V_do; [exact R'|]. unfold vdo. rewrite Et, Ei. unfold w_heap in Ems. cbn [fst] in Ems. rewrite Ems. reflexivity. }
    cbn [v_client v_threads v_mem fst snd] in *. split; [exact Ec|]. split; [reflexivity|]. exact X.
  - destruct w0 as [c0 ts0]. unfold busy in B. cbn [wback fst snd] in *. rewrite B in E. rewrite <- Et in B.
    destruct o as [v|e| | |]; try discriminate; injection E as <-.
    + eexists. split; [eapply V_back; [exact R'|exact B|unfold vback; rewrite B; reflexivity]|]. cbn [v_client v_threads v_mem fst snd]. rewrite Et, Ec.
      split; [destruct v; reflexivity|]. split; [reflexivity|]. intros r. rewrite Em. destruct v; reflexivity.
    + eexists. split; [eapply V_back; [exact R'|exact B|unfold vback; rewrite B; reflexivity]|]. cbn [v_client v_threads v_mem fst snd]. rewrite Et, Ec. auto.
Qed.
