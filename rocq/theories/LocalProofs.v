(** LocalProofs.v -- lemmas for PropLocal.v. *)

From Coq Require Import Lia.
From Verif Require Import Base Bits Types Layout Heap Packet Text Build Utils Slow Fast Show Trait Ops Client Print Threads TPrint
  Spec ClientSpec ThreadsSpec LocalSpec BitsProofs HeapProofs PropBuild ClientProofs PrintProofs ThreadsRel ThreadsProofs TPrintSim TPrintRel TPrintErase TPrintProofs PropClient PropPrint.
Open Scope N_scope.

Section Local.
Variables (n n' : nat) (A : nat -> Prop) (g : nat -> nat).
Hypothesis An : forall r, A r -> (r < n)%nat.
Hypothesis Gn : forall r, A r -> (g r < n')%nat.
Hypothesis Gi : forall r q, A r -> A q -> g r = g q -> r = q.

Definition at_ (r r' : nat) : Prop := (A r \/ (n <= r)%nat) /\ r' = carry n n' g r.
Lemma at_arg r : A r -> at_ r (g r).
Proof. intros R. split; auto. unfold carry. rewrite (proj2 (Nat.ltb_lt _ _)); auto. Qed.
Lemma at_new r : (n <= r)%nat -> at_ r (n' + (r - n)).
Proof. intros R. split; auto. unfold carry. rewrite (proj2 (Nat.ltb_ge _ _)); auto. Qed.
Lemma at_cases r r' : at_ r r' -> (A r /\ r' = g r) \/ ((n <= r)%nat /\ r' = (n' + (r - n))%nat).
Proof.
  intros ([R|R] & ->); unfold carry; [left|right]; split; auto;
    [rewrite (proj2 (Nat.ltb_lt _ _)); auto|rewrite (proj2 (Nat.ltb_ge _ _)); auto].
Qed.
Lemma at_inj r q r' : at_ r r' -> at_ q r' -> r = q.
Proof.
  intros R Q. apply at_cases in R. apply at_cases in Q.
  destruct R as [(R & ->)|(R & ->)], Q as [(Q & E)|(Q & E)]; auto; [apply Gn in R; lia|apply Gn in Q; lia|lia].
Qed.
Lemma at_fun r r' q' : at_ r r' -> at_ r q' -> r' = q'.
Proof. intros (_ & ->) (_ & ->). reflexivity. Qed.

(** Two heaps that hold the same where it matters. *)
Record alike (h h' : heap) : Prop := {
  al_len : (length h + n' = length h' + n)%nat;
  al_more : (n <= length h)%nat;
  al_eq : forall r r', at_ r r' -> nth_error h' r' = nth_error h r;
  al_ok : heap_ok h
}.
Definition keeps (h h1 h' h1' : heap) : Prop :=
  (forall r, (forall r', ~ at_ r r') -> nth_error h1 r = nth_error h r) /\
  (forall r', (forall r, ~ at_ r r') -> nth_error h1' r' = nth_error h' r').
Lemma keeps_refl h h' : keeps h h h' h'.
Proof. split; auto. Qed.
Lemma keeps_trans h h1 h2 h' h1' h2' : keeps h h1 h' h1' -> keeps h1 h2 h1' h2' -> keeps h h2 h' h2'.
Proof. intros (A1 & A2) (B1 & B2). split; intros; [rewrite B1, A1|rewrite B2, A2]; auto. Qed.

Lemma alike_upd h h' r r' c : alike h h' -> at_ r r' -> bytes_ok (c_data c) ->
  alike (upd h r c) (upd h' r' c) /\ keeps h (upd h r c) h' (upd h' r' c).
Proof.
  intros [L M E O] R B. split.
  - split; rewrite ?upd_len; auto.
    + intros q q' Q. destruct (Nat.eq_dec q r) as [->|Ne].
      * rewrite (at_fun _ _ _ Q R). symmetry. apply upd_at. symmetry. auto.
      * rewrite !upd_other; auto. intros ->. apply Ne. eapply at_inj; eauto.
    + destruct c. apply heap_ok_upd; auto.
  - split; intros q Q; rewrite upd_other; auto; intros ->; eapply Q; eauto.
Qed.
Lemma alike_alloc h h' d : alike h h' -> bytes_ok d ->
  at_ (length h) (length h') /\ alike (h ++ [Cell d false]) (h' ++ [Cell d false]) /\
  keeps h (h ++ [Cell d false]) h' (h' ++ [Cell d false]).
Proof.
  intros [L M E O] B. assert (R : at_ (length h) (length h')).
  { replace (length h') with (n' + (length h - n))%nat by lia. apply at_new. lia. }
  split; [exact R|]. split.
  - split; rewrite ?app_length; cbn [length]; try lia.
    + intros q q' Q. destruct (lt_eq_lt_dec q (length h)) as [[Z|Z]|Z].
      * rewrite (nth_error_app1 h) by auto. assert (q' < length h')%nat.
        { apply nth_error_Some. rewrite (E _ _ Q). apply nth_error_Some. auto. }
        rewrite nth_error_app1 by auto. auto.
      * subst q. rewrite (at_fun _ _ _ Q R). rewrite !nth_error_app2, !Nat.sub_diag by lia. reflexivity.
      * apply at_cases in Q. destruct Q as [(Q & _)|(Q & ->)]; [apply An in Q; lia|].
        rewrite !(proj2 (nth_error_None _ _)); auto; rewrite app_length; cbn; lia.
    + apply heap_ok_app. split; auto. constructor; auto.
  - split; intros q Q.
    + destruct (Nat.lt_ge_cases q (length h)) as [Z|Z]; [rewrite nth_error_app1; auto|].
      exfalso. apply (Q _ (at_new q ltac:(lia))).
    + destruct (Nat.lt_ge_cases q (length h')) as [Z|Z]; [rewrite nth_error_app1; auto|].
      exfalso. apply (Q (n + (q - n'))%nat). replace q with (n' + (n + (q - n') - n))%nat at 2 by lia. apply at_new. lia.
Qed.
Lemma alike_lock {B} h h' r r' (body : list N -> out B * list N) (P : B -> Prop) : alike h h' -> at_ r r' -> body_ok body P ->
  exists o h1 h1', with_lock r body h = (o, h1) /\ with_lock r' body h' = (o, h1') /\
  alike h1 h1' /\ keeps h h1 h' h1' /\ (forall b, o = Ret b -> P b).
Proof.
  intros H R Bo. unfold with_lock. rewrite (al_eq _ _ H _ _ R). destruct (nth_error h r) as [c|] eqn:E.
  - destruct (c_poisoned c).
    + exists (Panic PPoison), h, h'. repeat split; auto using keeps_refl; try apply H. discriminate.
    + destruct (Bo (c_data c) (heap_ok_nth _ _ _ (al_ok _ _ H) E)) as (D & O).
      destruct (body (c_data c)) as [o d']. cbn [fst snd] in *.
      destruct (alike_upd h h' r r' (Cell d' false) H R D) as (X & Y).
      destruct (alike_upd h h' r r' (Cell d' true) H R D) as (X' & Y').
      destruct o; do 3 eexists; (split; [reflexivity|]); (split; [reflexivity|]); (split; [eauto|]); (split; [eauto|]);
        intros ? [= <-]; auto.
  - exists UB, h, h'. repeat split; auto using keeps_refl; try apply H. discriminate.
Qed.
Lemma alike_replace h h' x x' o o' : alike h h' -> at_ x x' -> at_ o o' ->
  exists u h1 h1', hreplace (Hdr Tester x) (Hdr Tester o) h = (u, h1) /\ hreplace (Hdr Tester x') (Hdr Tester o') h' = (u, h1') /\
  alike h1 h1' /\ keeps h h1 h' h1'.
Proof.
  intros H X O. unfold hreplace. cbn [h_ref]. rewrite (al_eq _ _ H _ _ X), (al_eq _ _ H _ _ O).
  destruct (nth_error h x) as [cx|] eqn:Ex; [|eauto 8 using keeps_refl].
  destruct (nth_error h o) as [co|] eqn:Eo; [|eauto 8 using keeps_refl].
  destruct (c_poisoned cx); [eauto 8 using keeps_refl|].
  assert (Z : (x' =? o')%nat = (x =? o)%nat).
  { destruct (Nat.eqb_spec x o) as [->|Ne]; [rewrite (at_fun _ _ _ X O); apply Nat.eqb_refl|].
    apply Nat.eqb_neq. intros ->. apply Ne. eapply at_inj; eauto. }
  rewrite Z. pose proof (heap_ok_nth _ _ _ (al_ok _ _ H) Eo) as Bo.
  destruct (x =? o)%nat; [|destruct (c_poisoned co)]; do 3 eexists; (split; [reflexivity|]); (split; [reflexivity|]);
    apply alike_upd; auto; try constructor; auto.
Qed.

Lemma qrl_solo {T} fu rp (Q : T -> T -> Prop) p : forall p' h h', qrl fu rp at_ Q p p' -> alike h h' ->
  exists s o h1 o' h1', qsolo p h = (s, (o, h1)) /\ qsolo p' h' = (s, (o', h1')) /\ oer Q o o' /\ alike h1 h1' /\ keeps h h1 h' h1'.
Proof.
  assert (L : forall B (o : out B) h1 h1' (f f' : B -> pact T) h h', alike h1 h1' -> keeps h h1 h' h1' ->
    (forall b, o = Ret b -> exists s o h2 o' h2', qsolo (f b) h1 = (s, (o, h2)) /\ qsolo (f' b) h1' = (s, (o', h2')) /\
      oer Q o o' /\ alike h2 h2' /\ keeps h1 h2 h1' h2') ->
    exists s u h2 u' h2', wbind (fun _ : heap => (EmptyString, (o, h1))) (fun b => qsolo (f b)) h = (s, (u, h2)) /\
      wbind (fun _ : heap => (EmptyString, (o, h1'))) (fun b => qsolo (f' b)) h' = (s, (u', h2')) /\ oer Q u u' /\ alike h2 h2' /\ keeps h h2 h' h2').
  { intros B o h1 h1' f f' h h' H1 K F. unfold wbind. destruct o as [b|e| | |].
    2-5: do 5 eexists; (split; [reflexivity|]); (split; [reflexivity|]); cbn [oer]; auto.
    destruct (F b eq_refl) as (s & o & h2 & o' & h2' & E & E' & O & H2 & K2). rewrite E, E'.
    exists s, o, h2, o', h2'. repeat (split; [auto; fail|]). eapply keeps_trans; eauto. }
  induction p as [o|s k IH|d k IH|r i k IH|r i v k IH|r k IH|x o k IH];
    intros [o'|s' k'|d' k'|r' i' k'|r' i' v' k'|r' k'|x' o' k'] h h' G H; cbn [qrl qsolo] in *; try contradiction.
  - exists EmptyString, o, h, o', h'. repeat split; auto using keeps_refl; try apply H.
    destruct o, o'; cbn [orl oer] in *; auto.
  - destruct G as (<- & G). destruct (IH k' h h' G H) as (t & u & h1 & u' & h1' & E & E' & R). unfold wbind, say. rewrite E, E'.
    exists (s ++ t)%string, u, h1, u', h1'. auto.
  - destruct G as (<- & D & G). destruct (alike_alloc h h' d H D) as (R & H1 & K1).
    destruct (IH (length h) (k' (length h')) _ _ (G _ _ R) H1) as (t & u & h1 & u' & h1' & E & E' & O & H2 & K2).
    unfold wbind, run, alloc. rewrite E, E'. exists t, u, h1, u', h1'. repeat (split; [auto; fail|]). eapply keeps_trans; eauto.
  - destruct G as (R & <- & G). destruct (alike_lock h h' r r' _ _ H R (read_ok i)) as (u & h1 & h1' & E & E' & H1 & K1 & _).
    destruct (L _ u h1 h1' k k' h h' H1 K1) as (t & w & h2 & w' & h2' & F & F' & Y); [intros b _; apply IH; auto|].
    exists t, w, h2, w', h2'. split; [|split; [|exact Y]].
    + rewrite <- F. unfold wbind, run. rewrite E. reflexivity.
    + rewrite <- F'. unfold wbind, run. rewrite E'. reflexivity.
  - destruct G as (R & <- & <- & V & G). destruct (alike_lock h h' r r' _ _ H R (set_bit_step_ok i v V)) as (u & h1 & h1' & E & E' & H1 & K1 & _).
    destruct (L _ u h1 h1' (fun _ => k) (fun _ => k') h h' H1 K1) as (t & w & h2 & w' & h2' & F & F' & Y); [intros b _; apply IH; auto|].
    exists t, w, h2, w', h2'. split; [|split; [|exact Y]].
    + rewrite <- F. unfold wbind, run. rewrite E. reflexivity.
    + rewrite <- F'. unfold wbind, run. rewrite E'. reflexivity.
  - destruct G as (R & G). destruct (alike_lock h h' r r' _ _ H R copy_ok) as (u & h1 & h1' & E & E' & H1 & K1 & P1).
    destruct (L _ u h1 h1' k k' h h' H1 K1) as (t & w & h2 & w' & h2' & F & F' & Y); [intros b Eb; apply IH; auto|].
    exists t, w, h2, w', h2'. split; [|split; [|exact Y]].
    + rewrite <- F. unfold wbind, run. rewrite E. reflexivity.
    + rewrite <- F'. unfold wbind, run. rewrite E'. reflexivity.
  - destruct G as (_ & X & O & G). destruct (alike_replace h h' x x' o o' H X O) as (u & h1 & h1' & E & E' & H1 & K1).
    destruct (L _ u h1 h1' (fun _ => k) (fun _ => k') h h' H1 K1) as (t & w & h2 & w' & h2' & F & F' & Y); [intros b _; apply IH; auto|].
    exists t, w, h2, w', h2'. split; [|split; [|exact Y]].
    + rewrite <- F. unfold wbind, run. rewrite E. reflexivity.
    + rewrite <- F'. unfold wbind, run. rewrite E'. reflexivity.
Qed.
Lemma vrel_carry (E : nat -> nat -> Prop) f v v' : (forall r r', E r r' -> r' = f r) -> vrel E v v' -> v' = rename f v.
Proof.
  intros F V.
  assert (Hh : forall x x', hrel E x x' -> x' = rename_hdr f x).
  { intros [T r] [T' r'] (X & Y). cbn in *. unfold rename_hdr. cbn. rewrite (F _ _ Y), X. reflexivity. }
  destruct v, v'; cbn [vrel rename] in *; try contradiction; try congruence; try (destruct V; congruence).
  - f_equal. auto.
  - destruct V as (P & Q & _). destruct p as [l y], p0 as [l' y']. cbn [p_hdrs p_payload] in *. subst y'. unfold rename_pkt. cbn [p_hdrs p_payload]. do 2 f_equal.
    induction P as [|a b l l' X Y IH]; cbn [map]; [reflexivity|]. rewrite <- (Hh _ _ X), <- IH. reflexivity.
Qed.

Lemma local_call m ip6 c k f h' : octets16 ip6 -> client_ok c -> known c k -> typed k -> (forall r, In r (args k) -> at_ r (f r)) ->
  alike (k_heap c) h' ->
  exists s o h1 o' h1', w_call m ip6 k (k_heap c) = (s, (o, h1)) /\ w_call m ip6 (rename_call f k) h' = (s, (o', h1')) /\
  oer (vrel at_) o o' /\ alike h1 h1' /\ keeps (k_heap c) h1 h' h1'.
Proof.
  intros O6 C K T Ar H. destruct (short_dec k) as [S|S].
  - destruct k; try contradiction. cbn [short_from rename_call] in *.
    assert (E : forall h, w_call m ip6 (K_sfrom T0 v) h = (EmptyString, (UB, h))).
    { intros h. cbn [w_call kexec]. unfold run, bind, lift, sfrom, from_raw_parts. rewrite (proj2 (Nat.leb_gt _ _) S). reflexivity. }
    rewrite !E. do 5 eexists. split; [reflexivity|]. split; [reflexivity|]. split; [exact I|]. split; auto using keeps_refl.
  - rewrite <- (qsim_call m ip6 k), <- (qsim_call m ip6 (rename_call f k)).
    eapply qrl_solo; [|exact H]. eapply qrl_rename; eauto.
Qed.
Section Rename.
Variable f : nat -> nat.
Hypothesis F : forall r, A r \/ (n <= r)%nat -> f r = carry n n' g r.
Lemma at_f r r' : at_ r r' -> r' = f r.
Proof. intros (R & ->). symmetry. auto. Qed.
Lemma oer_rename o o' : oer (vrel at_) o o' -> o' = rename_out f o.
Proof.
  destruct o, o'; cbn [oer rename_out]; intros H; try contradiction; try congruence.
  f_equal. eapply vrel_carry; [|exact H]. exact at_f.
Qed.

Lemma at_learn c h o o' r : oer (vrel at_) o o' -> shared (learn c o h) r -> shared c r \/ A r \/ (n <= r)%nat.
Proof.
  intros O S. destruct o as [v|e| | |], o' as [v'|e'| | |]; cbn [oer] in O; try contradiction; try (left; exact S).
  destruct v, v'; cbn [learn vrel] in *; try contradiction; try (left; exact S).
  - destruct S as [(y & [<-|X] & <-)|X]; [right; apply O|left; left; eauto|left; right; exact X].
  - destruct S as [X|(q & y & [<-|Q] & X & <-)]; [left; left; exact X| |left; right; exists q, y; auto].
    right. destruct O as (F0 & _). clear - F0 X. induction F0 as [|a b l l' D F0 IH]; [destruct X|].
    destruct X as [->|X]; [apply D|auto].
Qed.
Lemma learn_call m ip6 c k o h : octets16 ip6 -> client_ok c -> known c k -> typed k ->
  snd (w_call m ip6 k (k_heap c)) = (o, h) -> comes_back o -> client_ok (learn c o h).
Proof.
  intros O6 C K T E B. rewrite C68_same in E. destruct (kexec m ip6 k (k_heap c)) as [o0 h0] eqn:E0.
  assert (X : h0 = h /\ learn c o0 h0 = learn c o h /\ comes_back o0).
  { destruct o0 as [[]|e| | |]; injection E as <- <-; (split; [reflexivity|]); (split; [reflexivity|]); try exact B; left; eauto. }
  destruct X as (-> & <- & B0). eapply C66_invariant; eauto.
Qed.
Lemma local_prog m ip6 l : octets16 ip6 -> forall c h', client_ok c -> lawful m ip6 c l -> (forall r, shared c r -> A r \/ (n <= r)%nat) ->
  alike (k_heap c) h' ->
  fst (w_prog m ip6 (map (rename_call f) l) h') = fst (w_prog m ip6 l (k_heap c)) /\
  w_outs m ip6 (map (rename_call f) l) h' = map (rename_out f) (w_outs m ip6 l (k_heap c)) /\
  alike (snd (w_prog m ip6 l (k_heap c))) (snd (w_prog m ip6 (map (rename_call f) l) h')) /\
  keeps (k_heap c) (snd (w_prog m ip6 l (k_heap c))) h' (snd (w_prog m ip6 (map (rename_call f) l) h')).
Proof.
  intros O6. induction l as [|k t IH]; intros c h' C L S H.
  { cbn [w_prog w_outs map fst snd]. auto using keeps_refl. }
  destruct L as (K & T & L).
  destruct (local_call m ip6 c k f h' O6 C K T) as (s & o & h1 & o' & h1' & E & E' & O & H1 & K1); auto.
  { intros r R. assert (Z : A r \/ (n <= r)%nat) by (apply S; eapply known_shared; eauto). split; auto. }
  rewrite E in L. cbn [snd] in L. destruct L as (B & L). cbn [map w_prog w_outs]. rewrite E, E'. cbn [snd].
  pose proof (oer_rename _ _ O) as Eo. subst o'.
  assert (Z : fst (w_prog m ip6 (map (rename_call f) t) h1') = fst (w_prog m ip6 t h1) /\
    w_outs m ip6 (map (rename_call f) t) h1' = map (rename_out f) (w_outs m ip6 t h1) /\
    alike (snd (w_prog m ip6 t h1)) (snd (w_prog m ip6 (map (rename_call f) t) h1')) /\
    keeps h1 (snd (w_prog m ip6 t h1)) h1' (snd (w_prog m ip6 (map (rename_call f) t) h1'))).
  { destruct B as [->|B]; [cbn [w_prog w_outs map fst snd]; auto using keeps_refl|].
    assert (Hh : k_heap (learn c o h1) = h1) by (destruct o as [[]| | | |]; reflexivity).
    pose proof (IH (learn c o h1) h1') as I. rewrite Hh in I. apply I; auto.
    - eapply learn_call; eauto. rewrite E. reflexivity.
    - intros r R. destruct (at_learn _ _ _ _ _ O R); auto. }
  destruct Z as (Z1 & Z2 & Z3 & Z4).
  destruct (w_prog m ip6 t h1) as [s1 h2], (w_prog m ip6 (map (rename_call f) t) h1') as [s1' h2']. cbn [fst snd] in *.
  split; [congruence|]. split; [cbn [map]; congruence|]. split; auto. eapply keeps_trans; eauto.
Qed.
End Rename.
End Local.
