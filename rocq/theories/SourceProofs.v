(** SourceProofs.v -- lemmas for C92. *)

From Coq Require Import Lia.
From Verif Require Import Base Bits Types Layout Heap Packet Text Build Utils Slow Fast Show Ops Client Threads Spec ClientSpec
  BitsProofs HeapProofs PropBuild ClientProofs PropClient ThreadsSim ThreadsSpec ThreadsRel ThreadsProofs SourceSpec.
Open Scope N_scope.

(** ** What a program returns, if what it reads is in [S] *)

Section Reads.
Variable S : nat -> nat -> bool -> Prop.

Fixpoint rok {A} (Q : A -> Prop) (p : act A) : Prop :=
  match p with
  | ADone o => match o with Ret a => Q a | _ => True end
  | AAlloc _ k => forall r, rok Q (k r)
  | ARead r i k => forall b, (forall j, (j < 8)%nat -> S r (8 * i + j) (N.testbit b (N.of_nat (7 - j)))) -> rok Q (k b)
  | AWrite _ _ _ k => rok Q k
  | ACopy r k => forall d, (forall j, (j < 8 * length d)%nat -> S r j (bit d j)) -> rok Q (k d)
  | ARepl _ _ k => rok Q k
  end.
Lemma rok_bind {A B} (P : A -> Prop) (Q : B -> Prop) p f : rok P p -> (forall a, P a -> rok Q (f a)) -> rok Q (abind p f).
Proof.
  intros Hp Hf. induction p as [o|d k IH|r i k IH|r i v k IH|r k IH|x o k IH]; cbn [abind rok] in *; auto.
  destruct o; cbn [rok]; auto.
Qed.
Lemma rok_lift {A} (Q : A -> Prop) o : (forall a, o = Ret a -> Q a) -> rok Q (alift o).
Proof. intros H. cbn [alift rok]. destruct o; auto. Qed.
Lemma rok_imp {A} (P Q : A -> Prop) p : rok P p -> (forall a, P a -> Q a) -> rok Q p.
Proof. intros H K. induction p as [o|d k IH|r i k IH|r i v k IH|r k IH|x o k IH]; cbn [rok] in *; auto. destruct o; auto. Qed.

Lemma rok_get_loop r n : forall i value, rok (fun v => forall k, (k < 64)%nat ->
  ((k < n)%nat -> S r (i + n - 1 - k) (N.testbit v (N.of_nat k))) /\
  ((n <= k)%nat -> N.testbit v (N.of_nat k) = N.testbit value (N.of_nat (k - n)))) (a_hget_loop r i n value).
Proof.
  induction n as [|n IH]; intros i value; cbn [a_hget_loop].
  - cbn [aret rok]. intros k L. split; [lia|]. intros _. f_equal. lia.
  - cbv zeta. cbn [rok]. intros b Hb. eapply rok_imp; [apply IH|]. cbn beta. intros v H k L. rewrite land_1, lor_bit_shl in H.
    set (bb := N.testbit b (N.of_nat (8 - i mod 8 - 1))) in *.
    assert (T : forall j, (j < 64)%nat -> N.testbit ((2 * value + b2n bb) mod 2 ^ 64) (N.of_nat j) =
      match j with O => bb | Datatypes.S j' => N.testbit value (N.of_nat j') end).
    { intros j Lj. rewrite N.mod_pow2_bits_low by lia. replace (2 * value + b2n bb) with (2 * value + N.b2n bb) by (destruct bb; reflexivity).
      destruct j as [|j]; [apply N.testbit_0_r|]. rewrite Nat2N.inj_succ. apply N.testbit_succ_r. }
    destruct (H k L) as (H1 & H2). split.
    + intros K. destruct (Nat.lt_ge_cases k n) as [C|C].
      * replace (i + Datatypes.S n - 1 - k)%nat with (Datatypes.S i + n - 1 - k)%nat by lia. auto.
      * assert (k = n) by lia. subst k. rewrite H2 by lia. rewrite Nat.sub_diag, T by lia.
        replace (i + Datatypes.S n - 1 - n)%nat with (8 * (i / 8) + i mod 8)%nat by (pose proof (Nat.div_mod i 8 ltac:(lia)); lia).
        unfold bb. replace (8 - i mod 8 - 1)%nat with (7 - i mod 8)%nat by lia. apply Hb. apply Nat.mod_upper_bound. lia.
    + intros K. rewrite H2 by lia. rewrite T by lia. destruct (k - n)%nat as [|j] eqn:E; [lia|]. f_equal. f_equal. lia.
Qed.
Lemma finish_small m msb lsb v n : (lsb <= msb < lsb + 64)%nat -> finish m msb lsb v = Ret n ->
  n < 2 ^ N.of_nat (msb - lsb + 1) /\ forall k, (k <= msb - lsb)%nat -> N.testbit n (N.of_nat k) = N.testbit v (N.of_nat k).
Proof.
  intros L. unfold finish. destruct (Nat.ltb_spec msb lsb); [lia|]. destruct (Nat.leb_spec (msb - lsb + 1) 64); [|lia].
  set (w := (msb - lsb + 1)%nat) in *. intros E.
  assert (X : n = N.shiftr (shl64 v (N.of_nat (64 - w))) (N.of_nat (64 - w))) by congruence. clear E. subst n. unfold shl64, u64. split.
  - rewrite N.shiftr_div_pow2. apply N.div_lt_upper_bound; [apply N.pow_nonzero; discriminate|].
    rewrite <- N.pow_add_r. eapply N.lt_le_trans; [apply N.mod_lt; discriminate|]. apply N.pow_le_mono_r; [discriminate|]. lia.
  - intros k K. rewrite N.shiftr_spec by lia. rewrite N.mod_pow2_bits_low by lia. rewrite N.shiftl_spec_high by lia. f_equal. lia.
Qed.
Lemma rok_bit_range m x msb lsb : (lsb <= msb < lsb + 64)%nat -> rok (fun n => n < 2 ^ N.of_nat (msb - lsb + 1) /\
  forall k, (k <= msb - lsb)%nat -> S (h_ref x) (msb - k) (N.testbit n (N.of_nat k))) (a_hbit_range m x msb lsb).
Proof.
  intros L. unfold a_hbit_range, range_len. eapply rok_bind; [apply rok_get_loop|]. cbn beta. intros v H. apply rok_lift. intros n E.
  destruct (finish_small _ _ _ _ _ L E) as (Hn & T). split; auto. intros k K. rewrite T by auto. destruct (H k ltac:(lia)) as (H1 & _).
  replace (msb - k)%nat with (lsb + (Datatypes.S msb - lsb) - 1 - k)%nat by lia. apply H1. lia.
Qed.
Lemma bit_cons a l j : bit (a :: l) j = if (j <? 8)%nat then N.testbit a (N.of_nat (7 - j)) else bit l (j - 8).
Proof.
  unfold bit. destruct (Nat.ltb_spec j 8) as [L|L].
  - rewrite Nat.div_small, Nat.mod_small by auto. reflexivity.
  - replace j with (j - 8 + 1 * 8)%nat at 1 2 by lia. rewrite Nat.div_add, Nat.mod_add, Nat.add_1_r by lia. reflexivity.
Qed.
Lemma rok_bytes_loop m x n : forall i, rok (fun l => length l = n /\ forall j, (j < 8 * n)%nat -> S (h_ref x) (i + j) (bit l j)) (a_hbytes_loop m x i n).
Proof.
  induction n as [|n IH]; intros i; cbn [a_hbytes_loop]; [cbn; split; [reflexivity|lia]|].
  eapply rok_bind; [apply rok_bit_range; lia|]. cbn beta. intros v (Hv & H). eapply rok_bind; [apply IH|]. cbn beta. intros t (Ht & H'). cbn [aret rok].
  split; [cbn; lia|]. intros j L. rewrite bit_cons. destruct (Nat.ltb_spec j 8) as [B|B].
  - replace (u8 v) with v.
    + specialize (H (7 - j)%nat ltac:(lia)). replace (i + 7 - (7 - j))%nat with (i + j)%nat in H by lia. exact H.
    + unfold u8. symmetry. apply N.mod_small. replace (i + 7 - i + 1)%nat with 8%nat in Hv by lia. exact Hv.
  - specialize (H' (j - 8)%nat ltac:(lia)). replace (i + 8 + (j - 8))%nat with (i + j)%nat in H' by lia. exact H'.
Qed.
Lemma guard_whole m msb lsb : (lsb <= msb)%nat -> bytes_guard m msb lsb = Ret tt -> ((msb - lsb + 1) mod 8 = 0)%nat.
Proof.
  intros L. unfold bytes_guard. destruct (Nat.ltb_spec msb lsb); [lia|]. destruct (whole_usize msb lsb) eqn:W.
  - intros _. apply whole_spec in W. destruct W as (W & ->). rewrite Nat.sub_0_r. apply Nat2N.inj.
    rewrite Nat2N.inj_mod, Nat2N.inj_add, W. reflexivity.
  - destruct (Nat.eqb_spec ((msb - lsb + 1) mod 8) 0); [auto|discriminate].
Qed.
Lemma rok_bytes m x msb lsb : (lsb <= msb)%nat -> rok (fun l => (8 * length l = msb - lsb + 1)%nat /\
  forall j, (j < 8 * length l)%nat -> S (h_ref x) (lsb + j) (bit l j)) (a_hbytes m x msb lsb).
Proof.
  intros L. unfold a_hbytes. eapply (rok_bind (fun _ => bytes_guard m msb lsb = Ret tt)).
  - apply rok_lift. intros [] E. exact E.
  - intros _ G. apply guard_whole in G; auto. eapply rok_imp; [apply rok_bytes_loop|]. cbn beta. intros l (Hl & H). rewrite Hl. split; auto.
    unfold step8_len, range_len. replace (Datatypes.S msb - lsb)%nat with (msb - lsb + 1)%nat by lia.
    apply Nat.mod_divides in G; [|discriminate]. destruct G as (c & ->).
    replace (8 * c + 7)%nat with (7 + c * 8)%nat by lia. rewrite Nat.div_add by discriminate. change (7 / 8)%nat with O. lia.
Qed.
Lemma rok_concat hs : rok (fun d => exists ds, d = concat ds /\ Forall2 (fun x e => forall j, (j < 8 * length e)%nat -> S (h_ref x) j (bit e j)) hs ds) (a_concat_vecs hs).
Proof.
  induction hs as [|x hs IH]; cbn [a_concat_vecs]; [exists []; auto|].
  eapply (rok_bind (fun e => forall j, (j < 8 * length e)%nat -> S (h_ref x) j (bit e j))); [cbn; auto|]. cbn beta. intros e He.
  eapply rok_bind; [apply IH|]. cbn beta. intros d (ds & -> & F). cbn [aret rok]. exists (e :: ds). auto.
Qed.

(** One step. *)
Definition rts (Q : kres -> Prop) (t : tstate) : Prop := match t with TRun p | TWait _ _ p => rok Q p end.
Lemma rts_after {B} Q (o : out B * heap) (k : B -> tstate) h new t : after o k = (h, new, t) ->
  (forall b, fst o = Ret b -> rts Q (k b)) -> rts Q t.
Proof. destruct o as [[b|e| | |] h0]; cbn [after fst]; intros [= <- <- <-] H; cbn [rts rok]; auto. Qed.
Lemma lock_ret {B} r (body : list N -> out B * list N) h b : fst (with_lock r body h) = Ret b ->
  exists c, nth_error h r = Some c /\ fst (body (c_data c)) = Ret b.
Proof.
  unfold with_lock. destruct (nth_error h r) as [c|]; [|discriminate]. destruct (c_poisoned c); [discriminate|]. intros E. exists c. split; auto.
  destruct (body (c_data c)) as [[a|e| | |] d]; cbn in *; congruence.
Qed.
Lemma rts_step Q ts h t h' new t' : (forall r j b, stands h r j b -> S r j b) -> tstep ts h t = Some (h', new, t') -> rts Q t -> rts Q t'.
Proof.
  intros St E R. destruct t as [p|x o p].
  - destruct p as [o|d k|r i k|r i v k|r k|x o k]; cbn [tstep rts rok] in *; try discriminate.
    + injection E as <- <- <-. apply R.
    + destruct (held ts r); [discriminate|]. injection E as E. eapply rts_after; [exact E|]. intros b Eb.
      destruct (lock_ret _ _ _ _ Eb) as (c & Ec & Ib). cbn [fst] in Ib. apply R. intros j L. apply St.
      unfold index in Ib. destruct (nth_error (c_data c) i) as [b'|] eqn:Ei; [|discriminate]. injection Ib as ->.
      exists c. split; [exact Ec|]. assert (i < length (c_data c))%nat by (apply nth_error_Some; congruence). split; [lia|].
      unfold bit. replace ((8 * i + j) / 8)%nat with i by (rewrite Nat.mul_comm, Nat.div_add_l, Nat.div_small by lia; lia).
      replace ((8 * i + j) mod 8)%nat with j by (rewrite Nat.mul_comm, Nat.add_comm, Nat.mod_add, Nat.mod_small by lia; lia).
      rewrite (nth_error_nth _ _ _ Ei). reflexivity.
    + destruct (held ts r); [discriminate|]. injection E as E. eapply rts_after; [exact E|]. auto.
    + destruct (held ts r); [discriminate|]. injection E as E. eapply rts_after; [exact E|]. intros d Ed.
      destruct (lock_ret _ _ _ _ Ed) as (c & Ec & Id). cbn [fst] in Id. injection Id as <-. apply R. intros j L. apply St. exists c. auto.
    + destruct (held ts x); [discriminate|]. injection E as E. eapply rts_after; [exact E|]. auto.
  - cbn [tstep rts] in *. destruct (held ts o); [discriminate|].
    destruct (nth_error h x); [destruct (nth_error h o) as [co|]; [destruct (c_poisoned co)|]|]; injection E as <- <- <-; cbn [rts rok]; auto.
Qed.
End Reads.

(** ** Executions *)

Section Runs.
Variables (m : mode) (ip6 : string -> option (list N)).

Lemma moved_step w v w' : moved m ip6 w v w' -> wstep m ip6 w w'.
Proof.
  destruct v as [|i k|i|i]; cbn [moved].
  - intros ->. constructor.
  - intros (K & T & E). eapply W_call; eauto.
  - intros E. eapply W_do; eauto.
  - intros E. eapply W_back; eauto.
Qed.
Lemma exec_reach w l w' : wreach m ip6 w -> exec m ip6 w l w' -> wreach m ip6 w'.
Proof. intros R. induction 1; auto. eapply WR_step; eauto. eapply moved_step; eauto. Qed.

Lemma back_inv w i w' : wback w i = Some w' -> exists k own o, busy w i k own (TRun (ADone o)) /\ snd w' = upd (snd w) i Idle /\ w_heap w' = w_heap w.
Proof.
  destruct w as [c ts]. cbn [wback]. unfold busy. cbn [snd]. intros E.
  destruct (nth_error ts i) as [[|k own [[[v|e| | |]| | | | |]|]]|]; try discriminate; injection E as <-; do 3 eexists; (split; [reflexivity|]); split; auto.
  unfold w_heap. cbn [fst]. destruct v; reflexivity.
Qed.
Lemma call_inv w i k w' : wcall m ip6 w i k = Some w' ->
  nth_error (snd w) i = Some Idle /\ w' = (fst w, upd (snd w) i (Busy k [] (TRun (a_kexec m ip6 k)))).
Proof. destruct w as [c ts]. cbn [wcall fst snd]. destruct (nth_error ts i) as [[|? ? ?]|]; try discriminate. intros [= <-]. auto. Qed.

Lemma reads_run S Q i k w l w' : (exists own t, busy w i k own t /\ rts S Q t) -> exec m ip6 w l w' ->
  ~ In (M_back i) (map fst l) -> (forall v, In v (w :: map snd l) -> forall r j b, stands (w_heap v) r j b -> S r j b) ->
  exists own t, busy w' i k own t /\ rts S Q t.
Proof.
  intros B0 X. induction X as [|l w1 v w2 X IH Mv]; intros NB St; auto.
  rewrite map_app in NB, St. cbn [map fst snd] in NB, St. destruct IH as (own & t & B & R).
  { intros J. apply NB, in_or_app. auto. }
  { intros u J. apply St. cbn in J |- *. rewrite in_app_iff. tauto. }
  assert (St1 : forall r j b, stands (w_heap w1) r j b -> S r j b).
  { apply St. clear - X. destruct X as [|l w0 v0 w1 _ _]; cbn; auto. right. rewrite map_app, !in_app_iff. cbn. auto. }
  unfold busy in *. destruct v as [|j k'|j|j]; cbn [moved] in Mv.
  - subst w2. destruct w1 as [c ts]. cbn [wspawn snd] in *. exists own, t. split; auto. rewrite nth_error_app1; auto. apply nth_error_Some. congruence.
  - destruct Mv as (_ & _ & E). destruct (call_inv _ _ _ _ E) as (Ij & ->). cbn [snd]. exists own, t. split; auto.
    rewrite upd_other; auto. intros ->. congruence.
  - destruct (wdo_inv _ _ _ Mv) as (k1 & own1 & t1 & h & new & t' & B1 & St' & ->). unfold busy in B1. cbn [snd].
    destruct (Nat.eq_dec i j) as [->|Ne].
    + rewrite B in B1. injection B1 as <- <- <-. exists (own ++ new), t'. split; [eapply nth_upd_at; eauto|]. eapply rts_step; eauto.
    + exists own, t. split; auto. rewrite upd_other; auto.
  - destruct (back_inv _ _ _ Mv) as (k1 & own1 & o & B1 & -> & _). exists own, t. split; auto. rewrite upd_other; auto.
    intros ->. apply NB, in_or_app. right. left. reflexivity.
Qed.
Lemma exec_cons w v w1 l w' : moved m ip6 w v w1 -> exec m ip6 w1 l w' -> exec m ip6 w ((v, w1) :: l) w'.
Proof.
  intros Mv X. induction X as [|l w2 u w3 X IH Mu]; [apply (E_more _ _ _ [] w v w1); [constructor|auto]|].
  apply (E_more _ _ _ ((v, w1) :: l) w2 u w3); auto.
Qed.
Lemma exec_cons_inv w v w1 l w' : exec m ip6 w ((v, w1) :: l) w' -> moved m ip6 w v w1 /\ exec m ip6 w1 l w'.
Proof.
  intros X. remember ((v, w1) :: l) as l0 eqn:E. revert l E. induction X as [|l0 w2 u w3 X IH Mu]; intros l E; [discriminate|].
  destruct l0 as [|p l0]; cbn [app] in E.
  - injection E as -> <- <-. inversion X; subst; [split; [auto|constructor]|]. destruct l; discriminate.
  - injection E as -> <-. destruct (IH l0 eq_refl) as (Mv & Y). split; auto. econstructor; eauto.
Qed.
Lemma exec_app w l w1 l' w2 : exec m ip6 w l w1 -> exec m ip6 w1 l' w2 -> exec m ip6 w (l ++ l') w2.
Proof. intros X Y. induction Y; [rewrite app_nil_r; auto|]. rewrite app_assoc. econstructor; eauto. Qed.
Lemma exec_split w l w' u : exec m ip6 w l w' -> In u (map snd l) -> exists l1 l2, l = l1 ++ l2 /\ exec m ip6 w l1 u.
Proof.
  intros X. induction X as [|l w1 v w2 X IH Mv]; [intros []|]. rewrite map_app, in_app_iff. intros [J|[<-|[]]].
  - destruct (IH J) as (l1 & l2 & -> & Y). exists l1, (l2 ++ [(v, w2)]). rewrite app_assoc. auto.
  - exists (l ++ [(v, w2)]), []. rewrite app_nil_r. cbn. split; auto. econstructor; eauto.
Qed.

Lemma call_reads S Q i k w l w' v : call_in m ip6 i k w l w' -> got w' i k v ->
  rok S Q (a_kexec m ip6 k) -> (forall u, In u (map snd l) -> forall r j b, stands (w_heap u) r j b -> S r j b) -> Q v.
Proof.
  intros (X & w1 & l1 & -> & NB) (own & B) R St. destruct (exec_cons_inv _ _ _ _ _ X) as (Mv & X1).
  destruct (reads_run S Q i k w1 l1 w') as (own' & t & B' & R'); auto.
  - destruct Mv as (_ & _ & E). destruct (call_inv _ _ _ _ E) as (Ii & ->). exists [], (TRun (a_kexec m ip6 k)).
    split; [|exact R]. unfold busy. cbn [snd]. eapply nth_upd_at; eauto.
  - unfold busy in *. rewrite B in B'. injection B' as <- <-. exact R'.
Qed.
Lemma rok_made S k : rok S (made_of S k) (a_kexec m ip6 k).
Proof.
  assert (True_ok : forall A (p : act A), rok S (fun _ => True) p).
  { intros A p. induction p as [o|d f IH|r i f IH|r i x f IH|r f IH|x o f IH]; cbn [rok]; auto. destruct o; auto. }
  destruct k; try (cbn [made_of]; apply True_ok).
  - cbn [a_kexec]. destruct o; try (cbn [made_of]; apply True_ok); cbn [made_of a_hexec].
    + eapply rok_bind; [|intros v Hv; exact Hv]. destruct (Nat.le_gt_cases (f_start f) (f_end f)) as [L1|L1];
        [destruct (Nat.lt_ge_cases (f_end f) (f_start f + 64)) as [L2|L2]|]; [|eapply rok_imp; [apply True_ok|intros ? _; cbn [aret rok made_of]; intros; exfalso; lia]..].
      eapply rok_bind; [apply rok_bit_range; split; auto|]. intros n Hn. cbn [aret rok made_of]. intros _. eauto.
    + eapply rok_bind; [|intros v Hv; exact Hv]. destruct (Nat.le_gt_cases lsb msb) as [L1|L1];
        [destruct (Nat.lt_ge_cases msb (lsb + 64)) as [L2|L2]|]; [|eapply rok_imp; [apply True_ok|intros ? _; cbn [aret rok made_of]; intros; exfalso; lia]..].
      eapply rok_bind; [apply rok_bit_range; split; auto|]. intros n Hn. cbn [aret rok made_of]. intros _. eauto.
    + eapply rok_bind; [|intros v Hv; exact Hv]. destruct (Nat.le_gt_cases lsb msb) as [L1|L1]; [|eapply rok_imp; [apply True_ok|intros ? _; cbn [aret rok made_of]; intros; exfalso; lia]].
      eapply rok_bind; [apply rok_bytes; auto|]. intros d (L & H). cbn [aret rok made_of]. intros _. eauto.
    + eapply rok_bind; [|intros v Hv; exact Hv]. cbn. intros d H. eauto.
  - cbn [a_kexec made_of]. unfold a_to_vec. eapply (rok_bind _ (fun d => exists ds, d = concat ds ++ p_payload p /\ Forall2 (fun x e => octets_of S (h_ref x) 0 e) (p_hdrs p) ds)).
    + eapply rok_bind; [apply rok_concat|]. cbn beta. intros d (ds & -> & F). cbn [aret rok made_of]. exists ds. auto.
    + intros d (ds & -> & F). cbn [aret rok made_of]. eauto.
Qed.
End Runs.

(** ** What a program writes, if the buffers it makes are in [N] *)

Section Writes.
Variable S : nat -> nat -> bool -> Prop.
Variable N0 : nat -> Prop.
Hypothesis new_any : forall r j b, N0 r -> S r j b.

Fixpoint wok {A} (Q : A -> Prop) (p : act A) : Prop :=
  match p with
  | ADone o => match o with Ret a => Q a | _ => True end
  | AAlloc _ k => forall r, N0 r -> wok Q (k r)
  | ARead _ _ k => forall b, wok Q (k b)
  | AWrite r i v k => (exists b, v = b2n b /\ S r i b) /\ wok Q k
  | ACopy _ k => forall d, bytes_ok d -> wok Q (k d)
  | ARepl x o k => (forall j b, S o j b -> S x j b) /\ wok Q k
  end.
(** No writing at all. *)
Fixpoint quiet {A} (p : act A) : Prop :=
  match p with
  | ADone _ => True
  | AAlloc _ k => forall r, quiet (k r)
  | ARead _ _ k => forall b, quiet (k b)
  | AWrite _ _ _ _ | ARepl _ _ _ => False
  | ACopy _ k => forall d, quiet (k d)
  end.
Lemma wok_bind {A B} (P : A -> Prop) (Q : B -> Prop) p f : wok P p -> (forall a, P a -> wok Q (f a)) -> wok Q (abind p f).
Proof.
  intros Hp Hf. induction p as [o|d k IH|r i k IH|r i v k IH|r k IH|x o k IH]; cbn [abind wok] in *; auto.
  - destruct o; cbn [wok]; auto.
  - destruct Hp. auto.
  - destruct Hp. auto.
Qed.
Lemma wok_imp {A} (P Q : A -> Prop) p : wok P p -> (forall a, P a -> Q a) -> wok Q p.
Proof.
  intros H K. induction p as [o|d k IH|r i k IH|r i v k IH|r k IH|x o k IH]; cbn [wok] in *; auto.
  - destruct o; auto.
  - destruct H; auto.
  - destruct H; auto.
Qed.
Lemma quiet_wok {A} (p : act A) : quiet p -> wok (fun _ => True) p.
Proof. intros H. induction p as [o|d k IH|r i k IH|r i v k IH|r k IH|x o k IH]; cbn [wok quiet] in *; auto; try contradiction. destruct o; auto. Qed.
Lemma quiet_bind {A B} (p : act A) (f : A -> act B) : quiet p -> (forall a, quiet (f a)) -> quiet (abind p f).
Proof.
  intros Hp Hf. induction p as [o|d k IH|r i k IH|r i v k IH|r k IH|x o k IH]; cbn [abind quiet] in *; auto; try contradiction.
  destruct o; cbn [quiet]; auto.
Qed.
End Writes.

Ltac head t := match t with ?f _ => head f | _ => t end.
Ltac qu1 := cbv beta zeta; match goal with
  | |- quiet (abind _ _) => apply quiet_bind; [|intros ?]
  | |- quiet (alift _) => exact I
  | |- quiet (ADone _) => exact I
  | |- quiet (aret _) => exact I
  | |- quiet (afail _) => exact I
  | |- quiet (AAlloc _ _) => cbn [quiet]; intros ?
  | |- quiet (ARead _ _ _) => cbn [quiet]; intros ?
  | |- quiet (ACopy _ _) => cbn [quiet]; intros ?
  | H : _ |- quiet _ => solve [apply H]
  | |- quiet _ => solve [auto 2 with qu]
  | |- quiet (match ?x with _ => _ end) => destruct x
  | |- quiet (let (_, _) := ?x in _) => destruct x
  | |- quiet ?t => let h := head t in unfold h
  end.
Ltac qu := repeat qu1.
Lemma qu_get_loop n : forall r i v, quiet (a_hget_loop r i n v).
Proof. induction n as [|n IH]; intros; cbn [a_hget_loop]; qu. Qed.
#[export] Hint Resolve qu_get_loop : qu.
Lemma qu_bit_range m x msb lsb : quiet (a_hbit_range m x msb lsb). Proof. qu. Qed.
Lemma qu_from T d : quiet (a_hfrom T d). Proof. qu. Qed.
#[export] Hint Resolve qu_bit_range qu_from : qu.
Lemma qu_bytes_loop m n : forall x i, quiet (a_hbytes_loop m x i n).
Proof. induction n as [|n IH]; intros; cbn [a_hbytes_loop]; qu. Qed.
Lemma qu_concat l : quiet (a_concat_vecs l).
Proof. induction l as [|x l IH]; cbn [a_concat_vecs]; qu. Qed.
Lemma qu_clone_hdrs l : quiet (a_clone_hdrs l).
Proof. induction l as [|x l IH]; cbn [a_clone_hdrs]; qu. Qed.
Lemma qu_show_octets m n : forall x i, quiet (a_hshow_octets m x i n).
Proof. induction n as [|n IH]; intros; cbn [a_hshow_octets]; qu. Qed.
#[export] Hint Resolve qu_bytes_loop qu_concat qu_clone_hdrs qu_show_octets : qu.
Lemma qu_show_fields m l : forall x, quiet (a_hshow_fields m x l).
Proof. induction l as [|f l IH]; intros; cbn [a_hshow_fields]; qu. Qed.
#[export] Hint Resolve qu_show_fields : qu.
Lemma qu_show_hdrs m l : quiet (a_show_hdrs m l).
Proof. induction l as [|x l IH]; cbn [a_show_hdrs]; qu. Qed.
Lemma qu_slow_fuel m n : forall f d, quiet (a_slow_fuel m n f d).
Proof. induction n as [|n IH]; intros; cbn [a_slow_fuel]; [qu|]. destruct f; cbn [a_slow_body]; qu. Qed.
#[export] Hint Resolve qu_show_hdrs qu_slow_fuel : qu.
Lemma qu_to_vec p : quiet (a_to_vec p). Proof. qu. Qed.
Lemma qu_opt_to_vec o : quiet (a_opt_to_vec o). Proof. qu. Qed.
Lemma qu_pkt_add p q : quiet (a_pkt_add p q). Proof. qu. Qed.
#[export] Hint Resolve qu_to_vec qu_opt_to_vec qu_pkt_add : qu.

(** ** The calls *)

Section Calls.
Variable S : nat -> nat -> bool -> Prop.
Variable N0 : nat -> Prop.
Hypothesis new_any : forall r j b, N0 r -> S r j b.
Notation wk := (wok S N0).

Lemma wk_quiet {A} (p : act A) : quiet p -> wk (fun _ => True) p.
Proof. apply quiet_wok. Qed.
Lemma wk_set_loop r n : forall lsb v, (forall j, (j < n)%nat -> S r (lsb + j) (N.testbit v (N.of_nat (n - 1 - j)))) ->
  wk (fun _ => True) (a_hset_loop r lsb n v).
Proof.
  induction n as [|n IH]; intros lsb v H; cbn [a_hset_loop]; [exact I|]. cbn [wok]. split.
  - exists (N.testbit v 0). split; [apply u8_land_1|]. specialize (H n ltac:(lia)). replace (Datatypes.S n - 1 - n)%nat with O in H by lia. exact H.
  - apply IH. intros j L. rewrite N.shiftr_spec by lia. specialize (H j ltac:(lia)).
    replace (N.of_nat (n - 1 - j) + 1) with (N.of_nat (Datatypes.S n - 1 - j)) by lia. exact H.
Qed.
Lemma wk_set_bit_range x msb lsb v : (forall j, (lsb <= j <= msb)%nat -> S (h_ref x) j (N.testbit v (N.of_nat (msb - j)))) ->
  wk (fun _ => True) (a_hset_bit_range x msb lsb v).
Proof.
  intros H. apply wk_set_loop. unfold range_len. intros j L. specialize (H (lsb + j)%nat ltac:(lia)).
  replace (Datatypes.S msb - lsb - 1 - j)%nat with (msb - (lsb + j))%nat by lia. exact H.
Qed.
Lemma wk_set_bytes_loop x n v : forall i k, (forall j, (j < 8 * n)%nat -> S (h_ref x) (i + j) (bit v (8 * k + j))) ->
  wk (fun _ => True) (a_hset_bytes_loop x i n v k).
Proof.
  induction n as [|n IH]; intros i k H; cbn [a_hset_bytes_loop]; [exact I|].
  eapply (wok_bind _ _ (fun b => nth k v 0 = b)).
  { cbn [alift wok]. unfold index. destruct (nth_error v k) eqn:E; [|exact I]. apply nth_error_nth. exact E. }
  intros b Eb. eapply wok_bind; [apply wk_set_bit_range|intros _ _; apply IH].
  - intros j L. specialize (H (j - i)%nat ltac:(lia)). replace (i + (j - i))%nat with j in H by lia.
    unfold bit in H. replace ((8 * k + (j - i)) / 8)%nat with k in H by (rewrite Nat.mul_comm, Nat.div_add_l, Nat.div_small by lia; lia).
    replace ((8 * k + (j - i)) mod 8)%nat with (j - i)%nat in H by (rewrite Nat.mul_comm, Nat.add_comm, Nat.mod_add, Nat.mod_small by lia; lia).
    rewrite Eb in H. replace (i + 7 - j)%nat with (7 - (j - i))%nat by lia. exact H.
  - intros j L. specialize (H (8 + j)%nat ltac:(lia)). replace (i + (8 + j))%nat with (i + 8 + j)%nat in H by lia.
    replace (8 * k + (8 + j))%nat with (8 * Datatypes.S k + j)%nat in H by lia. exact H.
Qed.
Lemma wk_set_bytes m x msb lsb v : (forall j, (lsb <= j <= msb)%nat -> S (h_ref x) j (bit v (j - lsb))) ->
  wk (fun _ => True) (a_hset_bytes m x msb lsb v).
Proof.
  intros H. unfold a_hset_bytes. eapply (wok_bind _ _ (fun _ => set_bytes_guard m (length v) msb lsb = Ret tt)).
  { cbn [alift wok]. destruct (set_bytes_guard m (length v) msb lsb) as [[]| | | |]; auto. }
  intros _ G. destruct (Nat.lt_ge_cases msb lsb) as [L|L].
  { unfold step8_len, range_len. replace (Datatypes.S msb - lsb + 7)%nat with 7%nat by lia. exact I. }
  destruct (Nat.eq_dec (length v) 0) as [Z|Z].
  { destruct v; [|discriminate]. destruct (step8_len msb lsb); [exact I|]. cbn [a_hset_bytes_loop]. exact I. }
  apply wk_set_bytes_loop. intros j K. assert (Hj : (lsb + j <= msb)%nat).
  { unfold set_bytes_guard in G. destruct (Nat.ltb_spec msb lsb); [lia|]. destruct (whole_usize msb lsb).
    - destruct m; [discriminate|]. destruct (Nat.eqb_spec (length v) 0); [lia|discriminate].
    - destruct (Nat.eqb_spec (length v * 8) (msb - lsb + 1)) as [E|]; [|discriminate]. unfold step8_len, range_len in K.
      replace (Datatypes.S msb - lsb + 7)%nat with (7 + length v * 8)%nat in K by lia. rewrite Nat.div_add in K by lia.
      change (7 / 8)%nat with O in K. lia. }
  specialize (H (lsb + j)%nat ltac:(lia)). replace (lsb + j - lsb)%nat with j in H by lia. exact H.
Qed.

(** *** Builders *)

Definition fresh (x : hdr) : Prop := N0 (h_ref x).
Definition freshp (p : packet) : Prop := Forall fresh (p_hdrs p).
Lemma wk_from T d : wk fresh (a_hfrom T d). Proof. intros r H. exact H. Qed.
Lemma wk_new T : wk fresh (a_hnew T). Proof. intros r H. exact H. Qed.
Lemma wk_set x f v : fresh x -> wk (fun _ => True) (a_hset x f v).
Proof. intros H. apply wk_set_bit_range. auto. Qed.
Lemma wk_push p x : freshp p -> fresh x -> wk freshp (a_push p x).
Proof. intros P X. cbn. apply Forall_app. auto. Qed.
Hint Resolve wk_from wk_new wk_set wk_push : wk.
Ltac wk1 := cbv beta zeta; match goal with
  | |- wok _ _ _ (abind _ _) => eapply wok_bind; [solve [eauto with wk]|intros]
  | |- wok _ _ _ (abind _ _) => eapply wok_bind; [solve [apply wk_quiet; qu]|intros]
  | |- wok _ _ _ (abind (match ?x with _ => _ end) _) => destruct x eqn:?
  | |- wok _ _ _ (aret _) => cbn [aret wok]; auto
  | |- wok _ _ _ (match ?x with _ => _ end) => destruct x eqn:?
  | |- wok _ _ _ _ => solve [eauto with wk]
  | |- wok _ _ (fun _ => True) _ => solve [apply wk_quiet; qu]
  | |- wok _ _ _ ?t => let h := head t in unfold h
  end.
Ltac wkk := repeat wk1.
Lemma wk_ethernet a b c : wk fresh (a_ethernet a b c). Proof. wkk. Qed.
Lemma wk_vlan a b c d : wk fresh (a_vlan a b c d). Proof. wkk. Qed.
Lemma wk_arp a b c d e : wk fresh (a_arp a b c d e). Proof. wkk. Qed.
Lemma wk_ipv4 m a b c d e f g h i : wk fresh (a_ipv4 m a b c d e f g h i). Proof. wkk. Qed.
Lemma wk_ipv6 ip6 a b c d e f g : wk fresh (a_ipv6 ip6 a b c d e f g). Proof. wkk. Qed.
Lemma wk_udp a b c : wk fresh (a_udp a b c). Proof. wkk. Qed.
Hint Resolve wk_ethernet wk_vlan wk_arp wk_ipv4 wk_ipv6 wk_udp : wk.
Lemma wk_eth_pkt e t p : wk freshp (a_create_eth_packet e t p).
Proof.
  unfold a_create_eth_packet. cbv zeta. eapply (wok_bind _ _ freshp).
  - assert (freshp pkt_new) by constructor. destruct (vlan_enable e); wkk.
  - intros p0 H. exact H.
Qed.
Hint Resolve wk_eth_pkt : wk.
Lemma wk_ip4_pkt m e i n p : wk freshp (a_create_ipv4_packet m e i n p). Proof. wkk. Qed.
Lemma wk_ip6_pkt ip6 e i n p : wk freshp (a_create_ipv6_packet ip6 e i n p). Proof. wkk. Qed.
Hint Resolve wk_ip4_pkt wk_ip6_pkt : wk.
Lemma wk_index p n : freshp p -> wk fresh (a_index_name p n).
Proof.
  intros P. unfold a_index_name. destruct (find_name n (p_hdrs p)) as [x|] eqn:E; [|exact I]. cbn [aret wok].
  unfold freshp in P. rewrite Forall_forall in P. apply P. eapply find_name_in; eauto.
Qed.
Lemma wk_downcast T x : fresh x -> wk fresh (a_hdowncast T x).
Proof. intros H. unfold a_hdowncast. destruct (ht_id T =? ht_id (h_ty x))%nat; [exact H|exact I]. Qed.
Hint Resolve wk_index wk_downcast : wk.
Lemma wk_bump m p n : freshp p -> wk fresh (a_bump_total_len m p n). Proof. intros H. wkk. Qed.
Lemma wk_refresh m x : fresh x -> wk (fun _ => True) (a_refresh_checksum m x). Proof. intros H. wkk. Qed.
Lemma wk_bump6 m p n : freshp p -> wk (fun _ => True) (a_bump_payload_len m p n). Proof. intros H. wkk. Qed.
Hint Resolve wk_bump wk_refresh wk_bump6 : wk.
Lemma wk_weak {A} (P : A -> Prop) p : wk P p -> wk (fun _ => True) p.
Proof. intros H. eapply wok_imp; eauto. Qed.
Lemma wk_pmake m ip6 b : wk (fun _ => True) (a_pmake_run m ip6 b).
Proof. destruct b; cbn [a_pmake_run]; try (eapply wk_weak; solve [eauto with wk]); wkk. Qed.
Lemma wk_hmake m ip6 b : wk (fun _ => True) (a_hmake_run m ip6 b).
Proof. destruct b; cbn [a_hmake_run]; try (eapply wk_weak; solve [eauto with wk]); wkk. Qed.

Lemma wk_kexec m ip6 k : (forall o r j b, k = K_hdr o -> gives o r j b -> S r j b) ->
  (forall x y j b, k = K_hdr (OReplace x y) -> S (h_ref y) j b -> S (h_ref x) j b) -> wk (fun _ => True) (a_kexec m ip6 k).
Proof.
  intros G C. destruct k; cbn [a_kexec]; try (apply wk_quiet; solve [qu]).
  - eapply wok_bind; [|intros; exact I].
    destruct o; cbn [a_hexec]; try (apply wk_quiet; solve [qu]); (eapply (wok_bind _ _ (fun _ => True)); [|intros; exact I]).
    + apply wk_set_bit_range. intros j L. eapply G; [reflexivity|]. cbn. auto.
    + apply wk_set_bit_range. intros j L. eapply G; [reflexivity|]. cbn. auto.
    + apply wk_set_bytes. intros j L. eapply G; [reflexivity|]. cbn. auto.
    + cbn [a_hreplace wok]. split; [|exact I]. intros j b. apply C. reflexivity.
  - eapply wok_bind; [apply wk_hmake|intros; exact I].
  - eapply wok_bind; [apply wk_pmake|intros; exact I].
Qed.

(** ** Steps *)

Definition wts (t : tstate) : Prop :=
  match t with
  | TRun p => wk (fun _ => True) p
  | TWait x o p => (forall j b, S o j b -> S x j b) /\ wk (fun _ => True) p
  end.
Lemma rl_wok fu rp (Q : kres -> kres -> Prop) p : rl fu rp (fun a b => a = b /\ N0 a) Q p p -> wk (fun _ => True) p.
Proof.
  induction p as [o|d k IH|r i k IH|r i v k IH|r k IH|x o k IH]; cbn [rl wok]; intros H.
  - destruct o; exact I.
  - intros r Nr. apply IH, H. auto.
  - intros b. apply IH, H.
  - destruct H as ((_ & Nr) & _ & _ & V & H). split; auto. exists (v =? 1). split; auto. destruct (N.eqb_spec v 1) as [->|Z]; [reflexivity|cbn; lia].
  - intros d D. apply IH, H. exact D.
  - destruct H as (_ & (_ & Nx) & _ & H). split; auto.
Qed.

Lemma stands_upd h r c q j b : stands (upd h r c) q j b -> (q = r /\ (j < 8 * length (c_data c))%nat /\ bit (c_data c) j = b) \/ stands h q j b.
Proof.
  intros (c' & E & L & B). destruct (upd_cases _ _ _ _ _ E) as [(-> & ->)|(Ne & E')]; [left; auto|right; exists c'; auto].
Qed.
(** What a section leaves. *)
Lemma lock_stands {B} h r (body : list N -> out B * list N) q j b : stands (snd (with_lock r body h)) q j b ->
  stands h q j b \/ exists c, q = r /\ nth_error h r = Some c /\ (j < 8 * length (snd (body (c_data c))))%nat /\ bit (snd (body (c_data c))) j = b.
Proof.
  unfold with_lock. destruct (nth_error h r) as [c|] eqn:E; [|auto]. destruct (c_poisoned c); [auto|].
  destruct (body (c_data c)) as [[a|e| | |] d] eqn:Eb; cbn [snd]; intros H; destruct (stands_upd _ _ _ _ _ _ H) as [(-> & L & X)|X]; auto;
    cbn [c_data] in *; right; exists c; rewrite Eb; auto.
Qed.
Lemma after_inv {B} (o : out B * heap) (k : B -> tstate) h new t : after o k = (h, new, t) ->
  h = snd o /\ ((exists b, fst o = Ret b /\ t = k b) \/ exists f, t = TRun (ADone f) /\ forall v, f <> Ret v).
Proof.
  destruct o as [[b|e| | |] h0]; cbn [after fst snd]; intros [= <- <- <-]; (split; [reflexivity|]); [left; eauto|right; eexists; split; [reflexivity|discriminate]..].
Qed.
Lemma wts_done f : (forall v : kres, f <> Ret v) -> wts (TRun (ADone f)).
Proof. intros H. cbn. destruct f; auto. Qed.

Lemma wts_step ts h t h' new t' : heap_ok h -> (forall r, (length h <= r)%nat -> N0 r) -> (forall r j b, stands h r j b -> S r j b) ->
  (forall x o p, t = TWait x o p -> nth_error h x = Some (Cell [] false)) ->
  tstep ts h t = Some (h', new, t') -> wts t -> wts t' /\ forall r j b, stands h' r j b -> S r j b.
Proof.
  intros H Nw St W E T. destruct t as [p|x o p].
  - destruct p as [o|d k|r i k|r i v k|r k|x o k]; cbn [tstep wts wok] in *; try discriminate.
    + injection E as <- <- <-. split; [apply T, Nw; lia|]. intros q j b (c & Ec & L & X).
      destruct (Nat.lt_ge_cases q (length h)) as [Lq|Lq].
      * rewrite nth_error_app1 in Ec by auto. apply St. exists c. auto.
      * apply new_any, Nw. auto.
    + destruct (held ts r); [discriminate|]. injection E as E. destruct (after_inv _ _ _ _ _ E) as (-> & O). split.
      * destruct O as [(b & _ & ->)|(f & -> & F)]; [apply T|apply wts_done; auto].
      * intros q j b X. destruct (lock_stands _ _ _ _ _ _ X) as [|(c & -> & Ec & L & Y)]; auto. apply St. exists c. auto.
    + destruct (held ts r); [discriminate|]. injection E as E. destruct (after_inv _ _ _ _ _ E) as (-> & O). destruct T as ((b & -> & Sb) & T). split.
      * destruct O as [(u & _ & ->)|(f & -> & F)]; [apply T|apply wts_done; auto].
      * intros q j b' X. destruct (lock_stands _ _ _ _ _ _ X) as [|(c & -> & Ec & L & Y)]; auto.
        destruct (Nat.lt_ge_cases i (8 * length (c_data c))) as [Li|Li].
        -- rewrite BitsProofs.set_bit_step_ok in L, Y by (eauto using heap_ok_nth). cbn [snd] in L, Y. rewrite wbit_length in L.
           rewrite bit_wbit in Y by auto. destruct (Nat.eqb_spec j i) as [->|Ne]; [subst; auto|]. apply St. exists c. auto.
        -- rewrite set_bit_step_oob in L, Y by auto. apply St. exists c. auto.
    + destruct (held ts r); [discriminate|]. injection E as E. destruct (after_inv _ _ _ _ _ E) as (-> & O). split.
      * destruct O as [(d & Ed & ->)|(f & -> & F)]; [|apply wts_done; auto]. apply T.
        destruct (lock_ret _ _ _ _ Ed) as (c & Ec & Id). cbn [fst] in Id. injection Id as <-. eauto using heap_ok_nth.
      * intros q j b X. destruct (lock_stands _ _ _ _ _ _ X) as [|(c & -> & Ec & L & Y)]; auto. apply St. exists c. auto.
    + destruct (held ts x); [discriminate|]. injection E as E. destruct (after_inv _ _ _ _ _ E) as (-> & O). split.
      * destruct O as [(u & _ & ->)|(f & -> & F)]; [exact T|apply wts_done; auto].
      * intros q j b X. destruct (lock_stands _ _ _ _ _ _ X) as [|(c & -> & Ec & L & Y)]; auto. cbn in L. lia.
  - cbn [tstep wts] in *. destruct (held ts o); [discriminate|]. rewrite (W x o p eq_refl) in E. destruct T as (C & T).
    destruct (nth_error h o) as [co|] eqn:Eo; [destruct (c_poisoned co)|]; injection E as <- <- <-.
    + split; [exact I|]. intros q j b X. destruct (stands_upd _ _ _ _ _ _ X) as [(-> & L & Y)|]; auto. cbn in L. lia.
    + split; [exact T|]. intros q j b X. destruct (stands_upd _ _ _ _ _ _ X) as [(-> & L & Y)|]; auto. cbn [c_data app] in *.
      apply C, St. exists co. auto.
    + split; [exact I|auto].
Qed.
End Calls.

(** ** Executions *)

Lemma exec_length m ip6 w l w' : octets16 ip6 -> wreach m ip6 w -> exec m ip6 w l w' -> (length (w_heap w) <= length (w_heap w'))%nat.
Proof.
  intros O6 R X. induction X as [|l w1 v w2 X IH Mv]; auto. pose proof (inv_reach _ _ _ O6 (exec_reach _ _ _ _ _ R X)) as V.
  destruct v as [|j k'|j|j]; cbn [moved] in Mv.
  - subst w2. destruct w1. exact IH.
  - destruct Mv as (_ & _ & E). destruct (call_inv _ _ _ _ _ _ E) as (_ & ->). exact IH.
  - destruct (wdo_inv _ _ _ Mv) as (k1 & own1 & t1 & h & new & t' & B1 & St' & ->).
    destruct (wdo_change _ _ _ _ _ _ _ _ _ _ V B1 St') as (_ & Ch & _). apply change_len in Ch.
    unfold w_heap at 2. cbn [fst set_heap k_heap]. lia.
  - destruct (back_inv _ _ _ Mv) as (k1 & own1 & o & _ & _ & ->). exact IH.
Qed.
Lemma unsettled_args w i k own t r : busy w i k own t -> In r (args k ++ own) -> ~ settled w r.
Proof. intros B J (_ & H). destruct (H _ _ _ _ B) as (A & O). apply in_app_or in J. tauto. Qed.

Lemma source_more w ks ks' : incl ks ks' -> forall r j b, source w ks r j b -> source w ks' r j b.
Proof.
  intros I r j b H. induction H.
  - apply S_there; auto.
  - eapply S_given; eauto.
  - eapply S_copied; eauto.
  - apply S_other; auto.
Qed.

Lemma source_run m ip6 w l w' ks : octets16 ip6 -> wreach m ip6 w -> exec m ip6 w l w' -> incl (begun l) ks ->
  (forall r j b, stands (w_heap w') r j b -> source w ks r j b) /\
  (forall i k own t, busy w' i k own t -> wts (source w ks) (fun r => ~ settled w r) t).
Proof.
  intros O6 R X. assert (Any : forall r j b, ~ settled w r -> source w ks r j b) by (intros; apply S_other; auto).
  induction X as [|l w1 v w2 X IH Mv]; intros I.
  - pose proof (inv_reach _ _ _ O6 R) as V. split; [intros; apply S_there; auto|]. intros i k own t B.
    pose proof (inv_tok _ _ _ V _ _ _ _ B) as T. destruct (short_dec k) as [Z|Z].
    { rewrite (tok_short _ _ _ _ _ _ T Z). exact Logic.I. }
    pose proof (tok_good _ _ _ _ _ _ T Z (fun a b => a = b /\ ~ settled w a)) as G.
    assert (G' : forall r, In r (args k ++ own) -> r = r /\ ~ settled w r) by (split; eauto using unsettled_args). specialize (G G'). clear G'.
    destruct t as [p|x o p]; cbn [wts].
    + eapply rl_wok; eauto.
    + destruct G as (_ & (_ & Nx) & _ & G). split; [auto|]. eapply rl_wok; eauto.
  - unfold begun in I. rewrite flat_map_app in I. destruct IH as (St & Wt); [eapply incl_tran; [|exact I]; apply incl_appl, incl_refl|].
    pose proof (exec_reach _ _ _ _ _ R X) as R1. pose proof (inv_reach _ _ _ O6 R1) as V. pose proof (exec_length _ _ _ _ _ O6 R X) as Len.
    unfold busy in *. destruct v as [|j k'|j|j]; cbn [moved] in Mv.
    + subst w2. destruct w1 as [c ts]. cbn [wspawn snd w_heap fst] in *. split; auto. intros i k own t B.
      destruct (Nat.lt_ge_cases i (length ts)) as [L|L].
      * rewrite nth_error_app1 in B by auto. eauto.
      * rewrite nth_error_app2 in B by auto. destruct (i - length ts)%nat as [|[|]]; discriminate B.
    + destruct Mv as (_ & _ & E). destruct (call_inv _ _ _ _ _ _ E) as (Ij & ->). cbn [snd fst] in *. split; auto. intros i k own t B.
      destruct (upd_cases _ _ _ _ _ B) as [(-> & [= -> -> ->])|(Ne & B')]; [|eauto]. cbn [wts]. apply wk_kexec; auto.
      * intros o r j0 b -> Gv. eapply S_given; [|exact Gv]. apply I, in_or_app. right. left. reflexivity.
      * intros x y j0 b -> Sy. eapply S_copied; [|exact Sy]. apply I, in_or_app. right. left. reflexivity.
    + destruct (wdo_inv _ _ _ Mv) as (k1 & own1 & t1 & h & new & t' & B1 & St' & ->). unfold busy in B1.
      pose proof (inv_tok _ _ _ V _ _ _ _ B1) as T1.
      destruct (wts_step (source w ks) (fun r => ~ settled w r) Any (snd w1) (w_heap w1) t1 h new t') as (T' & St2); eauto.
      * apply (inv_client _ _ _ V).
      * intros r L (L' & _). lia.
      * intros x o p ->. eapply tok_wait; eauto.
      * split; [exact St2|]. intros i k own t B. cbn [snd] in B.
        destruct (upd_cases _ _ _ _ _ B) as [(-> & [= -> -> ->])|(Ne & B')]; eauto.
    + destruct (back_inv _ _ _ Mv) as (k1 & own1 & o & _ & Es & Eh). rewrite Es, Eh. split; auto. intros i k own t B.
      destruct (upd_cases _ _ _ _ _ B) as [(-> & [=])|(Ne & B')]; eauto.
Qed.
