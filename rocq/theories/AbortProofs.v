(** AbortProofs.v -- lemmas for C78: no function of the crate panics as if a lock were poisoned, only finding one poisoned does. *)

From Coq Require Import Lia.
From Verif Require Import Base Bits Types Layout Heap Packet Text Build Utils Slow Fast Show Trait Ops Client Threads Spec ClientSpec
  ThreadsSpec ThreadsProofs AbortSpec.
Open Scope N_scope.

(** ** Outcomes *)

Definition ofree {A} (o : out A) : Prop := o <> Panic PPoison.
Lemma ofree_bind {A B} (o : out A) (k : A -> out B) : ofree o -> (forall a, ofree (k a)) -> ofree (obind o k).
Proof. unfold ofree. destruct o as [a|e| | |]; cbn [obind]; auto; try discriminate. intros H _ E. apply H. congruence. Qed.

Ltac head t := match t with ?f _ => head f | _ => t end.
Ltac of1 := cbv beta zeta; match goal with
  | |- ofree (obind _ _) => apply ofree_bind; [|intros ?]
  | |- ofree (Ret _) => discriminate
  | |- ofree (Panic _) => discriminate
  | |- ofree UB => discriminate
  | |- ofree Hang => discriminate
  | |- ofree Fuel => discriminate
  | H : _ |- ofree _ => solve [apply H]
  | |- ofree _ => solve [auto 2 with fr]
  | |- ofree (match ?x with _ => _ end) => destruct x
  | |- ofree (let (_, _) := ?x in _) => destruct x
  | |- ofree ?t => let h := head t in unfold h
  end.
Ltac ofr := repeat of1.

Lemma of_index {A} (l : list A) i : ofree (index l i). Proof. ofr. Qed.
Lemma of_get_loop n : forall d i v, ofree (get_loop d i n v).
Proof. induction n as [|n IH]; intros; cbn [get_loop]; ofr. Qed.
Lemma of_bytes_loop m n : forall d i, ofree (bytes_loop m d i n).
Proof. induction n as [|n IH]; intros; cbn [bytes_loop]; ofr; apply of_get_loop. Qed.
#[export] Hint Resolve of_index of_get_loop of_bytes_loop : fr.
Lemma of_fill r l : forall i a, ofree (fill r l i a).
Proof. induction l as [|x l IH]; intros; cbn [fill]; ofr. Qed.
Lemma of_checksum_loop m n : forall v i c, ofree (checksum_loop m v i n c).
Proof. induction n as [|n IH]; intros; cbn [checksum_loop]; ofr. Qed.
Lemma of_fold_loop m n : forall c, ofree (fold_loop m n c).
Proof. induction n as [|n IH]; intros; cbn [fold_loop]; ofr. Qed.
#[export] Hint Resolve of_fill of_checksum_loop of_fold_loop : fr.
Lemma of_checksum m v : ofree (ipv4_checksum m v). Proof. ofr. Qed.
#[export] Hint Resolve of_checksum : fr.
Lemma of_sshow_octets m n : forall d i, ofree (sshow_octets m d i n).
Proof. induction n as [|n IH]; intros; cbn [sshow_octets]; ofr. Qed.
#[export] Hint Resolve of_sshow_octets : fr.
Lemma of_sshow_fields m l : forall d, ofree (sshow_fields m d l).
Proof. induction l as [|x l IH]; intros; cbn [sshow_fields]; ofr. Qed.
#[export] Hint Resolve of_sshow_fields : fr.
Lemma of_show_shdrs m l : ofree (show_shdrs m l).
Proof. induction l as [|x l IH]; intros; cbn [show_shdrs]; ofr. Qed.
#[export] Hint Resolve of_show_shdrs : fr.
Lemma of_fast_fuel m n : forall f v, ofree (fast_fuel m n f v).
Proof. induction n as [|n IH]; intros; cbn [fast_fuel]; [ofr|]. destruct f; ofr. Qed.
#[export] Hint Resolve of_fast_fuel : fr.

(** ** Programs *)

Fixpoint free {A} (p : act A) : Prop :=
  match p with
  | ADone o => ofree o
  | AAlloc _ k => forall r, free (k r)
  | ARead _ _ k => forall b, free (k b)
  | AWrite _ _ _ k => free k
  | ACopy _ k => forall d, free (k d)
  | ARepl _ _ k => free k
  end.
Lemma free_bind {A B} (p : act A) (k : A -> act B) : free p -> (forall a, free (k a)) -> free (abind p k).
Proof.
  intros Hp Hk. induction p as [o|d f IH|r i f IH|r i v f IH|r f IH|x o f IH]; cbn [abind free] in *; auto.
  destruct o as [a|e| | |]; cbn [free]; try apply Hk; try discriminate. intros E. apply Hp. congruence.
Qed.
Lemma free_lift {A} (o : out A) : ofree o -> free (alift o).
Proof. auto. Qed.

Ltac fr1 := cbv beta zeta; match goal with
  | |- free (abind _ _) => apply free_bind; [|intros ?]
  | |- free (alift _) => apply free_lift
  | |- ofree _ => of1
  | |- free (ADone _) => cbn [free]
  | |- free (aret _) => discriminate
  | |- free (afail _) => discriminate
  | |- free (AAlloc _ _) => cbn [free]; intros ?
  | |- free (ARead _ _ _) => cbn [free]; intros ?
  | |- free (AWrite _ _ _ _) => cbn [free]
  | |- free (ACopy _ _) => cbn [free]; intros ?
  | |- free (ARepl _ _ _) => cbn [free]
  | H : _ |- free _ => solve [apply H]
  | |- free _ => solve [auto 2 with fr]
  | |- free (match ?x with _ => _ end) => destruct x
  | |- free (let (_, _) := ?x in _) => destruct x
  | |- free ?t => let h := head t in unfold h
  end.
Ltac fr := repeat fr1.

Lemma fr_hget_loop n : forall r i v, free (a_hget_loop r i n v).
Proof. induction n as [|n IH]; intros; cbn [a_hget_loop]; fr. Qed.
Lemma fr_hset_loop n : forall r l v, free (a_hset_loop r l n v).
Proof. induction n as [|n IH]; intros; cbn [a_hset_loop]; fr. Qed.
#[export] Hint Resolve fr_hget_loop fr_hset_loop : fr.
Lemma fr_hbit_range m x msb lsb : free (a_hbit_range m x msb lsb). Proof. fr. Qed.
Lemma fr_hset_bit_range x msb lsb v : free (a_hset_bit_range x msb lsb v). Proof. fr. Qed.
Lemma fr_hfrom T d : free (a_hfrom T d). Proof. fr. Qed.
#[export] Hint Resolve fr_hbit_range fr_hset_bit_range fr_hfrom : fr.
Lemma fr_hbytes_loop m n : forall x i, free (a_hbytes_loop m x i n).
Proof. induction n as [|n IH]; intros; cbn [a_hbytes_loop]; fr. Qed.
Lemma fr_hset_bytes_loop n : forall x i v k, free (a_hset_bytes_loop x i n v k).
Proof. induction n as [|n IH]; intros; cbn [a_hset_bytes_loop]; fr. Qed.
#[export] Hint Resolve fr_hbytes_loop fr_hset_bytes_loop : fr.
Lemma fr_concat_vecs l : free (a_concat_vecs l).
Proof. induction l as [|x l IH]; cbn [a_concat_vecs]; fr. Qed.
Lemma fr_clone_hdrs l : free (a_clone_hdrs l).
Proof. induction l as [|x l IH]; cbn [a_clone_hdrs]; fr. Qed.
#[export] Hint Resolve fr_concat_vecs fr_clone_hdrs : fr.
Lemma fr_hshow_octets m n : forall x i, free (a_hshow_octets m x i n).
Proof. induction n as [|n IH]; intros; cbn [a_hshow_octets]; fr. Qed.
#[export] Hint Resolve fr_hshow_octets : fr.
Lemma fr_hshow_fields m l : forall x, free (a_hshow_fields m x l).
Proof. induction l as [|f l IH]; intros; cbn [a_hshow_fields]; fr. Qed.
#[export] Hint Resolve fr_hshow_fields : fr.
Lemma fr_show_hdrs m l : free (a_show_hdrs m l).
Proof. induction l as [|x l IH]; cbn [a_show_hdrs]; fr. Qed.
#[export] Hint Resolve fr_show_hdrs : fr.
Lemma fr_hexec m o : free (a_hexec m o).
Proof. destruct o; cbn [a_hexec]; fr. Qed.
Lemma fr_slow_fuel m n : forall f d, free (a_slow_fuel m n f d).
Proof. induction n as [|n IH]; intros; cbn [a_slow_fuel]; [fr|]. destruct f; cbn [a_slow_body]; fr. Qed.
#[export] Hint Resolve fr_hexec fr_slow_fuel : fr.
Lemma fr_push p x : free (a_push p x). Proof. fr. Qed.
Lemma fr_insert p x : free (a_insert p x). Proof. fr. Qed.
Lemma fr_eth d s t : free (a_ethernet d s t). Proof. fr. Qed.
Lemma fr_ipv4 m a b c d e f g h i : free (a_ipv4 m a b c d e f g h i). Proof. fr. Qed.
Lemma fr_ipv6 ip a b c d e f g : free (a_ipv6 ip a b c d e f g). Proof. fr. Qed.
#[export] Hint Resolve fr_push fr_insert fr_eth fr_ipv4 fr_ipv6 : fr.
Lemma fr_hmake m ip6 b : free (a_hmake_run m ip6 b).
Proof. destruct b; cbn [a_hmake_run]; fr. Qed.
#[export] Hint Resolve fr_hmake : fr.
Lemma fr_eth_pkt e t p : free (a_create_eth_packet e t p). Proof. fr. Qed.
#[export] Hint Resolve fr_eth_pkt : fr.
Lemma fr_ip4_pkt m e i n p : free (a_create_ipv4_packet m e i n p). Proof. fr. Qed.
Lemma fr_ip6_pkt ip e i n p : free (a_create_ipv6_packet ip e i n p). Proof. fr. Qed.
#[export] Hint Resolve fr_ip4_pkt fr_ip6_pkt : fr.
Lemma fr_bump m p n : free (a_bump_total_len m p n). Proof. fr. Qed.
Lemma fr_refresh m x : free (a_refresh_checksum m x). Proof. fr. Qed.
Lemma fr_bump6 m p n : free (a_bump_payload_len m p n). Proof. fr. Qed.
#[export] Hint Resolve fr_bump fr_refresh fr_bump6 : fr.
Lemma fr_pmake m ip6 b : free (a_pmake_run m ip6 b).
Proof. destruct b; cbn [a_pmake_run]; fr. Qed.
#[export] Hint Resolve fr_pmake : fr.
Lemma fr_kexec m ip6 k : free (a_kexec m ip6 k).
Proof. destruct k; cbn [a_kexec]; fr. Qed.

(** ** Steps *)

Definition sound (h : heap) : Prop := forall r c, nth_error h r = Some c -> c_poisoned c = false.
Definition tfree (t : tstate) : Prop := match t with TRun p => free p | TWait _ _ p => free p end.
Definition stopped (t : tstate) : Prop := exists e, t = TRun (ADone (Panic e)).

Lemma sound_upd h r d : sound h -> sound (upd h r (Cell d false)).
Proof. intros S q c E. destruct (upd_cases _ _ _ _ _ E) as [(_ & ->)|(_ & E')]; [reflexivity|eauto]. Qed.
Lemma after_ok {B} h r (body : list N -> out B * list N) (k : B -> tstate) h' new t' : sound h ->
  (forall d, ofree (fst (body d))) -> (forall b, tfree (k b)) -> after (with_lock r body h) k = (h', new, t') ->
  tfree t' /\ (sound h' \/ stopped t').
Proof.
  intros S Fb Fk E. unfold with_lock in E. destruct (nth_error h r) as [c|] eqn:Er.
  - rewrite (S _ _ Er) in E. specialize (Fb (c_data c)). destruct (body (c_data c)) as [o d']. cbn [fst] in Fb.
    destruct o as [b|e| | |]; cbn [after] in E; injection E as <- <- <-; cbn [tfree free];
      try (split; [discriminate|left; apply sound_upd; auto]).
    + split; [apply Fk|left; apply sound_upd; auto].
    + split; [intros Q; apply Fb; congruence|right; eexists; reflexivity].
  - cbn [after] in E. injection E as <- <- <-. split; [discriminate|auto].
Qed.
Lemma tstep_ok ts h t h' new t' : sound h -> tfree t -> tstep ts h t = Some (h', new, t') -> tfree t' /\ (sound h' \/ stopped t').
Proof.
  intros S F E. destruct t as [[o|d f|r i f|r i v f|r f|x o f]|x o f]; cbn [tstep tfree free] in *.
  - discriminate.
  - injection E as <- <- <-. split; [apply F|left]. intros r c Er. destruct (Nat.lt_ge_cases r (length h)) as [L|L].
    + rewrite nth_error_app1 in Er by auto. eauto.
    + rewrite nth_error_app2 in Er by auto. destruct (r - length h)%nat as [|[|n]]; try discriminate. injection Er as <-. reflexivity.
  - destruct (held ts r); [discriminate|]. injection E as E. revert E. apply after_ok; auto. intros b. cbn [fst]. ofr.
  - destruct (held ts r); [discriminate|]. injection E as E. revert E. apply after_ok; auto.
    intros b. unfold set_bit_step. destruct (index b (i / 8)); discriminate.
  - destruct (held ts r); [discriminate|]. injection E as E. revert E. apply after_ok; auto. intros b. discriminate.
  - destruct (held ts x); [discriminate|]. injection E as E. revert E. apply after_ok; auto. intros b. discriminate.
  - destruct (held ts o); [discriminate|]. destruct (nth_error h x) as [cx|] eqn:Ex; [destruct (nth_error h o) as [co|] eqn:Eo|].
    + rewrite (S _ _ Eo) in E. injection E as <- <- <-. split; [exact F|left]. apply sound_upd. exact S.
    + injection E as <- <- <-. split; [discriminate|auto].
    + injection E as <- <- <-. split; [discriminate|auto].
Qed.

Lemma areach_reach m ip6 w : areach m ip6 w -> wreach m ip6 w.
Proof. induction 1; [constructor|econstructor; eauto]. Qed.
Lemma areach_inv m ip6 w : areach m ip6 w ->
  (forall i k own t, busy w i k own t -> tfree t) /\ (sound (w_heap w) \/ panicked w).
Proof.
  induction 1 as [|w w' R [F S] N St].
  - split; [|left]; [intros [|i] k own t B; discriminate B|intros [|r] c B; discriminate B].
  - destruct S as [S|S]; [|destruct (N S)]. destruct St as [[c ts]|[c ts] i k w' _ _ E|w i w' E|[c ts] i w' E].
    + split; [|left; exact S]. intros j k own t B. unfold busy in *. cbn [wspawn snd] in *. destruct (Nat.lt_ge_cases j (length ts)) as [L|L].
      * rewrite nth_error_app1 in B by auto. eauto.
      * rewrite nth_error_app2 in B by auto. destruct (j - length ts)%nat as [|[|n]]; discriminate.
    + cbn [wcall] in E. destruct (nth_error ts i) as [[|? ? ?]|] eqn:Ei; try discriminate. injection E as <-. split; [|left; exact S].
      intros j k1 own t B. unfold busy in *. cbn [snd] in *. destruct (upd_cases _ _ _ _ _ B) as [(_ & Q)|(_ & Q)]; [|eauto].
      injection Q as -> -> ->. cbn [tfree]. apply fr_kexec.
    + destruct (wdo_inv _ _ _ E) as (k & own & t & h & new & t' & B & T & ->).
      destruct (tstep_ok _ _ _ _ _ _ S (F _ _ _ _ B) T) as [Ft Sh]. split.
      * intros j k1 own1 t1 B1. unfold busy in B1. cbn [snd] in B1. destruct (upd_cases _ _ _ _ _ B1) as [(_ & Q)|(_ & Q)]; [|eauto].
        injection Q as -> -> ->. exact Ft.
      * destruct Sh as [Sh|(e & ->)]; [left; exact Sh|right]. exists i, k, (own ++ new), e. unfold busy in *. cbn [snd]. eapply nth_upd_at; eauto.
    + assert (K : exists c', w' = (c', upd ts i Idle) /\ k_heap c' = k_heap c).
      { cbn [wback] in E. destruct (nth_error ts i) as [[|k1 own1 [[[v|e| | |]| | | | |]|]]|]; try discriminate; injection E as <-;
          eexists; split; try reflexivity; destruct v; reflexivity. }
      destruct K as (c' & -> & Hc). split.
      * intros j k1 own t B. unfold busy in *. cbn [snd] in *. destruct (upd_cases _ _ _ _ _ B) as [(_ & Q)|(_ & Q)]; [discriminate|eauto].
      * left. unfold w_heap in *. cbn [fst] in *. rewrite Hc. exact S.
Qed.

Definition panics (t : thread) : bool := match t with Busy _ _ (TRun (ADone (Panic _))) => true | _ => false end.
Lemma panicked_dec w : panicked w \/ ~ panicked w.
Proof.
  destruct (existsb panics (snd w)) eqn:E.
  - left. apply existsb_exists in E as (t & I & P). apply In_nth_error in I as (i & I).
    destruct t as [|k own [[[]| | | | |]|]]; try discriminate. exists i, k, own, f. exact I.
  - right. intros (i & k & own & e & B). apply Bool.not_true_iff_false in E. apply E. apply existsb_exists. eexists. split; [eapply nth_error_In; exact B|reflexivity].
Qed.
Lemma first_panic m ip6 w : wreach m ip6 w -> areach m ip6 w \/ exists w0, areach m ip6 w0 /\ panicked w0 /\ wsteps m ip6 w0 w.
Proof.
  induction 1 as [|w w' R IH S]; [left; constructor|]. destruct IH as [A|(w0 & A & P & St)].
  - destruct (panicked_dec w) as [P|P].
    + right. exists w. repeat split; auto. eapply WS_step; [apply WS_refl|exact S].
    + left. eapply AR_step; eauto.
  - right. exists w0. repeat split; auto. eapply WS_step; eauto.
Qed.
