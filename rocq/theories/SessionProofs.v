(** SessionProofs.v -- lemmas for C91. *)

From Coq Require Import Lia.
From Verif Require Import Base Bits Types Layout Heap Packet Ops Spec BitsProofs HeapProofs PacketProofs OpsProofs RemainsSpec EditsSpec
  EditsProofs SessionSpec.
Open Scope N_scope.

Lemma removelast_firstn' {A} (l : list A) : removelast l = firstn (length l - 1) l.
Proof.
  induction l as [|a [|b t] IH]; auto. cbn [removelast length firstn] in *. 
  replace (S (S (length t)) - 1)%nat with (S (S (length t) - 1)) by lia. cbn [firstn]. f_equal. exact IH. Qed.
Lemma remove_nth_split {A} (l : list A) : forall i, remove_nth i l = firstn i l ++ skipn (S i) l.
Proof. induction l as [|a t IH]; intros [|i]; cbn [remove_nth firstn skipn app]; auto. rewrite IH. reflexivity. Qed.
Lemma clone_same l : forall h, clone_hdrs l h = (Ret l, h).
Proof. induction l as [|[T r] t IH]; intros h; cbn [clone_hdrs]; auto. unfold bind, hclone, ret. cbn [h_ty h_ref]. rewrite IH. reflexivity. Qed.

Lemma octet_bits d i : bytes_ok d -> octet (fun k => bit d (8 * i + k)) = nth i d 0.
Proof.
  intros Hd. set (b := nth i d 0).
  assert (Hb : b < 256) by (apply bytes_ok_nth; auto).
  transitivity (octet (fun k => N.testbit b (N.of_nat (7 - k)))).
  - unfold octet. cbn [seq fold_left]. unfold bit. 
    repeat match goal with |- context [((8 * i + ?k) / 8)%nat] =>
      replace ((8 * i + k) / 8)%nat with i by (rewrite (Nat.mul_comm 8 i), Nat.div_add_l by lia; rewrite (Nat.div_small k 8) by lia; lia);
      replace ((8 * i + k) mod 8)%nat with k by (rewrite (Nat.mul_comm 8 i), Nat.add_comm, Nat.mod_add by lia; rewrite Nat.mod_small; lia) end.
    reflexivity.
  - clearbody b. unfold octet. cbn [seq fold_left Nat.sub N.of_nat].
    assert (E : forall n, (n < 256)%nat -> let b := N.of_nat n in
      N.eqb (2 * (2 * (2 * (2 * (2 * (2 * (2 * (2 * 0 + b2n (N.testbit b 7)) + b2n (N.testbit b 6)) + b2n (N.testbit b 5)) + b2n (N.testbit b 4))
        + b2n (N.testbit b 3)) + b2n (N.testbit b 2)) + b2n (N.testbit b 1)) + b2n (N.testbit b 0)) b = true).
    { assert (A : forallb (fun n => let b := N.of_nat n in
        N.eqb (2 * (2 * (2 * (2 * (2 * (2 * (2 * (2 * 0 + b2n (N.testbit b 7)) + b2n (N.testbit b 6)) + b2n (N.testbit b 5)) + b2n (N.testbit b 4))
        + b2n (N.testbit b 3)) + b2n (N.testbit b 2)) + b2n (N.testbit b 1)) + b2n (N.testbit b 0)) b) (seq 0 256) = true) by (vm_compute; reflexivity).
      rewrite forallb_forall in A. intros n L. apply A. apply in_seq. lia. }
    specialize (E (N.to_nat b) ltac:(lia)). cbv zeta in E. rewrite N2Nat.id in E. apply N.eqb_eq in E. exact E.
Qed.
Lemma octets_of_bits d f : bytes_ok d -> (forall j, bit d j = f j) ->
  d = map (fun i => octet (fun k => f (8 * i + k)%nat)) (seq 0 (length d)).
Proof.
  intros Hd F. apply nth_ext with (d := 0) (d' := 0); [rewrite map_length, seq_length; reflexivity|].
  intros i L. rewrite <- (octet_bits d i Hd). 
  rewrite (nth_indep _ 0 ((fun i => octet (fun k => f (8 * i + k)%nat)) 0%nat)) by (rewrite map_length, seq_length; auto).
  rewrite (map_nth (fun i => octet (fun k => f (8 * i + k)%nat))), seq_nth by auto. cbn [plus].
  unfold octet. cbn [seq fold_left]. rewrite !F. reflexivity.
Qed.

Lemma session_snoc m cs c : forall p h bs p' h', session m (cs ++ [c]) p h = (bs, (p', h')) ->
  exists bs0 p0 h0 b, session m cs p h = (bs0, (p0, h0)) /\ pcall_run m c p0 h0 = (b, (p', h')) /\ bs = bs0 ++ [b].
Proof.
  induction cs as [|a t IH]; intros p h bs p' h' E; cbn [session app] in *.
  - destruct (pcall_run m c p h) as [b [p1 h1]] eqn:X. injection E as <- <- <-. exists [], p, h, b. auto.
  - destruct (pcall_run m a p h) as [b [p1 h1]]. destruct (session m (t ++ [c]) p1 h1) as [bs1 s1] eqn:Y. injection E as <- ->.
    destruct (IH _ _ _ _ _ Y) as (bs0 & p0 & h0 & b' & A & B & ->). rewrite A. exists (b :: bs0), p0, h0, b'. auto.
Qed.
Lemma session_length m cs : forall p h, length (fst (session m cs p h)) = length cs.
Proof.
  induction cs as [|c t IH]; intros p h; [reflexivity|]. cbn [session]. destruct (pcall_run m c p h) as [b [p1 h1]].
  specialize (IH p1 h1). destruct (session m t p1 h1). cbn [fst length] in *. congruence.
Qed.
Lemma combine_snoc {A B} (a : list A) : forall (b : list B) x y, length a = length b -> combine (a ++ [x]) (b ++ [y]) = combine a b ++ [(x, y)].
Proof. induction a as [|u a IH]; intros [|w b] x y E; cbn in *; try discriminate E; auto. rewrite IH by lia. reflexivity. Qed.
Lemma deeds_snoc cs bs c b : length cs = length bs -> deeds (cs ++ [c]) (bs ++ [b]) = (c, b) :: deeds cs bs.
Proof. intros L. unfold deeds. rewrite combine_snoc by auto. rewrite rev_app_distr. reflexivity. Qed.

(** The packet does not depend on the buffers. *)
Lemma session_stack m p h : forall cs bs p' h', session m cs p h = (bs, (p', h')) ->
  p_hdrs p' = stack (p_hdrs p) (deeds cs bs) /\ p_payload p' = load (p_payload p) (deeds cs bs).
Proof.
  induction cs as [|c cs IH] using rev_ind; intros bs p' h' E.
  - cbn in E. injection E as <- <- <-. auto.
  - apply session_snoc in E as (bs0 & p0 & h0 & b & E & X & ->).
    assert (L : length cs = length bs0) by (pose proof (session_length m cs p h) as Q; rewrite E in Q; auto).
    destruct (IH _ _ _ E) as (S1 & L1). rewrite deeds_snoc by auto.
    destruct c as [o|[x|T d]|[x|T d]| |i|d|q|]; cbn [pcall_run] in X; cbn [stack load].
    + destruct (hexec m o h0) as [r h1]. injection X as <- <- <-. auto.
    + injection X as <- <- <-. cbn [p_hdrs p_payload]. rewrite S1. auto.
    + injection X as <- <- <-. auto.
    + injection X as <- <- <-. cbn [p_hdrs p_payload]. rewrite S1. auto.
    + injection X as <- <- <-. auto.
    + injection X as <- <- <-. unfold pop. rewrite <- S1. destruct (Nat.eqb_spec (length (p_hdrs p0)) 0) as [Z|Z].
      * apply length_zero_iff_nil in Z. rewrite Z. cbn. auto.
      * cbn [p_hdrs p_payload]. rewrite removelast_firstn'. auto.
    + injection X as <- <- <-. unfold remove. rewrite <- S1. destruct (Nat.ltb_spec i (length (p_hdrs p0))) as [Z|Z].
      * destruct (Nat.eqb_spec (length (p_hdrs p0)) 0); [lia|]. cbn [negb andb p_hdrs p_payload]. rewrite remove_nth_split. auto.
      * rewrite andb_false_r, firstn_all2, skipn_all2, app_nil_r by lia. auto.
    + injection X as <- <- <-. cbn [p_hdrs p_payload set_payload]. rewrite L1. auto.
    + unfold assign, pkt_add, bind in X. rewrite clone_same in X. injection X as <- <- <-. cbn [p_hdrs p_payload]. rewrite S1. auto.
    + unfold assign, pkt_clone, bind in X. rewrite clone_same in X. injection X as <- <- <-. cbn [p_hdrs p_payload]. auto.
Qed.
Lemma session_now m p h : forall cs bs p' h', heap_ok h -> Forall pcall_typed cs -> session m cs p h = (bs, (p', h')) ->
  Forall pcall_ends (combine cs bs) ->
  heap_ok h' /\ length h' = (length h + born (hdeeds (deeds cs bs)))%nat /\
  forall q, ~ poisoned_at h' q -> sound h h' (hdeeds (deeds cs bs)) q.
Proof.
  induction cs as [|c cs IH] using rev_ind; intros bs p' h' Hh Ht E Hn.
  - cbn in E. injection E as <- <- <-. cbn [deeds combine rev hdeeds born]. split; auto. split; [lia|].
    intros q _. unfold sound, data. cbn [size now]. destruct (nth_error h q); auto. split; auto. intros j. apply bit_nil.
  - apply session_snoc in E as (bs0 & p0 & h0 & b & E & X & ->).
    assert (L : length cs = length bs0) by (pose proof (session_length m cs p h) as Q; rewrite E in Q; auto).
    apply Forall_app in Ht as [Ht Tc]. apply Forall_inv in Tc. rewrite combine_snoc in Hn by auto.
    apply Forall_app in Hn as [Hn Nc]. apply Forall_inv in Nc.
    destruct (IH _ _ _ Hh Ht E Hn) as (A & B & C). rewrite deeds_snoc by auto.
    destruct c as [o|[x|T d]|[x|T d]| |i|d|q|]; cbn [pcall_run] in X; cbn [hdeeds]; try (injection X as <- <- <-; auto; fail).
    + destruct (hexec m o h0) as [r h1] eqn:Y. injection X as <- <- <-. apply (step_sound m h h0 _ o r h1); auto.
      intros x y -> ->. cbn [pcall_ends returned] in Nc. cbn [hexec] in Y. unfold bind, hreplace in Y. apply Nat.eqb_neq in Nc. rewrite Nc in Y.
      destruct (nth_error h0 (h_ref x)) as [cx|]; [|discriminate Y]. destruct (nth_error h0 (h_ref y)) as [cy|]; [|discriminate Y].
      destruct (c_poisoned cx); [discriminate Y|]. destruct (c_poisoned cy); discriminate Y.
    + unfold assign, pkt_add, bind in X. rewrite clone_same in X. injection X as <- <- <-. auto.
    + unfold assign, pkt_clone, bind in X. rewrite clone_same in X. injection X as <- <- <-. auto.
Qed.

(** [to_vec] when it returns. *)
Lemma concat_ret l : forall h v h', concat_vecs l h = (Ret v, h') ->
  v = flat_map (fun x => data h (h_ref x)) l /\ Forall (fun x => ~ poisoned_at h (h_ref x)) l.
Proof.
  induction l as [|x t IH]; intros h v h' E; cbn [concat_vecs flat_map] in *; [injection E as <- _; auto|].
  unfold bind at 1 in E. destruct (hto_vec x h) as [[a| | | |] h1] eqn:X; try discriminate E.
  unfold bind in E. destruct (concat_vecs t h1) as [[b| | | |] h2] eqn:Y; try discriminate E. injection E as <- _.
  assert (h1 = h) as ->.
  { unfold hto_vec, with_lock in X. destruct (nth_error h (h_ref x)) as [[d [|]]|] eqn:Z; try discriminate X. injection X as _ <-.
    apply upd_same. exact Z. }
  destruct (IH _ _ _ Y) as [-> F]. rewrite (to_vec_ret _ _ _ _ X). split; auto. constructor; auto. eapply to_vec_live; eauto.
Qed.

(** ** Calls that return poison nothing *)

Definition stays {A} (x : M A) : Prop := forall h a h', unpoisoned h -> x h = (Ret a, h') -> unpoisoned h'.
Lemma stays_ret {A} (a : A) : stays (ret a).
Proof. intros h b h' U E. injection E as _ <-. exact U. Qed.
Lemma stays_lift {A} (o : out A) : stays (lift o).
Proof. intros h b h' U E. injection E as _ <-. exact U. Qed.
Lemma stays_bind {A B} (x : M A) (k : A -> M B) : stays x -> (forall a, stays (k a)) -> stays (bind x k).
Proof. intros X K h b h' U E. unfold bind in E. destruct (x h) as [[a| | | |] h1] eqn:Y; try discriminate E. eapply K; [|exact E]. eapply X; eauto. Qed.
Lemma unpoisoned_upd h r d : unpoisoned h -> unpoisoned (upd h r (Cell d false)).
Proof. unfold unpoisoned. revert r. induction h as [|c t IH]; intros r U; [destruct r; exact U|]. inversion U; subst. destruct r; constructor; auto. Qed.
Lemma stays_lock {A} r (b : list N -> out A * list N) : stays (with_lock r b).
Proof.
  intros h a h' U E. unfold with_lock in E. destruct (nth_error h r) as [c|]; [|discriminate E]. destruct (c_poisoned c); [discriminate E|].
  destruct (b (c_data c)) as [[a0|e| | |] d]; try discriminate E. injection E as _ <-. apply unpoisoned_upd, U.
Qed.
Lemma stays_get r i n : forall v, stays (hget_loop r i n v).
Proof. revert i. induction n as [|n IH]; intros i v; cbn [hget_loop]; [apply stays_ret|]. cbv zeta. apply stays_bind; [apply stays_lock|]. intros; apply IH. Qed.
Lemma stays_bits m x a b : stays (hbit_range m x a b).
Proof. apply stays_bind; [apply stays_get|intros; apply stays_lift]. Qed.
Lemma stays_set r l n : forall v, stays (hset_loop r l n v).
Proof. induction n as [|n IH]; intros v; cbn [hset_loop]; [apply stays_ret|]. apply stays_bind; [apply stays_lock|]. intros; apply IH. Qed.
Lemma stays_bytes m x n : forall i, stays (hbytes_loop m x i n).
Proof.
  induction n as [|n IH]; intros i; cbn [hbytes_loop]; [apply stays_ret|]. apply stays_bind; [apply stays_bits|]. intros.
  apply stays_bind; [apply IH|]. intros; apply stays_ret.
Qed.
Lemma stays_set_bytes x v n : forall i k, stays (hset_bytes_loop x i n v k).
Proof.
  induction n as [|n IH]; intros i k; cbn [hset_bytes_loop]; [apply stays_ret|]. apply stays_bind; [apply stays_lift|]. intros.
  apply stays_bind; [apply stays_set|]. intros; apply IH.
Qed.
Lemma stays_alloc d : stays (alloc d).
Proof. intros h a h' U E. injection E as _ <-. apply Forall_app. split; auto. Qed.
Lemma stays_replace x y : stays (hreplace x y).
Proof.
  intros h a h' U E. unfold hreplace in E. destruct (nth_error h (h_ref x)) as [cx|]; [|discriminate E]. destruct (nth_error h (h_ref y)) as [cy|]; [|discriminate E].
  destruct (c_poisoned cx); [discriminate E|]. destruct (_ =? _)%nat; [discriminate E|]. destruct (c_poisoned cy); [discriminate E|].
  injection E as _ <-. apply unpoisoned_upd, U.
Qed.
Lemma stays_hexec m o : stays (hexec m o).
Proof.
  destruct o; cbn [hexec]; (apply stays_bind; [|intros; apply stays_ret]); try (apply stays_bind; [apply stays_alloc|intros; apply stays_ret]).
  - apply stays_ret.
  - apply stays_bits.
  - apply stays_set.
  - apply stays_bits.
  - apply stays_set.
  - apply stays_bind; [apply stays_lift|intros; apply stays_bytes].
  - apply stays_bind; [apply stays_lift|intros; apply stays_set_bytes].
  - apply stays_replace.
  - apply stays_lock.
Qed.
Lemma session_stays m : forall cs p h bs p' h', unpoisoned h -> session m cs p h = (bs, (p', h')) -> Forall (fun b => b = true) bs -> unpoisoned h'.
Proof.
  induction cs as [|c t IH]; intros p h bs p' h' U E R; cbn [session] in E; [injection E as _ _ <-; exact U|].
  destruct (pcall_run m c p h) as [b [p1 h1]] eqn:X. destruct (session m t p1 h1) as [bs1 s1] eqn:Y. injection E as <- ->.
  inversion R; subst. eapply IH; [|exact Y|auto].
  destruct c as [o|[x|T d]|[x|T d]| |i|d|q|]; cbn [pcall_run] in X; try (injection X as _ <-; exact U).
  - destruct (hexec m o h) as [[v| | | |] h2] eqn:Z; try discriminate X. injection X as _ <-. eapply stays_hexec; eauto.
  - discriminate X.
  - discriminate X.
  - unfold assign, pkt_add, bind in X. rewrite clone_same in X. injection X as _ <-. exact U.
  - unfold assign, pkt_clone, bind in X. rewrite clone_same in X. injection X as _ <-. exact U.
Qed.
Lemma concat_returns l : forall h, unpoisoned h -> Forall (fun x => (h_ref x < length h)%nat) l ->
  concat_vecs l h = (Ret (flat_map (fun x => data h (h_ref x)) l), h).
Proof.
  induction l as [|x t IH]; intros h U L; cbn [concat_vecs flat_map]; auto. inversion L; subst.
  destruct (nth_error h (h_ref x)) as [[d p]|] eqn:E; [|apply nth_error_None in E; lia].
  assert (p = false) as ->.
  { unfold unpoisoned in U. rewrite Forall_forall in U. apply nth_error_In in E. apply (U _ E). }
  unfold bind at 1, hto_vec, with_lock. rewrite E. cbn [c_poisoned c_data]. rewrite upd_same by auto. unfold bind. rewrite IH by auto.
  unfold ret. unfold data at 2. rewrite E. reflexivity.
Qed.
