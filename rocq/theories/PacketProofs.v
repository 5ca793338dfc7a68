(** PacketProofs.v -- lemmas on packets as lists of headers. *)

From Coq Require Import Lia.
From Verif Require Import Base Bits Layout Heap Packet Spec BitsProofs HeapProofs.
Open Scope N_scope.

(** The headers [l] hold the byte strings [ds]. *)
Definition hold (h : heap) (l : list hdr) (ds : list (list N)) : Prop :=
  Forall2 (fun x d => cell_at h (h_ref x) d) l ds.

Lemma hold_fun h l a b : hold h l a -> hold h l b -> a = b.
Proof.
  intros H. revert b; induction H; intros b Hb; inversion Hb; subst; auto.
  f_equal; [eapply cell_at_fun; eauto|auto].
Qed.

Lemma hold_app h l1 l2 d1 d2 : hold h l1 d1 -> hold h l2 d2 -> hold h (l1 ++ l2) (d1 ++ d2).
Proof. apply Forall2_app. Qed.

Lemma hold_ext h h' l ds : hold h l ds ->
  (forall x, In x l -> nth_error h' (h_ref x) = nth_error h (h_ref x)) -> hold h' l ds.
Proof.
  induction 1; intros E; constructor.
  - unfold cell_at. rewrite E by (left; auto). auto.
  - apply IHForall2. intros; apply E; right; auto.
Qed.

Lemma hold_app_heap h k l ds : hold h l ds -> hold (h ++ k) l ds.
Proof. induction 1; constructor; auto. apply cell_at_app; auto. Qed.

Lemma concat_vecs_hold h l ds : hold h l ds -> concat_vecs l h = (Ret (concat ds), h).
Proof.
  induction 1 as [|x d l ds Hx Hl IH]; [reflexivity|].
  cbn [concat_vecs concat]. unfold bind at 1. rewrite (hto_vec_cell _ _ _ Hx).
  unfold bind. rewrite IH. reflexivity.
Qed.

Lemma to_vec_hold p h ds : hold h (p_hdrs p) ds -> to_vec p h = (Ret (concat ds ++ p_payload p), h).
Proof. intros H. unfold to_vec, bind. rewrite (concat_vecs_hold _ _ _ H). reflexivity. Qed.

Lemma with_lock_ret {A} r (body : list N -> out A * list N) h v h' :
  with_lock r body h = (Ret v, h') -> exists d, cell_at h r d.
Proof.
  unfold with_lock, cell_at. destruct (nth_error h r) as [[d p]|]; [|discriminate].
  destruct p; simpl; [discriminate|]. eauto.
Qed.

Lemma concat_vecs_inv l h v h' : concat_vecs l h = (Ret v, h') ->
  h' = h /\ exists ds, hold h l ds /\ v = concat ds.
Proof.
  revert v h'; induction l as [|x l IH]; intros v h' E.
  - injection E as <- <-. split; auto. exists []. split; [constructor|auto].
  - cbn [concat_vecs] in E. unfold bind at 1 in E. destruct (hto_vec x h) as [o h1] eqn:Ex.
    destruct o; try discriminate.
    destruct (with_lock_ret _ _ _ _ _ Ex) as [d Hd]. rewrite (hto_vec_cell _ _ _ Hd) in Ex.
    injection Ex as <- <-. unfold bind in E.
    destruct (concat_vecs l h) as [o h2] eqn:El. destruct o; try discriminate.
    injection E as <- <-. destruct (IH _ _ eq_refl) as (-> & ds & Hds & ->).
    split; auto. exists (d :: ds). split; [constructor; auto|reflexivity].
Qed.

Lemma to_vec_inv p h v h' : to_vec p h = (Ret v, h') ->
  h' = h /\ exists ds, hold h (p_hdrs p) ds /\ v = concat ds ++ p_payload p.
Proof.
  unfold to_vec, bind. destruct (concat_vecs (p_hdrs p) h) as [o h1] eqn:E.
  destruct o; try discriminate. intros H. injection H as <- <-.
  destruct (concat_vecs_inv _ _ _ _ E) as (-> & ds & Hds & ->). eauto.
Qed.

Lemma clone_hdrs_run l h : clone_hdrs l h = (Ret l, h).
Proof.
  induction l as [|[T r] l IH]; [reflexivity|]. cbn [clone_hdrs]. unfold bind at 1. cbn.
  unfold bind. rewrite IH. reflexivity.
Qed.

Lemma pkt_add_run p q h : pkt_add p q h = (Ret (Pkt (p_hdrs p ++ p_hdrs q) (p_payload p)), h).
Proof. unfold pkt_add, bind. rewrite clone_hdrs_run. reflexivity. Qed.

Lemma pkt_clone_run p h : pkt_clone p h = (Ret p, h).
Proof. unfold pkt_clone, bind. rewrite clone_hdrs_run. destruct p; reflexivity. Qed.

Lemma matching_le a b : (matching a b <= length a /\ matching a b <= length b)%nat.
Proof.
  revert b; induction a as [|x a IH]; destruct b as [|y b]; simpl; try lia.
  specialize (IH b). destruct (N.eqb x y); lia.
Qed.

Lemma matching_prefix a b : matching a b = length b <-> firstn (length b) a = b.
Proof.
  revert b; induction a as [|x a IH]; destruct b as [|y b]; simpl; try tauto; try (split; congruence).
  pose proof (matching_le a b). specialize (IH b). destruct (N.eqb_spec x y) as [->|E].
  - split; intros H0.
    + f_equal. apply IH. simpl in H0. lia.
    + injection H0 as H1. simpl. f_equal. apply IH; auto.
  - split; [simpl; lia|intros H0; injection H0; congruence].
Qed.

Lemma compare_with_slice_run p b h v : to_vec p h = (Ret v, h) ->
  exists r, compare_with_slice p b h = (Ret r, h) /\
    (r = true <-> length b = pkt_len p /\ firstn (length b) v = b).
Proof.
  intros E. unfold compare_with_slice.
  destruct (Nat.eqb_spec (pkt_len p) (length b)) as [L|L]; cbn [negb].
  - unfold bind. rewrite E. rewrite L.
    destruct (Nat.eqb_spec (length b) (matching v b)) as [Mt|Mt]; cbn [negb orb].
    + exists true. split; [reflexivity|]. split; auto. intros _. split; auto.
      apply matching_prefix. auto.
    + exists false. split; [reflexivity|]. split; [discriminate|]. intros [_ H].
      apply matching_prefix in H. congruence.
  - exists false. split; [reflexivity|]. split; [discriminate|]. intros [H _]. congruence.
Qed.

Lemma find_name_some name l x :
  find_name name l = Some x <->
  exists l1 l2, l = l1 ++ x :: l2 /\ hname x = name /\ Forall (fun y => hname y <> name) l1.
Proof.
  induction l as [|y l IH]; cbn [find_name].
  - split; [discriminate|]. intros (l1 & l2 & E & _). destruct l1; discriminate.
  - destruct (String.eqb_spec (hname y) name) as [E|E].
    + split.
      * intros H. injection H as <-. exists [], l. repeat split; auto.
      * intros (l1 & l2 & E1 & E2 & E3). destruct l1 as [|z l1]; injection E1 as <- _; auto.
        apply Forall_cons_iff in E3 as [E3 _]. congruence.
    + rewrite IH. split.
      * intros (l1 & l2 & -> & E2 & E3). exists (y :: l1), l2. repeat split; auto.
      * intros (l1 & l2 & E1 & E2 & E3). destruct l1 as [|z l1].
        -- injection E1 as <- _. congruence.
        -- injection E1 as <- ->. apply Forall_cons_iff in E3 as [_ E3]. eauto.
Qed.

Lemma find_name_none name l : find_name name l = None <-> Forall (fun y => hname y <> name) l.
Proof.
  induction l as [|y l IH]; cbn [find_name].
  - split; auto.
  - destruct (String.eqb_spec (hname y) name) as [E|E].
    + split; [discriminate|]. intros H. apply Forall_cons_iff in H as [H _]. congruence.
    + rewrite IH. split; [constructor; auto|]. intros H. apply Forall_cons_iff in H. tauto.
Qed.
