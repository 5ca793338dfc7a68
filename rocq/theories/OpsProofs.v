(** OpsProofs.v -- frame, poison and byte-range facts over histories of header operations. *)

From Coq Require Import Lia.
From Verif Require Import Base Bits Layout Heap Ops Spec BitsProofs HeapProofs.
Open Scope N_scope.

(** A computation that, from any heap, grows it or touches only buffer [r] and
    never un-poisons anything. *)
Definition local {A} (r : option nat) (x : M A) : Prop :=
  forall h, let h' := snd (x h) in
    (length h <= length h')%nat /\
    (forall q, (q < length h)%nat -> Some q <> r -> nth_error h' q = nth_error h q) /\
    (forall q d, nth_error h q = Some (Cell d true) -> nth_error h' q = Some (Cell d true)).

Lemma local_refl {A} r (o : out A) : local r (fun h => (o, h)).
Proof. intros h; simpl; auto. Qed.

Lemma local_bind {A B} r (x : M A) (k : A -> M B) :
  local r x -> (forall a, local r (k a)) -> local r (bind x k).
Proof.
  intros Hx Hk h. unfold bind. specialize (Hx h). destruct (x h) as [[a|f| | |] h1]; simpl in *; auto.
  specialize (Hk a h1). destruct Hx as (L1 & F1 & P1). destruct Hk as (L2 & F2 & P2).
  repeat split; [lia| |].
  - intros q Hq Hr. rewrite F2 by (auto; lia). auto.
  - intros q d Hq. auto.
Qed.

Lemma local_with_lock {A} r (body : list N -> out A * list N) : local (Some r) (with_lock r body).
Proof.
  intros h. unfold with_lock. destruct (nth_error h r) as [[d p]|] eqn:E; simpl; auto.
  destruct p; simpl; auto. destruct (body d) as [o d'].
  assert (G : forall c, (length h <= length (upd h r c))%nat /\
    (forall q, (q < length h)%nat -> Some q <> Some r -> nth_error (upd h r c) q = nth_error h q) /\
    (forall q d0, nth_error h q = Some (Cell d0 true) -> nth_error (upd h r c) q = Some (Cell d0 true))).
  { intros c. rewrite upd_length. repeat split; auto.
    - intros q Hq Hn. apply cell_at_upd_other. congruence.
    - intros q d0 Hq. rewrite cell_at_upd_other; auto. congruence. }
  destruct o; simpl; apply G.
Qed.

Lemma local_weaken {A} r (x : M A) : local None x -> local r x.
Proof.
  intros H h. destruct (H h) as (L & F & P). repeat split; auto.
  intros q Hq _. apply F; auto. discriminate.
Qed.

Lemma local_alloc d : local None (alloc d).
Proof.
  intros h. unfold alloc. simpl. rewrite app_length. simpl. repeat split; [lia| |].
  - intros q Hq _. apply nth_error_app1; auto.
  - intros q d0 Hq. rewrite nth_error_app1; auto. apply nth_error_Some. congruence.
Qed.

Lemma local_hget_loop r i n v : local (Some r) (hget_loop r i n v).
Proof.
  revert i v; induction n; intros; cbn [hget_loop]; [apply local_refl|].
  apply local_bind; [apply local_with_lock|auto].
Qed.
Lemma local_hbit_range m x msb lsb : local (Some (h_ref x)) (hbit_range m x msb lsb).
Proof. apply local_bind; [apply local_hget_loop|intros; apply local_refl]. Qed.
Lemma local_hset_loop r i n v : local (Some r) (hset_loop r i n v).
Proof.
  revert v; induction n; intros; cbn [hset_loop]; [apply local_refl|].
  apply local_bind; [apply local_with_lock|auto].
Qed.
Lemma local_hbytes_loop m x i n : local (Some (h_ref x)) (hbytes_loop m x i n).
Proof.
  revert i; induction n; intros; cbn [hbytes_loop]; [apply local_refl|].
  apply local_bind; [apply local_hbit_range|]. intros a. apply local_bind; [apply IHn|].
  intros; apply local_refl.
Qed.
Lemma local_hset_bytes_loop x i n v k : local (Some (h_ref x)) (hset_bytes_loop x i n v k).
Proof.
  revert i k; induction n; intros; cbn [hset_bytes_loop]; [apply local_refl|].
  apply local_bind; [apply local_refl|]. intros a. apply local_bind; [apply local_hset_loop|auto].
Qed.
Lemma local_hreplace x y : local (Some (h_ref x)) (hreplace x y).
Proof.
  intros h. unfold hreplace.
  destruct (nth_error h (h_ref x)) as [[dx px]|] eqn:Ex; simpl; auto.
  destruct (nth_error h (h_ref y)) as [[dy py]|] eqn:Ey; simpl; auto.
  destruct px; simpl; auto.
  assert (G : forall c, (length h <= length (upd h (h_ref x) c))%nat /\
    (forall q, (q < length h)%nat -> Some q <> Some (h_ref x) -> nth_error (upd h (h_ref x) c) q = nth_error h q) /\
    (forall q d0, nth_error h q = Some (Cell d0 true) -> nth_error (upd h (h_ref x) c) q = Some (Cell d0 true))).
  { intros c. rewrite upd_length. repeat split; auto.
    - intros q Hq Hn. apply cell_at_upd_other. congruence.
    - intros q d0 Hq. rewrite cell_at_upd_other; auto. congruence. }
  destruct (h_ref x =? h_ref y)%nat; simpl; [apply G|]. destruct py; simpl; apply G.
Qed.

Lemma hexec_local m o : local (target o) (hexec m o).
Proof.
  destruct o; cbn [hexec target]; (apply local_bind; [|intros; apply local_refl]).
  - apply local_bind; [apply local_alloc|intros; apply local_refl].
  - apply local_bind; [apply local_alloc|intros; apply local_refl].
  - apply local_refl.
  - apply local_hbit_range.
  - apply local_hset_loop.
  - apply local_hbit_range.
  - apply local_hset_loop.
  - apply local_bind; [apply local_refl|intros; apply local_hbytes_loop].
  - apply local_bind; [apply local_refl|intros; apply local_hset_bytes_loop].
  - apply local_hreplace.
  - apply local_with_lock.
Qed.

Lemma hrun_cons m o os h :
  hrun m (o :: os) h =
  (fst (hexec m o h) :: fst (hrun m os (snd (hexec m o h))), snd (hrun m os (snd (hexec m o h)))).
Proof. cbn [hrun]. destruct (hexec m o h) as [r h1]. simpl. destruct (hrun m os h1). reflexivity. Qed.

(** A buffer no operation of the history targets keeps its contents. *)
Lemma hrun_frame m os h r : (r < length h)%nat ->
  (forall o, In o os -> target o <> Some r) ->
  nth_error (snd (hrun m os h)) r = nth_error h r.
Proof.
  revert h; induction os as [|o os IH]; intros h Hr Hn; [reflexivity|].
  rewrite hrun_cons. simpl. destruct (hexec_local m o h) as (L & F & _).
  rewrite IH.
  - apply F; auto. intros E. apply (Hn o); [left; auto|congruence].
  - lia.
  - intros o' Ho'. apply Hn. right; auto.
Qed.

(** Poison is for ever. *)
Lemma hrun_poison m os h r : poisoned_at h r -> poisoned_at (snd (hrun m os h)) r.
Proof.
  revert h; induction os as [|o os IH]; intros h Hp; [exact Hp|].
  rewrite hrun_cons. simpl. apply IH. destruct Hp as [d Hd]. exists d.
  destruct (hexec_local m o h) as (_ & _ & P). auto.
Qed.

Lemma hrun_length m os h : (length h <= length (snd (hrun m os h)))%nat.
Proof.
  revert h; induction os as [|o os IH]; intros h; [auto|].
  rewrite hrun_cons. simpl. destruct (hexec_local m o h) as (L & _ & _).
  specialize (IH (snd (hexec m o h))). lia.
Qed.

(** Every access that takes a lock panics on a poisoned buffer. *)
Lemma hreplace_poisoned_self x y h : poisoned_at h (h_ref x) -> (h_ref y < length h)%nat ->
  hreplace x y h = (Panic PPoison, h).
Proof.
  intros [d H] Hy. unfold hreplace. rewrite H.
  destruct (nth_error h (h_ref y)) eqn:E; [reflexivity|].
  apply nth_error_None in E. lia.
Qed.

(** ** set_bytes *)

(** The contents after writing octets [vs] from bit [i]. *)
Fixpoint woctets (d : list N) (i : nat) (vs : list N) : list N :=
  match vs with
  | [] => d
  | v :: t => woctets (wbits d i 8 v) (i + 8) t
  end.

Lemma woctets_length d i vs : length (woctets d i vs) = length d.
Proof. revert d i; induction vs; simpl; intros; auto. rewrite IHvs. apply (wbits_length d i 8). Qed.
Lemma woctets_ok d i vs : bytes_ok d -> bytes_ok (woctets d i vs).
Proof.
  revert d i; induction vs; simpl; intros; auto. apply IHvs. apply (wbits_ok d i 8); auto.
Qed.

Lemma bit_woctets_out d i vs j : (i + 8 * length vs <= 8 * length d)%nat ->
  (j < i \/ i + 8 * length vs <= j)%nat -> bit (woctets d i vs) j = bit d j.
Proof.
  revert d i; induction vs as [|v vs IH]; intros d i H Hj; [reflexivity|].
  cbn [woctets length] in *. rewrite IH.
  - rewrite bit_wbits by lia.
    destruct (Nat.leb_spec i j); destruct (Nat.ltb_spec j (i + 8)); simpl; auto; lia.
  - rewrite wbits_length. lia.
  - lia.
Qed.

Lemma octets_ext d d' i n : bytes_ok d -> bytes_ok d' -> length d = length d' ->
  (i + 8 * n <= 8 * length d)%nat ->
  (forall j, (i <= j < i + 8 * n)%nat -> bit d j = bit d' j) -> octets d i n = octets d' i n.
Proof.
  intros Hd Hd' Hl. revert i; induction n as [|n IH]; intros i H He; [reflexivity|].
  cbn [octets]. f_equal.
  - apply rv_ext; auto. lia. intros; apply He; lia.
  - apply IH; [lia|]. intros; apply He; lia.
Qed.

Lemma octets_woctets d i vs : bytes_ok d -> bytes_ok vs -> (i + 8 * length vs <= 8 * length d)%nat ->
  octets (woctets d i vs) i (length vs) = vs.
Proof.
  revert d i; induction vs as [|v vs IH]; intros d i Hd Hv H; [reflexivity|].
  cbn [woctets length octets] in *. apply Forall_cons_iff in Hv as [Hv1 Hv2]. f_equal.
  - rewrite (rv_ext _ (wbits d i 8 v)).
    + rewrite rv_wbits by (auto; lia). apply N.mod_small. exact Hv1.
    + apply woctets_ok. apply wbits_ok; auto.
    + apply wbits_ok; auto.
    + apply woctets_length.
    + rewrite woctets_length, wbits_length. lia.
    + intros j Hj. apply bit_woctets_out.
      * rewrite wbits_length. lia.
      * lia.
  - apply IH; auto. apply wbits_ok; auto. rewrite wbits_length. lia.
Qed.

Lemma hset_bytes_loop_in x h d i vs ws k : cell_at h (h_ref x) d -> bytes_ok d ->
  (i + 8 * length vs <= 8 * length d)%nat ->
  (forall j, (j < length vs)%nat -> nth_error ws (k + j) = nth_error vs j) ->
  hset_bytes_loop x i (length vs) ws k h = (Ret tt, upd h (h_ref x) (Cell (woctets d i vs) false)).
Proof.
  revert h d i k; induction vs as [|v vs IH]; intros h d i k H Hd Hr Hw; cbn [length hset_bytes_loop woctets].
  - rewrite upd_same by auto. reflexivity.
  - cbn [length] in *. pose proof (Hw 0%nat ltac:(lia)) as H0. rewrite Nat.add_0_r in H0. simpl in H0.
    unfold bind at 1. unfold lift, index. rewrite H0.
    unfold bind. rewrite (hset_bit_range_in x h d) by (auto; lia).
    replace (i + 7 - i + 1)%nat with 8%nat by lia.
    erewrite IH; [rewrite upd_upd; reflexivity| | | |].
    + unfold cell_at. eapply cell_at_upd; eauto.
    + apply (wbits_ok d i 8); auto.
    + rewrite (wbits_length d i 8). lia.
    + intros j Hj. replace (S k + j)%nat with (k + S j)%nat by lia. apply Hw. lia.
Qed.
