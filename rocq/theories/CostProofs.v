(** CostProofs.v -- the steps of every call, counted along the ways through its program. *)

From Coq Require Import Lia.
From Verif Require Import Base Bits Types Layout Heap Packet Text Build Utils Slow Fast Show Ops Client Threads Spec ClientSpec
  ClientProofs ThreadsSpec ThreadsRel ThreadsProofs CostSpec.
Open Scope N_scope.

(** ** Ways through a program *)

(** Whatever is found in the buffers, and whatever lock turns out to be poisoned. *)
Definition bad {A} (o : out A) : Prop := forall v, o <> Ret v.
Inductive path {A} : act A -> nat -> nat -> out A -> Prop :=
| P_done o : path (ADone o) 0 0 o
| P_alloc d k r a l o : path (k r) a l o -> path (AAlloc d k) (S a) l o
| P_read r i k b a l o : path (k b) a l o -> path (ARead r i k) a (S l) o
| P_read_bad r i k o : bad o -> path (ARead r i k) 0 1 o
| P_write r i v k a l o : path k a l o -> path (AWrite r i v k) a (S l) o
| P_write_bad r i v k o : bad o -> path (AWrite r i v k) 0 1 o
| P_copy r k d a l o : path (k d) a l o -> path (ACopy r k) a (S l) o
| P_copy_bad r k o : bad o -> path (ACopy r k) 0 1 o
| P_repl x y k a l o : path k a l o -> path (ARepl x y k) a (S (S l)) o
| P_repl_bad1 x y k o : bad o -> path (ARepl x y k) 0 1 o
| P_repl_bad2 x y k o : bad o -> path (ARepl x y k) 0 2 o.

Lemma path_some {A} (p : act A) : exists a l o, path p a l o.
Proof.
  assert (B : bad (@Panic A PPoison)) by (intros v [=]).
  induction p as [o|d k IH|r i k IH|r i v k IH|r k IH|x y k IH].
  - exists O, O, o. constructor.
  - destruct (IH O) as (a & l & o & P). exists (S a), l, o. econstructor; eauto.
  - eexists _, _, _. eapply P_read_bad, B.
  - eexists _, _, _. eapply P_write_bad, B.
  - eexists _, _, _. eapply P_copy_bad, B.
  - eexists _, _, _. eapply P_repl_bad1, B.
Qed.

(** [p] costs at most [n], and [S v a l] if it returns [v]. *)
Definition spent {A} (p : act A) (S : A -> nat -> nat -> Prop) (n : nat) : Prop :=
  forall a l o, path p a l o -> (a + l <= n)%nat /\ forall v, o = Ret v -> S v a l.

Lemma path_bind {A B} (p : act A) (f : A -> act B) a l o : path (abind p f) a l o ->
  (exists a1 l1 v a2 l2, path p a1 l1 (Ret v) /\ path (f v) a2 l2 o /\ a = (a1 + a2)%nat /\ l = (l1 + l2)%nat) \/
  (exists o', path p a l o' /\ bad o' /\ bad o).
Proof.
  revert a l o. induction p as [o0|d k IH|r i k IH|r i v k IH|r k IH|x y k IH]; intros a l o P; cbn [abind] in P.
  - destruct o0 as [v|e| | |].
    + left. exists O, O, v, a, l. repeat split; auto. constructor.
    + right. inversion P; subst. exists (Panic e). split; [constructor|split; intros v [=]].
    + right. inversion P; subst. exists UB. split; [constructor|split; intros v [=]].
    + right. inversion P; subst. exists Hang. split; [constructor|split; intros v [=]].
    + right. inversion P; subst. exists Fuel. split; [constructor|split; intros v [=]].
  - inversion P; subst.
    match goal with H : path _ _ _ _ |- _ => destruct (IH _ _ _ _ H) as [(a1 & l1 & v & a2 & l2 & P1 & P2 & -> & ->)|(o' & P1 & B1 & B2)] end.
    + left. exists (S a1), l1, v, a2, l2. repeat split; auto. econstructor; eauto.
    + right. exists o'. split; [econstructor; eauto|auto].
  - inversion P; subst.
    + match goal with H : path _ _ _ _ |- _ => destruct (IH _ _ _ _ H) as [(a1 & l1 & v & a2 & l2 & P1 & P2 & -> & ->)|(o' & P1 & B1 & B2)] end.
      * left. exists a1, (S l1), v, a2, l2. repeat split; auto. econstructor; eauto.
      * right. exists o'. split; [econstructor; eauto|auto].
    + right. exists (Panic PPoison). split; [apply P_read_bad; intros v [=]|split; [intros v [=]|auto]].
  - inversion P; subst.
    + match goal with H : path _ _ _ _ |- _ => destruct (IH _ _ _ H) as [(a1 & l1 & v' & a2 & l2 & P1 & P2 & -> & ->)|(o' & P1 & B1 & B2)] end.
      * left. exists a1, (S l1), v', a2, l2. repeat split; auto. econstructor; eauto.
      * right. exists o'. split; [econstructor; eauto|auto].
    + right. exists (Panic PPoison). split; [apply P_write_bad; intros q [=]|split; [intros q [=]|auto]].
  - inversion P; subst.
    + match goal with H : path _ _ _ _ |- _ => destruct (IH _ _ _ _ H) as [(a1 & l1 & v & a2 & l2 & P1 & P2 & -> & ->)|(o' & P1 & B1 & B2)] end.
      * left. exists a1, (S l1), v, a2, l2. repeat split; auto. econstructor; eauto.
      * right. exists o'. split; [econstructor; eauto|auto].
    + right. exists (Panic PPoison). split; [apply P_copy_bad; intros v [=]|split; [intros v [=]|auto]].
  - inversion P; subst.
    + match goal with H : path _ _ _ _ |- _ => destruct (IH _ _ _ H) as [(a1 & l1 & v & a2 & l2 & P1 & P2 & -> & ->)|(o' & P1 & B1 & B2)] end.
      * left. exists a1, (S (S l1)), v, a2, l2. repeat split; auto. econstructor; eauto.
      * right. exists o'. split; [econstructor; eauto|auto].
    + right. exists (Panic PPoison). split; [apply P_repl_bad1; intros v [=]|split; [intros v [=]|auto]].
    + right. exists (Panic PPoison). split; [apply P_repl_bad2; intros v [=]|split; [intros v [=]|auto]].
Qed.

Lemma spent_bind {A B} (p : act A) (f : A -> act B) S1 n1 S n : spent p S1 n1 -> (n1 <= n)%nat ->
  (forall v a l, S1 v a l -> (a + l <= n1)%nat -> spent (f v) (fun w a2 l2 => S w (a + a2)%nat (l + l2)%nat) (n - (a + l))) ->
  spent (abind p f) S n.
Proof.
  intros H1 L H2 a l o P. destruct (path_bind _ _ _ _ _ P) as [(a1 & l1 & v & a2 & l2 & P1 & P2 & -> & ->)|(o' & P1 & B1 & B2)].
  - destruct (H1 _ _ _ P1) as (L1 & Q). specialize (Q v eq_refl). destruct (H2 _ _ _ Q L1 _ _ _ P2) as (L2 & Q2).
    split; [lia|exact Q2].
  - destruct (H1 _ _ _ P1) as (L1 & _). split; [lia|]. intros v E. destruct (B2 v E).
Qed.
Lemma spent_done {A} (o : out A) (S : A -> nat -> nat -> Prop) n : (forall v, o = Ret v -> S v O O) -> spent (ADone o) S n.
Proof. intros H a l o' P. inversion P; subst. split; [lia|exact H]. Qed.
Lemma spent_ret {A} (v : A) (S : A -> nat -> nat -> Prop) n : S v O O -> spent (aret v) S n.
Proof. intros H. apply spent_done. intros w [= <-]. exact H. Qed.
Lemma spent_fail {A} e (S : A -> nat -> nat -> Prop) n : spent (afail e) S n.
Proof. apply spent_done. intros w [=]. Qed.
Lemma spent_weak {A} (p : act A) (S1 S : A -> nat -> nat -> Prop) n1 n :
  spent p S1 n1 -> (n1 <= n)%nat -> (forall v a l, S1 v a l -> S v a l) -> spent p S n.
Proof. intros H L W a l o P. destruct (H _ _ _ P) as (L1 & Q). split; [lia|auto]. Qed.

(** Exactly [a] and [l]. *)
Definition just {A} (a l : nat) : A -> nat -> nat -> Prop := fun _ a' l' => a' = a /\ l' = l.
(** A packet whose headers are all new but for [c]. *)
Definition built (c l : nat) : packet -> nat -> nat -> Prop := fun p a' l' => (a' + c = hdrs p)%nat /\ l' = l.

Create HintDb sp discriminated.
#[global] Hint Constants Opaque : sp.
Ltac sp_norm := cbv beta delta [just built] in *; cbn [fst snd] in *;
  repeat match goal with H : _ /\ _ |- _ => destruct H end.
Ltac sp := 
  repeat (sp_norm;
  first
  [ match goal with |- spent (aret _) _ _ => apply spent_ret end
  | match goal with |- spent (afail _) _ _ => apply spent_fail end
  | match goal with |- spent (abind (aret ?v) ?f) ?S ?n => change (spent (f v) S n); cbv beta end
  | match goal with |- spent (alift _) _ _ => apply spent_done; intros ? ? end
  | match goal with |- spent (abind (if ?b then _ else _) _) _ _ => destruct b eqn:? end
  | match goal with |- spent (if ?b then _ else _) _ _ => destruct b eqn:? end
  | match goal with |- spent (abind _ _) _ _ => eapply spent_bind; [solve [eauto 3 with sp]|lia|intros] end
  | match goal with |- spent (abind (alift ?o) _) _ _ =>
      apply (spent_bind _ _ (fun v a l => o = Ret v /\ a = O /\ l = O) O); [apply spent_done; intros; auto|lia|intros] end
  | eapply spent_weak; [solve [eauto 3 with sp]|lia|intros] ]);
  sp_norm; subst; repeat split; try lia; auto.

(** ** Headers *)

Lemma sp_alloc d : spent (a_alloc d) (just 1 0) 1.
Proof. intros a l o P. inversion P; subst. match goal with H : path _ _ _ _ |- _ => inversion H; subst end.
  split; [lia|]. intros; split; reflexivity. Qed.
Lemma sp_hget_loop r n : forall i v, spent (a_hget_loop r i n v) (just 0 n) n.
Proof.
  induction n as [|n IH]; intros i v; cbn [a_hget_loop]; [sp|]. intros a l o P. inversion P; subst.
  - match goal with H : path _ _ _ _ |- _ => destruct (IH _ _ _ _ _ H) as (L & Q) end.
    split; [lia|]. intros w E. destruct (Q w E). split; lia.
  - split; [lia|]. intros w E. match goal with B : bad _ |- _ => destruct (B w E) end.
Qed.
Lemma sp_hset_loop r lsb n : forall v, spent (a_hset_loop r lsb n v) (just 0 n) n.
Proof.
  induction n as [|n IH]; intros v; cbn [a_hset_loop]; [sp|]. intros a l o P. inversion P; subst.
  - match goal with H : path _ _ _ _ |- _ => destruct (IH _ _ _ _ H) as (L & Q) end.
    split; [lia|]. intros w E. destruct (Q w E). split; lia.
  - split; [lia|]. intros w E. match goal with B : bad _ |- _ => destruct (B w E) end.
Qed.
Lemma sp_hto_vec x : spent (a_hto_vec x) (just 0 1) 1.
Proof.
  intros a l o P. inversion P; subst.
  - match goal with H : path (aret _) _ _ _ |- _ => inversion H; subst end. split; [lia|]. intros; split; reflexivity.
  - split; [lia|]. intros w E. match goal with B : bad _ |- _ => destruct (B w E) end.
Qed.
Lemma sp_hreplace x y : spent (a_hreplace x y) (just 0 2) 2.
Proof.
  intros a l o P. inversion P; subst.
  - match goal with H : path (aret _) _ _ _ |- _ => inversion H; subst end. split; [lia|]. intros; split; reflexivity.
  - split; [lia|]. intros w E. match goal with B : bad _ |- _ => destruct (B w E) end.
  - split; [lia|]. intros w E. match goal with B : bad _ |- _ => destruct (B w E) end.
Qed.
#[global] Hint Resolve sp_alloc sp_hget_loop sp_hset_loop sp_hto_vec sp_hreplace : sp.

Lemma bits_range msb lsb : range_len msb lsb = bits msb lsb.
Proof. unfold range_len, bits. destruct (Nat.ltb_spec msb lsb); lia. Qed.
Lemma sp_hbit_range m x msb lsb : spent (a_hbit_range m x msb lsb) (just 0 (bits msb lsb)) (bits msb lsb).
Proof. unfold a_hbit_range. rewrite bits_range. sp. Qed.
Lemma sp_hset_bit_range x msb lsb v : spent (a_hset_bit_range x msb lsb v) (just 0 (bits msb lsb)) (bits msb lsb).
Proof. unfold a_hset_bit_range. rewrite bits_range. eauto with sp. Qed.
#[global] Hint Resolve sp_hbit_range sp_hset_bit_range : sp.
Lemma sp_hget m x f : spent (a_hget m x f) (just 0 (field_bits f)) (field_bits f).
Proof. apply sp_hbit_range. Qed.
Lemma sp_hset x f v : spent (a_hset x f v) (just 0 (field_bits f)) (field_bits f).
Proof. apply sp_hset_bit_range. Qed.
Lemma sp_hfrom T d : spent (a_hfrom T d) (fun x a l => h_ty x = T /\ a = 1%nat /\ l = O) 1.
Proof. unfold a_hfrom. sp. Qed.
Lemma sp_hnew T : spent (a_hnew T) (just 1 0) 1.
Proof. unfold a_hnew. sp. Qed.
#[global] Hint Resolve sp_hfrom sp_hnew : sp.
#[global] Hint Extern 5 (spent (a_hget _ _ _) _ _) => apply sp_hget : sp.
#[global] Hint Extern 5 (spent (a_hset _ _ _) _ _) => apply sp_hset : sp.
(** The fields the library itself uses. *)
Lemma sp_hget_n m x f n : field_bits f = n -> spent (a_hget m x f) (just 0 n) n.
Proof. intros <-. apply sp_hget. Qed.
Lemma sp_hset_n x f v n : field_bits f = n -> spent (a_hset x f v) (just 0 n) n.
Proof. intros <-. apply sp_hset. Qed.
#[global] Hint Extern 0 (spent (a_hget ?m ?x ?f) _ _) =>
  is_const f; let n := eval vm_compute in (field_bits f) in exact (sp_hget_n m x f n eq_refl) : sp.
#[global] Hint Extern 0 (spent (a_hset ?x ?f ?v) _ _) =>
  is_const f; let n := eval vm_compute in (field_bits f) in exact (sp_hset_n x f v n eq_refl) : sp.

Lemma bits_octet i : bits (i + 7) i = 8%nat.
Proof. unfold bits. destruct (Nat.ltb_spec (i + 7) i); lia. Qed.
Lemma sp_octet m x i : spent (a_hbit_range m x (i + 7) i) (just 0 8) 8.
Proof. pose proof (sp_hbit_range m x (i + 7) i) as H. rewrite bits_octet in H. exact H. Qed.
Lemma sp_set_octet x i v : spent (a_hset_bit_range x (i + 7) i v) (just 0 8) 8.
Proof. pose proof (sp_hset_bit_range x (i + 7) i v) as H. rewrite bits_octet in H. exact H. Qed.
Lemma sp_hbytes_loop m x n : forall i, spent (a_hbytes_loop m x i n) (just 0 (8 * n)) (8 * n).
Proof.
  induction n as [|n IH]; intros i; cbn [a_hbytes_loop]; [sp|].
  eapply spent_bind; [apply sp_octet|lia|intros]. sp_norm. eapply spent_bind; [apply IH|lia|intros]. sp.
Qed.
Lemma sp_hset_bytes_loop x v n : forall i it, spent (a_hset_bytes_loop x i n v it) (just 0 (8 * n)) (8 * n).
Proof.
  induction n as [|n IH]; intros i it; cbn [a_hset_bytes_loop]; [sp|].
  apply (spent_bind _ _ (fun v a l => a = O /\ l = O) O); [apply spent_done; intros; auto|lia|intros]. sp_norm.
  eapply spent_bind; [apply sp_set_octet|lia|intros]. sp_norm. eapply spent_weak; [apply IH|lia|intros]. sp.
Qed.
Lemma step8_whole msb lsb : (bits msb lsb mod 8 = 0)%nat -> (8 * step8_len msb lsb)%nat = bits msb lsb.
Proof.
  intros H. unfold step8_len. rewrite bits_range. apply Nat.mod_divides in H; [|discriminate]. destruct H as (c & ->).
  replace (8 * c + 7)%nat with (7 + c * 8)%nat by lia. rewrite Nat.div_add by discriminate. change (7 / 8)%nat with O. lia.
Qed.
Lemma whole_bits msb lsb : (msb <? lsb)%nat = false -> whole_usize msb lsb = true -> (bits msb lsb mod 8 = 0)%nat.
Proof.
  unfold whole_usize, bits. intros -> E. apply andb_prop in E. destruct E as (E & E'). apply N.eqb_eq in E. apply Nat.eqb_eq in E'.
  subst lsb. rewrite Nat.sub_0_r. apply Nat2N.inj. rewrite Nat2N.inj_mod, Nat2N.inj_add, E. reflexivity.
Qed.

Lemma sp_hbytes m x msb lsb : spent (a_hbytes m x msb lsb) (just 0 (bits msb lsb)) (bits msb lsb).
Proof.
  unfold a_hbytes.
  apply (spent_bind _ _ (fun _ a l => (8 * step8_len msb lsb)%nat = bits msb lsb /\ a = O /\ l = O) O).
  - apply spent_done. intros [] E. repeat split. apply step8_whole. unfold bytes_guard in E.
    destruct (Nat.ltb_spec msb lsb) as [L|L].
    + unfold bits. destruct (Nat.ltb_spec msb lsb); [reflexivity|lia].
    + assert (X : (msb <? lsb)%nat = false) by (apply Nat.ltb_ge; lia). destruct (whole_usize msb lsb) eqn:W.
      * apply whole_bits; auto.
      * unfold bits. rewrite X. destruct (Nat.eqb_spec ((msb - lsb + 1) mod 8) 0); [auto|discriminate].
  - lia.
  - intros v a l (E & -> & ->) _. rewrite <- E. eapply spent_weak; [apply sp_hbytes_loop|lia|]. auto.
Qed.
Lemma sp_hset_bytes m x msb lsb v : spent (a_hset_bytes m x msb lsb v) (just 0 (bits msb lsb)) (bits msb lsb).
Proof.
  unfold a_hset_bytes.
  apply (spent_bind _ _ (fun _ a l => (8 * step8_len msb lsb)%nat = bits msb lsb /\ a = O /\ l = O) O).
  - apply spent_done. intros [] E. repeat split. apply step8_whole. unfold set_bytes_guard in E.
    destruct (Nat.ltb_spec msb lsb) as [L|L].
    + unfold bits. destruct (Nat.ltb_spec msb lsb); [reflexivity|lia].
    + assert (X : (msb <? lsb)%nat = false) by (apply Nat.ltb_ge; lia). destruct (whole_usize msb lsb) eqn:W.
      * apply whole_bits; auto.
      * unfold bits. rewrite X. destruct (Nat.eqb_spec (length v * 8) (msb - lsb + 1)) as [<-|]; [|discriminate].
        apply Nat.mod_mul. discriminate.
  - lia.
  - intros w a l (E & -> & ->) _. rewrite <- E. eapply spent_weak; [apply sp_hset_bytes_loop|lia|]. auto.
Qed.
#[global] Hint Resolve sp_hbytes sp_hset_bytes : sp.
Lemma sp_hexec m o : spent (a_hexec m o) (fun _ a l => a = match o with ONew _ | OFrom _ _ => 1%nat | _ => O end /\ l = hop_locks o)
  match o with ONew _ | OFrom _ _ => 1%nat | _ => hop_locks o end.
Proof. destruct o; cbn [a_hexec hop_locks]; unfold a_hclone; sp. Qed.

(** ** Printing *)

Lemma sp_hshow_octets m x n : forall i, spent (a_hshow_octets m x i n) (just 0 (8 * n)) (8 * n).
Proof.
  induction n as [|n IH]; intros i; cbn [a_hshow_octets]; [sp|].
  eapply spent_bind; [apply sp_octet|lia|intros]. sp_norm. eapply spent_bind; [apply IH|lia|intros]. sp.
Qed.
Lemma sp_hshow_field m x f : spent (a_hshow_field m x f) (just 0 (print_bits f)) (print_bits f).
Proof.
  unfold a_hshow_field, print_bits. set (w := f_width f).
  destruct (Nat.leb_spec w 8) as [L|L].
  - assert (E : (8 <? field_bits f)%nat = false).
    { apply Nat.ltb_ge. unfold field_bits, bits, w, f_width in *. destruct (Nat.ltb_spec (f_end f) (f_start f)); lia. }
    rewrite E. cbn [andb]. rewrite Nat.add_0_r. eapply spent_bind; [apply sp_hbit_range|unfold field_bits; lia|intros]. sp.
  - assert (E : field_bits f = w).
    { unfold field_bits, bits, w, f_width in *. destruct (Nat.ltb_spec (f_end f) (f_start f)); lia. }
    rewrite E. assert (E8 : (8 <? w)%nat = true) by (apply Nat.ltb_lt; lia). rewrite E8. cbn [andb].
    pose proof (Nat.div_mod w 8 ltac:(discriminate)) as D. destruct (Nat.eqb_spec (w mod 8) 0) as [Z|Z]; cbn [negb].
    + eapply spent_weak; [apply sp_hshow_octets|lia|]. intros v a l (-> & ->). split; lia.
    + eapply spent_bind; [apply sp_hshow_octets|lia|intros v a l (-> & ->) _].
      assert (B : bits (f_end f) (f_end f - w mod 8) = (w mod 8 + 1)%nat).
      { unfold bits. pose proof (Nat.mod_upper_bound w 8 ltac:(discriminate)). assert (w <= f_end f + 1)%nat by (unfold w, f_width; lia).
        destruct (Nat.ltb_spec (f_end f) (f_end f - w mod 8)); lia. }
      eapply spent_bind; [apply sp_hbit_range|rewrite B; lia|intros v' a l (-> & ->) _]. rewrite B. sp.
Qed.
Lemma sp_hshow_fields m x l : spent (a_hshow_fields m x l) (just 0 (total (map print_bits l))) (total (map print_bits l)).
Proof.
  induction l as [|f l IH]; cbn [a_hshow_fields map]; [sp|]. change (total (?a :: ?b)) with (a + total b)%nat.
  eapply spent_bind; [apply sp_hshow_field|lia|intros v a l' (-> & ->) _].
  eapply spent_bind; [apply IH|lia|intros v' a l' (-> & ->) _]. sp.
Qed.
Lemma sp_hshow m x : spent (a_hshow m x) (just 0 (print_hdr x)) (print_hdr x).
Proof. unfold a_hshow. eapply spent_bind; [apply sp_hshow_fields|unfold print_hdr; lia|intros v a l (-> & ->) _]. sp. Qed.
Lemma sp_show_hdrs m l : spent (a_show_hdrs m l) (just 0 (total (map print_hdr l))) (total (map print_hdr l)).
Proof.
  induction l as [|f l IH]; cbn [a_show_hdrs map]; [sp|]. change (total (?a :: ?b)) with (a + total b)%nat.
  eapply spent_bind; [apply sp_hshow|lia|intros v a l' (-> & ->) _].
  eapply spent_bind; [apply IH|lia|intros v' a l' (-> & ->) _]. sp.
Qed.

(** ** Packets *)

Lemma sp_concat_vecs l : spent (a_concat_vecs l) (just 0 (length l)) (length l).
Proof.
  induction l as [|f l IH]; cbn [a_concat_vecs length]; [sp|].
  eapply spent_bind; [apply sp_hto_vec|lia|intros v a l' (-> & ->) _].
  eapply spent_bind; [apply IH|lia|intros v' a l' (-> & ->) _]. sp.
Qed.
#[global] Hint Resolve sp_concat_vecs sp_hshow sp_show_hdrs sp_hexec : sp.
Lemma sp_to_vec p : spent (a_to_vec p) (just 0 (hdrs p)) (hdrs p).
Proof. unfold a_to_vec, hdrs. sp. Qed.
#[global] Hint Resolve sp_to_vec : sp.
Lemma sp_clone_hdrs l : spent (a_clone_hdrs l) (fun r a l' => length r = length l /\ a = O /\ l' = O) 0.
Proof.
  induction l as [|f l IH]; cbn [a_clone_hdrs]; [sp|]. unfold a_hclone, aret. cbn [abind].
  eapply spent_bind; [apply IH|lia|intros v' a l' (E & -> & ->) _]. apply spent_done. intros ? [= <-]. cbn [length]. auto.
Qed.
#[global] Hint Resolve sp_clone_hdrs : sp.
Lemma sp_pkt_add p q : spent (a_pkt_add p q) (fun r a l => hdrs r = (hdrs p + hdrs q)%nat /\ a = O /\ l = O) 0.
Proof. unfold a_pkt_add, hdrs. sp. cbn [p_hdrs]. rewrite app_length. lia. Qed.
Lemma sp_pkt_clone p : spent (a_pkt_clone p) (just 0 0) 0.
Proof. unfold a_pkt_clone, hdrs. sp. Qed.
Lemma sp_push_any p a : spent (a_push_any p a) (fun r a l => hdrs r = S (hdrs p) /\ a = O /\ l = O) 0.
Proof. unfold a_push_any, hdrs. destruct a; cbn [a_to_owned]; unfold aret, afail; cbn [abind]; apply spent_done; [intros ? [= <-]|intros ? [=]]; sp_norm; repeat split. cbn [p_hdrs]. rewrite app_length. cbn [length]. lia. Qed.
Lemma sp_insert_any p a : spent (a_insert_any p a) (just 0 0) 0.
Proof. unfold a_insert_any, hdrs. destruct a; cbn [a_to_owned]; unfold aret, afail; cbn [abind]; apply spent_done; [intros ? [= <-]|intros ? [=]]; sp_norm; repeat split. Qed.
Lemma sp_push p x : spent (a_push p x) (fun r a l => hdrs r = S (hdrs p) /\ a = O /\ l = O) 0.
Proof. apply sp_push_any. Qed.
Lemma sp_insert p x : spent (a_insert p x) (fun r a l => r = Pkt (x :: p_hdrs p) (p_payload p) /\ a = O /\ l = O) 0.
Proof. unfold a_insert, a_insert_any, aret. cbn [a_to_owned abind]. apply spent_done. intros ? [= <-]. auto. Qed.
Lemma sp_index_name p n : spent (a_index_name p n) (just 0 0) 0.
Proof. unfold a_index_name. destruct (find_name n (p_hdrs p)); sp. Qed.
Lemma sp_hdowncast T x : spent (a_hdowncast T x) (just 0 0) 0.
Proof. unfold a_hdowncast. sp. Qed.
#[global] Hint Resolve sp_pkt_add sp_pkt_clone sp_push_any sp_insert_any sp_push sp_insert sp_index_name sp_hdowncast : sp.
Lemma sp_compare_slice p d : spent (a_compare_with_slice p d)
  (just 0 (if (pkt_len p =? length d)%nat then hdrs p else 0)) (hdrs p).
Proof. unfold a_compare_with_slice. destruct (pkt_len p =? length d)%nat; cbn [negb]; sp. Qed.
Lemma sp_compare p q : spent (a_compare p q)
  (fun v a l => a = O /\ (l = (hdrs p + hdrs q)%nat \/ (l = hdrs q /\ v = false))) (hdrs p + hdrs q).
Proof.
  unfold a_compare. eapply spent_bind; [apply sp_to_vec|lia|intros d a l (-> & ->) _].
  unfold a_compare_with_slice. destruct (pkt_len p =? length d)%nat; cbn [negb].
  - sp.
  - apply spent_ret. split; [reflexivity|]. right. split; [lia|reflexivity].
Qed.
#[global] Hint Resolve sp_compare_slice sp_compare : sp.
Lemma sp_pkt_show m p : spent (a_pkt_show m p) (just 0 (total (map print_hdr (p_hdrs p)) + hdrs p)) (total (map print_hdr (p_hdrs p)) + hdrs p).
Proof. unfold a_pkt_show. sp. Qed.
#[global] Hint Resolve sp_pkt_show : sp.

(** ** Constructors *)

Lemma sp_make m ip6 b : spent (a_hmake_run m ip6 b) (just 1 (make_locks b)) (1 + make_locks b).
Proof.
  destruct b; cbn [a_hmake_run make_locks];
    unfold a_ethernet, a_dot3, a_llc, a_arp, a_vlan, a_ipv4, a_ipv6, a_udp, a_icmp, a_tcp, a_vxlan, a_gre, a_gre_chksum_offset,
      a_gre_sequence_number, a_gre_key, a_erspan2, a_erspan3, a_mpls, a_snap, w16; cbv zeta; solve [sp].
Qed.
Lemma sp_ethernet d s e : spent (a_ethernet d s e) (just 1 0) 1.
Proof. exact (sp_make Debug (fun _ => None) (H_ethernet d s e)). Qed.
Lemma sp_arp o a b c d : spent (a_arp o a b c d) (just 1 0) 1.
Proof. exact (sp_make Debug (fun _ => None) (H_arp o a b c d)). Qed.
Lemma sp_vlan p c v e : spent (a_vlan p c v e) (just 1 0) 1.
Proof. exact (sp_make Debug (fun _ => None) (H_vlan p c v e)). Qed.
Lemma sp_ipv4 m a b c d e f g h i : spent (a_ipv4 m a b c d e f g h i) (just 1 16) 17.
Proof. exact (sp_make m (fun _ => None) (H_ipv4 a b c d e f g h i)). Qed.
Lemma sp_ipv6 ip6 a b c d e f g : spent (a_ipv6 ip6 a b c d e f g) (just 1 0) 1.
Proof. exact (sp_make Debug ip6 (H_ipv6 a b c d e f g)). Qed.
Lemma sp_udp a b c : spent (a_udp a b c) (just 1 0) 1.
Proof. exact (sp_make Debug (fun _ => None) (H_udp a b c)). Qed.
Lemma sp_icmp a b : spent (a_icmp a b) (just 1 0) 1.
Proof. exact (sp_make Debug (fun _ => None) (H_icmp a b)). Qed.
Lemma sp_tcp a b c d e f g h i j : spent (a_tcp a b c d e f g h i j) (just 1 0) 1.
Proof. exact (sp_make Debug (fun _ => None) (H_tcp a b c d e f g h i j)). Qed.
Lemma sp_vxlan a : spent (a_vxlan a) (just 1 0) 1.
Proof. exact (sp_make Debug (fun _ => None) (H_vxlan a)). Qed.
Lemma sp_gre a b c d e f g h : spent (a_gre a b c d e f g h) (just 1 0) 1.
Proof. exact (sp_make Debug (fun _ => None) (H_gre a b c d e f g h)). Qed.
Lemma sp_gre_chksum_offset a b : spent (a_gre_chksum_offset a b) (just 1 0) 1.
Proof. exact (sp_make Debug (fun _ => None) (H_gre_chksum_offset a b)). Qed.
Lemma sp_gre_sequence_number a : spent (a_gre_sequence_number a) (just 1 0) 1.
Proof. exact (sp_make Debug (fun _ => None) (H_gre_sequence_number a)). Qed.
Lemma sp_gre_key a : spent (a_gre_key a) (just 1 0) 1.
Proof. exact (sp_make Debug (fun _ => None) (H_gre_key a)). Qed.
Lemma sp_erspan2 a b c d e f : spent (a_erspan2 a b c d e f) (just 1 0) 1.
Proof. exact (sp_make Debug (fun _ => None) (H_erspan2 a b c d e f)). Qed.
Lemma sp_erspan3 a b c d e f g h : spent (a_erspan3 a b c d e f g h) (just 1 0) 1.
Proof. exact (sp_make Debug (fun _ => None) (H_erspan3 a b c d e f g h)). Qed.
#[global] Hint Resolve sp_make sp_ethernet sp_arp sp_vlan sp_ipv4 sp_ipv6 sp_udp sp_icmp sp_tcp sp_vxlan sp_gre sp_gre_chksum_offset
  sp_gre_sequence_number sp_gre_key sp_erspan2 sp_erspan3 : sp.

Lemma hdrs_payload p d : hdrs (set_payload p d) = hdrs p.
Proof. reflexivity. Qed.
Lemma sp_eth e t pl : spent (a_create_eth_packet e t pl) (built 0 0) 2.
Proof.
  unfold a_create_eth_packet. cbv zeta.
  apply (spent_bind _ _ (built 0 0) 2); [|lia|intros p a l (H & ->) L; apply spent_ret; split; [rewrite hdrs_payload; lia|reflexivity]].
  assert (E : hdrs pkt_new = O) by reflexivity. sp.
Qed.
#[global] Hint Resolve sp_eth : sp.
Lemma sp_create_ipv4 m e i t pl : spent (a_create_ipv4_packet m e i t pl) (built 0 16) 19.
Proof. unfold a_create_ipv4_packet. cbv zeta. sp. Qed.
Lemma sp_create_ipv6 ip6 e i t pl : spent (a_create_ipv6_packet ip6 e i t pl) (built 0 0) 3.
Proof. unfold a_create_ipv6_packet. cbv zeta. sp. Qed.
Lemma sp_bump_total m p n : spent (a_bump_total_len m p n) (just 0 32) 32.
Proof. unfold a_bump_total_len. sp. Qed.
Lemma sp_bump_payload m p n : spent (a_bump_payload_len m p n) (just 0 32) 32.
Proof. unfold a_bump_payload_len. sp. Qed.
Lemma sp_refresh m x : spent (a_refresh_checksum m x) (just 0 17) 17.
Proof. unfold a_refresh_checksum. sp. Qed.
#[global] Hint Resolve sp_create_ipv4 sp_create_ipv6 sp_bump_total sp_bump_payload sp_refresh : sp.
Definition ohdrs (o : option packet) : nat := match o with Some p => hdrs p | None => O end.
Lemma sp_opt_to_vec o : spent (a_opt_to_vec o) (just 0 (ohdrs o)) (ohdrs o).
Proof. unfold a_opt_to_vec. destruct o; cbn [ohdrs]; sp. Qed.
#[global] Hint Resolve sp_opt_to_vec : sp.
Lemma inner_one b p : pmake_inner b = [p] -> inner b = hdrs p.
Proof. intros E. unfold inner. rewrite E. cbn. lia. Qed.
Lemma sp_gre_inner (o : option packet) : spent (match o with
    | Some p => abind (a_to_vec p) (fun ipkt_vec => abind (alift (index ipkt_vec 0)) (fun b0 => aret (gre_inner_proto b0, ipkt_vec)))
    | None => aret (0, []) end) (just 0 (ohdrs o)) (ohdrs o).
Proof. destruct o; cbn [ohdrs]; sp. Qed.
Lemma sp_then p c : spent c (just 1 0) 1 -> spent (abind c (fun o => a_push p o)) (fun r a l => hdrs r = S (hdrs p) /\ a = 1%nat /\ l = O) 1.
Proof. intros H. eapply spent_bind; [exact H|lia|intros v a l (-> & ->) _]. sp. Qed.
Lemma sp_platform p d : spent (abind (a_hfrom ERSPANPLATFORM d) (fun o => a_push p o))
  (fun r a l => hdrs r = S (hdrs p) /\ a = 1%nat /\ l = O) 1.
Proof. sp. Qed.
#[global] Hint Resolve sp_then sp_platform : sp.
Lemma sp_create m ip6 b : spent (a_pmake_run m ip6 b) (built (taken_over b) (create_locks b)) (89 + inner b).
Proof.
  destruct b; cbn [a_pmake_run taken_over]; unfold create_locks, w16, bump, again.
  - change (CostSpec.inner _) with O. sp.
  - change (CostSpec.inner _) with O. unfold a_create_arp_packet. cbv zeta. sp.
  - change (CostSpec.inner _) with O. sp.
  - change (CostSpec.inner _) with O. sp.
  - change (CostSpec.inner _) with O. unfold a_create_tcp_packet. cbv zeta. sp.
  - change (CostSpec.inner _) with O. unfold a_create_udp_packet. cbv zeta. sp.
  - change (CostSpec.inner _) with O. unfold a_create_icmp_packet. cbv zeta. sp.
  - match goal with p : packet |- context [CostSpec.inner ?b] => rewrite (inner_one b p eq_refl) end. unfold a_create_ipv4ip_packet. cbv zeta. sp.
  - match goal with p : packet |- context [CostSpec.inner ?b] => rewrite (inner_one b p eq_refl) end. unfold a_create_ipv6ip_packet. cbv zeta. sp.
  - change (CostSpec.inner _) with O. unfold a_create_tcpv6_packet. cbv zeta. sp.
  - change (CostSpec.inner _) with O. unfold a_create_udpv6_packet. cbv zeta. sp.
  - change (CostSpec.inner _) with O. unfold a_create_icmpv6_packet. cbv zeta. sp.
  - match goal with p : packet |- context [CostSpec.inner ?b] => rewrite (inner_one b p eq_refl) end. unfold a_create_vxlan_packet. cbv zeta. sp.
  - match goal with p : packet |- context [CostSpec.inner ?b] => rewrite (inner_one b p eq_refl) end. unfold a_create_vxlanv6_packet. cbv zeta. sp.
  - match goal with p : option packet |- _ => rename p into op end.
    match goal with |- context [CostSpec.inner ?b] => replace (CostSpec.inner b) with (ohdrs op) by (destruct op; [symmetry; apply inner_one|]; reflexivity) end.
    unfold a_create_gre_packet. cbv zeta. eapply spent_bind; [apply sp_gre_inner|lia|intros [proto d] a l (-> & ->) _].
    destruct (gre_chksum_present _), (gre_key_present _), (gre_seqnum_present _); sp.
  - match goal with p : option packet |- _ => rename p into op end.
    match goal with |- context [CostSpec.inner ?b] => replace (CostSpec.inner b) with (ohdrs op) by (destruct op; [symmetry; apply inner_one|]; reflexivity) end.
    unfold a_create_erspan_2_packet. cbv zeta. destruct (seqnum =? 0); cbn [negb]; sp.
  - match goal with p : option packet |- _ => rename p into op end.
    match goal with |- context [CostSpec.inner ?b] => replace (CostSpec.inner b) with (ohdrs op) by (destruct op; [symmetry; apply inner_one|]; reflexivity) end.
    unfold a_create_erspan_3_packet. cbv zeta.
    eapply spent_bind; [apply sp_opt_to_vec|lia|intros d x y (-> & ->) _].
    destruct (seqnum =? 0), (N.land ft_d_other 1 =? 1), op; cbn [negb ohdrs]; sp.
Qed.

(** ** The parser *)

Definition starts (f : pfun) (l : list hdr) : Prop :=
  match f, l with
  | F_mpls, x :: _ | F_mpls_bos, x :: _ => is_mpls x = true
  | F_mpls, [] | F_mpls_bos, [] => False
  | _, x :: _ => is_mpls x = false
  | _, [] => True
  end.
Definition parsed (f : pfun) : packet -> nat -> nat -> Prop :=
  fun p a l => a = hdrs p /\ l = all_looks (p_hdrs p) /\ starts f (p_hdrs p).

Lemma sp_take_hdr T arr i : (1 <= ht_size T)%nat -> spent (a_take_hdr T arr i)
  (fun x a l => h_ty x = T /\ (i + ht_size T <= length arr)%nat /\ a = 1%nat /\ l = O) (Nat.min 1 (length arr - i)).
Proof.
  intros T1. unfold a_take_hdr. unfold slice. destruct ((i <=? i + ht_size T)%nat && (i + ht_size T <=? length arr)%nat) eqn:E.
  - apply andb_prop in E. destruct E as (_ & E). apply Nat.leb_le in E. change (abind (alift (Ret ?v)) ?f) with (f v). cbv beta.
    replace (Nat.min 1 (length arr - i)) with 1%nat by lia. sp.
  - intros a l o P. inversion P; subst. split; [lia|]. intros v [=].
Qed.
Ltac sizes := repeat match goal with
  | H : context [ht_size ?T] |- _ => is_const T; let n := eval vm_compute in (ht_size T) in change (ht_size T) with n in H
  | |- context [ht_size ?T] => is_const T; let n := eval vm_compute in (ht_size T) in change (ht_size T) with n
  end.
Definition looked (p : packet) (a l : nat) : Prop := a = hdrs p /\ l = all_looks (p_hdrs p).
Lemma looked_cons x p a l : looked p a l -> forall q, q = Pkt (x :: p_hdrs p) (p_payload p) ->
  hdrs q = S a /\ all_looks (p_hdrs q) = (looks x (p_hdrs p) + l)%nat.
Proof. intros (-> & ->) q ->. split; reflexivity. Qed.
Lemma looks_ty x T l : h_ty x = T -> looks x l = looks (Hdr T 0) l.
Proof. intros E. unfold looks, is_mpls. rewrite E. reflexivity. Qed.

Section Parser.
Variable m : mode.
Variable rec : pfun -> list N -> act packet.
Hypothesis rec_ok : forall f arr, spent (rec f arr) (parsed f) (5 * length arr).

Lemma sp_call f arr i : spent (a_call rec f arr i) (fun p a l => parsed f p a l /\ (i <= length arr)%nat) (5 * (length arr - i)).
Proof.
  unfold a_call, slice_from. destruct (Nat.leb_spec i (length arr)) as [E|E].
  - change (abind (alift (Ret ?v)) ?g) with (g v). cbv beta. rewrite <- skipn_length. eapply spent_weak; [apply rec_ok|lia|auto].
  - intros a l o P. inversion P; subst. split; [lia|]. intros v [=].
Qed.
Lemma sp_call_any f arr i : spent (a_call rec f arr i) looked (5 * (length arr - i)).
Proof. eapply spent_weak; [apply sp_call|lia|]. intros v a l ((-> & -> & _) & _). split; reflexivity. Qed.

(** A header whose price is fixed, in front of what is parsed. *)
Lemma sp_front T p x f n : h_ty x = T -> (forall l, looks (Hdr T 0) l = n) -> is_mpls (Hdr T 0) = false -> f <> F_mpls -> f <> F_mpls_bos ->
  forall a l, looked p a l -> forall q, q = Pkt (x :: p_hdrs p) (p_payload p) -> parsed f q (S a) (n + l).
Proof.
  intros E N M F1 F2 a l (-> & ->) q ->. split; [reflexivity|]. cbn [p_hdrs all_looks]. rewrite (looks_ty _ _ _ E), N. split; [reflexivity|].
  unfold is_mpls in *. cbn [h_ty] in M. rewrite <- E in M. destruct f; cbn [starts]; unfold is_mpls; congruence.
Qed.

Lemma sp_insert_as p x (S : packet -> nat -> nat -> Prop) n : S (Pkt (x :: p_hdrs p) (p_payload p)) O O -> spent (a_insert p x) S n.
Proof. intros H. eapply spent_weak; [apply sp_insert|lia|]. intros v a l (-> & -> & ->). exact H. Qed.

Ltac tk x := eapply spent_bind; [apply sp_take_hdr; apply Nat.leb_le; reflexivity|lia|
  let X := fresh "X" in let L := fresh "L" in intros x ? ? (X & L & -> & ->) _; sizes].
Ltac gt v := eapply spent_bind; [solve [eauto 3 with sp]|lia|intros v ? ? (-> & ->) _].
Ltac nx n := eapply (spent_bind _ _ looked n);
  [repeat match goal with |- spent (match ?o with _ => _ end) _ _ => destruct o end;
   first [apply sp_call_any | eapply spent_weak; [apply sp_call_any|lia|auto]] | lia |
   let p := fresh "p" in intros p ? ? ? _].
Ltac fin T n := apply sp_insert_as; cbv beta; match goal with
  | X : h_ty _ = T, K : looked ?p ?a ?l |- parsed ?f _ ?A ?L =>
      replace A with (S a) by lia; replace L with (n + l)%nat by lia;
      eapply (sp_front T p); [exact X|intros []; reflexivity|reflexivity|discriminate|discriminate|exact K|reflexivity]
  end.

Lemma sp_body_parse arr : spent (a_parse_body rec arr) (parsed F_parse) (5 * length arr).
Proof.
  unfold a_parse_body. cbv zeta.
  apply (spent_bind _ _ (fun v a l => a = O /\ l = O) O); [apply spent_done; intros; auto|lia|intros v1 a l (-> & ->) _].
  apply (spent_bind _ _ (fun v a l => a = O /\ l = O) O); [apply spent_done; intros; auto|lia|intros v2 a l (-> & ->) _].
  destruct (_ <? 1500); (eapply spent_weak; [apply rec_ok|lia|intros v a l H; exact H]).
Qed.
Lemma sp_body_dot3 arr : spent (a_parse_dot3_body rec arr) (parsed F_dot3) (5 * length arr).
Proof. unfold a_parse_dot3_body. tk x. nx (5 * (length arr - 14))%nat. fin Dot3 O. Qed.
Lemma sp_body_llc arr : spent (a_parse_llc_body rec arr) (parsed F_llc) (5 * length arr).
Proof.
  unfold a_parse_llc_body. tk x.
  apply (spent_bind _ _ (fun v a l => a = O /\ l = O) O); [apply spent_done; intros; auto|lia|intros v1 a l (-> & ->) _].
  nx (5 * (length arr - 3))%nat. fin LLC O.
Qed.
Lemma sp_body_snap arr : spent (a_parse_snap_body rec arr) (parsed F_snap) (5 * length arr).
Proof. unfold a_parse_snap_body. tk x. nx (5 * (length arr - 5))%nat. fin SNAP O. Qed.
Lemma sp_body_ethernet arr : spent (a_parse_ethernet_body m rec arr) (parsed F_ethernet) (5 * length arr).
Proof. unfold a_parse_ethernet_body. tk x. gt v. nx (5 * (length arr - 14))%nat. fin Ether 16%nat. Qed.
Lemma sp_body_vlan arr : spent (a_parse_vlan_body m rec arr) (parsed F_vlan) (5 * length arr).
Proof. unfold a_parse_vlan_body. tk x. gt v. nx (5 * (length arr - 4))%nat. fin Vlan 16%nat. Qed.
Lemma sp_body_ipv4 arr : spent (a_parse_ipv4_body m rec arr) (parsed F_ipv4) (5 * length arr).
Proof. unfold a_parse_ipv4_body. tk x. gt v. nx (5 * (length arr - 20))%nat. fin IPv4 8%nat. Qed.
Lemma sp_body_ipv6 arr : spent (a_parse_ipv6_body m rec arr) (parsed F_ipv6) (5 * length arr).
Proof. unfold a_parse_ipv6_body. tk x. gt v. nx (5 * (length arr - 40))%nat. fin IPv6 8%nat. Qed.
Lemma sp_body_erspan2 arr : spent (a_parse_erspan2_body rec arr) (parsed F_erspan2) (5 * length arr).
Proof. unfold a_parse_erspan2_body. tk x. nx (5 * (length arr - 8))%nat. fin ERSPAN2 O. Qed.
Lemma sp_body_udp arr : spent (a_parse_udp_body m rec arr) (parsed F_udp) (5 * length arr).
Proof. unfold a_parse_udp_body. tk x. gt v. nx (5 * (length arr - 8))%nat. fin UDP 16%nat. Qed.
Lemma sp_body_vxlan arr : spent (a_parse_vxlan_body rec arr) (parsed F_vxlan) (5 * length arr).
Proof.
  unfold a_parse_vxlan_body. eapply spent_bind; [apply sp_call|sizes; lia|intros p a l ((-> & -> & _) & L0) L1].
  assert (K : looked p (hdrs p) (all_looks (p_hdrs p))) by (split; reflexivity). sizes. tk x. fin Vxlan O.
Qed.
Lemma sp_body_leaf f T arr : (1 <= ht_size T)%nat -> (forall l, looks (Hdr T 0) l = O) -> is_mpls (Hdr T 0) = false -> f <> F_mpls -> f <> F_mpls_bos ->
  spent (a_parse_leaf_body rec T arr) (parsed f) (5 * length arr).
Proof.
  intros T1 Z N1 N2 N3. unfold a_parse_leaf_body.
  eapply spent_bind; [apply sp_call|lia|intros p a l ((-> & -> & _) & L0) L1].
  assert (K : looked p (hdrs p) (all_looks (p_hdrs p))) by (split; reflexivity).
  eapply spent_bind; [apply sp_take_hdr; exact T1|lia|intros x a l (X & L & -> & ->) _].
  apply sp_insert_as. cbv beta. match goal with |- parsed f _ ?A ?L => replace A with (S (hdrs p)) by lia; replace L with (0 + all_looks (p_hdrs p))%nat by lia end.
  eapply sp_front; eauto.
Qed.
Lemma sp_body_accept arr : spent (a_accept_body arr) (parsed F_accept) (5 * length arr).
Proof. unfold a_accept_body. apply spent_ret. repeat split. Qed.
Lemma sp_body_mpls arr : spent (a_parse_mpls_body m rec arr) (parsed F_mpls) (5 * length arr).
Proof.
  unfold a_parse_mpls_body. tk x. gt v.
  apply (spent_bind _ _ (parsed F_mpls) (5 * (length arr - 4))%nat).
  - destruct (v =? 1); (eapply spent_weak; [apply sp_call|lia|intros p a l (H & _); exact H]).
  - lia.
  - intros p a l (-> & -> & H) _. apply sp_insert_as. assert (Xm : is_mpls x = true) by (unfold is_mpls; rewrite X; reflexivity).
    split; [unfold hdrs; cbn [p_hdrs length]; lia|]. cbn [p_hdrs all_looks starts]. split; [|exact Xm]. cbn [starts] in H.
    destruct (p_hdrs p) as [|y t]; [destruct H|]. unfold looks at 1. rewrite X. change (find _ looks_at) with (@None (htype * nat)).
    rewrite Xm, H. cbn [andb]. lia.
Qed.
Lemma sp_body_mpls_bos arr : spent (a_parse_mpls_bos_body rec arr) (parsed F_mpls_bos) (5 * length arr).
Proof.
  unfold a_parse_mpls_bos_body. tk x.
  apply (spent_bind _ _ (fun v a l => a = O /\ l = O) O); [apply spent_done; intros; auto|lia|intros v1 a l (-> & ->) _].
  apply (spent_bind _ _ (parsed F_ipv4) (5 * (length arr - 4))%nat).
  - destruct (IpType_try_from _) as [[|]|]; (eapply spent_weak; [apply sp_call|lia|intros p a l (H & _); exact H]).
  - lia.
  - intros p a l (-> & -> & H) _. apply sp_insert_as. assert (Xm : is_mpls x = true) by (unfold is_mpls; rewrite X; reflexivity).
    split; [unfold hdrs; cbn [p_hdrs length]; lia|]. cbn [p_hdrs all_looks starts]. split; [|exact Xm]. cbn [starts] in H. unfold looks at 1. rewrite X.
    change (find _ looks_at) with (@None (htype * nat)). destruct (p_hdrs p) as [|y t]; [reflexivity|]. rewrite H, Bool.andb_false_r. lia.
Qed.

Lemma sp_opt_hdr flag T arr off : (1 <= ht_size T)%nat -> spent (a_opt_hdr flag T arr off)
  (fun r a l => l = O /\ (off <= snd r)%nat /\
    match fst r with
    | Some x => h_ty x = T /\ a = 1%nat /\ snd r = (off + ht_size T)%nat /\ (snd r <= length arr)%nat
    | None => a = O /\ snd r = off end) (Nat.min 1 (length arr - off)).
Proof.
  intros T1. unfold a_opt_hdr. destruct (flag =? 1).
  - eapply spent_bind; [apply sp_take_hdr; exact T1|lia|intros x a l (X & L & -> & ->) _]. apply spent_ret. cbn [fst snd]. repeat split; auto; lia.
  - apply spent_ret. cbn [fst snd]. repeat split; lia.
Qed.
Definition olook (o : option hdr) (a : nat) : Prop := match o with Some _ => a = 1%nat | None => a = O end.
Lemma sp_insert_opt p (o : option hdr) T n : (forall l, looks (Hdr T 0) l = O) -> (forall x, o = Some x -> h_ty x = T) ->
  spent (a_insert_opt p o) (fun q a l => a = O /\ l = O /\ hdrs q = (hdrs p + if o then 1 else 0)%nat /\ all_looks (p_hdrs q) = all_looks (p_hdrs p)) n.
Proof.
  intros Z H. unfold a_insert_opt. destruct o as [x|].
  - apply sp_insert_as. repeat split; [unfold hdrs; cbn [p_hdrs length]; lia|]. cbn [p_hdrs all_looks]. rewrite (looks_ty _ _ _ (H x eq_refl)), Z. reflexivity.
  - apply spent_ret. repeat split; lia.
Qed.
Lemma sp_body_erspan3 arr : spent (a_parse_erspan3_body m rec arr) (parsed F_erspan3) (5 * length arr).
Proof.
  unfold a_parse_erspan3_body. tk x. gt v. cbn [Nat.add].
  eapply spent_bind; [apply sp_opt_hdr; apply Nat.leb_le; reflexivity|sizes; lia|intros [o off] a l (-> & Lo & Ho) _]. cbn [fst snd] in *. sizes.
  eapply spent_bind; [apply sp_call_any|destruct o; lia|intros p a' l (-> & ->) _].
  eapply spent_bind; [apply (sp_insert_opt _ _ ERSPANPLATFORM 0); [intros []; reflexivity|intros y ->; apply Ho]|lia|intros q a' l (-> & -> & Hq & Hl) _].
  assert (K : looked q (hdrs q) (all_looks (p_hdrs q))) by (split; reflexivity).
  apply sp_insert_as. cbv beta.
  match goal with |- parsed _ _ ?A ?L => replace A with (S (hdrs q)) by (destruct o; lia); replace L with (1 + all_looks (p_hdrs q))%nat by lia end.
  eapply (sp_front ERSPAN3 q); [exact X|intros []; reflexivity|reflexivity|discriminate|discriminate|exact K|reflexivity].
Qed.
Lemma sp_body_gre arr : spent (a_parse_gre_body m rec arr) (parsed F_gre) (5 * length arr).
Proof.
  unfold a_parse_gre_body. tk x. gt v1. gt v2. gt v3. gt v4. cbn [Nat.add].
  eapply spent_bind; [apply sp_opt_hdr; apply Nat.leb_le; reflexivity|sizes; lia|intros [o1 off1] a1 l (-> & Lo1 & Ho1) _]. cbn [fst snd] in *. sizes.
  eapply spent_bind; [apply sp_opt_hdr; apply Nat.leb_le; reflexivity|destruct o1; lia|intros [o2 off2] a2 l (-> & Lo2 & Ho2) _]. cbn [fst snd] in *. sizes.
  eapply spent_bind; [apply sp_opt_hdr; apply Nat.leb_le; reflexivity|destruct o1, o2; lia|intros [o3 off3] a3 l (-> & Lo3 & Ho3) _]. cbn [fst snd] in *. sizes.
  apply (spent_bind _ _ looked (5 * (length arr - off3))%nat).
  - repeat match goal with |- spent (match ?o with _ => _ end) _ _ => destruct o end; apply sp_call_any.
  - destruct o1, o2, o3; lia.
  - intros p a l (-> & ->) _.
    eapply spent_bind; [apply (sp_insert_opt _ _ GREChksumOffset 0); [intros []; reflexivity|intros y ->; apply Ho1]|lia|intros q1 a' l (-> & -> & Hq1 & Hl1) _].
    eapply spent_bind; [apply (sp_insert_opt _ _ GREKey 0); [intros []; reflexivity|intros y ->; apply Ho2]|lia|intros q2 a' l (-> & -> & Hq2 & Hl2) _].
    eapply spent_bind; [apply (sp_insert_opt _ _ GRESequenceNum 0); [intros []; reflexivity|intros y ->; apply Ho3]|lia|intros q a' l (-> & -> & Hq3 & Hl3) _].
    assert (K : looked q (hdrs q) (all_looks (p_hdrs q))) by (split; reflexivity).
    apply sp_insert_as. cbv beta.
    match goal with |- parsed _ _ ?A ?L => replace A with (S (hdrs q)) by (destruct o1, o2, o3; lia); replace L with (19 + all_looks (p_hdrs q))%nat by lia end.
    eapply (sp_front GRE q); [exact X|intros []; reflexivity|reflexivity|discriminate|discriminate|exact K|reflexivity].
Qed.
Lemma sp_body f arr : spent (a_slow_body m rec f arr) (parsed f) (5 * length arr).
Proof.
  destruct f; cbn [a_slow_body]; auto using sp_body_parse, sp_body_dot3, sp_body_llc, sp_body_snap, sp_body_ethernet, sp_body_vlan,
    sp_body_mpls, sp_body_mpls_bos, sp_body_ipv4, sp_body_ipv6, sp_body_gre, sp_body_erspan2, sp_body_erspan3, sp_body_udp, sp_body_vxlan,
    sp_body_accept; apply sp_body_leaf; try (intros []; reflexivity); try discriminate; try reflexivity; apply Nat.leb_le; reflexivity.
Qed.
End Parser.

Lemma sp_slow_fuel m n : forall f arr, spent (a_slow_fuel m n f arr) (parsed f) (5 * length arr).
Proof.
  induction n as [|n IH]; intros f arr; cbn [a_slow_fuel].
  - apply spent_done. intros v [=].
  - apply sp_body. exact IH.
Qed.
Lemma sp_slow m f arr : spent (a_slow m f arr) (parsed f) (5 * length arr).
Proof. apply sp_slow_fuel. Qed.

(** ** Any call *)

#[global] Hint Resolve sp_create sp_slow : sp.
Lemma sp_kexec m ip6 k : spent (a_kexec m ip6 k) (fun v a l => allocs_ok k v a /\ locks_ok k v l) (budget k).
Proof.
  destruct k; cbn [a_kexec budget locks_ok]; unfold allocs_ok; try solve [sp].
  - eapply spent_bind; [apply sp_hexec|destruct o; lia|]. intros v a l (-> & ->) _. apply spent_ret. rewrite !Nat.add_0_r. split; [|reflexivity].
    destruct o; reflexivity.
  - eapply spent_bind; [apply sp_compare|lia|]. intros v a l (-> & [->|(-> & ->)]) _; apply spent_ret; (split; [reflexivity|]).
    + left. lia.
    + right. split; [lia|reflexivity].
  - eapply spent_bind; [apply sp_slow|lia|]. intros v a l (-> & -> & _) _. apply spent_ret. split; lia.
Qed.

(** ** In a world *)

Definition tpath (t : tstate) (a l : nat) (o : out kres) : Prop :=
  match t with
  | TRun p => path p a l o
  | TWait _ _ p => exists l', l = S l' /\ (path p a l' o \/ (a = O /\ l' = O /\ bad o))
  end.
Lemma tpath_some t : exists a l o, tpath t a l o.
Proof.
  destruct t as [p|x y p]; destruct (path_some p) as (a & l & o & P); [exists a, l, o; exact P|].
  exists a, (S l), o, l. auto.
Qed.
Lemma tstep_path ts h t h' new t' a l o : tstep ts h t = Some (h', new, t') -> tpath t' a l o ->
  exists l', tpath t (length new + a) l' o /\ (length new + l' = S l)%nat.
Proof.
  assert (AF : forall B (r : out B * heap) (k : B -> tstate), after r k = (h', new, t') -> tpath t' a l o ->
    new = [] /\ ((exists b, tpath (k b) a l o) \/ (a = O /\ l = O /\ bad o))).
  { intros B [[b|e| | |] h0] k E P; cbn [after] in E; injection E as <- <- <-; (split; [reflexivity|]); [left; exists b; exact P|..];
      right; inversion P; subst; repeat split; intros v [=]. }
  destruct t as [[o0|d k|r i k|r i v k|r k|x y k]|x y k]; cbn [tstep]; intros E P.
  - discriminate.
  - injection E as <- <- <-. exists l. cbn [length]. split; [|reflexivity]. cbn [tpath Nat.add] in *. econstructor; eauto.
  - destruct (held ts r); [discriminate|]. injection E as E. destruct (AF _ _ _ E P) as (-> & [(b & Q)|(-> & -> & B)]); exists (S l) || exists 1%nat.
    + split; [|reflexivity]. cbn [tpath length Nat.add] in *. econstructor; eauto.
    + split; [|reflexivity]. cbn [tpath length Nat.add] in *. apply P_read_bad, B.
  - destruct (held ts r); [discriminate|]. injection E as E. destruct (AF _ _ _ E P) as (-> & [(b & Q)|(-> & -> & B)]); exists (S l) || exists 1%nat.
    + split; [|reflexivity]. cbn [tpath length Nat.add] in *. econstructor; eauto.
    + split; [|reflexivity]. cbn [tpath length Nat.add] in *. apply P_write_bad, B.
  - destruct (held ts r); [discriminate|]. injection E as E. destruct (AF _ _ _ E P) as (-> & [(b & Q)|(-> & -> & B)]); exists (S l) || exists 1%nat.
    + split; [|reflexivity]. cbn [tpath length Nat.add] in *. econstructor; eauto.
    + split; [|reflexivity]. cbn [tpath length Nat.add] in *. apply P_copy_bad, B.
  - destruct (held ts x); [discriminate|]. injection E as E. destruct (AF _ _ _ E P) as (-> & [(b & Q)|(-> & -> & B)]); exists (S l) || exists 1%nat.
    + split; [|reflexivity]. cbn [tpath length Nat.add] in *. destruct Q as (l' & -> & [Q|(-> & -> & B)]).
      * econstructor; eauto.
      * apply P_repl_bad2, B.
    + split; [|reflexivity]. cbn [tpath length Nat.add] in *. apply P_repl_bad1, B.
  - destruct (held ts y); [discriminate|]. exists (S l). cbn [tpath].
    destruct (nth_error h x) as [cx|], (nth_error h y) as [cy|]; [destruct (c_poisoned cy)|..]; injection E as <- <- <-;
      cbn [length Nat.add]; (split; [|reflexivity]); exists l; (split; [reflexivity|]); cbn [tpath] in P;
      [right|left; exact P|right..]; inversion P; subst; repeat split; intros q [=].
Qed.

Lemma others_keep m ip6 i w w' k own t : by_others m ip6 i w w' -> busy w i k own t -> busy w' i k own t.
Proof.
  intros S B. unfold busy in *. destruct S as [[c ts]|[c ts] j k' w' J E|w j w' J E|[c ts] j w' J E]; cbn [snd] in *.
  - cbn [wspawn snd]. rewrite nth_error_app1; [exact B|]. apply nth_error_Some. congruence.
  - cbn [wcall] in E. destruct (nth_error ts j) as [[|? ? ?]|] eqn:Ej; try discriminate. injection E as <-. cbn [snd].
    rewrite upd_other by congruence. exact B.
  - destruct (wdo_inv _ _ _ E) as (k1 & own1 & t1 & h & new & t' & B1 & St & ->). cbn [snd]. rewrite upd_other by congruence. exact B.
  - cbn [wback] in E. destruct (nth_error ts j) as [[|k1 own1 [[[v|e| | |]| | | | |]|]]|] eqn:Ej; try discriminate; injection E as <-;
      cbn [snd]; rewrite upd_other by congruence; exact B.
Qed.

(** What has been done of a call, in front of any way to finish it, is a way through its
    program. *)
Lemma counted_inv m ip6 i k n w : counted m ip6 i k n w ->
  exists own t, busy w i k own t /\ (length own <= n)%nat /\
    forall a l o, tpath t a l o -> path (a_kexec m ip6 k) (length own + a) (n - length own + l) o.
Proof.
  intros C. induction C as [w w' E|n w w' C IH E|n w w' C IH O].
  - destruct w as [c ts]. cbn [wcall] in E. destruct (nth_error ts i) as [[|? ? ?]|] eqn:Ei; try discriminate. injection E as <-.
    exists [], (TRun (a_kexec m ip6 k)). unfold busy. cbn [snd length]. split; [|split; [lia|]].
    + eapply nth_upd_at; eauto.
    + intros a l o P. exact P.
  - destruct IH as (own & t & B & L & P). destruct (wdo_inv _ _ _ E) as (k1 & own1 & t1 & h & new & t' & B1 & St & ->).
    unfold busy in B1. rewrite B in B1. injection B1 as <- <- <-. exists (own ++ new), t'.
    assert (Ln : (length new <= 1)%nat).
    { destruct (tpath_some t') as (a & l & o & Q). destruct (tstep_path _ _ _ _ _ _ _ _ _ St Q) as (l' & _ & X).
      destruct new as [|r [|r' new]]; cbn [length] in *; try lia. exfalso.
      destruct t as [[o0|d q|r0 j q|r0 j v q|r0 q|x y q]|x y q]; cbn [tstep] in St; try discriminate;
        try (destruct (held _ _); [discriminate|]);
        try (injection St as St; match type of St with after ?z _ = _ => destruct z as [[b|e| | |] h0]; cbn [after] in St; discriminate end).
      repeat match type of St with context [match ?z with _ => _ end] => destruct z end; discriminate. }
    split; [|split].
    + unfold busy. cbn [snd]. eapply nth_upd_at; eauto.
    + rewrite app_length. lia.
    + intros a l o Q. destruct (tstep_path _ _ _ _ _ _ _ _ _ St Q) as (l' & Q' & X). specialize (P _ _ _ Q').
      rewrite app_length. replace (length own + length new + a)%nat with (length own + (length new + a))%nat by lia.
      replace (S n - (length own + length new) + l)%nat with (n - length own + l')%nat by lia. exact P.
  - destruct IH as (own & t & B & L & P). exists own, t. split; [eapply others_keep; eauto|auto].
Qed.
