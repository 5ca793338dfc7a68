(** FieldsProofs.v -- lemmas for C86. *)

From Coq Require Import Lia Permutation.
From Verif Require Import Base Bits Layout Heap Spec BitsProofs HeapProofs FieldsSpec BuildProofs ConcProofs LegibleProofs PropHeader.
Open Scope N_scope.

Lemma protocol_predefined T : In T protocol_headers -> In T predefined.
Proof. intros H. simpl in *. tauto. Qed.

(** The fields follow one another from bit 0 to the last. *)
Lemma layouts_packed T : In T protocol_headers ->
  forall g, (forall f, g f = f_width f) -> forall vs, length vs = length (ht_fields T) ->
  layout_is (ht_fields T) 0 (combine (map g (ht_fields T)) vs) = true /\ widths (combine (map g (ht_fields T)) vs) = (8 * ht_size T)%nat.
Proof.
  intros H g G vs L. rewrite (map_ext _ _ G). clear g G. unfold widths.
  assert (X : forall (A B : Type) (a : list A) (b : list B), length b = length a -> map fst (combine a b) = a).
  { induction a as [|x a IH]; intros [|y b] E; try discriminate E; [reflexivity|]. cbn. rewrite IH; auto. }
  rewrite X by (rewrite map_length; exact L). split.
  - assert (Y : forall fs o vs vs', length vs = length fs -> length vs' = length fs ->
      layout_is fs o (combine (map f_width fs) vs) = layout_is fs o (combine (map f_width fs) vs')).
    { induction fs as [|f fs IH]; intros o [|v us] [|v' us'] E E'; try discriminate; [reflexivity|]. cbn [map combine layout_is].
      f_equal. apply IH; cbn in *; lia. }
    rewrite (Y _ _ _ (repeat 0 (length (ht_fields T)))) by (auto; apply repeat_length).
    simpl in H. repeat destruct H as [<-|H]; try contradiction; reflexivity.
  - simpl in H. repeat destruct H as [<-|H]; try contradiction; reflexivity.
Qed.

Lemma combine_snd {A B} (a : list A) : forall b : list B, length b = length a -> map snd (combine a b) = b.
Proof. induction a as [|x a IH]; intros [|y b] E; try discriminate E; [reflexivity|]. cbn. rewrite IH; auto. Qed.

Lemma fields_disjoint T : In T protocol_headers -> ForallOrdPairs disjoint (ht_fields T).
Proof.
  intros H. destruct (C08_layouts_sound T H) as (_ & _ & _ & D). revert D. generalize (ht_fields T). clear. intros l. induction l as [|f l IH]; intros D; constructor.
  - apply Forall_forall. intros g G. apply In_nth_error in G as (j & G). apply (D O (S j)); auto. 
  - apply IH. intros i j g g' G G' N. apply (D (S i) (S j)); auto.
Qed.
Lemma disjoint_sym f g : disjoint f g -> disjoint g f.
Proof. intros [H|H]; [right|left]; exact H. Qed.
Lemma disjoint_perm l l' : Permutation l l' -> ForallOrdPairs disjoint l -> ForallOrdPairs disjoint l'.
Proof.
  induction 1 as [|f l l' P IH|f g l|l1 l2 l3 P1 IH1 P2 IH2]; auto.
  - intros D. inversion D; subst. constructor; [|auto]. apply Forall_forall. intros g G. eapply Forall_forall in H1; [exact H1|]. eapply Permutation_in; [apply Permutation_sym; exact P|exact G].
  - intros D. inversion D as [|? ? A D']; subst. inversion D' as [|? ? B D'']; subst. inversion A; subst. constructor; [|constructor; auto]. constructor; auto. apply disjoint_sym. auto.
Qed.
Lemma disjoint_pairs (l : list (field * N)) : ForallOrdPairs disjoint (map fst l) -> ForallOrdPairs (fun a b => disjoint (fst a) (fst b)) l.
Proof. induction l as [|a l IH]; intros D; inversion D; subst; constructor; auto. apply Forall_map. auto. Qed.

Lemma upd_upd {A} (l : list A) i a b : upd (upd l i a) i b = upd l i b.
Proof. revert i; induction l as [|x l IH]; intros [|i]; cbn; auto. rewrite IH. reflexivity. Qed.

Lemma set_all_run x l : forall h d, cell_at h (h_ref x) d -> bytes_ok d -> Forall (fun w => field_in (fst w) (length d)) l ->
  set_all x l h = (Ret tt, upd h (h_ref x) (Cell (fset_all d l) false)).
Proof.
  induction l as [|(f, v) l IH]; intros h d C B F; cbn [set_all].
  - unfold fset_all. cbn. rewrite upd_same; auto.
  - inversion F; subst. unfold bind. rewrite (hset_in x h d) by auto. rewrite (IH _ (fset d f v)).
    + rewrite upd_upd. reflexivity.
    + eapply cell_at_upd; eauto.
    + apply fset_ok; auto.
    + rewrite fset_length. auto.
Qed.
Lemma upd_only h r c : only_changes r h (upd h r c).
Proof. split; [apply upd_length|]. intros q Q. apply cell_at_upd_other. auto. Qed.

(** All fields of a type, in any order. *)
Lemma set_every T l d : In T protocol_headers -> Permutation (map fst l) (ht_fields T) -> full T d ->
  full T (fset_all d l) /\ Forall (fun w => field_in (fst w) (length d)) l /\
  Forall (fun w => field_val (fset_all d l) (fst w) = snd w mod 2 ^ N.of_nat (f_width (fst w))) l.
Proof.
  intros H P (B & L). destruct (C08_layouts_sound T H) as (_ & FI & _ & _).
  assert (F : Forall (fun w => field_in (fst w) (length d)) l).
  { apply Forall_forall. intros w W. rewrite L. apply FI. eapply Permutation_in; [exact P|]. apply in_map. exact W. }
  destruct (fset_all_ok l d B) as (B' & L'). split; [split; congruence|]. split; auto. apply fset_all_val; auto. apply disjoint_pairs.
  eapply disjoint_perm; [apply Permutation_sym; exact P|]. apply fields_disjoint. exact H.
Qed.
