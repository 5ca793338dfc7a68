(** PropFields.v -- C86: a header is its fields. *)

From Coq Require Import Lia Permutation.
From Verif Require Import Base Bits Types Layout Heap Spec BitsProofs HeapProofs FieldsSpec BuildProofs ConcProofs LegibleProofs PropHeader FieldsProofs.
Open Scope N_scope.

(** Two headers of a type hold the same bytes exactly if all their fields have the same values. *)
Theorem C86_determine : forall T d d', In T predefined -> full T d -> full T d' ->
  (d = d' <-> forall f, In f (ht_fields T) -> field_val d f = field_val d' f).
Proof.
  intros T d d' H (B & L) (B' & L'). split; [intros ->; auto|]. intros F. eapply fields_all; eauto. apply Forall_forall. exact F.
Qed.
Print Assumptions C86_determine.

(** Read as one number, a header is its fields side by side, in the order in which they
    are declared. *)
Theorem C86_diagram : forall T d, In T protocol_headers -> full T d ->
  diagram d (map (fun f => (f_width f, field_val d f)) (ht_fields T)).
Proof.
  intros T d H (B & L).
  assert (E : forall l, map (fun f => (f_width f, field_val d f)) l = combine (map f_width l) (map (field_val d) l)).
  { induction l as [|f l IH]; [reflexivity|]. cbn. rewrite IH. reflexivity. }
  destruct (layouts_packed T H f_width (fun _ => eq_refl) (map (field_val d) (ht_fields T)) (map_length _ _)) as (Y & W). rewrite <- E in Y, W.
  destruct (C08_layouts_sound T H) as (_ & FI & _).
  assert (F : fits (map (fun f => (f_width f, field_val d f)) (ht_fields T))).
  { apply Forall_map, Forall_forall. intros f If. cbn. destruct (FI f If) as (S & _). unfold field_val. rewrite <- rv_bits_val by auto. unfold f_width.
    apply rv_bound. }
  set (l := map (fun f => (f_width f, field_val d f)) (ht_fields T)) in *.
  assert (D : diagram (to_be (ht_size T) (pack l)) l) by (apply diagram_word; auto).
  assert (X : to_be (ht_size T) (pack l) = d); [|rewrite X in D; exact D].
  apply (C86_determine T); [apply protocol_predefined; auto| |split; auto|].
  - destruct D as (D1 & D2 & _). split; auto. lia.
  - pose proof (diagram_fields _ _ _ D Y) as Z. unfold l in Z. rewrite map_map in Z. cbn [snd] in Z. intros f If. eapply ext_in_map in Z; [exact Z|exact If].
Qed.
Print Assumptions C86_diagram.

(** Every choice of values that there is room for is that of exactly one byte string. *)
Theorem C86_exists : forall T vs, In T protocol_headers -> Forall2 room (ht_fields T) vs ->
  exists d, full T d /\ map (field_val d) (ht_fields T) = vs /\
    forall d', full T d' -> map (field_val d') (ht_fields T) = vs -> d' = d.
Proof.
  intros T vs H R. assert (L : length vs = length (ht_fields T)) by (clear -R; induction R; cbn; auto).
  destruct (layouts_packed T H f_width (fun _ => eq_refl) vs L) as (Y & W). set (l := combine (map f_width (ht_fields T)) vs) in *.
  assert (F : fits l).
  { unfold l, fits. clear -R. induction R as [|f v fs vs A R IH]; constructor; auto. }
  assert (D : diagram (to_be (ht_size T) (pack l)) l) by (apply diagram_word; auto).
  pose proof (diagram_fields _ _ _ D Y) as Z. unfold l in Z at 2. rewrite combine_snd in Z by (rewrite map_length; auto).
  assert (U : full T (to_be (ht_size T) (pack l))) by (destruct D as (D1 & D2 & _); split; auto; lia).
  exists (to_be (ht_size T) (pack l)). split; auto. split; auto. intros d' U' Z'. apply (C86_determine T); auto; [apply protocol_predefined; auto|].
  intros f If. rewrite <- Z in Z'. eapply ext_in_map in Z'; [exact Z'|exact If].
Qed.
Print Assumptions C86_exists.

(** Setting every field once, in any order, leaves nothing of what was there before: the
    bytes are those of the values, cut down to the widths of the fields. *)
Theorem C86_set_all : forall T l, In T protocol_headers -> Permutation (map fst l) (ht_fields T) ->
  exists d, full T d /\ (forall f v, In (f, v) l -> field_val d f = v mod 2 ^ N.of_nat (f_width f)) /\
    forall l' x h d0, Permutation l l' -> h_ty x = T -> cell_at h (h_ref x) d0 -> full T d0 ->
      exists h', set_all x l' h = (Ret tt, h') /\ cell_at h' (h_ref x) d /\ only_changes (h_ref x) h h'.
Proof.
  intros T l H P. set (z := repeat 0 (ht_size T)).
  assert (Z : full T z). { split; [|apply repeat_length]. apply Forall_forall. intros b B. apply repeat_spec in B. subst. reflexivity. }
  destruct (set_every T l z H P Z) as (U & _ & V). exists (fset_all z l). split; auto. split.
  - intros f v I. eapply Forall_forall in V; [|exact I]. exact V.
  - intros l' x h d0 P' Tx C Z0. assert (P2 : Permutation (map fst l') (ht_fields T)).
    { eapply perm_trans; [|exact P]. apply Permutation_map, Permutation_sym. exact P'. }
    destruct (set_every T l' d0 H P2 Z0) as (U' & F' & V'). eexists. split; [apply (set_all_run x l' h d0); auto; apply Z0|]. split; [|apply upd_only].
    assert (E : fset_all d0 l' = fset_all z l); [|rewrite E; unfold cell_at; eapply cell_at_upd; eauto].
    apply (C86_determine T); auto; [apply protocol_predefined; auto|]. intros f If.
    assert (I1 : In f (map fst l)) by (eapply Permutation_in; [apply Permutation_sym; exact P|auto]).
    apply in_map_iff in I1 as ((g & v) & E & I1). cbn in E. subst g.
    pose proof (proj1 (Forall_forall _ _) V _ I1) as X. pose proof (proj1 (Forall_forall _ _) V' _ (Permutation_in _ P' I1)) as Y. cbn [fst snd] in *. congruence.
Qed.
Print Assumptions C86_set_all.

(** The getters tell headers apart, except those of IPv6. *)
Theorem C86_getters : forall m T x y h dx dy, In T protocol_headers -> T <> IPv6 ->
  cell_at h (h_ref x) dx -> cell_at h (h_ref y) dy -> full T dx -> full T dy ->
  ((forall f, In f (ht_fields T) -> fst (hget m x f h) = fst (hget m y f h)) <-> fst (hto_vec x h) = fst (hto_vec y h)).
Proof.
  intros m T x y h dx dy H N Cx Cy (Bx & Lx) (By & Ly). destruct (C08_layouts_sound T H) as (_ & FI & _).
  rewrite (hto_vec_cell x h dx), (hto_vec_cell y h dy) by auto. cbn [fst].
  assert (W : forall f, In f (ht_fields T) -> (f_width f <= 64)%nat).
  { intros f If. destruct (le_lt_dec (f_width f) 64) as [|G]; auto. destruct (C05_only_ipv6 T f H If G) as (E & _). contradiction. }
  assert (G : forall f, In f (ht_fields T) -> fst (hget m x f h) = Ret (field_val dx f) /\ fst (hget m y f h) = Ret (field_val dy f)).
  { intros f If. split; [rewrite (hget_val m x h dx)|rewrite (hget_val m y h dy)]; auto; rewrite ?Lx, ?Ly; auto. }
  split.
  - intros E. f_equal. apply (C86_determine T); [apply protocol_predefined; auto|split; auto|split; auto|]. intros f If. specialize (E f If).
    destruct (G f If) as (G1 & G2). rewrite G1, G2 in E. injection E. auto.
  - intros E f If. injection E as ->. destruct (G f If) as (G1 & G2). rewrite G1, G2. reflexivity.
Qed.
Print Assumptions C86_getters.

(** Copying a header field by field makes a copy, in any order of the fields, also onto
    itself; except with IPv6. *)
Theorem C86_copy : forall m T x y h dx dy l, In T protocol_headers -> T <> IPv6 -> Permutation l (ht_fields T) ->
  cell_at h (h_ref x) dx -> cell_at h (h_ref y) dy -> full T dx -> full T dy ->
  exists h', copy_fields m x y l h = (Ret tt, h') /\ cell_at h' (h_ref y) dx /\ only_changes (h_ref y) h h'.
Proof.
  intros m T x y h dx dy l H N P Cx Cy (Bx & Lx) (By & Ly). destruct (C08_layouts_sound T H) as (_ & FI & _).
  assert (W : Forall (fun f => field_in f (ht_size T) /\ (f_width f <= 64)%nat) l).
  { apply Forall_forall. intros f If. apply (Permutation_in _ P) in If. split; auto.
    destruct (le_lt_dec (f_width f) 64) as [|G]; auto. destruct (C05_only_ipv6 T f H If G) as (E & _). contradiction. }
  destruct (Nat.eq_dec (h_ref x) (h_ref y)) as [E|E].
  - exists h. rewrite <- E in *. split; [|split; [exact Cx|split; auto]]. clear P. induction W as [|f l (F1 & F2) W IH]; [reflexivity|].
    cbn [copy_fields]. unfold bind at 1. assert (F1' : field_in f (length dx)) by (rewrite Lx; auto). rewrite (hget_val m x h dx) by auto. unfold bind.
    assert (Z : hset y f (field_val dx f) h = (Ret tt, h)).
    { pose proof (C02_get_set m y h dx f (field_val dx f) h) as Q. rewrite <- E in Q. apply Q; auto. apply hget_val; auto. rewrite <- E. auto. }
    rewrite Z. exact IH.
  - assert (R : copy_fields m x y l h = set_all y (map (fun f => (f, field_val dx f)) l) h).
    { clear P. revert h dy Cx Cy By Ly. induction W as [|f l (F1 & F2) W IH]; intros h dy Cx Cy By Ly; [reflexivity|].
      cbn [copy_fields map set_all]. unfold bind. rewrite (hget_val m x h dx) by (auto; rewrite Lx; auto). unfold bind.
      rewrite (hset_in y h dy) by (auto; rewrite Ly; auto). apply (IH _ (fset dy f (field_val dx f))).
      - unfold cell_at. rewrite cell_at_upd_other by auto. exact Cx.
      - eapply cell_at_upd; eauto.
      - apply fset_ok; auto.
      - rewrite fset_length. auto. }
    rewrite R. assert (P2 : Permutation (map fst (map (fun f => (f, field_val dx f)) l)) (ht_fields T)).
    { rewrite map_map, map_id. exact P. }
    destruct (set_every T _ dy H P2 (conj By Ly)) as (U & F & V). eexists. split; [apply (set_all_run _ _ h dy); auto|]. split; [|apply upd_only].
    assert (X : fset_all dy (map (fun f => (f, field_val dx f)) l) = dx); [|rewrite X; unfold cell_at; eapply cell_at_upd; eauto].
    apply (C86_determine T); [apply protocol_predefined; auto|auto|split; auto|]. intros f If.
    assert (I1 : In (f, field_val dx f) (map (fun f => (f, field_val dx f)) l)).
    { apply in_map_iff. exists f. split; auto. eapply Permutation_in; [apply Permutation_sym; exact P|auto]. }
    pose proof (proj1 (Forall_forall _ _) V _ I1) as X. cbn [fst snd] in X. rewrite X. apply N.mod_small.
    unfold field_val. destruct (FI f If) as (S & _). rewrite <- rv_bits_val by auto. apply rv_bound.
Qed.
Print Assumptions C86_copy.

(** ** What is not so *)

(** An IPv6 header whose addresses differ in their first halves only. *)
Definition fl_ip6 (b : N) : list N := firstn 8 (ht_default IPv6) ++ [b;0;0;0;0;0;0;0; 0;0;0;0;0;0;0;1] ++ [b;0;0;0;0;0;0;0; 0;0;0;0;0;0;0;2].
Theorem C86_getters_refuted : ~ (forall m T x y h dx dy, In T protocol_headers ->
  cell_at h (h_ref x) dx -> cell_at h (h_ref y) dy -> full T dx -> full T dy ->
  (forall f, In f (ht_fields T) -> fst (hget m x f h) = fst (hget m y f h)) -> fst (hto_vec x h) = fst (hto_vec y h)).
Proof.
  intros H. specialize (H Release IPv6 (Hdr IPv6 0) (Hdr IPv6 1) [Cell (fl_ip6 32) false; Cell (fl_ip6 48) false] (fl_ip6 32) (fl_ip6 48)).
  assert (X : fst (hto_vec (Hdr IPv6 0) [Cell (fl_ip6 32) false; Cell (fl_ip6 48) false]) = fst (hto_vec (Hdr IPv6 1) [Cell (fl_ip6 32) false; Cell (fl_ip6 48) false])).
  { apply H; try reflexivity.
    - simpl. tauto.
    - split; [apply bytes_okb_ok; reflexivity|reflexivity].
    - split; [apply bytes_okb_ok; reflexivity|reflexivity].
    - intros f If. simpl in If. repeat destruct If as [<-|If]; try contradiction; vm_compute; reflexivity. }
  vm_compute in X. discriminate X.
Qed.
Print Assumptions C86_getters_refuted.

(** Copied field by field, IPv6 addresses lose their first halves (or the getters panic). *)
Theorem C86_copy_refuted : exists h x y dx dy h',
  cell_at h (h_ref x) dx /\ cell_at h (h_ref y) dy /\ full IPv6 dx /\ full IPv6 dy /\
  copy_fields Release x y (ht_fields IPv6) h = (Ret tt, h') /\ ~ cell_at h' (h_ref y) dx /\ cell_at h' (h_ref y) (fl_ip6 0) /\
  copy_fields Debug x y (ht_fields IPv6) h = (Panic POverflow, h).
Proof.
  exists [Cell (fl_ip6 32) false; Cell (ht_default IPv6) false], (Hdr IPv6 0), (Hdr IPv6 1), (fl_ip6 32), (ht_default IPv6).
  exists [Cell (fl_ip6 32) false; Cell (fl_ip6 0) false]. repeat apply conj.
  - reflexivity.
  - reflexivity.
  - apply bytes_okb_ok. reflexivity.
  - reflexivity.
  - apply bytes_okb_ok. reflexivity.
  - reflexivity.
  - vm_compute. reflexivity.
  - vm_compute. discriminate.
  - reflexivity.
  - vm_compute. reflexivity.
Qed.
Print Assumptions C86_copy_refuted.

(** The fields of [Tester] overlap: there are values that no bytes have. *)
Theorem C86_exists_refuted : ~ (forall T vs, In T predefined -> Forall2 room (ht_fields T) vs ->
  exists d, full T d /\ map (field_val d) (ht_fields T) = vs).
Proof.
  intros H. set (vs := [0;0;0;0;0;0;0;0;0;0;0; 0; 0; 2 ^ 62 - 1; 0; 0]).
  destruct (H Tester vs) as (d & (B & L) & E); [simpl; tauto|repeat constructor|].
  assert (E1 : field_val d Tester_byte2 = 0) by (injection E; auto).
  assert (E2 : field_val d Tester_byte4 = 2 ^ 62 - 1) by (injection E; auto).
  unfold field_val in E1, E2. rewrite <- rv_bits_val in E1, E2 by (cbn; lia). cbn [f_start f_end Tester_byte2 Tester_byte4] in E1, E2.
  pose proof (rv_testbit d 56 16 5 B ltac:(rewrite L; cbn; lia)) as X. pose proof (rv_testbit d 66 62 61 B ltac:(rewrite L; cbn; lia)) as Y.
  change (71 - 56 + 1)%nat with 16%nat in E1. change (127 - 66 + 1)%nat with 62%nat in E2. rewrite E1 in X. rewrite E2 in Y.
  cbn [Nat.ltb Nat.leb Nat.add Nat.sub] in X, Y. rewrite <- X in Y. vm_compute in Y. discriminate Y.
Qed.
Print Assumptions C86_exists_refuted.

(** ** Examples *)

(** The fields of a UDP header, set in another order than they are declared, over what was
    there before. *)
Example C86_example :
  set_all (Hdr UDP 0) [(UDP_checksum, 0xbeef); (UDP_dst, 53); (UDP_length, 8); (UDP_src, 0x11234)] [Cell [9;9;9;9;9;9;9;9] false]
  = (Ret tt, [Cell [0x12;0x34; 0;53; 0;8; 0xbe;0xef] false]) /\
  Permutation (map fst [(UDP_checksum, 0xbeef); (UDP_dst, 53); (UDP_length, 8); (UDP_src, 0x11234)]) (ht_fields UDP).
Proof.
  split; [reflexivity|]. cbn [map fst ht_fields UDP]. 
  eapply perm_trans; [apply Permutation_cons_append|]. cbn [app].
  eapply perm_trans; [apply (Permutation_app_comm [UDP_dst; UDP_length] [UDP_src; UDP_checksum])|]. cbn [app].
  constructor. eapply perm_trans; [apply Permutation_cons_append|]. reflexivity.
Qed.
Example C86_copy_example :
  copy_fields Debug (Hdr UDP 0) (Hdr UDP 1) (rev (ht_fields UDP)) [Cell [1;2;3;4;5;6;7;8] false; Cell [9;9;9;9;9;9;9;9] false]
  = (Ret tt, [Cell [1;2;3;4;5;6;7;8] false; Cell [1;2;3;4;5;6;7;8] false]).
Proof. reflexivity. Qed.
(** The first fields of an IPv4 header. *)
Example C86_diagram_example : In IPv4 protocol_headers /\ full IPv4 (ht_default IPv4) /\
  map (fun f => (f_width f, field_val (ht_default IPv4) f)) (firstn 6 (ht_fields IPv4)) = [(4%nat, 4); (4%nat, 5); (8%nat, 0); (16%nat, 20); (16%nat, 51); (3%nat, 2)].
Proof. repeat apply conj; [simpl; tauto|apply bytes_okb_ok; reflexivity|reflexivity|reflexivity]. Qed.
