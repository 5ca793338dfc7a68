(** PropBoxes.v -- C85: packets that hold any [Box<dyn Header>]. *)

From Coq Require Import Lia.
From Verif Require Import Base Bits Types Layout Heap Packet Fast Show Trait Ops Client Spec ClientSpec Boxes BoxesSpec PacketProofs ClientProofs BoxesProofs.
Open Scope N_scope.

(** On packets of the crate's own headers the functions are those of Packet.v, so all that
    is proved of those holds of them. *)
Theorem C85_owned : forall p q x d i T name m,
  into own (push p x) (b_push (own p) (BOwn x)) /\
  into own (insert p x) (b_insert (own p) (BOwn x)) /\
  b_pop (own p) = own (pop p) /\
  b_remove (own p) i = own (remove p i) /\
  b_set_payload (own p) d = own (set_payload p d) /\
  into BOwn (index_name p name) (b_index (own p) name) /\
  (forall h, b_get_header T (own p) name h = (Ret (get_header T p name), h)) /\
  into (fun y => y) (to_vec p) (bp_to_vec (own p)) /\
  bp_len (own p) = pkt_len p /\
  into own (pkt_add p q) (bp_add (own p) (own q)) /\
  into own (pkt_clone p) (bp_clone (own p)) /\
  into (fun y => y) (compare_with_slice p d) (bp_compare_slice (own p) d) /\
  into (fun y => y) (compare p q) (bp_compare (own p) (own q)) /\
  into (fun y => y) (pkt_show m p) (bp_show m (own p)).
Proof.
  intros p q x d i T name m.
  assert (V : forall p h, bp_to_vec (own p) h = to_vec p h) by (intros; apply own_to_vec).
  assert (X : forall A (f : M A) (g : M A), (forall h, g h = f h) -> into (fun y => y) f g).
  { intros A f g E h. rewrite E. destruct (f h) as [[| | | |] ?]; reflexivity. }
  assert (CS : forall b h, bp_compare_slice (own p) b h = compare_with_slice p b h).
  { intros b h. unfold bp_compare_slice, compare_with_slice. cbv zeta. rewrite own_len. destruct (negb _); [reflexivity|]. unfold bind. rewrite V. reflexivity. }
  repeat match goal with |- _ /\ _ => split end.
  - intros h. unfold own. cbn. rewrite map_app. reflexivity.
  - intros h. reflexivity.
  - unfold b_pop, pop, own. cbn [b_hdrs]. rewrite map_length. destruct (_ =? 0)%nat; [reflexivity|]. cbn [p_hdrs p_payload b_payload].
    rewrite map_removelast. reflexivity.
  - unfold b_remove, remove, own. cbn [b_hdrs]. rewrite map_length. destruct (negb _ && _); [|reflexivity]. cbn [p_hdrs p_payload b_payload].
    rewrite map_remove_nth. reflexivity.
  - reflexivity.
  - intros h. unfold b_index, index_name. cbn [own b_hdrs]. pose proof (own_place name (p_hdrs p)) as Y. destruct (find_name name (p_hdrs p)) as [y|].
    + destruct Y as (j & -> & E). cbn [option_map]. rewrite E. reflexivity.
    + rewrite Y. reflexivity.
  - intros h. unfold b_get_header, get_header. cbn [own b_hdrs]. pose proof (own_place name (p_hdrs p)) as Y. destruct (find_name name (p_hdrs p)) as [y|].
    + destruct Y as (j & -> & E). cbn [option_map]. rewrite E. reflexivity.
    + rewrite Y. reflexivity.
  - apply X. intros h. apply V.
  - apply own_len.
  - intros h. unfold bp_add, pkt_add, bind. cbn [own b_hdrs b_payload p_hdrs p_payload]. rewrite own_clones, PacketProofs.clone_hdrs_run. cbn. unfold own. cbn. rewrite map_app. reflexivity.
  - intros h. unfold bp_clone, pkt_clone, bind. cbn [own b_hdrs b_payload p_hdrs p_payload]. rewrite own_clones, PacketProofs.clone_hdrs_run. reflexivity.
  - apply X. intros h. apply CS.
  - apply X. intros h. unfold bp_compare, compare, bind. rewrite V. destruct (to_vec q h) as [[| | | |] ?]; auto.
  - apply X. intros h. unfold bp_show, pkt_show, bind. cbn [own b_hdrs]. rewrite own_shows. destruct (show_hdrs m (p_hdrs p) h) as [[| | | |] h1]; auto.
    change (BP (map BOwn (p_hdrs p)) (p_payload p)) with (own p). rewrite V. reflexivity.
Qed.
Print Assumptions C85_owned.

(** [push] and [insert] add what [to_owned] returns, at the end and at the front. An
    [XSlice] has none: the call panics. The other changes are those of lists. *)
Theorem C85_push : forall p a h,
  (forall x, a = BOwn x -> b_push p a h = (Ret (BP (b_hdrs p ++ [a]) (b_payload p)), h) /\
                           b_insert p a h = (Ret (BP (a :: b_hdrs p) (b_payload p)), h)) /\
  (is_slice a -> b_push p a h = (Panic PUnimpl, h) /\ b_insert p a h = (Panic PUnimpl, h)) /\
  (forall n l v t c o y, a = BUser n l v t c o y ->
     turns (b_push p a) [o] (fun r => BP (b_hdrs p ++ r) (b_payload p)) /\
     turns (b_insert p a) [o] (fun r => BP (r ++ b_hdrs p) (b_payload p))).
Proof.
  intros p a h. split; [intros x ->; split; reflexivity|]. split; [intros (T & d & ->); split; reflexivity|].
  assert (X : forall (o : M boxed) (g : boxed -> bpacket) (g' : list boxed -> bpacket), (forall b, g' [b] = g b) ->
    turns (mlet x := o in ret (g x)) [o] g').
  { intros o g g' E h0 h'. unfold bind. split.
    - intros b. destruct (o h0) as [o1 h1] eqn:O. split.
      + destruct o1; intros Q; try discriminate Q. injection Q as <- <-. exists [a0]. split; [econstructor; [exact O|constructor]|auto].
      + intros (r & I & ->). inversion I as [|? ? ? a0 ? r0 ? E1 I1]; subst. inversion I1; subst. rewrite O in E1. injection E1 as -> ->. rewrite E. reflexivity.
    - intros o' N. destruct (o h0) as [o1 h1] eqn:O. split.
      + intros Q. exists [], o, [], [], h0, o1. split; [reflexivity|]. split; [constructor|].
        destruct o1; cbn in Q; injection Q as <- <-; try (split; [exact O|]; cbn; auto); elim (N (g a0)); reflexivity.
      + intros (bf & f & af & r & h2 & o2 & E1 & I & E2 & A). destruct bf as [|b0 [|]]; try discriminate E1.
        injection E1 as <- <-. inversion I; subst. rewrite O in E2. injection E2 as -> ->. destruct o2, o'; cbn in A |- *; try tauto; subst; reflexivity. }
  intros n l v t c o y ->. split; apply X; reflexivity.
Qed.
Print Assumptions C85_push.
Theorem C85_lists : forall p d,
  (b_hdrs p = [] -> b_pop p = p) /\
  (forall l x, b_hdrs p = l ++ [x] -> b_pop p = BP l (b_payload p)) /\
  (forall before x after, b_hdrs p = before ++ x :: after -> b_remove p (length before) = BP (before ++ after) (b_payload p)) /\
  (forall i, (length (b_hdrs p) <= i)%nat -> b_remove p i = p) /\
  b_set_payload p d = BP (b_hdrs p) (b_payload p ++ d).
Proof.
  intros [l d0] d. cbn [b_hdrs b_payload]. unfold b_pop, b_remove, b_set_payload. cbn [b_hdrs b_payload]. repeat split.
  - intros ->. reflexivity.
  - intros l' x ->. rewrite app_length. cbn [length]. rewrite (proj2 (Nat.eqb_neq _ _)) by lia. rewrite removelast_last. reflexivity.
  - intros bf x af ->. rewrite app_length. cbn [length]. rewrite (proj2 (Nat.eqb_neq _ _)) by lia. rewrite (proj2 (Nat.ltb_lt _ _)) by lia. cbn [negb andb].
    f_equal. induction bf as [|b bf IH]; cbn; [reflexivity|]. f_equal. exact IH.
  - intros i L. rewrite (proj2 (Nat.ltb_ge _ _)) by auto. rewrite andb_false_r. reflexivity.
Qed.
Print Assumptions C85_lists.

(** [to_vec] calls the headers' [to_vec] in turn, joins what they return and adds the
    payload; the first that does not return ends it, and those after are not called. *)
Theorem C85_to_vec : forall p, turns (bp_to_vec p) (map b_to_vec (b_hdrs p)) (fun r => concat r ++ b_payload p).
Proof. exact bp_to_vec_turns. Qed.
Print Assumptions C85_to_vec.

(** So do [clone] and [+] with the headers' [clone]. The left operand of [+] keeps its
    headers as they are. *)
Theorem C85_clone : forall p, turns (bp_clone p) (map b_clone (b_hdrs p)) (fun r => BP r (b_payload p)).
Proof. exact bp_clone_turns. Qed.
Print Assumptions C85_clone.
Theorem C85_add : forall p q, turns (bp_add p q) (map b_clone (b_hdrs q)) (fun r => BP (b_hdrs p ++ r) (b_payload p)).
Proof. exact bp_add_turns. Qed.
Print Assumptions C85_add.

(** [show] shows each header in turn and then the bytes that [to_vec] returns. *)
Theorem C85_show : forall m p,
  turns (bp_show m p) (map (b_show m) (b_hdrs p) ++ [mlet v := bp_to_vec p in ret (show_raw v)]) (fold_right append EmptyString).
Proof. exact bp_show_turns. Qed.
Print Assumptions C85_show.

(** [compare_with_slice] says that they are equal exactly if [len] is the number of bytes
    given and [to_vec] begins with them. A header whose [len] is not the length of its
    [to_vec] can thus make it miss bytes at the end. *)
Theorem C85_compare : forall p b h h' v, bp_to_vec p h = (Ret v, h') ->
  (bp_len p <> length b -> bp_compare_slice p b h = (Ret false, h)) /\
  (bp_len p = length b -> exists r, bp_compare_slice p b h = (Ret r, h') /\ (r = true <-> exists rest, v = b ++ rest)).
Proof.
  intros p b h h' v V. unfold bp_compare_slice. cbv zeta. split; intros L.
  - rewrite (proj2 (Nat.eqb_neq _ _) L). reflexivity.
  - rewrite L, Nat.eqb_refl. cbn [negb]. unfold bind. rewrite V. rewrite orb_diag.
    assert (X : forall b v : list N, (length b =? matching v b)%nat = true <-> exists rest, v = b ++ rest).
    { clear. assert (LE : forall b v : list N, (matching v b <= length b)%nat).
      { induction b as [|y b IH]; intros [|x v]; cbn [matching length]; try lia. specialize (IH v). destruct (x =? y); lia. }
      induction b as [|y b IH]; intros v.
      - split; [exists v; reflexivity|]. intros _. destruct v; reflexivity.
      - destruct v as [|x v]; cbn [matching length].
        + split; [discriminate|]. intros (rest & E). discriminate E.
        + specialize (IH v). specialize (LE b v). destruct (x =? y) eqn:E.
          * apply N.eqb_eq in E. subst y. cbn [Nat.add Nat.eqb]. rewrite IH. split; intros (rest & E); exists rest; [rewrite E|injection E]; auto.
          * apply N.eqb_neq in E. split; [intros F; apply Nat.eqb_eq in F; lia|]. intros (rest & F). cbn [app] in F. injection F as F _. contradiction. }
    specialize (X b v). destruct (length b =? matching v b)%nat; cbn [negb]; eexists; (split; [reflexivity|exact X]).
Qed.
Print Assumptions C85_compare.

(** [pkt[name] = a] changes the first header of that name and nothing else, and
    [mem::replace] yields the one that was there; without such a header both panic. *)
Theorem C85_assign : forall p name a h,
  (forall before x after, first_named name (b_hdrs p) before x after ->
     b_replace p name a h = (Ret (BP (before ++ a :: after) (b_payload p), x), h) /\
     b_assign p name a h = (Ret (BP (before ++ a :: after) (b_payload p)), h)) /\
  (Forall (fun y => b_name y <> name) (b_hdrs p) -> b_replace p name a h = (Panic PUnwrap, h) /\ b_assign p name a h = (Panic PUnwrap, h)).
Proof.
  intros p name a h. split.
  - intros before x after F. unfold b_assign, b_replace, bind. rewrite (index_first _ _ _ _ _ F). cbn [ret].
    rewrite (place_first _ _ _ _ _ F). destruct F as (-> & _). rewrite put_middle. auto.
  - intros F. unfold b_assign, b_replace, b_index, bind. rewrite (place_none _ _ F). auto.
Qed.
Print Assumptions C85_assign.
(** One of the two is the case. *)
Theorem C85_first : forall name l,
  (exists before x after, first_named name l before x after) \/ Forall (fun y => b_name y <> name) l.
Proof. exact first_or_none. Qed.
Print Assumptions C85_first.

(** What was assigned is found under its own name if that is the name it was assigned to. *)
Theorem C85_assign_index : forall p name a p' h, b_assign p name a h = (Ret p', h) -> b_name a = name -> b_index p' name h = (Ret a, h).
Proof.
  intros p name a p' h E N. destruct (C85_assign p name a h) as (Y & Z). destruct (first_or_none name (b_hdrs p)) as [(before & x & after & F)|F].
  - destruct (Y _ _ _ F) as (_ & W). rewrite W in E. injection E as <-. destruct F as (_ & _ & F).
    rewrite (index_first _ name before a after); [reflexivity|]. split; [reflexivity|auto].
  - destruct (Z F) as (_ & W). rewrite W in E. discriminate E.
Qed.
Print Assumptions C85_assign_index.

(** A packet of the crate's headers can be cloned, and be added to another, exactly if none
    of them is an [XSlice]; otherwise both panic and nothing changes. What it is added to may
    hold anything. *)
Theorem C85_slices : forall p q h, Forall (fun b => ~ is_user b) (b_hdrs q) ->
  (Forall (fun b => ~ is_slice b) (b_hdrs q) ->
     bp_clone q h = (Ret q, h) /\ bp_add p q h = (Ret (BP (b_hdrs p ++ b_hdrs q) (b_payload p)), h)) /\
  (Exists is_slice (b_hdrs q) -> bp_clone q h = (Panic PUnimpl, h) /\ bp_add p q h = (Panic PUnimpl, h)).
Proof.
  intros p [l d] h U. cbn [b_hdrs] in *. unfold bp_clone, bp_add, bind. cbn [b_hdrs b_payload]. split; intros S.
  - replace (b_clones l h) with (Ret l, h); [auto|]. revert U. induction S as [|b l B S IH]; intros U; [reflexivity|]. inversion U as [|? ? B' U']; subst.
    cbn [b_clones]. unfold bind. destruct b as [[T r]|T v|]; [|elim B; exists T, v; reflexivity|elim B'; exact I]. cbn. rewrite <- (IH U'). reflexivity.
  - replace (b_clones l h) with (@Panic (list boxed) PUnimpl, h); [auto|]. revert U. induction S as [b l (T & v & ->)|b l S IH]; intros U; [reflexivity|].
    inversion U as [|? ? B' U']; subst. cbn [b_clones]. unfold bind. destruct b as [x|T v|]; [|reflexivity|elim B'; exact I].
    cbn. rewrite <- (IH U'). reflexivity.
Qed.
Print Assumptions C85_slices.

(** [get_header] and the conversions look at the first header of the name only: for an
    [XSlice] they panic, although [get_header] could say [Err]. *)
Theorem C85_get_header : forall T p name h,
  (forall before x after, first_named name (b_hdrs p) before x after ->
     (forall y, x = BOwn y -> b_get_header T p name h = (Ret (if (ht_id T =? ht_id (h_ty y))%nat then Some y else None), h)) /\
     (is_slice x -> b_get_header T p name h = (Panic PUnimpl, h) /\ b_downcast T x h = (Panic PUnimpl, h))) /\
  (Forall (fun y => b_name y <> name) (b_hdrs p) -> b_get_header T p name h = (Ret None, h)).
Proof.
  intros T p name h. unfold b_get_header. split.
  - intros before x after F. rewrite (place_first _ _ _ _ _ F). cbn [option_map]. destruct F as (-> & _). rewrite nth_middle_error. split.
    + intros y ->. reflexivity.
    + intros (U & d & ->). auto.
  - intros F. rewrite (place_none _ _ F). reflexivity.
Qed.
Print Assumptions C85_get_header.

(** Whatever the headers are: if from every state that satisfies [I] their methods come back
    to one that does, then so do the packet's functions. *)
Theorem C85_keeps : forall I p q b m,
  (Forall (fun x => keeps I (b_to_vec x)) (b_hdrs p) -> keeps I (bp_to_vec p) /\ keeps I (bp_compare_slice p b)) /\
  (Forall (fun x => keeps I (b_clone x)) (b_hdrs q) -> keeps I (bp_clone q) /\ keeps I (bp_add p q)) /\
  (Forall (fun x => keeps I (b_to_vec x) /\ keeps I (b_show m x)) (b_hdrs p) -> keeps I (bp_show m p)) /\
  (Forall (fun x => keeps I (b_to_vec x)) (b_hdrs p ++ b_hdrs q) -> keeps I (bp_compare p q)).
Proof.
  intros I p q b m. split; [|split; [|split]]; intros H; [split|split| |].
  - apply keeps_vec. auto.
  - apply keeps_compare, keeps_vec. auto.
  - unfold bp_clone. apply keeps_bind; [apply keeps_clones; auto|]. intros; apply keeps_ret.
  - unfold bp_add. apply keeps_bind; [apply keeps_clones; auto|]. intros; apply keeps_ret.
  - unfold bp_show. apply keeps_bind.
    + apply keeps_shows. eapply Forall_impl; [|exact H]. intros x (_ & X). exact X.
    + intros s. apply keeps_bind; [|intros; apply keeps_ret]. apply keeps_vec. eapply Forall_impl; [|exact H]. intros x (X & _). exact X.
  - apply Forall_app in H. destruct H as (P & Q). unfold bp_compare. apply keeps_bind; [apply keeps_vec; auto|]. intros a. apply keeps_compare, keeps_vec. auto.
Qed.
Print Assumptions C85_keeps.

(** So there is no undefined behaviour and no endless loop on packets of the crate's
    headers, owned and borrowed, whose buffers exist. *)
Theorem C85_safe : forall p q b m h, heap_ok h ->
  Forall (fun x => match x with BOwn y => live h y | BSlice _ _ => True | BUser _ _ _ _ _ _ _ => False end) (b_hdrs p ++ b_hdrs q) ->
  comes_back (fst (bp_to_vec p h)) /\ comes_back (fst (bp_compare_slice p b h)) /\ comes_back (fst (bp_compare p q h)) /\
  comes_back (fst (bp_clone p h)) /\ comes_back (fst (bp_add q p h)) /\ comes_back (fst (bp_show m p h)).
Proof.
  intros p q b m h H F.
  set (I := fun h' => heap_ok h' /\ Forall (fun x => match x with BOwn y => live h' y | BSlice _ _ => True | BUser _ _ _ _ _ _ _ => False end) (b_hdrs p ++ b_hdrs q)).
  assert (I0 : I h) by (split; auto).
  assert (O : forall A (x : M A) h, I h -> ok false 0 [] x h (fun _ _ => True) -> comes_back (fst (x h)) /\ I (snd (x h))).
  { intros A x h0 (_ & F0) ((G & _) & K & U). split.
    - destruct (fst (x h0)); cbn in U; try discriminate U; try destruct U; [left|right]; eexists; reflexivity.
    - split; auto. eapply Forall_impl; [|exact F0]. intros [y| |]; auto. unfold live. lia. }
  assert (E : forall x, In x (b_hdrs p ++ b_hdrs q) -> keeps I (b_to_vec x) /\ keeps I (b_clone x) /\ keeps I (b_show m x)).
  { intros x X. split; [|split]; intros h0 I1; pose proof I1 as (K & L); eapply Forall_forall in L; try exact X; destruct x as [y|T d|]; try contradiction.
    - apply O; auto. eapply ok_imp; [apply ok_hto_vec; auto|auto].
    - apply keeps_ret. exact I1.
    - apply keeps_ret. exact I1.
    - split; [right; eexists; reflexivity|exact I1].
    - apply O; auto. apply ok_hshow; auto. right. lia.
    - cbn [b_show]. unfold lift. pose proof (sshow_outcome m (SHdr T (v_all d))) as Y. cbn [fst snd]. split; [|exact I1].
      destruct (sshow m _); cbn in Y; try discriminate Y; try destruct Y; [left|right]; eexists; reflexivity. }
  assert (EF : forall P : boxed -> Prop, (forall x, keeps I (b_to_vec x) /\ keeps I (b_clone x) /\ keeps I (b_show m x) -> P x) ->
    Forall P (b_hdrs p) /\ Forall P (b_hdrs p ++ b_hdrs q)).
  { intros P G. assert (X : Forall P (b_hdrs p ++ b_hdrs q)) by (apply Forall_forall; intros x X; apply G, E, X). split; auto. apply Forall_app in X. apply X. }
  pose proof (C85_keeps I p q b m) as (K1 & _ & K3 & K4). pose proof (C85_keeps I q p b m) as (_ & K2 & _).
  destruct K1 as (K1 & K1'); [apply EF; tauto|]. destruct K2 as (K2 & K2'); [apply EF; tauto|].
  repeat apply conj; [apply K1|apply K1'|apply K4|apply K2|apply K2'|apply K3]; auto; apply EF; tauto.
Qed.
Print Assumptions C85_safe.

(** Assigning an owned header leads to no packet that a program could not make without:
    from every state that a program can reach, calls of the public functions lead to one
    in which all buffers are the same and it has the packet as it is after the assignment.
    So what holds of all states that calls reach (C66) also holds after assignments. *)
Theorem C85_reach : forall m ip6 c p x name before y after, reach m ip6 c -> In p (k_pkts c) -> In x (k_hdrs c) ->
  p_hdrs p = before ++ y :: after -> hname y = name -> Forall (fun z => hname z <> name) before ->
  exists q c', b_assign (own p) name (BOwn x) (k_heap c) = (Ret (own q), k_heap c) /\ p_payload q = p_payload p /\ p_hdrs q = before ++ x :: after /\
    reach m ip6 c' /\ k_heap c' = k_heap c /\ In q (k_pkts c') /\ incl (k_pkts c) (k_pkts c') /\ k_hdrs c' = k_hdrs c /\
    k_shdrs c' = k_shdrs c /\ k_slices c' = k_slices c.
Proof.
  intros m ip6 c p x name before y after R P X E N F.
  set (more := fun c' => reach m ip6 c' /\ k_heap c' = k_heap c /\ incl (k_pkts c) (k_pkts c') /\ k_hdrs c' = k_hdrs c /\
    k_shdrs c' = k_shdrs c /\ k_slices c' = k_slices c).
  assert (CALL : forall c' k q, more c' -> known c' k -> typed k -> kexec m ip6 k (k_heap c') = (Ret (KPkt q), k_heap c') ->
    exists c2, more c2 /\ incl (k_pkts c') (k_pkts c2) /\ In q (k_pkts c2)).
  { intros c' k q (R1 & E1 & E2 & E3 & E4 & E5) K T G. exists (learn c' (Ret (KPkt q)) (k_heap c')). split; [|split].
    - split; [eapply Reach_call; eauto; left; eexists; reflexivity|]. cbn. repeat split; auto. intros z Z. right. auto.
    - intros z Z. right. exact Z.
    - left. reflexivity. }
  assert (CUT : forall l c' q d, more c' -> In q (k_pkts c') -> p_payload q = d -> forall r, p_hdrs q = r ++ l ->
    exists c2, more c2 /\ incl (k_pkts c') (k_pkts c2) /\ In (Pkt r d) (k_pkts c2)).
  { intros l. induction l as [|z l IH] using rev_ind; intros c' q d M1 Q D r E1.
    - exists c'. rewrite app_nil_r in E1. split; auto. split; [apply incl_refl|]. destruct q; cbn in *; subst; auto.
    - destruct (CALL c' (K_pop q) (pop q) M1) as (c2 & M2 & I2 & Q2); [exact Q|exact I|reflexivity|].
      destruct (IH c2 (pop q) d M2 Q2) with (r := r) as (c3 & M3 & I3 & Q3).
      + unfold pop. destruct (_ =? 0)%nat; auto.
      + unfold pop. rewrite E1, app_assoc, app_length. cbn [length]. rewrite Nat.add_1_r. cbn [Nat.eqb p_hdrs]. rewrite removelast_last. reflexivity.
      + exists c3. split; auto. split; auto. eapply incl_tran; eauto. }
  assert (DROP : forall l c' q d, more c' -> In q (k_pkts c') -> p_payload q = d -> forall r, p_hdrs q = l ++ r ->
    exists c2, more c2 /\ incl (k_pkts c') (k_pkts c2) /\ In (Pkt r d) (k_pkts c2)).
  { intros l. induction l as [|z l IH]; intros c' q d M1 Q D r E1.
    - exists c'. split; auto. split; [apply incl_refl|]. destruct q; cbn in *; subst; auto.
    - destruct (CALL c' (K_remove q 0) (remove q 0) M1) as (c2 & M2 & I2 & Q2); [exact Q|exact I|reflexivity|].
      destruct (IH c2 (remove q 0) d M2 Q2) with (r := r) as (c3 & M3 & I3 & Q3).
      + unfold remove. destruct (_ && _); auto.
      + unfold remove. rewrite E1. reflexivity.
      + exists c3. split; auto. split; auto. eapply incl_tran; eauto. }
  assert (M0 : more c) by (repeat split; auto; apply incl_refl).
  destruct (CUT (y :: after) c p (p_payload p) M0 P eq_refl before E) as (c1 & M1 & I1 & Q1).
  destruct (DROP (before ++ [y]) c1 p (p_payload p) M1 (I1 _ P) eq_refl after) as (c2 & M2 & I2 & Q2); [rewrite <- app_assoc; exact E|].
  destruct (CALL c2 (K_push (Pkt before (p_payload p)) (Owned x)) (Pkt (before ++ [x]) (p_payload p)) M2) as (c3 & M3 & I3 & Q3); [|exact I|reflexivity|].
  { cbn [known]. destruct M2 as (_ & _ & _ & -> & _). auto. }
  destruct (CALL c3 (K_add (Pkt (before ++ [x]) (p_payload p)) (Pkt after (p_payload p))) (Pkt (before ++ x :: after) (p_payload p)) M3) as (c4 & M4 & I4 & Q4); [|exact I| |].
  { cbn [known]. auto. }
  { cbn [kexec]. unfold pkt_add, bind. cbn [p_hdrs p_payload]. rewrite PacketProofs.clone_hdrs_run. cbn. rewrite <- app_assoc. reflexivity. }
  exists (Pkt (before ++ x :: after) (p_payload p)), c4. destruct M4 as (? & ? & ? & ? & ? & ?).
  split; [|repeat (split; auto)].
  destruct (C85_assign (own p) name (BOwn x) (k_heap c)) as (Y & _). destruct (Y (map BOwn before) (BOwn y) (map BOwn after)) as (_ & ->).
  - split; [cbn [own b_hdrs]; rewrite E, map_app; reflexivity|]. split; [exact N|]. apply Forall_map. exact F.
  - unfold own. cbn. rewrite map_app. reflexivity.
Qed.
Print Assumptions C85_reach.

(** ** What is not so *)

Definition bx_ether : list N := [0;1;2;3;4;5; 6;7;8;9;10;11; 8;0].
(** A type of the program whose [len] is less than what its [to_vec] returns. *)
Definition bx_user : boxed :=
  BUser "Mine" 2 (ret [1;2;3]) (ret "mine"%string) (fail PUnimpl) (ret (BOwn (Hdr Ether 0))) (ret None).

(** A packet of the crate's headers can always be cloned: no. *)
Theorem C85_clone_refuted : ~ (forall p h, Forall (fun b => ~ is_user b) (b_hdrs p) -> exists q, bp_clone p h = (Ret q, h)).
Proof.
  intros H. destruct (H (BP [BSlice Ether bx_ether] []) []) as (q & E); [constructor; [exact (fun x => x)|constructor]|]. discriminate E.
Qed.
Print Assumptions C85_clone_refuted.

(** What was assigned to a name is then found under it: no, [pkt["Ether"] = Box::new(ICMP..)]. *)
Theorem C85_assign_index_refuted : ~ (forall p name a p' h, b_assign p name a h = (Ret p', h) -> b_index p' name h = (Ret a, h)).
Proof.
  intros H. specialize (H (own (Pkt [Hdr Ether 0] [])) "Ether"%string (BOwn (Hdr ICMP 1)) (own (Pkt [Hdr ICMP 1] [])) [] eq_refl). discriminate H.
Qed.
Print Assumptions C85_assign_index_refuted.

(** If [compare_with_slice] says so, the bytes are the packet's: no. *)
Theorem C85_compare_refuted : ~ (forall p b h, bp_compare_slice p b h = (Ret true, h) -> bp_to_vec p h = (Ret b, h)).
Proof. intros H. specialize (H (BP [bx_user] []) [1;2] [] eq_refl). discriminate H. Qed.
Print Assumptions C85_compare_refuted.

(** ** Examples *)

Definition bx_heap : heap := [Cell [69;0;0;20] false].
Definition bx_mixed : bpacket := BP [BSlice Ether bx_ether; BOwn (Hdr ICMP 0)] [255].
(** An Ethernet header in front of another, replaced by an [XSlice]. *)
Example C85_example :
  b_assign (BP [BOwn (Hdr Ether 7); BOwn (Hdr ICMP 0)] [255]) "Ether" (BSlice Ether bx_ether) bx_heap = (Ret bx_mixed, bx_heap) /\
  bp_to_vec bx_mixed bx_heap = (Ret (bx_ether ++ [69;0;0;20] ++ [255]), bx_heap) /\
  bp_clone bx_mixed bx_heap = (Panic PUnimpl, bx_heap) /\
  bp_add bx_mixed (BP [BOwn (Hdr ICMP 0)] [1]) bx_heap = (Ret (BP [BSlice Ether bx_ether; BOwn (Hdr ICMP 0); BOwn (Hdr ICMP 0)] [255]), bx_heap) /\
  b_get_header Ether bx_mixed "Ether" bx_heap = (Panic PUnimpl, bx_heap) /\
  b_get_header ICMP bx_mixed "ICMP" bx_heap = (Ret (Some (Hdr ICMP 0)), bx_heap).
Proof. repeat split. Qed.
(** The first [to_vec] that panics decides, and the second is not called. *)
Example C85_stops : forall f : M (list N),
  stops (map b_to_vec [BSlice Ether bx_ether; BUser "A" 1 (fail PIndex) (ret ""%string) (fail PUnimpl) (fail PUnimpl) (ret None);
                       BUser "B" 1 f (ret ""%string) (fail PUnimpl) (fail PUnimpl) (ret None)]) [] (@Panic (list N) PIndex) [].
Proof.
  intros f. exists [ret bx_ether], (fail PIndex), [f], [bx_ether], [], (Panic PIndex).
  repeat split. econstructor; [reflexivity|constructor].
Qed.
(** The hypotheses of [C85_reach] hold of a packet that a program makes. *)
Example C85_reach_example : exists c p x, reach Debug (fun _ => None) c /\ In p (k_pkts c) /\ In x (k_hdrs c) /\
  exists y, p_hdrs p = [] ++ [y] /\ hname y = "Ether"%string /\ x <> y.
Proof.
  assert (D : bytes_ok (ht_default Ether)) by (repeat constructor).
  assert (STEP : forall c k o h, reach Debug (fun _ => None) c -> known c k -> typed k ->
    kexec Debug (fun _ => None) k (k_heap c) = (Ret o, h) -> reach Debug (fun _ => None) (learn c (Ret o) h)).
  { intros c k o h R K T E. eapply Reach_call; eauto. left. eexists. reflexivity. }
  pose proof (STEP k_start (K_hdr (ONew Ether)) _ _ (Reach_start _ _) (fun z (Z : In z []) => match Z with end) D eq_refl) as R1.
  pose proof (STEP _ (K_hdr (ONew Ether)) _ _ R1 (fun z (Z : In z []) => match Z with end) D eq_refl) as R2.
  pose proof (STEP _ K_pnew _ _ R2 I I eq_refl) as R3.
  pose proof (STEP _ (K_push pkt_new (Owned (Hdr Ether 0))) _ _ R3 (conj (or_introl eq_refl) (or_intror (or_introl eq_refl))) I eq_refl) as R4.
  eexists _, _, (Hdr Ether 1). split; [exact R4|]. split; [left; reflexivity|]. split; [left; reflexivity|].
  exists (Hdr Ether 0). split; [reflexivity|]. split; [reflexivity|discriminate].
Qed.
