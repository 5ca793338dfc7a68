(** PropPacket.v -- properties C12-C19: packets as header lists. *)

From Coq Require Import Lia.
From Verif Require Import Base Bits Layout Heap Packet Build Spec BitsProofs HeapProofs PacketProofs.
Open Scope N_scope.

(** A heap and packets for the examples: Ether / IPv4 with payload [1;2;3], and
    a packet holding a default ICMP header. *)
Definition pk_heap : heap :=
  [Cell (ht_default Ether) false; Cell (ht_default IPv4) false; Cell (ht_default ICMP) false].
Definition pk_ip : packet := Pkt [Hdr Ether 0; Hdr IPv4 1] [1; 2; 3].
Definition pk_icmp : packet := Pkt [Hdr ICMP 2] [].

(** * C12 *)

(** Calls that change the header list. *)
Inductive list_op := APush (x : hdr) | AInsert (x : hdr) | APop | ARemove (i : nat).

Definition list_exec (p : packet) (o : list_op) : M packet :=
  match o with
  | APush x => push p x
  | AInsert x => insert p x
  | APop => ret (pop p)
  | ARemove i => ret (remove p i)
  end.
Fixpoint list_run (os : list list_op) (p : packet) : M packet :=
  match os with
  | [] => ret p
  | o :: t => mlet q := list_exec p o in list_run t q
  end.

(** The same on an abstract list. *)
Definition list_spec (l : list hdr) (o : list_op) : list hdr :=
  match o with
  | APush x => l ++ [x]
  | AInsert x => [x] ++ l
  | APop => firstn (length l - 1) l
  | ARemove i => firstn i l ++ skipn (i + 1) l
  end.

Theorem C12_list_refinement : forall os p h,
  list_run os p h =
  (Ret (Pkt (fold_left list_spec os (p_hdrs p)) (p_payload p)), h).
Proof.
  induction os as [|o os IH]; intros p h.
  - destruct p; reflexivity.
  - cbn [list_run fold_left].
    assert (E : list_exec p o h = (Ret (Pkt (list_spec (p_hdrs p) o) (p_payload p)), h)).
    { destruct o; cbn [list_exec list_spec]; try reflexivity; unfold ret; f_equal; f_equal.
      - unfold pop. destruct (Nat.eqb_spec (length (p_hdrs p)) 0) as [L|L].
        + destruct p as [[|] pl]; [reflexivity|discriminate].
        + f_equal. rewrite removelast_firstn_len. f_equal. lia.
      - unfold remove. destruct p as [l pl]. cbn [p_hdrs p_payload].
        assert (R : forall A (l : list A) i, remove_nth i l = firstn i l ++ skipn (i + 1) l).
        { clear. induction l as [|x l IHl]; destruct i; simpl; auto. f_equal. apply IHl. }
        destruct (Nat.eqb_spec (length l) 0) as [L|L]; cbn [negb andb].
        + destruct l; [|discriminate]. rewrite firstn_nil, skipn_nil. reflexivity.
        + destruct (Nat.ltb_spec i (length l)) as [I|I].
          * rewrite R. reflexivity.
          * rewrite firstn_all2 by lia. rewrite skipn_all2 by lia. rewrite app_nil_r. reflexivity. }
    rewrite (bind_ret _ _ _ _ _ E), IH. reflexivity.
Qed.
Print Assumptions C12_list_refinement.

(** Pushing or inserting a borrowed header (the API allows it: [impl Header]) panics. *)
Theorem C12_borrowed_panics : forall p T d h,
  push_any p (Borrowed T d) h = (Panic PUnimpl, h) /\
  insert_any p (Borrowed T d) h = (Panic PUnimpl, h).
Proof. split; reflexivity. Qed.
Print Assumptions C12_borrowed_panics.

Example C12_example :
  fst (list_run [APush (Hdr UDP 3); AInsert (Hdr Vlan 4); ARemove 1; APop; ARemove 9] pk_ip pk_heap)
  = Ret (Pkt [Hdr Vlan 4; Hdr IPv4 1] [1; 2; 3]).
Proof. reflexivity. Qed.

(** * C13 *)

(** [to_vec] returns exactly when every header's buffer is usable, and then it is
    the headers' bytes in order and the payload; nothing changes. *)
Theorem C13_to_vec : forall p h v,
  fst (to_vec p h) = Ret v <->
  exists ds, Forall2 (fun x d => cell_at h (h_ref x) d) (p_hdrs p) ds /\ v = concat ds ++ p_payload p.
Proof.
  intros p h v. split.
  - intros E. destruct (to_vec p h) as [o h'] eqn:F. simpl in E. subst o.
    destruct (to_vec_inv _ _ _ _ F) as (_ & ds & H1 & H2). eauto.
  - intros (ds & H1 & ->). rewrite (to_vec_hold p h ds H1). reflexivity.
Qed.
Print Assumptions C13_to_vec.

Theorem C13_to_vec_pure : forall p h v h', to_vec p h = (Ret v, h') -> h' = h.
Proof. intros p h v h' E. apply to_vec_inv in E. tauto. Qed.
Print Assumptions C13_to_vec_pure.

Example C13_example : fst (to_vec pk_ip pk_heap) = Ret (ht_default Ether ++ ht_default IPv4 ++ [1; 2; 3]).
Proof. reflexivity. Qed.

(** * C14 *)

Theorem C14_len : forall p h v,
  fst (to_vec p h) = Ret v ->
  (forall x d, In x (p_hdrs p) -> cell_at h (h_ref x) d -> length d = ht_size (h_ty x)) ->
  pkt_len p = length v.
Proof.
  intros p h v E Hs. apply C13_to_vec in E as (ds & H & ->). rewrite app_length. unfold pkt_len. f_equal.
  induction H as [|x d l ds Hx Hl IH]; [reflexivity|].
  simpl. rewrite app_length. f_equal.
  - unfold hlen. symmetry. apply Hs; [left; auto|auto].
  - apply IH. intros; apply Hs; [right; auto|auto].
Qed.
Print Assumptions C14_len.

(** Not for every packet the API can build. *)
Theorem C14_len_refuted : exists x h1 h2 p,
  hnew ICMP [] = (Ret x, h1) /\ push pkt_new x h1 = (Ret p, h2) /\
  exists v, fst (to_vec p h2) = Ret v /\ pkt_len p <> length v.
Proof.
  do 4 eexists. split; [reflexivity|]. split; [reflexivity|]. eexists. split; [reflexivity|].
  vm_compute. discriminate.
Qed.
Print Assumptions C14_len_refuted.

(** Exactly when the buffers together have as many bytes as the types declare. *)
Theorem C14_len_iff : forall p h v,
  fst (to_vec p h) = Ret v ->
  exists ds, Forall2 (fun x d => cell_at h (h_ref x) d) (p_hdrs p) ds /\
    (pkt_len p = length v <->
     list_sum (map (fun x => ht_size (h_ty x)) (p_hdrs p)) = list_sum (map (@length N) ds)).
Proof.
  intros p h v E. apply C13_to_vec in E as (ds & H & ->). exists ds. split; auto.
  assert (L : length (concat ds) = list_sum (map (@length N) ds)).
  { clear. induction ds as [|d ds IH]; [reflexivity|]. cbn [concat map list_sum fold_right]. rewrite app_length, IH. reflexivity. }
  rewrite app_length, L. unfold pkt_len, hlen. lia.
Qed.
Print Assumptions C14_len_iff.

Lemma snoc_cell h d : cell_at (h ++ [Cell d false]) (length h) d.
Proof. unfold cell_at. rewrite nth_error_app2, Nat.sub_diag by lia. reflexivity. Qed.

(** Nor for what [Packet::llc] returns, nor for a header made from any other number
    of bytes than its type declares. *)
Theorem C14_llc_refuted : forall dsap ssap ctrl h, exists x h' p v,
  llc dsap ssap ctrl h = (Ret x, h') /\ push pkt_new x h' = (Ret p, h') /\
  to_vec p h' = (Ret v, h') /\ length v = 3%nat /\ pkt_len p = 14%nat.
Proof.
  intros. eexists _, _, _, ([dsap; ssap; ctrl] ++ []). split; [reflexivity|]. split; [reflexivity|].
  split; [|split; reflexivity].
  apply (to_vec_hold (Pkt [Hdr Dot3 (length h)] []) _ [[dsap; ssap; ctrl]]). constructor; [apply snoc_cell|constructor].
Qed.
Print Assumptions C14_llc_refuted.
Theorem C14_from_refuted : forall T d h, exists x h' p v,
  hfrom T d h = (Ret x, h') /\ push pkt_new x h' = (Ret p, h') /\ to_vec p h' = (Ret v, h') /\
  (pkt_len p = length v <-> length d = ht_size T).
Proof.
  intros. eexists _, _, _, _. split; [reflexivity|]. split; [reflexivity|]. split.
  - apply (to_vec_hold _ _ [d]). constructor; [apply snoc_cell|constructor].
  - unfold pkt_len, hlen. cbn [p_hdrs p_payload pkt_new app map list_sum fold_right h_ty length concat].
    rewrite !app_nil_r, !Nat.add_0_r. split; congruence.
Qed.
Print Assumptions C14_from_refuted.

Example C14_example : pkt_len pk_ip = 37%nat /\
  forall x d, In x (p_hdrs pk_ip) -> cell_at pk_heap (h_ref x) d -> length d = ht_size (h_ty x).
Proof.
  split; [reflexivity|]. intros x d Hx Hd. simpl in Hx.
  destruct Hx as [<-|[<-|[]]]; injection Hd as <-; reflexivity.
Qed.

(** * C15 *)

Theorem C15_set_payload_appends : forall p a,
  payload (set_payload p a) = payload p ++ a /\ p_hdrs (set_payload p a) = p_hdrs p.
Proof. split; reflexivity. Qed.
Print Assumptions C15_set_payload_appends.

(** "After set_payload(a), payload() == a" holds exactly on an empty payload. *)
Theorem C15_set_payload_iff : forall p a, payload (set_payload p a) = a <-> payload p = [].
Proof.
  intros p a. unfold payload, set_payload. cbn [p_payload]. split; intros H.
  - apply (f_equal (@length N)) in H. rewrite app_length in H.
    destruct (p_payload p); auto. simpl in H. lia.
  - rewrite H. reflexivity.
Qed.
Print Assumptions C15_set_payload_iff.

Theorem C15_set_payload_refuted : exists p a,
  payload (set_payload (set_payload p a) a) <> a.
Proof. exists pkt_new, [1]. discriminate. Qed.
Print Assumptions C15_set_payload_refuted.

Theorem C15_set_payload_history : forall l p, payload (fold_left set_payload l p) = payload p ++ concat l.
Proof.
  induction l as [|a l IH]; intros p; cbn [fold_left concat].
  - rewrite app_nil_r. reflexivity.
  - rewrite IH. unfold payload, set_payload. cbn [p_payload]. rewrite app_assoc. reflexivity.
Qed.
Print Assumptions C15_set_payload_history.

(** * C16 *)

Theorem C16_add : forall p q h,
  exists r, pkt_add p q h = (Ret r, h) /\ p_hdrs r = p_hdrs p ++ p_hdrs q /\ p_payload r = p_payload p.
Proof. intros p q h. eexists. split; [apply pkt_add_run|]. split; reflexivity. Qed.
Print Assumptions C16_add.

(** The bytes of a sum: everything but the right payload, with the left payload last. *)
Theorem C16_add_bytes : forall p q h vp vq a b,
  fst (to_vec p h) = Ret vp -> vp = a ++ p_payload p ->
  fst (to_vec q h) = Ret vq -> vq = b ++ p_payload q ->
  exists r, pkt_add p q h = (Ret r, h) /\ to_vec r h = (Ret (a ++ b ++ p_payload p), h).
Proof.
  intros p q h vp vq a b Ep -> Eq ->. apply C13_to_vec in Ep as (ds & Hp & E1).
  apply C13_to_vec in Eq as (es & Hq & E2).
  apply app_inv_tail in E1. apply app_inv_tail in E2. subst a b.
  eexists. split; [apply pkt_add_run|].
  rewrite (to_vec_hold _ h (ds ++ es)) by (apply Forall2_app; auto).
  rewrite concat_app, <- app_assoc. reflexivity.
Qed.
Print Assumptions C16_add_bytes.

Corollary C16_add_concat : forall p q h vp vq,
  fst (to_vec p h) = Ret vp -> fst (to_vec q h) = Ret vq ->
  p_payload p = [] -> p_payload q = [] ->
  exists r, pkt_add p q h = (Ret r, h) /\ to_vec r h = (Ret (vp ++ vq), h).
Proof.
  intros p q h vp vq Ep Eq Np Nq.
  destruct (C16_add_bytes p q h vp vq vp vq Ep) as (r & R1 & R2); auto.
  - rewrite Np, app_nil_r; auto.
  - rewrite Nq, app_nil_r; auto.
  - exists r. split; auto. rewrite R2, Np, app_nil_r. reflexivity.
Qed.
Print Assumptions C16_add_concat.

Theorem C16_add_concat_refuted : exists p q h vp vq r,
  fst (to_vec p h) = Ret vp /\ fst (to_vec q h) = Ret vq /\
  pkt_add p q h = (Ret r, h) /\ fst (to_vec r h) <> Ret (vp ++ vq).
Proof.
  exists pk_ip, pk_ip, pk_heap. do 3 eexists. repeat split; try reflexivity. vm_compute. discriminate.
Qed.
Print Assumptions C16_add_concat_refuted.
(** Exactly when it holds: the right payload is empty and the bytes of the right headers commute with
    the left payload. *)
Theorem C16_add_concat_iff : forall p q h vp vq a b,
  fst (to_vec p h) = Ret vp -> vp = a ++ p_payload p ->
  fst (to_vec q h) = Ret vq -> vq = b ++ p_payload q ->
  exists r, pkt_add p q h = (Ret r, h) /\
    (fst (to_vec r h) = Ret (vp ++ vq) <-> p_payload q = [] /\ b ++ p_payload p = p_payload p ++ b).
Proof.
  intros p q h vp vq a b Ep Ea Eq Eb. destruct (C16_add_bytes p q h vp vq a b Ep Ea Eq Eb) as (r & R1 & R2).
  exists r. split; auto. rewrite R2. cbn [fst]. subst vp vq. rewrite <- app_assoc. split.
  - intros E. injection E as E. apply app_inv_head in E. pose proof (f_equal (@length N) E) as L. rewrite !app_length in L.
    assert (Z : p_payload q = []) by (apply length_zero_iff_nil; lia). split; auto. rewrite Z, app_nil_r in E. exact E.
  - intros [-> E]. rewrite app_nil_r, E. reflexivity.
Qed.
Print Assumptions C16_add_concat_iff.
(** Addition is associative, and a packet without headers adds nothing from the right. *)
Theorem C16_laws : forall p q r h,
  bind (pkt_add p q) (fun x => pkt_add x r) h = bind (pkt_add q r) (fun x => pkt_add p x) h /\
  (p_hdrs q = [] -> pkt_add p q h = (Ret p, h)).
Proof.
  intros p q r h. unfold bind. rewrite !pkt_add_run. split.
  - cbn [p_hdrs p_payload]. rewrite app_assoc. reflexivity.
  - intros ->. destruct p as [hs d]. cbn [p_hdrs p_payload]. rewrite app_nil_r. reflexivity.
Qed.
Print Assumptions C16_laws.
(** Payloads of zeros in front of headers of zeros do commute. *)
Example C16_iff_example : exists p q h r, p_payload p <> [] /\ p_hdrs q <> [] /\ pkt_add p q h = (Ret r, h) /\
  fst (to_vec p h) = Ret [0; 0] /\ fst (to_vec q h) = Ret [0; 0; 0] /\ fst (to_vec r h) = Ret [0; 0; 0; 0; 0].
Proof.
  exists (Pkt [] [0; 0]), (Pkt [Hdr LLC 0] []), [Cell [0; 0; 0] false]. eexists. repeat split; try discriminate; reflexivity.
Qed.

(** * C17 *)

Theorem C17_clone_same : forall p h,
  exists q, pkt_clone p h = (Ret q, h) /\ to_vec q h = to_vec p h /\ pkt_len q = pkt_len p /\
    p_payload q = p_payload p /\ map h_ty (p_hdrs q) = map h_ty (p_hdrs p).
Proof. intros p h. exists p. split; [apply pkt_clone_run|]. repeat split. Qed.
Print Assumptions C17_clone_same.

(** Changes to the header list or the payload of the clone are not seen by the
    original: the operations return a new clone value and leave the heap alone, so
    the original still serialises as before. *)
Theorem C17_structure_independent : forall p q h h1 os a r h2,
  pkt_clone p h = (Ret q, h1) ->
  list_run os (set_payload q a) h1 = (Ret r, h2) ->
  h2 = h /\ to_vec p h2 = to_vec p h.
Proof.
  intros p q h h1 os a r h2 E1 E2. rewrite pkt_clone_run in E1. injection E1 as <- <-.
  rewrite C12_list_refinement in E2. injection E2 as <- <-. auto.
Qed.
Print Assumptions C17_structure_independent.

(** But the header bytes are shared. *)
Theorem C17_contents_independent_refuted : exists p q x f v h h1 h2,
  pkt_clone p h = (Ret q, h1) /\ In x (p_hdrs q) /\ hset x f v h1 = (Ret tt, h2) /\
  fst (to_vec p h2) <> fst (to_vec p h).
Proof.
  exists pk_ip, pk_ip, (Hdr IPv4 1), IPv4_ttl, 7, pk_heap, pk_heap. eexists.
  split; [reflexivity|]. split; [simpl; tauto|].
  split; [apply (hset_in _ pk_heap (ht_default IPv4)); [reflexivity|apply bytes_okb_ok; reflexivity|split; simpl; lia]|].
  vm_compute. discriminate.
Qed.
Print Assumptions C17_contents_independent_refuted.

(** In every later heap, whatever wrote it, both serialise alike. *)
Theorem C17_contents_shared : forall p q h h1, pkt_clone p h = (Ret q, h1) ->
  forall h', to_vec q h' = to_vec p h'.
Proof. intros p q h h1 E h'. rewrite pkt_clone_run in E. injection E as <- <-. reflexivity. Qed.
Print Assumptions C17_contents_shared.

(** * C18 *)

Theorem C18_compare_with_slice : forall p b h v,
  fst (to_vec p h) = Ret v ->
  exists r, compare_with_slice p b h = (Ret r, h) /\
    (r = true <-> length b = pkt_len p /\ exists t, v = b ++ t).
Proof.
  intros p b h v E. destruct (to_vec p h) as [o h'] eqn:F. simpl in E. subst o.
  pose proof (C13_to_vec_pure _ _ _ _ F). subst h'.
  destruct (compare_with_slice_run p b h v F) as (r & R1 & R2). exists r. split; auto.
  rewrite R2. split; intros [L P]; split; auto.
  - exists (skipn (length b) v). rewrite <- P at 1. symmetry. apply firstn_skipn.
  - destruct P as [t ->]. rewrite firstn_app, Nat.sub_diag, firstn_O, app_nil_r. apply firstn_all.
Qed.
Print Assumptions C18_compare_with_slice.

(** The packet's headers have their declared size. *)
Definition sized (p : packet) (h : heap) : Prop :=
  forall x d, In x (p_hdrs p) -> cell_at h (h_ref x) d -> length d = ht_size (h_ty x).

(** For such packets [compare] is equality of the serialised bytes. *)
Theorem C18_compare_eq : forall p q h v w,
  fst (to_vec p h) = Ret v -> fst (to_vec q h) = Ret w -> sized p h ->
  exists r, compare p q h = (Ret r, h) /\ (r = true <-> v = w).
Proof.
  intros p q h v w Ep Eq S. unfold compare, bind. destruct (to_vec q h) as [o h'] eqn:F. simpl in Eq.
  subst o. pose proof (C13_to_vec_pure _ _ _ _ F). subst h'.
  destruct (C18_compare_with_slice p w h v Ep) as (r & R1 & R2). exists r. split; auto.
  rewrite R2. rewrite (C14_len p h v Ep S). split.
  - intros (L & t & ->). rewrite app_length in L. destruct t; [rewrite app_nil_r; auto|simpl in L; lia].
  - intros ->. split; auto. exists []. rewrite app_nil_r; auto.
Qed.
Print Assumptions C18_compare_eq.

(** So it is an equivalence among packets whose headers have their declared size. *)
Theorem C18_equivalence : forall h,
  let good p := sized p h /\ exists v, fst (to_vec p h) = Ret v in
  let same p q := compare p q h = (Ret true, h) in
  (forall p, good p -> same p p) /\
  (forall p q, good p -> good q -> same p q -> same q p) /\
  (forall p q r, good p -> good q -> good r -> same p q -> same q r -> same p r).
Proof.
  intros h good same.
  assert (K : forall p q, good p -> good q -> (same p q <-> fst (to_vec p h) = fst (to_vec q h))).
  { intros p q [S [v V]] [_ [w W]]. destruct (C18_compare_eq p q h v w V W S) as (r & R & I). unfold same.
    rewrite R, V, W. split.
    - intros E. injection E as ->. f_equal. apply I. reflexivity.
    - intros E. injection E as ->. f_equal. f_equal. apply I. reflexivity. }
  repeat split.
  - intros p P. apply K; auto.
  - intros p q P Q E. apply K in E; auto. apply K; auto.
  - intros p q r P Q R E F. apply K in E, F; auto. apply K; auto. congruence.
Qed.
Print Assumptions C18_equivalence.

(** In general it is neither reflexive nor symmetric. *)
Theorem C18_reflexive_refuted : exists p h, fst (compare p p h) = Ret false.
Proof. exists pk_icmp, pk_heap. reflexivity. Qed.
Print Assumptions C18_reflexive_refuted.
Theorem C18_symmetric_refuted : exists p q h,
  fst (compare p q h) = Ret true /\ fst (compare q p h) = Ret false.
Proof. exists pk_icmp, (Pkt [] [8; 0; 0; 0]), pk_heap. split; reflexivity. Qed.
Print Assumptions C18_symmetric_refuted.
Theorem C18_transitive_refuted : exists p q r h,
  fst (compare p q h) = Ret true /\ fst (compare q r h) = Ret true /\ fst (compare p r h) = Ret false.
Proof.
  destruct (to_vec pk_icmp pk_heap) as [[v| | | |] h] eqn:E; try (vm_compute in E; discriminate).
  exists (Pkt [] v), pk_icmp, (Pkt [] [8; 0; 0; 0]), pk_heap. vm_compute in E. injection E as <- _. repeat split; reflexivity.
Qed.
Print Assumptions C18_transitive_refuted.
(** A packet equals itself exactly if it is as long as it says. *)
Theorem C18_reflexive : forall p h v, fst (to_vec p h) = Ret v ->
  (compare p p h = (Ret true, h) <-> pkt_len p = length v).
Proof.
  intros p h v E. unfold compare, bind. destruct (to_vec p h) as [o h'] eqn:F. simpl in E. subst o.
  pose proof (C13_to_vec_pure _ _ _ _ F). subst h'. assert (E : fst (to_vec p h) = Ret v) by (rewrite F; reflexivity).
  destruct (C18_compare_with_slice p v h v E) as (r & R1 & R2). rewrite R1. split.
  - intros X. injection X as ->. symmetry. apply R2. reflexivity.
  - intros L. f_equal. f_equal. apply R2. split; auto. exists []. rewrite app_nil_r. reflexivity.
Qed.
Print Assumptions C18_reflexive.

Example C18_example : sized pk_ip pk_heap /\ fst (compare pk_ip pk_ip pk_heap) = Ret true /\
  fst (compare_with_slice pk_ip (repeat 0 37) pk_heap) = Ret false.
Proof. split; [exact (proj2 C14_example)|]. split; reflexivity. Qed.

(** * C19 *)

Definition first_named (p : packet) (name : string) (x : hdr) : Prop :=
  exists l1 l2, p_hdrs p = l1 ++ x :: l2 /\ hname x = name /\ Forall (fun y => hname y <> name) l1.

Theorem C19_get_header : forall T p name x,
  get_header T p name = Some x <-> first_named p name x /\ ht_id T = ht_id (h_ty x).
Proof.
  intros T p name x. unfold get_header, first_named. split.
  - destruct (find_name name (p_hdrs p)) as [y|] eqn:E; [|discriminate].
    destruct (Nat.eqb_spec (ht_id T) (ht_id (h_ty y))); [|discriminate].
    intros H. injection H as <-. split; auto. apply find_name_some. auto.
  - intros [H I]. apply find_name_some in H. rewrite H, I, Nat.eqb_refl. reflexivity.
Qed.
Print Assumptions C19_get_header.

Theorem C19_get_header_err : forall T p name,
  get_header T p name = None <->
  (forall y, In y (p_hdrs p) -> hname y <> name) \/
  (exists x, first_named p name x /\ ht_id T <> ht_id (h_ty x)).
Proof.
  intros T p name. unfold get_header, first_named.
  destruct (find_name name (p_hdrs p)) as [y|] eqn:E.
  - pose proof (proj1 (find_name_some _ _ _) E) as F.
    destruct (Nat.eqb_spec (ht_id T) (ht_id (h_ty y))) as [I|I].
    + split; [discriminate|]. intros [H|(x & H & J)].
      * destruct F as (l1 & l2 & F & N & _). exfalso. apply (H y); auto. rewrite F. apply in_elt.
      * apply find_name_some in H. congruence.
    + split; auto. intros _. right. exists y. auto.
  - split; auto. intros _. left. apply find_name_none in E. rewrite Forall_forall in E. exact E.
Qed.
Print Assumptions C19_get_header_err.

Theorem C19_index : forall p name h,
  (exists x, index_name p name h = (Ret x, h) /\ first_named p name x) \/
  (index_name p name h = (Panic PUnwrap, h) /\ forall y, In y (p_hdrs p) -> hname y <> name).
Proof.
  intros p name h. unfold index_name. destruct (find_name name (p_hdrs p)) as [y|] eqn:E.
  - left. exists y. split; auto. apply find_name_some; auto.
  - right. split; auto. apply find_name_none in E. rewrite Forall_forall in E. exact E.
Qed.
Print Assumptions C19_index.

(** Writing a field through a lookup changes exactly that field of that header in
    the serialised packet. *)
Theorem C19_write_through : forall T p name x f v h vec,
  get_header T p name = Some x -> NoDup (map h_ref (p_hdrs p)) -> heap_ok h ->
  fst (to_vec p h) = Ret vec ->
  (forall d, cell_at h (h_ref x) d -> field_in f (length d)) ->
  exists a d d' b h', vec = a ++ d ++ b /\
    cell_at h (h_ref x) d /\
    hset x f v h = (Ret tt, h') /\ to_vec p h' = (Ret (a ++ d' ++ b), h') /\
    length d' = length d /\ field_val d' f = v mod 2 ^ N.of_nat (f_width f) /\
    (forall i, ~ (f_start f <= i <= f_end f)%nat -> bit d' i = bit d i).
Proof.
  intros T p name x f v h vec G ND HO E Hf.
  apply C19_get_header in G as [(l1 & l2 & El & _) _].
  apply C13_to_vec in E as (ds & H & ->). rewrite El in H.
  apply Forall2_app_inv_l in H as (d1 & d2 & H1 & H2 & ->).
  inversion H2 as [|? d ? d2' Hx H2']; subst. clear H2.
  assert (Hd : bytes_ok d).
  { unfold heap_ok in HO. rewrite Forall_forall in HO. apply (HO (Cell d false)).
    eapply nth_error_In. exact Hx. }
  pose proof (Hf d Hx) as Hfi.
  exists (concat d1), d, (fset d f v), (concat d2' ++ p_payload p), (upd h (h_ref x) (Cell (fset d f v) false)).
  split; [rewrite concat_app; cbn [concat]; rewrite <- !app_assoc; reflexivity|].
  split; [exact Hx|].
  split; [apply hset_in; auto|].
  split.
  - rewrite (to_vec_hold p _ (d1 ++ fset d f v :: d2')).
    + rewrite concat_app. cbn [concat]. rewrite <- !app_assoc. reflexivity.
    + unfold hold. rewrite El.
      rewrite El, map_app in ND. cbn [map] in ND. apply NoDup_remove_2 in ND.
      apply Forall2_app; [|constructor].
      * eapply hold_ext; [exact H1|]. intros y Hy. apply cell_at_upd_other. intros Eq. apply ND.
        apply in_or_app. left. rewrite <- Eq. apply in_map; auto.
      * eapply cell_at_upd; eauto.
      * eapply hold_ext; [exact H2'|]. intros y Hy. apply cell_at_upd_other. intros Eq. apply ND.
        apply in_or_app. right. rewrite <- Eq. apply in_map; auto.
  - split; [apply fset_length|]. split; [apply field_val_fset; auto|].
    intros i Hi. rewrite bit_fset by auto.
    destruct (Nat.leb_spec (f_start f) i); destruct (Nat.leb_spec i (f_end f)); simpl; auto; lia.
Qed.
Print Assumptions C19_write_through.

(** Duplicate names and a foreign type under a known name. *)
Example C19_example :
  let other := HT 99 "IPv4" 2 [] [0; 0] in
  get_header IPv4 (Pkt [Hdr IPv4 1; Hdr IPv4 5] []) "IPv4" = Some (Hdr IPv4 1) /\
  get_header IPv4 (Pkt [Hdr other 5; Hdr IPv4 1] []) "IPv4" = None /\
  get_header IPv4 pk_ip "IPv4" = Some (Hdr IPv4 1) /\
  NoDup (map h_ref (p_hdrs pk_ip)) /\ heap_ok pk_heap.
Proof.
  repeat split; try reflexivity; try (repeat constructor; simpl; intuition discriminate).
Qed.
