(** ClientProofs.v -- lemmas for C66: every public function keeps the buffers and
    references of a program in order. *)

From Coq Require Import Lia.
From Verif Require Import Base Bits Types Layout Heap Packet Text Build Utils Slow Fast Show Ops Client Spec ClientSpec
  BitsProofs HeapProofs TextProofs ChecksumProofs BuildProofs PropBuild SlowProofs FastProofs PropUtils PropParse.
Open Scope N_scope.

(** ** How a call may change the heap: of the first [n] buffers only those in [W], none
    that is poisoned; none disappears. *)
Definition grows (n : nat) (W : list nat) (h h' : heap) : Prop :=
  (length h <= length h')%nat /\
  (forall r, (r < n)%nat -> ~ In r W -> nth_error h' r = nth_error h r) /\
  (forall r c, nth_error h r = Some c -> c_poisoned c = true -> nth_error h' r = Some c).

Lemma grows_refl n W h : grows n W h h.
Proof. split; [lia|]. auto. Qed.
Lemma grows_trans n W h h1 h2 : grows n W h h1 -> grows n W h1 h2 -> grows n W h h2.
Proof.
  intros (L & F & P) (L' & F' & P'). split; [lia|]. split; [intros; rewrite F'; auto|]. intros r c E Q. apply P'; auto.
Qed.
Lemma grows_len n W h h' : grows n W h h' -> (length h <= length h')%nat.
Proof. intros (L & _). exact L. Qed.

Definition outcome {A} (fu : bool) (o : out A) (Q : A -> Prop) : Prop :=
  match o with Ret a => Q a | Panic _ => True | Fuel => fu = true | _ => False end.
(** [x], run from [h], changes the heap as allowed and comes back with [Q] or a panic
    (or, with [fu], by running out of fuel). *)
Definition ok {A} (fu : bool) (n : nat) (W : list nat) (x : M A) (h : heap) (Q : A -> heap -> Prop) : Prop :=
  grows n W h (snd (x h)) /\ heap_ok (snd (x h)) /\ outcome fu (fst (x h)) (fun a => Q a (snd (x h))).

Lemma ok_ret {A} fu n W (a : A) h (Q : A -> heap -> Prop) : heap_ok h -> Q a h -> ok fu n W (ret a) h Q.
Proof. intros H Qa. split; [apply grows_refl|]. auto. Qed.
Lemma ok_fail {A} fu n W e h (Q : A -> heap -> Prop) : heap_ok h -> ok fu n W (fail e) h Q.
Proof. intros H. split; [apply grows_refl|]. split; auto. exact I. Qed.
Lemma ok_lift {A} fu n W (o : out A) h (Q : A -> heap -> Prop) : heap_ok h -> outcome fu o (fun a => Q a h) ->
  ok fu n W (lift o) h Q.
Proof. intros H Qa. split; [apply grows_refl|]. auto. Qed.
Lemma ok_bind {A B} fu n W (x : M A) (k : A -> M B) h (P : A -> heap -> Prop) Q : ok fu n W x h P ->
  (forall a h1, (length h <= length h1)%nat -> heap_ok h1 -> P a h1 -> ok fu n W (k a) h1 Q) ->
  ok fu n W (bind x k) h Q.
Proof.
  intros (G & H & O) K. unfold ok, bind. destruct (x h) as [[a|e| | |] h1]; cbn [fst snd outcome] in *; auto; try contradiction.
  destruct (K a h1 (grows_len _ _ _ _ G) H O) as (G' & H' & O'). split; [eapply grows_trans; eauto|]. auto.
Qed.
Lemma ok_imp {A} fu n W (x : M A) h (P Q : A -> heap -> Prop) : ok fu n W x h P ->
  (forall a h1, (length h <= length h1)%nat -> P a h1 -> Q a h1) -> ok fu n W x h Q.
Proof.
  intros (G & H & O) I. split; [auto|]. split; [auto|]. destruct (fst (x h)); cbn [outcome] in *; auto.
  apply I; auto. eapply grows_len; eauto.
Qed.
Lemma ok_fuel {A} fu n W (x : M A) h Q : ok false n W x h Q -> ok fu n W x h Q.
Proof. intros (G & H & O). split; [auto|]. split; [auto|]. destruct (fst (x h)); cbn [outcome] in *; auto. discriminate. Qed.

Lemma heap_ok_app h l : heap_ok (h ++ l) <-> heap_ok h /\ heap_ok l.
Proof. apply Forall_app. Qed.
Lemma heap_ok_upd h r d p : heap_ok h -> bytes_ok d -> heap_ok (upd h r (Cell d p)).
Proof.
  unfold heap_ok. revert r. induction h as [|c h IH]; intros r Hh Hd; [constructor|]. inversion Hh; subst.
  destruct r; cbn [upd]; constructor; auto.
Qed.
Lemma heap_ok_nth h r c : heap_ok h -> nth_error h r = Some c -> bytes_ok (c_data c).
Proof. intros H E. eapply Forall_forall in H; [exact H|]. eapply nth_error_In; eauto. Qed.

Definition may (n : nat) (W : list nat) (r : nat) : Prop := In r W \/ (n <= r)%nat.

Lemma upd_len {A} (l : list A) i b : length (upd l i b) = length l.
Proof. revert i; induction l as [|x l IH]; intros [|i]; cbn; auto. Qed.
Lemma upd_other {A} (l : list A) i b j : j <> i -> nth_error (upd l i b) j = nth_error l j.
Proof. revert i j; induction l as [|x l IH]; intros [|i] [|j] H; cbn; auto; try congruence. Qed.
Lemma upd_same {A} (l : list A) i x : nth_error l i = Some x -> upd l i x = l.
Proof. revert i; induction l as [|y l IH]; intros [|i] E; cbn in *; try discriminate; [congruence|]. rewrite IH; auto. Qed.

Lemma grows_upd n W h r c c' : nth_error h r = Some c -> c_poisoned c = false -> may n W r -> grows n W h (upd h r c').
Proof.
  intros E P M. split; [rewrite upd_len; lia|]. split.
  - intros q L N. apply upd_other. intros ->. destruct M; [auto|lia].
  - intros q d Eq Pq. rewrite upd_other; auto. intros ->. congruence.
Qed.
Lemma grows_app n W h l : (n <= length h)%nat -> grows n W h (h ++ l).
Proof.
  intros L. split; [rewrite app_length; lia|]. split.
  - intros r Hr _. apply nth_error_app1. lia.
  - intros r c E _. rewrite nth_error_app1; auto. apply nth_error_Some. congruence.
Qed.

Definition body_ok {A} (body : list N -> out A * list N) (Q : A -> Prop) : Prop :=
  forall d, bytes_ok d -> bytes_ok (snd (body d)) /\ outcome false (fst (body d)) Q.

Lemma ok_with_lock {A} fu n W r (body : list N -> out A * list N) h (Q : A -> Prop) : heap_ok h -> (r < length h)%nat ->
  may n W r -> body_ok body Q -> ok fu n W (with_lock r body) h (fun a _ => Q a).
Proof.
  intros H L M B. unfold ok, with_lock. destruct (nth_error h r) as [c|] eqn:E; [|apply nth_error_None in E; lia].
  destruct (c_poisoned c) eqn:P; [split; [apply grows_refl|]; split; auto; exact I|].
  destruct (B (c_data c) (heap_ok_nth _ _ _ H E)) as (D & O).
  destruct (body (c_data c)) as [[a|e| | |] d']; cbn [fst snd outcome] in *; try contradiction; try discriminate;
    (split; [eapply grows_upd; eauto|]; split; [apply heap_ok_upd; auto|auto]).
Qed.

Lemma ok_hto_vec fu n W x h : heap_ok h -> live h x -> ok fu n W (hto_vec x) h (fun d _ => bytes_ok d).
Proof.
  intros H L. unfold ok, hto_vec, with_lock. destruct (nth_error h (h_ref x)) as [c|] eqn:E;
    [|apply nth_error_None in E; unfold live in L; lia].
  destruct (c_poisoned c) eqn:P; [split; [apply grows_refl|]; split; auto; exact I|]. cbn [fst snd outcome].
  assert (U : upd h (h_ref x) (Cell (c_data c) false) = h) by (apply upd_same; rewrite E; destruct c; cbn in *; congruence).
  rewrite U. split; [apply grows_refl|]. split; auto. eapply heap_ok_nth; eauto.
Qed.

(** ** Header methods *)

Lemma index_outcome {A} fu (l : list A) i (Q : A -> Prop) : (forall a, nth_error l i = Some a -> Q a) -> outcome fu (index l i) Q.
Proof. intros H. unfold index. destruct (nth_error l i); [apply H; auto|exact I]. Qed.

Lemma finish_outcome m msb lsb v : outcome false (finish m msb lsb v) (fun _ => True).
Proof. unfold finish. destruct (msb <? lsb)%nat, m; cbn; auto; destruct (_ <=? 64)%nat; exact I. Qed.

Lemma ok_hget_loop fu n W r i k v h : heap_ok h -> (r < length h)%nat -> may n W r ->
  ok fu n W (hget_loop r i k v) h (fun _ _ => True).
Proof.
  revert i v h. induction k as [|k IH]; intros i v h H L M; cbn [hget_loop]; [apply ok_ret; auto|].
  eapply ok_bind; [eapply (ok_with_lock _ _ _ _ _ _ (fun _ => True)); eauto|].
  - intros d D. cbn [fst snd]. split; auto. apply index_outcome. auto.
  - intros b h1 L1 H1 _. apply IH; auto. lia.
Qed.
Lemma ok_hbit_range fu n W m x msb lsb h : heap_ok h -> live h x -> may n W (h_ref x) ->
  ok fu n W (hbit_range m x msb lsb) h (fun _ _ => True).
Proof.
  intros H L M. unfold hbit_range. eapply ok_bind; [apply ok_hget_loop; auto|]. intros v h1 L1 H1 _.
  apply ok_fuel, ok_lift; auto. apply finish_outcome.
Qed.
Lemma ok_hget fu n W m x f h : heap_ok h -> live h x -> may n W (h_ref x) -> ok fu n W (hget m x f) h (fun _ _ => True).
Proof. apply ok_hbit_range. Qed.

Lemma land_lt a b : a < 2 ^ 8 -> N.land a b < 2 ^ 8.
Proof.
  intros Ha. rewrite <- (N.mod_small a (2 ^ 8)) by exact Ha. rewrite <- N.land_ones, <- N.land_assoc, (N.land_comm (N.ones 8)), N.land_assoc, N.land_ones.
  apply N.mod_lt. discriminate.
Qed.
Lemma set_bit_step_ok i v : v < 2 -> body_ok (fun d => set_bit_step d i v) (fun _ => True).
Proof.
  intros Hv d D. unfold set_bit_step. destruct (index d (i / 8)) eqn:E; cbn [fst snd outcome]; auto.
  split; auto. apply bytes_ok_upd; auto.
  assert (Ha : a < 256). { unfold index in E. destruct (nth_error d (i / 8)) eqn:F; [|discriminate]. injection E as ->.
    eapply Forall_forall in D; [exact D|]. eapply nth_error_In; eauto. }
  apply (lor_lt _ _ 8); [|unfold shl8, u8; apply N.mod_lt; discriminate].
  apply land_lt. exact Ha.
Qed.

Lemma ok_hset_loop fu n W r lsb k v h : heap_ok h -> (r < length h)%nat -> may n W r ->
  ok fu n W (hset_loop r lsb k v) h (fun _ _ => True).
Proof.
  revert v h. induction k as [|k IH]; intros v h H L M; cbn [hset_loop]; [apply ok_ret; auto|].
  eapply ok_bind; [eapply (ok_with_lock _ _ _ _ _ _ (fun _ => True)); eauto; apply set_bit_step_ok|].
  - rewrite u8_land_1. destruct (N.testbit v 0); reflexivity.
  - intros b h1 L1 H1 _. apply IH; auto. lia.
Qed.
Lemma ok_hset fu n W x f v h : heap_ok h -> live h x -> may n W (h_ref x) -> ok fu n W (hset x f v) h (fun _ _ => True).
Proof. apply ok_hset_loop. Qed.

Lemma ok_hbytes_loop fu n W m x i k h : heap_ok h -> live h x -> may n W (h_ref x) ->
  ok fu n W (hbytes_loop m x i k) h (fun _ _ => True).
Proof.
  revert i h. induction k as [|k IH]; intros i h H L M; cbn [hbytes_loop]; [apply ok_ret; auto|].
  eapply ok_bind; [apply ok_hbit_range; auto|]. intros v h1 L1 H1 _.
  eapply ok_bind; [apply IH; auto; unfold live in *; lia|]. intros t h2 L2 H2 _. apply ok_ret; auto.
Qed.
Lemma ok_hset_bytes_loop fu n W x i k v it h : heap_ok h -> live h x -> may n W (h_ref x) ->
  ok fu n W (hset_bytes_loop x i k v it) h (fun _ _ => True).
Proof.
  revert i it h. induction k as [|k IH]; intros i it h H L M; cbn [hset_bytes_loop]; [apply ok_ret; auto|].
  eapply ok_bind; [apply ok_lift; auto; apply (index_outcome _ _ _ (fun _ => True)); auto|]. intros b h1 L1 H1 _.
  eapply ok_bind; [apply ok_hset_loop; auto; unfold live in *; lia|]. intros u h2 L2 H2 _.
  apply IH; auto. unfold live in *; lia.
Qed.
Lemma bytes_guard_outcome m msb lsb : outcome false (bytes_guard m msb lsb) (fun _ => True).
Proof.
  unfold bytes_guard. destruct (msb <? lsb)%nat, m; cbn [outcome]; auto; try destruct (whole_usize msb lsb); cbn [outcome];
    auto; destruct (_ =? 0)%nat; exact I.
Qed.
Lemma set_bytes_guard_outcome m l msb lsb : outcome false (set_bytes_guard m l msb lsb) (fun _ => True).
Proof.
  unfold set_bytes_guard. destruct (msb <? lsb)%nat, m; cbn [outcome]; auto; try (destruct (_ =? 0)%N; exact I);
  destruct (whole_usize msb lsb); cbn [outcome]; auto;
  destruct (_ =? _)%nat; exact I.
Qed.
Lemma ok_hbytes fu n W m x msb lsb h : heap_ok h -> live h x -> may n W (h_ref x) ->
  ok fu n W (hbytes m x msb lsb) h (fun _ _ => True).
Proof.
  intros H L M. unfold hbytes. eapply ok_bind; [apply ok_fuel, ok_lift; auto; apply bytes_guard_outcome|].
  intros u h1 L1 H1 _. apply ok_hbytes_loop; auto. unfold live in *; lia.
Qed.
Lemma ok_hset_bytes fu n W m x msb lsb v h : heap_ok h -> live h x -> may n W (h_ref x) ->
  ok fu n W (hset_bytes m x msb lsb v) h (fun _ _ => True).
Proof.
  intros H L M. unfold hset_bytes. eapply ok_bind; [apply ok_fuel, ok_lift; auto; apply set_bytes_guard_outcome|].
  intros u h1 L1 H1 _. apply ok_hset_bytes_loop; auto. unfold live in *; lia.
Qed.

(** A header made by the call itself. *)
Definition fresh (n : nat) (x : hdr) (h : heap) : Prop := live h x /\ (n <= h_ref x)%nat.

Lemma ok_alloc fu n W d h : heap_ok h -> bytes_ok d -> (n <= length h)%nat ->
  ok fu n W (alloc d) h (fun r h' => (r < length h')%nat /\ (n <= r)%nat).
Proof.
  intros H D L. split; [apply grows_app; auto|]. split; [apply heap_ok_app; split; auto; constructor; auto|].
  cbn. rewrite app_length. cbn [length]. lia.
Qed.
Lemma ok_hfrom fu n W T d h : heap_ok h -> bytes_ok d -> (n <= length h)%nat -> ok fu n W (hfrom T d) h (fresh n).
Proof.
  intros H D L. unfold hfrom. eapply ok_bind; [apply ok_alloc; auto|]. intros r h1 L1 H1 (A & B).
  apply ok_ret; auto. split; auto.
Qed.
Lemma ok_hnew fu n W T h : heap_ok h -> bytes_ok (ht_default T) -> (n <= length h)%nat -> ok fu n W (hnew T) h (fresh n).
Proof. apply ok_hfrom. Qed.
Lemma ok_hdowncast fu n W T x h : heap_ok h -> ok fu n W (hdowncast T x) h (fun y _ => y = x).
Proof. intros H. unfold hdowncast. destruct (_ =? _)%nat; [apply ok_ret; auto|apply ok_fail; auto]. Qed.

(** ** Printing *)

Lemma ok_hshow_octets fu n W m x i k h : heap_ok h -> live h x -> may n W (h_ref x) ->
  ok fu n W (hshow_octets m x i k) h (fun _ _ => True).
Proof.
  revert i h. induction k as [|k IH]; intros i h H L M; cbn [hshow_octets]; [apply ok_ret; auto|].
  eapply ok_bind; [apply ok_hbit_range; auto|]. intros v h1 L1 H1 _.
  eapply ok_bind; [apply IH; auto; unfold live in *; lia|]. intros t h2 L2 H2 _. apply ok_ret; auto.
Qed.
Lemma ok_hshow_field fu n W m x f h : heap_ok h -> live h x -> may n W (h_ref x) ->
  ok fu n W (hshow_field m x f) h (fun _ _ => True).
Proof.
  intros H L M. unfold hshow_field. destruct (_ <=? 8)%nat.
  - eapply ok_bind; [apply ok_hbit_range; auto|]. intros. apply ok_ret; auto.
  - destruct (_ =? 0)%nat; [apply ok_hshow_octets; auto|].
    eapply ok_bind; [apply ok_hshow_octets; auto|]. intros t h1 L1 H1 _.
    eapply ok_bind; [apply ok_hbit_range; auto; unfold live in *; lia|]. intros. apply ok_ret; auto.
Qed.
Lemma ok_hshow_fields fu n W m x l h : heap_ok h -> live h x -> may n W (h_ref x) ->
  ok fu n W (hshow_fields m x l) h (fun _ _ => True).
Proof.
  revert h. induction l as [|f l IH]; intros h H L M; cbn [hshow_fields]; [apply ok_ret; auto|].
  eapply ok_bind; [apply ok_hshow_field; auto|]. intros v h1 L1 H1 _.
  eapply ok_bind; [apply IH; auto; unfold live in *; lia|]. intros t h2 L2 H2 _. apply ok_ret; auto.
Qed.
Lemma ok_hshow fu n W m x h : heap_ok h -> live h x -> may n W (h_ref x) -> ok fu n W (hshow m x) h (fun _ _ => True).
Proof.
  intros H L M. unfold hshow. eapply ok_bind; [apply ok_hshow_fields; auto|]. intros. apply ok_ret; auto.
Qed.

(** ** Packets *)

Lemma live_more h h' x : (length h <= length h')%nat -> live h x -> live h' x.
Proof. unfold live. lia. Qed.
Lemma pkt_more h h' p : (length h <= length h')%nat -> pkt_ok h p -> pkt_ok h' p.
Proof. intros L (F & B). split; auto. eapply Forall_impl; [|exact F]. intros x. apply live_more; auto. Qed.

Lemma ok_concat_vecs fu n W l h : heap_ok h -> Forall (live h) l -> ok fu n W (concat_vecs l) h (fun d _ => bytes_ok d).
Proof.
  revert h. induction l as [|x l IH]; intros h H F; cbn [concat_vecs]; [apply ok_ret; auto; constructor|].
  inversion F as [|? ? Lx Fl]; subst. eapply ok_bind; [apply ok_hto_vec; auto|]. intros v h1 L1 H1 V.
  eapply ok_bind; [apply IH; auto; eapply Forall_impl; [|exact Fl]; intros y; apply live_more; auto|].
  intros t h2 L2 H2 T. apply ok_ret; auto. apply bytes_ok_app; auto.
Qed.
Lemma ok_to_vec fu n W p h : heap_ok h -> pkt_ok h p -> ok fu n W (to_vec p) h (fun d _ => bytes_ok d).
Proof.
  intros H (F & B). unfold to_vec. eapply ok_bind; [apply ok_concat_vecs; auto|]. intros d h1 L1 H1 D.
  apply ok_ret; auto. apply bytes_ok_app; auto.
Qed.
Lemma ok_compare_slice fu n W p b h : heap_ok h -> pkt_ok h p -> ok fu n W (compare_with_slice p b) h (fun _ _ => True).
Proof.
  intros H P. unfold compare_with_slice. destruct (negb _); [apply ok_ret; auto|].
  eapply ok_bind; [apply ok_to_vec; auto|]. intros d h1 L1 H1 D. destruct (_ || _); apply ok_ret; auto.
Qed.
Lemma ok_compare fu n W p q h : heap_ok h -> pkt_ok h p -> pkt_ok h q -> ok fu n W (compare p q) h (fun _ _ => True).
Proof.
  intros H P Q. unfold compare. eapply ok_bind; [apply ok_to_vec; auto|]. intros d h1 L1 H1 D.
  apply ok_compare_slice; auto. eapply pkt_more; eauto.
Qed.
Lemma ok_show_hdrs fu n W m l h : heap_ok h -> Forall (live h) l -> Forall (fun x => may n W (h_ref x)) l ->
  ok fu n W (show_hdrs m l) h (fun _ _ => True).
Proof.
  revert h. induction l as [|x l IH]; intros h H F Y; cbn [show_hdrs]; [apply ok_ret; auto|].
  inversion F as [|? ? Lx Fl]; inversion Y as [|? ? Yx Yl]; subst. eapply ok_bind; [apply ok_hshow; auto|]. intros v h1 L1 H1 V.
  eapply ok_bind; [apply IH; auto; eapply Forall_impl; [|exact Fl]; intros y; apply live_more; auto|].
  intros t h2 L2 H2 T. apply ok_ret; auto.
Qed.
Lemma ok_pkt_show fu n W m p h : heap_ok h -> pkt_ok h p -> incl (map h_ref (p_hdrs p)) W ->
  ok fu n W (pkt_show m p) h (fun _ _ => True).
Proof.
  intros H P Y. unfold pkt_show. eapply ok_bind; [apply ok_show_hdrs; auto; [apply P|]|].
  - apply Forall_forall. intros x Hx. left. apply Y. apply in_map. exact Hx.
  - intros s h1 L1 H1 _. eapply ok_bind; [apply ok_to_vec; auto; eapply pkt_more; eauto|]. intros d h2 L2 H2 D. apply ok_ret; auto.
Qed.
Lemma clone_hdrs_run l h : clone_hdrs l h = (Ret l, h).
Proof.
  induction l as [|x l IH]; [reflexivity|]. cbn [clone_hdrs]. unfold bind at 1, hclone, ret at 1. unfold bind at 1.
  rewrite IH. unfold ret. destruct x; reflexivity.
Qed.

Lemma find_name_in name l x : find_name name l = Some x -> In x l.
Proof.
  induction l as [|y l IH]; cbn [find_name]; [discriminate|]. destruct (String.eqb _ _); [intros [= ->]; left; auto|].
  intros E. right. auto.
Qed.
Lemma ok_index_name fu n W p name h : heap_ok h -> ok fu n W (index_name p name) h (fun x _ => In x (p_hdrs p)).
Proof.
  intros H. unfold index_name. destruct (find_name name (p_hdrs p)) as [x|] eqn:E; [|apply ok_fail; auto].
  apply ok_ret; auto. eapply find_name_in; eauto.
Qed.

(** ** Header constructors *)

Lemma fold_loop_fuel m c : c < 2 ^ 32 -> outcome false (fold_loop m 3 c) (fun v => v < 65536).
Proof.
  intros H. destruct (N.lt_ge_cases c 65536) as [L|L].
  - assert (Z : N.shiftr c 16 = 0) by (rewrite N.shiftr_div_pow2; apply N.div_small; exact L).
    cbn [fold_loop]. rewrite Z. cbn. exact L.
  - cbn [fold_loop]. assert (Z : N.shiftr c 16 =? 0 = false).
    { apply N.eqb_neq. rewrite N.shiftr_div_pow2. pose proof (N.div_le_mono 65536 c (2 ^ 16) ltac:(discriminate) L).
      change (65536 / 2 ^ 16) with 1 in *. lia. }
    rewrite Z. destruct (add32 m (N.shiftr c 16) c) as [s|e| | |] eqn:E; cbn [obind outcome]; auto.
    + change 0xFFFF with (N.ones 16). rewrite N.land_ones.
      assert (Hs : s mod 2 ^ 16 < 65536) by (apply N.mod_lt; discriminate).
      assert (Z' : N.shiftr (s mod 2 ^ 16) 16 = 0) by (rewrite N.shiftr_div_pow2; apply N.div_small; exact Hs).
      rewrite Z'. cbn. exact Hs.
    + unfold add32 in E. destruct (_ <? _); [discriminate|]. destruct m; discriminate.
    + unfold add32 in E. destruct (_ <? _); [discriminate|]. destruct m; discriminate.
    + unfold add32 in E. destruct (_ <? _); [discriminate|]. destruct m; discriminate.
Qed.
Lemma checksum_loop_outcome m v i k c : c < 2 ^ 32 -> outcome false (checksum_loop m v i k c) (fun s => s < 2 ^ 32).
Proof.
  revert i c. induction k as [|k IH]; intros i c H; cbn [checksum_loop]; [exact H|].
  destruct (i =? 10)%nat; [apply IH; auto|].
  unfold index. destruct (nth_error v i); cbn [obind]; [|exact I]. destruct (nth_error v (i + 1)); cbn [obind]; [|exact I].
  unfold add32. destruct (N.ltb_spec (c + N.lor (shl16 n 8) n0) (2 ^ 32)) as [L|L]; cbn [obind]; [apply IH; auto|].
  destruct m; cbn [obind]; [exact I|]. apply IH. apply N.mod_lt. discriminate.
Qed.
Lemma checksum_outcome m v : outcome false (ipv4_checksum m v) (fun _ => True).
Proof.
  unfold ipv4_checksum. pose proof (checksum_loop_outcome m v 0 ((length v + 1) / 2) 0 ltac:(reflexivity)) as P.
  destruct (checksum_loop _ _ _ _ _); cbn [obind outcome] in *; auto.
  pose proof (fold_loop_fuel m a P) as Q. destruct (fold_loop m 3 a); cbn [obind outcome] in *; auto.
Qed.
Lemma mac_outcome s : outcome false (to_mac_bytes s) bytes_ok.
Proof.
  destruct (addr_total ":" 16 6 s ltac:(reflexivity)) as [(b & T)|T].
  - rewrite (proj2 (mac_ret s b) T). cbn. eapply mac_ok; eauto.
  - apply (proj2 (fill_panic _ 16 _ _ ltac:(reflexivity))) in T. unfold to_mac_bytes. change MAC_LEN with 6%nat. rewrite T. exact I.
Qed.
Lemma ip4_outcome s : outcome false (to_ipv4_bytes s) bytes_ok.
Proof.
  destruct (addr_total "." 10 4 s ltac:(reflexivity)) as [(b & T)|T].
  - rewrite (proj2 (ipv4_ret s b) T). cbn. eapply ipv4_ok; eauto.
  - apply (proj2 (fill_panic _ 10 _ _ ltac:(reflexivity))) in T. unfold to_ipv4_bytes. change IPV4_LEN with 4%nat. rewrite T. exact I.
Qed.

Lemma ip6_ok ip6 s : octets16 ip6 -> bytes_ok (to_ipv6_bytes ip6 s).
Proof.
  intros O. unfold to_ipv6_bytes. destruct (ip6 s) as [o|] eqn:E; [apply (O _ _ E)|]. apply bytes_okb_ok. reflexivity.
Qed.
Lemma one_ok b : b < 256 -> bytes_ok [b].
Proof. intros H. constructor; auto. Qed.
Lemma cons_ok b l : b < 256 -> bytes_ok l -> bytes_ok (b :: l).
Proof. constructor; auto. Qed.
Lemma shl8_lt x k : shl8 x k < 2 ^ 8.
Proof. apply N.mod_lt. discriminate. Qed.
Lemma u8_lt x : u8 x < 2 ^ 8.
Proof. apply N.mod_lt. discriminate. Qed.
Ltac byte := match goal with
  | |- N.lor _ _ < _ => apply (lor_lt _ _ 8); byte
  | |- shl8 _ _ < _ => apply shl8_lt
  | |- u8 _ < _ => apply u8_lt
  | |- N.land ?a ?b < _ => rewrite ?(N.land_comm a b); first [apply land_lt; byte | rewrite N.land_comm; apply land_lt; byte]
  | |- _ => assumption || reflexivity
  end.
Ltac bo := match goal with
  | |- bytes_ok (_ ++ _) => apply bytes_ok_app; split; bo
  | |- bytes_ok (to_be _ _) => apply to_be_ok
  | |- bytes_ok (to_ipv6_bytes _ _) => apply ip6_ok; assumption
  | |- bytes_ok [_] => apply one_ok; byte
  | |- bytes_ok [] => constructor
  | |- bytes_ok (_ :: _) => apply cons_ok; [byte|bo]
  | |- _ => assumption
  end.
(** Run one statement. *)
Ltac stp := eapply ok_bind; [|intros ? ? ?L ?H ?P].
Ltac mac := eapply ok_bind; [apply ok_fuel, ok_lift; [assumption|apply mac_outcome]|intros ? ? ?L ?H ?B].
Ltac ip4 := eapply ok_bind; [apply ok_fuel, ok_lift; [assumption|apply ip4_outcome]|intros ? ? ?L ?H ?B].

Section Make.
Variables (fu : bool) (n : nat) (W : list nat) (m : mode) (ip6 : string -> option (list N)).
Hypothesis O6 : octets16 ip6.

Lemma ok_ethernet d s e h : heap_ok h -> (n <= length h)%nat -> ok fu n W (ethernet d s e) h (fresh n).
Proof. intros H L. unfold ethernet. mac. mac. apply ok_hfrom; auto; [bo|lia]. Qed.
Lemma ok_dot3 d s e h : heap_ok h -> (n <= length h)%nat -> ok fu n W (dot3 d s e) h (fresh n).
Proof. intros H L. unfold dot3. mac. mac. apply ok_hfrom; auto; [bo|lia]. Qed.
Lemma ok_arp o a b c d h : heap_ok h -> (n <= length h)%nat -> ok fu n W (arp o a b c d) h (fresh n).
Proof. intros H L. unfold arp. mac. ip4. mac. ip4. apply ok_hfrom; auto; [bo|lia]. Qed.
Lemma ok_vlan p c v e h : heap_ok h -> (n <= length h)%nat -> ok fu n W (vlan p c v e) h (fresh n).
Proof.
  intros H L. unfold vlan. stp.
  - apply ok_lift; auto. apply (index_outcome _ _ _ (fun b => b < 256)). intros b E.
    pose proof (to_be_ok 2 v) as B. eapply Forall_forall in B; [exact B|]. eapply nth_error_In; eauto.
  - cbv beta in *. apply ok_hfrom; auto; [|lia]. apply bytes_ok_app. split; [|bo]. apply bytes_ok_upd; [bo|byte].
Qed.
Lemma ok_ipv4 ihl tos id ttl frag proto src dst len h : heap_ok h -> (n <= length h)%nat ->
  ihl < 256 -> tos < 256 -> ttl < 256 -> proto < 256 ->
  ok fu n W (ipv4 m ihl tos id ttl frag proto src dst len) h (fresh n).
Proof.
  intros H L Hi Ht Hl Hp. unfold ipv4. ip4. ip4.
  stp; [apply ok_fuel, ok_lift; auto; apply checksum_outcome|].
  stp; [apply ok_hfrom; auto; [bo|lia]|]. destruct P0 as (Lx & Nx).
  stp; [apply ok_hset; auto; right; auto|]. apply ok_ret; auto. split; auto. eapply live_more; eauto.
Qed.
Lemma ok_ipv6 tc fl nh hl src dst len h : heap_ok h -> (n <= length h)%nat -> nh < 256 -> hl < 256 ->
  ok fu n W (ipv6 ip6 tc fl nh hl src dst len) h (fresh n).
Proof. intros H L Hn Hh. unfold ipv6. apply ok_hfrom; auto. bo. Qed.
Lemma ok_udp s d l h : heap_ok h -> (n <= length h)%nat -> ok fu n W (udp s d l) h (fresh n).
Proof. intros. unfold udp. apply ok_hfrom; auto; bo. Qed.
Lemma ok_icmp t c h : heap_ok h -> (n <= length h)%nat -> t < 256 -> c < 256 -> ok fu n W (icmp t c) h (fresh n).
Proof. intros. unfold icmp. apply ok_hfrom; auto; bo. Qed.
Lemma ok_tcp s d sn an o r f w c u h : heap_ok h -> (n <= length h)%nat -> r < 256 -> f < 256 ->
  ok fu n W (tcp s d sn an o r f w c u) h (fresh n).
Proof. intros. unfold tcp. apply ok_hfrom; auto; bo. Qed.
Lemma ok_vxlan v h : heap_ok h -> (n <= length h)%nat -> ok fu n W (vxlan v) h (fresh n).
Proof. intros. unfold vxlan. apply ok_hfrom; auto; bo. Qed.
Lemma ok_gre c r k q s f v p h : heap_ok h -> (n <= length h)%nat -> v < 256 ->
  ok fu n W (gre c r k q s f v p) h (fresh n).
Proof. intros. unfold gre. apply ok_hfrom; auto; bo. Qed.
Lemma ok_hfrom_be T k v h : heap_ok h -> (n <= length h)%nat -> ok fu n W (hfrom T (to_be k v)) h (fresh n).
Proof. intros. apply ok_hfrom; auto; bo. Qed.

Lemma ok_hmake b h : heap_ok h -> (n <= length h)%nat -> hmake_t b -> ok fu n W (hmake_run m ip6 b) h (fresh n).
Proof.
  intros H L T. unfold u8t in *. destruct b; cbn [hmake_run hmake_t] in *;
    repeat match goal with X : _ /\ _ |- _ => destruct X end; unfold u8t in *;
    auto using ok_ethernet, ok_dot3, ok_arp, ok_vlan, ok_ipv4, ok_ipv6, ok_udp, ok_icmp, ok_tcp, ok_vxlan, ok_gre;
    unfold llc, gre_chksum_offset, gre_sequence_number, gre_key, erspan2, erspan3, mpls, snap; cbv zeta; (apply ok_hfrom; [assumption| |assumption]); bo.
Qed.

(** ** Packet constructors *)

(** A packet made of headers made by the call. *)
Definition fpkt (p : packet) (h : heap) : Prop := Forall (fun x => fresh n x h) (p_hdrs p) /\ bytes_ok (p_payload p).
Lemma fpkt_more h h' p : (length h <= length h')%nat -> fpkt p h -> fpkt p h'.
Proof.
  intros L (F & B). split; auto. eapply Forall_impl; [|exact F]. intros x (A & C). split; auto. eapply live_more; eauto.
Qed.
Lemma fpkt_ok h p : fpkt p h -> pkt_ok h p.
Proof. intros (F & B). split; auto. eapply Forall_impl; [|exact F]. intros x (A & C). auto. Qed.
Lemma ok_push p x h : heap_ok h -> fpkt p h -> fresh n x h -> ok fu n W (push p x) h fpkt.
Proof.
  intros H (F & B) X. unfold push. apply ok_ret; auto. split; auto. cbn [p_hdrs]. apply Forall_app. auto.
Qed.
Lemma fpkt_new h : fpkt pkt_new h.
Proof. split; constructor. Qed.
Lemma fpkt_payload p d h : bytes_ok d -> fpkt p h -> fpkt (set_payload p d) h.
Proof. intros D (F & B). split; auto. cbn. apply bytes_ok_app; auto. Qed.

Ltac up := first [assumption | (eapply fpkt_more; [|eassumption]; lia) | (eapply live_more; [|eassumption]; lia)
  | (match goal with X : fresh n ?x _ |- fresh n ?x _ => destruct X; split; [eapply live_more; [|eassumption]; lia|assumption] end) | lia].

Lemma ok_create_eth e t pl h : heap_ok h -> (n <= length h)%nat -> bytes_ok pl -> ok fu n W (create_eth_packet e t pl) h fpkt.
Proof.
  intros H L B. unfold create_eth_packet. eapply (ok_bind _ _ _ _ _ _ fpkt).
  - destruct (vlan_enable e).
    + stp; [apply ok_ethernet; auto|]. stp; [apply ok_push; auto using fpkt_new|]. stp; [apply ok_vlan; auto; lia|].
      apply ok_push; auto. up.
    + stp; [apply ok_ethernet; auto|]. apply ok_push; auto using fpkt_new.
  - intros p h1 L1 H1 P. apply ok_ret; auto. apply fpkt_payload; auto.
Qed.
Lemma ok_create_arp e o a b c d pl h : heap_ok h -> (n <= length h)%nat -> bytes_ok pl ->
  ok fu n W (create_arp_packet e o a b c d pl) h fpkt.
Proof.
  intros H L B. unfold create_arp_packet. stp; [apply ok_create_eth; auto|]. stp; [apply ok_arp; auto; lia|].
  apply ok_push; auto. up.
Qed.
Lemma ok_create_ipv4 e i p pl h : heap_ok h -> (n <= length h)%nat -> ip4_t i -> p < 256 -> bytes_ok pl ->
  ok fu n W (create_ipv4_packet m e i p pl) h fpkt.
Proof.
  intros H L (A & B & C & _) Hp D. unfold create_ipv4_packet. stp; [apply ok_create_eth; auto|].
  stp; [apply ok_ipv4; auto; lia|]. apply ok_push; auto. up.
Qed.
Lemma ok_create_ipv6 e i p pl h : heap_ok h -> (n <= length h)%nat -> ip6_t i -> p < 256 -> bytes_ok pl ->
  ok fu n W (create_ipv6_packet ip6 e i p pl) h fpkt.
Proof.
  intros H L (A & B & C) Hp D. unfold create_ipv6_packet. stp; [apply ok_create_eth; auto|].
  stp; [apply ok_ipv6; auto; lia|]. apply ok_push; auto. up.
Qed.
Lemma ok_bump_total p k h : heap_ok h -> fpkt p h -> ok fu n W (bump_total_len m p k) h (fresh n).
Proof.
  intros H (F & B). unfold bump_total_len. stp; [apply ok_index_name; auto|].
  eapply Forall_forall in F; [|exact P]. destruct F as (A & C).
  stp; [apply ok_hdowncast; auto|]. cbv beta in *. subst. stp; [apply ok_hget; auto; [up|right; auto]|].
  stp; [apply ok_hset; auto; [up|right; auto]|]. apply ok_ret; auto. split; auto. up.
Qed.
Lemma ok_refresh x h : heap_ok h -> fresh n x h -> ok fu n W (refresh_checksum m x) h (fun _ _ => True).
Proof.
  intros H (A & C). unfold refresh_checksum. stp; [apply ok_hto_vec; auto|].
  stp; [apply ok_fuel, ok_lift; auto; apply checksum_outcome|]. apply ok_hset; auto; [up|right; auto].
Qed.
Lemma ok_bump_payload p k h : heap_ok h -> fpkt p h -> ok fu n W (bump_payload_len m p k) h (fun _ _ => True).
Proof.
  intros H (F & B). unfold bump_payload_len. stp; [apply ok_index_name; auto|].
  eapply Forall_forall in F; [|exact P]. destruct F as (A & C).
  stp; [apply ok_hdowncast; auto|]. cbv beta in *. subst. stp; [apply ok_hget; auto; [up|right; auto]|].
  apply ok_hset; auto; [up|right; auto].
Qed.
Lemma ok_pkt_add p q h : heap_ok h -> fpkt p h -> pkt_ok h q -> ok fu n W (pkt_add p q) h (fun r h' => pkt_ok h' r).
Proof.
  intros H P (Fq & _). unfold ok, pkt_add, bind. rewrite clone_hdrs_run. cbn. split; [apply grows_refl|]. split; auto.
  apply fpkt_ok in P. destruct P as (F & B). split; auto. cbn [p_hdrs]. apply Forall_app; auto.
Qed.
Lemma IpProtocol_lt t : IpProtocol_code t < 256.
Proof. destruct t; reflexivity. Qed.

Ltac v4 := stp; [apply ok_create_ipv4; auto using IpProtocol_lt; lia|].
Ltac v6 := stp; [apply ok_create_ipv6; auto using IpProtocol_lt; lia|].
Ltac bump := stp; [apply ok_bump_total; auto; up|]; stp; [apply ok_refresh; auto; up|].
Ltac fin := apply ok_push; auto; up.
Ltac psh := stp; [apply ok_push; auto; up|].

Lemma ok_create_tcp e i t pl h : heap_ok h -> (n <= length h)%nat -> ip4_t i -> tcp_t t -> bytes_ok pl ->
  ok fu n W (create_tcp_packet m e i t pl) h fpkt.
Proof.
  intros H L Hi (_ & _ & _ & _ & _ & Hr & Hf & _) B. unfold create_tcp_packet. v4. bump.
  stp; [apply ok_tcp; auto; up|]. fin.
Qed.
Lemma ok_create_udp e i d s pl h : heap_ok h -> (n <= length h)%nat -> ip4_t i -> bytes_ok pl ->
  ok fu n W (create_udp_packet m e i d s pl) h fpkt.
Proof. intros H L Hi B. unfold create_udp_packet. v4. bump. stp; [apply ok_udp; auto; up|]. fin. Qed.
Lemma ok_create_icmp e i t c pl h : heap_ok h -> (n <= length h)%nat -> ip4_t i -> t < 256 -> c < 256 -> bytes_ok pl ->
  ok fu n W (create_icmp_packet m e i t c pl) h fpkt.
Proof. intros H L Hi Ht Hc B. unfold create_icmp_packet. v4. bump. stp; [apply ok_icmp; auto; up|]. fin. Qed.
Ltac idx := stp; [apply ok_lift; auto; apply (index_outcome _ _ _ (fun _ => True)); auto|].
Lemma ok_create_ipv4ip e i p h : heap_ok h -> (n <= length h)%nat -> ip4_t i -> pkt_ok h p ->
  ok fu n W (create_ipv4ip_packet m e i p) h fpkt.
Proof.
  intros H L Hi P. unfold create_ipv4ip_packet. stp; [apply ok_to_vec; auto|]. idx.
  apply ok_create_ipv4; auto using IpProtocol_lt. lia.
Qed.
Lemma ok_create_ipv6ip e i p h : heap_ok h -> (n <= length h)%nat -> ip6_t i -> pkt_ok h p ->
  ok fu n W (create_ipv6ip_packet ip6 e i p) h fpkt.
Proof.
  intros H L Hi P. unfold create_ipv6ip_packet. stp; [apply ok_to_vec; auto|]. idx.
  apply ok_create_ipv6; auto using IpProtocol_lt. lia.
Qed.
Lemma ok_create_tcpv6 e i t pl h : heap_ok h -> (n <= length h)%nat -> ip6_t i -> tcp_t t -> bytes_ok pl ->
  ok fu n W (create_tcpv6_packet m ip6 e i t pl) h fpkt.
Proof.
  intros H L Hi (_ & _ & _ & _ & _ & Hr & Hf & _) B. unfold create_tcpv6_packet. v6.
  stp; [apply ok_bump_payload; auto; up|]. stp; [apply ok_tcp; auto; up|]. fin.
Qed.
Lemma ok_create_udpv6 e i d s pl h : heap_ok h -> (n <= length h)%nat -> ip6_t i -> bytes_ok pl ->
  ok fu n W (create_udpv6_packet m ip6 e i d s pl) h fpkt.
Proof.
  intros H L Hi B. unfold create_udpv6_packet. v6. stp; [apply ok_bump_payload; auto; up|].
  stp; [apply ok_udp; auto; up|]. stp; [apply ok_hset; auto; [apply P1|right; apply P1]|].
  apply ok_push; auto; [up|]. up.
Qed.
Lemma ok_create_icmpv6 e i t c pl h : heap_ok h -> (n <= length h)%nat -> ip6_t i -> t < 256 -> c < 256 -> bytes_ok pl ->
  ok fu n W (create_icmpv6_packet m ip6 e i t c pl) h fpkt.
Proof.
  intros H L Hi Ht Hc B. unfold create_icmpv6_packet. v6. stp; [apply ok_bump_payload; auto; up|].
  stp; [apply ok_icmp; auto; up|]. fin.
Qed.
Lemma ok_create_vxlan e i d s v p h : heap_ok h -> (n <= length h)%nat -> ip4_t i -> pkt_ok h p ->
  ok fu n W (create_vxlan_packet m e i d s v p) h fpkt.
Proof.
  intros H L Hi P. unfold create_vxlan_packet. stp; [apply ok_to_vec; auto|]. v4.
  stp; [apply ok_bump_total; auto; up|]. stp; [apply ok_udp; auto; up|]. psh. stp; [apply ok_vxlan; auto; up|]. fin.
Qed.
Lemma ok_create_vxlanv6 e i d s v p h : heap_ok h -> (n <= length h)%nat -> ip6_t i -> pkt_ok h p ->
  ok fu n W (create_vxlanv6_packet m ip6 e i d s v p) h (fun r h' => pkt_ok h' r).
Proof.
  intros H L Hi P. unfold create_vxlanv6_packet. stp; [apply ok_to_vec; auto|]. v6.
  stp; [apply ok_bump_payload; auto; up|]. stp; [apply ok_udp; auto; up|].
  stp; [apply ok_hset; auto; [apply P3|right; apply P3]|]. psh. stp; [apply ok_vxlan; auto; up|].
  stp; [fin|]. apply ok_pkt_add; auto. eapply pkt_more; [|exact P]. lia.
Qed.

Lemma ok_gre_chksum c o h : heap_ok h -> (n <= length h)%nat -> ok fu n W (gre_chksum_offset c o) h (fresh n).
Proof. intros. unfold gre_chksum_offset. apply ok_hfrom; auto; bo. Qed.
Lemma ok_gre_seq q h : heap_ok h -> (n <= length h)%nat -> ok fu n W (gre_sequence_number q) h (fresh n).
Proof. intros. unfold gre_sequence_number. apply ok_hfrom; auto; bo. Qed.
Lemma ok_gre_key q h : heap_ok h -> (n <= length h)%nat -> ok fu n W (gre_key q) h (fresh n).
Proof. intros. unfold gre_key. apply ok_hfrom; auto; bo. Qed.
Lemma ok_erspan2 a b c d e f h : heap_ok h -> (n <= length h)%nat -> ok fu n W (erspan2 a b c d e f) h (fresh n).
Proof. intros. unfold erspan2. cbv zeta. apply ok_hfrom; auto; bo. Qed.
Lemma ok_erspan3 a b c d e f g i h : heap_ok h -> (n <= length h)%nat ->
  ok fu n W (erspan3 a b c d e f g i) h (fresh n).
Proof. intros. unfold erspan3. cbv zeta. apply ok_hfrom; auto; bo. Qed.

Definition opt_ok (h : heap) (o : option packet) : Prop := match o with Some p => pkt_ok h p | None => True end.
Lemma ok_opt_to_vec o h : heap_ok h -> opt_ok h o -> ok fu n W (opt_to_vec o) h (fun d _ => bytes_ok d).
Proof. intros H O. destruct o; [apply ok_to_vec; auto|apply ok_ret; auto; constructor]. Qed.

(** Push a header, or nothing. *)
Lemma ok_opt_push (b : bool) p (x : M hdr) h : heap_ok h -> (n <= length h)%nat -> fpkt p h -> ok fu n W x h (fresh n) ->
  ok fu n W (if b then mlet o := x in push p o else ret p) h fpkt.
Proof.
  intros H L P X. destruct b; [|apply ok_ret; auto]. stp; [exact X|]. apply ok_push; auto. up.
Qed.
Ltac opush := stp; [apply ok_opt_push; [assumption|up|up|]|].

Lemma ok_create_gre e i g o h : heap_ok h -> (n <= length h)%nat -> ip4_t i -> gre_t g -> opt_ok h o ->
  ok fu n W (create_gre_packet m e i g o) h fpkt.
Proof.
  intros H L Hi (_ & Hv & _) O. unfold create_gre_packet.
  eapply (ok_bind _ _ _ _ _ _ (fun q _ => bytes_ok (snd q))).
  - destruct o as [p|]; [|apply ok_ret; auto; constructor]. stp; [apply ok_to_vec; auto|]. idx. apply ok_ret; auto.
  - intros [proto v] h1 L1 H1 B. cbn [snd] in B. v4. bump.
    stp; [apply ok_gre; auto; up|]. psh. opush; [apply ok_gre_chksum; auto; up|]. opush; [apply ok_gre_key; auto; up|].
    apply ok_opt_push; auto; try up. apply ok_gre_seq; auto. up.
Qed.
Lemma GRE_default_ok : bytes_ok (ht_default GRE).
Proof. apply bytes_okb_ok. reflexivity. Qed.
Lemma ok_new_gre h : heap_ok h -> (n <= length h)%nat -> ok fu n W (hnew GRE) h (fresh n).
Proof. intros. apply ok_hnew; auto. apply GRE_default_ok. Qed.
Ltac st X := stp; [apply ok_hset; auto; [eapply live_more; [|apply X]; lia|right; apply X]|].
Lemma ok_create_erspan2 e i q a x o h : heap_ok h -> (n <= length h)%nat -> ip4_t i -> opt_ok h o ->
  ok fu n W (create_erspan_2_packet m e i q a x o) h fpkt.
Proof.
  intros H L Hi O. unfold create_erspan_2_packet. stp; [apply ok_opt_to_vec; auto|]. v4. bump.
  stp; [apply ok_new_gre; auto; up|]. st P3.
  eapply (ok_bind _ _ _ _ _ _ (fun _ _ => True)).
  { destruct (negb (q =? 0)); [|apply ok_ret; auto]. apply ok_hset; auto; [eapply live_more; [|apply P3]; lia|right; apply P3]. }
  intros u h7 L7 H7 _. psh. opush; [apply ok_gre_seq; auto; up|].
  stp; [apply ok_erspan2; auto; up|]. fin.
Qed.
Lemma ok_create_erspan3 e i q a ts sg f id info o h : heap_ok h -> (n <= length h)%nat -> ip4_t i -> opt_ok h o ->
  ok fu n W (create_erspan_3_packet m e i q a ts sg f id info o) h (fun r h' => pkt_ok h' r).
Proof.
  intros H L Hi O. unfold create_erspan_3_packet. stp; [apply ok_opt_to_vec; auto|]. v4. bump.
  stp; [apply ok_new_gre; auto; up|]. st P3. st P3. psh. opush; [apply ok_gre_seq; auto; up|].
  stp; [apply ok_erspan3; auto; up|]. psh. cbv zeta. opush; [apply ok_hfrom; auto; [bo|up]|].
  destruct o as [p|].
  - apply ok_pkt_add; auto. eapply pkt_more; [|exact O]. lia.
  - apply ok_ret; auto. apply fpkt_ok; auto.
Qed.

Lemma ok_pmake b h : heap_ok h -> (n <= length h)%nat -> pmake_t b -> Forall (pkt_ok h) (pmake_inner b) ->
  ok fu n W (pmake_run m ip6 b) h (fun r h' => pkt_ok h' r).
Proof.
  intros H L T I. assert (K : forall x : M packet, ok fu n W x h fpkt -> ok fu n W x h (fun r h' => pkt_ok h' r)).
  { intros x X. eapply ok_imp; [exact X|]. intros. apply fpkt_ok; auto. }
  assert (V : forall o : option packet, Forall (pkt_ok h) (match o with Some p => [p] | None => [] end) -> opt_ok h o).
  { intros [p|] F; [inversion F; subst; auto|exact Logic.I]. }
  destruct b; cbn [pmake_run pmake_t pmake_inner] in *; unfold u8t in *;
    repeat match goal with X : _ /\ _ |- _ => destruct X end;
    repeat match goal with X : Forall _ (_ :: _) |- _ => inversion X; subst; clear X end.
  - apply K, ok_create_eth; assumption.
  - apply K, ok_create_arp; assumption.
  - apply K, ok_create_ipv4; assumption.
  - apply K, ok_create_ipv6; assumption.
  - apply K, ok_create_tcp; assumption.
  - apply K, ok_create_udp; assumption.
  - apply K, ok_create_icmp; assumption.
  - apply K, ok_create_ipv4ip; assumption.
  - apply K, ok_create_ipv6ip; assumption.
  - apply K, ok_create_tcpv6; assumption.
  - apply K, ok_create_udpv6; assumption.
  - apply K, ok_create_icmpv6; assumption.
  - apply K, ok_create_vxlan; assumption.
  - apply ok_create_vxlanv6; assumption.
  - apply K, ok_create_gre; try assumption. apply V. exact I.
  - apply K, ok_create_erspan2; try assumption. apply V. exact I.
  - apply ok_create_erspan3; try assumption. apply V. exact I.
Qed.
End Make.

(** ** The owning parser *)

Section Parse.
Variables (n : nat) (W : list nat) (m : mode) (rec : pfun -> list N -> M packet).
Hypothesis R : forall f arr h, heap_ok h -> (n <= length h)%nat -> bytes_ok arr -> ok true n W (rec f arr) h (fpkt n).

Lemma ok_take T arr i h : heap_ok h -> (n <= length h)%nat -> bytes_ok arr -> ok true n W (take_hdr T arr i) h (fresh n).
Proof.
  intros H L B. unfold take_hdr. eapply (ok_bind _ _ _ _ _ _ (fun d _ => bytes_ok d)).
  - apply ok_lift; auto. unfold slice. destruct (_ && _); [|exact I]. apply bytes_ok_firstn, bytes_ok_skipn. auto.
  - intros d h1 L1 H1 D. apply ok_hfrom; auto. lia.
Qed.
Lemma ok_call f arr i h : heap_ok h -> (n <= length h)%nat -> bytes_ok arr -> ok true n W (Slow.call rec f arr i) h (fpkt n).
Proof.
  intros H L B. unfold Slow.call. eapply (ok_bind _ _ _ _ _ _ (fun d _ => bytes_ok d)).
  - apply ok_lift; auto. unfold slice_from. destruct (_ <=? _)%nat; [|exact I]. apply bytes_ok_skipn. auto.
  - intros d h1 L1 H1 D. apply R; auto. lia.
Qed.
Lemma ok_insert p x h : heap_ok h -> fpkt n p h -> fresh n x h -> ok true n W (insert p x) h (fpkt n).
Proof. intros H (F & B) X. unfold insert. apply ok_ret; auto. split; auto. constructor; auto. Qed.
Definition ofresh (o : option hdr) (h : heap) : Prop := match o with Some x => fresh n x h | None => True end.
Lemma ok_opt_hdr b T arr i h : heap_ok h -> (n <= length h)%nat -> bytes_ok arr ->
  ok true n W (opt_hdr b T arr i) h (fun q h' => ofresh (fst q) h').
Proof.
  intros H L B. unfold opt_hdr. destruct (b =? 1); [|apply ok_ret; auto; exact I].
  stp; [apply ok_take; auto|]. apply ok_ret; auto.
Qed.
Lemma ok_insert_opt p o h : heap_ok h -> fpkt n p h -> ofresh o h -> ok true n W (insert_opt p o) h (fpkt n).
Proof. intros H P O. destruct o; [apply ok_insert; auto|apply ok_ret; auto]. Qed.
Lemma fresh_more x h h' : (length h <= length h')%nat -> fresh n x h -> fresh n x h'.
Proof. intros L (A & B). split; auto. eapply live_more; eauto. Qed.
Lemma ofresh_more o h h' : (length h <= length h')%nat -> ofresh o h -> ofresh o h'.
Proof. destruct o; [apply fresh_more|auto]. Qed.

Ltac up := first [assumption | (eapply fpkt_more; [|eassumption]; lia) | (eapply fresh_more; [|eassumption]; lia)
  | (eapply ofresh_more; [|eassumption]; lia) | lia].
Ltac tk := stp; [apply ok_take; [assumption|up|assumption]|].
Ltac gt x := stp; [apply ok_hget; [assumption|match goal with X : fresh n x _ |- _ => eapply live_more; [|apply X]; lia end
  |match goal with X : fresh n x _ |- _ => right; apply X end]|].
Ltac cl := apply ok_call; [assumption|up|assumption].
Ltac ins := apply ok_insert; [assumption|up|up].
Ltac body := eapply (ok_bind _ _ _ _ _ _ (fpkt n)); [repeat match goal with |- context [match ?e with _ => _ end] => destruct e end; cl|
  intros ? ? ?L ?H ?P].
Ltac idx := stp; [apply ok_lift; [assumption|apply (index_outcome _ _ _ (fun _ => True)); auto]|].

Lemma is_snap_outcome arr : outcome true (is_snap arr) (fun _ => True).
Proof.
  unfold is_snap, index. destruct (nth_error arr 0); cbn [obind]; [|exact I]. destruct (_ =? _); [|exact I].
  destruct (nth_error arr 1); cbn [obind]; [|exact I]. destruct (_ =? _); [|exact I].
  destruct (nth_error arr 2); cbn [obind]; exact I.
Qed.

Lemma ok_slow_body f arr h : heap_ok h -> (n <= length h)%nat -> bytes_ok arr -> ok true n W (slow_body m rec f arr) h (fpkt n).
Proof.
  intros H L B.
  assert (Lf : forall T, ok true n W (parse_leaf_body rec T arr) h (fpkt n)).
  { intros T. unfold parse_leaf_body. stp; [cl|]. tk. ins. }
  destruct f; cbn [slow_body]; auto.
  - unfold parse_body. idx. idx. cbv zeta. destruct (_ <? _); apply R; auto; lia.
  - unfold parse_dot3_body. tk. body. ins.
  - unfold parse_llc_body. tk. stp; [apply ok_lift; [assumption|apply is_snap_outcome]|]. body. ins.
  - unfold parse_snap_body. tk. body. ins.
  - unfold parse_ethernet_body. tk. gt a. body. ins.
  - unfold parse_vlan_body. tk. gt a. body. ins.
  - unfold parse_mpls_body. tk. gt a. body. ins.
  - unfold parse_mpls_bos_body. tk. idx. body. ins.
  - unfold parse_ipv4_body. tk. gt a. body. ins.
  - unfold parse_ipv6_body. tk. gt a. body. ins.
  - unfold parse_gre_body. tk. gt a. gt a. gt a. gt a.
    stp; [apply ok_opt_hdr; [assumption|up|assumption]|]. destruct a4 as [gco o1]. cbn [fst] in *.
    stp; [apply ok_opt_hdr; [assumption|up|assumption]|]. destruct a4 as [gk o2]. cbn [fst] in *.
    stp; [apply ok_opt_hdr; [assumption|up|assumption]|]. destruct a4 as [gsn o3]. cbn [fst] in *.
    body. stp; [apply ok_insert_opt; [assumption|up|up]|]. stp; [apply ok_insert_opt; [assumption|up|up]|].
    stp; [apply ok_insert_opt; [assumption|up|up]|]. ins.
  - unfold parse_erspan2_body. tk. body. ins.
  - unfold parse_erspan3_body. tk. gt a. stp; [apply ok_opt_hdr; [assumption|up|assumption]|].
    destruct a1 as [pf o1]. cbn [fst] in *. body. stp; [apply ok_insert_opt; [assumption|up|up]|]. ins.
  - unfold parse_udp_body. tk. gt a. body. ins.
  - unfold parse_vxlan_body. body. tk. ins.
  - unfold accept_body. apply ok_ret; auto. apply fpkt_payload; auto. apply fpkt_new.
Qed.
End Parse.

Lemma ok_slow_fuel n W m fuel f arr h : heap_ok h -> (n <= length h)%nat -> bytes_ok arr ->
  ok true n W (slow_fuel m fuel f arr) h (fpkt n).
Proof.
  revert f arr h. induction fuel as [|fuel IH]; intros f arr h H L B; cbn [slow_fuel].
  - split; [apply grows_refl|]. split; auto. reflexivity.
  - apply ok_slow_body; auto.
Qed.
Lemma ok_slow fu n W m f arr h : heap_ok h -> (n <= length h)%nat -> bytes_ok arr -> ok fu n W (slow m f arr) h (fun p h' => pkt_ok h' p).
Proof.
  intros H L B. destruct (ok_slow_fuel n W m (length arr + 3) f arr h H L B) as (G & H' & O).
  unfold ok, slow in *. split; auto. split; auto.
  pose proof (slow_res m f arr h B) as S. unfold slow in S.
  destruct S as [(gs & pl & hs & l & _ & E & _)|(e & l & _ & E)]; rewrite E in *; cbn [fst snd outcome] in *; [|exact I].
  eapply fpkt_ok; eauto.
Qed.

(** ** The borrowing parser *)

Lemma outcome_bind {A B} fu (o : out A) (k : A -> out B) (P : A -> Prop) Q :
  outcome fu o P -> (forall a, P a -> outcome fu (k a) Q) -> outcome fu (obind o k) Q.
Proof. intros O K. destruct o; cbn [obind outcome] in *; auto. Qed.
Lemma outcome_imp {A} fu (o : out A) (P Q : A -> Prop) : outcome fu o P -> (forall a, P a -> Q a) -> outcome fu o Q.
Proof. intros O K. destruct o; cbn [outcome] in *; auto. Qed.
Lemma outcome_fuel {A} fu (o : out A) Q : outcome false o Q -> outcome fu o Q.
Proof. destruct o; cbn [outcome]; auto. discriminate. Qed.

Lemma get_loop_outcome d i k v : outcome false (get_loop d i k v) (fun _ => True).
Proof.
  revert i v. induction k as [|k IH]; intros i v; cbn [get_loop]; [exact I|].
  eapply outcome_bind; [apply (index_outcome _ _ _ (fun _ => True)); auto|]. intros; apply IH.
Qed.
Lemma get_bits_outcome m d msb lsb : outcome false (get_bits m d msb lsb) (fun _ => True).
Proof. unfold get_bits. eapply outcome_bind; [apply get_loop_outcome|]. intros; apply finish_outcome. Qed.
Lemma bytes_loop_outcome m d i k : outcome false (bytes_loop m d i k) (fun _ => True).
Proof.
  revert i. induction k as [|k IH]; intros i; cbn [bytes_loop]; [exact I|].
  eapply outcome_bind; [apply get_bits_outcome|]. intros v _. eapply outcome_bind; [apply IH|]. intros; exact I.
Qed.
Lemma bytes_of_outcome m d msb lsb : outcome false (bytes_of m d msb lsb) (fun _ => True).
Proof.
  unfold bytes_of. eapply outcome_bind; [apply bytes_guard_outcome|intros; apply bytes_loop_outcome].
Qed.
Lemma sshow_octets_outcome m d i k : outcome false (sshow_octets m d i k) (fun _ => True).
Proof.
  revert i. induction k as [|k IH]; intros i; cbn [sshow_octets]; [exact I|].
  eapply outcome_bind; [apply get_bits_outcome|]. intros v _. eapply outcome_bind; [apply IH|]. intros; exact I.
Qed.
Lemma sshow_outcome m x : outcome false (sshow m x) (fun _ => True).
Proof.
  unfold sshow. eapply outcome_bind; [|intros; exact I]. cut (forall l, outcome false (sshow_fields m (v_bytes (s_view x)) l) (fun _ => True)); auto.
  induction l as [|f l IH]; cbn [sshow_fields]; [exact I|]. eapply outcome_bind.
  - instantiate (1 := fun _ => True). unfold sshow_field. destruct (_ <=? 8)%nat; [eapply outcome_bind; [apply get_bits_outcome|intros; exact I]|].
    destruct (_ =? 0)%nat; [apply sshow_octets_outcome|]. eapply outcome_bind; [apply sshow_octets_outcome|]. intros t _.
    eapply outcome_bind; [apply get_bits_outcome|intros; exact I].
  - intros s _. eapply outcome_bind; [apply IH|intros; exact I].
Qed.
Lemma ps_show_outcome m q : outcome false (ps_show m q) (fun _ => True).
Proof.
  unfold ps_show. eapply (outcome_bind _ _ _ (fun _ => True)); [|intros; exact I]. induction (ps_hdrs q) as [|x l IH]; cbn [show_shdrs]; [exact I|].
  eapply outcome_bind; [apply sshow_outcome|]. intros s _. eapply outcome_bind; [apply IH|intros; exact I].
Qed.

Section FParse.
Variables (m : mode) (rec : pfun -> view -> out packet_slice).
Hypothesis R : forall f v, slice_ok v -> outcome true (rec f v) slices_ok.

Lemma stake_ok T v i : slice_ok v -> outcome true (stake T v i) shdr_ok.
Proof.
  intros (B & L). unfold stake, v_slice. destruct ((i <=? i + ht_size T)%nat && (i + ht_size T <=? v_len v)%nat) eqn:E; [|exact I].
  apply andb_prop in E. destruct E as (_ & E). apply Nat.leb_le in E. cbn [obind]. unfold sfrom, from_raw_parts. cbn [v_len v_buf v_off].
  destruct (_ <=? _)%nat eqn:F; [|apply Nat.leb_gt in F; lia]. cbn [obind outcome]. split; cbn; [|reflexivity]. split; cbn; auto. lia.
Qed.
Lemma scall_ok f v i : slice_ok v -> outcome true (scall rec f v i) slices_ok.
Proof.
  intros (B & L). unfold scall, v_slice_from. destruct (i <=? v_len v)%nat eqn:E; [|exact I]. apply Nat.leb_le in E.
  cbn [obind]. apply R. split; cbn; auto. lia.
Qed.
Lemma insert_ok q x : slices_ok q -> shdr_ok x -> slices_ok (ps_insert q x).
Proof. intros (A & B) X. split; auto. constructor; auto. Qed.
Definition oshdr (o : option shdr) : Prop := match o with Some x => shdr_ok x | None => True end.
Lemma insert_opt_ok q o : slices_ok q -> oshdr o -> slices_ok (ps_insert_opt q o).
Proof. intros A X. destruct o; auto. apply insert_ok; auto. Qed.
Lemma sopt_ok b T v i : slice_ok v -> outcome true (sopt_hdr b T v i) (fun q => oshdr (fst q)).
Proof.
  intros V. unfold sopt_hdr. destruct (b =? 1); [|exact I]. eapply outcome_bind; [apply stake_ok; auto|]. auto.
Qed.
Lemma sget_outcome x f : outcome true (sget m x f) (fun _ => True).
Proof. apply outcome_fuel, get_bits_outcome. Qed.
Lemma v_index_outcome v i : outcome true (v_index v i) (fun _ => True).
Proof. unfold v_index. destruct (_ <? _)%nat; [|exact I]. apply index_outcome. auto. Qed.

Ltac tk := eapply outcome_bind; [apply stake_ok; assumption|intros ? ?S].
Ltac gt := eapply outcome_bind; [apply sget_outcome|intros ? _].
Ltac idx := eapply outcome_bind; [apply v_index_outcome|intros ? _].
Ltac cl := eapply (outcome_bind _ _ _ slices_ok);
  [repeat match goal with |- context [match ?e with _ => _ end] => destruct e end; apply scall_ok; assumption|intros ? ?Q].
Ltac op := eapply outcome_bind; [apply sopt_ok; assumption|intros [? ?] ?O; cbn [fst] in *].
Ltac ins := cbn [outcome]; repeat (apply insert_ok || apply insert_opt_ok); assumption.

Lemma fast_body_ok f v : slice_ok v -> outcome true (fast_body m rec f v) slices_ok.
Proof.
  intros V.
  assert (Lf : forall T, outcome true (fparse_leaf_body rec T v) slices_ok).
  { intros T. unfold fparse_leaf_body. cl. tk. ins. }
  destruct f; cbn [fast_body]; auto.
  - unfold fparse_body. idx. idx. cbv zeta. destruct (_ <? _); apply R; auto.
  - unfold fparse_dot3_body. tk. cl. ins.
  - unfold fparse_llc_body. tk. eapply (outcome_bind _ _ _ (fun _ => True)).
    + unfold fis_snap. idx. destruct (_ =? _); [|exact I]. idx. destruct (_ =? _); [|exact I]. idx. exact I.
    + intros b _. cl. ins.
  - unfold fparse_snap_body. tk. cl. ins.
  - unfold fparse_ethernet_body. tk. gt. cl. ins.
  - unfold fparse_vlan_body. tk. gt. cl. ins.
  - unfold fparse_mpls_body. tk. gt. cl. ins.
  - unfold fparse_mpls_bos_body. tk. idx. cl. ins.
  - unfold fparse_ipv4_body. tk. gt. cl. ins.
  - unfold fparse_ipv6_body. tk. gt. cl. ins.
  - unfold fparse_gre_body. tk. gt. gt. gt. gt. op. op. op. cl. cbv zeta. ins.
  - unfold fparse_erspan2_body. tk. cl. ins.
  - unfold fparse_erspan3_body. tk. gt. op. cl. cbv zeta. ins.
  - unfold fparse_udp_body. tk. gt. cl. ins.
  - unfold fparse_vxlan_body. cl. tk. ins.
  - unfold faccept_body. cbn [outcome]. split; [constructor|exact V].
Qed.
End FParse.

Lemma fast_fuel_ok m fuel f v : slice_ok v -> outcome true (fast_fuel m fuel f v) slices_ok.
Proof. revert f v. induction fuel as [|n IH]; intros f v V; cbn [fast_fuel]; [reflexivity|]. apply fast_body_ok; auto. Qed.
Lemma slice_ok_view v : slice_ok v -> ok_view v.
Proof.
  intros (B & L). exists (firstn (v_len v) (skipn (v_off v) (v_buf v))). split; [apply bytes_ok_firstn, bytes_ok_skipn; auto|].
  split.
  - exists (firstn (v_off v) (v_buf v)), (skipn (v_len v) (skipn (v_off v) (v_buf v))). split.
    + rewrite (firstn_skipn (v_len v)). symmetry. apply firstn_skipn.
    + rewrite firstn_length. lia.
  - rewrite firstn_length, skipn_length. lia.
Qed.
Lemma fast_outcome m f v : slice_ok v -> outcome false (fast_view m f v) slices_ok.
Proof.
  intros V. pose proof (fast_fuel_ok m (v_len v + 3) f v V) as O. destruct (C33_fast_total m f v (slice_ok_view v V)) as [(p & E)|(e & E)];
    unfold fast_view in *; rewrite E in *; exact O.
Qed.
Lemma sfrom_outcome T v : slice_ok v -> (ht_size T <= v_len v)%nat -> outcome false (sfrom T v) shdr_ok.
Proof.
  intros (B & L) Z. unfold sfrom, from_raw_parts. rewrite (proj2 (Nat.leb_le _ _) Z). cbn [obind outcome].
  split; cbn; [|reflexivity]. split; cbn; auto. lia.
Qed.

(** ** Any call *)

Lemma pop_in p : incl (p_hdrs (pop p)) (p_hdrs p).
Proof.
  unfold pop. destruct (_ =? 0)%nat; [apply incl_refl|]. cbn [p_hdrs]. induction (p_hdrs p) as [|x l IH]; [apply incl_refl|].
  cbn [removelast]. destruct l as [|y l]; [intros z []|]. intros z [->|I]; [left; auto|right; auto].
Qed.
Lemma remove_nth_in {A} i (l : list A) : incl (remove_nth i l) l.
Proof.
  revert i. induction l as [|x l IH]; intros [|i]; cbn [remove_nth]; try apply incl_refl; [apply incl_tl, incl_refl|].
  intros z [->|I]; [left; auto|right; eapply IH; eauto].
Qed.
Lemma remove_in p i : incl (p_hdrs (remove p i)) (p_hdrs p).
Proof. unfold remove. destruct (_ && _); [apply remove_nth_in|apply incl_refl]. Qed.
Lemma Forall_sub {A} (P : A -> Prop) l l' : incl l l' -> Forall P l' -> Forall P l.
Proof. intros I F. apply Forall_forall. intros x X. eapply Forall_forall in F; eauto. Qed.

Lemma ok_hreplace fu n W x y h : heap_ok h -> live h x -> live h y -> In (h_ref x) W ->
  ~ (h_ref x = h_ref y /\ ~ poisoned_at h (h_ref x)) -> ok fu n W (hreplace x y) h (fun _ _ => True).
Proof.
  intros H Lx Ly I S. unfold ok, hreplace. destruct (nth_error h (h_ref x)) as [cx|] eqn:Ex;
    [|apply nth_error_None in Ex; unfold live in Lx; lia].
  destruct (nth_error h (h_ref y)) as [cy|] eqn:Ey; [|apply nth_error_None in Ey; unfold live in Ly; lia].
  destruct (c_poisoned cx) eqn:Px; [split; [apply grows_refl|]; split; auto; exact Logic.I|].
  destruct (Nat.eqb_spec (h_ref x) (h_ref y)) as [E|E].
  - exfalso. apply S. split; auto. unfold poisoned_at. intros (d & P). rewrite P in Ex. injection Ex as <-. discriminate.
  - destruct (c_poisoned cy) eqn:Py; cbn [fst snd outcome];
      (split; [eapply grows_upd; eauto; left; auto|]; split; [apply heap_ok_upd; auto|exact Logic.I]).
    + constructor.
    + eapply heap_ok_nth; eauto.
Qed.

Definition kres_ok (r : kres) (h : heap) : Prop :=
  match r with
  | KHdr x => live h x | KPkt p => pkt_ok h p | KSHdr x => shdr_ok x | KSlice q => slices_ok q | _ => True
  end.

Section Call.
Variables (m : mode) (ip6 : string -> option (list N)) (c : client).
Hypothesis O6 : octets16 ip6.
Hypothesis C : client_ok c.
Notation h := (k_heap c).
Notation n := (length (k_heap c)).

Ltac res := intros ? ? ?L ?H ?P; apply ok_ret; [assumption|cbv beta in *; try exact I].

Lemma may_one k x : may k [h_ref x] (h_ref x).
Proof. left. left. reflexivity. Qed.

Lemma ok_hexec o : incl (hop_hdrs o) (k_hdrs c) -> typed (K_hdr o) -> ~ self_replace h (K_hdr o) ->
  ok false n (touches (K_hdr o)) (hexec m o) h (fun v h' => match v with VHdr x => live h' x | _ => True end).
Proof.
  destruct C as (H & Fh & _). intros K T S.
  assert (Lv : forall x, In x (hop_hdrs o) -> live h x) by (intros x X; eapply Forall_forall in Fh; eauto).
  destruct o; cbn [hexec touches hop_hdrs map typed self_replace] in *.
  - eapply ok_bind; [apply ok_hnew; auto|]. res. apply P.
  - eapply ok_bind; [apply ok_hfrom; auto|]. res. apply P.
  - apply ok_ret; auto. exact (Lv x ltac:(left; auto)).
  - eapply ok_bind; [apply ok_hget; auto using may_one; apply Lv; left; auto|]. res.
  - eapply ok_bind; [apply ok_hset; auto using may_one; apply Lv; left; auto|]. res.
  - eapply ok_bind; [apply ok_hbit_range; auto using may_one; apply Lv; left; auto|]. res.
  - eapply ok_bind; [apply ok_hset_loop; auto using may_one; apply Lv; left; auto|]. res.
  - eapply ok_bind; [apply ok_hbytes; auto using may_one; apply Lv; left; auto|]. res.
  - eapply ok_bind; [apply ok_hset_bytes; auto using may_one; apply Lv; left; auto|]. res.
  - eapply ok_bind; [apply ok_hreplace; auto; [apply Lv; left; auto|apply Lv; right; left; auto|left; auto]|]. res.
  - eapply ok_bind; [apply ok_hto_vec; auto; apply Lv; left; auto|]. res.
Qed.

Lemma ok_pure {A B} fu n' W (o : out A) (f : A -> B) h' (P : A -> Prop) (Q : B -> heap -> Prop) : heap_ok h' -> outcome fu o P ->
  (forall a, P a -> Q (f a) h') -> ok fu n' W (mlet a := lift o in ret (f a)) h' Q.
Proof.
  intros H O K. eapply (ok_bind _ _ _ _ _ _ (fun a h1 => P a /\ h1 = h')).
  - apply ok_lift; auto. eapply outcome_imp; eauto.
  - intros a h1 L1 H1 (Pa & ->). apply ok_ret; auto.
Qed.

Lemma query_outcome q : outcome false (query_run m q) (fun a => kres_ok a h).
Proof.
  destruct q; cbn [query_run outcome kres_ok]; try exact I.
  - split; constructor; cbn; auto; constructor.
  - eapply outcome_bind; [apply get_bits_outcome|]. intros v _. exact I.
Qed.

Lemma ok_kexec k : known c k -> typed k -> ~ short_from k -> ~ self_replace h k ->
  ok false n (touches k) (kexec m ip6 k) h kres_ok.
Proof.
  intros K T S R. destruct C as (H & Fh & Fp & Fs & Fq).
  assert (Lh : forall x, In x (k_hdrs c) -> live h x) by (intros x X; eapply Forall_forall in Fh; eauto).
  assert (Lp : forall p, In p (k_pkts c) -> pkt_ok h p) by (intros x X; eapply Forall_forall in Fp; eauto).
  assert (Ph : forall p x, pkt_ok h p -> In x (p_hdrs p) -> live h x).
  { intros p x (F & _) X. eapply Forall_forall in F; eauto. }
  destruct k; cbn [kexec known typed short_from] in *.
  - eapply ok_bind; [apply ok_hexec; auto|]. intros v h1 L1 H1 V. apply ok_ret; auto. destruct v; auto; exact I.
  - eapply ok_bind; [apply ok_hdowncast; auto|]. res. subst. eapply live_more; eauto.
  - eapply ok_bind; [apply ok_hshow; auto; apply may_one|]. res.
  - eapply ok_bind; [apply ok_hmake; auto|]. res. apply P.
  - apply ok_ret; auto. split; constructor.
  - unfold push_any. destruct a as [x|T' d]; cbn [to_owned].
    + destruct K as (Kp & Kx). apply ok_ret; auto. destruct (Lp _ Kp) as (F & B). split; auto. cbn [p_hdrs].
      apply Forall_app. split; auto.
    + apply ok_fail; auto.
  - unfold insert_any. destruct a as [x|T' d]; cbn [to_owned].
    + destruct K as (Kp & Kx). apply ok_ret; auto. destruct (Lp _ Kp) as (F & B). split; auto. cbn [p_hdrs]. constructor; auto.
    + apply ok_fail; auto.
  - apply ok_ret; auto. destruct (Lp _ K) as (F & B). split; [eapply Forall_sub; [apply pop_in|auto]|].
    unfold pop. destruct (_ =? 0)%nat; auto.
  - apply ok_ret; auto. destruct (Lp _ K) as (F & B). split; [eapply Forall_sub; [apply remove_in|auto]|].
    unfold remove. destruct (_ && _); auto.
  - apply ok_ret; auto. destruct (Lp _ K) as (F & B). split; auto. cbn. apply bytes_ok_app; auto.
  - destruct K as (Kp & Kq). unfold ok, pkt_add, bind. rewrite clone_hdrs_run. cbn. split; [apply grows_refl|]. split; auto.
    destruct (Lp _ Kp), (Lp _ Kq). split; auto. cbn [p_hdrs]. apply Forall_app; auto.
  - unfold ok, pkt_clone, bind. rewrite clone_hdrs_run. cbn. split; [apply grows_refl|]. split; auto.
    destruct (Lp _ K). split; auto.
  - eapply ok_bind; [apply ok_index_name; auto|]. res. eapply live_more; eauto.
  - apply ok_ret; auto. unfold get_header. destruct (find_name name (p_hdrs p)) as [x|] eqn:E; [|exact I].
    destruct (_ =? _)%nat; [|exact I]. cbn. eapply Ph; eauto. eapply find_name_in; eauto.
  - eapply ok_bind; [apply ok_to_vec; auto|]. res.
  - destruct K. eapply ok_bind; [apply ok_compare; auto|]. res.
  - eapply ok_bind; [apply ok_compare_slice; auto|]. res.
  - eapply ok_bind; [apply ok_pkt_show; auto; apply incl_refl|]. res.
  - eapply ok_pure; [assumption|apply checksum_outcome|intros ? V; exact I].
  - eapply ok_pure; [assumption|apply mac_outcome|intros ? V; exact I].
  - eapply ok_pure; [assumption|apply ip4_outcome|intros ? V; exact I].
  - eapply ok_bind; [apply ok_pmake; auto|].
    + eapply Forall_sub; [exact K|auto].
    + res. exact P.
  - eapply ok_bind; [apply ok_slow; auto|]. res. exact P.
  - eapply ok_pure; [assumption|apply fast_outcome; auto|intros ? V; exact V].
  - eapply ok_pure; [assumption|apply sfrom_outcome; auto; lia|intros ? V; exact V].
  - eapply ok_pure; [assumption|apply get_bits_outcome|intros ? V; exact I].
  - eapply ok_pure; [assumption|apply bytes_of_outcome|intros ? V; exact I].
  - eapply ok_pure; [assumption|apply sshow_outcome|intros ? V; exact I].
  - eapply ok_pure; [assumption|apply ps_show_outcome|intros ? V; exact I].
  - apply ok_ret; auto.
  - apply ok_lift; auto. apply query_outcome.
Qed.
End Call.

(** ** Reads that return leave the heap alone *)

Definition still {A} (x : M A) : Prop := forall h a h', x h = (Ret a, h') -> h' = h.
Lemma still_ret {A} (a : A) : still (ret a).
Proof. intros h b h' E. injection E as _ <-. reflexivity. Qed.
Lemma still_lift {A} (o : out A) : still (lift o).
Proof. intros h b h' E. injection E as _ <-. reflexivity. Qed.
Lemma still_bind {A B} (x : M A) (k : A -> M B) : still x -> (forall a, still (k a)) -> still (bind x k).
Proof.
  intros X K h b h' E. unfold bind in E. destruct (x h) as [[a|e| | |] h1] eqn:F; try discriminate.
  apply X in F. subst h1. eapply K; eauto.
Qed.
Lemma still_lock {A} r (f : list N -> out A) : still (with_lock r (fun d => (f d, d))).
Proof.
  intros h a h' E. unfold with_lock in E. destruct (nth_error h r) as [x|] eqn:F; [|discriminate].
  destruct (c_poisoned x) eqn:P; [discriminate|]. destruct (f (c_data x)); try discriminate. injection E as _ <-.
  apply upd_same. rewrite F. destruct x; cbn in *; congruence.
Qed.
Lemma still_hget_loop r i k v : still (hget_loop r i k v).
Proof.
  revert i v. induction k as [|k IH]; intros i v; cbn [hget_loop]; [apply still_ret|]. cbv zeta.
  apply still_bind; [apply still_lock|]. intros; apply IH.
Qed.
Lemma still_bit_range m x a b : still (hbit_range m x a b).
Proof. unfold hbit_range. apply still_bind; [apply still_hget_loop|]. intros; apply still_lift. Qed.
Lemma still_hbytes_loop m x i k : still (hbytes_loop m x i k).
Proof.
  revert i. induction k as [|k IH]; intros i; cbn [hbytes_loop]; [apply still_ret|].
  apply still_bind; [apply still_bit_range|]. intros v. apply still_bind; [apply IH|]. intros; apply still_ret.
Qed.
Lemma still_hbytes m x a b : still (hbytes m x a b).
Proof. unfold hbytes. apply still_bind; [apply still_lift|]. intros; apply still_hbytes_loop. Qed.
Lemma still_octets m x i k : still (hshow_octets m x i k).
Proof.
  revert i. induction k as [|k IH]; intros i; cbn [hshow_octets]; [apply still_ret|].
  apply still_bind; [apply still_bit_range|]. intros v. apply still_bind; [apply IH|]. intros; apply still_ret.
Qed.
Lemma still_show_field m x f : still (hshow_field m x f).
Proof.
  unfold hshow_field. destruct (_ <=? 8)%nat; [apply still_bind; [apply still_bit_range|intros; apply still_ret]|].
  destruct (_ =? 0)%nat; [apply still_octets|]. apply still_bind; [apply still_octets|]. intros t.
  apply still_bind; [apply still_bit_range|intros; apply still_ret].
Qed.
Lemma still_show m x : still (hshow m x).
Proof.
  unfold hshow. apply still_bind; [|intros; apply still_ret]. induction (ht_fields (h_ty x)) as [|f l IH]; cbn [hshow_fields]; [apply still_ret|].
  apply still_bind; [apply still_show_field|]. intros s. apply still_bind; [exact IH|]. intros; apply still_ret.
Qed.
Lemma still_hto_vec x : still (hto_vec x).
Proof. apply (still_lock _ (fun d => Ret d)). Qed.
Lemma still_pshow m p : still (pkt_show m p).
Proof.
  unfold pkt_show. apply still_bind.
  - induction (p_hdrs p) as [|x l IH]; cbn [show_hdrs]; [apply still_ret|]. apply still_bind; [apply still_show|]. intros s.
    apply still_bind; [exact IH|]. intros; apply still_ret.
  - intros s. apply still_bind; [|intros; apply still_ret]. unfold to_vec. apply still_bind; [|intros; apply still_ret].
    induction (p_hdrs p) as [|x l IH]; cbn [concat_vecs]; [apply still_ret|]. apply still_bind; [apply still_hto_vec|]. intros v.
    apply still_bind; [exact IH|]. intros; apply still_ret.
Qed.
(** A call that writes to no header either touches no existing buffer or is such a read. *)
Lemma kexec_still m ip6 k : writes k = false -> touches k = [] \/ still (kexec m ip6 k).
Proof.
  destruct k; cbn [writes touches]; auto; intros E.
  - destruct o; try discriminate; cbn [touches hop_hdrs map]; auto; right; cbn [kexec hexec].
    + apply still_bind; [|intros; apply still_ret]. apply still_bind; [apply still_bit_range|intros; apply still_ret].
    + apply still_bind; [|intros; apply still_ret]. apply still_bind; [apply still_bit_range|intros; apply still_ret].
    + apply still_bind; [|intros; apply still_ret]. apply still_bind; [apply still_hbytes|intros; apply still_ret].
  - right. cbn [kexec]. apply still_bind; [apply still_show|intros; apply still_ret].
  - right. cbn [kexec]. apply still_bind; [apply still_pshow|intros; apply still_ret].
Qed.
