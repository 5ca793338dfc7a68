(** LinProofs.v -- lemmas for PropLin.v. *)

From Coq Require Import Lia.
From Verif Require Import Base Bits Types Layout Heap Packet Text Build Utils Slow Fast Show Ops Client Threads
  Spec ClientSpec ThreadsSpec CostSpec LinSpec LocalSpec BitsProofs HeapProofs PropBuild ClientProofs PropClient ThreadsSim ThreadsRel ThreadsProofs
  CostProofs LocalProofs.
Open Scope N_scope.

(** ** Calls under other names *)

Lemma rename_hdr_ext f g x : f (h_ref x) = g (h_ref x) -> rename_hdr f x = rename_hdr g x.
Proof. intros E. unfold rename_hdr. rewrite E. reflexivity. Qed.
Lemma rename_pkt_ext f g p : (forall x, In x (p_hdrs p) -> f (h_ref x) = g (h_ref x)) -> rename_pkt f p = rename_pkt g p.
Proof. intros E. unfold rename_pkt. f_equal. apply map_ext_in. intros x X. apply rename_hdr_ext. auto. Qed.
Lemma rename_call_ext f g k : (forall r, In r (args k) -> f r = g r) -> rename_call f k = rename_call g k.
Proof.
  intros A.
  assert (Ah : forall x, In x (call_hdrs k) -> rename_hdr f x = rename_hdr g x).
  { intros x X. apply rename_hdr_ext, A. apply in_map. apply in_or_app. auto. }
  assert (Ap : forall p, In p (call_pkts k) -> rename_pkt f p = rename_pkt g p).
  { intros p P. apply rename_pkt_ext. intros x X. apply A. apply in_map. apply in_or_app. right. apply in_flat_map. eauto. }
  clear A. destruct k; cbn [rename_call call_hdrs call_pkts] in *; auto; try (f_equal; auto using in_eq; fail).
  - f_equal. destruct o; cbn [rename_hop hop_hdrs] in *; f_equal; auto using in_eq. apply Ah. right; left; auto.
  - f_equal; [auto using in_eq|]. destruct a; cbn [rename_any] in *; auto. f_equal. auto using in_eq.
  - f_equal; [auto using in_eq|]. destruct a; cbn [rename_any] in *; auto. f_equal. auto using in_eq.
  - f_equal; apply Ap; cbn; auto.
  - f_equal; apply Ap; cbn; auto.
  - f_equal. destruct b; cbn [rename_pmake pmake_inner] in *; auto; try (f_equal; auto using in_eq; fail);
      destruct inner; cbn [option_map] in *; auto; do 2 f_equal; apply Ap; left; auto.
  - f_equal. destruct q; cbn [rename_query query_hdrs query_pkts] in *; auto; f_equal; auto using in_eq.
Qed.
(** The buffers of a result. *)
Definition within (S : nat -> Prop) (o : out kres) : Prop :=
  match o with
  | Ret (KHdr x) => S (h_ref x)
  | Ret (KPkt p) => forall x, In x (p_hdrs p) -> S (h_ref x)
  | _ => True
  end.
Lemma rename_out_ext f g o : within (fun r => f r = g r) o -> rename_out f o = rename_out g o.
Proof.
  destruct o as [[]| | | |]; cbn [within rename_out rename]; auto; intros H; do 2 f_equal; [apply rename_hdr_ext|apply rename_pkt_ext]; auto.
Qed.
Lemma within_imp (S T : nat -> Prop) o : (forall r, S r -> T r) -> within S o -> within T o.
Proof. intros H. destruct o as [[]| | | |]; cbn [within]; auto. Qed.
Lemma rename_out_comp f g o : rename_out f (rename_out g o) = rename_out (fun r => f (g r)) o.
Proof.
  destruct o as [[]| | | |]; cbn [rename_out rename]; auto. do 2 f_equal. unfold rename_pkt. cbn [p_hdrs p_payload]. f_equal.
  rewrite map_map. reflexivity.
Qed.
Lemma rl_within {S : nat -> Prop} v v' : vrel (fun r r' => r = r' /\ S r) v v' -> within S (Ret v).
Proof.
  destruct v, v'; cbn [vrel within]; try contradiction; auto.
  - intros (_ & _ & X). exact X.
  - intros (F & _) x X. induction F as [|a b l l' D F IH]; [destruct X|]. destruct X as [->|X]; [apply D|auto].
Qed.

(** What all threads know, under the names of the single thread. *)
Definition cmap (g : nat -> nat) (c : client) (h : heap) : client :=
  Cl h (map (rename_hdr g) (k_hdrs c)) (map (rename_pkt g) (k_pkts c)) (k_shdrs c) (k_slices c).
Lemma known_cmap g c h k : known c k -> known (cmap g c h) (rename_call g k).
Proof.
  assert (H : forall x, In x (k_hdrs c) -> In (rename_hdr g x) (k_hdrs (cmap g c h))) by (intros x X; apply in_map; exact X).
  assert (P : forall p, In p (k_pkts c) -> In (rename_pkt g p) (k_pkts (cmap g c h))) by (intros x X; apply in_map; exact X).
  destruct k; cbn [known rename_call]; try (intros K; auto; fail); try (intros (K & K'); auto; fail).
  - intros K x X. destruct o; cbn [rename_hop hop_hdrs] in *; cbn [In] in *;
      repeat (destruct X as [<-|X]; [apply H, K; cbn; auto|]); contradiction.
  - destruct a; cbn [rename_any]; [intros (K & K'); auto|auto].
  - destruct a; cbn [rename_any]; [intros (K & K'); auto|auto].
  - intros K x X. destruct b; cbn [rename_pmake pmake_inner] in *; try contradiction; try (destruct inner; cbn [option_map] in X);
      cbn [In] in *; try contradiction; destruct X as [<-|[]]; apply P, K; left; auto.
  - destruct q; cbn [rename_query query_known]; auto.
Qed.
Lemma typed_rename g k : typed k -> typed (rename_call g k).
Proof.
  destruct k; cbn [typed rename_call]; auto.
  - destruct o; auto.
  - destruct a; auto.
  - destruct a; auto.
  - destruct b; auto.
  - destruct q; auto.
Qed.
Lemma learn_cmap g c h h' h1 o : learn (cmap g c h) (rename_out g o) h1 = cmap g (learn c o h') h1.
Proof. destruct o as [[]| | | |]; reflexivity. Qed.
Lemma cmap_ext f g c h : (forall r, shared c r -> f r = g r) -> cmap f c h = cmap g c h.
Proof.
  intros E. unfold cmap. f_equal; apply map_ext_in.
  - intros x X. apply rename_hdr_ext, E. left. eauto.
  - intros p P. apply rename_pkt_ext. intros x X. apply E. right. eauto.
Qed.
Lemma known_more c o h k : known c k -> known (learn c o h) k.
Proof.
  assert (H : forall x, In x (k_hdrs c) -> In x (k_hdrs (learn c o h))) by (intros x X; destruct o as [[]| | | |]; cbn; auto).
  assert (P : forall x, In x (k_pkts c) -> In x (k_pkts (learn c o h))) by (intros x X; destruct o as [[]| | | |]; cbn; auto).
  assert (S : forall x, In x (k_shdrs c) -> In x (k_shdrs (learn c o h))) by (intros x X; destruct o as [[]| | | |]; cbn; auto).
  assert (L : forall x, In x (k_slices c) -> In x (k_slices (learn c o h))) by (intros x X; destruct o as [[]| | | |]; cbn; auto).
  destruct k; cbn [known]; try (intros K; auto; fail); try (intros (K & K'); auto; fail).
  - intros K x X. apply H, K, X.
  - destruct a; [intros (K & K'); auto|auto].
  - destruct a; [intros (K & K'); auto|auto].
  - intros K x X. apply P, K, X.
  - destruct q; cbn [query_known]; auto.
Qed.
Lemma known_heap c h k : known c k -> known (set_heap c h) k.
Proof. auto. Qed.

(** ** Calls without buffers, elsewhere *)

Section Solo.
Variables (n n' : nat) (A : nat -> Prop) (g : nat -> nat).
Hypothesis An : forall r, A r -> (r < n)%nat.
Hypothesis Gn : forall r, A r -> (g r < n')%nat.
Hypothesis Gi : forall r q, A r -> A q -> g r = g q -> r = q.
Let at1 := at_ n n' A g.

Definition oel {B} (Q : B -> B -> Prop) (o o' : out B) : Prop :=
  match o, o' with
  | Ret a, Ret a' => Q a a'
  | Panic e, Panic e' => e = e'
  | UB, UB | Hang, Hang | Fuel, Fuel => True
  | _, _ => False
  end.
Lemma rl_solo {T} fu rp (Q : T -> T -> Prop) p : forall p' h h', rl fu rp at1 Q p p' -> alike n n' A g h h' ->
  exists o h1 o' h1', asolo p h = (o, h1) /\ asolo p' h' = (o', h1') /\ oel Q o o' /\ alike n n' A g h1 h1' /\ keeps n n' A g h h1 h' h1'.
Proof.
  assert (L : forall B (o : out B) h1 h1' (f f' : B -> act T) (x x' : M B) h h', alike n n' A g h1 h1' -> keeps n n' A g h h1 h' h1' ->
    x h = (o, h1) -> x' h' = (o, h1') ->
    (forall b, o = Ret b -> exists o h2 o' h2', asolo (f b) h1 = (o, h2) /\ asolo (f' b) h1' = (o', h2') /\
      oel Q o o' /\ alike n n' A g h2 h2' /\ keeps n n' A g h1 h2 h1' h2') ->
    exists u h2 u' h2', bind x (fun b => asolo (f b)) h = (u, h2) /\
      bind x' (fun b => asolo (f' b)) h' = (u', h2') /\ oel Q u u' /\ alike n n' A g h2 h2' /\ keeps n n' A g h h2 h' h2').
  { intros B o h1 h1' f f' x x' h h' H1 K E E' F. unfold bind. rewrite E, E'. destruct o as [b|e| | |].
    2-5: do 4 eexists; (split; [reflexivity|]); (split; [reflexivity|]); cbn [oel]; auto.
    destruct (F b eq_refl) as (o & h2 & o' & h2' & G & G' & O & H2 & K2). rewrite G, G'.
    exists o, h2, o', h2'. repeat (split; [auto; fail|]). eapply keeps_trans; eauto. }
  induction p as [o|d k IH|r i k IH|r i v k IH|r k IH|x o k IH];
    intros [o'|d' k'|r' i' k'|r' i' v' k'|r' k'|x' o' k'] h h' G H; cbn [rl asolo] in *; try contradiction.
  - exists o, h, o', h'. repeat split; auto using keeps_refl; try apply H. destruct o, o'; cbn [orl oel] in *; auto.
  - destruct G as (<- & D & G). destruct (alike_alloc n n' A g An h h' d H D) as (R & H1 & K1).
    eapply (L _ (Ret (length h))) with (f' := fun _ => k' (length h')) (x' := fun h0 => (Ret (length h), h' ++ [Cell d false]));
      [exact H1|exact K1|reflexivity|reflexivity|].
    intros b [= <-]. apply IH; auto.
  - destruct G as (R & <- & G). destruct (alike_lock n n' A g An Gn Gi h h' r r' _ _ H R (read_ok i)) as (u & h1 & h1' & E & E' & H1 & K1 & _).
    eapply L; eauto.
  - destruct G as (R & <- & <- & V & G). destruct (alike_lock n n' A g An Gn Gi h h' r r' _ _ H R (set_bit_step_ok i v V)) as (u & h1 & h1' & E & E' & H1 & K1 & _).
    eapply (L _ _ _ _ (fun _ => k) (fun _ => k')); eauto.
  - destruct G as (R & G). destruct (alike_lock n n' A g An Gn Gi h h' r r' _ _ H R copy_ok) as (u & h1 & h1' & E & E' & H1 & K1 & P1).
    eapply L; eauto.
  - destruct G as (_ & X & O & G). destruct (alike_replace n n' A g An Gn Gi h h' x x' o o' H X O) as (u & h1 & h1' & E & E' & H1 & K1).
    eapply (L _ _ _ _ (fun _ => k) (fun _ => k')); eauto.
Qed.
End Solo.

(** ** Locks *)

Lemma held_iff ts r : held ts r = true <-> exists j b, nth_error ts j = Some b /\ holds r b = true.
Proof.
  unfold held. rewrite existsb_exists. split.
  - intros (b & I & H). apply In_nth_error in I. destruct I as (j & J). eauto.
  - intros (j & b & J & H). exists b. split; [eapply nth_error_In; eauto|exact H].
Qed.
Lemma bool_iff a b : (a = true <-> b = true) -> a = b.
Proof. destruct a, b; intros (A & B); auto; symmetry; auto. Qed.
Lemma held_swap ts i b b' r : nth_error ts i = Some b -> holds r b' = holds r b -> held (upd ts i b') r = held ts r.
Proof.
  intros I E. apply bool_iff. rewrite !held_iff. split; intros (j & u & J & H).
  - apply upd_cases in J. destruct J as [(-> & ->)|(Ne & J)]; [exists i, b; split; [exact I|congruence]|eauto].
  - destruct (Nat.eq_dec j i) as [->|Ne].
    + exists i, b'. split; [eapply nth_upd_at; eauto|]. congruence.
    + exists j, u. rewrite upd_other; auto.
Qed.
Lemma held_spawn ts r : held (ts ++ [Idle]) r = held ts r.
Proof. unfold held. rewrite existsb_app. cbn. rewrite Bool.orb_false_r. reflexivity. Qed.

(** ** Calls of one step *)

Lemma one_step m ip6 k ts h h' new t' : (budget k <= 1)%nat -> tstep ts h (TRun (a_kexec m ip6 k)) = Some (h', new, t') -> done t'.
Proof.
  intros B E.
  assert (Z : forall a l o, tpath t' a l o -> (a + l = 0)%nat).
  { intros a l o P. destruct (tstep_path _ _ _ _ _ _ _ _ _ E P) as (l' & Q & Le).
    destruct (sp_kexec m ip6 k _ _ _ Q) as (X & _). lia. }
  destruct (tpath_some t') as (a & l & o & P). pose proof (Z _ _ _ P) as Y.
  destruct t' as [[o'|d q|r j q|r j v q|r q|x y q]|x y q]; [eexists; reflexivity|exfalso..].
  6: cbn [tpath] in P; destruct P as (l' & -> & _); lia.
  all: inversion P; subst; lia.
Qed.
Lemma no_step m ip6 k : budget k = 0%nat -> exists o, a_kexec m ip6 k = ADone o.
Proof.
  intros B. destruct (path_some (a_kexec m ip6 k)) as (a & l & o & P). destruct (sp_kexec m ip6 k _ _ _ P) as (X & _).
  destruct (a_kexec m ip6 k); [eauto|exfalso; inversion P; subst; lia..].
Qed.

Definition plain (o : out kres) : Prop := match o with Ret (KHdr _) | Ret (KPkt _) | Ret (KSHdr _) | Ret (KSlice _) => False | _ => True end.
Fixpoint leaves {A} (P : A -> Prop) (p : act A) : Prop :=
  match p with
  | ADone (Ret v) => P v
  | ADone _ => True
  | AAlloc _ k => forall r, leaves P (k r)
  | ARead _ _ k => forall b, leaves P (k b)
  | AWrite _ _ _ k => leaves P k
  | ACopy _ k => forall d, leaves P (k d)
  | ARepl _ _ k => leaves P k
  end.
Lemma leaves_bind {A B} (P : B -> Prop) (p : act A) (f : A -> act B) : (forall a, leaves P (f a)) -> leaves P (abind p f).
Proof. intros H. induction p as [[]| | | | |]; cbn [abind leaves]; auto. Qed.
Lemma leaves_bind2 {A B} (Q : A -> Prop) (P : B -> Prop) (p : act A) (f : A -> act B) : leaves Q p -> (forall a, Q a -> leaves P (f a)) -> leaves P (abind p f).
Proof. intros L H. induction p as [[]| | | | |]; cbn [abind leaves] in *; auto. Qed.
Lemma leaves_plain m ip6 k : args k <> [] -> (budget k <= 1)%nat \/ replaces k = true -> silent m ip6 k = false ->
  leaves (fun v => plain (Ret v)) (a_kexec m ip6 k).
Proof.
  intros A B S.
  assert (N' : forall o, a_kexec m ip6 k <> ADone o).
  { intros o E. unfold silent in S. rewrite E in S. destruct (args k); discriminate. }
  assert (Z : budget k <> 0%nat) by (intros Z; destruct (no_step m ip6 k Z) as (o & E); exact (N' o E)).
  clear S. destruct k; cbn [a_kexec] in *; try (apply leaves_bind; intros; exact I); try (exfalso; apply A; reflexivity);
    try (exfalso; eapply N'; reflexivity); try (exfalso; apply Z; reflexivity).
  - destruct o; try (exfalso; apply A; reflexivity); try (exfalso; eapply N'; reflexivity);
      (apply leaves_bind2 with (Q := fun v => match v with VHdr _ => False | _ => True end);
       [cbn [a_hexec]; apply leaves_bind; intros; exact I|intros []; cbn; auto]).
  - destruct B as [B|B]; [|discriminate]. cbn [budget] in B. lia.
Qed.

(** One step of one of them, and the call made by the single thread. *)
Definition unlike (k : call) (n n' : nat) (g : nat -> nat) (r r' : nat) : Prop := (In r (args k) /\ r' = g r) \/ (r = n /\ r' = n').
Lemma plain_eq rho fu o o' : plain o -> orl fu (vrel rho) o o' -> o' = o.
Proof.
  destruct o as [v| | | |], o' as [v'| | | |]; cbn [orl plain]; try contradiction; try congruence.
  destruct v, v'; cbn [vrel]; try contradiction; try congruence. intros _ (-> & _). reflexivity.
Qed.
Lemma lock_both {B} r r' (body : list N -> out B * list N) (h hs : heap) : nth_error hs r' = nth_error h r ->
  exists o h1 hs1, with_lock r body h = (o, h1) /\ with_lock r' body hs = (o, hs1) /\
  ((h1 = h /\ hs1 = hs) \/ exists c, h1 = upd h r c /\ hs1 = upd hs r' c).
Proof.
  intros E. unfold with_lock. rewrite E. destruct (nth_error h r) as [c|]; [|eauto 8]. destruct (c_poisoned c); [eauto 8|].
  destruct (body (c_data c)) as [[] d]; do 3 eexists; (split; [reflexivity|]); (split; [reflexivity|]); right; eauto.
Qed.
Definition both (S : nat -> nat -> Prop) (ts : list thread) (h h' hs hs' : heap) : Prop :=
  (h' = h /\ hs' = hs) \/ (exists c, h' = h ++ [c] /\ hs' = hs ++ [c]) \/
  exists r r' c, S r r' /\ held ts r = false /\ h' = upd h r c /\ hs' = upd hs r' c.
Lemma step_both fu (rho : nat -> nat -> Prop) p p' ts h h' new o hs : rl fu false rho (vrel rho) p p' -> leaves (fun v => plain (Ret v)) p ->
  rho (length h) (length hs) ->
  tstep ts h (TRun p) = Some (h', new, TRun (ADone o)) ->
  (forall r r', rho r r' -> held ts r = false -> nth_error hs r' = nth_error h r) -> heap_ok h ->
  exists hs', asolo p' hs = (o, hs') /\ both rho ts h h' hs hs'.
Proof.
  intros R L N' E C Ok.
  assert (Lk : forall B r r' (body : list N -> out B * list N) (f f' : B -> act kres), rho r r' -> held ts r = false ->
    after (with_lock r body h) (fun b => TRun (f b)) = (h', new, TRun (ADone o)) ->
    (forall b h1 o, with_lock r body h = (Ret b, h1) -> f b = ADone o -> plain o /\ rl fu false rho (vrel rho) (f b) (f' b)) ->
    exists hs', bind (with_lock r' body) (fun b => asolo (f' b)) hs = (o, hs') /\ both rho ts h h' hs hs').
  { intros B r r' body f f' Rr Hr A F. destruct (lock_both r r' body h hs (C _ _ Rr Hr)) as (u & h1 & hs1 & E1 & E2 & Ch).
    rewrite E1 in A. unfold bind. rewrite E2.
    assert (X : both rho ts h h1 hs hs1). { destruct Ch as [Ch|(c & Ch)]; [left; exact Ch|right; right; exists r, r', c; auto]. }
    destruct u as [b|e| | |]; cbn [after] in A; injection A as <- <- A; try (exists hs1; split; [rewrite <- ?A; reflexivity|exact X]).
    destruct (F b h1 o E1 A) as (P & Q). rewrite A in Q. destruct (f' b); cbn [rl] in Q; try contradiction.
    rewrite (plain_eq _ _ _ _ P Q). exists hs1. split; [reflexivity|exact X]. }
  assert (Pl : forall q o, leaves (fun v => plain (Ret v)) q -> q = ADone o -> plain o) by (intros q [v|e| | |] Lq ->; auto; exact I).
  destruct p as [o1|d k|r i k|r i v k|r k|x y k], p' as [o1'|d' k'|r' i' k'|r' i' v' k'|r' k'|x' y' k']; cbn [rl tstep asolo leaves] in *; try contradiction; try discriminate.
  - destruct R as (<- & _ & R). injection E as <- <- E. specialize (R _ _ N'). rewrite E in R. specialize (L (length h)). rewrite E in L.
    unfold bind, alloc. destruct (k' (length hs)); cbn [rl] in R; try contradiction.
    rewrite (plain_eq _ _ _ _ (Pl _ _ L eq_refl) R). eexists. split; [reflexivity|]. right; left. eauto.
  - destruct R as (Rr & <- & R). destruct (held ts r) eqn:Hr; [discriminate|]. injection E as E. eapply Lk; eauto.
  - destruct R as (Rr & <- & <- & _ & R). destruct (held ts r) eqn:Hr; [discriminate|]. injection E as E.
    eapply (Lk _ _ _ _ (fun _ => k) (fun _ => k')); eauto.
  - destruct R as (Rr & R). destruct (held ts r) eqn:Hr; [discriminate|]. injection E as E. eapply Lk; eauto.
    intros d h1 o1 Ew Ed. split; [eauto|]. apply R. unfold with_lock in Ew. destruct (nth_error h r) as [c|] eqn:Ec; [|discriminate].
    destruct (c_poisoned c); [discriminate|]. injection Ew as <- _. eapply heap_ok_nth; eauto.
  - destruct R as (R & _). discriminate.
Qed.

(** ** The invariant *)

Section Inv.
Variables (m : mode) (ip6 : string -> option (list N)).
Hypothesis O6 : octets16 ip6.

Definition nshape (k : call) (t : tstate) : Prop :=
  t = TRun (a_kexec m ip6 k) \/
  (exists a b, k = K_hdr (OReplace a b) /\ t = TWait (h_ref a) (h_ref b) (ADone (Ret (KVal VUnit)))) \/
  (exists o, t = TRun (ADone o) /\ plain o).
Definition in_log (c : client) (e : entry) : Prop :=
  let '(_, k, o) := e in (forall r, In r (args k) -> shared c r) /\ within (shared c) o.
Record lin (log : list entry) (w : world) (g : nat -> nat) (hs : heap) : Prop := {
  l_seq : one_by_one m ip6 (map (renamed g) log) (cmap g (fst w) hs);
  l_inj : forall r q, shared (fst w) r -> shared (fst w) q -> g r = g q -> r = q;
  l_free : forall r, shared (fst w) r -> held (snd w) r = false -> nth_error hs (g r) = nth_error (w_heap w) r;
  l_held : forall r, shared (fst w) r -> held (snd w) r = true -> exists d, nth_error hs (g r) = Some (Cell d false);
  l_log : Forall (in_log (fst w)) log;
  l_known : forall i k own t, busy w i k own t -> known (fst w) k /\ atomic k;
  l_loud : forall i k own t, busy w i k own t -> silent m ip6 k = false -> nshape k t;
  l_mute : forall i k own t, busy w i k own t -> silent m ip6 k = true -> args k <> [] -> t = TRun (a_kexec m ip6 k)
}.
Lemma l_live log w g hs r : client_ok (fst w) -> lin log w g hs -> shared (fst w) r -> (g r < length hs)%nat.
Proof.
  intros C L S. apply nth_error_Some. destruct (held (snd w) r) eqn:H.
  - destruct (l_held _ _ _ _ L r S H) as (d & ->). discriminate.
  - rewrite (l_free _ _ _ _ L r S H). apply nth_error_Some. apply shared_live; auto.
Qed.
Lemma one_snoc l c k o h e : one_by_one m ip6 l c -> known c k -> typed k -> kexec m ip6 k (k_heap c) = (o, h) -> comes_back o -> e = (k, o) ->
  one_by_one m ip6 (l ++ [e]) (learn c o h).
Proof. intros A B C D E ->. econstructor; eauto. Qed.
Lemma loud_args k : silent m ip6 k = false -> args k <> [].
Proof. unfold silent. intros S E. rewrite E in S. discriminate. Qed.

Lemma lin_start : lin [] w_start (fun r => r) [].
Proof.
  split.
  - exact (One_nil m ip6).
  - auto.
  - intros r [(x & [] & _)|(p & x & [] & _)].
  - intros r [(x & [] & _)|(p & x & [] & _)].
  - constructor.
  - intros [|i] k own t [=].
  - intros [|i] k own t [=].
  - intros [|i] k own t [=].
Qed.
Lemma lin_spawn log w g hs : lin log w g hs -> lin log (wspawn w) g hs.
Proof.
  destruct w as [c ts]. intros [Q I F H L K S M]. cbn [wspawn].
  assert (B : forall i k own t, busy (c, ts ++ [Idle]) i k own t -> busy (c, ts) i k own t).
  { intros i k own t. unfold busy. cbn [snd]. destruct (Nat.lt_ge_cases i (length ts)) as [X|X].
    - rewrite nth_error_app1 by auto. auto.
    - rewrite nth_error_app2 by auto. destruct (i - length ts)%nat as [|[|z]]; discriminate. }
  split; unfold w_heap in *; cbn [fst snd] in *; auto.
  - intros r Sr. rewrite held_spawn. auto.
  - intros r Sr. rewrite held_spawn. auto.
  - intros i k own t X. eapply K; eauto.
  - intros i k own t X. eapply S; eauto.
  - intros i k own t X. eapply M; eauto.
Qed.
Lemma lin_call log w g hs i k w' : lin log w g hs -> known (fst w) k -> atomic k -> wcall m ip6 w i k = Some w' -> lin log w' g hs.
Proof.
  destruct w as [c ts]. intros [Q I F H L K S M] Kn At E. cbn [wcall] in E. destruct (nth_error ts i) as [[|? ? ?]|] eqn:Ei; try discriminate.
  injection E as <-. split; unfold w_heap in *; cbn [fst snd] in *; auto.
  - intros r Sr. rewrite (held_swap _ _ _ _ r Ei) by reflexivity. auto.
  - intros r Sr. rewrite (held_swap _ _ _ _ r Ei) by reflexivity. auto.
  - intros j k1 own t B. apply upd_cases in B. destruct B as [(-> & [= -> -> ->])|(Ne & B)]; [auto|eapply K; eauto].
  - intros j k1 own t B. apply upd_cases in B. destruct B as [(-> & [= -> -> ->])|(Ne & B)]; [left; auto|eapply S; eauto].
  - intros j k1 own t B. apply upd_cases in B. destruct B as [(-> & [= -> -> ->])|(Ne & B)]; [auto|eapply M; eauto].
Qed.

(** A step that leaves everything shared as it is. *)
Lemma lin_quiet log w g hs i k own t h own' t' : lin log w g hs -> busy w i k own t ->
  (forall r, shared (fst w) r -> nth_error h r = nth_error (w_heap w) r) ->
  (forall r, holds r (Busy k own' t') = holds r (Busy k own t)) ->
  (silent m ip6 k = false -> nshape k t') ->
  (silent m ip6 k = true -> args k <> [] -> t' = TRun (a_kexec m ip6 k)) ->
  lin log (set_heap (fst w) h, upd (snd w) i (Busy k own' t')) g hs.
Proof.
  destruct w as [c ts]. unfold busy, w_heap. cbn [fst snd]. intros [Q I F H L K S M] B Sm Ho Sh Mu.
  split; unfold w_heap, busy in *; cbn [fst snd set_heap k_heap] in *; auto.
  - intros r Sr. rewrite (held_swap _ _ _ _ r B) by auto. intros X. rewrite (Sm r Sr). auto.
  - intros r Sr. rewrite (held_swap _ _ _ _ r B) by auto. auto.
  - intros j k1 own1 t1 B1. apply upd_cases in B1. destruct B1 as [(-> & [= -> -> ->])|(Ne & B1)]; [eapply (K i); eauto|eapply (K j); eauto].
  - intros j k1 own1 t1 B1. apply upd_cases in B1. destruct B1 as [(-> & [= -> -> ->])|(Ne & B1)]; [auto|eapply (S j); eauto].
  - intros j k1 own1 t1 B1. apply upd_cases in B1. destruct B1 as [(-> & [= -> -> ->])|(Ne & B1)]; [auto|eapply (M j); eauto].
Qed.

(** A step with which a call takes effect. *)
Lemma rename_plain g o : plain o -> rename_out g o = o.
Proof. destruct o as [[]| | | |]; cbn; auto; contradiction. Qed.
Lemma lin_commit log w g hs i k own t h own' o hs' : lin log w g hs -> busy w i k own t -> typed k -> silent m ip6 k = false ->
  plain o -> comes_back o -> kexec m ip6 (rename_call g k) hs = (o, hs') ->
  (forall r, shared (fst w) r -> held (upd (snd w) i (Busy k own' (TRun (ADone o)))) r = false -> nth_error hs' (g r) = nth_error h r) ->
  (forall r, shared (fst w) r -> held (upd (snd w) i (Busy k own' (TRun (ADone o)))) r = true -> exists d, nth_error hs' (g r) = Some (Cell d false)) ->
  lin (log ++ [(i, k, o)]) (set_heap (fst w) h, upd (snd w) i (Busy k own' (TRun (ADone o)))) g hs'.
Proof.
  destruct w as [c ts]. unfold busy, w_heap. cbn [fst snd]. intros [Q I F H L K S M] B T Si P Cb E Fr Hd.
  destruct (K i k own t B) as (Kn & At). cbn [fst] in Kn.
  split; unfold w_heap, busy in *; cbn [fst snd set_heap k_heap] in *; auto.
  - rewrite map_app. cbn [map]. replace (cmap g (set_heap c h) hs') with (learn (cmap g c hs) o hs').
    + eapply one_snoc; [exact Q|apply known_cmap; exact Kn|apply typed_rename; exact T|exact E|exact Cb|].
      cbn [renamed]. rewrite rename_plain; auto.
    + destruct o as [[]| | | |]; cbn [plain] in P; try contradiction; reflexivity.
  - apply Forall_app. split; [exact L|]. constructor; [|constructor]. split.
    + intros r R. exact (known_shared _ _ _ Kn R).
    + destruct o as [[]| | | |]; cbn [plain within] in *; auto; contradiction.
  - intros j k1 own1 t1 B1. apply upd_cases in B1. destruct B1 as [(-> & [= -> -> ->])|(Ne & B1)]; [eapply (K i); eauto|eapply (K j); eauto].
  - intros j k1 own1 t1 B1. apply upd_cases in B1. destruct B1 as [(-> & [= -> -> ->])|(Ne & B1)]; [right; right; eauto|eapply (S j); eauto].
  - intros j k1 own1 t1 B1. apply upd_cases in B1. destruct B1 as [(-> & [= -> -> ->])|(Ne & B1)]; [congruence|eapply (M j); eauto].
Qed.

Lemma leaves_step ts h p h' new o : leaves (fun v => plain (Ret v)) p -> tstep ts h (TRun p) = Some (h', new, TRun (ADone o)) -> plain o.
Proof.
  intros L E.
  assert (Pl : forall q o, leaves (fun v => plain (Ret v)) q -> q = ADone o -> plain o) by (intros q [v|e| | |] Lq ->; auto; exact I).
  assert (Lk : forall B (x : out B * heap) f, after x (fun b => TRun (f b)) = (h', new, TRun (ADone o)) ->
    (forall b, leaves (fun v => plain (Ret v)) (f b)) -> plain o).
  { intros B [[b|e| | |] h1] f A Lf; cbn [after] in A; injection A as _ _ A; try (rewrite <- A; exact I). eauto. }
  destruct p as [o1|d k|r j k|r j v k|r k|x y k]; cbn [tstep leaves] in *; try discriminate.
  - injection E as _ _ E. eauto.
  - destruct (held ts r); [discriminate|]. injection E as E. eapply Lk; eauto.
  - destruct (held ts r); [discriminate|]. injection E as E. eapply (Lk _ _ (fun _ => k)); eauto.
  - destruct (held ts r); [discriminate|]. injection E as E. eapply Lk; eauto.
  - destruct (held ts x); [discriminate|]. injection E as E.
    destruct (with_lock x _ h) as [[u|e| | |] h1]; cbn [after] in E; try discriminate; injection E as _ _ <-; exact I.
Qed.

Lemma no_short k : args k <> [] -> ~ short_from k.
Proof. intros A Z. destruct k; contradiction. Qed.

Lemma lin_loud log w g hs i k own h new o : winv m ip6 w -> lin log w g hs -> busy w i k own (TRun (a_kexec m ip6 k)) ->
  silent m ip6 k = false -> replaces k = false -> (budget k <= 1)%nat ->
  tstep (snd w) (w_heap w) (TRun (a_kexec m ip6 k)) = Some (h, new, TRun (ADone o)) -> comes_back o ->
  exists hs', lin (log ++ [(i, k, o)]) (set_heap (fst w) h, upd (snd w) i (Busy k (own ++ new) (TRun (ADone o)))) g hs'.
Proof.
  intros V L B Si Rp Bu St Cb. pose proof (loud_args _ Si) as A. pose proof (no_short _ A) as Z. pose proof (inv_client _ _ _ V) as C.
  pose proof (inv_tok _ _ _ V _ _ _ _ B) as T. destruct (l_known _ _ _ _ L _ _ _ _ B) as (Kn & _).
  pose proof (tok_typed _ _ _ _ _ _ T) as Ty. pose proof (leaves_plain m ip6 k A (or_introl Bu) Si) as Le.
  set (rho := unlike k (length (w_heap w)) (length hs) g).
  assert (R : rl (parses k) false rho (vrel rho) (a_kexec m ip6 k) (a_kexec m ip6 (rename_call g k))).
  { rewrite <- Rp. eapply rl_rename; eauto. intros r X. left. auto. }
  destruct (step_both _ _ _ _ _ _ _ _ _ hs R Le (or_intror (conj eq_refl eq_refl)) St) as (hs' & E & Bo).
  { intros r r' [(X & ->)|(-> & ->)] Hr.
    - apply (l_free _ _ _ _ L); auto. apply (tok_args _ _ _ _ _ _ T). exact X.
    - rewrite !(proj2 (nth_error_None _ _)); auto. }
  { apply C. }
  assert (E' : kexec m ip6 (rename_call g k) hs = (o, hs')) by (rewrite <- sim_kexec; exact E).
  exists hs'. eapply lin_commit; eauto.
  - eapply leaves_step; eauto.
  - intros r Sr. rewrite (held_swap _ _ _ _ r B) by reflexivity. intros Hr. pose proof (l_free _ _ _ _ L r Sr Hr) as X.
    pose proof (shared_live _ _ C Sr) as Lr. pose proof (l_live _ _ _ _ _ C L Sr) as Lg.
    destruct Bo as [(-> & ->)|[(cl & -> & ->)|(q & q' & cl & [(Q & ->)|(-> & ->)] & Hq & -> & ->)]]; [exact X|..].
    + unfold w_heap in *. rewrite !nth_error_app1 by auto. exact X.
    + destruct (Nat.eq_dec r q) as [->|Ne]; [apply upd_at; auto|].
      rewrite !upd_other; auto. intros G. apply Ne. apply (l_inj _ _ _ _ L); auto. apply (tok_args _ _ _ _ _ _ T). exact Q.
    + unfold w_heap in *. rewrite !upd_other by lia. exact X.
  - intros r Sr. rewrite (held_swap _ _ _ _ r B) by reflexivity. intros Hr. destruct (l_held _ _ _ _ L r Sr Hr) as (d & X). exists d.
    pose proof (l_live _ _ _ _ _ C L Sr) as Lg.
    destruct Bo as [(-> & ->)|[(cl & -> & ->)|(q & q' & cl & [(Q & ->)|(-> & ->)] & Hq & -> & ->)]]; [exact X|..].
    + rewrite nth_error_app1; auto.
    + rewrite upd_other; auto. intros G. assert (r = q) by (apply (l_inj _ _ _ _ L); auto; apply (tok_args _ _ _ _ _ _ T); exact Q). congruence.
    + rewrite upd_other by lia. exact X.
Qed.

(** [replace]: the first step only takes the lock, as far as the others can see. *)
Lemma kexec_replace a b h : kexec m ip6 (K_hdr (OReplace a b)) h =
  match nth_error h (h_ref a), nth_error h (h_ref b) with
  | Some ca, Some cb =>
      if c_poisoned ca then (Panic PPoison, h)
      else if (h_ref a =? h_ref b)%nat then (Hang, upd h (h_ref a) (Cell [] false))
      else if c_poisoned cb then (Panic PPoison, upd h (h_ref a) (Cell [] true))
      else (Ret (KVal VUnit), upd h (h_ref a) (Cell (c_data cb) false))
  | _, _ => (UB, h)
  end.
Proof.
  cbn [kexec hexec]. unfold bind, hreplace, ret. destruct (nth_error h (h_ref a)) as [ca|]; [|reflexivity]. destruct (nth_error h (h_ref b)) as [cb|]; [|reflexivity].
  destruct (c_poisoned ca); [reflexivity|]. destruct (h_ref a =? h_ref b)%nat; [reflexivity|]. destruct (c_poisoned cb); reflexivity.
Qed.
Lemma lin_replace1 log w g hs i a b own h new t' : winv m ip6 w -> lin log w g hs ->
  busy w i (K_hdr (OReplace a b)) own (TRun (a_kexec m ip6 (K_hdr (OReplace a b)))) ->
  tstep (snd w) (w_heap w) (TRun (a_kexec m ip6 (K_hdr (OReplace a b)))) = Some (h, new, t') ->
  exists hs', lin (log ++ effect m ip6 i (K_hdr (OReplace a b)) t') (set_heap (fst w) h, upd (snd w) i (Busy (K_hdr (OReplace a b)) (own ++ new) t')) g hs'.
Proof.
  intros V L B St. pose proof (inv_client _ _ _ V) as C. pose proof (inv_tok _ _ _ V _ _ _ _ B) as T.
  change (a_kexec m ip6 (K_hdr (OReplace a b))) with (ARepl (h_ref a) (h_ref b) (ADone (Ret (KVal VUnit)))) in *. cbn [tstep] in St.
  destruct (held (snd w) (h_ref a)) eqn:Ha; [discriminate|]. injection St as St.
  assert (Sa : shared (fst w) (h_ref a)) by (apply (tok_args _ _ _ _ _ _ T); left; auto).
  assert (Sb : shared (fst w) (h_ref b)) by (apply (tok_args _ _ _ _ _ _ T); right; left; auto).
  pose proof (l_free _ _ _ _ L _ Sa Ha) as Fa.
  unfold with_lock in St. destruct (nth_error (w_heap w) (h_ref a)) as [ca|] eqn:Ea.
  2: { exfalso. apply nth_error_None in Ea. pose proof (shared_live _ _ C Sa). unfold w_heap in Ea. lia. }
  destruct (c_poisoned ca) eqn:Pa; cbn [after] in St; injection St as <- <- <-.
  - exists hs. cbn [effect]. change (silent m ip6 (K_hdr (OReplace a b))) with false. cbn iota. eapply lin_commit; eauto.
    + apply (tok_typed _ _ _ _ _ _ T).
    + reflexivity.
    + right; eauto.
    + rewrite <- (kexec_replace (rename_hdr g a) (rename_hdr g b) hs) at 1 || (cbn [rename_call rename_hop]; rewrite kexec_replace).
      cbn [rename_hdr h_ref]. rewrite Fa. pose proof (l_live _ _ _ _ _ C L Sb) as Lb. apply nth_error_Some in Lb.
      destruct (nth_error hs (g (h_ref b))); [|contradiction]. rewrite Pa. reflexivity.
    + intros r Sr. rewrite (held_swap _ _ _ _ r B) by reflexivity. apply (l_free _ _ _ _ L). exact Sr.
    + intros r Sr. rewrite (held_swap _ _ _ _ r B) by reflexivity. apply (l_held _ _ _ _ L). exact Sr.
  - exists hs. cbn [effect]. rewrite app_nil_r. destruct w as [c ts]. unfold busy, w_heap in *. cbn [fst snd] in *.
    destruct L as [Q I F H Lg K S M]. split; unfold w_heap, busy in *; cbn [fst snd set_heap k_heap] in *; auto.
    + intros r Sr Hr. destruct (Nat.eq_dec r (h_ref a)) as [->|Ne].
      * exfalso. assert (X : held (upd ts i (Busy (K_hdr (OReplace a b)) (own ++ []) (TWait (h_ref a) (h_ref b) (ADone (Ret (KVal VUnit)))))) (h_ref a) = true).
        { eapply held_true. eapply nth_upd_at; eauto. } congruence.
      * rewrite upd_other by auto. apply F; auto. rewrite <- Hr. symmetry. apply (held_swap _ _ _ _ r B). cbn [holds].
        apply Nat.eqb_neq. auto.
    + intros r Sr Hr. destruct (Nat.eq_dec r (h_ref a)) as [->|Ne].
      * exists (c_data ca). rewrite Fa. destruct ca as [d p]. cbn [c_poisoned] in Pa. subst p. reflexivity.
      * apply H; auto. rewrite <- Hr. symmetry. apply (held_swap _ _ _ _ r B). cbn [holds]. apply Nat.eqb_neq. auto.
    + intros j k1 own1 t1 B1. apply upd_cases in B1. destruct B1 as [(-> & [= -> -> ->])|(Ne & B1)]; [exact (K i _ _ _ B)|exact (K j _ _ _ B1)].
    + intros j k1 own1 t1 B1. apply upd_cases in B1. destruct B1 as [(-> & [= -> -> ->])|(Ne & B1)]; [right; left; eauto|eapply (S j); eauto].
    + intros j k1 own1 t1 B1. apply upd_cases in B1. destruct B1 as [(-> & [= -> -> ->])|(Ne & B1)]; [discriminate|eapply (M j); eauto].
Qed.
Lemma lin_replace2 log w g hs i a b own h new t' : winv m ip6 w -> lin log w g hs ->
  busy w i (K_hdr (OReplace a b)) own (TWait (h_ref a) (h_ref b) (ADone (Ret (KVal VUnit)))) ->
  tstep (snd w) (w_heap w) (TWait (h_ref a) (h_ref b) (ADone (Ret (KVal VUnit)))) = Some (h, new, t') ->
  exists hs', lin (log ++ effect m ip6 i (K_hdr (OReplace a b)) t') (set_heap (fst w) h, upd (snd w) i (Busy (K_hdr (OReplace a b)) (own ++ new) t')) g hs'.
Proof.
  intros V L B St. pose proof (inv_client _ _ _ V) as C. pose proof (inv_tok _ _ _ V _ _ _ _ B) as T. cbn [tstep] in St.
  destruct (held (snd w) (h_ref b)) eqn:Hb; [discriminate|].
  assert (Sa : shared (fst w) (h_ref a)) by (apply (tok_args _ _ _ _ _ _ T); left; auto).
  assert (Sb : shared (fst w) (h_ref b)) by (apply (tok_args _ _ _ _ _ _ T); right; left; auto).
  pose proof (held_true _ _ _ _ _ _ _ B) as Ha. pose proof (l_free _ _ _ _ L _ Sb Hb) as Fb.
  destruct (l_held _ _ _ _ L _ Sa Ha) as (d & Fa). pose proof (tok_wait _ _ _ _ _ _ T _ _ _ eq_refl) as Ea.
  change (k_heap (fst w)) with (w_heap w) in Ea. rewrite Ea in St.
  destruct (nth_error (w_heap w) (h_ref b)) as [cb|] eqn:Eb.
  2: { exfalso. apply nth_error_None in Eb. pose proof (shared_live _ _ C Sb). unfold w_heap in Eb. lia. }
  assert (Nab : h_ref a <> h_ref b) by (intros X; rewrite X in Ha; congruence).
  assert (Ng : g (h_ref a) <> g (h_ref b)) by (intros X; apply Nab; apply (l_inj _ _ _ _ L); auto).
  assert (Kx : kexec m ip6 (rename_call g (K_hdr (OReplace a b))) hs =
    if c_poisoned cb then (Panic PPoison, upd hs (g (h_ref a)) (Cell [] true)) else (Ret (KVal VUnit), upd hs (g (h_ref a)) (Cell (c_data cb) false))).
  { cbn [rename_call rename_hop]. rewrite kexec_replace. cbn [rename_hdr h_ref]. rewrite Fa, Fb. cbn [c_poisoned].
    rewrite (proj2 (Nat.eqb_neq _ _) Ng). reflexivity. }
  assert (Hold : forall t1 r, (forall q, holds q (Busy (K_hdr (OReplace a b)) (own ++ []) t1) = false) -> r <> h_ref a ->
    held (upd (snd w) i (Busy (K_hdr (OReplace a b)) (own ++ []) t1)) r = held (snd w) r).
  { intros t1 r X Ne. apply (held_swap _ _ _ _ r B). rewrite X. cbn [holds]. symmetry. apply Nat.eqb_neq. auto. }
  assert (Hfree : forall t1, (forall q, holds q (Busy (K_hdr (OReplace a b)) (own ++ []) t1) = false) ->
    held (upd (snd w) i (Busy (K_hdr (OReplace a b)) (own ++ []) t1)) (h_ref a) = false).
  { intros t1 X. destruct (held (upd _ _ _) _) eqn:E; auto. exfalso. apply held_inv in E. destruct E as (j & k1 & own1 & y & p & J).
    apply upd_cases in J. destruct J as [(-> & J)|(Ne & J)].
    - specialize (X (h_ref a)). rewrite <- J in X. cbn [holds] in X. rewrite Nat.eqb_refl in X. discriminate.
    - apply Ne. eapply (inv_wait _ _ _ V); eauto. }
  assert (Lg : (g (h_ref a) < length hs)%nat) by (apply nth_error_Some; congruence).
  assert (La : (h_ref a < length (w_heap w))%nat) by (apply nth_error_Some; congruence).
  assert (Cells : forall o cl, 
    (forall r, shared (fst w) r -> held (upd (snd w) i (Busy (K_hdr (OReplace a b)) (own ++ []) (TRun (ADone o)))) r = false ->
       nth_error (upd hs (g (h_ref a)) cl) (g r) = nth_error (upd (w_heap w) (h_ref a) cl) r) /\
    (forall r, shared (fst w) r -> held (upd (snd w) i (Busy (K_hdr (OReplace a b)) (own ++ []) (TRun (ADone o)))) r = true ->
       exists d, nth_error (upd hs (g (h_ref a)) cl) (g r) = Some (Cell d false))).
  { intros o cl. split; intros r Sr Hr.
    - destruct (Nat.eq_dec r (h_ref a)) as [->|Ne].
      + rewrite !nth_error_upd, !Nat.eqb_refl. rewrite (proj2 (Nat.ltb_lt _ _) Lg), (proj2 (Nat.ltb_lt _ _) La). reflexivity.
      + rewrite Hold in Hr by auto. rewrite !upd_other; auto; [apply (l_free _ _ _ _ L); auto|]. intros X. apply Ne. apply (l_inj _ _ _ _ L); auto.
    - destruct (Nat.eq_dec r (h_ref a)) as [->|Ne]; [rewrite Hfree in Hr by auto; discriminate|].
      rewrite Hold in Hr by auto. destruct (l_held _ _ _ _ L r Sr Hr) as (d1 & X). exists d1. rewrite upd_other; auto.
      intros Y. apply Ne. apply (l_inj _ _ _ _ L); auto. }
  destruct (c_poisoned cb) eqn:Pb; injection St as <- <- <-; cbn [effect]; change (silent m ip6 (K_hdr (OReplace a b))) with false; cbn iota;
    (eexists; eapply lin_commit; [exact L|exact B|apply (tok_typed _ _ _ _ _ _ T)|reflexivity|exact I| |exact Kx|apply Cells|apply Cells]).
  - right; eauto.
  - left; eauto.
Qed.

Lemma lin_do log w g hs i w' k own t : wreach m ip6 w -> lin log w g hs -> wdo w i = Some w' -> busy w' i k own t ->
  exists hs', lin (log ++ effect m ip6 i k t) w' g hs'.
Proof.
  intros R L E B'. pose proof (inv_reach _ _ _ O6 R) as V. pose proof (inv_do _ _ _ _ _ V E) as V'. pose proof (inv_client _ _ _ V) as C.
  destruct (wdo_inv _ _ _ E) as (k0 & own0 & t0 & h & new & t' & B & St & ->). unfold busy in B'. cbn [snd] in B'.
  rewrite (nth_upd_at _ _ _ _ B) in B'. injection B' as <- <- <-.
  pose proof (inv_tok _ _ _ V _ _ _ _ B) as T.
  destruct (silent m ip6 k0) eqn:Si.
  - exists hs. assert (Ef : effect m ip6 i k0 t' = []) by (unfold effect; rewrite Si; destruct t' as [[]|]; reflexivity). rewrite Ef, app_nil_r.
    destruct (wdo_change _ _ _ _ _ _ _ _ _ _ V B St) as (Z & Ch & G).
    assert (A : args k0 = []).
    { destruct (args k0) eqn:A; auto. exfalso. assert (A' : args k0 <> []) by congruence. rewrite (l_mute _ _ _ _ L _ _ _ _ B Si A') in St. unfold silent in Si.
      rewrite A in Si. destruct (a_kexec m ip6 k0); try discriminate. }
    assert (Rp : replaces k0 = false) by (destruct k0; auto; destruct o; auto; discriminate).
    eapply lin_quiet; eauto.
    + intros r Sr. eapply change_other; eauto; [apply shared_live; auto|]. rewrite A. cbn [app]. intros X.
      apply (tok_own _ _ _ _ _ _ T) in X. destruct X as (_ & X). apply X. exact Sr.
    + intros r. assert (N1 : forall x o p, t' <> TWait x o p).
      { intros x o p ->. destruct (G _ (on_refl _)) as (X & _). congruence. }
      assert (N0 : forall x o p, t0 <> TWait x o p).
      { intros x o p ->. destruct (tok_good _ _ _ _ _ _ T Z _ (on_refl _)) as (X & _). congruence. }
      destruct t' as [p|x o p]; [|destruct (N1 x o p eq_refl)]. destruct t0 as [q|x o q]; [|destruct (N0 x o q eq_refl)]. reflexivity.
    + congruence.
    + intros _ X. contradiction.
  - destruct (l_known _ _ _ _ L _ _ _ _ B) as (Kn & At). pose proof (loud_args _ Si) as A.
    destruct (l_loud _ _ _ _ L _ _ _ _ B Si) as [->|[(a & b & -> & ->)|(o & -> & _)]].
    + destruct (replaces k0) eqn:Rp.
      * destruct k0; try discriminate. destruct o; try discriminate. eapply lin_replace1; eauto.
      * destruct At as [At|[At|At]]; [contradiction| |congruence].
        destruct (one_step _ _ _ _ _ _ _ _ At St) as (o & ->). cbn [effect]. rewrite Si.
        eapply lin_loud; eauto.
        destruct (fin_outcome m ip6 (set_heap (fst w) h, upd (snd w) i (Busy k0 (own0 ++ new) (TRun (ADone o)))) i k0 (own0 ++ new) o O6 V') as [(X & _)|(_ & X)]; auto.
        -- unfold busy. cbn [snd]. eapply nth_upd_at; eauto.
        -- destruct (no_short _ A X).
    + eapply lin_replace2; eauto.
    + discriminate.
Qed.

(** Coming back. *)
Lemma wback_learn w i w' k own o : busy w i k own (TRun (ADone o)) -> wback w i = Some w' ->
  comes_back o /\ w' = (learn (fst w) o (w_heap w), upd (snd w) i Idle).
Proof.
  destruct w as [[h ch cp cs cl] ts]. unfold busy, w_heap. cbn [snd fst wback]. intros ->. destruct o; try discriminate; intros [= <-].
  - split; [left; eauto|reflexivity].
  - split; [right; eauto|reflexivity].
Qed.
Fixpoint idx (l : list nat) (r : nat) : nat :=
  match l with [] => O | a :: t => if (a =? r)%nat then O else S (idx t r) end.
Lemma idx_nth l j r : NoDup l -> nth_error l j = Some r -> idx l r = j.
Proof.
  intros D. revert j. induction D as [|a l N' D IH]; intros [|j] E; try discriminate; cbn [nth_error idx] in *.
  - injection E as ->. rewrite Nat.eqb_refl. reflexivity.
  - destruct (Nat.eqb_spec a r) as [->|Ne]; [exfalso; apply N'; eapply nth_error_In; eauto|]. f_equal. auto.
Qed.
Lemma log_more c o h log : Forall (in_log c) log -> Forall (in_log (learn c o h)) log.
Proof.
  apply Forall_impl. intros [[i k] u] (A & B). split.
  - intros r R. apply learn_more. auto.
  - eapply within_imp; [|exact B]. intros r. apply learn_more.
Qed.
Lemma renamed_ext c f g log : Forall (in_log c) log -> (forall r, shared c r -> f r = g r) -> map (renamed f) log = map (renamed g) log.
Proof.
  intros L E. apply map_ext_in. intros e X. eapply Forall_forall in L; [|exact X]. destruct e as [[i k] o]. destruct L as (A & B).
  cbn [renamed]. f_equal; [apply rename_call_ext; auto|apply rename_out_ext]. eapply within_imp; [|exact B]. auto.
Qed.

Lemma lin_home log w g hs i k own o log' g' hs' : lin log w g hs -> busy w i k own (TRun (ADone o)) ->
  (forall r, shared (learn (fst w) o (w_heap w)) r -> held (snd w) r = false -> nth_error hs' (g' r) = nth_error (w_heap w) r) ->
  (forall r, shared (learn (fst w) o (w_heap w)) r -> held (snd w) r = true -> exists d, nth_error hs' (g' r) = Some (Cell d false)) ->
  (forall r q, shared (learn (fst w) o (w_heap w)) r -> shared (learn (fst w) o (w_heap w)) q -> g' r = g' q -> r = q) ->
  one_by_one m ip6 (map (renamed g') log') (cmap g' (learn (fst w) o (w_heap w)) hs') ->
  Forall (in_log (learn (fst w) o (w_heap w))) log' ->
  lin log' (learn (fst w) o (w_heap w), upd (snd w) i Idle) g' hs'.
Proof.
  destruct w as [c ts]. unfold busy, w_heap. cbn [fst snd]. intros [Q I F H L K S M] B Fr Hd In' Sq Lg.
  assert (Hh : k_heap (learn c o (k_heap c)) = k_heap c) by (destruct o as [[]| | | |]; reflexivity).
  split; unfold w_heap, busy in *; cbn [fst snd] in *; auto.
  - intros r Sr. rewrite (held_swap _ _ _ _ r B) by reflexivity. rewrite Hh. auto.
  - intros r Sr. rewrite (held_swap _ _ _ _ r B) by reflexivity. auto.
  - intros j k1 own1 t1 B1. apply upd_cases in B1. destruct B1 as [(_ & [=])|(Ne & B1)]. destruct (K j _ _ _ B1). split; auto using known_more.
  - intros j k1 own1 t1 B1. apply upd_cases in B1. destruct B1 as [(_ & [=])|(Ne & B1)]. eapply (S j); eauto.
  - intros j k1 own1 t1 B1. apply upd_cases in B1. destruct B1 as [(_ & [=])|(Ne & B1)]. eapply (M j); eauto.
Qed.
Lemma plain_shared c o h r : plain o -> shared (learn c o h) r -> shared c r.
Proof. destruct o as [[]| | | |]; cbn [plain]; try contradiction; intros _ S; exact S. Qed.
Lemma shared_cmap c o h r (S : nat -> Prop) : within S o -> shared (learn c o h) r -> shared c r \/ S r.
Proof.
  destruct o as [[]| | | |]; cbn [within learn]; intros W X; try (left; exact X).
  - destruct X as [(y & [<-|X] & <-)|X]; [auto|left; left; eauto|left; right; exact X].
  - destruct X as [X|(q & y & [<-|Q] & X & <-)]; [left; left; exact X|auto|left; right; exists q, y; auto].
Qed.
Lemma within_learn (S : nat -> Prop) c o h : (forall r, S r -> shared c r) -> within S o -> within (shared (learn c o h)) o.
Proof. intros H W. eapply within_imp; [|exact W]. intros r X. apply learn_more. auto. Qed.
Lemma learned c o h : within (shared (learn c o h)) o.
Proof. destruct o as [[]| | | |]; cbn [within learn]; auto; [left|right]; eauto using in_eq. Qed.

(** A call without buffers, made by the single thread. *)
Lemma fresh_again c k o0 h0 hs : client_ok c -> known c k -> typed k -> args k = [] -> ~ short_from k -> kexec m ip6 k [] = (o0, h0) -> comes_back o0 ->
  exists h1, kexec m ip6 k hs = (rename_out (fun r => length hs + r)%nat o0, h1) /\
  (forall r, (r < length hs)%nat -> nth_error h1 r = nth_error hs r) /\
  (forall r, nth_error h1 (length hs + r) = nth_error h0 r).
Proof.
  intros C K T A Z E Cb. set (At := at_ 0 (length hs) (fun _ => False) (fun r => r)).
  assert (Al : alike 0 (length hs) (fun _ => False) (fun r => r) [] hs).
  { split; cbn; try lia; [|constructor]. intros r r' ([[]|_] & ->). unfold carry. cbn. rewrite (proj2 (nth_error_None hs _)) by lia. symmetry. apply nth_error_None. cbn. lia. }
  destruct (rl_solo 0 (length hs) (fun _ => False) (fun r => r)) with (fu := parses k) (rp := replaces k) (Q := vrel At) (p := a_kexec m ip6 k) (p' := a_kexec m ip6 k) (h := @nil cell) (h' := hs)
    as (o & h & o' & h' & E1 & E2 & O & Al' & Ke & Ke'); try (intros ? []); auto.
  { apply rl_call with (c := c); auto. rewrite A. intros r []. }
  rewrite sim_kexec in E1, E2. rewrite E in E1. injection E1 as <- <-. exists h'. split; [|split].
  - rewrite E2. f_equal. destruct Cb as [(v & ->)|(e & ->)]; destruct o'; cbn [oel rename_out] in *; try contradiction; [|congruence].
    f_equal. eapply vrel_carry; [|exact O]. intros r r' (_ & ->). unfold carry. cbn. lia.
  - intros r Lr. apply Ke'. intros q ([[]|_] & X). unfold carry in X. cbn in X. lia.
  - intros r. apply (al_eq _ _ _ _ _ _ Al'). split; [right; lia|]. unfold carry. cbn. lia.
Qed.
Lemma lin_back log w g hs i k own o w' : wreach m ip6 w -> lin log w g hs -> busy w i k own (TRun (ADone o)) -> wback w i = Some w' ->
  exists g' hs', lin (log ++ (if silent m ip6 k then [(i, k, o)] else [])) w' g' hs'.
Proof.
  intros R L B E. pose proof (inv_reach _ _ _ O6 R) as V. pose proof (inv_client _ _ _ V) as C. pose proof (inv_tok _ _ _ V _ _ _ _ B) as T.
  destruct (wback_learn _ _ _ _ _ _ B E) as (Cb & ->). destruct (l_known _ _ _ _ L _ _ _ _ B) as (Kn & At).
  pose proof (tok_typed _ _ _ _ _ _ T) as Ty.
  assert (Z : ~ short_from k).
  { intros Z. pose proof (tok_short _ _ _ _ _ _ T Z) as X. injection X as ->. destruct Cb as [(v & [=])|(e & [=])]. }
  destruct (silent m ip6 k) eqn:Si.
  2: { exists g, hs. rewrite app_nil_r.
       assert (P : plain o).
       { pose proof (loud_args _ Si) as A. destruct (l_loud _ _ _ _ L _ _ _ _ B Si) as [X|[(a & b & _ & [=])|(o' & [= ->] & P)]]; auto.
         exfalso. unfold silent in Si. destruct (args k); [contradiction|]. injection X as X. rewrite <- X in Si. discriminate. }
       assert (Sh : forall r, shared (learn (fst w) o (w_heap w)) r -> shared (fst w) r) by (intros r; apply plain_shared; exact P).
       eapply lin_home; eauto.
       - intros r Sr. apply (l_free _ _ _ _ L). auto.
       - intros r Sr. apply (l_held _ _ _ _ L). auto.
       - intros r q Sr Sq. apply (l_inj _ _ _ _ L); auto.
       - replace (cmap g (learn (fst w) o (w_heap w)) hs) with (cmap g (fst w) hs); [apply (l_seq _ _ _ _ L)|].
         destruct o as [[]| | | |]; cbn [plain] in P; try contradiction; reflexivity.
       - apply log_more. apply (l_log _ _ _ _ L). }
  destruct (args k) eqn:A.
  - (* a call without buffers *)
    pose proof (tok_mirror _ _ _ _ _ _ T Z A) as Mi.
    destruct (fin_mirror _ _ _ _ _ _ _ Mi) as (o0 & h0 & Ek & Len & Nm & O). cbn [length Nat.add] in *.
    assert (Nj : forall r j, names 0 (args k) own r j -> nth_error own j = Some r).
    { intros r j [(_ & X)|(j' & X & ->)]; [rewrite A in X; destruct X|exact X]. }
    assert (Cb0 : comes_back o0).
    { destruct Cb as [(v & ->)|(e & ->)]; destruct o0; cbn [orl] in O; try contradiction; [left; eauto|right; eauto]. }
    destruct (fresh_again (fst w) k o0 h0 hs C Kn Ty A Z Ek Cb0) as (h1 & Es & Old & New).
    set (g' := fun r => if in_dec Nat.eq_dec r own then (length hs + idx own r)%nat else g r).
    assert (Go : forall j r, nth_error own j = Some r -> g' r = (length hs + j)%nat).
    { intros j r J. unfold g'. destruct (in_dec Nat.eq_dec r own) as [_|X]; [|exfalso; apply X; eapply nth_error_In; eauto].
      rewrite (idx_nth _ _ _ (tok_nodup _ _ _ _ _ _ T) J). reflexivity. }
    assert (Gs : forall r, shared (fst w) r -> g' r = g r).
    { intros r Sr. unfold g'. destruct (in_dec Nat.eq_dec r own) as [X|_]; [|reflexivity].
      apply (tok_own _ _ _ _ _ _ T) in X. destruct X as (_ & X). destruct (X Sr). }
    assert (W : within (fun r => In r own) o).
    { destruct Cb as [(v & ->)|(e & ->)]; [|exact I]. destruct o0 as [v0| | | |]; cbn [orl] in O; try contradiction.
      pose proof (tok_good _ _ _ _ _ _ T Z _ (on_refl _)) as G. cbn [rl orl] in G. rewrite A in G. cbn [app] in G.
      eapply rl_within with (v' := v). exact G. }
    assert (Ro : rename_out (fun r => (length hs + r)%nat) o0 = rename_out g' o).
    { destruct Cb as [(v & ->)|(e & ->)]; destruct o0 as [v0|e0| | |]; cbn [orl rename_out] in *; try contradiction; [|congruence].
      f_equal. assert (v0 = rename (idx own) v) as ->.
      { eapply vrel_carry; [|exact O]. intros r j X. symmetry. apply idx_nth; [apply (tok_nodup _ _ _ _ _ _ T)|auto]. }
      pose proof (rename_out_comp (fun r => (length hs + r)%nat) (idx own) (Ret v)) as X. cbn [rename_out] in X. injection X as X. rewrite X.
      pose proof (rename_out_ext (fun r => (length hs + idx own r)%nat) g' (Ret v)) as Y. cbn [rename_out] in Y.
      assert (Y' : Ret (rename (fun r => (length hs + idx own r)%nat) v) = Ret (rename g' v)).
      { apply Y. eapply within_imp; [|exact W]. intros r Q. cbn beta. unfold g'. destruct (in_dec Nat.eq_dec r own); [reflexivity|contradiction]. }
      injection Y' as Y'. exact Y'. }
    exists g', h1.
    assert (Free : forall r, In r own -> held (snd w) r = false).
    { intros r Q. destruct (held (snd w) r) eqn:H; auto. exfalso. apply held_inv in H. destruct H as (j & k1 & own1 & y & p & J).
      destruct (wait_call _ _ _ _ _ _ _ _ _ O6 R J) as (a & b & -> & X & _). apply (tok_own _ _ _ _ _ _ T) in Q. destruct Q as (_ & Q). apply Q.
      pose proof (inv_tok _ _ _ V _ _ _ _ J) as T1. apply (tok_args _ _ _ _ _ _ T1). left. exact X. }
    assert (Cases : forall r, shared (learn (fst w) o (w_heap w)) r -> shared (fst w) r \/ In r own) by (intros r Sr; exact (shared_cmap _ _ _ _ (fun r => In r own) W Sr)).
    eapply lin_home; eauto.
    + intros r Sr Hr. destruct (Cases r Sr) as [S1|S1].
      * rewrite (Gs r S1), Old by (eapply l_live; eauto). apply (l_free _ _ _ _ L); auto.
      * apply In_nth_error in S1. destruct S1 as (j & J). rewrite (Go _ _ J), New. apply Nm. right. exists j. auto.
    + intros r Sr Hr. destruct (Cases r Sr) as [S1|S1]; [|rewrite (Free r S1) in Hr; discriminate].
      rewrite (Gs r S1), Old by (eapply l_live; eauto). apply (l_held _ _ _ _ L); auto.
    + intros r q Sr Sq Eq. destruct (Cases r Sr) as [S1|S1], (Cases q Sq) as [S2|S2].
      * rewrite (Gs r S1), (Gs q S2) in Eq. apply (l_inj _ _ _ _ L); auto.
      * apply In_nth_error in S2. destruct S2 as (j & J). rewrite (Gs r S1), (Go _ _ J) in Eq. pose proof (l_live _ _ _ _ _ C L S1). lia.
      * apply In_nth_error in S1. destruct S1 as (j & J). rewrite (Gs q S2), (Go _ _ J) in Eq. pose proof (l_live _ _ _ _ _ C L S2). lia.
      * apply In_nth_error in S1. destruct S1 as (j & J). apply In_nth_error in S2. destruct S2 as (j' & J').
        rewrite (Go _ _ J), (Go _ _ J') in Eq. assert (j = j') by lia. subst j'. congruence.
    + rewrite map_app. cbn [map renamed]. rewrite (renamed_ext _ g' g _ (l_log _ _ _ _ L) Gs).
      rewrite <- (learn_cmap g' (fst w) hs (w_heap w) h1 o). rewrite (cmap_ext g' g _ _ Gs).
      rewrite <- Ro. eapply one_snoc; [apply (l_seq _ _ _ _ L)| | | | |].
      * apply known_cmap. exact Kn.
      * apply typed_rename. exact Ty.
      * cbn [cmap k_heap]. assert (X : rename_call g k = k) by (rewrite <- (rename_call_id k) at 2; apply rename_call_ext; rewrite A; intros r []).
        rewrite X. exact Es.
      * destruct Cb0 as [(v & ->)|(e & ->)]; [left|right]; cbn; eauto.
      * f_equal. apply rename_call_ext. rewrite A. intros r [].
    + apply Forall_app. split; [apply log_more; apply (l_log _ _ _ _ L)|]. constructor; [|constructor]. split; [rewrite A; intros r []|apply learned].
  - (* a call without steps *)
    assert (A' : args k <> []) by congruence. pose proof (l_mute _ _ _ _ L _ _ _ _ B Si A') as Ea. injection Ea as Ea. symmetry in Ea.
    set (rho := fun r r' => In r (args k) /\ r' = g r).
    assert (Rl : rl (parses k) (replaces k) rho (vrel rho) (a_kexec m ip6 k) (a_kexec m ip6 (rename_call g k))).
    { eapply rl_rename; eauto. intros r X. split; auto. }
    rewrite Ea in Rl. destruct (a_kexec m ip6 (rename_call g k)) as [o'| | | | |] eqn:Ea'; cbn [rl] in Rl; try contradiction.
    assert (Ro : o' = rename_out g o).
    { destruct Cb as [(v & ->)|(e & ->)]; destruct o'; cbn [orl rename_out] in *; try contradiction; [|congruence].
      f_equal. eapply vrel_carry; [|exact Rl]. intros r r' (_ & X). exact X. }
    assert (W : within (shared (fst w)) o).
    { destruct Cb as [(v & ->)|(e & ->)]; [|exact I]. pose proof (rl_call m ip6 (fst w) k (on (args k)) O6 C Kn Ty Z (on_refl _)) as G.
      rewrite Ea in G. cbn [rl orl] in G. eapply within_imp; [|eapply rl_within with (v' := v); exact G]. intros r X. apply (tok_args _ _ _ _ _ _ T). exact X. }
    exists g, hs.
    assert (Cases : forall r, shared (learn (fst w) o (w_heap w)) r -> shared (fst w) r).
    { intros r Sr. destruct (shared_cmap _ _ _ _ _ W Sr); auto. }
    eapply lin_home; eauto.
    + intros r Sr. apply (l_free _ _ _ _ L). auto.
    + intros r Sr. apply (l_held _ _ _ _ L). auto.
    + intros r q Sr Sq. apply (l_inj _ _ _ _ L); auto.
    + rewrite map_app. cbn [map renamed]. rewrite <- (learn_cmap g (fst w) hs (w_heap w) hs o). eapply one_snoc; [apply (l_seq _ _ _ _ L)| | | | |reflexivity].
      * apply known_cmap. exact Kn.
      * apply typed_rename. exact Ty.
      * cbn [cmap k_heap]. rewrite <- sim_kexec, Ea', Ro. reflexivity.
      * destruct Cb as [(v & ->)|(e & ->)]; [left|right]; cbn; eauto.
    + apply Forall_app. split; [apply log_more; apply (l_log _ _ _ _ L)|]. constructor; [|constructor]. split.
      * intros r X. apply learn_more. apply (tok_args _ _ _ _ _ _ T). exact X.
      * apply learned.
Qed.
End Inv.

Lemma hstep_world m ip6 P s s' : hstep m ip6 P s s' -> wstep m ip6 (snd s) (snd s').
Proof.
  intros S. destruct S; cbn [snd]; [apply W_spawn|eapply W_call; eauto|eapply W_do; eauto|eapply W_back; eauto].
Qed.
Lemma hsteps_world m ip6 P s s' : hsteps m ip6 P s s' -> wreach m ip6 (snd s) -> wreach m ip6 (snd s').
Proof. intros S R. induction S as [s|s s1 s2 S IH S1]; auto. eapply WR_step; [apply IH; exact R|eapply hstep_world; eauto]. Qed.
Lemma hsteps_lin m ip6 s s' : octets16 ip6 -> hsteps m ip6 atomic s s' -> wreach m ip6 (snd s) ->
  (exists g hs, lin m ip6 (fst (fst s)) (snd s) g hs) -> exists g hs, lin m ip6 (fst (fst s')) (snd s') g hs.
Proof.
  intros O6 S R X. induction S as [s|s s1 s2 S IH S1]; auto. destruct (IH R X) as (g & hs & L).
  pose proof (hsteps_world _ _ _ _ _ S R) as R1. destruct S1 as [log rets w|log rets w i k w' Kn Ty At E|log rets w i k own t w' E B|log rets w i k own o w' B E];
    cbn [fst snd] in *.
  - exists g, hs. apply lin_spawn. exact L.
  - exists g, hs. eapply lin_call; eauto.
  - exists g. eapply lin_do; eauto.
  - eapply lin_back; eauto.
Qed.
