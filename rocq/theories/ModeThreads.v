(** ModeThreads.v -- lemmas for C74: the same with several threads. *)

From Coq Require Import Lia.
From Verif Require Import Base Bits Types Layout Heap Packet Text Build Utils Slow Fast Show Trait Ops Client Print Threads TPrint TPrintSpec ModeSpec ModeProofs.
Open Scope N_scope.

Inductive aga {A} : act A -> act A -> Prop :=
| AG_trap y : aga (ADone (Panic POverflow)) y
| AG_done o : aga (ADone o) (ADone o)
| AG_alloc d k k' : (forall r, aga (k r) (k' r)) -> aga (AAlloc d k) (AAlloc d k')
| AG_read r i k k' : (forall b, aga (k b) (k' b)) -> aga (ARead r i k) (ARead r i k')
| AG_write r i v k k' : aga k k' -> aga (AWrite r i v k) (AWrite r i v k')
| AG_copy r k k' : (forall d, aga (k d) (k' d)) -> aga (ACopy r k) (ACopy r k')
| AG_repl x o k k' : aga k k' -> aga (ARepl x o k) (ARepl x o k').
Inductive agq {A} : pact A -> pact A -> Prop :=
| QG_trap y : agq (QDone (Panic POverflow)) y
| QG_done o : agq (QDone o) (QDone o)
| QG_say s k k' : agq k k' -> agq (QSay s k) (QSay s k')
| QG_alloc d k k' : (forall r, agq (k r) (k' r)) -> agq (QAlloc d k) (QAlloc d k')
| QG_read r i k k' : (forall b, agq (k b) (k' b)) -> agq (QRead r i k) (QRead r i k')
| QG_write r i v k k' : agq k k' -> agq (QWrite r i v k) (QWrite r i v k')
| QG_copy r k k' : (forall d, agq (k d) (k' d)) -> agq (QCopy r k) (QCopy r k')
| QG_repl x o k k' : agq k k' -> agq (QRepl x o k) (QRepl x o k').

Lemma aga_refl : forall A (x : act A), aga x x.
Proof. intros A x. induction x; now constructor. Qed.
Lemma agq_refl : forall A (x : pact A), agq x x.
Proof. intros A x. induction x; now constructor. Qed.
Lemma aga_bind : forall A B (x y : act A) (k k' : A -> act B),
  aga x y -> (forall a, aga (k a) (k' a)) -> aga (abind x k) (abind y k').
Proof.
  intros A B x y k k' H Hk. induction H as [y | o | | | | |]; cbn [abind]; try (constructor; assumption).
  destruct o; [apply Hk | constructor ..].
Qed.
Lemma aga_lift : forall A (x y : out A), ago x y -> aga (alift x) (alift y).
Proof. intros A x y [-> | <-]; constructor. Qed.
Lemma agq_run : forall A (x y : act A), aga x y -> agq (qact x) (qact y).
Proof. intros A x y H. induction H; cbn [qact]; now constructor. Qed.
Lemma agq_bind : forall A B (x y : pact A) (k k' : A -> pact B),
  agq x y -> (forall a, agq (k a) (k' a)) -> agq (qbind x k) (qbind y k').
Proof.
  intros A B x y k k' H Hk. induction H as [y | o | | | | | |]; cbn [qbind]; try (constructor; assumption).
  destruct o; [apply Hk | constructor ..].
Qed.

Ltac aq1 := first
  [ apply aga_refl | apply agq_refl | apply ago_refl
  | assumption
  | solve [eauto 3 with ag]
  | apply aga_bind; [| intros ?] | apply agq_bind; [| intros ?]
  | apply agq_run | apply aga_lift
  | match goal with
    | |- _ (match ?x with _ => _ end) (match ?x with _ => _ end) => destruct x
    end ].
Ltac ag ::= cbv beta zeta; repeat (aq1; cbv beta zeta).

(** ** Headers *)

Lemma aa_hbit_range : forall x msb lsb, aga (a_hbit_range Debug x msb lsb) (a_hbit_range Release x msb lsb).
Proof. intros. unfold a_hbit_range. ag. Qed.
#[export] Hint Resolve aa_hbit_range : ag.
Lemma aa_hget : forall x f, aga (a_hget Debug x f) (a_hget Release x f).
Proof. intros. unfold a_hget. ag. Qed.
#[export] Hint Resolve aa_hget : ag.
Lemma aa_hbytes_loop : forall x n i, aga (a_hbytes_loop Debug x i n) (a_hbytes_loop Release x i n).
Proof. intros x n. induction n as [| n IH]; intros; cbn [a_hbytes_loop]; ag. Qed.
#[export] Hint Resolve aa_hbytes_loop : ag.
Lemma aa_hbytes : forall x msb lsb, aga (a_hbytes Debug x msb lsb) (a_hbytes Release x msb lsb).
Proof. intros. unfold a_hbytes. ag. Qed.
#[export] Hint Resolve aa_hbytes : ag.
Lemma aa_hset_bytes : forall x msb lsb v, aga (a_hset_bytes Debug x msb lsb v) (a_hset_bytes Release x msb lsb v).
Proof. intros. unfold a_hset_bytes. ag. Qed.
#[export] Hint Resolve aa_hset_bytes : ag.
Lemma aa_hexec : forall o, aga (a_hexec Debug o) (a_hexec Release o).
Proof. intros [| | | | | | | | | |]; intros; cbn [a_hexec]; ag. Qed.
#[export] Hint Resolve aa_hexec : ag.

Lemma aa_ipv4 : forall ihl tos id ttl frag proto src dst len,
  aga (a_ipv4 Debug ihl tos id ttl frag proto src dst len) (a_ipv4 Release ihl tos id ttl frag proto src dst len).
Proof. intros. unfold a_ipv4. ag. Qed.
#[export] Hint Resolve aa_ipv4 : ag.

(** ** The parsers *)

Section Slow.
Variables r r' : pfun -> list N -> act packet.
Hypothesis Hr : forall f arr, aga (r f arr) (r' f arr).

Lemma aa_call : forall f arr i, aga (a_call r f arr i) (a_call r' f arr i).
Proof. intros. unfold a_call. ag. Qed.
Hint Resolve aa_call : ag.

Lemma aa_slow_body : forall f arr, aga (a_slow_body Debug r f arr) (a_slow_body Release r' f arr).
Proof.
  intros []; intros; cbn [a_slow_body];
    unfold a_parse_body, a_parse_dot3_body, a_parse_llc_body, a_parse_snap_body, a_parse_ethernet_body, a_parse_vlan_body,
      a_parse_mpls_body, a_parse_mpls_bos_body, a_parse_ipv4_body, a_parse_ipv6_body, a_parse_gre_body, a_parse_erspan2_body,
      a_parse_erspan3_body, a_parse_leaf_body, a_parse_udp_body, a_parse_vxlan_body, a_accept_body; ag.
Qed.
End Slow.

Lemma aa_slow_fuel : forall n f arr, aga (a_slow_fuel Debug n f arr) (a_slow_fuel Release n f arr).
Proof.
  intros n. induction n as [| n IH]; intros; cbn [a_slow_fuel]; [apply aga_refl | now apply aa_slow_body].
Qed.
Lemma aa_slow : forall f arr, aga (a_slow Debug f arr) (a_slow Release f arr).
Proof. intros. apply aa_slow_fuel. Qed.
#[export] Hint Resolve aa_slow : ag.




(** ** Packet constructors *)

Lemma aa_bump_total_len : forall p n, aga (a_bump_total_len Debug p n) (a_bump_total_len Release p n).
Proof. intros. unfold a_bump_total_len. ag. Qed.
#[export] Hint Resolve aa_bump_total_len : ag.
Lemma aa_refresh_checksum : forall x, aga (a_refresh_checksum Debug x) (a_refresh_checksum Release x).
Proof. intros. unfold a_refresh_checksum. ag. Qed.
#[export] Hint Resolve aa_refresh_checksum : ag.
Lemma aa_bump_payload_len : forall p n, aga (a_bump_payload_len Debug p n) (a_bump_payload_len Release p n).
Proof. intros. unfold a_bump_payload_len. ag. Qed.
#[export] Hint Resolve aa_bump_payload_len : ag.

Lemma aq_ipv4 : forall ihl tos id ttl frag proto src dst len,
  agq (q_ipv4 Debug ihl tos id ttl frag proto src dst len) (q_ipv4 Release ihl tos id ttl frag proto src dst len).
Proof. intros. unfold q_ipv4. ag. Qed.
#[export] Hint Resolve aq_ipv4 : ag.
Lemma aa_hmake_run : forall ip6 b, aga (a_hmake_run Debug ip6 b) (a_hmake_run Release ip6 b).
Proof. intros ip6 []; intros; cbn [a_hmake_run]; ag. Qed.
#[export] Hint Resolve aa_hmake_run : ag.
Lemma aq_hmake : forall ip6 b, agq (q_hmake Debug ip6 b) (q_hmake Release ip6 b).
Proof. intros ip6 []; intros; cbn [q_hmake]; ag. Qed.
#[export] Hint Resolve aq_hmake : ag.
Lemma aq_create_ipv4_packet : forall e i n pl,
  agq (q_create_ipv4_packet Debug e i n pl) (q_create_ipv4_packet Release e i n pl).
Proof. intros. unfold q_create_ipv4_packet. ag. Qed.
#[export] Hint Resolve aq_create_ipv4_packet : ag.
Lemma aq_pmake : forall ip6 b, agq (q_pmake Debug ip6 b) (q_pmake Release ip6 b).
Proof.
  intros ip6 []; intros; cbn [q_pmake];
    unfold q_create_tcp_packet, q_create_udp_packet, q_create_icmp_packet, q_create_ipv4ip_packet, q_create_tcpv6_packet,
      q_create_udpv6_packet, q_create_icmpv6_packet, q_create_vxlan_packet, q_create_vxlanv6_packet,
      q_create_gre_packet, q_create_erspan_2_packet, q_create_erspan_3_packet; ag.
Qed.
#[export] Hint Resolve aq_pmake : ag.

(** ** [show] *)

Section Show.
Variables b b' : nat -> nat -> act N.
Hypothesis Hb : forall msb lsb, aga (b msb lsb) (b' msb lsb).
Hint Resolve Hb : ag.
Lemma aq_show_octets : forall n i, agq (q_show_octets b i n) (q_show_octets b' i n).
Proof. intros n. induction n as [| n IH]; intros; cbn [q_show_octets]; ag. Qed.
Hint Resolve aq_show_octets : ag.
Lemma aq_show_field : forall f, agq (q_show_field b f) (q_show_field b' f).
Proof. intros. unfold q_show_field. ag. Qed.
Hint Resolve aq_show_field : ag.
Lemma aq_show_fields : forall l, agq (q_show_fields b l) (q_show_fields b' l).
Proof. induction l as [| f l IH]; intros; cbn [q_show_fields]; ag. Qed.
Hint Resolve aq_show_fields : ag.
Lemma aq_show_header : forall T, agq (q_show_header b T) (q_show_header b' T).
Proof. intros. unfold q_show_header. ag. Qed.
End Show.

Lemma aq_hshow : forall x, agq (q_hshow Debug x) (q_hshow Release x).
Proof. intros. apply aq_show_header. intros. ag. Qed.
#[export] Hint Resolve aq_hshow : ag.
Lemma aq_sshow : forall x, agq (q_sshow Debug x) (q_sshow Release x).
Proof. intros. apply aq_show_header. intros. ag. Qed.
#[export] Hint Resolve aq_sshow : ag.
Lemma aq_show_hdrs : forall l, agq (q_show_hdrs Debug l) (q_show_hdrs Release l).
Proof. induction l as [| x l IH]; cbn [q_show_hdrs]; ag. Qed.
#[export] Hint Resolve aq_show_hdrs : ag.
Lemma aq_show_shdrs : forall l, agq (q_show_shdrs Debug l) (q_show_shdrs Release l).
Proof. induction l as [| x l IH]; cbn [q_show_shdrs]; ag. Qed.
#[export] Hint Resolve aq_show_shdrs : ag.

(** ** Any public call *)

Lemma aq_call : forall ip6 k, agq (q_call Debug ip6 k) (q_call Release ip6 k).
Proof.
  intros ip6 []; intros; cbn [q_call a_kexec]; unfold q_pkt_show, q_ps_show; ag.
  destruct q; cbn [query_run]; ag. apply ago_bind; [apply ag_get_bits | intros; apply ago_refl].
Qed.

(** ** Schedules *)

Inductive sims : qstate -> qstate -> Prop :=
| S_run p p' : agq p p' -> sims (QRun p) (QRun p')
| S_wait x y p p' : agq p p' -> sims (QWait x y p) (QWait x y p').
Inductive simt : pthread -> pthread -> Prop :=
| ST_idle : simt PIdle PIdle
| ST_busy k own said q q' : sims q q' -> simt (PBusy k own said q) (PBusy k own said q').
Definition simw (w w' : pworld) : Prop :=
  pw_client w = pw_client w' /\ pw_out w = pw_out w' /\ Forall2 simt (pw_threads w) (pw_threads w').

Lemma simt_held : forall ts ts' r, Forall2 simt ts ts' -> pheld ts r = pheld ts' r.
Proof.
  intros ts ts' r F. induction F as [| t t' ts ts' H F IH]; [reflexivity |].
  unfold pheld in *. cbn [existsb]. rewrite IH. f_equal. destruct H as [| k own said q q' []]; reflexivity.
Qed.
Lemma Forall2_nth : forall A B (R : A -> B -> Prop) l l' i, Forall2 R l l' ->
  match nth_error l i, nth_error l' i with Some a, Some b => R a b | None, None => True | _, _ => False end.
Proof.
  intros A B R l l' i F. revert i. induction F; intros [| i]; cbn [nth_error]; auto. apply IHF.
Qed.
Lemma Forall2_upd : forall A B (R : A -> B -> Prop) l l' i a b, Forall2 R l l' -> R a b -> Forall2 R (upd l i a) (upd l' i b).
Proof. intros A B R l l' i a b F H. revert i. induction F; intros [| i]; cbn [upd]; auto. Qed.

Definition sim_step (o o' : option (heap * list nat * string * qstate)) : Prop :=
  match o, o' with
  | Some (h, new, s, t), Some (h', new', s', t') => h = h' /\ new = new' /\ s = s' /\ sims t t'
  | None, None => True
  | _, _ => False
  end.
Lemma sim_pafter : forall B (o : out B * heap) k k', (forall b, sims (k b) (k' b)) ->
  sim_step (Some (pafter o k)) (Some (pafter o k')).
Proof.
  intros B [[b | | | |] h] k k' H; cbn [pafter sim_step]; repeat split; auto; constructor; constructor.
Qed.
Lemma sim_qstep : forall ts ts' h t t', Forall2 simt ts ts' -> sims t t' -> t <> QRun (QDone (Panic POverflow)) ->
  sim_step (qstep ts h t) (qstep ts' h t').
Proof.
  intros ts ts' h t t' F S N. destruct S as [p p' G | x y p p' G].
  - destruct G; cbn [qstep]; rewrite <- ?(simt_held _ _ _ F); try (destruct (pheld ts _); [exact I |]).
    + now elim N.
    + exact I.
    + repeat split. now constructor.
    + repeat split. now constructor.
    + apply sim_pafter. now constructor.
    + apply sim_pafter. now constructor.
    + apply sim_pafter. now constructor.
    + apply sim_pafter. now constructor.
  - cbn [qstep]. rewrite <- (simt_held _ _ _ F). destruct (pheld ts y); [exact I |].
    destruct (nth_error h x) as [cx |]; [destruct (nth_error h y) as [co |]; [destruct (c_poisoned co) |] |];
      repeat split; constructor; auto; constructor.
Qed.

Definition sim_opt (o o' : option pworld) : Prop :=
  match o, o' with Some w, Some w' => simw w w' | None, None => True | _, _ => False end.
Lemma sim_happens : forall ip6 e w w', simw w w' -> ~ trapped w -> sim_opt (happens Debug ip6 w e) (happens Release ip6 w' e).
Proof.
  intros ip6 e [c ts o] [c' ts' o'] (E & E' & F) T. cbn [pw_client pw_threads pw_out] in *. subst c' o'.
  destruct e as [| i k | i | i]; cbn [happens].
  - split; [| split]; auto. cbn [pw_threads pspawn]. apply Forall2_app; auto. constructor; constructor.
  - unfold pcall. cbn [pw_client pw_threads pw_out]. pose proof (Forall2_nth _ _ _ _ _ i F) as H.
    destruct (nth_error ts i) as [t |], (nth_error ts' i) as [t' |]; try (elim H; fail); [| exact I].
    destruct H as [| k0 own said q q' S]; [| exact I]. split; [| split]; auto.
    cbn [pw_threads]. apply Forall2_upd; auto. constructor. constructor. apply aq_call.
  - unfold pdo. cbn [pw_client pw_threads pw_out]. pose proof (Forall2_nth _ _ _ _ _ i F) as H.
    destruct (nth_error ts i) as [t |] eqn:Et, (nth_error ts' i) as [t' |]; try (elim H; fail); [| exact I].
    destruct H as [| k0 own said q q' S]; [exact I |].
    assert (N : q <> QRun (QDone (Panic POverflow))).
    { intros ->. apply T. exists i, k0, own, said. exact Et. }
    pose proof (sim_qstep ts ts' (k_heap c) q q' F S N) as G.
    destruct (qstep ts (k_heap c) q) as [[[[h new] s] t1] |], (qstep ts' (k_heap c) q') as [[[[h' new'] s'] t1'] |];
      try (elim G; fail); [| exact I].
    destruct G as (<- & <- & <- & G). split; [| split]; auto. cbn [pw_threads]. apply Forall2_upd; auto. now constructor.
  - unfold pback. cbn [pw_client pw_threads pw_out]. pose proof (Forall2_nth _ _ _ _ _ i F) as H.
    destruct (nth_error ts i) as [t |] eqn:Et, (nth_error ts' i) as [t' |]; try (elim H; fail); [| exact I].
    destruct H as [| k0 own said q q' S]; [exact I |].
    assert (N : q <> QRun (QDone (Panic POverflow))).
    { intros ->. apply T. exists i, k0, own, said. exact Et. }
    destruct S as [p p' G | x y p p' G]; [| exact I].
    destruct G as [y | r | | | | | |]; [now elim N | destruct r | exact I ..];
      try exact I; split; try split; auto; cbn [pw_threads]; apply Forall2_upd; auto; constructor.
Qed.

Lemma sim_scheduled : forall ip6 l w w', simw w w' ->
  (forall l1 l2 v, l = l1 ++ l2 -> scheduled Debug ip6 w l1 = Some v -> ~ trapped v) ->
  sim_opt (scheduled Debug ip6 w l) (scheduled Release ip6 w' l).
Proof.
  intros ip6 l. induction l as [| e l IH]; intros w w' S N; cbn [scheduled]; [exact S |].
  assert (T : ~ trapped w) by now apply (N [] (e :: l)).
  pose proof (sim_happens ip6 e w w' S T) as H.
  destruct (happens Debug ip6 w e) as [w1 |] eqn:E, (happens Release ip6 w' e) as [w1' |]; try (elim H; fail); [| exact I].
  apply IH; auto. intros l1 l2 v -> R. apply (N (e :: l1) l2); auto. cbn [scheduled]. now rewrite E.
Qed.

Lemma simw_same : forall w w', simw w w' -> ~ trapped w -> same_world w w'.
Proof.
  intros w w' (E & E' & F) T. split; [| split]; auto.
  assert (N : forall t, In t (pw_threads w) -> forall k own said, t <> PBusy k own said (QRun (QDone (Panic POverflow)))).
  { intros t I k own said ->. apply In_nth_error in I. destruct I as [i I]. apply T. now exists i, k, own, said. }
  clear T. induction F as [| t t' ts ts' H F IH]; constructor.
  - destruct H as [| k own said q q' S]; [exact I |]. repeat split; auto.
    + intros ->. inversion S as [p p' G |]; subst. inversion G; subst; auto.
      elim (N _ (or_introl eq_refl) k own said). reflexivity.
    + intros ->. inversion S as [p p' G |]; subst. inversion G; subst; auto.
      elim (N _ (or_introl eq_refl) k own said). reflexivity.
    + intros [p ->]. inversion S; subst. eauto.
    + intros [p ->]. inversion S; subst. eauto.
  - apply IH. intros u I. apply N. now right.
Qed.
