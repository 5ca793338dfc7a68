(** PropMode.v -- C74: a build with overflow checks ([Debug]) and one without
    ([Release]) do the same, unless an overflow check fails. *)

From Coq Require Import Lia.
From Verif Require Import Base Bits Types Layout Heap Packet Text Build Utils Slow Fast Show Ops Client Print Threads TPrint Spec Grammar
  ClientSpec PrintSpec TPrintSpec PanicSpec ModeSpec HeapProofs PacketProofs BitsProofs ChecksumProofs PropBuild Ipv6 PropIpv6
  ClientProofs PropClient PropPanic PropPrint ModeProofs ModeThreads.
Open Scope N_scope.

(** ** One call: any arguments, any buffers *)

Theorem C74_call : forall ip6 k h, fst (snd (w_call Debug ip6 k h)) <> Panic POverflow ->
  w_call Release ip6 k h = w_call Debug ip6 k h.
Proof. intros ip6 k h N. destruct (ag_w_call ip6 k h) as [[E _] | E]; [contradiction | congruence]. Qed.
Print Assumptions C74_call.

(** If it fails, what has been printed by then is printed by the other build as well. *)
Theorem C74_text : forall ip6 k h, exists t, fst (w_call Release ip6 k h) = (fst (w_call Debug ip6 k h) ++ t)%string.
Proof.
  intros ip6 k h. destruct (ag_w_call ip6 k h) as [[_ E] | <-]; [exact E |].
  exists EmptyString. now rewrite ShowProofs.append_nil_r.
Qed.
Print Assumptions C74_text.

(** ** Programs: whatever they do with the results *)

Theorem C74_program : forall ip6 next n h,
  (forall s o, In (s, o) (fst (plays Debug ip6 next n h)) -> o <> Panic POverflow) ->
  plays Release ip6 next n h = plays Debug ip6 next n h.
Proof.
  intros ip6 next n h. induction n as [| n IH]; intros N; [reflexivity |]. cbn [plays] in *.
  destruct (plays Debug ip6 next n h) as [l h1].
  destruct (w_call Debug ip6 (next l) h1) as [s [o h2]] eqn:E. cbn [fst] in *.
  rewrite IH by (intros s' o' I; apply (N s'), in_or_app; now left).
  rewrite C74_call; rewrite E; [reflexivity |]. cbn [fst snd]. apply (N s), in_or_app. right. now left.
Qed.
Print Assumptions C74_program.

(** ** Threads: any schedule, possible or not *)

Theorem C74_threads : forall ip6 l,
  (forall l1 l2 w, l = l1 ++ l2 -> scheduled Debug ip6 pw_start l1 = Some w -> ~ trapped w) ->
  match scheduled Debug ip6 pw_start l, scheduled Release ip6 pw_start l with
  | Some w, Some w' => same_world w w'
  | None, None => True
  | _, _ => False
  end.
Proof.
  intros ip6 l N. assert (S : simw pw_start pw_start) by (repeat split; constructor).
  pose proof (sim_scheduled ip6 l _ _ S N) as H.
  destruct (scheduled Debug ip6 pw_start l) as [w |] eqn:E, (scheduled Release ip6 pw_start l) as [w' |]; auto.
  apply simw_same; auto. apply (N l []); auto. now rewrite app_nil_r.
Qed.
Print Assumptions C74_threads.

(** ** Where *)

Lemma long_checksum d : bytes_ok d -> 2 ^ 32 <= whole_words d / 65536 + whole_words d -> 131076 <= N.of_nat (length d).
Proof.
  intros Hd H. unfold whole_words in H. set (n := (length d / 2)%nat) in *. set (e := firstn (2 * n) d) in *.
  assert (Le : length e = (2 * n)%nat).
  { subst e. rewrite firstn_length. pose proof (Nat.div_mod (length d) 2). lia. }
  assert (He : bytes_ok e) by (subst e; now apply bytes_ok_firstn).
  assert (B : forall s, s <= 65535 * 65536 -> s / 65536 + s < 2 ^ 32).
  { intros s L. assert (s / 65536 <= 65535); [| change (2 ^ 32) with 4294967296; lia].
    transitivity (65535 * 65536 / 65536); [apply N.div_le_mono; lia | now vm_compute]. }
  destruct (N.le_gt_cases (N.of_nat (2 * n)) 131074) as [L |]; [| pose proof (Nat.div_mod (length d) 2); lia].
  exfalso. apply N.le_ngt in H. apply H, B. clear B H.
  destruct (Nat.le_gt_cases (2 * n) 10) as [S | S].
  - pose proof (plain_sum_bound _ (words_lt _ (zero_checksum_ok e He))) as P.
    pose proof (words_length (zero_checksum e)) as W. unfold zero_checksum in *.
    rewrite !app_length, firstn_length, skipn_length in W. cbn [length] in W. lia.
  - unfold zero_checksum. rewrite words_app by (rewrite firstn_length_le by lia; reflexivity).
    rewrite plain_sum_app. cbn [app words plain_sum fold_right]. fold (plain_sum (words (skipn 12 e))).
    pose proof (plain_sum_bound _ (words_lt _ (bytes_ok_firstn 10 e He))) as P1.
    pose proof (plain_sum_bound _ (words_lt _ (bytes_ok_skipn 12 e He))) as P2.
    pose proof (words_length (firstn 10 e)) as W1. pose proof (words_length (skipn 12 e)) as W2.
    rewrite firstn_length in W1. rewrite skipn_length in W2. lia.
Qed.

(** A call that is given what the program has obtained. *)
Theorem C74_where : forall ip6 c k, octets16 ip6 -> client_ok c -> known c k -> typed k -> shows_declared k ->
  fst (kexec Debug ip6 k (k_heap c)) = Panic POverflow -> can_overflow k.
Proof.
  intros ip6 c k O6 C K T D E. apply (C70_panics Debug ip6 c k POverflow O6 C K T D) in E.
  assert (NT : forall h x i, ~ touch h x i POverflow).
  { intros h x i [[_ X]|(d & _ & _ & X)]; discriminate. }
  assert (NI : forall h p (l : Prop), ~ inner_fault h p l POverflow).
  { intros h p l [[_ X]|(_ & _ & X)]; discriminate. }
  assert (NF : forall h o (l : Prop), ~ opt_fault h o l POverflow).
  { intros h [p|] l; [apply NI|]. intros [_ X]. discriminate. }
  assert (NS : forall h x, ~ show_fault h x POverflow) by (intros h x (f & _ & X); exact (NT _ _ _ X)).
  assert (NC : forall f d e, cut_by f d e -> e <> POverflow) by (induction 1; congruence).
  assert (RF : forall h x a b, read_fault Debug h x a b POverflow -> unreadable a b).
  { intros h x a b [(X & _)|(_ & [X|(X & _)])]; [now left|elim (NT _ _ _ X)|now right]. }
  assert (OF : forall a b, not_octets Debug a b POverflow -> (a < b)%nat \/ widest a b).
  { intros a b [(X & _)|[(X & _)|(_ & X)]]; [now left|now right|discriminate]. }
  destruct k; cbn [call_fault can_overflow] in *; try (destruct E as [_ E]; discriminate E); try exact E.
  - destruct o; cbn [hop_fault] in E; try (elim E; fail); try (eapply RF; exact E).
    + elim (NT _ _ _ (proj2 E)).
    + elim (NT _ _ _ (proj2 E)).
    + destruct E as [X|(_ & _ & _ & X)]; [exact (OF _ _ X)|elim (NT _ _ _ X)].
    + destruct E as [[(X & _)|[(X & _)|[_ X]]]|[(X & _)|(_ & _ & _ & X)]];
        [now left|now right|discriminate|now right|elim (NT _ _ _ X)].
    + destruct E; discriminate.
    + destruct E; discriminate.
  - exact (NS _ _ E).
  - destruct a; [exact E|discriminate].
  - destruct a; [exact E|discriminate].
  - destruct E as [[_ X]|(n & _ & _ & _ & X)]; discriminate.
  - destruct E as (_ & _ & X). discriminate.
  - destruct E as [(pre & x & post & _ & _ & X)|(_ & _ & X)]; [exact (NS _ _ X)|discriminate].
  - apply long_checksum; [exact T|]. unfold checksum_fault in E. cbv zeta in E. destruct E as [(_ & X & _)|[(_ & _ & X)|(_ & (_ & X) & _)]]; [apply N.le_trans with (1 := X); apply N.le_add_l|discriminate|exact X].
  - destruct b; cbn [pmake_fault] in E; try (destruct E; discriminate); try (eapply NI; exact E); eapply NF; exact E.
  - exact (NC _ _ _ E eq_refl).
  - exact (NC _ _ _ E eq_refl).
  - destruct E as [(X & _)|(_ & [(_ & X)|(_ & X & _)])]; [now left|discriminate|now right].
  - destruct E as [X|(_ & _ & _ & _ & X)]; [exact (OF _ _ X)|discriminate].
  - destruct E. discriminate.
  - destruct E as (x & _ & X & _). discriminate.
  - destruct q; try exact E; try discriminate E.
    destruct E as [(X & _)|(_ & [(_ & X)|(_ & X & _)])]; [now left|discriminate|now right].
Qed.
Print Assumptions C74_where.

(** Every other call is the same in both builds. *)
Theorem C74_same : forall ip6 c k, octets16 ip6 -> client_ok c -> known c k -> typed k -> shows_declared k ->
  ~ can_overflow k -> w_call Release ip6 k (k_heap c) = w_call Debug ip6 k (k_heap c).
Proof.
  intros ip6 c k O6 C K T D N. apply C74_call. intros E. rewrite C68_same in E. apply N.
  apply (C74_where ip6 c k O6 C K T D). destruct (kexec Debug ip6 k (k_heap c)) as [[[]|f| | |] h']; cbn [fst] in *; congruence.
Qed.
Print Assumptions C74_same.

(** The builds differ exactly when an overflow check fails. *)
Theorem C74_differ : forall ip6 c k, octets16 ip6 -> client_ok c -> known c k -> typed k -> shows_declared k ->
  (w_call Release ip6 k (k_heap c) <> w_call Debug ip6 k (k_heap c) <->
   fst (snd (w_call Debug ip6 k (k_heap c))) = Panic POverflow).
Proof.
  intros ip6 c k O6 C K T D. split.
  - intros N. destruct (ag_w_call ip6 k (k_heap c)) as [[E _] | E]; [exact E | now elim N].
  - intros E X. rewrite <- X in E. apply (C70_release ip6 c k O6 C K T D). rewrite C68_same in E.
    destruct (kexec Release ip6 k (k_heap c)) as [[[]|f| | |] h']; cbn [fst] in *; congruence.
Qed.
Print Assumptions C74_differ.

(** ** The failing check has no effect: nothing printed, no buffer changed *)

Definition kept {A} (x : M A) : Prop := forall h,
  match x h with (Ret _, h') | (Panic POverflow, h') => h' = h | _ => True end.
Lemma kept_lift A (o : out A) : kept (lift o).
Proof. intros h. unfold lift. destruct o as [a|[]| | |]; auto. Qed.
Lemma kept_bind A B (x : M A) (k : A -> M B) : kept x -> (forall a, kept (k a)) -> kept (bind x k).
Proof.
  intros H Hk h. specialize (H h). unfold bind. destruct (x h) as [[a|[]| | |] h1]; auto. subst h1. apply Hk.
Qed.
Lemma kept_read r i : kept (with_lock r (fun d => (index d i, d))).
Proof.
  intros h. unfold with_lock. destruct (nth_error h r) as [c|] eqn:E; auto. destruct (c_poisoned c) eqn:P; auto.
  unfold index. destruct (nth_error (c_data c) i); auto.
  destruct c as [d p]. cbn [c_poisoned c_data] in *. subst p. revert h E. induction r as [|r IH]; intros [|a h] E; try discriminate.
  - injection E as ->. reflexivity.
  - cbn [upd nth_error] in *. now rewrite IH.
Qed.
Lemma kept_get_loop r n : forall i v, kept (hget_loop r i n v).
Proof.
  induction n as [|n IH]; intros; cbn [hget_loop]; [apply (kept_lift _ (Ret v))|].
  cbv zeta. apply kept_bind; [apply kept_read|intros; apply IH].
Qed.
Lemma kept_bit_range m x msb lsb : kept (hbit_range m x msb lsb).
Proof. apply kept_bind; [apply kept_get_loop|intros; apply kept_lift]. Qed.
Lemma kept_bytes_loop m x n : forall i, kept (hbytes_loop m x i n).
Proof.
  induction n as [|n IH]; intros; cbn [hbytes_loop]; [apply (kept_lift _ (Ret []))|].
  apply kept_bind; [apply kept_bit_range|intros]. apply kept_bind; [apply IH|intros b; apply (kept_lift _ (Ret (u8 a :: b)))].
Qed.
Lemma kept_ret A (a : A) : kept (ret a).
Proof. apply (kept_lift _ (Ret a)). Qed.

(** Writing never fails that way. *)
Definition calm {A} (x : M A) : Prop := forall h, fst (x h) <> Panic POverflow.
Lemma calm_bind A B (x : M A) (k : A -> M B) : calm x -> (forall a, calm (k a)) -> calm (bind x k).
Proof.
  intros H Hk h. specialize (H h). unfold bind. destruct (x h) as [[a|f| | |] h1]; cbn [fst] in *; [apply Hk|congruence ..].
Qed.
Lemma calm_ret A (a : A) : calm (ret a).
Proof. discriminate. Qed.
Lemma calm_index A (l : list A) i : calm (lift (index l i)).
Proof. intros h. unfold lift, index. destruct (nth_error l i); discriminate. Qed.
Lemma calm_set_loop r lsb n : forall v, calm (hset_loop r lsb n v).
Proof.
  induction n as [|n IH]; intros; cbn [hset_loop]; [apply calm_ret|]. apply calm_bind; [|intros; apply IH].
  intros h. unfold with_lock. destruct (nth_error h r) as [c|]; try discriminate. destruct (c_poisoned c); try discriminate.
  unfold set_bit_step, index. destruct (nth_error (c_data c) ((lsb + n) / 8)); discriminate.
Qed.
Lemma calm_set_bytes_loop x n : forall i v it, calm (hset_bytes_loop x i n v it).
Proof.
  induction n as [|n IH]; intros; cbn [hset_bytes_loop]; [apply calm_ret|].
  apply calm_bind; [apply calm_index|intros]. apply calm_bind; [apply calm_set_loop|intros; apply IH].
Qed.

Theorem C74_trap : forall ip6 c k, octets16 ip6 -> client_ok c -> known c k -> typed k -> shows_declared k ->
  fst (snd (w_call Debug ip6 k (k_heap c))) = Panic POverflow ->
  w_call Debug ip6 k (k_heap c) = (EmptyString, (Panic POverflow, k_heap c)).
Proof.
  intros ip6 c k O6 C K T D E.
  assert (W : can_overflow k).
  { apply (C74_where ip6 c k O6 C K T D). rewrite C68_same in E.
    destruct (kexec Debug ip6 k (k_heap c)) as [[[]|f| | |] h']; cbn [fst] in *; congruence. }
  assert (G : forall x : M kres, kept x -> fst (x (k_heap c)) = Panic POverflow ->
    run x (k_heap c) = (EmptyString, (Panic POverflow, k_heap c))).
  { intros x H F. specialize (H (k_heap c)). unfold run. destruct (x (k_heap c)) as [o h']. cbn [fst] in F. subst o h'. reflexivity. }
  clear C K T D O6. destruct k; cbn [can_overflow] in W; try (elim W; fail); cbn [w_call] in *.
  - destruct o; try (elim W; fail); cbn [kexec] in *.
    + apply G; [|exact E]. cbn [hexec]. unfold hget.
      apply kept_bind; [apply kept_bind; [apply kept_bit_range|]|]; intros; apply kept_ret.
    + apply G; [|exact E]. cbn [hexec].
      apply kept_bind; [apply kept_bind; [apply kept_bit_range|]|]; intros; apply kept_ret.
    + apply G; [|exact E]. cbn [hexec]. unfold hbytes.
      apply kept_bind; [apply kept_bind; [apply kept_bind; [apply kept_lift|intros; apply kept_bytes_loop]|]|]; intros; apply kept_ret.
    + cbn [hexec] in *. unfold run in *. cbn [fst snd] in E. unfold hset_bytes in *.
      destruct (set_bytes_guard Debug (length v) msb lsb) as [a|f| | |] eqn:B; [|unfold bind, lift in *; cbn [fst] in *; congruence ..].
      exfalso. revert E. match goal with |- fst (?y _) = _ -> _ => change (~ fst (y (k_heap c)) = Panic POverflow); assert (Q : calm y) end; [|apply Q].
      apply calm_bind; [apply calm_bind; [apply calm_bind; [intros h; discriminate|intros; apply calm_set_bytes_loop]|]|];
        intros; apply calm_ret.
  - apply G; [|exact E]. cbn [kexec]. apply kept_bind; [apply kept_lift|intros; apply kept_ret].
  - apply G; [|exact E]. cbn [kexec]. apply kept_bind; [apply kept_lift|intros; apply kept_ret].
  - apply G; [|exact E]. cbn [kexec]. apply kept_bind; [apply kept_lift|intros; apply kept_ret].
  - apply G; [|exact E]. cbn [kexec]. apply kept_lift.
Qed.
Print Assumptions C74_trap.

(** ** Examples *)

(** An IPv6 header whose source address is 00 01 02 .. 0f. *)
Definition c74_bytes : list N := [96; 0; 0; 0; 0; 0; 59; 64] ++ map N.of_nat (seq 0 32).
Definition c74_heap : heap := [Cell c74_bytes false].
Definition c74_ip : hdr := Hdr IPv6 0.
(** The address has 128 bits; the getter returns 64. Without the check it returns the last ones. *)
Definition c74_src : call := K_hdr (OGet c74_ip IPv6_src).

Example C74_ex_differ :
  w_call Debug ipv6_from_str c74_src c74_heap = (EmptyString, (Panic POverflow, c74_heap)) /\
  w_call Release ipv6_from_str c74_src c74_heap = (EmptyString, (Ret (KVal (VNum 0x08090a0b0c0d0e0f)), c74_heap)).
Proof. split; reflexivity. Qed.
Example C74_ex_same :
  w_call Debug ipv6_from_str (K_hdr (OGet c74_ip IPv6_hop_limit)) c74_heap =
    (EmptyString, (Ret (KVal (VNum 64)), c74_heap)) /\
  w_call Release ipv6_from_str (K_hdr (OGet c74_ip IPv6_hop_limit)) c74_heap =
    (EmptyString, (Ret (KVal (VNum 64)), c74_heap)).
Proof. split; reflexivity. Qed.

(** "Both builds do the same." *)
Theorem C74_equal_refuted : ~ (forall ip6 k h, w_call Release ip6 k h = w_call Debug ip6 k h).
Proof. intros A. specialize (A ipv6_from_str c74_src c74_heap). vm_compute in A. discriminate. Qed.
Print Assumptions C74_equal_refuted.

(** "A call that panics in one build panics in the other", and "it returns what was asked for". *)
Example C74_ex_reversed :
  w_call Debug ipv6_from_str (K_hdr (OSetBytes c74_ip 7 8 [])) c74_heap = (EmptyString, (Panic POverflow, c74_heap)) /\
  w_call Release ipv6_from_str (K_hdr (OSetBytes c74_ip 7 8 [])) c74_heap = (EmptyString, (Ret (KVal VUnit), c74_heap)).
Proof. split; reflexivity. Qed.
(** The checks and the conditions of [bytes] are separate: this panics in both. *)
Example C74_ex_assert :
  w_call Debug ipv6_from_str (K_hdr (OBytes c74_ip 7 9)) c74_heap = (EmptyString, (Panic POverflow, c74_heap)) /\
  w_call Release ipv6_from_str (K_hdr (OBytes c74_ip 7 9)) c74_heap = (EmptyString, (Panic PAssert, c74_heap)).
Proof. split; reflexivity. Qed.

(** The bound for checksums is the best one. *)
Definition c74_long : list N := flat_map (fun _ => repeat 255 131) (repeat tt 1000) ++ repeat 255 76.
Example C74_ex_checksum : N.of_nat (length c74_long) = 131076 /\
  fst (kexec Debug ipv6_from_str (K_checksum c74_long) []) = Panic POverflow /\ can_overflow (K_checksum c74_long).
Proof.
  assert (L : N.of_nat (length c74_long) = 131076) by (vm_compute; reflexivity).
  split; [exact L | split; [| cbn [can_overflow]; rewrite L; discriminate]].
  apply (C70_panics Debug ipv6_from_str k_start (K_checksum c74_long) POverflow); auto using C65_octets16.
  - apply C66_reachable with Debug ipv6_from_str; auto using C65_octets16. apply Reach_start.
  - exact I.
  - apply bytes_okb_ok. vm_compute. reflexivity.
  - exact I.
  - right. right. split; [reflexivity |]. split; [| split; [| reflexivity]].
    + vm_compute. split; [reflexivity | discriminate].
    + intros [O _]. vm_compute in O. discriminate.
Qed.

(** A program that goes on reading until something fails. *)
Definition c74_next : strategy := fun l =>
  match l with
  | [] => K_hdr (OFrom IPv6 c74_bytes)
  | [_] => K_hdr (OGet c74_ip IPv6_next_hdr)
  | [_; (_, Ret (KVal (VNum 59)))] => K_mac "00:11:zz"%string
  | [_; _; (_, Ret _)] => c74_src
  | [_; _; _; (_, Ret _)] => K_hdr (OToVec c74_ip)
  | _ => K_pnew
  end.
Example C74_ex_program :
  plays Release ipv6_from_str c74_next 3 [] = plays Debug ipv6_from_str c74_next 3 [] /\
  map fst (fst (plays Debug ipv6_from_str c74_next 3 [])) =
    [EmptyString; EmptyString; ("Error: invalid digit found in string - zz in 00:11:zz" ++ newline)%string] /\
  map snd (fst (plays Debug ipv6_from_str c74_next 5 [])) =
    [Ret (KHdr c74_ip); Ret (KVal (VNum 59)); Ret (KVal (VBytes [0; 17; 0; 0; 0; 0])); Panic POverflow; Ret (KPkt pkt_new)] /\
  map snd (fst (plays Release ipv6_from_str c74_next 5 [])) =
    [Ret (KHdr c74_ip); Ret (KVal (VNum 59)); Ret (KVal (VBytes [0; 17; 0; 0; 0; 0]));
     Ret (KVal (VNum 0x08090a0b0c0d0e0f)); Ret (KVal (VBytes c74_bytes))].
Proof.
  split; [| vm_compute; repeat split; reflexivity]. apply C74_program.
  intros s o I. vm_compute in I. destruct I as [E | [E | [E | []]]]; injection E as <- <-; discriminate.
Qed.

(** Two threads: one reads the next header field of an IPv6 header bit by bit while the other
    overwrites its bits. The read is torn in the same way in both builds. *)
Definition c74_schedule : list event :=
  [V_spawn; V_spawn; V_call 0 (K_hdr (OFrom IPv6 c74_bytes)); V_do 0; V_back 0;
   V_call 0 (K_hdr (OGet c74_ip IPv6_next_hdr)); V_do 0; V_do 0; V_do 0;
   V_call 1 (K_hdr (OSet c74_ip IPv6_next_hdr 0))] ++ repeat (V_do 1) 8 ++ repeat (V_do 0) 5.
Definition c74_end : option pthread :=
  match scheduled Debug ipv6_from_str pw_start c74_schedule with Some w => nth_error (pw_threads w) 0 | None => None end.
Definition stuck (t : pthread) : bool :=
  match t with PBusy _ _ _ (QRun (QDone (Panic POverflow))) => true | _ => false end.
Lemma stuck_not w : forallb (fun t => negb (stuck t)) (pw_threads w) = true -> ~ trapped w.
Proof.
  intros F (i & k & own & said & E). rewrite forallb_forall in F. unfold pbusy in E. apply nth_error_In in E.
  apply F in E. discriminate.
Qed.
Fixpoint safe_all (w : pworld) (l : list event) : bool :=
  forallb (fun t => negb (stuck t)) (pw_threads w) &&
  match l with
  | [] => true
  | e :: l => match happens Debug ipv6_from_str w e with Some w => safe_all w l | None => true end
  end.
Lemma safe_all_ok l : forall w, safe_all w l = true ->
  forall l1 l2 v, l = l1 ++ l2 -> scheduled Debug ipv6_from_str w l1 = Some v -> ~ trapped v.
Proof.
  induction l as [| e l IH]; intros w S l1 l2 v E H; cbn [safe_all] in S; apply andb_prop in S as [S R].
  - destruct l1; [| discriminate]. injection H as <-. now apply stuck_not.
  - destruct l1 as [| e1 l1]; [injection H as <-; now apply stuck_not |]. injection E as <- E. cbn [scheduled] in H.
    destruct (happens Debug ipv6_from_str w e) as [w1 |]; [| discriminate]. eapply IH; eauto.
Qed.
Example C74_ex_threads :
  c74_end = Some (PBusy (K_hdr (OGet c74_ip IPv6_next_hdr)) [] EmptyString (QRun (QDone (Ret (KVal (VNum 32)))))) /\
  exists w w', scheduled Debug ipv6_from_str pw_start c74_schedule = Some w /\
    scheduled Release ipv6_from_str pw_start c74_schedule = Some w' /\ same_world w w'.
Proof.
  split; [vm_compute; reflexivity |].
  assert (N : safe_all pw_start c74_schedule = true) by (vm_compute; reflexivity).
  pose proof (C74_threads ipv6_from_str c74_schedule (safe_all_ok _ _ N)) as H.
  destruct (scheduled Debug ipv6_from_str pw_start c74_schedule) as [w |] eqn:E.
  - destruct (scheduled Release ipv6_from_str pw_start c74_schedule) as [w' |]; [eauto | elim H].
  - exfalso. clear H. revert E. vm_compute. discriminate.
Qed.
