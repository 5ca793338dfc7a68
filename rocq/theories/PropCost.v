(** PropCost.v -- C75: how many buffers a call allocates and how often it takes a lock. *)

From Coq Require Import Lia.
From Verif Require Import Base Bits Types Layout Heap Packet Text Build Utils Slow Fast Show Ops Client Ipv6 Threads Spec ClientSpec
  ThreadsSpec CostSpec CostProofs.
Open Scope N_scope.

(** A call that has returned has allocated what [allocs_ok] says (its [own] buffers), and
    every other step it has made was one use of a buffer under its lock. *)
Theorem C75_returned : forall m ip6 i k n w own v, counted m ip6 i k n w -> busy w i k own (TRun (ADone (Ret v))) ->
  allocs_ok k v (length own) /\ (length own <= n)%nat /\ locks_ok k v (n - length own).
Proof.
  intros m ip6 i k n w own v C B. destruct (counted_inv _ _ _ _ _ _ C) as (own' & t & B' & L & P). unfold busy in *.
  rewrite B in B'. injection B' as <- <-. specialize (P O O (Ret v) (P_done _)). rewrite !Nat.add_0_r in P.
  destruct (sp_kexec _ _ _ _ _ _ P) as (_ & Q). destruct (Q v eq_refl). auto.
Qed.
Print Assumptions C75_returned.

(** No call makes more steps than [budget], whatever it finds and however it ends. *)
Theorem C75_bound : forall m ip6 i k n w, counted m ip6 i k n w -> (n <= budget k)%nat.
Proof.
  intros m ip6 i k n w C. destruct (counted_inv _ _ _ _ _ _ C) as (own & t & B & L & P).
  destruct (tpath_some t) as (a & l & o & T). destruct (sp_kexec _ _ _ _ _ _ (P _ _ _ T)) as (Q & _). lia.
Qed.
Print Assumptions C75_bound.

(** It has not used it up before it has finished. *)
Theorem C75_unfinished : forall m ip6 i k n w own t, counted m ip6 i k n w -> busy w i k own t ->
  (exists o, t = TRun (ADone o)) \/ (n < budget k)%nat.
Proof.
  intros m ip6 i k n w own t C B. destruct (counted_inv _ _ _ _ _ _ C) as (own' & t' & B' & L & P). unfold busy in *.
  rewrite B in B'. injection B' as <- <-.
  assert (X : (exists o, t = TRun (ADone o)) \/ exists a l o, tpath t a l o /\ (1 <= a + l)%nat).
  { destruct t as [[o|d q|r j q|r j v q|r q|x y q]|x y q]; [left; eexists; reflexivity|right..];
      match goal with |- exists a l o, tpath ?t a l o /\ _ => destruct (tpath_some t) as (a & l & o & T) end;
      exists a, l, o; (split; [exact T|]); cbn [tpath] in T.
    6: destruct T as (l' & -> & _); lia.
    all: inversion T; subst; lia. }
  destruct X as [X|(a & l & o & T & G)]; [left; exact X|]. right.
  destruct (sp_kexec _ _ _ _ _ _ (P _ _ _ T)) as (Q & _). lia.
Qed.
Print Assumptions C75_unfinished.

(** Parsing makes at most five steps for every octet it is given. *)
Theorem C75_parse : forall m ip6 i f d n w, counted m ip6 i (K_parse f d) n w -> (n <= 5 * length d)%nat.
Proof. intros m ip6 i f d n w C. exact (C75_bound _ _ _ _ _ _ C). Qed.
Print Assumptions C75_parse.

(** The borrowed headers, the borrowing parser, checksums, addresses, and what only moves
    headers and packets about take no lock and allocate no buffer: they never wait. *)
Definition lock_free (k : call) : bool :=
  match k with
  | K_fast _ _ | K_sfrom _ _ | K_sget _ _ | K_sbytes _ _ _ | K_sshow _ | K_ps_show _ | K_checksum _ | K_mac _ | K_ip4 _
  | K_ip6 _ | K_query _
  | K_downcast _ _ | K_pnew | K_push _ _ | K_insert _ _ | K_pop _ | K_remove _ _ | K_set_payload _ _ | K_add _ _ | K_pclone _
  | K_index _ _ | K_get_header _ _ _ | K_hdr (OClone _) => true
  | _ => false
  end.
Theorem C75_lock_free : forall m ip6 i k n w, lock_free k = true -> counted m ip6 i k n w ->
  n = O /\ exists o, busy w i k [] (TRun (ADone o)).
Proof.
  intros m ip6 i k n w F C. assert (Z : budget k = O) by (destruct k; try discriminate F; try reflexivity; destruct o; (discriminate F || reflexivity)).
  pose proof (C75_bound _ _ _ _ _ _ C) as L. destruct (counted_inv _ _ _ _ _ _ C) as (own & t & B & L' & _).
  assert (own = []) as -> by (destruct own; [reflexivity|cbn [length] in L'; lia]).
  destruct (C75_unfinished _ _ _ _ _ _ _ _ C B) as [(o & ->)|G]; [|lia]. split; [lia|]. exists o. exact B.
Qed.
Print Assumptions C75_lock_free.

(** ** Concrete counts *)

(** The steps that thread [i] can still make, alone. *)
Fixpoint drive (fuel : nat) (w : world) (i : nat) : nat * world :=
  match fuel with
  | O => (O, w)
  | S f => match wdo w i with Some w' => let (n, w2) := drive f w' i in (S n, w2) | None => (O, w) end
  end.
Lemma drive_counted m ip6 i k fuel : forall n w, counted m ip6 i k n w ->
  counted m ip6 i k (n + fst (drive fuel w i)) (snd (drive fuel w i)).
Proof.
  induction fuel as [|f IH]; intros n w C; cbn [drive]; [cbn [fst snd]; rewrite Nat.add_0_r; exact C|].
  destruct (wdo w i) as [w'|] eqn:E; [|cbn [fst snd]; rewrite Nat.add_0_r; exact C].
  specialize (IH (S n) w' (N_do _ _ _ _ _ _ _ C E)). destruct (drive f w' i) as [q w2]. cbn [fst snd] in *.
  rewrite Nat.add_succ_r. exact IH.
Qed.
(** A call made by the only thread of a program with the buffers [h]: steps, buffers
    allocated, and whether it has returned. *)
Definition alone (h : heap) (k : call) : nat * nat * bool :=
  match wcall Debug ipv6_from_str (Cl h [] [] [] [], [Idle]) 0 k with
  | Some w =>
      let (n, w') := drive 1000 w 0 in
      match snd w' with
      | [Busy _ own (TRun (ADone o))] => (n, length own, match o with Ret _ => true | _ => false end)
      | _ => (n, O, false)
      end
  | None => (O, O, false)
  end.
Definition ck_e := EthA "00:11:22:33:44:55" "a:b:c:d:e:f" true 5 3.
Definition ck_i := Ip4A 5 "10.0.0.1" "192.168.1.2" 0 64 7 0.
Definition ck_mpls : list N := repeat 0 12 ++ [0x88; 0x47] ++ [0; 0; 0; 0] ++ [0; 0; 1; 0] ++ [0; 0; 0; 0] ++
  [0x45] ++ repeat 0 8 ++ [1] ++ repeat 0 10 ++ repeat 0 8.
(** [parse_gre] of its four octets and nothing else uses the whole budget. *)
Example C75_parse_tight : alone [] (K_parse F_gre [0; 0; 0; 0]) = (20%nat, 1%nat, true) /\ budget (K_parse F_gre [0; 0; 0; 0]) = 20%nat.
Proof. split; vm_compute; reflexivity. Qed.
(** Ethernet, three labels of which the parser reads two, IPv4 and ICMP. *)
Example C75_parse_example : alone [] (K_parse F_parse ck_mpls) = ((6 + (16 + 1 + 1 + 0 + 8 + 0))%nat, 6%nat, true).
Proof. vm_compute. reflexivity. Qed.
(** A tag, ERSPAN III with platform and a sequence number: the constructor with the
    largest budget, which it uses. *)
Example C75_create_example :
  alone [Cell (repeat 0 14) false] (K_create (P_erspan3 ck_e ck_i 9 (ErA 1 0 0 0 1) 0 0 1 3 7 (Some (Pkt [Hdr Ether 0] [1; 2])))) = (90%nat, 7%nat, true) /\
  budget (K_create (P_erspan3 ck_e ck_i 9 (ErA 1 0 0 0 1) 0 0 1 3 7 (Some (Pkt [Hdr Ether 0] [1; 2])))) = 90%nat.
Proof. split; vm_compute; reflexivity. Qed.
(** A short buffer: the call panics after the steps it could make. *)
Example C75_short_example : alone [Cell [1; 2; 3] false] (K_hdr (OGet (Hdr Ether 0) Ether_src)) = (1%nat, O, false) /\
  alone [Cell (repeat 7 13) false] (K_hdr (OGet (Hdr Ether 0) Ether_etype)) = (9%nat, O, false) /\
  alone [Cell (repeat 7 14) false] (K_hdr (OGet (Hdr Ether 0) Ether_etype)) = (16%nat, O, true).
Proof. repeat split; vm_compute; reflexivity. Qed.
(** [show] of an IPv4 header reads its 160 bits and twice one bit of the 13 of the
    fragment offset. *)
Example C75_show_example : alone [Cell (repeat 7 20) false] (K_hshow (Hdr IPv4 0)) = (161%nat, O, true).
Proof. vm_compute. reflexivity. Qed.
Example C75_compare_example :
  alone [Cell (repeat 7 14) false; Cell (repeat 8 14) false] (K_compare (Pkt [Hdr Ether 0] []) (Pkt [Hdr Ether 1] [])) = (2%nat, O, true) /\
  alone [Cell (repeat 7 14) false; Cell (repeat 8 14) false] (K_compare (Pkt [Hdr Ether 0] []) (Pkt [Hdr Ether 1; Hdr Ether 0] [])) = (2%nat, O, true) /\
  budget (K_compare (Pkt [Hdr Ether 0] []) (Pkt [Hdr Ether 1; Hdr Ether 0] [])) = 3%nat.
Proof. repeat split; vm_compute; reflexivity. Qed.

(** "A field is read under one lock" is false. *)
Definition one_w : world := (Cl [Cell (repeat 7 14) false] [] [] [] [], [Idle]).
Definition one_k : call := K_hdr (OGet (Hdr Ether 0) Ether_etype).
Lemma one_steps : match wcall Debug ipv6_from_str one_w 0 one_k with Some w => fst (drive 16 w 0) | None => O end = 16%nat.
Proof. vm_compute. reflexivity. Qed.
Theorem C75_one_lock_refuted : ~ (forall m ip6 i x f n w, counted m ip6 i (K_hdr (OGet x f)) n w -> (n <= 1)%nat).
Proof.
  intros A. pose proof one_steps as X. destruct (wcall Debug ipv6_from_str one_w 0 one_k) as [w1|] eqn:E; [|discriminate].
  pose proof (drive_counted _ _ _ _ 16 _ _ (N_call Debug ipv6_from_str _ _ _ _ E)) as C. apply A in C. rewrite X in C. lia.
Qed.
Print Assumptions C75_one_lock_refuted.

(** With another thread in between: two threads read the same field in turn, and each
    makes sixteen steps. *)
Fixpoint in_turn (n : nat) (w : world) : option world :=
  match n with
  | O => Some w
  | S n' => match wdo w 0 with Some w' => match wdo w' 1 with Some w'' => in_turn n' w'' | None => None end | None => None end
  end.
Lemma in_turn_counted m ip6 k t : forall n w w', counted m ip6 0 k n w -> in_turn t w = Some w' -> counted m ip6 0 k (n + t) w'.
Proof.
  induction t as [|t IH]; intros n w w' C E; cbn [in_turn] in E.
  - injection E as <-. rewrite Nat.add_0_r. exact C.
  - destruct (wdo w 0) as [w1|] eqn:E1; [|discriminate]. destruct (wdo w1 1) as [w2|] eqn:E2; [|discriminate].
    rewrite Nat.add_succ_r. apply (IH (S n) w2 w'); [|exact E]. eapply N_other; [eapply N_do; eauto|]. eapply O_do; [|exact E2]. discriminate.
Qed.
Definition both (m : mode) (ip6 : string -> option (list N)) (w : world) (k : call) (t : nat) : option world :=
  match wcall m ip6 w 0 k with
  | Some w1 => match wcall m ip6 w1 1 k with Some w2 => in_turn t w2 | None => None end
  | None => None
  end.
Lemma both_counted m ip6 w k t w' : both m ip6 w k t = Some w' -> counted m ip6 0 k t w'.
Proof.
  unfold both. intros E. destruct (wcall m ip6 w 0 k) as [w1|] eqn:E1; [|discriminate].
  destruct (wcall m ip6 w1 1 k) as [w2|] eqn:E2; [|discriminate]. apply (in_turn_counted m ip6 k t 0 w2 w'); [|exact E].
  eapply N_other; [eapply N_call; exact E1|]. eapply O_call; [|exact E2]. discriminate.
Qed.
Definition two_read : thread := Busy one_k [] (TRun (ADone (Ret (KVal (VNum 0x0707))))).
Example C75_threads_example : exists w, counted Debug ipv6_from_str 0 one_k 16 w /\ snd w = [two_read; two_read].
Proof.
  exists (fst one_w, [two_read; two_read]). split; [|reflexivity].
  apply (both_counted Debug ipv6_from_str (fst one_w, [Idle; Idle])). vm_compute. reflexivity.
Qed.
