(** PropPoison.v -- C101: how many buffers panics poison. *)

From Coq Require Import Lia.
From Verif Require Import Base Bits Types Layout Heap Packet Text Build Utils Slow Fast Show Ops Client Spec PoisonSpec PoisonProofs.
Open Scope N_scope.

(** ** One call *)

(** For any arguments and any buffers. No call makes a poisoned buffer usable again; a panic poisons
    at most one buffer, old or made by the call; any other outcome poisons none. *)
Theorem C101_call : forall m ip6 k h o h', kexec m ip6 k h = (o, h') ->
  (forall r, poisoned_at h r -> poisoned_at h' r) /\
  (forall r s, newly_poisoned h h' r -> newly_poisoned h h' s -> r = s) /\
  ((forall e, o <> Panic e) -> forall r, poisoned_at h' r -> poisoned_at h r).
Proof.
  intros m ip6 k h o h' E. destruct (tame_kexec m ip6 k h o h' E) as (A & B & C). split; [exact A|]. split; [exact B|].
  intros D r P. destruct (is_poisoned h r) eqn:Q; [apply is_poisoned_iff, Q|]. destruct (C D r). split; [exact P|].
  intros X. apply is_poisoned_iff in X. congruence.
Qed.
Print Assumptions C101_call.

(** Reading a field that lies outside the buffer poisons that buffer and leaves the other alone. *)
Example C101_call_example : forall m ip6, let h := [Cell [1] false; Cell [2; 3] false; Cell [] true] in
  exists h', kexec m ip6 (K_hdr (OGet (Hdr Ether 1) Ether_etype)) h = (Panic PIndex, h') /\
  poisoned_at h' 1 /\ ~ poisoned_at h' 0 /\ poisoned_at h' 2.
Proof.
  intros m ip6 h. exists [Cell [1] false; Cell [2; 3] true; Cell [] true].
  split; [destruct m; vm_compute; reflexivity|]. unfold poisoned_at. cbn. split; [eauto|]. split; [intros [d E]; discriminate|eauto].
Qed.
(** A parser that panics after it has made a buffer. *)
Example C101_new_example : forall m ip6 h, h = [Cell [1] true] ->
  exists o h', kexec m ip6 (K_parse F_ethernet (repeat 7 12 ++ [8; 0; 69; 0])) h = (o, h') /\ o = Panic PSlice /\ length h' = 2%nat /\ (forall r, poisoned_at h' r <-> r = 0%nat).
Proof.
  intros m ip6 h ->. eexists _, _. split; [destruct m; vm_compute; reflexivity|]. split; [reflexivity|]. split; [reflexivity|].
  unfold poisoned_at. intros [|[|[|r]]]; cbn; (split; [intros [d E]; congruence|intros E; try discriminate E; eauto]).
Qed.

(** ** Programs *)

(** Calls that panicked [n] times poisoned at most [n] buffers. *)
Theorem C101_program : forall m ip6 l h os h', program m ip6 l h = (os, h') ->
  (forall r, poisoned_at h r -> poisoned_at h' r) /\
  (forall rs, NoDup rs -> Forall (newly_poisoned h h') rs -> (length rs <= panics os)%nat).
Proof. exact program_poison. Qed.
Print Assumptions C101_program.

(** So a program none of whose calls panicked has no poisoned buffer, whatever else happened. *)
Theorem C101_none : forall m ip6 l os h', program m ip6 l [] = (os, h') -> panics os = 0%nat -> forall r, ~ poisoned_at h' r.
Proof.
  intros m ip6 l os h' E Z r P. destruct (program_poison m ip6 l [] os h' E) as [_ C].
  assert (X : (length [r] <= panics os)%nat).
  { apply C; [constructor; [intros []|constructor]|]. constructor; [|constructor]. split; auto.
    intros [d Y]. destruct r; discriminate Y. }
  rewrite Z in X. cbn in X. lia.
Qed.
Print Assumptions C101_none.

(** No fewer: for every [n] there is a program with [n] panics and [n] poisoned buffers. *)
Definition breaks (n : nat) : list call :=
  flat_map (fun i => [K_hdr (OFrom Ether []); K_hdr (OBitRange (Hdr Ether i) 0 0)]) (seq 0 n).
Lemma breaks_from m ip6 : forall n k, exists os,
  program m ip6 (flat_map (fun i => [K_hdr (OFrom Ether []); K_hdr (OBitRange (Hdr Ether i) 0 0)]) (seq k n)) (repeat (Cell [] true) k) =
  (os, repeat (Cell [] true) (k + n)) /\ panics os = n.
Proof.
  induction n as [|n IH]; intros k; cbn [seq flat_map app program].
  - exists []. rewrite Nat.add_0_r. auto.
  - assert (E1 : kexec m ip6 (K_hdr (OFrom Ether [])) (repeat (Cell [] true) k) =
      (Ret (KHdr (Hdr Ether k)), repeat (Cell [] true) k ++ [Cell [] false])).
    { cbn. rewrite repeat_length. reflexivity. }
    rewrite E1.
    assert (E2 : kexec m ip6 (K_hdr (OBitRange (Hdr Ether k) 0 0)) (repeat (Cell [] true) k ++ [Cell [] false]) =
      (Panic PIndex, repeat (Cell [] true) (S k))).
    { cbn [kexec hexec]. unfold bind, hbit_range, bind. cbn [h_ref range_len Nat.ltb]. change (range_len 0 0) with 1%nat.
      cbn [hget_loop]. unfold bind, with_lock. rewrite nth_error_app2 by (rewrite repeat_length; lia).
      rewrite repeat_length, Nat.sub_diag. cbn -[repeat upd]. f_equal.
      replace (S k) with (k + 1)%nat by lia. rewrite repeat_app. clear.
      induction k as [|k IH]; [reflexivity|]. cbn. f_equal. exact IH. }
    rewrite E2. destruct (IH (S k)) as (os & -> & P). eexists. split; [f_equal; f_equal; lia|]. cbn. f_equal. exact P.
Qed.
Theorem C101_tight : forall m ip6 n, exists os h' rs, program m ip6 (breaks n) [] = (os, h') /\ panics os = n /\
  NoDup rs /\ length rs = n /\ Forall (poisoned_at h') rs.
Proof.
  intros m ip6 n. destruct (breaks_from m ip6 n 0) as (os & E & P). exists os, (repeat (Cell [] true) n), (seq 0 n).
  split; [exact E|]. split; [exact P|]. split; [apply seq_NoDup|]. split; [apply seq_length|]. apply Forall_forall.
  intros r I. apply in_seq in I. exists []. rewrite nth_error_repeat by lia. reflexivity.
Qed.
Print Assumptions C101_tight.

Example C101_program_example : forall m ip6, exists os h',
  program m ip6 [K_hdr (OFrom Ether [1; 2]); K_mac "1:2:3:4:5:6:7"; K_hdr (OGet (Hdr Ether 0) Ether_src); K_hdr (OToVec (Hdr Ether 0))] [] = (os, h') /\
  panics os = 3%nat /\ poisoned_at h' 0 /\ length h' = 1%nat.
Proof. intros m ip6. eexists _, _. split; [destruct m; vm_compute; reflexivity|]. unfold poisoned_at. cbn. eauto. Qed.

(** ** Not so *)

(** That every panic poisons a buffer. *)
Theorem C101_every_refuted : ~ (forall m ip6 k h e h', kexec m ip6 k h = (Panic e, h') -> exists r, poisoned_at h' r).
Proof.
  intros H. specialize (H Debug (fun _ => None) (K_mac "1:2:3:4:5:6:7") []). 
  destruct (kexec Debug (fun _ => None) (K_mac "1:2:3:4:5:6:7") []) as [o h'] eqn:E. vm_compute in E. injection E as <- <-.
  destruct (H _ _ eq_refl) as [[|r] [d X]]; discriminate X.
Qed.
Print Assumptions C101_every_refuted.

(** That a call that finds a buffer poisoned poisons no other: [x.replace(&y)] with [y] poisoned
    poisons [x]. *)
Theorem C101_spread_refuted : ~ (forall m ip6 k h h' r, kexec m ip6 k h = (Panic PPoison, h') -> poisoned_at h' r -> poisoned_at h r).
Proof.
  intros H. specialize (H Debug (fun _ => None) (K_hdr (OReplace (Hdr Ether 0) (Hdr Ether 1))) [Cell [1] false; Cell [2] true] _ 0%nat eq_refl).
  destruct H as [d X]; [exists []; reflexivity|]. discriminate X.
Qed.
Print Assumptions C101_spread_refuted.
