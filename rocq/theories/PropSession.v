(** PropSession.v -- C91: a packet after any sequence of packet and header calls. *)

From Coq Require Import Lia.
From Verif Require Import Base Bits Types Layout Heap Packet Ops Spec BitsProofs HeapProofs PacketProofs OpsProofs RemainsSpec EditsSpec
  EditsProofs SessionSpec SessionProofs.
Open Scope N_scope.

(** Its headers and its payload. *)
Theorem C91_packet : forall m cs p h bs p' h', session m cs p h = (bs, (p', h')) ->
  p_hdrs p' = stack (p_hdrs p) (deeds cs bs) /\ p_payload p' = load (p_payload p) (deeds cs bs).
Proof. intros m cs p h bs p' h' E. exact (session_stack m p h cs bs p' h' E). Qed.
Print Assumptions C91_packet.

Lemma c91_flat h' (l : list hdr) (f : nat -> list N) : Forall (fun x => data h' (h_ref x) = f (h_ref x)) l ->
  flat_map (fun x => data h' (h_ref x)) l = flat_map (fun x => f (h_ref x)) l.
Proof. intros F. induction F as [|x t E F IH]; cbn [flat_map]; auto. rewrite IH, E. reflexivity. Qed.

(** The bytes [to_vec] returns. *)
Theorem C91_wire : forall m cs p h bs p' h' v h'', heap_ok h -> Forall pcall_typed cs -> session m cs p h = (bs, (p', h')) ->
  Forall pcall_ends (combine cs bs) -> to_vec p' h' = (Ret v, h'') -> v = wire p h (deeds cs bs).
Proof.
  intros m cs p h bs p' h' v h'' Hh Ht E U V. destruct (session_now m p h cs bs p' h' Hh Ht E U) as (A & _ & C). destruct (session_stack m p h cs bs p' h' E) as (S1 & L1).
  unfold to_vec, bind in V. destruct (concat_vecs (p_hdrs p') h') as [[w| | | |] h1] eqn:X; try discriminate V. injection V as <- _.
  apply concat_ret in X as [-> F]. unfold wire. rewrite S1 in *. rewrite L1. f_equal. apply c91_flat.
  eapply Forall_impl; [|exact F]. cbv beta. intros x P. destruct (C _ P) as [C1 C2].
  unfold bytes_now. rewrite <- C1. apply octets_of_bits; auto. apply data_ok; auto.
Qed.
Print Assumptions C91_wire.

(** It returns them if every call before did. *)
Theorem C91_returns : forall m cs p h bs p' h', heap_ok h -> unpoisoned h -> Forall pcall_typed cs -> session m cs p h = (bs, (p', h')) ->
  Forall (fun b => b = true) bs -> Forall (fun x => (h_ref x < length h')%nat) (stack (p_hdrs p) (deeds cs bs)) ->
  to_vec p' h' = (Ret (wire p h (deeds cs bs)), h').
Proof.
  intros m cs p h bs p' h' Hh Un Ht E R L.
  assert (U : Forall pcall_ends (combine cs bs)).
  { apply Forall_forall. intros [c b] I. apply in_combine_r in I. rewrite Forall_forall in R. specialize (R _ I). subst b. destruct c as [[]| | | | | | |]; exact Logic.I. }
  destruct (session_stack m p h cs bs p' h' E) as (S1 & L1). rewrite <- S1 in L.
  assert (V : to_vec p' h' = (Ret (flat_map (fun x => data h' (h_ref x)) (p_hdrs p') ++ p_payload p'), h')).
  { unfold to_vec, bind. rewrite (concat_returns _ _ (session_stays m cs p h bs p' h' Un E R) L). reflexivity. }
  rewrite V. do 2 f_equal. eapply C91_wire; eauto.
Qed.
Print Assumptions C91_returns.

(** [len], [payload], and [p[name]]. *)
Theorem C91_looks : forall m cs p h bs p' h', session m cs p h = (bs, (p', h')) ->
  pkt_len p' = (list_sum (map hlen (stack (p_hdrs p) (deeds cs bs))) + length (load (p_payload p) (deeds cs bs)))%nat /\
  payload p' = load (p_payload p) (deeds cs bs) /\
  (forall name x, fst (index_name p' name h') = Ret x <->
    exists l l', stack (p_hdrs p) (deeds cs bs) = l ++ x :: l' /\ hname x = name /\ Forall (fun y => hname y <> name) l) /\
  forall name, fst (index_name p' name h') = Panic PUnwrap <-> Forall (fun y => hname y <> name) (stack (p_hdrs p) (deeds cs bs)).
Proof.
  intros m cs p h bs p' h' E. destruct (session_stack m p h cs bs p' h' E) as (S1 & L1).
  unfold pkt_len, payload, index_name. rewrite S1, L1. split; auto. split; auto.
  generalize (stack (p_hdrs p) (deeds cs bs)) as l. clear. intros l. split; intros name.
  2:{ induction l as [|y t IH]; cbn [find_name]; [split; auto|]. destruct (String.eqb_spec (hname y) name) as [N|N].
      - split; [discriminate|]. intros X. inversion X; congruence.
      - rewrite IH. split; intros X; [constructor; auto|inversion X; auto]. }
  intros x. induction l as [|y t IH]; cbn [find_name].
  - split; [discriminate|]. intros (l & l' & X & _). destruct l; discriminate X.
  - destruct (String.eqb_spec (hname y) name) as [N|N].
    + split.
      * intros X. injection X as <-. exists [], t. auto.
      * intros ([|z l] & l' & X & Y & Z); injection X as -> _; auto. inversion Z; congruence.
    + rewrite IH. split.
      * intros (l & l' & -> & Y & Z). exists (y :: l), l'. auto.
      * intros ([|z l] & l' & X & Y & Z); injection X as -> ->; [congruence|]. inversion Z; subst. exists l, l'. auto.
Qed.
Print Assumptions C91_looks.

(** ** Concrete cases *)

Definition c91_T : htype := {| ht_id := 0; ht_size := 2; ht_name := "two"; ht_fields := []; ht_default := [1; 2] |}.
Definition c91_hdr (r : nat) : hdr := {| h_ty := c91_T; h_ref := r |}.
(** Two headers, one pushed twice and edited afterwards; one taken out; payload in two parts. *)
Definition c91_cs : list pcall :=
  [C_hdr (ONew c91_T); C_hdr (OFrom c91_T [9; 9; 9]); C_push (Owned (c91_hdr 0)); C_payload [7]; C_push (Owned (c91_hdr 1));
   C_insert (Owned (c91_hdr 0)); C_hdr (OSetBitRange (c91_hdr 0) 3 0 15); C_remove 2; C_clone; C_payload [8]].
Example C91_example : exists bs h', forall m, session m c91_cs pkt_new [] = (bs, (Pkt [c91_hdr 0; c91_hdr 0] [7; 8], h')) /\
  Forall (fun b => b = true) bs /\ Forall pcall_typed c91_cs /\
  Forall (fun x => (h_ref x < length h')%nat) (stack [] (deeds c91_cs bs)) /\
  wire pkt_new [] (deeds c91_cs bs) = [241; 2; 241; 2; 7; 8].
Proof.
  exists (repeat true 10), [Cell [241; 2] false; Cell [9; 9; 9] false]. intros m. split; [destruct m; reflexivity|].
  split; [repeat constructor|]. split; [repeat constructor|]. split; [repeat constructor|reflexivity].
Qed.

(** The length [len] gives is that of the
    declarations, not always that of what goes on the wire. *)
Theorem C91_len_refuted : exists cs bs p' h', Forall pcall_typed cs /\ (forall m, session m cs pkt_new [] = (bs, (p', h'))) /\
  Forall (fun b => b = true) bs /\ pkt_len p' <> length (wire pkt_new [] (deeds cs bs)).
Proof.
  exists [C_hdr (OFrom c91_T [9; 9; 9]); C_push (Owned (c91_hdr 0))], [true; true], (Pkt [c91_hdr 0] []), [Cell [9; 9; 9] false].
  split; [repeat constructor|]. split; [intros []; reflexivity|]. split; [repeat constructor|]. vm_compute. discriminate.
Qed.
Print Assumptions C91_len_refuted.
(** One header torn, so that copying to it panics too; the packet holds the other. *)
Definition c91_torn : list pcall :=
  [C_hdr (ONew c91_T); C_hdr (ONew c91_T); C_push (Owned (c91_hdr 1)); C_hdr (OSetBytes (c91_hdr 0) 31 0 [3; 4; 5; 6]);
   C_hdr (OReplace (c91_hdr 0) (c91_hdr 1)); C_payload [5]; C_hdr (OSetBitRange (c91_hdr 1) 7 0 9)].
Example C91_torn_example : exists bs h', forall m, session m c91_torn pkt_new [] = (bs, (Pkt [c91_hdr 1] [5], h')) /\
  Forall pcall_typed c91_torn /\ Forall pcall_ends (combine c91_torn bs) /\ bs = [true; true; true; false; false; true; true] /\
  poisoned_at h' 0 /\ to_vec (Pkt [c91_hdr 1] [5]) h' = (Ret [9; 2; 5], h') /\ wire pkt_new [] (deeds c91_torn bs) = [9; 2; 5].
Proof.
  exists [true; true; true; false; false; true; true], [Cell [3; 4] true; Cell [9; 2] false]. intros m.
  split; [destruct m; reflexivity|]. split; [repeat constructor|]. split; [repeat constructor; discriminate|].
  split; [reflexivity|]. split; [exists [3; 4]; reflexivity|]. split; reflexivity.
Qed.
