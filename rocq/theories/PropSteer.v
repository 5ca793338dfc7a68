(** PropSteer.v -- C96: which bits of the input steer the parsers. *)

From Coq Require Import Lia.
From Verif Require Import Base Bits BitsProofs Types Layout Heap Packet Slow Fast Spec Grammar DepthSpec SteerSpec
  GrammarProofs BuildProofs SlowProofs FastProofs PanicCalls PropParse SteerProofs.
Open Scope N_scope.

(** Inputs of one length that agree in the bits that steer the first: the parsers
    find headers of the same types at the same places, or panic alike. *)
Theorem C96_fast : forall m m' f b b', bytes_ok b -> bytes_ok b' -> alike f b b' ->
  same_form (fast m f b) (fast m' f b').
Proof.
  intros m m' f b b' Hb Hb' A. destruct (fast_res_by m f b Hb) as [(gs & pl & W & ->)|(e & C & ->)].
  - destruct (alike_wire _ _ _ _ W b' Hb Hb' A) as (gs' & pl' & W' & F & P).
    destruct (fast_res_by m' f b' Hb') as [(gs2 & pl2 & W2 & ->)|(e & C & _)].
    2: { destruct (wire_cut _ _ _ _ W' (cut_by_cut _ _ _ C)). }
    destruct (wire_fun _ _ _ _ W' _ _ W2) as [<- <-].
    destruct (place_form b b' gs gs' 0 (eq_sym F)) as [Q L]. cbn [same_form ps_hdrs ps_payload]. split.
    + apply shdrs_form. exact Q.
    + split; cbn [v_off v_len]; congruence.
  - pose proof (alike_cut _ _ _ C b' Hb Hb' A) as C'.
    destruct (fast_res_by m' f b' Hb') as [(gs2 & pl2 & W2 & _)|(e' & C2 & ->)].
    + destruct (wire_cut _ _ _ _ W2 (cut_by_cut _ _ _ C')).
    + cbn [same_form]. eapply cut_by_fun; eauto.
Qed.
Print Assumptions C96_fast.

Theorem C96_slow : forall m m' f b b' h h', bytes_ok b -> bytes_ok b' -> alike f b b' ->
  same_form_slow (fst (slow m f b h)) (fst (slow m' f b' h')).
Proof.
  intros m m' f b b' h h' Hb Hb' A.
  assert (Ty : forall h hs ss, Forall2 (seg_at h) hs ss -> map h_ty hs = map fst ss).
  { induction 1 as [|x s hs ss [T _] _ IH]; cbn [map]; congruence. }
  destruct (slow_res_by m f b h Hb) as [(gs & pl & hs & l & W & -> & F & _)|(e & l & C & ->)].
  - destruct (alike_wire _ _ _ _ W b' Hb Hb' A) as (gs' & pl' & W' & Fm & P).
    destruct (slow_res_by m' f b' h' Hb') as [(gs2 & pl2 & hs2 & l2 & W2 & -> & F2 & _)|(e & l2 & C & _)].
    2: { destruct (wire_cut _ _ _ _ W' (cut_by_cut _ _ _ C)). }
    destruct (wire_fun _ _ _ _ W' _ _ W2) as [<- <-].
    cbn [fst same_form_slow p_hdrs p_payload]. rewrite (Ty _ _ _ F), (Ty _ _ _ F2).
    split; [apply form_types; congruence|congruence].
  - pose proof (alike_cut _ _ _ C b' Hb Hb' A) as C'.
    destruct (slow_res_by m' f b' h' Hb') as [(gs2 & pl2 & hs2 & l2 & W2 & _)|(e' & l2 & C2 & ->)].
    + destruct (wire_cut _ _ _ _ W2 (cut_by_cut _ _ _ C')).
    + cbn [fst same_form_slow]. eapply cut_by_fun; eauto.
Qed.
Print Assumptions C96_slow.

(** It does not matter which of the two is asked what steers it. *)
Theorem C96_either : forall f b b', bytes_ok b -> bytes_ok b' ->
  (alike f b b' <-> alike f b' b) /\ (alike f b b' -> forall i, steers f b i <-> steers f b' i).
Proof.
  intros f b b' Hb Hb'. split; [split; apply alike_sym; auto|]. intros A i.
  split; intros S; eapply alike_steers; eauto. apply alike_sym; auto.
Qed.
Print Assumptions C96_either.

(** They also need the same stack. *)
Theorem C96_depth : forall f b b' n, bytes_ok b -> bytes_ok b' -> alike f b b' -> nests f b n -> nests f b' n.
Proof. intros f b b' n Hb Hb' A K. eapply alike_nests; eauto. Qed.
Print Assumptions C96_depth.

Lemma alike_refl f b : alike f b b.
Proof. split; auto. Qed.

Lemma code_agree m f b h : bytes_ok b -> code_slow (fst (slow m f b h)) = code (fast Debug f b).
Proof.
  intros Hb. assert (Ty : forall h hs ss, Forall2 (seg_at h) hs ss -> map (fun x => ht_id (h_ty x)) hs = map (fun s : seg => ht_id (fst s)) ss).
  { induction 1 as [|x s hs ss [T _] _ IH]; cbn [map]; congruence. }
  destruct (slow_res_by m f b h Hb) as [(gs & pl & hs & l & W & -> & F & _)|(e & l & C & ->)].
  - destruct (C34_fast_complete Debug f b gs pl Hb W) as (q & -> & Hs & _). cbn [fst code_slow code p_hdrs].
    rewrite (Ty _ _ _ F). f_equal. clear -Hs. induction Hs as [|x s hs ss [T _] _ IH]; cbn [map]; congruence.
  - destruct (proj1 (C34_fast_panics Debug f b Hb) (cut_by_cut _ _ _ C)) as (e' & ->). reflexivity.
Qed.

Lemma needed_form f b b' : bytes_ok b -> bytes_ok b' ->
  codes_differ (code (fast Debug f b)) (code (fast Debug f b')) = true ->
  (forall m m', ~ same_form (fast m f b) (fast m' f b')) /\
  (forall m m' h h', ~ same_form_slow (fst (slow m f b h)) (fst (slow m' f b' h'))).
Proof.
  intros Hb Hb' H. assert (N : code (fast Debug f b) <> code (fast Debug f b')).
  { unfold codes_differ in H. destruct (list_eq_dec _ _ _); [discriminate|auto]. }
  assert (M : forall m c, bytes_ok c -> code (fast m f c) = code (fast Debug f c)).
  { intros m c Hc. apply same_form_code, C96_fast; auto. apply alike_refl. }
  split.
  - intros m m' S. apply same_form_code in S. rewrite (M m b Hb), (M m' b' Hb') in S. auto.
  - intros m m' h h' S. apply same_form_slow_code in S. rewrite !code_agree in S by auto. auto.
Qed.

(** Every bit that decides somewhere can matter: there are inputs that differ in it
    alone and are read differently by both parsers. *)
Theorem C96_needed : forall f i, decides f i -> exists b b', bytes_ok b /\ bytes_ok b' /\ turned b b' i /\
  (forall m m', ~ same_form (fast m f b) (fast m' f b')) /\
  (forall m m' h h', ~ same_form_slow (fst (slow m f b h)) (fst (slow m' f b' h'))).
Proof.
  intros f i D. apply needed_in in D. pose proof needed_all as W. rewrite forallb_forall in W.
  specialize (W f (all_pfuns f)). rewrite forallb_forall in W. specialize (W i D).
  apply andb_true_iff in W. destruct W as [W1 W2]. apply Nat.ltb_lt in W1.
  exists (witness f), (turn (witness f) i). pose proof (witness_ok f) as O. split; auto.
  split; [apply turn_ok; auto|]. split; [apply turn_turned; auto|]. apply needed_form; auto. apply turn_ok; auto.
Qed.
Print Assumptions C96_needed.

(** An ARP frame is steered by its type word alone: addresses, ARP fields and what
    follows may be anything. *)
Example C96_example_arp : forall d d' a a', length d = 12%nat -> length d' = 12%nat -> length a = length a' ->
  bytes_ok (d ++ [8; 6] ++ a) -> bytes_ok (d' ++ [8; 6] ++ a') ->
  same_form (fast Debug F_ethernet (d ++ [8; 6] ++ a)) (fast Debug F_ethernet (d' ++ [8; 6] ++ a')).
Proof.
  intros d d' a a' L L' La Hb Hb'. apply C96_fast; auto. split; [rewrite !app_length; cbn [length]; lia|].
  intros i S. apply arp_steers in S; auto. rewrite !bit_app, L, L'.
  destruct (Nat.ltb_spec i (8 * 12)); [lia|]. cbn [length].
  destruct (Nat.ltb_spec (i - 8 * 12) (8 * 2)); [reflexivity|lia].
Qed.

(** One bit of the type word: VLAN or not. *)
Example C96_example_bit : turned (repeat 0 12 ++ [0x81; 0; 0; 0; 0; 0]) (repeat 0 12 ++ [0x81; 1; 0; 0; 0; 0]) 111 /\
  ~ same_form (fast Debug F_parse (repeat 0 12 ++ [0x81; 0; 0; 0; 0; 0])) (fast Debug F_parse (repeat 0 12 ++ [0x81; 1; 0; 0; 0; 0])).
Proof.
  split.
  - change (repeat 0 12 ++ [0x81; 1; 0; 0; 0; 0]) with (turn (repeat 0 12 ++ [0x81; 0; 0; 0; 0; 0]) 111).
    apply turn_turned. cbn. lia.
  - intros S. apply same_form_code in S. vm_compute in S. discriminate.
Qed.
