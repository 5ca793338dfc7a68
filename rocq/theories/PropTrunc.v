(** PropTrunc.v -- C79: packets that are cut short, and packets with another payload.

    [extent], [behind_labels] are in TruncSpec.v. *)

From Coq Require Import Lia Permutation.
From Verif Require Import Base Bits BitsProofs Layout Heap HeapProofs Packet PacketProofs Slow Fast Spec Grammar GrammarProofs SlowProofs FastProofs
  PropPacket PropParse EditProofs PropEdit PanicProofs PanicCalls TruncSpec TruncProofs.
Open Scope N_scope.

(** The extent of the headers of a packet. *)
Definition head (p : packet) : nat := extent (map h_ty (p_hdrs p)).
Definition shead (p : packet_slice) : nat := extent (map s_ty (ps_hdrs p)).

(** ** Helpers *)

Lemma hlen_extent f b gs pl : wire f b gs pl -> hlen gs = extent (tys gs).
Proof.
  intros W. unfold hlen, tys. rewrite <- reported_len. pose proof (wire_len _ _ _ _ W) as F.
  induction F as [|[T d] l E F IH]; [reflexivity|]. rewrite seg_bytes_cons, app_length, IH. cbn [map fst snd] in *.
  rewrite extent_cons, E. reflexivity.
Qed.

Lemma sholds_types hs ss : sholds hs ss -> map s_ty hs = map fst ss.
Proof. unfold sholds. induction 1 as [|x s hs ss [T C] F IH]; [reflexivity|]. cbn [map]. congruence. Qed.

Lemma head_hlen f b gs pl h p : wire f b gs pl -> holds h (p_hdrs p) (reported gs) -> head p = hlen gs /\ map h_ty (p_hdrs p) = tys gs.
Proof.
  intros W H. unfold head. rewrite (holds_types _ _ _ H). split; [|reflexivity]. symmetry. apply (hlen_extent _ _ _ _ W).
Qed.
Lemma shead_hlen f b gs pl p : wire f b gs pl -> sholds (ps_hdrs p) (reported gs) -> shead p = hlen gs /\ map s_ty (ps_hdrs p) = tys gs.
Proof.
  intros W H. unfold shead. rewrite (sholds_types _ _ H). split; [|reflexivity]. symmetry. apply (hlen_extent _ _ _ _ W).
Qed.

Lemma firstn_ok n b : bytes_ok b -> bytes_ok (firstn n b).
Proof. intros H. rewrite <- (firstn_skipn n b) in H. apply bytes_ok_app in H. apply H. Qed.

Lemma wire_split f b gs pl : wire f b gs pl -> firstn (hlen gs) b = seg_bytes (concat gs) /\ skipn (hlen gs) b = pl.
Proof.
  intros W. rewrite (wire_bytes _ _ _ _ W). unfold hlen. split.
  - rewrite firstn_app, firstn_all, Nat.sub_diag, firstn_O, app_nil_r. reflexivity.
  - rewrite skipn_app, skipn_all, Nat.sub_diag. reflexivity.
Qed.

Lemma wire_firstn f b gs pl n : wire f b gs pl -> (hlen gs <= n)%nat -> wire f (firstn n b) gs (firstn (n - hlen gs) pl).
Proof.
  intros W Hn. pose proof (wire_payload _ _ _ _ W (firstn (n - hlen gs) pl)) as X.
  rewrite (wire_bytes _ _ _ _ W). rewrite firstn_in by exact Hn. exact X.
Qed.

(** ** C79 *)

(** A packet ends in its payload: the extent of its headers is where the payload begins. *)
Theorem C79_split : forall m f b h p h1, bytes_ok b -> slow m f b h = (Ret p, h1) ->
  (head p <= length b)%nat /\ p_payload p = skipn (head p) b.
Proof.
  intros m f b h p h1 Hb E. destruct (C34_slow_sound m f b h p h1 Hb E) as (gs & W & Hs).
  destruct (head_hlen _ _ _ _ _ _ W Hs) as [-> _]. split.
  - rewrite (wire_bytes _ _ _ _ W), app_length. unfold hlen. lia.
  - symmetry. apply (wire_split _ _ _ _ W).
Qed.
Print Assumptions C79_split.

(** Whatever replaces the payload, the same headers are found and the rest is the payload. *)
Theorem C79_payload : forall m m' f b h p h1 d h2, bytes_ok b -> bytes_ok d -> slow m f b h = (Ret p, h1) ->
  exists q h3, slow m' f (firstn (head p) b ++ d) h2 = (Ret q, h3) /\
    same_headers h1 (p_hdrs p) h3 (p_hdrs q) /\ p_payload q = d.
Proof.
  intros m m' f b h p h1 d h2 Hb Hd E. destruct (C34_slow_sound m f b h p h1 Hb E) as (gs & W & Hs).
  destruct (head_hlen _ _ _ _ _ _ W Hs) as [-> _]. pose proof (firstn_ok (hlen gs) b Hb) as Hf.
  destruct (wire_split _ _ _ _ W) as [Ef _]. rewrite Ef in *.
  assert (Ho : bytes_ok (seg_bytes (concat gs) ++ d)) by (apply bytes_ok_app; auto).
  destruct (C34_slow_complete m' f _ h2 _ _ Ho (wire_payload _ _ _ _ W d)) as (ks & h3 & Eq & Hq).
  exists (Pkt ks d), h3. split; [auto|]. split; [|reflexivity]. eapply holds_same; eauto.
Qed.
Print Assumptions C79_payload.

Theorem C79_payload_fast : forall m m' f b p d, bytes_ok b -> bytes_ok d -> fast m f b = Ret p ->
  exists q, fast m' f (firstn (shead p) b ++ d) = Ret q /\
    Forall2 (fun x y => s_ty y = s_ty x /\ sas_slice y = sas_slice x) (ps_hdrs p) (ps_hdrs q) /\
    v_bytes (ps_payload q) = d.
Proof.
  intros m m' f b p d Hb Hd E. destruct (C34_fast_sound m f b p Hb E) as (gs & W & Hs).
  destruct (shead_hlen _ _ _ _ _ W Hs) as [-> _]. pose proof (firstn_ok (hlen gs) b Hb) as Hf.
  destruct (wire_split _ _ _ _ W) as [Ef _]. rewrite Ef in *.
  assert (Ho : bytes_ok (seg_bytes (concat gs) ++ d)) by (apply bytes_ok_app; auto).
  destruct (C34_fast_complete m' f _ _ _ Ho (wire_payload _ _ _ _ W d)) as (q & Eq & Hq & Pq).
  exists q. split; [auto|]. split; [|auto]. refine (Forall2_meet _ _ _ _ _ _ _ Hs Hq).
  intros x y s [T1 D1] [T2 D2]. split; congruence.
Qed.
Print Assumptions C79_payload_fast.

(** Cut inside the payload, the headers are the same and the payload is shorter ... *)
Theorem C79_cut_payload : forall m m' f b h p h1 n h2, bytes_ok b -> slow m f b h = (Ret p, h1) -> (head p <= n)%nat ->
  exists q h3, slow m' f (firstn n b) h2 = (Ret q, h3) /\
    same_headers h1 (p_hdrs p) h3 (p_hdrs q) /\ p_payload q = firstn (n - head p) (p_payload p).
Proof.
  intros m m' f b h p h1 n h2 Hb E Hn. destruct (C34_slow_sound m f b h p h1 Hb E) as (gs & W & Hs).
  destruct (head_hlen _ _ _ _ _ _ W Hs) as [Eh _]. rewrite Eh in *.
  destruct (C34_slow_complete m' f _ h2 _ _ (firstn_ok n b Hb) (wire_firstn _ _ _ _ n W Hn)) as (ks & h3 & Eq & Hq).
  eexists (Pkt ks _), h3. split; [exact Eq|]. split; [|reflexivity]. eapply holds_same; eauto.
Qed.
Print Assumptions C79_cut_payload.

(** ... cut anywhere before, parsing panics; the message is the one of a slice unless the
    type word is missing or the cut is right behind the labels. *)
Theorem C79_cut_headers : forall m m' f b h p h1 n h2, bytes_ok b -> slow m f b h = (Ret p, h1) -> (n < head p)%nat ->
  exists e h3, slow m' f (firstn n b) h2 = (Panic e, h3) /\ (e = PIndex \/ e = PSlice) /\
    (e = PIndex <-> (f = F_parse /\ (n < 14)%nat) \/ behind_labels (map h_ty (p_hdrs p)) n).
Proof.
  intros m m' f b h p h1 n h2 Hb E Hn. destruct (C34_slow_sound m f b h p h1 Hb E) as (gs & W & Hs).
  destruct (head_hlen _ _ _ _ _ _ W Hs) as [Eh ->]. rewrite Eh in Hn.
  destruct (wire_cut_at _ _ _ _ W n Hn) as (e & C & Ee & Ei).
  pose proof (proj2 (slow_faults m' f _ h2 (firstn_ok n b Hb) e) C) as R.
  destruct (slow m' f (firstn n b) h2) as [o h3]. cbn [fst] in R. subst o. eauto 6.
Qed.
Print Assumptions C79_cut_headers.

(** The same of the fast parser. *)
Theorem C79_cut_fast : forall m m' f b p n, bytes_ok b -> fast m f b = Ret p ->
  ((shead p <= n)%nat ->
   exists q, fast m' f (firstn n b) = Ret q /\
     Forall2 (fun x y => s_ty y = s_ty x /\ sas_slice y = sas_slice x) (ps_hdrs p) (ps_hdrs q) /\
     v_bytes (ps_payload q) = firstn (n - shead p) (v_bytes (ps_payload p))) /\
  ((n < shead p)%nat ->
   exists e, fast m' f (firstn n b) = Panic e /\ (e = PIndex \/ e = PSlice) /\
     (e = PIndex <-> (f = F_parse /\ (n < 14)%nat) \/ behind_labels (map s_ty (ps_hdrs p)) n)).
Proof.
  intros m m' f b p n Hb E. destruct (C34_fast_sound m f b p Hb E) as (gs & W & Hs).
  destruct (shead_hlen _ _ _ _ _ W Hs) as [Eh Et]. rewrite Eh, Et. split; intros Hn.
  - destruct (C34_fast_complete m' f _ _ _ (firstn_ok n b Hb) (wire_firstn _ _ _ _ n W Hn)) as (q & Eq & Hq & Pq).
    exists q. split; [auto|]. split; [|auto]. refine (Forall2_meet _ _ _ _ _ _ _ Hs Hq).
    intros x y s [T1 D1] [T2 D2]. split; congruence.
  - destruct (wire_cut_at _ _ _ _ W n Hn) as (e & C & Ee & Ei). exists e. split; [|auto].
    destruct (fast_res_by m' f _ (firstn_ok n b Hb)) as [(gs' & pl' & W' & _)|(e' & C' & ->)].
    + destruct (wire_cut _ _ _ _ W' (cut_by_cut _ _ _ C)).
    + rewrite (cut_by_fun _ _ _ C _ C'). reflexivity.
Qed.
Print Assumptions C79_cut_fast.

(** So the lengths at which a packet may be cut are exactly those that keep its headers. *)
Theorem C79_lengths : forall m m' f b h p h1 n h2, bytes_ok b -> slow m f b h = (Ret p, h1) ->
  ((exists q h3, slow m' f (firstn n b) h2 = (Ret q, h3)) <-> (head p <= n)%nat).
Proof.
  intros m m' f b h p h1 n h2 Hb E. split.
  - intros (q & h3 & R). destruct (Nat.lt_ge_cases n (head p)) as [H|H]; [|exact H]. exfalso.
    destruct (C79_cut_headers m m' f b h p h1 n h2 Hb E H) as (e & h4 & X & _). congruence.
  - intros H. destruct (C79_cut_payload m m' f b h p h1 n h2 Hb E H) as (q & h3 & X & _). eauto.
Qed.
Print Assumptions C79_lengths.

(** No packet's headers begin another's: if the headers of one are how the bytes of another
    begin, both have the same headers. *)
Theorem C79_prefix_free : forall m m' f b b' h h' p p' h1 h2, bytes_ok b -> bytes_ok b' ->
  slow m f b h = (Ret p, h1) -> slow m' f b' h' = (Ret p', h2) ->
  firstn (head p) b' = firstn (head p) b ->
  head p' = head p /\ same_headers h1 (p_hdrs p) h2 (p_hdrs p').
Proof.
  intros m m' f b b' h h' p p' h1 h2 Hb Hb' E E' Ep.
  assert (Hd : bytes_ok (skipn (head p) b')).
  { rewrite <- (firstn_skipn (head p) b') in Hb'. apply bytes_ok_app in Hb'. apply Hb'. }
  destruct (C79_payload m m' f b h p h1 (skipn (head p) b') h' Hb Hd E) as (q & h3 & Eq & Sq & _).
  rewrite <- Ep, firstn_skipn, E' in Eq. injection Eq as <- <-. split; [|exact Sq].
  unfold head. f_equal. unfold same_headers in Sq. clear - Sq.
  induction Sq as [|x y xs ys [T _] F IH]; [reflexivity|]. cbn [map]. congruence.
Qed.
Print Assumptions C79_prefix_free.

(** *** Examples *)

Definition labelled : list N :=
  [1;2;3;4;5;6; 7;8;9;10;11;12; 0x88;0x47] ++ [0;1;1;64] ++ [0;2;0;64] ++
  [0x45;0;0;20; 0;0;0;0; 64;59;0;0; 10;0;0;1; 10;0;0;2] ++ [0xAB; 0xCD].
Example C79_example_whole : exists p h', slow Debug F_parse labelled [] = (Ret p, h') /\
  map h_ty (p_hdrs p) = [Ether; MPLS; MPLS; IPv4] /\ head p = 42%nat /\ p_payload p = [0xAB; 0xCD].
Proof. do 2 eexists. split; [vm_compute; reflexivity|]. repeat split; reflexivity. Qed.
Example C79_example_cuts :
  map (fun n => fst (slow Debug F_parse (firstn n labelled) [])) [0; 13; 14; 18; 22; 23; 41]%nat =
  [Panic PIndex; Panic PIndex; Panic PSlice; Panic PSlice; Panic PIndex; Panic PSlice; Panic PSlice].
Proof. vm_compute. reflexivity. Qed.
Example C79_example_behind : behind_labels [Ether; MPLS; MPLS; IPv4] 22 /\ ~ behind_labels [Ether; MPLS; MPLS; IPv4] 18.
Proof.
  split.
  - exists [Ether; MPLS], IPv4, []. split; [reflexivity|]. split; [discriminate|reflexivity].
  - intros (t1 & T & t2 & E & HT & En).
    pose proof (f_equal (fun l => nth 0 l Ether) E) as E0. pose proof (f_equal (fun l => nth 1 l Ether) E) as E1.
    pose proof (f_equal (fun l => nth 2 l Ether) E) as E2. pose proof (f_equal (@length htype) E) as EL.
    destruct t1 as [|A [|B [|C t1]]]; cbn [nth app length] in *.
    + discriminate En.
    + congruence.
    + subst A B. discriminate En.
    + subst A B C. rewrite !extent_cons in En. cbn in En. lia.
Qed.
Example C79_example_snap : exists q h', slow Release F_parse (firstn 43 labelled) [] = (Ret q, h') /\ p_payload q = [0xAB].
Proof. do 2 eexists. split; [vm_compute; reflexivity|]. reflexivity. Qed.
(** From another entry point the first header is copied out of a slice. *)
Example C79_example_other_entry : fst (slow Debug F_ethernet (firstn 13 labelled) []) = Panic PSlice.
Proof. vm_compute. reflexivity. Qed.
