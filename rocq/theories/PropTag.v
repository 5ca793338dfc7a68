(** PropTag.v -- C102: IEEE 802.1Q tags.

    [tagged], [tagged_with] and [type_bytes] are in TagSpec.v. *)

From Coq Require Import Lia.
From Verif Require Import Base Bits BitsProofs Layout Heap HeapProofs Packet PacketProofs Slow Fast Spec Grammar GrammarProofs SlowProofs FastProofs
  PropPacket PropParse PanicProofs PanicCalls TagSpec TagProofs.
Open Scope N_scope.

(** Both parsers, from any heap, report the headers [l], from outermost to innermost, and payload [pl]. *)
Definition reports (m : mode) (f : pfun) (b : list N) (l : list (htype * list N)) (pl : list N) : Prop :=
  (forall h, exists hs h', slow m f b h = (Ret (Pkt hs pl), h') /\ holds h' hs l) /\
  (exists q, fast m f b = Ret q /\ sholds (ps_hdrs q) l /\ v_bytes (ps_payload q) = pl).
(** Both parsers, from any heap, panic with [e]. *)
Definition refuses (m : mode) (f : pfun) (b : list N) (e : fault) : Prop :=
  (forall h, fst (slow m f b h) = Panic e) /\ fast m f b = Panic e.
(** A frame that [f] takes for Ethernet II; [F_parse] is [slow::parse] and [fast::parse]. *)
Definition ethernet_ii (f : pfun) (b : list N) : Prop :=
  f = F_ethernet \/ (f = F_parse /\ 1500 <= be (type_bytes b)).

(** ** Helpers *)

Lemma holds_fun h hs l l' : holds h hs l -> holds h hs l' -> l = l'.
Proof.
  unfold holds. intros H. revert l'. induction H as [|x [T d] hs l [ET C] H IH]; intros l' H'; inversion H' as [|x0 [T' d'] hs0 l0 [ET' C'] H0]; subst; [auto|].
  cbn [fst snd] in *. f_equal; [|auto]. unfold cell_at in *. congruence.
Qed.
Lemma reports_wire m f b l pl : bytes_ok b -> (reports m f b l pl <-> exists gs, wire f b gs pl /\ l = reported gs).
Proof.
  intros Hb. split.
  - intros [Sl _]. destruct (Sl []) as (hs & h' & E & H). destruct (C34_slow_sound m f b [] _ h' Hb E) as (gs & W & H').
    exists gs. split; [exact W|]. exact (holds_fun _ _ _ _ H H').
  - intros (gs & W & ->). split; [intros h; apply C34_slow_complete; auto|]. destruct (C34_fast_complete m f b gs pl Hb W) as (q & E & H & P). eauto.
Qed.
Lemma refuses_cut m f b e : bytes_ok b -> (refuses m f b e <-> cut_by f b e).
Proof.
  intros Hb. split.
  - intros [Sl _]. apply (slow_faults m f b [] Hb), (Sl []).
  - intros C. split; [intros h; apply (slow_faults m f b h Hb), C|].
    destruct (fast_res_by m f b Hb) as [(gs & pl & W & _)|(e' & C' & ->)]; [destruct (wire_cut _ _ _ _ W (cut_by_cut _ _ _ C))|].
    rewrite (cut_by_fun _ _ _ C _ C'). reflexivity.
Qed.
Lemma tagged_ok w tci b : bytes_ok b -> bytes_ok tci -> bytes_ok w -> bytes_ok (tagged_with w tci b).
Proof.
  intros Hb Ht Hw. rewrite <- (firstn_skipn 12 b) in Hb. apply bytes_ok_app in Hb. destruct Hb as [A B]. unfold tagged_with.
  repeat (apply bytes_ok_app; split); auto.
Qed.
Lemma tpid_ok : bytes_ok [0x81; 0x00].
Proof. repeat constructor. Qed.
Lemma wire_ii f a t r gs pl : length a = 12%nat -> length t = 2%nat -> (f = F_ethernet \/ f = F_parse /\ 1500 <= be t) ->
  (wire f (a ++ t ++ r) gs pl <-> wire F_ethernet (a ++ t ++ r) gs pl).
Proof.
  intros La Lt [->|[-> L]]; [tauto|]. rewrite wire_parse by auto. apply N.ltb_ge in L. rewrite L. tauto.
Qed.
Lemma cut_ii f a t r e : length a = 12%nat -> length t = 2%nat -> (f = F_ethernet \/ f = F_parse /\ 1500 <= be t) ->
  (cut_by f (a ++ t ++ r) e <-> cut_by F_ethernet (a ++ t ++ r) e).
Proof.
  intros La Lt [->|[-> L]]; [tauto|]. rewrite cut_parse by auto. apply N.ltb_ge in L. rewrite L. tauto.
Qed.
Lemma tag_ii f t : (f = F_ethernet \/ f = F_parse /\ 1500 <= be t) -> f = F_ethernet \/ f = F_parse /\ 1500 <= be [0x81; 0x00].
Proof. intros [->|[-> _]]; [auto|]. right. split; [auto|]. vm_compute. discriminate. Qed.

(** ** A tag is transparent *)

(** An Ethernet II frame starts with its Ethernet header, with the tag also with the tag ... *)
Theorem C102_starts : forall m f b tci l pl, bytes_ok b -> bytes_ok tci -> length tci = 2%nat -> (14 <= length b)%nat -> ethernet_ii f b ->
  (reports m f b l pl -> exists l', l = (Ether, firstn 14 b) :: l') /\
  (reports m f (tagged tci b) l pl -> exists l',
     l = (Ether, firstn 12 b ++ [0x81; 0x00]) :: (Vlan, tci ++ type_bytes b) :: l').
Proof.
  intros m f b tci l pl Hb Ht Lt L I. pose proof (tagged_ok [0x81; 0x00] tci b Hb Ht tpid_ok) as Hg. change (bytes_ok (tagged tci b)) in Hg.
  rewrite !reports_wire by auto. destruct (frame_parts b L) as (a & t & r & E & La & L2 & Ea & Et & Er & E14 & _).
  unfold ethernet_ii in I. unfold tagged. rewrite Ea, Er, Et, E14 in *. rewrite E. split; intros (gs & W & ->).
  - apply wire_ii, wire_ether in W; auto. destruct W as (gs' & -> & _). exists (reported gs'). reflexivity.
  - apply wire_ii, wire_ether in W; auto; [|eapply tag_ii; eauto]. destruct W as (gs' & -> & W).
    change (entry ethertypes (be [0x81; 0x00])) with F_vlan in W. apply wire_vlan in W; auto. destruct W as (gs2 & -> & _).
    exists (reported gs2). reflexivity.
Qed.
Print Assumptions C102_starts.

(** ... and the headers behind and the payload are those without the tag, in any build mode. *)
Theorem C102_tag : forall m m' f b tci l pl, bytes_ok b -> bytes_ok tci -> length tci = 2%nat -> (14 <= length b)%nat -> ethernet_ii f b ->
  (reports m f b ((Ether, firstn 14 b) :: l) pl <->
   reports m' f (tagged tci b) ((Ether, firstn 12 b ++ [0x81; 0x00]) :: (Vlan, tci ++ type_bytes b) :: l) pl).
Proof.
  intros m m' f b tci l pl Hb Ht Lt L I. pose proof (tagged_ok [0x81; 0x00] tci b Hb Ht tpid_ok) as Hg. change (bytes_ok (tagged tci b)) in Hg.
  rewrite !reports_wire by auto. destruct (frame_parts b L) as (a & t & r & E & La & L2 & Ea & Et & Er & E14 & _).
  unfold ethernet_ii in I. unfold tagged. rewrite Ea, Er, Et, E14 in *. rewrite E. split; intros (gs & W & R).
  - apply wire_ii, wire_ether in W; auto. destruct W as (gs' & -> & W). injection R as R.
    exists ([(Ether, a ++ [0x81; 0x00])] :: [] :: [(Vlan, tci ++ t)] :: [] :: gs'). split; [|rewrite R; reflexivity].
    apply wire_ii; auto; [eapply tag_ii; eauto|]. apply wire_ether; auto. eexists. split; [reflexivity|].
    apply wire_vlan; auto. eexists. split; [reflexivity|]. exact W.
  - apply wire_ii, wire_ether in W; auto; [|eapply tag_ii; eauto]. destruct W as (gs' & -> & W).
    change (entry ethertypes (be [0x81; 0x00])) with F_vlan in W. apply wire_vlan in W; auto. destruct W as (gs2 & -> & W). injection R as R.
    exists ([(Ether, a ++ t)] :: [] :: gs2). split; [|rewrite R; reflexivity]. apply wire_ii; auto. apply wire_ether; auto. eauto.
Qed.
Print Assumptions C102_tag.

(** A tag neither causes nor prevents a panic. *)
Theorem C102_panics : forall m m' f b tci e, bytes_ok b -> bytes_ok tci -> length tci = 2%nat -> (14 <= length b)%nat -> ethernet_ii f b ->
  (refuses m f b e <-> refuses m' f (tagged tci b) e).
Proof.
  intros m m' f b tci e Hb Ht Lt L I. pose proof (tagged_ok [0x81; 0x00] tci b Hb Ht tpid_ok) as Hg. change (bytes_ok (tagged tci b)) in Hg.
  rewrite !refuses_cut by auto. destruct (frame_parts b L) as (a & t & r & E & La & L2 & Ea & Et & Er & E14 & _).
  unfold ethernet_ii in I. unfold tagged. rewrite Ea, Er, Et in *. rewrite E.
  rewrite (cut_ii f a t r e La L2 I), (cut_ii f a [0x81; 0x00] (tci ++ t ++ r) e La eq_refl (tag_ii _ _ I)), !cut_ether by auto.
  change (entry ethertypes (be [0x81; 0x00])) with F_vlan. rewrite cut_vlan by auto. tauto.
Qed.
Print Assumptions C102_panics.

(** Each frame is reported or refused, so the two theorems leave nothing out. *)
Theorem C102_total : forall m f b, bytes_ok b -> (exists l pl, reports m f b l pl) \/ (exists e, refuses m f b e).
Proof.
  intros m f b Hb. destruct (C34_tables_total f b Hb) as [[(gs & pl & W)|C] _].
  - left. exists (reported gs), pl. apply reports_wire; eauto.
  - right. destruct (cut_cut_by _ _ C) as (e & C'). exists e. apply refuses_cut; auto.
Qed.
Print Assumptions C102_total.

(** ** Where it is not *)

(** Behind a tag a length is taken for an EtherType: a tagged 802.3 frame has no 802.3 header and no LLC header. *)
Theorem C102_dot3 : forall m b tci, bytes_ok b -> bytes_ok tci -> length tci = 2%nat -> (14 <= length b)%nat -> be (type_bytes b) < 1500 ->
  reports m F_parse (tagged tci b) [(Ether, firstn 12 b ++ [0x81; 0x00]); (Vlan, tci ++ type_bytes b)] (skipn 14 b).
Proof.
  intros m b tci Hb Ht Lt L I. pose proof (tagged_ok [0x81; 0x00] tci b Hb Ht tpid_ok) as Hg. change (bytes_ok (tagged tci b)) in Hg.
  apply reports_wire; auto. destruct (frame_parts b L) as (a & t & r & E & La & L2 & Ea & Et & Er & E14 & Es).
  unfold tagged. rewrite Ea, Er, Et, Es in *. exists ([(Ether, a ++ [0x81; 0x00])] :: [] :: [(Vlan, tci ++ t)] :: [] :: []). split; [|reflexivity].
  apply wire_parse; auto. apply wire_ether; auto. eexists. split; [reflexivity|]. apply wire_vlan; auto. eexists. split; [reflexivity|].
  assert (X : entry ethertypes (be t) = F_accept); [|rewrite X; constructor].
  unfold entry, ethertypes. repeat (match goal with |- context [?x =? ?y] => destruct (N.eqb_spec x y) as [Q|_]; [exfalso; lia|] end). reflexivity.
Qed.
Print Assumptions C102_dot3.

(** A tag with another identifier, such as 0x88A8, ends the headers: the tag and what it hides are payload. *)
Theorem C102_other_tpid : forall m f b tpid tci, bytes_ok b -> bytes_ok tpid -> bytes_ok tci -> length tpid = 2%nat -> (12 <= length b)%nat ->
  (f = F_ethernet \/ f = F_parse /\ 1500 <= be tpid) -> ~ In (be tpid) [0x8100; 0x0806; 0x0800; 0x86DD; 0x8847] ->
  reports m f (tagged_with tpid tci b) [(Ether, firstn 12 b ++ tpid)] (tci ++ skipn 12 b).
Proof.
  intros m f b w tci Hb Hw Ht Lw L I NI. pose proof (tagged_ok w tci b Hb Ht Hw) as Hg. apply reports_wire; auto.
  unfold tagged_with. assert (La : length (firstn 12 b) = 12%nat) by (rewrite firstn_length; lia).
  exists ([(Ether, firstn 12 b ++ w)] :: [] :: []). split; [|reflexivity]. apply wire_ii; auto. apply wire_ether; auto. eexists. split; [reflexivity|].
  assert (X : entry ethertypes (be w) = F_accept); [|rewrite X; constructor].
  cbn in NI. unfold entry, ethertypes. repeat (match goal with |- context [?x =? ?y] => destruct (N.eqb_spec x y) as [Q|_]; [exfalso; intuition congruence|] end). reflexivity.
Qed.
Print Assumptions C102_other_tpid.

(** ** Concrete frames *)

Definition macs : list N := repeat 2 6 ++ repeat 4 6.
(** An ARP frame, its tagged form, and two tags. *)
Definition arp_frame : list N := macs ++ [0x08; 0x06] ++ repeat 1 28 ++ [7; 7].
Example C102_example : forall m tci, bytes_ok tci -> length tci = 2%nat ->
  reports m F_parse arp_frame [(Ether, macs ++ [0x08; 0x06]); (ARP, repeat 1 28)] [7; 7] /\
  reports m F_parse (tagged tci arp_frame)
    [(Ether, macs ++ [0x81; 0x00]); (Vlan, tci ++ [0x08; 0x06]); (ARP, repeat 1 28)] [7; 7] /\
  reports m F_parse (tagged [0; 5] (tagged tci arp_frame))
    [(Ether, macs ++ [0x81; 0x00]); (Vlan, [0; 5; 0x81; 0x00]); (Vlan, tci ++ [0x08; 0x06]); (ARP, repeat 1 28)] [7; 7].
Proof.
  intros m tci Ht Lt. assert (Ha : bytes_ok arp_frame) by (repeat constructor).
  assert (I : ethernet_ii F_parse arp_frame) by (right; split; [auto|]; vm_compute; discriminate).
  assert (R : reports m F_parse arp_frame [(Ether, macs ++ [0x08; 0x06]); (ARP, repeat 1 28)] [7; 7]).
  { apply reports_wire; auto. eexists. split; [|shelve]. apply (wire_parse macs [0x08; 0x06] (repeat 1 28 ++ [7; 7])); auto. apply wire_ether; auto.
    eexists. split; [reflexivity|]. apply (wire_one F_arp ARP (repeat 1 28) [7; 7] F_accept); auto. eexists. split; [reflexivity|]. constructor. Unshelve. reflexivity. }
  assert (R1 : reports m F_parse (tagged tci arp_frame) [(Ether, macs ++ [0x81; 0x00]); (Vlan, tci ++ [0x08; 0x06]); (ARP, repeat 1 28)] [7; 7]).
  { apply (C102_tag m m F_parse arp_frame tci [(ARP, repeat 1 28)] [7; 7]); auto. vm_compute. lia. }
  split; [exact R|]. split; [exact R1|]. destruct tci as [|c0 [|c1 [|]]]; try discriminate Lt.
  refine (proj1 (C102_tag m m F_parse (tagged [c0; c1] arp_frame) [0; 5] [(Vlan, [c0; c1] ++ [0x08; 0x06]); (ARP, repeat 1 28)] [7; 7] _ _ _ _ _) R1);
    [apply (tagged_ok [0x81; 0x00] [c0; c1] arp_frame Ha Ht tpid_ok)|repeat constructor|reflexivity|vm_compute; lia|right; split; [auto|]; vm_compute; discriminate].
Qed.
(** An ARP header cut short panics alike with and without the tag. *)
Example C102_example_panics : forall m, exists e, refuses m F_ethernet (firstn 20 arp_frame) e /\ refuses m F_ethernet (tagged [0; 5] (firstn 20 arp_frame)) e.
Proof.
  intros m. assert (X : exists e, refuses m F_ethernet (firstn 20 arp_frame) e).
  { destruct (C102_total m F_ethernet (firstn 20 arp_frame)) as [(l & pl & [_ (q & E & _)])|X]; [repeat constructor| |exact X]. destruct m; vm_compute in E; discriminate E. }
  destruct X as (e & X). exists e. split; [exact X|]. apply (C102_panics m m); auto; [repeat constructor|repeat constructor|vm_compute; lia|left; reflexivity].
Qed.

(** That tagging keeps the headers behind for every frame [parse] accepts is false: spanning tree loses its LLC header. *)
Definition stp_frame : list N := macs ++ [0; 7] ++ [0x42; 0x42; 0x03] ++ [1; 2; 3; 4].
Theorem C102_keeps_refuted : ~ forall m b tci T x l pl, bytes_ok b -> bytes_ok tci -> length tci = 2%nat ->
  reports m F_parse b ((T, x) :: l) pl -> exists T' x' V y, reports m F_parse (tagged tci b) ((T', x') :: (V, y) :: l) pl.
Proof.
  intros H. assert (Hb : bytes_ok stp_frame) by (repeat constructor).
  assert (R : exists l pl, reports Debug F_parse stp_frame ((Dot3, macs ++ [0; 7]) :: (LLC, [0x42; 0x42; 0x03]) :: l) pl).
  { destruct (C102_total Debug F_parse stp_frame Hb) as [(l & pl & R)|(e & [_ R])]; [|vm_compute in R; discriminate].
    pose proof R as [_ (q & E & Sh & P)]. vm_compute in E. injection E as <-. cbn [ps_hdrs] in Sh.
    inversion Sh as [|? [T1 x1] ? l1 [A1 B1] S1]; subst. inversion S1 as [|? [T2 x2] ? l2 [A2 B2] S2]; subst. vm_compute in A1, B1, A2, B2. subst.
    eexists _, _. exact R. }
  destruct R as (l & pl & R). destruct (H Debug stp_frame [0; 5] _ _ _ _ Hb ltac:(repeat constructor) eq_refl R) as (T' & x' & V & y & R').
  pose proof (C102_dot3 Debug stp_frame [0; 5] Hb ltac:(repeat constructor) eq_refl ltac:(vm_compute; lia) ltac:(vm_compute; reflexivity)) as R2.
  pose proof (tagged_ok [0x81; 0x00] [0; 5] stp_frame Hb ltac:(repeat constructor) tpid_ok) as Hg.
  apply reports_wire in R'; [|exact Hg]. apply reports_wire in R2; [|exact Hg].
  destruct R' as (g1 & W1 & E1), R2 as (g2 & W2 & E2). destruct (wire_fun _ _ _ _ W1 _ _ W2) as [-> _]. rewrite <- E2 in E1. discriminate E1.
Qed.
Print Assumptions C102_keeps_refuted.
(** A service tag hides the ARP header. *)
Example C102_example_tpid : forall m, reports m F_parse (tagged_with [0x88; 0xA8] [0; 5] arp_frame) [(Ether, macs ++ [0x88; 0xA8])] ([0; 5; 0x08; 0x06] ++ repeat 1 28 ++ [7; 7]).
Proof.
  intros m. apply (C102_other_tpid m F_parse arp_frame [0x88; 0xA8] [0; 5]); [repeat constructor|repeat constructor|repeat constructor|reflexivity|vm_compute; lia| |].
  - right. split; [auto|]. vm_compute. discriminate.
  - vm_compute. intuition discriminate.
Qed.
