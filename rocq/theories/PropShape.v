(** PropShape.v -- C76: which sequences of headers the parsers report.

    [shape] is the graph of ShapeSpec.v, [slow]/[fast] the two parsers of Slow.v/Fast.v,
    [wire] and [reported] the protocol tables of Grammar.v. *)

From Coq Require Import Lia.
From Verif Require Import Base Bits Types Layout Heap Packet Slow Fast Spec Grammar GrammarProofs SlowProofs FastProofs
  PropParse ShapeSpec ShapeProofs.
Open Scope N_scope.

Lemma holds_types h hs ss : holds h hs ss -> map h_ty hs = map fst ss.
Proof. induction 1 as [|x s hs ss [E _] F IH]; [reflexivity|]. cbn. rewrite E, IH. reflexivity. Qed.
Lemma sholds_types hs ss : sholds hs ss -> map s_ty hs = map fst ss.
Proof. induction 1 as [|x s hs ss [E _] F IH]; [reflexivity|]. cbn. rewrite E, IH. reflexivity. Qed.

Lemma slow_shape m f b h p h' : bytes_ok b -> slow m f b h = (Ret p, h') -> shape f (map h_ty (p_hdrs p)).
Proof.
  intros Hb R. destruct (C34_slow_sound m f b h p h' Hb R) as (gs & W & Hh).
  rewrite (holds_types _ _ _ Hh). apply wire_shape in W. exact W.
Qed.

(** The types of the headers of a returned packet are a way through the graph, and every way through the graph is taken by some
    bytes, whatever is to follow the headers. *)
Theorem C76_shapes : forall m f l pl h, bytes_ok pl ->
  (shape f l <-> exists b p h', bytes_ok b /\ slow m f b h = (Ret p, h') /\ map h_ty (p_hdrs p) = l /\ p_payload p = pl).
Proof.
  intros m f l pl h Hp. split.
  - intros S. destruct (shape_wire f l S pl Hp) as (b & gs & Hb & W & E & _).
    destruct (C34_slow_complete m f b h gs pl Hb W) as (hs & h' & R & Hh). exists b, (Pkt hs pl), h'. repeat split; auto.
    cbn [p_hdrs]. rewrite (holds_types _ _ _ Hh). exact E.
  - intros (b & p & h' & Hb & R & <- & _). eapply slow_shape; eauto.
Qed.
Print Assumptions C76_shapes.

(** The borrowing parser reports the same sequences. *)
Theorem C76_fast : forall m f l pl, bytes_ok pl ->
  (shape f l <-> exists b p, bytes_ok b /\ fast m f b = Ret p /\ map s_ty (ps_hdrs p) = l /\ v_bytes (ps_payload p) = pl).
Proof.
  intros m f l pl Hp. split.
  - intros S. destruct (shape_wire f l S pl Hp) as (b & gs & Hb & W & E & _).
    destruct (C34_fast_complete m f b gs pl Hb W) as (p & R & Hh & P). exists b, p. repeat split; auto.
    rewrite (sholds_types _ _ Hh). exact E.
  - intros (b & p & Hb & R & <- & _). destruct (C34_fast_sound m f b p Hb R) as (gs & W & Hh).
    rewrite (sholds_types _ _ Hh). apply wire_shape in W. exact W.
Qed.
Print Assumptions C76_fast.


(** [reports A B]: some bytes given to [parse] come back with a header [B] right behind a header [A]. *)
Definition reports (m : mode) (A B : htype) : Prop :=
  exists b h p h' l1 l2, bytes_ok b /\ slow m F_parse b h = (Ret p, h') /\ map h_ty (p_hdrs p) = l1 ++ A :: B :: l2.
Theorem C76_pairs : forall m A B, reports m A B <-> In (A, B) neighbours.
Proof.
  intros m A B. split.
  - intros (b & h & p & h' & l1 & l2 & Hb & R & E). eapply chained_at; [|exact E]. eapply shape_chained.
    eapply slow_shape; eauto.
  - intros H. destruct (neighbours_met A B H) as (l1 & l2 & S).
    destruct (proj1 (C76_shapes m F_parse _ [] [] (Forall_nil _)) S) as (b & p & h' & Hb & R & E & _).
    exists b, [], p, h', l1, l2. auto.
Qed.
Print Assumptions C76_pairs.

(** A label never stands alone: among the headers [parse] reports each MPLS header has another one before or behind it. *)
Theorem C76_labels : forall m b h p h' l1 l2, bytes_ok b -> slow m F_parse b h = (Ret p, h') ->
  map h_ty (p_hdrs p) = l1 ++ MPLS :: l2 -> (exists l3, l1 = l3 ++ [MPLS]) \/ (exists l3, l2 = MPLS :: l3).
Proof.
  intros m b h p h' l1 l2 Hb R E. destruct (labels _ _ (slow_shape _ _ _ _ _ _ Hb R) l1 l2 E) as [(_ & K)|K]; [discriminate|exact K].
Qed.
Print Assumptions C76_labels.

(** A packet with one label would be a packet like any other; none is ever reported. *)
Theorem C76_one_label_refuted : ~ (exists m b h p h', bytes_ok b /\ slow m F_parse b h = (Ret p, h') /\
  map h_ty (p_hdrs p) = [Ether; MPLS; IPv4]).
Proof.
  intros (m & b & h & p & h' & Hb & R & E). destruct (C76_labels m b h p h' [Ether] [IPv4] Hb R E) as [(l3 & K)|(l3 & K)].
  - destruct l3 as [|? [|? ?]]; discriminate.
  - discriminate.
Qed.
Print Assumptions C76_one_label_refuted.

(** There is no longest packet: any number of tags is read. *)
Theorem C76_unbounded : forall m n h, exists b p h', bytes_ok b /\ slow m F_parse b h = (Ret p, h') /\
  map h_ty (p_hdrs p) = Ether :: repeat Vlan n ++ [ARP].
Proof.
  intros m n h. destruct (proj1 (C76_shapes m F_parse _ [] h (Forall_nil _)) (tags_ok n)) as (b & p & h' & Hb & R & E & _).
  exists b, p, h'. auto.
Qed.
Print Assumptions C76_unbounded.

(** A sequence with every kind of step in it, and one that no bytes give. *)
Definition long_way : list htype :=
  [Ether; Vlan; MPLS; MPLS; MPLS; IPv6; UDP; Vxlan; Ether; IPv4; GRE; GRESequenceNum; GREChksumOffset; ERSPAN3; ERSPANPLATFORM; Ether; IPv4; IPv6; TCP].
Example C76_example_long : shape F_parse long_way.
Proof.
  unfold long_way. apply (S_parse F_ethernet); [pick; fail|].
  go F_vlan. go F_mpls. go F_mpls. go F_mpls_bos. go F_ipv6. go F_udp. go F_vxlan. go F_ethernet. go F_ipv4. go F_gre.
  change (shape F_gre (GRE :: [GRESequenceNum; GREChksumOffset] ++ [ERSPAN3; ERSPANPLATFORM; Ether; IPv4; IPv6; TCP])).
  eapply (S_header F_gre _ _ F_erspan3); [reflexivity | pick; fail | pick; fail |].
  change (shape F_erspan3 (ERSPAN3 :: [ERSPANPLATFORM] ++ [Ether; IPv4; IPv6; TCP])).
  eapply (S_header F_erspan3 _ _ F_ethernet); [reflexivity | pick; fail | pick; fail |].
  go F_ipv4. go F_ipv6. go F_tcp. go F_accept. exact S_end.
Qed.
Example C76_example_read : exists b p h', bytes_ok b /\ slow Debug F_parse b [] = (Ret p, h') /\ map h_ty (p_hdrs p) = long_way /\
  p_payload p = [1; 2; 3] /\ length b = (list_sum (map ht_size long_way) + 3)%nat.
Proof.
  destruct (shape_wire _ _ C76_example_long [1; 2; 3]) as (b & gs & Hb & W & E & _ & _ & L).
  { repeat constructor. }
  destruct (C34_slow_complete Debug F_parse b [] gs _ Hb W) as (hs & h' & R & Hh). exists b, (Pkt hs [1; 2; 3]), h'.
  repeat split; auto. cbn [p_hdrs]. rewrite (holds_types _ _ _ Hh). exact E.
Qed.
(** The options of a GRE header are not reported in the order in which they lie in the packet. *)
Example C76_example_order : ~ shape F_gre [GRE; GREChksumOffset; GREKey].
Proof.
  intros S. pose proof (shape_chained _ _ S) as [_ [H _]]. apply (in_map (fun p => (ht_id (fst p), ht_id (snd p)))) in H.
  revert H. cbn. intuition discriminate.
Qed.
Example C76_example_last : forall m B, ~ reports m SNAP B /\ ~ reports m ARP B /\ ~ reports m TCP B /\ ~ reports m ICMP B.
Proof.
  intros m B. repeat split; intros H; apply C76_pairs in H; apply (in_map (fun p => ht_id (fst p))) in H; revert H; cbn; intuition discriminate.
Qed.
Example C76_example_inside : reports Release ERSPANPLATFORM Ether /\ ~ reports Release UDP IPv4.
Proof.
  split.
  - apply C76_pairs. cbn. pick.
  - intros H. apply C76_pairs in H. apply (in_map (fun p => (ht_id (fst p), ht_id (snd p)))) in H. revert H. cbn. intuition discriminate.
Qed.
