(** PropEncap.v -- C103: what the parsers make of a packet inside other headers.

    [carries] and [encap] are in EncapSpec.v, [reports] and [refuses] in PropTag.v. *)

From Coq Require Import Lia.
From Verif Require Import Base Bits BitsProofs Layout Heap HeapProofs Packet PacketProofs Slow Fast Spec Grammar GrammarProofs SlowProofs FastProofs
  PropPacket PropParse PanicProofs PanicCalls TagSpec TagProofs PropTag EncapSpec EncapProofs.
Open Scope N_scope.

(** ** Helpers *)

Lemma ok_both x b : bytes_ok x -> bytes_ok b -> bytes_ok (x ++ b).
Proof. intros A B. apply bytes_ok_app. auto. Qed.
Lemma reports_yields m f b l pl : bytes_ok b -> (reports m f b l pl <-> yields f b l pl).
Proof. apply reports_wire. Qed.
Lemma type_of_ether x l g : carries F_ethernet x l g -> exists a t, x = a ++ t /\ length a = 12%nat /\ length t = 2%nat /\ 1500 <= be t.
Proof.
  intros H. inversion H as [c x0 Hin L V Eb| | |]; subst. unfold carriers in Hin. cbn [In] in Hin.
  assert (X : length x = 14%nat /\ 1500 <= be (firstn 2 (skipn 12 x))).
  { repeat (destruct Hin as [<-|Hin]; [cbn [c_by] in Eb; first [discriminate Eb|cbn [c_size c_value c_at length] in *; split; [exact L|rewrite V; vm_compute; discriminate]]|]). destruct Hin. }
  destruct X as [L14 T]. exists (firstn 12 x), (skipn 12 x). split; [symmetry; apply firstn_skipn|]. split; [rewrite firstn_length; lia|].
  assert (L2 : length (skipn 12 x) = 2%nat) by (rewrite skipn_length; lia). split; [exact L2|]. rewrite firstn_all2 in T by lia. exact T.
Qed.
Lemma parse_as_ether x l g b : encap F_ethernet x l g -> x <> [] ->
  (forall k pl, yields F_parse (x ++ b) k pl <-> yields F_ethernet (x ++ b) k pl) /\ (forall e, cut_by F_parse (x ++ b) e <-> cut_by F_ethernet (x ++ b) e).
Proof.
  intros E Nx. inversion E as [|f x0 l0 g0 y l' k H E']; subst; [congruence|]. destruct (type_of_ether _ _ _ H) as (a & t & -> & La & Lt & T).
  rewrite <- !app_assoc. split.
  - intros k pl. unfold yields. split; intros (gs & W & R); exists gs; (split; [|exact R]).
    + apply wire_ii in W; auto.
    + apply wire_ii; auto.
  - intros e. apply cut_ii; auto.
Qed.

(** ** The packet inside *)

(** The headers in front are reported first, whatever is inside ... *)
Theorem C103_starts : forall m f x l g b k pl, encap f x l g -> bytes_ok x -> bytes_ok b ->
  reports m f (x ++ b) k pl -> exists l', k = l ++ l'.
Proof.
  intros m f x l g b k pl E Hx Hb R. apply reports_yields in R; [|apply ok_both; auto]. apply (encap_steps _ _ _ _ E b) in R. destruct R as (l' & -> & _). eauto.
Qed.
Print Assumptions C103_starts.

(** ... then exactly what is reported of what is inside alone, ... *)
Theorem C103_encap : forall m m' f x l g b l' pl, encap f x l g -> bytes_ok x -> bytes_ok b ->
  (reports m f (x ++ b) (l ++ l') pl <-> reports m' g b l' pl).
Proof.
  intros m m' f x l g b l' pl E Hx Hb. rewrite !reports_yields by auto using ok_both. rewrite (proj1 (encap_steps _ _ _ _ E b)). split.
  - intros (l2 & Q & Y). apply app_inv_head in Q. subst l2. exact Y.
  - intros Y. eauto.
Qed.
Print Assumptions C103_encap.

(** ... and it panics exactly when what is inside does, with the same panic. *)
Theorem C103_panics : forall m m' f x l g b e, encap f x l g -> bytes_ok x -> bytes_ok b ->
  (refuses m f (x ++ b) e <-> refuses m' g b e).
Proof.
  intros m m' f x l g b e E Hx Hb. rewrite !refuses_cut by auto using ok_both. apply (encap_steps _ _ _ _ E b).
Qed.
Print Assumptions C103_panics.

(** [parse] takes all frames that start with these headers for Ethernet II. *)
Theorem C103_parse : forall m m' x l g b, encap F_ethernet x l g -> x <> [] -> bytes_ok x -> bytes_ok b ->
  (forall k pl, reports m F_parse (x ++ b) k pl -> exists l', k = l ++ l') /\
  (forall l' pl, reports m F_parse (x ++ b) (l ++ l') pl <-> reports m' g b l' pl) /\
  (forall e, refuses m F_parse (x ++ b) e <-> refuses m' g b e).
Proof.
  intros m m' x l g b E Nx Hx Hb. destruct (parse_as_ether x l g b E Nx) as [Y C].
  assert (Q : forall k pl, reports m F_parse (x ++ b) k pl <-> reports m F_ethernet (x ++ b) k pl).
  { intros k pl. rewrite !reports_yields by auto using ok_both. apply Y. }
  split; [|split].
  - intros k pl R. apply Q in R. eapply C103_starts; eauto.
  - intros l' pl. rewrite Q. apply C103_encap; auto.
  - intros e. rewrite <- (C103_panics m m' _ _ _ _ b e E Hx Hb). rewrite !refuses_cut by auto using ok_both. apply C.
Qed.
Print Assumptions C103_parse.

(** ** Tunnels *)

(** Ethernet, IPv4, UDP to port 4789, VXLAN: any frame inside. *)
Theorem C103_vxlan : forall m m' eth ip udp vx b l pl,
  bytes_ok eth -> bytes_ok ip -> bytes_ok udp -> bytes_ok vx -> bytes_ok b ->
  length eth = 14%nat -> length ip = 20%nat -> length udp = 8%nat -> length vx = 8%nat ->
  skipn 12 eth = [0x08; 0x00] -> nth 9 ip 0 = 17 -> firstn 2 (skipn 2 udp) = [0x12; 0xB5] ->
  (reports m F_parse (eth ++ ip ++ udp ++ vx ++ b) ((Ether, eth) :: (IPv4, ip) :: (UDP, udp) :: (Vxlan, vx) :: l) pl <-> reports m' F_ethernet b l pl).
Proof.
  intros m m' eth ip udp vx b l pl He Hi Hu Hv Hb Le Li Lu Lv Te Ti Tu.
  assert (C1 : carries F_ethernet eth [(Ether, eth)] F_ipv4).
  { apply (Carries_table (Carrier F_ethernet Ether 14 12 [0x08; 0x00] F_ipv4)); [unfold carriers; cbn [In]; tauto|auto|]. cbn [c_value c_at]. rewrite Te. reflexivity. }
  assert (C2 : carries F_ipv4 ip [(IPv4, ip)] F_udp).
  { apply (Carries_table (Carrier F_ipv4 IPv4 20 9 [17] F_udp)); [unfold carriers; cbn [In]; tauto|auto|]. cbn [c_value c_at length].
    clear - Li Ti. do 10 (destruct ip; [discriminate Li|]). cbn in Ti |- *. congruence. }
  assert (C3 : carries F_udp udp [(UDP, udp)] F_vxlan).
  { apply (Carries_table (Carrier F_udp UDP 8 2 [0x12; 0xB5] F_vxlan)); [unfold carriers; cbn [In]; tauto|auto|auto]. }
  assert (C4 : carries F_vxlan vx [(Vxlan, vx)] F_ethernet).
  { apply (Carries_table (Carrier F_vxlan Vxlan 8 0 [] F_ethernet)); [unfold carriers; cbn [In]; tauto|auto|auto]. }
  pose proof (Encap_more _ _ _ _ _ _ _ C1 (Encap_more _ _ _ _ _ _ _ C2 (Encap_more _ _ _ _ _ _ _ C3 (Encap_more _ _ _ _ _ _ _ C4 (Encap_none F_ethernet))))) as E.
  destruct (C103_parse m m' _ _ _ b E) as (_ & Q & _); [destruct eth; discriminate|repeat apply ok_both; auto; constructor|auto|].
  specialize (Q l pl). rewrite app_nil_r, <- !app_assoc in Q. exact Q.
Qed.
Print Assumptions C103_vxlan.

(** A label pushed in front of a stack of labels. *)
Theorem C103_label : forall m m' eth lab b l pl, bytes_ok eth -> bytes_ok lab -> bytes_ok b ->
  length eth = 14%nat -> length lab = 4%nat -> skipn 12 eth = [0x88; 0x47] -> N.testbit (nth 2 lab 0) 0 = false ->
  (reports m F_parse (eth ++ lab ++ b) ((Ether, eth) :: (MPLS, lab) :: l) pl <-> reports m' F_parse (eth ++ b) ((Ether, eth) :: l) pl).
Proof.
  intros m m' eth lab b l pl He Hl Hb Le Ll Te Bl.
  assert (C1 : carries F_ethernet eth [(Ether, eth)] F_mpls).
  { apply (Carries_table (Carrier F_ethernet Ether 14 12 [0x88; 0x47] F_mpls)); [unfold carriers; cbn [In]; tauto|auto|]. cbn [c_value c_at]. rewrite Te. reflexivity. }
  pose proof (Encap_more _ _ _ _ _ _ _ C1 (Encap_none F_mpls)) as E1.
  pose proof (Encap_more _ _ _ _ _ _ _ C1 (Encap_more _ _ _ _ _ _ _ (Carries_label lab Ll Bl) (Encap_none F_mpls))) as E2.
  destruct (C103_parse m m' _ _ _ b E2) as (_ & Q & _); [destruct eth; discriminate|repeat apply ok_both; auto; constructor|auto|].
  destruct (C103_parse m' m' _ _ _ b E1) as (_ & Q1 & _); [destruct eth; discriminate|repeat apply ok_both; auto; constructor|auto|].
  specialize (Q l pl). specialize (Q1 l pl). rewrite app_nil_r, <- ?app_assoc in Q, Q1. cbn [app] in Q, Q1. rewrite <- Q1 in Q. exact Q.
Qed.
Print Assumptions C103_label.

(** The label at the bottom of the stack and the four bytes behind it, which are taken for one more label whatever they are:
    the first half of the next byte says what is inside, and there must be a next byte. *)
Theorem C103_bottom : forall m m' lab y c b, bytes_ok lab -> bytes_ok y -> bytes_ok (c :: b) ->
  length lab = 4%nat -> length y = 4%nat -> N.testbit (nth 2 lab 0) 0 = true ->
  let g := if c / 16 =? 4 then F_ipv4 else if c / 16 =? 6 then F_ipv6 else F_ethernet in
  (forall k pl, reports m F_mpls (lab ++ y ++ c :: b) k pl -> exists l, k = (MPLS, lab) :: (MPLS, y) :: l) /\
  (forall l pl, reports m F_mpls (lab ++ y ++ c :: b) ((MPLS, lab) :: (MPLS, y) :: l) pl <-> reports m' g (c :: b) l pl) /\
  (forall e, refuses m F_mpls (lab ++ y ++ c :: b) e <-> refuses m' g (c :: b) e) /\
  refuses m F_mpls (lab ++ y) PIndex.
Proof.
  intros m m' lab y c b Hl Hy Hb Ll Ly Bl g.
  assert (D1 : forall r, demux F_mpls lab r = Some F_mpls_bos) by (intros r; unfold demux; change (bit lab 23) with (N.testbit (nth 2 lab 0) 0); rewrite Bl; reflexivity).
  assert (D2 : demux F_mpls_bos y (c :: b) = Some g) by reflexivity.
  pose proof (fun r gs pl => wire_one F_mpls MPLS lab r F_mpls_bos gs pl eq_refl Ll eq_refl (D1 r)) as W1.
  pose proof (fun gs pl => wire_one F_mpls_bos MPLS y (c :: b) g gs pl eq_refl Ly eq_refl D2) as W2.
  pose proof (fun r e => cut_one F_mpls MPLS lab r F_mpls_bos e eq_refl Ll eq_refl (D1 r)) as K1.
  pose proof (fun e => cut_one F_mpls_bos MPLS y (c :: b) g e eq_refl Ly eq_refl D2) as K2.
  assert (Hx : bytes_ok (lab ++ y ++ c :: b)) by auto using ok_both.
  split; [|split; [|split]].
  - intros k pl R. apply reports_wire in R; auto. destruct R as (gs & W & ->). apply W1 in W. destruct W as (g1 & -> & W). apply W2 in W. destruct W as (g2 & -> & _).
    exists (reported g2). reflexivity.
  - intros l pl. rewrite !reports_wire by auto. split.
    + intros (gs & W & R). apply W1 in W. destruct W as (g1 & -> & W). apply W2 in W. destruct W as (g2 & -> & W). injection R as R. eauto.
    + intros (gs & W & ->). exists ([(MPLS, lab)] :: [] :: [(MPLS, y)] :: [] :: gs). split; [|reflexivity]. apply W1. eexists. split; [reflexivity|].
      apply W2. eauto.
  - intros e. rewrite !refuses_cut by auto. rewrite K1. apply K2.
  - apply refuses_cut; [auto using ok_both|]. apply K1. pose proof (D_peek F_mpls_bos MPLS y [] [] eq_refl Ly eq_refl eq_refl) as X. cbn [concat] in X.
    rewrite !app_nil_r in X. exact X.
Qed.
Print Assumptions C103_bottom.

(** ** Concrete packets *)

(** A GRE header with key and sequence number carries IPv4; the sequence number is reported in front of the key. *)
Definition gre_head : list N := [0x30; 0; 0x08; 0x00].
Example C103_example_gre : encap F_gre (gre_head ++ [1; 1; 1; 1] ++ [2; 2; 2; 2])
  [(GRE, gre_head); (GRESequenceNum, [2; 2; 2; 2]); (GREKey, [1; 1; 1; 1])] F_ipv4.
Proof.
  refine (Encap_more F_gre (gre_head ++ [1; 1; 1; 1] ++ [2; 2; 2; 2]) [(GRE, gre_head); (GRESequenceNum, [2; 2; 2; 2]); (GREKey, [1; 1; 1; 1])] F_ipv4 [] [] F_ipv4 _ (Encap_none F_ipv4)).
  apply (Carries_gre gre_head [0x08; 0x00] F_ipv4 [9; 9; 9; 9] [1; 1; 1; 1] [2; 2; 2; 2]); try reflexivity. left. reflexivity.
Qed.
(** The ARP frame of C102 in a VXLAN tunnel. *)
Definition tunnel_ip : list N := [0x45] ++ repeat 0 8 ++ [17] ++ repeat 3 10.
Definition tunnel_udp : list N := [0x30; 0x39; 0x12; 0xB5; 0; 0; 0; 0].
Example C103_example : forall m, reports m F_parse ((macs ++ [0x08; 0x00]) ++ tunnel_ip ++ tunnel_udp ++ [8; 0; 0; 0; 0; 0; 7; 0] ++ arp_frame)
  [(Ether, macs ++ [0x08; 0x00]); (IPv4, tunnel_ip); (UDP, tunnel_udp); (Vxlan, [8; 0; 0; 0; 0; 0; 7; 0]);
   (Ether, macs ++ [0x08; 0x06]); (ARP, repeat 1 28)] [7; 7].
Proof.
  intros m. apply (C103_vxlan m m); try reflexivity; try (repeat constructor).
  - intros h. destruct (C102_example m [0; 0] ltac:(repeat constructor) eq_refl) as [R _].
    assert (Ha : bytes_ok arp_frame) by (repeat constructor).
    apply reports_yields in R; [|exact Ha]. destruct R as (gs & W & R). rewrite R. apply C34_slow_complete; [exact Ha|].
    apply (wire_ii F_parse macs [0x08; 0x06] (repeat 1 28 ++ [7; 7])) in W; auto. right. split; [auto|]. vm_compute. discriminate.
  - destruct (C102_example m [0; 0] ltac:(repeat constructor) eq_refl) as [R _].
    assert (Ha : bytes_ok arp_frame) by (repeat constructor).
    apply reports_yields in R; [|exact Ha]. destruct R as (gs & W & R). rewrite R.
    destruct (C34_fast_complete m F_ethernet arp_frame gs [7; 7] Ha) as (q & A & B & C); [|eauto].
    apply (wire_ii F_parse macs [0x08; 0x06] (repeat 1 28 ++ [7; 7])) in W; auto. right. split; [auto|]. vm_compute. discriminate.
Qed.
(** Cut short inside, it panics as the frame inside does. *)
Example C103_example_panics : forall m, exists e, refuses m F_vxlan (repeat 8 8 ++ firstn 20 arp_frame) e /\ refuses m F_ethernet (firstn 20 arp_frame) e.
Proof.
  intros m. destruct (C102_example_panics m) as (e & R & _). exists e. split; [|exact R].
  refine (proj2 (C103_panics m m F_vxlan (repeat 8 8 ++ []) [(Vxlan, repeat 8 8)] F_ethernet _ e _ _ _) R); [|repeat constructor|repeat constructor].
  apply (Encap_more _ _ [(Vxlan, repeat 8 8)] F_ethernet [] [] F_ethernet); [|constructor].
  apply (Carries_table (Carrier F_vxlan Vxlan 8 0 [] F_ethernet)); [unfold carriers; cbn [In]; tauto|auto|auto].
Qed.
(** A label at the bottom, four bytes of IPv4 header lost to a label, and the rest taken for Ethernet and cut short. *)
Example C103_example_bottom : forall m, exists e, refuses m F_mpls ([0; 0; 1; 64] ++ [0x45; 0; 0; 20] ++ repeat 0 12) e.
Proof.
  intros m. destruct (C103_bottom m m [0; 0; 1; 64] [0x45; 0; 0; 20] 0 (repeat 0 11)) as (_ & _ & P & _); try reflexivity; try (repeat constructor).
  destruct (C102_total m F_ethernet (0 :: repeat 0 11)) as [(l & pl & [_ (q & E & _)])|(e & R)]; [repeat constructor|destruct m; vm_compute in E; discriminate E|].
  exists e. apply P. exact R.
Qed.
