(** ShapeProofs.v -- for every way through the graph of ShapeSpec.v bytes that are read that way. *)

From Coq Require Import Lia.
From Verif Require Import Base Bits BitsProofs Types Layout Heap HeapProofs Packet Slow Fast Spec Grammar GrammarProofs ShapeSpec.
Open Scope N_scope.

(** ** What is read is a shape *)

Lemma map_fst_combine {A B} (l : list A) (k : list B) : length l = length k -> map fst (combine l k) = l.
Proof. revert k. induction l as [|a l IH]; intros [|b k] E; cbn in *; try discriminate; auto. f_equal. apply IH. lia. Qed.
Lemma entry_in table v : In (entry table v) (map snd table ++ [F_accept]).
Proof.
  induction table as [|[k f] t IH]; cbn [entry map snd app]; [left; reflexivity|].
  destruct (k =? v); [left; reflexivity|right; exact IH].
Qed.
Lemma options_shape f x : In (rev (options f x)) (option_sets f).
Proof.
  destruct f; cbn [options option_sets]; try (left; reflexivity).
  - destruct (bit x 0), (bit x 2), (bit x 3); cbn [app rev]; cbn [In]; auto 10.
  - destruct (bit x 95); cbn [rev app In]; auto.
Qed.
Lemma demux_shape f x rest g : demux f x rest = Some g -> In g (follows f).
Proof.
  assert (K : forall t v, In (entry t v) (map snd t ++ [F_accept])) by apply entry_in.
  enough (H : match demux f x rest with Some g => In g (follows f) | None => True end) by (intros E; rewrite E in H; exact H).
  destruct f; cbn [demux follows]; try exact I; try (left; reflexivity).
  all: match goal with
    | |- In (entry ?t ?v) _ => specialize (K t v); revert K; generalize (entry t v); intros e K; cbn in K; cbn [In]; intuition
    | |- In (if ?c then _ else _) _ => destruct c; cbn [In]; auto
    | _ => destruct rest as [|b t]; [exact I|]; destruct (b / 16 =? 4); [left; reflexivity|]; destruct (b / 16 =? 6); cbn [In]; auto
    end.
Qed.
Lemma wire_shape f b gs pl : wire f b gs pl -> shape f (map fst (reported gs)).
Proof.
  induction 1 as [b|b gs pl L W IH|f T x os rest g gs pl Hf Lx Lo D W IH].
  - constructor.
  - eapply S_parse; [|exact IH]. destruct (_ <? 1500); cbn; auto.
  - unfold reported, seg in *. cbn [map concat rev app]. rewrite !map_app, map_rev, map_fst_combine.
    + eapply S_header; eauto using options_shape, demux_shape.
    + apply (f_equal (@length nat)) in Lo. rewrite !map_length in Lo. auto.
Qed.

(** ** A header for every step *)

Definition code (table : list (N * pfun)) (none : N) (g : pfun) : N :=
  match find (fun e => match snd e, g with
    | F_vlan, F_vlan | F_arp, F_arp | F_ipv4, F_ipv4 | F_ipv6, F_ipv6 | F_mpls, F_mpls | F_icmp, F_icmp | F_tcp, F_tcp
    | F_udp, F_udp | F_gre, F_gre | F_erspan2, F_erspan2 | F_erspan3, F_erspan3 => true
    | _, _ => false end) table with
  | Some (c, _) => c
  | None => none
  end.
Definition has (T : htype) (os : list htype) : bool := existsb (fun U => (ht_id U =? ht_id T)%nat) os.
Definition mk (f : pfun) (os : list htype) (g : pfun) : list N :=
  match f with
  | F_dot3 => repeat 0 14
  | F_llc => match g with F_snap => [0xAA; 0xAA; 3] | _ => [0; 0; 0] end
  | F_snap => repeat 0 5
  | F_ethernet => repeat 0 12 ++ to_be 2 (code ethertypes 0xFFFF g)
  | F_vlan => [0; 0] ++ to_be 2 (code ethertypes 0xFFFF g)
  | F_mpls => [0; 0; match g with F_mpls_bos => 1 | _ => 0 end; 0]
  | F_mpls_bos => repeat 0 4
  | F_ipv4 => 0x45 :: repeat 0 8 ++ [code ipv4_protocols 255 g] ++ repeat 0 10
  | F_ipv6 => 0x60 :: repeat 0 5 ++ [code ipv6_next_headers 255 g] ++ repeat 0 33
  | F_gre => [(if has GREChksumOffset os then 0x80 else 0) + (if has GREKey os then 0x20 else 0) + (if has GRESequenceNum os then 0x10 else 0); 0]
             ++ to_be 2 (code gre_protocols 0xFFFF g)
  | F_erspan2 | F_vxlan => repeat 0 8
  | F_erspan3 => repeat 0 11 ++ [if has ERSPANPLATFORM os then 1 else 0]
  | F_arp => repeat 0 28
  | F_icmp => repeat 0 (ht_size ICMP)
  | F_tcp => repeat 0 20
  | F_udp => [0; 0] ++ to_be 2 (match g with F_vxlan => 4789 | _ => 0 end) ++ repeat 0 4
  | F_parse | F_accept => []
  end.
(** How the bytes read from [g] begin, as far as the header before them cares. *)
Definition lead (g : pfun) (b : list N) : Prop :=
  match g with
  | F_ipv4 => exists t, b = 0x45 :: t
  | F_ipv6 => exists t, b = 0x60 :: t
  | F_ethernet => exists t, b = 0 :: t
  | _ => True
  end.
Definition typed_as (g : pfun) (b : list N) : Prop :=
  match g with
  | F_dot3 => (14 <= length b)%nat /\ be (sub b 12 2) < 1500
  | F_ethernet => (14 <= length b)%nat /\ 1500 <= be (sub b 12 2)
  | _ => True
  end.

Lemma mk_ok f T os g rest : header_of f = Some T -> In os (option_sets f) -> In g (follows f) -> lead g rest ->
  length (mk f os g) = ht_size T /\ options f (mk f os g) = rev os /\ demux f (mk f os g) rest = Some g /\ bytes_ok (mk f os g) /\
  (forall tl, lead f (mk f os g ++ tl)) /\ forall tl, typed_as f (mk f os g ++ tl).
Proof.
  intros Hf Ho Hg Hl.
  assert (K : bytes_okb (mk f os g) = true -> bytes_ok (mk f os g)) by apply bytes_okb_ok.
  destruct f; try discriminate Hf; injection Hf as <-; cbn [option_sets follows In] in Ho, Hg;
    repeat (destruct Ho as [<-|Ho]; [|]); try destruct Ho;
    repeat (destruct Hg as [<-|Hg]; [|]); try destruct Hg;
    (split; [reflexivity|]); (split; [reflexivity|]); (split; [first [reflexivity | destruct Hl as (t & ->); reflexivity]|]);
    (split; [apply K; reflexivity|]);
    (split; [intros tl; cbn [lead]; first [exact I | eexists; reflexivity]|]);
    intros tl; cbn [typed_as]; first [exact I | split; [rewrite app_length; cbn; lia|vm_compute; (reflexivity || discriminate)]].
Qed.

Lemma shape_wire f l : shape f l -> forall pl, bytes_ok pl -> exists b gs, bytes_ok b /\ wire f b gs pl /\ map fst (reported gs) = l /\
  lead f b /\ typed_as f b /\ length b = (list_sum (map ht_size l) + length pl)%nat.
Proof.
  induction 1 as [|g l Hg S IH|f T os g l Hf Ho Hg S IH]; intros pl Hp.
  - exists pl, []. repeat split; auto. constructor.
  - destruct (IH pl Hp) as (b & gs & Hb & W & E & _ & Ty & L). exists b, gs. repeat split; auto.
    destruct Hg as [<-|[<-|[]]]; destruct Ty as (L14 & C); (apply W_parse; [exact L14|]).
    + apply N.ltb_lt in C. rewrite C. exact W.
    + apply N.ltb_ge in C. rewrite C. exact W.
  - destruct (IH pl Hp) as (b & gs & Hb & W & E & Ld & _ & L).
    destruct (mk_ok f T os g b Hf Ho Hg Ld) as (Lx & Op & D & Bx & Lf & Ty).
    set (x := mk f os g) in *. set (bs := map (fun U => repeat 0 (ht_size U)) (rev os)).
    assert (Lo : map (@length N) bs = map ht_size (options f x)).
    { rewrite Op. unfold bs. rewrite map_map. apply map_ext. intros U. apply repeat_length. }
    exists (x ++ concat bs ++ b), ([(T, x)] :: combine (options f x) bs :: gs). split; [|split; [|split; [|split; [|split]]]].
    + apply Forall_app. split; [exact Bx|]. apply Forall_app. split; [|exact Hb]. unfold bs. clear. induction (rev os) as [|U t IH]; cbn.
      * constructor.
      * apply Forall_app. split; [|exact IH]. clear. induction (ht_size U); cbn; constructor; auto. reflexivity.
    + eapply W_header; eauto.
    + unfold reported, seg in *. cbn [map concat rev app]. rewrite !map_app, map_rev, map_fst_combine.
      * rewrite Op, rev_involutive, E. reflexivity.
      * apply (f_equal (@length nat)) in Lo. rewrite !map_length in Lo. auto.
    + apply Lf.
    + apply Ty.
    + assert (X : forall k, list_sum (rev k) = list_sum k).
      { clear. induction k as [|a k IH]; [reflexivity|]. cbn [rev]. rewrite list_sum_app, IH. unfold list_sum. cbn [fold_right]. lia. }
      rewrite !app_length, Lx, L, concat_len, Lo, Op, map_rev.
      change (map ht_size (T :: os ++ l)) with ([ht_size T] ++ map ht_size (os ++ l)). rewrite map_app, !list_sum_app, X.
      cbn [list_sum fold_right]. lia.
Qed.

(** ** Neighbours *)

Lemma follows_not_parse f : ~ In F_parse (follows f).
Proof. destruct f; cbn; intuition discriminate. Qed.
Lemma shape_first f l : shape f l -> f <> F_parse ->
  match l with [] => f = F_accept | A :: _ => header_of f = Some A end.
Proof. destruct 1; intros N; auto. destruct (N eq_refl). Qed.

Fixpoint chained (l : list htype) : Prop :=
  match l with
  | A :: (B :: _) as t => In (A, B) neighbours /\ chained t
  | _ => True
  end.
Lemma chained_at l l1 A B l2 : chained l -> l = l1 ++ A :: B :: l2 -> In (A, B) neighbours.
Proof.
  intros H ->. induction l1 as [|C l1 IH]; [exact (proj1 H)|].
  apply IH. destruct l1; cbn [app chained] in H |- *; apply H.
Qed.
Ltac pick := repeat (first [left; reflexivity | right]).
Lemma shape_chained f l : shape f l -> chained l.
Proof.
  induction 1 as [|g l Hg S IH|f T os g l Hf Ho Hg S IH]; auto; [exact I|].
  assert (N : g <> F_parse) by (intros ->; exact (follows_not_parse f Hg)).
  pose proof (shape_first g l S N) as Fs. clear S N.
  assert (K : forall A, (l <> [] -> forall B, header_of g = Some B -> In (A, B) neighbours) -> chained (A :: l)).
  { intros A H. destruct l as [|B l]; [exact I|]. split; [apply H; [discriminate|exact Fs]|exact IH]. }
  assert (K2 : forall A B t, In (A, B) neighbours -> chained (B :: t) -> chained (A :: B :: t)) by (intros; split; assumption).
  clear IH Fs.
  destruct f; try discriminate Hf; injection Hf as <-; cbn [option_sets follows In] in Ho, Hg;
    repeat (destruct Ho as [<-|Ho]; [|]); try destruct Ho; cbn [app];
    repeat (apply K2; [pick; fail|]); apply K; intros _ B EB;
    repeat (destruct Hg as [<-|Hg]; [|]); try destruct Hg; try discriminate EB; injection EB as <-; pick.
Qed.

(** A way from every entry point to the payload, and one to every entry point. *)
Definition way (f : pfun) : list htype :=
  match f with
  | F_parse => [Ether] | F_accept => []
  | F_dot3 => [Dot3; LLC] | F_mpls => [MPLS; MPLS; Ether] | F_mpls_bos => [MPLS; Ether]
  | F_erspan2 => [ERSPAN2; Ether] | F_erspan3 => [ERSPAN3; Ether] | F_vxlan => [Vxlan; Ether]
  | _ => match header_of f with Some T => [T] | None => [] end
  end.
Lemma step f T g l : header_of f = Some T -> In [] (option_sets f) -> In g (follows f) -> shape g l -> shape f (T :: l).
Proof. intros Hf Ho Hg S. exact (S_header f T [] g l Hf Ho Hg S). Qed.
Ltac go g := eapply (step _ _ g); [reflexivity | left; reflexivity | pick; fail |].
Lemma way_ok f : shape f (way f).
Proof.
  destruct f; cbn [way header_of]; try (go F_accept; exact S_end).
  - apply (S_parse F_ethernet); [pick; fail|]. go F_accept. exact S_end.
  - go F_llc. go F_accept. exact S_end.
  - go F_mpls_bos. go F_ethernet. go F_accept. exact S_end.
  - go F_ethernet. go F_accept. exact S_end.
  - go F_ethernet. go F_accept. exact S_end.
  - go F_ethernet. go F_accept. exact S_end.
  - go F_ethernet. go F_accept. exact S_end.
  - exact S_end.
Qed.
Definition reach (f : pfun) : list htype :=
  match f with
  | F_parse | F_accept | F_dot3 | F_ethernet => []
  | F_llc => [Dot3] | F_snap => [Dot3; LLC]
  | F_vlan | F_arp | F_ipv4 | F_ipv6 | F_mpls => [Ether]
  | F_mpls_bos => [Ether; MPLS]
  | F_icmp | F_tcp | F_udp | F_gre => [Ether; IPv4]
  | F_erspan2 | F_erspan3 => [Ether; IPv4; GRE]
  | F_vxlan => [Ether; IPv4; UDP]
  end.
Lemma reach_ok f l : f <> F_accept -> shape f l -> shape F_parse (reach f ++ l).
Proof.
  intros N S. destruct f; cbn [reach app]; try exact S; try (destruct (N eq_refl); fail);
    try (apply (S_parse F_dot3); [pick; fail|]; first [exact S | go F_llc; first [exact S | go F_snap; exact S]]);
    (apply (S_parse F_ethernet); [pick; fail|]); try exact S.
  - go F_vlan; exact S.
  - go F_mpls; exact S.
  - go F_mpls; go F_mpls_bos; exact S.
  - go F_ipv4; exact S.
  - go F_ipv6; exact S.
  - go F_ipv4; go F_gre; exact S.
  - go F_ipv4; go F_gre; go F_erspan2; exact S.
  - go F_ipv4; go F_gre; go F_erspan3; exact S.
  - go F_arp; exact S.
  - go F_ipv4; go F_icmp; exact S.
  - go F_ipv4; go F_tcp; exact S.
  - go F_ipv4; go F_udp; exact S.
  - go F_ipv4; go F_udp; go F_vxlan; exact S.
Qed.
Lemma pair_at f T os g l1 A B l2 : header_of f = Some T -> In os (option_sets f) -> In g (follows f) ->
  T :: os ++ way g = l1 ++ A :: B :: l2 -> exists l1 l2, shape F_parse (l1 ++ A :: B :: l2).
Proof.
  intros Hf Ho Hg E. exists (reach f ++ l1), l2. rewrite <- app_assoc, <- E. apply reach_ok.
  - intros ->. discriminate.
  - eapply S_header; eauto using way_ok.
Qed.
Ltac at_ f os g l1 := eapply (pair_at f _ os g l1); [reflexivity | pick; fail | pick; fail | reflexivity].
Lemma neighbours_met A B : In (A, B) neighbours -> exists l1 l2, shape F_parse (l1 ++ A :: B :: l2).
Proof.
  intros H. cbn [neighbours all_pairs concat map app fst snd In] in H.
  repeat (destruct H as [H|H]; [injection H as <- <-|]); try destruct H;
    first
    [ at_ F_dot3 (@nil htype) F_llc (@nil htype) | at_ F_llc (@nil htype) F_snap (@nil htype)
    | at_ F_ethernet (@nil htype) F_vlan (@nil htype) | at_ F_ethernet (@nil htype) F_arp (@nil htype) | at_ F_ethernet (@nil htype) F_ipv4 (@nil htype)
    | at_ F_ethernet (@nil htype) F_ipv6 (@nil htype) | at_ F_ethernet (@nil htype) F_mpls (@nil htype)
    | at_ F_vlan (@nil htype) F_vlan (@nil htype) | at_ F_vlan (@nil htype) F_arp (@nil htype) | at_ F_vlan (@nil htype) F_ipv4 (@nil htype)
    | at_ F_vlan (@nil htype) F_ipv6 (@nil htype) | at_ F_vlan (@nil htype) F_mpls (@nil htype)
    | at_ F_mpls (@nil htype) F_mpls (@nil htype) | at_ F_mpls_bos (@nil htype) F_ipv4 (@nil htype)
    | at_ F_mpls_bos (@nil htype) F_ipv6 (@nil htype) | at_ F_mpls_bos (@nil htype) F_ethernet (@nil htype)
    | at_ F_ipv4 (@nil htype) F_icmp (@nil htype) | at_ F_ipv4 (@nil htype) F_ipv4 (@nil htype) | at_ F_ipv4 (@nil htype) F_tcp (@nil htype)
    | at_ F_ipv4 (@nil htype) F_udp (@nil htype) | at_ F_ipv4 (@nil htype) F_ipv6 (@nil htype) | at_ F_ipv4 (@nil htype) F_gre (@nil htype)
    | at_ F_ipv6 (@nil htype) F_icmp (@nil htype) | at_ F_ipv6 (@nil htype) F_ipv4 (@nil htype) | at_ F_ipv6 (@nil htype) F_tcp (@nil htype)
    | at_ F_ipv6 (@nil htype) F_udp (@nil htype) | at_ F_ipv6 (@nil htype) F_ipv6 (@nil htype) | at_ F_ipv6 (@nil htype) F_gre (@nil htype)
    | at_ F_gre (@nil htype) F_ipv4 (@nil htype) | at_ F_gre (@nil htype) F_ipv6 (@nil htype) | at_ F_gre (@nil htype) F_erspan2 (@nil htype)
    | at_ F_gre (@nil htype) F_erspan3 (@nil htype)
    | at_ F_gre [GRESequenceNum] F_ipv4 [GRE] | at_ F_gre [GRESequenceNum] F_ipv6 [GRE] | at_ F_gre [GRESequenceNum] F_erspan2 [GRE]
    | at_ F_gre [GRESequenceNum] F_erspan3 [GRE]
    | at_ F_gre [GREKey] F_ipv4 [GRE] | at_ F_gre [GREKey] F_ipv6 [GRE] | at_ F_gre [GREKey] F_erspan2 [GRE] | at_ F_gre [GREKey] F_erspan3 [GRE]
    | at_ F_gre [GREChksumOffset] F_ipv4 [GRE] | at_ F_gre [GREChksumOffset] F_ipv6 [GRE] | at_ F_gre [GREChksumOffset] F_erspan2 [GRE]
    | at_ F_gre [GREChksumOffset] F_erspan3 [GRE]
    | at_ F_gre [GRESequenceNum] F_accept (@nil htype) | at_ F_gre [GREKey] F_accept (@nil htype) | at_ F_gre [GREChksumOffset] F_accept (@nil htype)
    | at_ F_gre [GRESequenceNum; GREKey] F_accept [GRE] | at_ F_gre [GRESequenceNum; GREChksumOffset] F_accept [GRE]
    | at_ F_gre [GREKey; GREChksumOffset] F_accept [GRE]
    | at_ F_erspan3 [ERSPANPLATFORM] F_ethernet (@nil htype) | at_ F_erspan3 [ERSPANPLATFORM] F_ethernet [ERSPAN3]
    | at_ F_erspan2 (@nil htype) F_ethernet (@nil htype) | at_ F_erspan3 (@nil htype) F_ethernet (@nil htype)
    | at_ F_vxlan (@nil htype) F_ethernet (@nil htype) | at_ F_udp (@nil htype) F_vxlan (@nil htype) ].
Qed.

(** ** Labels *)

Lemma app_split {A} (os l l1 l2 : list A) x : ~ In x os -> os ++ l = l1 ++ x :: l2 -> exists l3, l1 = os ++ l3 /\ l = l3 ++ x :: l2.
Proof.
  revert l1. induction os as [|a os IH]; intros l1 N E; [exists l1; auto|].
  destruct l1 as [|b l1]; cbn [app] in E.
  - injection E as -> _. destruct (N (or_introl eq_refl)).
  - injection E as <- E. destruct (IH l1 (fun H => N (or_intror H)) E) as (l3 & -> & ->). exists l3. auto.
Qed.
Lemma options_no_label f os : In os (option_sets f) -> ~ In MPLS os.
Proof.
  intros Ho H. apply (in_map ht_id) in H. revert H.
  destruct f; cbn [option_sets In] in Ho; repeat (destruct Ho as [<-|Ho]; [cbn; intuition discriminate|]); destruct Ho.
Qed.
Lemma labels f l : shape f l -> forall l1 l2, l = l1 ++ MPLS :: l2 ->
  (l1 = [] /\ f = F_mpls_bos) \/ (exists l3, l1 = l3 ++ [MPLS]) \/ (exists l3, l2 = MPLS :: l3).
Proof.
  induction 1 as [|g l Hg S IH|f T os g l Hf Ho Hg S IH]; intros l1 l2 E.
  - destruct l1; discriminate.
  - destruct (IH l1 l2 E) as [(-> & ->)|K]; [|right; exact K]. cbn in Hg. intuition discriminate.
  - destruct l1 as [|U l1]; cbn [app] in E; injection E as -> E.
    + assert (f = F_mpls \/ f = F_mpls_bos) as [->| ->].
      { destruct f; cbn in Hf; try discriminate; auto; apply (f_equal (fun o => match o with Some T => ht_id T | None => 0%nat end)) in Hf; discriminate. }
      * right; right. assert (os = []) as -> by (destruct Ho as [<-|[]]; reflexivity). cbn [app] in E. subst l2.
        assert (N : g <> F_parse) by (intros ->; exact (follows_not_parse _ Hg)).
        pose proof (shape_first g l S N) as Fs. destruct l as [|B l].
        -- destruct Hg as [<-|[<-|[]]]; discriminate.
        -- destruct Hg as [<-|[<-|[]]]; injection Fs as <-; eauto.
      * left. auto.
    + right. destruct (app_split os l l1 l2 MPLS (options_no_label f os Ho) E) as (l3 & -> & ->).
      destruct (IH l3 l2 eq_refl) as [(-> & ->)|[(l4 & ->)|K]].
      * left. exists []. destruct f; cbn in Hg; try (intuition discriminate). injection Hf as <-. destruct Ho as [<-|[]]. reflexivity.
      * left. exists (U :: os ++ l4). cbn [app]. rewrite <- app_assoc. reflexivity.
      * right. exact K.
Qed.

Lemma tags_ok n : shape F_parse (Ether :: repeat Vlan n ++ [ARP]).
Proof.
  apply (S_parse F_ethernet); [pick; fail|].
  assert (V : forall n, shape F_vlan (Vlan :: repeat Vlan n ++ [ARP])).
  { clear. induction n as [|n IH]; cbn [repeat app]; [go F_arp; go F_accept; exact S_end|]. go F_vlan. exact IH. }
  destruct n as [|n]; cbn [repeat app]; [go F_arp; go F_accept; exact S_end|]. go F_vlan. apply V.
Qed.
