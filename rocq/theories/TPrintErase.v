(** TPrintErase.v -- a printing call, without what it prints, is the call of Threads.v. *)

From Coq Require Import Lia.
From Verif Require Import Base Bits Types Layout Heap Packet Text Build Utils Slow Fast Show Trait Ops Client Print Threads TPrint
  Spec ClientSpec ThreadsSpec PrintProofs ThreadsSim TPrintSim.
Open Scope N_scope.

Definition oer {A B} (Q : A -> B -> Prop) (o : out A) (o' : out B) : Prop :=
  match o, o' with
  | Ret a, Ret b => Q a b
  | Panic e, Panic e' => e = e'
  | UB, UB | Hang, Hang | Fuel, Fuel => True
  | _, _ => False
  end.
Fixpoint qer {A B} (Q : A -> B -> Prop) (q : pact A) (p : act B) : Prop :=
  match q, p with
  | QSay _ k, p => qer Q k p
  | QDone o, ADone o' => oer Q o o'
  | QAlloc d k, AAlloc d' k' => d = d' /\ forall r, qer Q (k r) (k' r)
  | QRead r i k, ARead r' i' k' => r = r' /\ i = i' /\ forall b, qer Q (k b) (k' b)
  | QWrite r i v k, AWrite r' i' v' k' => r = r' /\ i = i' /\ v = v' /\ qer Q k k'
  | QCopy r k, ACopy r' k' => r = r' /\ forall d, qer Q (k d) (k' d)
  | QRepl x o k, ARepl x' o' k' => x = x' /\ o = o' /\ qer Q k k'
  | _, _ => False
  end.
Definition silent {A} (a : unit) (s : A) : Prop := True.

Lemma qer_bind {A A' B B'} (P : A -> A' -> Prop) (Q : B -> B' -> Prop) q p f f' : qer P q p ->
  (forall a a', P a a' -> qer Q (f a) (f' a')) -> qer Q (qbind q f) (abind p f').
Proof.
  intros H K. revert p H.
  induction q as [o|s k IH|d k IH|r i k IH|r i v k IH|r k IH|x o k IH]; intros p H; cbn [qer qbind] in *;
    [|cbn [qer]; apply IH; exact H| | | | |]; destruct p as [o'|d' k'|r' i' k'|r' i' v' k'|r' k'|x' o' k']; try contradiction; cbn [abind qer].
  - destruct o, o'; cbn [oer] in *; try contradiction; auto.
  - destruct H as (E & H). auto.
  - destruct H as (E & D & H). auto.
  - destruct H as (E & D & V & H). repeat split; auto.
  - destruct H as (E & H). auto.
  - destruct H as (E & D & H). auto.
Qed.
Lemma qer_act {A} (p : act A) : qer eq (qact p) p.
Proof. induction p as [o|d k IH|r i k IH|r i v k IH|r k IH|x o k IH]; cbn; auto. destruct o; cbn; auto. Qed.
Lemma qer_say {A} (s : string) (a : A) : qer (@silent A) (qsay s) (aret a).
Proof. exact I. Qed.
(** What a text-building step returns is not needed. *)
Lemma qer_drop {A B} (q : pact unit) (p : act A) (f : A -> B) : qer (@silent A) q p -> qer (@silent B) q (alet a := p in aret (f a)).
Proof.
  intros H. revert p H. induction q as [o|s k IH|d k IH|r i k IH|r i v k IH|r k IH|x o k IH]; intros p H; cbn [qer] in *;
    [|apply IH; exact H| | | | |]; destruct p as [o'|d' k'|r' i' k'|r' i' v' k'|r' k'|x' o' k']; try contradiction; cbn [abind].
  - destruct o, o'; cbn in *; try contradiction; auto.
  - destruct H as (E & H). auto.
  - destruct H as (E & D & H). auto.
  - destruct H as (E & D & V & H). repeat split; auto.
  - destruct H as (E & H). auto.
  - destruct H as (E & D & H). auto.
Qed.
Lemma qer_tell {A B} (Q : A -> B -> Prop) s q p : qer Q q p -> qer Q (qlet _ := qsay s in q) p.
Proof. auto. Qed.
Lemma qer_told {A} s q (p : act A) : qer (@silent A) q p -> qer (@silent A) (qlet _ := q in qsay s) p.
Proof.
  intros H. revert p H. induction q as [o|s' k IH|d k IH|r i k IH|r i v k IH|r k IH|x o k IH]; intros p H; cbn [qer qbind] in *;
    [|apply IH; exact H| | | | |]; destruct p as [o'|d' k'|r' i' k'|r' i' v' k'|r' k'|x' o' k']; try contradiction.
  - destruct o, o'; cbn in *; try contradiction; auto.
  - destruct H as (E & H). auto.
  - destruct H as (E & D & H). auto.
  - destruct H as (E & D & V & H). repeat split; auto.
  - destruct H as (E & H). auto.
  - destruct H as (E & D & H). auto.
Qed.

(** Functions that only print. *)
Fixpoint only_says {A} (q : pact A) : Prop :=
  match q with QDone _ => True | QSay _ k => only_says k | _ => False end.
Lemma says_bind {A B} (q : pact A) (f : A -> pact B) : only_says q -> (forall a, only_says (f a)) -> only_says (qbind q f).
Proof.
  induction q as [o|s k IH|d k IH|r i k IH|r i v k IH|r k IH|x o k IH]; cbn; intros S K; auto; try contradiction. destruct o; cbn; auto.
Qed.
Lemma says_lift {A} (o : out A) : only_says (qact (alift o)).
Proof. exact I. Qed.
Lemma qer_says {A B} (Q : A -> B -> Prop) q o : only_says q -> oer Q (fst (snd (qsolo q []))) o -> qer Q q (ADone o).
Proof.
  revert o. induction q as [o'|s k IH|d k IH|r i k IH|r i v k IH|r k IH|x o' k IH]; intros o S E; cbn [only_says] in *; try contradiction.
  - exact E.
  - cbn [qer]. apply IH; auto. cbn [qsolo] in E. unfold wbind, say in E. destruct (qsolo k []) as [t [r h]]. exact E.
Qed.
Lemma oer_eq {A} (o : out A) : oer eq o o.
Proof. destruct o; cbn; auto. Qed.
Lemma oer_voids {A} (o : out A) : oer (@silent A) (voids o) o.
Proof. destruct o; cbn; auto. exact I. Qed.

Lemma says_fill radix self parts i a : only_says (q_fill radix self parts i a).
Proof.
  revert i a. induction parts as [|v t IH]; intros i a; cbn [q_fill]; [exact I|].
  apply says_bind; [destruct (parse_u8 radix v); exact I|]. intros x. apply says_bind; [apply says_lift|]. intros _. apply IH.
Qed.
Lemma qer_mac s : qer eq (q_mac s) (alift (to_mac_bytes s)).
Proof. apply qer_says; [apply says_fill|]. rewrite qsim_mac, w_mac_run. apply oer_eq. Qed.
Lemma qer_ip4 s : qer eq (q_ip4 s) (alift (to_ipv4_bytes s)).
Proof. apply qer_says; [apply says_fill|]. rewrite qsim_ip4, w_ip4_run. apply oer_eq. Qed.
Lemma qer_ip6 ip6 s : qer eq (q_ip6 ip6 s) (aret (to_ipv6_bytes ip6 s)).
Proof. unfold q_ip6, to_ipv6_bytes. destruct (ip6 s); reflexivity. Qed.

Ltac er := cbv zeta; repeat
  match goal with
  | |- qer eq (qbind _ _) (abind _ _) => eapply (qer_bind eq); [|intros ? ? <-]
  | |- qer eq (qact ?p) ?p => apply qer_act
  | |- qer eq (let '_ := ?x in _) _ => destruct x
  | |- qer eq (match ?x with _ => _ end) _ => destruct x
  | _ => solve [eauto 2 with qer nocore]
  end.
Create HintDb qer discriminated.
Global Hint Constants Opaque : qer.
Global Hint Resolve qer_mac qer_ip4 qer_act : qer.
Lemma qer_ethernet (dst src : string) (etype : N) :
  qer eq (q_ethernet dst src etype) (a_ethernet dst src etype).
Proof. unfold q_ethernet, a_ethernet. er. Qed.
Global Hint Resolve qer_ethernet : qer.
Lemma qer_dot3 (dst src : string) (len : N) :
  qer eq (q_dot3 dst src len) (a_dot3 dst src len).
Proof. unfold q_dot3, a_dot3. er. Qed.
Global Hint Resolve qer_dot3 : qer.
Lemma qer_arp (opcode : N) (sender_mac target_mac sender_ip target_ip : string) :
  qer eq (q_arp opcode sender_mac target_mac sender_ip target_ip) (a_arp opcode sender_mac target_mac sender_ip target_ip).
Proof. unfold q_arp, a_arp. er. Qed.
Global Hint Resolve qer_arp : qer.
Lemma qer_ipv4 (m : mode) (ihl tos id ttl frag proto : N) (src dst : string) (pktlen : N) :
  qer eq (q_ipv4 m ihl tos id ttl frag proto src dst pktlen) (a_ipv4 m ihl tos id ttl frag proto src dst pktlen).
Proof. unfold q_ipv4, a_ipv4. er. Qed.
Global Hint Resolve qer_ipv4 : qer.
Lemma qer_ipv6 (ip6 : string -> option (list N)) (traffic_class flow_label next_hdr hop_limit : N) (src dst : string) (pktlen : N) :
  qer eq (q_ipv6 ip6 traffic_class flow_label next_hdr hop_limit src dst pktlen) (a_ipv6 ip6 traffic_class flow_label next_hdr hop_limit src dst pktlen).
Proof. unfold q_ipv6, a_ipv6. cbv zeta.
  apply (qer_bind eq eq _ (aret (to_ipv6_bytes ip6 src)) _ (fun s => a_hfrom IPv6 (_ ++ _ ++ _ ++ _ ++ s ++ to_ipv6_bytes ip6 dst)));
    [apply qer_ip6|]. intros x ? <-.
  apply (qer_bind eq eq _ (aret (to_ipv6_bytes ip6 dst)) _ (fun s => a_hfrom IPv6 (_ ++ _ ++ _ ++ _ ++ x ++ s)));
    [apply qer_ip6|]. intros y ? <-. apply qer_act. Qed.
Global Hint Resolve qer_ipv6 : qer.
Lemma qer_hmake (m : mode) (ip6 : string -> option (list N)) (b : hmake) :
  qer eq (q_hmake m ip6 b) (a_hmake_run m ip6 b).
Proof. destruct b; cbn [q_hmake a_hmake_run]; er. Qed.
Global Hint Resolve qer_hmake : qer.
Lemma qer_create_eth_packet (e : eth_args) (etype : N) (pl : list N) :
  qer eq (q_create_eth_packet e etype pl) (a_create_eth_packet e etype pl).
Proof. unfold q_create_eth_packet, a_create_eth_packet. er. Qed.
Global Hint Resolve qer_create_eth_packet : qer.
Lemma qer_create_arp_packet (e : eth_args) (opcode : N) (sender_mac target_mac sender_ip target_ip : string) (pl : list N) :
  qer eq (q_create_arp_packet e opcode sender_mac target_mac sender_ip target_ip pl) (a_create_arp_packet e opcode sender_mac target_mac sender_ip target_ip pl).
Proof. unfold q_create_arp_packet, a_create_arp_packet. er. Qed.
Global Hint Resolve qer_create_arp_packet : qer.
Lemma qer_create_ipv4_packet (m : mode) (e : eth_args) (i : ip4_args) (ip_proto : N) (pl : list N) :
  qer eq (q_create_ipv4_packet m e i ip_proto pl) (a_create_ipv4_packet m e i ip_proto pl).
Proof. unfold q_create_ipv4_packet, a_create_ipv4_packet. er. Qed.
Global Hint Resolve qer_create_ipv4_packet : qer.
Lemma qer_create_ipv6_packet (ip6 : string -> option (list N)) (e : eth_args) (i : ip6_args) (ip_next_hdr : N) (pl : list N) :
  qer eq (q_create_ipv6_packet ip6 e i ip_next_hdr pl) (a_create_ipv6_packet ip6 e i ip_next_hdr pl).
Proof. unfold q_create_ipv6_packet, a_create_ipv6_packet. er. Qed.
Global Hint Resolve qer_create_ipv6_packet : qer.
Lemma qer_create_tcp_packet (m : mode) (e : eth_args) (i : ip4_args) (t : tcp_args) (pl : list N) :
  qer eq (q_create_tcp_packet m e i t pl) (a_create_tcp_packet m e i t pl).
Proof. unfold q_create_tcp_packet, a_create_tcp_packet. er. Qed.
Global Hint Resolve qer_create_tcp_packet : qer.
Lemma qer_create_udp_packet (m : mode) (e : eth_args) (i : ip4_args) (udp_dst udp_src : N) (pl : list N) :
  qer eq (q_create_udp_packet m e i udp_dst udp_src pl) (a_create_udp_packet m e i udp_dst udp_src pl).
Proof. unfold q_create_udp_packet, a_create_udp_packet. er. Qed.
Global Hint Resolve qer_create_udp_packet : qer.
Lemma qer_create_icmp_packet (m : mode) (e : eth_args) (i : ip4_args) (icmp_type icmp_code : N) (pl : list N) :
  qer eq (q_create_icmp_packet m e i icmp_type icmp_code pl) (a_create_icmp_packet m e i icmp_type icmp_code pl).
Proof. unfold q_create_icmp_packet, a_create_icmp_packet. er. Qed.
Global Hint Resolve qer_create_icmp_packet : qer.
Lemma qer_create_ipv4ip_packet (m : mode) (e : eth_args) (i : ip4_args) (inner_pkt : packet) :
  qer eq (q_create_ipv4ip_packet m e i inner_pkt) (a_create_ipv4ip_packet m e i inner_pkt).
Proof. unfold q_create_ipv4ip_packet, a_create_ipv4ip_packet. er. Qed.
Global Hint Resolve qer_create_ipv4ip_packet : qer.
Lemma qer_create_ipv6ip_packet (ip6 : string -> option (list N)) (e : eth_args) (i : ip6_args) (inner_pkt : packet) :
  qer eq (q_create_ipv6ip_packet ip6 e i inner_pkt) (a_create_ipv6ip_packet ip6 e i inner_pkt).
Proof. unfold q_create_ipv6ip_packet, a_create_ipv6ip_packet. er. Qed.
Global Hint Resolve qer_create_ipv6ip_packet : qer.
Lemma qer_create_tcpv6_packet (m : mode) (ip6 : string -> option (list N)) (e : eth_args) (i : ip6_args) (t : tcp_args) (pl : list N) :
  qer eq (q_create_tcpv6_packet m ip6 e i t pl) (a_create_tcpv6_packet m ip6 e i t pl).
Proof. unfold q_create_tcpv6_packet, a_create_tcpv6_packet. er. Qed.
Global Hint Resolve qer_create_tcpv6_packet : qer.
Lemma qer_create_udpv6_packet (m : mode) (ip6 : string -> option (list N)) (e : eth_args) (i : ip6_args) (udp_dst udp_src : N) (pl : list N) :
  qer eq (q_create_udpv6_packet m ip6 e i udp_dst udp_src pl) (a_create_udpv6_packet m ip6 e i udp_dst udp_src pl).
Proof. unfold q_create_udpv6_packet, a_create_udpv6_packet. er. Qed.
Global Hint Resolve qer_create_udpv6_packet : qer.
Lemma qer_create_icmpv6_packet (m : mode) (ip6 : string -> option (list N)) (e : eth_args) (i : ip6_args) (icmp_type icmp_code : N) (pl : list N) :
  qer eq (q_create_icmpv6_packet m ip6 e i icmp_type icmp_code pl) (a_create_icmpv6_packet m ip6 e i icmp_type icmp_code pl).
Proof. unfold q_create_icmpv6_packet, a_create_icmpv6_packet. er. Qed.
Global Hint Resolve qer_create_icmpv6_packet : qer.
Lemma qer_create_vxlan_packet (m : mode) (e : eth_args) (i : ip4_args) (udp_dst udp_src : N) (vxlan_vni : N) (inner_pkt : packet) :
  qer eq (q_create_vxlan_packet m e i udp_dst udp_src vxlan_vni inner_pkt) (a_create_vxlan_packet m e i udp_dst udp_src vxlan_vni inner_pkt).
Proof. unfold q_create_vxlan_packet, a_create_vxlan_packet. er. Qed.
Global Hint Resolve qer_create_vxlan_packet : qer.
Lemma qer_create_vxlanv6_packet (m : mode) (ip6 : string -> option (list N)) (e : eth_args) (i : ip6_args) (udp_dst udp_src : N) (vxlan_vni : N) (inner_pkt : packet) :
  qer eq (q_create_vxlanv6_packet m ip6 e i udp_dst udp_src vxlan_vni inner_pkt) (a_create_vxlanv6_packet m ip6 e i udp_dst udp_src vxlan_vni inner_pkt).
Proof. unfold q_create_vxlanv6_packet, a_create_vxlanv6_packet. er. Qed.
Global Hint Resolve qer_create_vxlanv6_packet : qer.
Lemma qer_create_gre_packet (m : mode) (e : eth_args) (i : ip4_args) (g : gre_args) (inner_pkt : option packet) :
  qer eq (q_create_gre_packet m e i g inner_pkt) (a_create_gre_packet m e i g inner_pkt).
Proof. unfold q_create_gre_packet, a_create_gre_packet. er. Qed.
Global Hint Resolve qer_create_gre_packet : qer.
Lemma qer_create_erspan_2_packet (m : mode) (e : eth_args) (i : ip4_args) (gre_seqnum : N) (a : erspan_args) (erspan_index : N) (inner_pkt : option packet) :
  qer eq (q_create_erspan_2_packet m e i gre_seqnum a erspan_index inner_pkt) (a_create_erspan_2_packet m e i gre_seqnum a erspan_index inner_pkt).
Proof. unfold q_create_erspan_2_packet, a_create_erspan_2_packet. er. Qed.
Global Hint Resolve qer_create_erspan_2_packet : qer.
Lemma qer_create_erspan_3_packet (m : mode) (e : eth_args) (i : ip4_args) (gre_seqnum : N) (a : erspan_args) (erspan_timestamp erspan_sgt erspan_ft_d_other : N) (erspan_pltfm_id erspan_pltfm_info : N) (inner_pkt : option packet) :
  qer eq (q_create_erspan_3_packet m e i gre_seqnum a erspan_timestamp erspan_sgt erspan_ft_d_other erspan_pltfm_id erspan_pltfm_info inner_pkt) (a_create_erspan_3_packet m e i gre_seqnum a erspan_timestamp erspan_sgt erspan_ft_d_other erspan_pltfm_id erspan_pltfm_info inner_pkt).
Proof. unfold q_create_erspan_3_packet, a_create_erspan_3_packet. er. Qed.
Global Hint Resolve qer_create_erspan_3_packet : qer.
Lemma qer_pmake (m : mode) (ip6 : string -> option (list N)) (b : pmake) :
  qer eq (q_pmake m ip6 b) (a_pmake_run m ip6 b).
Proof. destruct b; cbn [q_pmake a_pmake_run]; er. Qed.
Global Hint Resolve qer_pmake : qer.

(** ** [show] *)

Section Show.
Variables (m : mode) (x : hdr).
Lemma qer_show_octets n : forall i, qer (@silent string) (q_show_octets (a_hbit_range m x) i n) (a_hshow_octets m x i n).
Proof.
  induction n as [|n IH]; intros i; cbn [q_show_octets a_hshow_octets]; [exact I|].
  eapply qer_bind; [apply qer_act|]. intros v ? <-. apply qer_tell, qer_drop. apply IH.
Qed.
Lemma qer_show_value f : qer (@silent string)
    (if (f_width f <=? 8)%nat then
       qlet v := qact (a_hbit_range m x (f_end f) (f_start f)) in qsay (fmt_02x (u8 v))
     else if (f_width f mod 8 =? 0)%nat then q_show_octets (a_hbit_range m x) (f_start f) (f_width f / 8)
     else
       qlet _ := q_show_octets (a_hbit_range m x) (f_start f) (f_width f / 8) in
       qlet v := qact (a_hbit_range m x (f_end f) (f_end f - f_width f mod 8)) in
       qsay (fmt_02x (u8 v))) (a_hshow_field m x f).
Proof.
  unfold a_hshow_field. cbv zeta. destruct (_ <=? 8)%nat.
  - eapply qer_bind; [apply qer_act|]. intros v ? <-. exact I.
  - destruct (_ =? 0)%nat; [apply qer_show_octets|]. eapply qer_bind; [apply qer_show_octets|]. intros _ t _.
    eapply qer_bind; [apply qer_act|]. intros v ? <-. exact I.
Qed.
Lemma qer_show_fields l : qer (@silent string) (q_show_fields (a_hbit_range m x) l) (a_hshow_fields m x l).
Proof.
  induction l as [|f l IH]; cbn [q_show_fields a_hshow_fields]; [exact I|].
  eapply (qer_bind (@silent string)); [apply qer_tell, qer_told, qer_show_value|]. intros _ s _. apply qer_drop. exact IH.
Qed.
Lemma qer_hshow : qer (@silent string) (q_hshow m x) (a_hshow m x).
Proof. apply qer_tell, qer_tell. apply qer_drop, qer_show_fields. Qed.
End Show.

Lemma qer_show_hdrs m l : qer (@silent string) (q_show_hdrs m l) (a_show_hdrs m l).
Proof.
  induction l as [|x l IH]; cbn [q_show_hdrs a_show_hdrs]; [exact I|].
  eapply qer_bind; [apply qer_hshow|]. intros _ s _. apply qer_drop. exact IH.
Qed.
Lemma says_dump v : forall x, only_says (q_dump v x).
Proof. induction v as [|b v IH]; intros x; cbn [q_dump]; [exact I|]. cbv zeta. cbn. destruct (_ =? 0)%nat; cbn; apply IH. Qed.
Lemma says_raw v : only_says (q_show_raw v).
Proof. cbn. apply says_bind; [apply says_dump|]. intros _. exact I. Qed.
Lemma qer_raw {A} v (a : A) : qer (@silent A) (q_show_raw v) (aret a).
Proof.
  apply qer_says; [apply says_raw|]. rewrite qsim_show_raw. destruct (tells_raw v []) as (E & _). rewrite E. exact I.
Qed.
Lemma qer_pkt_show m p : qer (@silent string) (q_pkt_show m p) (a_pkt_show m p).
Proof.
  unfold q_pkt_show, a_pkt_show. eapply qer_bind; [apply qer_show_hdrs|]. intros _ s _.
  eapply qer_bind; [apply qer_act|]. intros v ? <-. apply qer_raw.
Qed.
Lemma says_header m d T : only_says (q_show_header (fun msb lsb => alift (get_bits m d msb lsb)) T).
Proof.
  assert (O : forall n i, only_says (q_show_octets (fun msb lsb => alift (get_bits m d msb lsb)) i n)).
  { induction n as [|n IH]; intros i; cbn [q_show_octets]; [exact I|]. apply says_bind; [exact I|]. intros v. apply says_bind; [exact I|]. intros _. apply IH. }
  apply says_bind; [exact I|]. intros _. apply says_bind; [exact I|]. intros _.
  induction (ht_fields T) as [|f l IH]; cbn [q_show_fields]; [exact I|]. apply says_bind; [|intros _; exact IH].
  unfold q_show_field. cbv zeta. apply says_bind; [exact I|]. intros _. apply says_bind; [|intros _; exact I]. destruct (_ <=? 8)%nat; [apply says_bind; [|intros v]; exact I|].
  destruct (_ =? 0)%nat; auto. apply says_bind; auto. intros _. apply says_bind; [|intros v]; exact I.
Qed.
Lemma qer_sshow m x : qer (@silent string) (q_sshow m x) (alift (sshow m x)).
Proof.
  apply qer_says; [apply says_header|]. rewrite qsim_sshow. destruct (tells_sshow m x []) as (E & _). rewrite E. apply oer_voids.
Qed.
Lemma qer_ps_show m q : qer (@silent string) (q_ps_show m q) (alift (ps_show m q)).
Proof.
  apply qer_says.
  - apply says_bind; [|intros _; apply says_raw]. induction (ps_hdrs q) as [|x l IH]; cbn [q_show_shdrs]; [exact I|].
    apply says_bind; [apply says_header|]. intros _. exact IH.
  - rewrite qsim_ps_show. destruct (tells_ps m q []) as (E & _). rewrite E. apply oer_voids.
Qed.
Lemma qer_compare_slice p b : qer eq (q_compare_with_slice p b) (a_compare_with_slice p b).
Proof.
  unfold q_compare_with_slice, a_compare_with_slice. cbv zeta. destruct (negb _); [reflexivity|].
  eapply qer_bind; [apply qer_act|]. intros v ? <-. destruct (_ || _); reflexivity.
Qed.
Lemma qer_compare p q : qer eq (q_compare p q) (a_compare p q).
Proof. unfold q_compare, a_compare. eapply qer_bind; [apply qer_act|]. intros v ? <-. apply qer_compare_slice. Qed.

(** ** Any call *)

(** [show] returns its text in Threads.v and nothing here. *)
Definition untold (v v' : kres) : Prop := v = match v' with KText _ => KVal VUnit | _ => v' end.
Lemma qer_imp {A B} (P Q : A -> B -> Prop) q p : qer P q p -> (forall a a', P a a' -> Q a a') -> qer Q q p.
Proof.
  intros H K. revert p H.
  induction q as [o|s k IH|d k IH|r i k IH|r i v k IH|r k IH|x o k IH]; intros p H; cbn [qer] in *;
    [|apply IH; exact H| | | | |]; destruct p as [o'|d' k'|r' i' k'|r' i' v' k'|r' k'|x' o' k']; try contradiction.
  - destruct o, o'; cbn [oer] in *; try contradiction; auto.
  - destruct H as (E & H). auto.
  - destruct H as (E & D & H). auto.
  - destruct H as (E & D & V & H). repeat split; auto.
  - destruct H as (E & H). auto.
  - destruct H as (E & D & H). auto.
Qed.
(** A program that never returns a text. *)
Fixpoint textless (p : act kres) : Prop :=
  match p with
  | ADone o => match o with Ret (KText _) => False | _ => True end
  | AAlloc _ k => forall r, textless (k r)
  | ARead _ _ k => forall b, textless (k b)
  | ACopy _ k => forall d, textless (k d)
  | AWrite _ _ _ k | ARepl _ _ k => textless k
  end.
Lemma textless_bind {A} (p : act A) f : (forall a, textless (f a)) -> textless (abind p f).
Proof. intros K. induction p as [o|d k IH|r i k IH|r i v k IH|r k IH|x o k IH]; cbn; auto. destruct o; cbn; auto. Qed.
Lemma qer_textless p : textless p -> qer untold (qact p) p.
Proof.
  induction p as [o|d k IH|r i k IH|r i v k IH|r k IH|x o k IH]; cbn; auto.
  destruct o as [v| | | |]; cbn; auto. destruct v; cbn; auto; contradiction || reflexivity.
Qed.
Lemma qer_call m ip6 k : qer untold (q_call m ip6 k) (a_kexec m ip6 k).
Proof.
  destruct k; cbn [q_call a_kexec].
  1: { apply qer_textless. cbn [a_kexec]. apply textless_bind. intros []; exact I. }
  all: try (apply qer_textless; cbn [a_kexec]; apply textless_bind; intros; exact I).
  - eapply qer_bind; [apply qer_hshow|]. intros _ s _. reflexivity.
  - eapply qer_bind; [apply qer_hmake|]. intros x ? <-. reflexivity.
  - apply qer_textless. exact I.
  - apply qer_textless. exact I.
  - apply qer_textless. exact I.
  - apply qer_textless. exact I.
  - apply qer_textless. cbn. destruct (get_header T p name); exact I.
  - eapply qer_bind; [apply qer_compare|]. intros x ? <-. reflexivity.
  - eapply qer_bind; [apply qer_compare_slice|]. intros x ? <-. reflexivity.
  - eapply qer_bind; [apply qer_pkt_show|]. intros _ s _. reflexivity.
  - eapply qer_bind; [apply qer_mac|]. intros x ? <-. reflexivity.
  - eapply qer_bind; [apply qer_ip4|]. intros x ? <-. reflexivity.
  - eapply qer_bind; [apply qer_pmake|]. intros x ? <-. reflexivity.
  - eapply qer_bind; [apply qer_sshow|]. intros _ s _. reflexivity.
  - eapply qer_bind; [apply qer_ps_show|]. intros _ s _. reflexivity.
  - apply (qer_bind eq untold _ (aret (to_ipv6_bytes ip6 s)) _ (fun d => aret (KVal (VBytes d)))); [apply qer_ip6|].
    intros x ? <-. reflexivity.
  - apply qer_textless. cbn [a_kexec]. destruct q; cbn [query_run]; try exact I.
    destruct (get_bits m (v_bytes (s_view x)) msb lsb); exact I.
Qed.
