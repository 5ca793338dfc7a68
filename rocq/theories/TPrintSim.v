(** TPrintSim.v -- the printing functions of TPrint.v, run without interruption, are
    those of Print.v; without what they print, they are those of Threads.v. *)

From Coq Require Import Lia.
From Verif Require Import Base Bits Types Layout Heap Packet Text Build Utils Slow Fast Show Trait Ops Client Print Threads TPrint
  ThreadsSim.
Open Scope N_scope.

(** ** Without interruption *)

Definition qsim {A} (p : pact A) (x : W A) : Prop := forall h, qsolo p h = x h.

Lemma append_assoc (a b c : string) : ((a ++ b) ++ c = a ++ b ++ c)%string.
Proof. induction a as [|x a IH]; cbn; [|rewrite IH]; reflexivity. Qed.
Lemma append_nil (a : string) : (a ++ "" = a)%string.
Proof. induction a as [|x a IH]; cbn; [|rewrite IH]; reflexivity. Qed.

Lemma wbind_assoc {A B C} (x : W A) (f : A -> W B) (g : B -> W C) h :
  wbind (wbind x f) g h = wbind x (fun a => wbind (f a) g) h.
Proof.
  unfold wbind. destruct (x h) as [s [[] h1]]; try reflexivity. destruct (f a h1) as [s1 [[] h2]]; try reflexivity.
  destruct (g a0 h2) as [s2 r]. rewrite append_assoc. reflexivity.
Qed.
Lemma wbind_ext {A B} (x : W A) (f g : A -> W B) h : (forall a h, f a h = g a h) -> wbind x f h = wbind x g h.
Proof. intros E. unfold wbind. destruct (x h) as [s [[] h1]]; try reflexivity. rewrite E. reflexivity. Qed.
Lemma qsolo_bind {A B} (p : pact A) (f : A -> pact B) h :
  qsolo (qbind p f) h = wbind (qsolo p) (fun a => qsolo (f a)) h.
Proof.
  revert h. induction p as [o|s k IH|d k IH|r i k IH|r i v k IH|r k IH|x o k IH]; intro h; cbn [qbind qsolo];
    try (rewrite wbind_assoc; apply wbind_ext; auto).
  destruct o; try reflexivity. cbn [qsolo]. unfold wbind, run, lift. destruct (qsolo (f a) h). reflexivity.
Qed.
Lemma qsim_bind {A B} (p : pact A) x (f : A -> pact B) g :
  qsim p x -> (forall a, qsim (f a) (g a)) -> qsim (qbind p f) (wbind x g).
Proof. intros H1 H2 h. rewrite qsolo_bind. unfold wbind. rewrite H1. destruct (x h) as [s [[] ?]]; try reflexivity. rewrite H2. reflexivity. Qed.
Lemma qsolo_act {A} (p : act A) h : qsolo (qact p) h = (EmptyString, asolo p h).
Proof.
  revert h. induction p as [o|d k IH|r i k IH|r i v k IH|r k IH|x o k IH]; intro h; cbn [qact qsolo asolo]; try reflexivity;
    unfold wbind, run, bind;
    match goal with |- _ = (_, match ?e with _ => _ end) => destruct e as [[] ?] end; try reflexivity; rewrite IH; reflexivity.
Qed.
Lemma qsim_act {A} (p : act A) x : sim p x -> qsim (qact p) (run x).
Proof. intros S h. rewrite qsolo_act, S. reflexivity. Qed.
Lemma qsim_say s : qsim (qsay s) (say s).
Proof. intros h. cbn. rewrite append_nil. reflexivity. Qed.
Create HintDb qsim discriminated.
Global Hint Constants Opaque : qsim.
Global Hint Resolve qsim_say : qsim.

Ltac qsim := cbv zeta;
  repeat (match goal with
          | |- forall _, qsim _ _ => intro
          | |- qsim (qbind _ _) (wbind _ _) => apply qsim_bind
          | |- qsim (qact _) (run _) => apply qsim_act; sim
          | |- qsim (let '_ := ?x in _) _ => destruct x
          | |- qsim (match ?x with _ => _ end) _ => destruct x
          | _ => solve [eauto 2 with qsim nocore]
          end).

Lemma qsim_fill radix self parts i a : qsim (q_fill radix self parts i a) (w_fill radix self parts i a).
Proof. revert i a. induction parts as [|v t IH]; intros i a; cbn [q_fill w_fill]; qsim; apply IH. Qed.
Lemma qsim_mac s : qsim (q_mac s) (w_mac s).
Proof. apply qsim_fill. Qed.
Lemma qsim_ip4 s : qsim (q_ip4 s) (w_ip4 s).
Proof. apply qsim_fill. Qed.
Lemma qsim_ip6 ip6 s : qsim (q_ip6 ip6 s) (w_ip6 ip6 s).
Proof. unfold q_ip6, w_ip6. qsim. Qed.
Global Hint Resolve qsim_mac qsim_ip4 qsim_ip6 : qsim.
Lemma qsim_ethernet (dst src : string) (etype : N) :
  qsim (q_ethernet dst src etype) (w_ethernet dst src etype).
Proof. unfold q_ethernet, w_ethernet. qsim. Qed.
Global Hint Resolve qsim_ethernet : qsim.
Lemma qsim_dot3 (dst src : string) (len : N) :
  qsim (q_dot3 dst src len) (w_dot3 dst src len).
Proof. unfold q_dot3, w_dot3. qsim. Qed.
Global Hint Resolve qsim_dot3 : qsim.
Lemma qsim_arp (opcode : N) (sender_mac target_mac sender_ip target_ip : string) :
  qsim (q_arp opcode sender_mac target_mac sender_ip target_ip) (w_arp opcode sender_mac target_mac sender_ip target_ip).
Proof. unfold q_arp, w_arp. qsim. Qed.
Global Hint Resolve qsim_arp : qsim.
Lemma qsim_ipv4 (m : mode) (ihl tos id ttl frag proto : N) (src dst : string) (pktlen : N) :
  qsim (q_ipv4 m ihl tos id ttl frag proto src dst pktlen) (w_ipv4 m ihl tos id ttl frag proto src dst pktlen).
Proof. unfold q_ipv4, w_ipv4. qsim. Qed.
Global Hint Resolve qsim_ipv4 : qsim.
Lemma qsim_ipv6 (ip6 : string -> option (list N)) (traffic_class flow_label next_hdr hop_limit : N) (src dst : string) (pktlen : N) :
  qsim (q_ipv6 ip6 traffic_class flow_label next_hdr hop_limit src dst pktlen) (w_ipv6 ip6 traffic_class flow_label next_hdr hop_limit src dst pktlen).
Proof. unfold q_ipv6, w_ipv6. qsim. Qed.
Global Hint Resolve qsim_ipv6 : qsim.
Lemma qsim_hmake (m : mode) (ip6 : string -> option (list N)) (b : hmake) :
  qsim (q_hmake m ip6 b) (w_hmake m ip6 b).
Proof. unfold q_hmake, w_hmake. qsim. Qed.
Global Hint Resolve qsim_hmake : qsim.
Lemma qsim_create_eth_packet (e : eth_args) (etype : N) (pl : list N) :
  qsim (q_create_eth_packet e etype pl) (w_create_eth_packet e etype pl).
Proof. unfold q_create_eth_packet, w_create_eth_packet. qsim. Qed.
Global Hint Resolve qsim_create_eth_packet : qsim.
Lemma qsim_create_arp_packet (e : eth_args) (opcode : N) (sender_mac target_mac sender_ip target_ip : string) (pl : list N) :
  qsim (q_create_arp_packet e opcode sender_mac target_mac sender_ip target_ip pl) (w_create_arp_packet e opcode sender_mac target_mac sender_ip target_ip pl).
Proof. unfold q_create_arp_packet, w_create_arp_packet. qsim. Qed.
Global Hint Resolve qsim_create_arp_packet : qsim.
Lemma qsim_create_ipv4_packet (m : mode) (e : eth_args) (i : ip4_args) (ip_proto : N) (pl : list N) :
  qsim (q_create_ipv4_packet m e i ip_proto pl) (w_create_ipv4_packet m e i ip_proto pl).
Proof. unfold q_create_ipv4_packet, w_create_ipv4_packet. qsim. Qed.
Global Hint Resolve qsim_create_ipv4_packet : qsim.
Lemma qsim_create_ipv6_packet (ip6 : string -> option (list N)) (e : eth_args) (i : ip6_args) (ip_next_hdr : N) (pl : list N) :
  qsim (q_create_ipv6_packet ip6 e i ip_next_hdr pl) (w_create_ipv6_packet ip6 e i ip_next_hdr pl).
Proof. unfold q_create_ipv6_packet, w_create_ipv6_packet. qsim. Qed.
Global Hint Resolve qsim_create_ipv6_packet : qsim.
Lemma qsim_create_tcp_packet (m : mode) (e : eth_args) (i : ip4_args) (t : tcp_args) (pl : list N) :
  qsim (q_create_tcp_packet m e i t pl) (w_create_tcp_packet m e i t pl).
Proof. unfold q_create_tcp_packet, w_create_tcp_packet. qsim. Qed.
Global Hint Resolve qsim_create_tcp_packet : qsim.
Lemma qsim_create_udp_packet (m : mode) (e : eth_args) (i : ip4_args) (udp_dst udp_src : N) (pl : list N) :
  qsim (q_create_udp_packet m e i udp_dst udp_src pl) (w_create_udp_packet m e i udp_dst udp_src pl).
Proof. unfold q_create_udp_packet, w_create_udp_packet. qsim. Qed.
Global Hint Resolve qsim_create_udp_packet : qsim.
Lemma qsim_create_icmp_packet (m : mode) (e : eth_args) (i : ip4_args) (icmp_type icmp_code : N) (pl : list N) :
  qsim (q_create_icmp_packet m e i icmp_type icmp_code pl) (w_create_icmp_packet m e i icmp_type icmp_code pl).
Proof. unfold q_create_icmp_packet, w_create_icmp_packet. qsim. Qed.
Global Hint Resolve qsim_create_icmp_packet : qsim.
Lemma qsim_create_ipv4ip_packet (m : mode) (e : eth_args) (i : ip4_args) (inner_pkt : packet) :
  qsim (q_create_ipv4ip_packet m e i inner_pkt) (w_create_ipv4ip_packet m e i inner_pkt).
Proof. unfold q_create_ipv4ip_packet, w_create_ipv4ip_packet. qsim. Qed.
Global Hint Resolve qsim_create_ipv4ip_packet : qsim.
Lemma qsim_create_ipv6ip_packet (ip6 : string -> option (list N)) (e : eth_args) (i : ip6_args) (inner_pkt : packet) :
  qsim (q_create_ipv6ip_packet ip6 e i inner_pkt) (w_create_ipv6ip_packet ip6 e i inner_pkt).
Proof. unfold q_create_ipv6ip_packet, w_create_ipv6ip_packet. qsim. Qed.
Global Hint Resolve qsim_create_ipv6ip_packet : qsim.
Lemma qsim_create_tcpv6_packet (m : mode) (ip6 : string -> option (list N)) (e : eth_args) (i : ip6_args) (t : tcp_args) (pl : list N) :
  qsim (q_create_tcpv6_packet m ip6 e i t pl) (w_create_tcpv6_packet m ip6 e i t pl).
Proof. unfold q_create_tcpv6_packet, w_create_tcpv6_packet. qsim. Qed.
Global Hint Resolve qsim_create_tcpv6_packet : qsim.
Lemma qsim_create_udpv6_packet (m : mode) (ip6 : string -> option (list N)) (e : eth_args) (i : ip6_args) (udp_dst udp_src : N) (pl : list N) :
  qsim (q_create_udpv6_packet m ip6 e i udp_dst udp_src pl) (w_create_udpv6_packet m ip6 e i udp_dst udp_src pl).
Proof. unfold q_create_udpv6_packet, w_create_udpv6_packet. qsim. Qed.
Global Hint Resolve qsim_create_udpv6_packet : qsim.
Lemma qsim_create_icmpv6_packet (m : mode) (ip6 : string -> option (list N)) (e : eth_args) (i : ip6_args) (icmp_type icmp_code : N) (pl : list N) :
  qsim (q_create_icmpv6_packet m ip6 e i icmp_type icmp_code pl) (w_create_icmpv6_packet m ip6 e i icmp_type icmp_code pl).
Proof. unfold q_create_icmpv6_packet, w_create_icmpv6_packet. qsim. Qed.
Global Hint Resolve qsim_create_icmpv6_packet : qsim.
Lemma qsim_create_vxlan_packet (m : mode) (e : eth_args) (i : ip4_args) (udp_dst udp_src : N) (vxlan_vni : N) (inner_pkt : packet) :
  qsim (q_create_vxlan_packet m e i udp_dst udp_src vxlan_vni inner_pkt) (w_create_vxlan_packet m e i udp_dst udp_src vxlan_vni inner_pkt).
Proof. unfold q_create_vxlan_packet, w_create_vxlan_packet. qsim. Qed.
Global Hint Resolve qsim_create_vxlan_packet : qsim.
Lemma qsim_create_vxlanv6_packet (m : mode) (ip6 : string -> option (list N)) (e : eth_args) (i : ip6_args) (udp_dst udp_src : N) (vxlan_vni : N) (inner_pkt : packet) :
  qsim (q_create_vxlanv6_packet m ip6 e i udp_dst udp_src vxlan_vni inner_pkt) (w_create_vxlanv6_packet m ip6 e i udp_dst udp_src vxlan_vni inner_pkt).
Proof. unfold q_create_vxlanv6_packet, w_create_vxlanv6_packet. qsim. Qed.
Global Hint Resolve qsim_create_vxlanv6_packet : qsim.
Lemma qsim_create_gre_packet (m : mode) (e : eth_args) (i : ip4_args) (g : gre_args) (inner_pkt : option packet) :
  qsim (q_create_gre_packet m e i g inner_pkt) (w_create_gre_packet m e i g inner_pkt).
Proof. unfold q_create_gre_packet, w_create_gre_packet. qsim. Qed.
Global Hint Resolve qsim_create_gre_packet : qsim.
Lemma qsim_create_erspan_2_packet (m : mode) (e : eth_args) (i : ip4_args) (gre_seqnum : N) (a : erspan_args) (erspan_index : N) (inner_pkt : option packet) :
  qsim (q_create_erspan_2_packet m e i gre_seqnum a erspan_index inner_pkt) (w_create_erspan_2_packet m e i gre_seqnum a erspan_index inner_pkt).
Proof. unfold q_create_erspan_2_packet, w_create_erspan_2_packet. qsim. Qed.
Global Hint Resolve qsim_create_erspan_2_packet : qsim.
Lemma qsim_create_erspan_3_packet (m : mode) (e : eth_args) (i : ip4_args) (gre_seqnum : N) (a : erspan_args) (erspan_timestamp erspan_sgt erspan_ft_d_other : N) (erspan_pltfm_id erspan_pltfm_info : N) (inner_pkt : option packet) :
  qsim (q_create_erspan_3_packet m e i gre_seqnum a erspan_timestamp erspan_sgt erspan_ft_d_other erspan_pltfm_id erspan_pltfm_info inner_pkt) (w_create_erspan_3_packet m e i gre_seqnum a erspan_timestamp erspan_sgt erspan_ft_d_other erspan_pltfm_id erspan_pltfm_info inner_pkt).
Proof. unfold q_create_erspan_3_packet, w_create_erspan_3_packet. qsim. Qed.
Global Hint Resolve qsim_create_erspan_3_packet : qsim.
Lemma qsim_pmake (m : mode) (ip6 : string -> option (list N)) (b : pmake) :
  qsim (q_pmake m ip6 b) (w_pmake m ip6 b).
Proof. unfold q_pmake, w_pmake. qsim. Qed.
Global Hint Resolve qsim_pmake : qsim.

Section Show.
Variables (abr : nat -> nat -> act N) (br : nat -> nat -> M N).
Hypothesis B : forall msb lsb, sim (abr msb lsb) (br msb lsb).
Lemma qsim_br msb lsb : qsim (qact (abr msb lsb)) (run (br msb lsb)).
Proof. apply qsim_act, B. Qed.
Lemma qsim_show_octets n : forall i, qsim (q_show_octets abr i n) (w_show_octets br i n).
Proof.
  induction n as [|n IH]; intros i; cbn [q_show_octets w_show_octets]; [qsim|].
  apply qsim_bind; [apply qsim_br|]. qsim.
Qed.
Lemma qsim_show_field f : qsim (q_show_field abr f) (w_show_field br f).
Proof.
  unfold q_show_field, w_show_field. cbv zeta. apply qsim_bind; [qsim|]. intros _. apply qsim_bind; [|qsim].
  destruct (_ <=? 8)%nat; [apply qsim_bind; [apply qsim_br|qsim]|].
  destruct (_ =? 0)%nat; [apply qsim_show_octets|]. apply qsim_bind; [apply qsim_show_octets|]. intros _.
  apply qsim_bind; [apply qsim_br|qsim].
Qed.
Lemma qsim_show_fields l : qsim (q_show_fields abr l) (w_show_fields br l).
Proof. induction l as [|f l IH]; cbn [q_show_fields w_show_fields]; qsim. apply qsim_show_field. Qed.
Lemma qsim_show_header T : qsim (q_show_header abr T) (w_show_header br T).
Proof. unfold q_show_header, w_show_header. qsim. apply qsim_show_fields. Qed.
End Show.
Lemma qsim_hshow m x : qsim (q_hshow m x) (w_hshow m x).
Proof. apply qsim_show_header. intros. sim. Qed.
Lemma qsim_sshow m x : qsim (q_sshow m x) (w_sshow m x).
Proof. apply (qsim_show_header _ (fun msb lsb => lift (get_bits m (v_bytes (s_view x)) msb lsb))). intros. sim. Qed.
Lemma qsim_dump v : forall x, qsim (q_dump v x) (w_dump v x).
Proof. induction v as [|i v IH]; intros x; cbn [q_dump w_dump]; qsim. Qed.
Global Hint Resolve qsim_hshow qsim_sshow qsim_dump : qsim.
Lemma qsim_show_raw v : qsim (q_show_raw v) (w_show_raw v).
Proof. unfold q_show_raw, w_show_raw. qsim. Qed.
Global Hint Resolve qsim_show_raw : qsim.
Lemma qsim_show_hdrs m l : qsim (q_show_hdrs m l) (w_show_hdrs m l).
Proof. induction l as [|x l IH]; cbn [q_show_hdrs w_show_hdrs]; qsim. Qed.
Lemma qsim_show_shdrs m l : qsim (q_show_shdrs m l) (w_show_shdrs m l).
Proof. induction l as [|x l IH]; cbn [q_show_shdrs w_show_shdrs]; qsim. Qed.
Global Hint Resolve qsim_show_hdrs qsim_show_shdrs : qsim.
Lemma qsim_pkt_show m p : qsim (q_pkt_show m p) (w_pkt_show m p).
Proof. unfold q_pkt_show, w_pkt_show. qsim. Qed.
Lemma qsim_ps_show m q : qsim (q_ps_show m q) (w_ps_show m q).
Proof. unfold q_ps_show, w_ps_show. qsim. Qed.
Lemma qsim_compare_with_slice p b : qsim (q_compare_with_slice p b) (w_compare_with_slice p b).
Proof. unfold q_compare_with_slice, w_compare_with_slice. qsim. Qed.
Global Hint Resolve qsim_pkt_show qsim_ps_show qsim_compare_with_slice : qsim.
Lemma qsim_compare p q : qsim (q_compare p q) (w_compare p q).
Proof. unfold q_compare, w_compare. qsim. Qed.
Global Hint Resolve qsim_compare : qsim.
Lemma qsim_call m ip6 k : qsim (q_call m ip6 k) (w_call m ip6 k).
Proof. destruct k; cbn [q_call w_call]; qsim. Qed.
