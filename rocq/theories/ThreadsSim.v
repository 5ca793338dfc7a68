(** ThreadsSim.v -- the functions of Threads.v, run without interruption, are those of the
    other model files. *)

From Coq Require Import Lia.
From Verif Require Import Base Bits Types Layout Heap Packet Text Build Utils Slow Fast Show Ops Client Threads.
Open Scope N_scope.

(** ** Without interruption, the functions are those of the other files *)

Definition sim {A} (p : act A) (x : M A) : Prop := forall h, asolo p h = x h.

Lemma asolo_bind {A B} (p : act A) (f : A -> act B) h :
  asolo (abind p f) h = bind (asolo p) (fun a => asolo (f a)) h.
Proof.
  revert h. induction p as [o|d k IH|r i k IH|r i v k IH|r k IH|x o k IH]; intro h; cbn [abind asolo];
    try (unfold bind at 1 2 3; unfold bind in IH; 
      match goal with |- context [match ?e with (_, _) => _ end] => destruct e as [[] ?] end;
      try reflexivity; apply IH).
  destruct o; reflexivity.
Qed.
Lemma sim_bind {A B} (p : act A) x (f : A -> act B) g :
  sim p x -> (forall a, sim (f a) (g a)) -> sim (abind p f) (bind x g).
Proof.
  intros H1 H2 h. rewrite asolo_bind. unfold bind. rewrite H1.
  destruct (x h) as [[] ?]; try reflexivity. apply H2.
Qed.
Lemma sim_ret {A} (a : A) : sim (aret a) (ret a).
Proof. intro; reflexivity. Qed.
Lemma sim_fail {A} e : sim (@afail A e) (fail e).
Proof. intro; reflexivity. Qed.
Lemma sim_lift {A} (o : out A) : sim (alift o) (lift o).
Proof. intro; reflexivity. Qed.
Create HintDb sim discriminated.
Global Hint Constants Opaque : sim.
Global Hint Resolve sim_ret sim_fail sim_lift : sim.

Ltac sim := cbv zeta;
  repeat (match goal with
          | |- forall _, sim _ _ => intro
          | |- sim (abind _ _) (bind _ _) => apply sim_bind
          | |- sim (let '_ := ?x in _) _ => destruct x
          | |- sim (match ?x with _ => _ end) _ => destruct x
          | _ => solve [eauto 2 with sim nocore]
          end).

Lemma sim_alloc d : sim (a_alloc d) (alloc d).
Proof. intro h. cbn. reflexivity. Qed.
Lemma sim_hto_vec x : sim (a_hto_vec x) (hto_vec x).
Proof. intro h. unfold a_hto_vec, hto_vec. cbn [asolo]. unfold bind.
  destruct (with_lock _ _ h) as [[] ?]; reflexivity. Qed.
Lemma sim_hreplace x o : sim (a_hreplace x o) (hreplace x o).
Proof.
  intro h. unfold a_hreplace. cbn [asolo]. unfold bind, hreplace. cbn [h_ref h_ty].
  repeat match goal with
         | |- context [match nth_error ?l ?r with _ => _ end] => destruct (nth_error l r)
         | |- context [if ?b then _ else _] => destruct b
         end; reflexivity.
Qed.
Lemma sim_hget_loop r i n v : sim (a_hget_loop r i n v) (hget_loop r i n v).
Proof.
  revert i v. induction n as [|n IH]; intros i v h; [reflexivity|].
  cbn [a_hget_loop hget_loop asolo]. unfold bind.
  destruct (with_lock _ _ h) as [[] ?]; try reflexivity. apply IH.
Qed.
Lemma sim_hset_loop r i n v : sim (a_hset_loop r i n v) (hset_loop r i n v).
Proof.
  revert v. induction n as [|n IH]; intros v h; [reflexivity|].
  cbn [a_hset_loop hset_loop asolo]. unfold bind.
  destruct (with_lock _ _ h) as [[] ?]; try reflexivity. apply IH.
Qed.
Global Hint Resolve sim_alloc sim_hto_vec sim_hreplace sim_hget_loop sim_hset_loop : sim.
Lemma sim_hbit_range m x msb lsb : sim (a_hbit_range m x msb lsb) (hbit_range m x msb lsb).
Proof. unfold a_hbit_range, hbit_range. sim. Qed.
Global Hint Resolve sim_hbit_range : sim.
Lemma sim_hset_bit_range (x : hdr) (msb lsb : nat) (value : N) : sim (a_hset_bit_range x msb lsb value) (hset_bit_range x msb lsb value).
Proof. unfold a_hset_bit_range, hset_bit_range. sim. Qed.
Global Hint Resolve sim_hset_bit_range : sim.
Lemma sim_hnew (T : htype) : sim (a_hnew T) (hnew T).
Proof. unfold a_hnew, hnew. sim. Qed.
Global Hint Resolve sim_hnew : sim.
Lemma sim_hfrom (T : htype) (d : list N) : sim (a_hfrom T d) (hfrom T d).
Proof. unfold a_hfrom, hfrom. sim. Qed.
Global Hint Resolve sim_hfrom : sim.
Lemma sim_hget (m : mode) (x : hdr) (f : field) : sim (a_hget m x f) (hget m x f).
Proof. unfold a_hget, hget. sim. Qed.
Global Hint Resolve sim_hget : sim.
Lemma sim_hset (x : hdr) (f : field) (v : N) : sim (a_hset x f v) (hset x f v).
Proof. unfold a_hset, hset. sim. Qed.
Global Hint Resolve sim_hset : sim.
Lemma sim_hbytes_loop (m : mode) (x : hdr) (i n : nat) : sim (a_hbytes_loop m x i n) (hbytes_loop m x i n).
Proof. revert i. induction n as [|n IH]; intros i; cbn [a_hbytes_loop hbytes_loop]; sim. Qed.
Global Hint Resolve sim_hbytes_loop : sim.
Lemma sim_hbytes (m : mode) (x : hdr) (msb lsb : nat) : sim (a_hbytes m x msb lsb) (hbytes m x msb lsb).
Proof. unfold a_hbytes, hbytes. sim. Qed.
Global Hint Resolve sim_hbytes : sim.
Lemma sim_hset_bytes_loop (x : hdr) (i n : nat) (value : list N) (iter : nat) : sim (a_hset_bytes_loop x i n value iter) (hset_bytes_loop x i n value iter).
Proof. revert i iter. induction n as [|n IH]; intros i iter; cbn [a_hset_bytes_loop hset_bytes_loop]; sim. Qed.
Global Hint Resolve sim_hset_bytes_loop : sim.
Lemma sim_hset_bytes (m : mode) (x : hdr) (msb lsb : nat) (value : list N) : sim (a_hset_bytes m x msb lsb value) (hset_bytes m x msb lsb value).
Proof. unfold a_hset_bytes, hset_bytes. sim. Qed.
Global Hint Resolve sim_hset_bytes : sim.
Lemma sim_hclone (x : hdr) : sim (a_hclone x) (hclone x).
Proof. unfold a_hclone, hclone. sim. Qed.
Global Hint Resolve sim_hclone : sim.
Lemma sim_hdowncast (T : htype) (x : hdr) : sim (a_hdowncast T x) (hdowncast T x).
Proof. unfold a_hdowncast, hdowncast. sim. Qed.
Global Hint Resolve sim_hdowncast : sim.
Lemma sim_to_owned (a : any_header) : sim (a_to_owned a) (to_owned a).
Proof. unfold a_to_owned, to_owned. sim. Qed.
Global Hint Resolve sim_to_owned : sim.
Lemma sim_push_any (p : packet) (a : any_header) : sim (a_push_any p a) (push_any p a).
Proof. unfold a_push_any, push_any. sim. Qed.
Global Hint Resolve sim_push_any : sim.
Lemma sim_insert_any (p : packet) (a : any_header) : sim (a_insert_any p a) (insert_any p a).
Proof. unfold a_insert_any, insert_any. sim. Qed.
Global Hint Resolve sim_insert_any : sim.
Lemma sim_push (p : packet) (x : hdr) : sim (a_push p x) (push p x).
Proof. unfold a_push, push. sim. Qed.
Global Hint Resolve sim_push : sim.
Lemma sim_insert (p : packet) (x : hdr) : sim (a_insert p x) (insert p x).
Proof. unfold a_insert, insert. sim. Qed.
Global Hint Resolve sim_insert : sim.
Lemma sim_index_name (p : packet) (name : string) : sim (a_index_name p name) (index_name p name).
Proof. unfold a_index_name, index_name. sim. Qed.
Global Hint Resolve sim_index_name : sim.
Lemma sim_concat_vecs (l : list hdr) : sim (a_concat_vecs l) (concat_vecs l).
Proof. induction l as [|? l IH]; cbn [a_concat_vecs concat_vecs]; sim. Qed.
Global Hint Resolve sim_concat_vecs : sim.
Lemma sim_to_vec (p : packet) : sim (a_to_vec p) (to_vec p).
Proof. unfold a_to_vec, to_vec. sim. Qed.
Global Hint Resolve sim_to_vec : sim.
Lemma sim_clone_hdrs (l : list hdr) : sim (a_clone_hdrs l) (clone_hdrs l).
Proof. induction l as [|? l IH]; cbn [a_clone_hdrs clone_hdrs]; sim. Qed.
Global Hint Resolve sim_clone_hdrs : sim.
Lemma sim_pkt_add (p other : packet) : sim (a_pkt_add p other) (pkt_add p other).
Proof. unfold a_pkt_add, pkt_add. sim. Qed.
Global Hint Resolve sim_pkt_add : sim.
Lemma sim_pkt_clone (p : packet) : sim (a_pkt_clone p) (pkt_clone p).
Proof. unfold a_pkt_clone, pkt_clone. sim. Qed.
Global Hint Resolve sim_pkt_clone : sim.
Lemma sim_compare_with_slice (p : packet) (b : list N) : sim (a_compare_with_slice p b) (compare_with_slice p b).
Proof. unfold a_compare_with_slice, compare_with_slice. sim. Qed.
Global Hint Resolve sim_compare_with_slice : sim.
Lemma sim_compare (p q : packet) : sim (a_compare p q) (compare p q).
Proof. unfold a_compare, compare. sim. Qed.
Global Hint Resolve sim_compare : sim.
Lemma sim_hshow_octets (m : mode) (x : hdr) (i n : nat) : sim (a_hshow_octets m x i n) (hshow_octets m x i n).
Proof. revert i. induction n as [|n IH]; intros i; cbn [a_hshow_octets hshow_octets]; sim. Qed.
Global Hint Resolve sim_hshow_octets : sim.
Lemma sim_hshow_field (m : mode) (x : hdr) (f : field) : sim (a_hshow_field m x f) (hshow_field m x f).
Proof. unfold a_hshow_field, hshow_field. sim. Qed.
Global Hint Resolve sim_hshow_field : sim.
Lemma sim_hshow_fields (m : mode) (x : hdr) (l : list field) : sim (a_hshow_fields m x l) (hshow_fields m x l).
Proof. induction l as [|? l IH]; cbn [a_hshow_fields hshow_fields]; sim. Qed.
Global Hint Resolve sim_hshow_fields : sim.
Lemma sim_hshow (m : mode) (x : hdr) : sim (a_hshow m x) (hshow m x).
Proof. unfold a_hshow, hshow. sim. Qed.
Global Hint Resolve sim_hshow : sim.
Lemma sim_show_hdrs (m : mode) (l : list hdr) : sim (a_show_hdrs m l) (show_hdrs m l).
Proof. induction l as [|? l IH]; cbn [a_show_hdrs show_hdrs]; sim. Qed.
Global Hint Resolve sim_show_hdrs : sim.
Lemma sim_pkt_show (m : mode) (p : packet) : sim (a_pkt_show m p) (pkt_show m p).
Proof. unfold a_pkt_show, pkt_show. sim. Qed.
Global Hint Resolve sim_pkt_show : sim.
Lemma sim_ethernet (dst src : string) (etype : N) : sim (a_ethernet dst src etype) (ethernet dst src etype).
Proof. unfold a_ethernet, ethernet. sim. Qed.
Global Hint Resolve sim_ethernet : sim.
Lemma sim_dot3 (dst src : string) (len : N) : sim (a_dot3 dst src len) (dot3 dst src len).
Proof. unfold a_dot3, dot3. sim. Qed.
Global Hint Resolve sim_dot3 : sim.
Lemma sim_llc (dsap ssap ctrl : N) : sim (a_llc dsap ssap ctrl) (llc dsap ssap ctrl).
Proof. unfold a_llc, llc. sim. Qed.
Global Hint Resolve sim_llc : sim.
Lemma sim_arp (opcode : N) (sender_mac target_mac sender_ip target_ip : string) : sim (a_arp opcode sender_mac target_mac sender_ip target_ip) (arp opcode sender_mac target_mac sender_ip target_ip).
Proof. unfold a_arp, arp. sim. Qed.
Global Hint Resolve sim_arp : sim.
Lemma sim_vlan (pcp _cfi vid etype : N) : sim (a_vlan pcp _cfi vid etype) (vlan pcp _cfi vid etype).
Proof. unfold a_vlan, vlan. sim. Qed.
Global Hint Resolve sim_vlan : sim.
Lemma sim_ipv4 (m : mode) (ihl tos id ttl frag proto : N) (src dst : string) (pktlen : N) : sim (a_ipv4 m ihl tos id ttl frag proto src dst pktlen) (ipv4 m ihl tos id ttl frag proto src dst pktlen).
Proof. unfold a_ipv4, ipv4. sim. Qed.
Global Hint Resolve sim_ipv4 : sim.
Lemma sim_ipv6 (ip6 : string -> option (list N)) (traffic_class flow_label next_hdr hop_limit : N) (src dst : string) (pktlen : N) : sim (a_ipv6 ip6 traffic_class flow_label next_hdr hop_limit src dst pktlen) (ipv6 ip6 traffic_class flow_label next_hdr hop_limit src dst pktlen).
Proof. unfold a_ipv6, ipv6. sim. Qed.
Global Hint Resolve sim_ipv6 : sim.
Lemma sim_udp (src dst len : N) : sim (a_udp src dst len) (udp src dst len).
Proof. unfold a_udp, udp. sim. Qed.
Global Hint Resolve sim_udp : sim.
Lemma sim_icmp (icmp_type icmp_code : N) : sim (a_icmp icmp_type icmp_code) (icmp icmp_type icmp_code).
Proof. unfold a_icmp, icmp. sim. Qed.
Global Hint Resolve sim_icmp : sim.
Lemma sim_tcp (src dst seq_no ack_no data_offset res flags window chksum urgent_ptr : N) : sim (a_tcp src dst seq_no ack_no data_offset res flags window chksum urgent_ptr) (tcp src dst seq_no ack_no data_offset res flags window chksum urgent_ptr).
Proof. unfold a_tcp, tcp. sim. Qed.
Global Hint Resolve sim_tcp : sim.
Lemma sim_vxlan (vni : N) : sim (a_vxlan vni) (vxlan vni).
Proof. unfold a_vxlan, vxlan. sim. Qed.
Global Hint Resolve sim_vxlan : sim.
Lemma sim_gre (c r k seqnum s : bool) (flags ver proto : N) : sim (a_gre c r k seqnum s flags ver proto) (gre c r k seqnum s flags ver proto).
Proof. unfold a_gre, gre. sim. Qed.
Global Hint Resolve sim_gre : sim.
Lemma sim_gre_chksum_offset (chksum offset : N) : sim (a_gre_chksum_offset chksum offset) (gre_chksum_offset chksum offset).
Proof. unfold a_gre_chksum_offset, gre_chksum_offset. sim. Qed.
Global Hint Resolve sim_gre_chksum_offset : sim.
Lemma sim_gre_sequence_number (seqnum : N) : sim (a_gre_sequence_number seqnum) (gre_sequence_number seqnum).
Proof. unfold a_gre_sequence_number, gre_sequence_number. sim. Qed.
Global Hint Resolve sim_gre_sequence_number : sim.
Lemma sim_gre_key (key : N) : sim (a_gre_key key) (gre_key key).
Proof. unfold a_gre_key, gre_key. sim. Qed.
Global Hint Resolve sim_gre_key : sim.
Lemma sim_erspan2 (vlan cos en t session_id idx : N) : sim (a_erspan2 vlan cos en t session_id idx) (erspan2 vlan cos en t session_id idx).
Proof. unfold a_erspan2, erspan2. sim. Qed.
Global Hint Resolve sim_erspan2 : sim.
Lemma sim_erspan3 (vlan cos en t session_id timestamp sgt ft_d_other : N) : sim (a_erspan3 vlan cos en t session_id timestamp sgt ft_d_other) (erspan3 vlan cos en t session_id timestamp sgt ft_d_other).
Proof. unfold a_erspan3, erspan3. sim. Qed.
Global Hint Resolve sim_erspan3 : sim.
Lemma sim_mpls (label exp bos ttl : N) : sim (a_mpls label exp bos ttl) (mpls label exp bos ttl).
Proof. unfold a_mpls, mpls. sim. Qed.
Global Hint Resolve sim_mpls : sim.
Lemma sim_snap (oui code : N) : sim (a_snap oui code) (snap oui code).
Proof. unfold a_snap, snap. sim. Qed.
Global Hint Resolve sim_snap : sim.
Lemma sim_create_eth_packet (e : eth_args) (etype : N) (pl : list N) : sim (a_create_eth_packet e etype pl) (create_eth_packet e etype pl).
Proof. unfold a_create_eth_packet, create_eth_packet. sim. Qed.
Global Hint Resolve sim_create_eth_packet : sim.
Lemma sim_create_arp_packet (e : eth_args) (opcode : N) (sender_mac target_mac sender_ip target_ip : string) (pl : list N) : sim (a_create_arp_packet e opcode sender_mac target_mac sender_ip target_ip pl) (create_arp_packet e opcode sender_mac target_mac sender_ip target_ip pl).
Proof. unfold a_create_arp_packet, create_arp_packet. sim. Qed.
Global Hint Resolve sim_create_arp_packet : sim.
Lemma sim_create_ipv4_packet (m : mode) (e : eth_args) (i : ip4_args) (ip_proto : N) (pl : list N) : sim (a_create_ipv4_packet m e i ip_proto pl) (create_ipv4_packet m e i ip_proto pl).
Proof. unfold a_create_ipv4_packet, create_ipv4_packet. sim. Qed.
Global Hint Resolve sim_create_ipv4_packet : sim.
Lemma sim_create_ipv6_packet (ip6 : string -> option (list N)) (e : eth_args) (i : ip6_args) (ip_next_hdr : N) (pl : list N) : sim (a_create_ipv6_packet ip6 e i ip_next_hdr pl) (create_ipv6_packet ip6 e i ip_next_hdr pl).
Proof. unfold a_create_ipv6_packet, create_ipv6_packet. sim. Qed.
Global Hint Resolve sim_create_ipv6_packet : sim.
Lemma sim_bump_total_len (m : mode) (pkt : packet) (extra : nat) : sim (a_bump_total_len m pkt extra) (bump_total_len m pkt extra).
Proof. unfold a_bump_total_len, bump_total_len. sim. Qed.
Global Hint Resolve sim_bump_total_len : sim.
Lemma sim_refresh_checksum (m : mode) (ip : hdr) : sim (a_refresh_checksum m ip) (refresh_checksum m ip).
Proof. unfold a_refresh_checksum, refresh_checksum. sim. Qed.
Global Hint Resolve sim_refresh_checksum : sim.
Lemma sim_bump_payload_len (m : mode) (pkt : packet) (extra : nat) : sim (a_bump_payload_len m pkt extra) (bump_payload_len m pkt extra).
Proof. unfold a_bump_payload_len, bump_payload_len. sim. Qed.
Global Hint Resolve sim_bump_payload_len : sim.
Lemma sim_create_tcp_packet (m : mode) (e : eth_args) (i : ip4_args) (t : tcp_args) (pl : list N) : sim (a_create_tcp_packet m e i t pl) (create_tcp_packet m e i t pl).
Proof. unfold a_create_tcp_packet, create_tcp_packet. sim. Qed.
Global Hint Resolve sim_create_tcp_packet : sim.
Lemma sim_create_udp_packet (m : mode) (e : eth_args) (i : ip4_args) (udp_dst udp_src : N) (pl : list N) : sim (a_create_udp_packet m e i udp_dst udp_src pl) (create_udp_packet m e i udp_dst udp_src pl).
Proof. unfold a_create_udp_packet, create_udp_packet. sim. Qed.
Global Hint Resolve sim_create_udp_packet : sim.
Lemma sim_create_icmp_packet (m : mode) (e : eth_args) (i : ip4_args) (icmp_type icmp_code : N) (pl : list N) : sim (a_create_icmp_packet m e i icmp_type icmp_code pl) (create_icmp_packet m e i icmp_type icmp_code pl).
Proof. unfold a_create_icmp_packet, create_icmp_packet. sim. Qed.
Global Hint Resolve sim_create_icmp_packet : sim.
Lemma sim_create_ipv4ip_packet (m : mode) (e : eth_args) (i : ip4_args) (inner_pkt : packet) : sim (a_create_ipv4ip_packet m e i inner_pkt) (create_ipv4ip_packet m e i inner_pkt).
Proof. unfold a_create_ipv4ip_packet, create_ipv4ip_packet. sim. Qed.
Global Hint Resolve sim_create_ipv4ip_packet : sim.
Lemma sim_create_ipv6ip_packet (ip6 : string -> option (list N)) (e : eth_args) (i : ip6_args) (inner_pkt : packet) : sim (a_create_ipv6ip_packet ip6 e i inner_pkt) (create_ipv6ip_packet ip6 e i inner_pkt).
Proof. unfold a_create_ipv6ip_packet, create_ipv6ip_packet. sim. Qed.
Global Hint Resolve sim_create_ipv6ip_packet : sim.
Lemma sim_create_tcpv6_packet (m : mode) (ip6 : string -> option (list N)) (e : eth_args) (i : ip6_args) (t : tcp_args) (pl : list N) : sim (a_create_tcpv6_packet m ip6 e i t pl) (create_tcpv6_packet m ip6 e i t pl).
Proof. unfold a_create_tcpv6_packet, create_tcpv6_packet. sim. Qed.
Global Hint Resolve sim_create_tcpv6_packet : sim.
Lemma sim_create_udpv6_packet (m : mode) (ip6 : string -> option (list N)) (e : eth_args) (i : ip6_args) (udp_dst udp_src : N) (pl : list N) : sim (a_create_udpv6_packet m ip6 e i udp_dst udp_src pl) (create_udpv6_packet m ip6 e i udp_dst udp_src pl).
Proof. unfold a_create_udpv6_packet, create_udpv6_packet. sim. Qed.
Global Hint Resolve sim_create_udpv6_packet : sim.
Lemma sim_create_icmpv6_packet (m : mode) (ip6 : string -> option (list N)) (e : eth_args) (i : ip6_args) (icmp_type icmp_code : N) (pl : list N) : sim (a_create_icmpv6_packet m ip6 e i icmp_type icmp_code pl) (create_icmpv6_packet m ip6 e i icmp_type icmp_code pl).
Proof. unfold a_create_icmpv6_packet, create_icmpv6_packet. sim. Qed.
Global Hint Resolve sim_create_icmpv6_packet : sim.
Lemma sim_create_vxlan_packet (m : mode) (e : eth_args) (i : ip4_args) (udp_dst udp_src : N) (vxlan_vni : N) (inner_pkt : packet) : sim (a_create_vxlan_packet m e i udp_dst udp_src vxlan_vni inner_pkt) (create_vxlan_packet m e i udp_dst udp_src vxlan_vni inner_pkt).
Proof. unfold a_create_vxlan_packet, create_vxlan_packet. sim. Qed.
Global Hint Resolve sim_create_vxlan_packet : sim.
Lemma sim_create_vxlanv6_packet (m : mode) (ip6 : string -> option (list N)) (e : eth_args) (i : ip6_args) (udp_dst udp_src : N) (vxlan_vni : N) (inner_pkt : packet) : sim (a_create_vxlanv6_packet m ip6 e i udp_dst udp_src vxlan_vni inner_pkt) (create_vxlanv6_packet m ip6 e i udp_dst udp_src vxlan_vni inner_pkt).
Proof. unfold a_create_vxlanv6_packet, create_vxlanv6_packet. sim. Qed.
Global Hint Resolve sim_create_vxlanv6_packet : sim.
Lemma sim_create_gre_packet (m : mode) (e : eth_args) (i : ip4_args) (g : gre_args) (inner_pkt : option packet) : sim (a_create_gre_packet m e i g inner_pkt) (create_gre_packet m e i g inner_pkt).
Proof. unfold a_create_gre_packet, create_gre_packet. sim. Qed.
Global Hint Resolve sim_create_gre_packet : sim.
Lemma sim_opt_to_vec (o : option packet) : sim (a_opt_to_vec o) (opt_to_vec o).
Proof. unfold a_opt_to_vec, opt_to_vec. sim. Qed.
Global Hint Resolve sim_opt_to_vec : sim.
Lemma sim_create_erspan_2_packet (m : mode) (e : eth_args) (i : ip4_args) (gre_seqnum : N) (a : erspan_args) (erspan_index : N) (inner_pkt : option packet) : sim (a_create_erspan_2_packet m e i gre_seqnum a erspan_index inner_pkt) (create_erspan_2_packet m e i gre_seqnum a erspan_index inner_pkt).
Proof. unfold a_create_erspan_2_packet, create_erspan_2_packet. sim. Qed.
Global Hint Resolve sim_create_erspan_2_packet : sim.
Lemma sim_create_erspan_3_packet (m : mode) (e : eth_args) (i : ip4_args) (gre_seqnum : N) (a : erspan_args) (erspan_timestamp erspan_sgt erspan_ft_d_other : N) (erspan_pltfm_id erspan_pltfm_info : N) (inner_pkt : option packet) : sim (a_create_erspan_3_packet m e i gre_seqnum a erspan_timestamp erspan_sgt erspan_ft_d_other erspan_pltfm_id erspan_pltfm_info inner_pkt) (create_erspan_3_packet m e i gre_seqnum a erspan_timestamp erspan_sgt erspan_ft_d_other erspan_pltfm_id erspan_pltfm_info inner_pkt).
Proof. unfold a_create_erspan_3_packet, create_erspan_3_packet. sim. Qed.
Global Hint Resolve sim_create_erspan_3_packet : sim.
Lemma sim_take_hdr T d i : sim (a_take_hdr T d i) (take_hdr T d i).
Proof. unfold a_take_hdr, take_hdr. sim. Qed.
Lemma sim_call arec rec f d i : (forall f d, sim (arec f d) (rec f d)) ->
  sim (a_call arec f d i) (Slow.call rec f d i).
Proof. intro R. unfold a_call, Slow.call. sim. Qed.
Global Hint Resolve sim_take_hdr sim_call : sim.
Lemma sim_opt_hdr b T d i : sim (a_opt_hdr b T d i) (opt_hdr b T d i).
Proof. unfold a_opt_hdr, opt_hdr. sim. Qed.
Lemma sim_insert_opt p o : sim (a_insert_opt p o) (insert_opt p o).
Proof. unfold a_insert_opt, insert_opt. sim. Qed.
Global Hint Resolve sim_opt_hdr sim_insert_opt : sim.
Lemma sim_slow_body m arec rec f d : (forall f d, sim (arec f d) (rec f d)) ->
  sim (a_slow_body m arec f d) (slow_body m rec f d).
Proof.
  intro R. destruct f; cbn [a_slow_body slow_body];
  unfold a_parse_body, parse_body, a_parse_dot3_body, parse_dot3_body, a_parse_llc_body, parse_llc_body, a_parse_snap_body, parse_snap_body, a_parse_ethernet_body, parse_ethernet_body, a_parse_vlan_body, parse_vlan_body, a_parse_mpls_body, parse_mpls_body, a_parse_mpls_bos_body, parse_mpls_bos_body, a_parse_ipv4_body, parse_ipv4_body, a_parse_ipv6_body, parse_ipv6_body, a_parse_gre_body, parse_gre_body, a_parse_erspan2_body, parse_erspan2_body, a_parse_erspan3_body, parse_erspan3_body, a_parse_leaf_body, parse_leaf_body, a_parse_udp_body, parse_udp_body, a_parse_vxlan_body, parse_vxlan_body, a_accept_body, accept_body; sim.
Qed.
Lemma sim_slow_fuel m n f d : sim (a_slow_fuel m n f d) (slow_fuel m n f d).
Proof.
  revert f d. induction n as [|n IH]; intros f d; [intro; reflexivity|].
  cbn [a_slow_fuel slow_fuel]. apply sim_slow_body. exact IH.
Qed.
Lemma sim_slow m f d : sim (a_slow m f d) (slow m f d).
Proof. apply sim_slow_fuel. Qed.
Global Hint Resolve sim_slow : sim.
Lemma sim_hexec (m : mode) (o : hop) : sim (a_hexec m o) (hexec m o).
Proof. unfold a_hexec, hexec. sim. Qed.
Global Hint Resolve sim_hexec : sim.
Lemma sim_hmake_run (m : mode) (ip6 : string -> option (list N)) (b : hmake) : sim (a_hmake_run m ip6 b) (hmake_run m ip6 b).
Proof. unfold a_hmake_run, hmake_run. sim. Qed.
Global Hint Resolve sim_hmake_run : sim.
Lemma sim_pmake_run (m : mode) (ip6 : string -> option (list N)) (b : pmake) : sim (a_pmake_run m ip6 b) (pmake_run m ip6 b).
Proof. unfold a_pmake_run, pmake_run. sim. Qed.
Global Hint Resolve sim_pmake_run : sim.
Lemma sim_kexec (m : mode) (ip6 : string -> option (list N)) (k : call) : sim (a_kexec m ip6 k) (kexec m ip6 k).
Proof. unfold a_kexec, kexec. sim. Qed.
Global Hint Resolve sim_kexec : sim.

