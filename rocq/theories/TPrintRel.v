(** TPrintRel.v -- what every public function prints depends on the bytes in its buffers
    and not on what the buffers are called. *)

From Coq Require Import Lia.
From Verif Require Import Base Bits Types Layout Heap Packet Text Build Utils Slow Fast Show Trait Ops Client Print Threads TPrint
  Spec ClientSpec ThreadsSpec BitsProofs HeapProofs TextProofs ChecksumProofs BuildProofs PropBuild SlowProofs ClientProofs ThreadsRel.
Open Scope N_scope.

Section Rel.
Variables (fu rp : bool) (rho : nat -> nat -> Prop).

(** As [rl] of ThreadsRel.v, and both print the same. *)
Fixpoint qrl {A} (Q : A -> A -> Prop) (p p' : pact A) : Prop :=
  match p, p' with
  | QDone o, QDone o' => orl fu Q o o'
  | QSay s k, QSay s' k' => s = s' /\ qrl Q k k'
  | QAlloc d k, QAlloc d' k' => d = d' /\ bytes_ok d /\ forall r r', rho r r' -> qrl Q (k r) (k' r')
  | QRead r i k, QRead r' i' k' => rho r r' /\ i = i' /\ forall b, qrl Q (k b) (k' b)
  | QWrite r i v k, QWrite r' i' v' k' => rho r r' /\ i = i' /\ v = v' /\ v < 2 /\ qrl Q k k'
  | QCopy r k, QCopy r' k' => rho r r' /\ forall d, bytes_ok d -> qrl Q (k d) (k' d)
  | QRepl x o k, QRepl x' o' k' => rp = true /\ rho x x' /\ rho o o' /\ qrl Q k k'
  | _, _ => False
  end.
Notation rl := (rl fu rp rho).
Notation hrel := (hrel rho).
Notation prel := (prel rho).
Notation vrel := (vrel rho).

Lemma qrl_bind {A B} (P : A -> A -> Prop) (Q : B -> B -> Prop) p p' f f' : qrl P p p' ->
  (forall a a', P a a' -> qrl Q (f a) (f' a')) -> qrl Q (qbind p f) (qbind p' f').
Proof.
  intros H K. revert p' H.
  induction p as [o|s k IH|d k IH|r i k IH|r i v k IH|r k IH|x o k IH];
    intros [o'|s' k'|d' k'|r' i' k'|r' i' v' k'|r' k'|x' o' k'] H;
    cbn [qrl qbind] in *; try contradiction.
  - destruct o, o'; cbn [orl] in *; try contradiction; auto.
  - destruct H as (E & H). auto.
  - destruct H as (E & D & H). auto.
  - destruct H as (E & D & H). auto.
  - destruct H as (E & D & V & L & H). repeat split; auto.
  - destruct H as (E & H). auto.
  - destruct H as (E & D & V & H). auto.
Qed.
Lemma qrl_act {A} (Q : A -> A -> Prop) p p' : rl Q p p' -> qrl Q (qact p) (qact p').
Proof.
  intros H. revert p' H.
  induction p as [o|d k IH|r i k IH|r i v k IH|r k IH|x o k IH]; intros [o'|d' k'|r' i' k'|r' i' v' k'|r' k'|x' o' k'] H;
    cbn [rl ThreadsRel.rl qrl qact] in *; try contradiction; auto.
  - destruct H as (E & D & H). auto.
  - destruct H as (E & D & H). auto.
  - destruct H as (E & D & V & L & H). repeat split; auto.
  - destruct H as (E & H). auto.
  - destruct H as (E & D & V & H). auto.
Qed.
Lemma qrl_say s : qrl any (qsay s) (qsay s).
Proof. cbn. split; auto. reflexivity. Qed.
Lemma qrl_ret {A} (Q : A -> A -> Prop) a a' : Q a a' -> qrl Q (qact (aret a)) (qact (aret a')).
Proof. auto. Qed.

Ltac stp := eapply qrl_bind; [|intros ? ? ?P].
Ltac same := eapply (qrl_bind any); [|intros ? ? <-].
Ltac tell := same; [apply qrl_say|].

(** ** Addresses *)

Lemma parse_lt radix s x : parse_u8 radix s = inl x -> x < 256.
Proof.
  assert (D : forall s acc, acc < 256 -> forall x, digits_parse radix s acc = inl x -> x < 256).
  { clear. induction s as [|c s IH]; intros acc L x E; cbn [digits_parse] in E; [congruence|].
    destruct (to_digit radix c); [|discriminate]. destruct (256 <=? acc * radix); [discriminate|].
    destruct (256 <=? acc * radix + n) eqn:Z; [discriminate|]. apply N.leb_gt in Z. eapply IH; eauto. }
  unfold parse_u8. destruct s as [|c t]; [discriminate|].
  destruct t as [|c' t]; [destruct (_ || _); [discriminate|]|destruct (_ =? 43)]; apply D; reflexivity.
Qed.
Lemma qrl_fill radix self parts i a : bytes_ok a -> qrl bys (q_fill radix self parts i a) (q_fill radix self parts i a).
Proof.
  revert i a. induction parts as [|v t IH]; intros i a B; cbn [q_fill]; [split; auto|].
  eapply (qrl_bind (fun x x' => x = x' /\ x < 256)).
  - destruct (parse_u8 radix v) eqn:E; [split; [reflexivity|eapply parse_lt; eauto]|]. tell. apply qrl_ret. split; auto. reflexivity.
  - intros x ? (<- & X). same; [apply qrl_act, rl_index|]. apply IH. apply bytes_ok_upd; auto.
Qed.
Lemma qrl_mac s : qrl bys (q_mac s) (q_mac s).
Proof. apply qrl_fill, bytes_okb_ok. reflexivity. Qed.
Lemma qrl_ip4 s : qrl bys (q_ip4 s) (q_ip4 s).
Proof. apply qrl_fill, bytes_okb_ok. reflexivity. Qed.

Variables (m : mode) (ip6 : string -> option (list N)).
Hypothesis O6 : octets16 ip6.

Lemma qrl_ip6 s : qrl bys (q_ip6 ip6 s) (q_ip6 ip6 s).
Proof.
  unfold q_ip6. destruct (ip6 s) eqn:E; [apply qrl_ret; split; auto; apply (O6 s); auto|].
  tell. apply qrl_ret. split; auto. apply bytes_okb_ok. reflexivity.
Qed.
Ltac mac := eapply qrl_bind; [apply qrl_mac|intros ? ? (<- & ?B)].
Ltac ip4 := eapply qrl_bind; [apply qrl_ip4|intros ? ? (<- & ?B)].
Ltac ip6 := eapply qrl_bind; [apply qrl_ip6|intros ? ? (<- & ?B)].

Lemma qrl_ethernet d s e : qrl hrel (q_ethernet d s e) (q_ethernet d s e).
Proof. unfold q_ethernet. mac. mac. apply qrl_act, rl_hfrom. bo. Qed.
Lemma qrl_dot3 d s e : qrl hrel (q_dot3 d s e) (q_dot3 d s e).
Proof. unfold q_dot3. mac. mac. apply qrl_act, rl_hfrom. bo. Qed.
Lemma qrl_arp o a b c d : qrl hrel (q_arp o a b c d) (q_arp o a b c d).
Proof. unfold q_arp. mac. ip4. mac. ip4. apply qrl_act, rl_hfrom. bo. Qed.
Lemma qrl_ipv4 ihl tos id ttl frag proto src dst len : ihl < 256 -> tos < 256 -> ttl < 256 -> proto < 256 ->
  qrl hrel (q_ipv4 m ihl tos id ttl frag proto src dst len) (q_ipv4 m ihl tos id ttl frag proto src dst len).
Proof.
  intros Hi Ht Hl Hp. unfold q_ipv4. cbv zeta. ip4. ip4. same; [apply qrl_act, rl_any, checksum_outcome|].
  stp; [apply qrl_act, rl_hfrom; bo|]. stp; [apply qrl_act, rl_hset; eauto|]. apply qrl_ret; auto.
Qed.
Lemma qrl_ipv6 tc fl nh hl src dst len : nh < 256 -> hl < 256 ->
  qrl hrel (q_ipv6 ip6 tc fl nh hl src dst len) (q_ipv6 ip6 tc fl nh hl src dst len).
Proof. intros Hn Hh. unfold q_ipv6. cbv zeta. ip6. ip6. apply qrl_act, rl_hfrom. bo. Qed.
Lemma qrl_hmake b : hmake_t b -> qrl hrel (q_hmake m ip6 b) (q_hmake m ip6 b).
Proof.
  intros T. pose proof (rl_hmake fu rp rho m ip6 O6 b T) as R. destruct b; cbn [q_hmake hmake_t] in *; try (apply qrl_act; exact R);
    repeat match goal with X : _ /\ _ |- _ => destruct X end; unfold u8t in *.
  - apply qrl_ethernet.
  - apply qrl_dot3.
  - apply qrl_arp.
  - apply qrl_ipv4; assumption.
  - apply qrl_ipv6; assumption.
Qed.

(** ** Packet constructors *)

Ltac quiet := apply qrl_act.
Lemma qrl_create_eth e t pl : bytes_ok pl -> qrl prel (q_create_eth_packet e t pl) (q_create_eth_packet e t pl).
Proof.
  intros B. unfold q_create_eth_packet. cbv zeta. eapply (qrl_bind prel).
  - destruct (vlan_enable e).
    + stp; [apply qrl_ethernet|]. stp; [quiet; apply rl_push; eauto using prel_new|]. stp; [quiet; apply rl_vlan|]. quiet. apply rl_push; auto.
    + stp; [apply qrl_ethernet|]. quiet. apply rl_push; auto using prel_new.
  - intros p p' P. apply qrl_ret. apply prel_payload; auto.
Qed.
Lemma qrl_create_arp e o a b c d pl : bytes_ok pl -> qrl prel (q_create_arp_packet e o a b c d pl) (q_create_arp_packet e o a b c d pl).
Proof. intros B. unfold q_create_arp_packet. stp; [apply qrl_create_eth; auto|]. stp; [apply qrl_arp|]. quiet. apply rl_push; auto. Qed.
Lemma qrl_create_ipv4 e i p pl : ip4_t i -> p < 256 -> bytes_ok pl ->
  qrl prel (q_create_ipv4_packet m e i p pl) (q_create_ipv4_packet m e i p pl).
Proof.
  intros (A & B & C & _) Hp D. unfold q_create_ipv4_packet. stp; [apply qrl_create_eth; auto|].
  stp; [apply qrl_ipv4; auto|]. quiet. apply rl_push; auto.
Qed.
Lemma qrl_create_ipv6 e i p pl : ip6_t i -> p < 256 -> bytes_ok pl ->
  qrl prel (q_create_ipv6_packet ip6 e i p pl) (q_create_ipv6_packet ip6 e i p pl).
Proof.
  intros (A & B & C) Hp D. unfold q_create_ipv6_packet. stp; [apply qrl_create_eth; auto|].
  stp; [apply qrl_ipv6; auto|]. quiet. apply rl_push; auto.
Qed.

Ltac v4 := stp; [apply qrl_create_ipv4; auto using IpProtocol_lt|].
Ltac v6 := stp; [apply qrl_create_ipv6; auto using IpProtocol_lt|].
Ltac bump := stp; [quiet; apply rl_bump_total; eauto|]; same; [quiet; apply rl_refresh; eauto|].
Ltac bump6 := same; [quiet; apply rl_bump_payload; eauto|].
Ltac fin := quiet; apply rl_push; assumption.
Ltac psh := stp; [quiet; apply rl_push; eassumption|].
Ltac vec := eapply qrl_bind; [quiet; apply rl_to_vec; eassumption|intros ? ? (<- & ?V)].

Lemma qrl_create_tcp e i t pl : ip4_t i -> tcp_t t -> bytes_ok pl -> qrl prel (q_create_tcp_packet m e i t pl) (q_create_tcp_packet m e i t pl).
Proof.
  intros Hi (_ & _ & _ & _ & _ & Hr & Hf & _) B. unfold q_create_tcp_packet. v4. bump. stp; [quiet; apply rl_tcp; auto|]. fin.
Qed.
Lemma qrl_create_udp e i d s pl : ip4_t i -> bytes_ok pl -> qrl prel (q_create_udp_packet m e i d s pl) (q_create_udp_packet m e i d s pl).
Proof. intros Hi B. unfold q_create_udp_packet. v4. bump. stp; [quiet; apply rl_udp|]. fin. Qed.
Lemma qrl_create_icmp e i t c pl : ip4_t i -> t < 256 -> c < 256 -> bytes_ok pl ->
  qrl prel (q_create_icmp_packet m e i t c pl) (q_create_icmp_packet m e i t c pl).
Proof. intros Hi Ht Hc B. unfold q_create_icmp_packet. v4. bump. stp; [quiet; apply rl_icmp; auto|]. fin. Qed.
Lemma qrl_create_ipv4ip e i p p' : ip4_t i -> prel p p' -> qrl prel (q_create_ipv4ip_packet m e i p) (q_create_ipv4ip_packet m e i p').
Proof.
  intros Hi P. unfold q_create_ipv4ip_packet. vec. same; [quiet; apply rl_index|]. apply qrl_create_ipv4; auto using IpProtocol_lt.
Qed.
Lemma qrl_create_ipv6ip e i p p' : ip6_t i -> prel p p' ->
  qrl prel (q_create_ipv6ip_packet ip6 e i p) (q_create_ipv6ip_packet ip6 e i p').
Proof.
  intros Hi P. unfold q_create_ipv6ip_packet. vec. same; [quiet; apply rl_index|]. apply qrl_create_ipv6; auto using IpProtocol_lt.
Qed.
Lemma qrl_create_tcpv6 e i t pl : ip6_t i -> tcp_t t -> bytes_ok pl ->
  qrl prel (q_create_tcpv6_packet m ip6 e i t pl) (q_create_tcpv6_packet m ip6 e i t pl).
Proof.
  intros Hi (_ & _ & _ & _ & _ & Hr & Hf & _) B. unfold q_create_tcpv6_packet. v6. bump6.
  stp; [quiet; apply rl_tcp; auto|]. fin.
Qed.
Lemma qrl_create_udpv6 e i d s pl : ip6_t i -> bytes_ok pl ->
  qrl prel (q_create_udpv6_packet m ip6 e i d s pl) (q_create_udpv6_packet m ip6 e i d s pl).
Proof.
  intros Hi B. unfold q_create_udpv6_packet. v6. bump6.
  stp; [quiet; apply rl_udp|]. same; [quiet; apply rl_hset; eauto|]. fin.
Qed.
Lemma qrl_create_icmpv6 e i t c pl : ip6_t i -> t < 256 -> c < 256 -> bytes_ok pl ->
  qrl prel (q_create_icmpv6_packet m ip6 e i t c pl) (q_create_icmpv6_packet m ip6 e i t c pl).
Proof.
  intros Hi Ht Hc B. unfold q_create_icmpv6_packet. v6. bump6. stp; [quiet; apply rl_icmp; auto|]. fin.
Qed.
Lemma qrl_create_vxlan e i d s v p p' : ip4_t i -> prel p p' ->
  qrl prel (q_create_vxlan_packet m e i d s v p) (q_create_vxlan_packet m e i d s v p').
Proof.
  intros Hi P. unfold q_create_vxlan_packet. vec. v4. stp; [quiet; apply rl_bump_total; eauto|]. stp; [quiet; apply rl_udp|]. psh.
  stp; [quiet; apply rl_vxlan|]. fin.
Qed.
Lemma qrl_create_vxlanv6 e i d s v p p' : ip6_t i -> prel p p' ->
  qrl prel (q_create_vxlanv6_packet m ip6 e i d s v p) (q_create_vxlanv6_packet m ip6 e i d s v p').
Proof.
  intros Hi P. unfold q_create_vxlanv6_packet. vec. v6. bump6. stp; [quiet; apply rl_udp|].
  same; [quiet; apply rl_hset; eauto|]. psh. stp; [quiet; apply rl_vxlan|]. psh. quiet. apply rl_pkt_add; auto.
Qed.
Lemma qrl_opt_push (b : bool) p p' x x' : prel p p' -> rl hrel x x' ->
  qrl prel (if b then qlet o := qact x in qact (a_push p o) else qact (aret p))
           (if b then qlet o := qact x' in qact (a_push p' o) else qact (aret p')).
Proof. intros P X. destruct b; [|apply qrl_ret; auto]. stp; [quiet; exact X|]. quiet. apply rl_push; auto. Qed.
Ltac opush := stp; [apply qrl_opt_push; [eassumption|]|].

Lemma qrl_create_gre e i g o o' : ip4_t i -> gre_t g -> oprel rho o o' ->
  qrl prel (q_create_gre_packet m e i g o) (q_create_gre_packet m e i g o').
Proof.
  intros Hi (_ & Hv & _) O. unfold q_create_gre_packet.
  eapply (qrl_bind (fun q q' => q = q' /\ bytes_ok (snd q))).
  - destruct o as [p|], o' as [p'|]; cbn [oprel] in O; try contradiction; [|apply qrl_ret; split; auto; constructor].
    vec. same; [quiet; apply rl_index|]. apply qrl_ret. auto.
  - intros [proto v] ? (<- & B). cbn [snd] in B. v4. bump. stp; [quiet; apply rl_gre; auto|]. psh.
    opush; [apply rl_gre_chksum|]. opush; [apply rl_gre_key|]. apply qrl_opt_push; auto. apply rl_gre_seq.
Qed.
Ltac ovec := eapply qrl_bind; [quiet; apply rl_opt_to_vec; eassumption|intros ? ? (<- & ?V)].
Lemma qrl_create_erspan2 e i q a x o o' : ip4_t i -> oprel rho o o' ->
  qrl prel (q_create_erspan_2_packet m e i q a x o) (q_create_erspan_2_packet m e i q a x o').
Proof.
  intros Hi O. unfold q_create_erspan_2_packet. rewrite <- (oprel_len _ _ _ O). ovec. v4. bump. stp; [quiet; apply rl_new_gre|].
  same; [quiet; apply rl_hset; eauto|].
  eapply (qrl_bind any).
  { quiet. destruct (negb (q =? 0)); [apply rl_hset; auto|reflexivity]. }
  intros _ _ _. psh. opush; [apply rl_gre_seq|]. stp; [quiet; apply rl_erspan2|]. fin.
Qed.
Lemma qrl_create_erspan3 e i q a ts sg f id info o o' : ip4_t i -> oprel rho o o' ->
  qrl prel (q_create_erspan_3_packet m e i q a ts sg f id info o) (q_create_erspan_3_packet m e i q a ts sg f id info o').
Proof.
  intros Hi O. unfold q_create_erspan_3_packet. rewrite <- (oprel_len _ _ _ O). ovec. v4. bump. stp; [quiet; apply rl_new_gre|].
  same; [quiet; apply rl_hset; eauto|]. same; [quiet; apply rl_hset; eauto|]. psh. opush; [apply rl_gre_seq|].
  stp; [quiet; apply rl_erspan3|]. psh. cbv zeta. opush; [apply rl_hfrom; bo|].
  destruct o as [p|], o' as [p'|]; cbn [oprel] in O; try contradiction; [quiet; apply rl_pkt_add; auto|apply qrl_ret; auto].
Qed.

(** The second program has the arguments of the first in other buffers. *)
Variable g : nat -> nat.

Lemma qrl_pmake b : pmake_t b -> Forall (fun p => prel p (rename_pkt g p)) (pmake_inner b) ->
  qrl prel (q_pmake m ip6 b) (q_pmake m ip6 (rename_pmake g b)).
Proof.
  intros T J.
  assert (V : forall o : option packet, Forall (fun p => prel p (rename_pkt g p)) (match o with Some p => [p] | None => [] end) ->
    oprel rho o (option_map (rename_pkt g) o)).
  { intros [p|] F; [inversion F; subst; auto|exact I]. }
  destruct b; cbn [q_pmake rename_pmake pmake_t pmake_inner] in *; unfold u8t in *;
    repeat match goal with X : _ /\ _ |- _ => destruct X end;
    repeat match goal with X : Forall _ (_ :: _) |- _ => inversion X; subst; clear X end.
  - apply qrl_create_eth; assumption.
  - apply qrl_create_arp; assumption.
  - apply qrl_create_ipv4; assumption.
  - apply qrl_create_ipv6; assumption.
  - apply qrl_create_tcp; assumption.
  - apply qrl_create_udp; assumption.
  - apply qrl_create_icmp; assumption.
  - apply qrl_create_ipv4ip; assumption.
  - apply qrl_create_ipv6ip; assumption.
  - apply qrl_create_tcpv6; assumption.
  - apply qrl_create_udpv6; assumption.
  - apply qrl_create_icmpv6; assumption.
  - apply qrl_create_vxlan; assumption.
  - apply qrl_create_vxlanv6; assumption.
  - apply qrl_create_gre; try assumption. apply V. exact J.
  - apply qrl_create_erspan2; try assumption. apply V. exact J.
  - apply qrl_create_erspan3; try assumption. apply V. exact J.
Qed.

(** ** [show] *)

Section Show.
Variables br br' : nat -> nat -> act N.
Hypothesis B : forall msb lsb, rl any (br msb lsb) (br' msb lsb).
Lemma qrl_show_octets n : forall i, qrl any (q_show_octets br i n) (q_show_octets br' i n).
Proof.
  induction n as [|n IH]; intros i; cbn [q_show_octets]; [reflexivity|]. same; [quiet; apply B|]. tell. apply IH.
Qed.
Lemma qrl_show_field f : qrl any (q_show_field br f) (q_show_field br' f).
Proof.
  unfold q_show_field. cbv zeta. tell. same; [|apply qrl_say]. destruct (_ <=? 8)%nat; [same; [quiet; apply B|]; apply qrl_say|].
  destruct (_ =? 0)%nat; [apply qrl_show_octets|]. same; [apply qrl_show_octets|]. same; [quiet; apply B|]. apply qrl_say.
Qed.
Lemma qrl_show_fields l : qrl any (q_show_fields br l) (q_show_fields br' l).
Proof. induction l as [|f l IH]; cbn [q_show_fields]; [reflexivity|]. same; [apply qrl_show_field|]. exact IH. Qed.
Lemma qrl_show_header T : qrl any (q_show_header br T) (q_show_header br' T).
Proof. unfold q_show_header. tell. tell. apply qrl_show_fields. Qed.
End Show.
Lemma qrl_hshow x x' : hrel x x' -> qrl any (q_hshow m x) (q_hshow m x').
Proof. intros X. unfold q_hshow. rewrite (proj1 X). apply qrl_show_header. intros. apply rl_hbit_range; auto. Qed.
Lemma qrl_sshow x : qrl any (q_sshow m x) (q_sshow m x).
Proof. unfold q_sshow. apply qrl_show_header. intros. apply rl_any, get_bits_outcome. Qed.
Lemma qrl_dump v : forall x, qrl any (q_dump v x) (q_dump v x).
Proof.
  induction v as [|i v IH]; intros x; cbn [q_dump]; [reflexivity|]. tell. cbv zeta. destruct (_ =? 0)%nat; [tell|]; apply IH.
Qed.
Lemma qrl_show_raw v : qrl any (q_show_raw v) (q_show_raw v).
Proof. unfold q_show_raw. tell. same; [apply qrl_dump|]. apply qrl_say. Qed.
Lemma qrl_show_hdrs l l' : Forall2 hrel l l' -> qrl any (q_show_hdrs m l) (q_show_hdrs m l').
Proof. induction 1 as [|x x' l l' X F IH]; cbn [q_show_hdrs]; [reflexivity|]. same; [apply qrl_hshow; eauto|]. exact IH. Qed.
Lemma qrl_pkt_show p p' : prel p p' -> qrl any (q_pkt_show m p) (q_pkt_show m p').
Proof. intros P. unfold q_pkt_show. same; [apply qrl_show_hdrs, P|]. vec. apply qrl_show_raw. Qed.
Lemma qrl_show_shdrs l : qrl any (q_show_shdrs m l) (q_show_shdrs m l).
Proof. induction l as [|x l IH]; cbn [q_show_shdrs]; [reflexivity|]. same; [apply qrl_sshow|]. exact IH. Qed.
Lemma qrl_ps_show q : qrl any (q_ps_show m q) (q_ps_show m q).
Proof. unfold q_ps_show. same; [apply qrl_show_shdrs|]. apply qrl_show_raw. Qed.
Lemma qrl_compare_slice p p' d : prel p p' -> qrl any (q_compare_with_slice p d) (q_compare_with_slice p' d).
Proof.
  intros P. unfold q_compare_with_slice. rewrite (pkt_len_rel _ _ _ P). cbv zeta. destruct (negb _); [tell; reflexivity|].
  vec. destruct (_ || _); [tell|]; reflexivity.
Qed.
Lemma qrl_compare p p' q q' : prel p p' -> prel q q' -> qrl any (q_compare p q) (q_compare p' q').
Proof. intros P Q. unfold q_compare. vec. apply qrl_compare_slice; auto. Qed.

(** ** Any call *)

Lemma qrl_call k : (forall x, In x (call_hdrs k) -> hrel x (rename_hdr g x)) -> (forall p, In p (call_pkts k) -> prel p (rename_pkt g p)) ->
  typed k -> ~ short_from k -> (parses k = true -> fu = true) -> (replaces k = true -> rp = true) ->
  qrl vrel (q_call m ip6 k) (q_call m ip6 (rename_call g k)).
Proof.
  intros Kh Kp T S Fu Rp. pose proof (rl_kexec fu rp rho m ip6 O6 g k Kh Kp T S Fu Rp) as R.
  assert (U : qrl vrel (qact (aret (KVal VUnit))) (qact (aret (KVal VUnit)))) by (split; auto; exact I).
  destruct k; cbn [rename_call] in *; cbn [q_call call_hdrs call_pkts typed] in *; try (apply qrl_act; exact R).
  - same; [apply qrl_hshow; apply Kh; left; auto|]. exact U.
  - stp; [apply qrl_hmake; auto|]. exact P.
  - same; [apply qrl_compare; apply Kp; [left|right; left]; auto|]. reflexivity.
  - same; [apply qrl_compare_slice; apply Kp; left; auto|]. reflexivity.
  - same; [apply qrl_pkt_show; apply Kp; left; auto|]. exact U.
  - mac. split; auto.
  - ip4. split; auto.
  - stp; [apply qrl_pmake; auto|]; [|exact P]. apply Forall_forall. exact Kp.
  - same; [apply qrl_sshow|]. exact U.
  - same; [apply qrl_ps_show|]. exact U.
  - ip6. split; auto.
Qed.
End Rel.
