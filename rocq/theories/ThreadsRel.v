(** ThreadsRel.v -- every public function uses buffers only through its arguments and
    what it allocates itself, and does the same things whatever the buffers are called. *)

From Coq Require Import Lia.
From Verif Require Import Base Bits Types Layout Heap Packet Text Build Utils Slow Fast Show Ops Client Threads Spec ClientSpec ThreadsSpec
  BitsProofs HeapProofs TextProofs ChecksumProofs BuildProofs PropBuild SlowProofs ClientProofs.
Open Scope N_scope.

Section Rel.
(** [rho r r']: the buffer [r] of the first program plays the part of [r'] in the
    second. With [fu], parsing may run out of fuel; with [rp], [replace] is allowed. *)
Variables (fu rp : bool) (rho : nat -> nat -> Prop).

Definition orl {A} (Q : A -> A -> Prop) (o o' : out A) : Prop :=
  match o, o' with
  | Ret a, Ret a' => Q a a'
  | Panic e, Panic e' => e = e'
  | Fuel, Fuel => fu = true
  | _, _ => False
  end.
Fixpoint rl {A} (Q : A -> A -> Prop) (p p' : act A) : Prop :=
  match p, p' with
  | ADone o, ADone o' => orl Q o o'
  | AAlloc d k, AAlloc d' k' => d = d' /\ bytes_ok d /\ forall r r', rho r r' -> rl Q (k r) (k' r')
  | ARead r i k, ARead r' i' k' => rho r r' /\ i = i' /\ forall b, rl Q (k b) (k' b)
  | AWrite r i v k, AWrite r' i' v' k' => rho r r' /\ i = i' /\ v = v' /\ v < 2 /\ rl Q k k'
  | ACopy r k, ACopy r' k' => rho r r' /\ forall d, bytes_ok d -> rl Q (k d) (k' d)
  | ARepl x o k, ARepl x' o' k' => rp = true /\ rho x x' /\ rho o o' /\ rl Q k k'
  | _, _ => False
  end.

Definition any {A} (a a' : A) : Prop := a = a'.
Definition bys (a a' : list N) : Prop := a = a' /\ bytes_ok a.
Definition hrel (x x' : hdr) : Prop := h_ty x = h_ty x' /\ rho (h_ref x) (h_ref x').
Definition prel (p p' : packet) : Prop :=
  Forall2 hrel (p_hdrs p) (p_hdrs p') /\ p_payload p = p_payload p' /\ bytes_ok (p_payload p).

Lemma rl_bind {A B} (P : A -> A -> Prop) (Q : B -> B -> Prop) p p' f f' : rl P p p' ->
  (forall a a', P a a' -> rl Q (f a) (f' a')) -> rl Q (abind p f) (abind p' f').
Proof.
  intros H K. revert p' H.
  induction p as [o|d k IH|r i k IH|r i v k IH|r k IH|x o k IH]; intros [o'|d' k'|r' i' k'|r' i' v' k'|r' k'|x' o' k'] H;
    cbn [rl abind] in *; try contradiction.
  - destruct o, o'; cbn [orl] in *; try contradiction; auto.
  - destruct H as (E & D & H). auto.
  - destruct H as (E & D & H). auto.
  - destruct H as (E & D & V & L & H). repeat split; auto.
  - destruct H as (E & H). auto.
  - destruct H as (E & D & V & H). auto.
Qed.
Lemma rl_imp {A} (P Q : A -> A -> Prop) p p' : rl P p p' -> (forall a a', P a a' -> Q a a') -> rl Q p p'.
Proof.
  intros H K. revert p' H.
  induction p as [o|d k IH|r i k IH|r i v k IH|r k IH|x o k IH]; intros [o'|d' k'|r' i' k'|r' i' v' k'|r' k'|x' o' k'] H;
    cbn [rl] in *; try contradiction.
  - destruct o, o'; cbn [orl] in *; try contradiction; auto.
  - destruct H as (E & D & H). auto.
  - destruct H as (E & D & H). auto.
  - destruct H as (E & D & V & L & H). repeat split; auto.
  - destruct H as (E & H). auto.
  - destruct H as (E & D & V & H). auto.
Qed.
Lemma rl_ret {A} (Q : A -> A -> Prop) a a' : Q a a' -> rl Q (aret a) (aret a').
Proof. auto. Qed.
Lemma rl_fail {A} (Q : A -> A -> Prop) e : rl Q (afail e) (afail e).
Proof. reflexivity. Qed.
Lemma rl_lift {A} (Q : A -> A -> Prop) o : outcome false o (fun a => Q a a) -> rl Q (alift o) (alift o).
Proof. intros H. destruct o; cbn in *; auto. discriminate. Qed.
Lemma rl_any {A} (o : out A) : outcome false o (fun _ => True) -> rl any (alift o) (alift o).
Proof. intros H. apply rl_lift. destruct o; cbn in *; auto. reflexivity. Qed.
Lemma rl_index {A} (l : list A) i : rl any (alift (index l i)) (alift (index l i)).
Proof. apply rl_any, index_outcome. auto. Qed.
Lemma rl_outcome {A} (Q : A -> A -> Prop) o : outcome fu o (fun a => Q a a) -> rl Q (alift o) (alift o).
Proof. intros H. destruct o; cbn in *; auto. Qed.

(** ** Header methods *)

Lemma rl_alloc d : bytes_ok d -> rl rho (a_alloc d) (a_alloc d).
Proof. intros D. cbn. auto. Qed.
Lemma rl_hget_loop r r' i n v : rho r r' -> rl any (a_hget_loop r i n v) (a_hget_loop r' i n v).
Proof. intros R. revert i v. induction n as [|n IH]; intros i v; cbn [a_hget_loop]; [reflexivity|]. cbn [rl]. auto. Qed.
Lemma rl_hset_loop r r' i n v : rho r r' -> rl any (a_hset_loop r i n v) (a_hset_loop r' i n v).
Proof.
  intros R. revert v. induction n as [|n IH]; intros v; cbn [a_hset_loop]; [reflexivity|]. cbn [rl]. repeat split; auto.
  rewrite u8_land_1. destruct (N.testbit v 0); reflexivity.
Qed.
Lemma rl_hto_vec x x' : hrel x x' -> rl bys (a_hto_vec x) (a_hto_vec x').
Proof. intros (_ & R). cbn. split; auto. intros d D. split; auto. Qed.
Lemma rl_hreplace x x' y y' : rp = true -> hrel x x' -> hrel y y' -> rl any (a_hreplace x y) (a_hreplace x' y').
Proof. intros Rp (_ & R) (_ & S). cbn. repeat split; auto. Qed.
Lemma rl_hbit_range m x x' msb lsb : hrel x x' -> rl any (a_hbit_range m x msb lsb) (a_hbit_range m x' msb lsb).
Proof.
  intros (_ & R). unfold a_hbit_range. eapply rl_bind; [apply rl_hget_loop; eauto|]. intros v ? <-. apply rl_any, finish_outcome.
Qed.
Lemma rl_hset_bit_range x x' msb lsb v : hrel x x' -> rl any (a_hset_bit_range x msb lsb v) (a_hset_bit_range x' msb lsb v).
Proof. intros (_ & R). apply rl_hset_loop; auto. Qed.
Lemma rl_hget m x x' f : hrel x x' -> rl any (a_hget m x f) (a_hget m x' f).
Proof. apply rl_hbit_range. Qed.
Lemma rl_hset x x' f v : hrel x x' -> rl any (a_hset x f v) (a_hset x' f v).
Proof. apply rl_hset_bit_range. Qed.
Lemma rl_hbytes_loop m x x' i n : hrel x x' -> rl any (a_hbytes_loop m x i n) (a_hbytes_loop m x' i n).
Proof.
  intros R. revert i. induction n as [|n IH]; intros i; cbn [a_hbytes_loop]; [reflexivity|].
  eapply rl_bind; [apply rl_hbit_range; eauto|]. intros v ? <-. eapply rl_bind; [apply IH|]. intros t ? <-. reflexivity.
Qed.
Lemma rl_hbytes m x x' msb lsb : hrel x x' -> rl any (a_hbytes m x msb lsb) (a_hbytes m x' msb lsb).
Proof.
  intros R. unfold a_hbytes. eapply rl_bind; [apply rl_any, bytes_guard_outcome|]. intros _ _ _. apply rl_hbytes_loop; auto.
Qed.
Lemma rl_hset_bytes_loop x x' i n v it : hrel x x' -> rl any (a_hset_bytes_loop x i n v it) (a_hset_bytes_loop x' i n v it).
Proof.
  intros R. revert i it. induction n as [|n IH]; intros i it; cbn [a_hset_bytes_loop]; [reflexivity|].
  eapply rl_bind; [apply rl_index|]. intros b ? <-. eapply rl_bind; [apply rl_hset_bit_range; eauto|]. intros _ _ _. apply IH.
Qed.
Lemma rl_hset_bytes m x x' msb lsb v : hrel x x' -> rl any (a_hset_bytes m x msb lsb v) (a_hset_bytes m x' msb lsb v).
Proof.
  intros R. unfold a_hset_bytes. eapply rl_bind; [apply rl_any, set_bytes_guard_outcome|]. intros _ _ _.
  apply rl_hset_bytes_loop; auto.
Qed.
Lemma rl_hfrom T d : bytes_ok d -> rl hrel (a_hfrom T d) (a_hfrom T d).
Proof. intros D. unfold a_hfrom. eapply rl_bind; [apply rl_alloc; auto|]. intros r r' R. split; auto. Qed.
Lemma rl_hnew T : bytes_ok (ht_default T) -> rl hrel (a_hnew T) (a_hnew T).
Proof. apply rl_hfrom. Qed.
Lemma rl_hclone x x' : hrel x x' -> rl hrel (a_hclone x) (a_hclone x').
Proof. intros R. exact R. Qed.
Lemma rl_hdowncast T x x' : hrel x x' -> rl hrel (a_hdowncast T x) (a_hdowncast T x').
Proof. intros R. unfold a_hdowncast. destruct R as (E & R). rewrite E. destruct (_ =? _)%nat; [split; auto|reflexivity]. Qed.

(** ** Printing *)

Lemma rl_hshow_octets m x x' i n : hrel x x' -> rl any (a_hshow_octets m x i n) (a_hshow_octets m x' i n).
Proof.
  intros R. revert i. induction n as [|n IH]; intros i; cbn [a_hshow_octets]; [reflexivity|].
  eapply rl_bind; [apply rl_hbit_range; eauto|]. intros v ? <-. eapply rl_bind; [apply IH|]. intros t ? <-. reflexivity.
Qed.
Lemma rl_hshow_field m x x' f : hrel x x' -> rl any (a_hshow_field m x f) (a_hshow_field m x' f).
Proof.
  intros R. unfold a_hshow_field. destruct (_ <=? 8)%nat.
  - eapply rl_bind; [apply rl_hbit_range; eauto|]. intros v ? <-. reflexivity.
  - destruct (_ =? 0)%nat; [apply rl_hshow_octets; auto|].
    eapply rl_bind; [apply rl_hshow_octets; eauto|]. intros t ? <-.
    eapply rl_bind; [apply rl_hbit_range; eauto|]. intros v ? <-. reflexivity.
Qed.
Lemma rl_hshow_fields m x x' l : hrel x x' -> rl any (a_hshow_fields m x l) (a_hshow_fields m x' l).
Proof.
  intros R. induction l as [|f l IH]; cbn [a_hshow_fields]; [reflexivity|].
  eapply rl_bind; [apply rl_hshow_field; eauto|]. intros v ? <-. eapply rl_bind; [apply IH|]. intros t ? <-. reflexivity.
Qed.
Lemma rl_hshow m x x' : hrel x x' -> rl any (a_hshow m x) (a_hshow m x').
Proof.
  intros R. unfold a_hshow. destruct R as (E & R). rewrite E. eapply rl_bind; [apply rl_hshow_fields; split; auto|].
  intros v ? <-. reflexivity.
Qed.

(** ** Packets *)

Lemma rl_concat_vecs l l' : Forall2 hrel l l' -> rl bys (a_concat_vecs l) (a_concat_vecs l').
Proof.
  induction 1 as [|x x' l l' X F IH]; cbn [a_concat_vecs]; [split; auto; constructor|].
  eapply rl_bind; [apply rl_hto_vec; eauto|]. intros v ? (<- & V). eapply rl_bind; [apply IH|]. intros t ? (<- & T).
  split; auto. apply bytes_ok_app; auto.
Qed.
Lemma rl_to_vec p p' : prel p p' -> rl bys (a_to_vec p) (a_to_vec p').
Proof.
  intros (F & E & B). unfold a_to_vec. rewrite <- E. eapply rl_bind; [apply rl_concat_vecs; eauto|]. intros v ? (<- & V).
  split; auto. apply bytes_ok_app; auto.
Qed.
Lemma pkt_len_rel p p' : prel p p' -> pkt_len p = pkt_len p'.
Proof.
  intros (F & E & _). unfold pkt_len. rewrite E. f_equal. f_equal. induction F as [|x x' l l' (T & _) F IH]; cbn [map]; auto.
  rewrite IH. unfold hlen. rewrite T. reflexivity.
Qed.
Lemma rl_compare_slice p p' d : prel p p' -> rl any (a_compare_with_slice p d) (a_compare_with_slice p' d).
Proof.
  intros P. unfold a_compare_with_slice. rewrite (pkt_len_rel _ _ P). destruct (negb _); [reflexivity|].
  eapply rl_bind; [apply rl_to_vec; eauto|]. intros v ? (<- & V). destruct (_ || _); reflexivity.
Qed.
Lemma rl_compare p p' q q' : prel p p' -> prel q q' -> rl any (a_compare p q) (a_compare p' q').
Proof.
  intros P Q. unfold a_compare. eapply rl_bind; [apply rl_to_vec; eauto|]. intros v ? (<- & V). apply rl_compare_slice; auto.
Qed.
Lemma rl_show_hdrs m l l' : Forall2 hrel l l' -> rl any (a_show_hdrs m l) (a_show_hdrs m l').
Proof.
  induction 1 as [|x x' l l' X F IH]; cbn [a_show_hdrs]; [reflexivity|].
  eapply rl_bind; [apply rl_hshow; eauto|]. intros v ? <-. eapply rl_bind; [apply IH|]. intros t ? <-. reflexivity.
Qed.
Lemma rl_pkt_show m p p' : prel p p' -> rl any (a_pkt_show m p) (a_pkt_show m p').
Proof.
  intros P. unfold a_pkt_show. eapply rl_bind; [apply rl_show_hdrs, P|]. intros s ? <-.
  eapply rl_bind; [apply rl_to_vec; eauto|]. intros v ? (<- & V). reflexivity.
Qed.
Lemma rl_clone_hdrs l l' : Forall2 hrel l l' -> rl (Forall2 hrel) (a_clone_hdrs l) (a_clone_hdrs l').
Proof.
  induction 1 as [|x x' l l' X F IH]; cbn [a_clone_hdrs]; [constructor|].
  eapply rl_bind; [apply rl_hclone; eauto|]. intros y y' Y. eapply rl_bind; [apply IH|]. intros t t' T. constructor; auto.
Qed.
Lemma rl_pkt_add p p' q q' : prel p p' -> prel q q' -> rl prel (a_pkt_add p q) (a_pkt_add p' q').
Proof.
  intros (F & E & B) (Fq & _). unfold a_pkt_add. eapply rl_bind; [apply rl_clone_hdrs; eauto|]. intros t t' T.
  split; [|split]; auto. apply Forall2_app; auto.
Qed.
Lemma rl_pkt_clone p p' : prel p p' -> rl prel (a_pkt_clone p) (a_pkt_clone p').
Proof.
  intros (F & E & B). unfold a_pkt_clone. eapply rl_bind; [apply rl_clone_hdrs; eauto|]. intros t t' T. split; [|split]; auto.
Qed.
Lemma find_name_rel name l l' : Forall2 hrel l l' ->
  match find_name name l, find_name name l' with Some x, Some x' => hrel x x' | None, None => True | _, _ => False end.
Proof.
  induction 1 as [|x x' l l' X F IH]; cbn [find_name]; [exact I|].
  assert (E : hname x = hname x') by (destruct X as (E & _); unfold hname; rewrite E; reflexivity).
  rewrite E. destruct (String.eqb _ _); auto.
Qed.
Lemma rl_index_name p p' name : prel p p' -> rl hrel (a_index_name p name) (a_index_name p' name).
Proof.
  intros (F & _). unfold a_index_name. pose proof (find_name_rel name _ _ F) as H.
  destruct (find_name name (p_hdrs p)), (find_name name (p_hdrs p')); try contradiction; [exact H|reflexivity].
Qed.
Lemma rl_push p p' x x' : prel p p' -> hrel x x' -> rl prel (a_push p x) (a_push p' x').
Proof. intros (F & E & B) X. cbn. split; [|split]; auto. apply Forall2_app; auto. Qed.
Lemma rl_insert p p' x x' : prel p p' -> hrel x x' -> rl prel (a_insert p x) (a_insert p' x').
Proof. intros (F & E & B) X. cbn. split; [|split]; auto. constructor; auto. Qed.
Lemma prel_new : prel pkt_new pkt_new.
Proof. split; [|split]; constructor. Qed.
Lemma prel_payload p p' d : bytes_ok d -> prel p p' -> prel (set_payload p d) (set_payload p' d).
Proof. intros D (F & E & B). split; auto. cbn. rewrite E in *. split; auto. apply bytes_ok_app; auto. Qed.

(** ** Header constructors *)

Ltac stp := eapply rl_bind; [|intros ? ? ?P].
Ltac same := eapply (rl_bind any); [|intros ? ? <-].
Ltac mac := eapply (rl_bind bys); [apply rl_lift; eapply outcome_imp; [apply mac_outcome|]; intros; split; auto|intros ? ? (<- & ?B)].
Ltac ip4 := eapply (rl_bind bys); [apply rl_lift; eapply outcome_imp; [apply ip4_outcome|]; intros; split; auto|intros ? ? (<- & ?B)].

Variables (m : mode) (ip6 : string -> option (list N)).
Hypothesis O6 : octets16 ip6.

Lemma rl_ethernet d s e : rl hrel (a_ethernet d s e) (a_ethernet d s e).
Proof. unfold a_ethernet. mac. mac. apply rl_hfrom. bo. Qed.
Lemma rl_dot3 d s e : rl hrel (a_dot3 d s e) (a_dot3 d s e).
Proof. unfold a_dot3. mac. mac. apply rl_hfrom. bo. Qed.
Lemma rl_arp o a b c d : rl hrel (a_arp o a b c d) (a_arp o a b c d).
Proof. unfold a_arp. mac. ip4. mac. ip4. apply rl_hfrom. bo. Qed.
Lemma rl_vlan p c v e : rl hrel (a_vlan p c v e) (a_vlan p c v e).
Proof.
  unfold a_vlan. cbv zeta. eapply (rl_bind (fun b b' => b = b' /\ b < 256)).
  - apply rl_lift. apply index_outcome. intros b E. split; auto.
    pose proof (to_be_ok 2 v) as B. eapply Forall_forall in B; [exact B|]. eapply nth_error_In; eauto.
  - intros b ? (<- & B). apply rl_hfrom. apply bytes_ok_app. split; [|bo]. apply bytes_ok_upd; [bo|byte].
Qed.
Lemma rl_ipv4 ihl tos id ttl frag proto src dst len : ihl < 256 -> tos < 256 -> ttl < 256 -> proto < 256 ->
  rl hrel (a_ipv4 m ihl tos id ttl frag proto src dst len) (a_ipv4 m ihl tos id ttl frag proto src dst len).
Proof.
  intros Hi Ht Hl Hp. unfold a_ipv4. cbv zeta. ip4. ip4. same; [apply rl_any, checksum_outcome|].
  stp; [apply rl_hfrom; bo|]. stp; [apply rl_hset; eauto|]. apply rl_ret; auto.
Qed.
Lemma rl_ipv6 tc fl nh hl src dst len : nh < 256 -> hl < 256 ->
  rl hrel (a_ipv6 ip6 tc fl nh hl src dst len) (a_ipv6 ip6 tc fl nh hl src dst len).
Proof. intros Hn Hh. unfold a_ipv6. apply rl_hfrom. bo. Qed.
Lemma rl_udp s d l : rl hrel (a_udp s d l) (a_udp s d l).
Proof. unfold a_udp. apply rl_hfrom; bo. Qed.
Lemma rl_icmp t c : t < 256 -> c < 256 -> rl hrel (a_icmp t c) (a_icmp t c).
Proof. intros. unfold a_icmp. apply rl_hfrom; bo. Qed.
Lemma rl_tcp s d sn an o r f w c u : r < 256 -> f < 256 -> rl hrel (a_tcp s d sn an o r f w c u) (a_tcp s d sn an o r f w c u).
Proof. intros. unfold a_tcp. apply rl_hfrom; bo. Qed.
Lemma rl_vxlan v : rl hrel (a_vxlan v) (a_vxlan v).
Proof. unfold a_vxlan. apply rl_hfrom; bo. Qed.
Lemma rl_gre c r k q s f v p : v < 256 -> rl hrel (a_gre c r k q s f v p) (a_gre c r k q s f v p).
Proof. intros. unfold a_gre. cbv zeta. apply rl_hfrom; bo. Qed.
Lemma rl_gre_chksum c o : rl hrel (a_gre_chksum_offset c o) (a_gre_chksum_offset c o).
Proof. unfold a_gre_chksum_offset. apply rl_hfrom; bo. Qed.
Lemma rl_gre_seq q : rl hrel (a_gre_sequence_number q) (a_gre_sequence_number q).
Proof. unfold a_gre_sequence_number. apply rl_hfrom; bo. Qed.
Lemma rl_gre_key q : rl hrel (a_gre_key q) (a_gre_key q).
Proof. unfold a_gre_key. apply rl_hfrom; bo. Qed.
Lemma rl_erspan2 a b c d e f : rl hrel (a_erspan2 a b c d e f) (a_erspan2 a b c d e f).
Proof. unfold a_erspan2. cbv zeta. apply rl_hfrom; bo. Qed.
Lemma rl_erspan3 a b c d e f g i : rl hrel (a_erspan3 a b c d e f g i) (a_erspan3 a b c d e f g i).
Proof. unfold a_erspan3. cbv zeta. apply rl_hfrom; bo. Qed.

Lemma rl_hmake b : hmake_t b -> rl hrel (a_hmake_run m ip6 b) (a_hmake_run m ip6 b).
Proof.
  intros T. destruct b; cbn [a_hmake_run hmake_t] in *;
    repeat match goal with X : _ /\ _ |- _ => destruct X end; unfold u8t in *.
  - apply rl_ethernet.
  - apply rl_dot3.
  - unfold a_llc. apply rl_hfrom. bo.
  - apply rl_arp.
  - apply rl_vlan.
  - apply rl_ipv4; assumption.
  - apply rl_ipv6; assumption.
  - apply rl_udp.
  - apply rl_icmp; assumption.
  - apply rl_tcp; assumption.
  - apply rl_vxlan.
  - apply rl_gre; assumption.
  - apply rl_gre_chksum.
  - apply rl_gre_seq.
  - apply rl_gre_key.
  - apply rl_erspan2.
  - apply rl_erspan3.
  - unfold a_mpls. cbv zeta. apply rl_hfrom. bo.
  - unfold a_snap. cbv zeta. apply rl_hfrom. bo.
Qed.

(** ** Packet constructors *)

Lemma rl_create_eth e t pl : bytes_ok pl -> rl prel (a_create_eth_packet e t pl) (a_create_eth_packet e t pl).
Proof.
  intros B. unfold a_create_eth_packet. cbv zeta. eapply (rl_bind prel).
  - destruct (vlan_enable e).
    + stp; [apply rl_ethernet|]. stp; [apply rl_push; eauto using prel_new|]. stp; [apply rl_vlan|]. apply rl_push; auto.
    + stp; [apply rl_ethernet|]. apply rl_push; auto using prel_new.
  - intros p p' P. apply rl_ret. apply prel_payload; auto.
Qed.
Lemma rl_create_arp e o a b c d pl : bytes_ok pl -> rl prel (a_create_arp_packet e o a b c d pl) (a_create_arp_packet e o a b c d pl).
Proof. intros B. unfold a_create_arp_packet. stp; [apply rl_create_eth; auto|]. stp; [apply rl_arp|]. apply rl_push; auto. Qed.
Lemma rl_create_ipv4 e i p pl : ip4_t i -> p < 256 -> bytes_ok pl ->
  rl prel (a_create_ipv4_packet m e i p pl) (a_create_ipv4_packet m e i p pl).
Proof.
  intros (A & B & C & _) Hp D. unfold a_create_ipv4_packet. stp; [apply rl_create_eth; auto|].
  stp; [apply rl_ipv4; auto|]. apply rl_push; auto.
Qed.
Lemma rl_create_ipv6 e i p pl : ip6_t i -> p < 256 -> bytes_ok pl ->
  rl prel (a_create_ipv6_packet ip6 e i p pl) (a_create_ipv6_packet ip6 e i p pl).
Proof.
  intros (A & B & C) Hp D. unfold a_create_ipv6_packet. stp; [apply rl_create_eth; auto|].
  stp; [apply rl_ipv6; auto|]. apply rl_push; auto.
Qed.
Lemma rl_bump_total p p' k : prel p p' -> rl hrel (a_bump_total_len m p k) (a_bump_total_len m p' k).
Proof.
  intros P. unfold a_bump_total_len. stp; [apply rl_index_name; eauto|]. stp; [apply rl_hdowncast; eauto|].
  same; [apply rl_hget; eauto|]. same; [apply rl_hset; eauto|]. apply rl_ret; auto.
Qed.
Lemma rl_refresh x x' : hrel x x' -> rl any (a_refresh_checksum m x) (a_refresh_checksum m x').
Proof.
  intros X. unfold a_refresh_checksum. eapply rl_bind; [apply rl_hto_vec; eauto|]. intros v ? (<- & V).
  same; [apply rl_any, checksum_outcome|]. apply rl_hset; auto.
Qed.
Lemma rl_bump_payload p p' k : prel p p' -> rl any (a_bump_payload_len m p k) (a_bump_payload_len m p' k).
Proof.
  intros P. unfold a_bump_payload_len. stp; [apply rl_index_name; eauto|]. stp; [apply rl_hdowncast; eauto|].
  same; [apply rl_hget; eauto|]. apply rl_hset; auto.
Qed.

Ltac v4 := stp; [apply rl_create_ipv4; auto using IpProtocol_lt|].
Ltac v6 := stp; [apply rl_create_ipv6; auto using IpProtocol_lt|].
Ltac bump := stp; [apply rl_bump_total; eauto|]; same; [apply rl_refresh; eauto|].
Ltac fin := apply rl_push; assumption.
Ltac psh := stp; [apply rl_push; eassumption|].

Lemma rl_create_tcp e i t pl : ip4_t i -> tcp_t t -> bytes_ok pl -> rl prel (a_create_tcp_packet m e i t pl) (a_create_tcp_packet m e i t pl).
Proof.
  intros Hi (_ & _ & _ & _ & _ & Hr & Hf & _) B. unfold a_create_tcp_packet. v4. bump. stp; [apply rl_tcp; auto|]. fin.
Qed.
Lemma rl_create_udp e i d s pl : ip4_t i -> bytes_ok pl -> rl prel (a_create_udp_packet m e i d s pl) (a_create_udp_packet m e i d s pl).
Proof. intros Hi B. unfold a_create_udp_packet. v4. bump. stp; [apply rl_udp|]. fin. Qed.
Lemma rl_create_icmp e i t c pl : ip4_t i -> t < 256 -> c < 256 -> bytes_ok pl ->
  rl prel (a_create_icmp_packet m e i t c pl) (a_create_icmp_packet m e i t c pl).
Proof. intros Hi Ht Hc B. unfold a_create_icmp_packet. v4. bump. stp; [apply rl_icmp; auto|]. fin. Qed.
Ltac vec := eapply rl_bind; [apply rl_to_vec; eassumption|intros ? ? (<- & ?V)].
Lemma rl_create_ipv4ip e i p p' : ip4_t i -> prel p p' -> rl prel (a_create_ipv4ip_packet m e i p) (a_create_ipv4ip_packet m e i p').
Proof.
  intros Hi P. unfold a_create_ipv4ip_packet. vec. same; [apply rl_index|]. apply rl_create_ipv4; auto using IpProtocol_lt.
Qed.
Lemma rl_create_ipv6ip e i p p' : ip6_t i -> prel p p' ->
  rl prel (a_create_ipv6ip_packet ip6 e i p) (a_create_ipv6ip_packet ip6 e i p').
Proof.
  intros Hi P. unfold a_create_ipv6ip_packet. vec. same; [apply rl_index|]. apply rl_create_ipv6; auto using IpProtocol_lt.
Qed.
Lemma rl_create_tcpv6 e i t pl : ip6_t i -> tcp_t t -> bytes_ok pl ->
  rl prel (a_create_tcpv6_packet m ip6 e i t pl) (a_create_tcpv6_packet m ip6 e i t pl).
Proof.
  intros Hi (_ & _ & _ & _ & _ & Hr & Hf & _) B. unfold a_create_tcpv6_packet. v6. same; [apply rl_bump_payload; eauto|].
  stp; [apply rl_tcp; auto|]. fin.
Qed.
Lemma rl_create_udpv6 e i d s pl : ip6_t i -> bytes_ok pl ->
  rl prel (a_create_udpv6_packet m ip6 e i d s pl) (a_create_udpv6_packet m ip6 e i d s pl).
Proof.
  intros Hi B. unfold a_create_udpv6_packet. v6. same; [apply rl_bump_payload; eauto|].
  stp; [apply rl_udp|]. same; [apply rl_hset; eauto|]. fin.
Qed.
Lemma rl_create_icmpv6 e i t c pl : ip6_t i -> t < 256 -> c < 256 -> bytes_ok pl ->
  rl prel (a_create_icmpv6_packet m ip6 e i t c pl) (a_create_icmpv6_packet m ip6 e i t c pl).
Proof.
  intros Hi Ht Hc B. unfold a_create_icmpv6_packet. v6. same; [apply rl_bump_payload; eauto|]. stp; [apply rl_icmp; auto|]. fin.
Qed.
Lemma rl_create_vxlan e i d s v p p' : ip4_t i -> prel p p' ->
  rl prel (a_create_vxlan_packet m e i d s v p) (a_create_vxlan_packet m e i d s v p').
Proof.
  intros Hi P. unfold a_create_vxlan_packet. vec. v4. stp; [apply rl_bump_total; eauto|]. stp; [apply rl_udp|]. psh.
  stp; [apply rl_vxlan|]. fin.
Qed.
Lemma rl_create_vxlanv6 e i d s v p p' : ip6_t i -> prel p p' ->
  rl prel (a_create_vxlanv6_packet m ip6 e i d s v p) (a_create_vxlanv6_packet m ip6 e i d s v p').
Proof.
  intros Hi P. unfold a_create_vxlanv6_packet. vec. v6. same; [apply rl_bump_payload; eauto|]. stp; [apply rl_udp|].
  same; [apply rl_hset; eauto|]. psh. stp; [apply rl_vxlan|]. psh. apply rl_pkt_add; auto.
Qed.
Definition oprel (o o' : option packet) : Prop :=
  match o, o' with Some p, Some p' => prel p p' | None, None => True | _, _ => False end.
Lemma rl_opt_to_vec o o' : oprel o o' -> rl bys (a_opt_to_vec o) (a_opt_to_vec o').
Proof. destruct o, o'; cbn [oprel]; try contradiction; intros O; [apply rl_to_vec; auto|split; auto; constructor]. Qed.
Lemma rl_opt_push (b : bool) p p' x x' : prel p p' -> rl hrel x x' ->
  rl prel (if b then alet o := x in a_push p o else aret p) (if b then alet o := x' in a_push p' o else aret p').
Proof. intros P X. destruct b; [|apply rl_ret; auto]. stp; [exact X|]. apply rl_push; auto. Qed.
Ltac opush := stp; [apply rl_opt_push; [eassumption|]|].

Lemma rl_create_gre e i g o o' : ip4_t i -> gre_t g -> oprel o o' ->
  rl prel (a_create_gre_packet m e i g o) (a_create_gre_packet m e i g o').
Proof.
  intros Hi (_ & Hv & _) O. unfold a_create_gre_packet.
  eapply (rl_bind (fun q q' => q = q' /\ bytes_ok (snd q))).
  - destruct o as [p|], o' as [p'|]; cbn [oprel] in O; try contradiction; [|apply rl_ret; split; auto; constructor].
    vec. same; [apply rl_index|]. apply rl_ret. auto.
  - intros [proto v] ? (<- & B). cbn [snd] in B. v4. bump. stp; [apply rl_gre; auto|]. psh.
    opush; [apply rl_gre_chksum|]. opush; [apply rl_gre_key|]. apply rl_opt_push; auto. apply rl_gre_seq.
Qed.
Lemma rl_new_gre : rl hrel (a_hnew GRE) (a_hnew GRE).
Proof. apply rl_hnew, GRE_default_ok. Qed.
Ltac ovec := eapply rl_bind; [apply rl_opt_to_vec; eassumption|intros ? ? (<- & ?V)].
Lemma oprel_len o o' : oprel o o' -> opt_len o = opt_len o'.
Proof. destruct o, o'; cbn [oprel opt_len]; try contradiction; auto. apply pkt_len_rel. Qed.
Lemma rl_create_erspan2 e i q a x o o' : ip4_t i -> oprel o o' ->
  rl prel (a_create_erspan_2_packet m e i q a x o) (a_create_erspan_2_packet m e i q a x o').
Proof.
  intros Hi O. unfold a_create_erspan_2_packet. rewrite <- (oprel_len _ _ O). ovec. v4. bump. stp; [apply rl_new_gre|]. same; [apply rl_hset; eauto|].
  eapply (rl_bind any).
  { destruct (negb (q =? 0)); [apply rl_hset; auto|reflexivity]. }
  intros _ _ _. psh. opush; [apply rl_gre_seq|]. stp; [apply rl_erspan2|]. fin.
Qed.
Lemma rl_create_erspan3 e i q a ts sg f id info o o' : ip4_t i -> oprel o o' ->
  rl prel (a_create_erspan_3_packet m e i q a ts sg f id info o) (a_create_erspan_3_packet m e i q a ts sg f id info o').
Proof.
  intros Hi O. unfold a_create_erspan_3_packet. rewrite <- (oprel_len _ _ O). ovec. v4. bump. stp; [apply rl_new_gre|]. same; [apply rl_hset; eauto|].
  same; [apply rl_hset; eauto|]. psh. opush; [apply rl_gre_seq|]. stp; [apply rl_erspan3|]. psh. cbv zeta.
  opush; [apply rl_hfrom; bo|].
  destruct o as [p|], o' as [p'|]; cbn [oprel] in O; try contradiction; [apply rl_pkt_add; auto|apply rl_ret; auto].
Qed.

(** From here on the second program has the arguments of the first in other buffers. *)
Variable g : nat -> nat.

Lemma rl_pmake b : pmake_t b -> Forall (fun p => prel p (rename_pkt g p)) (pmake_inner b) ->
  rl prel (a_pmake_run m ip6 b) (a_pmake_run m ip6 (rename_pmake g b)).
Proof.
  intros T J.
  assert (V : forall o : option packet, Forall (fun p => prel p (rename_pkt g p)) (match o with Some p => [p] | None => [] end) ->
    oprel o (option_map (rename_pkt g) o)).
  { intros [p|] F; [inversion F; subst; auto|exact I]. }
  destruct b; cbn [a_pmake_run rename_pmake pmake_t pmake_inner] in *; unfold u8t in *;
    repeat match goal with X : _ /\ _ |- _ => destruct X end;
    repeat match goal with X : Forall _ (_ :: _) |- _ => inversion X; subst; clear X end.
  - apply rl_create_eth; assumption.
  - apply rl_create_arp; assumption.
  - apply rl_create_ipv4; assumption.
  - apply rl_create_ipv6; assumption.
  - apply rl_create_tcp; assumption.
  - apply rl_create_udp; assumption.
  - apply rl_create_icmp; assumption.
  - apply rl_create_ipv4ip; assumption.
  - apply rl_create_ipv6ip; assumption.
  - apply rl_create_tcpv6; assumption.
  - apply rl_create_udpv6; assumption.
  - apply rl_create_icmpv6; assumption.
  - apply rl_create_vxlan; assumption.
  - apply rl_create_vxlanv6; assumption.
  - apply rl_create_gre; try assumption. apply V. exact J.
  - apply rl_create_erspan2; try assumption. apply V. exact J.
  - apply rl_create_erspan3; try assumption. apply V. exact J.
Qed.

(** ** The owning parser *)

Section Parse.
Variable rec : pfun -> list N -> act packet.
Hypothesis R : forall f arr, bytes_ok arr -> rl prel (rec f arr) (rec f arr).

Lemma rl_take T arr i : bytes_ok arr -> rl hrel (a_take_hdr T arr i) (a_take_hdr T arr i).
Proof.
  intros B. unfold a_take_hdr. eapply (rl_bind bys).
  - apply rl_lift. unfold slice. destruct (_ && _); [|exact I]. split; auto. apply bytes_ok_firstn, bytes_ok_skipn. auto.
  - intros d ? (<- & D). apply rl_hfrom; auto.
Qed.
Lemma rl_call f arr i : bytes_ok arr -> rl prel (a_call rec f arr i) (a_call rec f arr i).
Proof.
  intros B. unfold a_call. eapply (rl_bind bys).
  - apply rl_lift. unfold slice_from. destruct (_ <=? _)%nat; [|exact I]. split; auto. apply bytes_ok_skipn. auto.
  - intros d ? (<- & D). apply R; auto.
Qed.
Definition ohrel (o o' : option hdr) : Prop :=
  match o, o' with Some x, Some x' => hrel x x' | None, None => True | _, _ => False end.
Lemma rl_opt_hdr b T arr i : bytes_ok arr ->
  rl (fun q q' => ohrel (fst q) (fst q') /\ snd q = snd q') (a_opt_hdr b T arr i) (a_opt_hdr b T arr i).
Proof.
  intros B. unfold a_opt_hdr. destruct (b =? 1); [|apply rl_ret; split; auto; exact I].
  stp; [apply rl_take; auto|]. apply rl_ret. split; auto.
Qed.
Lemma rl_insert_opt p p' o o' : prel p p' -> ohrel o o' -> rl prel (a_insert_opt p o) (a_insert_opt p' o').
Proof. intros P O. destruct o, o'; cbn [ohrel] in O; try contradiction; [apply rl_insert; auto|apply rl_ret; auto]. Qed.

Ltac tk := stp; [apply rl_take; assumption|].
Ltac gt := same; [apply rl_hget; eassumption|].
Ltac cl := apply rl_call; assumption.
Ltac ins := apply rl_insert; assumption.
Ltac body := eapply (rl_bind prel); [repeat match goal with |- context [match ?e with _ => _ end] => destruct e end; cl|
  intros ? ? ?P].
Ltac idx := same; [apply rl_index|].
Ltac op := eapply rl_bind; [apply rl_opt_hdr; assumption|intros [? ?] [? ?] (?O & ?E); cbn [fst snd] in *; subst].

Lemma rl_slow_body f arr : bytes_ok arr -> rl prel (a_slow_body m rec f arr) (a_slow_body m rec f arr).
Proof.
  intros B.
  assert (Lf : forall T, rl prel (a_parse_leaf_body rec T arr) (a_parse_leaf_body rec T arr)).
  { intros T. unfold a_parse_leaf_body. stp; [cl|]. tk. ins. }
  destruct f; cbn [a_slow_body]; auto.
  - unfold a_parse_body. idx. idx. cbv zeta. destruct (_ <? _); apply R; auto.
  - unfold a_parse_dot3_body. tk. body. ins.
  - unfold a_parse_llc_body. tk. same.
    { apply rl_any. pose proof (is_snap_outcome arr) as O. destruct (is_snap arr) eqn:E; cbn in *; auto.
      unfold is_snap, index in E. repeat match type of E with context [match ?e with _ => _ end] => destruct e; cbn [obind] in E; try discriminate end. }
    body. ins.
  - unfold a_parse_snap_body. tk. body. ins.
  - unfold a_parse_ethernet_body. tk. gt. body. ins.
  - unfold a_parse_vlan_body. tk. gt. body. ins.
  - unfold a_parse_mpls_body. tk. gt. body. ins.
  - unfold a_parse_mpls_bos_body. tk. idx. body. ins.
  - unfold a_parse_ipv4_body. tk. gt. body. ins.
  - unfold a_parse_ipv6_body. tk. gt. body. ins.
  - unfold a_parse_gre_body. cbv zeta. tk. gt. gt. gt. gt. op. op. op. body.
    stp; [apply rl_insert_opt; eassumption|]. stp; [apply rl_insert_opt; eassumption|].
    stp; [apply rl_insert_opt; eassumption|]. ins.
  - unfold a_parse_erspan2_body. tk. body. ins.
  - unfold a_parse_erspan3_body. cbv zeta. tk. gt. op. body. stp; [apply rl_insert_opt; eassumption|]. ins.
  - unfold a_parse_udp_body. tk. gt. body. ins.
  - unfold a_parse_vxlan_body. body. tk. ins.
  - unfold a_accept_body. apply rl_ret. apply prel_payload; auto using prel_new.
Qed.
End Parse.

Lemma rl_slow_fuel n f arr : fu = true -> bytes_ok arr -> rl prel (a_slow_fuel m n f arr) (a_slow_fuel m n f arr).
Proof.
  intros Fu. revert f arr. induction n as [|n IH]; intros f arr B; cbn [a_slow_fuel]; [exact Fu|].
  apply rl_slow_body; auto.
Qed.
Lemma rl_slow f arr : fu = true -> bytes_ok arr -> rl prel (a_slow m f arr) (a_slow m f arr).
Proof. intros Fu B. apply rl_slow_fuel; auto. Qed.

(** ** Any call *)

Definition vrel (v v' : kres) : Prop :=
  match v, v' with
  | KHdr x, KHdr x' => hrel x x'
  | KPkt p, KPkt p' => prel p p'
  | KSHdr x, KSHdr x' => x = x' /\ shdr_ok x
  | KSlice q, KSlice q' => q = q' /\ slices_ok q
  | KVal v, KVal v' => v = v' /\ match v with VHdr _ => False | _ => True end
  | KBool b, KBool b' => b = b'
  | KText s, KText s' => s = s'
  | _, _ => False
  end.

Lemma rl_pure {A} (o : out A) (f : A -> kres) : outcome false o (fun a => vrel (f a) (f a)) ->
  rl vrel (alet a := alift o in aret (f a)) (alet a := alift o in aret (f a)).
Proof.
  intros O. eapply (rl_bind (fun a a' => a = a' /\ vrel (f a) (f a))).
  - apply rl_lift. eapply outcome_imp; [exact O|]. auto.
  - intros a ? (<- & V). exact V.
Qed.
Lemma rename_remove p i : remove (rename_pkt g p) i = rename_pkt g (remove p i).
Proof.
  unfold remove, rename_pkt. cbn [p_hdrs p_payload]. rewrite map_length. destruct (_ && _); [|reflexivity].
  cbn [p_hdrs p_payload]. f_equal. generalize (p_hdrs p) as l. induction i as [|i IH]; intros [|x l]; cbn [map remove_nth]; auto.
  rewrite IH. reflexivity.
Qed.
Lemma rename_pop p : pop (rename_pkt g p) = rename_pkt g (pop p).
Proof.
  unfold pop, rename_pkt. cbn [p_hdrs p_payload]. rewrite map_length. destruct (_ =? 0)%nat; [reflexivity|].
  cbn [p_hdrs p_payload]. f_equal. induction (p_hdrs p) as [|x l IH]; auto. destruct l as [|y l]; auto.
  cbn [map removelast] in *. rewrite IH. reflexivity.
Qed.
Lemma prel_sub p q : incl (p_hdrs q) (p_hdrs p) -> p_payload q = p_payload p -> prel p (rename_pkt g p) -> prel q (rename_pkt g q).
Proof.
  intros J E (F & _ & B). rewrite <- E in B. split; [|auto]. unfold rename_pkt in *. cbn [p_hdrs] in *.
  assert (G : forall x, In x (p_hdrs p) -> hrel x (rename_hdr g x)).
  { clear J. induction (p_hdrs p) as [|y l IH]; [intros x []|]. cbn [map] in F. inversion F; subst. intros x [<-|X]; auto. }
  induction (p_hdrs q) as [|y l IH]; constructor; [apply G, J; left; auto|]. apply IH. intros z Z. apply J. right; auto.
Qed.
Lemma val_rel v : match v with VHdr _ => False | _ => True end -> rl vrel (aret (KVal v)) (aret (KVal v)).
Proof. intros H. split; auto. Qed.
Ltac num := same; [|cbn [abind]; split; [reflexivity|exact I]].

Lemma rl_hexec o : (forall x, In x (hop_hdrs o) -> hrel x (rename_hdr g x)) -> typed (K_hdr o) ->
  (forall x y, o = OReplace x y -> rp = true) ->
  rl vrel (a_kexec m ip6 (K_hdr o)) (a_kexec m ip6 (rename_call g (K_hdr o))).
Proof.
  intros K T Rp. cbn [rename_call a_kexec]. eapply (rl_bind (fun v v' => match v, v' with VHdr x, VHdr x' => hrel x x' | VHdr _, _ | _, VHdr _ => False | _, _ => v = v' end)).
  - destruct o; cbn [rename_hop a_hexec hop_hdrs typed] in *.
    + stp; [apply rl_hnew; auto|]. exact P.
    + stp; [apply rl_hfrom; auto|]. exact P.
    + exact (K x ltac:(left; auto)).
    + same; [apply rl_hget; apply K; left; auto|]. reflexivity.
    + same; [apply rl_hset; apply K; left; auto|]. reflexivity.
    + same; [apply rl_hbit_range; apply K; left; auto|]. reflexivity.
    + same; [apply rl_hset_bit_range; apply K; left; auto|]. reflexivity.
    + same; [apply rl_hbytes; apply K; left; auto|]. reflexivity.
    + same; [apply rl_hset_bytes; apply K; left; auto|]. reflexivity.
    + same; [apply rl_hreplace; [eapply Rp; eauto|apply K; left; auto|apply K; right; left; auto]|]. reflexivity.
    + eapply rl_bind; [apply rl_hto_vec; apply K; left; auto|]. intros v ? (<- & V). reflexivity.
  - intros v v' V. destruct v, v'; try contradiction; try discriminate; cbn [aret rl orl vrel]; auto.
Qed.

Lemma rl_kexec k : (forall x, In x (call_hdrs k) -> hrel x (rename_hdr g x)) -> (forall p, In p (call_pkts k) -> prel p (rename_pkt g p)) -> typed k ->
  ~ short_from k -> (parses k = true -> fu = true) -> (replaces k = true -> rp = true) ->
  rl vrel (a_kexec m ip6 k) (a_kexec m ip6 (rename_call g k)).
Proof.
  intros Kh Kp T S Fu Rp.
  destruct k; cbn [rename_call a_kexec call_hdrs call_pkts typed short_from parses replaces] in *.
  - apply rl_hexec; auto. intros x y ->. apply Rp. reflexivity.
  - stp; [apply rl_hdowncast; apply Kh; left; auto|]. exact P.
  - same; [apply rl_hshow; apply Kh; left; auto|]. reflexivity.
  - stp; [apply rl_hmake; auto|]. exact P.
  - apply prel_new.
  - destruct a as [x|T' d]; [|reflexivity]. apply (rl_push p _ x _); [apply Kp; left; auto|apply Kh; left; auto].
  - destruct a as [x|T' d]; [|reflexivity]. apply (rl_insert p _ x _); [apply Kp; left; auto|apply Kh; left; auto].
  - rewrite rename_pop. apply rl_ret. eapply prel_sub; [apply pop_in| |apply Kp; left; auto]. unfold pop. destruct (_ =? 0)%nat; auto.
  - rewrite rename_remove. apply rl_ret. eapply prel_sub; [apply remove_in| |apply Kp; left; auto]. unfold remove. destruct (_ && _); auto.
  - apply rl_ret. apply prel_payload; auto. apply Kp; left; auto.
  - stp; [apply rl_pkt_add; apply Kp; [left|right; left]; auto|]. exact P.
  - stp; [apply rl_pkt_clone; apply Kp; left; auto|]. exact P.
  - stp; [apply rl_index_name; apply Kp; left; auto|]. exact P.
  - apply rl_ret. unfold get_header. pose proof (find_name_rel name _ _ (proj1 (Kp p ltac:(left; auto)))) as F.
    destruct (find_name name (p_hdrs p)) as [x|], (find_name name (p_hdrs (rename_pkt g p))) as [x'|]; try contradiction;
      [|split; auto].
    rewrite <- (proj1 F). destruct (_ =? _)%nat; [exact F|split; auto].
  - eapply rl_bind; [apply rl_to_vec; apply Kp; left; auto|]. intros v ? (<- & V). split; auto.
  - same; [apply rl_compare; apply Kp; [left|right; left]; auto|]. reflexivity.
  - same; [apply rl_compare_slice; apply Kp; left; auto|]. reflexivity.
  - same; [apply rl_pkt_show; apply Kp; left; auto|]. reflexivity.
  - apply (rl_pure _ (fun c => KVal (VNum c))). eapply outcome_imp; [apply checksum_outcome|]. intros; split; auto.
  - apply (rl_pure _ (fun c => KVal (VBytes c))). eapply outcome_imp; [apply mac_outcome|]. intros; split; auto.
  - apply (rl_pure _ (fun c => KVal (VBytes c))). eapply outcome_imp; [apply ip4_outcome|]. intros; split; auto.
  - stp; [apply rl_pmake; auto|]; [|exact P]. apply Forall_forall. exact Kp.
  - stp; [apply rl_slow; auto|]. exact P.
  - apply (rl_pure _ KSlice). eapply outcome_imp; [apply fast_outcome; auto|]. intros; split; auto.
  - apply (rl_pure _ KSHdr). eapply outcome_imp; [apply sfrom_outcome; auto; lia|]. intros; split; auto.
  - apply (rl_pure _ (fun c => KVal (VNum c))). eapply outcome_imp; [apply get_bits_outcome|]. intros; split; auto.
  - apply (rl_pure _ (fun c => KVal (VBytes c))). eapply outcome_imp; [apply bytes_of_outcome|]. intros; split; auto.
  - apply (rl_pure _ KText). eapply outcome_imp; [apply sshow_outcome|]. intros; reflexivity.
  - apply (rl_pure _ KText). eapply outcome_imp; [apply ps_show_outcome|]. intros; reflexivity.
  - apply rl_ret. split; auto.
  - destruct q; cbn [query_run rename_query query_pkts query_hdrs] in *; try (split; auto; fail); try reflexivity.
    + rewrite <- (pkt_len_rel _ _ (Kp p (or_introl eq_refl))). split; auto.
    + split; [reflexivity|]. split; constructor; cbn; auto; constructor.
    + apply (rl_lift vrel). eapply outcome_bind; [apply get_bits_outcome|]. intros v _. split; auto.
Qed.
End Rel.
