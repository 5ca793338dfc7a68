(** ModeProofs.v -- lemmas for C74: a build with overflow checks and one without do the
    same, up to the first failing check. *)

From Coq Require Import Lia.
From Verif Require Import Base Bits Types Layout Heap Packet Text Build Utils Slow Fast Show Trait Ops Client Print ShowProofs.
Open Scope N_scope.

(** ** The relation, for each kind of computation *)

Definition ago {A} (x y : out A) : Prop := x = Panic POverflow \/ x = y.
Definition agm {A} (x y : M A) : Prop := forall h, fst (x h) = Panic POverflow \/ x h = y h.
Definition agw {A} (x y : W A) : Prop := forall h,
  (fst (snd (x h)) = Panic POverflow /\ exists t, fst (y h) = (fst (x h) ++ t)%string) \/ x h = y h.

Lemma ago_refl : forall A (x : out A), ago x x.
Proof. now right. Qed.
Lemma agm_refl : forall A (x : M A), agm x x.
Proof. now right. Qed.
Lemma agw_refl : forall A (x : W A), agw x x.
Proof. now right. Qed.

Lemma ago_bind : forall A B (x y : out A) (k k' : A -> out B),
  ago x y -> (forall a, ago (k a) (k' a)) -> ago (obind x k) (obind y k').
Proof.
  intros A B x y k k' [-> | <-] Hk; [now left |].
  destruct x; cbn [obind]; [apply Hk | now right ..].
Qed.
Lemma agm_bind : forall A B (x y : M A) (k k' : A -> M B),
  agm x y -> (forall a, agm (k a) (k' a)) -> agm (bind x k) (bind y k').
Proof.
  intros A B x y k k' Hx Hk h. unfold bind. destruct (Hx h) as [E | <-].
  - destruct (x h) as [o h1]. cbn [fst] in E. subst o. now left.
  - destruct (x h) as [[a | | | |] h1]; [apply Hk | now right ..].
Qed.
Lemma agm_lift : forall A (x y : out A), ago x y -> agm (lift x) (lift y).
Proof. intros A x y [-> | <-] h; [now left | now right]. Qed.
Lemma agw_run : forall A (x y : M A), agm x y -> agw (run x) (run y).
Proof.
  intros A x y H h. unfold run. destruct (H h) as [E | <-]; [left | now right].
  cbn [fst snd]. split; [exact E | now exists EmptyString].
Qed.
Lemma agw_bind : forall A B (x y : W A) (k k' : A -> W B),
  agw x y -> (forall a, agw (k a) (k' a)) -> agw (wbind x k) (wbind y k').
Proof.
  intros A B x y k k' Hx Hk h. unfold wbind. destruct (Hx h) as [[E [t T]] | <-].
  - left. destruct (x h) as [s [o h1]]. cbn [fst snd] in E, T. subst o. cbn [fst snd]. split; [reflexivity |].
    destruct (y h) as [s' [[b | | | |] h2]]; cbn [fst] in T; subst s'; cbn [fst]; try now exists t.
    destruct (k' b h2) as [u r]. cbn [fst]. exists (t ++ u)%string. now rewrite append_assoc.
  - destruct (x h) as [s [[a | | | |] h1]]; try now right.
    destruct (Hk a h1) as [[E [t T]] | <-]; [left | now right].
    destruct (k a h1) as [u r]. destruct (k' a h1) as [u' r']. cbn [fst snd] in *. subst u'.
    split; [exact E | exists t; now rewrite append_assoc].
Qed.

Ltac ag1 := first
  [ apply ago_refl | apply agm_refl | apply agw_refl
  | assumption
  | solve [eauto 3 with ag]
  | apply ago_bind; [| intros ?] | apply agm_bind; [| intros ?] | apply agw_bind; [| intros ?]
  | apply agw_run | apply agm_lift
  | match goal with
    | |- _ (match ?x with _ => _ end) (match ?x with _ => _ end) => destruct x
    end ].
Ltac ag := cbv beta zeta; repeat (ag1; cbv beta zeta).

(** ** Bits *)

Lemma ag_finish : forall msb lsb v, ago (finish Debug msb lsb v) (finish Release msb lsb v).
Proof.
  intros. unfold finish. destruct (msb <? lsb)%nat; [now left |].
  destruct (msb - lsb + 1 <=? 64)%nat; [now right | now left].
Qed.
#[export] Hint Resolve ag_finish : ag.
Lemma ag_get_bits : forall d msb lsb, ago (get_bits Debug d msb lsb) (get_bits Release d msb lsb).
Proof. intros. unfold get_bits. ag. Qed.
#[export] Hint Resolve ag_get_bits : ag.
Lemma ag_bytes_guard : forall msb lsb, ago (bytes_guard Debug msb lsb) (bytes_guard Release msb lsb).
Proof.
  intros. unfold bytes_guard. destruct (msb <? lsb)%nat; [now left |].
  destruct (whole_usize msb lsb); [now left | now right].
Qed.
#[export] Hint Resolve ag_bytes_guard : ag.
Lemma ag_set_bytes_guard : forall n msb lsb, ago (set_bytes_guard Debug n msb lsb) (set_bytes_guard Release n msb lsb).
Proof.
  intros. unfold set_bytes_guard. destruct (msb <? lsb)%nat; [now left |].
  destruct (whole_usize msb lsb); [now left | now right].
Qed.
#[export] Hint Resolve ag_set_bytes_guard : ag.
Lemma ag_bytes_loop : forall d n i, ago (bytes_loop Debug d i n) (bytes_loop Release d i n).
Proof. intros d n. induction n as [| n IH]; intros; cbn [bytes_loop]; ag. Qed.
#[export] Hint Resolve ag_bytes_loop : ag.
Lemma ag_bytes_of : forall d msb lsb, ago (bytes_of Debug d msb lsb) (bytes_of Release d msb lsb).
Proof. intros. unfold bytes_of. ag. Qed.
#[export] Hint Resolve ag_bytes_of : ag.

(** ** Headers *)

Lemma ag_hbit_range : forall x msb lsb, agm (hbit_range Debug x msb lsb) (hbit_range Release x msb lsb).
Proof. intros. unfold hbit_range. ag. Qed.
#[export] Hint Resolve ag_hbit_range : ag.
Lemma ag_hget : forall x f, agm (hget Debug x f) (hget Release x f).
Proof. intros. unfold hget. ag. Qed.
#[export] Hint Resolve ag_hget : ag.
Lemma ag_hbytes_loop : forall x n i, agm (hbytes_loop Debug x i n) (hbytes_loop Release x i n).
Proof. intros x n. induction n as [| n IH]; intros; cbn [hbytes_loop]; ag. Qed.
#[export] Hint Resolve ag_hbytes_loop : ag.
Lemma ag_hbytes : forall x msb lsb, agm (hbytes Debug x msb lsb) (hbytes Release x msb lsb).
Proof. intros. unfold hbytes. ag. Qed.
#[export] Hint Resolve ag_hbytes : ag.
Lemma ag_hset_bytes : forall x msb lsb v, agm (hset_bytes Debug x msb lsb v) (hset_bytes Release x msb lsb v).
Proof. intros. unfold hset_bytes. ag. Qed.
#[export] Hint Resolve ag_hset_bytes : ag.
Lemma ag_hexec : forall o, agm (hexec Debug o) (hexec Release o).
Proof. intros [| | | | | | | | | |]; intros; cbn [hexec]; ag. Qed.
#[export] Hint Resolve ag_hexec : ag.

(** ** The checksum *)

Lemma ag_add32 : forall a b, ago (add32 Debug a b) (add32 Release a b).
Proof. intros. unfold add32. destruct (a + b <? 2 ^ 32); [now right | now left]. Qed.
#[export] Hint Resolve ag_add32 : ag.
Lemma ag_checksum_loop : forall v n i c, ago (checksum_loop Debug v i n c) (checksum_loop Release v i n c).
Proof. intros v n. induction n as [| n IH]; intros; cbn [checksum_loop]; ag. Qed.
#[export] Hint Resolve ag_checksum_loop : ag.
Lemma ag_fold_loop : forall n c, ago (fold_loop Debug n c) (fold_loop Release n c).
Proof. intros n. induction n as [| n IH]; intros; cbn [fold_loop]; ag. Qed.
#[export] Hint Resolve ag_fold_loop : ag.
Lemma ag_ipv4_checksum : forall v, ago (ipv4_checksum Debug v) (ipv4_checksum Release v).
Proof. intros. unfold ipv4_checksum. ag. Qed.
#[export] Hint Resolve ag_ipv4_checksum : ag.
Lemma ag_ipv4 : forall ihl tos id ttl frag proto src dst len,
  agm (ipv4 Debug ihl tos id ttl frag proto src dst len) (ipv4 Release ihl tos id ttl frag proto src dst len).
Proof. intros. unfold ipv4. ag. Qed.
#[export] Hint Resolve ag_ipv4 : ag.

(** ** The parsers *)

Section Slow.
Variables r r' : pfun -> list N -> M packet.
Hypothesis Hr : forall f arr, agm (r f arr) (r' f arr).

Lemma ag_call : forall f arr i, agm (Slow.call r f arr i) (Slow.call r' f arr i).
Proof. intros. unfold Slow.call. ag. Qed.
Hint Resolve ag_call : ag.

Lemma ag_slow_body : forall f arr, agm (slow_body Debug r f arr) (slow_body Release r' f arr).
Proof.
  intros []; intros; cbn [slow_body];
    unfold parse_body, parse_dot3_body, parse_llc_body, parse_snap_body, parse_ethernet_body, parse_vlan_body,
      parse_mpls_body, parse_mpls_bos_body, parse_ipv4_body, parse_ipv6_body, parse_gre_body, parse_erspan2_body,
      parse_erspan3_body, parse_leaf_body, parse_udp_body, parse_vxlan_body, accept_body; ag.
Qed.
End Slow.

Lemma ag_slow_fuel : forall n f arr, agm (slow_fuel Debug n f arr) (slow_fuel Release n f arr).
Proof.
  intros n. induction n as [| n IH]; intros; cbn [slow_fuel]; [apply agm_refl | now apply ag_slow_body].
Qed.
Lemma ag_slow : forall f arr, agm (slow Debug f arr) (slow Release f arr).
Proof. intros. apply ag_slow_fuel. Qed.
#[export] Hint Resolve ag_slow : ag.

Lemma ag_sget : forall x f, ago (sget Debug x f) (sget Release x f).
Proof. intros. unfold sget. ag. Qed.
#[export] Hint Resolve ag_sget : ag.
Lemma ag_sbytes : forall x msb lsb, ago (sbytes Debug x msb lsb) (sbytes Release x msb lsb).
Proof. intros. unfold sbytes. ag. Qed.
#[export] Hint Resolve ag_sbytes : ag.

Section Fast.
Variables r r' : pfun -> view -> out packet_slice.
Hypothesis Hr : forall f arr, ago (r f arr) (r' f arr).

Lemma ag_scall : forall f arr i, ago (scall r f arr i) (scall r' f arr i).
Proof. intros. unfold scall. ag. Qed.
Hint Resolve ag_scall : ag.

Lemma ag_fast_body : forall f arr, ago (fast_body Debug r f arr) (fast_body Release r' f arr).
Proof.
  intros []; intros; cbn [fast_body];
    unfold fparse_body, fparse_dot3_body, fparse_llc_body, fparse_snap_body, fparse_ethernet_body, fparse_vlan_body,
      fparse_mpls_body, fparse_mpls_bos_body, fparse_ipv4_body, fparse_ipv6_body, fparse_gre_body, fparse_erspan2_body,
      fparse_erspan3_body, fparse_leaf_body, fparse_udp_body, fparse_vxlan_body, faccept_body; ag.
Qed.
End Fast.

Lemma ag_fast_fuel : forall n f arr, ago (fast_fuel Debug n f arr) (fast_fuel Release n f arr).
Proof.
  intros n. induction n as [| n IH]; intros; cbn [fast_fuel]; [apply ago_refl | now apply ag_fast_body].
Qed.
Lemma ag_fast_view : forall f arr, ago (fast_view Debug f arr) (fast_view Release f arr).
Proof. intros. apply ag_fast_fuel. Qed.
#[export] Hint Resolve ag_fast_view : ag.

(** ** Packet constructors *)

Lemma ag_bump_total_len : forall p n, agm (bump_total_len Debug p n) (bump_total_len Release p n).
Proof. intros. unfold bump_total_len. ag. Qed.
#[export] Hint Resolve ag_bump_total_len : ag.
Lemma ag_refresh_checksum : forall x, agm (refresh_checksum Debug x) (refresh_checksum Release x).
Proof. intros. unfold refresh_checksum. ag. Qed.
#[export] Hint Resolve ag_refresh_checksum : ag.
Lemma ag_bump_payload_len : forall p n, agm (bump_payload_len Debug p n) (bump_payload_len Release p n).
Proof. intros. unfold bump_payload_len. ag. Qed.
#[export] Hint Resolve ag_bump_payload_len : ag.

Lemma ag_w_ipv4 : forall ihl tos id ttl frag proto src dst len,
  agw (w_ipv4 Debug ihl tos id ttl frag proto src dst len) (w_ipv4 Release ihl tos id ttl frag proto src dst len).
Proof. intros. unfold w_ipv4. ag. Qed.
#[export] Hint Resolve ag_w_ipv4 : ag.
Lemma ag_hmake_run : forall ip6 b, agm (hmake_run Debug ip6 b) (hmake_run Release ip6 b).
Proof. intros ip6 []; intros; cbn [hmake_run]; ag. Qed.
#[export] Hint Resolve ag_hmake_run : ag.
Lemma ag_w_hmake : forall ip6 b, agw (w_hmake Debug ip6 b) (w_hmake Release ip6 b).
Proof. intros ip6 []; intros; cbn [w_hmake]; ag. Qed.
#[export] Hint Resolve ag_w_hmake : ag.
Lemma ag_w_create_ipv4_packet : forall e i n pl,
  agw (w_create_ipv4_packet Debug e i n pl) (w_create_ipv4_packet Release e i n pl).
Proof. intros. unfold w_create_ipv4_packet. ag. Qed.
#[export] Hint Resolve ag_w_create_ipv4_packet : ag.
Lemma ag_w_pmake : forall ip6 b, agw (w_pmake Debug ip6 b) (w_pmake Release ip6 b).
Proof.
  intros ip6 []; intros; cbn [w_pmake];
    unfold w_create_tcp_packet, w_create_udp_packet, w_create_icmp_packet, w_create_ipv4ip_packet, w_create_tcpv6_packet,
      w_create_udpv6_packet, w_create_icmpv6_packet, w_create_vxlan_packet, w_create_vxlanv6_packet,
      w_create_gre_packet, w_create_erspan_2_packet, w_create_erspan_3_packet; ag.
Qed.
#[export] Hint Resolve ag_w_pmake : ag.

(** ** [show] *)

Section Show.
Variables b b' : nat -> nat -> M N.
Hypothesis Hb : forall msb lsb, agm (b msb lsb) (b' msb lsb).
Hint Resolve Hb : ag.
Lemma ag_w_show_octets : forall n i, agw (w_show_octets b i n) (w_show_octets b' i n).
Proof. intros n. induction n as [| n IH]; intros; cbn [w_show_octets]; ag. Qed.
Hint Resolve ag_w_show_octets : ag.
Lemma ag_w_show_field : forall f, agw (w_show_field b f) (w_show_field b' f).
Proof. intros. unfold w_show_field. ag. Qed.
Hint Resolve ag_w_show_field : ag.
Lemma ag_w_show_fields : forall l, agw (w_show_fields b l) (w_show_fields b' l).
Proof. induction l as [| f l IH]; intros; cbn [w_show_fields]; ag. Qed.
Hint Resolve ag_w_show_fields : ag.
Lemma ag_w_show_header : forall T, agw (w_show_header b T) (w_show_header b' T).
Proof. intros. unfold w_show_header. ag. Qed.
End Show.

Lemma ag_w_hshow : forall x, agw (w_hshow Debug x) (w_hshow Release x).
Proof. intros. apply ag_w_show_header. intros. ag. Qed.
#[export] Hint Resolve ag_w_hshow : ag.
Lemma ag_w_sshow : forall x, agw (w_sshow Debug x) (w_sshow Release x).
Proof. intros. apply ag_w_show_header. intros. ag. Qed.
#[export] Hint Resolve ag_w_sshow : ag.
Lemma ag_w_show_hdrs : forall l, agw (w_show_hdrs Debug l) (w_show_hdrs Release l).
Proof. induction l as [| x l IH]; cbn [w_show_hdrs]; ag. Qed.
#[export] Hint Resolve ag_w_show_hdrs : ag.
Lemma ag_w_show_shdrs : forall l, agw (w_show_shdrs Debug l) (w_show_shdrs Release l).
Proof. induction l as [| x l IH]; cbn [w_show_shdrs]; ag. Qed.
#[export] Hint Resolve ag_w_show_shdrs : ag.

(** ** Any public call *)

Lemma ag_w_call : forall ip6 k, agw (w_call Debug ip6 k) (w_call Release ip6 k).
Proof.
  intros ip6 []; intros; cbn [w_call kexec]; unfold w_pkt_show, w_ps_show; ag.
  destruct q; cbn [query_run]; ag.
Qed.
