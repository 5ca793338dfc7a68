(** TruncProofs.v -- for C79: the grammar on inputs that are cut, and on inputs with
    another payload. *)

From Coq Require Import Lia Permutation.
From Verif Require Import Base Layout Slow Fast Spec Grammar GrammarProofs EditProofs TruncSpec.
Open Scope nat_scope.

Definition hlen (gs : list (list seg)) : nat := length (seg_bytes (concat gs)).

Lemma hlen_header T x os (ts : list htype) gs : length ts = length os ->
  hlen ([(T, x)] :: combine ts os :: gs) = length x + length (concat os) + hlen gs.
Proof.
  intros L. unfold hlen. cbn [concat app]. rewrite seg_bytes_cons, seg_bytes_app, !app_length.
  unfold seg_bytes at 1. rewrite combine_snd by auto. cbn [snd]. lia.
Qed.

Lemma hlen_min f T b gs pl : wire f b gs pl -> header_of f = Some T -> ht_size T <= hlen gs.
Proof.
  intros W. inversion W as [| |f' T' x os rest g gs' pl' Hf Lx Lo D W']; subst; cbn [header_of]; try discriminate.
  intros Hf'. rewrite hlen_header by (eapply opts_len; eauto). rewrite Hf in Hf'. injection Hf' as <-. lia.
Qed.

Lemma bos_next x rest g : demux F_mpls_bos x rest = Some g -> g = F_ipv4 \/ g = F_ipv6 \/ g = F_ethernet.
Proof.
  cbn [demux]. destruct rest as [|b r]; [discriminate|]. intros E. injection E as <-.
  destruct (_ =? 4)%N; auto. destruct (_ =? 6)%N; auto.
Qed.

Lemma bos_min x rest g gs pl : demux F_mpls_bos x rest = Some g -> wire g rest gs pl -> 14 <= hlen gs.
Proof.
  intros D W. destruct (bos_next _ _ _ D) as [-> | [-> | ->]]; pose proof (hlen_min _ _ _ _ _ W eq_refl) as H;
    cbn in H; lia.
Qed.

(** Only the first byte of what follows is looked at. *)
Lemma demux_first f x r r' : (f = F_mpls_bos -> exists c s s', r = c :: s /\ r' = c :: s') -> demux f x r' = demux f x r.
Proof. intros H. destruct f; auto. destruct (H eq_refl) as (c & s & s' & -> & ->). reflexivity. Qed.

Lemma hlen_parse b gs pl g : (g = F_dot3 \/ g = F_ethernet) -> wire g b gs pl -> 14 <= hlen gs.
Proof. intros [-> | ->] W; apply (hlen_min _ _ _ _ _ W eq_refl). Qed.

Lemma first_is (c : bool) : (if c then F_dot3 else F_ethernet) = F_dot3 \/ (if c then F_dot3 else F_ethernet) = F_ethernet.
Proof. destruct c; auto. Qed.

(** Another payload behind the same headers. *)
Lemma wire_payload f b gs pl : wire f b gs pl -> forall d, wire f (seg_bytes (concat gs) ++ d) gs d.
Proof.
  induction 1 as [b|b gs pl L W IH|f T x os rest g gs pl Hf Lx Lo D W IH]; intros d.
  - apply W_accept.
  - pose proof (hlen_parse _ _ _ _ (first_is _) W) as M. unfold hlen in M.
    apply W_parse; [rewrite app_length; lia|]. rewrite sub_app_l by lia.
    rewrite (wire_bytes _ _ _ _ W), sub_app_l in IH by lia.
    specialize (IH d). exact IH.
  - assert (L : length (options f x) = length os) by (eapply opts_len; eauto).
    cbn [concat app]. rewrite seg_bytes_cons, seg_bytes_app, <- !app_assoc.
    unfold seg_bytes at 1. rewrite combine_snd by auto.
    apply (W_header f T x os (seg_bytes (concat gs) ++ d) g); auto.
    rewrite (demux_first f x rest); auto. intros ->.
    pose proof (bos_min _ _ _ _ _ D W) as M. unfold hlen in M. rewrite (wire_bytes _ _ _ _ W).
    destruct (seg_bytes (concat gs)) as [|c s]; [cbn [length] in M; lia|].
    exists c, (s ++ pl), (s ++ d). split; reflexivity.
Qed.

(** ** Inputs that are cut *)

Definition tys (gs : list (list seg)) : list htype := map fst (reported gs).

Lemma tys_header T x (os : list (list N)) (ts : list htype) gs : length ts = length os ->
  tys ([(T, x)] :: combine ts os :: gs) = T :: rev ts ++ tys gs.
Proof.
  intros L. unfold tys, reported. cbn [map concat rev app fst].
  rewrite map_app. f_equal. f_equal. unfold seg. rewrite map_rev, combine_fst by auto. reflexivity.
Qed.

Lemma extent_app a b : extent (a ++ b) = extent a + extent b.
Proof. unfold extent. rewrite map_app, list_sum_app. reflexivity. Qed.
Lemma extent_cons T l : extent (T :: l) = ht_size T + extent l.
Proof. reflexivity. Qed.
Lemma extent_rev l : extent (rev l) = extent l.
Proof.
  induction l as [|T l IH]; [reflexivity|]. cbn [rev]. rewrite extent_app, IH, !extent_cons. cbn. lia.
Qed.

Lemma wire_first f T b gs pl : wire f b gs pl -> header_of f = Some T -> exists l, tys gs = T :: l.
Proof.
  intros W. inversion W as [| |f' T' x os rest g gs' pl' Hf Lx Lo D W']; subst; cbn [header_of]; try discriminate.
  intros Hf'. rewrite Hf in Hf'. injection Hf' as <-. rewrite tys_header by (eapply opts_len; eauto). eauto.
Qed.

(** Options come behind headers that are no label, and are none themselves. *)
Lemma options_labels f T x : header_of f = Some T -> ~ In MPLS (options f x) /\ (options f x <> [] -> T <> MPLS).
Proof.
  intros Hf. assert (D : options f x = [] \/ f = F_gre \/ f = F_erspan3) by (destruct f; auto).
  destruct D as [-> | D]; [split; [auto|congruence]|]. split.
  - destruct D as [-> | ->]; cbn [options].
    + destruct (bit x 0), (bit x 2), (bit x 3); cbn [app In]; intuition discriminate.
    + destruct (bit x 95); cbn [In]; intuition discriminate.
  - intros _. destruct D as [-> | ->]; injection Hf as <-; discriminate.
Qed.

(** Behind a header that is no label and its options, labels are looked for in what follows. *)
Lemma behind_skip l ts n : ~ In MPLS l ->
  (behind_labels (l ++ ts) n <-> exists k, n = extent l + k /\ behind_labels ts k).
Proof.
  revert n. induction l as [|T l IH]; intros n H; cbn [app].
  - split; [intros B; exists n; auto|]. intros (k & -> & B). exact B.
  - assert (HT : T <> MPLS) by (intros ->; apply H; left; reflexivity).
    assert (Hl : ~ In MPLS l) by (intros I; apply H; right; exact I).
    specialize (fun n => IH n Hl). split.
    + intros (t1 & U & t2 & E & HU & ->). destruct t1 as [|T' t1]; cbn [app] in E; [congruence|].
      injection E as <- E. destruct (proj1 (IH (extent (t1 ++ [MPLS])))) as (k & Ek & B).
      { exists t1, U, t2. split; [exact E|]. split; [exact HU|reflexivity]. }
      exists k. split; [|exact B]. cbn [app]. rewrite !extent_cons, Ek. lia.
    + intros (k & -> & B). destruct (proj2 (IH (extent l + k))) as (t1 & U & t2 & E & HU & Ek); [eauto|].
      exists (T :: t1), U, t2. cbn [app]. rewrite E. split; [reflexivity|]. split; [auto|].
      rewrite !extent_cons, <- Ek. lia.
Qed.

Lemma behind_label ts n :
  behind_labels (MPLS :: ts) n <->
  (n = ht_size MPLS /\ exists T l, ts = T :: l /\ T <> MPLS) \/ (exists k, n = ht_size MPLS + k /\ behind_labels ts k).
Proof.
  split.
  - intros (t1 & U & t2 & E & HU & ->). destruct t1 as [|T' t1]; cbn [app] in E.
    + injection E as ->. left. split; [reflexivity|]. eauto.
    + injection E as <- ->. right. exists (extent (t1 ++ [MPLS])). split; [reflexivity|]. exists t1, U, t2. auto.
  - intros [(-> & T & l & -> & HT)|(k & -> & t1 & U & t2 & -> & HU & ->)].
    + exists [], T, l. auto.
    + exists (MPLS :: t1), U, t2. auto.
Qed.

(** Labels take four bytes: nothing is behind labels before the first header ends. *)
Lemma behind_ge T l n : behind_labels (T :: l) n -> ht_size T <= n.
Proof.
  intros (t1 & U & t2 & E & HU & ->). destruct t1 as [|T' t1]; cbn [app] in E; injection E as <- E;
    cbn [app]; rewrite extent_cons; lia.
Qed.

Lemma firstn_in {A} (a b : list A) n : length a <= n -> firstn n (a ++ b) = a ++ firstn (n - length a) b.
Proof. intros L. rewrite firstn_app, firstn_all2 by lia. reflexivity. Qed.

Lemma firstn_keep (b : list N) n k m : k + m <= n -> n <= length b -> sub (firstn n b) k m = sub b k m.
Proof. intros H Hn. rewrite <- (firstn_skipn n b) at 2. symmetry. apply sub_app_l. rewrite firstn_length_le; auto. Qed.

Lemma concat_firstn (os : list (list N)) : length (concat os) = list_sum (map (@length N) os).
Proof. apply concat_len. Qed.

Theorem wire_cut_at f b gs pl : wire f b gs pl -> forall n, n < hlen gs ->
  exists e, cut_by f (firstn n b) e /\ (e = PIndex \/ e = PSlice) /\
    (e = PIndex <-> (f = F_parse /\ n < 14) \/ behind_labels (tys gs) n).
Proof.
  induction 1 as [b|b gs pl L W IH|f T x os rest g gs pl Hf Lx Lo D W IH]; intros n Hn.
  - cbn in Hn. lia.
  - pose proof (wire_bytes _ _ _ _ W) as Eb. assert (Lb : hlen gs <= length b) by (rewrite Eb at 1; rewrite app_length; unfold hlen; lia).
    destruct (Nat.lt_ge_cases n 14) as [H|H].
    + exists PIndex. split; [|split; auto].
      * apply D_parse. rewrite firstn_length_le by lia. exact H.
      * split; auto.
    + destruct (IH n Hn) as (e & C & Ee & Ei). exists e. split; [|split; auto].
      * apply D_parse_next; [rewrite firstn_length_le by lia; exact H|]. rewrite firstn_keep by lia. exact C.
      * rewrite Ei. split; [intros [[Q _]|B]; auto; destruct (be (sub b 12 2) <? 1500)%N; discriminate|].
        intros [[_ Q]|B]; [lia|auto].
  - assert (L : length (options f x) = length os) by (eapply opts_len; eauto).
    rewrite hlen_header in Hn by auto. rewrite tys_header by auto.
    destruct (options_labels f T x Hf) as [Ol On].
    assert (So : length (concat os) = extent (rev (options f x))).
    { rewrite concat_len, Lo, extent_rev. reflexivity. }
    assert (NP : f <> F_parse) by (intros ->; discriminate).
    assert (OR : forall P, (f = F_parse /\ n < 14) \/ P <-> P) by (intros P; intuition congruence).
    destruct (Nat.lt_ge_cases n (ht_size T)) as [H1|H1].
    { exists PSlice. split; [|split; auto].
      - apply (D_header f T); auto. rewrite firstn_length. lia.
      - rewrite OR. split; [discriminate|]. intros B. apply behind_ge in B. lia. }
    rewrite firstn_in by lia.
    destruct (Nat.lt_ge_cases (n - length x) (length (concat os))) as [H2|H2].
    { exists PSlice. split; [|split; auto].
      - apply (D_options f T); auto. rewrite <- Lo, <- concat_len, firstn_length. lia.
      - rewrite OR. split; [discriminate|]. intros B. exfalso.
        assert (No : options f x <> []).
        { intros Q. rewrite Q in So. cbn in So. lia. }
        change (T :: rev (options f x) ++ tys gs) with ((T :: rev (options f x)) ++ tys gs) in B.
        apply behind_skip in B as (k & -> & _).
        + rewrite extent_cons in H2. lia.
        + intros [I|I]; [apply On; auto|]. apply in_rev in I. auto. }
    rewrite firstn_in by lia. set (k := n - length x - length (concat os)).
    assert (Hk : k < hlen gs) by (unfold k; lia).
    assert (Nk : n = extent (T :: rev (options f x)) + k) by (rewrite extent_cons; unfold k; lia).
    clearbody k.
    assert (SK : behind_labels (T :: rev (options f x) ++ tys gs) n <->
                 (f = F_mpls_bos /\ k = 0) \/ behind_labels (tys gs) k).
    { assert (LT : T = MPLS -> f = F_mpls \/ f = F_mpls_bos).
      { intros ->. destruct f; cbn [header_of] in Hf; try discriminate; auto. }
      assert (TM : T = MPLS \/ T <> MPLS) by
        (destruct f; cbn [header_of] in Hf; try discriminate; injection Hf as <-;
         solve [left; reflexivity | right; discriminate]).
      destruct TM as [-> | TM].
      - assert (Oe : options f x = []) by (destruct (LT eq_refl) as [-> | ->]; reflexivity).
        rewrite Oe in *. cbn [rev app] in *. rewrite behind_label.
        destruct (LT eq_refl) as [-> | ->].
        + assert (Fg : exists l, tys gs = MPLS :: l).
          { apply (wire_first _ _ _ _ _ W). cbn [demux] in D. injection D as <-. destruct (bit x 23); reflexivity. }
          destruct Fg as (l & Fl). split.
          * intros [(_ & U & l' & El & HU)|(k' & Ek & B)]; [congruence|].
            right. replace k with k' by (rewrite Nk in Ek; cbn in Ek; lia). exact B.
          * intros [[Q _]|B]; [discriminate|]. right. exists k. split; [rewrite Nk; reflexivity|exact B].
        + assert (Fg : exists U l, tys gs = U :: l /\ U <> MPLS).
          { destruct (bos_next _ _ _ D) as [-> | [-> | ->]];
              destruct (wire_first _ _ _ _ _ W eq_refl) as (l & El); do 2 eexists; (split; [exact El|discriminate]). }
          split.
          * intros [(E & _)|(k' & Ek & B)].
            -- left. split; auto. rewrite Nk in E. cbn in E. lia.
            -- right. replace k with k' by (rewrite Nk in Ek; cbn in Ek; lia). exact B.
          * intros [[_ ->]|B].
            -- left. split; [rewrite Nk; reflexivity|exact Fg].
            -- right. exists k. split; [rewrite Nk; reflexivity|exact B].
      - change (T :: rev (options f x) ++ tys gs) with ((T :: rev (options f x)) ++ tys gs).
        rewrite behind_skip by (intros [I|I]; [auto|apply in_rev in I; auto]). split.
        + intros (k' & Ek & B). right. replace k with k' by lia. exact B.
        + intros [[-> _]|B]; [cbn in Hf; congruence|]. eauto. }
    destruct (IH k Hk) as (e & C & Ee & Ei).
    destruct (demux f x (firstn k rest)) as [g'|] eqn:D'.
    { assert (Dg : demux f x (firstn k rest) = Some g /\ ~ (f = F_mpls_bos /\ k = 0)).
      { destruct (Nat.eq_dec k 0) as [-> | K0].
        - cbn [firstn] in *. split; [|intros [-> _]; discriminate]. rewrite <- D. symmetry. apply demux_first.
          intros ->. discriminate.
        - split; [|tauto]. rewrite <- D. apply demux_first. intros ->.
          destruct rest as [|c s]; [discriminate D|]. destruct k as [|k]; [congruence|]. exists c, s, (firstn k s). auto. }
      destruct Dg as [Dg Nb]. exists e. split; [|split; auto].
      - eapply D_next; eauto.
      - rewrite Ei, OR, SK. split; [intros [[-> _]|B]; auto|].
        + exfalso. assert (X : demux f x rest <> Some F_parse).
          { clear. destruct f; cbn [demux]; try discriminate.
            all: try (intros Q; injection Q as Q; revert Q).
            all: unfold entry, ethertypes, gre_protocols, ipv4_protocols, ipv6_next_headers; cbv beta iota.
            all: repeat match goal with |- context [if ?c then _ else _] => destruct c end; try discriminate.
            all: destruct rest; try discriminate; intros Q; injection Q as Q; revert Q;
              repeat match goal with |- context [if ?c then _ else _] => destruct c end; discriminate. }
          congruence.
        + tauto. }
    exists PIndex. split; [|split; auto].
    + eapply D_peek; eauto.
    + rewrite OR, SK. split; auto. intros _. left.
      assert (f = F_mpls_bos /\ firstn k rest = []) as [-> Ek].
      { clear - D D'. destruct f; cbn [demux] in *; try discriminate. destruct (firstn k rest); [auto|discriminate]. }
      split; auto. destruct rest as [|c s]; [discriminate D|]. destruct k; [auto|discriminate].
Qed.
