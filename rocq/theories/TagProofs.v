(** TagProofs.v -- one header of the grammar at a time, for C102. *)

From Coq Require Import Lia.
From Verif Require Import Base Bits BitsProofs Layout Heap HeapProofs Packet PacketProofs Slow Fast Spec Grammar GrammarProofs TagSpec.
Open Scope N_scope.

Lemma app_same {A} (x y r s : list A) : length x = length y -> x ++ r = y ++ s -> x = y /\ r = s.
Proof.
  revert y. induction x as [|a x IH]; intros [|c y] L E; try discriminate; [auto|]. cbn in *. injection E as -> E. injection L as L.
  destruct (IH y L E) as [-> ->]. auto.
Qed.
Lemma no_options f x os : options f x = [] -> map (@length N) os = map ht_size (options f x) -> os = [].
Proof. intros -> E. destruct os; [auto|discriminate]. Qed.
Lemma wire_one f T x rest g gs pl : header_of f = Some T -> length x = ht_size T -> options f x = [] -> demux f x rest = Some g ->
  (wire f (x ++ rest) gs pl <-> exists gs', gs = [(T, x)] :: [] :: gs' /\ wire g rest gs' pl).
Proof.
  intros Hf L O D. split.
  - intros W. inversion W as [| |f0 T0 x0 os rest0 g0 gs0 pl0 Hf0 L0 Lo D0 W0 Ef Eb Eg Ep]; subst; try discriminate Hf.
    assert (T0 = T) as -> by congruence. destruct (app_same x0 x (concat os ++ rest0) rest ltac:(congruence) Eb) as [-> Er].
    rewrite (no_options _ _ _ O Lo) in *. cbn [concat app] in Er. subst rest0.
    assert (g0 = g) as -> by congruence. rewrite O. exists gs0. auto.
  - intros (gs' & -> & W). pose proof (W_header f T x [] rest g gs' pl Hf L) as X. rewrite O in X. cbn in X. auto.
Qed.
Lemma cut_one f T x rest g e : header_of f = Some T -> length x = ht_size T -> options f x = [] -> demux f x rest = Some g ->
  (cut_by f (x ++ rest) e <-> cut_by g rest e).
Proof.
  intros Hf L O D. split.
  - intros C. inversion C as [| |f0 T0 b0 Hf0 L0|f0 T0 x0 r0 Hf0 L0 Lr Ef Eb|f0 T0 x0 os r0 Hf0 L0 Lo D0 Ef Eb|f0 T0 x0 os r0 g0 e0 Hf0 L0 Lo D0 C0 Ef Eb]; subst; try discriminate Hf.
    + assert (T0 = T) as -> by congruence. rewrite app_length in L0. lia.
    + assert (T0 = T) as -> by congruence. destruct (app_same x0 x r0 rest ltac:(congruence) Eb) as [-> ->].
      rewrite O in Lr. cbn in Lr. lia.
    + assert (T0 = T) as -> by congruence. destruct (app_same x0 x (concat os ++ r0) rest ltac:(congruence) Eb) as [-> Er].
      rewrite (no_options _ _ _ O Lo) in *. cbn [concat app] in Er. subst r0. congruence.
    + assert (T0 = T) as -> by congruence. destruct (app_same x0 x (concat os ++ r0) rest ltac:(congruence) Eb) as [-> Er].
      rewrite (no_options _ _ _ O Lo) in *. cbn [concat app] in Er. subst r0. assert (g0 = g) as -> by congruence. exact C0.
  - intros C. pose proof (D_next f T x [] rest g e Hf L) as X. rewrite O in X. cbn in X. auto.
Qed.

(** A frame of at least 14 bytes. *)
Lemma frame_parts (b : list N) : (14 <= length b)%nat -> exists a t r, b = a ++ t ++ r /\ length a = 12%nat /\ length t = 2%nat /\
  firstn 12 b = a /\ type_bytes b = t /\ skipn 12 b = t ++ r /\ firstn 14 b = a ++ t /\ skipn 14 b = r.
Proof.
  intros L. exists (firstn 12 b), (firstn 2 (skipn 12 b)), (skipn 14 b).
  assert (E : skipn 12 b = firstn 2 (skipn 12 b) ++ skipn 14 b).
  { rewrite <- (firstn_skipn 2 (skipn 12 b)) at 1. f_equal. do 14 (destruct b; [cbn in L; lia|]). reflexivity. }
  split; [rewrite <- E; symmetry; apply firstn_skipn|]. split; [rewrite firstn_length; lia|].
  split; [rewrite firstn_length, skipn_length; lia|]. split; [auto|]. split; [auto|]. split; [auto|]. split; [|auto].
  do 14 (destruct b; [cbn in L; lia|]). reflexivity.
Qed.
Lemma sub_at (a t r : list N) n k : length a = n -> length t = k -> sub (a ++ t ++ r) n k = t.
Proof.
  intros <- <-. unfold sub. rewrite skipn_app, skipn_all, Nat.sub_diag. cbn. rewrite firstn_app, firstn_all, Nat.sub_diag. cbn. apply app_nil_r.
Qed.
Lemma wire_ether a t r gs pl : length a = 12%nat -> length t = 2%nat ->
  (wire F_ethernet (a ++ t ++ r) gs pl <-> exists gs', gs = [(Ether, a ++ t)] :: [] :: gs' /\ wire (entry ethertypes (be t)) r gs' pl).
Proof.
  intros La Lt. rewrite app_assoc. apply wire_one; auto; [rewrite app_length, La, Lt; reflexivity|].
  unfold demux. f_equal. f_equal. f_equal. rewrite <- (app_nil_r t) at 1. apply sub_at; auto.
Qed.
Lemma cut_ether a t r e : length a = 12%nat -> length t = 2%nat ->
  (cut_by F_ethernet (a ++ t ++ r) e <-> cut_by (entry ethertypes (be t)) r e).
Proof.
  intros La Lt. rewrite app_assoc. eapply cut_one; [reflexivity|rewrite app_length, La, Lt; reflexivity|reflexivity|].
  unfold demux. f_equal. f_equal. f_equal. rewrite <- (app_nil_r t) at 1. apply sub_at; auto.
Qed.
Lemma wire_vlan c t r gs pl : length c = 2%nat -> length t = 2%nat ->
  (wire F_vlan (c ++ t ++ r) gs pl <-> exists gs', gs = [(Vlan, c ++ t)] :: [] :: gs' /\ wire (entry ethertypes (be t)) r gs' pl).
Proof.
  intros La Lt. rewrite app_assoc. apply wire_one; auto; [rewrite app_length, La, Lt; reflexivity|].
  unfold demux. f_equal. f_equal. f_equal. rewrite <- (app_nil_r t) at 1. apply sub_at; auto.
Qed.
Lemma cut_vlan c t r e : length c = 2%nat -> length t = 2%nat ->
  (cut_by F_vlan (c ++ t ++ r) e <-> cut_by (entry ethertypes (be t)) r e).
Proof.
  intros La Lt. rewrite app_assoc. eapply cut_one; [reflexivity|rewrite app_length, La, Lt; reflexivity|reflexivity|].
  unfold demux. f_equal. f_equal. f_equal. rewrite <- (app_nil_r t) at 1. apply sub_at; auto.
Qed.
(** [parse] of such a frame. *)
Lemma wire_parse a t r gs pl : length a = 12%nat -> length t = 2%nat ->
  (wire F_parse (a ++ t ++ r) gs pl <-> wire (if be t <? 1500 then F_dot3 else F_ethernet) (a ++ t ++ r) gs pl).
Proof.
  intros La Lt. assert (S : sub (a ++ t ++ r) 12 2 = t) by (apply sub_at; auto). split; intros W.
  - inversion W as [|b0 gs0 pl0 L W0|]; subst; [|discriminate]. rewrite S in W0. exact W0.
  - apply W_parse; [rewrite !app_length; lia|]. rewrite S. exact W.
Qed.
Lemma cut_parse a t r e : length a = 12%nat -> length t = 2%nat ->
  (cut_by F_parse (a ++ t ++ r) e <-> cut_by (if be t <? 1500 then F_dot3 else F_ethernet) (a ++ t ++ r) e).
Proof.
  intros La Lt. assert (S : sub (a ++ t ++ r) 12 2 = t) by (apply sub_at; auto). split; intros W.
  - inversion W as [b0 L|b0 e0 L W0| | | |]; subst; try discriminate; [rewrite !app_length in L; lia|]. rewrite S in W0. exact W0.
  - apply D_parse_next; [rewrite !app_length; lia|]. rewrite S. exact W.
Qed.
