(** EncapProofs.v -- headers with options, for C103. *)

From Coq Require Import Lia.
From Verif Require Import Base Bits BitsProofs Layout Heap HeapProofs Packet PacketProofs Slow Fast Spec Grammar GrammarProofs TagProofs EncapSpec.
Open Scope N_scope.

Lemma concat_same (os os' : list (list N)) r r' : map (@length N) os = map (@length N) os' -> concat os ++ r = concat os' ++ r' -> os = os' /\ r = r'.
Proof.
  revert os'. induction os as [|o os IH]; intros [|o' os'] L E; try discriminate; [auto|]. cbn in *. injection L as L0 L. rewrite <- !app_assoc in E.
  destruct (app_same o o' _ _ L0 E) as [-> E']. destruct (IH os' L E') as [-> ->]. auto.
Qed.
Lemma concat_len (os : list (list N)) : length (concat os) = list_sum (map (@length N) os).
Proof. induction os as [|o os IH]; [reflexivity|]. cbn. rewrite app_length, IH. reflexivity. Qed.
Lemma wire_step f T x os rest g gs pl : header_of f = Some T -> length x = ht_size T -> map (@length N) os = map ht_size (options f x) -> demux f x rest = Some g ->
  (wire f (x ++ concat os ++ rest) gs pl <-> exists gs', gs = [(T, x)] :: combine (options f x) os :: gs' /\ wire g rest gs' pl).
Proof.
  intros Hf L O D. split.
  - intros W. inversion W as [| |f0 T0 x0 os0 rest0 g0 gs0 pl0 Hf0 L0 Lo D0 W0 Ef Eb Eg Ep]; subst; try discriminate Hf.
    assert (T0 = T) as -> by congruence. destruct (app_same x0 x (concat os0 ++ rest0) (concat os ++ rest) ltac:(congruence) Eb) as [-> Er].
    destruct (concat_same os0 os rest0 rest ltac:(congruence) Er) as [-> ->].
    assert (g0 = g) as -> by congruence. exists gs0. auto.
  - intros (gs' & -> & W). eapply W_header; eauto.
Qed.
Lemma cut_step f T x os rest g e : header_of f = Some T -> length x = ht_size T -> map (@length N) os = map ht_size (options f x) -> demux f x rest = Some g ->
  (cut_by f (x ++ concat os ++ rest) e <-> cut_by g rest e).
Proof.
  intros Hf L O D. split.
  - intros C. inversion C as [| |f0 T0 b0 Hf0 L0|f0 T0 x0 r0 Hf0 L0 Lr Ef Eb|f0 T0 x0 os0 r0 Hf0 L0 Lo D0 Ef Eb|f0 T0 x0 os0 r0 g0 e0 Hf0 L0 Lo D0 C0 Ef Eb]; subst; try discriminate Hf.
    + assert (T0 = T) as -> by congruence. rewrite app_length in L0. lia.
    + assert (T0 = T) as -> by congruence. destruct (app_same x0 x r0 _ ltac:(congruence) Eb) as [-> ->].
      rewrite <- O, app_length in Lr. pose proof (concat_len os). lia.
    + assert (T0 = T) as -> by congruence. destruct (app_same x0 x (concat os0 ++ r0) _ ltac:(congruence) Eb) as [-> Er].
      destruct (concat_same os0 os r0 rest ltac:(congruence) Er) as [-> ->]. congruence.
    + assert (T0 = T) as -> by congruence. destruct (app_same x0 x (concat os0 ++ r0) _ ltac:(congruence) Eb) as [-> Er].
      destruct (concat_same os0 os r0 rest ltac:(congruence) Er) as [-> ->]. assert (g0 = g) as -> by congruence. exact C0.
  - intros C. eapply D_next; eauto.
Qed.

(** A step of the specification is one of the grammar. *)
Definition yields (f : pfun) (b : list N) (l : list seg) (pl : list N) : Prop := exists gs, wire f b gs pl /\ l = reported gs.
Definition steps (f : pfun) (x : list N) (l : list seg) (g : pfun) : Prop :=
  forall rest, (forall k pl, yields f (x ++ rest) k pl <-> exists l', k = l ++ l' /\ yields g rest l' pl) /\
               (forall e, cut_by f (x ++ rest) e <-> cut_by g rest e).
Lemma steps_of f T x os g : header_of f = Some T -> length x = ht_size T -> map (@length N) os = map ht_size (options f x) ->
  (forall rest, demux f x rest = Some g) -> steps f (x ++ concat os) ((T, x) :: rev (combine (options f x) os)) g.
Proof.
  intros Hf L O D rest. rewrite <- app_assoc. split.
  - intros k pl. split.
    + intros (gs & W & ->). apply (wire_step f T x os rest g gs pl Hf L O (D rest)) in W. destruct W as (gs' & -> & W).
      exists (reported gs'). split; [reflexivity|]. exists gs'. auto.
    + intros (l' & -> & gs' & W & ->). exists ([(T, x)] :: combine (options f x) os :: gs'). split; [|reflexivity].
      apply (wire_step f T x os rest g _ pl Hf L O (D rest)). eauto.
  - intros e. apply (cut_step f T x os rest g e Hf L O (D rest)).
Qed.
Lemma steps_plain f T x g : header_of f = Some T -> length x = ht_size T -> options f x = [] ->
  (forall rest, demux f x rest = Some g) -> steps f x [(T, x)] g.
Proof.
  intros Hf L O D. pose proof (steps_of f T x [] g Hf L) as X. rewrite O in X. cbn in X. rewrite app_nil_r in X. auto.
Qed.
Lemma carries_steps f x l g : carries f x l g -> steps f x l g.
Proof.
  intros H. destruct H as [c x Hin L V|x L B|x v g c k s L Hin V Lc Lk Ls|x p L Lp].
  - unfold carriers in Hin. cbn [In] in Hin.
    repeat (destruct Hin as [<-|Hin]; [cbn [c_size c_value c_at c_by c_type c_next length] in *; apply steps_plain; [reflexivity|exact L|reflexivity|intros rest; unfold demux, sub; first [reflexivity|rewrite V; reflexivity]]|]).
    destruct Hin.
  - apply steps_plain; auto. intros rest. unfold demux. change (bit x 23) with (flag x 2 0). rewrite B. reflexivity.
  - assert (D : forall rest, demux F_gre x rest = Some g).
    { intros rest. unfold demux, sub. assert (E2 : firstn 2 (skipn 2 x) = v) by (rewrite V; subst v; apply firstn_all2; rewrite skipn_length; lia).
      rewrite E2. clear V E2. unfold gre_types in Hin. cbn [In] in Hin. repeat (destruct Hin as [E|Hin]; [injection E as <- <-; reflexivity|]). destruct Hin. }
    set (os := (if flag x 0 7 then [c] else []) ++ (if flag x 0 5 then [k] else []) ++ (if flag x 0 4 then [s] else [])).
    assert (O : options F_gre x = (if flag x 0 7 then [GREChksumOffset] else []) ++ (if flag x 0 5 then [GREKey] else []) ++ (if flag x 0 4 then [GRESequenceNum] else [])) by reflexivity.
    pose proof (steps_of F_gre GRE x os g eq_refl L) as X. rewrite O in X. unfold os in X. unfold word, word_bytes.
    destruct (flag x 0 7), (flag x 0 5), (flag x 0 4); cbn [app concat combine rev map] in *; rewrite ?app_nil_r in *; apply X; auto; cbn; rewrite ?Lc, ?Lk, ?Ls; reflexivity.
  - set (os := if flag x 11 0 then [p] else []).
    assert (O : options F_erspan3 x = if flag x 11 0 then [ERSPANPLATFORM] else []) by reflexivity.
    pose proof (steps_of F_erspan3 ERSPAN3 x os F_ethernet eq_refl L) as X. rewrite O in X. unfold os in X. unfold word, word_bytes.
    destruct (flag x 11 0); cbn [app concat combine rev map] in *; rewrite ?app_nil_r in *; apply X; auto; cbn; rewrite ?Lp; reflexivity.
Qed.
Lemma encap_steps f x l g : encap f x l g -> steps f x l g.
Proof.
  induction 1 as [f|f x l g y l' k H E IH]; intros rest.
  - split; [|tauto]. intros k pl. cbn. split; [eauto|]. intros (l' & -> & Y). exact Y.
  - rewrite <- app_assoc. destruct (carries_steps _ _ _ _ H (y ++ rest)) as [A B]. destruct (IH rest) as [A' B']. split.
    + intros q pl. rewrite A. split.
      * intros (l1 & -> & Y). apply A' in Y. destruct Y as (l2 & -> & Y). exists l2. rewrite app_assoc. auto.
      * intros (l2 & -> & Y). exists (l' ++ l2). rewrite app_assoc. split; [auto|]. apply A'. eauto.
    + intros e. rewrite B. apply B'.
Qed.
