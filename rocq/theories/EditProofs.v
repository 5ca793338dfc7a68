(** EditProofs.v -- lemmas for C54-C57: the wire grammar under edits. *)

From Coq Require Import Lia Permutation.
From Verif Require Import Base BitsProofs Layout Heap HeapProofs Slow Spec Grammar GrammarProofs EditSpec.
Open Scope N_scope.

(** ** Agreement on the selecting bits *)

Definition same_bits (prev : option htype) (T : htype) (x y : list N) : Prop :=
  forall s e i, selects prev T s e -> (s <= i <= e)%nat -> bit y i = bit x i.

Inductive agree : option htype -> list seg -> list seg -> Prop :=
| Ag_nil prev : agree prev [] []
| Ag_cons prev T x y l l' : length y = length x -> bytes_ok x -> bytes_ok y -> same_bits prev T x y ->
    agree (Some T) l l' -> agree prev ((T, x) :: l) ((T, y) :: l').

Lemma agree_refl prev l : Forall (fun s : seg => bytes_ok (snd s)) l -> agree prev l l.
Proof.
  intros H; revert prev. induction H as [|[T x] l Hx Hl IH]; intros prev; constructor; auto. intros s e i _ _. reflexivity.
Qed.

Lemma agree_app_inv prev l1 l2 ss : agree prev (l1 ++ l2) ss ->
  exists s1 s2, ss = s1 ++ s2 /\ agree prev l1 s1 /\ agree (last_type prev (map fst l1)) l2 s2.
Proof.
  revert prev ss; induction l1 as [|[T x] l1 IH]; intros prev ss H.
  - exists [], ss. split; [reflexivity|]. split; [constructor|]. exact H.
  - cbn [app] in H. inversion H as [|? ? ? y ? l' L Hx Hy S A]; subst.
    destruct (IH _ _ A) as (s1 & s2 & -> & A1 & A2). exists ((T, y) :: s1), s2.
    split; [reflexivity|]. split; [constructor; auto|]. exact A2.
Qed.

Lemma agree_app prev l1 l2 s1 s2 : agree prev l1 s1 -> agree (last_type prev (map fst l1)) l2 s2 ->
  agree prev (l1 ++ l2) (s1 ++ s2).
Proof.
  intros A. induction A as [prev|prev T x y l l' L Hx Hy S A IH]; intros B; [exact B|].
  cbn [app]. constructor; auto.
Qed.

Lemma agree_snd prev l l' : agree prev l l' ->
  map fst l' = map fst l /\ map (@length N) (map snd l') = map (@length N) (map snd l).
Proof.
  induction 1 as [|prev T x y l l' L Hx Hy S A [IH1 IH2]]; [auto|]. cbn [map fst snd].
  rewrite L, IH1, IH2. auto.
Qed.

(** A value made of bits only depends on them. *)
Lemma be_sub_ext x y i n : bytes_ok x -> bytes_ok y -> length y = length x -> (i + n <= length x)%nat -> (0 < n)%nat ->
  (forall j, (8 * i <= j <= 8 * i + 8 * n - 1)%nat -> bit y j = bit x j) -> be (sub y i n) = be (sub x i n).
Proof.
  intros Hx Hy L H Hn E. rewrite <- !bits_val_sub by (auto; lia).
  apply (field_val_ext y x (Fld "" (8 * i) (8 * i + 8 * n - 1))); auto.
  unfold field_in. cbn [f_start f_end]. lia.
Qed.

Lemma nibble_ext a b : a < 256 -> b < 256 -> (forall i, (i < 4)%nat -> bit [b] i = bit [a] i) -> b / 16 = a / 16.
Proof.
  intros Ha Hb E. change 16 with (2 ^ 4). rewrite <- !N.shiftr_div_pow2. apply N.bits_inj. intros k.
  rewrite !N.shiftr_spec by lia. destruct (N.lt_ge_cases k 4) as [K|K].
  - specialize (E (N.to_nat (3 - k)) ltac:(lia)). unfold bit in E.
    assert (D : (N.to_nat (3 - k) / 8 = 0)%nat) by (apply Nat.div_small; lia).
    rewrite D, Nat.mod_small in E by lia. cbn [nth] in E.
    replace (N.of_nat (7 - N.to_nat (3 - k))) with (k + 4) in E by lia. exact E.
  - assert (Z : forall c, c < 256 -> N.testbit c (k + 4) = false).
    { intros c Hc. destruct (N.eq_dec c 0) as [->|Nz]; [apply N.bits_0|]. apply N.bits_above_log2.
      apply N.log2_lt_pow2; [lia|]. apply N.lt_le_trans with (2 ^ 8); [change (2 ^ 8) with 256; lia|].
      apply N.pow_le_mono_r; lia. }
    rewrite !Z by auto. reflexivity.
Qed.

Lemma options_agree prev f T x y : header_of f = Some T -> length x = ht_size T -> length y = length x -> same_bits prev T x y ->
  options f y = options f x.
Proof.
  intros Hf Lx L S. destruct f; cbn [options]; try reflexivity; injection Hf as <-.
  - rewrite (S 0%nat 0%nat 0%nat), (S 2%nat 3%nat 2%nat), (S 2%nat 3%nat 3%nat) by (lia || constructor). reflexivity.
  - rewrite (S 95%nat 95%nat 95%nat) by (lia || constructor). reflexivity.
Qed.

(** The first four bits of a packet that follows MPLS. *)
Definition peeks (f : pfun) : bool := match f with F_ipv4 | F_ipv6 | F_ethernet => true | _ => false end.

Definition peek (b : list N) : option N := match b with [] => None | c :: _ => Some (c / 16) end.

Lemma seg_bytes_cons T x l : seg_bytes ((T, x) :: l) = x ++ seg_bytes l.
Proof. reflexivity. Qed.

Lemma demux_peek x rest g : demux F_mpls_bos x rest = Some g -> peeks g = true.
Proof. cbn [demux]. destruct rest as [|b t]; [discriminate|]. destruct (_ =? _); [|destruct (_ =? _)]; intros E; injection E as <-; reflexivity. Qed.

Lemma demux_agree prev f T x y rest rest' g : header_of f = Some T -> length x = ht_size T -> length y = length x ->
  bytes_ok x -> bytes_ok y -> same_bits prev T x y -> (f = F_mpls_bos -> peek rest' = peek rest) ->
  demux f x rest = Some g -> demux f y rest' = Some g.
Proof.
  intros Hf Lx L Hx Hy S P D. rewrite <- D.
  destruct f; try discriminate; cbn [demux] in *; injection Hf as <-; cbn in Lx; try reflexivity.
  - (* llc *)
    assert (E : be y = be x).
    { pose proof (be_sub_ext x y 0 3 Hx Hy L ltac:(lia) ltac:(lia)) as E. unfold sub in E. cbn [skipn] in E.
      rewrite !firstn_all2 in E by lia. apply E. intros j Hj. apply (S 0%nat 23%nat); [constructor|lia]. }
    rewrite E. reflexivity.
  - rewrite (be_sub_ext x y 12 2) by (auto; try lia; intros j Hj; apply (S 96%nat 111%nat); (lia || constructor)). reflexivity.
  - rewrite (be_sub_ext x y 2 2) by (auto; try lia; intros j Hj; apply (S 16%nat 31%nat); (lia || constructor)). reflexivity.
  - rewrite (S 23%nat 23%nat 23%nat); [reflexivity|constructor|lia].
  - specialize (P eq_refl). destruct rest as [|a r]; [discriminate|]. destruct rest' as [|a' r']; [discriminate|].
    cbn [peek] in P. injection P as ->. reflexivity.
  - rewrite (be_sub_ext x y 9 1) by (auto; try lia; intros j Hj; apply (S 72%nat 79%nat); (lia || constructor)). reflexivity.
  - rewrite (be_sub_ext x y 6 1) by (auto; try lia; intros j Hj; apply (S 48%nat 55%nat); (lia || constructor)). reflexivity.
  - rewrite (be_sub_ext x y 2 2) by (auto; try lia; intros j Hj; apply (S 16%nat 31%nat); (lia || constructor)). reflexivity.
  - rewrite (be_sub_ext x y 2 2) by (auto; try lia; intros j Hj; apply (S 16%nat 31%nat); (lia || constructor)). reflexivity.
Qed.

Lemma sub_app_l (a b : list N) i n : (i + n <= length a)%nat -> sub (a ++ b) i n = sub a i n.
Proof.
  intros H. unfold sub. rewrite skipn_app, firstn_app, skipn_length.
  replace (n - (length a - i))%nat with 0%nat by lia. rewrite firstn_O, app_nil_r. reflexivity.
Qed.

(** ** Trailing bytes *)

Lemma demux_app f x rest e g : demux f x rest = Some g -> demux f x (rest ++ e) = Some g.
Proof. destruct f; auto. cbn [demux]. destruct rest; [discriminate|]. auto. Qed.

Lemma wire_trailing f b gs pl e : wire f b gs pl -> wire f (b ++ e) gs (pl ++ e).
Proof.
  induction 1 as [b|b gs pl L W IH|f T x os rest g gs pl Hf Lx Lo D W IH].
  - apply W_accept.
  - apply W_parse; [rewrite app_length; lia|]. rewrite sub_app_l by lia. exact IH.
  - rewrite <- !app_assoc. apply (W_header f T x os (rest ++ e) g); auto using demux_app.
Qed.

(** ** Parse, serialise, parse *)

Lemma options_size f x : exists n, Forall (fun T => ht_size T = n) (options f x).
Proof.
  destruct f; cbn [options]; try (exists 0%nat; constructor).
  - exists 4%nat. repeat (apply Forall_app; split); destruct (bit x _); repeat constructor.
  - exists 8%nat. destruct (bit x 95); repeat constructor.
Qed.

Lemma const_list {A} (l : list A) (c : A) : Forall (fun x => x = c) l -> l = repeat c (length l).
Proof. induction 1 as [|x l -> H IH]; [reflexivity|]. cbn [length repeat]. congruence. Qed.

Lemma rev_const {A} (l : list A) (c : A) : Forall (fun x => x = c) l -> rev l = l.
Proof.
  intros H. rewrite (const_list (rev l) c) by (apply Forall_rev; auto). rewrite rev_length. symmetry. apply const_list; auto.
Qed.

Lemma flip_combine ts (os : list (list N)) : length ts = length os -> flip (combine ts os) = combine ts (rev os).
Proof. intros L. unfold flip. rewrite combine_fst, combine_snd by auto. reflexivity. Qed.

Lemma seg_bytes_rev g : seg_bytes (rev g) = concat (rev (map snd g)).
Proof. unfold seg_bytes. rewrite map_rev. reflexivity. Qed.

Lemma reported_cons g gs : reported (g :: gs) = rev g ++ reported gs.
Proof. reflexivity. Qed.

Lemma wire_reported_head f b gs pl : wire f b gs pl -> peek (seg_bytes (reported gs) ++ pl) = peek b /\
  (forall T, header_of f = Some T -> exists x r, length x = ht_size T /\ b = x ++ r /\
     exists r', seg_bytes (reported gs) ++ pl = x ++ r').
Proof.
  induction 1 as [b|b gs pl L W [IH _]|f T x os rest g gs pl Hf Lx Lo D W [_ _]].
  - split; [reflexivity|discriminate].
  - split; [exact IH|discriminate].
  - assert (E : exists r', seg_bytes (reported ([(T, x)] :: combine (options f x) os :: gs)) ++ pl = x ++ r').
    { eexists. rewrite reported_cons. cbn [rev app]. rewrite seg_bytes_cons, <- app_assoc. reflexivity. }
    split.
    + destruct E as (r' & ->). destruct x as [|a x]; [|reflexivity].
      destruct f; cbn in Hf; try discriminate; injection Hf as <-; discriminate Lx.
    + intros T' H. assert (T' = T) by congruence. subst. exists x. eexists. split; [auto|]. split; [reflexivity|]. exact E.
Qed.

Lemma wire_flip f b gs pl : wire f b gs pl -> wire f (seg_bytes (reported gs) ++ pl) (map flip gs) pl.
Proof.
  induction 1 as [b|b gs pl L W IH|f T x os rest g gs pl Hf Lx Lo D W IH].
  - apply W_accept.
  - pose proof (wire_reported_head _ _ _ _ W) as [_ H].
    set (F := if be (sub b 12 2) <? 1500 then F_dot3 else F_ethernet) in *.
    assert (exists T, header_of F = Some T /\ ht_size T = 14%nat) as (T & HF & Sz).
    { unfold F. destruct (_ <? _); eexists; (split; [reflexivity|]); reflexivity. }
    destruct (H T HF) as (x & r & Lx & Eb & r' & Er).
    apply W_parse; [rewrite Er, app_length; lia|].
    assert (E : sub (seg_bytes (reported gs) ++ pl) 12 2 = sub b 12 2).
    { rewrite Er, Eb, !sub_app_l by lia. reflexivity. }
    rewrite E. exact IH.
  - destruct (wire_reported_head _ _ _ _ W) as [Pk _].
    cbn [map]. rewrite (flip_combine _ _ (opts_len _ _ _ Lo)). change (flip [(T, x)]) with [(T, x)].
    rewrite !reported_cons. cbn [rev app]. rewrite seg_bytes_cons, seg_bytes_app, seg_bytes_rev, combine_snd, <- !app_assoc
      by (eapply opts_len; eauto).
    apply (W_header f T x (rev os) (seg_bytes (reported gs) ++ pl) g); auto.
    + destruct (options_size f x) as (n & Fn). rewrite map_rev, Lo. apply (rev_const _ n). apply Forall_map. exact Fn.
    + destruct f; auto. cbn [demux] in *. destruct rest as [|a r]; [discriminate|].
      destruct (seg_bytes (reported gs) ++ pl) as [|a' r']; [discriminate|]. cbn [peek] in Pk. injection Pk as ->. exact D.
Qed.

Lemma flip_flip g : flip (flip g) = g.
Proof.
  unfold flip. rewrite combine_fst, combine_snd, rev_involutive by (rewrite rev_length, !map_length; reflexivity).
  induction g as [|[T x] g IH]; [reflexivity|]. cbn [map fst snd combine]. exact (f_equal (cons (T, x)) IH).
Qed.

Lemma flip_bytes gs : seg_bytes (reported (map flip gs)) = seg_bytes (concat gs).
Proof.
  induction gs as [|g gs IH]; [reflexivity|]. cbn [map concat]. rewrite reported_cons, !seg_bytes_app, IH. f_equal.
  rewrite seg_bytes_rev. unfold flip. rewrite combine_snd by (rewrite rev_length, !map_length; reflexivity).
  rewrite rev_involutive. reflexivity.
Qed.

Lemma flip_types gs : map fst (reported (map flip gs)) = map fst (reported gs).
Proof.
  induction gs as [|g gs IH]; [reflexivity|]. cbn [map]. rewrite !reported_cons, !map_app. f_equal; [|exact IH].
  rewrite !map_rev. f_equal. apply combine_fst. rewrite rev_length, !map_length. reflexivity.
Qed.

Lemma flip_single gs : Forall (fun g : list seg => length g <= 1)%nat gs -> map flip gs = gs /\ reported gs = concat gs.
Proof.
  induction 1 as [|g gs L H [IH1 IH2]]; [auto|]. cbn [map concat]. rewrite reported_cons, IH1, IH2.
  destruct g as [|[T x] [|s g]]; cbn in L; try lia; auto.
Qed.

(** ** Edits that keep the selecting bits *)

Lemma wire_head f b gs pl T : wire f b gs pl -> header_of f = Some T ->
  exists x l, length x = ht_size T /\ reported gs = (T, x) :: l.
Proof.
  intros W H. destruct W as [b|b gs pl L W|f T' x os rest g gs pl Hf Lx Lo D W]; try discriminate.
  assert (T' = T) by congruence. subst. rewrite reported_cons. cbn [rev app]. eauto.
Qed.

Lemma peek_agree f b gs pl ss : wire f b gs pl -> peeks f = true -> agree (Some MPLS) (reported gs) ss ->
  peek (seg_bytes ss ++ pl) = peek b.
Proof.
  intros W P A.
  assert (exists T, header_of f = Some T /\ In T [IPv4; IPv6; Ether] /\ (0 < ht_size T)%nat) as (T & Hf & I & Sz).
  { destruct f; try discriminate; eexists; (split; [reflexivity|]); split; cbn; auto; lia. }
  destruct (wire_head _ _ _ _ _ W Hf) as (x & l & Lx & E).
  rewrite <- (proj1 (wire_reported_head _ _ _ _ W)). rewrite E in A |- *.
  inversion A as [|? ? ? y ? l' L Hx Hy S A']; subst. rewrite !seg_bytes_cons.
  destruct x as [|a x]; [cbn in Lx; lia|]. destruct y as [|c y]; [discriminate|]. cbn [app peek].
  f_equal. inversion Hx; subst. inversion Hy; subst. apply nibble_ext; auto.
  intros i Hi. specialize (S 0%nat 3%nat i (Sel_version _ _ eq_refl I) ltac:(lia)).
  unfold bit in *. assert (D : (i / 8 = 0)%nat) by (apply Nat.div_small; lia). rewrite D in *. exact S.
Qed.

Lemma seg_fst (ts : list htype) (os : list (list N)) : length ts = length os -> @map seg htype fst (combine ts os) = ts.
Proof. apply combine_fst. Qed.
Lemma seg_snd (ts : list htype) (os : list (list N)) : length ts = length os -> @map seg (list N) snd (combine ts os) = os.
Proof. apply combine_snd. Qed.

(** Serialising what was read, with edits outside the selecting bits, reads back
    with the same types and the same payload. *)
Lemma wire_agree f b gs pl : wire f b gs pl -> forall prev ss, agree prev (reported gs) ss ->
  exists gs', map snd (concat gs') = map snd ss /\ map (map fst) gs' = map (map fst) gs /\
    wire f (seg_bytes ss ++ pl) gs' pl.
Proof.
  induction 1 as [b|b gs pl L W IH|f T x os rest g gs pl Hf Lx Lo D W IH]; intros prev ss A.
  - inversion A; subst. exists []. split; [reflexivity|]. split; [reflexivity|]. apply W_accept.
  - destruct (IH prev ss A) as (gs' & Ec & Et & W'). exists gs'. split; [auto|]. split; [auto|]. clear Ec Et.
    set (F := if be (sub b 12 2) <? 1500 then F_dot3 else F_ethernet) in *.
    assert (exists T, header_of F = Some T /\ selects prev T 96 111 /\ ht_size T = 14%nat) as (T & HF & Sel & Sz).
    { unfold F. destruct (_ <? _); eexists; (split; [reflexivity|]); split; constructor. }
    destruct (proj2 (wire_reported_head _ _ _ _ W) T HF) as (x0 & r & Lx0 & Eb & r' & Er).
    destruct (wire_head _ _ _ _ _ W HF) as (x & l & Lx & El). rewrite El in A.
    rewrite El, seg_bytes_cons, <- app_assoc in Er. apply app_inj_len in Er as [<- _]; [|congruence].
    inversion A as [|? ? ? y ? l' Ly Hx Hy S A']; subst ss. rewrite seg_bytes_cons in *.
    apply W_parse; [rewrite !app_length; lia|].
    assert (E : be (sub ((y ++ seg_bytes l') ++ pl) 12 2) = be (sub b 12 2)).
    { rewrite <- app_assoc, Eb, !sub_app_l by lia.
      apply be_sub_ext; auto; try lia. intros j Hj. apply (S 96%nat 111%nat); [auto|lia]. }
    rewrite E. exact W'.
  - rewrite !reported_cons in A. cbn [rev app] in A. inversion A as [|? ? ? y ? l' Ly Hx Hy S A']; subst.
    destruct (agree_app_inv _ _ _ _ A') as (s1 & s2 & -> & A1 & A2).
    destruct (IH _ _ A2) as (gs' & E & Et & W').
    pose proof (options_agree prev f T x y Hf Lx Ly S) as Eo.
    pose proof (opts_len _ _ _ Lo) as Ll.
    destruct (agree_snd _ _ _ A1) as [_ L1]. rewrite map_rev, seg_snd in L1 by auto.
    assert (Lo' : map (@length N) (map snd s1) = map ht_size (options f x)).
    { rewrite L1, map_rev, Lo. destruct (options_size f x) as (n & Fn). apply (rev_const _ n). apply Forall_map. exact Fn. }
    pose proof (opts_len _ _ _ Lo') as Ll'.
    exists ([(T, y)] :: combine (options f x) (map snd s1) :: gs').
    split; [cbn [concat app map snd]; rewrite !map_app, seg_snd, E by auto; reflexivity|].
    split; [cbn [map fst]; rewrite Et, !seg_fst by auto; reflexivity|].
    rewrite seg_bytes_cons, seg_bytes_app. unfold seg_bytes at 1.
    rewrite <- !app_assoc. rewrite <- Eo. apply (W_header f T y (map snd s1) (seg_bytes s2 ++ pl) g).
    + auto.
    + congruence.
    + congruence.
    + apply (demux_agree prev f T x y rest); auto. intros ->.
      apply demux_peek in D. cbn [options combine rev map last_type fold_left] in A2. injection Hf as <-.
      apply (peek_agree g rest gs pl s2); auto.
    + exact W'.
Qed.

(** ** Starting in the middle *)

Lemma app_cons_split {A} (a b l1 l2 : list A) (s : A) : a ++ b = l1 ++ s :: l2 ->
  (exists l, a = l1 ++ s :: l /\ l2 = l ++ b) \/ (exists l, l1 = a ++ l /\ b = l ++ s :: l2).
Proof.
  revert l1; induction a as [|x a IH]; intros l1 E.
  - right. exists l1. auto.
  - destruct l1 as [|y l1]; cbn [app] in E; injection E as <- E.
    + left. exists a. auto.
    + destruct (IH l1 E) as [(l & -> & ->)|(l & -> & ->)]; [left|right]; exists l; auto.
Qed.

Lemma options_not_main f x T g : In T (options f x) -> header_of g <> Some T.
Proof.
  intros I H. destruct f; cbn [options] in I; try destruct I.
  - destruct (bit x 0), (bit x 2), (bit x 3); cbn [app In] in I; intuition (subst; destruct g; discriminate).
  - destruct (bit x 95); cbn [In] in I; intuition (subst; destruct g; discriminate).
Qed.

Lemma wire_reenter f b gs pl : wire f b gs pl -> forall T x s1 s2 g0, reported gs = s1 ++ (T, x) :: s2 ->
  header_of g0 = Some T ->
  exists gs1 gs2 g, gs = gs1 ++ gs2 /\ reported gs1 = s1 /\ reported gs2 = (T, x) :: s2 /\
    header_of g = Some T /\ wire g (seg_bytes (concat gs2) ++ pl) gs2 pl.
Proof.
  induction 1 as [b|b gs pl L W IH|f T0 x0 os rest g gs pl Hf Lx Lo D W IH]; intros T x s1 s2 g0 E Hm.
  - destruct s1; discriminate.
  - eapply IH; eauto.
  - rewrite !reported_cons in E. cbn [rev app] in E. destruct s1 as [|s s1]; cbn [app] in E.
    + injection E as -> -> E. exists [], ([(T, x)] :: combine (options f x) os :: gs), f.
      split; [reflexivity|]. split; [reflexivity|]. split; [rewrite !reported_cons; cbn [rev app]; rewrite <- E; reflexivity|].
      split; [auto|]. cbn [concat app]. rewrite seg_bytes_cons, seg_bytes_app. unfold seg_bytes at 1.
      rewrite combine_snd by (eapply opts_len; eauto). rewrite <- !app_assoc, <- (wire_bytes _ _ _ _ W).
      eapply W_header; eauto.
    + injection E as <- E. destruct (app_cons_split _ _ _ _ _ E) as [(l & E1 & _)|(l & -> & E2)].
      * exfalso. assert (I : In (T, x) (combine (options f x0) os)).
        { apply (proj2 (in_rev (A := seg) _ _)). rewrite E1. apply in_or_app. right. left. reflexivity. }
        apply in_combine_l in I. eapply options_not_main; eauto.
      * destruct (IH T x l s2 g0 E2 Hm) as (gs1 & gs2 & g' & -> & <- & R2 & H' & W').
        exists ([(T0, x0)] :: combine (options f x0) os :: gs1), gs2, g'.
        split; [reflexivity|]. split; [rewrite !reported_cons; reflexivity|]. auto.
Qed.

Lemma header_of_inj f g T : header_of f = Some T -> header_of g = Some T -> T <> MPLS -> f = g.
Proof. intros F G N. destruct f; try discriminate F; injection F as <-; destruct g; try discriminate G; try reflexivity; try (destruct N; reflexivity). Qed.
