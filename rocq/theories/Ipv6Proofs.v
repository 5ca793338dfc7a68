(** Ipv6Proofs.v -- lemmas on IPv6 address texts. *)

From Coq Require Import Lia.
From Verif Require Import Base Types Text Layout Heap Spec ShowSpec Ipv6 Ipv6Spec BitsProofs TextProofs ShowProofs BuildProofs.
Open Scope N_scope.

(** ** Numbers *)

Definition nodigit (radix : N) (s : string) : Prop :=
  match s with EmptyString => True | String c _ => to_digit radix c = None end.

Lemma numeral_bound radix s v : numeral radix s v -> v < radix ^ N.of_nat (String.length s).
Proof.
  induction 1 as [|c t v w D Nu IH]; [cbn; lia|]. cbn [String.length]. rewrite Nat2N.inj_succ, N.pow_succ_r'.
  destruct D as [D _]. nia.
Qed.

Lemma num_loop_spec radix bound maxd s : 1 < radix -> forall result count v n r,
  result < bound -> (count <= maxd)%nat ->
  (num_loop radix bound maxd s result count = Some (v, n, r) <->
   exists t w, s = (t ++ r)%string /\ numeral radix t w /\ v = result * radix ^ N.of_nat (String.length t) + w /\
     n = (count + String.length t)%nat /\ v < bound /\ (n <= maxd)%nat /\ nodigit radix r).
Proof.
  intros Hr. induction s as [|c s IH]; intros result count v n r Hb Hc; cbn [num_loop].
  - split.
    + intros E. injection E as <- <- <-. exists EmptyString, 0. cbn. repeat split; try lia. constructor.
    + intros (t & w & E & Nu & -> & -> & _). destruct t; [|discriminate]. cbn in E. subst r. inversion Nu; subst.
      cbn. f_equal. f_equal. f_equal; lia.
  - destruct (to_digit radix c) as [d|] eqn:D.
    2: { split.
         - intros E. injection E as <- <- <-. exists EmptyString, 0. cbn [append String.length nodigit].
           repeat split; try (cbn; lia); auto. constructor.
         - intros (t & w & E & Nu & -> & -> & _). destruct t as [|c' t].
           + cbn in E. subst r. inversion Nu; subst. f_equal. f_equal. f_equal; cbn; lia.
           + cbn in E. injection E as <- E. inversion Nu as [|? ? ? ? D' ?]; subst. apply to_digit_spec in D'. congruence. }
    pose proof (proj1 (to_digit_spec _ _ _) D) as Dd.
    assert (K : forall t w, numeral radix (String c t) w -> exists w', numeral radix t w' /\
      w = d * radix ^ N.of_nat (String.length t) + w').
    { intros t w Nu. inversion Nu as [|? ? d' w' D' Nu']; subst. rewrite (is_digit_fun _ _ _ _ D' Dd). eauto. }
    assert (F : forall t r, nodigit radix r -> String c s = (t ++ r)%string -> exists t', t = String c t' /\ s = (t' ++ r)%string).
    { intros t r0 Nd E. destruct t as [|c' t].
      - cbn in E. subst r0. cbn in Nd. congruence.
      - cbn in E. injection E as <- E. eauto. }
    assert (V : forall t w', result * radix ^ N.of_nat (String.length (String c t)) + (d * radix ^ N.of_nat (String.length t) + w') =
      (result * radix + d) * radix ^ N.of_nat (String.length t) + w').
    { intros t w'. cbn [String.length]. rewrite Nat2N.inj_succ, N.pow_succ_r'. ring. }
    assert (P1 : forall t : string, 1 <= radix ^ N.of_nat (String.length t)) by (intros; apply pow_ge_1; auto).
    assert (No : (bound <= result * radix \/ bound <= result * radix + d \/ (maxd < S count)%nat) ->
      ~ exists t w, String c s = (t ++ r)%string /\ numeral radix t w /\ v = result * radix ^ N.of_nat (String.length t) + w /\
     n = (count + String.length t)%nat /\ v < bound /\ (n <= maxd)%nat /\ nodigit radix r).
    { intros Bad (t & w & E & Nu & Ev & En & Lb & Ln & Nd). destruct (F t r Nd E) as (t' & -> & E').
      destruct (K t' w Nu) as (w' & Nu' & ->). rewrite V in Ev. specialize (P1 t'). cbn [String.length] in En.
      destruct Bad as [B|[B|B]]; [nia|nia|lia]. }
    destruct (N.leb_spec bound (result * radix)) as [L1|L1]; [split; [discriminate|]; intros H; exfalso; apply No; auto|].
    destruct (N.leb_spec bound (result * radix + d)) as [L2|L2]; [split; [discriminate|]; intros H; exfalso; apply No; auto|].
    destruct (Nat.ltb_spec maxd (S count)) as [L3|L3]; [split; [discriminate|]; intros H; exfalso; apply No; auto|].
    clear No. rewrite IH by auto. split.
    + intros (t & w & -> & Nu & -> & -> & Lb & Ln & Nd).
      exists (String c t), (d * radix ^ N.of_nat (String.length t) + w). split; [reflexivity|]. split; [constructor; auto|].
      rewrite V. cbn [String.length]. repeat split; auto; lia.
    + intros (t & w & E & Nu & Ev & En & Lb & Ln & Nd). destruct (F t r Nd E) as (t' & -> & E').
      destruct (K t' w Nu) as (w' & Nu' & ->). rewrite V in Ev. cbn [String.length] in En.
      exists t', w'. repeat split; auto; lia.
Qed.

Lemma read_hex_spec s v r : read_number 16 65536 4 true s = Some (v, r) <->
  exists t, s = (t ++ r)%string /\ hextet t v /\ nodigit 16 r.
Proof.
  unfold read_number. cbn [negb andb]. split.
  - destruct (num_loop 16 65536 4 s 0 0) as [[[v' n] r']|] eqn:E; [|discriminate].
    destruct (Nat.eqb_spec n 0) as [->|Nz]; [discriminate|]. intros Q. injection Q as -> ->.
    apply num_loop_spec in E as (t & w & -> & Nu & -> & -> & Lb & Ln & Nd); [|reflexivity|reflexivity|lia].
    exists t. split; [reflexivity|]. split; [|exact Nd]. split; [|lia]. rewrite N.mul_0_l, N.add_0_l. exact Nu.
  - intros (t & -> & [Nu L] & Nd).
    rewrite (proj2 (num_loop_spec 16 65536 4 (t ++ r) eq_refl 0 0 v (String.length t) r eq_refl ltac:(lia))).
    + destruct (Nat.eqb_spec (String.length t) 0); [lia|reflexivity].
    + exists t, v. rewrite N.mul_0_l, N.add_0_l. repeat split; auto; try lia.
      pose proof (numeral_bound _ _ _ Nu). assert (16 ^ N.of_nat (String.length t) <= 16 ^ 4) by (apply N.pow_le_mono_r; lia).
      change (16 ^ 4) with 65536 in *. lia.
Qed.

Lemma decimal_short s v : decimal s v -> v < 256 -> (String.length s <= 3)%nat.
Proof.
  intros (Nu & NE & Z) L. destruct s as [|c t]; [congruence|]. inversion Nu as [|? ? d w D Nu']; subst.
  destruct t as [|c2 t]; [cbn; lia|].
  assert (d <> 0).
  { intros ->. destruct D as [_ [(k & _ & Ek & Ec)|[(k & _ & Ek & Ec)|(k & _ & Ek & Ec)]]]; [|lia|lia].
    subst k. rewrite N.add_0_r in Ec. assert (c = "0"%char) by (rewrite <- (ascii_N_embedding c), Ec; reflexivity). subst c.
    discriminate (Z _ eq_refl). }
  set (u := String c2 t) in *. cbn [String.length]. destruct (Nat.le_gt_cases (String.length u) 2) as [|G]; [lia|].
  assert (10 ^ 3 <= 10 ^ N.of_nat (String.length u)) by (apply N.pow_le_mono_r; lia). change (10 ^ 3) with 1000 in *. nia.
Qed.

Lemma read_dec_spec s v r : read_number 10 256 3 false s = Some (v, r) <->
  exists t, s = (t ++ r)%string /\ dec_octet t v /\ nodigit 10 r.
Proof.
  unfold read_number. cbn [negb andb]. split.
  - destruct (num_loop 10 256 3 s 0 0) as [[[v' n] r']|] eqn:E; [|discriminate].
    destruct (Nat.eqb_spec n 0) as [->|Nz]; [discriminate|].
    destruct (match s with String c _ => Ascii.eqb c "0" | EmptyString => false end && (1 <? n)%nat) eqn:Lz; [discriminate|].
    intros Q. injection Q as -> ->.
    apply num_loop_spec in E as (t & w & -> & Nu & -> & -> & Lb & Ln & Nd); [|reflexivity|reflexivity|lia].
    rewrite N.mul_0_l, N.add_0_l in *.
    exists t. split; [reflexivity|]. split; [|exact Nd]. split; [|exact Lb]. split; [exact Nu|].
    split; [intros ->; cbn in Nz; lia|]. intros u ->. cbn [append] in Lz. cbn in Lz.
    destruct u; [reflexivity|]. discriminate.
  - intros (t & -> & [De L] & Nd). pose proof (decimal_short _ _ De L) as Ls. destruct De as (Nu & NE & Z).
    rewrite (proj2 (num_loop_spec 10 256 3 (t ++ r) eq_refl 0 0 v (String.length t) r eq_refl ltac:(lia))).
    + destruct t as [|c t]; [congruence|]. cbn [String.length append Nat.eqb].
      destruct (Ascii.eqb_spec c "0") as [->|]; [|reflexivity]. rewrite (Z t eq_refl). reflexivity.
    + exists t, v. rewrite N.mul_0_l, N.add_0_l. repeat split; auto; lia.
Qed.

(** ** Dotted quads *)

Lemma read_sep_spec {A} sep first (inner : string -> option (A * string)) s a r :
  read_separator sep first inner s = Some (a, r) <->
  exists t, s = (if first then t else String sep t) /\ inner t = Some (a, r).
Proof.
  unfold read_separator, read_char. destruct first.
  - split; [eauto|]. intros (t & -> & E). exact E.
  - destruct s as [|c s]; [split; [discriminate|intros (t & E & _); discriminate]|].
    destruct (Ascii.eqb_spec c sep) as [->|Ne].
    + split; [eauto|]. intros (t & E & I). injection E as ->. exact I.
    + split; [discriminate|]. intros (t & E & I). injection E as -> _. contradiction.
Qed.

Lemma read_octets_0 first s x r : read_octets 0 first s = Some (x, r) <-> x = [] /\ r = s.
Proof. cbn. split; [intros E; injection E as <- <-; auto|intros [-> ->]; reflexivity]. Qed.
Lemma read_octets_S n first s x r : read_octets (S n) first s = Some (x, r) <->
  exists t u v vs, s = (if first then (t ++ u)%string else String "." (t ++ u)) /\ dec_octet t v /\ nodigit 10 u /\
    read_octets n false u = Some (vs, r) /\ x = v :: vs.
Proof.
  cbn [read_octets]. split.
  - destruct (read_separator "." first (read_number 10 256 3 false) s) as [[v u]|] eqn:E; [|discriminate].
    apply read_sep_spec in E as (t0 & -> & E). apply read_dec_spec in E as (t & -> & D & Nd).
    destruct (read_octets n false u) as [[vs r']|] eqn:Er; [|discriminate]. intros Q. injection Q as <- <-.
    exists t, u, v, vs. repeat split; auto; try apply D; auto.
  - intros (t & u & v & vs & Es & D & Nd & Er & ->).
    rewrite (proj2 (read_sep_spec "." first (read_number 10 256 3 false) s v u)).
    + rewrite Er. reflexivity.
    + exists (t ++ u)%string. split; [exact Es|]. apply read_dec_spec. eauto.
Qed.

(** A dotted quad with a rest that does not go on with a digit. *)
Lemma read_ipv4_spec s o r : read_ipv4 s = Some (o, r) <->
  exists a b c d va vb vc vd, dec_octet a va /\ dec_octet b vb /\ dec_octet c vc /\ dec_octet d vd /\
    s = (a ++ "." ++ b ++ "." ++ c ++ "." ++ d ++ r)%string /\ o = [va; vb; vc; vd] /\ nodigit 10 r.
Proof.
  unfold read_ipv4. split.
  - intros E. apply read_octets_S in E as (a & u1 & va & v1 & -> & Da & N1 & E & ->).
    apply read_octets_S in E as (b & u2 & vb & v2 & -> & Db & N2 & E & ->).
    apply read_octets_S in E as (c & u3 & vc & v3 & -> & Dc & N3 & E & ->).
    apply read_octets_S in E as (d & u4 & vd & v4 & -> & Dd & N4 & E & ->).
    apply read_octets_0 in E as [-> ->].
    exists a, b, c, d, va, vb, vc, vd. repeat (split; [assumption|]). split; [reflexivity|]. split; [reflexivity|exact N4].
  - intros (a & b & c & d & va & vb & vc & vd & Da & Db & Dc & Dd & -> & -> & Nd).
    apply read_octets_S. exists a, (String "." (b ++ String "." (c ++ String "." (d ++ r)))), va, [vb; vc; vd].
    split; [reflexivity|]. split; [exact Da|]. split; [reflexivity|]. split; [|reflexivity].
    apply read_octets_S. exists b, (String "." (c ++ String "." (d ++ r))), vb, [vc; vd].
    split; [reflexivity|]. split; [exact Db|]. split; [reflexivity|]. split; [|reflexivity].
    apply read_octets_S. exists c, (String "." (d ++ r)), vc, [vd].
    split; [reflexivity|]. split; [exact Dc|]. split; [reflexivity|]. split; [|reflexivity].
    apply read_octets_S. exists d, r, vd, [].
    split; [reflexivity|]. split; [exact Dd|]. split; [exact Nd|]. split; [|reflexivity].
    apply read_octets_0. auto.
Qed.

(** Hexadecimal digits, then a colon or nothing: not the start of a dotted quad. *)
Lemma hex_not_quad t v a w r x : numeral 16 t v -> numeral 10 a w ->
  (r = EmptyString \/ exists u, r = String ":" u) -> (t ++ r)%string = (a ++ String "." x)%string -> False.
Proof.
  intros Nt Na Hr. revert a w Na. induction Nt as [|c t d w' D Nt IH]; intros a w Na E; cbn in E.
  - destruct Na as [|c a d w'' D Na]; cbn in E.
    + destruct Hr as [->|[u ->]]; discriminate.
    + destruct Hr as [->|[u ->]]; [discriminate|]. injection E as <- _. apply to_digit_spec in D. discriminate.
  - destruct Na as [|c' a d' w'' D' Na]; cbn in E.
    + injection E as -> _. apply to_digit_spec in D. discriminate.
    + injection E as _ E. exact (IH a w'' Na E).
Qed.
Lemma read_ipv4_hex t v r : hextet t v -> (r = EmptyString \/ exists u, r = String ":" u) -> read_ipv4 (t ++ r) = None.
Proof.
  intros [Nt _] Hr. destruct (read_ipv4 (t ++ r)) as [[o r']|] eqn:E; [|reflexivity]. exfalso.
  apply read_ipv4_spec in E as (a & b & c & d & va & vb & vc & vd & [(Na & _) _] & _ & _ & _ & E & _).
  exact (hex_not_quad t v a va r _ Nt Na Hr E).
Qed.

(** ** Groups *)

Definition lead (first : bool) (s : string) : string := if first then s else String ":" s.

Lemma segs_more s gs q : segs false s gs -> segs q s gs.
Proof. induction 1; [apply S_one; auto|discriminate|apply S_cons; auto]. Qed.

Lemma read_groups_sound n : forall first s gs v4 r, read_groups n first s = (gs, v4, r) ->
  (length gs <= n)%nat /\
  ((gs = [] /\ v4 = false /\ s = r) \/ exists t, segs v4 t gs /\ s = lead first (t ++ r)).
Proof.
  induction n as [|n IH]; intros first s gs v4 r; cbn [read_groups].
  - intros E. injection E as <- <- <-. split; [apply le_n|]. auto.
  - destruct (if (1 <=? n)%nat then read_separator ":" first read_ipv4 s else None) as [[o r1]|] eqn:E4.
    + destruct (Nat.leb_spec 1 n) as [L|L]; [|discriminate]. intros E. injection E as <- <- <-.
      split; [cbn; lia|]. right.
      apply read_sep_spec in E4 as (t & -> & E4).
      apply read_ipv4_spec in E4 as (a & b & c & d & va & vb & vc & vd & Da & Db & Dc & Dd & -> & -> & Nd).
      exists (a ++ "." ++ b ++ "." ++ c ++ "." ++ d)%string. split.
      * apply S_quad; [reflexivity|]. exists a, b, c, d, va, vb, vc, vd. cbn [nth]. auto 10.
      * unfold lead. rewrite !append_assoc. reflexivity.
    + clear E4. destruct (read_separator ":" first (read_number 16 65536 4 true) s) as [[g t0]|] eqn:Eh.
      * apply read_sep_spec in Eh as (t1 & -> & Eh). apply read_hex_spec in Eh as (t & -> & Ht & Nd).
        destruct (read_groups n false t0) as [[gs' v'] r'] eqn:Er. intros E. injection E as <- <- <-.
        destruct (IH _ _ _ _ _ Er) as [Ll [(-> & -> & ->)|(u & Su & ->)]].
        { split; [cbn; lia|]. right. exists t. split; [apply S_one; auto|reflexivity]. }
        split; [cbn; lia|]. right. exists (t ++ ":" ++ u)%string. split; [apply S_cons; auto|].
        unfold lead. rewrite !append_assoc. reflexivity.
      * intros E. injection E as <- <- <-. split; [cbn; lia|]. auto.
Qed.

(** What may come after groups: nothing, or [::]. *)
Definition stop6 (r : string) : Prop := r = EmptyString \/ exists u, r = String ":" (String ":" u).

Lemma read_groups_stop n first r : stop6 r -> read_groups n first r = ([], false, r).
Proof.
  intros Hr. destruct n as [|n]; [reflexivity|]. cbn [read_groups].
  assert (A : read_separator ":" first read_ipv4 r = None) by (destruct Hr as [->|[u ->]]; destruct first; reflexivity).
  assert (B : read_separator ":" first (read_number 16 65536 4 true) r = None) by (destruct Hr as [->|[u ->]]; destruct first; reflexivity).
  rewrite A, B. destruct (1 <=? n)%nat; reflexivity.
Qed.

Lemma stop_nodigit radix r : 1 < radix -> radix <= 16 -> stop6 r -> nodigit radix r.
Proof. intros H1 H2 [->|[u ->]]; cbn [nodigit]; auto. Qed.
Lemma stop_colon r : stop6 r -> r = EmptyString \/ exists u, r = String ":" u.
Proof. intros [->|[u ->]]; eauto. Qed.

Lemma read_hex_here n first t v r : hextet t v -> (r = EmptyString \/ exists u, r = String ":" u) ->
  read_groups (S n) first (lead first (t ++ r)) =
  let '(gs, v4, r') := read_groups n false r in (v :: gs, v4, r').
Proof.
  intros H Hr. cbn [read_groups].
  assert (A : read_separator ":" first read_ipv4 (lead first (t ++ r)) = None).
  { destruct (read_separator ":" first read_ipv4 (lead first (t ++ r))) as [[o r1]|] eqn:E; [|reflexivity]. exfalso.
    apply read_sep_spec in E as (t1 & E1 & E). assert (t1 = (t ++ r)%string).
    { unfold lead in E1. destruct first; [auto|]. injection E1 as E1. auto. }
    subst t1. rewrite (read_ipv4_hex t v r H Hr) in E. discriminate. }
  assert (B : read_separator ":" first (read_number 16 65536 4 true) (lead first (t ++ r)) = Some (v, r)).
  { apply read_sep_spec. exists (t ++ r)%string. split; [reflexivity|]. apply read_hex_spec. exists t. split; [reflexivity|].
    split; [exact H|]. destruct Hr as [->|[u ->]]; [exact I|reflexivity]. }
  rewrite A, B. destruct (1 <=? n)%nat; reflexivity.
Qed.

Lemma read_groups_complete q t gs : segs q t gs -> forall n first r, (length gs <= n)%nat -> stop6 r ->
  exists v4, read_groups n first (lead first (t ++ r)) = (gs, v4, r) /\ (q = false -> v4 = false).
Proof.
  induction 1 as [s v Hv|s g1 g2 Q Hq|s v t gs Hv Hs IH]; intros n first r L Sr.
  - destruct n as [|n]; [cbn in L; lia|]. exists false. split; [|reflexivity].
    rewrite (read_hex_here n first s v r Hv (stop_colon r Sr)). rewrite read_groups_stop by exact Sr. reflexivity.
  - destruct n as [|[|n]]; [cbn in L; lia|cbn in L; lia|]. exists true. split; [|congruence].
    destruct Hq as (a & b & c & d & va & vb & vc & vd & Da & Db & Dc & Dd & -> & -> & ->).
    cbn [read_groups Nat.leb].
    rewrite (proj2 (read_sep_spec ":" first read_ipv4 _ [va; vb; vc; vd] r)); [reflexivity|].
    eexists. split; [reflexivity|]. apply read_ipv4_spec. exists a, b, c, d, va, vb, vc, vd.
    repeat (split; [assumption|]). split; [rewrite !append_assoc; reflexivity|]. split; [reflexivity|].
    destruct Sr as [->|[u ->]]; [exact I|reflexivity].
  - destruct n as [|n]; [cbn in L; lia|]. cbn [length] in L.
    destruct (IH n false r ltac:(lia) Sr) as (v4 & E & F). exists v4. split; [|exact F].
    rewrite !append_assoc. cbn [append].
    rewrite (read_hex_here n first s v (String ":" (t ++ r)) Hv) by eauto.
    change (String ":" (t ++ r)) with (lead false (t ++ r)). rewrite E. reflexivity.
Qed.

Lemma read_part_complete q t gs n : part6 q t gs -> (length gs <= n)%nat -> forall r, stop6 r ->
  exists v4, read_groups n true (t ++ r) = (gs, v4, r) /\ (q = false -> v4 = false).
Proof.
  intros [[-> ->]|S] L r Sr.
  - exists false. split; [|reflexivity]. apply read_groups_stop. exact Sr.
  - exact (read_groups_complete q t gs S n true r L Sr).
Qed.

(** ** The whole text *)

Lemma read_char_spec c s t : read_char c s = Some t <-> s = String c t.
Proof.
  destruct s as [|a s]; cbn; [split; discriminate|]. destruct (Ascii.eqb_spec a c) as [->|Ne].
  - split; [intros E; injection E as ->; reflexivity|intros E; injection E as ->; reflexivity].
  - split; [discriminate|]. intros E. injection E as -> _. contradiction.
Qed.

Lemma read_ipv6_spec s gs : read_ipv6 s = Some (gs, EmptyString) <-> ip6_text s gs.
Proof.
  unfold read_ipv6. split.
  - destruct (read_groups 8 true s) as [[head hv] r] eqn:Eh.
    destruct (read_groups_sound 8 _ _ _ _ _ Eh) as [Lh Sh].
    destruct (Nat.eqb_spec (length head) 8) as [L8|L8].
    + intros E. injection E as <- ->. left. split; [|exact L8].
      destruct Sh as [(-> & _)|(t & St & ->)]; [discriminate|]. cbn [lead]. rewrite append_nil_r.
      destruct hv; [exact St|apply segs_more; exact St].
    + destruct hv; [discriminate|].
      destruct (read_char ":" r) as [r1|] eqn:E1; [|discriminate]. apply read_char_spec in E1. subst r.
      destruct (read_char ":" r1) as [r2|] eqn:E2; [|discriminate]. apply read_char_spec in E2. subst r1.
      destruct (read_groups (8 - (length head + 1)) true r2) as [[tail tv] r3] eqn:Et.
      destruct (read_groups_sound _ _ _ _ _ _ Et) as [Lt St].
      intros E. injection E as <- ->. right.
      assert (Pa : exists a, part6 false a head /\ s = (a ++ String ":" (String ":" r2))%string).
      { destruct Sh as [(-> & _ & ->)|(t & S & ->)]; [exists EmptyString; split; [left; auto|reflexivity]|].
        exists t. split; [right; exact S|reflexivity]. }
      assert (Pb : part6 true r2 tail).
      { destruct St as [(-> & _ & ->)|(t & S & ->)]; [left; auto|]. right. cbn [lead]. rewrite append_nil_r.
        destruct tv; [exact S|apply segs_more; exact S]. }
      destruct Pa as (a & Pa & Es). exists a, head, r2, tail. repeat split; auto. lia.
  - intros [[S L8]|(a & ga & b & gb & Pa & Pb & L & -> & ->)].
    + destruct (read_groups_complete true s gs S 8 true EmptyString) as (v4 & E & _); [lia|left; auto|].
      cbn [lead] in E. rewrite append_nil_r in E. rewrite E, L8. reflexivity.
    + destruct (read_part_complete false a ga 8 Pa ltac:(lia) (String ":" (String ":" b))) as (v4 & E & F); [right; eauto|].
      change ("::" ++ b)%string with (String ":" (String ":" b)). rewrite E, (F eq_refl).
      destruct (Nat.eqb_spec (length ga) 8); [lia|]. rewrite !(proj2 (read_char_spec ":" _ _) eq_refl).
      destruct (read_part_complete true b gb (8 - (length ga + 1)) Pb ltac:(lia) EmptyString) as (v5 & E5 & _); [left; auto|].
      rewrite append_nil_r in E5. rewrite E5. reflexivity.
Qed.

Lemma segs_lt q s gs : segs q s gs -> Forall (fun g => g < 65536) gs.
Proof.
  induction 1 as [s v [Nu L]|s g1 g2 Q Hq|s v t gs [Nu L] Hs IH].
  - constructor; auto. pose proof (numeral_bound _ _ _ Nu).
    assert (16 ^ N.of_nat (String.length s) <= 16 ^ 4) by (apply N.pow_le_mono_r; lia). change (16 ^ 4) with 65536 in *. lia.
  - destruct Hq as (a & b & c & d & va & vb & vc & vd & [_ La] & [_ Lb] & [_ Lc] & [_ Ld] & _ & -> & ->).
    repeat constructor; lia.
  - constructor; auto. pose proof (numeral_bound _ _ _ Nu).
    assert (16 ^ N.of_nat (String.length s) <= 16 ^ 4) by (apply N.pow_le_mono_r; lia). change (16 ^ 4) with 65536 in *. lia.
Qed.

Lemma ip6_text_ok s gs : ip6_text s gs -> length gs = 8%nat /\ Forall (fun g => g < 65536) gs.
Proof.
  intros [[S L]|(a & ga & b & gb & Pa & Pb & L & -> & ->)]; [split; [exact L|eapply segs_lt; eauto]|].
  assert (P : forall q t gs, part6 q t gs -> Forall (fun g => g < 65536) gs).
  { intros q t gs [[_ ->]|S]; [constructor|eapply segs_lt; eauto]. }
  split; [rewrite !app_length, repeat_length; lia|]. apply Forall_app. split; [eapply P; eauto|].
  apply Forall_app. split; [|eapply P; eauto]. apply Forall_forall. intros g I. apply repeat_spec in I. subst g. reflexivity.
Qed.

Lemma group_octets_eq gs : Forall (fun g => g < 65536) gs ->
  flat_map (fun g => [g / 256; g mod 256]) gs = group_octets gs.
Proof.
  unfold group_octets. induction 1 as [|g gs L H IH]; [reflexivity|]. cbn [flat_map]. rewrite IH, to_be_2.
  rewrite (N.mod_small (g / 256)) by (apply N.div_lt_upper_bound; lia). reflexivity.
Qed.
