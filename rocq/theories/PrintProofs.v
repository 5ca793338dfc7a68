(** PrintProofs.v -- lemmas about Print.v. *)

From Coq Require Import Lia.
From Verif Require Import Base Bits Types Layout Heap Packet Text Build Utils Slow Fast Show Trait Ops Client Python.
From Verif Require Import Spec ShowSpec BitsProofs HeapProofs PacketProofs TextProofs ShowProofs Print PrintSpec.
Open Scope N_scope.

(** ** The monad *)

Lemma wbind_fst {A B} (c : W A) (f : A -> W B) h :
  fst (wbind c f h) = (fst (c h) ++ match snd (c h) with (Ret a, h') => fst (f a h') | _ => EmptyString end)%string.
Proof.
  unfold wbind. destruct (c h) as [s [[a|p| | |] h']]; cbn [fst snd]; rewrite ?append_nil_r; auto.
  destruct (f a h'); reflexivity.
Qed.
Lemma wbind_snd {A B} (c : W A) (f : A -> W B) h :
  snd (wbind c f h) = bind (fun h => snd (c h)) (fun a h => snd (f a h)) h.
Proof.
  unfold wbind, bind. destruct (c h) as [s [[a|p| | |] h']]; cbn [fst snd]; auto.
  destruct (f a h'); reflexivity.
Qed.

Lemma wbind_assoc {A B C} (c : W A) (f : A -> W B) (g : B -> W C) h :
  wbind (wbind c f) g h = wbind c (fun a => wbind (f a) g) h.
Proof.
  unfold wbind. destruct (c h) as [s [[a|p| | |] h']]; auto.
  destruct (f a h') as [t [[b|p| | |] h'']]; auto. destruct (g b h''). rewrite append_assoc. reflexivity.
Qed.
Lemma wbind_ext {A B} (c : W A) (f g : A -> W B) h : (forall a h, f a h = g a h) -> wbind c f h = wbind c g h.
Proof. intros H. unfold wbind. destruct (c h) as [s [[a|p| | |] h']]; auto. rewrite H. reflexivity. Qed.

(** The same computation without the text. *)
Definition er {A} (c : W A) (c' : M A) : Prop := forall h, snd (c h) = c' h.
Lemma er_run {A} (c : M A) : er (run c) c.
Proof. intros h. reflexivity. Qed.
Lemma er_bind {A B} (c : W A) c' (f : A -> W B) f' :
  er c c' -> (forall a, er (f a) (f' a)) -> er (wbind c f) (bind c' f').
Proof.
  intros H1 H2 h. rewrite wbind_snd. unfold bind. rewrite H1. destruct (c' h) as [[a|p| | |] h']; auto. apply H2.
Qed.

Definition quiet {A} (c : W A) : Prop := forall h, fst (c h) = EmptyString.
Lemma quiet_run {A} (c : M A) : quiet (run c).
Proof. intros h. reflexivity. Qed.
Lemma quiet_bind {A B} (c : W A) (f : A -> W B) : quiet c -> (forall a, quiet (f a)) -> quiet (wbind c f).
Proof.
  intros H1 H2 h. rewrite wbind_fst, H1. destruct (snd (c h)) as [[a|p| | |] h']; auto. apply H2.
Qed.
Lemma wbind_quiet {A B} (c : W A) (f : A -> W B) h : (forall a, quiet (f a)) -> fst (wbind c f h) = fst (c h).
Proof.
  intros H. rewrite wbind_fst. destruct (snd (c h)) as [[a|p| | |] h']; rewrite ?H, append_nil_r; auto.
Qed.
Ltac hush := repeat first
  [ apply quiet_run
  | match goal with |- quiet (match ?e with _ => _ end) => destruct e end
  | apply quiet_bind; [|intros ?] | intros ? ].

(** ** [u8::from_str_radix] *)

Lemma digits_parse_loop radix s acc :
  digits_loop radix s acc = match digits_parse radix s acc with inl v => Some v | inr _ => None end.
Proof.
  revert acc. induction s as [|c t IH]; intros acc; cbn [digits_loop digits_parse]; [reflexivity|].
  destruct (to_digit radix c) as [x|]; [|destruct (256 <=? acc * radix); reflexivity].
  destruct (256 <=? acc * radix); auto. destruct (256 <=? acc * radix + x); auto.
Qed.
Lemma parse_u8_from radix s :
  from_str_radix radix s = match parse_u8 radix s with inl v => Some v | inr _ => None end.
Proof.
  unfold from_str_radix, parse_u8. destruct s as [|c [|c' t]]; [reflexivity| |].
  - destruct ((N_of_ascii c =? 43) || (N_of_ascii c =? 45)); auto using digits_parse_loop.
  - destruct (N_of_ascii c =? 43); apply digits_parse_loop.
Qed.

Lemma numeral_cons_inv radix c t v : numeral radix (String c t) v ->
  exists x w, is_digit radix c x /\ numeral radix t w /\ v = x * radix ^ N.of_nat (String.length t) + w.
Proof. intros H. inversion H; subst. eauto. Qed.

Lemma digits_parse_app radix p t acc v : 1 < radix -> numeral radix p v ->
  acc * radix ^ N.of_nat (String.length p) + v < 256 ->
  digits_parse radix (p ++ t) acc = digits_parse radix t (acc * radix ^ N.of_nat (String.length p) + v).
Proof.
  intros Hr Hn. revert acc. induction Hn as [|c p x w Hc Hp IH]; intros acc L; cbn [append].
  - cbn [String.length] in *. change (radix ^ N.of_nat 0) with 1 in *. f_equal. lia.
  - cbn [digits_parse String.length] in *. rewrite Nnat.Nat2N.inj_succ, N.pow_succ_r' in *.
    apply to_digit_spec in Hc. rewrite Hc.
    assert (P : 1 <= radix ^ N.of_nat (String.length p)) by (apply pow_ge_1; auto).
    remember (radix ^ N.of_nat (String.length p)) as Q eqn:HQ.
    assert (E : acc * (radix * Q) + (x * Q + w) = (acc * radix + x) * Q + w) by ring.
    rewrite E in *. clear E.
    assert (acc * radix + x <= (acc * radix + x) * Q) by nia.
    destruct (N.leb_spec 256 (acc * radix)); [lia|]. destruct (N.leb_spec 256 (acc * radix + x)); [lia|].
    apply IH. lia.
Qed.
Lemma digits_parse_large radix p t acc v : 1 < radix -> acc < 256 -> numeral radix p v ->
  256 <= acc * radix ^ N.of_nat (String.length p) + v -> digits_parse radix (p ++ t) acc = inr E_PosOverflow.
Proof.
  intros Hr Ha Hn. revert acc Ha. induction Hn as [|c p x w Hc Hp IH]; intros acc Ha L; cbn [append].
  - cbn [String.length] in *. change (radix ^ N.of_nat 0) with 1 in *. lia.
  - cbn [digits_parse String.length] in *. rewrite Nnat.Nat2N.inj_succ, N.pow_succ_r' in *.
    apply to_digit_spec in Hc. rewrite Hc.
    remember (radix ^ N.of_nat (String.length p)) as Q eqn:HQ.
    assert (E : acc * (radix * Q) + (x * Q + w) = (acc * radix + x) * Q + w) by ring.
    rewrite E in *. clear E.
    destruct (N.leb_spec 256 (acc * radix)); [auto|]. destruct (N.leb_spec 256 (acc * radix + x)); [auto|].
    apply IH; lia.
Qed.
Lemma digits_parse_digit radix c t acc : (forall w, ~ is_digit radix c w) ->
  digits_parse radix (String c t) acc = inr E_InvalidDigit.
Proof.
  intros H. cbn [digits_parse]. destruct (to_digit radix c) as [x|] eqn:E; auto.
  apply to_digit_spec in E. elim (H x); auto.
Qed.

Lemma digits_parse_why radix s acc e : 1 < radix -> acc < 256 -> digits_parse radix s acc = inr e ->
  (e = E_InvalidDigit /\ exists p c t v, s = (p ++ String c t)%string /\ numeral radix p v /\
     acc * radix ^ N.of_nat (String.length p) + v < 256 /\ forall w, ~ is_digit radix c w) \/
  (e = E_PosOverflow /\ exists p t v, s = (p ++ t)%string /\ numeral radix p v /\
     256 <= acc * radix ^ N.of_nat (String.length p) + v).
Proof.
  intros Hr. revert acc. induction s as [|c t IH]; intros acc Ha H; cbn [digits_parse] in H; [discriminate|].
  destruct (to_digit radix c) as [x|] eqn:D.
  - apply to_digit_spec in D.
    assert (One : forall t', exists p v, String c t' = (p ++ t')%string /\ numeral radix p v /\
              acc * radix ^ N.of_nat (String.length p) + v = acc * radix + x).
    { intros t'. exists (String c EmptyString), (x * radix ^ N.of_nat (String.length EmptyString) + 0).
      split; [reflexivity|]. split; [constructor; [auto|constructor]|]. cbn [String.length].
      change (N.of_nat 0) with 0. change (N.of_nat 1) with 1. rewrite N.pow_0_r, N.pow_1_r. lia. }
    destruct (N.leb_spec 256 (acc * radix)); [|destruct (N.leb_spec 256 (acc * radix + x))].
    + injection H as <-. right. split; auto. destruct (One t) as (p & v & E1 & E2 & E3). exists p, t, v. repeat split; auto. lia.
    + injection H as <-. right. split; auto. destruct (One t) as (p & v & E1 & E2 & E3). exists p, t, v. repeat split; auto. lia.
    + assert (G : forall p w, acc * radix ^ N.of_nat (String.length (String c p)) +
                (x * radix ^ N.of_nat (String.length p) + w) =
                (acc * radix + x) * radix ^ N.of_nat (String.length p) + w).
      { intros p w. cbn [String.length]. rewrite Nnat.Nat2N.inj_succ, N.pow_succ_r'. ring. }
      apply IH in H; auto. destruct H as [(-> & p & c' & t' & v & -> & Hp & L & Hc)|(-> & p & t' & v & -> & Hp & L)].
      * left. split; auto. exists (String c p), c', t', (x * radix ^ N.of_nat (String.length p) + v).
        rewrite G. repeat split; auto. constructor; auto.
      * right. split; auto. exists (String c p), t', (x * radix ^ N.of_nat (String.length p) + v).
        rewrite G. repeat split; auto. constructor; auto.
  - injection H as <-. left. split; auto. exists EmptyString, c, t, 0. repeat split; auto; [constructor|cbn; lia|].
    intros w Hw. apply to_digit_spec in Hw. congruence.
Qed.

Lemma unsigned_parse radix s b : s <> EmptyString -> unsigned s b -> parse_u8 radix s = digits_parse radix b 0.
Proof.
  intros Hs U. destruct U as [t Ht|s H].
  - destruct t as [|c t]; [congruence|]. reflexivity.
  - destruct s as [|c [|c' t]]; [congruence| |]; cbn [parse_u8].
    + destruct (N.eqb_spec (N_of_ascii c) 43) as [E|E].
      * apply ascii_N_eq in E; [|lia]. subst c. cbn [orb].
        symmetry. apply digits_parse_digit. intros w. apply plus_not_digit.
      * destruct (N.eqb_spec (N_of_ascii c) 45) as [E'|E']; [|reflexivity].
        apply ascii_N_eq in E'; [|lia]. subst c. cbn [orb].
        symmetry. apply digits_parse_digit. intros w. apply minus_not_digit.
    + destruct (N.eqb_spec (N_of_ascii c) 43) as [E|E]; [|reflexivity].
      apply ascii_N_eq in E; [|lia]. subst c. specialize (H (String c' t) eq_refl). discriminate.
Qed.
Lemma unsigned_ex s : exists b, unsigned s b.
Proof.
  destruct s as [|c t]; [exists EmptyString; constructor; discriminate|].
  destruct (Ascii.eqb_spec c "+") as [->|E].
  - destruct t as [|c' t]; [|exists (String c' t); constructor; discriminate].
    exists (String "+" EmptyString). constructor 2. intros t H. injection H as <-. reflexivity.
  - exists (String c t). constructor 2. intros u H. injection H as -> _. congruence.
Qed.
Lemma unsigned_empty s b : unsigned s b -> b <> EmptyString -> s <> EmptyString.
Proof. intros U H E. destruct U; congruence. Qed.

Lemma parse_u8_err radix s e : 1 < radix -> parse_u8 radix s = inr e <-> complaint radix s (int_error_text e).
Proof.
  intros Hr. split.
  - intros H. destruct s as [|c t].
    + injection H as <-. constructor. reflexivity.
    + destruct (unsigned_ex (String c t)) as [b Hb]. rewrite (unsigned_parse radix _ b) in H by (auto; discriminate).
      apply digits_parse_why in H; [|auto|reflexivity].
      destruct H as [(-> & p & c' & t' & v & -> & Hp & L & Hc)|(-> & p & t' & v & -> & Hp & L)]; cbn [int_error_text].
      * rewrite N.mul_0_l in L. econstructor; eauto.
      * rewrite N.mul_0_l in L. econstructor; eauto.
  - intros H. assert (X : exists e', int_error_text e' = int_error_text e /\ parse_u8 radix s = inr e').
    { inversion H as [Hs Hm|p c t v Hu Hp L Hc Hm|p t v Hu Hp L Hm].
      - exists E_Empty. subst s. split; reflexivity.
      - exists E_InvalidDigit. split; [reflexivity|]. rewrite (unsigned_parse radix s _) with (2 := Hu).
        + rewrite (digits_parse_app radix p _ 0 v) by (auto; lia). apply digits_parse_digit; auto.
        + eapply unsigned_empty; eauto. destruct p; discriminate.
      - exists E_PosOverflow. split; [reflexivity|]. rewrite (unsigned_parse radix s _) with (2 := Hu).
        + apply (digits_parse_large radix p t 0 v); auto; lia.
        + eapply unsigned_empty; eauto. destruct p; [inversion Hp; subst; lia|discriminate]. }
    destruct X as (e' & Ht & ->). destruct e, e'; cbn in Ht; congruence.
Qed.
Lemma parse_u8_ok radix s v : 1 < radix -> parse_u8 radix s = inl v <-> octet radix s v.
Proof.
  intros Hr. rewrite <- from_str_radix_spec by auto. rewrite parse_u8_from.
  destruct (parse_u8 radix s); split; congruence.
Qed.

(** ** Addresses *)

(** The text printed for a part. *)
Definition line (radix : N) (self v : string) : string :=
  match parse_u8 radix v with
  | inl _ => EmptyString
  | inr e => ("Error: " ++ int_error_text e ++ " - " ++ v ++ " in " ++ self ++ newline)%string
  end.
Lemma line_says radix self v t : 1 < radix -> part_says radix self v t <-> t = line radix self v.
Proof.
  intros Hr. unfold line. split.
  - intros [x Hx|msg Hm].
    + apply parse_u8_ok in Hx; auto. rewrite Hx. reflexivity.
    + assert (X : exists e, msg = int_error_text e)
        by (destruct Hm; [exists E_Empty|exists E_InvalidDigit|exists E_PosOverflow]; reflexivity).
      destruct X as [e ->]. apply parse_u8_err in Hm; auto. rewrite Hm. reflexivity.
  - intros ->. destruct (parse_u8 radix v) as [x|e] eqn:E.
    + apply parse_u8_ok in E; auto. econstructor; eauto.
    + apply parse_u8_err in E; auto. change newline with (String nl EmptyString). constructor. auto.
Qed.

Lemma w_fill_run radix self parts i a h :
  w_fill radix self parts i a h =
  (String.concat "" (map (line radix self) (firstn (S (length a - i)) parts)), (fill radix parts i a, h)).
Proof.
  revert i a. induction parts as [|v t IH]; intros i a; [reflexivity|].
  cbn [w_fill fill]. rewrite firstn_cons. cbn [map]. rewrite concat_cons.
  assert (V : forall B (k : N -> W B), wbind
     (match parse_u8 radix v with
      | inl x => run (ret x)
      | inr e => wlet _ := say ("Error: " ++ int_error_text e ++ " - " ++ v ++ " in " ++ self ++ newline)%string in run (ret 0)
      end) k h =
     let '(s, r) := k (match from_str_radix radix v with Some x => x | None => 0 end) h in
     ((line radix self v ++ s)%string, r)).
  { intros B k. rewrite parse_u8_from. unfold line. destruct (parse_u8 radix v) as [x|e].
    - unfold wbind, run, ret. destruct (k x h). reflexivity.
    - unfold wbind, run, ret, say. destruct (k 0 h). rewrite append_nil_r. reflexivity. }
  rewrite V. clear V. set (x := match from_str_radix radix v with Some x => x | None => 0 end).
  unfold wbind, run, lift. destruct (Nat.lt_ge_cases i (length a)) as [L|L].
  - assert (E : exists y, index a i = Ret y).
    { unfold index. destruct (nth_error a i) eqn:E; [eauto|]. apply nth_error_None in E. lia. }
    destruct E as [y E]. rewrite E. cbn [obind]. rewrite IH, upd_length.
    replace (length a - i)%nat with (S (length a - S i)) by lia. reflexivity.
  - assert (E : index a i = Panic PIndex).
    { unfold index. destruct (nth_error a i) eqn:E; [|reflexivity].
      assert (i < length a)%nat by (apply nth_error_Some; congruence). lia. }
    rewrite E. cbn [obind]. replace (length a - i)%nat with 0%nat by lia. reflexivity.
Qed.

(** What is printed for an address, as a function. *)
Definition sayf (ip6 : string -> option (list N)) (a : addr) : string :=
  match a with
  | A_mac s => String.concat "" (map (line 16 s) (firstn 7 (split ":" s)))
  | A_ip4 s => String.concat "" (map (line 10 s) (firstn 5 (split "." s)))
  | A_ip6 s =>
      match ip6 s with
      | Some _ => EmptyString
      | None => ("Error: " ++ ipv6_error_text ++ " - " ++ s ++ newline)%string
      end
  end.
Definition conv (ip6 : string -> option (list N)) (a : addr) : out (list N) :=
  match a with A_mac s => to_mac_bytes s | A_ip4 s => to_ipv4_bytes s | A_ip6 s => Ret (to_ipv6_bytes ip6 s) end.
Definition w_conv (ip6 : string -> option (list N)) (a : addr) : W (list N) :=
  match a with A_mac s => w_mac s | A_ip4 s => w_ip4 s | A_ip6 s => w_ip6 ip6 s end.

Lemma w_mac_run s h : w_mac s h = (sayf (fun _ => None) (A_mac s), (to_mac_bytes s, h)).
Proof. unfold w_mac. rewrite w_fill_run. reflexivity. Qed.
Lemma w_ip4_run s h : w_ip4 s h = (sayf (fun _ => None) (A_ip4 s), (to_ipv4_bytes s, h)).
Proof. unfold w_ip4. rewrite w_fill_run. reflexivity. Qed.
Lemma w_ip6_run ip6 s h : w_ip6 ip6 s h = (sayf ip6 (A_ip6 s), (Ret (to_ipv6_bytes ip6 s), h)).
Proof.
  unfold w_ip6, to_ipv6_bytes, sayf. destruct (ip6 s); [reflexivity|]. unfold wbind, say, run, ret.
  rewrite append_nil_r. reflexivity.
Qed.
Lemma w_conv_run ip6 a h : w_conv ip6 a h = (sayf ip6 a, (conv ip6 a, h)).
Proof. destruct a; [apply w_mac_run|apply w_ip4_run|apply w_ip6_run]. Qed.

Lemma addr_says_fun sep radix n s t : 1 < radix ->
  addr_says sep radix n s t <-> t = String.concat "" (map (line radix s) (firstn (S n) (split sep s))).
Proof.
  intros Hr.
  assert (F : forall l k, Forall2 (part_says radix s) l k <-> k = map (line radix s) l).
  { induction l as [|p l IH]; intros k; cbn [map]; split.
    - intros H. inversion H. reflexivity.
    - intros ->. constructor.
    - intros H. inversion H as [|? q ? k' H1 H2]; subst. apply line_says in H1; auto. apply IH in H2. subst. reflexivity.
    - intros ->. constructor; [apply line_says; auto|apply IH; auto]. }
  split.
  - intros (parts & lines & E & Hn & Hc & Hf & ->). apply F in Hf. subst lines.
    do 3 f_equal. rewrite E. symmetry. apply split_join; auto.
  - intros ->. exists (split sep s), (map (line radix s) (firstn (S n) (split sep s))).
    split; [apply split_join_eq|]. split; [apply split_nonnil|]. split; [apply split_clean|]. split; [apply F|]; reflexivity.
Qed.
Lemma says_fun ip6 a t : says ip6 a t <-> t = sayf ip6 a.
Proof.
  destruct a as [s|s|s]; cbn [says sayf].
  - apply addr_says_fun. lia.
  - apply addr_says_fun. lia.
  - destruct (ip6 s) as [o|]; split.
    + intros [[_ ->]|[E _]]; congruence.
    + intros ->. left. split; congruence.
    + intros [[E _]|[_ ->]]; [congruence|reflexivity].
    + intros ->. right. split; reflexivity.
Qed.

(** Whether an address stops the conversions. *)
Definition halts (ip6 : string -> option (list N)) (a : addr) : bool :=
  match conv ip6 a with Ret _ => false | _ => true end.
Lemma conv_total ip6 a : (exists b, conv ip6 a = Ret b) \/ conv ip6 a = Panic PIndex.
Proof.
  destruct a as [s|s|s]; cbn [conv]; [| |left; eauto].
  - unfold to_mac_bytes. pose proof (fill_run 16 (split ":" s) [] MAC_LEN ltac:(lia)) as F. cbn [length app] in F.
    rewrite F. destruct (length (split ":" s) <=? MAC_LEN)%nat; eauto.
  - unfold to_ipv4_bytes. pose proof (fill_run 10 (split "." s) [] IPV4_LEN ltac:(lia)) as F. cbn [length app] in F.
    rewrite F. destruct (length (split "." s) <=? IPV4_LEN)%nat; eauto.
Qed.
Lemma halts_too ip6 a : halts ip6 a = true <-> too_many a.
Proof.
  assert (X : halts ip6 a = true <-> conv ip6 a = Panic PIndex).
  { unfold halts. destruct (conv_total ip6 a) as [[b ->]| ->]; split; congruence. }
  rewrite X. destruct a as [s|s|s]; cbn [conv too_many].
  - apply fill_panic. lia.
  - apply fill_panic. lia.
  - split; [discriminate|tauto].
Qed.

Fixpoint all_sayf (ip6 : string -> option (list N)) (l : list addr) : string :=
  match l with
  | [] => EmptyString
  | a :: t => (sayf ip6 a ++ if halts ip6 a then EmptyString else all_sayf ip6 t)%string
  end.
Lemma all_say_fun ip6 l t : all_say ip6 l t <-> t = all_sayf ip6 l.
Proof.
  split.
  - intros H. induction H as [|a l s t H1 H2 H IH|a l s H1 H2]; cbn [all_sayf]; [reflexivity| |].
    + apply says_fun in H1. subst s. destruct (halts ip6 a) eqn:E; [apply halts_too in E; tauto|]. congruence.
    + apply says_fun in H1. subst s. apply (halts_too ip6) in H2. rewrite H2, append_nil_r. reflexivity.
  - intros ->. induction l as [|a l IH]; cbn [all_sayf]; [constructor|]. destruct (halts ip6 a) eqn:E.
    + rewrite append_nil_r. constructor 3; [apply says_fun; reflexivity|apply (halts_too ip6); auto].
    + constructor; [apply says_fun; reflexivity| |auto]. intros H. apply (halts_too ip6) in H. congruence.
Qed.
Lemma all_sayf_app ip6 k l : all_sayf ip6 (k ++ l) =
  (all_sayf ip6 k ++ if existsb (halts ip6) k then EmptyString else all_sayf ip6 l)%string.
Proof.
  induction k as [|a k IH]; [reflexivity|]. cbn [app all_sayf existsb]. destruct (halts ip6 a); cbn [orb].
  - rewrite !append_nil_r. reflexivity.
  - rewrite IH, !append_assoc. reflexivity.
Qed.

(** Converting the addresses one after another and then doing something silent. *)
Lemma conv_step {B} ip6 a (k : list N -> W B) h u :
  (forall b, conv ip6 a = Ret b -> fst (k b h) = u) ->
  fst (wbind (w_conv ip6 a) k h) = (sayf ip6 a ++ if halts ip6 a then EmptyString else u)%string.
Proof.
  intros H. rewrite wbind_fst, w_conv_run. cbn [fst snd]. unfold halts.
  destruct (conv_total ip6 a) as [[b E]|E]; rewrite E; cbn [fst]; [rewrite H|]; auto.
Qed.

(** [c] converts the addresses [l], and then only silent things that cannot fail. *)
Definition doing {A} (ip6 : string -> option (list N)) (l : list addr) (c : W A) : Prop := forall h,
  fst (c h) = all_sayf ip6 l /\
  if existsb (halts ip6) l then exists f h', snd (c h) = (Panic f, h') else exists a h', snd (c h) = (Ret a, h').

Lemma doing_ret {A} ip6 (c : M A) : (forall h, exists a h', c h = (Ret a, h')) -> doing ip6 [] (run c).
Proof. intros H h. split; [reflexivity|]. cbn [existsb]. apply H. Qed.
Lemma doing_conv ip6 a : doing ip6 [a] (w_conv ip6 a).
Proof.
  intros h. rewrite w_conv_run. cbn [fst snd existsb all_sayf]. split.
  - destruct (halts ip6 a); rewrite append_nil_r; reflexivity.
  - unfold halts. destruct (conv_total ip6 a) as [[b E]|E]; rewrite E; cbn [orb]; eauto.
Qed.
Lemma doing_bind {A B} ip6 l k (c : W A) (f : A -> W B) :
  doing ip6 l c -> (forall a, doing ip6 k (f a)) -> doing ip6 (l ++ k) (wbind c f).
Proof.
  intros H1 H2 h. rewrite wbind_fst, wbind_snd, all_sayf_app, existsb_app. unfold bind. destruct (H1 h) as [E1 E2].
  rewrite E1. destruct (existsb (halts ip6) l); cbn [orb].
  - destruct E2 as (p & h' & E2). rewrite E2. rewrite append_nil_r. eauto.
  - destruct E2 as (a & h' & E2). rewrite E2. destruct (H2 a h') as [E3 E4]. rewrite E3. auto.
Qed.
Lemma doing_bind_r {A B} ip6 l (c : W A) (f : A -> W B) :
  doing ip6 l c -> (forall a, doing ip6 [] (f a)) -> doing ip6 l (wbind c f).
Proof. intros H1 H2. rewrite <- (app_nil_r l). apply doing_bind; auto. Qed.
Lemma doing_bind_l {A B} ip6 l (c : W A) (f : A -> W B) :
  doing ip6 [] c -> (forall a, doing ip6 l (f a)) -> doing ip6 l (wbind c f).
Proof. intros H1 H2. change l with ([] ++ l). apply doing_bind; auto. Qed.

(** The text of a computation that goes on in silence. *)
Definition prints {A} (ip6 : string -> option (list N)) (l : list addr) (c : W A) : Prop := forall h,
  fst (c h) = all_sayf ip6 l.
Lemma prints_doing {A} ip6 l (c : W A) : doing ip6 l c -> prints ip6 l c.
Proof. intros H h. apply H. Qed.
Lemma prints_quiet {A B} ip6 l (c : W A) (f : A -> W B) :
  prints ip6 l c -> (forall a, quiet (f a)) -> prints ip6 l (wbind c f).
Proof. intros H1 H2 h. rewrite wbind_quiet; auto. Qed.
Lemma prints_bind {A B} ip6 l k (c : W A) (f : A -> W B) :
  doing ip6 l c -> (forall a, prints ip6 k (f a)) -> prints ip6 (l ++ k) (wbind c f).
Proof.
  intros H1 H2 h. rewrite wbind_fst, all_sayf_app. destruct (H1 h) as [E1 E2]. rewrite E1. f_equal.
  destruct (existsb (halts ip6) l); [destruct E2 as (p & h' & E2); rewrite E2; auto|].
  destruct E2 as (a & h' & E2). rewrite E2. apply H2.
Qed.

Section Constructors.
Variable ip6 : string -> option (list N).
Variable m : mode.

Lemma doing_mac s : doing ip6 [A_mac s] (w_mac s).
Proof. apply (doing_conv ip6 (A_mac s)). Qed.
Lemma doing_ip4 s : doing ip6 [A_ip4 s] (w_ip4 s).
Proof. apply (doing_conv ip6 (A_ip4 s)). Qed.
Lemma doing_ip6 s : doing ip6 [A_ip6 s] (w_ip6 ip6 s).
Proof. apply (doing_conv ip6 (A_ip6 s)). Qed.
Lemma doing_hfrom T d : doing ip6 [] (run (hfrom T d)).
Proof. apply doing_ret. intros h. rewrite hfrom_run. eauto. Qed.
Lemma doing_push p x : doing ip6 [] (run (push p x)).
Proof. apply doing_ret. intros h. unfold push, push_any, to_owned, bind, ret. eauto. Qed.
Lemma doing_pure {A} (a : A) : doing ip6 [] (run (ret a)).
Proof. apply doing_ret. intros h. unfold ret. eauto. Qed.

Lemma doing_ethernet d s e : doing ip6 [A_mac d; A_mac s] (w_ethernet d s e).
Proof.
  apply (doing_bind ip6 [A_mac d] [A_mac s]); [apply doing_mac|intros a].
  apply doing_bind_r; [apply doing_mac|intros b]. apply doing_hfrom.
Qed.
Lemma doing_dot3 d s e : doing ip6 [A_mac d; A_mac s] (w_dot3 d s e).
Proof.
  apply (doing_bind ip6 [A_mac d] [A_mac s]); [apply doing_mac|intros a].
  apply doing_bind_r; [apply doing_mac|intros b]. apply doing_hfrom.
Qed.
Lemma doing_arp o sm tm si ti : doing ip6 (arp_addrs sm tm si ti) (w_arp o sm tm si ti).
Proof.
  apply (doing_bind ip6 [A_mac sm] [A_ip4 si; A_mac tm; A_ip4 ti]); [apply doing_mac|intros a].
  apply (doing_bind ip6 [A_ip4 si] [A_mac tm; A_ip4 ti]); [apply doing_ip4|intros b].
  apply (doing_bind ip6 [A_mac tm] [A_ip4 ti]); [apply doing_mac|intros c].
  apply doing_bind_r; [apply doing_ip4|intros d]. apply doing_hfrom.
Qed.
Lemma prints_ipv4 ihl tos id ttl frag proto s d len :
  prints ip6 [A_ip4 s; A_ip4 d] (w_ipv4 m ihl tos id ttl frag proto s d len).
Proof.
  apply (prints_bind ip6 [A_ip4 s] [A_ip4 d]); [apply doing_ip4|intros a].
  apply prints_quiet; [apply prints_doing, doing_ip4|intros b]. cbv zeta. hush.
Qed.
Lemma prints_ipv6 tc fl nh hl s d len : prints ip6 [A_ip6 s; A_ip6 d] (w_ipv6 ip6 tc fl nh hl s d len).
Proof.
  apply (prints_bind ip6 [A_ip6 s] [A_ip6 d]); [apply doing_ip6|intros a].
  apply prints_quiet; [apply prints_doing, doing_ip6|intros b]. hush.
Qed.
Lemma prints_hmake b : prints ip6 (hmake_addrs b) (w_hmake m ip6 b).
Proof.
  destruct b; cbn [hmake_addrs w_hmake]; try (intros h; reflexivity).
  - apply prints_doing, doing_ethernet.
  - apply prints_doing, doing_dot3.
  - apply prints_doing, doing_arp.
  - apply prints_ipv4.
  - apply prints_ipv6.
Qed.

Lemma doing_create_eth e t pl : doing ip6 (eth_addrs e) (w_create_eth_packet e t pl).
Proof.
  unfold w_create_eth_packet. apply doing_bind_r; [|intros p; apply doing_pure]. destruct (vlan_enable e).
  - apply doing_bind_r; [apply doing_ethernet|intros x]. apply doing_bind_l; [apply doing_push|intros p].
    apply doing_bind_l; [|intros v; apply doing_push]. apply doing_ret. intros h. unfold vlan, bind at 1, lift.
    cbn [to_be index nth_error map seq rev app obind]. eexists _, _. reflexivity.
  - apply doing_bind_r; [apply doing_ethernet|intros x; apply doing_push].
Qed.
Lemma prints_create_ipv4 e i p pl : prints ip6 (eth_addrs e ++ ip4_addrs i) (w_create_ipv4_packet m e i p pl).
Proof.
  apply prints_bind; [apply doing_create_eth|intros x]. cbv zeta.
  apply prints_quiet; [apply prints_ipv4|intros y]. hush.
Qed.
Lemma prints_create_ipv6 e i p pl : prints ip6 (eth_addrs e ++ ip6_addrs i) (w_create_ipv6_packet ip6 e i p pl).
Proof.
  apply prints_bind; [apply doing_create_eth|intros x]. cbv zeta.
  apply prints_quiet; [apply prints_ipv6|intros y]. hush.
Qed.

(** After a silent first step. *)
Lemma first_fst {A B} (c : M A) (f : A -> W B) h :
  fst (wbind (run c) f h) = match c h with (Ret a, h') => fst (f a h') | _ => EmptyString end.
Proof. rewrite wbind_fst. reflexivity. Qed.

Lemma to_vec_readable p h d h' : to_vec p h = (Ret d, h') <-> readable h p d /\ h' = h.
Proof.
  split.
  - intros E. unfold to_vec, bind in E. destruct (concat_vecs (p_hdrs p) h) as [[v|f| | |] h1] eqn:C; try discriminate.
    apply concat_vecs_inv in C as (-> & ds & Hd & ->). injection E as <- <-. split; auto. exists ds. split; auto.
  - intros [(ds & Hd & ->) ->]. apply to_vec_hold. exact Hd.
Qed.

Lemma early {B} p (f : list N -> W B) h u (P : list N -> Prop) :
  (forall d, P d -> fst (f d h) = u) -> (forall d, ~ P d -> fst (f d h) = EmptyString) -> (forall d, P d \/ ~ P d) ->
  ((exists d, readable h p d /\ P d) -> fst (wbind (run (to_vec p)) f h) = u) /\
  (~ (exists d, readable h p d /\ P d) -> fst (wbind (run (to_vec p)) f h) = EmptyString).
Proof.
  intros H1 H2 Dec. rewrite first_fst. split.
  - intros (d & R & Pd). rewrite (proj2 (to_vec_readable p h d h)); auto.
  - intros N. destruct (to_vec p h) as [[d|x| | |] h'] eqn:E; auto. apply to_vec_readable in E as [R ->].
    destruct (Dec d) as [Pd|Pd]; auto. elim N. eauto.
Qed.
Lemma early_all {B} p (f : list N -> W B) h u :
  (forall d, fst (f d h) = u) ->
  ((exists d, readable h p d) -> fst (wbind (run (to_vec p)) f h) = u) /\
  (~ (exists d, readable h p d) -> fst (wbind (run (to_vec p)) f h) = EmptyString).
Proof.
  intros H. destruct (early p f h u (fun _ => True)) as [A B0]; auto; [tauto|].
  split; [intros (d & R); apply A; eauto|intros N; apply B0; intros (d & R & _); eauto].
Qed.
Lemma early_first {B} p (g : list N -> N -> W B) h u :
  (forall d b, fst (g d b h) = u) ->
  ((exists d, readable h p d /\ d <> []) ->
     fst (wbind (run (to_vec p)) (fun d => wbind (run (lift (index d 0))) (g d)) h) = u) /\
  (~ (exists d, readable h p d /\ d <> []) ->
     fst (wbind (run (to_vec p)) (fun d => wbind (run (lift (index d 0))) (g d)) h) = EmptyString).
Proof.
  intros H. apply early.
  - intros [|b d] Hd; [congruence|]. rewrite first_fst. cbn. apply H.
  - intros [|b d] Hd; [reflexivity|]. elim Hd. discriminate.
  - intros [|b d]; [right; auto|left; discriminate].
Qed.

Ltac ipv4_then := apply prints_quiet; [apply prints_create_ipv4|intros ?; cbv zeta; hush].
Ltac ipv6_then := apply prints_quiet; [apply prints_create_ipv6|intros ?; cbv zeta; hush].

Lemma pmake_text b h :
  (begins h b -> fst (w_pmake m ip6 b h) = all_sayf ip6 (pmake_addrs b)) /\
  (~ begins h b -> fst (w_pmake m ip6 b h) = EmptyString).
Proof.
  assert (T : forall A (c : W A) l, prints ip6 l c -> (True -> fst (c h) = all_sayf ip6 l) /\ (~ True -> fst (c h) = EmptyString))
    by (intros A c l H; split; [intros _; apply H|tauto]).
  assert (S : forall A (c : W A) l, prints ip6 l c -> fst (c h) = all_sayf ip6 l) by (intros A c l H; apply H).
  destruct b; cbn [begins pmake_addrs w_pmake].
  - apply T, prints_doing, doing_create_eth.
  - apply T, prints_doing. apply doing_bind; [apply doing_create_eth|intros x].
    apply doing_bind_r; [apply doing_arp|intros y; apply doing_push].
  - apply T, prints_create_ipv4.
  - apply T, prints_create_ipv6.
  - apply T. ipv4_then.
  - apply T. ipv4_then.
  - apply T. ipv4_then.
  - apply early_first. intros d b. apply prints_create_ipv4.
  - apply early_first. intros d b. apply prints_create_ipv6.
  - apply T. ipv6_then.
  - apply T. ipv6_then.
  - apply T. ipv6_then.
  - apply early_all. intros d. apply S. ipv4_then.
  - apply early_all. intros d. apply S. ipv6_then.
  - assert (G : forall x, prints ip6 (eth_addrs e ++ ip4_addrs i)
       (let '(proto, ipkt_vec) := x in
        let pktlen := ht_size GRE in
        let pktlen := if gre_chksum_present g then (pktlen + ht_size GREChksumOffset)%nat else pktlen in
        let pktlen := if gre_key_present g then (pktlen + ht_size GREKey)%nat else pktlen in
        let pktlen := if gre_seqnum_present g then (pktlen + ht_size GRESequenceNum)%nat else pktlen in
        let pktlen := if gre_routing_present g then (pktlen + length (gre_routing g))%nat else pktlen in
        wlet pkt := w_create_ipv4_packet m e i (IpProtocol_code P_GRE) ipkt_vec in
        wlet ip := run (bump_total_len m pkt pktlen) in
        wlet _ := run (refresh_checksum m ip) in
        wlet x := run (gre (gre_chksum_present g) (gre_routing_present g) (gre_key_present g)
                           (gre_seqnum_present g) (gre_strict_route_src g) (gre_flags g) (gre_version g) proto) in
        wlet pkt := run (push pkt x) in
        wlet pkt := (if gre_chksum_present g then
                       wlet o := run (gre_chksum_offset (gre_chksum g) (gre_offset g)) in run (push pkt o)
                     else run (ret pkt)) in
        wlet pkt := (if gre_key_present g then
                       wlet o := run (gre_key (gre_keyval g)) in run (push pkt o)
                     else run (ret pkt)) in
        (if gre_seqnum_present g then
           wlet o := run (gre_sequence_number (gre_seqnum g)) in run (push pkt o)
         else run (ret pkt)))) by (intros [proto v]; cbv zeta; ipv4_then).
    unfold w_create_gre_packet. destruct inner as [p|].
    + rewrite wbind_assoc, (wbind_ext _ _ _ h (fun d => wbind_assoc _ _ _)).
      apply (early_first p (fun d b0 => wbind (run (ret (gre_inner_proto b0, d))) _)).
      intros d b. rewrite first_fst. unfold ret. apply (G (gre_inner_proto b, d)).
    + apply T. intros h1. rewrite first_fst. unfold ret. apply (G (0, [])).
  - destruct inner as [p|].
    + apply early_all. intros d. apply S. cbv zeta. ipv4_then.
    + apply T. intros h1. unfold w_create_erspan_2_packet. rewrite first_fst. cbn [opt_to_vec]. unfold ret.
      revert h1. ipv4_then.
  - destruct inner as [p|].
    + apply early_all. intros d. apply S. cbv zeta. ipv4_then.
    + apply T. intros h1. unfold w_create_erspan_3_packet. rewrite first_fst. cbn [opt_to_vec]. unfold ret.
      revert h1. ipv4_then.
Qed.
End Constructors.

(** ** The text added, nothing else changed *)

Lemma er_mac s : er (w_mac s) (lift (to_mac_bytes s)).
Proof. intros h. rewrite w_mac_run. reflexivity. Qed.
Lemma er_ip4 s : er (w_ip4 s) (lift (to_ipv4_bytes s)).
Proof. intros h. rewrite w_ip4_run. reflexivity. Qed.
Ltac erase := repeat first
  [ apply er_run | apply er_mac | apply er_ip4
  | match goal with |- er (match ?e with _ => _ end) _ => destruct e end
  | apply er_bind; [|intros ?] ].

Lemma er_ethernet d s e : er (w_ethernet d s e) (ethernet d s e).
Proof. unfold w_ethernet, ethernet. erase. Qed.
Lemma er_arp o sm tm si ti : er (w_arp o sm tm si ti) (arp o sm tm si ti).
Proof. unfold w_arp, arp. erase. Qed.
Lemma er_ipv4 m ihl tos id ttl frag proto s d len :
  er (w_ipv4 m ihl tos id ttl frag proto s d len) (ipv4 m ihl tos id ttl frag proto s d len).
Proof. unfold w_ipv4, ipv4. erase. Qed.
Lemma er_ipv6 ip6 tc fl nh hl s d len : er (w_ipv6 ip6 tc fl nh hl s d len) (ipv6 ip6 tc fl nh hl s d len).
Proof.
  intros h. unfold w_ipv6, ipv6. cbv zeta. rewrite wbind_snd. unfold bind. rewrite w_ip6_run. cbn [snd].
  rewrite wbind_snd. unfold bind. rewrite w_ip6_run. reflexivity.
Qed.
Lemma er_hmake m ip6 b : er (w_hmake m ip6 b) (hmake_run m ip6 b).
Proof.
  destruct b; cbn [w_hmake]; try apply er_run; cbn [hmake_run].
  - apply er_ethernet.
  - unfold w_dot3, dot3. erase.
  - apply er_arp.
  - apply er_ipv4.
  - apply er_ipv6.
Qed.
Lemma er_create_eth e t pl : er (w_create_eth_packet e t pl) (create_eth_packet e t pl).
Proof.
  unfold w_create_eth_packet, create_eth_packet. cbv zeta. apply er_bind; [|intros p; apply er_run].
  destruct (vlan_enable e); apply er_bind; try apply er_ethernet; intros x; erase.
Qed.
Lemma er_create_ipv4 m e i p pl : er (w_create_ipv4_packet m e i p pl) (create_ipv4_packet m e i p pl).
Proof.
  unfold w_create_ipv4_packet, create_ipv4_packet. apply er_bind; [apply er_create_eth|intros x]. cbv zeta.
  apply er_bind; [apply er_ipv4|intros y]. erase.
Qed.
Lemma er_create_ipv6 ip6 e i p pl : er (w_create_ipv6_packet ip6 e i p pl) (create_ipv6_packet ip6 e i p pl).
Proof.
  unfold w_create_ipv6_packet, create_ipv6_packet. apply er_bind; [apply er_create_eth|intros x]. cbv zeta.
  apply er_bind; [apply er_ipv6|intros y]. erase.
Qed.
Ltac erase' := repeat first
  [ apply er_run | apply er_create_ipv4 | apply er_create_ipv6
  | progress cbv zeta
  | match goal with |- er (match ?e with _ => _ end) _ => destruct e end
  | apply er_bind; [|intros ?] ].
Lemma er_pmake m ip6 b : er (w_pmake m ip6 b) (pmake_run m ip6 b).
Proof.
  destruct b; cbn [w_pmake pmake_run].
  - apply er_create_eth.
  - unfold w_create_arp_packet, create_arp_packet. apply er_bind; [apply er_create_eth|intros x].
    apply er_bind; [apply er_arp|intros y; apply er_run].
  - apply er_create_ipv4.
  - apply er_create_ipv6.
  - unfold w_create_tcp_packet, create_tcp_packet. erase'.
  - unfold w_create_udp_packet, create_udp_packet. erase'.
  - unfold w_create_icmp_packet, create_icmp_packet. erase'.
  - unfold w_create_ipv4ip_packet, create_ipv4ip_packet. erase'.
  - unfold w_create_ipv6ip_packet, create_ipv6ip_packet. erase'.
  - unfold w_create_tcpv6_packet, create_tcpv6_packet. erase'.
  - unfold w_create_udpv6_packet, create_udpv6_packet. erase'.
  - unfold w_create_icmpv6_packet, create_icmpv6_packet. erase'.
  - unfold w_create_vxlan_packet, create_vxlan_packet. erase'.
  - unfold w_create_vxlanv6_packet, create_vxlanv6_packet. erase'.
  - unfold w_create_gre_packet, create_gre_packet. erase'.
  - unfold w_create_erspan_2_packet, create_erspan_2_packet. erase'.
  - unfold w_create_erspan_3_packet, create_erspan_3_packet. erase'.
Qed.

(** [w] prints what [c] returns, and otherwise fails like [c]. *)
Definition voids {A} (o : out A) : out unit :=
  match o with Ret _ => Ret tt | Panic f => Panic f | UB => UB | Hang => Hang | Fuel => Fuel end.
Definition tells (w : W unit) (c : M string) : Prop := forall h,
  snd (w h) = (voids (fst (c h)), snd (c h)) /\ forall s, fst (c h) = Ret s -> fst (w h) = s.

Lemma tells_seq w c w' c' : tells w c -> tells w' c' ->
  tells (wlet _ := w in w') (mlet s := c in mlet t := c' in ret (s ++ t)%string).
Proof.
  intros H1 H2 h. rewrite wbind_fst, wbind_snd. unfold bind. destruct (H1 h) as [E1 E2].
  destruct (c h) as [[s|p| | |] h1]; cbn [fst snd voids] in *; rewrite E1; try (split; [reflexivity|discriminate]).
  rewrite (E2 s eq_refl). destruct (H2 h1) as [E3 E4].
  destruct (c' h1) as [[t|p| | |] h2]; cbn [fst snd voids ret] in *; rewrite E3; (split; [reflexivity|]); try discriminate.
  intros u Hu. injection Hu as <-. rewrite (E4 t eq_refl). reflexivity.
Qed.
Lemma tells_eq w w' c c' : (forall h, w h = w' h) -> (forall h, c h = c' h) -> tells w' c' -> tells w c.
Proof. intros E1 E2 H h. rewrite E1, E2. apply H. Qed.
Lemma tells_say s : tells (say s) (ret s).
Proof. intros h. split; [reflexivity|]. intros t E. cbn in *. congruence. Qed.
Lemma tells_nil : tells (run (ret tt)) (ret EmptyString).
Proof. apply (tells_say EmptyString). Qed.
Lemma tells_run {A} (c : M A) w (k : A -> M string) : (forall a, tells (w a) (k a)) ->
  tells (wlet v := run c in w v) (mlet v := c in k v).
Proof.
  intros H h. rewrite wbind_fst, wbind_snd. unfold bind, run. cbn [fst snd].
  destruct (c h) as [[a|p| | |] h1]; cbn [fst snd voids]; try (split; [reflexivity|discriminate]). apply H.
Qed.

Section ShowTells.
Variable br : nat -> nat -> M N.
Fixpoint g_octets (i n : nat) : M string :=
  match n with
  | O => ret EmptyString
  | S n' =>
      mlet v := br (i + 7) i in
      mlet t := g_octets (i + 8) n' in
      ret (fmt_02x (u8 v) ++ " " ++ t)%string
  end.
Definition g_field (f : field) : M string :=
  let w := f_width f in
  if (w <=? 8)%nat then mlet v := br (f_end f) (f_start f) in ret (fmt_02x (u8 v))
  else if (w mod 8 =? 0)%nat then g_octets (f_start f) (w / 8)
  else
    mlet t := g_octets (f_start f) (w / 8) in
    mlet v := br (f_end f) (f_end f - w mod 8) in
    ret (t ++ fmt_02x (u8 v))%string.
Fixpoint g_fields (l : list field) : M string :=
  match l with
  | [] => ret EmptyString
  | f :: t =>
      mlet s := g_field f in
      mlet r := g_fields t in
      ret (show_label f ++ s ++ newline ++ r)%string
  end.

Lemma bind_run {A B} (c : M A) (f g : A -> M B) h : (forall a h, f a h = g a h) -> bind c f h = bind c g h.
Proof. intros H. unfold bind. destruct (c h) as [[a|p| | |] h']; auto. Qed.

Lemma tells_octets i n : tells (w_show_octets br i n) (g_octets i n).
Proof.
  revert i. induction n as [|n IH]; intros i; cbn [w_show_octets g_octets]; [apply tells_nil|].
  apply tells_run. intros v.
  eapply tells_eq; [reflexivity| |apply tells_seq; [apply tells_say|apply (IH (i + 8)%nat)]].
  intros h. unfold bind, ret. destruct (g_octets (i + 8) n h) as [[a|p| | |] h']; auto.
  rewrite append_assoc. reflexivity.
Qed.
Lemma tells_value f : tells
    (if (f_width f <=? 8)%nat then
       wlet v := run (br (f_end f) (f_start f)) in say (fmt_02x (u8 v))
     else if (f_width f mod 8 =? 0)%nat then w_show_octets br (f_start f) (f_width f / 8)
     else
       wlet _ := w_show_octets br (f_start f) (f_width f / 8) in
       wlet v := run (br (f_end f) (f_end f - f_width f mod 8)) in
       say (fmt_02x (u8 v))) (g_field f).
Proof.
  unfold g_field. cbv zeta. destruct (f_width f <=? 8)%nat.
  - apply tells_run. intros v. apply tells_say.
  - destruct (f_width f mod 8 =? 0)%nat; [apply tells_octets|].
    eapply tells_eq; [reflexivity| |apply tells_seq; [apply tells_octets|
      apply (tells_run (br (f_end f) (f_end f - f_width f mod 8)%nat)); intros v; apply tells_say]].
    intros h. apply bind_run. intros t h1. unfold bind, ret.
    destruct (br (f_end f) (f_end f - f_width f mod 8) h1) as [[a|p| | |] h']; auto.
Qed.
Lemma tells_field f : tells (w_show_field br f) (mlet s := g_field f in ret (show_label f ++ s ++ newline)%string).
Proof.
  unfold w_show_field. cbv zeta.
  eapply tells_eq; [reflexivity| |apply tells_seq; [apply tells_say|apply tells_seq; [apply tells_value|apply tells_say]]].
  intros h. unfold bind, ret. destruct (g_field f h) as [[a|p| | |] h']; auto.
Qed.
Lemma tells_fields l : tells (w_show_fields br l) (g_fields l).
Proof.
  induction l as [|f l IH]; cbn [w_show_fields g_fields]; [apply tells_nil|].
  eapply tells_eq; [reflexivity| |apply tells_seq; [apply tells_field|apply IH]].
  intros h. unfold bind, ret. destruct (g_field f h) as [[a|p| | |] h']; auto.
  destruct (g_fields l h') as [[b|p| | |] h'']; auto. rewrite !append_assoc. reflexivity.
Qed.
Lemma header_title T h : w_show_header br T h = (wlet _ := say (show_title T) in w_show_fields br (ht_fields T)) h.
Proof.
  unfold w_show_header, show_title, wbind, say. destruct (w_show_fields br (ht_fields T) h) as [s r]. rewrite append_assoc. reflexivity.
Qed.
Lemma tells_header T : tells (w_show_header br T) (mlet s := g_fields (ht_fields T) in ret (show_title T ++ s)%string).
Proof.
  eapply tells_eq; [apply header_title| |apply tells_seq; [apply tells_say|apply tells_fields]]. reflexivity.
Qed.
End ShowTells.

Lemma g_octets_h m x i n : g_octets (hbit_range m x) i n = hshow_octets m x i n.
Proof. revert i. induction n as [|n IH]; intros i; cbn [g_octets hshow_octets]; [reflexivity|]. rewrite IH. reflexivity. Qed.
Lemma g_fields_h m x l : g_fields (hbit_range m x) l = hshow_fields m x l.
Proof.
  induction l as [|f l IH]; cbn [g_fields hshow_fields]; [reflexivity|]. rewrite IH. unfold g_field, hshow_field.
  rewrite !g_octets_h. reflexivity.
Qed.
Lemma tells_hshow m x : tells (w_hshow m x) (hshow m x).
Proof. unfold w_hshow, hshow. rewrite <- g_fields_h. apply tells_header. Qed.

Lemma lift_bind {A B} (o : out A) (f : A -> out B) h : lift (obind o f) h = (mlet a := lift o in lift (f a)) h.
Proof. destruct o; reflexivity. Qed.
Lemma g_octets_s m d i n h : g_octets (fun a b => lift (get_bits m d a b)) i n h = lift (sshow_octets m d i n) h.
Proof.
  revert i h. induction n as [|n IH]; intros i h; cbn [g_octets sshow_octets]; [reflexivity|].
  rewrite lift_bind. apply bind_run. intros v h1. rewrite lift_bind. unfold bind. rewrite IH. reflexivity.
Qed.
Lemma g_field_s m d f h : g_field (fun a b => lift (get_bits m d a b)) f h = lift (sshow_field m d f) h.
Proof.
  unfold g_field, sshow_field. cbv zeta. destruct (f_width f <=? 8)%nat.
  - rewrite lift_bind. reflexivity.
  - destruct (f_width f mod 8 =? 0)%nat; [apply g_octets_s|]. rewrite lift_bind. unfold bind at 1 3.
    rewrite g_octets_s. unfold lift at 1 3. destruct (sshow_octets m d (f_start f) (f_width f / 8)); auto.
    rewrite lift_bind. reflexivity.
Qed.
Lemma g_fields_s m d l h : g_fields (fun a b => lift (get_bits m d a b)) l h = lift (sshow_fields m d l) h.
Proof.
  revert h. induction l as [|f l IH]; intros h; cbn [g_fields sshow_fields]; [reflexivity|].
  rewrite lift_bind. unfold bind at 1 3. rewrite g_field_s. unfold lift at 1 3.
  destruct (sshow_field m d f); auto. rewrite lift_bind. unfold bind. rewrite IH. reflexivity.
Qed.
Lemma tells_sshow m x : tells (w_sshow m x) (lift (sshow m x)).
Proof.
  eapply tells_eq; [reflexivity| |apply tells_header]. intros h. unfold sshow. rewrite lift_bind.
  unfold bind. rewrite g_fields_s. reflexivity.
Qed.

Lemma tells_dump v x : tells (w_dump v x) (ret (dump_loop v x)).
Proof.
  revert x. induction v as [|b v IH]; intros x; cbn [w_dump dump_loop]; [apply tells_nil|]. cbv zeta.
  destruct (S x mod 16 =? 0)%nat.
  - eapply tells_eq; [reflexivity| |apply tells_seq; [apply tells_say|apply tells_seq; [apply tells_say|apply IH]]].
    intros h. unfold bind, ret. rewrite append_assoc. reflexivity.
  - eapply tells_eq; [reflexivity| |apply tells_seq; [apply tells_say|apply IH]].
    intros h. unfold bind, ret. rewrite append_assoc. reflexivity.
Qed.
Lemma tells_raw v : tells (w_show_raw v) (ret (show_raw v)).
Proof.
  eapply tells_eq; [reflexivity| |apply tells_seq; [apply tells_say|apply tells_seq; [apply tells_dump|apply tells_say]]].
  intros h. unfold bind, ret, show_raw. rewrite !append_assoc. reflexivity.
Qed.
Lemma tells_hdrs m l : tells (w_show_hdrs m l) (show_hdrs m l).
Proof.
  induction l as [|x l IH]; cbn [w_show_hdrs show_hdrs]; [apply tells_nil|].
  apply tells_seq; [apply tells_hshow|apply IH].
Qed.
Lemma tells_pkt m p : tells (w_pkt_show m p) (pkt_show m p).
Proof.
  unfold w_pkt_show, pkt_show.
  eapply tells_eq; [reflexivity| |apply tells_seq; [apply tells_hdrs|apply (tells_run (to_vec p)); intros v; apply tells_raw]].
  intros h. apply bind_run. intros s h1. unfold bind, ret. destruct (to_vec p h1) as [[a|f| | |] h']; auto.
Qed.
Lemma tells_shdrs m l : tells (w_show_shdrs m l) (lift (show_shdrs m l)).
Proof.
  induction l as [|x l IH]; cbn [w_show_shdrs show_shdrs]; [apply tells_nil|].
  eapply tells_eq; [reflexivity| |apply tells_seq; [apply tells_sshow|apply IH]].
  intros h. rewrite lift_bind. apply bind_run. intros a h1. rewrite lift_bind. reflexivity.
Qed.
Lemma tells_ps m q : tells (w_ps_show m q) (lift (ps_show m q)).
Proof.
  eapply tells_eq; [reflexivity| |apply tells_seq; [apply tells_shdrs|apply tells_raw]].
  intros h. unfold ps_show. rewrite lift_bind. reflexivity.
Qed.

(** [compare_with_slice] and [__getitem__]. *)
Lemma w_compare_run p b h : w_compare_with_slice p b h =
  match compare_text p b h with
  | (Ret (r, s), h') => (s, (Ret r, h'))
  | (Panic f, h') => (EmptyString, (Panic f, h'))
  | (UB, h') => (EmptyString, (UB, h'))
  | (Hang, h') => (EmptyString, (Hang, h'))
  | (Fuel, h') => (EmptyString, (Fuel, h'))
  end.
Proof.
  unfold w_compare_with_slice, compare_text, wbind, bind, say, run, ret.
  destruct (negb (pkt_len p =? length b)%nat); [rewrite append_nil_r; reflexivity|].
  destruct (to_vec p h) as [[a|f| | |] h']; auto. cbn [append].
  destruct (negb _ || negb _); [rewrite append_nil_r|]; reflexivity.
Qed.
Lemma er_compare_slice p b : er (w_compare_with_slice p b) (compare_with_slice p b).
Proof.
  unfold w_compare_with_slice, compare_with_slice. cbv zeta. destruct (negb (pkt_len p =? length b)%nat).
  - intros h. reflexivity.
  - apply er_bind; [apply er_run|intros a]. destruct (negb _ || negb _); intros h; reflexivity.
Qed.

(** The result of a call, with the text of [show] forgotten. *)
Definition forget (o : out kres) : out kres := match o with Ret (KText _) => Ret (KVal VUnit) | _ => o end.
Lemma tells_call w c h : tells w c ->
  snd ((wlet _ := w in run (ret (KVal VUnit))) h) =
  (forget (fst ((mlet s := c in ret (KText s)) h)), snd ((mlet s := c in ret (KText s)) h)).
Proof.
  intros H. destruct (H h) as [E _]. rewrite wbind_snd. unfold bind. rewrite E.
  destruct (c h) as [[a|f| | |] h']; reflexivity.
Qed.
Lemma er_call {A} (w : W A) c (f : A -> kres) h : er w c -> (forall a s, f a <> KText s) ->
  snd ((wlet a := w in run (ret (f a))) h) =
  (forget (fst ((mlet a := c in ret (f a)) h)), snd ((mlet a := c in ret (f a)) h)).
Proof.
  intros H N. rewrite wbind_snd. unfold bind. rewrite H. destruct (c h) as [[a|p| | |] h']; auto.
  cbn [run ret fst snd]. specialize (N a). destruct (f a); auto. elim (N s). reflexivity.
Qed.
Lemma forget_run {A} (c : M A) (f : A -> kres) h : (forall a s, f a <> KText s) ->
  (mlet a := c in ret (f a)) h = (forget (fst ((mlet a := c in ret (f a)) h)), snd ((mlet a := c in ret (f a)) h)).
Proof.
  intros N. unfold bind. destruct (c h) as [[a|p| | |] h']; auto.
  cbn [ret fst snd]. specialize (N a). destruct (f a); auto. elim (N s). reflexivity.
Qed.
Lemma w_call_er m ip6 k h : snd (w_call m ip6 k h) = (forget (fst (kexec m ip6 k h)), snd (kexec m ip6 k h)).
Proof.
  destruct k; cbn [w_call]; try (cbn [run snd]; cbn [kexec];
    first [ reflexivity | apply forget_run; intros [] ?; discriminate | apply forget_run; intros ? ?; discriminate ]).
  - apply tells_call. apply tells_hshow.
  - apply er_call; [apply er_hmake|discriminate].
  - unfold run. cbn [kexec snd]. destruct (get_header T p name); reflexivity.
  - apply er_call; [|discriminate]. apply er_bind; [apply er_run|intros b; apply er_compare_slice].
  - apply er_call; [apply er_compare_slice|discriminate].
  - apply tells_call. apply tells_pkt.
  - apply er_call; [apply er_mac|discriminate].
  - apply er_call; [apply er_ip4|discriminate].
  - apply er_call; [apply er_pmake|discriminate].
  - apply tells_call. apply tells_sshow.
  - apply tells_call. apply tells_ps.
  - rewrite wbind_snd. unfold bind. rewrite w_ip6_run. reflexivity.
  - cbn [run snd kexec lift fst]. destruct q; cbn [query_run]; try reflexivity. destruct (get_bits m (v_bytes (s_view x)) msb lsb); reflexivity.
Qed.

(** ** [show] that panics *)

Lemma label_ok f : label_text f (show_label f).
Proof.
  exists (fmt_num 10 (N.of_nat (f_width f))). split; [apply fmt_num_decimal|].
  unfold show_label, fmt_left, fmt_4, fmt_right. rewrite !chars_blanks, !append_assoc. reflexivity.
Qed.
Lemma title_ok T : show_title T = title_text T.
Proof. unfold show_title, show_heading, show_rule, title_text, fmt_left. rewrite chars_blanks, !append_assoc. reflexivity. Qed.

Section Cut.
Variables (br : nat -> nat -> M N) (m : mode) (d : list N) (h h' : heap).
Hypothesis Hd : bytes_ok d.
Hypothesis Hin : forall msb lsb, (msb < 8 * length d)%nat -> br msb lsb h = (get_bits m d msb lsb, h).
Hypothesis Hout : forall msb lsb, (lsb <= msb)%nat -> (8 * length d <= msb)%nat -> br msb lsb h = (Panic PIndex, h').

Lemma octets_in i n : (i + 8 * n <= 8 * length d)%nat -> w_show_octets br i n h = (hexes (octets d i n), (Ret tt, h)).
Proof.
  revert i. induction n as [|n IH]; intros i L; cbn [w_show_octets octets hexes]; [reflexivity|].
  unfold wbind, run, say. rewrite Hin, get_bits_octet by (auto; lia).
  rewrite IH by lia. cbn [append]. pose proof (rv_bound d i 8) as B. change (2 ^ N.of_nat 8) with 256 in B.
  rewrite u8_small, fmt_02x_hex2 by auto. rewrite append_assoc. reflexivity.
Qed.
Lemma octets_out i n : (8 * length d < i + 8 * n)%nat -> (n <> 0)%nat ->
  exists k, k = ((8 * length d - i) / 8)%nat /\
    w_show_octets br i n h = (hexes (octets d i k), (Panic PIndex, h')) /\ (k < n)%nat /\ (k = 0 \/ i + 8 * k <= 8 * length d)%nat.
Proof.
  revert i. induction n as [|n IH]; intros i L Hn; [congruence|]. cbn [w_show_octets].
  eexists. split; [reflexivity|]. unfold wbind, run, say.
  destruct (Nat.lt_ge_cases (i + 7) (8 * length d)) as [Lt|Ge].
  - rewrite Hin, get_bits_octet by (auto; lia).
    destruct (IH (i + 8)%nat) as (k & Ek & E & Kn & K2); [lia|lia|]. rewrite E.
    assert (Ek' : ((8 * length d - i) / 8 = S k)%nat).
    { replace (8 * length d - i)%nat with (8 * length d - (i + 8) + 1 * 8)%nat by lia. rewrite Nat.div_add by lia. lia. }
    rewrite Ek'. cbn [octets hexes append]. pose proof (rv_bound d i 8) as B. change (2 ^ N.of_nat 8) with 256 in B.
    rewrite u8_small, fmt_02x_hex2 by auto. rewrite append_assoc. split; [reflexivity|]. split; [lia|]. lia.
  - rewrite Hout by lia. assert (E0 : ((8 * length d - i) / 8 = 0)%nat) by (apply Nat.div_small; lia).
    rewrite E0. split; [reflexivity|]. split; lia.
Qed.
Lemma cut_octets f k : k = (if f_width f <=? 8 then 0 else Nat.min (f_width f / 8) ((8 * length d - f_start f) / 8))%nat ->
  (k = 0 \/ f_start f + 8 * k <= 8 * length d)%nat -> cut d f (hexes (octets d (f_start f) k)).
Proof.
  intros Ek L. exists (octets d (f_start f) k). split; [reflexivity|]. split; [apply octets_ok|].
  rewrite octets_length. split; [exact Ek|]. intros Hn. destruct k as [|k]; [elim Hn; reflexivity|].
  rewrite be_octets by (auto; lia). rewrite <- rv_bits_val by lia. f_equal. lia.
Qed.
Lemma field_out f : (f_start f <= f_end f)%nat -> (8 * length d <= f_end f)%nat ->
  exists value, cut d f value /\ w_show_field br f h = ((show_label f ++ value)%string, (Panic PIndex, h')).
Proof.
  intros L1 L2. unfold w_show_field. cbv zeta.
  assert (Ew : f_width f = (f_end f - f_start f + 1)%nat) by reflexivity. set (w := f_width f) in *.
  pose proof (Nat.div_mod w 8 ltac:(lia)) as Dm. pose proof (Nat.mod_upper_bound w 8 ltac:(lia)) as Mb.
  unfold wbind at 1, say at 1. destruct (Nat.leb_spec w 8) as [Lw|Lw].
  - exists EmptyString. split; [apply (cut_octets f 0); [|auto]; fold w; destruct (Nat.leb_spec w 8); lia|].
    unfold wbind, run. rewrite Hout by auto. reflexivity.
  - assert (Small : forall k, k = ((8 * length d - f_start f) / 8)%nat -> (k < w / 8)%nat ->
              k = (if w <=? 8 then 0 else Nat.min (w / 8) ((8 * length d - f_start f) / 8))%nat).
    { intros k Ek Kn. destruct (Nat.leb_spec w 8); lia. }
    destruct (Nat.eqb_spec (w mod 8) 0) as [R|R].
    + destruct (octets_out (f_start f) (w / 8)) as (k & Ek & E & Kn & K2); [lia|lia|].
      exists (hexes (octets d (f_start f) k)). split; [apply cut_octets; auto|].
      unfold wbind. rewrite E. reflexivity.
    + destruct (Nat.le_gt_cases (f_start f + 8 * (w / 8)) (8 * length d)) as [L|L].
      * exists (hexes (octets d (f_start f) (w / 8))). split.
        { apply cut_octets; [fold w|right; lia]. destruct (Nat.leb_spec w 8); [lia|].
          assert (w / 8 <= (8 * length d - f_start f) / 8)%nat; [|lia].
          rewrite <- (Nat.div_mul (w / 8) 8) at 1 by lia. apply Nat.div_le_mono; lia. }
        unfold wbind, run. rewrite octets_in by auto. rewrite Hout by lia. rewrite append_nil_r. reflexivity.
      * destruct (octets_out (f_start f) (w / 8)) as (k & Ek & E & Kn & K2); [lia|lia|].
        exists (hexes (octets d (f_start f) k)). split; [apply cut_octets; auto|].
        unfold wbind. rewrite E. reflexivity.
Qed.
Lemma field_in_run f : field_in f (length d) ->
  exists s, field_line d f s /\ w_show_field br f h = (s, (Ret tt, h)).
Proof.
  intros Hf. assert (G : g_field br f h = (sshow_field m d f, h)).
  { destruct Hf as [L1 L2]. unfold g_field, sshow_field. cbv zeta.
    assert (Ew : f_width f = (f_end f - f_start f + 1)%nat) by reflexivity. set (w := f_width f) in *.
    pose proof (Nat.div_mod w 8 ltac:(lia)) as Dm. pose proof (Nat.mod_upper_bound w 8 ltac:(lia)) as Mb.
    assert (O : forall n i, (i + 8 * n <= 8 * length d)%nat -> g_octets br i n h = (sshow_octets m d i n, h)).
    { induction n as [|n IH]; intros i L; cbn [g_octets sshow_octets]; [reflexivity|].
      unfold bind at 1. rewrite Hin by lia. destruct (get_bits m d (i + 7) i); cbn [obind]; auto.
      unfold bind. rewrite IH by lia. destruct (sshow_octets m d (i + 8) n); reflexivity. }
    destruct (w <=? 8)%nat.
    - unfold bind. rewrite Hin by auto. destruct (get_bits m d (f_end f) (f_start f)); reflexivity.
    - destruct (Nat.eqb_spec (w mod 8) 0); [apply O; lia|].
      unfold bind at 1. rewrite O by lia. destruct (sshow_octets m d (f_start f) (w / 8)); auto. cbn [obind].
      unfold bind. rewrite Hin by lia. destruct (get_bits m d (f_end f) (f_end f - w mod 8)); reflexivity. }
  destruct (sshow_fields_ok m d [f] Hd ltac:(repeat constructor; apply Hf)) as (lines & E & F).
  inversion F as [|? s ? ? Fl Fn]; subst. inversion Fn; subst. cbn [String.concat] in E. cbn [sshow_fields] in E.
  exists s. split; [exact Fl|].
  destruct (tells_field br f h) as [T1 T2]. unfold bind in T1, T2. rewrite G in T1, T2.
  destruct (sshow_field m d f) as [t|p| | |]; cbn [obind] in E; try discriminate.
  cbn [ret fst snd voids] in T1, T2. rewrite (surjective_pairing (w_show_field br f h)), T1, (T2 _ eq_refl).
  rewrite append_nil_r in E. injection E as E. rewrite E. reflexivity.
Qed.
Lemma fields_out l : Forall (fun f => (f_start f <= f_end f)%nat) l ->
  Exists (fun f => (8 * length d <= f_end f)%nat) l ->
  exists before f after lines value, l = before ++ f :: after /\
    Forall (fun g => field_in g (length d)) before /\ (8 * length d <= f_end f)%nat /\
    Forall2 (field_line d) before lines /\ cut d f value /\
    w_show_fields br l h = ((String.concat "" lines ++ show_label f ++ value)%string, (Panic PIndex, h')).
Proof.
  induction l as [|f l IH]; intros Hf He; [inversion He|]. apply Forall_cons_iff in Hf as [Hf Hl].
  destruct (Nat.le_gt_cases (8 * length d) (f_end f)) as [L|L].
  - destruct (field_out f Hf L) as (value & C & E). exists [], f, l, [], value.
    repeat split; auto. cbn [w_show_fields]. unfold wbind. rewrite E. reflexivity.
  - assert (Fi : field_in f (length d)) by (split; auto).
    destruct IH as (before & g & after & lines & value & -> & B1 & B2 & B3 & B4 & B5); auto.
    { inversion He; subst; auto. lia. }
    destruct (field_in_run f Fi) as (s & Fl & E). exists (f :: before), g, after, (s :: lines), value.
    repeat split; auto. cbn [w_show_fields]. unfold wbind. rewrite E, B5. rewrite concat_cons, append_assoc. reflexivity.
Qed.
Lemma header_out T : Forall (fun f => (f_start f <= f_end f)%nat) (ht_fields T) ->
  Exists (fun f => (8 * length d <= f_end f)%nat) (ht_fields T) ->
  exists s, cut_text T d s /\ w_show_header br T h = (s, (Panic PIndex, h')).
Proof.
  intros Hf He. destruct (fields_out _ Hf He) as (before & f & after & lines & value & E & B1 & B2 & B3 & B4 & B5).
  eexists. split.
  - exists before, f, after, lines, (show_label f), value. repeat split; auto using label_ok; apply B4.
  - rewrite header_title. unfold wbind, say. rewrite B5, title_ok. reflexivity.
Qed.
End Cut.
