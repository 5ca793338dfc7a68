(** DepthProofs.v -- lemmas for C95. *)

From Coq Require Import Lia.
From Verif Require Import Base Bits Types Layout Heap Packet Slow Fast Spec Grammar DepthSpec.
From Verif Require Import BitsProofs HeapProofs PacketProofs GrammarProofs SlowProofs FastProofs.
Open Scope N_scope.

(** ** The depth is a function of the bytes *)

Lemma nests_pos f b n : nests f b n -> (1 <= n)%nat.
Proof. destruct 1; lia. Qed.

Ltac same_head := match goal with
  | H : header_of ?f = Some ?T, H' : header_of ?f = Some ?T' |- _ =>
      assert (T' = T) by congruence; subst T'; clear H'
  end.

Lemma nests_fun f b n : nests f b n -> forall k, nests f b k -> n = k.
Proof.
  induction 1 as [b|b L|b n L W IH|f T b Hf L|f T x rest Hf Lx L|f T x os rest Hf Lx Lo D|f T x os rest g n Hf Lx Lo D W IH];
  intros k K.
  - inversion K; subst; auto; discriminate.
  - inversion K; subst; auto; try discriminate; lia.
  - inversion K; subst; try discriminate; try lia. f_equal. apply IH; auto.
  - inversion K; subst; auto; try discriminate. same_head. rewrite app_length in L. lia.
  - inversion K as [b E1 E2|b L' E1 E2|b n L' W' E1 E2|f' T' b Hf' L' E1 E2|f' T' x' rest' Hf' Lx' L' E1 E2
      |f' T' x' os' rest' Hf' Lx' Lo' D' E1 E2|f' T' x' os' rest' g' n' Hf' Lx' Lo' D' W' E1 E2]; subst; auto; try discriminate.
    same_head. destruct (app_inj_len _ _ _ _ E2) as [-> <-]; [congruence|]. rewrite app_length, concat_len, Lo' in L. lia.
  - inversion K as [b E1 E2|b L' E1 E2|b n L' W' E1 E2|f' T' b Hf' L' E1 E2|f' T' x' rest' Hf' Lx' L' E1 E2
      |f' T' x' os' rest' Hf' Lx' Lo' D' E1 E2|f' T' x' os' rest' g' n' Hf' Lx' Lo' D' W' E1 E2]; subst; auto; try discriminate.
    destruct (header_split _ _ _ _ _ _ _ _ _ Hf' Hf Lx' Lx Lo' Lo E2) as (-> & -> & -> & ->). congruence.
  - inversion K as [b E1 E2|b L' E1 E2|b n0 L' W' E1 E2|f' T' b Hf' L' E1 E2|f' T' x' rest' Hf' Lx' L' E1 E2
      |f' T' x' os' rest' Hf' Lx' Lo' D' E1 E2|f' T' x' os' rest' g' n' Hf' Lx' Lo' D' W' E1 E2]; subst; try discriminate.
    + same_head. rewrite app_length in L'. lia.
    + same_head. destruct (app_inj_len _ _ _ _ E2) as [-> ->]; [congruence|]. rewrite app_length, concat_len, Lo in L'. lia.
    + destruct (header_split _ _ _ _ _ _ _ _ _ Hf' Hf Lx' Lx Lo' Lo E2) as (-> & -> & -> & ->). congruence.
    + destruct (header_split _ _ _ _ _ _ _ _ _ Hf' Hf Lx' Lx Lo' Lo E2) as (-> & -> & -> & ->).
      assert (g' = g) by congruence. subst g'. f_equal. apply IH; auto.
Qed.

Lemma cut_here_nests f b e : cut_here f b e -> nests f b 1.
Proof. destruct 1; [eapply N_no_header|eapply N_no_options|eapply N_no_peek]; eauto. Qed.

Lemma optional_head f T : header_of f = Some T -> optional T = false.
Proof. destruct f; cbn [header_of]; intros H; try discriminate; assert (E : T = T) by auto; injection H as <-; reflexivity. Qed.
Lemma optional_options f x : Forall (fun T => optional T = true) (options f x).
Proof.
  destruct f; cbn [options]; auto.
  - destruct (bit x 0), (bit x 2), (bit x 3); repeat constructor.
  - destruct (bit x 95); repeat constructor.
Qed.

Definition solid (ts : list htype) : nat := length (filter (fun T => negb (optional T)) ts).
Lemma solid_app a b : solid (a ++ b) = (solid a + solid b)%nat.
Proof. unfold solid. rewrite filter_app, app_length. reflexivity. Qed.
Lemma solid_none l : Forall (fun T => optional T = true) l -> solid l = 0%nat.
Proof. induction 1 as [|T l E _ IH]; auto. unfold solid in *. cbn [filter]. rewrite E. exact IH. Qed.

Lemma wire_nests f b gs pl : wire f b gs pl -> nests f b (shown f (map fst (reported gs))).
Proof.
  induction 1 as [b|b gs pl L W IH|f T x os rest g gs pl Hf Lx Lo D W IH].
  - apply N_accept.
  - set (g := if _ <? _ then _ else _) in *.
    replace (shown F_parse (map fst (reported gs))) with (S (shown g (map fst (reported gs))))
      by (unfold g; destruct (_ <? _); reflexivity).
    apply N_parse; auto.
  - replace (shown f _) with (S (shown g (map fst (reported gs)))); [eapply N_header; eauto|].
    unfold reported. cbn [map concat rev app]. rewrite map_app.
    assert (Hg : g <> F_parse) by (eapply demux_parse; eauto).
    assert (Hf' : f <> F_parse) by (intros ->; discriminate).
    assert (A : forall f' ts, f' <> F_parse -> shown f' ts = S (solid ts)) by (intros [] ts H; try reflexivity; congruence).
    rewrite !A by auto. f_equal. cbn [map fst]. change (T :: ?l) with ([T] ++ l). rewrite !solid_app.
    assert (S1 : solid [T] = 1%nat) by (unfold solid; cbn [filter]; rewrite (optional_head f T Hf); reflexivity).
    assert (S2 : solid (map fst (rev (combine (options f x) os))) = 0%nat).
    { apply solid_none. rewrite map_rev, combine_fst by (eapply opts_len; eauto).
      apply Forall_rev, optional_options. }
    rewrite S1. unfold seg in *. rewrite S2. reflexivity.
Qed.

Lemma cut_nests f b e : cut_by f b e -> exists n, nests f b n.
Proof.
  induction 1 as [b L|b e L C [n IH]|f T b Hf L|f T x rest Hf Lx L|f T x os rest Hf Lx Lo D|f T x os rest g e Hf Lx Lo D C [n IH]].
  - exists 1%nat. apply N_no_type; auto.
  - exists (S n). apply N_parse; auto.
  - exists 1%nat. eapply N_no_header; eauto.
  - exists 1%nat. eapply N_no_options; eauto.
  - exists 1%nat. eapply N_no_peek; eauto.
  - exists (S n). eapply N_header; eauto.
Qed.

Lemma nests_total f b : bytes_ok b -> exists n, nests f b n.
Proof.
  intros Hb. destruct (slow_res_by Debug f b [] Hb) as [(gs & pl & hs & l & W & _)|(e & l & C & _)].
  - eexists. eapply wire_nests; eauto.
  - eapply cut_nests; eauto.
Qed.

(** ** The recursion bound is hit exactly when it is below the depth *)

Definition dres {A} (n : nat) (f : pfun) (b : list N) (r : out A) : Prop :=
  exists k, nests f b k /\ (r = Fuel <-> (n < k)%nat).

Lemma dres_1 {A} n f b (r : out A) : nests f b 1 -> r <> Fuel -> dres (S n) f b r.
Proof. intros K H. exists 1%nat. split; auto. split; [intros; contradiction|lia]. Qed.
Lemma dres_0 {A} f b : bytes_ok b -> dres 0 f b (@Fuel A).
Proof. intros Hb. destruct (nests_total f b Hb) as [k K]. exists k. split; auto. apply nests_pos in K. split; auto. Qed.
Lemma dres_step {A} n f T x os rest g (r r0 : out A) :
  header_of f = Some T -> length x = ht_size T ->
  map (@length N) os = map ht_size (options f x) -> demux f x rest = Some g ->
  dres n g rest r -> (r0 = Fuel <-> r = Fuel) -> dres (S n) f (x ++ concat os ++ rest) r0.
Proof.
  intros Hf Lx Lo D (k & K & E) E0. exists (S k). split; [eapply N_header; eauto|]. rewrite E0, E. lia.
Qed.
Lemma dres_parse {A} n b (r : out A) : (14 <= length b)%nat ->
  dres n (if be (sub b 12 2) <? 1500 then F_dot3 else F_ethernet) b r -> dres (S n) F_parse b r.
Proof. intros L (k & K & E). exists (S k). split; [apply N_parse; auto|]. rewrite E. lia. Qed.

Lemma parse_or f : f = F_parse \/ f <> F_parse.
Proof. destruct f; ((left; reflexivity) || (right; discriminate)). Qed.

Lemma slow_dres m n f b h : bytes_ok b -> dres n f b (fst (slow_fuel m n f b h)).
Proof.
  revert f b h; induction n as [|n IH]; intros f b h Hb; [apply dres_0; auto|]. cbn [slow_fuel].
  destruct (parse_or f) as [->|Hf].
  - cbn [slow_body]. unfold parse_body. destruct (le_lt_dec 14 (length b)) as [L|L].
    + unfold bind, lift. rewrite (index_lt b 12 0), (index_lt b 13 0) by lia.
      rewrite type_word by (apply bytes_ok_nth; auto).
      change [nth 12 b 0; nth 13 b 0] with [nth 12 b 0; nth (12 + 1) b 0].
      rewrite <- sub_bytes by lia. apply dres_parse; auto.
      destruct (be (sub b 12 2) <? 1500); apply IH; auto.
    + apply dres_1; [apply N_no_type; auto|]. unfold bind, lift. rewrite (index_ge b 13) by lia.
      destruct (le_lt_dec (length b) 12); [rewrite index_ge by lia|rewrite (index_lt b 12 0) by lia]; discriminate.
  - apply (s_body m _ b Hb (fun g r h o => dres n g r (fst o)) (fun g r h o => dres (S n) g r (fst o))); auto.
    + intros f' T x os rest g h0 l1 h1 xs b' r0 r Hf' Lx Lo D _ _ _ _ R -> ->. eapply dres_step; eauto.
      unfold wrap. destruct r as [[| | | |] ?]; cbn [fst]; split; congruence.
    + intros f' T x rest g h0 r Hf' Lx O D R. change (x ++ rest) with (x ++ concat [] ++ rest).
      eapply dres_step; eauto; [rewrite O; reflexivity|].
      unfold wrap_post. destruct r as [[| | | |] ?]; cbn [fst]; split; congruence.
    + intros f' b' h0 h1 l e C _. apply dres_1; [eapply cut_here_nests; eauto|discriminate].
    + intros b' h0. apply dres_1; [apply N_accept|discriminate].
Qed.

Lemma fast_dres m n f B off b : bytes_ok b -> win B off b -> dres n f b (fast_fuel m n f (View B off (length b))).
Proof.
  revert f off b; induction n as [|n IH]; intros f off b Hb Wb; [apply dres_0; auto|]. cbn [fast_fuel].
  destruct (parse_or f) as [->|Hf].
  - cbn [fast_body]. unfold fparse_body. rewrite !v_index_win by auto. destruct (le_lt_dec 14 (length b)) as [L|L].
    + rewrite (index_lt b 12 0), (index_lt b 13 0) by lia. cbn [obind].
      rewrite type_word by (apply bytes_ok_nth; auto).
      change [nth 12 b 0; nth 13 b 0] with [nth 12 b 0; nth (12 + 1) b 0].
      rewrite <- sub_bytes by lia. apply dres_parse; auto.
      destruct (be (sub b 12 2) <? 1500); apply IH; auto.
    + apply dres_1; [apply N_no_type; auto|]. rewrite (index_ge b 13) by lia.
      destruct (le_lt_dec (length b) 12); [rewrite index_ge by lia|rewrite (index_lt b 12 0) by lia]; discriminate.
  - apply (f_body m _ B b off Hb Wb (fun g B o r x => dres n g r x) (fun g B o r x => dres (S n) g r x)); auto.
    + intros f' T x os rest g B' o b' o' xs r0 r Hf' Lx Lo D -> _ _ R ->. eapply dres_step; eauto.
      unfold swrap. destruct r; split; congruence.
    + intros f' B' o b' e C. apply dres_1; [eapply cut_here_nests; eauto|discriminate].
    + intros B' o b'. apply dres_1; [apply N_accept|discriminate].
Qed.

(** ** Bounds *)

Lemma head_size f T : header_of f = Some T -> f <> F_llc -> (4 <= ht_size T)%nat.
Proof. destruct f; cbn [header_of]; intros H N; try discriminate; try congruence; injection H as <-; cbn; lia. Qed.

(** The three functions that only [parse] reaches. *)
Definition early (f : pfun) : bool := match f with F_parse | F_dot3 | F_llc => true | _ => false end.
Lemma entry_early t v : Forall (fun p => early (snd p) = false) t -> early (entry t v) = false.
Proof. induction 1 as [|[k f] t E _ IH]; [reflexivity|]. cbn [entry]. destruct (k =? v); auto. Qed.
Lemma demux_early f x rest g : demux f x rest = Some g -> f <> F_dot3 -> early g = false.
Proof.
  intros D Hf. destruct f; cbn [demux] in D; try discriminate; try congruence; try (destruct rest; [discriminate|]);
    repeat match type of D with Some (if ?b then _ else _) = _ => destruct b end;
    match type of D with Some ?X = Some _ => assert (EE : g = X) by congruence; rewrite EE end;
    first [reflexivity|apply entry_early; repeat constructor].
Qed.

Lemma nests_le f b n : nests f b n -> early f = false -> (4 * n <= length b + 4)%nat.
Proof.
  induction 1 as [b|b L|b n L W IH|f T b Hf L|f T x rest Hf Lx L|f T x os rest Hf Lx Lo D|f T x os rest g n Hf Lx Lo D W IH];
  intros E; try discriminate; try lia.
  assert (f <> F_llc /\ f <> F_dot3) as [N1 N2] by (split; intros ->; discriminate).
  pose proof (head_size f T Hf N1). specialize (IH (demux_early f x rest g D N2)). rewrite !app_length. lia.
Qed.

Lemma nests_le_llc b n : nests F_llc b n -> (n <= 3)%nat /\ (length b < 3 -> n = 1)%nat /\ (length b < 8 -> n <= 2)%nat.
Proof.
  intros K. inversion K as [|? L|? k L W|f T ? Hf L|f T x rest Hf Lx L|f T x os rest Hf Lx Lo D|f T x os rest g k Hf Lx Lo D W]; subst;
    try discriminate; try lia.
  injection Hf as <-. cbn [options map] in Lo. destruct os; [|discriminate]. cbn [concat app] in *. clear Lo.
  cbn [demux] in D. cbn in Lx. rewrite app_length, Lx. destruct (be x =? 0xAAAA03); injection D as <-.
  - inversion W as [|? L|? k' L W'|f T ? Hf L|f T y rs Hf Ly L|f T y os rs Hf Ly Lo D|f T y os rs g k' Hf Ly Lo D W']; subst;
      try discriminate; try lia.
    injection Hf as <-. cbn [options map] in Lo. destruct os; [|discriminate]. cbn [concat app] in *.
    cbn in Ly. injection D as <-. inversion W'; subst; try discriminate. rewrite app_length. lia.
  - inversion W; subst; try discriminate. lia.
Qed.

Lemma nests_le_dot3 b n : nests F_dot3 b n -> (14 <= length b)%nat ->
  (n <= 4)%nat /\ (length b < 17 -> n = 2)%nat /\ (length b < 22 -> n <= 3)%nat.
Proof.
  intros K L14. inversion K as [|? L|? k L W|f T ? Hf L|f T x rest Hf Lx L|f T x os rest Hf Lx Lo D|f T x os rest g k Hf Lx Lo D W]; subst;
    try discriminate.
  - injection Hf as <-. cbn in L. lia.
  - cbn in L. lia.
  - injection Hf as <-. cbn [options map] in Lo. destruct os; [|discriminate]. cbn [concat app] in *. clear Lo.
    injection D as <-. cbn in Lx. rewrite app_length, Lx. destruct (nests_le_llc _ _ W) as (A & B & C). lia.
Qed.

Lemma nests_le_ethernet b n : nests F_ethernet b n -> (14 <= length b)%nat -> (4 * n + 6 <= length b)%nat.
Proof.
  intros K L14. inversion K as [|? L|? k L W|f T ? Hf L|f T x rest Hf Lx L|f T x os rest Hf Lx Lo D|f T x os rest g k Hf Lx Lo D W]; subst;
    try discriminate.
  - injection Hf as <-. cbn in L. lia.
  - cbn in L. lia.
  - injection Hf as <-. cbn in Lx.
    assert (E : early g = false) by (eapply demux_early; eauto; discriminate).
    pose proof (nests_le _ _ _ W E). rewrite !app_length. lia.
Qed.

Lemma nests_worst b n : nests F_parse b n -> (n <= worst (length b))%nat.
Proof.
  intros K. unfold worst. inversion K as [|? L|? k L W|f T ? Hf L|f T x rest Hf Lx L|f T x os rest Hf Lx Lo D|f T x os rest g k Hf Lx Lo D W]; subst;
    try discriminate.
  - apply Nat.ltb_lt in L. rewrite L. lia.
  - destruct (Nat.ltb_spec (length b) 14); [lia|].
    assert (Q : (4 * (S k) + 2 <= length b \/ (length b = 17 /\ S k <= 4))%nat).
    { destruct (be (sub b 12 2) <? 1500).
      - destruct (nests_le_dot3 _ _ W L) as (A & B & C). lia.
      - pose proof (nests_le_ethernet _ _ W L). lia. }
    destruct (Nat.eqb_spec (length b) 17) as [E|E]; [lia|]. apply Nat.div_le_lower_bound; lia.
Qed.

Lemma nests_any f b n : nests f b n -> (4 * n <= length b + 5)%nat.
Proof.
  intros K. destruct (early f) eqn:E; [|pose proof (nests_le _ _ _ K E); lia].
  destruct f; try discriminate.
  - pose proof (nests_worst _ _ K) as H. unfold worst in H.
    destruct (Nat.ltb_spec (length b) 14); [lia|]. destruct (Nat.eqb_spec (length b) 17); [lia|].
    pose proof (Nat.mul_div_le (length b - 2) 4). lia.
  - destruct (le_lt_dec 14 (length b)) as [L|L].
    + destruct (nests_le_dot3 _ _ K L) as (A & B & C). lia.
    + assert (n = 1)%nat by (eapply nests_fun; [exact K|eapply N_no_header; [reflexivity|exact L]]). lia.
  - destruct (nests_le_llc _ _ K) as (A & B & C). lia.
Qed.

(** ** The worst case exists for every length *)

Definition vlan_stack (n : nat) (pad : list N) : list N := concat (repeat [0; 1; 0x81; 0] n) ++ pad.

Lemma vlan_stack_nests n pad : (length pad < 4)%nat -> nests F_vlan (vlan_stack n pad) (S n).
Proof.
  intros L. induction n as [|n IH].
  - eapply N_no_header; [reflexivity|exact L].
  - change (vlan_stack (S n) pad) with ([0; 1; 0x81; 0] ++ concat [] ++ vlan_stack n pad).
    eapply N_header; [reflexivity|reflexivity|reflexivity|reflexivity|exact IH].
Qed.
Lemma vlan_stack_length n pad : length (vlan_stack n pad) = (4 * n + length pad)%nat.
Proof. unfold vlan_stack. rewrite app_length. f_equal. induction n; auto. cbn [repeat concat]. rewrite app_length, IHn. cbn [length]. lia. Qed.
Lemma vlan_stack_ok n pad : bytes_ok pad -> bytes_ok (vlan_stack n pad).
Proof.
  intros H. unfold vlan_stack. apply bytes_ok_app. split; auto. induction n; [constructor|]. cbn [repeat concat].
  apply bytes_ok_app. split; auto. apply bytes_okb_ok. reflexivity.
Qed.
Lemma zeros_ok n : bytes_ok (repeat 0 n).
Proof. apply Forall_forall. intros x H. apply repeat_spec in H. subst. reflexivity. Qed.

Lemma worst_reached L : exists b, bytes_ok b /\ length b = L /\ nests F_parse b (worst L).
Proof.
  unfold worst. destruct (Nat.ltb_spec L 14) as [H|H].
  - exists (repeat 0 L). split; [apply zeros_ok|]. rewrite repeat_length. split; auto. apply N_no_type. rewrite repeat_length. auto.
  - destruct (Nat.eqb_spec L 17) as [->|N].
    + exists (repeat 0 17). split; [apply zeros_ok|]. split; [reflexivity|]. apply N_parse; [cbn; lia|].
      change (nests F_dot3 (repeat 0 14 ++ concat [] ++ [0; 0; 0]) 3).
      eapply N_header; [reflexivity|reflexivity|reflexivity|reflexivity|].
      change [0; 0; 0] with ([0; 0; 0] ++ concat [] ++ []).
      eapply N_header; [reflexivity|reflexivity|reflexivity|reflexivity|apply N_accept].
    + pose proof (Nat.div_mod_eq (L - 14) 4) as E. pose proof (Nat.mod_upper_bound (L - 14) 4 ltac:(lia)) as B.
      set (k := ((L - 14) / 4)%nat) in *. set (r := ((L - 14) mod 4)%nat) in *.
      set (e := repeat 0 12 ++ [0x81; 0]).
      exists (e ++ concat [] ++ vlan_stack k (repeat 0 r)). split; [|split].
      * apply bytes_ok_app. split; [apply bytes_okb_ok; reflexivity|]. apply vlan_stack_ok, zeros_ok.
      * rewrite !app_length, vlan_stack_length, repeat_length. change (length e) with 14%nat. cbn [concat length]. lia.
      * replace ((L - 2) / 4)%nat with (S (S (S k))).
        -- apply N_parse; [rewrite app_length; change (length e) with 14%nat; lia|].
           replace (sub _ 12 2) with [0x81; 0] by reflexivity. change (be [0x81; 0] <? 1500) with false. cbn iota.
           eapply N_header; [reflexivity|reflexivity|reflexivity|reflexivity|].
           apply vlan_stack_nests. rewrite repeat_length. auto.
        -- replace (L - 2)%nat with (r + (k + 3) * 4)%nat by lia. rewrite Nat.div_add by lia.
           rewrite (Nat.div_small r) by auto. lia.
Qed.
