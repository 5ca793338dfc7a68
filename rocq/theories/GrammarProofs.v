(** GrammarProofs.v -- the wire grammar is deterministic and total; fields as bytes. *)

From Coq Require Import Lia Permutation.
From Verif Require Import Base Layout Slow Spec Grammar BitsProofs.
Open Scope N_scope.

(** ** Fields as bytes *)

Lemma sub_length b i n : (i + n <= length b)%nat -> length (sub b i n) = n.
Proof. intros H. unfold sub. rewrite firstn_length, skipn_length. lia. Qed.

Lemma sub_split (b : list N) i n : b = firstn i b ++ sub b i n ++ skipn (i + n) b.
Proof.
  unfold sub. rewrite <- (firstn_skipn i b) at 1. f_equal.
  rewrite <- (firstn_skipn n (skipn i b)) at 1. f_equal. revert b; induction i; intros b; [reflexivity|].
  destruct b; [destruct n; reflexivity|]. simpl. apply IHi.
Qed.

Lemma sub_ok b i n : bytes_ok b -> bytes_ok (sub b i n).
Proof. intros. apply bytes_ok_firstn, bytes_ok_skipn; auto. Qed.

Lemma bits_val_sub d i n : bytes_ok d -> (i + n <= length d)%nat -> (0 < n)%nat ->
  bits_val d (8 * i) (8 * i + 8 * n - 1) = be (sub d i n).
Proof.
  intros Hd H Hn. unfold bits_val.
  replace (8 * length d - 1 - (8 * i + 8 * n - 1))%nat with (8 * (length d - (i + n)))%nat by lia.
  replace (8 * i + 8 * n - 1 - 8 * i + 1)%nat with (8 * n)%nat by lia.
  pose proof (sub_split d i n) as E.
  assert (Ls : length (skipn (i + n) d) = (length d - (i + n))%nat) by apply skipn_length.
  rewrite E at 1. rewrite app_assoc, be_app, Ls.
  assert (B2 : be (skipn (i + n) d) < 2 ^ N.of_nat (8 * (length d - (i + n)))).
  { rewrite <- Ls. apply be_bound, bytes_ok_skipn; auto. }
  rewrite N.div_add_l by (apply N.pow_nonzero; discriminate).
  rewrite (N.div_small (be (skipn _ _))) by auto. rewrite N.add_0_r, be_app, sub_length by auto.
  rewrite N.add_comm, N.mod_add by (apply N.pow_nonzero; discriminate).
  apply N.mod_small. rewrite <- (sub_length d i n H) at 2. apply be_bound, sub_ok; auto.
Qed.

Lemma bits_val_bit d i : bytes_ok d -> (i < 8 * length d)%nat -> bits_val d i i = b2n (bit d i).
Proof.
  intros Hd H. rewrite <- rv_bits_val by lia. replace (i - i + 1)%nat with 1%nat by lia.
  rewrite rv_S, rv_0 by (auto; lia). change (N.of_nat 0) with 0. rewrite N.pow_0_r. lia.
Qed.

Lemma be_sub_bound b i n : bytes_ok b -> (i + n <= length b)%nat -> be (sub b i n) < 2 ^ N.of_nat (8 * n).
Proof. intros Hb H. rewrite <- (sub_length b i n H) at 2. apply be_bound, sub_ok; auto. Qed.

Lemma be2 (a b : N) : be [a; b] = a * 256 + b.
Proof. unfold be. cbn [length]. change (N.of_nat 1) with 1. change (N.of_nat 0) with 0. rewrite N.pow_1_r, N.pow_0_r. lia. Qed.

(** ** Determinism *)

Lemma app_inj_len {A} (a a' b b' : list A) : a ++ b = a' ++ b' -> length a = length a' -> a = a' /\ b = b'.
Proof.
  revert a'; induction a as [|x a IH]; intros [|y a'] E L; try discriminate; auto.
  injection E as -> E. injection L as L. destruct (IH _ E L) as [-> ->]. auto.
Qed.

Lemma concat_inj_len {A} (os os' : list (list A)) r r' :
  map (@length A) os = map (@length A) os' -> concat os ++ r = concat os' ++ r' -> os = os' /\ r = r'.
Proof.
  revert os'; induction os as [|o os IH]; intros [|o' os'] L E; try discriminate; auto.
  cbn in L, E. injection L as L0 L. rewrite <- !app_assoc in E.
  destruct (app_inj_len _ _ _ _ E L0) as [-> E']. destruct (IH _ L E') as [-> ->]. auto.
Qed.

Lemma concat_len {A} (os : list (list A)) : length (concat os) = list_sum (map (@length A) os).
Proof. induction os; simpl; auto. rewrite app_length, IHos. reflexivity. Qed.

Lemma header_split f T T' x x' os os' rest rest' :
  header_of f = Some T -> header_of f = Some T' -> length x = ht_size T -> length x' = ht_size T' ->
  map (@length N) os = map ht_size (options f x) -> map (@length N) os' = map ht_size (options f x') ->
  x ++ concat os ++ rest = x' ++ concat os' ++ rest' -> T = T' /\ x = x' /\ os = os' /\ rest = rest'.
Proof.
  intros H H' L L' O O' E. assert (T = T') by congruence. subst T'.
  destruct (app_inj_len _ _ _ _ E) as [-> E']; [congruence|].
  destruct (concat_inj_len os os' rest rest') as [-> ->]; [congruence|auto|auto].
Qed.

Lemma wire_fun f b gs pl : wire f b gs pl -> forall gs' pl', wire f b gs' pl' -> gs = gs' /\ pl = pl'.
Proof.
  induction 1 as [b|b gs pl L W IH|f T x os rest g gs pl Hf Lx Lo D W IH]; intros gs' pl' W'.
  - inversion W'; subst; auto. discriminate.
  - inversion W'; subst; auto. discriminate.
  - inversion W' as [b' E1 E2|b' gs1 pl1 L1 W1 E1 E2|f' T' x' os' rest' g' gs1 pl1 Hf' Lx' Lo' D' W1 E1 E2]; subst; try discriminate.
    destruct (header_split _ _ _ _ _ _ _ _ _ Hf' Hf Lx' Lx Lo' Lo E2) as (-> & -> & -> & ->).
    assert (g' = g) by congruence. subst g'. destruct (IH _ _ W1) as [-> ->]. auto.
Qed.

Lemma wire_cut f b gs pl : wire f b gs pl -> ~ cut f b.
Proof.
  induction 1 as [b|b gs pl L W IH|f T x os rest g gs pl Hf Lx Lo D W IH]; intros C.
  - inversion C; subst; discriminate.
  - inversion C; subst; try discriminate; try lia; auto.
  - inversion C as [b E1 E2|b L C1 E1 E2|f' T' b Hf' L E1 E2|f' T' x' rest' Hf' Lx' L E1 E2
      |f' T' x' os' rest' Hf' Lx' Lo' D' E1 E2|f' T' x' os' rest' g' Hf' Lx' Lo' D' C1 E1 E2]; subst; try discriminate.
    + assert (T' = T) by congruence. subst. rewrite app_length in L. lia.
    + assert (T' = T) by congruence. subst. destruct (app_inj_len _ _ _ _ E2) as [-> ->]; [congruence|].
      rewrite app_length, concat_len, Lo in L. lia.
    + destruct (header_split _ _ _ _ _ _ _ _ _ Hf' Hf Lx' Lx Lo' Lo E2) as (-> & -> & -> & ->). congruence.
    + destruct (header_split _ _ _ _ _ _ _ _ _ Hf' Hf Lx' Lx Lo' Lo E2) as (-> & -> & -> & ->).
      assert (g' = g) by congruence. subst. auto.
Qed.

(** ** Shape of the result *)

Lemma combine_snd {A B} (l : list A) (l' : list B) : length l = length l' -> map snd (combine l l') = l'.
Proof. revert l'; induction l; destruct l'; simpl; intros H; try discriminate; auto. f_equal; auto. Qed.
Lemma combine_fst {A B} (l : list A) (l' : list B) : length l = length l' -> map fst (combine l l') = l.
Proof. revert l'; induction l; destruct l'; simpl; intros H; try discriminate; auto. f_equal; auto. Qed.

Lemma opts_len f x os : map (@length N) os = map ht_size (options f x) -> length (options f x) = length os.
Proof. intros H. apply (f_equal (@length nat)) in H. rewrite !map_length in H. auto. Qed.

Lemma seg_bytes_app a b : seg_bytes (a ++ b) = seg_bytes a ++ seg_bytes b.
Proof. unfold seg_bytes. rewrite map_app. apply concat_app. Qed.

(** The headers in wire order followed by the payload are the input. *)
Lemma wire_bytes f b gs pl : wire f b gs pl -> b = seg_bytes (concat gs) ++ pl.
Proof.
  induction 1 as [b|b gs pl L W IH|f T x os rest g gs pl Hf Lx Lo D W IH]; auto.
  cbn [concat]. rewrite !seg_bytes_app. unfold seg_bytes at 1 2. cbn [map snd concat].
  rewrite combine_snd by (eapply opts_len; eauto). rewrite app_nil_r, <- !app_assoc. do 2 f_equal. auto.
Qed.

(** Every reported header has its declared size. *)
Lemma wire_sizes f b gs pl : wire f b gs pl -> Forall (Forall (fun s : seg => length (snd s) = ht_size (fst s))) gs.
Proof.
  induction 1 as [b|b gs pl L W IH|f T x os rest g gs pl Hf Lx Lo D W IH]; auto.
  constructor; [constructor; auto|]. constructor; auto. clear -Lo. revert Lo.
  generalize (options f x) as l. induction os as [|o os IH]; intros [|T l] E; try discriminate; constructor.
  - injection E as E _. auto.
  - apply IH. injection E as _ E. auto.
Qed.

Lemma reported_perm gs : Permutation (reported gs) (concat gs).
Proof.
  induction gs as [|g gs IH]; [constructor|]. unfold reported. cbn [map concat].
  apply Permutation_app; [symmetry; apply Permutation_rev|apply IH].
Qed.

Lemma wire_nil_accept f b gs pl : wire f b gs pl -> gs = [] -> f = F_accept.
Proof.
  induction 1 as [b|b gs pl L W IH|f T x os rest g gs pl Hf Lx Lo D W IH]; auto; try discriminate.
  intros E. specialize (IH E). destruct (_ <? _) in IH; discriminate.
Qed.

(** A header without options. *)
Lemma wire_plain f T x rest g gs pl :
  header_of f = Some T -> length x = ht_size T -> options f x = [] ->
  demux f x rest = Some g -> wire g rest gs pl ->
  wire f (x ++ rest) ([(T, x)] :: [] :: gs) pl.
Proof.
  intros Hf Lx O D W. pose proof (W_header f T x [] rest g gs pl Hf Lx) as H. rewrite O in H. apply H; auto.
Qed.

(** A header with its options given. *)
Lemma wire_options f T x os ts rest g gs pl :
  header_of f = Some T -> length x = ht_size T -> options f x = ts ->
  map (@length N) os = map ht_size ts ->
  demux f x rest = Some g -> wire g rest gs pl ->
  wire f (x ++ concat os ++ rest) ([(T, x)] :: combine ts os :: gs) pl.
Proof. intros Hf Lx <- Lo D W. apply (W_header f T x os rest g); auto. Qed.

Lemma wire_plain_inv f T x rest gs pl :
  wire f (x ++ rest) gs pl -> header_of f = Some T -> length x = ht_size T -> options f x = [] ->
  exists g gs', demux f x rest = Some g /\ gs = [(T, x)] :: [] :: gs' /\ wire g rest gs' pl.
Proof.
  intros W Hf Lx O. remember (x ++ rest) as b eqn:E. destruct W as [b|b gs pl L W|f T' y os r g gs pl Hf' Ly Lo D W].
  - discriminate.
  - discriminate.
  - pose proof (header_split f T' T y x os [] r rest Hf' Hf Ly Lx Lo ltac:(rewrite O; reflexivity) E) as (-> & -> & -> & ->).
    rewrite O. eauto.
Qed.
