(** EditsProofs.v -- lemmas for C90. *)

From Coq Require Import Lia Permutation.
From Verif Require Import Base Bits Types Layout Heap Packet Ops Spec BitsProofs HeapProofs OpsProofs ClientSpec PanicSpec
  PanicProofs RemainsSpec RemainsProofs EditsSpec.
Open Scope N_scope.

(** The bytes of a buffer, none if there is no such buffer. *)
Definition data (h : heap) (r : nat) : list N := match nth_error h r with Some c => c_data c | None => [] end.
Lemma data_at h r d : bytes_at h r d -> data h r = d.
Proof. intros (p & H). unfold data. rewrite H. reflexivity. Qed.
Lemma data_ok h r : heap_ok h -> bytes_ok (data h r).
Proof.
  intros H. unfold data. destruct (nth_error h r) as [c|] eqn:E; [|constructor].
  unfold heap_ok in H. rewrite Forall_forall in H. apply H. eapply nth_error_In; eauto.
Qed.
Lemma heap_ok_data h : (forall r, bytes_ok (data h r)) -> heap_ok h.
Proof.
  intros H. apply Forall_forall. intros c I. apply In_nth_error in I as [r E]. specialize (H r). unfold data in H.
  rewrite E in H. exact H.
Qed.
Lemma data_upd h r d p q : (r < length h)%nat -> data (upd h r (Cell d p)) q = if (q =? r)%nat then d else data h q.
Proof.
  intros L. unfold data. destruct (Nat.eqb_spec q r) as [->|N].
  - rewrite nth_error_upd, Nat.eqb_refl. apply Nat.ltb_lt in L. rewrite L. reflexivity.
  - rewrite cell_at_upd_other; auto.
Qed.
Lemma data_app h d p q : data (h ++ [Cell d p]) q = if (q =? length h)%nat then d else data h q.
Proof.
  unfold data. destruct (Nat.eqb_spec q (length h)) as [->|N].
  - rewrite nth_error_app2, Nat.sub_diag by lia. reflexivity.
  - destruct (Nat.lt_ge_cases q (length h)) as [L|L]; [rewrite nth_error_app1 by auto; reflexivity|].
    rewrite (proj2 (nth_error_None h q)) by lia. rewrite (proj2 (nth_error_None (h ++ _) q)) by (rewrite app_length; simpl; lia). reflexivity.
Qed.
Lemma bit_nil j : bit [] j = false.
Proof. unfold bit. destruct (j / 8)%nat; apply N.bits_0. Qed.

(** ** Reads *)

Definition same_len {A} (x : M A) : Prop := forall h, length (snd (x h)) = length h.
Lemma sl_bind {A B} (x : M A) (k : A -> M B) : same_len x -> (forall a, same_len (k a)) -> same_len (bind x k).
Proof.
  intros X K h. specialize (X h). unfold bind. destruct (x h) as [[a|e| | |] h1]; cbn [snd] in *; auto. rewrite K. exact X.
Qed.
Lemma sl_id {A} (o : out A) : same_len (fun h => (o, h)).
Proof. intros h. reflexivity. Qed.
Lemma sl_lock {A} q (b : list N -> out A * list N) : same_len (with_lock q b).
Proof.
  intros h. unfold with_lock. destruct (nth_error h q) as [c|]; [|reflexivity]. destruct (c_poisoned c); [reflexivity|].
  destruct (b (c_data c)) as [[] ?]; apply upd_length.
Qed.
Lemma sl_get_loop r i k v : same_len (hget_loop r i k v).
Proof.
  revert i v. induction k as [|k IH]; intros i v; cbn [hget_loop]; [apply sl_id|]. cbv zeta.
  apply sl_bind; [apply sl_lock|]. intros; apply IH.
Qed.
Lemma sl_bit_range m x a b : same_len (hbit_range m x a b).
Proof. apply sl_bind; [apply sl_get_loop|intros; apply sl_id]. Qed.
Lemma sl_bytes m x a b : same_len (hbytes m x a b).
Proof.
  apply sl_bind; [apply sl_id|]. intros _. generalize b at 1 as i. generalize (step8_len a b) as k. clear.
  induction k as [|k IH]; intros i; cbn [hbytes_loop]; [apply sl_id|].
  apply sl_bind; [apply sl_bit_range|]. intros v. apply sl_bind; [apply IH|]. intros; apply sl_id.
Qed.

Lemma keepd_data {A} (x : M A) h r : keepd x -> same_len x -> data (snd (x h)) r = data h r.
Proof.
  intros K L. destruct (nth_error h r) as [[d p]|] eqn:E.
  - assert (B : bytes_at h r d) by (exists p; auto). rewrite (data_at _ _ _ B). apply data_at. apply K. exact B.
  - unfold data. rewrite E. apply nth_error_None in E. rewrite <- (L h) in E. apply nth_error_None in E. rewrite E. reflexivity.
Qed.

(** ** Writes *)

(** A buffer becomes another: the effect of one call that returned. *)
Lemma set_bits_ret h x msb lsb v u h' : heap_ok h -> hset_bit_range x msb lsb v h = (Ret u, h') ->
  (msb < lsb)%nat /\ h' = h \/
  exists d, cell_at h (h_ref x) d /\ bytes_ok d /\ (lsb <= msb)%nat /\ (msb < 8 * length d)%nat /\
    h' = upd h (h_ref x) (Cell (wbits d lsb (msb - lsb + 1) v) false).
Proof.
  intros Hh E. destruct (Nat.lt_ge_cases msb lsb) as [L|L].
  { rewrite hset_bit_range_rev in E by auto. injection E as _ <-. auto. }
  destruct (nth_error h (h_ref x)) as [[d [|]]|] eqn:C.
  - rewrite hset_bit_range_dead in E by (auto; exists d; auto). discriminate E.
  - assert (Hd : bytes_ok d) by (eapply heap_ok_cell; eauto).
    destruct (Nat.le_gt_cases (8 * length d) msb) as [O|I].
    + rewrite (hset_bit_range_oob x h d) in E by auto. discriminate E.
    + rewrite (hset_bit_range_in x h d) in E by auto. injection E as _ <-. right. exists d. auto 7.
  - unfold hset_bit_range, range_len in E. replace (S msb - lsb)%nat with (S (msb - lsb)) in E by lia.
    cbn [hset_loop] in E. unfold bind, with_lock in E. rewrite C in E. discriminate E.
Qed.
Lemma set_bits_fail h x msb lsb v o h' r : heap_ok h -> hset_bit_range x msb lsb v h = (o, h') -> returned o = false ->
  length h' = length h /\ data h' r = data h r.
Proof.
  intros Hh E R. destruct (Nat.lt_ge_cases msb lsb) as [L|L].
  { rewrite hset_bit_range_rev in E by auto. injection E as <- <-. discriminate R. }
  destruct (nth_error h (h_ref x)) as [[d [|]]|] eqn:C.
  - rewrite hset_bit_range_dead in E by (auto; exists d; auto). injection E as _ <-. auto.
  - assert (Hd : bytes_ok d) by (eapply heap_ok_cell; eauto).
    destruct (Nat.le_gt_cases (8 * length d) msb) as [O|I].
    + rewrite (hset_bit_range_oob x h d) in E by auto. injection E as _ <-. split; [apply upd_length|].
      rewrite data_upd by (apply nth_error_Some; rewrite C; discriminate).
      destruct (Nat.eqb_spec r (h_ref x)) as [->|]; auto. unfold data. rewrite C. reflexivity.
    + rewrite (hset_bit_range_in x h d) in E by auto. injection E as <- _. discriminate R.
  - unfold hset_bit_range, range_len in E. replace (S msb - lsb)%nat with (S (msb - lsb)) in E by lia.
    cbn [hset_loop] in E. unfold bind, with_lock in E. rewrite C in E. injection E as _ <-. auto.
Qed.

Lemma bit_woctets_in vs : forall d i j, (i + 8 * length vs <= 8 * length d)%nat -> (i <= j < i + 8 * length vs)%nat ->
  bit (woctets d i vs) j = bit vs (j - i).
Proof.
  induction vs as [|v t IH]; intros d i j L J; cbn [length woctets] in *; [lia|].
  destruct (Nat.lt_ge_cases j (i + 8)) as [B|B].
  - rewrite bit_woctets_out; [|rewrite (wbits_length d i 8); lia|lia].
    rewrite bit_wbits by lia. destruct (Nat.leb_spec i j); [|lia]. destruct (Nat.ltb_spec j (i + 8)); [|lia]. cbn [andb].
    unfold bit. rewrite (Nat.div_small (j - i)), (Nat.mod_small (j - i)) by lia. cbn [nth]. do 2 f_equal. lia.
  - rewrite IH; [|rewrite (wbits_length d i 8); lia|lia].
    unfold bit. replace (j - i)%nat with (j - (i + 8) + 1 * 8)%nat by lia.
    rewrite Nat.div_add, Nat.mod_add by lia. rewrite Nat.add_1_r. reflexivity.
Qed.

Lemma set_bytes_ret m h x msb lsb v u h' : heap_ok h -> hset_bytes m x msb lsb v h = (Ret u, h') ->
  (msb < lsb)%nat /\ h' = h \/
  exists d, cell_at h (h_ref x) d /\ bytes_ok d /\ (lsb <= msb)%nat /\ (msb < 8 * length d)%nat /\
    (8 * length v = msb - lsb + 1)%nat /\ h' = upd h (h_ref x) (Cell (woctets d lsb v) false).
Proof.
  intros Hh E. unfold hset_bytes, bind at 1, lift in E.
  destruct (set_bytes_guard_cases m v msb lsb) as [(G & _ & W)|(e0 & G & _)]; rewrite G in E; [|discriminate E].
  destruct W as [R|[(Wd & -> & ->)|(NW & R & W)]].
  - left. split; auto. unfold step8_len, range_len in E. replace (S msb - lsb)%nat with O in E by lia.
    change ((0 + 7) / 8)%nat with O in E. cbn [hset_bytes_loop ret] in E. injection E as _ <-. reflexivity.
  - exfalso. unfold step8_len in E. assert (S8 : exists n, ((range_len msb lsb + 7) / 8 = S n)%nat).
    { destruct Wd as [_ ->]. unfold range_len. replace (S msb - 0 + 7)%nat with (msb + 1 * 8)%nat by lia.
      rewrite Nat.div_add by lia. exists (msb / 8)%nat. lia. }
    destruct S8 as [n S8]. rewrite S8 in E. cbn [hset_bytes_loop] in E. unfold bind at 1, lift in E. cbn [index nth_error] in E. discriminate E.
  - right. assert (Nv : v <> []) by (intros ->; cbn [length] in W; lia).
    unfold step8_len, range_len in E. replace (S msb - lsb)%nat with (msb - lsb + 1)%nat in E by lia.
    assert (W8 : ((msb - lsb + 1) mod 8 = 0)%nat) by (rewrite <- W, Nat.mul_comm; apply Nat.mod_mul; lia).
    destruct (mod8_len _ W8) as [M8 W8']. rewrite M8 in E. replace ((msb - lsb + 1) / 8)%nat with (length v) in E by lia.
    destruct (nth_error h (h_ref x)) as [[d [|]]|] eqn:C.
    + exfalso. destruct (length v) as [|n] eqn:En; [lia|]. cbn [hset_bytes_loop] in E. unfold lift, bind at 1 in E.
      rewrite (index_lt v 0 0) in E by lia. unfold bind at 1 in E.
      rewrite hset_bit_range_dead in E by (try lia; exists d; auto). discriminate E.
    + assert (Hb : bytes_ok d) by (eapply heap_ok_cell; eauto).
      destruct (Nat.le_gt_cases (8 * length d) msb) as [O|I].
      * exfalso. destruct (hset_bytes_loop_cases x h d lsb (length v) v 0 C Hb ltac:(lia)) as [_ B].
        destruct (B ltac:(lia) ltac:(lia)) as [d' E']. rewrite E' in E. discriminate E.
      * exists d. rewrite (hset_bytes_loop_in x h d lsb v v 0 C Hb) in E by (auto; lia). injection E as _ <-. auto 8.
    + exfalso. destruct (length v) as [|n] eqn:En; [lia|]. cbn [hset_bytes_loop] in E. unfold lift, bind at 1 in E.
      rewrite (index_lt v 0 0) in E by lia. unfold bind, hset_bit_range, range_len in E.
      replace (S (lsb + 7) - lsb)%nat with 8%nat in E by lia. cbn [hset_loop] in E. unfold bind, with_lock in E. rewrite C in E. discriminate E.
Qed.

(** ** One call *)



Lemma wrap {A} (x : M A) (k : A -> val) h r h' : (mlet v := x in ret (k v)) h = (r, h') ->
  exists o, x h = (o, h') /\ returned o = returned r.
Proof.
  unfold bind. destruct (x h) as [[a|e| | |] h1]; intros E; injection E as <- <-; eexists; split; reflexivity.
Qed.

(** The buffers after a call, in terms of those before. *)
Lemma one_call m o h r h' : heap_ok h -> hop_typed o -> hexec m o h = (r, h') ->
  (can_tear o = true -> returned r = true) ->
  heap_ok h' /\ length h' = (length h + born [(o, returned r)])%nat /\
  forall q, length (data h' q) = size h [(o, returned r)] q /\ forall j, bit (data h' q) j = now h [(o, returned r)] q j.
Proof.
  intros Hh Ht E Tear.
  assert (B0 : forall q j, match nth_error h q with Some c => bit (c_data c) j | None => false end = bit (data h q) j).
  { intros q j. unfold data. destruct (nth_error h q); auto. rewrite bit_nil. reflexivity. }
  assert (S0 : forall q, match nth_error h q with Some c => length (c_data c) | None => O end = length (data h q)).
  { intros q. unfold data. destruct (nth_error h q); auto. }
  assert (Keep : forall A (x : M A), keepd x -> same_len x -> snd (x h) = h' -> born [(o, returned r)] = O ->
    (forall q, size h [(o, returned r)] q = length (data h q)) ->
    (forall q j, now h [(o, returned r)] q j = bit (data h q) j) ->
    heap_ok h' /\ length h' = (length h + born [(o, returned r)])%nat /\
    forall q, length (data h' q) = size h [(o, returned r)] q /\ forall j, bit (data h' q) j = now h [(o, returned r)] q j).
  { intros A x K L <- Bo Si No. assert (D : forall q, data (snd (x h)) q = data h q) by (intros; apply keepd_data; auto).
    split; [apply heap_ok_data; intros q; rewrite D; apply data_ok; auto|]. split; [rewrite L, Bo; lia|].
    intros q. rewrite D, Si. split; [reflexivity|]. intros j. rewrite No. reflexivity. }
  assert (Fresh : forall d, bytes_ok d -> h' = h ++ [Cell d false] ->
    heap_ok h' /\ length h' = S (length h) /\
    forall q, length (data h' q) = (if (q =? length h)%nat then length d else length (data h q)) /\
      forall j, bit (data h' q) j = if (q =? length h)%nat then bit d j else bit (data h q) j).
  { intros d Hd ->. split; [apply Forall_app; split; [exact Hh|exact (Forall_cons (Cell d false) Hd (Forall_nil _))]|].
    split; [rewrite app_length; simpl; lia|]. intros q. rewrite data_app. destruct (q =? length h)%nat; auto. }
  (* a returned write of a range *)
  assert (Wr : forall x lsb msb d d', cell_at h (h_ref x) d -> bytes_ok d' -> length d' = length d ->
    h' = upd h (h_ref x) (Cell d' false) -> forall f : nat -> bool,
    (forall j, bit d' j = if inside lsb msb j then f j else bit d j) ->
    heap_ok h' /\ length h' = length h /\
    forall q, length (data h' q) = length (data h q) /\
      forall j, bit (data h' q) j = if (q =? h_ref x)%nat && inside lsb msb j then f j else bit (data h q) j).
  { intros x lsb msb d d' C Hd' L -> f F.
    assert (Lr : (h_ref x < length h)%nat) by (apply nth_error_Some; unfold cell_at in C; rewrite C; discriminate).
    assert (Dx : data h (h_ref x) = d) by (unfold data; rewrite C; reflexivity).
    split.
    { apply heap_ok_data. intros q. rewrite data_upd by auto. destruct (q =? h_ref x)%nat; auto. apply data_ok; auto. }
    split; [apply upd_length|]. intros q. rewrite data_upd by auto. destruct (Nat.eqb_spec q (h_ref x)) as [->|]; cbn [andb]; auto.
    rewrite Dx. split; auto. }
  assert (None_ : forall lsb msb (q : nat) x (f : bool) j, (msb < lsb)%nat ->
    (if (q =? h_ref x)%nat && inside lsb msb j then f else bit (data h q) j) = bit (data h q) j).
  { intros lsb msb q x f j L. unfold inside. destruct (Nat.leb_spec lsb j); destruct (Nat.leb_spec j msb); try lia;
      cbn [andb]; rewrite ?andb_false_r; reflexivity. }
  assert (Range : forall msb lsb v (x : hdr) r0, hset_bit_range x msb lsb v h = (r0, h') -> returned r0 = returned r ->
    heap_ok h' /\ length h' = length h /\
    forall q, length (data h' q) = length (data h q) /\
      forall j, bit (data h' q) j =
        if returned r then if (q =? h_ref x)%nat && inside lsb msb j then N.testbit v (N.of_nat (msb - j)) else bit (data h q) j
        else bit (data h q) j).
  { intros msb lsb v x r0 E0 R0. destruct (returned r) eqn:Rr.
    - destruct r0 as [u| | | |]; try discriminate R0. destruct (set_bits_ret _ _ _ _ _ _ _ Hh E0) as [[L ->]|(d & C & Hd & L1 & L2 & Eh)].
      + split; auto. split; auto. intros q. split; auto. intros j. rewrite None_; auto.
      + apply (Wr x lsb msb d (wbits d lsb (msb - lsb + 1) v)); auto; [apply wbits_ok; auto|apply wbits_length|].
        intros j. rewrite bit_wbits by lia. unfold inside. destruct (Nat.leb_spec lsb j); cbn [andb]; auto.
        destruct (Nat.ltb_spec j (lsb + (msb - lsb + 1))); destruct (Nat.leb_spec j msb); try lia; auto.
        do 2 f_equal. lia.
    - pose proof (fun q => set_bits_fail h x msb lsb v r0 h' q Hh E0 R0) as K. split.
      { apply heap_ok_data. intros q. destruct (K q) as [_ ->]. apply data_ok; auto. }
      split; [apply (K O)|]. intros q. destruct (K q) as [_ ->]. auto. }
  destruct o as [T|T d|x|x f|x f v|x msb lsb|x msb lsb v|x msb lsb|x msb lsb v|x y|x]; cbn [hexec hop_typed can_tear] in *.
  - unfold bind, hnew, alloc, ret in E. cbn in E. injection E as <- <-. cbn [returned born size now].
    destruct (Fresh (ht_default T) Ht eq_refl) as (A & B & C). split; auto. split; [rewrite B; lia|]. rewrite Nat.add_0_r.
    intros q. rewrite S0. destruct (C q) as [C1 C2]. split; auto. intros j. rewrite B0. apply C2.
  - unfold bind, hfrom, alloc, ret in E. cbn in E. injection E as <- <-. cbn [returned born size now].
    destruct (Fresh d Ht eq_refl) as (A & B & C). split; auto. split; [rewrite B; lia|]. rewrite Nat.add_0_r.
    intros q. rewrite S0. destruct (C q) as [C1 C2]. split; auto. intros j. rewrite B0. apply C2.
  - apply wrap in E as (o & E & R). apply (Keep _ (hclone x)); [apply keepd_ret|intros ?; reflexivity|rewrite E; auto| | |];
      intros; destruct (returned r); cbn; auto.
  - apply wrap in E as (o & E & R). apply (Keep _ (hget m x f)); [apply keepd_bit_range|apply sl_bit_range|rewrite E; auto| | |];
      intros; destruct (returned r); cbn; auto.
  - apply wrap in E as (o & E & R). destruct (Range _ _ _ _ _ E R) as (A & B & C). split; auto.
    split; [rewrite B; destruct (returned r); cbn; lia|]. intros q. destruct (C q) as [C1 C2]. rewrite C1. split.
    + destruct (returned r); cbn; auto.
    + intros j. rewrite C2. destruct (returned r); cbn [now]; rewrite B0; reflexivity.
  - apply wrap in E as (o & E & R). apply (Keep _ (hbit_range m x msb lsb)); [apply keepd_bit_range|apply sl_bit_range|rewrite E; auto| | |];
      intros; destruct (returned r); cbn; auto.
  - apply wrap in E as (o & E & R). destruct (Range _ _ _ _ _ E R) as (A & B & C). split; auto.
    split; [rewrite B; destruct (returned r); cbn; lia|]. intros q. destruct (C q) as [C1 C2]. rewrite C1. split.
    + destruct (returned r); cbn; auto.
    + intros j. rewrite C2. destruct (returned r); cbn [now]; rewrite B0; reflexivity.
  - apply wrap in E as (o & E & R). apply (Keep _ (hbytes m x msb lsb)); [apply keepd_hbytes|apply sl_bytes|rewrite E; auto| | |];
      intros; destruct (returned r); cbn; auto.
  - rewrite (Tear eq_refl). apply wrap in E as (o & E & R). rewrite (Tear eq_refl) in R. destruct o as [u| | | |]; try discriminate R.
    cbn [born size now].
    destruct (set_bytes_ret _ _ _ _ _ _ _ _ Hh E) as [[L ->]|(d & C & Hd & L1 & L2 & L3 & Eh)].
    + split; auto. split; [lia|]. intros q. rewrite S0. split; auto. intros j. rewrite B0, None_; auto.
    + destruct (Wr x lsb msb d (woctets d lsb v) C) with (f := fun j => bit v (j - lsb)) as (A & B & D); auto.
      * revert Hd. clear. revert d lsb. induction v as [|a v IH]; intros d lsb Hd; cbn [woctets]; auto. apply IH. apply wbits_ok; auto.
      * apply woctets_length.
      * intros j. unfold inside. destruct (Nat.leb_spec lsb j); cbn [andb]; [destruct (Nat.leb_spec j msb)|].
        -- apply bit_woctets_in; lia.
        -- apply bit_woctets_out; lia.
        -- apply bit_woctets_out; lia.
      * split; auto. split; [rewrite B; lia|]. intros q. rewrite S0. destruct (D q) as [D1 D2]. split; auto. intros j. rewrite B0. apply D2.
  - rewrite (Tear eq_refl). apply wrap in E as (o & E & R). rewrite (Tear eq_refl) in R. destruct o as [u| | | |]; try discriminate R.
    cbn [born size now]. unfold hreplace in E.
    destruct (nth_error h (h_ref x)) as [cx|] eqn:Cx; [|discriminate E]. destruct (nth_error h (h_ref y)) as [cy|] eqn:Cy; [|discriminate E].
    destruct (c_poisoned cx); [discriminate E|]. destruct (Nat.eqb_spec (h_ref x) (h_ref y)) as [|N]; [discriminate E|].
    destruct (c_poisoned cy); [discriminate E|]. injection E as _ <-. cbn [app].
    assert (Lx : (h_ref x < length h)%nat) by (apply nth_error_Some; rewrite Cx; discriminate).
    assert (Dy : data h (h_ref y) = c_data cy) by (unfold data; rewrite Cy; reflexivity).
    split.
    { apply heap_ok_data. intros q. rewrite data_upd by auto. destruct (q =? h_ref x)%nat; [rewrite <- Dy|]; apply data_ok; auto. }
    split; [rewrite upd_length; lia|]. intros q. rewrite data_upd by auto. rewrite S0. destruct (Nat.eqb_spec q (h_ref x)) as [->|].
    + rewrite Dy. split; auto. intros j. rewrite B0, Dy. reflexivity.
    + split; [reflexivity|]. intros j. rewrite B0. reflexivity.
  - apply wrap in E as (o & E & R). apply (Keep _ (hto_vec x)); [apply keepd_hto_vec|apply sl_lock|rewrite E; auto| | |];
      intros; destruct (returned r); cbn; auto.
Qed.

(** ** Any history *)

Lemma hrun_length m os : forall h, length (fst (hrun m os h)) = length os.
Proof.
  induction os as [|o t IH]; intros h; [reflexivity|]. cbn [hrun]. destruct (hexec m o h) as [r h1]. specialize (IH h1).
  destruct (hrun m t h1) as [rs h2]. cbn [fst length] in *. congruence.
Qed.
Lemma hrun_snoc m os o : forall h rs h', hrun m (os ++ [o]) h = (rs, h') ->
  exists rs0 h0 r, hrun m os h = (rs0, h0) /\ hexec m o h0 = (r, h') /\ rs = rs0 ++ [r].
Proof.
  induction os as [|a t IH]; intros h rs h' E; cbn [hrun app] in *.
  - destruct (hexec m o h) as [r h1] eqn:X. injection E as <- <-. exists [], h, r. auto.
  - destruct (hexec m a h) as [r h1]. destruct (hrun m (t ++ [o]) h1) as [rs1 h2] eqn:Y. injection E as <- <-.
    destruct (IH _ _ _ Y) as (rs0 & h0 & r' & A & B & ->). rewrite A. exists (r :: rs0), h0, r'. auto.
Qed.
Lemma history_snoc os rs o r : length os = length rs -> history (os ++ [o]) (rs ++ [r]) = (o, returned r) :: history os rs.
Proof.
  intros L. unfold history. rewrite map_app. cbn [map].
  assert (C : forall (a : list hop) (b : list bool) x y, length a = length b -> combine (a ++ [x]) (b ++ [y]) = combine a b ++ [(x, y)]).
  { induction a as [|u a IH]; intros [|w b] x y E; cbn in *; try discriminate E; auto. rewrite IH by lia. reflexivity. }
  rewrite C by (rewrite map_length; auto). rewrite rev_app_distr. reflexivity.
Qed.
Lemma untorn_snoc os rs o r : length os = length rs -> untorn (os ++ [o]) (rs ++ [r]) ->
  untorn os rs /\ (can_tear o = true -> returned r = true).
Proof.
  intros L. unfold untorn.
  assert (C : forall (a : list hop) (b : list (out val)) x y, length a = length b -> combine (a ++ [x]) (b ++ [y]) = combine a b ++ [(x, y)]).
  { induction a as [|u a IH]; intros [|w b] x y E; cbn in *; try discriminate E; auto. rewrite IH by lia. reflexivity. }
  rewrite C by auto. intros F. apply Forall_app in F as [F G]. split; auto. inversion G; auto.
Qed.

(** The history before, then one call. *)
Lemma step_now h h0 past o b q : length h0 = (length h + born past)%nat ->
  (forall r, length (data h0 r) = size h past r /\ forall j, bit (data h0 r) j = now h past r j) ->
  size h0 [(o, b)] q = size h ((o, b) :: past) q /\ forall j, now h0 [(o, b)] q j = now h ((o, b) :: past) q j.
Proof.
  intros L D.
  assert (B0 : forall r j, match nth_error h0 r with Some c => bit (c_data c) j | None => false end = now h past r j).
  { intros r j. destruct (D r) as [_ <-]. unfold data. destruct (nth_error h0 r); auto. rewrite bit_nil. reflexivity. }
  assert (S0 : forall r, match nth_error h0 r with Some c => length (c_data c) | None => O end = size h past r).
  { intros r. destruct (D r) as [<- _]. unfold data. destruct (nth_error h0 r); auto. }
  destruct b, o; cbn [size now born]; rewrite ?S0, ?L, ?Nat.add_0_r; (split; [reflexivity|]); intros j; rewrite ?B0; reflexivity.
Qed.

Lemma all_now m : forall os h rs h', heap_ok h -> Forall hop_typed os -> hrun m os h = (rs, h') -> untorn os rs ->
  heap_ok h' /\ length h' = (length h + born (history os rs))%nat /\
  forall q, length (data h' q) = size h (history os rs) q /\ forall j, bit (data h' q) j = now h (history os rs) q j.
Proof.
  induction os as [|o os IH] using rev_ind; intros h rs h' Hh Ht E U.
  - cbn in E. injection E as <- <-. cbn [history combine map rev born size now]. split; auto. split; [lia|].
    intros q. unfold data. destruct (nth_error h q); auto. split; auto. intros j. apply bit_nil.
  - apply hrun_snoc in E as (rs0 & h0 & r & E & X & ->).
    assert (L : length os = length rs0) by (pose proof (hrun_length m os h) as H; rewrite E in H; auto).
    apply Forall_app in Ht as [Ht To]. apply untorn_snoc in U as [U Te]; auto.
    destruct (IH _ _ _ Hh Ht E U) as (A & B & C). rewrite history_snoc by auto.
    destruct (one_call m o h0 r h' A (Forall_inv To) X Te) as (A' & B' & C'). split; auto. split.
    + rewrite B', B. destruct o, (returned r); cbn [born]; lia.
    + intros q. destruct (step_now h h0 (history os rs0) o (returned r) q B C) as [S1 S2]. destruct (C' q) as [C1 C2].
      rewrite C1. split; auto. intros j. rewrite C2. apply S2.
Qed.

(** ** Calls that fail halfway *)

Definition keeps_ok {A} (x : M A) : Prop := forall h, heap_ok h -> heap_ok (snd (x h)).
Lemma keeps_set_bits x msb lsb v : keeps_ok (hset_bit_range x msb lsb v).
Proof.
  intros h Hh. destruct (hset_bit_range x msb lsb v h) as [r h'] eqn:E. cbn [snd]. destruct (returned r) eqn:R.
  - destruct r as [u| | | |]; try discriminate R. destruct (set_bits_ret _ _ _ _ _ _ _ Hh E) as [[_ ->]|(d & C & Hd & _ & _ & ->)]; auto.
    assert (Lr : (h_ref x < length h)%nat) by (apply nth_error_Some; unfold cell_at in C; rewrite C; discriminate).
    apply heap_ok_data. intros q. rewrite data_upd by auto. destruct (q =? h_ref x)%nat; [apply wbits_ok; auto|apply data_ok; auto].
  - apply heap_ok_data. intros q. destruct (set_bits_fail h x msb lsb v r h' q Hh E R) as [_ ->]. apply data_ok; auto.
Qed.
Lemma keeps_set_bytes x v n : forall i k, keeps_ok (hset_bytes_loop x i n v k).
Proof.
  induction n as [|n IH]; intros i k h Hh; cbn [hset_bytes_loop]; [exact Hh|]. unfold bind at 1, lift.
  destruct (index v k); auto. unfold bind. 
  match goal with |- context [hset_bit_range ?x ?a ?b ?c h] => pose proof (keeps_set_bits x a b c h Hh) as K; destruct (hset_bit_range x a b c h) as [[u| | | |] h1] end;
    cbn [snd] in *; auto. apply IH. exact K.
Qed.

Lemma set_bytes_fail m h x msb lsb v o h' : heap_ok h -> hset_bytes m x msb lsb v h = (o, h') -> returned o = false ->
  h' = h \/ exists d d', cell_at h (h_ref x) d /\ h' = upd h (h_ref x) (Cell d' true).
Proof.
  intros Hh E R. unfold hset_bytes, bind at 1, lift in E.
  destruct (set_bytes_guard_cases m v msb lsb) as [(G & _ & W)|(e0 & G & _)]; rewrite G in E; [|cbv beta iota in E; injection E as _ <-; auto].
  destruct W as [W|[(Wd & -> & ->)|(NW & L & W)]].
  - unfold step8_len, range_len in E. replace (S msb - lsb)%nat with O in E by lia.
    change ((0 + 7) / 8)%nat with O in E. cbn [hset_bytes_loop ret] in E. injection E as _ <-. auto.
  - left. destruct (step8_len msb lsb) as [|n]; cbn [hset_bytes_loop] in E; [unfold ret in E; injection E as _ <-; auto|].
    unfold bind at 1, lift in E. cbn [index nth_error] in E. injection E as _ <-. auto.
  - unfold step8_len, range_len in E. replace (S msb - lsb)%nat with (msb - lsb + 1)%nat in E by lia.
    assert (W8 : ((msb - lsb + 1) mod 8 = 0)%nat) by (rewrite <- W, Nat.mul_comm; apply Nat.mod_mul; lia).
    destruct (mod8_len _ W8) as [M8 W8']. rewrite M8 in E. replace ((msb - lsb + 1) / 8)%nat with (length v) in E by lia.
    destruct (nth_error h (h_ref x)) as [[d [|]]|] eqn:C.
    + left. destruct (length v) as [|n] eqn:En; [lia|]. cbn [hset_bytes_loop] in E. unfold lift, bind at 1 in E.
      rewrite (index_lt v 0 0) in E by lia. unfold bind at 1 in E.
      rewrite hset_bit_range_dead in E by (try lia; exists d; auto). injection E as _ <-. auto.
    + assert (Hb : bytes_ok d) by (eapply heap_ok_cell; eauto).
      destruct (hset_bytes_loop_cases x h d lsb (length v) v 0 C Hb ltac:(lia)) as [A B].
      destruct (Nat.le_gt_cases (lsb + 8 * length v) (8 * length d)) as [I|O].
      * destruct (A I) as [d' E']. rewrite E' in E. injection E as <- _. discriminate R.
      * destruct (B O ltac:(lia)) as [d' E']. rewrite E' in E. injection E as _ <-. right. eauto.
    + left. destruct (length v) as [|n] eqn:En; [lia|]. cbn [hset_bytes_loop] in E. unfold lift, bind at 1 in E.
      rewrite (index_lt v 0 0) in E by lia. unfold bind, hset_bit_range, range_len in E.
      replace (S (lsb + 7) - lsb)%nat with 8%nat in E by lia. cbn [hset_loop] in E. unfold bind, with_lock in E. rewrite C in E.
      injection E as _ <-. auto.
Qed.
Lemma keeps_set_bytes' m x msb lsb v : keeps_ok (hset_bytes m x msb lsb v).
Proof.
  intros h Hh. unfold hset_bytes, bind, lift. destruct (set_bytes_guard _ _ _ _); auto. apply keeps_set_bytes; auto.
Qed.

(** A call that does not return leaves a buffer as it was or poisoned. *)
Lemma torn_call m o h r h' : heap_ok h -> hexec m o h = (r, h') -> can_tear o = true -> returned r = false -> (forall x y, o = OReplace x y -> r <> Hang) ->
  heap_ok h' /\ length h' = length h /\ forall q, ~ poisoned_at h' q -> data h' q = data h q.
Proof.
  intros Hh E T R NH.
  assert (Up : forall (x : hdr) d d', cell_at h (h_ref x) d -> h' = upd h (h_ref x) (Cell d' true) ->
    length h' = length h /\ forall q, ~ poisoned_at h' q -> data h' q = data h q).
  { intros x d d' C ->. assert (Lr : (h_ref x < length h)%nat) by (apply nth_error_Some; unfold cell_at in C; rewrite C; discriminate).
    split; [apply upd_length|]. intros q P. rewrite data_upd by auto. destruct (Nat.eqb_spec q (h_ref x)) as [->|]; auto.
    destruct P. exists d'. rewrite nth_error_upd, Nat.eqb_refl. apply Nat.ltb_lt in Lr. rewrite Lr. reflexivity. }
  destruct o as [T0|T0 d|x|x f|x f v|x msb lsb|x msb lsb v|x msb lsb|x msb lsb v|x y|x]; try discriminate T; cbn [hexec] in E.
  - apply wrap in E as (o & E & Ro). rewrite R in Ro. split.
    { pose proof (keeps_set_bytes' m x msb lsb v h Hh) as K. rewrite E in K. exact K. }
    destruct (set_bytes_fail _ _ _ _ _ _ _ _ Hh E Ro) as [->|(d & d' & C & X)]; eauto.
  - unfold bind, hreplace in E. destruct (nth_error h (h_ref x)) as [cx|] eqn:Cx; [|injection E as _ <-; auto].
    destruct (nth_error h (h_ref y)) as [cy|] eqn:Cy; [|injection E as _ <-; auto].
    destruct (c_poisoned cx) eqn:Px; [injection E as _ <-; auto|]. destruct (_ =? _)%nat; [injection E as <- _; destruct (NH x y eq_refl eq_refl)|].
    destruct (c_poisoned cy); [|injection E as <- _; discriminate R]. injection E as _ X. symmetry in X.
    destruct cx as [d p]. cbn [c_poisoned] in Px. subst p. split; [|eapply Up; eauto].
    assert (Lr : (h_ref x < length h)%nat) by (apply nth_error_Some; rewrite Cx; discriminate).
    subst h'. apply heap_ok_data. intros q. rewrite data_upd by auto. destruct (q =? h_ref x)%nat; [constructor|apply data_ok; auto].
Qed.

(** ** What can still be read *)

Lemma hexec_poison m o h q : poisoned_at h q -> poisoned_at (snd (hexec m o h)) q.
Proof. intros P. pose proof (hrun_poison m [o] h q P) as H. cbn [hrun] in H. destruct (hexec m o h) as [r h1]. exact H. Qed.

Definition sound (h h0 : heap) (past : list event) (q : nat) : Prop :=
  length (data h0 q) = size h past q /\ forall j, bit (data h0 q) j = now h past q j.

(** One more call. *)
Lemma step_sound m h h0 past o r h1 : heap_ok h0 -> hop_typed o -> hexec m o h0 = (r, h1) -> (forall x y, o = OReplace x y -> r <> Hang) ->
  length h0 = (length h + born past)%nat -> (forall q, ~ poisoned_at h0 q -> sound h h0 past q) ->
  heap_ok h1 /\ length h1 = (length h + born ((o, returned r) :: past))%nat /\
  forall q, ~ poisoned_at h1 q -> sound h h1 ((o, returned r) :: past) q.
Proof.
  intros Hh Ht E NH L D.
  assert (Mo : forall q, ~ poisoned_at h1 q -> ~ poisoned_at h0 q).
  { intros q N P. apply N. pose proof (hexec_poison m o h0 q P) as H. rewrite E in H. exact H. }
  destruct (andb (can_tear o) (negb (returned r))) eqn:T.
  - apply andb_prop in T as [T R]. apply Bool.negb_true_iff in R. destruct (torn_call m o h0 r h1 Hh E T R NH) as (A & B & C).
    rewrite R. split; auto. split; [rewrite B, L; destruct o; reflexivity|]. intros q P. destruct (D q (Mo q P)) as [D1 D2].
    unfold sound. rewrite (C q P). destruct o; split; try exact D1; exact D2.
  - assert (Te : can_tear o = true -> returned r = true) by (intros X; rewrite X in T; destruct (returned r); auto).
    destruct (one_call m o h0 r h1 Hh Ht E Te) as (A & B & C). split; auto.
    split; [rewrite B, L; destruct o, (returned r); cbn [born]; lia|].
    intros q P. destruct (C q) as [C1 C2]. unfold sound. rewrite C1.
    assert (B0 : forall r0, ~ poisoned_at h0 r0 -> forall j, match nth_error h0 r0 with Some c => bit (c_data c) j | None => false end = now h past r0 j).
    { intros r0 P0 j. destruct (D r0 P0) as [_ <-]. unfold data. destruct (nth_error h0 r0); auto. rewrite bit_nil. reflexivity. }
    assert (S0 : forall r0, ~ poisoned_at h0 r0 -> match nth_error h0 r0 with Some c => length (c_data c) | None => O end = size h past r0).
    { intros r0 P0. destruct (D r0 P0) as [<- _]. unfold data. destruct (nth_error h0 r0); auto. }
    pose proof (Mo q P) as P0.
    assert (Sr : forall x y, o = OReplace x y -> returned r = true -> ~ poisoned_at h0 (if (q =? h_ref x)%nat then h_ref y else q)).
    { intros x y -> R. destruct (q =? h_ref x)%nat; auto. cbn [hexec] in E. unfold bind, hreplace in E.
      destruct (nth_error h0 (h_ref x)) as [cx|]; [|injection E as <- _; discriminate R].
      destruct (nth_error h0 (h_ref y)) as [cy|] eqn:Cy; [|injection E as <- _; discriminate R].
      destruct (c_poisoned cx); [injection E as <- _; discriminate R|]. destruct (_ =? _)%nat; [injection E as <- _; discriminate R|].
      destruct (c_poisoned cy) eqn:Py; [injection E as <- _; discriminate R|]. intros (d & X). rewrite Cy in X. injection X as ->. discriminate Py. }
    split; [|intros j; rewrite C2]; destruct (returned r) eqn:R, o; cbn [size now born];
      rewrite ?L, ?Nat.add_0_r; try (apply S0; eauto; fail); try (apply B0; eauto; fail); rewrite ?S0, ?B0; auto.
Qed.
Lemma readable m : forall os h rs h', heap_ok h -> Forall hop_typed os -> hrun m os h = (rs, h') -> none_hangs rs ->
  heap_ok h' /\ length h' = (length h + born (history os rs))%nat /\ forall q, ~ poisoned_at h' q -> sound h h' (history os rs) q.
Proof.
  induction os as [|o os IH] using rev_ind; intros h rs h' Hh Ht E U.
  - cbn in E. injection E as <- <-. cbn [history combine map rev born]. split; auto. split; [lia|].
    intros q _. unfold sound, data. cbn [size now]. destruct (nth_error h q); auto. split; auto. intros j. apply bit_nil.
  - apply hrun_snoc in E as (rs0 & h0 & r & E & X & ->).
    assert (L : length os = length rs0) by (pose proof (hrun_length m os h) as H; rewrite E in H; auto).
    apply Forall_app in Ht as [Ht To]. apply Forall_app in U as [U Uo]. apply Forall_inv in Uo.
    destruct (IH _ _ _ Hh Ht E U) as (A & B & C). rewrite history_snoc by auto.
    eapply step_sound; eauto. exact (Forall_inv To).
Qed.

(** ** Reads that return *)

Lemma bit_range_ret m h x msb lsb n h' : (lsb <= msb)%nat -> hbit_range m x msb lsb h = (Ret n, h') ->
  exists d, cell_at h (h_ref x) d /\ (msb < 8 * length d)%nat /\ h' = h /\ get_bits m d msb lsb = Ret n.
Proof.
  intros L E. destruct (nth_error h (h_ref x)) as [[d [|]]|] eqn:C.
  - rewrite hbit_range_poisoned in E by (auto; exists d; auto). discriminate E.
  - destruct (Nat.le_gt_cases (8 * length d) msb) as [G|G].
    + rewrite (hbit_range_oob m x h d) in E by auto. discriminate E.
    + rewrite (hbit_range_in m x h d) in E by auto. injection E as E <-. exists d. auto.
  - unfold hbit_range, range_len in E. replace (S msb - lsb)%nat with (S (msb - lsb)) in E by lia.
    cbn [hget_loop] in E. cbv zeta in E. unfold bind, with_lock in E. rewrite C in E. discriminate E.
Qed.
Lemma bytes_loop_ret m x h k : forall i l h', hbytes_loop m x i (S k) h = (Ret l, h') ->
  exists d, cell_at h (h_ref x) d /\ (i + 8 * S k <= 8 * length d)%nat.
Proof.
  induction k as [|k IH]; intros i l h' E; cbn [hbytes_loop] in E; unfold bind at 1 in E;
    destruct (hbit_range m x (i + 7) i h) as [[v| | | |] h1] eqn:B; try discriminate E;
    apply bit_range_ret in B as (d & C & I & -> & _); try lia.
  - exists d. split; auto. lia.
  - unfold bind at 1 in E. change (mlet v0 := hbit_range m x (i + 8 + 7) (i + 8) in mlet t := hbytes_loop m x (i + 8 + 8) k in ret (u8 v0 :: t))
      with (hbytes_loop m x (i + 8) (S k)) in E.
    destruct (hbytes_loop m x (i + 8) (S k) h) as [[l1| | | |] h2] eqn:B; try discriminate E.
    destruct (IH _ _ _ B) as (d1 & C1 & I1). exists d1. split; auto. lia.
Qed.
Lemma bit_octets d n : forall i k, bytes_ok d -> (i + 8 * n <= 8 * length d)%nat -> (k < 8 * n)%nat ->
  bit (octets d i n) k = bit d (i + k).
Proof.
  induction n as [|n IH]; intros i k Hd L K; [lia|]. cbn [octets]. destruct (Nat.lt_ge_cases k 8) as [B|B].
  - unfold bit at 1. rewrite Nat.div_small, Nat.mod_small by auto. cbn [nth]. rewrite rv_testbit by (auto; lia).
    destruct (Nat.ltb_spec (7 - k) 8); [|lia]. f_equal. lia.
  - replace (bit (rv d i 8 :: octets d (i + 8) n) k) with (bit (octets d (i + 8) n) (k - 8)).
    + rewrite IH by (auto; lia). f_equal. lia.
    + unfold bit. replace k with (k - 8 + 1 * 8)%nat at 3 4 by lia. rewrite Nat.div_add, Nat.mod_add by lia.
      rewrite Nat.add_1_r. reflexivity.
Qed.
Lemma bytes_ret m h x msb lsb l h' : heap_ok h -> (lsb <= msb)%nat -> hbytes m x msb lsb h = (Ret l, h') ->
  (8 * length l = msb - lsb + 1)%nat /\ forall k, (k < 8 * length l)%nat -> bit l k = bit (data h (h_ref x)) (lsb + k).
Proof.
  intros Hh L E. unfold hbytes, bind at 1, lift in E. destruct (bytes_guard m msb lsb) as [[]| | | |] eqn:G; try discriminate E.
  assert (M : ((msb - lsb + 1) mod 8 = 0)%nat).
  { unfold bytes_guard in G. rewrite (proj2 (Nat.ltb_ge _ _) L) in G. destruct (whole_usize msb lsb) eqn:W.
    - apply andb_prop in W as [W1 W2]. apply N.eqb_eq in W1. apply Nat.eqb_eq in W2.
      apply Nat2N.inj. rewrite Nat2N.inj_mod. replace (N.of_nat (msb - lsb + 1)) with (2 ^ 64) by lia. reflexivity.
    - destruct ((msb - lsb + 1) mod 8 =? 0)%nat eqn:Q; [|discriminate G]. apply Nat.eqb_eq in Q. exact Q. }
  destruct (mod8_len _ M) as [M1 M2]. unfold step8_len, range_len in E. replace (S msb - lsb)%nat with (msb - lsb + 1)%nat in E by lia.
  rewrite M1 in E. destruct ((msb - lsb + 1) / 8)%nat as [|k] eqn:K; [lia|].
  destruct (bytes_loop_ret _ _ _ _ _ _ _ E) as (d & C & I). assert (Hd : bytes_ok d) by (eapply heap_ok_cell; eauto).
  rewrite (hbytes_loop_in m x h d) in E by auto. rewrite bytes_loop_val in E by auto.
  assert (El : l = octets d lsb (S k)) by congruence. subst l.
  rewrite octets_length. split; [lia|]. intros j J. rewrite bit_octets by auto. unfold data, cell_at in *. rewrite C. reflexivity.
Qed.
Lemma to_vec_ret h x l h' : hto_vec x h = (Ret l, h') -> l = data h (h_ref x).
Proof.
  unfold hto_vec, with_lock, data. destruct (nth_error h (h_ref x)) as [[d [|]]|]; intros E; inversion E; reflexivity.
Qed.

(** ** Writes in any order *)

(** The bytes after a write. *)
Definition wr (o : hop) (d : list N) : list N :=
  match o with
  | OSet _ f v => wbits d (f_start f) (f_end f - f_start f + 1) v
  | OSetBitRange _ msb lsb v => wbits d lsb (msb - lsb + 1) v
  | OSetBytes _ _ lsb v => woctets d lsb v
  | _ => d
  end.
(** The arguments are accepted. *)
Definition fine (m : mode) (o : hop) : Prop :=
  match o with
  | OSetBytes _ msb lsb v => set_bytes_guard m (length v) msb lsb = Ret tt /\ (8 * length v = msb - lsb + 1)%nat
  | _ => True
  end.
Lemma write_ret m o h r lo hi v h' : heap_ok h -> writes o = Some (r, lo, hi) -> (lo <= hi)%nat -> hexec m o h = (Ret v, h') ->
  v = VUnit /\ fine m o /\ exists d, cell_at h r d /\ (hi < 8 * length d)%nat /\ h' = upd h r (Cell (wr o d) false).
Proof.
  intros Hh W L E. destruct o as [T|T d|x|x f|x f u|x msb lsb|x msb lsb u|x msb lsb|x msb lsb u|x y|x]; cbn [writes] in W; try discriminate W;
    injection W as <- <- <-; cbn [hexec] in E; unfold bind at 1 in E.
  - unfold hset in E. destruct (hset_bit_range x (f_end f) (f_start f) u h) as [[w| | | |] h1] eqn:X; try discriminate E.
    injection E as <- <-. split; auto. split; [exact I|].
    destruct (set_bits_ret _ _ _ _ _ _ _ Hh X) as [[G _]|(d & C & _ & _ & J & Q)]; [lia|]. exists d. auto.
  - destruct (hset_bit_range x msb lsb u h) as [[w| | | |] h1] eqn:X; try discriminate E.
    injection E as <- <-. split; auto. split; [exact I|].
    destruct (set_bits_ret _ _ _ _ _ _ _ Hh X) as [[G _]|(d & C & _ & _ & J & Q)]; [lia|]. exists d. auto.
  - destruct (hset_bytes m x msb lsb u h) as [[w| | | |] h1] eqn:X; try discriminate E.
    injection E as <- <-. split; auto. destruct (set_bytes_ret _ _ _ _ _ _ _ _ Hh X) as [[G _]|(d & C & _ & _ & J & V & Q)]; [lia|].
    split; [|exists d; auto]. split; auto. unfold hset_bytes, bind at 1, lift in X.
    destruct (set_bytes_guard m (length u) msb lsb) as [[]| | | |]; auto; discriminate X.
Qed.
Lemma write_does m o h r lo hi d : heap_ok h -> writes o = Some (r, lo, hi) -> (lo <= hi)%nat -> fine m o -> cell_at h r d ->
  (hi < 8 * length d)%nat -> hexec m o h = (Ret VUnit, upd h r (Cell (wr o d) false)).
Proof.
  intros Hh W L F C J. assert (Hd : bytes_ok d) by (eapply heap_ok_cell; eauto).
  destruct o as [T|T d0|x|x f|x f u|x msb lsb|x msb lsb u|x msb lsb|x msb lsb u|x y|x]; cbn [writes] in W; try discriminate W;
    injection W as <- <- <-; cbn [hexec wr]; unfold bind at 1.
  - unfold hset. rewrite (hset_bit_range_in x h d) by auto. reflexivity.
  - rewrite (hset_bit_range_in x h d) by auto. reflexivity.
  - destruct F as [G V]. unfold hset_bytes, bind at 1, lift. rewrite G.
    assert (W8 : ((msb - lsb + 1) mod 8 = 0)%nat) by (rewrite <- V, Nat.mul_comm; apply Nat.mod_mul; lia).
    destruct (mod8_len _ W8) as [M8 W8']. unfold step8_len, range_len. replace (S msb - lsb)%nat with (msb - lsb + 1)%nat by lia.
    rewrite M8. replace ((msb - lsb + 1) / 8)%nat with (length u) by lia.
    rewrite (hset_bytes_loop_in x h d lsb u u 0 C Hd) by (auto; lia). reflexivity.
Qed.
Lemma woctets_ok v : forall d i, bytes_ok d -> bytes_ok (woctets d i v).
Proof. induction v as [|a v IH]; intros d i Hd; cbn [woctets]; auto. apply IH. apply wbits_ok; auto. Qed.
Lemma wr_ok o d : bytes_ok d -> bytes_ok (wr o d).
Proof. intros H. destruct o; cbn [wr]; auto; try (apply wbits_ok; auto). apply woctets_ok; auto. Qed.
Lemma wr_length o d : length (wr o d) = length d.
Proof. destruct o; cbn [wr]; auto; try apply wbits_length. apply woctets_length. Qed.
(** A write: what it puts in its range depends on nothing. *)
Definition put (o : hop) (j : nat) : bool :=
  match o with
  | OSet _ f v => N.testbit v (N.of_nat (f_end f - j))
  | OSetBitRange _ msb _ v => N.testbit v (N.of_nat (msb - j))
  | OSetBytes _ _ lsb v => bit v (j - lsb)
  | _ => false
  end.
Lemma bit_wr m o r lo hi d j : writes o = Some (r, lo, hi) -> (lo <= hi)%nat -> fine m o -> (hi < 8 * length d)%nat ->
  bit (wr o d) j = if inside lo hi j then put o j else bit d j.
Proof.
  intros W L F J. assert (B : forall lsb msb v, (lsb <= msb)%nat -> (msb < 8 * length d)%nat ->
    bit (wbits d lsb (msb - lsb + 1) v) j = if inside lsb msb j then N.testbit v (N.of_nat (msb - j)) else bit d j).
  { intros lsb msb v L1 L2. rewrite bit_wbits by lia. unfold inside. destruct (Nat.leb_spec lsb j); cbn [andb]; auto.
    destruct (Nat.ltb_spec j (lsb + (msb - lsb + 1))); destruct (Nat.leb_spec j msb); try lia; auto. do 2 f_equal. lia. }
  destruct o as [T|T d0|x|x f|x f u|x msb lsb|x msb lsb u|x msb lsb|x msb lsb u|x y|x]; cbn [writes] in W; try discriminate W;
    injection W as <- <- <-; cbn [wr put]; auto.
  destruct F as [_ V]. unfold inside. destruct (Nat.leb_spec lsb j); cbn [andb]; [destruct (Nat.leb_spec j msb)|].
  - apply bit_woctets_in; lia.
  - apply bit_woctets_out; lia.
  - apply bit_woctets_out; lia.
Qed.
Lemma heap_ok_wr h r o d : heap_ok h -> cell_at h r d -> heap_ok (upd h r (Cell (wr o d) false)).
Proof.
  intros Hh C. apply heap_ok_data. intros q. rewrite data_upd by (apply nth_error_Some; unfold cell_at in C; rewrite C; discriminate).
  destruct (q =? r)%nat; [apply wr_ok; eapply heap_ok_cell; eauto|apply data_ok; auto].
Qed.
Lemma cell_upd h r d d0 : cell_at h r d0 -> cell_at (upd h r (Cell d false)) r d.
Proof.
  unfold cell_at. intros C. rewrite nth_error_upd, Nat.eqb_refl.
  rewrite (proj2 (Nat.ltb_lt _ _)) by (apply nth_error_Some; rewrite C; discriminate). reflexivity.
Qed.

Lemma swap m a b h v w h1 h2 : heap_ok h -> proper a -> proper b -> apart a b ->
  hexec m a h = (Ret v, h1) -> hexec m b h1 = (Ret w, h2) ->
  exists h3, heap_ok h3 /\ hexec m b h = (Ret VUnit, h3) /\ hexec m a h3 = (Ret VUnit, h2).
Proof.
  intros Hh (ra & la & ha & Wa & La) (rb & lb & hb & Wb & Lb) Ap Ea Eb.
  destruct (write_ret m a h _ _ _ _ _ Hh Wa La Ea) as (-> & Fa & d & Ca & Ia & ->).
  assert (Hd : bytes_ok d) by (eapply heap_ok_cell; eauto).
  assert (H1 : heap_ok (upd h ra (Cell (wr a d) false))) by (apply heap_ok_wr; auto).
  destruct (write_ret m b _ _ _ _ _ _ H1 Wb Lb Eb) as (-> & Fb & d' & Cb & Ib & ->).
  destruct (Nat.eq_dec rb ra) as [->|N].
  - pose proof (cell_upd h ra (wr a d) d Ca) as C'. unfold cell_at in Cb, C'. rewrite C' in Cb. injection Cb as <-. rewrite wr_length in Ib.
    exists (upd h ra (Cell (wr b d) false)). assert (H3 := heap_ok_wr h ra b d Hh Ca). split; auto. split; [eapply write_does; eauto|].
    rewrite (write_does m a _ _ _ _ (wr b d) H3 Wa La Fa (cell_upd h ra (wr b d) d Ca)) by (rewrite wr_length; auto).
    rewrite !upd_upd. do 3 f_equal. apply bytes_ext; repeat apply wr_ok; auto; [rewrite !wr_length; reflexivity|].
    intros j _. rewrite (bit_wr m a _ _ _ _ j Wa), (bit_wr m b _ _ _ _ j Wb), (bit_wr m b _ _ _ _ j Wb), (bit_wr m a _ _ _ _ j Wa) by (rewrite ?wr_length; auto).
    specialize (Ap _ _ _ _ _ _ Wa Wb eq_refl). unfold inside.
    destruct (Nat.leb_spec la j), (Nat.leb_spec j ha), (Nat.leb_spec lb j), (Nat.leb_spec j hb); cbn [andb]; auto; lia.
  - unfold cell_at in Cb. rewrite cell_at_upd_other in Cb by auto.
    exists (upd h rb (Cell (wr b d') false)). assert (H3 := heap_ok_wr h rb b d' Hh Cb). split; auto. split; [eapply write_does; eauto|].
    rewrite (write_does m a _ _ _ _ d H3 Wa La Fa) by (auto; unfold cell_at; rewrite cell_at_upd_other; auto).
    rewrite upd_comm by auto. reflexivity.
Qed.
Lemma absorbed m a b h v w h1 h2 : heap_ok h -> proper a -> proper b -> within a b ->
  hexec m a h = (Ret v, h1) -> hexec m b h1 = (Ret w, h2) -> hexec m b h = (Ret VUnit, h2).
Proof.
  intros Hh (ra & la & ha & Wa & La) (rb & lb & hb & Wb & Lb) Wi Ea Eb.
  destruct (write_ret m a h _ _ _ _ _ Hh Wa La Ea) as (-> & Fa & d & Ca & Ia & ->).
  assert (Hd : bytes_ok d) by (eapply heap_ok_cell; eauto).
  assert (H1 : heap_ok (upd h ra (Cell (wr a d) false))) by (apply heap_ok_wr; auto).
  destruct (write_ret m b _ _ _ _ _ _ H1 Wb Lb Eb) as (-> & Fb & d' & Cb & Ib & ->).
  destruct (Wi _ _ _ _ _ _ Wa Wb) as (<- & Wi1 & Wi2).
  pose proof (cell_upd h ra (wr a d) d Ca) as C'. unfold cell_at in Cb, C'. rewrite C' in Cb. injection Cb as <-. rewrite wr_length in Ib.
  rewrite (write_does m b h _ _ _ d Hh Wb Lb Fb Ca Ib). rewrite upd_upd. do 3 f_equal.
  apply bytes_ext; repeat apply wr_ok; auto; [rewrite !wr_length; reflexivity|].
  intros j _. rewrite (bit_wr m b _ _ _ _ j Wb), (bit_wr m b _ _ _ _ j Wb), (bit_wr m a _ _ _ _ j Wa) by (rewrite ?wr_length; auto).
  unfold inside. destruct (Nat.leb_spec la j), (Nat.leb_spec j ha), (Nat.leb_spec lb j), (Nat.leb_spec j hb); cbn [andb]; auto; lia.
Qed.

Definition dones (os : list hop) : list (out val) := map (fun _ => Ret VUnit) os.
Lemma apart_sym a b : apart a b -> apart b a.
Proof. intros H r lo hi r' lo' hi' A B C. destruct (H _ _ _ _ _ _ B A (eq_sym C)); auto. Qed.
Lemma fop_perm os os' : Permutation os os' -> ForallOrdPairs apart os -> ForallOrdPairs apart os'.
Proof.
  induction 1 as [|x l l' P IH|x y l|l l' l'' P1 IH1 P2 IH2]; intros F; auto.
  - inversion F as [|? ? A B]; subst. constructor; auto. eapply Permutation_Forall; eauto.
  - inversion F as [|? ? A B]; subst. inversion B as [|? ? C D]; subst. inversion A as [|? ? G K]; subst.
    constructor; [constructor; auto; apply apart_sym; auto|]. constructor; auto.
Qed.
Lemma run_perm m os os' : Permutation os os' -> forall h h', heap_ok h -> Forall proper os -> ForallOrdPairs apart os ->
  hrun m os h = (dones os, h') -> hrun m os' h = (dones os', h').
Proof.
  induction 1 as [|x l l' P IH|x y l|l l' l'' P1 IH1 P2 IH2]; intros h h' Hh Pr F E; auto.
  - inversion Pr as [|? ? Px Pl]; subst. inversion F as [|? ? A B]; subst. cbn [hrun dones map] in *.
    destruct (hexec m x h) as [r h1] eqn:X. destruct (hrun m l h1) as [rs h2] eqn:Y. injection E as -> -> ->.
    destruct Px as (rx & lx & hx & Wx & Lx). destruct (write_ret m x h _ _ _ _ _ Hh Wx Lx X) as (_ & _ & d & C & _ & ->).
    erewrite IH; eauto. apply heap_ok_wr; auto.
  - inversion Pr as [|? ? Py Pl]; subst. inversion Pl as [|? ? Px Pl']; subst. inversion F as [|? ? A B]; subst. inversion A as [|? ? Axy _]; subst.
    cbn [hrun dones map] in *. destruct (hexec m y h) as [r h1] eqn:X. destruct (hexec m x h1) as [r1 h2] eqn:Y.
    destruct (hrun m l h2) as [rs h3] eqn:Z. injection E as -> -> -> ->.
    destruct (swap m y x h _ _ _ _ Hh Py Px Axy X Y) as (h4 & _ & E1 & E2). rewrite E1, E2. fold (dones l) in Z. rewrite Z. reflexivity.
  - apply IH2; auto; [eapply Permutation_Forall; eauto|eapply fop_perm; eauto].
Qed.

Lemma bytes_live m h x msb lsb l h' : (lsb <= msb)%nat -> hbytes m x msb lsb h = (Ret l, h') -> ~ poisoned_at h (h_ref x).
Proof.
  intros L E P. unfold hbytes, bind at 1, lift in E. destruct (bytes_guard m msb lsb) as [[]| | | |]; try discriminate E.
  unfold step8_len, range_len in E. assert (S8 : exists n, ((S msb - lsb + 7) / 8 = S n)%nat).
  { replace (S msb - lsb + 7)%nat with (msb - lsb + 1 * 8)%nat by lia. rewrite Nat.div_add by lia. exists ((msb - lsb) / 8)%nat. lia. }
  destruct S8 as [n S8]. rewrite S8 in E. apply bytes_loop_ret in E as (d & C & _). unfold cell_at in C. destruct P as (d' & P). congruence.
Qed.
Lemma to_vec_live h x l h' : hto_vec x h = (Ret l, h') -> ~ poisoned_at h (h_ref x).
Proof. intros E P. rewrite hto_vec_poisoned in E by auto. discriminate E. Qed.
