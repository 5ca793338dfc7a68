(** PanicProofs.v -- proofs for PropPanic.v: the faults of every call and what they poison. *)

From Coq Require Import Lia.
From Verif Require Import Base Bits Types Layout Heap Packet Text Build Utils Slow Fast Show Ops Client Spec Grammar
  ClientSpec PanicSpec BitsProofs HeapProofs ShowProofs.
Open Scope N_scope.

(** The outcome [r] of a call made in [h] panics with exactly the faults [F] and poisons exactly [P]. *)
Definition spec {A} (r : out A * heap) (h : heap) (F : fault -> Prop) (P : nat -> Prop) : Prop :=
  (forall e, fst r = Panic e <-> F e) /\ (forall q, poisoned_at (snd r) q <-> poisoned_at h q \/ P q).

Lemma spec_iff {A} (r : out A * heap) h F F' P P' : spec r h F P -> (forall e, F e <-> F' e) ->
  (forall q, P q <-> P' q) -> spec r h F' P'.
Proof. intros [S1 S2] HF HP. split; [intros e; rewrite S1; apply HF|]. intros q. rewrite S2, HP. reflexivity. Qed.

Lemma spec_ret {A} (a : A) h F P : (forall e, ~ F e) -> (forall q, ~ P q) -> spec (Ret a, h) h F P.
Proof. intros HF HP. split; cbn. - intros e. split; [discriminate|]. intros X. destruct (HF e X). - intros q. firstorder. Qed.

Lemma spec_panic {A} e0 h F P : (forall e, F e <-> e = e0) -> (forall q, ~ P q) -> spec (@Panic A e0, h) h F P.
Proof.
  intros HF HP. split; cbn.
  - intros e. rewrite HF. split; [congruence|]. intros ->. reflexivity.
  - intros q. firstorder.
Qed.

Lemma poisoned_upd h r d d' q : cell_at h r d ->
  poisoned_at (upd h r (Cell d' true)) q <-> poisoned_at h q \/ q = r.
Proof.
  intros Hc. unfold poisoned_at. destruct (Nat.eq_dec q r) as [->|N].
  - rewrite (cell_at_upd h r d) by auto. split; [auto|]. intros _. eexists; reflexivity.
  - rewrite cell_at_upd_other by auto. split; [auto|]. intros [X|X]; [auto|congruence].
Qed.
Lemma poisoned_upd_false h r d d' q : cell_at h r d ->
  poisoned_at (upd h r (Cell d' false)) q <-> poisoned_at h q.
Proof.
  intros Hc. unfold poisoned_at. destruct (Nat.eq_dec q r) as [->|N].
  - rewrite (cell_at_upd h r d) by auto. unfold cell_at in Hc. rewrite Hc. split; intros [? X]; discriminate.
  - rewrite cell_at_upd_other by auto. reflexivity.
Qed.

Lemma spec_poison {A} h r d d' F P : cell_at h r d -> (forall e, F e <-> e = PIndex) ->
  (forall q, P q <-> q = r) -> spec (@Panic A PIndex, upd h r (Cell d' true)) h F P.
Proof.
  intros Hc HF HP. split; cbn [fst snd].
  - intros e. rewrite HF. split; [congruence|]. intros ->. reflexivity.
  - intros q. rewrite (poisoned_upd _ _ d) by auto. rewrite HP. reflexivity.
Qed.
Lemma spec_write {A} (a : A) h r d d' F P : cell_at h r d -> (forall e, ~ F e) -> (forall q, ~ P q) ->
  spec (Ret a, upd h r (Cell d' false)) h F P.
Proof.
  intros Hc HF HP. split; cbn [fst snd].
  - intros e. split; [discriminate|]. intros X. destruct (HF e X).
  - intros q. rewrite (poisoned_upd_false _ _ d) by auto. split; [auto|]. intros [X|X]; [auto|destruct (HP q X)].
Qed.

(** A result that is only wrapped. *)
Lemma spec_wrap {A B} (x : M A) (g : A -> B) h F P : spec (x h) h F P -> spec (bind x (fun a => ret (g a)) h) h F P.
Proof.
  unfold bind. intros [S1 S2]. destruct (x h) as [[a|e| | |] h'] eqn:E; cbn [fst snd] in *.
  all: split; [|exact S2].
  all: intros e'; rewrite <- S1; cbn; split; intros X; inversion X; reflexivity.
Qed.
Lemma spec_lift {A} (o : out A) h F P : (forall e, o = Panic e <-> F e) -> (forall q, ~ P q) -> spec (lift o h) h F P.
Proof. intros HF HP. split; [exact HF|]. cbn. intros q. firstorder. Qed.

(** ** Buffers *)

Lemma live_cases h x : live h x -> (exists d, cell_at h (h_ref x) d) \/ dead h x.
Proof.
  unfold live, dead, poisoned_at, cell_at. intros H. apply nth_error_Some in H.
  destruct (nth_error h (h_ref x)) as [[d [|]]|]; [right|left|congruence]; eauto.
Qed.
Lemma not_dead h x d : cell_at h (h_ref x) d -> ~ dead h x.
Proof. unfold cell_at, dead, poisoned_at. intros H [d' H']. congruence. Qed.
Lemma touch_cell h x d i e : cell_at h (h_ref x) d -> touch h x i e <-> (8 * length d <= i)%nat /\ e = PIndex.
Proof.
  intros H. unfold touch. split.
  - intros [[D _]|(d' & D & X)]; [destruct (not_dead _ _ _ H D)|]. rewrite (cell_at_fun _ _ _ _ H D). exact X.
  - intros X. right. exists d. tauto.
Qed.
Lemma touch_dead h x i e : dead h x -> touch h x i e <-> e = PPoison.
Proof.
  intros H. unfold touch. split; [|auto]. intros [[_ D]|(d' & D & X)]; [exact D|]. destruct (not_dead _ _ _ D H).
Qed.
Lemma heap_ok_cell h r d : heap_ok h -> cell_at h r d -> bytes_ok d.
Proof. intros H C. apply nth_error_In in C. unfold heap_ok in H. rewrite Forall_forall in H. apply (H _ C). Qed.

(** ** Reading and writing bits *)

Lemma get_bits_rev m d msb lsb : (msb < lsb)%nat ->
  get_bits m d msb lsb = match m with Debug => Panic POverflow | Release => Ret 0 end.
Proof.
  intros H. unfold get_bits, range_len. replace (S msb - lsb)%nat with O by lia. cbn [get_loop obind].
  unfold finish. rewrite (proj2 (Nat.ltb_lt _ _)) by lia. reflexivity.
Qed.
Lemma hbit_range_rev m x h msb lsb : (msb < lsb)%nat ->
  hbit_range m x msb lsb h = (match m with Debug => Panic POverflow | Release => Ret 0 end, h).
Proof.
  intros H. unfold hbit_range, range_len, bind. replace (S msb - lsb)%nat with O by lia. cbn [hget_loop ret].
  unfold finish. rewrite (proj2 (Nat.ltb_lt _ _)) by lia. reflexivity.
Qed.

Lemma get_bits_in m d msb lsb : bytes_ok d -> (lsb <= msb)%nat -> (msb < 8 * length d)%nat ->
  (exists v, get_bits m d msb lsb = Ret v /\ ~ (m = Debug /\ (64 < msb - lsb + 1)%nat)) \/
  (get_bits m d msb lsb = Panic POverflow /\ m = Debug /\ (64 < msb - lsb + 1)%nat).
Proof.
  intros Hd L R. destruct (Nat.le_gt_cases (msb - lsb + 1) 64) as [W|W].
  - left. rewrite get_bits_val by auto. eexists. split; [reflexivity|]. lia.
  - rewrite get_bits_wide by auto. destruct m; [right|left]; auto. eexists. split; [reflexivity|]. intros [? _]. discriminate.
Qed.

Lemma read_spec m h x msb lsb : heap_ok h -> live h x ->
  spec (hbit_range m x msb lsb h) h (read_fault m h x msb lsb)
    (fun q => q = h_ref x /\ read_fault m h x msb lsb PIndex).
Proof.
  intros Hh Hx. unfold read_fault, reversed.
  destruct (Nat.lt_ge_cases msb lsb) as [R|R].
  { rewrite hbit_range_rev by auto. destruct m; [apply spec_panic|apply spec_ret].
    - intros e. split; [intros [X|X]; [tauto|lia]|]. intros ->. left. auto.
    - intros q [_ [X|X]]; [destruct X as (_ & _ & X); discriminate|lia].
    - intros e [X|X]; [destruct X as (_ & X & _); discriminate|lia].
    - intros q [_ [X|X]]; [destruct X as (_ & X & _); discriminate|lia]. }
  destruct (live_cases h x Hx) as [[d Hd]|D].
  - pose proof (heap_ok_cell _ _ _ Hh Hd) as Hb.
    destruct (Nat.le_gt_cases (8 * length d) msb) as [O|I].
    + rewrite (hbit_range_oob m x h d) by auto. apply (spec_poison _ _ d); auto.
      * intros e. rewrite touch_cell by eauto. split.
        -- intros [X|(_ & [X|(_ & _ & _ & X)])]; [lia|tauto|]. destruct (X PIndex). rewrite touch_cell by eauto. auto.
        -- intros ->. right. split; auto.
      * intros q. split; [tauto|]. intros ->. split; auto. right. split; auto. left. rewrite touch_cell by eauto. auto.
    + rewrite (hbit_range_in m x h d) by auto.
      destruct (get_bits_in m d msb lsb Hb R I) as [(v & -> & W)|(-> & -> & W)].
      * apply spec_ret; [intros e|intros q [_ H]; revert H];
          (intros [X|(_ & [X|(X & Y & _)])]; [lia|rewrite touch_cell in X by eauto; lia|tauto]).
      * apply spec_panic.
        -- intros e. split.
           ++ intros [X|(_ & [X|X])]; [lia|rewrite touch_cell in X by eauto; lia|tauto].
           ++ intros ->. right. split; auto. right. repeat split; auto. intros e' X. rewrite touch_cell in X by eauto. lia.
        -- intros q [_ [X|(_ & [X|(_ & _ & X & _)])]]; [lia|rewrite touch_cell in X by eauto; lia|discriminate].
  - rewrite hbit_range_poisoned by auto. apply spec_panic.
    + intros e. rewrite touch_dead by auto. split.
      * intros [X|(_ & [X|(_ & _ & _ & X)])]; [lia|tauto|]. destruct (X PPoison). rewrite touch_dead; auto.
      * intros ->. right. auto.
    + intros q [_ [X|(_ & [X|(_ & _ & X & _)])]]; [lia|rewrite touch_dead in X by auto; discriminate|discriminate].
Qed.

Lemma hset_bit_range_rev x h msb lsb v : (msb < lsb)%nat -> hset_bit_range x msb lsb v h = (Ret tt, h).
Proof. intros H. unfold hset_bit_range, range_len. replace (S msb - lsb)%nat with O by lia. reflexivity. Qed.
Lemma hset_bit_range_oob x h d msb lsb v : cell_at h (h_ref x) d -> (lsb <= msb)%nat -> (8 * length d <= msb)%nat ->
  hset_bit_range x msb lsb v h = (Panic PIndex, upd h (h_ref x) (Cell d true)).
Proof. intros H L O. apply (hset_oob x h d (Fld ""%string lsb msb) v); auto. Qed.
Lemma hset_bit_range_dead x h msb lsb v : dead h x -> (lsb <= msb)%nat ->
  hset_bit_range x msb lsb v h = (Panic PPoison, h).
Proof. intros H L. apply (hset_poisoned x h (Fld ""%string lsb msb) v); auto. Qed.

Lemma write_spec h x msb lsb v : heap_ok h -> live h x ->
  spec (hset_bit_range x msb lsb v h) h (write_fault h x msb lsb) (fun q => q = h_ref x /\ write_fault h x msb lsb PIndex).
Proof.
  intros Hh Hx. unfold write_fault.
  destruct (Nat.lt_ge_cases msb lsb) as [R|R].
  { rewrite hset_bit_range_rev by auto. apply spec_ret; [intros e [X _]; lia|intros q [_ [X _]]; lia]. }
  destruct (live_cases h x Hx) as [[d Hd]|D].
  - pose proof (heap_ok_cell _ _ _ Hh Hd) as Hb.
    destruct (Nat.le_gt_cases (8 * length d) msb) as [O|I].
    + rewrite (hset_bit_range_oob x h d) by auto. apply (spec_poison _ _ d); auto.
      * intros e. rewrite touch_cell by eauto. tauto.
      * intros q. rewrite touch_cell by eauto. tauto.
    + rewrite (hset_bit_range_in x h d) by auto. apply (spec_write _ _ _ d); auto.
      * intros e. rewrite touch_cell by eauto. lia.
      * intros q. rewrite touch_cell by eauto. lia.
  - rewrite hset_bit_range_dead by auto. apply spec_panic.
    + intros e. rewrite touch_dead by auto. tauto.
    + intros q. rewrite touch_dead by auto. intros (_ & _ & X). discriminate.
Qed.

(** ** bytes *)

Lemma mod8_len w : (w mod 8 = 0)%nat -> ((w + 7) / 8 = w / 8)%nat /\ (8 * (w / 8) = w)%nat.
Proof.
  intros H. pose proof (Nat.div_mod w 8 ltac:(lia)) as D. split; [|lia].
  replace (w + 7)%nat with (7 + (w / 8) * 8)%nat by lia. rewrite Nat.div_add by lia. reflexivity.
Qed.

Lemma hbytes_loop_oob m x h d i n : cell_at h (h_ref x) d -> bytes_ok d -> (8 * length d < i + 8 * n)%nat -> (n <> 0)%nat ->
  hbytes_loop m x i n h = (Panic PIndex, upd h (h_ref x) (Cell d true)).
Proof.
  intros Hc Hd. revert i; induction n as [|n IH]; intros i H Hn; [congruence|]. cbn [hbytes_loop].
  destruct (Nat.lt_ge_cases (i + 7) (8 * length d)) as [L|L].
  - unfold bind at 1. rewrite (hbit_range_in m x h d) by auto. rewrite get_bits_octet by (auto; lia).
    rewrite (bind_panic _ _ _ _ _ (IH (i + 8)%nat ltac:(lia) ltac:(lia))). reflexivity.
  - rewrite (bind_panic _ _ _ _ _ (hbit_range_oob m x h d (i + 7) i Hc ltac:(lia) L)). reflexivity.
Qed.
Lemma bytes_loop_oob m d i n : bytes_ok d -> (8 * length d < i + 8 * n)%nat -> (n <> 0)%nat ->
  bytes_loop m d i n = Panic PIndex.
Proof.
  intros Hd. revert i; induction n as [|n IH]; intros i H Hn; [congruence|]. cbn [bytes_loop].
  destruct (Nat.lt_ge_cases (i + 7) (8 * length d)) as [L|L].
  - rewrite get_bits_octet by (auto; lia). cbn [obind]. rewrite IH by lia. reflexivity.
  - rewrite get_bits_oob by lia. reflexivity.
Qed.

Lemma widest_dec msb lsb : {widest msb lsb} + {~ widest msb lsb}.
Proof.
  unfold widest. destruct (whole_usize msb lsb) eqn:W; [left|right]; rewrite <- whole_spec; congruence.
Qed.
Lemma widest_whole msb lsb : widest msb lsb -> whole_usize msb lsb = true.
Proof. apply whole_spec. Qed.
Lemma not_widest msb lsb : ~ widest msb lsb -> whole_usize msb lsb = false.
Proof. intros N. destruct (whole_usize msb lsb) eqn:W; auto. apply whole_spec in W. destruct (N W). Qed.

Lemma bytes_guard_cases m msb lsb :
  (bytes_guard m msb lsb = Ret tt /\ (forall e, ~ not_octets m msb lsb e) /\ ~ (widest msb lsb /\ m = Debug) /\
     ((lsb <= msb)%nat -> ((msb - lsb + 1) mod 8 = 0)%nat)) \/
  (exists e0, bytes_guard m msb lsb = Panic e0 /\ e0 <> PIndex /\ (forall e, not_octets m msb lsb e <-> e = e0) /\
     ~ (~ (widest msb lsb /\ m = Debug) /\ (lsb <= msb)%nat /\ ((msb - lsb + 1) mod 8 = 0)%nat)).
Proof.
  unfold bytes_guard, not_octets, reversed. destruct (Nat.ltb_spec msb lsb) as [L|L].
  - assert (NW : ~ widest msb lsb) by (intros [_ X]; lia). destruct m.
    + right. exists POverflow. repeat split; try discriminate; try lia.
      * intros [X|[X|[[(_ & X & _)|X] _]]]; [tauto|tauto|discriminate|lia].
      * intros ->. auto.
    + destruct (Nat.eqb_spec ((lsb - msb - 1) mod 8) 0) as [E|E].
      * left. repeat split; try lia; [|tauto]. intros e [(_ & X & _)|[X|[[X|X] _]]]; [discriminate|tauto|lia|lia].
      * right. exists PAssert. repeat split; try discriminate; try lia.
        -- intros [(_ & X & _)|[X|X]]; [discriminate|tauto|tauto].
        -- intros ->. right. right. auto.
  - destruct (widest_dec msb lsb) as [Wd|NW].
    + rewrite (widest_whole _ _ Wd). assert (M8 : ((msb - lsb + 1) mod 8 = 0)%nat) by (apply whole_mod; apply Wd).
      destruct m.
      * right. exists POverflow. repeat split; try discriminate; try lia; [|tauto|tauto].
        intros [X|[X|[[X|X] _]]]; [tauto|tauto|lia|lia].
      * left. repeat split; auto; [|intros [_ X]; discriminate].
        intros e [X|[(_ & X & _)|[[X|X] _]]]; [lia|discriminate|lia|lia].
    + rewrite (not_widest _ _ NW). destruct (Nat.eqb_spec ((msb - lsb + 1) mod 8) 0) as [E|E].
      * left. repeat split; auto; [|tauto]. intros e [X|[X|[[X|X] _]]]; [lia|tauto|lia|lia].
      * right. exists PAssert. repeat split; try discriminate; try lia.
        -- intros [X|[X|X]]; [lia|tauto|tauto].
        -- intros ->. right. right. auto.
Qed.

Lemma bytes_spec m h x msb lsb : heap_ok h -> live h x ->
  spec (hbytes m x msb lsb h) h (bytes_fault m h x msb lsb) (fun q => q = h_ref x /\ bytes_fault m h x msb lsb PIndex).
Proof.
  intros Hh Hx. unfold bytes_fault, hbytes, bind, lift.
  destruct (bytes_guard_cases m msb lsb) as [(-> & G & Nd & W)|(e0 & -> & Ne & G & W)].
  2:{ apply spec_panic.
      - intros e. rewrite G. tauto.
      - intros q. rewrite G. intuition congruence. }
  destruct (Nat.lt_ge_cases msb lsb) as [R|R].
  { unfold step8_len, range_len. replace (S msb - lsb)%nat with O by lia.
    cbn [Nat.add Nat.div Nat.divmod fst snd hbytes_loop ret]. change ((0 + 7) / 8)%nat with O. cbn [hbytes_loop ret].
    apply spec_ret.
    - intros e [X|X]; [apply (G e X)|lia].
    - intros q [_ [X|X]]; [apply (G _ X)|lia]. }
  specialize (W R). unfold step8_len, range_len. replace (S msb - lsb)%nat with (msb - lsb + 1)%nat by lia.
  destruct (mod8_len _ W) as [-> W8].
  destruct (live_cases h x Hx) as [[d Hd]|D].
  - pose proof (heap_ok_cell _ _ _ Hh Hd) as Hb.
    destruct (Nat.le_gt_cases (8 * length d) msb) as [O|I].
    + rewrite (hbytes_loop_oob m x h d) by (auto; lia). apply (spec_poison _ _ d); auto.
      * intros e. rewrite touch_cell by eauto. split; [intros [X|X]; [destruct (G e X)|tauto]|]. intros ->. right. auto 8.
      * intros q. rewrite touch_cell by eauto. split; [tauto|]. intros ->. split; [reflexivity|]. right. auto 8.
    + rewrite (hbytes_loop_in m x h d) by (auto; lia). rewrite bytes_loop_val by (auto; lia). apply spec_ret.
      * intros e. rewrite touch_cell by eauto. intros [X|X]; [apply (G e X)|lia].
      * intros q. rewrite touch_cell by eauto. intros [_ [X|X]]; [apply (G _ X)|lia].
  - destruct ((msb - lsb + 1) / 8)%nat as [|n] eqn:En; [lia|]. cbn [hbytes_loop]. unfold bind at 1.
    rewrite hbit_range_poisoned by (auto; lia). apply spec_panic.
    + intros e. rewrite touch_dead by auto. split; [intros [X|X]; [destruct (G e X)|tauto]|]. intros ->. right. auto 8.
    + intros q. rewrite touch_dead by auto. intros [_ [X|(_ & _ & _ & X)]]; [apply (G _ X)|discriminate].
Qed.

(** ** set_bytes *)

Lemma set_bytes_guard_cases m v msb lsb :
  (set_bytes_guard m (length v) msb lsb = Ret tt /\ (forall e, ~ not_fitting m msb lsb v e) /\
     ((msb < lsb)%nat \/ (widest msb lsb /\ m = Release /\ v = []) \/
      (~ widest msb lsb /\ (lsb <= msb)%nat /\ (8 * length v = msb - lsb + 1)%nat))) \/
  (exists e0, set_bytes_guard m (length v) msb lsb = Panic e0 /\ e0 <> PIndex /\ (forall e, not_fitting m msb lsb v e <-> e = e0) /\
     ~ (widest msb lsb /\ m = Release /\ v = []) /\
     ~ (~ widest msb lsb /\ (lsb <= msb)%nat /\ (8 * length v = msb - lsb + 1)%nat)).
Proof.
  unfold set_bytes_guard, not_fitting, reversed. destruct (Nat.ltb_spec msb lsb) as [L|L].
  - assert (NW : ~ widest msb lsb) by (intros [_ X]; lia). destruct m.
    + right. exists POverflow. split; [reflexivity|]. split; [discriminate|]. split; [|split; [tauto|lia]].
      intros e. split; [|intros ->; auto].
      intros [X|[X|[[(_ & X & _)|[X|X]] _]]]; [tauto|tauto|discriminate|tauto|lia].
    + assert (Wr : wraps_to msb lsb (8 * length v) <-> N.of_nat (length v * 8 + (lsb - msb - 1)) mod 2 ^ 64 = 0).
      { unfold wraps_to. split.
        - intros [k E]. replace (N.of_nat (length v * 8 + (lsb - msb - 1))) with (k * 2 ^ 64) by lia. apply N.mod_mul. lia.
        - intros E. apply N.mod_divide in E; [|lia]. destruct E as [k E]. exists k. lia. }
      destruct (N.eqb_spec (N.of_nat (length v * 8 + (lsb - msb - 1)) mod 2 ^ 64) 0) as [E|E].
      * left. split; [reflexivity|]. split; [|auto].
        intros e [(_ & X & _)|[X|[[X|[X|X]] _]]]; [discriminate|tauto|tauto|tauto|lia].
      * right. exists PAssert. split; [reflexivity|]. split; [discriminate|]. split; [|split; [tauto|lia]].
        intros e. split; [intros [(_ & X & _)|X]; [discriminate|tauto]|].
        intros ->. right. right. split; auto. left. tauto.
  - destruct (widest_dec msb lsb) as [Wd|NW].
    + rewrite (widest_whole _ _ Wd). destruct m.
      * right. exists POverflow. split; [reflexivity|]. split; [discriminate|]. split.
        -- intros e. split; [|intros ->; auto]. intros [X|[X|[[X|[(_ & X & _)|X]] _]]]; [tauto|tauto|lia|discriminate|tauto].
        -- split; [|tauto]. intros (_ & X & _). discriminate.
      * destruct v as [|a v]; cbn [length Nat.eqb].
        -- left. split; [reflexivity|]. split; [|auto].
           intros e [X|[(_ & X & _)|[[X|[X|X]] _]]]; [lia|discriminate|lia|tauto|tauto].
        -- right. exists PAssert. split; [reflexivity|]. split; [discriminate|]. split.
           ++ intros e. split; [intros [X|[(_ & X & _)|X]]; [lia|discriminate|tauto]|].
              intros ->. right. right. split; auto. right. left. repeat split; auto; try apply Wd. discriminate.
           ++ split; [|tauto]. intros (_ & _ & X). discriminate.
    + rewrite (not_widest _ _ NW). destruct (Nat.eqb_spec (length v * 8) (msb - lsb + 1)) as [E|E].
      * left. split; [reflexivity|]. split.
        -- intros e [X|[X|[[X|[X|X]] _]]]; [lia|tauto|lia|tauto|lia].
        -- right. right. repeat split; auto; lia.
      * right. exists PAssert. split; [reflexivity|]. split; [discriminate|]. split.
        -- intros e. split; [intros [X|[X|X]]; [lia|tauto|tauto]|].
           intros ->. right. right. split; auto. right. right. repeat split; auto; lia.
        -- split; [tauto|lia].
Qed.

(** In range everything is written; a read past the end is noticed at the latest with the last byte. *)
Lemma hset_bytes_loop_cases x h d i n v k : cell_at h (h_ref x) d -> bytes_ok d -> (k + n <= length v)%nat ->
  ((i + 8 * n <= 8 * length d)%nat -> exists d', hset_bytes_loop x i n v k h = (Ret tt, upd h (h_ref x) (Cell d' false))) /\
  ((8 * length d < i + 8 * n)%nat -> (n <> 0)%nat ->
     exists d', hset_bytes_loop x i n v k h = (Panic PIndex, upd h (h_ref x) (Cell d' true))).
Proof.
  revert h d i k; induction n as [|n IH]; intros h d i k Hc Hd Hk; cbn [hset_bytes_loop].
  - split; [|congruence]. intros _. exists d. rewrite upd_same by auto. reflexivity.
  - unfold lift, bind at 1 3. rewrite (index_lt v k 0) by lia.
    destruct (Nat.lt_ge_cases (i + 7) (8 * length d)) as [L|L].
    + unfold bind at 1 2. rewrite (hset_bit_range_in x h d) by (auto; lia).
      set (d1 := wbits d i (i + 7 - i + 1) (nth k v 0)).
      assert (Hd1 : bytes_ok d1) by (apply wbits_ok; auto).
      assert (L1 : length d1 = length d) by apply wbits_length.
      assert (Hc1 : cell_at (upd h (h_ref x) (Cell d1 false)) (h_ref x) d1) by (eapply cell_at_upd; eauto).
      destruct (IH _ d1 (i + 8)%nat (S k) Hc1 Hd1 ltac:(lia)) as [A B]. rewrite L1 in A, B. split.
      * intros R. destruct (A ltac:(lia)) as [d' E]. exists d'. rewrite E, upd_upd. reflexivity.
      * intros R _. destruct n as [|n]; [lia|]. destruct (B ltac:(lia) ltac:(lia)) as [d' E]. exists d'. rewrite E, upd_upd. reflexivity.
    + split; [lia|]. intros _ _. unfold bind at 1. rewrite (hset_bit_range_oob x h d) by (auto; lia). exists d. reflexivity.
Qed.

Lemma set_bytes_spec m h x msb lsb v : heap_ok h -> live h x ->
  spec (hset_bytes m x msb lsb v h) h (set_bytes_fault m h x msb lsb v)
    (fun q => q = h_ref x /\ v <> [] /\ set_bytes_fault m h x msb lsb v PIndex).
Proof.
  intros Hh Hx. unfold set_bytes_fault, hset_bytes. unfold bind at 1. unfold lift.
  destruct (set_bytes_guard_cases m v msb lsb) as [(-> & G & W)|(e0 & -> & Ne & G & W1 & W2)].
  2:{ apply spec_panic.
      - intros e. rewrite G. tauto.
      - intros q. rewrite G. intuition congruence. }
  destruct W as [R|[(Wd & -> & ->)|(NW & R & W)]].
  { unfold step8_len, range_len. replace (S msb - lsb)%nat with O by lia. change ((0 + 7) / 8)%nat with O. cbn [hset_bytes_loop ret].
    assert (NW : ~ widest msb lsb) by (intros [_ X]; lia). apply spec_ret.
    - intros e [X|[X|X]]; [apply (G e X)|tauto|lia].
    - intros q [_ [_ [X|[X|X]]]]; [apply (G _ X)|tauto|lia]. }
  { unfold step8_len. assert (S8 : exists n, ((range_len msb lsb + 7) / 8 = S n)%nat).
    { destruct Wd as [_ ->]. unfold range_len. replace (S msb - 0 + 7)%nat with (msb + 1 * 8)%nat by lia.
      rewrite Nat.div_add by lia. exists (msb / 8)%nat. lia. }
    destruct S8 as [n ->]. cbn [hset_bytes_loop]. unfold bind at 1, lift. cbn [index nth_error]. apply spec_panic.
    - intros e. split; [intros [X|[X|X]]; [destruct (G e X)|tauto|tauto]|]. intros ->. right. left. auto.
    - intros q (_ & X & _). auto. }
  assert (Nv : v <> []) by (intros ->; cbn [length] in W; lia).
  unfold step8_len, range_len. replace (S msb - lsb)%nat with (msb - lsb + 1)%nat by lia.
  assert (W8 : ((msb - lsb + 1) mod 8 = 0)%nat) by (rewrite <- W, Nat.mul_comm; apply Nat.mod_mul; lia).
  destruct (mod8_len _ W8) as [-> W8']. replace ((msb - lsb + 1) / 8)%nat with (length v) by lia.
  destruct (live_cases h x Hx) as [[d Hd]|D].
  - pose proof (heap_ok_cell _ _ _ Hh Hd) as Hb.
    destruct (hset_bytes_loop_cases x h d lsb (length v) v 0 Hd Hb ltac:(lia)) as [A B].
    destruct (Nat.le_gt_cases (8 * length d) msb) as [O|I].
    + destruct (B ltac:(lia) ltac:(lia)) as [d' ->]. apply (spec_poison _ _ d); auto.
      * intros e. rewrite touch_cell by eauto. split; [intros [X|[X|X]]; [destruct (G e X)|tauto|tauto]|]. intros ->. auto 9.
      * intros q. rewrite touch_cell by eauto. split; [tauto|]. intros ->. split; auto. split; auto. right. right. auto 8.
    + destruct (A ltac:(lia)) as [d' ->]. apply (spec_write _ _ _ d); auto.
      * intros e. rewrite touch_cell by eauto. intros [X|[X|X]]; [apply (G e X)|tauto|lia].
      * intros q. rewrite touch_cell by eauto. intros [_ [_ [X|[X|X]]]]; [apply (G _ X)|tauto|lia].
  - destruct (length v) as [|n] eqn:En; [lia|]. cbn [hset_bytes_loop]. unfold lift, bind at 1.
    rewrite (index_lt v 0 0) by lia. unfold bind at 1.
    rewrite hset_bit_range_dead by (auto; lia). apply spec_panic.
    + intros e. rewrite touch_dead by auto. split; [intros [X|[X|X]]; [destruct (G e X)|tauto|tauto]|]. intros ->. auto 9.
    + intros q. rewrite touch_dead by auto. intros [_ [_ [X|[X|(_ & _ & _ & X)]]]]; [apply (G _ X)|tauto|discriminate].
Qed.

(** ** The other methods of headers *)

Lemma replace_spec h x y : live h x -> live h y ->
  spec (hreplace x y h) h (fun e => (dead h x \/ dead h y) /\ e = PPoison)
    (fun q => q = h_ref x /\ ~ dead h x /\ dead h y).
Proof.
  intros Hx Hy. unfold hreplace.
  destruct (live_cases h x Hx) as [[d Hd]|D].
  - pose proof (not_dead _ _ _ Hd) as Nx. unfold cell_at in Hd. rewrite Hd. cbn [c_poisoned].
    destruct (live_cases h y Hy) as [[d' Hd']|D'].
    + pose proof (not_dead _ _ _ Hd') as Ny. unfold cell_at in Hd'. rewrite Hd'. cbn [c_poisoned c_data].
      destruct (h_ref x =? h_ref y)%nat.
      * split; cbn [fst snd].
        -- intros e. split; [discriminate|]. tauto.
        -- intros q. rewrite (poisoned_upd_false _ _ d) by exact Hd. tauto.
      * apply (spec_write _ _ _ d); [exact Hd|tauto|tauto].
    + assert (N : h_ref x <> h_ref y) by (intros E; apply Nx; unfold dead; rewrite E; exact D').
      rewrite (proj2 (Nat.eqb_neq _ _) N). destruct D' as [d' D'']. rewrite D''. cbn [c_poisoned]. split; cbn [fst snd].
      * intros e. split; [intros [= <-]|intros [_ ->]; auto]. split; auto. right. exists d'. exact D''.
      * intros q. rewrite (poisoned_upd _ _ d) by exact Hd. split; [|tauto]. intros [X| ->]; auto.
        right. split; auto. split; auto. exists d'. exact D''.
  - assert (D0 := D). destruct D as [d D]. rewrite D. cbn [c_poisoned].
    unfold live in Hy. apply nth_error_Some in Hy. destruct (nth_error h (h_ref y)); [|congruence].
    apply spec_panic; [intros e|intros q]; tauto.
Qed.

Lemma hto_vec_spec h x : live h x -> spec (hto_vec x h) h (fun e => dead h x /\ e = PPoison) (fun _ => False).
Proof.
  intros Hx. destruct (live_cases h x Hx) as [[d Hd]|D].
  - rewrite (hto_vec_cell x h d) by auto. apply spec_ret; [|tauto]. intros e [X _]. destruct (not_dead _ _ _ Hd X).
  - rewrite hto_vec_poisoned by auto. apply spec_panic; [|tauto]. tauto.
Qed.

Lemma poisoned_alloc h d q : poisoned_at (h ++ [Cell d false]) q <-> poisoned_at h q.
Proof.
  unfold poisoned_at. destruct (Nat.lt_ge_cases q (length h)) as [L|L].
  - rewrite nth_error_app1 by auto. reflexivity.
  - rewrite nth_error_app2 by auto. rewrite (proj2 (nth_error_None h q)) by auto.
    split; intros [d' E]; [|discriminate]. destruct (q - length h)%nat as [|k]; [discriminate|destruct k; discriminate].
Qed.

Definition hop_poisons (m : mode) (h : heap) (o : hop) (q : nat) : Prop := poisons m h (K_hdr o) q.

Lemma hexec_spec m h o : heap_ok h -> Forall (live h) (hop_hdrs o) ->
  spec (hexec m o h) h (hop_fault m h o) (hop_poisons m h o).
Proof.
  intros Hh Ho. unfold hop_poisons, poisons, call_fault, hop_fault.
  destruct o as [T|T d|x|x f|x f v|x msb lsb|x msb lsb v|x msb lsb|x msb lsb v|x y|x]; cbn [hexec hop_hdrs] in *;
    repeat match goal with H : Forall _ (_ :: _) |- _ => apply Forall_cons_iff in H as [? H] end; apply spec_wrap.
  - split; [intros e; split; [discriminate|tauto]|]. intros q. cbn. rewrite poisoned_alloc. tauto.
  - split; [intros e; split; [discriminate|tauto]|]. intros q. cbn. rewrite poisoned_alloc. tauto.
  - apply spec_ret; tauto.
  - apply read_spec; auto.
  - apply write_spec; auto.
  - apply read_spec; auto.
  - apply write_spec; auto.
  - apply bytes_spec; auto.
  - apply set_bytes_spec; auto.
  - apply replace_spec; auto.
  - apply hto_vec_spec; auto.
Qed.

(** ** Showing *)

Lemma hshow_octets_dead m x h i n : dead h x -> (n <> 0)%nat -> hshow_octets m x i n h = (Panic PPoison, h).
Proof.
  intros D N. destruct n as [|n]; [congruence|]. cbn [hshow_octets]. unfold bind.
  rewrite hbit_range_poisoned by (auto; lia). reflexivity.
Qed.
Lemma hshow_field_dead m x h f : dead h x -> (f_start f <= f_end f)%nat -> hshow_field m x f h = (Panic PPoison, h).
Proof.
  intros D L. unfold hshow_field. pose proof (Nat.div_mod (f_width f) 8 ltac:(lia)) as Dm.
  pose proof (Nat.mod_upper_bound (f_width f) 8 ltac:(lia)) as Mb.
  destruct (Nat.leb_spec (f_width f) 8) as [W|W].
  - apply bind_panic. apply hbit_range_poisoned; auto.
  - destruct (f_width f mod 8 =? 0)%nat; [|apply bind_panic]; apply hshow_octets_dead; auto; lia.
Qed.
Lemma hshow_dead m x h : dead h x -> declared (h_ty x) -> ht_fields (h_ty x) <> [] -> hshow m x h = (Panic PPoison, h).
Proof.
  intros D F N. unfold hshow, declared in *. destruct (ht_fields (h_ty x)) as [|f l]; [congruence|].
  apply Forall_cons_iff in F as [F _]. cbn [hshow_fields]. apply bind_panic, bind_panic, hshow_field_dead; auto.
Qed.

Lemma show_fault_cell h x d e : cell_at h (h_ref x) d ->
  show_fault h x e <-> Exists (fun f => (8 * length d <= f_end f)%nat) (ht_fields (h_ty x)) /\ e = PIndex.
Proof.
  intros Hc. unfold show_fault. rewrite Exists_exists. split.
  - intros (f & I & T). rewrite touch_cell in T by eauto. destruct T as [T ->]. split; eauto.
  - intros [(f & I & T) ->]. exists f. rewrite touch_cell by eauto. auto.
Qed.
Lemma show_fault_dead h x e : dead h x -> show_fault h x e <-> ht_fields (h_ty x) <> [] /\ e = PPoison.
Proof.
  intros D. unfold show_fault. split.
  - intros (f & I & T). rewrite touch_dead in T by auto. split; auto. intros E. rewrite E in I. destruct I.
  - intros [N ->]. destruct (ht_fields (h_ty x)) as [|f l]; [congruence|]. exists f. split; [left; auto|]. apply touch_dead; auto.
Qed.

(** Either it is shown and nothing changes, or it fails. *)
Lemma hshow_cases m h x : heap_ok h -> live h x -> declared (h_ty x) ->
  (exists s, hshow m x h = (Ret s, h) /\ forall e, ~ show_fault h x e) \/
  (hshow m x h = (Panic PPoison, h) /\ forall e, show_fault h x e <-> e = PPoison) \/
  (exists d, cell_at h (h_ref x) d /\ hshow m x h = (Panic PIndex, upd h (h_ref x) (Cell d true)) /\
     forall e, show_fault h x e <-> e = PIndex).
Proof.
  intros Hh Hx Hf. destruct (live_cases h x Hx) as [[d Hd]|D].
  - pose proof (heap_ok_cell _ _ _ Hh Hd) as Hb.
    destruct (Exists_dec (fun f => (8 * length d <= f_end f)%nat) (ht_fields (h_ty x))
                (fun f => le_dec (8 * length d) (f_end f))) as [E|E].
    + right. right. exists d. split; auto. split; [apply hshow_short; auto|].
      intros e. rewrite (show_fault_cell _ _ d) by auto. tauto.
    + left. assert (Fin : Forall (fun f => field_in f (length d)) (ht_fields (h_ty x))).
      { apply Forall_Exists_neg in E. unfold declared in Hf. rewrite Forall_forall in *. intros f If. split; [auto|].
        specialize (E f If). cbv beta in E. lia. }
      destruct (hshow_ok m x h d Hd Hb Fin) as (s & R & _). exists s. split; auto.
      intros e X. rewrite (show_fault_cell _ _ d) in X by auto. tauto.
  - destruct (ht_fields (h_ty x)) as [|f l] eqn:Ef.
    + left. exists (show_title (h_ty x) ++ "")%string. split; [unfold hshow; rewrite Ef; reflexivity|].
      intros e X. rewrite show_fault_dead in X by auto. tauto.
    + right. left. split; [apply hshow_dead; auto; congruence|]. intros e. rewrite show_fault_dead by auto.
      split; [tauto|]. intros ->. split; auto. congruence.
Qed.

Lemma hshow_spec m h x : heap_ok h -> live h x -> declared (h_ty x) ->
  spec (hshow m x h) h (show_fault h x) (fun q => q = h_ref x /\ show_fault h x PIndex).
Proof.
  intros Hh Hx Hf. destruct (hshow_cases m h x Hh Hx Hf) as [(s & -> & N)|[[-> N]|(d & Hd & -> & N)]].
  - apply spec_ret; [auto|]. intros q [_ X]. apply (N _ X).
  - apply spec_panic; [auto|]. intros q [_ X]. apply N in X. discriminate.
  - apply (spec_poison _ _ d); auto. intros q. rewrite N. tauto.
Qed.

(** ** Packets *)

Lemma concat_vecs_cases h l : Forall (live h) l ->
  (exists ds, Forall2 (fun x d => cell_at h (h_ref x) d) l ds /\ concat_vecs l h = (Ret (concat ds), h)) \/
  (Exists (dead h) l /\ concat_vecs l h = (Panic PPoison, h)).
Proof.
  induction 1 as [|x l Hx Hl IH].
  - left. exists []. split; [constructor|reflexivity].
  - cbn [concat_vecs]. destruct (live_cases h x Hx) as [[d Hd]|D].
    + rewrite (bind_ret _ _ _ _ _ (hto_vec_cell x h d Hd)). destruct IH as [(ds & F & E)|[X E]].
      * left. exists (d :: ds). split; [constructor; auto|]. rewrite (bind_ret _ _ _ _ _ E). reflexivity.
      * right. split; [right; auto|]. apply bind_panic. exact E.
    + right. split; [left; auto|]. apply bind_panic. apply hto_vec_poisoned. exact D.
Qed.

Lemma no_dead h l ds : Forall2 (fun x d => cell_at h (h_ref x) d) l ds -> ~ Exists (dead h) l.
Proof.
  induction 1 as [|x d l ds Hx Hl IH]; intros X; [inversion X|]. apply Exists_cons in X as [X|X]; [|auto].
  destruct (not_dead _ _ _ Hx X).
Qed.
Lemma some_dead_exists h p : some_dead h p <-> Exists (dead h) (p_hdrs p).
Proof. unfold some_dead. rewrite Exists_exists. reflexivity. Qed.

Lemma to_vec_cases h p : Forall (live h) (p_hdrs p) ->
  (exists v, to_vec p h = (Ret v, h) /\ ~ some_dead h p /\ forall n, byte_count h p n <-> n = length v) \/
  (to_vec p h = (Panic PPoison, h) /\ some_dead h p /\ forall n, ~ byte_count h p n).
Proof.
  intros Hl. pose proof (some_dead_exists h p) as SD. unfold to_vec. destruct (concat_vecs_cases h (p_hdrs p) Hl) as [(ds & F & E)|[X E]].
  - left. rewrite (bind_ret _ _ _ _ _ E). eexists. split; [reflexivity|]. split; [rewrite SD; eapply no_dead; eauto|].
    intros n. rewrite app_length. unfold byte_count. split.
    + intros (ds' & F' & ->). assert (ds' = ds) as ->; [|reflexivity].
      clear - F F'. revert ds' F'. induction F as [|x d l ds Hx Hl IH]; intros ds' F'; inversion F'; subst; auto.
      f_equal; [eapply cell_at_fun; eauto|auto].
    + intros ->. exists ds. auto.
  - right. rewrite (bind_panic _ _ _ _ _ E). split; auto. split; [apply SD; exact X|]. intros n (ds & F & _). apply (no_dead _ _ _ F X).
Qed.

Definition faults {A} (r : out A * heap) (F : fault -> Prop) : Prop := forall e, fst r = Panic e <-> F e.
Lemma spec_faults {A} (r : out A * heap) h F P : spec r h F P -> faults r F.
Proof. intros [S _]. exact S. Qed.
Lemma faults_ret {A} (a : A) h F : (forall e, ~ F e) -> faults (Ret a, h) F.
Proof. intros N e. split; [discriminate|]. intros X. destruct (N e X). Qed.
Lemma faults_panic {A} e0 h F : (forall e, F e <-> e = e0) -> faults (@Panic A e0, h) F.
Proof. intros N e. rewrite N. cbn. split; [congruence|]. intros ->. reflexivity. Qed.
Lemma faults_wrap {A B} (x : M A) (g : A -> B) h F : faults (x h) F -> faults (bind x (fun a => ret (g a)) h) F.
Proof.
  unfold bind, faults. intros S1. destruct (x h) as [[a|e| | |] h'] eqn:E; cbn [fst snd] in *.
  all: intros e'; rewrite <- S1; cbn; split; intros X; inversion X; reflexivity.
Qed.
Lemma faults_iff {A} (r : out A * heap) F F' : faults r F -> (forall e, F e <-> F' e) -> faults r F'.
Proof. intros H E e. rewrite (H e). apply E. Qed.

Lemma to_vec_faults h p : Forall (live h) (p_hdrs p) -> faults (to_vec p h) (to_vec_fault h p).
Proof.
  intros Hl. unfold to_vec_fault. destruct (to_vec_cases h p Hl) as [(v & -> & N & _)|(-> & N & _)].
  - apply faults_ret. tauto.
  - apply faults_panic. tauto.
Qed.

Lemma compare_slice_faults h p d : Forall (live h) (p_hdrs p) ->
  faults (compare_with_slice p d h) (compare_fault h p (length d)).
Proof.
  intros Hl. unfold compare_with_slice, compare_fault, to_vec_fault.
  change (declared_len p) with (pkt_len p).
  destruct (Nat.eqb_spec (pkt_len p) (length d)) as [E|E]; cbn [negb].
  - destruct (to_vec_cases h p Hl) as [(v & R & N & _)|(R & N & _)]; unfold bind; rewrite R.
    + destruct (negb (pkt_len p =? matching v d)%nat || negb (length d =? matching v d)%nat); apply faults_ret; tauto.
    + apply faults_panic. tauto.
  - apply faults_ret. tauto.
Qed.

Lemma compare_faults h p q : Forall (live h) (p_hdrs p) -> Forall (live h) (p_hdrs q) ->
  faults (compare p q h) (fun e => to_vec_fault h q e \/ exists n, byte_count h q n /\ compare_fault h p n e).
Proof.
  intros Hp Hq. unfold compare. destruct (to_vec_cases h q Hq) as [(v & R & N & C)|(R & N & C)]; unfold bind; rewrite R.
  - eapply faults_iff; [apply compare_slice_faults; auto|]. intros e. split.
    + intros X. right. exists (length v). split; auto. apply C. reflexivity.
    + intros [[X _]|(n & Cn & X)]; [tauto|]. apply C in Cn as ->. exact X.
  - apply faults_panic. intros e. unfold to_vec_fault. split; [|tauto]. intros [[_ X]|(n & Cn & _)]; auto. destruct (C n Cn).
Qed.

(** *** show *)

Definition first_bad (h : heap) (l : list hdr) (x : hdr) : Prop :=
  exists pre post, l = pre ++ x :: post /\ (forall y e', In y pre -> ~ show_fault h y e').

Lemma show_hdrs_cases m h l : heap_ok h -> Forall (live h) l -> Forall (fun x => declared (h_ty x)) l ->
  (exists s, show_hdrs m l h = (Ret s, h) /\ forall y e', In y l -> ~ show_fault h y e') \/
  (exists x, first_bad h l x /\
    ((show_hdrs m l h = (Panic PPoison, h) /\ forall e, show_fault h x e <-> e = PPoison) \/
     (exists d, cell_at h (h_ref x) d /\ show_hdrs m l h = (Panic PIndex, upd h (h_ref x) (Cell d true)) /\
        forall e, show_fault h x e <-> e = PIndex))).
Proof.
  intros Hh Hl. induction Hl as [|x l Hx Hl IH]; intros Hf.
  - left. eexists. split; [reflexivity|]. intros y e' [].
  - apply Forall_cons_iff in Hf as [Hf1 Hf]. cbn [show_hdrs].
    destruct (hshow_cases m h x Hh Hx Hf1) as [(s & R & N)|[[R N]|(d & Hd & R & N)]].
    + rewrite (bind_ret _ _ _ _ _ R). destruct (IH Hf) as [(t & R' & N')|(y & (pre & post & -> & Q) & B)].
      * left. rewrite (bind_ret _ _ _ _ _ R'). eexists. split; [reflexivity|]. intros z e' [<-|I]; auto.
      * right. exists y. split.
        -- exists (x :: pre), post. split; [reflexivity|]. intros z e' [<-|I]; auto.
        -- destruct B as [[B Bn]|(d & Hd & B & Bn)]; [left|right; exists d]; rewrite (bind_panic _ _ _ _ _ B); auto.
    + right. exists x. split; [exists [], l; split; [reflexivity|intros y e' []]|]. left.
      rewrite (bind_panic _ _ _ _ _ R). auto.
    + right. exists x. split; [exists [], l; split; [reflexivity|intros y e' []]|]. right. exists d.
      rewrite (bind_panic _ _ _ _ _ R). auto.
Qed.

(** The first header that fails is the only first one. *)
Lemma first_bad_fun h l x y e e' : first_bad h l x -> first_bad h l y -> show_fault h x e -> show_fault h y e' -> x = y.
Proof.
  intros (pre & post & -> & N) (pre' & post' & E & N') Fx Fy. revert pre' E N'.
  induction pre as [|a pre IH]; intros [|b pre'] E N'; cbn [app] in E; injection E as E1 E2.
  - auto.
  - subst b. destruct (N' x e (or_introl eq_refl) Fx).
  - subst a. destruct (N y e' (or_introl eq_refl) Fy).
  - apply (IH ltac:(intros z e0 I; apply N; right; auto) pre' E2). intros z e0 I. apply N'. right. auto.
Qed.

Lemma pshow_spec m h p : heap_ok h -> Forall (live h) (p_hdrs p) -> Forall (fun x => declared (h_ty x)) (p_hdrs p) ->
  spec (pkt_show m p h) h (pkt_show_fault h p) (poisons m h (K_pshow p)).
Proof.
  intros Hh Hl Hf. unfold pkt_show, pkt_show_fault, poisons.
  destruct (show_hdrs_cases m h (p_hdrs p) Hh Hl Hf) as [(s & R & N)|(x & B & C)].
  - rewrite (bind_ret _ _ _ _ _ R).
    assert (NB : forall e, ~ exists pre x post, p_hdrs p = pre ++ x :: post /\
        (forall y e', In y pre -> ~ show_fault h y e') /\ show_fault h x e).
    { intros e (pre & x & post & E & _ & F). apply (N x e); auto. rewrite E. apply in_or_app. right. left. reflexivity. }
    destruct (to_vec_cases h p Hl) as [(v & Rv & Nv & _)|(Rv & Nv & _)].
    + rewrite (bind_ret _ _ _ _ _ Rv). apply spec_ret.
      * intros e [X|[_ [X _]]]; [apply (NB e X)|auto].
      * intros q (pre & x & post & E & P & F & _). apply (NB PIndex). exists pre, x, post. auto.
    + rewrite (bind_panic _ _ _ _ _ Rv). apply spec_panic.
      * intros e. split; [intros [X|[_ [_ X]]]; [destruct (NB e X)|auto]|]. intros ->. right. split; [auto|]. split; auto.
      * intros q (pre & x & post & E & P & F & _). apply (NB PIndex). exists pre, x, post. auto.
  - assert (B0 := B). destruct B as (pre & post & E & P).
    assert (K : forall e0, (forall e, show_fault h x e <-> e = e0) -> forall e,
      ((exists pre x post, p_hdrs p = pre ++ x :: post /\ (forall y e', In y pre -> ~ show_fault h y e') /\ show_fault h x e) \/
       (forall y e', In y (p_hdrs p) -> ~ show_fault h y e') /\ to_vec_fault h p e) <-> e = e0).
    { intros e0 Fe e. split.
      - intros [(pre' & y & post' & E' & P' & F')|[X _]].
        + assert (B' : first_bad h (p_hdrs p) y) by (exists pre', post'; auto).
          rewrite (first_bad_fun h _ y x e e0 B' B0 F' (proj2 (Fe e0) eq_refl)) in F'. apply Fe. exact F'.
        + destruct (X x e0); [rewrite E; apply in_or_app; right; left; reflexivity|]. apply Fe. reflexivity.
      - intros ->. left. exists pre, x, post. split; auto. split; auto. apply Fe. reflexivity. }
    destruct C as [[R F]|(d & Hd & R & F)]; rewrite (bind_panic _ _ _ _ _ R).
    + apply spec_panic; [apply K; exact F|]. intros q (pre' & y & post' & E' & P' & F' & _).
      assert (B' : first_bad h (p_hdrs p) y) by (exists pre', post'; auto).
      rewrite (first_bad_fun h _ y x PIndex PPoison B' B0 F' (proj2 (F PPoison) eq_refl)) in F'. apply F in F'. discriminate.
    + apply (spec_poison _ _ d); auto. intros q. split.
      * intros (pre' & y & post' & E' & P' & F' & ->).
        assert (B' : first_bad h (p_hdrs p) y) by (exists pre', post'; auto).
        rewrite (first_bad_fun h _ y x PIndex PIndex B' B0 F' (proj2 (F PIndex) eq_refl)). reflexivity.
      * intros ->. exists pre, x, post. split; auto. split; auto. split; auto. apply F. reflexivity.
Qed.
