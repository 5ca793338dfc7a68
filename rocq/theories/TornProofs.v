(** TornProofs.v -- racing accesses to one field. *)

From Coq Require Import Lia.
From Verif Require Import Base Bits Layout Heap Conc Spec ConcSpec BitsProofs HeapProofs ConcProofs.
Open Scope N_scope.

(** The programs of one-call threads, by what is left of their loop. *)
Definition getting (m : mode) (f : field) (q : prog N) : prog (list res) :=
  plet r := (plet v := (plet v := q in Done (finish m (f_end f) (f_start f) v)) in pret (RNum v)) in
  plet rs := pret [] in pret (r :: rs).
Definition setting (q : prog unit) : prog (list res) :=
  plet r := (plet _ := q in pret RUnit) in plet rs := pret [] in pret (r :: rs).

Lemma thread_get m x f : thread_prog m [OGet x f] =
  getting m f (pget_loop (h_ref x) (f_start f) (range_len (f_end f) (f_start f)) 0).
Proof. reflexivity. Qed.
Lemma thread_set m x f v : thread_prog m [OSet x f v] =
  setting (pset_loop (h_ref x) (f_start f) (range_len (f_end f) (f_start f)) v).
Proof. reflexivity. Qed.

Lemma getting_done m f v : (f_start f <= f_end f)%nat -> (f_width f <= 64)%nat -> v < 2 ^ N.of_nat (f_width f) ->
  getting m f (pret v) = Done (Ret [RNum v]).
Proof.
  intros H1 H2 Hv. unfold getting, pret. cbn [pbind].
  assert (E : finish m (f_end f) (f_start f) v = Ret v).
  { unfold finish, f_width in *. rewrite (proj2 (Nat.ltb_ge _ _) H1), (proj2 (Nat.leb_le _ _) H2).
    assert (v < 2 ^ 64) by (eapply N.lt_le_trans; [exact Hv|apply N.pow_le_mono_r; lia]).
    f_equal. rewrite shl_shr_64 by auto. apply N.mod_small. auto. }
  rewrite E. reflexivity.
Qed.
Lemma setting_done : setting (pret tt) = Done (Ret [RUnit]).
Proof. reflexivity. Qed.

Lemma acc_step v b : v < 2 ^ 63 -> N.lor (shl64 v 1) (b2n b) = 2 * v + b2n b.
Proof.
  intros H. rewrite lor_bit_shl. apply N.mod_small. change (2 ^ 63) with 9223372036854775808 in H.
  change (2 ^ 64) with 18446744073709551616. destruct b; cbn [b2n]; lia.
Qed.

Lemma rv_last d i n : bytes_ok d -> (i + S n <= 8 * length d)%nat ->
  rv d i (S n) = 2 * rv d i n + b2n (bit d (i + n)).
Proof.
  intros Hd H. apply N_bits_inj_nat. intros k.
  rewrite rv_testbit by auto.
  replace (2 * rv d i n + b2n (bit d (i + n))) with (rv d i n * 2 ^ 1 + b2n (bit d (i + n)))
    by (change (2 ^ 1) with 2; lia).
  rewrite testbit_shift_add by (change (2 ^ 1) with 2; destruct (bit d (i + n)); cbn [b2n]; lia).
  destruct k as [|k].
  - change (N.of_nat 0 <? 1) with true. cbn [Nat.ltb Nat.leb].
    replace (i + S n - 1 - 0)%nat with (i + n)%nat by lia. destruct (bit d (i + n)); reflexivity.
  - replace (N.of_nat (S k) <? 1) with false by (symmetry; apply N.ltb_ge; lia).
    replace (N.of_nat (S k) - 1) with (N.of_nat k) by lia.
    rewrite rv_testbit by (auto; lia).
    change (S k <? S n)%nat with (k <? n)%nat. destruct (Nat.ltb_spec k n); auto.
    f_equal. lia.
Qed.

(** Steps of a reader and of a writer when nobody is inside [replace]. *)
Lemma get_step m f h ts i r d p n acc : Forall plain ts -> cell_at h r d -> (p < 8 * length d)%nat ->
  nth_error ts i = Some (Run (getting m f (pget_loop r p (S n) acc))) -> acc < 2 ^ 63 ->
  step (h, ts) i = Some (h, upd ts i (Run (getting m f (pget_loop r (S p) n (2 * acc + b2n (bit d p)))))).
Proof.
  intros Hp Hc Hr Hi Ha. cbn [step]. rewrite Hi.
  change (getting m f (pget_loop r p (S n) acc)) with
    (Sync N r (fun d => (index d (p / 8), d)) (fun b =>
       getting m f (pget_loop r (S p) n (N.lor (shl64 acc 1) (N.land (N.shiftr b (N.of_nat (8 - p mod 8 - 1))) 1))))).
  cbn [thread_step]. rewrite plain_unlocked by auto. unfold section_step.
  rewrite (with_lock_cell _ _ d) by auto. rewrite (index_lt _ _ 0) by (apply div8_lt; auto).
  rewrite upd_same by auto. rewrite land_1, sub_mod8. fold (bit d p). rewrite acc_step by auto. reflexivity.
Qed.

Lemma set_step h ts i r d s n v : Forall plain ts -> cell_at h r d -> bytes_ok d -> (s + n < 8 * length d)%nat ->
  nth_error ts i = Some (Run (setting (pset_loop r s (S n) v))) ->
  step (h, ts) i = Some (upd h r (Cell (wbit d (s + n) (N.testbit v 0)) false),
                         upd ts i (Run (setting (pset_loop r s n (N.shiftr v 1))))).
Proof.
  intros Hp Hc Hd Hr Hi. cbn [step]. rewrite Hi.
  change (setting (pset_loop r s (S n) v)) with
    (Sync unit r (fun d => set_bit_step d (s + n) (u8 (N.land v 1))) (fun _ =>
       setting (pset_loop r s n (N.shiftr v 1)))).
  cbn [thread_step]. rewrite plain_unlocked by auto. unfold section_step.
  rewrite (with_lock_cell _ _ d) by auto. rewrite u8_land_1, set_bit_step_ok by auto. reflexivity.
Qed.

Lemma no_repl_getting m f q : no_repl q -> no_repl (getting m f q).
Proof.
  intros H. unfold getting. apply no_repl_pbind; [|intros; constructor].
  apply no_repl_pbind; [|intros; constructor]. apply no_repl_pbind; auto. intros; constructor.
Qed.
Lemma no_repl_setting q : no_repl q -> no_repl (setting q).
Proof.
  intros H. unfold setting. apply no_repl_pbind; [|intros; constructor].
  apply no_repl_pbind; auto. intros; constructor.
Qed.
Lemma plain_getting m f r i n v : plain (Run (getting m f (pget_loop r i n v))).
Proof. eexists. split; [reflexivity|]. apply no_repl_getting, no_repl_get_loop. Qed.
Lemma plain_setting r i n v : plain (Run (setting (pset_loop r i n v))).
Proof. eexists. split; [reflexivity|]. apply no_repl_setting, no_repl_set_loop. Qed.

(** ** One reader, one writer *)

Section OneOne.
  Context (m : mode) (f : field) (h : heap) (r : nat) (d : list N) (v : N).
  Hypothesis Hc : cell_at h r d.
  Hypothesis Hd : bytes_ok d.
  Hypothesis Hf : field_in f (length d).
  Hypothesis Hw : (f_width f <= 64)%nat.
  Let s := f_start f.
  Let w := f_width f.

  Lemma sw : (s + w <= 8 * length d)%nat.
  Proof. destruct Hf. unfold s, w, f_width. lia. Qed.

  (** Old up to position [c] of the field, new from there on. *)
  Definition mixed (c : nat) : list N := wbits d (s + c) (w - c) v.
  Lemma mixed_ok c : bytes_ok (mixed c).
  Proof. apply wbits_ok; auto. Qed.
  Lemma mixed_len c : length (mixed c) = length d.
  Proof. apply wbits_length. Qed.
  Lemma bit_mixed c j : (c <= w)%nat -> bit (mixed c) j =
    if ((s + c <=? j) && (j <? s + w))%nat then N.testbit v (N.of_nat (s + w - 1 - j)) else bit d j.
  Proof.
    intros H. pose proof sw. unfold mixed. rewrite bit_wbits by lia.
    replace (s + c + (w - c))%nat with (s + w)%nat by lia. reflexivity.
  Qed.

  (** [i] bits read, [j] bits written; the reader saw old bits before [c] and new ones since. *)
  Definition state (i j c : nat) : config (list res) :=
    (upd h r (Cell (mixed (w - j)) false),
     [Run (getting m f (pget_loop r (s + i) (w - i) (rv (mixed c) s i)));
      Run (setting (pset_loop r s (w - j) (N.shiftr v (N.of_nat j))))]).
  Definition sane (i j c : nat) : Prop :=
    (i <= w)%nat /\ (j <= w)%nat /\ (c <= i)%nat /\ ((c < i)%nat -> (w - j <= c)%nat).

  Lemma plain_state i j c : Forall plain (snd (state i j c)).
  Proof. repeat constructor; [apply plain_getting|apply plain_setting]. Qed.

  Lemma state_cell j : cell_at (upd h r (Cell (mixed (w - j)) false)) r (mixed (w - j)).
  Proof. apply (cell_at_upd _ _ d); auto. Qed.

  Lemma read_ext c c' i : (c <= w)%nat -> (c' <= w)%nat -> (i <= w)%nat ->
    (forall p, (p < i)%nat -> bit (mixed c) (s + p) = bit (mixed c') (s + p)) ->
    rv (mixed c) s i = rv (mixed c') s i.
  Proof.
    intros H1 H2 H3 H. pose proof sw. apply rv_ext; auto using mixed_ok; rewrite ?mixed_len; auto; [lia|].
    intros p Hp. replace p with (s + (p - s))%nat by lia. apply H. lia.
  Qed.

  Lemma reader_step i j c : sane i j c -> (i < w)%nat ->
    exists c', sane (S i) j c' /\ step (state i j c) 0 = Some (state (S i) j c') /\
      (c = i -> (i < w - j)%nat -> c' = S i) /\ ((w - j <= i)%nat -> c' = c).
  Proof.
    intros (H1 & H2 & H3 & H4) Hi. pose proof sw as Hs.
    set (c' := if (i <? w - j)%nat then S i else c).
    assert (Sane : sane (S i) j c').
    { unfold sane, c'. destruct (Nat.ltb_spec i (w - j)); lia. }
    exists c'. split; auto. split.
    - unfold state at 1. replace (w - i)%nat with (S (w - S i)) by lia.
      erewrite (get_step m f _ _ 0 r (mixed (w - j)) (s + i) (w - S i) (rv (mixed c) s i)).
      + unfold state. cbn [upd]. f_equal. f_equal. f_equal.
        replace (s + S i)%nat with (S (s + i)) by lia. do 2 f_equal.
        rewrite (rv_last (mixed c')) by (rewrite ?mixed_len; auto using mixed_ok; lia).
        rewrite (read_ext c' c i); try lia.
        * f_equal. f_equal. rewrite !bit_mixed by (unfold c'; destruct (Nat.ltb_spec i (w - j)); lia).
          unfold c'. destruct (Nat.ltb_spec i (w - j)).
          -- rewrite !(proj2 (Nat.leb_gt _ _)) by lia. reflexivity.
          -- rewrite (proj2 (Nat.leb_le (s + (w - j)) (s + i))) by lia.
             rewrite (proj2 (Nat.leb_le (s + c) (s + i))) by lia. reflexivity.
        * unfold c'. destruct (Nat.ltb_spec i (w - j)); lia.
        * unfold c'. destruct (Nat.ltb_spec i (w - j)); auto. intros p Hp.
          rewrite !bit_mixed by lia. rewrite (proj2 (Nat.leb_gt (s + S i) _)) by lia.
          rewrite (proj2 (Nat.leb_gt (s + c) _)); auto. destruct (Nat.eq_dec c i); [lia|]. lia.
      + repeat constructor; [apply plain_getting|apply plain_setting].
      + apply state_cell.
      + rewrite mixed_len. lia.
      + reflexivity.
      + eapply N.lt_le_trans; [apply rv_bound|]. apply N.pow_le_mono_r; [lia|]. unfold w in *. lia.
    - unfold c'. destruct (Nat.ltb_spec i (w - j)); split; intros; auto; lia.
  Qed.

  Lemma writer_step i j c : sane i j c -> (j < w)%nat ->
    sane i (S j) c /\ step (state i j c) 1 = Some (state i (S j) c).
  Proof.
    intros (H1 & H2 & H3 & H4) Hj. pose proof sw as Hs. split; [unfold sane; lia|].
    unfold state at 1. replace (w - j)%nat with (S (w - S j)) at 2 by lia.
    erewrite (set_step _ _ 1 r (mixed (w - j)) s (w - S j) (N.shiftr v (N.of_nat j))).
    - unfold state. cbn [upd]. rewrite upd_upd. f_equal. f_equal.
      + f_equal. f_equal. apply bytes_ext.
        * apply wbit_ok, mixed_ok.
        * apply mixed_ok.
        * rewrite wbit_length, !mixed_len. reflexivity.
        * intros p _. rewrite bit_wbit by (rewrite mixed_len; lia). rewrite !bit_mixed by lia.
          destruct (Nat.eqb_spec p (s + (w - S j))) as [->|Hne].
          -- rewrite (proj2 (Nat.leb_le _ _)) by lia. rewrite (proj2 (Nat.ltb_lt _ _)) by lia. cbn [andb].
             rewrite N.shiftr_spec'. f_equal. lia.
          -- destruct (Nat.leb_spec (s + (w - j)) p), (Nat.leb_spec (s + (w - S j)) p); auto; lia.
      + f_equal. f_equal. f_equal. f_equal. f_equal. rewrite N.shiftr_shiftr. f_equal. lia.
    - repeat constructor; [apply plain_getting|apply plain_setting].
    - apply state_cell.
    - apply mixed_ok.
    - rewrite mixed_len. lia.
    - reflexivity.
  Qed.

  Lemma reader_done j c : sane w j c -> step (state w j c) 0 = None.
  Proof.
    intros _. unfold state. rewrite Nat.sub_diag. cbn [pget_loop].
    destruct Hf as [H1 H2]. rewrite getting_done; auto. apply rv_bound.
  Qed.
  Lemma writer_done i c : step (state i w c) 1 = None.
  Proof. unfold state. rewrite Nat.sub_diag. reflexivity. Qed.

  Lemma state_runs sched c : run (state 0 0 0) sched = Some c ->
    exists i j k, sane i j k /\ c = state i j k.
  Proof.
    intros R. apply (run_inv (fun c => exists i j k, sane i j k /\ c = state i j k)) with (s := sched) (c := state 0 0 0);
      auto.
    - intros c0 n c1 (i & j & k & Hs & ->) E. destruct n as [|[|n]].
      + destruct (Nat.eq_dec i w) as [->|]; [rewrite reader_done in E by auto; discriminate|].
        destruct (reader_step i j k Hs) as (k' & Hs' & E' & _); [destruct Hs; lia|].
        rewrite E' in E. injection E as <-. eauto.
      + destruct (Nat.eq_dec j w) as [->|]; [rewrite writer_done in E; discriminate|].
        destruct (writer_step i j k Hs) as (Hs' & E'); [destruct Hs as (_ & Hx & _); lia|].
        rewrite E' in E. injection E as <-. eauto.
      + unfold state in E. cbn [step nth_error] in E. destruct n; discriminate.
    - exists O, O, O. split; auto. unfold sane. lia.
  Qed.

  Lemma state_start x y : h_ref x = r -> h_ref y = r ->
    start h (map (thread_prog m) [[OGet x f]; [OSet y f v]]) = state 0 0 0.
  Proof.
    intros Ex Ey. unfold start, state. cbn [map]. rewrite thread_get, thread_set, Ex, Ey.
    destruct Hf as [H1 H2].
    assert (E : range_len (f_end f) (f_start f) = w) by (unfold range_len, w, f_width; lia).
    rewrite E. rewrite !Nat.sub_0_r, Nat.add_0_r. rewrite rv_0. rewrite N.shiftr_0_r. fold s.
    rewrite upd_same; auto. rewrite Hc. f_equal. f_equal. unfold mixed. rewrite Nat.sub_diag. reflexivity.
  Qed.

  Lemma mixed_val c : (c <= w)%nat -> rv (mixed c) s w = splice (w - c) (field_val d f) v.
  Proof.
    intros H. pose proof sw as Hs. destruct Hf as [H1 H2]. unfold splice, field_val.
    rewrite <- rv_bits_val by auto. fold s. replace (f_end f - s + 1)%nat with w by reflexivity.
    apply N_bits_inj_nat. intros k.
    rewrite rv_testbit by (rewrite ?mixed_len; auto using mixed_ok).
    rewrite testbit_shift_add by (apply N.mod_lt; apply N.pow_nonzero; lia).
    destruct (Nat.ltb_spec k w) as [Hk|Hk].
    - rewrite bit_mixed by auto. rewrite (proj2 (Nat.ltb_lt _ (s + w))) by lia. rewrite andb_true_r.
      destruct (N.ltb_spec (N.of_nat k) (N.of_nat (w - c))).
      + rewrite (proj2 (Nat.leb_le _ _)) by lia. rewrite N.mod_pow2_bits_low by auto. f_equal. lia.
      + rewrite (proj2 (Nat.leb_gt _ _)) by lia. rewrite N.div_pow2_bits.
        replace (N.of_nat k - N.of_nat (w - c) + N.of_nat (w - c)) with (N.of_nat k) by lia.
        rewrite rv_testbit by auto. rewrite (proj2 (Nat.ltb_lt _ _) Hk). reflexivity.
    - rewrite (proj2 (N.ltb_ge _ _)) by lia. rewrite N.div_pow2_bits.
      replace (N.of_nat k - N.of_nat (w - c) + N.of_nat (w - c)) with (N.of_nat k) by lia.
      rewrite rv_testbit by auto. rewrite (proj2 (Nat.ltb_ge _ _) Hk). reflexivity.
  Qed.

  Lemma reader_result j c : sane w j c ->
    nth_error (snd (state w j c)) 0 = Some (Run (Done (Ret [RNum (splice (w - c) (field_val d f) v)]))).
  Proof.
    intros (_ & _ & Hx & _). unfold state. rewrite Nat.sub_diag. cbn [pget_loop snd nth_error].
    destruct Hf as [H1 H2]. rewrite getting_done by (auto; apply rv_bound).
    rewrite mixed_val by auto. reflexivity.
  Qed.

  Lemma torn_read x y sched h' ts o : h_ref x = r -> h_ref y = r ->
    run (start h (map (thread_prog m) [[OGet x f]; [OSet y f v]])) sched = Some (h', ts) ->
    nth_error ts 0 = Some (Run (Done o)) ->
    exists k, (k <= w)%nat /\ o = Ret [RNum (splice k (field_val d f) v)].
  Proof.
    intros Ex Ey R E. rewrite (state_start x y Ex Ey) in R.
    destruct (state_runs _ _ R) as (i & j & c & Hs & Ec). pose proof Hs as (H1 & H2 & H3 & H4).
    destruct (Nat.eq_dec i w) as [->|Hi].
    - pose proof (reader_result j c Hs) as Q. rewrite <- Ec in Q. cbn [snd] in Q. rewrite E in Q.
      injection Q as ->. exists (w - c)%nat. split; auto. lia.
    - exfalso. destruct (reader_step i j c Hs) as (c' & _ & E' & _); [lia|].
      rewrite <- Ec in E'. cbn [step] in E'. rewrite E in E'. discriminate.
  Qed.

  (** Reading [c] bits, then writing, then reading the rest. *)
  Lemma run_reads n : (n <= w)%nat -> run (state 0 0 0) (repeat 0%nat n) = Some (state n 0 n).
  Proof.
    induction n as [|n IH]; intros Hn; [reflexivity|].
    replace (S n) with (n + 1)%nat at 1 by lia. rewrite repeat_app, run_app, IH by lia.
    destruct (reader_step n 0 n) as (c' & _ & E & Ec & _); [unfold sane; lia|lia|].
    cbn [repeat run]. rewrite E. rewrite Ec by (auto; lia). reflexivity.
  Qed.
  Lemma run_writes c n j : (c <= w)%nat -> (j + n <= w)%nat -> sane c j c ->
    run (state c j c) (repeat 1%nat n) = Some (state c (j + n) c).
  Proof.
    intros Hcw. revert j; induction n as [|n IH]; intros j Hn Hs; [rewrite Nat.add_0_r; reflexivity|].
    cbn [repeat run]. destruct (writer_step c j c Hs) as [Hs' E]; [lia|]. rewrite E.
    rewrite IH by (auto; lia). do 2 f_equal. lia.
  Qed.
  Lemma run_rest c n i : (c <= i)%nat -> (i + n <= w)%nat ->
    run (state i w c) (repeat 0%nat n) = Some (state (i + n) w c).
  Proof.
    revert i; induction n as [|n IH]; intros i H1 H2; [rewrite Nat.add_0_r; reflexivity|].
    cbn [repeat run]. destruct (reader_step i w c) as (c' & _ & E & _ & Ec); [unfold sane; lia|lia|].
    rewrite E. rewrite Ec by lia. rewrite IH by lia. do 2 f_equal. lia.
  Qed.

  Lemma torn_read_reached x y k : h_ref x = r -> h_ref y = r -> (k <= w)%nat ->
    exists sched h' ts, run (start h (map (thread_prog m) [[OGet x f]; [OSet y f v]])) sched = Some (h', ts) /\
      Forall finished ts /\ nth_error ts 0 = Some (Run (Done (Ret [RNum (splice k (field_val d f) v)]))).
  Proof.
    intros Ex Ey Hk. exists (repeat 0%nat (w - k) ++ repeat 1%nat w ++ repeat 0%nat k).
    eexists. eexists. rewrite (state_start x y Ex Ey).
    rewrite run_app, run_reads by lia. rewrite run_app, run_writes by (unfold sane; lia). rewrite Nat.add_0_l.
    rewrite run_rest by lia. replace (w - k + k)%nat with w by lia.
    split; [unfold state; reflexivity|].
    assert (Hs : sane w w (w - k)) by (unfold sane; lia).
    pose proof (reader_result w (w - k) Hs) as Q. cbn [state snd nth_error] in Q.
    replace (w - (w - k))%nat with k in Q by lia. split; [|exact Q].
    injection Q as Q. constructor; [|constructor; [|constructor]].
    - rewrite Q. eexists. reflexivity.
    - rewrite Nat.sub_diag. eexists. reflexivity.
  Qed.
End OneOne.

(** ** Any number of readers and writers of one field *)

Definition values (ops : list op) : list N :=
  flat_map (fun o => match o with OSet _ _ v => [v] | _ => [] end) ops.

Lemma in_values ops x f v : In (OSet x f v) ops -> In v (values ops).
Proof. intros H. apply in_flat_map. exists (OSet x f v). split; auto. left. reflexivity. Qed.

(** Calls of the getter or setter of field [f] on headers with buffer [r]. *)
Definition on_field (r : nat) (f : field) (o : op) : Prop :=
  match o with
  | OGet x g | OSet x g _ => h_ref x = r /\ g = f
  | _ => False
  end.

Section Race.
  Context (m : mode) (f : field) (h : heap) (r : nat) (d : list N) (ops : list op).
  Hypothesis Hc : cell_at h r d.
  Hypothesis Hd : bytes_ok d.
  Hypothesis Hf : field_in f (length d).
  Hypothesis Hw : (f_width f <= 64)%nat.
  Hypothesis Hops : Forall (on_field r f) ops.
  Let s := f_start f.
  Let w := f_width f.
  Let vals := values ops.
  Let cands := field_val d f :: vals.

  Lemma swr : (s + w <= 8 * length d)%nat.
  Proof. destruct Hf. unfold s, w, f_width. lia. Qed.

  (** Bit at position [p] of the field has the value it has in one of [l]. *)
  Definition from (l : list N) (p : nat) (b : bool) : Prop :=
    exists c, In c l /\ b = N.testbit c (N.of_nat (w - 1 - p)).

  Definition tstate (d' : list N) (o : op) (t : thread (list res)) : Prop :=
    match o with
    | OGet _ _ => exists i acc, (i <= w)%nat /\ t = Run (getting m f (pget_loop r (s + i) (w - i) acc)) /\
        acc < 2 ^ N.of_nat i /\ forall p, (p < i)%nat -> from cands p (N.testbit acc (N.of_nat (i - 1 - p)))
    | OSet _ _ v => exists j, (j <= w)%nat /\ t = Run (setting (pset_loop r s (w - j) (N.shiftr v (N.of_nat j)))) /\
        forall p, (w - j <= p < w)%nat -> from vals p (bit d' (s + p))
    | _ => False
    end.

  Definition rstate (c : config (list res)) : Prop :=
    exists d', fst c = upd h r (Cell d' false) /\ bytes_ok d' /\ length d' = length d /\
      (forall j, (j < s \/ s + w <= j)%nat -> bit d' j = bit d j) /\
      (forall p, (p < w)%nat -> from cands p (bit d' (s + p))) /\
      Forall2 (tstate d') ops (snd c).

  Lemma tstate_plain d' o t : tstate d' o t -> plain t.
  Proof.
    destruct o; cbn [tstate]; try tauto.
    - intros (i & acc & _ & -> & _). apply plain_getting.
    - intros (j & _ & -> & _). apply plain_setting.
  Qed.
  Lemma rstate_plain d' l ts : Forall2 (tstate d') l ts -> Forall plain ts.
  Proof. induction 1; constructor; auto. eapply tstate_plain; eauto. Qed.

  (** Writing a bit of one of the values keeps the other threads' facts. *)
  Lemma tstate_wbit d' q b o t : length d' = length d -> (q < w)%nat -> from vals q b ->
    tstate d' o t -> tstate (wbit d' (s + q) b) o t.
  Proof.
    intros L Hq Hb. pose proof swr. destruct o; cbn [tstate]; auto.
    intros (j & Hj & Et & Hp). exists j. split; auto. split; auto. intros p Hpw.
    rewrite bit_wbit by lia. destruct (Nat.eqb_spec (s + p) (s + q)) as [E|E]; auto.
    replace p with q by lia. exact Hb.
  Qed.

  Lemma Forall2_upd {X Y} (R R' : X -> Y -> Prop) l l' i x y :
    Forall2 R l l' -> (forall a b, R a b -> R' a b) -> nth_error l i = Some x -> R' x y ->
    Forall2 R' l (upd l' i y).
  Proof.
    intros H Hi. revert i. induction H as [|a b l l' Hab Hl IH]; intros i Hx Hy; [destruct i; discriminate|].
    destruct i as [|i]; cbn [nth_error upd] in *.
    - injection Hx as ->. constructor; auto. clear -Hl Hi. induction Hl; constructor; auto.
    - constructor; auto.
  Qed.
  Lemma Forall2_nth {X Y} (R : X -> Y -> Prop) l l' i y : Forall2 R l l' -> nth_error l' i = Some y ->
    exists x, nth_error l i = Some x /\ R x y.
  Proof.
    intros H. revert i. induction H; intros [|i] E; cbn [nth_error] in *; try discriminate; eauto.
    injection E as <-. eauto.
  Qed.

  Lemma in_cands v : In v vals -> In v cands.
  Proof. right. auto. Qed.

  Lemma race_step c i c' : rstate c -> step c i = Some c' -> rstate c'.
  Proof.
    intros (d' & Eh & Hd' & L & Out & In' & Ts) E. pose proof swr as Hs.
    destruct c as [h1 ts]. cbn [fst snd] in *. subst h1.
    pose proof (rstate_plain _ _ _ Ts) as Pl.
    assert (Cell' : cell_at (upd h r (Cell d' false)) r d') by (apply (cell_at_upd _ _ d); auto).
    destruct (nth_error ts i) as [t|] eqn:Et; [|cbn [step] in E; rewrite Et in E; discriminate].
    destruct (Forall2_nth _ _ _ _ _ Ts Et) as (o & Eo & St).
    destruct o as [x g|x g v| |]; cbn [tstate] in St; try (destruct St; fail).
    - destruct St as (k & acc & Hk & -> & Ha & Hp).
      destruct (Nat.eq_dec k w) as [->|Hkw].
      + exfalso. cbn [step] in E. rewrite Et, Nat.sub_diag in E. cbn [pget_loop] in E.
        destruct Hf as [H1 H2]. rewrite getting_done in E by auto. discriminate.
      + assert (A63 : acc < 2 ^ 63).
        { eapply N.lt_le_trans; [exact Ha|]. apply N.pow_le_mono_r; [lia|]. unfold w in *. lia. }
        replace (w - k)%nat with (S (w - S k)) in Et by lia.
        rewrite (get_step m f _ ts i r d' (s + k) (w - S k) acc) in E by (auto; lia).
        injection E as <-. exists d'. cbn [fst snd]. split; auto. split; auto. split; auto. split; auto. split; auto.
        eapply Forall2_upd with (x := OGet x g); eauto. cbn [tstate].
        exists (S k), (2 * acc + b2n (bit d' (s + k))). split; [lia|].
        replace (s + S k)%nat with (S (s + k)) by lia. split; auto. split.
        * replace (N.of_nat (S k)) with (N.of_nat k + 1) by lia. rewrite N.pow_add_r.
          change (2 ^ 1) with 2. destruct (bit d' (s + k)); cbn [b2n]; lia.
        * intros p Hpk.
          replace (2 * acc + b2n (bit d' (s + k))) with (acc * 2 ^ 1 + b2n (bit d' (s + k)))
            by (change (2 ^ 1) with 2; lia).
          rewrite testbit_shift_add by (change (2 ^ 1) with 2; destruct (bit d' (s + k)); cbn [b2n]; lia).
          destruct (Nat.eq_dec p k) as [->|Hne].
          -- replace (S k - 1 - k)%nat with O by lia. change (N.of_nat 0 <? 1) with true. cbn iota.
             destruct (In' k) as (cc & Hcc & Ecc); [lia|]. exists cc. split; auto. rewrite <- Ecc.
             destruct (bit d' (s + k)); reflexivity.
          -- rewrite (proj2 (N.ltb_ge _ _)) by lia.
             replace (N.of_nat (S k - 1 - p) - 1) with (N.of_nat (k - 1 - p)) by lia. apply Hp. lia.
    - destruct St as (k & Hk & -> & Hp).
      destruct (Nat.eq_dec k w) as [->|Hkw].
      + exfalso. cbn [step] in E. rewrite Et, Nat.sub_diag in E. discriminate.
      + replace (w - k)%nat with (S (w - S k)) in Et by lia.
        rewrite (set_step _ ts i r d' s (w - S k) (N.shiftr v (N.of_nat k))) in E by (auto; lia).
        injection E as <-. rewrite upd_upd. set (b := N.testbit (N.shiftr v (N.of_nat k)) 0).
        assert (Hb : from vals (w - S k) b).
        { exists v. split; [eapply in_values, nth_error_In; eauto|]. unfold b. rewrite N.shiftr_spec'.
          f_equal. lia. }
        exists (wbit d' (s + (w - S k)) b). cbn [fst snd]. split; auto. split; [apply wbit_ok; auto|].
        split; [rewrite wbit_length; auto|]. split; [|split].
        * intros j Hj. rewrite bit_wbit by lia. destruct (Nat.eqb_spec j (s + (w - S k))); auto. lia.
        * intros p Hpw. rewrite bit_wbit by lia.
          destruct (Nat.eqb_spec (s + p) (s + (w - S k))) as [Ep|]; auto.
          replace p with (w - S k)%nat by lia. destruct Hb as (cc & Hcc & Ecc). exists cc. split; auto.
          apply in_cands; auto.
        * eapply Forall2_upd with (x := OSet x g v); eauto.
          -- intros a t' Hat. apply tstate_wbit; auto. lia.
          -- cbn [tstate]. exists (S k). split; [lia|]. split.
             { change (N.div2 (N.shiftr v (N.of_nat k))) with (N.shiftr (N.shiftr v (N.of_nat k)) 1).
               rewrite N.shiftr_shiftr. replace (N.of_nat k + 1) with (N.of_nat (S k)) by lia. reflexivity. }
             intros p Hpw. rewrite bit_wbit by lia.
             destruct (Nat.eqb_spec (s + p) (s + (w - S k))) as [Ep|Ep].
             ++ replace p with (w - S k)%nat by lia. exact Hb.
             ++ apply Hp. lia.
  Qed.

  Lemma race_start : rstate (start h (map (fun o => thread_prog m [o]) ops)).
  Proof.
    pose proof swr as Hs. destruct Hf as [H1 H2].
    exists d. cbn [start fst snd]. split; [rewrite upd_same; auto|]. split; auto. split; auto. split; auto. split.
    - intros p Hp. exists (field_val d f). split; [left; reflexivity|].
      unfold field_val. rewrite <- rv_bits_val by auto. fold s. replace (f_end f - s + 1)%nat with w by reflexivity.
      rewrite rv_testbit by auto. rewrite (proj2 (Nat.ltb_lt _ _)) by lia. f_equal. lia.
    - rewrite map_map. clearbody cands. clearbody vals.
      assert (E : range_len (f_end f) (f_start f) = w) by (unfold range_len, w, f_width; lia).
      assert (G : forall l, Forall (on_field r f) l ->
        Forall2 (tstate d) l (map (fun o => Run (thread_prog m [o])) l)); [|apply G; auto].
      induction 1 as [|o l Ho Hl IH]; cbn [map]; constructor; auto.
      destruct o as [x g|x g v| |]; cbn [on_field] in Ho; try (destruct Ho; fail); destruct Ho as [Hr ->]; cbn [tstate].
      + exists O, 0. rewrite thread_get, E, Hr. fold s. rewrite Nat.add_0_r, Nat.sub_0_r.
        split; [lia|]. split; auto. split; [reflexivity|]. intros p Hp. lia.
      + exists O. rewrite thread_set, E, Hr. fold s. rewrite Nat.sub_0_r, N.shiftr_0_r.
        split; [lia|]. split; auto. intros p Hp. lia.
  Qed.

  Lemma race_run sched c : run (start h (map (fun o => thread_prog m [o]) ops)) sched = Some c -> rstate c.
  Proof.
    intros R. apply (run_inv rstate) with (s := sched) (c := start h (map (fun o => thread_prog m [o]) ops)); auto.
    - intros. eapply race_step; eauto.
    - apply race_start.
  Qed.

  Lemma bitwise_field l d' : bytes_ok d' -> length d' = length d ->
    (forall p, (p < w)%nat -> from l p (bit d' (s + p))) -> bitwise_from w l (field_val d' f).
  Proof.
    intros Hd' L H. pose proof swr as Hs. destruct Hf as [H1 H2].
    unfold field_val. rewrite <- rv_bits_val by auto. fold s. replace (f_end f - s + 1)%nat with w by reflexivity.
    split; [apply rv_bound|]. intros i Hi. destruct (H (w - 1 - i)%nat) as (c & Hin & Ec); [lia|].
    exists c. split; auto. rewrite rv_testbit by (auto; lia). rewrite (proj2 (Nat.ltb_lt _ _) Hi).
    replace (s + w - 1 - i)%nat with (s + (w - 1 - i))%nat by lia. rewrite Ec. f_equal. lia.
  Qed.

  Lemma race sched h' ts :
    run (start h (map (fun o => thread_prog m [o]) ops)) sched = Some (h', ts) ->
    (exists d', cell_at h' r d' /\ bytes_ok d' /\ length d' = length d /\ only_changes r h h' /\
       (forall j, (j < f_start f \/ f_end f < j)%nat -> bit d' j = bit d j) /\
       bitwise_from w cands (field_val d' f) /\
       ((exists i x v t, nth_error ops i = Some (OSet x f v) /\ nth_error ts i = Some t /\ finished t) ->
        bitwise_from w vals (field_val d' f))) /\
    (forall i x t, nth_error ops i = Some (OGet x f) -> nth_error ts i = Some t -> finished t ->
       exists v, t = Run (Done (Ret [RNum v])) /\ bitwise_from w cands v) /\
    (forall i x v t, nth_error ops i = Some (OSet x f v) -> nth_error ts i = Some t -> finished t ->
       t = Run (Done (Ret [RUnit]))).
  Proof.
    intros R. destruct (race_run _ _ R) as (d' & Eh & Hd' & L & Out & In' & Ts). cbn [fst snd] in *. subst h'.
    pose proof swr as Hs.
    assert (Fin : forall n q, (n <= w)%nat -> finished (Run (setting (pset_loop r s n q))) -> n = O).
    { intros n q _ [o E]. destruct n; auto. discriminate. }
    assert (FinG : forall n p q, finished (Run (getting m f (pget_loop r p n q))) -> n = O).
    { intros n p q [o E]. destruct n; auto. discriminate. }
    split; [|split].
    - exists d'. split; [apply (cell_at_upd _ _ d); auto|]. split; auto. split; auto.
      split.
      { split; [apply upd_length|]. intros q Hq. apply upd_nth_error_other; auto. }
      split; [intros j Hj; apply Out; destruct Hf; unfold s, w, f_width; lia|].
      split; [apply bitwise_field; auto|].
      intros (i & x & v & t & Eo & Et & Hfin). destruct (Forall2_nth _ _ _ _ _ Ts Et) as (o & Eo' & St).
      rewrite Eo in Eo'. injection Eo' as <-. cbn [tstate] in St. destruct St as (j & Hj & -> & Hp).
      apply Fin in Hfin; [|lia]. apply bitwise_field; auto. intros p Hpw. apply Hp. lia.
    - intros i x t Eo Et Hfin. destruct (Forall2_nth _ _ _ _ _ Ts Et) as (o & Eo' & St).
      rewrite Eo in Eo'. injection Eo' as <-. cbn [tstate] in St. destruct St as (k & acc & Hk & -> & Ha & Hp).
      pose proof (FinG _ _ _ Hfin) as E0. assert (k = w) by lia. subst k. rewrite Nat.sub_diag. cbn [pget_loop].
      destruct Hf as [H1 H2]. exists acc. rewrite getting_done by auto. split; auto. split; auto.
      intros j Hj. destruct (Hp (w - 1 - j)%nat) as (c & Hin & Ec); [lia|]. exists c. split; auto.
      replace (w - 1 - (w - 1 - j))%nat with j in Ec by lia. exact Ec.
    - intros i x v t Eo Et Hfin. destruct (Forall2_nth _ _ _ _ _ Ts Et) as (o & Eo' & St).
      rewrite Eo in Eo'. injection Eo' as <-. cbn [tstate] in St. destruct St as (j & Hj & -> & Hp).
      apply Fin in Hfin; [|lia]. rewrite Hfin. reflexivity.
  Qed.
End Race.

(** ** Two writers: every mix can happen *)

(** Bits of [a] where [mask] has a one, of [b] elsewhere. *)
Definition select (mask a b : N) : N := N.lor (N.land a mask) (N.ldiff b mask).
Lemma select_bit mask a b i : N.testbit (select mask a b) i = if N.testbit mask i then N.testbit a i else N.testbit b i.
Proof.
  unfold select. rewrite N.lor_spec, N.land_spec, N.ldiff_spec.
  destruct (N.testbit mask i), (N.testbit a i), (N.testbit b i); reflexivity.
Qed.

Section Mix.
  Context (m : mode) (f : field) (h : heap) (r : nat) (d : list N) (a b mask : N).
  Hypothesis Hc : cell_at h r d.
  Hypothesis Hd : bytes_ok d.
  Hypothesis Hf : field_in f (length d).
  Let s := f_start f.
  Let w := f_width f.
  Let v := select mask a b.

  Definition mstate (j : nat) : config (list res) :=
    (upd h r (Cell (wbits d (s + (w - j)) j v) false),
     [Run (setting (pset_loop r s (w - j) (N.shiftr a (N.of_nat j))));
      Run (setting (pset_loop r s (w - j) (N.shiftr b (N.of_nat j))))]).
  Definition turn (j : nat) : list nat := if N.testbit mask (N.of_nat j) then [1; 0]%nat else [0; 1]%nat.

  Lemma mix_step j : (j < w)%nat -> run (mstate j) (turn j) = Some (mstate (S j)).
  Proof.
    intros Hj. assert (Hs : (s + w <= 8 * length d)%nat) by (destruct Hf; unfold s, w, f_width; lia).
    set (dj := wbits d (s + (w - j)) j v).
    assert (Oj : bytes_ok dj) by (apply wbits_ok; auto).
    assert (Lj : length dj = length d) by apply wbits_length.
    assert (Ej : (w - j = S (w - S j))%nat) by lia.
    set (q := (s + (w - S j))%nat).
    assert (Bj : forall x y, wbit (wbit dj q x) q y = wbit dj q y).
    { intros x y. apply bytes_ext; rewrite ?wbit_length; auto using wbit_ok.
      intros i _. rewrite !bit_wbit by (rewrite ?wbit_length; unfold q; lia). destruct (i =? q)%nat; auto. }
    assert (Vj : wbit dj q (N.testbit v (N.of_nat j)) = wbits d (s + (w - S j)) (S j) v).
    { apply bytes_ext; rewrite ?wbit_length, ?wbits_length; auto using wbit_ok, wbits_ok.
      intros i _. rewrite bit_wbit by (unfold q; lia). rewrite bit_wbits by lia.
      unfold dj. rewrite bit_wbits by lia. unfold q.
      destruct (Nat.eqb_spec i (s + (w - S j))) as [->|Hi].
      - rewrite (proj2 (Nat.leb_le _ _)) by lia. rewrite (proj2 (Nat.ltb_lt _ _)) by lia. cbn [andb]. f_equal. lia.
      - destruct (Nat.leb_spec (s + (w - j)) i), (Nat.leb_spec (s + (w - S j)) i); cbn [andb]; try lia; auto.
        destruct (Nat.ltb_spec i (s + (w - j) + j)), (Nat.ltb_spec i (s + (w - S j) + S j)); try lia; auto.
        f_equal. lia. }
    assert (Sh : forall x, N.shiftr (N.shiftr x (N.of_nat j)) 1 = N.shiftr x (N.of_nat (S j)))
      by (intros x; rewrite N.shiftr_shiftr; f_equal; lia).
    assert (T0 : forall x, N.testbit (N.shiftr x (N.of_nat j)) 0 = N.testbit x (N.of_nat j))
      by (intros x; rewrite N.shiftr_spec'; f_equal; lia).
    pose proof (select_bit mask a b (N.of_nat j)) as Sel. fold v in Sel.
    unfold mstate at 1. fold dj. rewrite Ej. unfold turn.
    destruct (N.testbit mask (N.of_nat j)); cbn [run].
    - rewrite (set_step _ _ 1 r dj s (w - S j) (N.shiftr b (N.of_nat j))); auto;
        [|repeat constructor; apply plain_setting|apply (cell_at_upd _ _ d); auto|lia].
      cbn [upd]. rewrite upd_upd.
      rewrite (set_step _ _ 0 r (wbit dj q (N.testbit (N.shiftr b (N.of_nat j)) 0)) s (w - S j) (N.shiftr a (N.of_nat j))); auto;
        [|repeat constructor; apply plain_setting|apply (cell_at_upd _ _ d); auto|apply wbit_ok; auto|rewrite wbit_length; lia].
      cbn [upd]. rewrite upd_upd. fold q. rewrite Bj, T0, <- Sel, Vj, !Sh. reflexivity.
    - rewrite (set_step _ _ 0 r dj s (w - S j) (N.shiftr a (N.of_nat j))); auto;
        [|repeat constructor; apply plain_setting|apply (cell_at_upd _ _ d); auto|lia].
      cbn [upd]. rewrite upd_upd.
      rewrite (set_step _ _ 1 r (wbit dj q (N.testbit (N.shiftr a (N.of_nat j)) 0)) s (w - S j) (N.shiftr b (N.of_nat j))); auto;
        [|repeat constructor; apply plain_setting|apply (cell_at_upd _ _ d); auto|apply wbit_ok; auto|rewrite wbit_length; lia].
      cbn [upd]. rewrite upd_upd. fold q. rewrite Bj, T0, <- Sel, Vj, !Sh. reflexivity.
  Qed.

  Lemma mix_run n : (n <= w)%nat -> run (mstate 0) (flat_map turn (seq 0 n)) = Some (mstate n).
  Proof.
    induction n as [|n IH]; intros Hn; [reflexivity|].
    rewrite seq_S, flat_map_app, run_app, IH by lia. cbn [flat_map Nat.add]. rewrite app_nil_r.
    apply mix_step. lia.
  Qed.

  Lemma mix_reached x y : h_ref x = r -> h_ref y = r ->
    exists sched ts, run (start h (map (fun o => thread_prog m [o]) [OSet x f a; OSet y f b])) sched =
      Some (upd h r (Cell (fset d f v) false), ts) /\ Forall finished ts.
  Proof.
    intros Ex Ey. exists (flat_map turn (seq 0 w)). eexists.
    assert (St : start h (map (fun o => thread_prog m [o]) [OSet x f a; OSet y f b]) = mstate 0).
    { unfold start, mstate. cbn [map]. rewrite !thread_set, Ex, Ey. destruct Hf as [H1 H2].
      assert (E : range_len (f_end f) (f_start f) = w) by (unfold range_len, w, f_width; lia).
      rewrite E, Nat.sub_0_r, !N.shiftr_0_r. cbn [wbits]. rewrite upd_same by auto. reflexivity. }
    rewrite St, mix_run by auto. unfold mstate. rewrite Nat.sub_diag, Nat.add_0_r.
    split; [reflexivity|]. repeat constructor; eexists; reflexivity.
  Qed.
End Mix.
