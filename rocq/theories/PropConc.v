(** PropConc.v -- properties C50 to C52: threads sharing headers. The client
    threads ([op], [thread_prog]) and the words used here are in ConcSpec.v. *)

From Coq Require Import Lia.
From Verif Require Import Base Bits Layout Heap Packet Conc Spec ConcSpec BitsProofs HeapProofs ConcProofs TornProofs.
Open Scope N_scope.

(** ** C50: disjoint fields *)

(** Threads that set pairwise disjoint fields of one buffer: in every interleaving
    that has finished, every field has its value and no other bit has changed. *)
Theorem C50_disjoint_setters : forall m h r d (ws : list (hdr * (field * N))),
  heap_ok h -> cell_at h r d -> Forall (fun w => h_ref (fst w) = r) ws ->
  Forall (fun w => field_in (fst (snd w)) (length d)) ws ->
  ForallOrdPairs (fun a b => disjoint (fst (snd a)) (fst (snd b))) ws ->
  forall sched h' ts,
  run (start h (map (fun w => thread_prog m [OSet (fst w) (fst (snd w)) (snd (snd w))]) ws)) sched = Some (h', ts) ->
  Forall finished ts ->
  exists d', cell_at h' r d' /\ only_changes r h h' /\ length d' = length d /\ bytes_ok d' /\
    Forall (fun w => field_val d' (fst (snd w)) = snd (snd w) mod 2 ^ N.of_nat (f_width (fst (snd w)))) ws /\
    (forall j, (forall w, In w ws -> ~ (f_start (fst (snd w)) <= j <= f_end (fst (snd w)))%nat) ->
       bit d' j = bit d j) /\
    Forall (fun t => t = Run (Done (Ret [RUnit]))) ts.
Proof.
  intros m h r d ws Hh Hc Hr Hin Hdis sched h' ts R Hf.
  assert (Hd : bytes_ok d).
  { apply (proj1 (Forall_forall _ _) Hh (Cell d false)). eapply nth_error_In; eauto. }
  assert (E : map (fun w => thread_prog m [OSet (fst w) (fst (snd w)) (snd (snd w))]) ws =
              map (thread_prog m) (map (setter r) ws)) by (rewrite map_map; reflexivity).
  rewrite E in R.
  destruct (threads_independent m h (map (setter r) ws) sched h' ts) as (E1 & E2 & _); auto.
  - apply Forall_map. apply Forall_forall. intros w Hw. constructor; [|constructor].
    exists d. cbn [op_hdr op_field]. rewrite (proj1 (Forall_forall _ _) Hr w Hw). split; auto.
    apply (proj1 (Forall_forall _ _) Hin w Hw).
  - clear -Hdis. induction Hdis as [|w ws Hw Hws IH]; cbn [map]; constructor; auto.
    apply Forall_map. eapply Forall_impl; [|exact Hw]. intros u Hu a b [<-|[]] [<-|[]] _. right. exact Hu.
  - rewrite (setters_one_by_one m r ws h d) in E1, E2 by auto. cbn [fst snd] in E1, E2.
    destruct (fset_all_ok (map snd ws) d Hd) as [O L].
    exists (fset_all d (map snd ws)). subst h'. split; [apply (cell_at_upd _ _ d); auto|].
    split; [split; [apply upd_length|intros q Hq; apply upd_nth_error_other; auto]|].
    split; auto. split; auto. split; [|split].
    + pose proof (fset_all_val (map snd ws) d Hd) as V. rewrite !Forall_map in V. apply V; auto.
      clear -Hdis. induction Hdis as [|w ws Hw Hws IH]; cbn [map]; constructor; auto. apply Forall_map. exact Hw.
    + intros j Hj. apply fset_all_bit; [rewrite Forall_map; auto|].
      intros u Hu. apply in_map_iff in Hu as (w & <- & Hw). auto.
    + subst ts. rewrite map_map. apply Forall_map. apply Forall_forall. auto.
Qed.
Print Assumptions C50_disjoint_setters.

(** Threads of any calls (getters, setters, [bytes], [set_bytes], on any headers) such that
    no bit written by one is touched by another: every finished interleaving gives each
    thread the result it gets alone, and the buffers are as if the threads had run one after
    the other. *)
Theorem C50_independent_threads : forall m h ths,
  heap_ok h -> Forall (Forall (op_in h)) ths -> ForallOrdPairs threads_apart ths ->
  forall sched h' ts, run (start h (map (thread_prog m) ths)) sched = Some (h', ts) -> Forall finished ts ->
  ts = map (fun l => Run (Done (fst (thread_call m l h)))) ths /\
  (map (fun o => Run (Done o)) (fst (one_by_one m ths h)), snd (one_by_one m ths h)) = (ts, h').
Proof.
  intros m h ths Hh Hin Hap sched h' ts R Hf.
  destruct (threads_independent m h ths sched h' ts Hh Hin Hap R Hf) as (E1 & E2 & E3).
  split; auto. rewrite <- E1, <- E2. reflexivity.
Qed.
Print Assumptions C50_independent_threads.

(** The programs of the threads, uninterrupted, are the one-thread methods of Heap.v. *)
Theorem C50_alone : forall m h l,
  exists n, run (start h [thread_prog m l]) (repeat 0%nat n) =
            Some (snd (thread_call m l h), [Run (Done (fst (thread_call m l h)))]).
Proof.
  intros m h l.
  assert (NR : no_repl (thread_prog m l)).
  { induction l as [|o l IH]; cbn [thread_prog]; [constructor|].
    apply no_repl_pbind; [|intros; apply no_repl_pbind; [auto|constructor]].
    destruct o; cbn [op_prog]; (apply no_repl_pbind; [|constructor]).
    - apply no_repl_bit_range. - apply no_repl_set_loop. - apply no_repl_bytes. - apply no_repl_set_bytes. }
  destruct (thread_call m l h) as [o h'] eqn:E.
  destruct (solo_steps (thread_prog m l) NR h [Run (thread_prog m l)] 0 o h') as [n Hn]; auto.
  - repeat constructor. exists (thread_prog m l). auto.
  - rewrite solo_thread. auto.
  - exists n. exact Hn.
Qed.
Print Assumptions C50_alone.

(** Two adjacent fields (inside one byte), a third thread reading and copying a third field:
    the hypotheses hold, and an interleaving that switches at every bit. *)
Definition ex_heap : heap := [Cell [0xA5; 0x3C; 0xF0] false].
Definition ex_x : hdr := Hdr Tester 0.
Definition ex_threads : list (list op) :=
  [[OSet ex_x (Fld "a" 0 2) 7]; [OSet ex_x (Fld "b" 3 8) 0x15];
   [OBytes ex_x (Fld "c" 16 23); OSet ex_x (Fld "d" 9 12) 9; OGet ex_x (Fld "d" 9 12)]].
Example C50_example :
  heap_ok ex_heap /\ Forall (Forall (op_in ex_heap)) ex_threads /\ ForallOrdPairs threads_apart ex_threads /\
  exists sched, run (start ex_heap (map (thread_prog Debug) ex_threads)) sched =
    Some ([Cell [0xEA; 0xCC; 0xF0] false],
          [Run (Done (Ret [RUnit])); Run (Done (Ret [RUnit])); Run (Done (Ret [RBytes [0xF0]; RUnit; RNum 9]))]).
Proof.
  split; [repeat constructor|]. split; [|split].
  - repeat constructor; exists [0xA5; 0x3C; 0xF0]; (split; [reflexivity|split; cbn; lia]).
  - unfold ex_threads. repeat first [apply FOP_cons | apply FOP_nil | apply Forall_cons | apply Forall_nil];
      intros a b Ha Hb _; cbn [In] in Ha, Hb;
      repeat destruct Ha as [<-|Ha]; repeat destruct Hb as [<-|Hb]; try contradiction; right; unfold disjoint; cbn; lia.
  - exists ([0; 1; 0; 2; 1; 0; 1; 2; 1; 2; 1; 2; 1]%nat ++ repeat 2%nat 12). vm_compute. reflexivity.
Qed.

(** ** C51: one field *)

(** A getter racing with a setter returns the high bits of the old value and the low bits
    of the new one, cut somewhere ([k = 0]: old; [k = width]: new) ... *)
Theorem C51_torn_read_shape : forall m f h r d v x y,
  cell_at h r d -> bytes_ok d -> field_in f (length d) -> (f_width f <= 64)%nat ->
  h_ref x = r -> h_ref y = r ->
  forall sched h' ts o,
  run (start h (map (thread_prog m) [[OGet x f]; [OSet y f v]])) sched = Some (h', ts) ->
  nth_error ts 0 = Some (Run (Done o)) ->
  exists k, (k <= f_width f)%nat /\ o = Ret [RNum (splice k (field_val d f) v)].
Proof. intros m f h r d v x y Hc Hd Hf Hw Hx Hy sched h' ts o. eapply torn_read; eauto. Qed.
Print Assumptions C51_torn_read_shape.

(** ... and every cut happens in some complete interleaving. *)
Theorem C51_torn_read_all : forall m f h r d v x y k,
  cell_at h r d -> bytes_ok d -> field_in f (length d) -> (f_width f <= 64)%nat ->
  h_ref x = r -> h_ref y = r -> (k <= f_width f)%nat ->
  exists sched h' ts, run (start h (map (thread_prog m) [[OGet x f]; [OSet y f v]])) sched = Some (h', ts) /\
    Forall finished ts /\ nth_error ts 0 = Some (Run (Done (Ret [RNum (splice k (field_val d f) v)]))).
Proof. intros. eapply torn_read_reached; eauto. Qed.
Print Assumptions C51_torn_read_all.

(** So the claim for getters is false: 0x00FF is neither 0x0000 nor 0xFFFF. *)
Theorem C51_torn_read_refuted :
  exists h x f old new sched h' ts v,
    (exists d, cell_at h (h_ref x) d /\ bytes_ok d /\ field_in f (length d) /\ field_val d f = old) /\
    (f_width f <= 64)%nat /\ new < 2 ^ N.of_nat (f_width f) /\
    run (start h (map (thread_prog Release) [[OGet x f]; [OSet x f new]])) sched = Some (h', ts) /\
    Forall finished ts /\ nth_error ts 0 = Some (Run (Done (Ret [RNum v]))) /\ v <> old /\ v <> new.
Proof.
  exists [Cell [0; 0] false], (Hdr Tester 0), (Fld "f" 0 15), 0, 0xFFFF.
  exists (repeat 0%nat 8 ++ repeat 1%nat 16 ++ repeat 0%nat 8). eexists. eexists. exists 0x00FF.
  split. { exists [0; 0]. split; [reflexivity|]. split; [repeat constructor|]. split; [split; cbn; lia|reflexivity]. }
  split; [cbn; lia|]. split; [reflexivity|].
  split; [vm_compute; reflexivity|]. split; [repeat constructor; eexists; reflexivity|].
  split; [reflexivity|]. split; discriminate.
Qed.
Print Assumptions C51_torn_read_refuted.

(** Any number of getters and setters of one field, at every moment: nothing outside the
    field changes; every bit of the field is that bit of the old value or of a value being
    written, and of a written one once a setter has finished; so for what getters return. *)
Theorem C51_bits : forall m f h r d ops,
  cell_at h r d -> bytes_ok d -> field_in f (length d) -> (f_width f <= 64)%nat ->
  Forall (on_field r f) ops ->
  forall sched h' ts, run (start h (map (fun o => thread_prog m [o]) ops)) sched = Some (h', ts) ->
  (exists d', cell_at h' r d' /\ bytes_ok d' /\ length d' = length d /\ only_changes r h h' /\
     (forall j, (j < f_start f \/ f_end f < j)%nat -> bit d' j = bit d j) /\
     bitwise_from (f_width f) (field_val d f :: values ops) (field_val d' f) /\
     ((exists i x v t, nth_error ops i = Some (OSet x f v) /\ nth_error ts i = Some t /\ finished t) ->
      bitwise_from (f_width f) (values ops) (field_val d' f))) /\
  (forall i x t, nth_error ops i = Some (OGet x f) -> nth_error ts i = Some t -> finished t ->
     exists v, t = Run (Done (Ret [RNum v])) /\ bitwise_from (f_width f) (field_val d f :: values ops) v) /\
  (forall i x v t, nth_error ops i = Some (OSet x f v) -> nth_error ts i = Some t -> finished t ->
     t = Run (Done (Ret [RUnit]))).
Proof. intros. eapply race; eauto. Qed.
Print Assumptions C51_bits.

(** With a single value there is nothing to mix: a finished setter alone leaves its value,
    a getter among getters returns the stored one. *)
Corollary C51_single_value : forall w c v, bitwise_from w [c] v -> v = c mod 2 ^ N.of_nat w.
Proof.
  intros w c v [Hv H]. apply N_bits_inj_nat. intros k. destruct (Nat.lt_ge_cases k w) as [L|L].
  - rewrite N.mod_pow2_bits_low by lia. destruct (H k L) as (c' & [<-|[]] & E). exact E.
  - rewrite N.mod_pow2_bits_high by lia. apply (testbit_high v (N.of_nat w)); auto. lia.
Qed.
Print Assumptions C51_single_value.

(** Two racing setters: every way of taking each bit from either value happens. *)
Theorem C51_torn_write_all : forall m f h r d a b mask x y,
  cell_at h r d -> bytes_ok d -> field_in f (length d) -> h_ref x = r -> h_ref y = r ->
  exists sched h' ts d',
    run (start h (map (fun o => thread_prog m [o]) [OSet x f a; OSet y f b])) sched = Some (h', ts) /\
    Forall finished ts /\ cell_at h' r d' /\
    forall i, (i < f_width f)%nat ->
      N.testbit (field_val d' f) (N.of_nat i) =
      if N.testbit mask (N.of_nat i) then N.testbit a (N.of_nat i) else N.testbit b (N.of_nat i).
Proof.
  intros m f h r d a b mask x y Hc Hd Hf Hx Hy.
  destruct (mix_reached m f h r d a b mask Hc Hd Hf x y Hx Hy) as (sched & ts & R & F).
  exists sched. eexists. exists ts. exists (fset d f (select mask a b)). split; [exact R|]. split; [exact F|].
  split; [apply (cell_at_upd _ _ d); auto|]. intros i Hi. rewrite field_val_fset by auto.
  rewrite N.mod_pow2_bits_low by lia. apply select_bit.
Qed.
Print Assumptions C51_torn_write_all.

(** So the claim for setters is false too. *)
Theorem C51_torn_write_refuted :
  exists h x f a b sched h' ts d',
    (exists d, cell_at h (h_ref x) d /\ bytes_ok d /\ field_in f (length d)) /\
    a < 2 ^ N.of_nat (f_width f) /\ b < 2 ^ N.of_nat (f_width f) /\
    run (start h (map (thread_prog Release) [[OSet x f a]; [OSet x f b]])) sched = Some (h', ts) /\
    Forall finished ts /\ cell_at h' (h_ref x) d' /\ field_val d' f <> a /\ field_val d' f <> b.
Proof.
  exists [Cell [0; 0] false], (Hdr Tester 0), (Fld "f" 0 15), 0x1234, 0xABCD.
  exists (repeat 0%nat 8 ++ repeat 1%nat 16 ++ repeat 0%nat 8). eexists. eexists. exists [0x12; 0xCD].
  split. { exists [0; 0]. split; [reflexivity|]. split; [repeat constructor|]. split; cbn; lia. }
  split; [reflexivity|]. split; [reflexivity|].
  split; [vm_compute; reflexivity|]. split; [repeat constructor; eexists; reflexivity|].
  split; [reflexivity|]. split; discriminate.
Qed.
Print Assumptions C51_torn_write_refuted.

(** Three threads on one field, stopped while one setter has finished. *)
Example C51_example :
  let ops := [OGet ex_x (Fld "a" 4 11); OSet ex_x (Fld "a" 4 11) 0xFF; OSet ex_x (Fld "a" 4 11) 0] in
  Forall (on_field 0 (Fld "a" 4 11)) ops /\ field_in (Fld "a" 4 11) 3 /\
  field_val [0xA5; 0x3C; 0xF0] (Fld "a" 4 11) = 0x53 /\
  exists sched ts, run (start ex_heap (map (fun o => thread_prog Debug [o]) ops)) sched =
    Some ([Cell [0xAF; 0x0C; 0xF0] false], ts) /\
    nth_error ts 0 = Some (Run (Done (Ret [RNum 0x50]))) /\ nth_error ts 1 = Some (Run (Done (Ret [RUnit]))).
Proof.
  cbn zeta. split; [repeat constructor|]. split; [split; cbn; lia|]. split; [reflexivity|].
  exists (repeat 0%nat 4 ++ repeat 1%nat 4 ++ repeat 2%nat 4 ++ repeat 0%nat 4 ++ repeat 1%nat 4). eexists.
  split; [vm_compute; reflexivity|]. split; reflexivity.
Qed.

(** ** C52: deadlock *)

(** Threads that never call [replace]: in every reachable state every thread that has not
    finished can go on, whatever the others do. *)
Theorem C52_no_deadlock : forall A h (ps : list (prog A)) c,
  Forall no_repl ps -> reaches h ps c ->
  (forall i t, nth_error (snd c) i = Some t -> ~ finished t -> exists c', step c i = Some c') /\ ~ deadlocked c.
Proof.
  intros A h ps c Hp [sched R].
  assert (P : Forall plain (snd c)).
  { apply (run_inv (fun c : config A => Forall plain (snd c))) with (s := sched) (c := start h ps); auto.
    - intros c0 i c1 H E. eapply plain_step; eauto.
    - apply plain_start; auto. }
  assert (G : forall i t, nth_error (snd c) i = Some t -> ~ finished t -> exists c', step c i = Some c')
    by (intros; eapply plain_progress; eauto).
  split; auto. intros [St (t & Ht & Hf)]. apply In_nth_error in Ht as [i Hi].
  destruct (G i t Hi Hf) as [c' E]. rewrite (St i) in E. discriminate.
Qed.
Print Assumptions C52_no_deadlock.

(** The methods other than [replace], and sequences of such calls, are such programs. *)
Theorem C52_methods : forall m x f msb lsb v l p,
  no_repl (pget m x f) /\ no_repl (pset x f v) /\ no_repl (pbytes m x msb lsb) /\
  no_repl (pset_bytes m x msb lsb l) /\ no_repl (pto_vec x) /\ no_repl (ppkt_to_vec p) /\
  forall A B (q : prog A) (k : A -> prog B), no_repl q -> (forall a, no_repl (k a)) -> no_repl (pbind q k).
Proof.
  intros. split; [apply no_repl_bit_range|]. split; [apply no_repl_set_loop|].
  split; [apply no_repl_bytes|]. split; [apply no_repl_set_bytes|]. split; [apply no_repl_to_vec|].
  split; [apply no_repl_pbind; [apply no_repl_concat_vecs|constructor]|].
  intros. apply no_repl_pbind; auto.
Qed.
Print Assumptions C52_methods.

(** No schedule goes on for ever (also with [replace]): together, threads that never call
    [replace] all finish under every schedule that keeps choosing threads that can move. *)
Theorem C52_schedules_finite : forall A h (ps : list (prog A)) (s : nat -> nat),
  exists n, run (start h ps) (map s (seq 0 n)) = None.
Proof. intros. apply schedules_finite. Qed.
Print Assumptions C52_schedules_finite.

Theorem C52_all_finish : forall A h (ps : list (prog A)) c, Forall no_repl ps -> reaches h ps c ->
  stuck c -> Forall finished (snd c).
Proof.
  intros A h ps c Hp R St. apply Forall_forall. intros t Ht. apply In_nth_error in Ht as [i Hi].
  assert (D : finished t \/ ~ finished t).
  { destruct t as [[o|B r body k|x o k]|x o k]; [left; exists o; auto| | |]; right; intros [o' E]; discriminate. }
  destruct D as [|D]; auto. destruct (C52_no_deadlock A h ps c Hp R) as [G _].
  destruct (G i t Hi D) as [c' E]. rewrite (St i) in E. discriminate.
Qed.
Print Assumptions C52_all_finish.

(** [replace] calls that respect some order of the buffers never deadlock. *)
Theorem C52_ordered_replace : forall A rank h (ps : list (prog A)) c,
  Forall (ordered rank) ps -> reaches h ps c -> ~ deadlocked c.
Proof.
  intros A rank h ps c Hp [sched R] [St U].
  assert (P : Forall (ordered_thread rank) (snd c)).
  { apply (run_inv (fun c : config A => Forall (ordered_thread rank) (snd c))) with (s := sched) (c := start h ps); auto.
    - intros c0 i c1 H E. eapply ordered_step; eauto.
    - cbn [start snd]. apply Forall_map. exact Hp. }
  destruct (ordered_progress rank c P U) as (i & c' & E). rewrite (St i) in E. discriminate.
Qed.
Print Assumptions C52_ordered_replace.

(** [a.replace(&b)] where [b] shares [a]'s buffer, with any other threads: once it has
    begun it never ends, the buffer is empty, and everybody who wants the buffer waits. *)
Theorem C52_self_replace : forall A h (ps : list (prog A)) i x o k d,
  nth_error ps i = Some (pbind (preplace x o) k) -> h_ref x = h_ref o -> cell_at h (h_ref x) d ->
  (exists c, step (start h ps) i = Some c) /\
  forall sched c, run (start h ps) (i :: sched) = Some c ->
    (exists t, nth_error (snd c) i = Some t /\ ~ finished t) /\
    step c i = None /\
    (forall j B body k', nth_error (snd c) j = Some (Run (Sync B (h_ref x) body k')) -> step c j = None).
Proof.
  intros A h ps i x o k d Hi Ho Hc. unfold preplace in Hi. cbn [pbind] in Hi. rewrite <- Ho in Hi.
  set (r := h_ref x) in *.
  assert (U : forall q, locked (map Run ps) q = false).
  { intros q. unfold locked. clear. induction ps; [reflexivity|]. exact IHps. }
  assert (E : step (start h ps) i =
    Some (upd h r (Cell [] false), upd (map Run ps) i (Wait r r (pbind (pret tt) k)))).
  { cbn [step start]. rewrite nth_error_map, Hi. cbn [option_map thread_step]. rewrite U.
    unfold section_step. rewrite (with_lock_cell _ _ d) by auto. reflexivity. }
  split; [eauto|]. intros sched c. cbn [run]. rewrite E. intros R.
  assert (W : nth_error (snd c) i = Some (Wait r r (pbind (pret tt) k))).
  { apply (run_inv (fun c : config A => nth_error (snd c) i = Some (Wait r r (pbind (pret tt) k))))
      with (s := sched) (c := (upd h r (Cell [] false), upd (map Run ps) i (Wait r r (pbind (pret tt) k)))); auto.
    - intros c0 j c1 H0 E0. eapply self_wait; eauto.
    - cbn [snd]. apply (upd_nth_error _ _ (Run (Repl r r (pbind (pret tt) k)))).
      rewrite nth_error_map, Hi. reflexivity. }
  assert (L : locked (snd c) r = true).
  { apply existsb_exists. eexists. split; [eapply nth_error_In; exact W|]. apply Nat.eqb_refl. }
  destruct c as [h1 ts]. cbn [snd] in *. split.
  - eexists. split; [exact W|]. intros [e He]. discriminate.
  - split.
    + cbn [step]. rewrite W. cbn [thread_step]. rewrite L. reflexivity.
    + intros j B body k' Hj. cbn [step]. rewrite Hj. cbn [thread_step]. rewrite L. reflexivity.
Qed.
Print Assumptions C52_self_replace.

(** Crossing [a.replace(&b)] and [b.replace(&a)]: for all contents there is a schedule after
    which neither finishes and both buffers are empty, and one in which both finish. *)
Theorem C52_crossing_replace : forall h x y d e,
  cell_at h (h_ref x) d -> cell_at h (h_ref y) e -> h_ref x <> h_ref y ->
  (exists h' ts, run (start h [preplace x y; preplace y x]) [0; 1]%nat = Some (h', ts) /\
     deadlocked (h', ts) /\ Forall (fun t => ~ finished t) ts /\
     cell_at h' (h_ref x) [] /\ cell_at h' (h_ref y) []) /\
  (exists h' ts, run (start h [preplace x y; preplace y x]) [0; 0; 1; 1]%nat = Some (h', ts) /\
     Forall finished ts /\ cell_at h' (h_ref x) e /\ cell_at h' (h_ref y) e).
Proof.
  intros h [T1 r] [T2 q] d e Hr Hq Hne. cbn [h_ref] in *. unfold preplace, start. cbn [h_ref map].
  assert (N1 : (r =? q)%nat = false) by (apply Nat.eqb_neq; auto).
  assert (N2 : (q =? r)%nat = false) by (apply Nat.eqb_neq; auto).
  assert (Hq1 : cell_at (upd h r (Cell [] false)) q e) by (unfold cell_at; rewrite upd_nth_error_other; auto).
  assert (S0 : step (h, [Run (Repl r q (pret tt)); Run (Repl q r (pret tt))]) 0 =
    Some (upd h r (Cell [] false), [Wait r q (pret tt); Run (Repl q r (pret tt))])).
  { cbn [step nth_error thread_step locked existsb holds_lock orb]. unfold section_step.
    rewrite (with_lock_cell _ _ d) by auto. reflexivity. }
  split.
  - assert (S1 : step (upd h r (Cell [] false), [Wait r q (pret tt); Run (Repl q r (pret tt))]) 1 =
      Some (upd (upd h r (Cell [] false)) q (Cell [] false), [Wait r q (pret tt); Wait q r (pret tt)])).
    { cbn [step nth_error thread_step locked existsb holds_lock orb]. rewrite N1. unfold section_step.
      rewrite (with_lock_cell _ _ e) by auto. reflexivity. }
    eexists. eexists. split; [cbn [run]; rewrite S0, S1; reflexivity|].
    assert (NF : forall a b, ~ finished (@Wait unit a b (pret tt))) by (intros a b [o H]; discriminate).
    split; [split|].
    + intros i. destruct i as [|[|i]]; cbn [step nth_error thread_step locked existsb holds_lock].
      * rewrite N1, Nat.eqb_refl. reflexivity.
      * rewrite N2, Nat.eqb_refl. reflexivity.
      * destruct i; reflexivity.
    + eexists. split; [left; reflexivity|apply NF].
    + split; [repeat constructor; apply NF|]. split.
      * unfold cell_at. rewrite upd_nth_error_other by auto. eapply upd_nth_error; exact Hr.
      * eapply upd_nth_error; exact Hq1.
  - set (h1 := upd h r (Cell [] false)) in *.
    assert (Hr1 : nth_error h1 r = Some (Cell [] false)) by (eapply upd_nth_error; exact Hr).
    assert (S1 : step (h1, [Wait r q (pret tt); Run (Repl q r (pret tt))]) 0 =
      Some (upd h1 r (Cell e false), [Run (pret tt); Run (Repl q r (pret tt))])).
    { cbn [step nth_error thread_step locked existsb holds_lock orb]. rewrite N1. cbn [orb].
      rewrite Hr1, Hq1. reflexivity. }
    set (h2 := upd h1 r (Cell e false)) in *.
    assert (Hq2 : cell_at h2 q e) by (unfold cell_at, h2; rewrite upd_nth_error_other; auto).
    assert (Hr2 : cell_at h2 r e) by (eapply upd_nth_error; exact Hr1).
    assert (S2 : step (h2, [Run (pret tt); Run (Repl q r (pret tt))]) 1 =
      Some (upd h2 q (Cell [] false), [Run (pret tt); Wait q r (pret tt)])).
    { cbn [step nth_error thread_step locked existsb holds_lock orb]. unfold section_step.
      rewrite (with_lock_cell _ _ e) by auto. reflexivity. }
    set (h3 := upd h2 q (Cell [] false)) in *.
    assert (Hq3 : nth_error h3 q = Some (Cell [] false)) by (eapply upd_nth_error; exact Hq2).
    assert (Hr3 : nth_error h3 r = Some (Cell e false)) by (unfold h3; rewrite upd_nth_error_other; auto).
    assert (S3 : step (h3, [Run (pret tt); Wait q r (pret tt)]) 1 =
      Some (upd h3 q (Cell e false), [Run (pret tt); Run (pret tt)])).
    { cbn [step nth_error thread_step locked existsb holds_lock orb]. rewrite N2. cbn [orb].
      rewrite Hq3, Hr3. reflexivity. }
    eexists. eexists. split; [cbn [run]; rewrite S0, S1, S2, S3; reflexivity|].
    split; [repeat constructor; eexists; reflexivity|]. split.
    + unfold cell_at. rewrite upd_nth_error_other; auto.
    + eapply upd_nth_error; exact Hq3.
Qed.
Print Assumptions C52_crossing_replace.

(** The model's locks are locks: two threads are never both between the two locks of
    [replace] holding the same buffer. *)
Theorem C52_mutual_exclusion : forall A h (ps : list (prog A)) c i j x o k o' k',
  reaches h ps c -> nth_error (snd c) i = Some (Wait x o k) -> nth_error (snd c) j = Some (Wait x o' k') -> i = j.
Proof. intros A h ps c i j x o k o' k' [s R]. eapply mutex; eauto. Qed.
Print Assumptions C52_mutual_exclusion.

(** Threads with ordered [replace] calls, one waiting for the other at some point. *)
Example C52_example :
  let h := [Cell [1] false; Cell [2] false; Cell [3] false] in
  let ps := [preplace (Hdr Tester 0) (Hdr Tester 1); preplace (Hdr Tester 1) (Hdr Tester 2)] in
  Forall (ordered (fun r => r)) ps /\ cell_at h 0 [1] /\
  (exists c, run (start h ps) [1; 0]%nat = Some c /\ step c 0 = None) /\
  (exists ts, run (start h ps) [1; 0; 1; 0]%nat = Some ([Cell [3] false; Cell [3] false; Cell [3] false], ts) /\
     Forall finished ts).
Proof.
  cbn zeta. split; [|split; [reflexivity|split]].
  - repeat constructor.
  - eexists. split; [reflexivity|reflexivity].
  - eexists. split; [reflexivity|]. repeat constructor; eexists; reflexivity.
Qed.
