(** ConcProofs.v -- lemmas on interleavings. *)

From Coq Require Import Lia.
From Verif Require Import Base Bits Layout Heap Packet Conc Spec ConcSpec BitsProofs HeapProofs.
Open Scope N_scope.

(** ** Uninterrupted programs are the methods of Heap.v *)

Lemma solo_pbind {A B} (p : prog A) (f : A -> prog B) h :
  solo (pbind p f) h = bind (solo p) (fun a => solo (f a)) h.
Proof.
  revert h. induction p as [o|C r body k IH|x o k IH]; intros h; cbn [pbind solo].
  - destruct o; reflexivity.
  - unfold bind. destruct (with_lock r body h) as [[c| | | |] h']; auto. apply IH.
  - unfold bind. destruct (hreplace _ _ h) as [[c| | | |] h']; auto. apply IH.
Qed.

Lemma bind_ext {A B} (x y : M A) (f g : A -> M B) h :
  x h = y h -> (forall a h, f a h = g a h) -> bind x f h = bind y g h.
Proof. intros E H. unfold bind. rewrite E. destruct (y h) as [[| | | |] ?]; auto. Qed.

Lemma solo_get_loop r i n v h : solo (pget_loop r i n v) h = hget_loop r i n v h.
Proof.
  revert i v h. induction n as [|n IH]; intros; [reflexivity|]. cbn [pget_loop hget_loop solo].
  apply bind_ext; auto.
Qed.
Lemma solo_bit_range m x msb lsb h : solo (pbit_range m x msb lsb) h = hbit_range m x msb lsb h.
Proof.
  unfold pbit_range, hbit_range. rewrite solo_pbind. apply bind_ext; [apply solo_get_loop|reflexivity].
Qed.
Lemma solo_get m x f h : solo (pget m x f) h = hget m x f h.
Proof. apply solo_bit_range. Qed.
Lemma solo_set_loop r lsb n v h : solo (pset_loop r lsb n v) h = hset_loop r lsb n v h.
Proof.
  revert v h. induction n as [|n IH]; intros; [reflexivity|]. cbn [pset_loop hset_loop solo].
  apply bind_ext; auto.
Qed.
Lemma solo_set_bit_range x msb lsb v h : solo (pset_bit_range x msb lsb v) h = hset_bit_range x msb lsb v h.
Proof. apply solo_set_loop. Qed.
Lemma solo_set x f v h : solo (pset x f v) h = hset x f v h.
Proof. apply solo_set_loop. Qed.
Lemma solo_bytes_loop m x i n h : solo (pbytes_loop m x i n) h = hbytes_loop m x i n h.
Proof.
  revert i h. induction n as [|n IH]; intros; [reflexivity|]. cbn [pbytes_loop hbytes_loop].
  rewrite solo_pbind. apply bind_ext; [apply solo_bit_range|]. intros a h'.
  rewrite solo_pbind. apply bind_ext; auto.
Qed.
Lemma solo_bytes m x msb lsb h : solo (pbytes m x msb lsb) h = hbytes m x msb lsb h.
Proof.
  unfold pbytes, hbytes. rewrite solo_pbind. apply bind_ext; auto. intros; apply solo_bytes_loop.
Qed.
Lemma solo_set_bytes_loop x i n l j h :
  solo (pset_bytes_loop x i n l j) h = hset_bytes_loop x i n l j h.
Proof.
  revert i j h. induction n as [|n IH]; intros; [reflexivity|]. cbn [pset_bytes_loop hset_bytes_loop].
  rewrite solo_pbind. apply bind_ext; auto. intros a h'.
  rewrite solo_pbind. apply bind_ext; auto. apply solo_set_bit_range.
Qed.
Lemma solo_set_bytes m x msb lsb l h : solo (pset_bytes m x msb lsb l) h = hset_bytes m x msb lsb l h.
Proof.
  unfold pset_bytes, hset_bytes. rewrite solo_pbind. apply bind_ext; auto.
  intros; apply solo_set_bytes_loop.
Qed.
Lemma solo_to_vec x h : solo (pto_vec x) h = hto_vec x h.
Proof.
  unfold pto_vec, hto_vec. cbn [solo]. unfold bind. destruct (with_lock _ _ h) as [[| | | |] ?]; reflexivity.
Qed.
Lemma solo_replace x o h : solo (preplace x o) h = hreplace x o h.
Proof.
  unfold preplace. cbn [solo]. unfold bind.
  change (hreplace (Hdr Tester (h_ref x)) (Hdr Tester (h_ref o)) h) with (hreplace x o h).
  destruct (hreplace x o h) as [[[]| | | |] ?]; reflexivity.
Qed.
Lemma solo_concat_vecs l h : solo (pconcat_vecs l) h = concat_vecs l h.
Proof.
  revert h. induction l as [|x l IH]; intros; [reflexivity|]. cbn [pconcat_vecs concat_vecs].
  rewrite solo_pbind. apply bind_ext; [apply solo_to_vec|]. intros a h'.
  rewrite solo_pbind. apply bind_ext; auto.
Qed.
Lemma solo_pkt_to_vec p h : solo (ppkt_to_vec p) h = to_vec p h.
Proof.
  unfold ppkt_to_vec, to_vec. rewrite solo_pbind. apply bind_ext; auto. apply solo_concat_vecs.
Qed.

(** ** Steps *)

Lemma upd_nth_error {A} (l : list A) i a b : nth_error l i = Some a -> nth_error (upd l i b) i = Some b.
Proof.
  intros H. rewrite nth_error_upd, Nat.eqb_refl.
  assert (L : (i < length l)%nat) by (apply nth_error_Some; congruence).
  rewrite (proj2 (Nat.ltb_lt _ _) L). reflexivity.
Qed.
Lemma upd_nth_error_other {A} (l : list A) i j b : j <> i -> nth_error (upd l i b) j = nth_error l j.
Proof. intros H. rewrite nth_error_upd. rewrite (proj2 (Nat.eqb_neq _ _) H). reflexivity. Qed.

Lemma step_inv {A} (c c' : config A) i : step c i = Some c' ->
  exists t h' t', nth_error (snd c) i = Some t /\ thread_step (snd c) (fst c) t = Some (h', t') /\
    c' = (h', upd (snd c) i t').
Proof.
  destruct c as [h ts]. cbn [step fst snd]. destruct (nth_error ts i) as [t|] eqn:E; [|discriminate].
  destruct (thread_step ts h t) as [[h' t']|] eqn:Et; [|discriminate]. intros [= <-].
  exists t, h', t'. auto.
Qed.

Lemma run_app {A} (c : config A) s1 s2 :
  run c (s1 ++ s2) = match run c s1 with Some c' => run c' s2 | None => None end.
Proof.
  revert c; induction s1 as [|i s1 IH]; intros c; [reflexivity|]. cbn [app run].
  destruct (step c i); auto.
Qed.

Lemma step_length {A} (c c' : config A) i : step c i = Some c' -> length (snd c') = length (snd c).
Proof. intros H. destruct (step_inv _ _ _ H) as (t & h' & t' & _ & _ & ->). apply upd_length. Qed.

Lemma run_length {A} s (c c' : config A) : run c s = Some c' -> length (snd c') = length (snd c).
Proof.
  revert c; induction s as [|i s IH]; intros c; cbn [run]; [intros [= <-]; reflexivity|].
  destruct (step c i) as [c1|] eqn:E; [|discriminate]. intros H. rewrite (IH _ H). eapply step_length; eauto.
Qed.

(** An invariant of steps is one of runs. *)
Lemma run_inv {A} (I : config A -> Prop) :
  (forall c i c', I c -> step c i = Some c' -> I c') ->
  forall s c c', I c -> run c s = Some c' -> I c'.
Proof.
  intros HI s. induction s as [|i s IH]; intros c c' H; cbn [run]; [intros [= <-]; auto|].
  destruct (step c i) as [c1|] eqn:E; [|discriminate]. apply IH. eapply HI; eauto.
Qed.

(** ** Every schedule is finite *)

Definition succ_of {A} (t' t : thread A) : Prop :=
  exists ts h h', thread_step ts h t = Some (h', t').

Lemma section_step_cases {A B} h r (body : list N -> out B * list N) (k : B -> thread A) h' t' :
  section_step h r body k = (h', t') -> (exists b, t' = k b) \/ exists o, t' = Run (Done o).
Proof.
  unfold section_step. destruct (with_lock r body h) as [[| | | |] ?]; intros [= <- <-]; eauto.
Qed.

Lemma done_acc {A} (o : out A) : Acc succ_of (Run (Done o)).
Proof. constructor. intros t' (ts & h & h' & H). discriminate. Qed.

Lemma wait_acc {A} x o (k : prog A) : Acc succ_of (Run k) -> Acc succ_of (Wait x o k).
Proof.
  intros Hk. constructor. intros t' (ts & h & h' & H). cbn [thread_step] in H.
  destruct (locked ts o); [discriminate|].
  destruct (nth_error h x) as [cx|], (nth_error h o) as [co|];
    try (injection H as <- <-; apply done_acc).
  destruct (c_poisoned co); injection H as <- <-; auto using done_acc.
Qed.

Lemma run_acc {A} (p : prog A) : Acc succ_of (Run p).
Proof.
  induction p as [o|B r body k IH|x o k IH].
  - apply done_acc.
  - constructor. intros t' (ts & h & h' & H). cbn [thread_step] in H.
    destruct (locked ts r); [discriminate|]. injection H as H.
    destruct (section_step_cases _ _ _ _ _ _ H) as [[b ->]|[o ->]]; auto using done_acc.
  - constructor. intros t' (ts & h & h' & H). cbn [thread_step] in H.
    destruct (locked ts x); [discriminate|]. injection H as H.
    destruct (section_step_cases _ _ _ _ _ _ H) as [[b ->]|[e ->]]; auto using done_acc, wait_acc.
Qed.

Lemma thread_acc {A} (t : thread A) : Acc succ_of t.
Proof. destruct t; auto using run_acc, wait_acc. Qed.

Definition list_succ {A} (l' l : list (thread A)) : Prop :=
  exists i t t', nth_error l i = Some t /\ l' = upd l i t' /\ succ_of t' t.

Lemma list_acc {A} (l : list (thread A)) : Acc list_succ l.
Proof.
  induction l as [|t l IH].
  - constructor. intros l' (i & t & t' & H & _). destruct i; discriminate.
  - pose proof (thread_acc t) as Ht. revert l IH. induction Ht as [t _ IHt]. intros l Hl.
    induction Hl as [l Hl IHl]. constructor. intros l' (i & u & u' & Hn & -> & Hs).
    destruct i as [|i]; cbn [nth_error upd] in *.
    + injection Hn as ->. apply IHt; auto. constructor; auto.
    + apply IHl. exists i, u, u'. auto.
Qed.

Lemma config_acc {A} (c : config A) : Acc (fun c' c : config A => exists i, step c i = Some c') c.
Proof.
  destruct c as [h ts]. revert h. pose proof (list_acc ts) as H. induction H as [ts _ IH]. intros h.
  constructor. intros c' [i Hi]. destruct (step_inv _ _ _ Hi) as (t & h' & t' & Hn & Hs & ->).
  cbn [fst snd] in *. apply IH. exists i, t, t'. split; auto. split; auto. exists ts, h, h'. auto.
Qed.

Lemma schedules_finite {A} (c : config A) : forall s : nat -> nat, exists n, run c (map s (seq 0 n)) = None.
Proof.
  induction (config_acc c) as [c _ IH]. intros s.
  destruct (step c (s O)) as [c'|] eqn:E.
  - destruct (IH c' (ex_intro _ _ E) (fun n => s (S n))) as [n Hn]. exists (S n).
    cbn [seq map run]. rewrite E, <- seq_shift, map_map. exact Hn.
  - exists 1%nat. cbn [seq map run]. rewrite E. reflexivity.
Qed.

Lemma stuck_dec {A} (c : config A) : stuck c \/ exists i c', step c i = Some c'.
Proof.
  assert (H : forall n, (forall i, (i < n)%nat -> step c i = None) \/ exists i c', step c i = Some c').
  { induction n as [|n [IH|IH]]; [left; lia| |auto].
    destruct (step c n) as [c'|] eqn:E; [right; eauto|].
    left. intros i Hi. destruct (Nat.eq_dec i n) as [->|]; auto. apply IH. lia. }
  destruct (H (length (snd c))) as [Hn|]; auto. left. intros i.
  destruct (Nat.lt_ge_cases i (length (snd c))) as [L|L]; auto.
  destruct c as [h ts]. cbn [step snd] in *. rewrite (proj2 (nth_error_None _ _) L). reflexivity.
Qed.

(** Some schedule runs until nothing can move. *)
Lemma maximal_run {A} (c : config A) : exists s c', run c s = Some c' /\ stuck c'.
Proof.
  induction (config_acc c) as [c _ IH]. destruct (stuck_dec c) as [H|(i & c1 & H)].
  - exists [], c. auto.
  - destruct (IH c1 (ex_intro _ _ H)) as (s & c' & Hr & Hs). exists (i :: s), c'.
    cbn [run]. rewrite H. auto.
Qed.

(** ** Programs without [replace] *)

Lemma no_repl_pbind {A B} (p : prog A) (f : A -> prog B) :
  no_repl p -> (forall a, no_repl (f a)) -> no_repl (pbind p f).
Proof.
  intros H Hf. induction H as [o|C r body k Hk IH]; cbn [pbind].
  - destruct o; auto; constructor.
  - constructor. auto.
Qed.

Lemma no_repl_get_loop r i n v : no_repl (pget_loop r i n v).
Proof. revert i v; induction n; intros; cbn [pget_loop]; constructor; auto. Qed.
Lemma no_repl_set_loop r i n v : no_repl (pset_loop r i n v).
Proof. revert v; induction n; intros; cbn [pset_loop]; constructor; auto. Qed.
Lemma no_repl_bit_range m x msb lsb : no_repl (pbit_range m x msb lsb).
Proof. apply no_repl_pbind; [apply no_repl_get_loop|constructor]. Qed.
Lemma no_repl_bytes_loop m x i n : no_repl (pbytes_loop m x i n).
Proof.
  revert i; induction n; intros; cbn [pbytes_loop]; [constructor|].
  apply no_repl_pbind; [apply no_repl_bit_range|]. intros. apply no_repl_pbind; auto. constructor.
Qed.
Lemma no_repl_bytes m x msb lsb : no_repl (pbytes m x msb lsb).
Proof. apply no_repl_pbind; [constructor|]. intros; apply no_repl_bytes_loop. Qed.
Lemma no_repl_set_bytes_loop x i n l j : no_repl (pset_bytes_loop x i n l j).
Proof.
  revert i j; induction n; intros; cbn [pset_bytes_loop]; [constructor|].
  apply no_repl_pbind; [constructor|]. intros. apply no_repl_pbind; [apply no_repl_set_loop|auto].
Qed.
Lemma no_repl_set_bytes m x msb lsb l : no_repl (pset_bytes m x msb lsb l).
Proof. apply no_repl_pbind; [constructor|]. intros; apply no_repl_set_bytes_loop. Qed.
Lemma no_repl_to_vec x : no_repl (pto_vec x).
Proof. constructor. constructor. Qed.
Lemma no_repl_concat_vecs l : no_repl (pconcat_vecs l).
Proof.
  induction l; cbn [pconcat_vecs]; [constructor|].
  apply no_repl_pbind; [apply no_repl_to_vec|]. intros. apply no_repl_pbind; auto. constructor.
Qed.

Definition plain {A} (t : thread A) : Prop := exists p, t = Run p /\ no_repl p.

Lemma plain_unlocked {A} (ts : list (thread A)) r : Forall plain ts -> locked ts r = false.
Proof.
  unfold locked. induction 1 as [|t ts (p & -> & _) Ht IH]; [reflexivity|]. exact IH.
Qed.

Lemma Forall_upd {A} (P : A -> Prop) l i b : Forall P l -> P b -> Forall P (upd l i b).
Proof.
  intros H Hb. revert i; induction H; intros [|i]; cbn [upd]; auto.
Qed.

Lemma plain_step {A} (c c' : config A) i : Forall plain (snd c) -> step c i = Some c' -> Forall plain (snd c').
Proof.
  intros H E. destruct (step_inv _ _ _ E) as (t & h' & t' & Hn & Hs & ->). cbn [snd].
  apply Forall_upd; auto.
  destruct (proj1 (Forall_forall _ _) H t (nth_error_In _ _ Hn)) as (p & -> & Hp).
  destruct Hp as [o|B r body k Hk]; [discriminate|]. cbn [thread_step] in Hs.
  destruct (locked (snd c) r); [discriminate|]. injection Hs as Hs.
  destruct (section_step_cases _ _ _ _ _ _ Hs) as [[b ->]|[o ->]]; [exists (k b)|exists (Done o)]; split; auto.
  constructor.
Qed.

Lemma plain_start {A} h (ps : list (prog A)) : Forall no_repl ps -> Forall plain (snd (start h ps)).
Proof. intros H. cbn [start snd]. rewrite Forall_map. eapply Forall_impl; [|exact H]. intros p Hp. exists p; auto. Qed.

Lemma plain_progress {A} (c : config A) i t : Forall plain (snd c) -> nth_error (snd c) i = Some t ->
  ~ finished t -> exists c', step c i = Some c'.
Proof.
  intros H Hn Hf. destruct c as [h ts]. cbn [snd step] in *. rewrite Hn.
  destruct (proj1 (Forall_forall _ _) H t (nth_error_In _ _ Hn)) as (p & -> & Hp).
  destruct Hp as [o|B r body k Hk]; [elim Hf; exists o; auto|]. cbn [thread_step].
  rewrite plain_unlocked by auto. destruct (section_step _ _ _ _). eauto.
Qed.

(** A thread running alone while nobody is inside [replace]. *)
Lemma solo_steps {A} (p : prog A) : no_repl p -> forall h ts i o h',
  Forall plain ts -> nth_error ts i = Some (Run p) -> solo p h = (o, h') ->
  exists n, run (h, ts) (repeat i n) = Some (h', upd ts i (Run (Done o))).
Proof.
  induction 1 as [o|B r body k Hk IH]; intros h ts i o' h' Hts Hi Hs; cbn [solo] in Hs.
  - injection Hs as <- <-. exists O. cbn [repeat run]. rewrite upd_same; auto.
  - assert (St : step (h, ts) i =
      Some (fst (section_step h r body (fun b => Run (k b))), upd ts i (snd (section_step h r body (fun b => Run (k b)))))).
    { cbn [step]. rewrite Hi. cbn [thread_step]. rewrite plain_unlocked by auto.
      destruct (section_step _ _ _ _); reflexivity. }
    unfold section_step in St. unfold bind in Hs. destruct (with_lock r body h) as [[b| | | |] h1];
      cbn [fst snd] in St;
      try (injection Hs as <- <-; exists 1%nat; cbn [repeat run]; rewrite St; reflexivity).
    assert (Hp : plain (Run (k b))) by (exists (k b); auto).
    destruct (IH b h1 (upd ts i (Run (k b))) i o' h') as [n Hn]; auto.
    + apply Forall_upd; auto.
    + eapply upd_nth_error; eauto.
    + exists (S n). cbn [repeat run]. rewrite St. rewrite Hn. rewrite upd_upd. reflexivity.
Qed.

(** Running the threads one after the other. *)
Fixpoint in_turn {A} (ps : list (prog A)) (h : heap) : list (out A) * heap :=
  match ps with
  | [] => ([], h)
  | p :: t => let (o, h1) := solo p h in let (os, h2) := in_turn t h1 in (o :: os, h2)
  end.

Lemma in_turn_run {A} (ps : list (prog A)) : Forall no_repl ps -> forall h (pre : list (thread A)) os h',
  Forall plain pre -> in_turn ps h = (os, h') ->
  exists s, run (h, pre ++ map Run ps) s = Some (h', pre ++ map (fun o => Run (Done o)) os).
Proof.
  induction 1 as [|p ps Hp Hps IH]; intros h pre os h' Hpre Hs; cbn [in_turn] in Hs.
  - injection Hs as <- <-. exists []. reflexivity.
  - destruct (solo p h) as [o h1] eqn:Es. destruct (in_turn ps h1) as [os' h2] eqn:Et.
    injection Hs as <- <-.
    destruct (solo_steps p Hp h (pre ++ map Run (p :: ps)) (length pre) o h1) as [n Hn]; auto.
    + apply Forall_app. split; auto. apply (plain_start h (p :: ps)). constructor; auto.
    + rewrite nth_error_app2, Nat.sub_diag by auto. reflexivity.
    + rewrite upd_app2, Nat.sub_diag in Hn by auto. cbn [map upd] in Hn.
      destruct (IH h1 (pre ++ [Run (Done o)]) os' h2) as [s Hr]; auto.
      * apply Forall_app. split; auto. constructor; auto. exists (Done o). split; auto. constructor.
      * exists (repeat (length pre) n ++ s). rewrite run_app. cbn [map] in *. rewrite Hn.
        rewrite <- !app_assoc in Hr. exact Hr.
Qed.

(** ** Independent threads *)

(** Bit [j] of buffer [r]. *)
Definition hbit (h : heap) (r j : nat) : bool :=
  match nth_error h r with Some c => bit (c_data c) j | None => false end.
(** Same buffers, lengths and poison flags, and bytes. *)
Definition shape (h0 h : heap) : Prop :=
  length h = length h0 /\
  forall r c0, nth_error h0 r = Some c0 -> exists d, nth_error h r = Some (Cell d (c_poisoned c0)) /\
    length d = length (c_data c0) /\ bytes_ok d.
(** Sets of bits (of buffers). *)
Definition area := nat -> nat -> bool.
Definition agree (F : area) (h1 h2 : heap) : Prop :=
  forall r j, F r j = true -> hbit h1 r j = hbit h2 r j.
Definition keeps (W : area) (h h' : heap) : Prop :=
  forall r j, W r j = false -> hbit h' r j = hbit h r j.

Lemma shape_refl h : heap_ok h -> shape h h.
Proof.
  intros H. split; auto. intros r [d p] E. exists d. split; auto. split; auto.
  apply (proj1 (Forall_forall _ _) H (Cell d p)). eapply nth_error_In; eauto.
Qed.

Lemma nth_error_ext {A} (l l' : list A) : (forall n, nth_error l n = nth_error l' n) -> l = l'.
Proof.
  revert l'; induction l as [|a l IH]; intros [|b l'] H; auto.
  - specialize (H O). discriminate.
  - specialize (H O). discriminate.
  - f_equal; [pose proof (H O) as E; injection E; auto|]. apply IH. intros n. apply (H (S n)).
Qed.

Lemma shape_eq h0 h1 h2 : shape h0 h1 -> shape h0 h2 -> (forall r j, hbit h1 r j = hbit h2 r j) -> h1 = h2.
Proof.
  intros [L1 S1] [L2 S2] H. apply nth_error_ext. intros r.
  destruct (nth_error h0 r) as [c0|] eqn:E.
  - destruct (S1 r c0 E) as (d1 & E1 & Hl1 & O1). destruct (S2 r c0 E) as (d2 & E2 & Hl2 & O2).
    rewrite E1, E2. do 2 f_equal. apply bytes_ext; auto; [congruence|].
    intros i _. specialize (H r i). unfold hbit in H. rewrite E1, E2 in H. exact H.
  - apply nth_error_None in E.
    rewrite (proj2 (nth_error_None h1 r)), (proj2 (nth_error_None h2 r)); auto; lia.
Qed.

(** [confined h0 F W p]: the program locks only unpoisoned buffers, does not panic
    under a lock, what it does depends only on the bits in [F], and it changes only
    the bits in [W]. *)
Fixpoint confined {A} (h0 : heap) (F W : area) (p : prog A) : Prop :=
  match p with
  | Done _ => True
  | Sync B r body k =>
      exists c0, nth_error h0 r = Some c0 /\ c_poisoned c0 = false /\
      (forall d1 d2, bytes_ok d1 -> bytes_ok d2 ->
         length d1 = length (c_data c0) -> length d2 = length (c_data c0) ->
         (forall j, F r j = true -> bit d1 j = bit d2 j) ->
         exists b1 b2 d1' d2', body d1 = (Ret b1, d1') /\ body d2 = (Ret b2, d2') /\ k b1 = k b2 /\
           bytes_ok d1' /\ length d1' = length d1 /\ (forall j, W r j = false -> bit d1' j = bit d1 j) /\
           (forall j, F r j = true -> bit d1' j = bit d2' j)) /\
      forall b : B, confined h0 F W (k b)
  | Repl _ _ _ => False
  end.

Lemma confined_no_repl {A} h0 F W (p : prog A) : confined h0 F W p -> no_repl p.
Proof.
  induction p as [o|B r body k IH|x o k IH]; cbn [confined].
  - constructor.
  - intros (c0 & _ & _ & _ & H). constructor. auto.
  - tauto.
Qed.

Lemma hbit_upd h r c c0 q j : nth_error h r = Some c0 ->
  hbit (upd h r c) q j = if (q =? r)%nat then bit (c_data c) j else hbit h q j.
Proof.
  intros H. unfold hbit. destruct (Nat.eqb_spec q r) as [->|Hq].
  - rewrite (upd_nth_error _ _ _ _ H). reflexivity.
  - rewrite upd_nth_error_other by auto. reflexivity.
Qed.

Lemma shape_upd h0 h r c0 d : shape h0 h -> nth_error h0 r = Some c0 -> length d = length (c_data c0) ->
  bytes_ok d -> shape h0 (upd h r (Cell d (c_poisoned c0))).
Proof.
  intros [L S] E Hl Hd. split; [rewrite upd_length; auto|]. intros q c1 Eq.
  destruct (Nat.eq_dec q r) as [->|Hq].
  - assert (c1 = c0) by congruence. subst c1. destruct (S r c0 E) as (d0 & E0 & _).
    exists d. rewrite (upd_nth_error _ _ _ _ E0). auto.
  - rewrite upd_nth_error_other by auto. auto.
Qed.

(** One critical section of a confined program, in two heaps that agree on [F]. *)
Lemma confined_section {A B} h0 F W r (body : list N -> out B * list N) (k : B -> prog A) h1 h2 :
  confined h0 F W (Sync B r body k) -> shape h0 h1 -> shape h0 h2 -> agree F h1 h2 ->
  exists b1 b2 h1' h2', with_lock r body h1 = (Ret b1, h1') /\ with_lock r body h2 = (Ret b2, h2') /\
    k b1 = k b2 /\ confined h0 F W (k b1) /\ shape h0 h1' /\ shape h0 h2' /\
    keeps W h1 h1' /\ keeps W h2 h2' /\ agree F h1' h2'.
Proof.
  intros Hc S1 S2 Ha. destruct Hc as (c0 & E0 & P0 & Hb & Hk).
  destruct (proj2 S1 r c0 E0) as (d1 & E1 & L1 & O1). destruct (proj2 S2 r c0 E0) as (d2 & E2 & L2 & O2).
  assert (Hag : forall j, F r j = true -> bit d1 j = bit d2 j).
  { intros j Hj. specialize (Ha r j Hj). unfold hbit in Ha. rewrite E1, E2 in Ha. exact Ha. }
  destruct (Hb d1 d2 O1 O2 L1 L2 Hag) as (b1 & b2 & d1' & d2' & R1 & R2 & Ek & O1' & L1' & W1 & A1).
  destruct (Hb d2 d1 O2 O1 L2 L1) as (b2x & _ & d2x & _ & R2x & _ & _ & O2' & L2' & W2 & _).
  { intros j Hj. symmetry. auto. }
  rewrite R2 in R2x. injection R2x as <- <-.
  exists b1, b2, (upd h1 r (Cell d1' false)), (upd h2 r (Cell d2' false)).
  unfold with_lock. rewrite E1, E2. cbn [c_poisoned c_data]. rewrite P0, R1, R2.
  split; auto. split; auto. split; auto. split; auto.
  split; [rewrite <- P0; apply shape_upd; auto; congruence|].
  split; [rewrite <- P0; apply shape_upd; auto; congruence|].
  split; [|split].
  - intros q j Hq. erewrite hbit_upd by eauto. destruct (Nat.eqb_spec q r) as [->|]; auto.
    unfold hbit. rewrite E1. cbn [c_data]. auto.
  - intros q j Hq. erewrite hbit_upd by eauto. destruct (Nat.eqb_spec q r) as [->|]; auto.
    unfold hbit. rewrite E2. cbn [c_data]. auto.
  - intros q j Hq. erewrite !hbit_upd by eauto. destruct (Nat.eqb_spec q r) as [->|]; auto.
Qed.

Definition nowhere : area := fun _ _ => false.

(** A confined program run alone in two heaps that agree on [F]. *)
Lemma confined_solo {A} h0 F W (p : prog A) : confined h0 F W p -> forall h1 h2,
  shape h0 h1 -> shape h0 h2 -> agree F h1 h2 ->
  fst (solo p h1) = fst (solo p h2) /\ shape h0 (snd (solo p h1)) /\
  keeps W h1 (snd (solo p h1)) /\ agree F (snd (solo p h1)) (snd (solo p h2)).
Proof.
  induction p as [o|B r body k IH|x o k IH]; intros Hc h1 h2 S1 S2 Ha; cbn [solo].
  - cbn [lift fst snd]. unfold lift. cbn [fst snd]. split; auto. split; auto. split; auto. intros q j _. auto.
  - destruct (confined_section _ _ _ _ _ _ _ _ Hc S1 S2 Ha)
      as (b1 & b2 & h1' & h2' & R1 & R2 & Ek & Hk & S1' & S2' & K1 & K2 & A').
    rewrite (bind_ret _ _ _ _ _ R1), (bind_ret _ _ _ _ _ R2). rewrite <- Ek.
    destruct (IH b1 Hk h1' h2' S1' S2' A') as (X1 & X2 & X3 & X4).
    split; auto. split; auto. split; auto. intros q j Hq. rewrite (X3 q j Hq). auto.
  - destruct Hc.
Qed.

Section Independent.
  Context {A : Type} (h0 : heap) (ps : list (prog A)) (F W : nat -> area).
  Hypothesis h0_ok : heap_ok h0.
  Hypothesis ps_confined : forall i p, nth_error ps i = Some p -> confined h0 (F i) (W i) p.
  Hypothesis W_in_F : forall i r j, W i r j = true -> F i r j = true.
  Hypothesis apart : forall i i' r j, (i < length ps)%nat -> (i' < length ps)%nat -> i <> i' ->
    W i r j = true -> F i' r j = false.

  (** Thread [i] is where it would be alone, on a heap that agrees with the real one on its bits. *)
  Definition tracks (h : heap) (ts : list (thread A)) : Prop :=
    shape h0 h /\ length ts = length ps /\
    (forall i p, nth_error ps i = Some p -> exists q hi, nth_error ts i = Some (Run q) /\
       confined h0 (F i) (W i) q /\ shape h0 hi /\ agree (F i) h hi /\ keeps (W i) h0 hi /\
       solo q hi = solo p h0) /\
    (forall r j, (forall i, (i < length ps)%nat -> W i r j = false) -> hbit h r j = hbit h0 r j).

  Lemma tracks_plain h ts : tracks h ts -> Forall plain ts.
  Proof.
    intros (_ & L & H & _). apply Forall_forall. intros t Ht. apply In_nth_error in Ht. destruct Ht as [i Hi].
    destruct (nth_error ps i) as [p|] eqn:E.
    - destruct (H i p E) as (q & hi & Hq & Hc & _). rewrite Hi in Hq. injection Hq as ->.
      exists q. split; auto. eapply confined_no_repl; eauto.
    - apply nth_error_None in E. assert (i < length ts)%nat by (apply nth_error_Some; congruence). lia.
  Qed.

  Lemma tracks_start : tracks h0 (map Run ps).
  Proof.
    split; [apply shape_refl; auto|]. split; [apply map_length|]. split; auto.
    intros i p E. exists p, h0. rewrite nth_error_map, E. split; auto. split; auto.
    split; [apply shape_refl; auto|]. split; [intros r j _; auto|]. split; auto. intros r j _; auto.
  Qed.

  Lemma tracks_step c i c' : tracks (fst c) (snd c) -> step c i = Some c' -> tracks (fst c') (snd c').
  Proof.
    intros T E. pose proof (tracks_plain _ _ T) as Tp.
    destruct T as (Sh & L & Ht & Hu). destruct (step_inv _ _ _ E) as (t & h' & t' & Hn & Hs & ->).
    cbn [fst snd].
    assert (Li : (i < length ps)%nat) by (rewrite <- L; apply nth_error_Some; congruence).
    destruct (nth_error ps i) as [p|] eqn:Ep; [|apply nth_error_None in Ep; lia].
    destruct (Ht i p Ep) as (q & hi & Hq & Hc & Shi & Ag & Ke & So).
    rewrite Hn in Hq. injection Hq as ->.
    destruct q as [o|B r body k|x o k]; [discriminate| |destruct Hc].
    destruct (confined_section _ _ _ _ _ _ _ _ Hc Sh Shi Ag)
      as (b1 & b2 & h1' & h2' & R1 & R2 & Ek & Hk & S1' & S2' & K1 & K2 & A').
    cbn [thread_step] in Hs. rewrite plain_unlocked in Hs by auto.
    unfold section_step in Hs. rewrite R1 in Hs. injection Hs as <- <-.
    split; auto. split; [rewrite upd_length; auto|]. split.
    - intros i' p' Ep'. destruct (Nat.eq_dec i' i) as [->|Hi].
      + assert (p' = p) by congruence. subst p'.
        exists (k b1), h2'. split; [eapply upd_nth_error; eauto|]. split; auto. split; auto. split; auto.
        split; [intros a j Hj; rewrite (K2 a j Hj); auto|].
        rewrite <- So. cbn [solo]. rewrite (bind_ret _ _ _ _ _ R2), Ek. reflexivity.
      + destruct (Ht i' p' Ep') as (q' & hi' & Hq' & Hc' & Shi' & Ag' & Ke' & So').
        exists q', hi'. rewrite upd_nth_error_other by auto. split; auto. split; auto. split; auto.
        split; auto. intros a j Hj. rewrite K1; auto.
        destruct (W i a j) eqn:Ew; auto. exfalso.
        assert (Li' : (i' < length ps)%nat) by (apply nth_error_Some; congruence).
        pose proof (apart i i' a j Li Li' (not_eq_sym Hi) Ew). congruence.
    - intros a j Hj. rewrite K1; auto.
  Qed.

  Lemma tracks_run s c : run (start h0 ps) s = Some c -> tracks (fst c) (snd c).
  Proof.
    intros R. apply (run_inv (fun c => tracks (fst c) (snd c))) with (s := s) (c := start h0 ps); auto.
    - intros; eapply tracks_step; eauto.
    - apply tracks_start.
  Qed.

  (** The results and the final heap do not depend on the schedule. *)
  Lemma independent_results s h ts i p : run (start h0 ps) s = Some (h, ts) -> nth_error ps i = Some p ->
    forall t, nth_error ts i = Some t -> finished t ->
    t = Run (Done (fst (solo p h0))) /\ agree (F i) h (snd (solo p h0)).
  Proof.
    intros R Ep t Et [o ->]. destruct (tracks_run _ _ R) as (_ & _ & Ht & _). cbn [fst snd] in Ht.
    destruct (Ht i p Ep) as (q & hi & Hq & _ & _ & Ag & _ & So). rewrite Et in Hq. injection Hq as <-.
    cbn [solo] in So. rewrite <- So. split; auto.
  Qed.

  Lemma independent_det s1 s2 h1 h2 ts1 ts2 :
    run (start h0 ps) s1 = Some (h1, ts1) -> Forall finished ts1 ->
    run (start h0 ps) s2 = Some (h2, ts2) -> Forall finished ts2 -> h1 = h2 /\ ts1 = ts2.
  Proof.
    intros R1 F1 R2 F2.
    destruct (tracks_run _ _ R1) as (S1 & L1 & _ & U1). destruct (tracks_run _ _ R2) as (S2 & L2 & _ & U2).
    cbn [fst snd] in *.
    assert (G : forall i p, nth_error ps i = Some p -> exists t1 t2, nth_error ts1 i = Some t1 /\
      nth_error ts2 i = Some t2 /\ t1 = Run (Done (fst (solo p h0))) /\ t2 = t1 /\
      agree (F i) h1 (snd (solo p h0)) /\ agree (F i) h2 (snd (solo p h0))).
    { intros i p Ep. assert (Li : (i < length ps)%nat) by (apply nth_error_Some; congruence).
      destruct (nth_error ts1 i) as [t1|] eqn:E1; [|apply nth_error_None in E1; lia].
      destruct (nth_error ts2 i) as [t2|] eqn:E2; [|apply nth_error_None in E2; lia].
      destruct (independent_results _ _ _ _ _ R1 Ep t1 E1) as [X1 Y1].
      { apply (proj1 (Forall_forall _ _) F1). eapply nth_error_In; eauto. }
      destruct (independent_results _ _ _ _ _ R2 Ep t2 E2) as [X2 Y2].
      { apply (proj1 (Forall_forall _ _) F2). eapply nth_error_In; eauto. }
      exists t1, t2. repeat split; auto. congruence. }
    split.
    - apply (shape_eq h0); auto. intros r j.
      assert (D : (exists i p, nth_error ps i = Some p /\ W i r j = true) \/
                  (forall i, (i < length ps)%nat -> W i r j = false)).
      { assert (D : forall n, (n <= length ps)%nat -> (exists i p, nth_error ps i = Some p /\ W i r j = true) \/
                  (forall i, (i < n)%nat -> W i r j = false)).
        { induction n as [|n IH]; intros Hn; [right; lia|]. destruct IH as [IH|IH]; [lia|auto|].
          destruct (W n r j) eqn:E.
          - left. destruct (nth_error ps n) as [p|] eqn:Ep; [eauto|]. apply nth_error_None in Ep. lia.
          - right. intros i Hi. destruct (Nat.eq_dec i n) as [->|]; auto. apply IH. lia. }
        apply D; auto. }
      destruct D as [(i & p & Ep & Hw)|D].
      + destruct (G i p Ep) as (t1 & t2 & _ & _ & _ & _ & A1 & A2).
        rewrite (A1 r j), (A2 r j); auto.
      + rewrite U1, U2; auto.
    - apply nth_error_ext. intros i. destruct (nth_error ps i) as [p|] eqn:Ep.
      + destruct (G i p Ep) as (t1 & t2 & -> & -> & _ & -> & _). reflexivity.
      + apply nth_error_None in Ep. rewrite !(proj2 (nth_error_None _ _)); auto; lia.
  Qed.

  (** They are those of running the threads in turn. *)
  Lemma independent_in_turn s h ts : run (start h0 ps) s = Some (h, ts) -> Forall finished ts ->
    h = snd (in_turn ps h0) /\ ts = map (fun o => Run (Done o)) (fst (in_turn ps h0)).
  Proof.
    intros R Ff. destruct (in_turn ps h0) as [os h'] eqn:E.
    destruct (in_turn_run ps) with (h := h0) (pre := @nil (thread A)) (os := os) (h' := h') as [s' R']; auto.
    { apply Forall_forall. intros p Hp. apply In_nth_error in Hp. destruct Hp as [i Hi].
      eapply confined_no_repl. eapply ps_confined; eauto. }
    cbn [app] in R'. cbn [fst snd].
    apply (independent_det s s' h h' ts (map (fun o => Run (Done o)) os)); auto.
    apply Forall_map. apply Forall_forall. intros o _. exists o. reflexivity.
  Qed.
End Independent.

(** ** The methods are confined *)

Lemma confined_pbind {A B} h0 F W (p : prog A) (f : A -> prog B) :
  confined h0 F W p -> (forall a, confined h0 F W (f a)) -> confined h0 F W (pbind p f).
Proof.
  intros H Hf. induction p as [o|C r body k IH|x o k IH]; cbn [pbind].
  - destruct o; cbn [confined]; auto.
  - destruct H as (c0 & E0 & P0 & Hb & Hk). exists c0. split; auto. split; auto. split.
    + intros d1 d2 O1 O2 L1 L2 Ha.
      destruct (Hb d1 d2 O1 O2 L1 L2 Ha) as (b1 & b2 & d1' & d2' & R1 & R2 & Ek & Rest).
      exists b1, b2, d1', d2'. rewrite Ek. auto.
    + auto.
  - destruct H.
Qed.

(** The area contains bits [s .. s+n-1] of buffer [r]. *)
Definition covers (F : area) (r s n : nat) : Prop := forall j, (s <= j < s + n)%nat -> F r j = true.

Lemma covers_sub F r s n s' n' : covers F r s n -> (s <= s')%nat -> (s' + n' <= s + n)%nat -> covers F r s' n'.
Proof. intros H H1 H2 j Hj. apply H. lia. Qed.

Lemma confined_get_loop h0 F W r d i n v : cell_at h0 r d -> (i + n <= 8 * length d)%nat ->
  covers F r i n -> confined h0 F W (pget_loop r i n v).
Proof.
  intros Hc. revert i v. induction n as [|n IH]; intros i v Hi Hf; cbn [pget_loop confined]; auto.
  { exact I. }
  exists (Cell d false). split; auto. split; auto. cbn [c_data]. split.
  - intros d1 d2 O1 O2 L1 L2 Ha.
    exists (nth (i / 8) d1 0), (nth (i / 8) d2 0), d1, d2.
    rewrite (index_lt d1 _ 0), (index_lt d2 _ 0) by (apply div8_lt; lia).
    split; auto. split; auto. split; auto. rewrite !land_1, sub_mod8.
    fold (bit d1 i). fold (bit d2 i). rewrite Ha; auto. apply Hf. lia.
  - intros b. apply IH; [lia|]. apply (covers_sub _ _ _ _ _ _ Hf); lia.
Qed.

Lemma confined_set_loop h0 (F W : area) r d i n v : cell_at h0 r d -> (i + n <= 8 * length d)%nat ->
  covers W r i n -> confined h0 F W (pset_loop r i n v).
Proof.
  intros Hc. revert v. induction n as [|n IH]; intros v Hi Hf; cbn [pset_loop confined]; auto.
  { exact I. }
  exists (Cell d false). split; auto. split; auto. cbn [c_data]. split.
  - intros d1 d2 O1 O2 L1 L2 Ha. rewrite u8_land_1.
    exists tt, tt, (wbit d1 (i + n) (N.testbit v 0)), (wbit d2 (i + n) (N.testbit v 0)).
    rewrite !set_bit_step_ok by (auto; lia).
    split; auto. split; auto. split; auto. split; [apply wbit_ok; auto|]. split; [apply wbit_length|].
    split.
    + intros j Hj. rewrite bit_wbit by lia. destruct (Nat.eqb_spec j (i + n)) as [->|]; auto.
      rewrite Hf in Hj by lia. discriminate.
    + intros j Hj. rewrite !bit_wbit by lia. destruct (Nat.eqb_spec j (i + n)); auto.
  - intros _. apply IH; [lia|]. apply (covers_sub _ _ _ _ _ _ Hf); lia.
Qed.

Lemma confined_bit_range h0 F W m x d msb lsb : cell_at h0 (h_ref x) d -> (msb < 8 * length d)%nat ->
  covers F (h_ref x) lsb (S msb - lsb) -> confined h0 F W (pbit_range m x msb lsb).
Proof.
  intros Hc Hm Hf. unfold pbit_range, range_len. destruct (Nat.le_gt_cases lsb (S msb)).
  - apply confined_pbind; [eapply confined_get_loop; eauto; lia|]. intros a. exact I.
  - replace (S msb - lsb)%nat with O by lia. cbn [pget_loop pret pbind confined]. exact I.
Qed.

Lemma confined_bytes_loop h0 F W m x d i n : cell_at h0 (h_ref x) d -> (i + 8 * n <= 8 * length d)%nat ->
  covers F (h_ref x) i (8 * n) -> confined h0 F W (pbytes_loop m x i n).
Proof.
  intros Hc. revert i. induction n as [|n IH]; intros i Hi Hf; cbn [pbytes_loop]; [exact I|].
  apply confined_pbind.
  - apply (confined_bit_range _ _ _ _ _ d); auto; [lia|]. apply (covers_sub _ _ _ _ _ _ Hf); lia.
  - intros a. apply confined_pbind; [|intros; exact I]. apply IH; [lia|].
    apply (covers_sub _ _ _ _ _ _ Hf); lia.
Qed.

Lemma step8_exact msb lsb : (lsb <= msb)%nat -> ((msb - lsb + 1) mod 8 = 0)%nat ->
  (8 * step8_len msb lsb = S msb - lsb)%nat.
Proof.
  intros H1 H2. unfold step8_len, range_len. replace (msb - lsb + 1)%nat with (S msb - lsb)%nat in H2 by lia.
  apply Nat.mod_divides in H2; [|lia]. destruct H2 as [c Hc]. rewrite Hc.
  replace (8 * c + 7)%nat with (7 + c * 8)%nat by lia. rewrite Nat.div_add by lia.
  change (7 / 8)%nat with O. lia.
Qed.

Lemma confined_bytes h0 F W m x d msb lsb : cell_at h0 (h_ref x) d -> (lsb <= msb)%nat ->
  (msb < 8 * length d)%nat -> covers F (h_ref x) lsb (S msb - lsb) -> confined h0 F W (pbytes m x msb lsb).
Proof.
  intros Hc Hl Hm Hf. unfold pbytes. assert (G : bytes_guard m msb lsb = Ret tt /\ ((msb - lsb + 1) mod 8 = 0)%nat \/
    exists e, bytes_guard m msb lsb = Panic e).
  { unfold bytes_guard. rewrite (proj2 (Nat.ltb_ge _ _) Hl). destruct (whole_usize msb lsb) eqn:Wh.
    - apply whole_spec in Wh as [W1 W2]. destruct m; eauto using whole_mod.
    - destruct (Nat.eqb_spec ((msb - lsb + 1) mod 8) 0) as [E|E]; eauto. }
  destruct G as [[-> E]|[e ->]]; cbn [pbind]; [|exact I].
  pose proof (step8_exact msb lsb Hl E) as E8.
  apply (confined_bytes_loop _ _ _ _ _ d); auto; rewrite ?E8; auto. lia.
Qed.

Lemma confined_set_bytes_loop h0 (F W : area) x d i n l j : cell_at h0 (h_ref x) d ->
  (i + 8 * n <= 8 * length d)%nat -> covers W (h_ref x) i (8 * n) ->
  confined h0 F W (pset_bytes_loop x i n l j).
Proof.
  intros Hc. revert i j. induction n as [|n IH]; intros i j Hi Hf; cbn [pset_bytes_loop]; [exact I|].
  apply confined_pbind; [exact I|]. intros v. apply confined_pbind.
  - unfold pset_bit_range, range_len. replace (S (i + 7) - i)%nat with 8%nat by lia.
    apply (confined_set_loop _ _ _ _ d); auto; [lia|]. apply (covers_sub _ _ _ _ _ _ Hf); lia.
  - intros _. apply IH; [lia|]. apply (covers_sub _ _ _ _ _ _ Hf); lia.
Qed.

Lemma confined_set_bytes h0 (F W : area) m x d msb lsb l : cell_at h0 (h_ref x) d -> (lsb <= msb)%nat ->
  (msb < 8 * length d)%nat -> covers W (h_ref x) lsb (S msb - lsb) ->
  confined h0 F W (pset_bytes m x msb lsb l).
Proof.
  intros Hc Hl Hm Hf. unfold pset_bytes.
  assert (G : set_bytes_guard m (length l) msb lsb = Ret tt /\ ((msb - lsb + 1) mod 8 = 0)%nat \/
    exists e, set_bytes_guard m (length l) msb lsb = Panic e).
  { unfold set_bytes_guard. rewrite (proj2 (Nat.ltb_ge _ _) Hl). destruct (whole_usize msb lsb) eqn:Wh.
    - apply whole_spec in Wh as [W1 W2]. destruct m; [eauto|]. destruct (length l =? 0)%nat; eauto using whole_mod.
    - destruct (Nat.eqb_spec (length l * 8) (msb - lsb + 1)) as [E|E]; eauto. left. split; auto.
      rewrite <- E. apply Nat.mod_mul. lia. }
  destruct G as [[-> E]|[e ->]]; cbn [pbind]; [|exact I].
  assert (E8 : (8 * step8_len msb lsb = S msb - lsb)%nat) by (apply step8_exact; auto).
  apply (confined_set_bytes_loop _ _ _ _ d); auto; rewrite ?E8; auto. lia.
Qed.

(** ** Client threads *)

Lemma solo_op m o h : solo (op_prog m o) h = op_call m o h.
Proof.
  destruct o; cbn [op_prog op_call]; rewrite solo_pbind; apply bind_ext; auto.
  - apply solo_get. - apply solo_set. - apply solo_bytes. - apply solo_set_bytes.
Qed.
Lemma solo_thread m l h : solo (thread_prog m l) h = thread_call m l h.
Proof.
  revert h; induction l as [|o l IH]; intros h; [reflexivity|]. cbn [thread_prog thread_call].
  rewrite solo_pbind. apply bind_ext; [apply solo_op|]. intros a h'.
  rewrite solo_pbind. apply bind_ext; auto.
Qed.
Lemma in_turn_one_by_one m ths h : in_turn (map (thread_prog m) ths) h = one_by_one m ths h.
Proof.
  revert h; induction ths as [|l ths IH]; intros h; [reflexivity|]. cbn [map in_turn one_by_one].
  rewrite solo_thread. destruct (thread_call m l h) as [o h1]. rewrite IH. reflexivity.
Qed.

Definition op_area (o : op) : area := fun r j =>
  ((r =? h_ref (op_hdr o)) && (f_start (op_field o) <=? j) && (j <=? f_end (op_field o)))%nat%bool.
Definition op_write_area (o : op) : area :=
  match o with OGet _ _ | OBytes _ _ => nowhere | OSet _ _ _ | OSetBytes _ _ _ => op_area o end.
Definition area_of (f : op -> area) (l : list op) : area := fun r j => existsb (fun o => f o r j) l.

Lemma op_area_spec o r j : op_area o r j = true <->
  r = h_ref (op_hdr o) /\ (f_start (op_field o) <= j <= f_end (op_field o))%nat.
Proof.
  unfold op_area. rewrite !andb_true_iff, Nat.eqb_eq, !Nat.leb_le. intuition lia.
Qed.
Lemma op_write_area_spec o r j : op_write_area o r j = true <-> op_writes o /\ op_area o r j = true.
Proof. destruct o; cbn [op_write_area op_writes]; unfold nowhere; intuition discriminate. Qed.

Lemma confined_op m h0 F W o : op_in h0 o ->
  (forall r j, op_area o r j = true -> F r j = true) ->
  (forall r j, op_write_area o r j = true -> W r j = true) -> confined h0 F W (op_prog m o).
Proof.
  intros (d & Hc & Hr) HF HW.
  assert (CF : covers F (h_ref (op_hdr o)) (f_start (op_field o)) (S (f_end (op_field o)) - f_start (op_field o))).
  { intros j Hj. apply HF. apply op_area_spec. split; auto. lia. }
  assert (CW : op_writes o ->
    covers W (h_ref (op_hdr o)) (f_start (op_field o)) (S (f_end (op_field o)) - f_start (op_field o))).
  { intros Hw j Hj. apply HW. apply op_write_area_spec. split; auto. apply op_area_spec. split; auto. lia. }
  destruct o as [x f|x f v|x f|x f l]; cbn [op_hdr op_field op_writes op_prog] in *; destruct Hr as [H1 H2];
    (apply confined_pbind; [|intros; exact I]).
  - eapply confined_bit_range; eauto.
  - unfold pset, pset_bit_range, range_len. eapply confined_set_loop; eauto. lia.
  - eapply confined_bytes; eauto.
  - eapply confined_set_bytes; eauto.
Qed.

Lemma confined_thread m h0 F W l : Forall (op_in h0) l ->
  (forall r j, area_of op_area l r j = true -> F r j = true) ->
  (forall r j, area_of op_write_area l r j = true -> W r j = true) -> confined h0 F W (thread_prog m l).
Proof.
  induction 1 as [|o l Ho Hl IH]; intros HF HW; cbn [thread_prog]; [exact I|].
  unfold area_of in HF, HW. cbn [existsb] in HF, HW.
  apply confined_pbind; [|intros; apply confined_pbind; [|intros; exact I]].
  - apply confined_op; auto; intros r j Hj; [apply HF|apply HW]; rewrite Hj; reflexivity.
  - apply IH; intros r j Hj; [apply HF|apply HW]; unfold area_of in Hj; rewrite Hj; apply orb_true_r.
Qed.

Lemma area_apart s t : threads_apart s t -> forall r j,
  (area_of op_write_area s r j = true -> area_of op_area t r j = false) /\
  (area_of op_write_area t r j = true -> area_of op_area s r j = false).
Proof.
  intros H r j.
  assert (G : forall a b, In a s -> In b t -> op_writes a \/ op_writes b ->
    op_area a r j = true -> op_area b r j = true -> False).
  { intros a b Ha Hb Hw Aa Ab. apply op_area_spec in Aa, Ab.
    destruct (H a b Ha Hb Hw) as [X|X]; [intuition congruence|]. unfold disjoint in X. lia. }
  unfold area_of. split; intros E; apply existsb_exists in E; destruct E as (a & Ha & Ea);
    apply op_write_area_spec in Ea; destruct Ea as [Ew Ea];
    match goal with |- ?x = false => destruct x eqn:Eb; auto end;
    apply existsb_exists in Eb; destruct Eb as (b & Hb & Eb); exfalso; eauto.
Qed.

Lemma ordpairs_nth {A} (R : A -> A -> Prop) l : ForallOrdPairs R l -> forall i j a b,
  (i < j)%nat -> nth_error l i = Some a -> nth_error l j = Some b -> R a b.
Proof.
  induction 1 as [|x l Hx Hl IH]; intros i j a b Hij Ha Hb; [destruct i; discriminate|].
  destruct j as [|j]; [lia|]. cbn [nth_error] in Hb. destruct i as [|i]; cbn [nth_error] in Ha.
  - injection Ha as <-. apply (proj1 (Forall_forall _ _) Hx). eapply nth_error_In; eauto.
  - apply (IH i j a b); auto. lia.
Qed.

Lemma threads_independent m h ths s h' ts : heap_ok h ->
  Forall (Forall (op_in h)) ths -> ForallOrdPairs threads_apart ths ->
  run (start h (map (thread_prog m) ths)) s = Some (h', ts) -> Forall finished ts ->
  h' = snd (one_by_one m ths h) /\ ts = map (fun o => Run (Done o)) (fst (one_by_one m ths h)) /\
  ts = map (fun l => Run (Done (fst (thread_call m l h)))) ths.
Proof.
  intros Hh Hin Hap R Hf.
  set (F := fun i => area_of op_area (nth i ths [])). set (W := fun i => area_of op_write_area (nth i ths [])).
  assert (C : forall i p, nth_error (map (thread_prog m) ths) i = Some p -> confined h (F i) (W i) p).
  { intros i p Ep. rewrite nth_error_map in Ep. destruct (nth_error ths i) as [l|] eqn:El; [|discriminate].
    injection Ep as <-. unfold F, W. rewrite (nth_error_nth _ _ _ El).
    apply confined_thread; auto. apply (proj1 (Forall_forall _ _) Hin). eapply nth_error_In; eauto. }
  assert (WF : forall i r j, W i r j = true -> F i r j = true).
  { intros i r j Hw. unfold F, W, area_of in *. apply existsb_exists in Hw. destruct Hw as (o & Ho & Hw).
    apply existsb_exists. exists o. split; auto. apply op_write_area_spec in Hw. tauto. }
  assert (Ap : forall i i' r j, (i < length (map (thread_prog m) ths))%nat ->
    (i' < length (map (thread_prog m) ths))%nat -> i <> i' -> W i r j = true -> F i' r j = false).
  { intros i i' r j Li Li' Hne. rewrite map_length in Li, Li'. unfold F, W.
    destruct (Nat.lt_ge_cases i i') as [L|L].
    - refine (proj1 (area_apart (nth i ths []) (nth i' ths []) _ r j)).
      apply (ordpairs_nth _ _ Hap i i'); auto; apply nth_error_nth'; auto.
    - refine (proj2 (area_apart (nth i' ths []) (nth i ths []) _ r j)).
      apply (ordpairs_nth _ _ Hap i' i); [lia| |]; apply nth_error_nth'; auto. }
  rewrite <- in_turn_one_by_one.
  destruct (independent_in_turn h (map (thread_prog m) ths) F W Hh C WF Ap s h' ts R Hf) as [E1 E2].
  split; auto. split; auto.
  pose proof (run_length _ _ _ R) as L. cbn [start snd] in L. rewrite !map_length in L.
  apply nth_error_ext. intros i. rewrite nth_error_map. destruct (nth_error ths i) as [l|] eqn:El.
  - cbn [option_map].
    assert (Li : (i < length ts)%nat) by (rewrite L; apply nth_error_Some; congruence).
    destruct (nth_error ts i) as [t|] eqn:Et; [|apply nth_error_None in Et; lia].
    destruct (independent_results h (map (thread_prog m) ths) F W Hh C Ap s h' ts i (thread_prog m l) R) with (t := t)
      as [-> _]; auto.
    + rewrite nth_error_map, El. reflexivity.
    + apply (proj1 (Forall_forall _ _) Hf). eapply nth_error_In; eauto.
    + rewrite solo_thread. reflexivity.
  - apply nth_error_None in El. cbn [option_map]. apply nth_error_None. lia.
Qed.

(** ** Locks *)

(** A lock is held by at most one thread. *)
Definition holders {A} (ts : list (thread A)) (r : nat) : nat := length (filter (holds_lock r) ts).

Lemma locked_holders {A} (ts : list (thread A)) r : locked ts r = false -> holders ts r = O.
Proof.
  unfold locked, holders. induction ts as [|t ts IH]; [reflexivity|]. cbn [existsb filter].
  destruct (holds_lock r t); [discriminate|]. exact IH.
Qed.

Lemma holders_upd {A} (ts : list (thread A)) r i t t' : nth_error ts i = Some t ->
  (holders (upd ts i t') r + (if holds_lock r t then 1 else 0) =
   holders ts r + (if holds_lock r t' then 1 else 0))%nat.
Proof.
  revert i. induction ts as [|u ts IH]; intros [|i] H; cbn [nth_error upd] in *; try discriminate.
  - injection H as ->. unfold holders. cbn [filter]. destruct (holds_lock r t), (holds_lock r t'); cbn [length]; lia.
  - specialize (IH i H). unfold holders in *. cbn [filter]. destruct (holds_lock r u); cbn [length]; lia.
Qed.

Lemma section_step_wait {A B} h r (body : list N -> out B * list N) (k : B -> thread A) h' t' q :
  section_step h r body k = (h', t') -> (forall b, holds_lock q (k b) = false) -> holds_lock q t' = false.
Proof.
  intros H Hk. destruct (section_step_cases _ _ _ _ _ _ H) as [[b ->]|[o ->]]; auto.
Qed.

Lemma mutex_step {A} (c c' : config A) i : (forall r, (holders (snd c) r <= 1)%nat) -> step c i = Some c' ->
  forall r, (holders (snd c') r <= 1)%nat.
Proof.
  intros H E r. destruct (step_inv _ _ _ E) as (t & h' & t' & Hn & Hs & ->). cbn [snd].
  pose proof (holders_upd (snd c) r i t t' Hn) as Q. specialize (H r).
  destruct t as [[o|B q body k|x o k]|x o k]; cbn [thread_step] in Hs.
  - discriminate.
  - destruct (locked (snd c) q); [discriminate|]. injection Hs as Hs.
    rewrite (section_step_wait _ _ _ _ _ _ r Hs) in Q by reflexivity. cbn [holds_lock] in Q. lia.
  - destruct (locked (snd c) x) eqn:El; [discriminate|]. injection Hs as Hs.
    cbn [holds_lock] in Q. destruct (Nat.eq_dec x r) as [->|Hx].
    + rewrite (locked_holders _ _ El) in Q. destruct (holds_lock r t'); lia.
    + rewrite (section_step_wait _ _ _ _ _ _ r Hs) in Q; [lia|].
      intros b. cbn [holds_lock]. apply Nat.eqb_neq; auto.
  - destruct (locked (snd c) o); [discriminate|].
    assert (Ht : holds_lock r t' = false).
    { destruct (nth_error (fst c) x) as [cx|], (nth_error (fst c) o) as [co|];
        try (injection Hs as <- <-; reflexivity).
      destruct (c_poisoned co); injection Hs as <- <-; reflexivity. }
    rewrite Ht in Q. destruct (holds_lock r (Wait x o k)); lia.
Qed.

Lemma holders_start {A} (ps : list (prog A)) r : holders (map Run ps) r = O.
Proof. induction ps; [reflexivity|exact IHps]. Qed.

(** *** [replace] in a fixed order *)

Definition ordered_thread {A} (rank : nat -> nat) (t : thread A) : Prop :=
  match t with
  | Run p => ordered rank p
  | Wait x o k => (rank x < rank o)%nat /\ ordered rank k
  end.

Lemma ordered_step {A} rank (c c' : config A) i : Forall (ordered_thread rank) (snd c) ->
  step c i = Some c' -> Forall (ordered_thread rank) (snd c').
Proof.
  intros H E. destruct (step_inv _ _ _ E) as (t & h' & t' & Hn & Hs & ->). cbn [snd].
  apply Forall_upd; auto. pose proof (proj1 (Forall_forall _ _) H t (nth_error_In _ _ Hn)) as Ht.
  destruct t as [p|x o k]; cbn [ordered_thread] in Ht.
  - destruct Ht as [o|B r body k Hk|x o k Hr Hk]; cbn [thread_step] in Hs.
    + discriminate.
    + destruct (locked (snd c) r); [discriminate|]. injection Hs as Hs.
      destruct (section_step_cases _ _ _ _ _ _ Hs) as [[b ->]|[e ->]]; cbn [ordered_thread]; auto. constructor.
    + destruct (locked (snd c) x); [discriminate|]. injection Hs as Hs.
      destruct (section_step_cases _ _ _ _ _ _ Hs) as [[b ->]|[e ->]]; cbn [ordered_thread]; auto. constructor.
  - cbn [thread_step] in Hs. destruct (locked (snd c) o); [discriminate|].
    destruct (nth_error (fst c) x) as [cx|], (nth_error (fst c) o) as [co|];
      try (injection Hs as <- <-; constructor).
    destruct (c_poisoned co); injection Hs as <- <-; cbn [ordered_thread]; [constructor|tauto].
Qed.

Lemma locked_in {A} (ts : list (thread A)) r : locked ts r = true -> exists o k, In (Wait r o k) ts.
Proof.
  unfold locked. intros H. apply existsb_exists in H. destruct H as ([p|x o k] & Hin & Ht); [discriminate|].
  cbn [holds_lock] in Ht. apply Nat.eqb_eq in Ht. subst x. eauto.
Qed.

(** The waiting thread whose held buffer is highest can go on. *)
Lemma highest_wait {A} rank (ts : list (thread A)) : (exists x o k, In (Wait x o k) ts) ->
  exists x o k, In (Wait x o k) ts /\ forall x' o' k', In (Wait x' o' k') ts -> (rank x' <= rank x)%nat.
Proof.
  induction ts as [|t ts IH]; intros (x & o & k & H); [destruct H|].
  assert (D : (exists x o k, In (Wait x o k) ts) \/ ~ exists x o k, In (Wait x o k) ts).
  { clear. induction ts as [|t ts IH]; [right; intros (? & ? & ? & [])|].
    destruct t as [p|x o k]; [|left; exists x, o, k; left; auto].
    destruct IH as [(x & o & k & H)|IH]; [left; exists x, o, k; right; auto|].
    right. intros (x & o & k & [E|H]); [discriminate|]. apply IH. eauto. }
  destruct D as [D|D].
  - destruct (IH D) as (x1 & o1 & k1 & H1 & M1). destruct t as [p|x2 o2 k2].
    + exists x1, o1, k1. split; [right; auto|]. intros x' o' k' [E|H']; [discriminate|eauto].
    + destruct (Nat.le_gt_cases (rank x2) (rank x1)) as [L|L].
      * exists x1, o1, k1. split; [right; auto|]. intros x' o' k' [E|H']; [injection E as <- <- <-; auto|eauto].
      * exists x2, o2, k2. split; [left; auto|]. intros x' o' k' [E|H']; [injection E as <- <- <-; auto|].
        specialize (M1 _ _ _ H'). lia.
  - destruct H as [->|H]; [|elim D; eauto]. exists x, o, k. split; [left; auto|].
    intros x' o' k' [E|H']; [injection E as <- <- <-; auto|]. elim D; eauto.
Qed.

Lemma ordered_progress {A} rank (c : config A) : Forall (ordered_thread rank) (snd c) ->
  (exists t, In t (snd c) /\ ~ finished t) -> exists i c', step c i = Some c'.
Proof.
  intros H (t & Hin & Hf). destruct c as [h ts]. cbn [snd] in *.
  assert (S1 : forall t, In t ts -> thread_step ts h t <> None -> exists i c', step (h, ts) i = Some c').
  { intros t' Ht' Hs. apply In_nth_error in Ht'. destruct Ht' as [i Hi]. exists i. cbn [step]. rewrite Hi.
    destruct (thread_step ts h t') as [[h' u]|]; [eauto|congruence]. }
  destruct (existsb (fun t => match t with Wait _ _ _ => true | Run _ => false end) ts) eqn:Ew.
  - apply existsb_exists in Ew. destruct Ew as ([p|x o k] & Hw & E); [discriminate|].
    destruct (highest_wait rank ts) as (x1 & o1 & k1 & H1 & M1); [eauto|].
    apply (S1 _ H1). cbn [thread_step].
    destruct (locked ts o1) eqn:El.
    + exfalso. destruct (locked_in _ _ El) as (o' & k' & H'). specialize (M1 _ _ _ H').
      pose proof (proj1 (Forall_forall _ _) H _ H1) as [Hr _]. lia.
    + destruct (nth_error h x1) as [cx|], (nth_error h o1) as [co|]; try discriminate.
      destruct (c_poisoned co); discriminate.
  - assert (Un : forall r, locked ts r = false).
    { intros r. destruct (locked ts r) eqn:El; auto. destruct (locked_in _ _ El) as (o' & k' & H').
      assert (X : existsb (fun t => match t with Wait _ _ _ => true | Run _ => false end) ts = true)
        by (apply existsb_exists; eauto). congruence. }
    apply (S1 _ Hin). destruct t as [[o|B r body k|x o k]|x o k]; cbn [thread_step]; rewrite ?Un; try discriminate.
    + elim Hf. exists o. reflexivity.
    + destruct (nth_error h x) as [cx|], (nth_error h o) as [co|]; try discriminate.
      destruct (c_poisoned co); discriminate.
Qed.

(** A thread inside [a.replace(&a)] stays there. *)
Lemma self_wait {A} (c c' : config A) i x k j : nth_error (snd c) j = Some (Wait x x k) ->
  step c i = Some c' -> nth_error (snd c') j = Some (Wait x x k).
Proof.
  intros H E. destruct (step_inv _ _ _ E) as (t & h' & t' & Hn & Hs & ->). cbn [snd].
  destruct (Nat.eq_dec j i) as [->|Hj]; [|rewrite upd_nth_error_other; auto].
  exfalso. rewrite H in Hn. injection Hn as <-. cbn [thread_step] in Hs.
  assert (L : locked (snd c) x = true).
  { unfold locked. apply existsb_exists. exists (Wait x x k). split; [eapply nth_error_In; eauto|].
    cbn [holds_lock]. apply Nat.eqb_refl. }
  rewrite L in Hs. discriminate.
Qed.

Lemma holders_two {A} (ts : list (thread A)) r i j t u : nth_error ts i = Some t -> nth_error ts j = Some u ->
  (i < j)%nat -> holds_lock r t = true -> holds_lock r u = true -> (2 <= holders ts r)%nat.
Proof.
  revert i j. induction ts as [|a ts IH]; intros i j Hi Hj Hij Ht Hu; [destruct i; discriminate|].
  destruct j as [|j]; [lia|]. cbn [nth_error] in Hj. unfold holders. cbn [filter].
  destruct i as [|i]; cbn [nth_error] in Hi.
  - injection Hi as ->. rewrite Ht. cbn [length].
    assert (X : In u (filter (holds_lock r) ts)) by (apply filter_In; split; auto; eapply nth_error_In; eauto).
    destruct (filter (holds_lock r) ts); [destruct X|cbn [length]; lia].
  - assert (X : (2 <= holders ts r)%nat) by (apply (IH i j); auto; lia). unfold holders in X.
    destruct (holds_lock r a); cbn [length]; lia.
Qed.

Lemma mutex {A} h (ps : list (prog A)) s c i j x o k o' k' : run (start h ps) s = Some c ->
  nth_error (snd c) i = Some (Wait x o k) -> nth_error (snd c) j = Some (Wait x o' k') -> i = j.
Proof.
  intros R Hi Hj.
  assert (H : forall r, (holders (snd c) r <= 1)%nat).
  { apply (run_inv (fun c : config A => forall r, (holders (snd c) r <= 1)%nat)) with (s := s) (c := start h ps); auto.
    - intros c0 n c1 H E. eapply mutex_step; eauto.
    - intros r. cbn [start snd]. rewrite holders_start. lia. }
  specialize (H x). destruct (Nat.lt_trichotomy i j) as [L|[L|L]]; auto; exfalso.
  - pose proof (holders_two _ x _ _ _ _ Hi Hj L (Nat.eqb_refl x) (Nat.eqb_refl x)). lia.
  - pose proof (holders_two _ x _ _ _ _ Hj Hi L (Nat.eqb_refl x) (Nat.eqb_refl x)). lia.
Qed.

(** ** Setters of disjoint fields *)

Definition fset_all (d : list N) (ws : list (field * N)) : list N :=
  fold_left (fun d w => fset d (fst w) (snd w)) ws d.

Lemma fset_all_ok ws d : bytes_ok d -> bytes_ok (fset_all d ws) /\ length (fset_all d ws) = length d.
Proof.
  unfold fset_all. revert d. induction ws as [|w ws IH]; intros d Hd; cbn [fold_left]; auto.
  destruct (IH (fset d (fst w) (snd w))) as [H1 H2]; [apply fset_ok; auto|]. rewrite fset_length in H2. auto.
Qed.

Lemma fset_all_bit ws d j : Forall (fun w => field_in (fst w) (length d)) ws ->
  (forall w, In w ws -> ~ (f_start (fst w) <= j <= f_end (fst w))%nat) -> bit (fset_all d ws) j = bit d j.
Proof.
  unfold fset_all. revert d. induction ws as [|w ws IH]; intros d Hin Hj; cbn [fold_left]; auto.
  apply Forall_cons_iff in Hin as [Hw Hin]. rewrite IH.
  - rewrite bit_fset by auto. specialize (Hj w (or_introl eq_refl)).
    destruct (Nat.leb_spec (f_start (fst w)) j), (Nat.leb_spec j (f_end (fst w))); cbn [andb]; auto. lia.
  - rewrite fset_length. auto.
  - intros; apply Hj; right; auto.
Qed.

Lemma fset_all_val ws d : bytes_ok d -> Forall (fun w => field_in (fst w) (length d)) ws ->
  ForallOrdPairs (fun a b => disjoint (fst a) (fst b)) ws ->
  Forall (fun w => field_val (fset_all d ws) (fst w) = snd w mod 2 ^ N.of_nat (f_width (fst w))) ws.
Proof.
  intros Hd Hin Hdis. revert d Hd Hin. induction Hdis as [|w ws Hw Hws IH]; intros d Hd Hin; [constructor|].
  apply Forall_cons_iff in Hin as [Hwi Hin].
  assert (O : bytes_ok (fset d (fst w) (snd w))) by (apply fset_ok; auto).
  assert (Hin' : Forall (fun w0 => field_in (fst w0) (length (fset d (fst w) (snd w)))) ws)
    by (rewrite fset_length; auto).
  constructor.
  - change (fset_all d (w :: ws)) with (fset_all (fset d (fst w) (snd w)) ws).
    destruct (fset_all_ok ws _ O) as [O' L'].
    rewrite <- (field_val_fset d (fst w) (snd w)) by auto. apply field_val_ext; auto.
    + rewrite L', fset_length. auto.
    + intros j Hj. apply fset_all_bit; auto. intros u Hu Hj'.
      pose proof (proj1 (Forall_forall _ _) Hw u Hu) as D. unfold disjoint in D. lia.
  - exact (IH _ O Hin').
Qed.

Definition setter (r : nat) (w : hdr * (field * N)) : list op := [OSet (fst w) (fst (snd w)) (snd (snd w))].

Lemma setters_one_by_one m r ws : forall h d, cell_at h r d -> bytes_ok d ->
  Forall (fun w => h_ref (fst w) = r) ws -> Forall (fun w => field_in (fst (snd w)) (length d)) ws ->
  one_by_one m (map (setter r) ws) h =
  (map (fun _ => Ret [RUnit]) ws, upd h r (Cell (fset_all d (map snd ws)) false)).
Proof.
  induction ws as [|w ws IH]; intros h d Hc Hd Hr Hin; cbn [map one_by_one].
  - cbn [fset_all fold_left]. rewrite upd_same by auto. reflexivity.
  - apply Forall_cons_iff in Hr as [Hr1 Hr]. apply Forall_cons_iff in Hin as [Hw Hin].
    assert (E : thread_call m (setter r w) h =
      (Ret [RUnit], upd h r (Cell (fset d (fst (snd w)) (snd (snd w))) false))).
    { unfold setter. cbn [thread_call op_call]. unfold bind, ret.
      rewrite (hset_in _ h d) by (rewrite ?Hr1; auto). rewrite Hr1. reflexivity. }
    rewrite E. rewrite (IH _ (fset d (fst (snd w)) (snd (snd w)))); auto.
    + rewrite upd_upd. reflexivity.
    + apply (cell_at_upd _ _ d); auto.
    + apply fset_ok; auto.
    + rewrite fset_length. auto.
Qed.
