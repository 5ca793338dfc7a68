(** PropSnap.v -- C64: what a thread that copies bytes out sees while others write. *)

From Coq Require Import Lia Sorted.
From Verif Require Import Base Bits Layout Heap Packet Conc Spec ConcSpec BitsProofs HeapProofs ConcProofs.
Open Scope N_scope.

(** ** Lemmas on one thread among others *)

Lemma step_other {A} (c c' : config A) i j : step c j = Some c' -> i <> j ->
  nth_error (snd c') i = nth_error (snd c) i.
Proof.
  intros H N. destruct (step_inv _ _ _ H) as (t & h' & t' & _ & _ & ->). cbn [snd].
  apply upd_nth_error_other. auto.
Qed.

(** A finished thread stays as it is. *)
Lemma done_stays {A} s (c c' : config A) i o : run c s = Some c' ->
  nth_error (snd c) i = Some (Run (Done o)) -> nth_error (snd c') i = Some (Run (Done o)).
Proof.
  intros R H. revert R. apply (run_inv (fun c : config A => nth_error (snd c) i = Some (Run (Done o)))); auto.
  clear. intros c j c' H E. destruct (Nat.eq_dec i j) as [<-|N]; [|rewrite (step_other _ _ _ _ E N); auto].
  destruct c as [h ts]. cbn [step snd] in *. rewrite H in E. discriminate.
Qed.

(** A thread that is about to call [x.to_vec()] and has returned later: there was a moment
    when it made that step, and it got what the buffer held then. *)
Lemma to_vec_moment {A} x (k : list N -> prog A) i v : forall s c c',
  run c s = Some c' -> nth_error (snd c) i = Some (Run (Sync (list N) (h_ref x) (fun d => (Ret d, d)) k)) ->
  nth_error (snd c') i = Some (Run (Done (Ret v))) ->
  exists s1 s2 h1 ts1 d, s = s1 ++ i :: s2 /\ run c s1 = Some (h1, ts1) /\ cell_at h1 (h_ref x) d /\
    nth_error ts1 i = Some (Run (Sync (list N) (h_ref x) (fun d => (Ret d, d)) k)) /\
    step (h1, ts1) i = Some (h1, upd ts1 i (Run (k d))) /\
    run (h1, upd ts1 i (Run (k d))) s2 = Some c'.
Proof.
  induction s as [|j s IH]; intros c c' R H H'; cbn [run] in R.
  - injection R as <-. rewrite H in H'. discriminate.
  - destruct (step c j) as [c1|] eqn:E; [|discriminate]. destruct (Nat.eq_dec i j) as [<-|N].
    + clear IH. destruct c as [h ts]. cbn [snd] in H. pose proof E as E0. cbn [step] in E. rewrite H in E. cbn [thread_step] in E.
      destruct (locked ts (h_ref x)); [discriminate|].
      unfold section_step, with_lock in E. destruct (nth_error h (h_ref x)) as [[d p]|] eqn:C.
      * cbn [c_poisoned c_data] in E. destruct p.
        { injection E as <-. exfalso.
          assert (D : nth_error (snd c') i = Some (Run (Done (Panic PPoison)))).
          { eapply done_stays; [exact R|]. cbn [snd]. eapply upd_nth_error; eauto. }
          rewrite H' in D. discriminate. }
        injection E as E.
        assert (Eu : upd h (h_ref x) (Cell d false) = h) by (apply upd_same; auto). rewrite Eu in E.
        exists [], s, h, ts, d. subst c1. repeat split; auto.
      * injection E as <-. exfalso.
        assert (D : nth_error (snd c') i = Some (Run (Done UB))).
        { eapply done_stays; [exact R|]. cbn [snd]. eapply upd_nth_error; eauto. }
        rewrite H' in D. discriminate.
    + destruct (IH c1 c' R) as (s1 & s2 & h1 & ts1 & d & -> & R1 & C1 & T1 & S1 & R2); auto.
      { rewrite (step_other _ _ _ _ E N). exact H. }
      exists (j :: s1), s2, h1, ts1, d. repeat split; auto. cbn [run]. rewrite E. exact R1.
Qed.

(** The rest of [pconcat_vecs] after reading [acc] (last first). *)
Fixpoint nest (acc : list (list N)) (p : prog (list N)) (pl : list N) : prog (list N) :=
  match acc with
  | [] => pbind p (fun r => pret (r ++ pl))
  | v :: acc' => nest acc' (pbind p (fun rest => pret (v ++ rest))) pl
  end.
Lemma nest_ret acc r pl : nest acc (pret r) pl = pret (concat (rev acc) ++ r ++ pl).
Proof.
  revert r. induction acc as [|v acc IH]; intros r; [reflexivity|]. cbn [nest pbind pret].
  change (Done (Ret (v ++ r))) with (pret (v ++ r)). rewrite IH. cbn [rev]. rewrite concat_app. cbn [concat].
  rewrite app_nil_r, <- !app_assoc. reflexivity.
Qed.
Lemma nest_sync acc r body (f : list N -> prog (list N)) pl :
  nest acc (Sync (list N) r body f) pl = Sync (list N) r body (fun c => nest acc (f c) pl).
Proof.
  revert f. induction acc as [|v acc IH]; intros f; [reflexivity|]. cbn [nest pbind]. rewrite IH. reflexivity.
Qed.
Lemma nest_cons acc x t pl : nest acc (pconcat_vecs (x :: t)) pl =
  Sync (list N) (h_ref x) (fun d => (Ret d, d)) (fun v => nest (v :: acc) (pconcat_vecs t) pl).
Proof. cbn [pconcat_vecs pto_vec pbind pret]. rewrite nest_sync. reflexivity. Qed.

(** A thread that copies a packet out: the moments at which it read the headers. *)
Definition moments (c : config (list N)) (s : list nat) (l : list hdr) (nds : list (nat * list N)) : Prop :=
  Forall2 (fun x nd => exists c1, run c (firstn (fst nd) s) = Some c1 /\ cell_at (fst c1) (h_ref x) (snd nd)) l nds.

Lemma reading_moments pl i v : forall l acc s c c',
  run c s = Some c' -> nth_error (snd c) i = Some (Run (nest acc (pconcat_vecs l) pl)) ->
  nth_error (snd c') i = Some (Run (Done (Ret v))) ->
  exists nds, moments c s l nds /\ StronglySorted lt (map fst nds) /\
    Forall (fun nd => (fst nd < length s)%nat) nds /\
    v = concat (rev acc) ++ concat (map snd nds) ++ pl.
Proof.
  induction l as [|x l IH]; intros acc s c c' R H H'.
  - cbn [pconcat_vecs] in H. rewrite nest_ret in H. exists []. repeat split; try constructor.
    pose proof (done_stays s c c' i _ R H) as D. rewrite H' in D. injection D as ->. reflexivity.
  - rewrite nest_cons in H.
    destruct (to_vec_moment x _ i v s c c' R H H') as (s1 & s2 & h1 & ts1 & d & -> & R1 & C1 & T1 & S1 & R2).
    destruct (IH (d :: acc) s2 (h1, upd ts1 i (Run (nest (d :: acc) (pconcat_vecs l) pl))) c' R2) as (nds & M & So & Lt & V); auto.
    { cbn [snd]. eapply upd_nth_error; eauto. }
    exists ((length s1, d) :: map (fun nd => (S (length s1) + fst nd, snd nd)%nat) nds).
    assert (Em : map fst (map (fun nd : nat * list N => (S (length s1) + fst nd, snd nd)%nat) nds) =
                 map (fun n => (S (length s1) + n)%nat) (map fst nds)) by (rewrite !map_map; reflexivity).
    assert (Ed : map snd (map (fun nd : nat * list N => (S (length s1) + fst nd, snd nd)%nat) nds) = map snd nds)
      by (rewrite map_map; reflexivity).
    split; [|split; [|split]].
    + constructor.
      * exists (h1, ts1). cbn [fst snd]. split; [|exact C1].
        rewrite firstn_app, Nat.sub_diag, firstn_O, app_nil_r, firstn_all. exact R1.
      * unfold moments in M. revert M R1 S1. generalize (upd ts1 i (Run (nest (d :: acc) (pconcat_vecs l) pl))). clear. intros ts2 M R1 S1. induction M as [|y nd l0 nds (c1 & Ra & Ca) M IHM]; cbn [map]; constructor; auto.
        exists c1. cbn [fst snd]. split; [|exact Ca]. rewrite firstn_app.
        rewrite firstn_all2 by lia. replace (S (length s1) + fst nd - length s1)%nat with (S (fst nd)) by lia.
        cbn [firstn]. rewrite run_app, R1. cbn [run]. rewrite S1. exact Ra.
    + cbn [map fst]. rewrite Em. constructor.
      * clear -So. induction (map fst nds) as [|n ns IHn]; cbn [map]; constructor; inversion So as [|? ? Sa Fa]; subst; auto.
        apply Forall_map. eapply Forall_impl; [|exact Fa]. cbn. intros. lia.
      * clear. induction (map fst nds); cbn [map]; constructor; auto. lia.
    + constructor.
      * cbn [fst]. rewrite app_length. cbn [length]. lia.
      * apply Forall_map. eapply Forall_impl; [|exact Lt]. cbn [fst]. intros nd Hn. rewrite app_length. cbn [length]. lia.
    + cbn [map snd concat]. rewrite Ed. rewrite V. cbn [rev]. rewrite concat_app. cbn [concat]. rewrite app_nil_r, <- !app_assoc. reflexivity.
Qed.

Lemma existsb_upd {A} (f : A -> bool) l i a b : nth_error l i = Some a -> f a = false -> f b = false ->
  existsb f (upd l i b) = existsb f l.
Proof.
  revert i. induction l as [|y l IH]; intros [|i] H Fa Fb; cbn [nth_error upd existsb] in *; try discriminate.
  - injection H as ->. rewrite Fa, Fb. reflexivity.
  - rewrite IH; auto.
Qed.
Lemma locked_upd {A} (ts : list (thread A)) i (p q : prog A) r : nth_error ts i = Some (Run p) ->
  locked (upd ts i (Run q)) r = locked ts r.
Proof. intros H. eapply existsb_upd; eauto. Qed.

Lemma upd_swap {A} (l : list A) i j a b : i <> j -> upd (upd l i a) j b = upd (upd l j b) i a.
Proof.
  revert i j. induction l as [|y l IH]; intros [|i] [|j] N; cbn [upd]; auto; try congruence. f_equal. apply IH. auto.
Qed.

(** What the others do does not depend on what a thread outside [replace] is about to do. *)
Lemma others_step {A} h ts i (p q : prog A) j h' ts' : nth_error ts i = Some (Run p) -> j <> i ->
  step (h, ts) j = Some (h', ts') ->
  step (h, upd ts i (Run q)) j = Some (h', upd ts' i (Run q)) /\ nth_error ts' i = Some (Run p).
Proof.
  intros H N E. pose proof (step_other _ _ i _ E) as K. cbn [snd] in K.
  split; [|rewrite K; auto]. clear K.
  cbn [step] in *. rewrite upd_nth_error_other by auto. destruct (nth_error ts j) as [t|]; [|discriminate].
  assert (Et : thread_step (upd ts i (Run q)) h t = thread_step ts h t).
  { destruct t as [[o|B r body k|x o k]|x o k]; cbn [thread_step]; rewrite ?(locked_upd ts i p q) by auto; reflexivity. }
  rewrite Et. destruct (thread_step ts h t) as [[h1 t1]|]; [|discriminate]. injection E as <- <-.
  rewrite upd_swap by auto. reflexivity.
Qed.
Lemma others_run {A} i (p q : prog A) : forall s h ts h' ts', nth_error ts i = Some (Run p) -> ~ In i s ->
  run (h, ts) s = Some (h', ts') ->
  run (h, upd ts i (Run q)) s = Some (h', upd ts' i (Run q)) /\ nth_error ts' i = Some (Run p).
Proof.
  induction s as [|j s IH]; intros h ts h' ts' H N R; cbn [run] in *.
  - injection R as <- <-. auto.
  - destruct (step (h, ts) j) as [[h1 ts1]|] eqn:E; [|discriminate].
    destruct (others_step h ts i p q j h1 ts1) as [E1 H1]; auto.
    { intros ->. apply N. left. reflexivity. }
    rewrite E1. apply IH; auto. intros I. apply N. right. auto.
Qed.

Lemma run_split {A} (c c' : config A) n s : run c s = Some c' ->
  exists c1, run c (firstn n s) = Some c1 /\ run c1 (skipn n s) = Some c'.
Proof.
  rewrite <- (firstn_skipn n s) at 1. rewrite run_app. destruct (run c (firstn n s)) as [c1|]; [|discriminate]. eauto.
Qed.

(** The buffers may be read at these points of a schedule of the other threads. *)
Definition readable (c : config (list N)) (s : list nat) (l : list hdr) (nds : list (nat * list N)) : Prop :=
  Forall2 (fun x nd => exists c1, run c (firstn (fst nd) s) = Some c1 /\ cell_at (fst c1) (h_ref x) (snd nd) /\
    locked (snd c1) (h_ref x) = false) l nds.

Lemma reading_mixes pl i : forall l acc s h ts h' ts' nds,
  nth_error ts i = Some (Run (nest acc (pconcat_vecs l) pl)) -> ~ In i s ->
  run (h, ts) s = Some (h', ts') -> readable (h, ts) s l nds ->
  StronglySorted le (map fst nds) -> Forall (fun nd => (fst nd <= length s)%nat) nds ->
  exists s', filter (fun j => negb (j =? i)%nat) s' = s /\
    run (h, ts) s' = Some (h', upd ts' i (Run (Done (Ret (concat (rev acc) ++ concat (map snd nds) ++ pl))))).
Proof.
  induction l as [|x l IH]; intros acc s h ts h' ts' nds H N R M So Le.
  - unfold readable in M. inversion M; subst. exists s. cbn [pconcat_vecs] in H. rewrite nest_ret in H. cbn [map concat].
    split.
    + clear -N. induction s as [|j s IH]; [reflexivity|]. cbn [filter].
      destruct (Nat.eqb_spec j i) as [->|]; [exfalso; apply N; left; auto|]. cbn [negb]. f_equal. apply IH. intros I. apply N. right; auto.
    + destruct (others_run i _ (pret (concat (rev acc) ++ pl)) s h ts h' ts' H N R) as [_ H2].
      cbn [app] in *. rewrite upd_same; auto.
  - unfold readable in M. inversion M as [|? [n d] ? nds' (c1 & R1 & C1 & L1) M']; subst. cbn [fst snd] in *.
    destruct c1 as [h1 ts1]. cbn [fst snd] in *.
    inversion Le as [|? ? Ln Le']; subst. cbn [fst] in Ln. cbn [map] in So. inversion So as [|? ? So' Fa]; subst.
    rewrite nest_cons in H.
    assert (N1 : ~ In i (firstn n s)) by (intros I; apply N; rewrite <- (firstn_skipn n s); apply in_or_app; auto).
    assert (N2 : ~ In i (skipn n s)) by (intros I; apply N; rewrite <- (firstn_skipn n s); apply in_or_app; auto).
    destruct (others_run i _ (pret []) _ _ _ _ _ H N1 R1) as [_ H1].
    assert (R2 : run (h1, ts1) (skipn n s) = Some (h', ts')).
    { destruct (run_split _ _ n s R) as (c2 & Ra & Rb). rewrite R1 in Ra. injection Ra as <-. exact Rb. }
    set (q := nest (d :: acc) (pconcat_vecs l) pl).
    destruct (others_run i _ q _ _ _ _ _ H1 N2 R2) as [R3 H3].
    destruct (IH (d :: acc) (skipn n s) h1 (upd ts1 i (Run q)) h' (upd ts' i (Run q))
                 (map (fun nd => (fst nd - n, snd nd)%nat) nds')) as (s' & Fs & Rs); auto.
    + eapply upd_nth_error; eauto.
    + unfold readable. cbn [map] in Fa. rewrite Forall_map in Fa. revert M' H1. generalize q. match goal with |- context [nth_error ts1 i = Some (Run ?p1)] => generalize p1 end. clear -Fa R1 N2 Le'. intros p0 q M' H1.
      induction M' as [|y [n' d'] l0 nds (c2 & Ra & Ca & La) M' IHM]; cbn [map]; constructor.
      * inversion Fa as [|? ? Hn Fb]; subst. inversion Le' as [|? ? Hl Lb]; subst. cbn [fst snd] in *.
        rewrite <- (firstn_skipn n (firstn n' s)) in Ra. rewrite firstn_firstn, Nat.min_l in Ra by lia.
        rewrite skipn_firstn_comm in Ra. rewrite run_app, R1 in Ra. destruct c2 as [h2 ts2].
        assert (N3 : ~ In i (firstn (n' - n) (skipn n s))).
        { intros I. apply N2. rewrite <- (firstn_skipn (n' - n) (skipn n s)). apply in_or_app; auto. }
        destruct (others_run i _ q _ _ _ _ _ H1 N3 Ra) as [Rb Hb].
        eexists. split; [exact Rb|]. cbn [fst snd] in *. split; [exact Ca|]. rewrite (locked_upd _ _ _ _ _ Hb). exact La.
      * inversion Fa; inversion Le'; subst. apply IHM; auto.
    + rewrite map_map. cbn [fst]. clear -So' Fa. revert So' Fa. rewrite <- (map_map fst (fun k => (k - n)%nat)).
      induction (map fst nds') as [|k ks IHk]; cbn [map]; intros S F; constructor.
      * inversion S; inversion F; subst; auto.
      * inversion S as [|? ? ? Fk]; subst. apply Forall_map. eapply Forall_impl; [|exact Fk]. cbn. intros. lia.
    + apply Forall_map. rewrite skipn_length. eapply Forall_impl; [|exact Le']. cbn [fst]. intros. lia.
    + exists (firstn n s ++ i :: s'). split.
      * rewrite filter_app. cbn [filter]. rewrite Nat.eqb_refl. cbn [negb]. rewrite Fs.
        assert (E : filter (fun j => negb (j =? i)%nat) (firstn n s) = firstn n s).
        { clear -N1. induction (firstn n s) as [|j t IHt]; [reflexivity|]. cbn [filter].
          destruct (Nat.eqb_spec j i) as [->|]; [exfalso; apply N1; left; auto|]. cbn [negb]. f_equal. apply IHt. intros I. apply N1. right; auto. }
        rewrite E. apply firstn_skipn.
      * rewrite run_app, R1. cbn [run]. cbn [step]. rewrite H1. cbn [thread_step]. rewrite L1.
        unfold section_step. rewrite (with_lock_cell _ _ d) by auto. rewrite upd_same by exact C1. fold q.
        rewrite Rs. rewrite upd_upd. rewrite map_map. cbn [map snd concat rev]. rewrite concat_app. cbn [concat].
        rewrite app_nil_r, <- !app_assoc. rewrite (map_ext _ snd) by reflexivity. reflexivity.
Qed.

(** ** C64 *)

(** A header's [to_vec] is atomic: among any other threads, what it returns is what the
    buffer held at one moment of the run. *)
Theorem C64_header_snapshot : forall h (ps : list (prog (list N))) i x s c v,
  nth_error ps i = Some (pto_vec x) -> run (start h ps) s = Some c ->
  nth_error (snd c) i = Some (Run (Done (Ret v))) ->
  exists n c1, (n < length s)%nat /\ run (start h ps) (firstn n s) = Some c1 /\ cell_at (fst c1) (h_ref x) v.
Proof.
  intros h ps i x s c v Hi R Hv.
  destruct (to_vec_moment x pret i v s (start h ps) c R) as (s1 & s2 & h1 & ts1 & d & -> & R1 & C1 & T1 & S1 & R2); auto.
  { cbn [start snd]. rewrite nth_error_map, Hi. reflexivity. }
  assert (D : nth_error (snd c) i = Some (Run (Done (Ret d)))).
  { eapply done_stays; [exact R2|]. cbn [snd]. eapply upd_nth_error; eauto. }
  rewrite Hv in D. injection D as ->. exists (length s1), (h1, ts1).
  rewrite app_length. cbn [length]. split; [lia|]. split; [|exact C1].
  rewrite firstn_app, Nat.sub_diag, firstn_O, app_nil_r, firstn_all. exact R1.
Qed.
Print Assumptions C64_header_snapshot.

(** [Packet::to_vec] is not atomic, but each header is: the result consists of the contents
    of the headers at later and later moments. *)
Theorem C64_packet_moments : forall h (ps : list (prog (list N))) i p s c v,
  nth_error ps i = Some (ppkt_to_vec p) -> run (start h ps) s = Some c ->
  nth_error (snd c) i = Some (Run (Done (Ret v))) ->
  exists nds, moments (start h ps) s (p_hdrs p) nds /\ StronglySorted lt (map fst nds) /\
    Forall (fun nd => (fst nd < length s)%nat) nds /\ v = concat (map snd nds) ++ p_payload p.
Proof.
  intros h ps i p s c v Hi R Hv.
  apply (reading_moments (p_payload p) i v (p_hdrs p) [] s (start h ps) c R); auto.
  cbn [start snd]. rewrite nth_error_map, Hi. reflexivity.
Qed.
Print Assumptions C64_packet_moments.

(** So if nobody changes the packet's buffers during the run it is what one thread gets. *)
Theorem C64_packet_quiet : forall h (ps : list (prog (list N))) i p s c v ds,
  nth_error ps i = Some (ppkt_to_vec p) -> run (start h ps) s = Some c ->
  nth_error (snd c) i = Some (Run (Done (Ret v))) ->
  (forall n c1, run (start h ps) (firstn n s) = Some c1 ->
     Forall2 (fun x d => cell_at (fst c1) (h_ref x) d) (p_hdrs p) ds) ->
  to_vec p h = (Ret v, h).
Proof.
  intros h ps i p s c v ds Hi R Hv Q.
  destruct (C64_packet_moments h ps i p s c v Hi R Hv) as (nds & M & _ & _ & ->).
  assert (E : map snd nds = ds).
  { assert (Q' : forall n c1, run (start h ps) (firstn n s) = Some c1 ->
      Forall2 (fun x d => cell_at (fst c1) (h_ref x) d) (p_hdrs p) ds) by exact Q.
    unfold moments in M. clear -M Q'. revert ds Q'. induction M as [|x nd l nds (c1 & Ra & Ca) M IH]; intros ds Q.
    - specialize (Q O _ eq_refl). inversion Q. reflexivity.
    - pose proof (Q _ _ Ra) as Q1. inversion Q1 as [|? d ? ds' Cd Q2]; subst. cbn [map]. f_equal.
      + eapply cell_at_fun; eauto.
      + apply IH. intros n c2 Rc. specialize (Q n c2 Rc). inversion Q; subst; auto. }
  rewrite E. specialize (Q O _ eq_refl). cbn [start fst] in Q.
  unfold to_vec. rewrite (bind_ret (concat_vecs (p_hdrs p)) _ h (concat ds) h); [reflexivity|].
  clear -Q. induction Q as [|x d l ds C Q IH]; [reflexivity|]. cbn [concat_vecs concat].
  rewrite (bind_ret _ _ _ _ _ (hto_vec_cell x h d C)), (bind_ret _ _ _ _ _ IH). reflexivity.
Qed.
Print Assumptions C64_packet_quiet.

(** And every such mix occurs: for each run of the other threads and each choice of later
    and later points where the buffers can be read, some interleaving lets the reader
    return the contents at these points, while the others do the same as without it. *)
Theorem C64_packet_mixes : forall h (ps : list (prog (list N))) i p s h' ts' nds,
  nth_error ps i = Some (ppkt_to_vec p) -> ~ In i s -> run (start h ps) s = Some (h', ts') ->
  readable (start h ps) s (p_hdrs p) nds -> StronglySorted le (map fst nds) ->
  Forall (fun nd => (fst nd <= length s)%nat) nds ->
  exists s', filter (fun j => negb (j =? i)%nat) s' = s /\
    run (start h ps) s' = Some (h', upd ts' i (Run (Done (Ret (concat (map snd nds) ++ p_payload p))))).
Proof.
  intros h ps i p s h' ts' nds Hi Ni R M So Le.
  apply (reading_mixes (p_payload p) i (p_hdrs p) [] s h (map Run ps) h' ts' nds); auto.
  rewrite nth_error_map, Hi. reflexivity.
Qed.
Print Assumptions C64_packet_mixes.

(** The claim "[Packet::to_vec] returns the packet as it was at some moment" is false. *)
Definition ex_pkt : packet := Pkt [Hdr Tester 0; Hdr Tester 1] [9].
Definition ex_top : field := Fld "top" 0 0.
Definition ex_writer : prog (list N) :=
  plet _ := pset (Hdr Tester 0) ex_top 1 in plet _ := pset (Hdr Tester 1) ex_top 1 in pret [].
Definition ex_start : config (list N) := start [Cell [0] false; Cell [0] false] [ppkt_to_vec ex_pkt; ex_writer].

Theorem C64_packet_atomic_refuted : exists s c v, run ex_start s = Some c /\
  nth_error (snd c) 0 = Some (Run (Done (Ret v))) /\
  forall n c1, run ex_start (firstn n s) = Some c1 -> fst (to_vec ex_pkt (fst c1)) <> Ret v.
Proof.
  exists [0; 1; 1; 0]%nat. do 2 eexists. split; [reflexivity|]. split; [reflexivity|].
  intros n c1 E. assert (Hn : (n <= 4)%nat \/ (4 < n)%nat) by lia.
  destruct Hn as [Hn|Hn].
  - do 5 (destruct n as [|n]; [injection E as <-; vm_compute; discriminate|]). lia.
  - rewrite firstn_all2 in E by (cbn; lia). injection E as <-. vm_compute. discriminate.
Qed.
Print Assumptions C64_packet_atomic_refuted.

(** While one thread runs [x.replace(&o)] and others copy headers, nobody sees [x] cleared:
    a copy of [x] is the old contents or those of [o]. *)
Theorem C64_replace_unseen : forall h x o ys s c i y d e v,
  cell_at h (h_ref x) d -> cell_at h (h_ref o) e -> h_ref x <> h_ref o ->
  run (start h ((plet _ := preplace x o in pret []) :: map pto_vec ys)) s = Some c ->
  nth_error ys i = Some y -> h_ref y = h_ref x ->
  nth_error (snd c) (S i) = Some (Run (Done (Ret v))) -> v = d \/ v = e.
Proof.
  intros h x o ys s c i y d e v Cx Co Ne R Hy Ey Hv.
  set (P := plet _ := preplace x o in pret []) in *.
  set (I := fun c : config (list N) => exists t0 rs, snd c = t0 :: rs /\
    Forall (fun t => finished t \/ exists y, t = Run (pto_vec y)) rs /\ cell_at (fst c) (h_ref o) e /\
    ((t0 = Run P /\ cell_at (fst c) (h_ref x) d) \/
     (t0 = Wait (h_ref x) (h_ref o) (pret []) /\ cell_at (fst c) (h_ref x) []) \/
     (finished t0 /\ cell_at (fst c) (h_ref x) e))).
  assert (Inv : forall c i c', I c -> step c i = Some c' -> I c').
  { clear -Ne. intros c i c' (t0 & rs & Es & Fr & Co & St) E. destruct c as [h ts]. cbn [fst snd] in *. subst ts.
    destruct i as [|i].
    - cbn [step nth_error] in E. destruct St as [[-> Cx]|[[-> Cx]|[[z ->] Cx]]].
      + cbn in E. destruct (locked (Run P :: rs) (h_ref x)) in E; [destruct (existsb _ _) in E|]; try discriminate.
        all: try (destruct (existsb (holds_lock (h_ref x)) rs); [discriminate|]).
        all: unfold section_step in E; rewrite (with_lock_cell _ _ d) in E by auto; injection E as <-.
        all: exists (Wait (h_ref x) (h_ref o) (pret [])), rs; cbn [fst snd]; split; [reflexivity|]; split; [auto|].
        all: split; [unfold cell_at; rewrite upd_nth_error_other by auto; exact Co|].
        all: right; left; split; [reflexivity|]; eapply upd_nth_error; exact Cx.
      + cbn [thread_step] in E. destruct (locked _ _) in E; [discriminate|]. unfold cell_at in Cx, Co. rewrite Cx, Co in E.
        cbn [c_poisoned c_data] in E. injection E as <-. exists (Run (pret [])), rs. cbn [fst snd].
        split; [reflexivity|]. split; [auto|]. split; [unfold cell_at; rewrite upd_nth_error_other by auto; exact Co|].
        right. right. split; [eexists; reflexivity|]. eapply upd_nth_error; exact Cx.
      + discriminate.
    - cbn [step nth_error] in E. destruct (nth_error rs i) as [t|] eqn:Et; [|discriminate].
      destruct (proj1 (Forall_forall _ _) Fr t (nth_error_In _ _ Et)) as [[z ->]|[y ->]]; [discriminate|].
      cbn [thread_step pto_vec] in E. destruct (locked _ _) in E; [discriminate|].
      assert (K : exists z, section_step h (h_ref y) (fun d0 : list N => (Ret d0, d0)) (fun b : list N => Run (pret b)) = (h, Run (Done z))).
      { unfold section_step, with_lock. destruct (nth_error h (h_ref y)) as [[dy []]|] eqn:Cy; cbn [c_poisoned c_data]; eauto.
        rewrite upd_same by exact Cy. eexists. reflexivity. }
      destruct K as [z K]. rewrite K in E. injection E as <-. exists t0, (upd rs i (Run (Done z))). cbn [fst snd upd].
      split; [reflexivity|]. split; [apply Forall_upd; auto; left; eexists; reflexivity|]. auto. }
  assert (I0 : I (start h (P :: map pto_vec ys))).
  { exists (Run P), (map Run (map pto_vec ys)). split; [reflexivity|]. split; [|auto].
    rewrite map_map. apply Forall_map. apply Forall_forall. intros z _. right. eauto. }
  destruct (to_vec_moment y pret (S i) v s _ c R) as (s1 & s2 & h1 & ts1 & w & -> & R1 & C1 & T1 & S1 & R2); auto.
  { cbn [start snd map nth_error]. rewrite map_map, nth_error_map, Hy. reflexivity. }
  assert (D : nth_error (snd c) (S i) = Some (Run (Done (Ret w)))).
  { eapply done_stays; [exact R2|]. cbn [snd]. eapply upd_nth_error; eauto. }
  rewrite Hv in D. injection D as ->. rewrite Ey in C1.
  destruct (run_inv I Inv s1 _ _ I0 R1) as (t0 & rs & Es & _ & _ & St). cbn [fst snd] in *. subst ts1.
  destruct St as [[-> Cx1]|[[-> Cx1]|[Fi Cx1]]].
  - left. eapply cell_at_fun; eauto.
  - exfalso. cbn [step] in S1. rewrite T1 in S1. cbn [thread_step] in S1. unfold locked in S1. cbn [existsb holds_lock] in S1.
    rewrite Ey, Nat.eqb_refl in S1. discriminate.
  - right. eapply cell_at_fun; eauto.
Qed.
Print Assumptions C64_replace_unseen.

(** A thread alone, any program, [replace] included: it ends as Heap.v says, and where Heap.v
    says it hangs, it stands for ever between its two locks. *)
Theorem C64_alone : forall A (p : prog A) h o h', solo p h = (o, h') -> o <> UB ->
  exists n ts, run (start h [p]) (repeat 0%nat n) = Some (h', ts) /\ stuck (h', ts) /\
    (ts = [Run (Done o)] \/ (o = Hang /\ exists x k, ts = [Wait x x k])).
Proof.
  intros A p. assert (Dn : forall h (o : out A), stuck (h, [Run (Done o)])) by (intros h o [|[|i]]; reflexivity).
  induction p as [o|B r body k IH|x o k IH]; intros h w h' S NU; unfold start; cbn [map solo] in *.
  - injection S as <- <-. exists O. eexists. split; [reflexivity|]. auto.
  - unfold bind in S.
    assert (St : step (h, [Run (Sync B r body k)]) 0 =
      let (h1, t1) := section_step h r body (fun b => Run (k b)) in Some (h1, [t1])).
    { cbn [step nth_error thread_step locked existsb holds_lock orb]. destruct (section_step _ _ _ _); reflexivity. }
    unfold section_step in St. destruct (with_lock r body h) as [[b|e| | |] h1].
    + destruct (IH b h1 w h' S NU) as (n & ts & Rn & H). exists (Datatypes.S n), ts. cbn [repeat run]. rewrite St. split; [exact Rn|exact H].
    + injection S as <- <-. exists 1%nat. eexists. cbn [repeat run]. rewrite St. split; [reflexivity|]. auto.
    + injection S as <- <-. contradiction.
    + injection S as <- <-. exists 1%nat. eexists. cbn [repeat run]. rewrite St. split; [reflexivity|]. auto.
    + injection S as <- <-. exists 1%nat. eexists. cbn [repeat run]. rewrite St. split; [reflexivity|]. auto.
  - unfold bind, hreplace in S. cbn [h_ref] in S.
    destruct (nth_error h x) as [[dx px]|] eqn:Ex; [|injection S as <- <-; contradiction].
    destruct (nth_error h o) as [[dz pz]|] eqn:Eo; [|injection S as <- <-; contradiction].
    cbn [c_poisoned c_data] in S.
    assert (St : step (h, [Run (Repl x o k)]) 0 =
      let (h1, t1) := section_step h x (fun _ => (Ret tt, [])) (fun _ : unit => Wait x o k) in Some (h1, [t1])).
    { cbn [step nth_error thread_step locked existsb holds_lock orb]. destruct (section_step _ _ _ _); reflexivity. }
    unfold section_step, with_lock in St. rewrite Ex in St. cbn [c_poisoned c_data] in St. destruct px.
    + injection S as <- <-. exists 1%nat. eexists. cbn [repeat run]. rewrite St. split; [reflexivity|]. auto.
    + destruct (Nat.eqb_spec x o) as [<-|Nx].
      * injection S as <- <-. exists 1%nat. eexists. cbn [repeat run]. rewrite St. split; [reflexivity|].
        split; [|right; eauto]. intros [|[|i]]; try reflexivity. cbn [step nth_error thread_step locked existsb holds_lock].
        rewrite Nat.eqb_refl. reflexivity.
      * set (h1 := upd h x (Cell [] false)) in *.
        assert (E1 : nth_error h1 x = Some (Cell [] false)) by (eapply upd_nth_error; eauto).
        assert (E2 : nth_error h1 o = Some (Cell dz pz)) by (unfold h1; rewrite upd_nth_error_other by auto; exact Eo).
        assert (Nb : (x =? o)%nat = false) by (apply Nat.eqb_neq; auto).
        assert (S2 : step (h1, [Wait x o k]) 0 =
          if pz then Some (upd h1 x (Cell [] true), [Run (Done (Panic PPoison))])
          else Some (upd h1 x (Cell dz false), [Run k])).
        { cbn [step nth_error thread_step locked existsb holds_lock]. rewrite Nb. cbn [orb]. rewrite E1, E2. cbn [c_poisoned c_data app].
          destruct pz; reflexivity. }
        unfold h1 in S2 at 2 3. rewrite !upd_upd in S2.
        assert (S3 : forall n, run (h, [Run (Repl x o k)]) (0 :: 0 :: repeat 0 n)%nat =
          match (if pz then Some (upd h x (Cell [] true), [Run (Done (Panic PPoison))])
                 else Some (upd h x (Cell dz false), [Run k])) with Some c => run c (repeat 0%nat n) | None => None end).
        { intros n. cbn [run]. rewrite St.
          exact (f_equal (fun z => match z with Some c => run c (repeat 0%nat n) | None => None end) S2). }
        destruct pz.
        { injection S as <- <-. exists 2%nat. eexists. split; [exact (S3 O)|]. auto. }
        cbn [app] in S. destruct (IH _ w h' S NU) as (n & ts & Rn & H).
        exists (Datatypes.S (Datatypes.S n)), ts. split; [|exact H]. etransitivity; [exact (S3 n)|exact Rn].
Qed.
Print Assumptions C64_alone.

(** And what it does alone is the one-thread method. *)
Theorem C64_methods_alone : forall m x y f msb lsb v l p h,
  solo (pget m x f) h = hget m x f h /\ solo (pset x f v) h = hset x f v h /\
  solo (pbytes m x msb lsb) h = hbytes m x msb lsb h /\ solo (pset_bytes m x msb lsb l) h = hset_bytes m x msb lsb l h /\
  solo (pto_vec x) h = hto_vec x h /\ solo (preplace x y) h = hreplace x y h /\ solo (ppkt_to_vec p) h = to_vec p h.
Proof.
  intros. split; [apply solo_get|]. split; [apply solo_set|]. split; [apply solo_bytes|]. split; [apply solo_set_bytes|].
  split; [apply solo_to_vec|]. split; [apply solo_replace|]. apply solo_pkt_to_vec.
Qed.
Print Assumptions C64_methods_alone.

(** A run of the writer with two points, and the mix it leads to. *)
Example C64_example :
  run ex_start [1; 1]%nat <> None /\ ~ In 0%nat [1; 1]%nat /\
  readable ex_start [1; 1]%nat (p_hdrs ex_pkt) [(0%nat, [0]); (2%nat, [128])] /\
  StronglySorted le [0; 2]%nat /\
  exists c, run ex_start [0; 1; 1; 0]%nat = Some c /\ nth_error (snd c) 0 = Some (Run (Done (Ret [0; 128; 9]))).
Proof.
  split; [vm_compute; discriminate|]. split; [intros [|[|[]]]; discriminate|]. split.
  - repeat constructor; eexists; (split; [reflexivity|split; reflexivity]).
  - split; [repeat constructor|]. eexists. split; [reflexivity|]. reflexivity.
Qed.
