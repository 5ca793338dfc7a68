(** PropSource.v -- C92: where the bits that threads see come from. *)

From Coq Require Import Lia.
From Verif Require Import Base Bits Types Layout Heap Packet Text Build Utils Slow Fast Show Ops Client Ipv6 Threads Spec ClientSpec PropIpv6
  BitsProofs HeapProofs PropBuild ClientProofs PropClient ThreadsSim ThreadsSpec ThreadsRel ThreadsProofs PropThreads SourceSpec SourceProofs.
Open Scope N_scope.

(** ** In the buffers *)

(** Whatever calls any number of threads make after [w], in any interleaving: a bit of a
    buffer settled in [w] stood there in [w], or one of the calls writes it there, or one
    of the calls copies it from a buffer where it has such a source. *)
Theorem C92_source : forall m w l w' r j b, wreach m ipv6_from_str w -> exec m ipv6_from_str w l w' -> settled w r ->
  stands (w_heap w') r j b -> source w (begun l) r j b.
Proof.
  intros m w l w' r j b R X _ St. destruct (source_run m _ w l w' (begun l) C65_octets16 R X) as (H & _); [apply incl_refl|auto].
Qed.
Print Assumptions C92_source.

(** A buffer that none of the calls writes keeps its bits. *)
Theorem C92_unwritten : forall m w l w' r j b, wreach m ipv6_from_str w -> exec m ipv6_from_str w l w' -> settled w r ->
  (forall o, In (K_hdr o) (begun l) -> ~ gives o r j b /\ forall x y, o = OReplace x y -> h_ref x <> r) ->
  stands (w_heap w') r j b -> stands (w_heap w) r j b.
Proof.
  intros m w l w' r j b R X Se No St. pose proof (C92_source m w l w' r j b R X Se St) as So.
  destruct So as [r j b St0|o r j b J G|x y j b J _|r j b Ns]; auto; [|exfalso..|contradiction].
  - destruct (No _ J). contradiction.
  - destruct (No _ J) as (_ & H). exact (H x y eq_refl eq_refl).
Qed.
Print Assumptions C92_unwritten.

(** ** In the results *)

(** Every bit that a getter, [bit_range], [bytes] or [to_vec] of a header or a packet
    returns stood at its place at some moment of the call. *)
Theorem C92_stood : forall m w i k l w' v, call_in m ipv6_from_str i k w l w' -> got w' i k v -> made_of (stood l) k v.
Proof.
  intros m w i k l w' v C G. eapply call_reads; [exact C|exact G|apply rok_made|]. intros u J r j b St. exists u. auto.
Qed.
Print Assumptions C92_stood.

(** So it has a source. *)
Theorem C92_no_thin_air : forall m w l0 w0 i k l w' v, wreach m ipv6_from_str w -> exec m ipv6_from_str w l0 w0 ->
  call_in m ipv6_from_str i k w0 l w' -> got w' i k v -> made_of (source w (begun (l0 ++ l))) k v.
Proof.
  intros m w l0 w0 i k l w' v R X C G. eapply call_reads; [exact C|exact G|apply rok_made|]. intros u J r j b St.
  destruct C as (X1 & _). destruct (exec_split _ _ _ _ _ _ X1 J) as (l1 & l2 & -> & X2).
  destruct (source_run m _ w (l0 ++ l1) u (begun (l0 ++ l1)) C65_octets16 R (exec_app _ _ _ _ _ _ _ X X2) (incl_refl _)) as (H & _).
  eapply source_more; [|apply H; exact St]. unfold begun. rewrite !flat_map_app. apply incl_app; [apply incl_appl, incl_refl|].
  apply incl_appr, incl_appl, incl_refl.
Qed.
Print Assumptions C92_no_thin_air.

(** ** Bits, not values *)

(** Executions given by what happens in them. *)
Definition mv (e : event) : move := match e with Spawn => M_spawn | Begin i k => M_call i k | Do i => M_do i | Back i => M_back i end.
Fixpoint track (m : mode) (w : world) (es : list event) : list (move * world) :=
  match es with [] => [] | e :: t => (mv e, wgo m w e) :: track m (wgo m w e) t end.
Definition goes (m : mode) (w : world) (e : event) : bool :=
  let ok o := match o with Some _ => true | None => false end in
  match e with
  | Spawn => true
  | Begin i k => ok (wcall m ipv6_from_str w i k)
  | Do i => ok (wdo w i)
  | Back i => ok (wback w i)
  end.
Fixpoint all_go (m : mode) (w : world) (es : list event) : bool :=
  match es with [] => true | e :: t => goes m w e && all_go m (wgo m w e) t end.
Lemma goes_moved m w e : goes m w e = true -> legal_event w e -> moved m ipv6_from_str w (mv e) (wgo m w e).
Proof.
  destruct e as [|i k|i|i]; cbn [goes legal_event mv moved wgo]; intros G L.
  - reflexivity.
  - destruct (wcall m ipv6_from_str w i k) eqn:E; [|discriminate]. cbn [try_]. tauto.
  - destruct (wdo w i) eqn:E; [|discriminate]. reflexivity.
  - destruct (wback w i) eqn:E; [|discriminate]. reflexivity.
Qed.
Lemma track_exec m es : forall w, all_go m w es = true -> existsb is_begin es = false ->
  exec m ipv6_from_str w (track m w es) (fold_left (wgo m) es w).
Proof.
  induction es as [|e es IH]; intros w G B; [constructor|]. cbn [all_go existsb] in *. apply andb_prop in G. destruct G as (Ge & Gs).
  apply Bool.orb_false_elim in B. destruct B as (Be & Bs). cbn [track fold_left]. eapply exec_cons; [|apply IH; auto].
  apply goes_moved; auto. destruct e; try exact I. discriminate.
Qed.

(** Two Ethernet headers [dl_x], [dl_y] ([dl3], C67), nothing in progress. Thread 0 sets
    the ethertype of [dl_x] to 0xffff; after 8 of the 16 bits thread 1 reads it. *)
Definition tr_set := K_hdr (OSet dl_x Ether_etype 0xffff).
Definition tr_get := K_hdr (OGet dl_x Ether_etype).
Definition tr1 := wgo Debug dl3 (Begin 0 tr_set).
Definition tr2 := fold_left (wgo Debug) (repeat (Do 0) 8) tr1.
Definition tr3 := wgo Debug tr2 (Begin 1 tr_get).
Definition tr4 := fold_left (wgo Debug) (repeat (Do 1) 16) tr3.
Definition tr_l0 := (M_call 0 tr_set, tr1) :: track Debug tr1 (repeat (Do 0) 8).
Definition tr_l := (M_call 1 tr_get, tr3) :: track Debug tr3 (repeat (Do 1) 16).
Lemma tr_known (w : world) k : k_hdrs (fst w) = [dl_y; dl_x] -> call_hdrs k = [dl_x] -> (exists o, k = K_hdr o) -> known (fst w) k.
Proof. intros H C (o & ->). cbn [known call_hdrs] in *. rewrite C, H. intros x [<-|[]]. cbn. auto. Qed.
Lemma tr_exec0 : exec Debug ipv6_from_str dl3 tr_l0 tr2.
Proof.
  apply exec_cons; [|apply track_exec; reflexivity]. apply (goes_moved Debug dl3 (Begin 0 tr_set)); [reflexivity|].
  split; [apply tr_known; [reflexivity|reflexivity|eexists; reflexivity]|]. reflexivity.
Qed.
Lemma tr_call : call_in Debug ipv6_from_str 1 tr_get tr2 tr_l tr4.
Proof.
  split.
  - apply exec_cons; [|apply track_exec; vm_compute; reflexivity]. apply (goes_moved Debug tr2 (Begin 1 tr_get)); [vm_compute; reflexivity|].
    split; [apply tr_known; [vm_compute; reflexivity|reflexivity|eexists; reflexivity]|exact I].
  - do 2 eexists. split; [reflexivity|]. intros J. apply in_map_iff in J. destruct J as ((v & u) & E & J). cbn [fst] in E. subst v.
    clear -J. revert J. generalize tr3. intros w. generalize 16%nat. intros n. revert w.
    induction n as [|n IH]; intros w J; cbn [repeat track mv] in J; [destruct J|]. destruct J as [J|J]; [discriminate|eauto].
Qed.
Lemma tr_got : got tr4 1 tr_get (KVal (VNum 0x08ff)).
Proof. exists []. vm_compute. reflexivity. Qed.
Lemma tr_settled : settled dl3 0 /\ settled dl3 1.
Proof.
  assert (X : forall i k own t, ~ busy dl3 i k own t).
  { intros [|[|[|i]]] k own t B; discriminate B. }
  split; (split; [vm_compute; lia|]); intros i k own t B; destruct (X _ _ _ _ B).
Qed.

(** "A getter returns the value the field had, or one that a setter of the field was given"
    is false. *)
Theorem C92_values_refuted : ~ (forall m w l0 w0 i x f l w' n, wreach m ipv6_from_str w -> exec m ipv6_from_str w l0 w0 ->
  call_in m ipv6_from_str i (K_hdr (OGet x f)) w0 l w' -> got w' i (K_hdr (OGet x f)) (KVal (VNum n)) -> settled w (h_ref x) ->
  (exists c, nth_error (w_heap w) (h_ref x) = Some c /\ field_val (c_data c) f = n) \/
  (exists o v, In (K_hdr o) (begun (l0 ++ l)) /\ (o = OSet x f v \/ o = OSetBitRange x (f_end f) (f_start f) v) /\ v = n)).
Proof.
  intros A. destruct (A Debug dl3 tr_l0 tr2 1%nat dl_x Ether_etype tr_l tr4 0x08ff) as [(c & Ec & V)|(o & v & J & O & ->)].
  - exact dl_reach3.
  - exact tr_exec0.
  - exact tr_call.
  - exact tr_got.
  - apply tr_settled.
  - vm_compute in Ec. injection Ec as <-. vm_compute in V. discriminate V.
  - assert (E : begun (tr_l0 ++ tr_l) = [tr_set; tr_get]) by reflexivity. rewrite E in J.
    destruct J as [J|[J|[]]]; injection J as <-; destruct O as [[=]|[=]].
Qed.
Print Assumptions C92_values_refuted.

(** The same execution: each bit of 0x08ff has a source, in [dl3] or in the setter. *)
Example C92_example : forall k, (k <= 15)%nat ->
  (if (k <? 8)%nat then gives (OSet dl_x Ether_etype 0xffff) 0 (111 - k) (N.testbit 0x08ff (N.of_nat k))
   else stands (w_heap dl3) 0 (111 - k) (N.testbit 0x08ff (N.of_nat k))) /\
  source dl3 (begun (tr_l0 ++ tr_l)) 0 (111 - k) (N.testbit 0x08ff (N.of_nat k)).
Proof.
  intros k L. split.
  - do 16 (destruct k as [|k]; [vm_compute; solve [repeat split; lia|eexists; repeat split; lia]|]). lia.
  - destruct (C92_no_thin_air Debug dl3 tr_l0 tr2 1 tr_get tr_l tr4 _ dl_reach3 tr_exec0 tr_call tr_got) as (n & [= <-] & _ & H); [vm_compute; lia|].
    apply (H k L).
Qed.
(** Thread 0 sets the ethertype of [dl_y]; after 8 bits thread 1 copies [dl_y] to [dl_x]. *)
Definition tc_set := K_hdr (OSet dl_y Ether_etype 0xffff).
Definition tc_repl := K_hdr (OReplace dl_x dl_y).
Definition tc1 := wgo Debug dl3 (Begin 0 tc_set).
Definition tc2 := fold_left (wgo Debug) (repeat (Do 0) 8) tc1.
Definition tc3 := wgo Debug tc2 (Begin 1 tc_repl).
Definition tc4 := fold_left (wgo Debug) [Do 1; Do 1; Back 1] tc3.
Definition tc_l := ((M_call 0 tc_set, tc1) :: track Debug tc1 (repeat (Do 0) 8)) ++ (M_call 1 tc_repl, tc3) :: track Debug tc3 [Do 1; Do 1; Back 1].
Example C92_copied_example : exec Debug ipv6_from_str dl3 tc_l tc4 /\ begun tc_l = [tc_set; tc_repl] /\
  stands (w_heap tc4) 0 111 true /\ ~ stands (w_heap dl3) 0 111 true /\ (forall o, In (K_hdr o) (begun tc_l) -> ~ gives o 0 111 true) /\
  source dl3 (begun tc_l) 0 111 true.
Proof.
  assert (X : exec Debug ipv6_from_str dl3 tc_l tc4).
  { eapply exec_app.
    - apply exec_cons; [|apply track_exec; reflexivity]. apply (goes_moved Debug dl3 (Begin 0 tc_set)); [reflexivity|].
      split; [|reflexivity]. change (k_hdrs (fst dl3)) with [dl_y; dl_x]. intros x [<-|[]]. cbn; auto.
    - apply exec_cons; [|apply track_exec; vm_compute; reflexivity]. apply (goes_moved Debug tc2 (Begin 1 tc_repl)); [vm_compute; reflexivity|].
      split; [|exact I]. cbn [known tc_repl]. assert (K : k_hdrs (fst tc2) = [dl_y; dl_x]) by (vm_compute; reflexivity). rewrite K.
      intros x [<-|[<-|[]]]; cbn; auto. }
  assert (St : stands (w_heap tc4) 0 111 true) by (eexists; split; [vm_compute; reflexivity|]; split; [vm_compute; lia|vm_compute; reflexivity]).
  split; [exact X|]. split; [reflexivity|]. split; [exact St|]. split; [|split].
  - intros (c & Ec & _ & B). vm_compute in Ec. injection Ec as <-. vm_compute in B. discriminate B.
  - intros o [J|[J|[]]]; injection J as <-; cbn; [intros ([=] & _)|intros []].
  - eapply C92_source; [exact dl_reach3|exact X|apply tr_settled|exact St].
Qed.
