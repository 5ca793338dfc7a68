(** PropPcap.v -- C77: the capture files of the crate's tests.

    [pcap_write] is the model of tests/pcap.rs in Pcap.v; [pcap], [stamped], [file_length], [stamp] are the file format in PcapSpec.v. *)

From Coq Require Import Lia.
From Verif Require Import Base Pcap PcapSpec PcapProofs.
Open Scope N_scope.

(** It returns exactly if the system lets it: the clock is past 1970, the file opens, each of its writes succeeds; else it panics. *)
Theorem C77_outcome : forall s ps disk,
  (fst (pcap_write s ps disk) = Ret tt <->
   s_now s <> None /\ s_open s = true /\ forall i, (i < 1 + 2 * length ps)%nat -> s_write s i = None) /\
  (fst (pcap_write s ps disk) <> Ret tt -> fst (pcap_write s ps disk) = Panic PUnwrap).
Proof.
  intros s ps disk. destruct (s_now s) as [[secs nanos]|] eqn:En.
  - destruct (s_open s) eqn:Eo.
    + destruct (pcap_write s ps disk) as [r d] eqn:E. cbn [fst].
      destruct (pcap_laid s ps disk secs nanos r d En Eo E) as [(-> & _ & H)|(-> & (i & Hi & Wi) & _)].
      * split; [split; auto; intros; repeat split; auto; discriminate|]. intros N. destruct (N eq_refl).
      * split; [split; [discriminate|]|auto]. intros (_ & _ & H). destruct (Wi (H i Hi)).
    + unfold pcap_write. rewrite En, Eo. cbn. split; [split; [discriminate|]|auto]. intros (_ & K & _). discriminate.
  - unfold pcap_write. rewrite En. cbn. split; [split; [discriminate|]|auto]. intros (K & _). destruct (K eq_refl).
Qed.
Print Assumptions C77_outcome.

(** Where there was no file, or none longer than the new one, there is now a capture file of Ethernet packets: those given, in their
    order and whole, all with the same time. Nothing else can be read from it. *)
Theorem C77_fresh : forall s ps disk secs nanos d, s_now s = Some (secs, nanos) -> secs < 2 ^ 32 -> nanos < 1000000000 ->
  Forall (fun p => N.of_nat (length p) < 2 ^ 32) ps -> (length (old_bytes disk) <= file_length ps)%nat ->
  pcap_write s ps disk = (Ret tt, d) ->
  exists file, d = Some file /\ length file = file_length ps /\ pcap file 65535 1 (stamped secs (nanos / 1000000) ps) /\
    forall snap link l, pcap file snap link l -> snap = 65535 /\ link = 1 /\ l = stamped secs (nanos / 1000000) ps.
Proof.
  intros s ps disk secs nanos d En Hs Hn Hp Ho E.
  assert (Op : s_open s = true) by (apply (proj1 (C77_outcome s ps disk)); rewrite E; reflexivity).
  destruct (pcap_laid s ps disk secs nanos _ _ En Op E) as [(_ & -> & _)|(K & _)]; [|discriminate].
  assert (Hu : nanos / 1000000 < 2 ^ 32).
  { apply N.div_lt_upper_bound; [discriminate|]. eapply N.lt_trans; [exact Hn|]. reflexivity. }
  rewrite (u32_small _ Hs), (u32_small _ Hu). unfold laid. rewrite skipn_all2, app_nil_r by (rewrite text_length; exact Ho).
  eexists. split; [reflexivity|]. split; [apply text_length|].
  assert (P : pcap (text secs (nanos / 1000000) ps) 65535 1 (stamped secs (nanos / 1000000) ps)).
  { pose proof (text_pcap secs (nanos / 1000000) ps [] [] Hs Hu Hp Cap_end) as K. rewrite !app_nil_r in K. exact K. }
  split; [exact P|]. intros snap link l Q. destruct (pcap_fun _ _ _ _ P _ _ _ Q) as (<- & <- & <-). auto.
Qed.
Print Assumptions C77_fresh.

(** A longer file keeps its end: the file is as long as before, and behind the new records lie the old bytes. *)
Theorem C77_longer : forall s ps old d, pcap_write s ps (Some old) = (Ret tt, d) -> (file_length ps <= length old)%nat ->
  exists file, d = Some file /\ length file = length old /\ skipn (file_length ps) file = skipn (file_length ps) old /\
    exists fresh, pcap_write s ps None = (Ret tt, Some fresh) /\ firstn (file_length ps) file = fresh.
Proof.
  intros s ps old d E L. pose proof (proj1 (proj1 (C77_outcome s ps (Some old)))) as K. rewrite E in K. destruct (K eq_refl) as (En & Op & W).
  destruct (s_now s) as [[secs nanos]|] eqn:Es; [|destruct (En eq_refl)].
  destruct (pcap_laid s ps (Some old) secs nanos _ _ Es Op E) as [(_ & -> & _)|(Q & _)]; [|discriminate].
  set (t := text _ _ ps). assert (Lt : length t = file_length ps) by apply text_length.
  cbn [old_bytes]. unfold laid. eexists. split; [reflexivity|]. rewrite <- Lt. split; [|split].
  - rewrite app_length, skipn_length. lia.
  - rewrite skipn_app, (skipn_all2 t) by lia. rewrite Nat.sub_diag. reflexivity.
  - destruct (pcap_write s ps None) as [r d'] eqn:E'.
    destruct (pcap_laid s ps None secs nanos _ _ Es Op E') as [(-> & -> & _)|(_ & (i & Hi & Wi) & _)]; [|destruct (Wi (W i Hi))].
    eexists. split; [reflexivity|]. rewrite firstn_app, firstn_all, Nat.sub_diag, firstn_O, app_nil_r.
    fold t. unfold laid. cbn [old_bytes]. rewrite skipn_nil, app_nil_r. reflexivity.
Qed.
Print Assumptions C77_longer.

(** So when packets [a ++ b] were written before, and packets [a'] as long as [a] are written now, [b] is still in the file. *)
Theorem C77_leftover : forall s s' a b a' disk secs nanos secs' nanos' d d',
  s_now s = Some (secs, nanos) -> s_now s' = Some (secs', nanos') -> secs < 2 ^ 32 -> secs' < 2 ^ 32 -> nanos < 1000000000 -> nanos' < 1000000000 ->
  Forall (fun p => N.of_nat (length p) < 2 ^ 32) (a ++ b) -> map (@length N) a' = map (@length N) a ->
  (length (old_bytes disk) <= file_length (a ++ b))%nat ->
  pcap_write s (a ++ b) disk = (Ret tt, d) -> pcap_write s' a' d = (Ret tt, d') ->
  exists file, d' = Some file /\ pcap file 65535 1 (stamped secs' (nanos' / 1000000) a' ++ stamped secs (nanos / 1000000) b).
Proof.
  intros s s' a b a' disk secs nanos secs' nanos' d d' En En' Hs Hs' Hn Hn' Hp Hm Ho E E'.
  assert (Op : s_open s = true) by (apply (proj1 (C77_outcome s (a ++ b) disk)); rewrite E; reflexivity).
  assert (Op' : s_open s' = true) by (apply (proj1 (C77_outcome s' a' d)); rewrite E'; reflexivity).
  destruct (pcap_laid _ _ _ _ _ _ _ En Op E) as [(_ & -> & _)|(K & _)]; [|discriminate].
  destruct (pcap_laid _ _ _ _ _ _ _ En' Op' E') as [(_ & -> & _)|(K & _)]; [|discriminate].
  assert (U : forall n, n < 1000000000 -> n / 1000000 < 2 ^ 32).
  { intros n H. apply N.div_lt_upper_bound; [discriminate|]. eapply N.lt_trans; [exact H|]. reflexivity. }
  rewrite !u32_small by auto. cbn [old_bytes]. unfold laid at 2. rewrite skipn_all2, app_nil_r by (rewrite text_length; exact Ho).
  eexists. split; [reflexivity|]. apply Forall_app in Hp as [Ha Hb].
  assert (La : file_length a' = file_length a).
  { unfold file_length. f_equal. f_equal. clear -Hm. revert a Hm. induction a' as [|p a' IH]; intros [|q a] Hm; try discriminate; auto.
    cbn [map] in *. injection Hm as -> Hm. rewrite (IH a Hm). reflexivity. }
  unfold laid. rewrite text_length, La, <- (text_length secs (nanos / 1000000) a).
  assert (T : text secs (nanos / 1000000) (a ++ b) = text secs (nanos / 1000000) a ++ texts secs (nanos / 1000000) b).
  { unfold text, texts. rewrite map_app, concat_app, app_assoc. reflexivity. }
  rewrite T, skipn_app, skipn_all, Nat.sub_diag. cbn [skipn app]. apply text_pcap; auto.
  - clear -Ha Hm. revert a Ha Hm. induction a' as [|p a' IH]; intros [|q a] Ha Hm; try discriminate; constructor.
    + cbn [map] in Hm. injection Hm as Hq _. unfold short. rewrite Hq. exact (Forall_inv Ha).
    + cbn [map] in Hm. injection Hm as _ Hm. eapply IH; [|exact Hm]. exact (Forall_inv_tail Ha).
  - pose proof (captures_app secs (nanos / 1000000) b [] [] Hs (U _ Hn) Hb Cap_end) as K. rewrite !app_nil_r in K. exact K.
Qed.
Print Assumptions C77_leftover.

(** A system on which everything works, in 2026. *)
Definition fine : system := System (Some (1794906000, 123456789)) true (fun _ => None).

(** "What is written is what can be read" is false: packets of an earlier run are read as well, or nothing can be read at all. *)
Theorem C77_overwrite_refuted :
  (exists ps disk file, pcap_write fine ps disk = (Ret tt, Some file) /\
     exists l, pcap file 65535 1 l /\ map c_bytes l <> ps) /\
  (exists ps disk file, pcap_write fine ps disk = (Ret tt, Some file) /\ ~ exists snap link l, pcap file snap link l).
Proof.
  split.
  - destruct (pcap_write fine [[1; 2; 3]; [4; 5]] None) as [r d] eqn:E.
    destruct (pcap_write fine [[6; 7; 8]] d) as [r' d'] eqn:E'.
    assert (r = Ret tt) as -> by (vm_compute in E; injection E as <- _; reflexivity).
    assert (r' = Ret tt) as -> by (vm_compute in E; injection E as <-; vm_compute in E'; injection E' as <- _; reflexivity).
    destruct (C77_leftover fine fine [[1; 2; 3]] [[4; 5]] [[6; 7; 8]] None _ _ _ _ d d' eq_refl eq_refl) as (file & -> & P);
      try reflexivity; auto.
    { repeat constructor. }
    { cbn. lia. }
    exists [[6; 7; 8]], d, file. split; [exact E'|]. eexists. split; [exact P|]. discriminate.
  - set (old := match snd (pcap_write fine [[1; 2; 3]] None) with Some f => f | None => [] end).
    destruct (pcap_write fine [[]] (Some old)) as [r d] eqn:E.
    destruct (pcap_laid fine [[]] (Some old) _ _ r d eq_refl eq_refl E) as [(-> & -> & _)|(_ & (i & _ & K) & _)]; [|destruct (K eq_refl)].
    eexists [[]], (Some old), _. split; [exact E|]. intros (snap & link & l & P). unfold laid in P.
    apply pcap_rest in P; [|repeat constructor]. destruct P as (l' & C). apply captures_long in C as [C|C].
    + apply (f_equal (@length N)) in C. vm_compute in C. discriminate.
    + apply Nat.leb_le in C. vm_compute in C. discriminate.
Qed.
Print Assumptions C77_overwrite_refuted.

(** The time of the records, in microseconds, is right only in the first microsecond of each second: the field for microseconds
    holds the milliseconds. It is early by less than a second. *)
Theorem C77_time : forall ps secs nanos c, nanos < 1000000000 -> In c (stamped secs (nanos / 1000000) ps) ->
  let now := 1000000 * secs + nanos / 1000 in
  (stamp c = now <-> nanos < 1000) /\ stamp c <= now /\ now - stamp c < 1000000.
Proof.
  intros ps secs nanos c Hn Hc now. apply in_map_iff in Hc as (p & <- & _). unfold stamp. cbn [c_sec c_usec].
  assert (D : nanos / 1000000 = nanos / 1000 / 1000) by (rewrite N.div_div by discriminate; reflexivity).
  assert (L : nanos / 1000 < 1000000) by (apply N.div_lt_upper_bound; [discriminate|exact Hn]).
  assert (Z : nanos < 1000 <-> nanos / 1000 = 0) by (symmetry; apply N.div_small_iff; discriminate).
  unfold now. rewrite D, Z. clear D Z Hn now. set (q := nanos / 1000) in *. clearbody q.
  pose proof (N.div_mod' q 1000) as M. pose proof (N.mod_lt q 1000 ltac:(discriminate)) as Q.
  set (t := q / 1000) in *. set (u := q mod 1000) in *. clearbody t u. lia.
Qed.
Print Assumptions C77_time.
Theorem C77_time_refuted : exists file l c, pcap_write fine [[1; 2; 3]] None = (Ret tt, Some file) /\ pcap file 65535 1 l /\ In c l /\
  stamp c <> 1000000 * 1794906000 + 123456789 / 1000.
Proof.
  destruct (pcap_write fine [[1; 2; 3]] None) as [r d] eqn:E.
  assert (r = Ret tt) as -> by (vm_compute in E; injection E as <- _; reflexivity).
  destruct (C77_fresh fine [[1; 2; 3]] None _ _ d eq_refl) as (file & -> & _ & P & _); auto; try reflexivity.
  { repeat constructor. }
  { cbn. lia. }
  eexists file, _, _. split; [reflexivity|]. split; [exact P|]. split; [left; reflexivity|]. vm_compute. discriminate.
Qed.
Print Assumptions C77_time_refuted.

(** The file announces records of 65535 bytes at most; that holds if it does for the packets, it is not seen to. *)
Theorem C77_snap : forall ps sec usec,
  Forall (fun c => N.of_nat (length (c_bytes c)) <= 65535) (stamped sec usec ps) <-> Forall (fun p => N.of_nat (length p) <= 65535) ps.
Proof. intros ps sec usec. unfold stamped. rewrite Forall_map. reflexivity. Qed.
Print Assumptions C77_snap.
Theorem C77_snap_refuted : exists p file l, pcap_write fine [p] None = (Ret tt, Some file) /\ pcap file 65535 1 l /\
  ~ Forall (fun c => N.of_nat (length (c_bytes c)) <= 65535) l.
Proof.
  set (p := repeat 0 (N.to_nat 65536)). assert (Lp : N.of_nat (length p) = 65536) by (unfold p; rewrite repeat_length; apply N2Nat.id).
  clearbody p. destruct (pcap_write fine [p] None) as [r d] eqn:E.
  assert (r = Ret tt) as -> by (cbn in E; injection E as <- _; reflexivity).
  destruct (C77_fresh fine [p] None _ _ d eq_refl) as (file & -> & _ & P & _); auto; try reflexivity.
  { constructor; [rewrite Lp; reflexivity|constructor]. }
  { cbn [old_bytes length]. lia. }
  exists p. eexists file, _. split; [exact E|]. split; [exact P|]. intros F. apply C77_snap in F. apply Forall_inv in F.
  rewrite Lp in F. vm_compute in F. apply F. reflexivity.
Qed.
Print Assumptions C77_snap_refuted.

(** After a panic the file is as it was, or the beginning of the new one has been written over it. *)
Theorem C77_cut_short : forall s ps disk d, pcap_write s ps disk = (Panic PUnwrap, d) ->
  d = disk \/ exists whole k, fst (pcap_write (System (s_now s) true (fun _ => None)) ps None) = Ret tt /\
    snd (pcap_write (System (s_now s) true (fun _ => None)) ps None) = Some whole /\
    d = Some (firstn k whole ++ skipn (length (firstn k whole)) (old_bytes disk)).
Proof.
  intros s ps disk d E. destruct (s_now s) as [[secs nanos]|] eqn:En.
  - destruct (s_open s) eqn:Eo.
    + right. destruct (pcap_laid s ps disk secs nanos _ d En Eo E) as [(K & _)|(_ & _ & k & ->)]; [discriminate|].
      set (s' := System (Some (secs, nanos)) true (fun _ => None)).
      destruct (pcap_write s' ps None) as [r d'] eqn:E'.
      destruct (pcap_laid s' ps None secs nanos _ _ eq_refl eq_refl E') as [(-> & -> & _)|(_ & (i & _ & K) & _)]; [|destruct (K eq_refl)].
      eexists _, k. split; [reflexivity|]. split; [reflexivity|]. unfold laid at 2 3. cbn [old_bytes]. rewrite skipn_nil, app_nil_r. reflexivity.
    + left. unfold pcap_write in E. rewrite En, Eo in E. injection E as <-. reflexivity.
  - left. unfold pcap_write in E. rewrite En in E. injection E as <-. reflexivity.
Qed.
Print Assumptions C77_cut_short.

(** Two packets into no file, one into that, and a full disk. *)
Definition first_file : list N :=
  global_header ++ [144; 23; 252; 106; 123; 0; 0; 0; 3; 0; 0; 0; 3; 0; 0; 0; 1; 2; 3; 144; 23; 252; 106; 123; 0; 0; 0; 2; 0; 0; 0; 2; 0; 0; 0; 4; 5].
Example C77_example_file : pcap_write fine [[1; 2; 3]; [4; 5]] None = (Ret tt, Some first_file).
Proof. vm_compute. reflexivity. Qed.
Example C77_example_again : pcap_write fine [[6; 7; 8]] (Some first_file) =
  (Ret tt, Some (firstn 40 first_file ++ [6; 7; 8] ++ skipn 43 first_file)) /\ skipn 43 first_file <> [].
Proof. split; [vm_compute; reflexivity|]. vm_compute. discriminate. Qed.
Example C77_example_full : pcap_write (System (s_now fine) true (fun i => match i with 2%nat => Some 1%nat | _ => None end)) [[1; 2; 3]; [4; 5]] None =
  (Panic PUnwrap, Some (firstn 41 first_file)).
Proof. vm_compute. reflexivity. Qed.
