(** PropLocal.v -- property C72: what a call does depends on its arguments and on nothing
    else in memory. *)

From Coq Require Import Lia.
From Verif Require Import Base Bits Types Layout Heap Packet Text Ipv6 Build Utils Slow Fast Show Trait Ops Client Print Threads TPrint
  Spec ShowSpec ClientSpec PrintSpec ThreadsSpec LocalSpec BitsProofs HeapProofs PropBuild PropIpv6 ClientProofs PropClient PrintProofs PropPrint
  ConcProofs ThreadsRel ThreadsProofs LocalProofs.
Open Scope N_scope.

(** ** One call *)

(** The same call on buffers with the same contents, under other names and among other
    buffers: it prints the same, comes to the same outcome up to the names, allocates as
    many buffers with the same contents, leaves the same in the buffers it was given, and
    leaves every other buffer alone, here and there. *)
Theorem C72_call : forall m ip6 c k h' g, octets16 ip6 -> client_ok c -> known c k -> typed k ->
  (forall r, In r (args k) -> nth_error h' (g r) = nth_error (k_heap c) r) ->
  (forall r q, In r (args k) -> In q (args k) -> g r = g q -> r = q) ->
  exists s o h1 h1',
  w_call m ip6 k (k_heap c) = (s, (o, h1)) /\
  w_call m ip6 (rename_call g k) h' = (s, (rename_out (carry (length (k_heap c)) (length h') g) o, h1')) /\
  (exists j, length h1 = length (k_heap c) + j /\ length h1' = length h' + j /\
    forall i, i < j -> nth_error h1' (length h' + i) = nth_error h1 (length (k_heap c) + i))%nat /\
  (forall r, In r (args k) -> nth_error h1' (g r) = nth_error h1 r) /\
  (forall r, (r < length (k_heap c))%nat -> ~ In r (args k) -> nth_error h1 r = nth_error (k_heap c) r) /\
  (forall r', (r' < length h')%nat -> (forall r, In r (args k) -> g r <> r') -> nth_error h1' r' = nth_error h' r').
Proof.
  intros m ip6 c k h' g O6 C K T E I. set (n := length (k_heap c)). set (n' := length h').
  assert (An : forall r, In r (args k) -> (r < n)%nat) by (intros r R; eapply shared_live; eauto; eapply known_shared; eauto).
  assert (Gn : forall r, In r (args k) -> (g r < n')%nat).
  { intros r R. apply nth_error_Some. rewrite (E r R). apply nth_error_Some. apply An. exact R. }
  set (A := fun r => In r (args k)).
  assert (H : alike n n' A g (k_heap c) h').
  { split; try (unfold n, n'; lia).
    - intros r r' R. apply (at_cases n n' A g An) in R. destruct R as [(R & ->)|(R & ->)]; auto.
      rewrite !(proj2 (nth_error_None _ _)); auto. unfold n'. lia.
    - apply C. }
  destruct (local_call n n' A g An Gn I m ip6 c k g h' O6 C K T) as (s & o & h1 & o' & h1' & W & W' & O & H1 & (Kp & Kp')); auto.
  { intros r R. apply at_arg; auto. }
  exists s, o, h1, h1'. split; [exact W|]. split; [rewrite <- (oer_rename n n' A g _ (fun r _ => eq_refl) _ _ O); exact W'|].
  destruct H1 as [L M Q _]. split; [|split; [|split]].
  - exists (length h1 - n)%nat. split; [lia|]. split; [fold n'; lia|]. intros i Hi. apply Q.
    replace (n' + i)%nat with (n' + (n + i - n))%nat by lia. apply at_new. lia.
  - intros r R. apply Q. apply at_arg; auto.
  - intros r R N'. apply Kp. intros r' X. apply (at_cases n n' A g An) in X. destruct X as [(X & _)|(X & _)]; [auto|fold n in R; lia].
  - intros r' R N'. apply Kp'. intros r X. apply (at_cases n n' A g An) in X. destruct X as [(X & Y)|(X & Y)]; [|fold n' in R; lia].
    apply (N' r X). auto.
Qed.
Print Assumptions C72_call.

(** In particular: whatever happens to other buffers, the call is the same. *)
Theorem C72_unrelated : forall m ip6 c k h', octets16 ip6 -> client_ok c -> known c k -> typed k -> length h' = length (k_heap c) ->
  (forall r, In r (args k) -> nth_error h' r = nth_error (k_heap c) r) ->
  exists s o h1 h1', w_call m ip6 k (k_heap c) = (s, (o, h1)) /\ w_call m ip6 k h' = (s, (o, h1')) /\ length h1' = length h1 /\
  (forall r, In r (args k) \/ (length h' <= r)%nat -> nth_error h1' r = nth_error h1 r) /\
  (forall r, (r < length h')%nat -> ~ In r (args k) -> nth_error h1 r = nth_error (k_heap c) r /\ nth_error h1' r = nth_error h' r).
Proof.
  intros m ip6 c k h' O6 C K T L E. destruct (C72_call m ip6 c k h' (fun r => r) O6 C K T E) as (s & o & h1 & h1' & W & W' & (j & J & J' & N) & Ar & Ot & Ot'); auto.
  rewrite rename_call_id in W'. exists s, o, h1, h1'. split; [exact W|]. split.
  - rewrite W'. do 2 f_equal. destruct o as [v| | | |]; auto. cbn [rename_out]. f_equal.
    assert (Id : forall r, carry (length (k_heap c)) (length h') (fun r => r) r = r).
    { intros r. unfold carry. destruct (Nat.ltb_spec r (length (k_heap c))); lia. }
    assert (Ih : forall x, rename_hdr (carry (length (k_heap c)) (length h') (fun r => r)) x = x).
    { intros [T0 r]. unfold rename_hdr. cbn. rewrite Id. reflexivity. }
    assert (Ip : forall p, rename_pkt (carry (length (k_heap c)) (length h') (fun r => r)) p = p).
    { intros [l y]. unfold rename_pkt. cbn [p_hdrs p_payload]. f_equal. induction l as [|x l IH]; cbn [map]; [reflexivity|]. rewrite Ih, IH. reflexivity. }
    destruct v; cbn [rename]; congruence.
  - split; [lia|]. split; [|intros r R N'; split; [apply Ot; [lia|auto]|apply Ot'; [auto|intros q Q ->; auto]]].
    intros r [R|R]; [auto|]. destruct (Nat.lt_ge_cases r (length h1')) as [Z|Z].
    + specialize (N (r - length h')%nat ltac:(lia)). replace (length h' + (r - length h'))%nat with r in N by lia.
      rewrite N. f_equal. lia.
    + rewrite !(proj2 (nth_error_None _ _)); auto; lia.
Qed.
Print Assumptions C72_unrelated.

(** A call that does not touch the arguments of another does not matter to it: done
    before or left out, the other prints the same, has the same outcome up to the names of
    what it allocates, and leaves the same behind. *)
Theorem C72_independent : forall m ip6 c k1 k2 s1 o1 h1, octets16 ip6 -> client_ok c -> known c k1 -> typed k1 -> known c k2 -> typed k2 ->
  w_call m ip6 k1 (k_heap c) = (s1, (o1, h1)) -> comes_back o1 -> (forall r, In r (args k2) -> ~ In r (touches k1)) ->
  exists s2 o2 h2 h12, let f := carry (length (k_heap c)) (length h1) (fun r => r) in
  w_call m ip6 k2 (k_heap c) = (s2, (o2, h2)) /\ w_call m ip6 k2 h1 = (s2, (rename_out f o2, h12)) /\
  (forall r, In r (args k2) \/ (length (k_heap c) <= r)%nat -> nth_error h12 (f r) = nth_error h2 r) /\
  (forall r, (r < length h1)%nat -> ~ In r (args k2) -> nth_error h12 r = nth_error h1 r).
Proof.
  intros m ip6 c k1 k2 s1 o1 h1 O6 C K1 T1 K2 T2 W1 B1 D.
  assert (An : forall r, In r (args k2) -> (r < length (k_heap c))%nat) by (intros r R; eapply shared_live; eauto; eapply known_shared; eauto).
  assert (E : forall r, In r (args k2) -> nth_error h1 r = nth_error (k_heap c) r).
  { intros r R. pose proof (C68_same m ip6 k1 (k_heap c)) as S. rewrite W1 in S. cbn [snd] in S.
    destruct (kexec m ip6 k1 (k_heap c)) as [o0 h0] eqn:E0.
    assert (X : h0 = h1 /\ comes_back o0) by (destruct o0 as [[]|e| | |]; injection S as -> ->; split; auto; left; eauto).
    destruct X as (-> & B0). eapply (C66_frame m ip6 c k1); eauto. }
  destruct (C72_call m ip6 c k2 h1 (fun r => r) O6 C K2 T2 E) as (s & o & h2 & h12 & W & W' & (j & J & J' & N) & Ar & Ot & Ot'); auto.
  rewrite rename_call_id in W'. exists s, o, h2, h12. cbv zeta. split; [exact W|]. split; [exact W'|]. split.
  - intros r [R|R]; unfold carry.
    + rewrite (proj2 (Nat.ltb_lt _ _)); auto.
    + rewrite (proj2 (Nat.ltb_ge _ _)) by auto. destruct (Nat.lt_ge_cases r (length h2)) as [Z|Z].
      * rewrite N by lia. f_equal. lia.
      * rewrite !(proj2 (nth_error_None _ _)); auto; lia.
  - intros r R N'. apply Ot'; auto. intros q Q ->. auto.
Qed.
Print Assumptions C72_independent.

(** ** Programs *)

(** A whole program, started on other buffers that hold the same as those it knows. *)
Theorem C72_program : forall m ip6 c l h' g, octets16 ip6 -> client_ok c -> lawful m ip6 c l ->
  (forall r, shared c r -> nth_error h' (g r) = nth_error (k_heap c) r) ->
  (forall r q, shared c r -> shared c q -> g r = g q -> r = q) ->
  let f := carry (length (k_heap c)) (length h') g in
  let h1 := snd (w_prog m ip6 l (k_heap c)) in let h1' := snd (w_prog m ip6 (map (rename_call f) l) h') in
  fst (w_prog m ip6 (map (rename_call f) l) h') = fst (w_prog m ip6 l (k_heap c)) /\
  w_outs m ip6 (map (rename_call f) l) h' = map (rename_out f) (w_outs m ip6 l (k_heap c)) /\
  (length h1 + length h' = length h1' + length (k_heap c))%nat /\
  (forall r, shared c r \/ (length (k_heap c) <= r)%nat -> nth_error h1' (f r) = nth_error h1 r) /\
  (forall r, (r < length (k_heap c))%nat -> ~ shared c r -> nth_error h1 r = nth_error (k_heap c) r) /\
  (forall r', (r' < length h')%nat -> (forall r, shared c r -> g r <> r') -> nth_error h1' r' = nth_error h' r').
Proof.
  intros m ip6 c l h' g O6 C L E I. cbv zeta. set (n := length (k_heap c)). set (n' := length h').
  assert (An : forall r, shared c r -> (r < n)%nat) by (intros r R; eapply shared_live; eauto).
  assert (Gn : forall r, shared c r -> (g r < n')%nat).
  { intros r R. apply nth_error_Some. rewrite (E r R). apply nth_error_Some. apply An. exact R. }
  assert (H : alike n n' (shared c) g (k_heap c) h').
  { split; try (unfold n, n'; lia).
    - intros r r' R. apply (at_cases n n' (shared c) g An) in R. destruct R as [(R & ->)|(R & ->)]; auto.
      rewrite !(proj2 (nth_error_None _ _)); auto. unfold n'. lia.
    - apply C. }
  destruct (local_prog n n' (shared c) g An Gn I (carry n n' g) (fun r _ => eq_refl) m ip6 l O6 c h' C L) as (P1 & P2 & [Ln M Q _] & Kp & Kp'); auto.
  split; [exact P1|]. split; [exact P2|]. split; [exact Ln|]. split; [|split].
  - intros r R. apply Q. split; auto.
  - intros r R N'. apply Kp. intros r' X. apply (at_cases n n' (shared c) g An) in X. destruct X as [(X & _)|(X & _)]; [auto|lia].
  - intros r' R N'. apply Kp'. intros r X. apply (at_cases n n' (shared c) g An) in X. destruct X as [(X & Y)|(X & Y)]; [|lia].
    apply (N' r X). auto.
Qed.
Print Assumptions C72_program.

(** A program that starts with nothing does the same whatever has gone on before: it
    prints the same, comes to the same results, and its buffers are added to those there. *)
Theorem C72_start : forall m ip6 l h, octets16 ip6 -> lawful m ip6 k_start l ->
  let f := fun r => (length h + r)%nat in
  w_prog m ip6 (map (rename_call f) l) h = (fst (w_prog m ip6 l []), h ++ snd (w_prog m ip6 l [])) /\
  w_outs m ip6 (map (rename_call f) l) h = map (rename_out f) (w_outs m ip6 l []).
Proof.
  intros m ip6 l h O6 L. cbv zeta. set (f := fun r => (length h + r)%nat).
  assert (N : forall r, ~ shared k_start r) by (intros r [(x & [] & _)|(p & x & [] & _)]).
  assert (C : client_ok k_start) by (repeat split; constructor).
  assert (F : forall r, shared k_start r \/ (0 <= r)%nat -> f r = carry 0 (length h) (fun r => r) r).
  { intros r _. unfold f, carry. cbn. lia. }
  assert (H : alike 0 (length h) (shared k_start) (fun r => r) (k_heap k_start) h).
  { split; cbn [k_heap k_start length]; try lia; [|constructor]. intros r r' ([R|_] & ->); [destruct (N _ R)|].
    unfold carry. cbn [Nat.ltb]. cbn. destruct r; cbn [nth_error]; apply nth_error_None; lia. }
  destruct (local_prog 0 (length h) (shared k_start) (fun r => r) (fun r R => False_ind _ (N r R)) (fun r R => False_ind _ (N r R))
    (fun r q R _ _ => False_ind _ (N r R)) f F m ip6 l O6 k_start h C L) as (P1 & P2 & [Ln M Q _] & Kp & Kp'); auto.
  split; [|exact P2]. rewrite (surjective_pairing (w_prog _ _ (map _ _) _)), P1. f_equal. cbn [k_heap k_start] in *.
  apply nth_error_ext. intros r. destruct (Nat.lt_ge_cases r (length h)) as [Z|Z].
  - rewrite nth_error_app1 by auto. apply Kp'. intros q ([R|_] & ->); [destruct (N _ R)|]. unfold carry in Z. cbn in Z. lia.
  - rewrite nth_error_app2 by auto. apply Q. split; [right; lia|]. unfold carry. cbn. lia.
Qed.
Print Assumptions C72_start.

(** Step by step: buffers that were there before, of whatever contents, come first and stay. *)
Theorem C72_append : forall m ip6 c k h0 s o h1, octets16 ip6 -> client_ok c -> known c k -> typed k ->
  w_call m ip6 k (k_heap c) = (s, (o, h1)) ->
  let f := fun r => (length h0 + r)%nat in
  w_call m ip6 (rename_call f k) (h0 ++ k_heap c) = (s, (rename_out f o, h0 ++ h1)).
Proof.
  intros m ip6 c k h0 s o h1 O6 C K T W. cbv zeta. set (f := fun r => (length h0 + r)%nat). set (n := length (k_heap c)).
  set (A := fun r => (r < n)%nat). assert (An : forall r, A r -> (r < n)%nat) by auto.
  set (n' := (length h0 + n)%nat).
  assert (Gn : forall r, A r -> (f r < n')%nat) by (intros r R; apply An in R; unfold f, n'; lia).
  assert (Gi : forall r q, A r -> A q -> f r = f q -> r = q) by (unfold f; intros; lia).
  assert (F : forall r, A r \/ (n <= r)%nat -> f r = carry n n' f r).
  { intros r _. unfold carry. destruct (Nat.ltb_spec r n); unfold f, n'; lia. }
  assert (Nf : forall r (l : heap), nth_error (h0 ++ l) (f r) = nth_error l r).
  { intros r l. unfold f. rewrite nth_error_app2 by lia. f_equal. lia. }
  assert (H : alike n n' A f (k_heap c) (h0 ++ k_heap c)).
  { split; rewrite ?app_length; try (fold n; unfold n'; lia).
    - intros r r' (R & ->). rewrite <- (F r R). apply Nf.
    - apply C. }
  destruct (local_call n n' A f An Gn Gi m ip6 c k f (h0 ++ k_heap c) O6 C K T) as (s0 & o0 & h2 & o' & h2' & V & V' & O & [Ln M Q _] & (Kp & Kp')); auto.
  { intros r R. assert (S : A r) by (eapply shared_live; eauto; eapply known_shared; eauto). split; auto. }
  rewrite W in V. injection V as <- <- <-. rewrite V'. rewrite (oer_rename n n' A f f F _ _ O). do 2 f_equal.
  apply nth_error_ext. intros r. destruct (Nat.lt_ge_cases r (length h0)) as [Z|Z].
  - rewrite nth_error_app1 by auto. rewrite Kp'; [rewrite nth_error_app1; auto|].
    intros q (R & ->). rewrite <- (F q R) in Z. unfold f in Z. lia.
  - replace r with (f (r - length h0)%nat) by (unfold f; lia). rewrite Nf.
    assert (Z' : A (r - length h0)%nat \/ (n <= r - length h0)%nat) by (unfold A; lia). apply Q. split; auto.
Qed.
Print Assumptions C72_append.

(** ** A program, and the same program later *)

Lemma lawful_cons m ip6 c k t s o h c' : known c k -> typed k -> w_call m ip6 k (k_heap c) = (s, (o, h)) -> (t = [] \/ comes_back o) ->
  learn c o h = c' -> lawful m ip6 c' t -> lawful m ip6 c (k :: t).
Proof. intros K T W B <- L. cbn [lawful]. rewrite W. cbn [snd]. auto. Qed.
Ltac lstep := eapply lawful_cons; [|bk|vm_compute; reflexivity|first [left; reflexivity | right; left; eexists; reflexivity | right; right; eexists; reflexivity]
  |vm_compute; reflexivity|].
Ltac kn := try exact I; cbn [known hop_hdrs pmake_inner k_hdrs k_pkts k_shdrs];
  unfold ex_p1, ex_p2; first [solve [intros ? []] | solve [intros ? [<-|[]]; cbn [In]; auto 12] | solve [intros ? [<-|[<-|[]]]; cbn [In]; auto 12] | solve [repeat split; cbn [In]; auto 12]].
(** The calls of C66_example, then a [show] and a header replaced by itself. *)
Definition lx_calls : list call :=
  ex_calls ++ [K_index ex_p1 "UDP"; K_hshow (Hdr UDP 2); K_hdr (OGet (Hdr UDP 2) UDP_length); K_hdr (OReplace (Hdr UDP 2) (Hdr UDP 2))].
(** Two buffers are there already, one poisoned. *)
Definition lx_heap : heap := [Cell [1; 2; 3] true; Cell [] false].
Example C72_example : lawful Debug ipv6_from_str k_start lx_calls /\
  w_outs Debug ipv6_from_str (map (rename_call (fun r => (2 + r)%nat)) lx_calls) lx_heap =
    map (rename_out (fun r => (2 + r)%nat)) (w_outs Debug ipv6_from_str lx_calls []) /\
  nth_error (w_outs Debug ipv6_from_str (map (rename_call (fun r => (2 + r)%nat)) lx_calls) lx_heap) 3 = Some (Ret (KHdr (Hdr IPv4 6))) /\
  nth_error (w_outs Debug ipv6_from_str (map (rename_call (fun r => (2 + r)%nat)) lx_calls) lx_heap) 15 = Some Hang /\
  fst (w_prog Debug ipv6_from_str (map (rename_call (fun r => (2 + r)%nat)) lx_calls) lx_heap) =
    fst (w_prog Debug ipv6_from_str lx_calls []).
Proof.
  assert (L : lawful Debug ipv6_from_str k_start lx_calls).
  { unfold lx_calls, ex_calls. cbn [app]. do 15 (lstep; [kn|]). lstep; [kn|]. exact I. }
  destruct (C72_start Debug ipv6_from_str lx_calls lx_heap C65_octets16 L) as (P & O). cbv zeta in P, O.
  split; [exact L|]. split; [exact O|]. split; [vm_compute; reflexivity|]. split; [vm_compute; reflexivity|].
  change (fun r => (2 + r)%nat) with (fun r => (length lx_heap + r)%nat). rewrite P. reflexivity.
Qed.
Example C72_text : fst (w_prog Debug ipv6_from_str lx_calls []) = EmptyString -> False.
Proof. vm_compute. discriminate. Qed.

(** The names must stay apart: one buffer under two names is not two buffers. *)
Example C72_apart :
  let c := Cl [Cell [1; 2; 3; 4] false; Cell [1; 2; 3; 4] false] [Hdr Vlan 0; Hdr Vlan 1] [] [] [] in
  let k := K_hdr (OReplace (Hdr Vlan 0) (Hdr Vlan 1)) in let g := fun _ : nat => 0%nat in
  client_ok c /\ known c k /\ typed k /\ (forall r, In r (args k) -> nth_error (k_heap c) (g r) = nth_error (k_heap c) r) /\
  fst (snd (w_call Debug ipv6_from_str k (k_heap c))) = Ret (KVal VUnit) /\
  fst (snd (w_call Debug ipv6_from_str (rename_call g k) (k_heap c))) = Hang.
Proof.
  cbv zeta. split; [|split; [|split; [exact I|split; [|split; vm_compute; reflexivity]]]].
  - split; [repeat constructor|]. split; [repeat constructor; cbn; lia|]. repeat split; constructor.
  - intros x [<-|[<-|[]]]; cbn; auto.
  - intros r [<-|[<-|[]]]; reflexivity.
Qed.
