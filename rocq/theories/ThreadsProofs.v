(** ThreadsProofs.v -- the invariant behind C67. *)

From Coq Require Import Lia.
From Verif Require Import Base Bits Types Layout Heap Packet Text Build Utils Slow Fast Show Ops Client Threads Spec ClientSpec
  BitsProofs HeapProofs PropBuild ClientProofs PropClient ThreadsSim ThreadsSpec ThreadsRel.
Open Scope N_scope.

(** ** Calls and the buffers they are given *)

Lemma known_hdrs c k x : known c k -> In x (call_hdrs k) -> In x (k_hdrs c).
Proof.
  destruct k; cbn [known call_hdrs]; try (intros ? []; fail); try (intros K [<-|[]]; exact K).
  - intros K X. apply K, X.
  - destruct a; [|intros _ []]. intros (_ & K) [<-|[]]. exact K.
  - destruct a; [|intros _ []]. intros (_ & K) [<-|[]]. exact K.
  - destruct q; cbn [query_known query_hdrs]; try (intros ? []; fail); intros K [<-|[]]; exact K.
Qed.
Lemma known_pkts c k p : known c k -> In p (call_pkts k) -> In p (k_pkts c).
Proof.
  destruct k; cbn [known call_pkts]; try (intros ? []; fail); try (intros K [<-|[]]; exact K).
  - destruct a; [intros (K & _) [<-|[]]; exact K|intros K [<-|[]]; exact K].
  - destruct a; [intros (K & _) [<-|[]]; exact K|intros K [<-|[]]; exact K].
  - intros (K & K') [<-|[<-|[]]]; auto.
  - intros (K & K') [<-|[<-|[]]]; auto.
  - intros K X. apply K, X.
  - destruct q; cbn [query_known query_pkts]; try (intros ? []; fail); intros K [<-|[]]; exact K.
Qed.
Lemma known_shared c k r : known c k -> In r (args k) -> shared c r.
Proof.
  intros K A. apply in_map_iff in A. destruct A as (x & <- & X). apply in_app_or in X. destruct X as [X|X].
  - left. exists x. split; auto. eapply known_hdrs; eauto.
  - apply in_flat_map in X. destruct X as (p & P & X). right. exists p, x. split; auto. eapply known_pkts; eauto.
Qed.
Lemma shared_live c r : client_ok c -> shared c r -> (r < length (k_heap c))%nat.
Proof.
  intros (_ & Fh & Fp & _) [(x & X & <-)|(p & x & P & X & <-)].
  - eapply Forall_forall in Fh; [exact Fh|exact X].
  - eapply Forall_forall in Fp; [|exact P]. destruct Fp as (F & _). eapply Forall_forall in F; [exact F|exact X].
Qed.

(** ** One step of one call *)

(** What is left of the call uses only the buffers in [R] and those it will allocate. *)
Definition tgood (fu rp : bool) (R : list nat) (t : tstate) : Prop :=
  forall rho : nat -> nat -> Prop, (forall r, In r R -> rho r r) ->
  match t with
  | TRun p => rl fu rp rho (vrel rho) p p
  | TWait x o p => rp = true /\ rho x x /\ rho o o /\ rl fu rp rho (vrel rho) p p
  end.
Definition on (R : list nat) : nat -> nat -> Prop := fun a b => a = b /\ In a R.
Lemma on_refl (R : list nat) r : In r R -> on R r r.
Proof. split; auto. Qed.

(** How one step changes the heap: not at all, one unpoisoned buffer of [R], or one more buffer. *)
Inductive change (R : list nat) (h : heap) : heap -> list nat -> Prop :=
| Ch_none : change R h h []
| Ch_cell r c c' : In r R -> nth_error h r = Some c -> c_poisoned c = false -> bytes_ok (c_data c') ->
    change R h (upd h r c') []
| Ch_new d : bytes_ok d -> change R h (h ++ [Cell d false]) [length h].

Lemma lock_change {B} R h r (body : list N -> out B * list N) : heap_ok h -> (r < length h)%nat -> In r R ->
  body_ok body (fun _ => True) -> change R h (snd (with_lock r body h)) [].
Proof.
  intros H L J B0. unfold with_lock. destruct (nth_error h r) as [c|] eqn:E; [|apply nth_error_None in E; lia].
  destruct (c_poisoned c) eqn:P; [constructor|]. destruct (B0 (c_data c) (heap_ok_nth _ _ _ H E)) as (D & _).
  destruct (body (c_data c)) as [[a|e| | |] d']; cbn [fst snd] in *; eapply Ch_cell; eauto.
Qed.
(** The outcome of a section is a value or a panic. *)
Lemma lock_out {B} h r (body : list N -> out B * list N) (Q : B -> Prop) : heap_ok h -> (r < length h)%nat ->
  body_ok body Q -> (exists b, fst (with_lock r body h) = Ret b /\ Q b) \/ exists e, fst (with_lock r body h) = Panic e.
Proof.
  intros H L B0. unfold with_lock. destruct (nth_error h r) as [c|] eqn:E; [|apply nth_error_None in E; lia].
  destruct (c_poisoned c) eqn:P; [right; exists PPoison; reflexivity|]. destruct (B0 (c_data c) (heap_ok_nth _ _ _ H E)) as (_ & D).
  destruct (body (c_data c)) as [[a|e| | |] d']; cbn [fst snd outcome] in *; try contradiction; try discriminate.
  - left. exists a. auto.
  - right. exists e. reflexivity.
Qed.
Lemma read_ok i : body_ok (fun d => (index d i, d)) (fun _ => True).
Proof. intros d D. cbn [fst snd]. split; auto. apply index_outcome. auto. Qed.
Lemma copy_ok : body_ok (fun d => (Ret d, d)) bytes_ok.
Proof. intros d D. split; auto. Qed.
Lemma clear_ok : body_ok (fun _ : list N => (Ret tt, [])) (fun _ => True).
Proof. intros d D. split; [constructor|exact I]. Qed.

Lemma after_ok {B} (P : B -> Prop) (o : out B) h k fu rp R : ((exists b, o = Ret b /\ P b) \/ exists e, o = Panic e) ->
  (forall b, P b -> tgood fu rp R (k b)) ->
  exists t', after (o, h) k = (h, [], t') /\ tgood fu rp R t'.
Proof.
  intros [(b & -> & Pb)|(e & ->)] K; cbn [after]; eexists; split; auto. intros rho Hr. reflexivity.
Qed.

Lemma tstep_good fu rp R ts h t h' new t' : heap_ok h -> (forall r, In r R -> (r < length h)%nat) -> tgood fu rp R t ->
  tstep ts h t = Some (h', new, t') ->
  (forall x o p, t = TWait x o p -> nth_error h x = Some (Cell [] false)) ->
  change R h h' new /\ tgood fu rp (R ++ new) t'.
Proof.
  intros H L G E W. assert (App : forall t, tgood fu rp R t -> tgood fu rp (R ++ []) t) by (rewrite app_nil_r; auto).
  pose proof (G (on R) (on_refl R)) as G0.
  destruct t as [p|x o p].
  - destruct p as [o|d k|r i k|r i v k|r k|x o k]; cbn [tstep rl] in *; try discriminate.
    + injection E as <- <- <-. destruct G0 as (_ & D & _). split; [constructor; auto|].
      intros rho Hr. destruct (G rho) as (_ & _ & K); [intros; apply Hr, in_or_app; auto|]. apply K. apply Hr, in_or_app. right; left; auto.
    + destruct (held ts r); [discriminate|]. injection E as E. destruct G0 as ((_ & J) & _).
      pose proof (lock_change R h r _ H (L r J) J (read_ok i)) as Ch. pose proof (lock_out h r _ _ H (L r J) (read_ok i)) as O.
      destruct (with_lock r _ h) as [ob h1] eqn:El. cbn [fst snd] in *.
      destruct (after_ok (fun _ => True) ob h1 (fun b => TRun (k b)) fu rp R O) as (t1 & Et & Gt).
      { intros b _ rho Hr. apply (G rho Hr). }
      rewrite Et in E. injection E as <- <- <-. auto.
    + destruct (held ts r); [discriminate|]. injection E as E. destruct G0 as ((_ & J) & _ & _ & V & _).
      pose proof (lock_change R h r _ H (L r J) J (set_bit_step_ok i v V)) as Ch.
      pose proof (lock_out h r _ _ H (L r J) (set_bit_step_ok i v V)) as O.
      destruct (with_lock r _ h) as [ob h1] eqn:El. cbn [fst snd] in *.
      destruct (after_ok (fun _ => True) ob h1 (fun _ => TRun k) fu rp R O) as (t1 & Et & Gt).
      { intros b _ rho Hr. apply (G rho Hr). }
      rewrite Et in E. injection E as <- <- <-. auto.
    + destruct (held ts r); [discriminate|]. injection E as E. destruct G0 as ((_ & J) & _).
      assert (Ch : change R h (snd (with_lock r (fun d => (Ret d, d)) h)) []).
      { apply lock_change; auto. intros d D. split; auto. exact I. }
      pose proof (lock_out h r _ _ H (L r J) copy_ok) as O.
      destruct (with_lock r _ h) as [ob h1] eqn:El. cbn [fst snd] in *.
      destruct (after_ok bytes_ok ob h1 (fun d => TRun (k d)) fu rp R O) as (t1 & Et & Gt).
      { intros d D rho Hr. apply (G rho Hr). exact D. }
      rewrite Et in E. injection E as <- <- <-. auto.
    + destruct (held ts x); [discriminate|]. injection E as E. destruct G0 as (_ & (_ & J) & _).
      pose proof (lock_change R h x _ H (L x J) J clear_ok) as Ch.
      pose proof (lock_out h x _ _ H (L x J) clear_ok) as O.
      destruct (with_lock x _ h) as [ob h1] eqn:El. cbn [fst snd] in *.
      destruct (after_ok (fun _ => True) ob h1 (fun _ => TWait x o k) fu rp R O) as (t1 & Et & Gt).
      { intros b _ rho Hr. apply (G rho Hr). }
      rewrite Et in E. injection E as <- <- <-. auto.
  - cbn [tstep] in E. destruct (held ts o); [discriminate|]. destruct G0 as (_ & (_ & J) & (_ & J') & _).
    rewrite (W x o p eq_refl) in E. destruct (nth_error h o) as [co|] eqn:Eo; [|apply nth_error_None in Eo; specialize (L o J'); lia].
    destruct (c_poisoned co) eqn:Po; injection E as <- <- <-; cbn [c_data app]; split.
    + eapply Ch_cell; eauto. constructor.
    + apply App. intros rho Hr. reflexivity.
    + eapply Ch_cell; eauto. cbn. eapply heap_ok_nth; eauto.
    + apply App. intros rho Hr. apply (G rho Hr).
Qed.

(** ** The call next to the same call alone *)

(** The buffer [r] of the call is [r'] when it executes alone on [n] buffers. *)
Definition names (n : nat) (A own : list nat) (r r' : nat) : Prop :=
  (r = r' /\ In r A) \/ exists j, nth_error own j = Some r /\ r' = (n + j)%nat.
(** The call, so far, has done what it would have done alone, starting with the buffers
    [hs]: [p'] and [h0] are the rest of that execution and its buffers. *)
Definition mirror (m : mode) (ip6 : string -> option (list N)) (hs h : heap) (k : call) (own : list nat) (t : tstate) : Prop :=
  exists p' h0, asolo p' h0 = kexec m ip6 k hs /\ length h0 = (length hs + length own)%nat /\
  let E := names (length hs) (args k) own in
  match t with
  | TRun p => (forall r r', E r r' -> nth_error h0 r' = nth_error h r) /\
      forall rho : nat -> nat -> Prop, (forall r r', E r r' -> rho r r') -> rl (parses k) (replaces k) rho (vrel rho) p p'
  | TWait x o p => exists x' o' q d, p' = ARepl x' o' q /\ E x x' /\ E o o' /\ nth_error h0 x' = Some (Cell d false) /\
      (forall r r', E r r' -> r <> x -> nth_error h0 r' = nth_error h r) /\
      forall rho : nat -> nat -> Prop, (forall r r', E r r' -> rho r r') -> rl (parses k) (replaces k) rho (vrel rho) p q
  end.

Lemma nodup_nth (l : list nat) i j r : NoDup l -> nth_error l i = Some r -> nth_error l j = Some r -> i = j.
Proof.
  intros D A B. apply (proj1 (NoDup_nth_error l)) ; auto; [apply nth_error_Some; congruence|congruence].
Qed.
Lemma names_inj n A own r r' a : (forall r, In r A -> (r < n)%nat) -> NoDup own ->
  names n A own r a -> names n A own r' a -> r = r'.
Proof.
  intros L D [(<- & X)|(j & X & ->)] [(-> & Y)|(j' & Y & Z)]; auto.
  - specialize (L _ X). lia.
  - specialize (L _ Y). lia.
  - assert (j = j') by lia. subst. congruence.
Qed.
Lemma names_fun n A own r a b : (forall r, In r A -> ~ In r own) -> NoDup own ->
  names n A own r a -> names n A own r b -> a = b.
Proof.
  intros L D [(<- & X)|(j & X & ->)] [(-> & Y)|(j' & Y & Z)]; auto.
  - destruct (L _ X). eapply nth_error_In; eauto.
  - destruct (L _ Y). eapply nth_error_In; eauto.
  - rewrite (nodup_nth own j j' r D X Y). auto.
Qed.
Lemma names_more n A own new r a : names n A own r a -> names n A (own ++ new) r a.
Proof.
  intros [X|(j & X & ->)]; [left; auto|]. right. exists j. split; auto. rewrite nth_error_app1; auto. apply nth_error_Some. congruence.
Qed.

(** The same section on the same buffer under two names. *)
Lemma lock_same {B} (h h0 : heap) r j (body : list N -> out B * list N) : nth_error h0 j = nth_error h r ->
  fst (with_lock j body h0) = fst (with_lock r body h) /\
  ((snd (with_lock r body h) = h /\ snd (with_lock j body h0) = h0) \/
   exists c, snd (with_lock r body h) = upd h r c /\ snd (with_lock j body h0) = upd h0 j c).
Proof.
  intros E. unfold with_lock. rewrite E. destruct (nth_error h r) as [c|]; [|auto].
  destruct (c_poisoned c); [auto|]. destruct (body (c_data c)) as [[a|e| | |] d']; cbn [fst snd]; split; eauto.
Qed.
Lemma upd_at {A} (l l' : list A) i j c : nth_error l i = nth_error l' j -> nth_error (upd l i c) i = nth_error (upd l' j c) j.
Proof.
  intros E. rewrite !nth_error_upd, !Nat.eqb_refl, E. replace (i <? length l)%nat with (j <? length l')%nat; [reflexivity|].
  destruct (Nat.ltb_spec j (length l')) as [X|X], (Nat.ltb_spec i (length l)) as [Y|Y]; auto;
    [apply nth_error_Some in X|apply nth_error_Some in Y]; [apply nth_error_None in Y|apply nth_error_None in X]; congruence.
Qed.

Section Mirror.
Variables (m : mode) (ip6 : string -> option (list N)) (hs : heap) (k : call).
Hypothesis As : forall r, In r (args k) -> (r < length hs)%nat.

Definition apart (own : list nat) (h : heap) : Prop :=
  NoDup own /\ (forall r, In r (args k) -> ~ In r own) /\ (forall r, In r (args k ++ own) -> (r < length h)%nat).

Lemma names_in own h r r' : apart own h -> names (length hs) (args k) own r r' -> (r < length h)%nat.
Proof.
  intros (_ & _ & L) [(_ & X)|(j & X & _)]; apply L, in_or_app; [left|right]; auto. eapply nth_error_In; eauto.
Qed.
Lemma names_upd own (h h0 : heap) r j c : apart own h -> names (length hs) (args k) own r j -> nth_error h0 j = nth_error h r ->
  (forall q i, names (length hs) (args k) own q i -> nth_error h0 i = nth_error h q) ->
  forall q i, names (length hs) (args k) own q i -> nth_error (upd h0 j c) i = nth_error (upd h r c) q.
Proof.
  intros (D & N' & L) J E A q i Q. destruct (Nat.eq_dec i j) as [->|Ne].
  - assert (q = r) by exact (names_inj _ _ _ _ _ _ As D Q J). subst q. apply upd_at; auto.
  - assert (q <> r) by (intros ->; apply Ne; exact (names_fun _ _ _ _ _ _ N' D Q J)). rewrite !upd_other; auto.
Qed.

Lemma mirror_section {B} h own r r' (body : list N -> out B * list N) (f f' : B -> act kres) h1 new t1 (Q : B -> Prop) h0 :
  heap_ok h -> body_ok body Q -> apart own h -> names (length hs) (args k) own r r' ->
  bind (with_lock r' body) (fun b => asolo (f' b)) h0 = kexec m ip6 k hs -> length h0 = (length hs + length own)%nat ->
  (forall q j, names (length hs) (args k) own q j -> nth_error h0 j = nth_error h q) ->
  (forall b, Q b -> forall rho : nat -> nat -> Prop, (forall q j, names (length hs) (args k) own q j -> rho q j) ->
     rl (parses k) (replaces k) rho (vrel rho) (f b) (f' b)) ->
  after (with_lock r body h) (fun b => TRun (f b)) = (h1, new, t1) -> mirror m ip6 hs h1 k (own ++ new) t1.
Proof.
  intros H Bo D J Ex Len A K E.
  destruct (lock_same h h0 r r' body (A _ _ J)) as (F & S).
  pose proof (lock_out h r body Q H (names_in _ _ _ _ D J) Bo) as O. unfold bind in Ex.
  destruct (with_lock r body h) as [ob hb] eqn:E1, (with_lock r' body h0) as [ob' hb'] eqn:E2. cbn [fst snd] in *. subst ob'.
  assert (N1 : new = [] /\ h1 = hb).
  { destruct O as [(b & -> & _)|(e & ->)]; cbn [after] in E; injection E as <- <- <-; auto. }
  destruct N1 as (-> & ->). rewrite app_nil_r.
  assert (A' : length hb' = (length hs + length own)%nat /\
    forall q j, names (length hs) (args k) own q j -> nth_error hb' j = nth_error hb q).
  { destruct S as [(-> & ->)|(c & -> & ->)]; [auto|]. rewrite upd_len. split; auto. apply names_upd; auto. }
  destruct A' as (Len' & A').
  destruct O as [(b & -> & Qb)|(e & ->)]; cbn [after] in E; injection E as <-.
  - exists (f' b), hb'. split; [exact Ex|]. split; [auto|]. split; [auto|]. apply K. exact Qb.
  - exists (ADone (Panic e)), hb'. split; [exact Ex|]. split; [auto|]. split; [auto|]. intros rho Hr. reflexivity.
Qed.

Lemma mirror_step ts h own t h' new t' : heap_ok h -> apart own h ->
  (forall x o p, t = TWait x o p -> nth_error h x = Some (Cell [] false) /\ held ts x = true) ->
  mirror m ip6 hs h k own t -> tstep ts h t = Some (h', new, t') -> mirror m ip6 hs h' k (own ++ new) t'.
Proof.
  intros H D W (p' & h0 & Ex & Len & Mt) E. destruct t as [p|x o p]; cbn [tstep] in E.
  - destruct Mt as (A & G). pose proof (G _ (fun r r' X => X)) as G0.
    destruct p as [o|d f|r i f|r i v f|r f|x o f]; [discriminate| | | | |];
      destruct p' as [o'|d' f'|r' i' f'|r' i' v' f'|r' f'|x' o' f']; cbn [rl] in G0; try contradiction.
    + injection E as <- <- <-. destruct G0 as (<- & Dd & _). exists (f' (length h0)), (h0 ++ [Cell d false]).
      split; [exact Ex|]. split; [rewrite !app_length, Len; cbn; lia|]. split.
      * intros r r' [(<- & X)|(j & X & ->)].
        -- rewrite !nth_error_app1; [apply A; left; auto|apply D, in_or_app; auto|apply As in X; lia].
        -- destruct (Nat.lt_ge_cases j (length own)) as [Lj|Lj].
           ++ rewrite nth_error_app1 in X by auto. rewrite !nth_error_app1; [apply A; right; eauto| |lia].
              apply D, in_or_app. right. eapply nth_error_In; eauto.
           ++ rewrite nth_error_app2 in X by auto. destruct (j - length own)%nat as [|z] eqn:Z; [|destruct z; discriminate].
              cbn in X. injection X as <-. replace (length hs + j)%nat with (length h0) by lia.
              rewrite !nth_error_app2, !Nat.sub_diag by lia. reflexivity.
      * intros rho Hr. destruct (G rho) as (_ & _ & K); [intros; apply Hr, names_more; auto|].
        apply K. apply Hr. right. exists (length own). split; [|lia]. rewrite nth_error_app2, Nat.sub_diag by lia. reflexivity.
    + destruct (held ts r); [discriminate|]. injection E as E. destruct G0 as (J & <- & _). cbn [asolo] in Ex.
      eapply (mirror_section h own r r' (fun d => (index d i, d)) f f'); eauto using read_ok.
      intros b _ rho Hr. apply (G rho Hr).
    + destruct (held ts r); [discriminate|]. injection E as E. destruct G0 as (J & <- & <- & V & _). cbn [asolo] in Ex.
      eapply (mirror_section h own r r' (fun d => set_bit_step d i v) (fun _ => f) (fun _ => f')); eauto using set_bit_step_ok.
      intros b _ rho Hr. apply (G rho Hr).
    + destruct (held ts r); [discriminate|]. injection E as E. destruct G0 as (J & _). cbn [asolo] in Ex.
      eapply (mirror_section h own r r' (fun d => (Ret d, d)) f f'); eauto using copy_ok.
      intros b Qb rho Hr. apply (G rho Hr). exact Qb.
    + destruct (held ts x); [discriminate|]. injection E as E. destruct G0 as (_ & X & O & _).
      pose proof (A _ _ X) as Ax. pose proof (names_in _ _ _ _ D X) as Lx. unfold with_lock in E.
      destruct (nth_error h x) as [[d b]|] eqn:Eh; [|apply nth_error_None in Eh; lia]. cbn [c_poisoned c_data] in E.
      destruct b; cbn [after] in E; injection E as <- <- <-; rewrite app_nil_r.
      * exists (ADone (Panic PPoison)), h0. split; [|split; [auto|split; [auto|intros; reflexivity]]].
        rewrite <- Ex. cbn [asolo]. unfold bind, hreplace. cbn [h_ref]. rewrite Ax.
        pose proof (A _ _ O) as Ao. pose proof (names_in _ _ _ _ D O) as Lo.
        destruct (nth_error h o) as [co|] eqn:Eo; [|apply nth_error_None in Eo; lia]. rewrite Ao. reflexivity.
      * exists (ARepl x' o' f'), h0. split; [exact Ex|]. split; [auto|]. exists x', o', f', d.
        split; [auto|]. split; [auto|]. split; [auto|]. split; [auto|]. split.
        -- intros r r' R Ne. rewrite upd_other by auto. auto.
        -- intros rho Hr. apply (G rho Hr).
  - destruct Mt as (x' & o' & q & d & -> & X & O & Ax & A & G). destruct (W x o p eq_refl) as (Ehx & Hx).
    destruct (held ts o) eqn:Ho; [discriminate|]. assert (Ne : o <> x) by congruence.
    assert (Ne' : x' <> o') by (intros ->; apply Ne; exact (names_inj _ _ _ _ _ _ As (proj1 D) O X)).
    pose proof (A _ _ O Ne) as Ao. pose proof (names_in _ _ _ _ D O) as Lo.
    rewrite Ehx in E. destruct (nth_error h o) as [co|] eqn:Eo; [|apply nth_error_None in Eo; lia].
    cbn [asolo] in Ex. unfold bind, hreplace in Ex. cbn [h_ref] in Ex. rewrite Ax, Ao in Ex. cbn [c_poisoned] in Ex.
    rewrite (proj2 (Nat.eqb_neq _ _) Ne') in Ex.
    assert (Up : forall c r r', names (length hs) (args k) own r r' -> nth_error (upd h0 x' c) r' = nth_error (upd h x c) r).
    { intros c r r' R. destruct (Nat.eq_dec r x) as [->|Nr].
      - assert (r' = x') by exact (names_fun _ _ _ _ _ _ (proj1 (proj2 D)) (proj1 D) R X). subst r'. rewrite !nth_error_upd, !Nat.eqb_refl.
        rewrite (proj2 (Nat.ltb_lt _ _)), (proj2 (Nat.ltb_lt _ _)); auto; apply nth_error_Some; congruence.
      - assert (r' <> x') by (intros ->; apply Nr; exact (names_inj _ _ _ _ _ _ As (proj1 D) R X)). rewrite !upd_other; auto. }
    cbn [c_data app] in *. destruct (c_poisoned co); injection E as <- <- <-; rewrite app_nil_r.
    + exists (ADone (Panic PPoison)), (upd h0 x' (Cell [] true)). split; [exact Ex|]. rewrite upd_len. split; [auto|]. split; auto.
      intros rho Hr. reflexivity.
    + exists q, (upd h0 x' (Cell (c_data co) false)). split; [exact Ex|]. rewrite upd_len. split; [auto|]. split; auto.
Qed.

(** Other threads leave the buffers alone. *)
Lemma mirror_keep h h' own t : mirror m ip6 hs h k own t ->
  (forall r r', names (length hs) (args k) own r r' -> nth_error h' r = nth_error h r) -> mirror m ip6 hs h' k own t.
Proof.
  intros (p' & h0 & Ex & Len & Mt) K. exists p', h0. split; [auto|]. split; [auto|]. destruct t as [p|x o p].
  - destruct Mt as (A & G). split; auto. intros r r' R. rewrite (A _ _ R), (K _ _ R). reflexivity.
  - destruct Mt as (x' & o' & q & d & P & X & O & Ax & A & G). exists x', o', q, d. repeat split; auto.
    intros r r' R Ne. rewrite (A _ _ R Ne), (K _ _ R). reflexivity.
Qed.
End Mirror.

(** ** A call begins *)

Lemma a_short m ip6 k : short_from k -> a_kexec m ip6 k = ADone UB.
Proof.
  destruct k; cbn [short_from]; try contradiction. intros Z. cbn [a_kexec]. unfold sfrom, from_raw_parts.
  rewrite (proj2 (Nat.leb_gt _ _) Z). reflexivity.
Qed.
Lemma rename_hdr_id x : rename_hdr (fun r => r) x = x.
Proof. destruct x; reflexivity. Qed.
Lemma rename_pkt_id p : rename_pkt (fun r => r) p = p.
Proof.
  destruct p as [l d]. unfold rename_pkt. cbn [p_hdrs p_payload]. f_equal. induction l as [|x l IH]; cbn [map]; auto.
  rewrite IH, rename_hdr_id. reflexivity.
Qed.
Lemma rename_call_id k : rename_call (fun r => r) k = k.
Proof.
  destruct k; cbn [rename_call]; rewrite ?rename_hdr_id, ?rename_pkt_id; auto.
  - f_equal. destruct o; cbn [rename_hop]; rewrite ?rename_hdr_id; auto.
  - destruct a; cbn [rename_any]; rewrite ?rename_hdr_id; auto.
  - destruct a; cbn [rename_any]; rewrite ?rename_hdr_id; auto.
  - f_equal. destruct b; cbn [rename_pmake]; rewrite ?rename_pkt_id; auto;
      destruct inner; cbn [option_map]; rewrite ?rename_pkt_id; auto.
  - f_equal. destruct q; cbn [rename_query]; rewrite ?rename_hdr_id, ?rename_pkt_id; auto.
Qed.
Lemma rl_rename m ip6 c k g (rho : nat -> nat -> Prop) : octets16 ip6 -> client_ok c -> known c k -> typed k -> ~ short_from k ->
  (forall r, In r (args k) -> rho r (g r)) ->
  rl (parses k) (replaces k) rho (vrel rho) (a_kexec m ip6 k) (a_kexec m ip6 (rename_call g k)).
Proof.
  intros O6 C K T S A. apply rl_kexec; auto.
  - intros x X. split; auto. apply A. apply in_map. apply in_or_app. auto.
  - intros p P. split; [|split; auto].
    + assert (B : forall x, In x (p_hdrs p) -> rho (h_ref x) (g (h_ref x))).
      { intros x X. apply A. apply in_map. apply in_or_app. right. apply in_flat_map. eauto. }
      clear - B. unfold rename_pkt. cbn [p_hdrs].
      induction (p_hdrs p) as [|x l IH]; constructor; [split; auto; apply B; left; auto|].
      apply IH. intros y Y. apply B. right; auto.
    + destruct C as (_ & _ & Fp & _). eapply Forall_forall in Fp; [apply Fp|eapply known_pkts; eauto].
Qed.
Lemma rl_call m ip6 c k (rho : nat -> nat -> Prop) : octets16 ip6 -> client_ok c -> known c k -> typed k -> ~ short_from k ->
  (forall r, In r (args k) -> rho r r) -> rl (parses k) (replaces k) rho (vrel rho) (a_kexec m ip6 k) (a_kexec m ip6 k).
Proof.
  intros O6 C K T S A. rewrite <- (rename_call_id k) at 4. eapply rl_rename; eauto.
Qed.
Lemma mirror_start m ip6 c k hs : octets16 ip6 -> client_ok c -> known c k -> typed k -> ~ short_from k ->
  (forall r, In r (args k) -> nth_error hs r = nth_error (k_heap c) r) ->
  mirror m ip6 hs (k_heap c) k [] (TRun (a_kexec m ip6 k)).
Proof.
  intros O6 C K T S A. exists (a_kexec m ip6 k), hs. split; [apply sim_kexec|]. split; [cbn; lia|]. split.
  - intros r r' [(<- & X)|(j & X & _)]; [auto|destruct j; discriminate].
  - intros rho Hr. eapply rl_call; eauto. intros r R. apply Hr. left; auto.
Qed.

(** ** The invariant *)

Record tok (m : mode) (ip6 : string -> option (list N)) (c : client) (k : call) (own : list nat) (t : tstate) : Prop := {
  tok_typed : typed k;
  tok_args : forall r, In r (args k) -> shared c r;
  tok_own : forall r, In r own -> (r < length (k_heap c))%nat /\ ~ shared c r;
  tok_nodup : NoDup own;
  tok_short : short_from k -> t = TRun (ADone UB);
  tok_good : ~ short_from k -> tgood (parses k) (replaces k) (args k ++ own) t;
  tok_wait : forall x o p, t = TWait x o p -> nth_error (k_heap c) x = Some (Cell [] false);
  tok_mirror : ~ short_from k -> args k = [] -> mirror m ip6 [] (k_heap c) k own t }.
Record winv (m : mode) (ip6 : string -> option (list N)) (w : world) : Prop := {
  inv_client : client_ok (fst w);
  inv_tok : forall i k own t, busy w i k own t -> tok m ip6 (fst w) k own t;
  inv_own : forall i j k k' own own' t t' r, busy w i k own t -> busy w j k' own' t' -> i <> j -> In r own -> ~ In r own';
  inv_wait : forall i j k k' own own' x o o' p p', busy w i k own (TWait x o p) -> busy w j k' own' (TWait x o' p') -> i = j }.

Lemma short_dec k : short_from k \/ ~ short_from k.
Proof. destruct k; cbn [short_from]; auto. destruct (Nat.lt_ge_cases (v_len v) (ht_size T)); [left|right]; lia. Qed.

Lemma held_true ts i k own x o p : nth_error ts i = Some (Busy k own (TWait x o p)) -> held ts x = true.
Proof.
  intros E. unfold held. apply existsb_exists. exists (Busy k own (TWait x o p)). split; [eapply nth_error_In; eauto|].
  cbn. apply Nat.eqb_refl.
Qed.
Lemma held_inv ts r : held ts r = true -> exists i k own o p, nth_error ts i = Some (Busy k own (TWait r o p)).
Proof.
  intros E. apply existsb_exists in E. destruct E as (t & T & E). apply In_nth_error in T. destruct T as (i & T).
  destruct t as [|k own [p|x o p]]; cbn in E; try discriminate. apply Nat.eqb_eq in E. subst. eauto 6.
Qed.

Lemma wdo_inv w i w' : wdo w i = Some w' -> exists k own t h new t', busy w i k own t /\
  tstep (snd w) (w_heap w) t = Some (h, new, t') /\ w' = (set_heap (fst w) h, upd (snd w) i (Busy k (own ++ new) t')).
Proof.
  destruct w as [c ts]. cbn [wdo]. destruct (nth_error ts i) as [[|k own t]|] eqn:E; try discriminate.
  destruct (tstep ts (k_heap c) t) as [[[h new] t']|] eqn:S; [|discriminate]. intros [= <-]. exists k, own, t, h, new, t'. auto.
Qed.

Lemma tok_apart m ip6 c k own t : client_ok c -> tok m ip6 c k own t -> apart k own (k_heap c).
Proof.
  intros C T. split; [apply T|]. split.
  - intros r A O. destruct (tok_own _ _ _ _ _ _ T _ O) as (_ & N'). apply N'. apply (tok_args _ _ _ _ _ _ T); auto.
  - intros r R. apply in_app_or in R. destruct R as [R|R]; [|apply (tok_own _ _ _ _ _ _ T); auto].
    apply shared_live; auto. apply (tok_args _ _ _ _ _ _ T); auto.
Qed.

(** What a step of thread [i] does to the buffers. *)
Lemma wdo_change m ip6 w i k own t h new t' : winv m ip6 w -> busy w i k own t ->
  tstep (snd w) (w_heap w) t = Some (h, new, t') ->
  ~ short_from k /\ change (args k ++ own) (w_heap w) h new /\ tgood (parses k) (replaces k) ((args k ++ own) ++ new) t'.
Proof.
  intros V B S. pose proof (inv_tok _ _ _ V _ _ _ _ B) as T. destruct (short_dec k) as [Z|Z].
  { rewrite (tok_short _ _ _ _ _ _ T Z) in S. discriminate. }
  split; auto. pose proof (inv_client _ _ _ V) as C. eapply tstep_good; eauto; [apply C| |apply T; auto|apply T].
  apply (tok_apart _ _ _ _ _ _ C T).
Qed.
Lemma change_len R h h' new : change R h h' new -> length h' = (length h + length new)%nat.
Proof. intros [|r c c' _ _ _ _|d _]; rewrite ?upd_len, ?app_length; cbn; lia. Qed.
Lemma change_other R h h' new r : change R h h' new -> (r < length h)%nat -> ~ In r R -> nth_error h' r = nth_error h r.
Proof.
  intros [|q c c' Q _ _ _|d _] L N'; auto; [apply upd_other; congruence|apply nth_error_app1; auto].
Qed.
Lemma change_ok R h h' new : change R h h' new -> heap_ok h -> heap_ok h'.
Proof.
  intros [|r c [d b] _ _ _ D|d D] H; auto; [apply heap_ok_upd; auto|]. apply heap_ok_app. split; auto. repeat constructor. auto.
Qed.
Lemma change_new R h h' new r : change R h h' new -> In r new -> r = length h.
Proof. intros [| |d _] X; try destruct X; auto. contradiction. Qed.
(** A step changes a buffer only with its lock: nobody else holds it. *)
Lemma tstep_lock ts h t h' new t' r : tstep ts h t = Some (h', new, t') -> (r < length h)%nat ->
  nth_error h' r = nth_error h r \/ held ts r = false \/ exists o p, t = TWait r o p.
Proof.
  intros E L.
  assert (Lk : forall B q (body : list N -> out B * list N) f, after (with_lock q body h) f = (h', new, t') -> held ts q = false ->
    nth_error h' r = nth_error h r \/ held ts r = false \/ exists o p, t = TWait r o p).
  { intros B q body f A Hq. destruct (Nat.eq_dec r q) as [->|Ne]; [auto|]. left.
    assert (nth_error (snd (with_lock q body h)) r = nth_error h r).
    { unfold with_lock. destruct (nth_error h q) as [c|]; [|reflexivity]. destruct (c_poisoned c); [reflexivity|].
      destruct (body (c_data c)) as [[] ?]; cbn [snd]; apply upd_other; auto. }
    destruct (with_lock q body h) as [[] ?]; cbn [after snd] in *; injection A as <- _ _; auto. }
  destruct t as [[o|d f|q i f|q i v f|q f|x o f]|x o p]; cbn [tstep] in E; try discriminate.
  - injection E as <- _ _. left. apply nth_error_app1; auto.
  - destruct (held ts q) eqn:Hq; [discriminate|]. injection E as E. eapply Lk; eauto.
  - destruct (held ts q) eqn:Hq; [discriminate|]. injection E as E. eapply Lk; eauto.
  - destruct (held ts q) eqn:Hq; [discriminate|]. injection E as E. eapply Lk; eauto.
  - destruct (held ts x) eqn:Hq; [discriminate|]. injection E as E. eapply Lk; eauto.
  - destruct (held ts o) eqn:Hq; [discriminate|]. destruct (Nat.eq_dec r x) as [->|Ne]; [eauto 6|]. left.
    destruct (nth_error h x), (nth_error h o); try (injection E as <- _ _; reflexivity).
    destruct (c_poisoned _); injection E as <- _ _; apply upd_other; auto.
Qed.
Lemma tstep_wait ts h t h' new x o p : tstep ts h t = Some (h', new, TWait x o p) ->
  held ts x = false /\ nth_error h' x = Some (Cell [] false).
Proof.
  intros E.
  assert (Lk : forall B q (body : list N -> out B * list N) f, after (with_lock q body h) (fun b => TRun (f b)) = (h', new, TWait x o p) -> False).
  { intros B q body f A. destruct (with_lock q body h) as [[] ?]; cbn [after] in A; discriminate. }
  destruct t as [[o1|d f|q i f|q i v f|q f|x1 o1 f]|x1 o1 p1]; cbn [tstep] in E; try discriminate.
  - destruct (held ts q); [discriminate|]. injection E as E. destruct (Lk _ _ _ _ E).
  - destruct (held ts q); [discriminate|]. injection E as E. destruct (Lk _ _ _ _ E).
  - destruct (held ts q); [discriminate|]. injection E as E. destruct (Lk _ _ _ _ E).
  - destruct (held ts x1) eqn:Hx; [discriminate|]. injection E as E. unfold with_lock in E.
    destruct (nth_error h x1) as [c|] eqn:Ex; [|discriminate]. destruct (c_poisoned c); [discriminate|]. cbn [after] in E.
    injection E as <- _ -> -> ->. split; auto. rewrite nth_error_upd, Nat.eqb_refl. cbn [andb].
    rewrite (proj2 (Nat.ltb_lt _ _)); auto. apply nth_error_Some. congruence.
  - destruct (held ts o1); [discriminate|]. destruct (nth_error h x1), (nth_error h o1); try discriminate.
    destruct (c_poisoned _); discriminate.
Qed.

Lemma upd_cases {A} (l : list A) i a j b : nth_error (upd l i a) j = Some b -> (j = i /\ b = a) \/ (j <> i /\ nth_error l j = Some b).
Proof.
  rewrite nth_error_upd. destruct (Nat.eqb_spec j i) as [->|Ne]; [|auto]. cbn [andb].
  destruct (i <? length l)%nat eqn:L; [intros [= <-]; auto|]. intros E. apply Nat.ltb_ge in L. apply nth_error_None in L. congruence.
Qed.

Lemma inv_do m ip6 w i w' : winv m ip6 w -> wdo w i = Some w' -> winv m ip6 w'.
Proof.
  intros V E. destruct (wdo_inv _ _ _ E) as (k & own & t & h & new & t' & B & S & ->).
  destruct (wdo_change _ _ _ _ _ _ _ _ _ _ V B S) as (Z & Ch & G). pose proof (inv_client _ _ _ V) as C.
  pose proof (inv_tok _ _ _ V _ _ _ _ B) as T. pose proof (tok_apart _ _ _ _ _ _ C T) as Ap.
  pose proof (change_len _ _ _ _ Ch) as Len. destruct w as [c ts]. unfold busy, w_heap in *. cbn [fst snd] in *.
  assert (T' : tok m ip6 (set_heap c h) k (own ++ new) t').
  { split.
    - apply T.
    - apply T.
    - intros r R. cbn [set_heap k_heap]. apply in_app_or in R. destruct R as [R|R].
      + destruct (tok_own _ _ _ _ _ _ T _ R). split; auto. lia.
      + rewrite (change_new _ _ _ _ _ Ch R). split; [destruct new; [contradiction|cbn in Len; lia]|].
        intros Sh. apply (shared_live c) in Sh; auto. lia.
    - assert (D : forall r, In r new -> ~ In r own).
      { intros r R O. rewrite (change_new _ _ _ _ _ Ch R) in O. apply (tok_own _ _ _ _ _ _ T) in O. lia. }
      destruct Ch as [| |d _]; rewrite ?app_nil_r; try apply T.
      clear - D T. pose proof (tok_nodup _ _ _ _ _ _ T) as N'. apply NoDup_rev in N'. rewrite <- (rev_involutive (own ++ _)).
      apply NoDup_rev. rewrite rev_app_distr. cbn. constructor; auto. rewrite <- in_rev. apply D. left; auto.
    - intros Z'. contradiction.
    - intros _. rewrite app_assoc. exact G.
    - intros x o p ->. apply (tstep_wait _ _ _ _ _ _ _ _ S).
    - intros _ A. eapply mirror_step; eauto.
      + intros r R. rewrite A in R. destruct R.
      + apply C.
      + intros x o p ->. split; [apply T with (1 := eq_refl)|eapply held_true; eauto].
      + apply T; auto. }
  split.
  - apply client_more; auto; [eapply change_ok; eauto; apply C|lia].
  - cbn [fst]. intros j k1 own1 t1 B1. apply upd_cases in B1. destruct B1 as [(-> & [= -> -> ->])|(Ne & B1)]; [exact T'|].
    pose proof (inv_tok _ _ _ V _ _ _ _ B1) as T1. cbn [fst] in T1.
    assert (Own : forall r, In r own1 -> nth_error h r = nth_error (k_heap c) r).
    { intros r R. destruct (tok_own _ _ _ _ _ _ T1 _ R) as (L & N'). eapply change_other; eauto.
      intros X. apply in_app_or in X. destruct X as [X|X]; [apply N'; apply (tok_args _ _ _ _ _ _ T); auto|].
      eapply (inv_own _ _ _ V i j); eauto. }
    split; try apply T1.
    + intros r R. destruct (tok_own _ _ _ _ _ _ T1 _ R). cbn. split; auto. lia.
    + intros x o p ->. cbn [set_heap k_heap]. pose proof (tok_wait _ _ _ _ _ _ T1 _ _ _ eq_refl) as X.
      assert (Lx : (x < length (k_heap c))%nat) by (apply nth_error_Some; congruence).
      destruct (tstep_lock _ _ _ _ _ _ x S Lx) as [->|[Hx|(o1 & p1 & ->)]]; auto.
      * rewrite (held_true _ _ _ _ _ _ _ B1) in Hx. discriminate.
      * destruct Ne. symmetry. eapply (inv_wait _ _ _ V i j); eauto.
    + intros Z1 A1. cbn [set_heap k_heap]. eapply mirror_keep; [apply T1; auto|].
      intros r r' [(_ & X)|(n & X & _)]; [rewrite A1 in X; destruct X|]. apply Own. eapply nth_error_In; eauto.
  - intros a b k1 k2 own1 own2 t1 t2 r B1 B2 Ne R1 R2. apply upd_cases in B1. apply upd_cases in B2. cbn [snd] in *.
    destruct B1 as [(-> & [= -> -> ->])|(N1 & B1)], B2 as [(-> & [= -> -> ->])|(N2 & B2)].
    + contradiction.
    + apply in_app_or in R1. destruct R1 as [R1|R1]; [eapply (inv_own _ _ _ V i b); eauto|].
      pose proof (inv_tok _ _ _ V _ _ _ _ B2) as T2. apply (tok_own _ _ _ _ _ _ T2) in R2. cbn [fst] in R2.
      rewrite (change_new _ _ _ _ _ Ch R1) in R2. lia.
    + apply in_app_or in R2. destruct R2 as [R2|R2]; [eapply (inv_own _ _ _ V a i); eauto|].
      pose proof (inv_tok _ _ _ V _ _ _ _ B1) as T2. apply (tok_own _ _ _ _ _ _ T2) in R1. cbn [fst] in R1.
      rewrite (change_new _ _ _ _ _ Ch R2) in R1. lia.
    + eapply (inv_own _ _ _ V a b); eauto.
  - intros a b k1 k2 own1 own2 x o1 o2 p1 p2 B1 B2. apply upd_cases in B1. apply upd_cases in B2. cbn [snd] in *.
    destruct B1 as [(-> & [= -> -> <-])|(N1 & B1)], B2 as [(-> & [= -> -> Et])|(N2 & B2)].
    + auto.
    + destruct (tstep_wait _ _ _ _ _ _ _ _ S) as (Hx & _). rewrite (held_true _ _ _ _ _ _ _ B2) in Hx. discriminate.
    + subst t'. destruct (tstep_wait _ _ _ _ _ _ _ _ S) as (Hx & _). rewrite (held_true _ _ _ _ _ _ _ B1) in Hx. discriminate.
    + eapply (inv_wait _ _ _ V a b); eauto.
Qed.

Lemma inv_spawn m ip6 w : winv m ip6 w -> winv m ip6 (wspawn w).
Proof.
  destruct w as [c ts]. cbn [wspawn]. intros V.
  assert (B : forall i k own t, busy (c, ts ++ [Idle]) i k own t -> busy (c, ts) i k own t).
  { intros i k own t. unfold busy. cbn [snd]. destruct (Nat.lt_ge_cases i (length ts)) as [L|L].
    - rewrite nth_error_app1 by auto. auto.
    - rewrite nth_error_app2 by auto. destruct (i - length ts)%nat as [|[|z]]; discriminate. }
  split; cbn [fst].
  - apply V.
  - intros i k own t H. apply (inv_tok _ _ _ V i). auto.
  - intros i j k k' own own' t t' r H H'. apply (inv_own _ _ _ V i j k k' own own' t t' r); auto.
  - intros i j k k' own own' x o o' p p' H H'. eapply (inv_wait _ _ _ V i j); eauto.
Qed.

Lemma inv_call m ip6 w i k w' : octets16 ip6 -> winv m ip6 w -> known (fst w) k -> typed k -> wcall m ip6 w i k = Some w' -> winv m ip6 w'.
Proof.
  destruct w as [c ts]. cbn [wcall fst]. intros O6 V K T. destruct (nth_error ts i) as [[|? ? ?]|] eqn:E; try discriminate.
  intros [= <-]. pose proof (inv_client _ _ _ V) as C. cbn [fst] in C. split; unfold busy; cbn [fst snd].
  - exact C.
  - intros j k1 own t B. apply upd_cases in B. destruct B as [(-> & [= -> -> ->])|(Ne & B)]; [|apply (inv_tok _ _ _ V j); auto].
    split; auto.
    + intros r. apply known_shared. auto.
    + intros r [].
    + constructor.
    + intros Z. rewrite a_short by auto. reflexivity.
    + intros Z rho Hr. eapply rl_call; eauto. intros r R. apply Hr. apply in_or_app. auto.
    + discriminate.
    + intros Z A. apply mirror_start; auto. rewrite A. intros r [].
  - intros a b k1 k2 own1 own2 t1 t2 r B1 B2 Ne R1 R2. apply upd_cases in B1. apply upd_cases in B2.
    destruct B1 as [(-> & [= -> -> ->])|(N1 & B1)]; [destruct R1|]. destruct B2 as [(-> & [= -> -> ->])|(N2 & B2)]; [destruct R2|].
    eapply (inv_own _ _ _ V a b); eauto.
  - intros a b k1 k2 own1 own2 x o1 o2 p1 p2 B1 B2. apply upd_cases in B1. apply upd_cases in B2.
    destruct B1 as [(_ & [=])|(N1 & B1)], B2 as [(_ & [=])|(N2 & B2)]. eapply (inv_wait _ _ _ V a b); eauto.
Qed.

Lemma learn_shared c v h R r : vrel (on R) v v -> shared (learn c (Ret v) h) r -> shared c r \/ In r R.
Proof.
  intros V S. destruct v; cbn [learn vrel] in *; auto.
  - destruct S as [(y & [<-|X] & <-)|X]; [right; apply V|left; left; eauto|left; right; exact X].
  - destruct S as [X|(q & y & [<-|Q] & X & <-)]; [left; left; exact X| |left; right; exists q, y; auto].
    right. destruct V as (F & _). clear - F X. induction (p_hdrs p) as [|z l IH]; [destruct X|]. inversion F as [|? ? ? ? A B]; subst.
    destruct X as [->|X]; [apply A|auto].
Qed.
Lemma learn_more c o h r : shared c r -> shared (learn c o h) r.
Proof.
  intros [(x & X & E)|(q & x & Q & X & E)]; destruct o as [[]| | | |]; cbn [learn];
    first [left; exists x; split; [|exact E]; cbn; auto; fail | right; exists q, x; split; [|split; [exact X|exact E]]; cbn; auto].
Qed.
Lemma learn_ok c v R : client_ok c -> (forall r, In r R -> (r < length (k_heap c))%nat) -> vrel (on R) v v ->
  client_ok (learn c (Ret v) (k_heap c)).
Proof.
  intros C L V. destruct C as (C1 & C2 & C3 & C4 & C5).
  destruct v; cbn [learn vrel] in *; repeat split; cbn [k_heap k_hdrs k_pkts k_shdrs k_slices]; auto.
  - constructor; auto. apply L. apply V.
  - constructor; auto. destruct V as (F & _ & P). split; auto. clear - F L. induction (p_hdrs p) as [|y l IH]; [constructor|].
    inversion F as [|? ? ? ? A B]; subst. constructor; auto. apply L, A.
  - constructor; auto. apply V.
  - constructor; auto. apply V.
Qed.

Lemma inv_back m ip6 w i w' : winv m ip6 w -> wback w i = Some w' -> winv m ip6 w'.
Proof.
  destruct w as [c ts]. cbn [wback]. intros V E. pose proof (inv_client _ _ _ V) as C. cbn [fst] in C.
  assert (P : forall c', client_ok c' -> (forall j k own t, j <> i -> busy (c, ts) j k own t -> tok m ip6 c' k own t) ->
    winv m ip6 (c', upd ts i Idle)).
  { intros c' C' T'. split; unfold busy; cbn [fst snd].
    - exact C'.
    - intros j k own t B. apply upd_cases in B. destruct B as [(_ & [=])|(Ne & B)]. eapply T'; eauto.
    - intros a b k1 k2 own1 own2 t1 t2 r B1 B2. apply upd_cases in B1. apply upd_cases in B2.
      destruct B1 as [(_ & [=])|(N1 & B1)], B2 as [(_ & [=])|(N2 & B2)]. eapply (inv_own _ _ _ V a b); eauto.
    - intros a b k1 k2 own1 own2 x o1 o2 p1 p2 B1 B2. apply upd_cases in B1. apply upd_cases in B2.
      destruct B1 as [(_ & [=])|(N1 & B1)], B2 as [(_ & [=])|(N2 & B2)]. eapply (inv_wait _ _ _ V a b); eauto. }
  destruct (nth_error ts i) as [[|k own [[[v|e| | |]| | | | |]|]]|] eqn:B; try discriminate; injection E as <-.
  - change (winv m ip6 (learn c (Ret v) (k_heap c), upd ts i Idle)).
    pose proof (inv_tok _ _ _ V _ _ _ _ B) as T. cbn [fst] in T.
    assert (Z : ~ short_from k) by (intros Z; discriminate (tok_short _ _ _ _ _ _ T Z)).
    pose proof (tok_good _ _ _ _ _ _ T Z _ (on_refl _)) as G. cbn [rl orl] in G.
    pose proof (tok_apart _ _ _ _ _ _ C T) as (_ & _ & L). apply P.
    + eapply learn_ok; eauto.
    + intros j k1 own1 t1 Ne B1. pose proof (inv_tok _ _ _ V _ _ _ _ B1) as T1. cbn [fst] in T1.
      assert (Hh : k_heap (learn c (Ret v) (k_heap c)) = k_heap c) by (destruct v; reflexivity).
      split; rewrite ?Hh; try apply T1.
      * intros r R. apply learn_more. apply (tok_args _ _ _ _ _ _ T1); auto.
      * intros r R. destruct (tok_own _ _ _ _ _ _ T1 _ R) as (Lr & N'). split; auto. intros S.
        destruct (learn_shared _ _ _ _ _ G S) as [S'|S']; auto. apply in_app_or in S'. destruct S' as [S'|S'].
        -- apply N'. apply (tok_args _ _ _ _ _ _ T); auto.
        -- exact (inv_own _ _ _ V i j _ _ _ _ _ _ r B B1 (fun e => Ne (eq_sym e)) S' R).
  - apply P; auto. intros j k1 own1 t1 _ B1. exact (inv_tok _ _ _ V _ _ _ _ B1).
Qed.

Lemma inv_start m ip6 : winv m ip6 w_start.
Proof.
  assert (B : forall i k own t, ~ busy w_start i k own t) by (intros [|i] k own t; discriminate).
  split.
  - repeat split; constructor.
  - intros. destruct (B _ _ _ _ H).
  - intros. destruct (B _ _ _ _ H).
  - intros. destruct (B _ _ _ _ H).
Qed.
Lemma inv_step m ip6 w w' : octets16 ip6 -> winv m ip6 w -> wstep m ip6 w w' -> winv m ip6 w'.
Proof.
  intros O6 V S. destruct S; [apply inv_spawn|eapply inv_call|eapply inv_do|eapply inv_back]; eauto.
Qed.
Lemma inv_reach m ip6 w : octets16 ip6 -> wreach m ip6 w -> winv m ip6 w.
Proof. intros O6 R. induction R; [apply inv_start|eapply inv_step; eauto]. Qed.

(** ** Finished calls *)

Lemma fin_mirror m ip6 hs h k own o : mirror m ip6 hs h k own (TRun (ADone o)) ->
  exists o0 h0, kexec m ip6 k hs = (o0, h0) /\ length h0 = (length hs + length own)%nat /\
  (forall r r', names (length hs) (args k) own r r' -> nth_error h0 r' = nth_error h r) /\
  orl (parses k) (vrel (names (length hs) (args k) own)) o o0.
Proof.
  intros (p' & h0 & Ex & Len & A & G). pose proof (G _ (fun r r' X => X)) as G0. destruct p' as [o0| | | | |]; cbn [rl] in G0; try contradiction.
  exists o0, h0. cbn [asolo] in Ex. unfold lift in Ex. auto.
Qed.
Lemma fin_outcome m ip6 w i k own o : octets16 ip6 -> winv m ip6 w -> busy w i k own (TRun (ADone o)) ->
  (short_from k /\ o = UB) \/ (~ short_from k /\ comes_back o).
Proof.
  intros O6 V B. pose proof (inv_tok _ _ _ V _ _ _ _ B) as T. destruct (short_dec k) as [Z|Z].
  { left. split; auto. pose proof (tok_short _ _ _ _ _ _ T Z). congruence. }
  right. split; auto. pose proof (tok_good _ _ _ _ _ _ T Z _ (on_refl _)) as G. cbn [rl] in G.
  destruct o as [v|e| | |]; cbn [orl] in G; try contradiction; [left; eauto|right; eauto|].
  assert (A : args k = []) by (destruct k; try discriminate; reflexivity).
  destruct (fin_mirror _ _ _ _ _ _ _ (tok_mirror _ _ _ _ _ _ T Z A)) as (o0 & h0 & E & _ & _ & O).
  destruct o0; cbn [orl] in O; try contradiction. destruct k; try discriminate.
  destruct (C66_safety m ip6 k_start (K_parse f d) O6) as (_ & _ & S).
  - repeat split; constructor.
  - exact I.
  - apply T.
  - change (k_heap k_start) with (@nil cell) in S. rewrite E in S. cbn [fst] in S.
    destruct (proj2 S) as [(a & [=])|(a & [=])]. split; cbn; auto.
Qed.

Lemma names_call n A own r r' : (forall r, In r A -> (r < n)%nat) -> names n A own r r' -> call_names n own r' = r.
Proof.
  intros L [(<- & X)|(j & X & ->)]; unfold call_names.
  - rewrite (proj2 (Nat.ltb_lt _ _)); auto.
  - rewrite (proj2 (Nat.ltb_ge _ _)) by lia. rewrite Nat.add_comm, Nat.add_sub. apply nth_error_nth. exact X.
Qed.
Lemma vrel_rename (E : nat -> nat -> Prop) f v v' : (forall r r', E r r' -> f r' = r) -> vrel E v v' -> v = rename f v'.
Proof.
  intros F V.
  assert (Hh : forall x x', hrel E x x' -> x = rename_hdr f x').
  { intros [T r] [T' r'] (A & B). cbn in *. unfold rename_hdr. cbn. rewrite (F _ _ B), A. reflexivity. }
  destruct v, v'; cbn [vrel rename] in *; try contradiction; try congruence; try (destruct V; congruence).
  - f_equal. auto.
  - destruct V as (P & Q & _). destruct p as [l y], p0 as [l' y']. cbn [p_hdrs p_payload] in *. subst y'. unfold rename_pkt. cbn [p_hdrs p_payload]. do 2 f_equal.
    induction P as [|a b l l' A B IH]; cbn [map]; [reflexivity|]. rewrite <- (Hh _ _ A), <- IH. reflexivity.
Qed.
Lemma fin_same m ip6 hs h k own o : (forall r, In r (args k) -> (r < length hs)%nat) -> mirror m ip6 hs h k own (TRun (ADone o)) -> comes_back o ->
  exists o0 h0, kexec m ip6 k hs = (o0, h0) /\ o = rename_out (call_names (length hs) own) o0 /\
  length h0 = (length hs + length own)%nat /\
  (forall r, In r (args k) -> nth_error h r = nth_error h0 r) /\
  (forall j r, nth_error own j = Some r -> nth_error h r = nth_error h0 (length hs + j)).
Proof.
  intros L M B. destruct (fin_mirror _ _ _ _ _ _ _ M) as (o0 & h0 & E & Len & A & O). exists o0, h0. split; [auto|]. split; [|split; [auto|split]].
  - destruct B as [(v & ->)|(e & ->)]; destruct o0; cbn [orl rename_out] in *; try contradiction; [|congruence].
    f_equal. eapply vrel_rename; [|exact O]. intros r r'. apply names_call. auto.
  - intros r R. symmetry. apply A. left; auto.
  - intros j r R. symmetry. apply A. right; eauto.
Qed.

(** ** Every execution of the calls in progress is finite *)

Definition next (t' t : tstate) : Prop := exists ts h h' new, tstep ts h t = Some (h', new, t').
Lemma fin_acc o : Acc next (TRun (ADone o)).
Proof. constructor. intros t (ts & h & h' & new & E). discriminate. Qed.
Lemma after_cases {B} (o : out B * heap) (f : B -> tstate) h new t : after o f = (h, new, t) ->
  (exists b, t = f b) \/ exists o, t = TRun (ADone o).
Proof. destruct o as [[] ?]; cbn [after]; intros [= _ _ <-]; eauto. Qed.
Lemma hold_acc x o p : Acc next (TRun p) -> Acc next (TWait x o p).
Proof.
  intros A. constructor. intros t (ts & h & h' & new & E). cbn [tstep] in E. destruct (held ts o); [discriminate|].
  destruct (nth_error h x), (nth_error h o); try (injection E as _ _ <-; apply fin_acc).
  destruct (c_poisoned _); injection E as _ _ <-; auto using fin_acc.
Qed.
Lemma go_acc (p : act kres) : Acc next (TRun p).
Proof.
  induction p as [o|d f IH|r i f IH|r i v f IH|r f IH|x o f IH]; [apply fin_acc| | | | |];
    constructor; intros t (ts & h & h' & new & E); cbn [tstep] in E.
  - injection E as _ _ <-. auto.
  - destruct (held ts r); [discriminate|]. injection E as E. destruct (after_cases _ _ _ _ _ E) as [(b & ->)|(o & ->)]; auto using fin_acc.
  - destruct (held ts r); [discriminate|]. injection E as E. destruct (after_cases _ _ _ _ _ E) as [(b & ->)|(o & ->)]; auto using fin_acc.
  - destruct (held ts r); [discriminate|]. injection E as E. destruct (after_cases _ _ _ _ _ E) as [(b & ->)|(o & ->)]; auto using fin_acc.
  - destruct (held ts x); [discriminate|]. injection E as E. destruct (after_cases _ _ _ _ _ E) as [(b & ->)|(o1 & ->)]; auto using fin_acc, hold_acc.
Qed.
Lemma tstate_acc t : Acc next t.
Proof. destruct t; auto using go_acc, hold_acc. Qed.

Definition tnext (t' t : thread) : Prop := exists k own own' s s', t = Busy k own s /\ t' = Busy k own' s' /\ next s' s.
Lemma tnext_acc t : Acc tnext t.
Proof.
  destruct t as [|k own s]; [constructor; intros t' (k & own & own' & s & s' & [=] & _)|].
  revert own. induction (tstate_acc s) as [s _ IH]. intros own. constructor.
  intros t' (k1 & own1 & own' & s1 & s' & [= -> -> ->] & -> & N'). auto.
Qed.
Definition lnext (l' l : list thread) : Prop := exists i t t', nth_error l i = Some t /\ l' = upd l i t' /\ tnext t' t.
Lemma lnext_acc l : Acc lnext l.
Proof.
  induction l as [|t l IH].
  - constructor. intros l' (i & t & t' & H & _). destruct i; discriminate.
  - pose proof (tnext_acc t) as Ht. revert l IH. induction Ht as [t _ IHt]. intros l Hl.
    induction Hl as [l Hl IHl]. constructor. intros l' (i & u & u' & Hn & -> & Hs).
    destruct i as [|i]; cbn [nth_error upd] in *.
    + injection Hn as ->. apply IHt; auto. constructor; auto.
    + apply IHl. exists i, u, u'. auto.
Qed.
Lemma wdo_acc w : Acc (fun w' w : world => exists i, wdo w i = Some w') w.
Proof.
  destruct w as [c ts]. revert c. induction (lnext_acc ts) as [ts _ IH]. intros c. constructor. intros w' (i & E).
  destruct (wdo_inv _ _ _ E) as (k & own & t & h & new & t' & B & S & ->). cbn [fst snd] in *. apply IH.
  exists i, (Busy k own t), (Busy k (own ++ new) t'). split; auto. split; auto.
  exists k, own, (own ++ new), t, t'. split; auto. split; auto. exists ts, (w_heap (c, ts)), h, new. auto.
Qed.

(** ** One thread alone *)

Lemma set_set c h h' : set_heap (set_heap c h) h' = set_heap c h'.
Proof. reflexivity. Qed.
Lemma set_same c : set_heap c (k_heap c) = c.
Proof. destruct c. reflexivity. Qed.
Lemma upd_twice {A} (l : list A) i a b : upd (upd l i a) i b = upd l i b.
Proof. revert i. induction l as [|x l IH]; intros [|i]; cbn; auto. rewrite IH. reflexivity. Qed.
Lemma held_upd ts i t r : held (upd ts i t) r = true -> held ts r = true \/ holds r t = true.
Proof.
  unfold held. intros H. apply existsb_exists in H. destruct H as (u & U & H). apply In_nth_error in U. destruct U as (j & U).
  apply upd_cases in U. destruct U as [(_ & ->)|(_ & U)]; auto. left. apply existsb_exists. exists u. split; auto. eapply nth_error_In; eauto.
Qed.
Lemma held_run ts i k own p r : (forall r, held ts r = false) -> held (upd ts i (Busy k own (TRun p))) r = false.
Proof.
  intros F. destruct (held _ r) eqn:E; auto. destruct (held_upd _ _ _ _ E) as [H|H]; [rewrite F in H|]; discriminate.
Qed.
Lemma upd_idem {A} (l : list A) i a : nth_error l i = Some a -> upd l i a = l.
Proof. apply upd_same. Qed.
Lemma nth_upd_at {A} (l : list A) i a b : nth_error l i = Some a -> nth_error (upd l i b) i = Some b.
Proof. intros E. rewrite nth_error_upd, Nat.eqb_refl. rewrite (proj2 (Nat.ltb_lt _ _)); auto. apply nth_error_Some. congruence. Qed.

Lemma only_run i p : forall c ts k own o h, nth_error ts i = Some (Busy k own (TRun p)) -> (forall r, held ts r = false) ->
  asolo p (k_heap c) = (o, h) -> comes_back o ->
  exists own', only i (c, ts) (set_heap c h, upd ts i (Busy k own' (TRun (ADone o)))).
Proof.
  assert (Sec : forall B r (body : list N -> out B * list N) (f : B -> act kres) c ts k own o h q,
    (forall b c ts k own o h, nth_error ts i = Some (Busy k own (TRun (f b))) -> (forall r, held ts r = false) ->
      asolo (f b) (k_heap c) = (o, h) -> comes_back o ->
      exists own', only i (c, ts) (set_heap c h, upd ts i (Busy k own' (TRun (ADone o))))) ->
    nth_error ts i = Some (Busy k own (TRun q)) -> (forall r, held ts r = false) ->
    tstep ts (k_heap c) (TRun q) = Some (after (with_lock r body (k_heap c)) (fun b => TRun (f b))) ->
    bind (with_lock r body) (fun b => asolo (f b)) (k_heap c) = (o, h) -> comes_back o ->
    exists own', only i (c, ts) (set_heap c h, upd ts i (Busy k own' (TRun (ADone o))))).
  { intros B r body f c ts k own o h q IH E F S Ex Cb. unfold bind in Ex.
    destruct (with_lock r body (k_heap c)) as [[b|e| | |] h1]; cbn [after] in S.
    - destruct (IH b (set_heap c h1) (upd ts i (Busy k (own ++ []) (TRun (f b)))) k (own ++ []) o h) as (own' & O); auto.
      + eapply nth_upd_at; eauto.
      + intros r'. apply held_run. auto.
      + exists own'. rewrite upd_twice, set_set in O. eapply Only_step; [|exact O]. cbn [wdo]. rewrite E, S. reflexivity.
    - injection Ex as <- <-. exists (own ++ []). eapply Only_step; [|apply Only_refl]. cbn [wdo]. rewrite E, S. reflexivity.
    - injection Ex as <- <-. destruct Cb as [(a & [=])|(a & [=])].
    - injection Ex as <- <-. destruct Cb as [(a & [=])|(a & [=])].
    - injection Ex as <- <-. destruct Cb as [(a & [=])|(a & [=])]. }
  induction p as [o1|d f IH|r j f IH|r j v f IH|r f IH|x y f IH]; intros c ts k own o h E F Ex Cb; cbn [asolo] in Ex.
  - unfold lift in Ex. injection Ex as <- <-. exists own. rewrite set_same, upd_idem by auto. apply Only_refl.
  - unfold bind, alloc in Ex.
    destruct (IH (length (k_heap c)) (set_heap c (k_heap c ++ [Cell d false]))
      (upd ts i (Busy k (own ++ [length (k_heap c)]) (TRun (f (length (k_heap c)))))) k (own ++ [length (k_heap c)]) o h) as (own' & O); auto.
    + eapply nth_upd_at; eauto.
    + intros r'. apply held_run. auto.
    + exists own'. rewrite upd_twice, set_set in O. eapply Only_step; [|exact O]. cbn [wdo]. rewrite E. reflexivity.
  - eapply (Sec N r _ f); eauto. cbn [tstep]. rewrite F. reflexivity.
  - eapply (Sec unit r _ (fun _ => f)); eauto. cbn [tstep]. rewrite F. reflexivity.
  - eapply (Sec (list N) r _ f); eauto. cbn [tstep]. rewrite F. reflexivity.
  - unfold bind, hreplace in Ex. cbn [h_ref] in Ex.
    destruct (nth_error (k_heap c) x) as [cx|] eqn:Ecx; [|injection Ex as <- <-; destruct Cb as [(a & [=])|(a & [=])]].
    destruct (nth_error (k_heap c) y) as [cy|] eqn:Ecy; [|injection Ex as <- <-; destruct Cb as [(a & [=])|(a & [=])]].
    assert (S1 : tstep ts (k_heap c) (TRun (ARepl x y f)) =
      Some (after (with_lock x (fun _ => (Ret tt, [])) (k_heap c)) (fun _ => TWait x y f))) by (cbn [tstep]; rewrite F; reflexivity).
    unfold with_lock in S1. rewrite Ecx in S1. destruct (c_poisoned cx); cbn [after] in S1.
    + injection Ex as <- <-. exists (own ++ []). eapply Only_step; [|apply Only_refl]. cbn [wdo]. rewrite E, S1. reflexivity.
    + destruct (Nat.eqb_spec x y) as [->|Ne]; [injection Ex as <- <-; destruct Cb as [(a & [=])|(a & [=])]|].
      set (ts1 := upd ts i (Busy k (own ++ []) (TWait x y f))). set (h1 := upd (k_heap c) x (Cell [] false)) in *.
      assert (W1 : wdo (c, ts) i = Some (set_heap c h1, ts1)) by (cbn [wdo]; rewrite E, S1; reflexivity).
      assert (E1 : nth_error ts1 i = Some (Busy k (own ++ []) (TWait x y f))) by (eapply nth_upd_at; eauto).
      assert (Hy : held ts1 y = false).
      { destruct (held ts1 y) eqn:H; auto. apply held_upd in H. destruct H as [H|H]; [rewrite F in H; discriminate|].
        cbn in H. apply Nat.eqb_eq in H. contradiction. }
      assert (Hx1 : nth_error h1 x = Some (Cell [] false)) by (eapply nth_upd_at; eauto).
      assert (Hy1 : nth_error h1 y = Some cy) by (unfold h1; rewrite upd_other; auto).
      assert (U : forall z, upd h1 x z = upd (k_heap c) x z) by (intros; apply upd_twice).
      destruct (c_poisoned cy) eqn:Py.
      * injection Ex as <- <-. exists ((own ++ []) ++ []). eapply Only_step; [exact W1|]. eapply Only_step; [|apply Only_refl].
        cbn [wdo]. rewrite E1. cbn [tstep]. rewrite Hy. cbn [set_heap k_heap]. rewrite Hx1, Hy1, Py. cbn [c_data]. rewrite U.
        unfold ts1. rewrite upd_twice, set_set. reflexivity.
      * destruct (IH (set_heap c (upd (k_heap c) x (Cell (c_data cy) false)))
          (upd ts i (Busy k ((own ++ []) ++ []) (TRun f))) k ((own ++ []) ++ []) o h) as (own' & O); auto.
        -- eapply nth_upd_at; eauto.
        -- intros r'. apply held_run. auto.
        -- exists own'. rewrite upd_twice, set_set in O. eapply Only_step; [exact W1|]. eapply Only_step; [|exact O].
           cbn [wdo]. rewrite E1. cbn [tstep]. rewrite Hy. cbn [set_heap k_heap]. rewrite Hx1, Hy1, Py. cbn [c_data app]. rewrite U.
           unfold ts1. rewrite upd_twice, set_set. reflexivity.
Qed.

(** ** [replace] and its locks *)

Definition rshape (a b : hdr) (t : tstate) : Prop :=
  t = TRun (ARepl (h_ref a) (h_ref b) (ADone (Ret (KVal VUnit)))) \/
  t = TWait (h_ref a) (h_ref b) (ADone (Ret (KVal VUnit))) \/ done t.
Lemma rshape_step a b ts h t h' new t' : rshape a b t -> tstep ts h t = Some (h', new, t') -> rshape a b t'.
Proof.
  intros [->|[->|(o & ->)]] E; cbn [tstep] in E; try discriminate.
  - destruct (held ts _); [discriminate|]. injection E as E. destruct (after_cases _ _ _ _ _ E) as [(u & ->)|(o & ->)];
      [right; left; reflexivity|right; right; eexists; reflexivity].
  - right; right. destruct (held ts _); [discriminate|]. destruct (nth_error h (h_ref a)), (nth_error h (h_ref b));
      try (injection E as _ _ <-; eexists; reflexivity). destruct (c_poisoned _); injection E as _ _ <-; eexists; reflexivity.
Qed.
Lemma rshape_reach m ip6 w : wreach m ip6 w -> forall i a b own t, busy w i (K_hdr (OReplace a b)) own t -> rshape a b t.
Proof.
  intros R. induction R as [|w w' R IH S]; intros i a b own t B; [destruct i; discriminate|].
  destruct S as [[c ts]|[c ts] j k w' _ _ E|w j w' E|[c ts] j w' E].
  - unfold busy in B. cbn [wspawn snd] in B. destruct (Nat.lt_ge_cases i (length ts)) as [L|L].
    + rewrite nth_error_app1 in B by auto. eapply (IH i); exact B.
    + rewrite nth_error_app2 in B by auto. destruct (i - length ts)%nat as [|[|z]]; discriminate.
  - cbn [wcall] in E. destruct (nth_error ts j) as [[|? ? ?]|]; try discriminate. injection E as <-. unfold busy in B. cbn [snd] in B.
    apply upd_cases in B. destruct B as [(-> & [= <- -> ->])|(Ne & B)]; [left; reflexivity|eapply (IH i); exact B].
  - destruct (wdo_inv _ _ _ E) as (k & own1 & t1 & h & new & t' & B1 & S & ->). unfold busy in B. cbn [snd] in B.
    apply upd_cases in B. destruct B as [(-> & [= <- -> ->])|(Ne & B)]; [|eapply (IH i); exact B].
    eapply rshape_step; [eapply (IH j); exact B1|exact S].
  - cbn [wback] in E. destruct (nth_error ts j) as [[|k1 own1 [[[v|e| | |]| | | | |]|]]|]; try discriminate; injection E as <-;
      unfold busy in B; cbn [snd] in B; apply upd_cases in B; destruct B as [(_ & [=])|(Ne & B)]; eapply (IH i); exact B.
Qed.
Lemma wait_call m ip6 w i k own x y p : octets16 ip6 -> wreach m ip6 w -> busy w i k own (TWait x y p) ->
  exists a b, k = K_hdr (OReplace a b) /\ h_ref a = x /\ h_ref b = y.
Proof.
  intros O6 R B. pose proof (inv_reach _ _ _ O6 R) as V. pose proof (inv_tok _ _ _ V _ _ _ _ B) as T.
  destruct (short_dec k) as [Z|Z]; [discriminate (tok_short _ _ _ _ _ _ T Z)|].
  destruct (tok_good _ _ _ _ _ _ T Z _ (on_refl _)) as (Rp & _). destruct k; try discriminate. destruct o; try discriminate.
  exists x0, y0. split; auto. destruct (rshape_reach _ _ _ R _ _ _ _ _ B) as [[=]|[[= -> -> _]|(o & [=])]]. auto.
Qed.
Lemma stuck_wants m ip6 w i k own t : winv m ip6 w -> busy w i k own t -> ~ done t -> wdo w i = None ->
  exists r, wants t = Some r /\ held (snd w) r = true.
Proof.
  intros V B D E. pose proof (inv_tok _ _ _ V _ _ _ _ B) as T. destruct w as [c ts]. cbn [wdo] in E. unfold busy in B. cbn [snd] in *.
  rewrite B in E. destruct (tstep ts (k_heap c) t) as [[[h new] t']|] eqn:S; [discriminate|]. clear E.
  destruct t as [[o|d f|r j f|r j v f|r f|x y f]|x y p]; cbn [tstep] in S; try discriminate.
  - destruct D. eexists; reflexivity.
  - exists r. split; auto. destruct (held ts r); [auto|discriminate].
  - exists r. split; auto. destruct (held ts r); [auto|discriminate].
  - exists r. split; auto. destruct (held ts r); [auto|discriminate].
  - exists x. split; auto. destruct (held ts x); [auto|discriminate].
  - exists y. split; auto. destruct (held ts y); [auto|].
    destruct (nth_error (k_heap c) x), (nth_error (k_heap c) y); try discriminate. destruct (c_poisoned _); discriminate.
Qed.
