(** SourceSpec.v -- where C92 says the bits of a buffer come from. *)

From Verif Require Import Base Bits Types Layout Heap Packet Build Utils Slow Fast Ops Client Threads Spec ClientSpec ThreadsSpec.
Open Scope N_scope.

(** ** Executions with everything that happens in them *)

Inductive move : Type :=
| M_spawn
| M_call (i : nat) (k : call)   (* thread [i] begins [k] *)
| M_do (i : nat)
| M_back (i : nat).             (* the call of thread [i] returns or panics *)
Definition moved (m : mode) (ip6 : string -> option (list N)) (w : world) (v : move) (w' : world) : Prop :=
  match v with
  | M_spawn => w' = wspawn w
  | M_call i k => known (fst w) k /\ typed k /\ wcall m ip6 w i k = Some w'
  | M_do i => wdo w i = Some w'
  | M_back i => wback w i = Some w'
  end.
(** The moves from [w] to [w'], each with the world it leads to. *)
Inductive exec (m : mode) (ip6 : string -> option (list N)) (w : world) : list (move * world) -> world -> Prop :=
| E_none : exec m ip6 w [] w
| E_more l w1 v w2 : exec m ip6 w l w1 -> moved m ip6 w1 v w2 -> exec m ip6 w (l ++ [(v, w2)]) w2.
(** The calls that are begun. *)
Definition begun (l : list (move * world)) : list call :=
  flat_map (fun p => match fst p with M_call _ k => [k] | _ => [] end) l.

(** ** Bits *)

Definition stands (h : heap) (r j : nat) (b : bool) : Prop :=
  exists c, nth_error h r = Some c /\ (j < 8 * length (c_data c))%nat /\ bit (c_data c) j = b.
(** A buffer that exists in [w] and that no call in progress in [w] was given or has made. *)
Definition settled (w : world) (r : nat) : Prop :=
  (r < length (w_heap w))%nat /\ forall i k own t, busy w i k own t -> ~ In r (args k) /\ ~ In r own.
(** [o] is a call that writes [b] to bit [j] of buffer [r]. *)
Definition gives (o : hop) (r j : nat) (b : bool) : Prop :=
  match o with
  | OSet x f v => r = h_ref x /\ (f_start f <= j <= f_end f)%nat /\ b = N.testbit v (N.of_nat (f_end f - j))
  | OSetBitRange x msb lsb v => r = h_ref x /\ (lsb <= j <= msb)%nat /\ b = N.testbit v (N.of_nat (msb - j))
  | OSetBytes x msb lsb v => r = h_ref x /\ (lsb <= j <= msb)%nat /\ b = bit v (j - lsb)
  | _ => False
  end.
(** The bits that may come to stand in the buffers settled in [w] if the calls [ks] are made. *)
Inductive source (w : world) (ks : list call) : nat -> nat -> bool -> Prop :=
| S_there r j b : stands (w_heap w) r j b -> source w ks r j b
| S_given o r j b : In (K_hdr o) ks -> gives o r j b -> source w ks r j b
| S_copied x y j b : In (K_hdr (OReplace x y)) ks -> source w ks (h_ref y) j b -> source w ks (h_ref x) j b
| S_other r j b : ~ settled w r -> source w ks r j b.

(** ** Reading *)

(** From [w] to [w'] thread [i] begins [k], which is then still in progress (or about to return). *)
Definition call_in (m : mode) (ip6 : string -> option (list N)) (i : nat) (k : call) (w : world) (l : list (move * world)) (w' : world) : Prop :=
  exec m ip6 w l w' /\ exists w1 l1, l = (M_call i k, w1) :: l1 /\ ~ In (M_back i) (map fst l1).
(** Thread [i] has got [v] from it. *)
Definition got (w : world) (i : nat) (k : call) (v : kres) : Prop := exists own, busy w i k own (TRun (ADone (Ret v))).
(** At some moment of [l] bit [j] of buffer [r] was [b]. *)
Definition stood (l : list (move * world)) (r j : nat) (b : bool) : Prop := exists w, In w (map snd l) /\ stands (w_heap w) r j b.

(** ** Values made of given bits *)

(** The number read from bits [lsb..=msb] of buffer [r]. *)
Definition number_of (S : nat -> nat -> bool -> Prop) (r msb lsb : nat) (n : N) : Prop :=
  n < 2 ^ N.of_nat (msb - lsb + 1) /\ forall k, (k <= msb - lsb)%nat -> S r (msb - k)%nat (N.testbit n (N.of_nat k)).
(** The bytes from bit [i] of buffer [r] on. *)
Definition octets_of (S : nat -> nat -> bool -> Prop) (r i : nat) (d : list N) : Prop :=
  forall j, (j < 8 * length d)%nat -> S r (i + j)%nat (bit d j).
(** What the call returns is made of bits in [S]. *)
Definition made_of (S : nat -> nat -> bool -> Prop) (k : call) (v : kres) : Prop :=
  match k with
  | K_hdr (OGet x f) => (f_start f <= f_end f < f_start f + 64)%nat ->
      exists n, v = KVal (VNum n) /\ number_of S (h_ref x) (f_end f) (f_start f) n
  | K_hdr (OBitRange x msb lsb) => (lsb <= msb < lsb + 64)%nat -> exists n, v = KVal (VNum n) /\ number_of S (h_ref x) msb lsb n
  | K_hdr (OBytes x msb lsb) => (lsb <= msb)%nat ->
      exists d, v = KVal (VBytes d) /\ (8 * length d = msb - lsb + 1)%nat /\ octets_of S (h_ref x) lsb d
  | K_hdr (OToVec x) => exists d, v = KVal (VBytes d) /\ octets_of S (h_ref x) 0 d
  | K_pto_vec p => exists ds, v = KVal (VBytes (concat ds ++ p_payload p)) /\ Forall2 (fun x d => octets_of S (h_ref x) 0 d) (p_hdrs p) ds
  | _ => True
  end.
