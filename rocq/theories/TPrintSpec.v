(** TPrintSpec.v -- which executions [TPrint.v] is about, and what C71 says of them. *)

From Verif Require Import Base Bits Types Layout Heap Packet Build Utils Slow Fast Ops Client Print Threads TPrint Spec ClientSpec ThreadsSpec.
Open Scope N_scope.

(** A thread is started ([None]), or thread [i] begins a call on values that any thread
    has obtained, proceeds with its call, or finishes it. *)
Inductive pmove (m : mode) (ip6 : string -> option (list N)) (w : pworld) : option nat -> pworld -> Prop :=
| PM_spawn : pmove m ip6 w None (pspawn w)
| PM_call i k w' : known (pw_client w) k -> typed k -> pcall m ip6 w i k = Some w' -> pmove m ip6 w (Some i) w'
| PM_do i w' : pdo w i = Some w' -> pmove m ip6 w (Some i) w'
| PM_back i w' : pback w i = Some w' -> pmove m ip6 w (Some i) w'.
Inductive preach (m : mode) (ip6 : string -> option (list N)) : pworld -> Prop :=
| PR_start : preach m ip6 pw_start
| PR_move w j w' : preach m ip6 w -> pmove m ip6 w j w' -> preach m ip6 w'.

(** Thread [i] is executing call [k], has allocated [own] for it and printed [said]. *)
Definition pbusy (w : pworld) (i : nat) (k : call) (own : list nat) (said : string) (t : qstate) : Prop :=
  nth_error (pw_threads w) i = Some (PBusy k own said t).
Definition p_heap (w : pworld) : heap := k_heap (pw_client w).

(** The result of a call of Threads.v, where [show] returns its text. *)
Definition without_text (o : out kres) : out kres := match o with Ret (KText _) => Ret (KVal VUnit) | _ => o end.
(** The same thread with and without printing. *)
Definition same_thread (t : pthread) (t0 : thread) : Prop :=
  match t, t0 with
  | PIdle, Idle => True
  | PBusy k own _ q, Busy k0 own0 q0 => k = k0 /\ own = own0 /\
      (forall o, q = QRun (QDone o) -> exists o0, q0 = TRun (ADone o0) /\ o = without_text o0) /\
      (forall x y, (exists p, q = QWait x y p) <-> exists p, q0 = TWait x y p)
  | _, _ => False
  end.

(** Thread [i] begins [k] in [w]; when [w'] is reached it has not begun another call, and
    meanwhile no other thread has changed a buffer that [k] was given. *)
Inductive pundisturbed (m : mode) (ip6 : string -> option (list N)) (i : nat) (k : call) : pworld -> pworld -> Prop :=
| PU_call w w' : known (pw_client w) k -> typed k -> pcall m ip6 w i k = Some w' -> pundisturbed m ip6 i k w w'
| PU_do w w1 w2 : pundisturbed m ip6 i k w w1 -> pdo w1 i = Some w2 -> pundisturbed m ip6 i k w w2
| PU_other w w1 j w2 : pundisturbed m ip6 i k w w1 -> pmove m ip6 w1 j w2 -> j <> Some i ->
    (forall r, In r (args k) -> nth_error (p_heap w2) r = nth_error (p_heap w1) r) -> pundisturbed m ip6 i k w w2.
(** Only thread [i] proceeds. *)
Inductive ponly (i : nat) : pworld -> pworld -> Prop :=
| POnly_refl w : ponly i w w
| POnly_step w w1 w2 : pdo w i = Some w1 -> ponly i w1 w2 -> ponly i w w2.

(** The text that thread [i] has written. *)
Definition text_of (i : nat) (l : list (nat * string)) : string :=
  String.concat "" (map snd (filter (fun e => (fst e =? i)%nat) l)).
(** The call in progress. *)
Definition in_progress (w : pworld) (i : nat) : string :=
  match nth_error (pw_threads w) i with Some (PBusy _ _ said _) => said | _ => EmptyString end.

(** An execution with the calls that have ended: thread, call, what it printed. *)
Inductive pruns (m : mode) (ip6 : string -> option (list N)) : pworld -> list (nat * call * string) -> Prop :=
| PX_start : pruns m ip6 pw_start []
| PX_spawn w l : pruns m ip6 w l -> pruns m ip6 (pspawn w) l
| PX_call w l i k w' : pruns m ip6 w l -> known (pw_client w) k -> typed k -> pcall m ip6 w i k = Some w' -> pruns m ip6 w' l
| PX_do w l i w' : pruns m ip6 w l -> pdo w i = Some w' -> pruns m ip6 w' l
| PX_back w l i k own said t w' : pruns m ip6 w l -> pbusy w i k own said t -> pback w i = Some w' ->
    pruns m ip6 w' (l ++ [(i, k, said)]).
(** What the calls of thread [i] have printed, in order. *)
Definition texts (i : nat) (l : list (nat * call * string)) : string :=
  String.concat "" (map snd (filter (fun e => (fst (fst e) =? i)%nat) l)).

(** The calls that print a line in several pieces. *)
Definition shows (k : call) : Prop := match k with K_hshow _ | K_pshow _ | K_sshow _ | K_ps_show _ => True | _ => False end.
