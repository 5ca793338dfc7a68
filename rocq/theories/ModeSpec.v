(** ModeSpec.v -- what it means that two builds do the same (C74). *)

From Verif Require Import Base Bits Types Layout Heap Packet Build Utils Slow Fast Ops Client Print Threads TPrint TPrintSpec PanicSpec.
Open Scope N_scope.

(** A program that decides, from what its calls have printed and returned so far, which
    call comes next; the first [n] calls. A panic is caught. *)
Definition strategy : Type := list (string * out kres) -> call.
Fixpoint plays (m : mode) (ip6 : string -> option (list N)) (next : strategy) (n : nat) (h : heap) :
    list (string * out kres) * heap :=
  match n with
  | O => ([], h)
  | S n =>
      let (l, h) := plays m ip6 next n h in
      let '(s, (o, h)) := w_call m ip6 (next l) h in
      (l ++ [(s, o)], h)
  end.

(** ** Threads *)

(** A thread is started; thread [i] begins a call, proceeds with it, finishes it. *)
Inductive event := V_spawn | V_call (i : nat) (k : call) | V_do (i : nat) | V_back (i : nat).
Definition happens (m : mode) (ip6 : string -> option (list N)) (w : pworld) (e : event) : option pworld :=
  match e with
  | V_spawn => Some (pspawn w)
  | V_call i k => pcall m ip6 w i k
  | V_do i => pdo w i
  | V_back i => pback w i
  end.
(** A schedule; [None] if an event is not possible when its turn comes. *)
Fixpoint scheduled (m : mode) (ip6 : string -> option (list N)) (w : pworld) (l : list event) : option pworld :=
  match l with
  | [] => Some w
  | e :: t => match happens m ip6 w e with Some w => scheduled m ip6 w t | None => None end
  end.

(** An overflow check has failed in some thread. *)
Definition trapped (w : pworld) : Prop :=
  exists i k own said, pbusy w i k own said (QRun (QDone (Panic POverflow))).

(** As far as can be seen from outside, both threads are doing the same. *)
Definition alike (t t' : pthread) : Prop :=
  match t, t' with
  | PIdle, PIdle => True
  | PBusy k own said q, PBusy k' own' said' q' => k = k' /\ own = own' /\ said = said' /\
      (forall o, q = QRun (QDone o) <-> q' = QRun (QDone o)) /\
      (forall x y, (exists p, q = QWait x y p) <-> (exists p, q' = QWait x y p))
  | _, _ => False
  end.
Definition same_world (w w' : pworld) : Prop :=
  pw_client w = pw_client w' /\ pw_out w = pw_out w' /\ Forall2 alike (pw_threads w) (pw_threads w').

(** ** Where an overflow check can fail *)

(** The range is reversed, or has more bits than the value that is returned. *)
Definition unreadable (msb lsb : nat) : Prop := (msb < lsb)%nat \/ (64 < msb - lsb + 1)%nat.
Definition can_overflow (k : call) : Prop :=
  match k with
  | K_hdr (OGet _ f) | K_sget _ f => unreadable (f_end f) (f_start f)
  | K_hdr (OBitRange _ msb lsb) | K_query (Q_sbit_range _ msb lsb) => unreadable msb lsb
  | K_hdr (OBytes _ msb lsb) | K_hdr (OSetBytes _ msb lsb _) | K_sbytes _ msb lsb => (msb < lsb)%nat \/ widest msb lsb
  | K_checksum d => 131076 <= N.of_nat (length d)
  | _ => False
  end.
