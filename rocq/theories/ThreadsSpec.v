(** ThreadsSpec.v -- which executions [Threads.v] is about, and what C67 says of them. *)

From Verif Require Import Base Bits Types Layout Heap Packet Build Utils Slow Fast Ops Client Threads Spec ClientSpec.
Open Scope N_scope.

(** ** Executions *)

(** Any thread may start any call on values that any thread has obtained, proceed with
    its call, or finish it; threads may be started at any time. *)
Inductive wstep (m : mode) (ip6 : string -> option (list N)) : world -> world -> Prop :=
| W_spawn w : wstep m ip6 w (wspawn w)
| W_call w i k w' : known (fst w) k -> typed k -> wcall m ip6 w i k = Some w' -> wstep m ip6 w w'
| W_do w i w' : wdo w i = Some w' -> wstep m ip6 w w'
| W_back w i w' : wback w i = Some w' -> wstep m ip6 w w'.
Inductive wreach (m : mode) (ip6 : string -> option (list N)) : world -> Prop :=
| WR_start : wreach m ip6 w_start
| WR_step w w' : wreach m ip6 w -> wstep m ip6 w w' -> wreach m ip6 w'.

(** Thread [i] is executing call [k] and has allocated [own] for it. *)
Definition busy (w : world) (i : nat) (k : call) (own : list nat) (t : tstate) : Prop :=
  nth_error (snd w) i = Some (Busy k own t).
Definition w_heap (w : world) : heap := k_heap (fst w).

(** ** Buffers of calls and values *)

(** The headers and packets a call is given. *)
Definition query_hdrs (q : query) : list hdr :=
  match q with Q_name x | Q_hlen x | Q_as_slice x => [x] | _ => [] end.
Definition query_pkts (q : query) : list packet := match q with Q_len p | Q_payload p => [p] | _ => [] end.
Definition call_hdrs (k : call) : list hdr :=
  match k with
  | K_hdr o => hop_hdrs o
  | K_downcast _ x | K_hshow x | K_push _ (Owned x) | K_insert _ (Owned x) => [x]
  | K_query q => query_hdrs q
  | _ => []
  end.
Definition call_pkts (k : call) : list packet :=
  match k with
  | K_push p _ | K_insert p _ | K_pop p | K_remove p _ | K_set_payload p _ | K_pclone p | K_index p _
  | K_get_header _ p _ | K_pto_vec p | K_compare_slice p _ | K_pshow p => [p]
  | K_add p q | K_compare p q => [p; q]
  | K_create b => pmake_inner b
  | K_query q => query_pkts q
  | _ => []
  end.
(** Their buffers. *)
Definition args (k : call) : list nat := map h_ref (call_hdrs k ++ flat_map p_hdrs (call_pkts k)).
(** A buffer of a value that has been obtained. *)
Definition shared (c : client) (r : nat) : Prop :=
  (exists x, In x (k_hdrs c) /\ h_ref x = r) \/ (exists p x, In p (k_pkts c) /\ In x (p_hdrs p) /\ h_ref x = r).

Definition parses (k : call) : bool := match k with K_parse _ _ => true | _ => false end.
Definition replaces (k : call) : bool := match k with K_hdr (OReplace _ _) => true | _ => false end.

(** A result with its buffers called differently. *)
Definition rename_hdr (f : nat -> nat) (x : hdr) : hdr := Hdr (h_ty x) (f (h_ref x)).
Definition rename_pkt (f : nat -> nat) (p : packet) : packet := Pkt (map (rename_hdr f) (p_hdrs p)) (p_payload p).
Definition rename (f : nat -> nat) (v : kres) : kres :=
  match v with
  | KHdr x => KHdr (rename_hdr f x)
  | KPkt p => KPkt (rename_pkt f p)
  | _ => v
  end.
Definition rename_hop (f : nat -> nat) (o : hop) : hop :=
  match o with
  | ONew _ | OFrom _ _ => o
  | OClone x => OClone (rename_hdr f x)
  | OGet x a => OGet (rename_hdr f x) a
  | OSet x a v => OSet (rename_hdr f x) a v
  | OBitRange x msb lsb => OBitRange (rename_hdr f x) msb lsb
  | OSetBitRange x msb lsb v => OSetBitRange (rename_hdr f x) msb lsb v
  | OBytes x msb lsb => OBytes (rename_hdr f x) msb lsb
  | OSetBytes x msb lsb v => OSetBytes (rename_hdr f x) msb lsb v
  | OReplace x y => OReplace (rename_hdr f x) (rename_hdr f y)
  | OToVec x => OToVec (rename_hdr f x)
  end.
Definition rename_pmake (f : nat -> nat) (b : pmake) : pmake :=
  match b with
  | P_ipv4ip e i p => P_ipv4ip e i (rename_pkt f p)
  | P_ipv6ip e i p => P_ipv6ip e i (rename_pkt f p)
  | P_vxlan e i d s v p => P_vxlan e i d s v (rename_pkt f p)
  | P_vxlan6 e i d s v p => P_vxlan6 e i d s v (rename_pkt f p)
  | P_gre_pkt e i g o => P_gre_pkt e i g (option_map (rename_pkt f) o)
  | P_erspan2 e i q a x o => P_erspan2 e i q a x (option_map (rename_pkt f) o)
  | P_erspan3 e i q a ts sg ft id info o => P_erspan3 e i q a ts sg ft id info (option_map (rename_pkt f) o)
  | _ => b
  end.
Definition rename_any (f : nat -> nat) (a : any_header) : any_header :=
  match a with Owned x => Owned (rename_hdr f x) | Borrowed _ _ => a end.
Definition rename_query (f : nat -> nat) (q : query) : query :=
  match q with
  | Q_len p => Q_len (rename_pkt f p)
  | Q_payload p => Q_payload (rename_pkt f p)
  | Q_name x => Q_name (rename_hdr f x)
  | Q_hlen x => Q_hlen (rename_hdr f x)
  | Q_as_slice x => Q_as_slice (rename_hdr f x)
  | _ => q
  end.
(** A call with its arguments in other buffers. *)
Definition rename_call (f : nat -> nat) (k : call) : call :=
  match k with
  | K_hdr o => K_hdr (rename_hop f o)
  | K_downcast T x => K_downcast T (rename_hdr f x)
  | K_hshow x => K_hshow (rename_hdr f x)
  | K_push p a => K_push (rename_pkt f p) (rename_any f a)
  | K_insert p a => K_insert (rename_pkt f p) (rename_any f a)
  | K_pop p => K_pop (rename_pkt f p)
  | K_remove p i => K_remove (rename_pkt f p) i
  | K_set_payload p d => K_set_payload (rename_pkt f p) d
  | K_add p q => K_add (rename_pkt f p) (rename_pkt f q)
  | K_pclone p => K_pclone (rename_pkt f p)
  | K_index p n => K_index (rename_pkt f p) n
  | K_get_header T p n => K_get_header T (rename_pkt f p) n
  | K_pto_vec p => K_pto_vec (rename_pkt f p)
  | K_compare p q => K_compare (rename_pkt f p) (rename_pkt f q)
  | K_compare_slice p d => K_compare_slice (rename_pkt f p) d
  | K_pshow p => K_pshow (rename_pkt f p)
  | K_create b => K_create (rename_pmake f b)
  | K_query q => K_query (rename_query f q)
  | K_make _ | K_pnew | K_checksum _ | K_mac _ | K_ip4 _ | K_parse _ _ | K_fast _ _ | K_sfrom _ _ | K_sget _ _
  | K_sbytes _ _ _ | K_sshow _ | K_ps_show _ | K_ip6 _ => k
  end.
Definition rename_out (f : nat -> nat) (o : out kres) : out kres :=
  match o with Ret v => Ret (rename f v) | _ => o end.
(** The buffers of a call that, executing alone on [n] buffers, would have allocated
    [n], [n+1], ... and has in fact allocated [own]. *)
Definition call_names (n : nat) (own : list nat) (r : nat) : nat := if (r <? n)%nat then r else nth (r - n) own O.

(** ** Particular executions *)

Inductive wsteps (m : mode) (ip6 : string -> option (list N)) : world -> world -> Prop :=
| WS_refl w : wsteps m ip6 w w
| WS_step w w1 w2 : wsteps m ip6 w w1 -> wstep m ip6 w1 w2 -> wsteps m ip6 w w2.
(** Only thread [i] proceeds. *)
Inductive only (i : nat) : world -> world -> Prop :=
| Only_refl w : only i w w
| Only_step w w1 w2 : wdo w i = Some w1 -> only i w1 w2 -> only i w w2.
(** Thread [i] begins [k] in [w]; when [w'] is reached it has not begun another call, and
    meanwhile no other thread has changed a buffer that [k] was given. *)
Inductive undisturbed (m : mode) (ip6 : string -> option (list N)) (i : nat) (k : call) : world -> world -> Prop :=
| U_call w w' : known (fst w) k -> typed k -> wcall m ip6 w i k = Some w' -> undisturbed m ip6 i k w w'
| U_do w w1 w2 : undisturbed m ip6 i k w w1 -> wdo w1 i = Some w2 -> undisturbed m ip6 i k w w2
| U_other w w1 w2 : undisturbed m ip6 i k w w1 -> wstep m ip6 w1 w2 -> nth_error (snd w2) i = nth_error (snd w1) i ->
    (forall r, In r (args k) -> nth_error (w_heap w2) r = nth_error (w_heap w1) r) -> undisturbed m ip6 i k w w2.

(** ** Waiting *)

Definition done (t : tstate) : Prop := exists o, t = TRun (ADone o).
(** The lock needed for the next step. *)
Definition wants (t : tstate) : option nat :=
  match t with
  | TRun (ARead r _ _) | TRun (AWrite r _ _ _) | TRun (ACopy r _) | TRun (ARepl r _ _) | TWait _ r _ => Some r
  | _ => None
  end.
(** Thread [i] is inside [replace], holding [x] and waiting for [y]. *)
Definition waiting (w : world) (i x y : nat) : Prop := exists k own p, busy w i k own (TWait x y p).
