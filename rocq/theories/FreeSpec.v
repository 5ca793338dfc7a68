(** FreeSpec.v -- which executions Free.v is about, and what C83 says of them. *)

From Verif Require Import Base Bits Types Layout Heap Packet Build Utils Slow Fast Ops Client Threads Free Spec ClientSpec ThreadsSpec.
Open Scope N_scope.

(** Some handle leads to place [r]: a value of the program or a call being executed. *)
Definition handle (w : vworld) (r : nat) : Prop :=
  shared (v_client w) r \/ exists i k own t, nth_error (v_threads w) i = Some (Busy k own t) /\ In r (args k ++ own).
(** Some of the values. *)
Definition part_of (c' c : client) : Prop :=
  k_heap c' = k_heap c /\ incl (k_hdrs c') (k_hdrs c) /\ incl (k_pkts c') (k_pkts c) /\ incl (k_shdrs c') (k_shdrs c) /\ incl (k_slices c') (k_slices c).

(** Which thread called what, and how it ended. *)
Definition ended : Type := nat * call * out kres.

(** As in C67; the program may drop any of its values at any time, and a buffer that no
    handle leads to may be freed at any time. With the calls that have ended. *)
Inductive vruns (m : mode) (ip6 : string -> option (list N)) : vworld -> list ended -> Prop :=
| V_start : vruns m ip6 v_start []
| V_spawn w l : vruns m ip6 w l -> vruns m ip6 (vspawn w) l
| V_call w l i k w' : vruns m ip6 w l -> known (v_client w) k -> typed k -> vcall m ip6 w i k = Some w' -> vruns m ip6 w' l
| V_do w l i new w' : vruns m ip6 w l -> vdo w i new = Some w' -> vruns m ip6 w' l
| V_back w l i k own o w' : vruns m ip6 w l -> nth_error (v_threads w) i = Some (Busy k own (TRun (ADone o))) -> vback w i = Some w' ->
    vruns m ip6 w' (l ++ [(i, k, o)])
| V_drop w l c : vruns m ip6 w l -> part_of c (v_client w) -> vruns m ip6 (vdrop w c) l
| V_free w l r : vruns m ip6 w l -> ~ handle w r -> vruns m ip6 (vfree w r) l.
(** The executions of C67, which never free, with the calls that have ended. *)
Inductive wruns (m : mode) (ip6 : string -> option (list N)) : world -> list ended -> Prop :=
| X_start : wruns m ip6 w_start []
| X_spawn w l : wruns m ip6 w l -> wruns m ip6 (wspawn w) l
| X_call w l i k w' : wruns m ip6 w l -> known (fst w) k -> typed k -> wcall m ip6 w i k = Some w' -> wruns m ip6 w' l
| X_do w l i w' : wruns m ip6 w l -> wdo w i = Some w' -> wruns m ip6 w' l
| X_back w l i k own o w' : wruns m ip6 w l -> busy w i k own (TRun (ADone o)) -> wback w i = Some w' ->
    wruns m ip6 w' (l ++ [(i, k, o)]).

(** Place [r] plays the part of buffer [f r]: *)
Definition same_busy (f : nat -> nat) (t t0 : thread) : Prop :=
  match t, t0 with
  | Idle, Idle => True
  | Busy k own p, Busy k0 own0 p0 => k0 = rename_call f k /\ own0 = map f own /\
      (forall o, p = TRun (ADone o) -> p0 = TRun (ADone (rename_out f o))) /\
      (forall o0, p0 = TRun (ADone o0) -> exists o, p = TRun (ADone o)) /\
      (forall x y, (exists q, p = TWait x y q) -> exists q, p0 = TWait (f x) (f y) q) /\
      (forall x0 y0, (exists q, p0 = TWait x0 y0 q) -> exists x y q, p = TWait x y q)
  | _, _ => False
  end.
Record stands_for (f : nat -> nat) (w : vworld) (w0 : world) : Prop := {
  sf_hdrs : forall x, In x (k_hdrs (v_client w)) -> In (rename_hdr f x) (k_hdrs (fst w0));
  sf_pkts : forall p, In p (k_pkts (v_client w)) -> In (rename_pkt f p) (k_pkts (fst w0));
  sf_shdrs : incl (k_shdrs (v_client w)) (k_shdrs (fst w0));
  sf_slices : incl (k_slices (v_client w)) (k_slices (fst w0));
  sf_apart : forall r q, handle w r -> handle w q -> f r = f q -> r = q;
  sf_bytes : forall r, handle w r -> exists c, v_mem w r = Some c /\ nth_error (w_heap w0) (f r) = Some c;
  sf_threads : Forall2 (same_busy f) (v_threads w) (snd w0) }.
(** The places of a result. *)
Definition result_refs (o : out kres) : list nat :=
  match o with Ret (KHdr x) => [h_ref x] | Ret (KPkt p) => map h_ref (p_hdrs p) | _ => [] end.
(** The same thread made the same call, with the same result. *)
Definition same_end (e e0 : ended) : Prop :=
  let '(i, k, o) := e in let '(i0, k0, o0) := e0 in
  i0 = i /\ exists f : nat -> nat, k0 = rename_call f k /\ o0 = rename_out f o /\
  (forall r q, In r (args k ++ result_refs o) -> In q (args k ++ result_refs o) -> f r = f q -> r = q).
