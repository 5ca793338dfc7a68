(** SessionSpec.v -- what C91 says a packet is after any sequence of packet and header calls. *)

From Verif Require Import Base Bits Layout Heap Packet Ops Spec EditsSpec.
Open Scope N_scope.

(** A statement of a program that edits the packet [p]. *)
Inductive pcall :=
| C_hdr (o : hop)                 (* a method of any header *)
| C_push (a : any_header)         (* p.push(a) *)
| C_insert (a : any_header)       (* p.insert(a) *)
| C_pop                           (* p.pop() *)
| C_remove (i : nat)              (* p.remove(i) *)
| C_payload (d : list N)          (* p.set_payload(d) *)
| C_add (q : packet)              (* p = p + q *)
| C_clone.                        (* p = p.clone() *)

(** Running it on the model. A call that does not return does not assign [p]. *)
Definition assign (p : packet) (x : M packet) (h : heap) : bool * (packet * heap) :=
  match x h with
  | (Ret q, h') => (true, (q, h'))
  | (_, h') => (false, (p, h'))
  end.
Definition pcall_run (m : mode) (c : pcall) (p : packet) (h : heap) : bool * (packet * heap) :=
  match c with
  | C_hdr o => let (r, h') := hexec m o h in (returned r, (p, h'))
  | C_push a => assign p (push_any p a) h
  | C_insert a => assign p (insert_any p a) h
  | C_pop => (true, (pop p, h))
  | C_remove i => (true, (remove p i, h))
  | C_payload d => (true, (set_payload p d, h))
  | C_add q => assign p (pkt_add p q) h
  | C_clone => assign p (pkt_clone p) h
  end.
Fixpoint session (m : mode) (cs : list pcall) (p : packet) (h : heap) : list bool * (packet * heap) :=
  match cs with
  | [] => ([], (p, h))
  | c :: t =>
      let '(b, (p1, h1)) := pcall_run m c p h in
      let '(bs, s) := session m t p1 h1 in (b :: bs, s)
  end.

(** The statements with whether they returned, latest first. *)
Definition deeds (cs : list pcall) (bs : list bool) : list (pcall * bool) := rev (combine cs bs).
(** Those that are header calls. *)
Fixpoint hdeeds (past : list (pcall * bool)) : list event :=
  match past with
  | [] => []
  | (C_hdr o, b) :: t => (o, b) :: hdeeds t
  | _ :: t => hdeeds t
  end.

(** The headers of the packet, first to last. *)
Fixpoint stack (l0 : list hdr) (past : list (pcall * bool)) : list hdr :=
  match past with
  | [] => l0
  | (C_push (Owned x), _) :: t => stack l0 t ++ [x]
  | (C_insert (Owned x), _) :: t => x :: stack l0 t
  | (C_pop, _) :: t => firstn (length (stack l0 t) - 1) (stack l0 t)
  | (C_remove i, _) :: t => firstn i (stack l0 t) ++ skipn (S i) (stack l0 t)
  | (C_add q, _) :: t => stack l0 t ++ p_hdrs q
  | _ :: t => stack l0 t
  end.
(** Its payload. *)
Fixpoint load (d0 : list N) (past : list (pcall * bool)) : list N :=
  match past with
  | [] => d0
  | (C_payload d, _) :: t => load d0 t ++ d
  | _ :: t => load d0 t
  end.

(** The byte with the bits [f 0] (highest) to [f 7]. *)
Definition octet (f : nat -> bool) : N := fold_left (fun a k => 2 * a + b2n (f k)) (seq 0 8) 0.
(** The bytes of buffer [r] after the header calls [past]. *)
Definition bytes_now (h : heap) (past : list event) (r : nat) : list N :=
  map (fun i => octet (fun k => now h past r (8 * i + k))) (seq 0 (size h past r)).
(** What goes on the wire. *)
Definition wire (p0 : packet) (h : heap) (past : list (pcall * bool)) : list N :=
  flat_map (fun x => bytes_now h (hdeeds past) (h_ref x)) (stack (p_hdrs p0) past) ++ load (p_payload p0) past.

Definition pcall_typed (c : pcall) : Prop := match c with C_hdr o => hop_typed o | _ => True end.
(** The call ended, by returning or with a panic; [x.replace(&x)] does not (C66). *)
Definition pcall_ends (cb : pcall * bool) : Prop :=
  match cb with (C_hdr (OReplace x y), false) => h_ref x <> h_ref y | _ => True end.

(** No buffer is poisoned. *)
Definition unpoisoned (h : heap) : Prop := Forall (fun c => c_poisoned c = false) h.
