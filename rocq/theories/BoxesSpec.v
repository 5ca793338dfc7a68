(** BoxesSpec.v -- what C85 says of packets that hold any header. *)

From Verif Require Import Base Bits Layout Heap Packet Fast Show Trait Ops Client ClientSpec Boxes.
Open Scope N_scope.

(** The methods [l] are called one after the other and all return. *)
Inductive in_turn {A} : list (M A) -> heap -> list A -> heap -> Prop :=
| Turn_none h : in_turn [] h [] h
| Turn_next f l h a h1 r h2 : f h = (Ret a, h1) -> in_turn l h1 r h2 -> in_turn (f :: l) h (a :: r) h2.

(** They do not end in the same way unless neither returns. *)
Definition ends_alike {A B} (o : out A) (o' : out B) : Prop :=
  match o, o' with
  | Panic e, Panic e' => e = e'
  | UB, UB | Hang, Hang | Fuel, Fuel => True
  | _, _ => False
  end.
(** One of them does not return; those before it have, those after it are not called. *)
Definition stops {A B} (l : list (M A)) (h : heap) (o : out B) (h' : heap) : Prop :=
  exists before f after r h1 o1, l = before ++ f :: after /\ in_turn before h r h1 /\ f h1 = (o1, h') /\ ends_alike o1 o.

(** Calling [l] in turn and making [g] of the results. *)
Definition turns {A B} (x : M B) (l : list (M A)) (g : list A -> B) : Prop :=
  forall h h', (forall b, x h = (Ret b, h') <-> exists r, in_turn l h r h' /\ b = g r) /\
    (forall o, (forall b, o <> Ret b) -> (x h = (o, h') <-> stops l h o h')).

(** A packet as Packet.v has it. *)
Definition own (p : packet) : bpacket := BP (map BOwn (p_hdrs p)) (p_payload p).
Definition into {A B} (g : A -> B) (x : M A) (y : M B) : Prop :=
  forall h, y h = (match fst (x h) with Ret a => Ret (g a) | Panic e => Panic e | UB => UB | Hang => Hang | Fuel => Fuel end,
                   snd (x h)).

Definition is_slice (b : boxed) : Prop := exists T d, b = BSlice T d.
Definition is_user (b : boxed) : Prop := match b with BUser _ _ _ _ _ _ _ => True | _ => False end.
(** The first header of that name. *)
Definition first_named (name : string) (l before : list boxed) (x : boxed) (after : list boxed) : Prop :=
  l = before ++ x :: after /\ b_name x = name /\ Forall (fun y => b_name y <> name) before.
(** [f] comes back from every state in [I], and to one in [I]. *)
Definition keeps {A} (I : heap -> Prop) (f : M A) : Prop := forall h, I h -> comes_back (fst (f h)) /\ I (snd (f h)).
