(** Boxes.v -- packets that hold any [Box<dyn Header>]. Packet.v stores owned headers
    only, because [push] and [insert] convert what they are given. But
    [pkt[name] = Box::new(..)] puts anything into a packet (packet.rs:69-73, [IndexMut]
    yields a [&mut Box<dyn Header>]): an [XSlice] of static bytes, or a type of the program
    that implements [Header] (headers.rs:37-56). Here the same functions are written
    over such packets.

    Text that is printed before a panic is left out, as in Show.v. *)

From Verif Require Import Base Bits Layout Heap Packet Fast Show Trait.
Open Scope N_scope.

(** What the box holds. A type of the program is whatever its methods do; [as_any]
    leads to one of the crate's headers or to something else ([None]). *)
Inductive boxed :=
| BOwn (x : hdr)
| BSlice (T : htype) (d : list N)
| BUser (name : string) (len : nat) (vec : M (list N)) (text : M string) (clone own : M boxed) (any : M (option hdr)).

(** The methods: headers.rs:482-511 owned, 268-296 borrowed. *)
Definition b_name (b : boxed) : string :=
  match b with BOwn x => hname x | BSlice T _ => ht_name T | BUser n _ _ _ _ _ _ => n end.
Definition b_len (b : boxed) : nat :=
  match b with BOwn x => hlen x | BSlice T _ => ht_size T | BUser _ n _ _ _ _ _ => n end.
Definition b_to_vec (b : boxed) : M (list N) :=
  match b with BOwn x => hto_vec x | BSlice _ d => ret d | BUser _ _ v _ _ _ _ => v end.
Definition b_show (m : mode) (b : boxed) : M string :=
  match b with
  | BOwn x => hshow m x
  | BSlice T d => lift (sshow m (SHdr T (v_all d)))
  | BUser _ _ _ s _ _ _ => s
  end.
Definition b_clone (b : boxed) : M boxed :=
  match b with
  | BOwn x => mlet y := hclone x in ret (BOwn y)
  | BSlice _ _ => fail PUnimpl
  | BUser _ _ _ _ c _ _ => c
  end.
Definition b_to_owned (b : boxed) : M boxed :=
  match b with BOwn x => ret (BOwn x) | BSlice _ _ => fail PUnimpl | BUser _ _ _ _ _ o _ => o end.
Definition b_any (b : boxed) : M (option hdr) :=
  match b with BOwn x => ret (Some x) | BSlice _ _ => fail PUnimpl | BUser _ _ _ _ _ _ a => a end.

(** lib.rs:131-134. *)
Record bpacket := BP { b_hdrs : list boxed; b_payload : list N }.

(** packet.rs:117-119 [push] and 129-131 [insert]. *)
Definition b_push (p : bpacket) (a : boxed) : M bpacket :=
  mlet x := b_to_owned a in ret (BP (b_hdrs p ++ [x]) (b_payload p)).
Definition b_insert (p : bpacket) (a : boxed) : M bpacket :=
  mlet x := b_to_owned a in ret (BP (x :: b_hdrs p) (b_payload p)).
(** packet.rs:143-147 [pop]. *)
Definition b_pop (p : bpacket) : bpacket :=
  if (length (b_hdrs p) =? 0)%nat then p else BP (removelast (b_hdrs p)) (b_payload p).
(** packet.rs:160-164 [remove]. *)
Definition b_remove (p : bpacket) (i : nat) : bpacket :=
  if negb (length (b_hdrs p) =? 0)%nat && (i <? length (b_hdrs p))%nat
  then BP (remove_nth i (b_hdrs p)) (b_payload p)
  else p.
(** packet.rs:179-181 [set_payload]. *)
Definition b_set_payload (p : bpacket) (d : list N) : bpacket := BP (b_hdrs p) (b_payload p ++ d).

(** packet.rs:61-73, [iter().find(..)] and [iter_mut().find(..)]: the place of the first
    header of that name. *)
Fixpoint place (name : string) (l : list boxed) : option nat :=
  match l with
  | [] => None
  | x :: t => if String.eqb (b_name x) name then Some O else option_map S (place name t)
  end.
Fixpoint put_at {A} (i : nat) (a : A) (l : list A) : list A :=
  match l, i with
  | [], _ => []
  | _ :: t, O => a :: t
  | x :: t, S j => x :: put_at j a t
  end.
(** [pkt[name]], packet.rs:64-66. *)
Definition b_index (p : bpacket) (name : string) : M boxed :=
  match option_map (fun i => nth_error (b_hdrs p) i) (place name (b_hdrs p)) with
  | Some (Some x) => ret x
  | _ => fail PUnwrap
  end.
(** [std::mem::replace(&mut pkt[name], a)], packet.rs:70-72: the packet and what was there
    before. [pkt[name] = a] drops the latter. *)
Definition b_replace (p : bpacket) (name : string) (a : boxed) : M (bpacket * boxed) :=
  mlet old := b_index p name in
  match place name (b_hdrs p) with
  | Some i => ret (BP (put_at i a (b_hdrs p)) (b_payload p), old)
  | None => fail PUnwrap
  end.
Definition b_assign (p : bpacket) (name : string) (a : boxed) : M bpacket :=
  mlet r := b_replace p name a in ret (fst r).
(** packet.rs:221-230 [get_header::<T>] and 247-259 [get_header_mut::<T>], for a header
    type of the crate; [None] is [Err]. *)
Definition b_get_header (T : htype) (p : bpacket) (name : string) : M (option hdr) :=
  match option_map (fun i => nth_error (b_hdrs p) i) (place name (b_hdrs p)) with
  | Some (Some b) =>
      mlet o := b_any b in
      ret (match o with Some x => if (ht_id T =? ht_id (h_ty x))%nat then Some x else None | None => None end)
  | _ => ret None
  end.
(** headers.rs:464-481, [<&T>::from(&pkt[name])]: [downcast_ref(..).unwrap()] or panic. *)
Definition b_downcast (T : htype) (b : boxed) : M hdr :=
  mlet o := b_any b in
  match o with Some x => hdowncast T x | None => fail PDowncast end.

(** packet.rs:385-392 [to_vec]. *)
Fixpoint b_vecs (l : list boxed) : M (list N) :=
  match l with
  | [] => ret []
  | b :: t => mlet v := b_to_vec b in mlet r := b_vecs t in ret (v ++ r)
  end.
Definition bp_to_vec (p : bpacket) : M (list N) :=
  mlet r := b_vecs (b_hdrs p) in ret (r ++ b_payload p).
(** packet.rs:402-404 [len]. *)
Definition bp_len (p : bpacket) : nat := (list_sum (map b_len (b_hdrs p)) + length (b_payload p))%nat.
(** packet.rs:79-81, 395-397. *)
Fixpoint b_clones (l : list boxed) : M (list boxed) :=
  match l with
  | [] => ret []
  | b :: t => mlet c := b_clone b in mlet r := b_clones t in ret (c :: r)
  end.
(** packet.rs:78-83 [add]. *)
Definition bp_add (p other : bpacket) : M bpacket :=
  mlet hs := b_clones (b_hdrs other) in ret (BP (b_hdrs p ++ hs) (b_payload p)).
(** packet.rs:393-400 [clone_me]. *)
Definition bp_clone (p : bpacket) : M bpacket :=
  mlet hs := b_clones (b_hdrs p) in ret (BP hs (b_payload p)).
(** packet.rs:340-358 [compare_with_slice] and 326-329 [compare]. *)
Definition bp_compare_slice (p : bpacket) (b : list N) : M bool :=
  let pktlen := bp_len p in
  if negb (pktlen =? length b)%nat then ret false
  else
    mlet a := bp_to_vec p in
    let mt := matching a b in
    if negb (pktlen =? mt)%nat || negb (length b =? mt)%nat then ret false
    else ret true.
Definition bp_compare (p q : bpacket) : M bool := mlet a := bp_to_vec q in bp_compare_slice p a.
(** packet.rs:360-376 [show]. *)
Fixpoint b_shows (m : mode) (l : list boxed) : M string :=
  match l with
  | [] => ret EmptyString
  | b :: t => mlet s := b_show m b in mlet r := b_shows m t in ret (s ++ r)%string
  end.
Definition bp_show (m : mode) (p : bpacket) : M string :=
  mlet s := b_shows m (b_hdrs p) in
  mlet v := bp_to_vec p in
  ret (s ++ show_raw v)%string.
