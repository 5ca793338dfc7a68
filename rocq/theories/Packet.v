(** Packet.v -- model of [Packet] (src/lib.rs:129-134, src/packet.rs:61-260,
    309-404). *)

From Verif Require Import Base Bits Layout Heap.
Open Scope N_scope.

(** lib.rs:131-134. The [Box<dyn Header>]s are owned headers: see [push] below. For
    other ones, which can be assigned to [pkt[name]], see Boxes.v. *)
Record packet := Pkt { p_hdrs : list hdr; p_payload : list N }.

(** packet.rs:311-316 [Packet::new]. *)
Definition pkt_new : packet := Pkt [] [].

(** The argument of [push]/[insert] is [impl Header]: an owned header, or a
    borrowed [XSlice] (which also implements [Header], headers.rs:268-296). *)
Inductive any_header := Owned (x : hdr) | Borrowed (T : htype) (d : list N).

(** [Header::to_owned] (headers.rs:495-497 owned, 281-283 borrowed). *)
Definition to_owned (a : any_header) : M hdr :=
  match a with
  | Owned x => ret x
  | Borrowed _ _ => fail PUnimpl
  end.

(** packet.rs:117-119 [push]. *)
Definition push_any (p : packet) (a : any_header) : M packet :=
  mlet x := to_owned a in ret (Pkt (p_hdrs p ++ [x]) (p_payload p)).
(** packet.rs:129-131 [insert]. *)
Definition insert_any (p : packet) (a : any_header) : M packet :=
  mlet x := to_owned a in ret (Pkt (x :: p_hdrs p) (p_payload p)).

(** [push] and [insert] of an owned header. *)
Definition push (p : packet) (x : hdr) : M packet := push_any p (Owned x).
Definition insert (p : packet) (x : hdr) : M packet := insert_any p (Owned x).

(** [Vec::pop] drops the last element; [removelast] is the same on non-empty lists. *)
(** packet.rs:143-147 [pop]. *)
Definition pop (p : packet) : packet :=
  if (length (p_hdrs p) =? 0)%nat then p
  else Pkt (removelast (p_hdrs p)) (p_payload p).

(** [Vec::remove(i)] for [i < len]. *)
Fixpoint remove_nth {A} (i : nat) (l : list A) : list A :=
  match l, i with
  | [], _ => []
  | _ :: t, O => t
  | x :: t, S i' => x :: remove_nth i' t
  end.
(** packet.rs:160-164 [remove]. *)
Definition remove (p : packet) (i : nat) : packet :=
  if negb (length (p_hdrs p) =? 0)%nat && (i <? length (p_hdrs p))%nat
  then Pkt (remove_nth i (p_hdrs p)) (p_payload p)
  else p.

(** packet.rs:179-181 [set_payload]: [extend_from_slice]. *)
Definition set_payload (p : packet) (pl : list N) : packet :=
  Pkt (p_hdrs p) (p_payload p ++ pl).
(** packet.rs:197-199 [payload]. *)
Definition payload (p : packet) : list N := p_payload p.

(** [iter().find(|x| x.name() == index)]. *)
Fixpoint find_name (name : string) (l : list hdr) : option hdr :=
  match l with
  | [] => None
  | x :: t => if String.eqb (hname x) name then Some x else find_name name t
  end.

(** packet.rs:61-73 [pkt[name]], both [Index] and [IndexMut]. *)
Definition index_name (p : packet) (name : string) : M hdr :=
  match find_name name (p_hdrs p) with
  | Some x => ret x
  | None => fail PUnwrap
  end.

(** packet.rs:221-230 [get_header::<T>] and 247-259 [get_header_mut::<T>]; [None]
    is [Err]. The result is the stored header itself (a reference into the packet). *)
Definition get_header (T : htype) (p : packet) (name : string) : option hdr :=
  match find_name name (p_hdrs p) with
  | Some x => if (ht_id T =? ht_id (h_ty x))%nat then Some x else None
  | None => None
  end.

(** packet.rs:385-392 [to_vec]. *)
Fixpoint concat_vecs (l : list hdr) : M (list N) :=
  match l with
  | [] => ret []
  | x :: t =>
      mlet v := hto_vec x in
      mlet rest := concat_vecs t in
      ret (v ++ rest)
  end.
Definition to_vec (p : packet) : M (list N) :=
  mlet r := concat_vecs (p_hdrs p) in ret (r ++ p_payload p).

(** packet.rs:402-404 [len]. *)
Definition pkt_len (p : packet) : nat :=
  (list_sum (map hlen (p_hdrs p)) + length (p_payload p))%nat.

(** The loops [for s in &hdrs { v.push(s.as_ref().clone()) }] of packet.rs:79-81
    and 395-397: [Header::clone], i.e. shared buffers. *)
Fixpoint clone_hdrs (l : list hdr) : M (list hdr) :=
  match l with
  | [] => ret []
  | x :: t =>
      mlet y := hclone x in
      mlet r := clone_hdrs t in
      ret (y :: r)
  end.

(** packet.rs:78-83 [Add for Packet]: the right payload is dropped. *)
Definition pkt_add (p other : packet) : M packet :=
  mlet hs := clone_hdrs (p_hdrs other) in
  ret (Pkt (p_hdrs p ++ hs) (p_payload p)).

(** packet.rs:86-90, 393-400 [clone] / [clone_me]. *)
Definition pkt_clone (p : packet) : M packet :=
  mlet hs := clone_hdrs (p_hdrs p) in
  ret (Pkt hs (p_payload p)).

(** [a.iter().zip(b).filter(|(a,b)| a == b).count()], packet.rs:347. *)
Fixpoint matching (a b : list N) : nat :=
  match a, b with
  | x :: a', y :: b' => ((if N.eqb x y then 1 else 0) + matching a' b')%nat
  | _, _ => O
  end.

(** packet.rs:340-358 [compare_with_slice] (the printed text is in Trait.v and Print.v). *)
Definition compare_with_slice (p : packet) (b : list N) : M bool :=
  let pktlen := pkt_len p in
  if negb (pktlen =? length b)%nat then ret false
  else
    mlet a := to_vec p in
    let mt := matching a b in
    if negb (pktlen =? mt)%nat || negb (length b =? mt)%nat then ret false
    else ret true.

(** packet.rs:326-329 [compare]. *)
Definition compare (p q : packet) : M bool :=
  mlet a := to_vec q in compare_with_slice p a.

(** packet.rs:98-101: one iteration, [chksum += msb as u32 | v[i+1] as u32]; the
    u32 addition panics on overflow in checked builds. *)
Definition add32 (m : mode) (a b : N) : out N :=
  if a + b <? 2 ^ 32 then Ret (a + b)
  else match m with Debug => Panic POverflow | Release => Ret (u32 (a + b)) end.

(** packet.rs:95-101, [for i in (0..v.len()).step_by(2)] with the skip at 10;
    [fuel] iterations left. *)
Fixpoint checksum_loop (m : mode) (v : list N) (i n : nat) (chksum : N) : out N :=
  match n with
  | O => Ret chksum
  | S n' =>
      if (i =? 10)%nat then checksum_loop m v (i + 2) n' chksum
      else
        olet a := index v i in
        let msb := shl16 a 8 in
        olet b := index v (i + 1) in
        olet c := add32 m chksum (N.lor msb b) in
        checksum_loop m v (i + 2) n' c
  end.

(** packet.rs:102-104, the [while] loop: [(chksum >> 16) + chksum & 0xFFFF] parses
    as [((chksum >> 16) + chksum) & 0xFFFF] ([+] binds tighter than [&]). The sum
    cannot overflow u32 unless chksum is near 2^32; modelled. *)
Fixpoint fold_loop (m : mode) (fuel : nat) (chksum : N) : out N :=
  match fuel with
  | O => Fuel
  | S f =>
      if N.shiftr chksum 16 =? 0 then Ret chksum
      else
        olet s := add32 m (N.shiftr chksum 16) chksum in
        fold_loop m f (N.land s 0xFFFF)
  end.

(** packet.rs:93-107 [Packet::ipv4_checksum]. [step_by(2)] over [0..len] makes
    ceil(len/2) iterations. Two rounds of fuel suffice for the [while]: after one
    round the value is below 2^16. [!(x as u16)] is [65535 - (x mod 2^16)]. *)
Definition ipv4_checksum (m : mode) (v : list N) : out N :=
  olet c := checksum_loop m v 0 ((length v + 1) / 2) 0 in
  olet c := fold_loop m 3 c in
  Ret (65535 - u16 c).
