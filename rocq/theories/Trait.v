(** Trait.v -- the rest of what [make_header!] generates: the constants of each
    field, the [Header] trait as a table of methods for both kinds of header, and
    the printed diagnostics. (src/headers.rs:37-56, 268-296, 375-391, 455-511;
    src/packet.rs:221-259, 340-358.) *)

From Verif Require Import Base Bits Layout Heap Packet Slow Fast Show.
Open Scope N_scope.

(** ** Constants of a field *)

(** headers.rs:376-380 [X::$field_size]. *)
Definition field_size (f : field) : nat := (f_end f - f_start f + 1)%nat.
(** headers.rs:381-385 [X::$field_lsb]. *)
Definition field_lsb (f : field) : nat := f_start f.
(** headers.rs:386-390 [X::$field_msb]. *)
Definition field_msb (f : field) : nat := f_end f.

(** headers.rs:366-368 [X::size] and 212-214 [XSlice::size]. *)
Definition size_of (T : htype) : nat := ht_size T.

(** ** [dyn Header] *)

(** A [Box<dyn Header>] holds an owned header ([Owned]) or an [XSlice]
    ([Borrowed], with the bytes of its slice); headers.rs:37-56. *)

(** [name]: headers.rs:498-500 owned, 284-286 borrowed. *)
Definition d_name (a : any_header) : string :=
  match a with Owned x => hname x | Borrowed T _ => ht_name T end.
(** [len]: headers.rs:501-503 owned, 287-289 borrowed. *)
Definition d_len (a : any_header) : nat :=
  match a with Owned x => hlen x | Borrowed T _ => ht_size T end.
(** [show]: headers.rs:483-485 owned, 269-271 borrowed. *)
Definition d_show (m : mode) (a : any_header) : M string :=
  match a with
  | Owned x => hshow m x
  | Borrowed T d => lift (sshow m (SHdr T (v_all d)))
  end.
(** [to_vec]: headers.rs:486-488 owned, 272-274 borrowed. *)
Definition d_to_vec (a : any_header) : M (list N) :=
  match a with Owned x => hto_vec x | Borrowed _ d => ret d end.
(** [as_slice]: headers.rs:489-491 owned, 275-277 borrowed. *)
Definition d_as_slice (a : any_header) : M (list N) :=
  match a with Owned _ => fail PUnimpl | Borrowed _ d => ret d end.
(** [clone]: headers.rs:492-494 owned, 278-280 borrowed. *)
Definition d_clone (a : any_header) : M any_header :=
  match a with
  | Owned x => mlet y := hclone x in ret (Owned y)
  | Borrowed _ _ => fail PUnimpl
  end.
(** [as_any] and [as_any_mut]: headers.rs:504-509 owned, 290-295 borrowed. *)
Definition d_as_any (a : any_header) : M hdr :=
  match a with Owned x => ret x | Borrowed _ _ => fail PUnimpl end.

(** headers.rs:464-481, [<&X>::from(&boxed)] and [<&mut X>::from(&mut boxed)]. *)
Definition d_downcast (T : htype) (a : any_header) : M hdr :=
  mlet x := d_as_any a in hdowncast T x.
(** headers.rs:455-463, [X::from(&boxed)]. *)
Definition d_from_boxed (T : htype) (a : any_header) : M hdr :=
  mlet x := d_as_any a in hfrom_boxed T x.

(** A slice header of the fast parser as a trait object. *)
Definition d_slice (x : shdr) : any_header := Borrowed (s_ty x) (sas_slice x).

(** packet.rs:733-740 [PacketSlice::to_vec] through the trait objects that are
    actually stored (lib.rs:137-140): [as_slice] of each, then the payload. *)
Fixpoint d_slices (l : list any_header) : M (list N) :=
  match l with
  | [] => ret []
  | a :: t => mlet v := d_as_slice a in mlet r := d_slices t in ret (v ++ r)
  end.

(** ** Printed diagnostics *)

(** packet.rs:228, 257: the [Err] text of [get_header] and [get_header_mut]. *)
Definition get_header_text (T : htype) (p : packet) (name : string) : hdr + string :=
  match get_header T p name with
  | Some x => inl x
  | None => inr (name ++ " header not found")%string
  end.

Definition fmt_usize (n : nat) : string := fmt_num 10 (N.of_nat n).

(** packet.rs:340-358: the line [compare_with_slice] prints, with its result. *)
Definition compare_text (p : packet) (b : list N) : M (bool * string) :=
  let pktlen := pkt_len p in
  if negb (pktlen =? length b)%nat then
    ret (false, ("this " ++ fmt_usize pktlen ++ " other " ++ fmt_usize (length b) ++ newline)%string)
  else
    mlet a := to_vec p in
    let mt := matching a b in
    if negb (pktlen =? mt)%nat || negb (length b =? mt)%nat then
      ret (false, ("this " ++ fmt_usize pktlen ++ " other " ++ fmt_usize (length b) ++
                   ", matching upto " ++ fmt_usize mt ++ " bytes" ++ newline)%string)
    else ret (true, EmptyString).
