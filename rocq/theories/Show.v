(** Show.v -- model of the [show] methods: the text they print on success
    (headers.rs:224-250, 397-423; packet.rs:360-376, 744-760). Standard output
    is the returned string; what is printed before a panic is in Print.v. *)

From Verif Require Import Base Bits Layout Heap Packet Slow Fast.
Open Scope N_scope.

(** ** core::fmt, as far as it is used *)

Definition newline : string := String "010" EmptyString.
(** [x] copies of a character. *)
Fixpoint chars (c : ascii) (n : nat) : string :=
  match n with O => EmptyString | S n' => String c (chars c n') end.
(** [{:n}] of a text: padded on the right; of a number: on the left; [{:0n}]: zeros on the left. *)
Definition fmt_left (n : nat) (s : string) : string := s ++ chars " " (n - String.length s).
Definition fmt_right (c : ascii) (n : nat) (s : string) : string := chars c (n - String.length s) ++ s.
(** One digit: '0'..'9', 'a'..'z'. *)
Definition fmt_digit (v : N) : string :=
  String (ascii_of_N (if v <? 10 then 48 + v else 87 + v)) EmptyString.
(** The digits of a number, least significant last; [fuel] bounds their number. *)
Fixpoint fmt_digits (radix : N) (fuel : nat) (v : N) : string :=
  match fuel with
  | O => EmptyString
  | S f => if v <? radix then fmt_digit v else fmt_digits radix f (v / radix) ++ fmt_digit (v mod radix)
  end.
(** A number has at most as many digits as bits, and at least one. *)
Definition fmt_num (radix v : N) : string := fmt_digits radix (S (N.size_nat v)) v.
(** [{:02x}] of a u8. *)
Definition fmt_02x (v : N) : string := fmt_right "0" 2 (fmt_num 16 v).
(** [{:4}] of a usize. *)
Definition fmt_4 (v : nat) : string := fmt_right " " 4 (fmt_num 10 (N.of_nat v)).

(** ** Headers *)

(** headers.rs:398 (225). *)
Definition show_heading (T : htype) : string := "#### " ++ fmt_left 16 (ht_name T) ++ " Size   Data" ++ newline.
(** headers.rs:399 (226). *)
Definition show_rule : string := chars "-" 43 ++ newline.
(** The two heading lines. *)
Definition show_title (T : htype) : string := show_heading T ++ show_rule.
(** headers.rs:401 (228). *)
Definition show_label (f : field) : string :=
  fmt_left 20 (f_name f) ++ ": " ++ fmt_4 (f_width f) ++ " : ".

(** headers.rs:407-410 and 414-417, [for i in ($start..(d*8 + $start)).step_by(8)]. *)
Fixpoint hshow_octets (m : mode) (x : hdr) (i n : nat) : M string :=
  match n with
  | O => ret EmptyString
  | S n' =>
      mlet v := hbit_range m x (i + 7) i in
      mlet t := hshow_octets m x (i + 8) n' in
      ret (fmt_02x (u8 v) ++ " " ++ t)%string
  end.
(** headers.rs:402-420, one field. *)
Definition hshow_field (m : mode) (x : hdr) (f : field) : M string :=
  let w := f_width f in
  if (w <=? 8)%nat then
    mlet v := hbit_range m x (f_end f) (f_start f) in ret (fmt_02x (u8 v))
  else if (w mod 8 =? 0)%nat then hshow_octets m x (f_start f) (w / 8)
  else
    mlet t := hshow_octets m x (f_start f) (w / 8) in
    mlet v := hbit_range m x (f_end f) (f_end f - w mod 8) in
    ret (t ++ fmt_02x (u8 v))%string.
Fixpoint hshow_fields (m : mode) (x : hdr) (l : list field) : M string :=
  match l with
  | [] => ret EmptyString
  | f :: t =>
      mlet s := hshow_field m x f in
      mlet r := hshow_fields m x t in
      ret (show_label f ++ s ++ newline ++ r)%string
  end.
(** headers.rs:397-423 [X::show] (also [Header::show], 485-487). *)
Definition hshow (m : mode) (x : hdr) : M string :=
  mlet s := hshow_fields m x (ht_fields (h_ty x)) in ret (show_title (h_ty x) ++ s)%string.

(** headers.rs:224-250 [XSlice::show]: the same text with the borrowed [bit_range]. *)
Fixpoint sshow_octets (m : mode) (d : list N) (i n : nat) : out string :=
  match n with
  | O => Ret EmptyString
  | S n' =>
      olet v := get_bits m d (i + 7) i in
      olet t := sshow_octets m d (i + 8) n' in
      Ret (fmt_02x (u8 v) ++ " " ++ t)%string
  end.
Definition sshow_field (m : mode) (d : list N) (f : field) : out string :=
  let w := f_width f in
  if (w <=? 8)%nat then
    olet v := get_bits m d (f_end f) (f_start f) in Ret (fmt_02x (u8 v))
  else if (w mod 8 =? 0)%nat then sshow_octets m d (f_start f) (w / 8)
  else
    olet t := sshow_octets m d (f_start f) (w / 8) in
    olet v := get_bits m d (f_end f) (f_end f - w mod 8) in
    Ret (t ++ fmt_02x (u8 v))%string.
Fixpoint sshow_fields (m : mode) (d : list N) (l : list field) : out string :=
  match l with
  | [] => Ret EmptyString
  | f :: t =>
      olet s := sshow_field m d f in
      olet r := sshow_fields m d t in
      Ret (show_label f ++ s ++ newline ++ r)%string
  end.
Definition sshow (m : mode) (x : shdr) : out string :=
  olet s := sshow_fields m (v_bytes (s_view x)) (ht_fields (s_ty x)) in Ret (show_title (s_ty x) ++ s)%string.

(** ** Packets *)

(** packet.rs:366-374 (750-758): [x] counts up to 16. *)
Fixpoint dump_loop (v : list N) (x : nat) : string :=
  match v with
  | [] => EmptyString
  | i :: t =>
      let x := S x in
      if (x mod 16 =? 0)%nat then fmt_02x i ++ " " ++ newline ++ dump_loop t 0
      else fmt_02x i ++ " " ++ dump_loop t x
  end.
(** packet.rs:365-375 (749-759). *)
Definition show_raw (v : list N) : string :=
  newline ++ "#### raw " ++ fmt_num 10 (N.of_nat (length v)) ++ " bytes ####" ++ newline ++
  dump_loop v 0 ++ newline.

Fixpoint show_hdrs (m : mode) (l : list hdr) : M string :=
  match l with
  | [] => ret EmptyString
  | x :: t => mlet s := hshow m x in mlet r := show_hdrs m t in ret (s ++ r)%string
  end.
(** packet.rs:360-376 [Packet::show]. *)
Definition pkt_show (m : mode) (p : packet) : M string :=
  mlet s := show_hdrs m (p_hdrs p) in
  mlet v := to_vec p in
  ret (s ++ show_raw v)%string.

Fixpoint show_shdrs (m : mode) (l : list shdr) : out string :=
  match l with
  | [] => Ret EmptyString
  | x :: t => olet s := sshow m x in olet r := show_shdrs m t in Ret (s ++ r)%string
  end.
(** packet.rs:744-760 [PacketSlice::show]. *)
Definition ps_show (m : mode) (p : packet_slice) : out string :=
  olet s := show_shdrs m (ps_hdrs p) in Ret (s ++ show_raw (ps_to_vec p))%string.
