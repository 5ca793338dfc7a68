(** ShowSpec.v -- what [show] should print (C53), from the contents. *)

From Verif Require Import Base Layout Heap Spec.
Open Scope N_scope.

Definition nl : ascii := "010".
Fixpoint blanks (n : nat) : string := match n with O => EmptyString | S n' => String " " (blanks n') end.

(** The decimal numeral of [n] without leading zeros. *)
Definition decimal (s : string) (n : N) : Prop :=
  numeral 10 s n /\ s <> EmptyString /\ forall t, s = String "0" t -> t = EmptyString.

(** Two hexadecimal digits and a blank for each byte. *)
Fixpoint hexes (l : list N) : string :=
  match l with [] => EmptyString | b :: t => hex2 b ++ String " " (hexes t) end.

(** [groups w v s]: [s] shows the [w]-bit value [v]. Up to 8 bits: two digits. Whole octets:
    the octets. Otherwise: the octets of the top bits, then two digits for the last [w mod 8]
    bits *and the bit before them*. *)
Inductive groups (w : nat) (v : N) : string -> Prop :=
| G_small : (w <= 8)%nat -> groups w v (hex2 v)
| G_octets l : (8 < w)%nat -> (w mod 8 = 0)%nat -> length l = (w / 8)%nat -> bytes_ok l -> be l = v ->
    groups w v (hexes l)
| G_rest l : (8 < w)%nat -> (w mod 8 <> 0)%nat -> length l = (w / 8)%nat -> bytes_ok l ->
    be l = v / 2 ^ N.of_nat (w mod 8) ->
    groups w v (hexes l ++ hex2 (v mod 2 ^ N.of_nat (S (w mod 8)))).

(** One line: name, width, value. *)
Definition field_line (d : list N) (f : field) (s : string) : Prop :=
  exists n g, decimal n (N.of_nat (f_width f)) /\ groups (f_width f) (field_val d f) g /\
    s = (f_name f ++ blanks (20 - String.length (f_name f)) ++ ": " ++
         blanks (4 - String.length n) ++ n ++ " : " ++ g ++ String nl EmptyString)%string.
(** The heading and a line for each field, in order. *)
Definition header_text (T : htype) (d : list N) (s : string) : Prop :=
  exists lines, Forall2 (field_line d) (ht_fields T) lines /\
    s = ("#### " ++ ht_name T ++ blanks (16 - String.length (ht_name T)) ++ " Size   Data" ++ String nl EmptyString ++
         "-------------------------------------------" ++ String nl EmptyString ++ String.concat "" lines)%string.

(** Bytes in rows of 16, each full row ended by a line break. *)
Inductive rows : list N -> string -> Prop :=
| R_last l : (length l < 16)%nat -> rows l (hexes l)
| R_full l t s : length l = 16%nat -> rows t s -> rows (l ++ t) (hexes l ++ String nl s).
(** The dump of a packet. *)
Definition raw_text (v : list N) (s : string) : Prop :=
  exists n r, decimal n (N.of_nat (length v)) /\ rows v r /\
    s = (String nl "#### raw " ++ n ++ " bytes ####" ++ String nl r ++ String nl EmptyString)%string.
