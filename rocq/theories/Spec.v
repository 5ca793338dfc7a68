(** Spec.v -- what the properties mean, written without the model's functions.
    Only the data types of the model ([list N] for bytes, [field], [htype],
    [heap], [cell]) are used. *)

From Verif Require Import Base Layout Heap.
Open Scope N_scope.

(** ** Bits and integers in network order *)

(** The unsigned big-endian integer written by a byte string. *)
Fixpoint be (d : list N) : N :=
  match d with
  | [] => 0
  | b :: t => b * 256 ^ N.of_nat (length t) + be t
  end.

(** Bit [i] of a buffer in network order: bit 0 is the most significant bit of
    byte 0. *)
Definition bit (d : list N) (i : nat) : bool :=
  N.testbit (nth (i / 8) d 0) (N.of_nat (7 - i mod 8)).

(** The unsigned integer in bits [s..=e] of a buffer: drop the bits after [e],
    keep [e-s+1] bits. *)
Definition bits_val (d : list N) (s e : nat) : N :=
  be d / 2 ^ N.of_nat (8 * length d - 1 - e) mod 2 ^ N.of_nat (e - s + 1).

Definition field_val (d : list N) (f : field) : N := bits_val d (f_start f) (f_end f).

(** A field declaration Rust accepts ([end - start] is checked at compile time
    by [$field_size], headers.rs:378-380) and that lies in a buffer of [n] bytes. *)
Definition field_in (f : field) (n : nat) : Prop :=
  (f_start f <= f_end f)%nat /\ (f_end f < 8 * n)%nat.

(** The bits of a buffer can be counted with a [usize] (of 64 bits): no machine
    has more than 2^57 bytes. *)
Definition addressable (d : list N) : Prop := N.of_nat (length d) < 2 ^ 61.

Definition disjoint (f g : field) : Prop :=
  (f_end f < f_start g)%nat \/ (f_end g < f_start f)%nat.

(** ** Packet diagrams: a list of (width in bits, value), first is most significant *)
Notation "w # v" := (@pair nat N w%nat v%N) (at level 60, no associativity).
Definition widths (l : list (nat * N)) : nat := list_sum (map fst l).
Fixpoint pack (l : list (nat * N)) : N :=
  match l with
  | [] => 0
  | (w, v) :: t => v * 2 ^ N.of_nat (widths t) + pack t
  end.
(** The values fit their widths, so a diagram determines its values. *)
Definition fits (l : list (nat * N)) : Prop :=
  Forall (fun p => snd p < 2 ^ N.of_nat (fst p)) l.
(** A byte string is the diagram [l]. *)
Definition diagram (d : list N) (l : list (nat * N)) : Prop :=
  bytes_ok d /\ (8 * length d = widths l)%nat /\ fits l /\ be d = pack l.

(** ** The Internet checksum (RFC 1071) *)

(** One's complement addition of 16-bit words: the carry is added back in. *)
Definition oc_add (a b : N) : N := if a + b <? 65536 then a + b else a + b - 65535.

(** The 16-bit words of a byte string (a trailing odd byte is padded with 0). *)
Fixpoint words (d : list N) : list N :=
  match d with
  | a :: b :: t => (a * 256 + b) :: words t
  | [a] => [a * 256]
  | [] => []
  end.
(** The plain (unbounded) sum of words. *)
Definition plain_sum (l : list N) : N := fold_right N.add 0 l.
(** Folding a sum into 16 bits carries out once more. *)
Definition carries (s : N) : Prop := 65536 <= s / 65536 + s mod 65536.
Definition oc_sum (l : list N) : N := fold_right oc_add 0 l.
(** RFC 1071 section 1 (3): the sum over the header including the checksum is all ones. *)
Definition checksum_ok (d : list N) : Prop := oc_sum (words d) = 65535.
(** The header with the checksum field (bytes 10 and 11) taken as zero. *)
Definition zero_checksum (d : list N) : list N := firstn 10 d ++ [0; 0] ++ skipn 12 d.
(** RFC 791: complement of the one's complement sum with the checksum field zero. *)
Definition rfc_checksum (d : list N) : N := 65535 - oc_sum (words (zero_checksum d)).

(** ** Address texts *)

Definition is_digit (radix : N) (c : ascii) (v : N) : Prop :=
  v < radix /\
  ((exists k, k < 10 /\ v = k /\ N_of_ascii c = 48 + k) \/            (* 0-9 *)
   (exists k, k < 26 /\ v = 10 + k /\ N_of_ascii c = 97 + k) \/       (* a-z *)
   (exists k, k < 26 /\ v = 10 + k /\ N_of_ascii c = 65 + k)).        (* A-Z *)

(** [numeral radix s v]: [s] is a (possibly empty) digit string of value [v]. *)
Inductive numeral (radix : N) : string -> N -> Prop :=
| Num_nil : numeral radix EmptyString 0
| Num_cons c t v w : is_digit radix c v -> numeral radix t w ->
    numeral radix (String c t) (v * radix ^ N.of_nat (String.length t) + w).

(** [octet radix s v]: [s] is an optional '+' and at least one digit, with a
    value below 256. *)
Definition octet (radix : N) (s : string) (v : N) : Prop :=
  v < 256 /\
  ((s <> EmptyString /\ numeral radix s v) \/
   (exists t, s = String "+"%char t /\ t <> EmptyString /\ numeral radix t v)).

(** What a part of an address contributes: its value, or 0 if it has none. *)
Definition part_val (radix : N) (s : string) (v : N) : Prop :=
  octet radix s v \/ ((forall w, ~ octet radix s w) /\ v = 0).

(** Parts joined by a separator. *)
Fixpoint join (sep : ascii) (l : list string) : string :=
  match l with
  | [] => EmptyString
  | [p] => p
  | p :: t => p ++ String sep (join sep t)
  end.
Fixpoint char_in (c : ascii) (s : string) : Prop :=
  match s with
  | EmptyString => False
  | String a t => a = c \/ char_in c t
  end.

(** [addr_text sep radix n s b]: [s] is 1 to [n] parts joined by [sep], and [b] their
    values padded with zeros to [n] octets. *)
Definition addr_text (sep : ascii) (radix : N) (n : nat) (s : string) (b : list N) : Prop :=
  exists parts vals,
    s = join sep parts /\ parts <> [] /\ Forall (fun p => ~ char_in sep p) parts /\
    Forall2 (part_val radix) parts vals /\ (length vals <= n)%nat /\
    b = vals ++ repeat 0 (n - length vals).
(** [s] has more than [n] parts. *)
Definition addr_too_long (sep : ascii) (n : nat) (s : string) : Prop :=
  exists parts, s = join sep parts /\ Forall (fun p => ~ char_in sep p) parts /\ (n < length parts)%nat.

Definition mac_text := addr_text ":"%char 16 6.
Definition ipv4_text := addr_text "."%char 10 4.

(** Usual printed forms of an octet: two hexadecimal digits, decimal without leading zeros. *)
Definition digit_char (v : N) : ascii := ascii_of_N (if v <? 10 then 48 + v else 87 + v).
Definition hex2 (b : N) : string :=
  String (digit_char (b / 16)) (String (digit_char (b mod 16)) EmptyString).
Definition dec (b : N) : string :=
  if b <? 10 then String (digit_char b) EmptyString
  else if b <? 100 then String (digit_char (b / 10)) (String (digit_char (b mod 10)) EmptyString)
  else String (digit_char (b / 100))
         (String (digit_char (b / 10 mod 10)) (String (digit_char (b mod 10)) EmptyString)).

(** ** States of the buffers *)

(** Buffer [r] holds [d] and is not poisoned. *)
Definition cell_at (h : heap) (r : nat) (d : list N) : Prop := nth_error h r = Some (Cell d false).
(** Buffer [r] is poisoned. *)
Definition poisoned_at (h : heap) (r : nat) : Prop := exists d, nth_error h r = Some (Cell d true).
(** All buffers hold bytes (in Rust this is the type [Vec<u8>]). *)
Definition heap_ok (h : heap) : Prop := Forall (fun c => bytes_ok (c_data c)) h.
(** Nothing but buffer [r] differs. *)
Definition only_changes (r : nat) (h h' : heap) : Prop :=
  length h' = length h /\ forall q, q <> r -> nth_error h' q = nth_error h q.
