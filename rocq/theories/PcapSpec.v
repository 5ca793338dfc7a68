(** PcapSpec.v -- what C77 says: the capture file format (libpcap, pcap-savefile(5)), little-endian with microseconds. *)

From Verif Require Import Base.
Open Scope N_scope.

(** The number that bytes denote, least significant first. *)
Fixpoint le (b : list N) : N := match b with [] => 0 | x :: t => x + 256 * le t end.

Record capture := Capture { c_sec : N; c_usec : N; c_orig_len : N; c_bytes : list N }.

(** Records up to the end of the file. *)
Inductive captures : list N -> list capture -> Prop :=
| Cap_end : captures [] []
| Cap_one sec usec incl orig bytes rest l :
    length sec = 4%nat -> length usec = 4%nat -> length incl = 4%nat -> length orig = 4%nat -> N.of_nat (length bytes) = le incl ->
    captures rest l ->
    captures (sec ++ usec ++ incl ++ orig ++ bytes ++ rest) (Capture (le sec) (le usec) (le orig) bytes :: l).

(** A capture file: longest record and link type (1 is Ethernet) that it announces, and its records. *)
Inductive pcap : list N -> N -> N -> list capture -> Prop :=
| Pcap magic major minor zone figures snap link rest l :
    length magic = 4%nat -> length major = 2%nat -> length minor = 2%nat -> length zone = 4%nat -> length figures = 4%nat ->
    length snap = 4%nat -> length link = 4%nat ->
    le magic = 0xa1b2c3d4 -> le major = 2 -> le minor = 4 -> captures rest l ->
    pcap (magic ++ major ++ minor ++ zone ++ figures ++ snap ++ link ++ rest) (le snap) (le link) l.

(** The records of packets written at one time. *)
Definition stamped (sec usec : N) (packets : list (list N)) : list capture :=
  map (fun p => Capture sec usec (N.of_nat (length p)) p) packets.
(** How many bytes they take. *)
Definition file_length (packets : list (list N)) : nat := (24 + list_sum (map (fun p => 16 + length p) packets))%nat.
(** The time a record claims, in microseconds since the epoch. *)
Definition stamp (c : capture) : N := 1000000 * c_sec c + c_usec c.
