(** Pcap.v -- tests/pcap.rs: the capture file that the crate's tests write (called at tests/lib.rs:672).

    The file system is the one file [temp.pcap], absent or with contents. Opening and writing can fail; a failed write has written
    some of its bytes. Nobody else uses the file meanwhile. *)

From Verif Require Import Base.
Open Scope N_scope.

(** What the system answers: the time since the epoch (seconds, nanoseconds; none for a clock before 1970), whether the file can be
    opened, and for the n-th write how many bytes are written before it fails (none if it succeeds). *)
Record system := System { s_now : option (N * N); s_open : bool; s_write : nat -> option nat }.

(** [u32::to_le_bytes]. *)
Definition le4 (v : N) : list N := [v mod 256; v / 256 mod 256; v / 256 / 256 mod 256; v / 256 / 256 / 256 mod 256].

(** Writing at a position inside a file or at its end: the bytes there are replaced, what lies behind them stays. *)
Definition put (file : list N) (pos : nat) (data : list N) : list N :=
  firstn pos file ++ data ++ skipn (pos + length data) file.

(** [File::write_all(..).unwrap()], the [n]-th of a run: the file, the position and whether the program goes on. *)
Definition write_all (s : system) (n : nat) (file : list N) (pos : nat) (data : list N) : bool * list N * nat :=
  match s_write s n with
  | None => (true, put file pos data, (pos + length data)%nat)
  | Some k => (false, put file pos (firstn k data), pos)
  end.

(** pcap.rs:19-22. *)
Definition global_header : list N :=
  [0xd4; 0xc3; 0xb2; 0xa1; 0x2; 0x0; 0x4; 0x0; 0; 0; 0; 0; 0; 0; 0; 0; 0xff; 0xff; 0; 0; 1; 0; 0; 0].

(** pcap.rs:26-31, [pcap_header]. *)
Definition packet_header (tv_sec tv_usec : N) (packet : list N) : list N :=
  let plen := u32 (N.of_nat (length packet)) in
  le4 tv_sec ++ le4 tv_usec ++ le4 plen ++ le4 plen.

(** pcap.rs:25-36, the loop. *)
Fixpoint write_packets (s : system) (tv_sec tv_usec : N) (packets : list (list N)) (n : nat) (file : list N) (pos : nat)
    : out unit * list N :=
  match packets with
  | [] => (Ret tt, file)
  | packet :: t =>
      match write_all s n file pos (packet_header tv_sec tv_usec packet) with
      | (false, file, _) => (Panic PUnwrap, file)
      | (true, file, pos) =>
          match write_all s (S n) file pos packet with
          | (false, file, _) => (Panic PUnwrap, file)
          | (true, file, pos) => write_packets s tv_sec tv_usec t (S (S n)) file pos
          end
      end
  end.

(** pcap.rs:7-37 [pcap_write]. [OpenOptions] creates a missing file and does not truncate one that is there. *)
Definition pcap_write (s : system) (packets : list (list N)) (disk : option (list N)) : out unit * option (list N) :=
  match s_now s with
  | None => (Panic PUnwrap, disk)
  | Some (secs, nanos) =>
      let tv_sec := u32 secs in
      let tv_usec := u32 (nanos / 1000000) in
      if s_open s then
        let file := match disk with Some file => file | None => [] end in
        match write_all s 0 file 0 global_header with
        | (false, file, _) => (Panic PUnwrap, Some file)
        | (true, file, pos) => let (r, file) := write_packets s tv_sec tv_usec packets 1 file pos in (r, Some file)
        end
      else (Panic PUnwrap, disk)
  end.
