(** Pipe.v -- standard output that fails. [print!] and [println!] panic when a write
    fails (std, [print_to]), for example when standard output is a pipe whose reader has
    gone. No lock of the crate is held then: every [print!] of the crate
    (headers.rs:224-250, 397-423; packet.rs:20-58, 340-376, 744-760) evaluates its
    arguments, and with them the guard in [bit_range] (headers.rs:304-314), before it
    writes. The panic is caught and the program goes on. Of the text of the write that
    fails some part may have been written. Buffering by std is not modelled: [pw_out]
    is what was handed over to std. *)

From Verif Require Import Base Bits Types Layout Heap Packet Ops Client Threads TPrint.

(** The [print!] that thread [i] is about to do fails after [n] bytes. *)
Definition pfail (w : pworld) (i n : nat) : option pworld :=
  match nth_error (pw_threads w) i with
  | Some (PBusy k own said (QRun (QSay s q))) =>
      Some (PW (pw_client w) (upd (pw_threads w) i PIdle) (pw_out w ++ emit i (String.substring 0 n s)))
  | _ => None
  end.

(** A call alone, when the first [n] writes succeed and no other: the texts written, the
    outcome ([None]: cut off by a write that failed), the buffers. *)
Fixpoint qcut {A} (n : nat) (p : pact A) (h : heap) : list string * option (out A) * heap :=
  let on {B} (o : out B * heap) (k : B -> heap -> list string * option (out A) * heap) :=
    match o with
    | (Ret b, h') => k b h'
    | (Panic e, h') => ([], Some (Panic e), h')
    | (UB, h') => ([], Some UB, h')
    | (Hang, h') => ([], Some Hang, h')
    | (Fuel, h') => ([], Some Fuel, h')
    end in
  match p with
  | QDone o => ([], Some o, h)
  | QSay s k =>
      match n with
      | O => ([], None, h)
      | S n' => let '(l, o, h') := qcut n' k h in (s :: l, o, h')
      end
  | QAlloc d k => on (alloc d h) (fun r h' => qcut n (k r) h')
  | QRead r i k => on (with_lock r (fun d => (index d i, d)) h) (fun b h' => qcut n (k b) h')
  | QWrite r i v k => on (with_lock r (fun d => set_bit_step d i v) h) (fun _ h' => qcut n k h')
  | QCopy r k => on (with_lock r (fun d => (Ret d, d)) h) (fun d h' => qcut n (k d) h')
  | QRepl x o k => on (hreplace (Hdr Tester x) (Hdr Tester o) h) (fun _ h' => qcut n k h')
  end.
