(** Text.v -- model of [ConvertToBytes] (src/packet.rs:12-59) and of the std
    functions it uses. A Rust [&str] is a Coq [string] of bytes (every UTF-8
    string is one). The error messages printed are in Print.v. *)

From Verif Require Import Base Types.
Open Scope N_scope.

(** [(c as char).to_digit(radix)] for radix 10 and 16 (std). *)
Definition to_digit (radix : N) (c : ascii) : option N :=
  let n := N_of_ascii c in
  let d :=
    if (48 <=? n) && (n <=? 57) then Some (n - 48)            (* '0'..'9' *)
    else if (97 <=? n) && (n <=? 122) then Some (n - 97 + 10)  (* 'a'..'z' *)
    else if (65 <=? n) && (n <=? 90) then Some (n - 65 + 10)   (* 'A'..'Z' *)
    else None in
  match d with
  | Some v => if v <? radix then Some v else None
  | None => None
  end.

(** The digit loop of [u8::from_str_radix] (std): [checked_mul], [to_digit],
    [checked_add]; [None] is any [Err]. *)
Fixpoint digits_loop (radix : N) (s : string) (acc : N) : option N :=
  match s with
  | EmptyString => Some acc
  | String c t =>
      let mul := acc * radix in
      if 256 <=? mul then None
      else
        match to_digit radix c with
        | None => None
        | Some x => if 256 <=? mul + x then None else digits_loop radix t (mul + x)
        end
  end.

(** [u8::from_str_radix] (std): empty is an error; one leading '+' is allowed but
    a lone sign is an error; '-' is not a digit of an unsigned type. *)
Definition from_str_radix (radix : N) (s : string) : option N :=
  match s with
  | EmptyString => None
  | String c EmptyString =>
      if (N_of_ascii c =? 43) || (N_of_ascii c =? 45) then None
      else digits_loop radix s 0
  | String c t => if N_of_ascii c =? 43 then digits_loop radix t 0 else digits_loop radix s 0
  end.

(** [str::split] on one ASCII character: always at least one part. *)
Fixpoint split (sep : ascii) (s : string) : list string :=
  match s with
  | EmptyString => [EmptyString]
  | String c t =>
      if Ascii.eqb c sep then EmptyString :: split sep t
      else
        match split sep t with
        | [] => [String c EmptyString]
        | p :: ps => String c p :: ps
        end
  end.

(** packet.rs:22-31 and 37-46: [for (i, v) in parts.enumerate() { a[i] = .. }]. *)
Fixpoint fill (radix : N) (parts : list string) (i : nat) (a : list N) : out (list N) :=
  match parts with
  | [] => Ret a
  | v :: t =>
      let x := match from_str_radix radix v with Some x => x | None => 0 end in
      olet _ := index a i in
      fill radix t (S i) (upd a i x)
  end.

(** packet.rs:20-33 [to_mac_bytes]. *)
Definition to_mac_bytes (s : string) : out (list N) :=
  fill 16 (split ":"%char s) 0 (repeat 0 MAC_LEN).

(** packet.rs:35-48 [to_ipv4_bytes]. *)
Definition to_ipv4_bytes (s : string) : out (list N) :=
  fill 10 (split "."%char s) 0 (repeat 0 IPV4_LEN).

(** packet.rs:49-58 [to_ipv6_bytes]. [Ipv6Addr::from_str(..)] followed by
    [octets()] is std code: it is the argument [ip6]. *)
Definition to_ipv6_bytes (ip6 : string -> option (list N)) (s : string) : list N :=
  match ip6 s with
  | Some o => o
  | None => repeat 0 IPV6_LEN
  end.
