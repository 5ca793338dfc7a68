(** Ipv6.v -- the standard library's [Ipv6Addr::from_str] followed by [octets()], which
    packet.rs:50-52 calls. The source is not in /repo; this follows
    library/core/src/net/parser.rs (functions named in the comments). *)

From Verif Require Import Base Text.
Open Scope N_scope.

(** [Parser::read_number], the loop: the digits of a number below [bound] (the range of
    [u8] or [u16]), at most [maxd] of them; [None] is an early return. *)
Fixpoint num_loop (radix bound : N) (maxd : nat) (s : string) (result : N) (count : nat)
    : option (N * nat * string) :=
  match s with
  | EmptyString => Some (result, count, s)
  | String c t =>
      match to_digit radix c with
      | None => Some (result, count, s)
      | Some d =>
          if bound <=? result * radix then None            (* checked_mul *)
          else if bound <=? result * radix + d then None    (* checked_add *)
          else if (maxd <? S count)%nat then None
          else num_loop radix bound maxd t (result * radix + d) (S count)
      end
  end.
(** [Parser::read_number]: on [None] the position is restored. *)
Definition read_number (radix bound : N) (maxd : nat) (allow_zero_prefix : bool) (s : string)
    : option (N * string) :=
  let leading_zero := match s with String c _ => Ascii.eqb c "0" | EmptyString => false end in
  match num_loop radix bound maxd s 0 0 with
  | None => None
  | Some (v, count, rest) =>
      if (count =? 0)%nat then None
      else if negb allow_zero_prefix && leading_zero && (1 <? count)%nat then None
      else Some (v, rest)
  end.

(** [Parser::read_given_char]. *)
Definition read_char (c : ascii) (s : string) : option string :=
  match s with
  | String a t => if Ascii.eqb a c then Some t else None
  | EmptyString => None
  end.
(** [Parser::read_separator]: the separator is read unless this is the first item. *)
Definition read_separator {A} (sep : ascii) (first : bool) (inner : string -> option (A * string)) (s : string)
    : option (A * string) :=
  if first then inner s
  else match read_char sep s with Some t => inner t | None => None end.

(** [Parser::read_ipv4_addr]: four numbers, [read_number(10, Some(3), false)]. *)
Fixpoint read_octets (n : nat) (first : bool) (s : string) : option (list N * string) :=
  match n with
  | O => Some ([], s)
  | S n' =>
      match read_separator "." first (read_number 10 256 3 false) s with
      | None => None
      | Some (v, t) =>
          match read_octets n' false t with
          | None => None
          | Some (vs, r) => Some (v :: vs, r)
          end
      end
  end.
Definition read_ipv4 (s : string) : option (list N * string) := read_octets 4 true s.

(** [read_groups] of [Parser::read_ipv6_addr] with [n = limit - i] slots left, [first] iff
    [i = 0]: the groups read, whether they end in an IPv4 address, and the rest. *)
Fixpoint read_groups (n : nat) (first : bool) (s : string) : list N * bool * string :=
  match n with
  | O => ([], false, s)
  | S n' =>
      match (if (1 <=? n')%nat then read_separator ":" first read_ipv4 s else None) with
      | Some (o, r) =>
          ([256 * nth 0 o 0 + nth 1 o 0; 256 * nth 2 o 0 + nth 3 o 0], true, r)
      | None =>
          match read_separator ":" first (read_number 16 65536 4 true) s with
          | None => ([], false, s)
          | Some (g, t) =>
              let '(gs, v4, r) := read_groups n' false t in (g :: gs, v4, r)
          end
      end
  end.

(** [Parser::read_ipv6_addr]. *)
Definition read_ipv6 (s : string) : option (list N * string) :=
  let '(head, head_ipv4, r) := read_groups 8 true s in
  if (length head =? 8)%nat then Some (head, r)
  else if head_ipv4 then None
  else
    match read_char ":" r with
    | None => None
    | Some r1 =>
        match read_char ":" r1 with
        | None => None
        | Some r2 =>
            let '(tail, _, r3) := read_groups (8 - (length head + 1)) true r2 in
            Some (head ++ repeat 0 (8 - length head - length tail) ++ tail, r3)
        end
    end.

(** [Ipv6Addr::from_str] ([parse_with]: nothing may be left), then [octets()]. *)
Definition ipv6_from_str (s : string) : option (list N) :=
  match read_ipv6 s with
  | Some (gs, EmptyString) => Some (flat_map (fun g => [g / 256; g mod 256]) gs)
  | _ => None
  end.
