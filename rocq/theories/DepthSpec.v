(** DepthSpec.v -- how deeply the calls of a parser nest (C95). Stated with the
    grammar alone; the recursion bound of the models is what it is compared to. *)

From Verif Require Import Base Layout Slow Spec Grammar.
Open Scope N_scope.

(** [nests f b n]: when [f] is called on [b], [n] calls are active at the deepest
    moment, the call of [f] included. A function that reads a header calls the
    function for what follows it, and waits for it; one that finds its header or
    options missing calls nothing; neither does the one that takes the payload. *)
Inductive nests : pfun -> list N -> nat -> Prop :=
| N_accept b : nests F_accept b 1
| N_no_type b : (length b < 14)%nat -> nests F_parse b 1
| N_parse b n :
    (14 <= length b)%nat ->
    nests (if be (sub b 12 2) <? 1500 then F_dot3 else F_ethernet) b n ->
    nests F_parse b (S n)
| N_no_header f T b : header_of f = Some T -> (length b < ht_size T)%nat -> nests f b 1
| N_no_options f T x rest :
    header_of f = Some T -> length x = ht_size T ->
    (length rest < list_sum (map ht_size (options f x)))%nat -> nests f (x ++ rest) 1
| N_no_peek f T x os rest :
    header_of f = Some T -> length x = ht_size T ->
    map (@length N) os = map ht_size (options f x) ->
    demux f x rest = None -> nests f (x ++ concat os ++ rest) 1
| N_header f T x os rest g n :
    header_of f = Some T -> length x = ht_size T ->
    map (@length N) os = map ht_size (options f x) ->
    demux f x rest = Some g -> nests g rest n -> nests f (x ++ concat os ++ rest) (S n).

(** The header types that have no function of their own. *)
Definition optional (T : htype) : bool :=
  existsb (fun U => ht_id U =? ht_id T)%nat [GREChksumOffset; GREKey; GRESequenceNum; ERSPANPLATFORM].

(** The depth that shows in a result: one call for each header that is not
    optional, one for the payload, and one for [parse] when that was called. *)
Definition shown (f : pfun) (ts : list htype) : nat :=
  (match f with F_parse => 2 | _ => 1 end + length (filter (fun T => negb (optional T)) ts))%nat.

(** The greatest depth of [parse] on [L] bytes: one call for [parse] and one for
    Ethernet, and then one for each four bytes that are left (VLAN tags), and one
    more. On 17 bytes an LLC header of three bytes does better. *)
Definition worst (L : nat) : nat :=
  if (L <? 14)%nat then 1 else if (L =? 17)%nat then 4 else ((L - 2) / 4)%nat.
