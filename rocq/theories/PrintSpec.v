(** PrintSpec.v -- what a call should print (C68). *)

From Verif Require Import Base Layout Heap Packet Spec ShowSpec Utils Client.
Open Scope N_scope.

(** ** Complaints about addresses *)

(** A part without its sign: one leading '+' that is followed by something. *)
Inductive unsigned : string -> string -> Prop :=
| U_plus t : t <> EmptyString -> unsigned (String "+" t) t
| U_plain s : (forall t, s = String "+" t -> t = EmptyString) -> unsigned s s.

(** [complaint radix s msg]: why [s] is not an octet. Reading from the left, the first thing
    that goes wrong is a character that is no digit, or a value that is too large. *)
Inductive complaint (radix : N) (s : string) : string -> Prop :=
| Cp_empty : s = EmptyString -> complaint radix s "cannot parse integer from empty string"
| Cp_digit p c t v :
    unsigned s (p ++ String c t) -> numeral radix p v -> v < 256 -> (forall w, ~ is_digit radix c w) ->
    complaint radix s "invalid digit found in string"
| Cp_large p t v :
    unsigned s (p ++ t) -> numeral radix p v -> 256 <= v ->
    complaint radix s "number too large to fit in target type".

(** What is printed for one part of the address [self]. *)
Inductive part_says (radix : N) (self part : string) : string -> Prop :=
| Ps_quiet v : octet radix part v -> part_says radix self part EmptyString
| Ps_line msg : complaint radix part msg ->
    part_says radix self part ("Error: " ++ msg ++ " - " ++ part ++ " in " ++ self ++ String nl EmptyString).

(** An address with room for [n] parts: every part in order; the part after the last one there is
    room for is still complained about, nothing behind it is looked at. *)
Definition addr_says (sep : ascii) (radix : N) (n : nat) (s text : string) : Prop :=
  exists parts lines,
    s = join sep parts /\ parts <> [] /\ Forall (fun p => ~ char_in sep p) parts /\
    Forall2 (part_says radix s) (firstn (S n) parts) lines /\ text = String.concat "" lines.

Inductive addr := A_mac (s : string) | A_ip4 (s : string) | A_ip6 (s : string).

Definition says (ip6 : string -> option (list N)) (a : addr) (text : string) : Prop :=
  match a with
  | A_mac s => addr_says ":" 16 6 s text
  | A_ip4 s => addr_says "." 10 4 s text
  | A_ip6 s => (ip6 s <> None /\ text = EmptyString) \/
      (ip6 s = None /\
       text = ("Error: invalid IPv6 address syntax - " ++ s ++ String nl EmptyString)%string)
  end.
(** Converting it panics. *)
Definition too_many (a : addr) : Prop :=
  match a with
  | A_mac s => addr_too_long ":" 6 s
  | A_ip4 s => addr_too_long "." 4 s
  | A_ip6 _ => False
  end.
(** Addresses converted one after another, up to the first that panics. *)
Inductive all_say (ip6 : string -> option (list N)) : list addr -> string -> Prop :=
| Al_nil : all_say ip6 [] EmptyString
| Al_go a l s t : says ip6 a s -> ~ too_many a -> all_say ip6 l t -> all_say ip6 (a :: l) (s ++ t)
| Al_stop a l s : says ip6 a s -> too_many a -> all_say ip6 (a :: l) s.

(** The address arguments of the constructors, in the order of the bytes they produce. *)
Definition eth_addrs (e : eth_args) : list addr := [A_mac (eth_dst e); A_mac (eth_src e)].
Definition arp_addrs (sm tm si ti : string) : list addr := [A_mac sm; A_ip4 si; A_mac tm; A_ip4 ti].
Definition ip4_addrs (i : ip4_args) : list addr := [A_ip4 (ip_src i); A_ip4 (ip_dst i)].
Definition ip6_addrs (i : ip6_args) : list addr := [A_ip6 (ip6_src i); A_ip6 (ip6_dst i)].
Definition hmake_addrs (b : hmake) : list addr :=
  match b with
  | H_ethernet d s _ | H_dot3 d s _ => [A_mac d; A_mac s]
  | H_arp _ sm tm si ti => arp_addrs sm tm si ti
  | H_ipv4 _ _ _ _ _ _ s d _ => [A_ip4 s; A_ip4 d]
  | H_ipv6 _ _ _ _ s d _ => [A_ip6 s; A_ip6 d]
  | _ => []
  end.
Definition pmake_addrs (b : pmake) : list addr :=
  match b with
  | P_eth e _ _ => eth_addrs e
  | P_arp e _ sm tm si ti _ => eth_addrs e ++ arp_addrs sm tm si ti
  | P_ipv4 e i _ _ | P_tcp4 e i _ _ | P_udp4 e i _ _ _ | P_icmp4 e i _ _ _ | P_ipv4ip e i _
  | P_vxlan e i _ _ _ _ | P_gre_pkt e i _ _ | P_erspan2 e i _ _ _ _ | P_erspan3 e i _ _ _ _ _ _ _ _ =>
      eth_addrs e ++ ip4_addrs i
  | P_ipv6 e i _ _ | P_tcp6 e i _ _ | P_udp6 e i _ _ _ | P_icmp6 e i _ _ _ | P_ipv6ip e i _
  | P_vxlan6 e i _ _ _ _ => eth_addrs e ++ ip6_addrs i
  end.

(** All buffers of a packet can be read, and hold [d] together with the payload. *)
Definition readable (h : heap) (p : packet) (d : list N) : Prop :=
  exists ds, Forall2 (fun x b => cell_at h (h_ref x) b) (p_hdrs p) ds /\ d = concat ds ++ p_payload p.
(** A constructor gets as far as the addresses: the inner packet is readable and, where its first
    byte is inspected, not empty. *)
Definition begins (h : heap) (b : pmake) : Prop :=
  match b with
  | P_ipv4ip _ _ p | P_ipv6ip _ _ p | P_gre_pkt _ _ _ (Some p) => exists d, readable h p d /\ d <> []
  | P_vxlan _ _ _ _ _ p | P_vxlan6 _ _ _ _ _ p
  | P_erspan2 _ _ _ _ _ (Some p) | P_erspan3 _ _ _ _ _ _ _ _ _ (Some p) => exists d, readable h p d
  | _ => True
  end.

(** ** [show] that panics *)

Definition title_text (T : htype) : string :=
  ("#### " ++ ht_name T ++ blanks (16 - String.length (ht_name T)) ++ " Size   Data" ++ String nl EmptyString ++
   "-------------------------------------------" ++ String nl EmptyString)%string.
(** The part of a line before the value. *)
Definition label_text (f : field) (s : string) : Prop :=
  exists n, decimal n (N.of_nat (f_width f)) /\
    s = (f_name f ++ blanks (20 - String.length (f_name f)) ++ ": " ++ blanks (4 - String.length n) ++ n ++ " : ")%string.

(** [cut d f s]: [s] is what is printed of the value of [f] if it does not fit in [d]: the octets
    of a wide field that do fit, nothing of a narrow one. *)
Definition cut (d : list N) (f : field) (s : string) : Prop :=
  exists l, s = hexes l /\ bytes_ok l /\
    length l = (if f_width f <=? 8 then 0 else Nat.min (f_width f / 8) ((8 * length d - f_start f) / 8))%nat /\
    (l <> [] -> be l = bits_val d (f_start f) (f_start f + 8 * length l - 1)).

(** The heading, the lines of the fields before [f], and the beginning of [f]'s line. *)
Definition cut_text (T : htype) (d : list N) (s : string) : Prop :=
  exists before f after lines label value,
    ht_fields T = before ++ f :: after /\
    Forall (fun g => field_in g (length d)) before /\ (8 * length d <= f_end f)%nat /\
    Forall2 (field_line d) before lines /\ label_text f label /\ cut d f value /\
    s = (title_text T ++ String.concat "" lines ++ label ++ value)%string.
(** Only the heading and the first label: the buffer is poisoned. *)
Definition refused_text (T : htype) (s : string) : Prop :=
  exists f after label, ht_fields T = f :: after /\ label_text f label /\ s = (title_text T ++ label)%string.

(** The calls that may print. *)
Definition may_print (k : call) : Prop :=
  match k with
  | K_hshow _ | K_pshow _ | K_sshow _ | K_ps_show _ | K_compare _ _ | K_compare_slice _ _ | K_mac _ | K_ip4 _ | K_ip6 _ => True
  | K_make b => hmake_addrs b <> []
  | K_create _ => True
  | _ => False
  end.
