(** PanicSpec.v -- when a public call should panic, and with what message; which
    buffers it should leave poisoned (C70). Conditions on the arguments and on the
    buffers before the call only. *)

From Verif Require Import Base Layout Heap Packet Utils Slow Fast Ops Client Spec Grammar.
Open Scope N_scope.

(** ** Buffers *)

(** The buffer of [x] is poisoned. *)
Definition dead (h : heap) (x : hdr) : Prop := poisoned_at h (h_ref x).
(** Bit [i] is looked at: the buffer is poisoned, or ends before that bit. *)
Definition touch (h : heap) (x : hdr) (i : nat) (e : fault) : Prop :=
  (dead h x /\ e = PPoison) \/ (exists d, cell_at h (h_ref x) d /\ (8 * length d <= i)%nat /\ e = PIndex).
(** The packet, serialised, has [n] bytes. *)
Definition byte_count (h : heap) (p : packet) (n : nat) : Prop :=
  exists ds, Forall2 (fun x d => cell_at h (h_ref x) d) (p_hdrs p) ds /\
    n = (length (concat ds) + length (p_payload p))%nat.
Definition some_dead (h : heap) (p : packet) : Prop := exists x, In x (p_hdrs p) /\ dead h x.

(** ** Headers: reading and writing the bits [lsb..=msb] *)

(** The subtraction [msb - lsb] in a build with overflow checks. *)
Definition reversed (m : mode) (msb lsb : nat) (e : fault) : Prop :=
  (msb < lsb)%nat /\ m = Debug /\ e = POverflow.

(** The width [msb - lsb + 1] of the widest range is no [usize]. *)
Definition widest (msb lsb : nat) : Prop := N.of_nat msb = 2 ^ 64 - 1 /\ lsb = O.

(** More than 64 bits are read, but only with overflow checks is that noticed, and at the end. *)
Definition read_fault (m : mode) (h : heap) (x : hdr) (msb lsb : nat) (e : fault) : Prop :=
  reversed m msb lsb e \/
  ((lsb <= msb)%nat /\
   (touch h x msb e \/
    (64 < msb - lsb + 1)%nat /\ m = Debug /\ e = POverflow /\ forall e', ~ touch h x msb e')).
Definition write_fault (h : heap) (x : hdr) (msb lsb : nat) (e : fault) : Prop :=
  (lsb <= msb)%nat /\ touch h x msb e.

(** [bytes]: the number of bits must be a multiple of 8. *)
Definition not_octets (m : mode) (msb lsb : nat) (e : fault) : Prop :=
  reversed m msb lsb e \/ (widest msb lsb /\ m = Debug /\ e = POverflow) \/
  (((msb < lsb)%nat /\ m = Release /\ ((lsb - msb - 1) mod 8 <> 0)%nat \/
    (lsb <= msb)%nat /\ ((msb - lsb + 1) mod 8 <> 0)%nat) /\ e = PAssert).
Definition bytes_fault (m : mode) (h : heap) (x : hdr) (msb lsb : nat) (e : fault) : Prop :=
  not_octets m msb lsb e \/
  (~ (widest msb lsb /\ m = Debug) /\ (lsb <= msb)%nat /\ ((msb - lsb + 1) mod 8 = 0)%nat /\ touch h x msb e).

(** [set_bytes]: as many bits as the value has. Without overflow checks the widest range
    counts as empty, and a range that ends before it begins has a width modulo 2^64. *)
Definition wraps_to (msb lsb width : nat) : Prop :=
  exists k, N.of_nat lsb + N.of_nat width = N.of_nat msb + 1 + k * 2 ^ 64.
Definition not_fitting (m : mode) (msb lsb : nat) (v : list N) (e : fault) : Prop :=
  reversed m msb lsb e \/ (widest msb lsb /\ m = Debug /\ e = POverflow) \/
  (((msb < lsb)%nat /\ m = Release /\ ~ wraps_to msb lsb (8 * length v) \/
    widest msb lsb /\ m = Release /\ v <> [] \/
    ~ widest msb lsb /\ (lsb <= msb)%nat /\ (8 * length v <> msb - lsb + 1)%nat) /\ e = PAssert).
Definition set_bytes_fault (m : mode) (h : heap) (x : hdr) (msb lsb : nat) (v : list N) (e : fault) : Prop :=
  not_fitting m msb lsb v e \/ (widest msb lsb /\ m = Release /\ v = [] /\ e = PIndex) \/
  (~ widest msb lsb /\ (lsb <= msb)%nat /\ (8 * length v = msb - lsb + 1)%nat /\ touch h x msb e).

Definition hop_fault (m : mode) (h : heap) (o : hop) (e : fault) : Prop :=
  match o with
  | ONew _ | OFrom _ _ | OClone _ => False
  | OGet x f => read_fault m h x (f_end f) (f_start f) e
  | OSet x f _ => write_fault h x (f_end f) (f_start f) e
  | OBitRange x msb lsb => read_fault m h x msb lsb e
  | OSetBitRange x msb lsb _ => write_fault h x msb lsb e
  | OBytes x msb lsb => bytes_fault m h x msb lsb e
  | OSetBytes x msb lsb v => set_bytes_fault m h x msb lsb v e
  | OReplace x y => (dead h x \/ dead h y) /\ e = PPoison
  | OToVec x => dead h x /\ e = PPoison
  end.

(** Showing a header looks at every field, eight bits at a time at most. *)
Definition show_fault (h : heap) (x : hdr) (e : fault) : Prop :=
  exists f, In f (ht_fields (h_ty x)) /\ touch h x (f_end f) e.

(** ** Borrowed headers: the same over the bytes of the slice *)

Definition sread_fault (m : mode) (n msb lsb : nat) (e : fault) : Prop :=
  reversed m msb lsb e \/
  ((lsb <= msb)%nat /\
   ((8 * n <= msb)%nat /\ e = PIndex \/
    (msb < 8 * n)%nat /\ (64 < msb - lsb + 1)%nat /\ m = Debug /\ e = POverflow)).
Definition sbytes_fault (m : mode) (n msb lsb : nat) (e : fault) : Prop :=
  not_octets m msb lsb e \/
  (~ (widest msb lsb /\ m = Debug) /\ (lsb <= msb)%nat /\ ((msb - lsb + 1) mod 8 = 0)%nat /\ (8 * n <= msb)%nat /\
   e = PIndex).
Definition sshow_fault (x : shdr) (e : fault) : Prop :=
  e = PIndex /\ exists f, In f (ht_fields (s_ty x)) /\ (8 * v_len (s_view x) <= f_end f)%nat.

(** ** Packets *)

Definition to_vec_fault (h : heap) (p : packet) (e : fault) : Prop := some_dead h p /\ e = PPoison.

(** The first header that cannot be shown decides; if all can, the dump is left. *)
Definition pkt_show_fault (h : heap) (p : packet) (e : fault) : Prop :=
  (exists pre x post, p_hdrs p = pre ++ x :: post /\ (forall y e', In y pre -> ~ show_fault h y e') /\
     show_fault h x e) \/
  ((forall y e', In y (p_hdrs p) -> ~ show_fault h y e') /\ to_vec_fault h p e).

Definition declared_len (p : packet) : nat :=
  (list_sum (map (fun x => ht_size (h_ty x)) (p_hdrs p)) + length (p_payload p))%nat.
(** A packet is only serialised to be compared if the lengths agree. *)
Definition compare_fault (h : heap) (p : packet) (n : nat) (e : fault) : Prop :=
  declared_len p = n /\ to_vec_fault h p e.

(** ** Texts and the checksum *)

Definition mac_long (s : string) : Prop := addr_too_long ":"%char 6 s.
Definition ip4_long (s : string) : Prop := addr_too_long "."%char 4 s.

(** The words before the last byte of a string of odd length. Eleven bytes count as ten. *)
Definition whole_words (d : list N) : N := plain_sum (words (zero_checksum (firstn (2 * (length d / 2)) d))).
Definition checksum_fault (m : mode) (d : list N) (e : fault) : Prop :=
  let s := whole_words d in
  let cut_off := Nat.odd (length d) = true /\ length d <> 11%nat in
  (m = Debug /\ 2 ^ 32 <= s /\ e = POverflow) \/
  (~ (m = Debug /\ 2 ^ 32 <= s) /\ cut_off /\ e = PIndex) \/
  (m = Debug /\ s < 2 ^ 32 <= s / 65536 + s /\ ~ cut_off /\ e = POverflow).

(** ** Constructors *)

Definition hmake_fault (b : hmake) (e : fault) : Prop :=
  match b with
  | H_ethernet d s _ | H_dot3 d s _ => mac_long d \/ mac_long s
  | H_arp _ sm tm si ti => mac_long sm \/ mac_long tm \/ ip4_long si \/ ip4_long ti
  | H_ipv4 _ _ _ _ _ _ s d _ => ip4_long s \/ ip4_long d
  | _ => False
  end /\ e = PIndex.

Definition eth_long (a : eth_args) : Prop := mac_long (eth_dst a) \/ mac_long (eth_src a).
Definition ip_long (i : ip4_args) : Prop := ip4_long (ip_src i) \/ ip4_long (ip_dst i).
(** The inner packet is serialised before anything else happens. *)
Definition inner_fault (h : heap) (p : packet) (long : Prop) (e : fault) : Prop :=
  to_vec_fault h p e \/ (~ some_dead h p /\ long /\ e = PIndex).
Definition opt_fault (h : heap) (o : option packet) (long : Prop) (e : fault) : Prop :=
  match o with Some p => inner_fault h p long e | None => long /\ e = PIndex end.

Definition pmake_fault (h : heap) (b : pmake) (e : fault) : Prop :=
  match b with
  | P_eth a _ _ => eth_long a /\ e = PIndex
  | P_arp a _ sm tm si ti _ =>
      (eth_long a \/ mac_long sm \/ mac_long tm \/ ip4_long si \/ ip4_long ti) /\ e = PIndex
  | P_ipv4 a i _ _ | P_tcp4 a i _ _ | P_udp4 a i _ _ _ | P_icmp4 a i _ _ _ => (eth_long a \/ ip_long i) /\ e = PIndex
  | P_ipv6 a _ _ _ | P_tcp6 a _ _ _ | P_udp6 a _ _ _ _ | P_icmp6 a _ _ _ _ => eth_long a /\ e = PIndex
  | P_ipv4ip a i p => inner_fault h p (byte_count h p 0 \/ eth_long a \/ ip_long i) e
  | P_ipv6ip a _ p => inner_fault h p (byte_count h p 0 \/ eth_long a) e
  | P_vxlan a i _ _ _ p => inner_fault h p (eth_long a \/ ip_long i) e
  | P_vxlan6 a _ _ _ _ p => inner_fault h p (eth_long a) e
  | P_gre_pkt a i _ o =>
      opt_fault h o ((exists p, o = Some p /\ byte_count h p 0) \/ eth_long a \/ ip_long i) e
  | P_erspan2 a i _ _ _ o => opt_fault h o (eth_long a \/ ip_long i) e
  | P_erspan3 a i _ _ _ _ _ _ _ o => opt_fault h o (eth_long a \/ ip_long i) e
  end.

(** ** Any call *)

Definition call_fault (m : mode) (h : heap) (k : call) (e : fault) : Prop :=
  match k with
  | K_hdr o => hop_fault m h o e
  | K_downcast T x => ht_id T <> ht_id (h_ty x) /\ e = PDowncast
  | K_hshow x => show_fault h x e
  | K_make b => hmake_fault b e
  | K_push _ (Borrowed _ _) | K_insert _ (Borrowed _ _) => e = PUnimpl
  | K_index p name => (forall x, In x (p_hdrs p) -> ht_name (h_ty x) <> name) /\ e = PUnwrap
  | K_pto_vec p => to_vec_fault h p e
  | K_compare p q => to_vec_fault h q e \/ exists n, byte_count h q n /\ compare_fault h p n e
  | K_compare_slice p d => compare_fault h p (length d) e
  | K_pshow p => pkt_show_fault h p e
  | K_checksum d => checksum_fault m d e
  | K_mac s => mac_long s /\ e = PIndex
  | K_ip4 s => ip4_long s /\ e = PIndex
  | K_create b => pmake_fault h b e
  | K_parse f d => cut_by f d e
  | K_fast f v => cut_by f (v_bytes v) e
  | K_sget x f => sread_fault m (v_len (s_view x)) (f_end f) (f_start f) e
  | K_sbytes x msb lsb => sbytes_fault m (v_len (s_view x)) msb lsb e
  | K_sshow x => sshow_fault x e
  | K_ps_show q => exists x, In x (ps_hdrs q) /\ sshow_fault x e
  | K_query (Q_as_slice _) | K_query (Q_sclone _) => e = PUnimpl
  | K_query (Q_sbit_range x msb lsb) => sread_fault m (v_len (s_view x)) msb lsb e
  | K_push _ (Owned _) | K_insert _ (Owned _) | K_pnew | K_pop _ | K_remove _ _ | K_set_payload _ _ | K_add _ _
  | K_pclone _ | K_get_header _ _ _ | K_sfrom _ _ | K_ip6 _ | K_query _ => False
  end.

(** Header types as [make_header!] can declare them: no field ends before it starts. *)
Definition declared (T : htype) : Prop := Forall (fun f => (f_start f <= f_end f)%nat) (ht_fields T).
Definition shows_declared (k : call) : Prop :=
  match k with
  | K_hshow x => declared (h_ty x)
  | K_pshow p => Forall (fun x => declared (h_ty x)) (p_hdrs p)
  | K_sshow x => declared (s_ty x)
  | K_ps_show q => Forall (fun x => declared (s_ty x)) (ps_hdrs q)
  | _ => True
  end.

(** ** What is poisoned *)

(** Calls that look at the bits of a header through its lock and run past the end
    poison its buffer; [replace] does if the other one is poisoned. Nothing else does. *)
Definition poisons (m : mode) (h : heap) (k : call) (r : nat) : Prop :=
  match k with
  | K_hdr (OReplace x y) => r = h_ref x /\ ~ dead h x /\ dead h y
  | K_hdr (OSetBytes x _ _ v) => r = h_ref x /\ v <> [] /\ call_fault m h k PIndex
  | K_hdr (OGet x _ | OSet x _ _ | OBitRange x _ _ | OSetBitRange x _ _ _ | OBytes x _ _)
  | K_hshow x => r = h_ref x /\ call_fault m h k PIndex
  | K_pshow p =>
      exists pre x post, p_hdrs p = pre ++ x :: post /\ (forall y e', In y pre -> ~ show_fault h y e') /\
        show_fault h x PIndex /\ r = h_ref x
  | _ => False
  end.
