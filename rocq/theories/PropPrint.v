(** PropPrint.v -- C68: standard output of the public calls. *)

From Coq Require Import Lia.
From Verif Require Import Base Bits Types Layout Heap Packet Text Build Utils Slow Fast Show Trait Ops Client Python Ipv6.
From Verif Require Import Spec ShowSpec BitsProofs HeapProofs PacketProofs TextProofs ShowProofs PropTrait.
From Verif Require Import Print PrintSpec PrintProofs.
Open Scope N_scope.

(** The text a call prints in state [h]. *)
Definition printed {A} (c : W A) (h : heap) : string := fst (c h).

(** ** Printing changes nothing else *)

(** A call has the result and the effects it has in the other files (Client.v); there, the text of
    [show] is the result. *)
Theorem C68_same : forall m ip6 k h,
  snd (w_call m ip6 k h) =
  match kexec m ip6 k h with (Ret (KText _), h') => (Ret (KVal VUnit), h') | r => r end.
Proof.
  intros m ip6 k h. rewrite w_call_er. destruct (kexec m ip6 k h) as [[[]|f| | |] h']; reflexivity.
Qed.
Print Assumptions C68_same.

(** Calls that print nothing whatever happens. *)
Theorem C68_silent : forall m ip6 k h, ~ may_print k -> printed (w_call m ip6 k) h = EmptyString.
Proof.
  intros m ip6 k h N. destruct k; cbn [may_print] in N; try tauto; try reflexivity.
  destruct b; cbn [hmake_addrs] in N; try reflexivity; elim N; discriminate.
Qed.
Print Assumptions C68_silent.

(** A program of calls prints the texts of the calls in order and ends in the state that the calls
    of Client.v give. *)
Theorem C68_program : forall m ip6 l k h,
  w_prog m ip6 (l ++ [k]) h =
  (let '(s, h1) := w_prog m ip6 l h in
   ((s ++ printed (w_call m ip6 k) h1)%string, snd (kexec m ip6 k h1))).
Proof.
  intros m ip6 l k. unfold printed. induction l as [|a l IH]; intros h; cbn [app w_prog].
  - pose proof (w_call_er m ip6 k h) as E. destruct (w_call m ip6 k h) as [s [o h1]]. cbn [fst snd] in *.
    injection E as _ E. rewrite append_nil_r. cbn [append]. congruence.
  - destruct (w_call m ip6 a h) as [s [o h1]]. rewrite IH. destruct (w_prog m ip6 l h1) as [t h2].
    rewrite append_assoc. reflexivity.
Qed.
Print Assumptions C68_program.

(** ** Addresses *)

(** [u8::from_str_radix] with its message. *)
Theorem C68_octet : forall radix s, 1 < radix ->
  (forall v, parse_u8 radix s = inl v <-> octet radix s v) /\
  (forall e, parse_u8 radix s = inr e <-> complaint radix s (int_error_text e)).
Proof. intros. split; [intros; apply parse_u8_ok; auto|intros; apply parse_u8_err; auto]. Qed.
Print Assumptions C68_octet.

(** Every text is an octet or has exactly one thing wrong with it. *)
Theorem C68_complaint : forall radix s, 1 < radix ->
  ((exists v, octet radix s v) /\ forall msg, ~ complaint radix s msg) \/
  ((forall v, ~ octet radix s v) /\ exists msg, complaint radix s msg /\ forall msg', complaint radix s msg' -> msg' = msg).
Proof.
  intros radix s Hr. assert (X : forall msg, complaint radix s msg -> exists e, msg = int_error_text e /\ parse_u8 radix s = inr e).
  { intros msg H. assert (Y : exists e, msg = int_error_text e)
      by (destruct H; [exists E_Empty|exists E_InvalidDigit|exists E_PosOverflow]; reflexivity).
    destruct Y as [e ->]. exists e. split; auto. apply parse_u8_err; auto. }
  destruct (parse_u8 radix s) as [v|e] eqn:E.
  - left. split; [exists v; apply parse_u8_ok; auto|]. intros msg H. destruct (X msg H) as (e & _ & H'). discriminate.
  - right. split; [intros v H; apply parse_u8_ok in H; auto; congruence|].
    exists (int_error_text e). split; [apply parse_u8_err; auto|]. intros msg H. destruct (X msg H) as (e' & -> & H'). congruence.
Qed.
Print Assumptions C68_complaint.

(** One line for every part that is not an octet, in order. *)
Theorem C68_mac : forall m ip6 s h t, printed (w_call m ip6 (K_mac s)) h = t <-> addr_says ":" 16 6 s t.
Proof.
  intros. unfold printed. cbn [w_call]. rewrite wbind_quiet by (intros; apply quiet_run). rewrite w_mac_run. cbn [fst].
  pose proof (says_fun (fun _ => None) (A_mac s) t) as E. cbn [says] in E. rewrite E. split; congruence.
Qed.
Print Assumptions C68_mac.
Theorem C68_ipv4 : forall m ip6 s h t, printed (w_call m ip6 (K_ip4 s)) h = t <-> addr_says "." 10 4 s t.
Proof.
  intros. unfold printed. cbn [w_call]. rewrite wbind_quiet by (intros; apply quiet_run). rewrite w_ip4_run. cbn [fst].
  pose proof (says_fun (fun _ => None) (A_ip4 s) t) as E. cbn [says] in E. rewrite E. split; congruence.
Qed.
Print Assumptions C68_ipv4.
(** One line if it is no address. *)
Theorem C68_ipv6 : forall m ip6 s h t, printed (w_call m ip6 (K_ip6 s)) h = t <-> says ip6 (A_ip6 s) t.
Proof.
  intros. unfold printed. cbn [w_call]. rewrite wbind_quiet by (intros; apply quiet_run). rewrite w_ip6_run, says_fun. cbn [fst].
  split; congruence.
Qed.
Print Assumptions C68_ipv6.

(** No complaint and no panic: exactly the addresses of at most six (four) octets. *)
Definition proper (sep : ascii) (radix : N) (n : nat) (s : string) : Prop :=
  exists parts, s = join sep parts /\ parts <> [] /\ Forall (fun p => ~ char_in sep p) parts /\ (length parts <= n)%nat /\
    Forall (fun p => exists v, octet radix p v) parts.
Lemma proper_iff sep radix n s : 1 < radix ->
  proper sep radix n s <->
  String.concat "" (map (line radix s) (firstn (S n) (split sep s))) = EmptyString /\ ~ addr_too_long sep n s.
Proof.
  intros Hr.
  assert (L0 : forall p, line radix s p = EmptyString <-> exists v, octet radix p v).
  { intros p. unfold line. destruct (parse_u8 radix p) as [v|e] eqn:E.
    - split; [|reflexivity]. intros _. exists v. apply parse_u8_ok; auto.
    - split; [discriminate|]. intros [v H]. apply parse_u8_ok in H; auto. congruence. }
  assert (C0 : forall l, String.concat "" (map (line radix s) l) = EmptyString <-> Forall (fun p => exists v, octet radix p v) l).
  { induction l as [|p l IH]; [split; [constructor|reflexivity]|]. cbn [map]. rewrite concat_cons, Forall_cons_iff, <- L0, <- IH.
    split; [|intros [-> ->]; reflexivity]. intros E. destruct (line radix s p); [auto|discriminate]. }
  rewrite C0. split.
  - intros (parts & E & Hn & Hc & L & F). pose proof (split_join sep parts Hn Hc) as Sp. rewrite <- E in Sp. rewrite Sp.
    split; [rewrite firstn_all2 by lia; auto|]. intros (parts' & E' & Hc' & L').
    assert (Hn' : parts' <> []) by (intros ->; cbn in L'; lia).
    pose proof (split_join sep parts' Hn' Hc') as Sp'. rewrite <- E' in Sp'. rewrite Sp in Sp'. subst. lia.
  - intros [F N]. assert (L : (length (split sep s) <= n)%nat).
    { destruct (Nat.le_gt_cases (length (split sep s)) n); auto. elim N. exists (split sep s).
      split; [apply split_join_eq|]. split; [apply split_clean|auto]. }
    exists (split sep s). split; [apply split_join_eq|]. split; [apply split_nonnil|]. split; [apply split_clean|].
    split; auto. rewrite firstn_all2 in F by lia. exact F.
Qed.
Theorem C68_clean : forall m ip6 s h,
  (proper ":" 16 6 s <-> exists b, w_call m ip6 (K_mac s) h = (EmptyString, (Ret (KVal (VBytes b)), h))) /\
  (proper "." 10 4 s <-> exists b, w_call m ip6 (K_ip4 s) h = (EmptyString, (Ret (KVal (VBytes b)), h))).
Proof.
  assert (G : forall a (P : Prop) h,
    (P <-> sayf (fun _ => None) a = EmptyString /\ ~ too_many a) ->
    (P <-> exists b, (wlet d := w_conv (fun _ => None) a in run (ret (KVal (VBytes d)))) h =
                     (EmptyString, (Ret (KVal (VBytes b)), h)))).
  { intros a P h HP. unfold wbind. rewrite w_conv_run. rewrite HP, <- (halts_too (fun _ => None)). unfold halts.
    destruct (conv_total (fun _ => None) a) as [[b E]|E]; rewrite E.
    - unfold run, ret. rewrite append_nil_r. split; [intros [-> _]; eauto|]. intros [b' H]. split; congruence.
    - split; [intros [_ H]; congruence|]. intros [b' H]. congruence. }
  intros m ip6 s h. split.
  - apply (G (A_mac s)). apply (proper_iff ":" 16 6). lia.
  - apply (G (A_ip4 s)). apply (proper_iff "." 10 4). lia.
Qed.
Print Assumptions C68_clean.

(** ** Constructors *)

(** A header constructor complains about its addresses one after another, up to one that panics. *)
Theorem C68_header : forall m ip6 b h t,
  printed (w_call m ip6 (K_make b)) h = t <-> all_say ip6 (hmake_addrs b) t.
Proof.
  intros. unfold printed. cbn [w_call]. rewrite wbind_quiet by (intros; apply quiet_run).
  rewrite (prints_hmake ip6 m b h), all_say_fun. split; congruence.
Qed.
Print Assumptions C68_header.

(** So does a packet constructor that gets as far as the addresses; otherwise it is silent. *)
Theorem C68_packet : forall m ip6 b h,
  (begins h b -> forall t, printed (w_call m ip6 (K_create b)) h = t <-> all_say ip6 (pmake_addrs b) t) /\
  (~ begins h b -> printed (w_call m ip6 (K_create b)) h = EmptyString).
Proof.
  intros. unfold printed. cbn [w_call]. rewrite wbind_quiet by (intros; apply quiet_run).
  destruct (pmake_text ip6 m b h) as [H1 H2]. split; [|exact H2].
  intros B t. rewrite H1, all_say_fun by auto. split; congruence.
Qed.
Print Assumptions C68_packet.

(** The specification determines the text. *)
Theorem C68_text_unique : forall ip6 l, exists t, all_say ip6 l t /\ forall t', all_say ip6 l t' -> t' = t.
Proof. intros ip6 l. exists (all_sayf ip6 l). split; [apply all_say_fun; reflexivity|]. intros t'. apply all_say_fun. Qed.
Print Assumptions C68_text_unique.

(** ** [show] *)

(** If every field is there: the text of C53, and nothing changes. *)
Theorem C68_show : forall m ip6 x h d,
  cell_at h (h_ref x) d -> bytes_ok d -> Forall (fun f => field_in f (length d)) (ht_fields (h_ty x)) ->
  exists s, w_call m ip6 (K_hshow x) h = (s, (Ret (KVal VUnit), h)) /\ header_text (h_ty x) d s.
Proof.
  intros m ip6 x h d Hc Hd Hf. destruct (hshow_ok m x h d Hc Hd Hf) as (s & E & T). exists s. split; auto.
  destruct (tells_hshow m x h) as [T1 T2]. rewrite E in T1, T2. cbn [fst snd voids] in T1, T2.
  cbn [w_call]. unfold wbind. rewrite (surjective_pairing (w_hshow m x h)), T1, (T2 s eq_refl).
  unfold run, ret. rewrite append_nil_r. reflexivity.
Qed.
Print Assumptions C68_show.

(** If a field is not there: the lines before it, its label and the octets of it that are there. *)
Theorem C68_show_short : forall m ip6 x h d,
  cell_at h (h_ref x) d -> bytes_ok d -> Forall (fun f => (f_start f <= f_end f)%nat) (ht_fields (h_ty x)) ->
  Exists (fun f => (8 * length d <= f_end f)%nat) (ht_fields (h_ty x)) ->
  exists s, w_call m ip6 (K_hshow x) h = (s, (Panic PIndex, upd h (h_ref x) (Cell d true))) /\ cut_text (h_ty x) d s.
Proof.
  intros m ip6 x h d Hc Hd Hf He.
  destruct (header_out (hbit_range m x) m d h (upd h (h_ref x) (Cell d true)) Hd) with (T := h_ty x) as (s & C & E); auto.
  - intros. apply hbit_range_in; auto.
  - intros. apply hbit_range_oob; auto.
  - exists s. split; auto. cbn [w_call]. unfold w_hshow, wbind. rewrite E. reflexivity.
Qed.
Print Assumptions C68_show_short.

(** If the buffer is poisoned: the heading and the first label. *)
Theorem C68_show_poisoned : forall m ip6 x h,
  poisoned_at h (h_ref x) -> ht_fields (h_ty x) <> [] -> Forall (fun f => (f_start f <= f_end f)%nat) (ht_fields (h_ty x)) ->
  exists s, w_call m ip6 (K_hshow x) h = (s, (Panic PPoison, h)) /\ refused_text (h_ty x) s.
Proof.
  intros m ip6 x h Hp Hn Hf. destruct (ht_fields (h_ty x)) as [|f l] eqn:El; [congruence|].
  apply Forall_cons_iff in Hf as [Hf _]. exists (title_text (h_ty x) ++ show_label f)%string. split.
  - cbn [w_call]. unfold w_hshow, wbind at 1. rewrite header_title, El. cbn [w_show_fields]. unfold w_show_field. cbv zeta.
    unfold wbind, say, run. rewrite title_ok. cbn [append].
    pose proof (fun a b => hbit_range_poisoned m x h a b Hp) as B.
    assert (Ew : f_width f = (f_end f - f_start f + 1)%nat) by reflexivity. set (w := f_width f) in *.
    pose proof (Nat.div_mod w 8 ltac:(lia)) as Dm. pose proof (Nat.mod_upper_bound w 8 ltac:(lia)) as Mb.
    destruct (Nat.leb_spec w 8); [rewrite B by auto; rewrite !append_nil_r; reflexivity|].
    assert (Q : exists k, (w / 8)%nat = S k) by (exists (w / 8 - 1)%nat; lia). destruct Q as [k Q]. rewrite Q.
    cbn [w_show_octets]. unfold wbind, run.
    destruct (w mod 8 =? 0)%nat; rewrite B by lia; rewrite !append_nil_r; reflexivity.
  - exists f, l, (show_label f). auto using label_ok.
Qed.
Print Assumptions C68_show_poisoned.

(** Borrowed headers. *)
Theorem C68_show_borrowed : forall m ip6 x h,
  bytes_ok (v_bytes (s_view x)) -> Forall (fun f => (f_start f <= f_end f)%nat) (ht_fields (s_ty x)) ->
  (Forall (fun f => field_in f (length (v_bytes (s_view x)))) (ht_fields (s_ty x)) /\
   exists s, w_call m ip6 (K_sshow x) h = (s, (Ret (KVal VUnit), h)) /\ header_text (s_ty x) (v_bytes (s_view x)) s) \/
  (Exists (fun f => (8 * length (v_bytes (s_view x)) <= f_end f)%nat) (ht_fields (s_ty x)) /\
   exists s, w_call m ip6 (K_sshow x) h = (s, (Panic PIndex, h)) /\ cut_text (s_ty x) (v_bytes (s_view x)) s).
Proof.
  intros m ip6 x h Hd Hf. set (d := v_bytes (s_view x)) in *.
  destruct (Forall_Exists_dec (fun f => (f_end f < 8 * length d)%nat) (fun f => lt_dec (f_end f) (8 * length d)) (ht_fields (s_ty x)))
    as [Y|N].
  - left. assert (F : Forall (fun f => field_in f (length d)) (ht_fields (s_ty x))).
    { rewrite Forall_forall in *. intros f I. split; auto. }
    split; auto. destruct (sshow_text m (s_ty x) d Hd F) as (s & E & T). exists s. split; auto.
    destruct (tells_sshow m x h) as [T1 T2]. unfold lift, sshow in T1, T2. fold d in T1, T2. rewrite E in T1, T2.
    cbn [fst snd voids] in T1, T2.
    cbn [w_call]. unfold wbind. rewrite (surjective_pairing (w_sshow m x h)), T1, (T2 s eq_refl).
    unfold run, ret. rewrite append_nil_r. reflexivity.
  - right. assert (F : Exists (fun f => (8 * length d <= f_end f)%nat) (ht_fields (s_ty x))).
    { rewrite Exists_exists in *. destruct N as (f & I & N). exists f. split; auto. lia. }
    split; auto.
    destruct (header_out (fun a b => lift (get_bits m d a b)) m d h h Hd) with (T := s_ty x) as (s & C & E); auto.
    + intros. unfold lift. rewrite get_bits_oob by auto. reflexivity.
    + exists s. split; auto. cbn [w_call]. unfold w_sshow, wbind. fold d. rewrite E. reflexivity.
Qed.
Print Assumptions C68_show_borrowed.

(** A packet whose headers are all there: their texts, then the dump. *)
Theorem C68_show_packet : forall m ip6 p h ds,
  Forall2 (fun x d => cell_at h (h_ref x) d /\ Forall (fun f => field_in f (length d)) (ht_fields (h_ty x))) (p_hdrs p) ds ->
  heap_ok h -> bytes_ok (p_payload p) ->
  exists texts raw, w_call m ip6 (K_pshow p) h = ((String.concat "" texts ++ raw)%string, (Ret (KVal VUnit), h)) /\
    Forall2 (fun xd s => header_text (h_ty (fst xd)) (snd xd) s) (combine (p_hdrs p) ds) texts /\
    raw_text (concat ds ++ p_payload p) raw.
Proof.
  intros m ip6 p h ds Hf Hh Hp. destruct (PropShow.C53_packet m p h ds Hf Hh Hp) as (texts & raw & E & T1 & T2).
  exists texts, raw. split; auto. destruct (tells_pkt m p h) as [U1 U2]. rewrite E in U1, U2. cbn [fst snd voids] in U1, U2.
  cbn [w_call]. unfold wbind. rewrite (surjective_pairing (w_pkt_show m p h)), U1, (U2 _ eq_refl).
  unfold run, ret. rewrite append_nil_r. reflexivity.
Qed.
Print Assumptions C68_show_packet.

(** A packet with a header that is too short: the texts of the headers before it, then what that
    header prints; no dump. *)
Theorem C68_show_packet_short : forall m ip6 p h before x after ds d,
  p_hdrs p = before ++ x :: after ->
  Forall2 (fun x d => cell_at h (h_ref x) d /\ Forall (fun f => field_in f (length d)) (ht_fields (h_ty x))) before ds ->
  cell_at h (h_ref x) d -> Forall (fun f => (f_start f <= f_end f)%nat) (ht_fields (h_ty x)) ->
  Exists (fun f => (8 * length d <= f_end f)%nat) (ht_fields (h_ty x)) -> heap_ok h ->
  exists texts s, w_call m ip6 (K_pshow p) h =
      ((String.concat "" texts ++ s)%string, (Panic PIndex, upd h (h_ref x) (Cell d true))) /\
    Forall2 (fun xd s => header_text (h_ty (fst xd)) (snd xd) s) (combine before ds) texts /\
    cut_text (h_ty x) d s.
Proof.
  intros m ip6 p h before x after ds d Ep Hb Hc Hf He Hh.
  assert (Ok : forall r d, cell_at h r d -> bytes_ok d).
  { intros r e C. unfold heap_ok in Hh. rewrite Forall_forall in Hh. apply (Hh (Cell e false)). eapply nth_error_In. exact C. }
  destruct (C68_show_short m ip6 x h d Hc (Ok _ _ Hc) Hf He) as (s & E & C).
  assert (Ex : w_hshow m x h = (s, (Panic PIndex, upd h (h_ref x) (Cell d true)))).
  { cbn [w_call] in E. unfold wbind in E. destruct (w_hshow m x h) as [t [[[]|f| | |] h1]]; unfold run, ret in E; inversion E; reflexivity. }
  assert (W : exists texts, w_show_hdrs m (p_hdrs p) h =
              ((String.concat "" texts ++ s)%string, (Panic PIndex, upd h (h_ref x) (Cell d true))) /\
            Forall2 (fun xd s => header_text (h_ty (fst xd)) (snd xd) s) (combine before ds) texts).
  { rewrite Ep. clear Ep. induction Hb as [|y e before ds [Hy Hg] Hb (texts & IH1 & IH2)]; cbn [app].
    - exists []. split; [|constructor]. cbn [w_show_hdrs]. unfold wbind. rewrite Ex. reflexivity.
    - destruct (C68_show m ip6 y h e Hy (Ok _ _ Hy) Hg) as (t & Et & Tt).
      exists (t :: texts). split; [|constructor; auto]. cbn [w_show_hdrs]. unfold wbind.
      assert (Ey : w_hshow m y h = (t, (Ret tt, h))).
      { cbn [w_call] in Et. unfold wbind in Et. destruct (w_hshow m y h) as [u [[[]|f| | |] h1]]; unfold run, ret in Et;
          rewrite ?append_nil_r in Et; inversion Et; reflexivity. }
      rewrite Ey, IH1. rewrite concat_cons, append_assoc. reflexivity. }
  destruct W as (texts & W1 & W2). exists texts, s. split; [|auto].
  cbn [w_call]. unfold w_pkt_show, wbind. rewrite W1. reflexivity.
Qed.
Print Assumptions C68_show_packet_short.

(** A borrowed packet. *)
Theorem C68_show_packet_slice : forall m ip6 q h,
  Forall (fun x => bytes_ok (v_bytes (s_view x)) /\
    Forall (fun f => field_in f (length (v_bytes (s_view x)))) (ht_fields (s_ty x))) (ps_hdrs q) ->
  bytes_ok (v_bytes (ps_payload q)) ->
  exists texts raw, w_call m ip6 (K_ps_show q) h = ((String.concat "" texts ++ raw)%string, (Ret (KVal VUnit), h)) /\
    Forall2 (fun x s => header_text (s_ty x) (v_bytes (s_view x)) s) (ps_hdrs q) texts /\
    raw_text (concat (map (fun x => v_bytes (s_view x)) (ps_hdrs q)) ++ v_bytes (ps_payload q)) raw.
Proof.
  intros m ip6 q h Hf Hp. destruct (PropShow.C53_packet_slice m q Hf Hp) as (texts & raw & E & T1 & T2).
  exists texts, raw. split; auto. destruct (tells_ps m q h) as [U1 U2]. unfold lift in U1, U2. rewrite E in U1, U2.
  cbn [fst snd voids] in U1, U2.
  cbn [w_call]. unfold wbind. rewrite (surjective_pairing (w_ps_show m q h)), U1, (U2 _ eq_refl).
  unfold run, ret. rewrite append_nil_r. reflexivity.
Qed.
Print Assumptions C68_show_packet_slice.

(** ** Comparisons and Python *)

(** The two lines of [compare_with_slice]; nothing if the packet is equal, nothing if it panics. *)
Theorem C68_compare : forall m ip6 p b h,
  match w_call m ip6 (K_compare_slice p b) h with
  | (s, (Ret (KBool true), _)) => s = EmptyString
  | (s, (Ret (KBool false), _)) => exists n1 n2, decimal n1 (N.of_nat (pkt_len p)) /\ decimal n2 (N.of_nat (length b)) /\
       ((pkt_len p <> length b /\ s = ("this " ++ n1 ++ " other " ++ n2 ++ String nl "")%string) \/
        (exists v n3, pkt_len p = length b /\ readable h p v /\ decimal n3 (N.of_nat (agreeing v b)) /\
           s = ("this " ++ n1 ++ " other " ++ n2 ++ ", matching upto " ++ n3 ++ " bytes" ++ String nl "")%string))
  | (s, _) => s = EmptyString
  end.
Proof.
  intros m ip6 p b h. cbn [w_call]. unfold wbind. rewrite w_compare_run.
  destruct (Nat.eq_dec (pkt_len p) (length b)) as [L|L].
  - destruct (to_vec p h) as [[v|f| | |] h1] eqn:E;
      try (unfold compare_text; rewrite L, Nat.eqb_refl; cbn [negb]; unfold bind; rewrite E; reflexivity).
    pose proof E as E'. apply to_vec_readable in E' as [R ->].
    destruct (C61_compare p b h v E) as (r & s & E1 & _ & I & F). rewrite E1. unfold run, ret. rewrite append_nil_r.
    destruct r; [apply I; reflexivity|]. destruct (F eq_refl) as (n1 & n2 & D1 & D2 & [[N _]|(_ & n3 & D3 & _ & S)]); [congruence|].
    exists n1, n2. split; auto. split; auto. right. exists v, n3. auto.
  - unfold compare_text. rewrite (proj2 (Nat.eqb_neq _ _) L). cbn [negb]. unfold run, ret. rewrite append_nil_r.
    exists (fmt_usize (pkt_len p)), (fmt_usize (length b)). split; [apply fmt_num_decimal|]. split; [apply fmt_num_decimal|].
    left. split; auto.
Qed.
Print Assumptions C68_compare.

(** [compare] of two packets: the same with the bytes of the other; silent if those cannot be read. *)
Theorem C68_compare_packets : forall m ip6 p q h,
  (forall d, readable h q d -> w_call m ip6 (K_compare p q) h = w_call m ip6 (K_compare_slice p d) h) /\
  ((forall d, ~ readable h q d) -> printed (w_call m ip6 (K_compare p q)) h = EmptyString).
Proof.
  intros m ip6 p q h. split.
  - intros d R. assert (E : to_vec q h = (Ret d, h)) by (apply to_vec_readable; auto).
    cbn [w_call]. unfold w_compare, wbind, run. rewrite E. destruct (w_compare_with_slice p d h) as [s [[]]]; reflexivity.
  - intros N. unfold printed. cbn [w_call]. unfold w_compare, wbind, run.
    destruct (to_vec q h) as [[d|f| | |] h1] eqn:E; try reflexivity.
    apply to_vec_readable in E as [R _]. elim (N d R).
Qed.
Print Assumptions C68_compare_packets.

(** [pkt[name]] in Python: the name, if there is such a header, before it is converted. *)
Theorem C68_getitem : forall p name h,
  snd (w_getitem p name h) = getitem p name h /\
  ((exists x, In x (p_hdrs p) /\ ht_name (h_ty x) = name) ->
   printed (w_getitem p name) h = ("Getting " ++ name ++ String nl "")%string) /\
  ((forall x, In x (p_hdrs p) -> ht_name (h_ty x) <> name) -> printed (w_getitem p name) h = EmptyString).
Proof.
  intros p name h. unfold printed, w_getitem, getitem, index_name.
  destruct (find_name name (p_hdrs p)) as [x|] eqn:E.
  - apply find_name_some in E as (l & r & Q & Hx & _). split; [|split].
    + unfold wbind, run, say, bind, ret. destruct (to_object (Owned x) h); reflexivity.
    + intros _. unfold wbind, run, say, ret. cbn [append fst].
      destruct (to_object (Owned x) h) as [o h']. rewrite !append_nil_r, Hx. reflexivity.
    + intros N. elim (N x); [|exact Hx]. rewrite Q. apply in_or_app. right. left. reflexivity.
  - apply find_name_none in E. split; [reflexivity|]. split; [|reflexivity].
    intros (x & I & Hx). rewrite Forall_forall in E. elim (E x I Hx).
Qed.
Print Assumptions C68_getitem.

(** ** Concrete cases *)

Definition noip6 : string -> option (list N) := fun _ => None.
Definition lines (l : list string) : string := String.concat "" (map (fun s => (s ++ String nl "")%string) l).

(** Three bad parts, each for its own reason; then a seventh part, and a panic. *)
Example C68_example_mac :
  w_call Debug noip6 (K_mac "1g:100:+::05:06:z:y") [] =
  (lines ["Error: invalid digit found in string - 1g in 1g:100:+::05:06:z:y"%string;
          "Error: number too large to fit in target type - 100 in 1g:100:+::05:06:z:y"%string;
          "Error: invalid digit found in string - + in 1g:100:+::05:06:z:y"%string;
          "Error: cannot parse integer from empty string -  in 1g:100:+::05:06:z:y"%string;
          "Error: invalid digit found in string - z in 1g:100:+::05:06:z:y"%string], (Panic PIndex, [])).
Proof. vm_compute. reflexivity. Qed.
(** An octet that becomes too large and has a bad digit behind that; one that is bad before. *)
Example C68_example_order :
  w_call Debug noip6 (K_ip4 "256x.25x6.0.1") [] =
  (lines ["Error: number too large to fit in target type - 256x in 256x.25x6.0.1"%string;
          "Error: invalid digit found in string - 25x6 in 256x.25x6.0.1"%string], (Ret (KVal (VBytes [0; 0; 0; 1])), [])).
Proof. vm_compute. reflexivity. Qed.
Example C68_example_proper : proper "." 10 4 "10.0.0.1" /\ ~ proper "." 10 4 "10.0.0.256".
Proof.
  split.
  - apply (C68_clean Debug noip6 "10.0.0.1" []). exists [10; 0; 0; 1]. vm_compute. reflexivity.
  - intros P. apply (C68_clean Debug noip6 "10.0.0.256" []) in P as [b P]. vm_compute in P. discriminate.
Qed.
(** ARP: sender MAC, sender IP, target MAC, target IP, though the arguments come in another order. *)
Example C68_example_arp :
  printed (w_call Debug noip6 (K_make (H_arp 1 "sm" "tm" "si" "ti"))) [] =
  lines ["Error: invalid digit found in string - sm in sm"%string; "Error: invalid digit found in string - si in si"%string;
         "Error: invalid digit found in string - tm in tm"%string; "Error: invalid digit found in string - ti in ti"%string].
Proof. vm_compute. reflexivity. Qed.
Example C68_example_ipv6 :
  printed (w_ip6 ipv6_from_str "fe80::1") [] = EmptyString /\
  printed (w_ip6 ipv6_from_str "fe80::1::2") [] = lines ["Error: invalid IPv6 address syntax - fe80::1::2"%string].
Proof. vm_compute. split; reflexivity. Qed.
(** Three of the four bytes of a VLAN tag. *)
Example C68_example_short :
  w_call Debug noip6 (K_hshow (Hdr Vlan 0)) [Cell [0x21; 0x33; 0x08] false] =
  ((lines ["#### Vlan             Size   Data"%string; "-------------------------------------------"%string;
           "pcp                 :    3 : 01"%string; "cfi                 :    1 : 00"%string; "vid                 :   12 : 13 13"%string] ++
    "etype               :   16 : 08 ")%string, (Panic PIndex, [Cell [0x21; 0x33; 0x08] true])) /\
  w_call Debug noip6 (K_hshow (Hdr Vlan 0)) [Cell [0x21; 0x33; 0x08] true] =
  ((lines ["#### Vlan             Size   Data"%string; "-------------------------------------------"%string] ++
    "pcp                 :    3 : ")%string, (Panic PPoison, [Cell [0x21; 0x33; 0x08] true])).
Proof. split; vm_compute; reflexivity. Qed.
(** "upto" is the number of positions that agree, here the first three and the last. *)
Example C68_example_compare :
  w_call Debug noip6 (K_compare_slice (Pkt [Hdr Vlan 0] [1]) [0x21; 0x33; 8; 1; 1]) [Cell [0x21; 0x33; 8; 0] false] =
  (lines ["this 5 other 5, matching upto 4 bytes"%string], (Ret (KBool false), [Cell [0x21; 0x33; 8; 0] false])).
Proof. vm_compute. reflexivity. Qed.
Example C68_example_getitem :
  printed (w_getitem (Pkt [Hdr Vlan 0] []) "Vlan") [Cell [0x21; 0x33; 8; 0] false] = lines ["Getting Vlan"%string] /\
  printed (w_getitem (Pkt [Hdr Vlan 0] []) "IPv4") [Cell [0x21; 0x33; 8; 0] false] = EmptyString.
Proof. vm_compute. split; reflexivity. Qed.
(** A program: a failing constructor, then a [show] of the state it leaves. *)
Example C68_example_program :
  w_prog Debug noip6 [K_ip4 "1.2.3.4.5"; K_mac "q"] [] =
  (lines ["Error: invalid digit found in string - q in q"%string], []).
Proof. vm_compute. reflexivity. Qed.

(** The address is printed as it is: a text with a line break in it makes one complaint look like
    two, the second about an address that is fine. "One malformed address, one line" is false. *)
Theorem C68_one_line_refuted : exists s other,
  ipv6_from_str s = None /\ ipv6_from_str other <> None /\
  printed (w_call Debug ipv6_from_str (K_make (H_ipv6 0 0 0 0 s other 0))) [] =
  lines ["Error: invalid IPv6 address syntax - x"%string; ("Error: invalid IPv6 address syntax - " ++ other)%string].
Proof.
  exists ("x" ++ String nl "Error: invalid IPv6 address syntax - ::1")%string, "::1"%string.
  split; [vm_compute; reflexivity|]. split; [vm_compute; discriminate|]. vm_compute. reflexivity.
Qed.
Print Assumptions C68_one_line_refuted.
