(** PropDocs.v -- property C73: what the programs of the crate's documentation do. *)

From Coq Require Import Lia.
From Verif Require Import Base Bits Types Layout Heap Packet Text Ipv6 Build Utils Slow Fast Show Trait Ops Client Print Programs
  Spec ShowSpec ClientSpec PrintSpec ThreadsSpec LocalSpec BitsProofs HeapProofs ShowProofs PropBuild PropIpv6 ClientProofs PropClient PrintProofs PropPrint
  LocalProofs PropLocal.
Open Scope N_scope.

(** ** Running a program on any heap *)

Section Later.
Variables (m : mode) (ip6 : string -> option (list N)) (h : heap).
Hypothesis O6 : octets16 ip6.
Notation f := (fun r => (length h + r)%nat).

Lemma later {B} c k s v h1 c' (rest : kres -> W B) t r : client_ok c -> known c k -> typed k ->
  w_call m ip6 k (k_heap c) = (s, (Ret v, h1)) -> learn c (Ret v) h1 = c' ->
  (client_ok c' -> rest (rename f v) (h ++ k_heap c') = (t, r)) ->
  wbind (w_call m ip6 (rename_call f k)) rest (h ++ k_heap c) = ((s ++ t)%string, r).
Proof.
  intros C K T W L R. assert (Hh : k_heap c' = h1) by (subst c'; destruct v; reflexivity). rewrite Hh in R.
  unfold wbind. rewrite (C72_append m ip6 c k h s (Ret v) h1 O6 C K T W). cbn [rename_out]. rewrite R; auto.
  subst c'. eapply learn_call; eauto; [rewrite W; reflexivity|]. left. eauto.
Qed.
Lemma later_hdr {B} c k s x h1 c' (rest : hdr -> W B) t r : client_ok c -> known c k -> typed k ->
  w_call m ip6 k (k_heap c) = (s, (Ret (KHdr x), h1)) -> learn c (Ret (KHdr x)) h1 = c' ->
  (client_ok c' -> rest (rename_hdr f x) (h ++ k_heap c') = (t, r)) ->
  wbind (c_hdr m ip6 (rename_call f k)) rest (h ++ k_heap c) = ((s ++ t)%string, r).
Proof.
  intros C K T W L R. unfold c_hdr. rewrite wbind_assoc. eapply later; eauto. intros C'.
  cbn [rename]. unfold wbind, run, ret. rewrite R by auto. reflexivity.
Qed.
Lemma later_unwrap {B} c k s x h1 c' (rest : hdr -> W B) t r : client_ok c -> known c k -> typed k ->
  w_call m ip6 k (k_heap c) = (s, (Ret (KHdr x), h1)) -> learn c (Ret (KHdr x)) h1 = c' ->
  (client_ok c' -> rest (rename_hdr f x) (h ++ k_heap c') = (t, r)) ->
  wbind (c_unwrap m ip6 (rename_call f k)) rest (h ++ k_heap c) = ((s ++ t)%string, r).
Proof.
  intros C K T W L R. unfold c_unwrap. rewrite wbind_assoc. eapply later; eauto. intros C'.
  cbn [rename]. unfold wbind, run, ret. rewrite R by auto. reflexivity.
Qed.
Lemma later_pkt {B} c k s x h1 c' (rest : packet -> W B) t r : client_ok c -> known c k -> typed k ->
  w_call m ip6 k (k_heap c) = (s, (Ret (KPkt x), h1)) -> learn c (Ret (KPkt x)) h1 = c' ->
  (client_ok c' -> rest (rename_pkt f x) (h ++ k_heap c') = (t, r)) ->
  wbind (c_pkt m ip6 (rename_call f k)) rest (h ++ k_heap c) = ((s ++ t)%string, r).
Proof.
  intros C K T W L R. unfold c_pkt. rewrite wbind_assoc. eapply later; eauto. intros C'.
  cbn [rename]. unfold wbind, run, ret. rewrite R by auto. reflexivity.
Qed.
Lemma later_num {B} c k s x h1 c' (rest : N -> W B) t r : client_ok c -> known c k -> typed k ->
  w_call m ip6 k (k_heap c) = (s, (Ret (KVal (VNum x)), h1)) -> learn c (Ret (KVal (VNum x))) h1 = c' ->
  (client_ok c' -> rest x (h ++ k_heap c') = (t, r)) ->
  wbind (c_num m ip6 (rename_call f k)) rest (h ++ k_heap c) = ((s ++ t)%string, r).
Proof.
  intros C K T W L R. unfold c_num. rewrite wbind_assoc. eapply later; eauto. intros C'.
  cbn [rename]. unfold wbind, run, ret. rewrite R by auto. reflexivity.
Qed.
Lemma later_bytes {B} c k s x h1 c' (rest : list N -> W B) t r : client_ok c -> known c k -> typed k ->
  w_call m ip6 k (k_heap c) = (s, (Ret (KVal (VBytes x)), h1)) -> learn c (Ret (KVal (VBytes x))) h1 = c' ->
  (client_ok c' -> rest x (h ++ k_heap c') = (t, r)) ->
  wbind (c_bytes m ip6 (rename_call f k)) rest (h ++ k_heap c) = ((s ++ t)%string, r).
Proof.
  intros C K T W L R. unfold c_bytes. rewrite wbind_assoc. eapply later; eauto. intros C'.
  cbn [rename]. unfold wbind, run, ret. rewrite R by auto. reflexivity.
Qed.
Lemma later_do {B} c k s x h1 c' (rest : unit -> W B) t r : client_ok c -> known c k -> typed k ->
  w_call m ip6 k (k_heap c) = (s, (Ret x, h1)) -> learn c (Ret x) h1 = c' ->
  (client_ok c' -> rest tt (h ++ k_heap c') = (t, r)) ->
  wbind (c_do m ip6 (rename_call f k)) rest (h ++ k_heap c) = ((s ++ t)%string, r).
Proof.
  intros C K T W L R. unfold c_do. rewrite wbind_assoc. eapply later; eauto. intros C'.
  cbn [rename]. unfold wbind, run, ret. rewrite R by auto. reflexivity.
Qed.
Lemma later_say {B} s (rest : unit -> W B) t r g : rest tt g = (t, r) -> wbind (say s) rest g = ((s ++ t)%string, r).
Proof. intros R. unfold wbind, say. rewrite R. reflexivity. Qed.
Lemma later_let {B} (c : W B) g t r : wbind c (fun a => run (ret a)) g = (t, r) -> c g = (t, r).
Proof.
  unfold wbind, run, ret. destruct (c g) as [s [[a|e| | |] h1]]; auto. rewrite append_nil_r. auto.
Qed.
End Later.

(** Runs the program in the goal, call by call. *)
Ltac unname f k :=
  let k1 := eval pattern (rename_hdr f), (rename_pkt f) in k in
  match k1 with ?F _ _ => let k2 := eval cbv beta in (F (fun x => x) (fun p => p)) in k2 end.
Ltac known_tac := try exact I; cbn [known hop_hdrs pmake_inner k_hdrs k_pkts k_shdrs];
  first [solve [intros ? []] | solve [intros ? [<-|[]]; cbn [In]; auto 20] | solve [repeat split; cbn [In]; auto 20]].
Ltac typed_tac := cbv beta iota delta [typed hmake_t pmake_t eth_t ip4_t tcp_t u8t u16t u32t u64t slice_ok];
  repeat match goal with |- _ /\ _ => split end;
  first [exact I | (apply bytes_okb_ok; vm_compute; reflexivity) | (vm_compute; reflexivity)].

(** Types of headers by name. *)
Ltac name_types t := match t with
  | context C [HT 0 ?n ?z ?fs ?d] => let t' := context C [Ether] in name_types t'
  | context C [HT 1 ?n ?z ?fs ?d] => let t' := context C [Vlan] in name_types t'
  | context C [HT 2 ?n ?z ?fs ?d] => let t' := context C [IPv4] in name_types t'
  | context C [HT 6 ?n ?z ?fs ?d] => let t' := context C [UDP] in name_types t'
  | context C [HT 5 ?n ?z ?fs ?d] => let t' := context C [TCP] in name_types t'
  | context C [HT 100 ?n ?z ?fs ?d] => let t' := context C [MyHeader] in name_types t'
  | _ => t end.
Ltac compute_to := match goal with |- ?a = _ =>
  let v := eval vm_compute in a in let v' := name_types v in
  transitivity v'; [vm_cast_no_check (@eq_refl _ v')|reflexivity] end.
Ltac step_with O6 h k lem :=
  let f := constr:(fun r => (length h + r)%nat) in
  let k0 := unname f k in
  match goal with C : client_ok ?c |- _ = _ =>
    eapply (lem _ c k0); [exact C|known_tac|typed_tac|compute_to|compute_to|clear C; intros C; cbv beta] end.
Ltac prog1 O6 h := match goal with
  | |- wbind (wbind _ _) _ _ = _ => rewrite wbind_assoc
  | |- wbind (new _ _ _) _ _ = _ => unfold new
  | |- wbind (push_new _ _ _ _) _ _ = _ => unfold push_new
  | |- wbind (doc_three _ _) _ _ = _ => unfold doc_three
  | |- wbind (print_num _) _ _ = _ => eapply later_say
  | |- wbind (print_bytes _) _ _ = _ => eapply later_say
  | |- wbind (c_hdr ?m ?ip6 ?k) _ _ = _ => step_with O6 h k (@later_hdr m ip6 h O6)
  | |- wbind (c_pkt ?m ?ip6 ?k) _ _ = _ => step_with O6 h k (@later_pkt m ip6 h O6)
  | |- wbind (c_num ?m ?ip6 ?k) _ _ = _ => step_with O6 h k (@later_num m ip6 h O6)
  | |- wbind (c_bytes ?m ?ip6 ?k) _ _ = _ => step_with O6 h k (@later_bytes m ip6 h O6)
  | |- wbind (c_do ?m ?ip6 ?k) _ _ = _ => step_with O6 h k (@later_do m ip6 h O6)
  | |- wbind (c_unwrap ?m ?ip6 ?k) _ _ = _ => step_with O6 h k (@later_unwrap m ip6 h O6)
  | |- wbind (w_call ?m ?ip6 ?k) _ _ = _ => step_with O6 h k (@later m ip6 h O6)
  end.
Ltac prog O6 h :=
  let C := fresh in assert (C : client_ok k_start) by (repeat split; once constructor);
  apply later_let; rewrite <- (app_nil_r h) at 1; change (@nil cell) with (k_heap k_start) at 1;
  etransitivity; [repeat prog1 O6 h; reflexivity|];
  cbv beta iota delta [rename_pkt rename_hdr p_hdrs p_payload map h_ty h_ref rename]; rewrite ?Nat.add_0_r;
  try (change (k_heap _) with (@nil cell); rewrite app_nil_r); f_equal; vm_compute; reflexivity.

(** ** examples/pkt.rs *)

Definition pkt_rs_text : string :=
  lines ["#### MyHeader         Size   Data";
     "-------------------------------------------";
     "field_1             :    3 : 00";
     "field_2             :    1 : 00";
     "field_3             :   12 : 00 0a";
     "field_4             :   16 : 08 00 ";
     "1";
     "#### MyHeader         Size   Data";
     "-------------------------------------------";
     "field_1             :    3 : 07";
     "field_2             :    1 : 01";
     "field_3             :   12 : 30 01";
     "field_4             :   16 : 08 ff ";
     "#### Ether            Size   Data";
     "-------------------------------------------";
     "dst                 :   48 : 00 01 02 03 04 05 ";
     "src                 :   48 : 06 07 08 09 0a 0b ";
     "etype               :   16 : 08 00 ";
     "2048";
     "#### Ether            Size   Data";
     "-------------------------------------------";
     "dst                 :   48 : 00 01 02 03 04 05 ";
     "src                 :   48 : 06 07 08 09 0a 0b ";
     "etype               :   16 : 81 00 ";
     "#### Ether            Size   Data";
     "-------------------------------------------";
     "dst                 :   48 : 00 11 11 11 11 11 ";
     "src                 :   48 : 00 11 11 11 11 11 ";
     "etype               :   16 : 81 00 ";
     "#### Ether            Size   Data";
     "-------------------------------------------";
     "dst                 :   48 : 00 01 02 03 04 05 ";
     "src                 :   48 : 06 07 08 09 0a 0b ";
     "etype               :   16 : 08 00 ";
     "#### IPv4             Size   Data";
     "-------------------------------------------";
     "version             :    4 : 04";
     "ihl                 :    4 : 05";
     "diffserv            :    8 : 00";
     "total_len           :   16 : 00 14 ";
     "identification      :   16 : 00 33 ";
     "flags               :    3 : 02";
     "frag_startset       :   13 : 06 1d";
     "ttl                 :    8 : 40";
     "protocol            :    8 : 06";
     "header_checksum     :   16 : fa ec ";
     "src                 :   32 : c0 a8 00 01 ";
     "dst                 :   32 : c0 a8 00 02 ";
     "#### UDP              Size   Data";
     "-------------------------------------------";
     "src                 :   16 : 04 d2 ";
     "dst                 :   16 : 00 50 ";
     "length              :   16 : 00 00 ";
     "checksum            :   16 : 00 00 ";
     "";
     "#### raw 42 bytes ####";
     "00 01 02 03 04 05 06 07 08 09 0a 0b 08 00 45 00 ";
     "00 14 00 33 40 dd 40 06 fa ec c0 a8 00 01 c0 a8 ";
     "00 02 04 d2 00 50 00 00 00 00 ";
     "[0, 1, 2, 3, 4, 5, 6, 7, 8, 9, 10, 11, 8, 0, 69, 0, 0, 20, 0, 51, 64, 221, 64, 6, 250, 236, 192, 168, 0, 1, 192, 168, 0, 2, 4, 210, 0, 80, 0, 0, 0, 0]";
     "#### Ether            Size   Data";
     "-------------------------------------------";
     "dst                 :   48 : 00 01 02 03 04 05 ";
     "src                 :   48 : 06 07 08 09 0a 0b ";
     "etype               :   16 : 08 00 ";
     "#### IPv4             Size   Data";
     "-------------------------------------------";
     "version             :    4 : 04";
     "ihl                 :    4 : 05";
     "diffserv            :    8 : 00";
     "total_len           :   16 : 00 14 ";
     "identification      :   16 : 00 33 ";
     "flags               :    3 : 02";
     "frag_startset       :   13 : 06 1d";
     "ttl                 :    8 : 40";
     "protocol            :    8 : 06";
     "header_checksum     :   16 : fa ec ";
     "src                 :   32 : c0 a8 00 01 ";
     "dst                 :   32 : c0 a8 00 02 ";
     "#### UDP              Size   Data";
     "-------------------------------------------";
     "src                 :   16 : 04 d2 ";
     "dst                 :   16 : 00 50 ";
     "length              :   16 : 00 00 ";
     "checksum            :   16 : 00 00 ";
     "";
     "#### raw 42 bytes ####";
     "00 01 02 03 04 05 06 07 08 09 0a 0b 08 00 45 00 ";
     "00 14 00 33 40 dd 40 06 fa ec c0 a8 00 01 c0 a8 ";
     "00 02 04 d2 00 50 00 00 00 00 ";
     "#### Ether            Size   Data";
     "-------------------------------------------";
     "dst                 :   48 : 00 01 02 03 04 05 ";
     "src                 :   48 : 00 06 07 08 09 0a ";
     "etype               :   16 : 08 00 ";
     "#### IPv4             Size   Data";
     "-------------------------------------------";
     "version             :    4 : 04";
     "ihl                 :    4 : 05";
     "diffserv            :    8 : 00";
     "total_len           :   16 : 00 8c ";
     "identification      :   16 : 00 73 ";
     "flags               :    3 : 00";
     "frag_startset       :   13 : 00 00";
     "ttl                 :    8 : 40";
     "protocol            :    8 : 06";
     "header_checksum     :   16 : 4f e3 ";
     "src                 :   32 : 0a 0a 0a 01 ";
     "dst                 :   32 : 0b 0b 0b 01 ";
     "#### TCP              Size   Data";
     "-------------------------------------------";
     "src                 :   16 : 23 82 ";
     "dst                 :   16 : 04 d2 ";
     "seq_no              :   32 : 00 00 00 64 ";
     "ack_no              :   32 : 00 00 00 65 ";
     "data_startset       :    4 : 05";
     "res                 :    4 : 00";
     "flags               :    8 : 10";
     "window              :   16 : 00 02 ";
     "checksum            :   16 : 00 00 ";
     "urgent_ptr          :   16 : 00 00 ";
     "";
     "#### raw 154 bytes ####";
     "00 01 02 03 04 05 00 06 07 08 09 0a 08 00 45 00 ";
     "00 8c 00 73 00 00 40 06 4f e3 0a 0a 0a 01 0b 0b ";
     "0b 01 23 82 04 d2 00 00 00 64 00 00 00 65 50 10 ";
     "00 02 00 00 00 00 00 01 02 03 04 05 06 07 08 09 ";
     "0a 0b 0c 0d 0e 0f 10 11 12 13 14 15 16 17 18 19 ";
     "1a 1b 1c 1d 1e 1f 20 21 22 23 24 25 26 27 28 29 ";
     "2a 2b 2c 2d 2e 2f 30 31 32 33 34 35 36 37 38 39 ";
     "3a 3b 3c 3d 3e 3f 40 41 42 43 44 45 46 47 48 49 ";
     "4a 4b 4c 4d 4e 4f 50 51 52 53 54 55 56 57 58 59 ";
     "5a 5b 5c 5d 5e 5f 60 61 62 63 "]%string.
(** The buffers it makes, in order: two of MyHeader, two of Ethernet headers, three of the UDP
    packet (its clone has the same), three of the TCP packet. *)
Definition pkt_rs_heap : heap :=
  [Cell [0; 10; 8; 0] false;
   Cell [243; 1; 8; 255] false;
   Cell [0; 1; 2; 3; 4; 5; 6; 7; 8; 9; 10; 11; 129; 0] false;
   Cell [0; 17; 17; 17; 17; 17; 0; 17; 17; 17; 17; 17; 129; 0] false;
   Cell [0; 1; 2; 3; 4; 5; 6; 7; 8; 9; 10; 11; 8; 0] false;
   Cell [69; 0; 0; 20; 0; 51; 64; 221; 64; 6; 250; 236; 192; 168; 0; 1; 192; 168; 0; 2] false;
   Cell [4; 210; 0; 80; 0; 0; 0; 0] false;
   Cell [0; 1; 2; 3; 4; 5; 0; 6; 7; 8; 9; 10; 8; 0] false;
   Cell [69; 0; 0; 140; 0; 115; 0; 0; 64; 6; 79; 227; 10; 10; 10; 1; 11; 11; 11; 1] false;
   Cell [35; 130; 4; 210; 0; 0; 0; 100; 0; 0; 0; 101; 80; 16; 0; 2; 0; 0; 0; 0] false].

(** In every state, built either way, the example runs to its end, prints that text, and leaves the
    buffers of the program before it as they were. *)
Theorem C73_pkt_rs : forall m ip6 h, octets16 ip6 ->
  pkt_rs m ip6 h = (pkt_rs_text, (Ret tt, h ++ pkt_rs_heap)).
Proof. intros m ip6 h O6. unfold pkt_rs. destruct m; prog O6 h. Qed.
Print Assumptions C73_pkt_rs.

(** ** The examples of the comments *)

Notation "'eth0'" := ([0; 1; 2; 3; 4; 5; 6; 7; 8; 9; 10; 11; 8; 0]) (only parsing).
Notation "'vlan0'" := ([0; 10; 8; 0]) (only parsing).
Notation "'ip0'" := ([69; 0; 0; 20; 0; 51; 64; 221; 64; 6; 250; 236; 192; 168; 0; 1; 192; 168; 0; 2]) (only parsing).
Notation "'tcp0'" := ([4; 210; 0; 80; 0; 0; 0; 0; 0; 0; 0; 0; 80; 2; 32; 0; 13; 44; 0; 0]) (only parsing).
Notation "'buf' d" := (Cell d false) (at level 10, d at level 9, only parsing).

(** lib.rs:28-30: sets [dst], prints the default [etype] in decimal. *)
Theorem C73_header : forall m ip6 h, octets16 ip6 ->
  doc_header m ip6 h =
  (lines ["2048"]%string, (Ret tt, h ++ [buf [0xaa; 0xbb; 0xcc; 0xdd; 0xee; 0xff; 6; 7; 8; 9; 10; 11; 8; 0]])).
Proof. intros m ip6 h O6. unfold doc_header. destruct m; prog O6 h. Qed.
Print Assumptions C73_header.

(** lib.rs:44-47: three headers in the order pushed, no payload. *)
Theorem C73_packet : forall m ip6 h, octets16 ip6 ->
  doc_packet m ip6 h =
  (EmptyString, (Ret (Pkt [Hdr Ether (length h); Hdr IPv4 (length h + 1)%nat; Hdr UDP (length h + 2)%nat] []),
    h ++ [buf eth0; buf ip0; buf [0x03; 0xff; 0x04; 0xd2; 0; 95; 0; 0]])).
Proof. intros m ip6 h O6. unfold doc_packet. destruct m; prog O6 h. Qed.
Print Assumptions C73_packet.

(** lib.rs:63-71: the parsed packet has the [etype] of the first, in buffers of its own. *)
Theorem C73_parse : forall m ip6 h, octets16 ip6 ->
  doc_parse m ip6 h =
  (lines ["2048"]%string, (Ret tt, h ++ [buf eth0; buf ip0; buf tcp0; buf eth0; buf ip0; buf tcp0])).
Proof. intros m ip6 h O6. unfold doc_parse. destruct m; prog O6 h. Qed.
Print Assumptions C73_parse.

(** lib.rs:97-102. *)
Theorem C73_define : forall m ip6 h, octets16 ip6 ->
  doc_define m ip6 h =
  (lines ["0";
     "#### MyHeader         Size   Data"; "-------------------------------------------";
     "field_1             :    3 : 00"; "field_2             :    1 : 01";
     "field_3             :   12 : 00 0a"; "field_4             :   16 : 08 00 "]%string,
   (Ret tt, h ++ [buf [0x10; 10; 8; 0]])).
Proof. intros m ip6 h O6. unfold doc_define. destruct m; prog O6 h. Qed.
Print Assumptions C73_define.

(** packet.rs:113-115. *)
Theorem C73_push : forall m ip6 h, octets16 ip6 ->
  doc_push m ip6 h =
  (EmptyString, (Ret (Pkt [Hdr Ether (length h)] []), h ++ [buf eth0])).
Proof. intros m ip6 h O6. unfold doc_push. destruct m; prog O6 h. Qed.
Print Assumptions C73_push.

(** packet.rs:125-127. *)
Theorem C73_insert : forall m ip6 h, octets16 ip6 ->
  doc_insert m ip6 h =
  (EmptyString, (Ret (Pkt [Hdr Ether (length h)] []), h ++ [buf eth0])).
Proof. intros m ip6 h O6. unfold doc_insert. destruct m; prog O6 h. Qed.
Print Assumptions C73_insert.

(** packet.rs:137-141 "vlan header is now popped from the packet". *)
Theorem C73_pop : forall m ip6 h, octets16 ip6 ->
  doc_pop m ip6 h =
  (EmptyString, (Ret (Pkt [Hdr Ether (length h)] []), h ++ [buf eth0; buf vlan0])).
Proof. intros m ip6 h O6. unfold doc_pop. destruct m; prog O6 h. Qed.
Print Assumptions C73_pop.

(** packet.rs:153-158 "vlan header is now removed from the packet". *)
Theorem C73_remove : forall m ip6 h, octets16 ip6 ->
  doc_remove m ip6 h =
  (EmptyString, (Ret (Pkt [Hdr Ether (length h); Hdr IPv4 (length h + 2)%nat] []), h ++ [buf eth0; buf vlan0; buf ip0])).
Proof. intros m ip6 h O6. unfold doc_remove. destruct m; prog O6 h. Qed.
Print Assumptions C73_remove.

(** packet.rs:187-194: the assertion holds. *)
Theorem C73_payload : forall m ip6 h, octets16 ip6 ->
  doc_payload m ip6 h =
  (EmptyString, (Ret (Pkt [Hdr Ether (length h); Hdr Vlan (length h + 1)%nat; Hdr IPv4 (length h + 2)%nat] [1; 2; 3; 4; 5]),
    h ++ [buf eth0; buf vlan0; buf ip0])).
Proof. intros m ip6 h O6. unfold doc_payload. destruct m; prog O6 h. Qed.
Print Assumptions C73_payload.

(** packet.rs:205-219: the three ways to a header give the same header. *)
Theorem C73_get : forall m ip6 h, octets16 ip6 ->
  doc_get m ip6 h =
  (lines ["2048"; "2048"; "2048"]%string, (Ret tt, h ++ [buf eth0])).
Proof. intros m ip6 h O6. unfold doc_get. destruct m; prog O6 h. Qed.
Print Assumptions C73_get.

(** packet.rs:236-245: the packet's own header is written. *)
Theorem C73_get_mut : forall m ip6 h, octets16 ip6 ->
  doc_get_mut m ip6 h =
  (EmptyString, (Ret (Pkt [Hdr Ether (length h)] []), h ++ [buf [0; 1; 2; 3; 4; 5; 6; 7; 8; 9; 10; 11; 0x99; 0x99]])).
Proof. intros m ip6 h O6. unfold doc_get_mut. destruct m; prog O6 h. Qed.
Print Assumptions C73_get_mut.

(** packet.rs:306-307: a packet without headers prints an empty dump. *)
Theorem C73_new : forall m ip6 h, octets16 ip6 ->
  doc_new m ip6 h =
  (lines [""; "#### raw 0 bytes ####"; ""]%string, (Ret tt, h)).
Proof. intros m ip6 h O6. unfold doc_new. destruct m; prog O6 h. Qed.
Print Assumptions C73_new.

(** packet.rs:322-324. *)
Theorem C73_compare : forall m ip6 h, octets16 ip6 ->
  doc_compare m ip6 h =
  (EmptyString, (Ret (KBool true), h)).
Proof. intros m ip6 h O6. unfold doc_compare. destruct m; prog O6 h. Qed.
Print Assumptions C73_compare.

(** packet.rs:336-338. *)
Theorem C73_compare_slice : forall m ip6 h, octets16 ip6 ->
  doc_compare_slice m ip6 h =
  (EmptyString, (Ret (KBool true), h)).
Proof. intros m ip6 h O6. unfold doc_compare_slice. destruct m; prog O6 h. Qed.
Print Assumptions C73_compare_slice.

(** packet.rs:382-383. *)
Theorem C73_to_vec : forall m ip6 h, octets16 ip6 ->
  doc_to_vec m ip6 h =
  (EmptyString, (Ret [], h)).
Proof. intros m ip6 h O6. unfold doc_to_vec. destruct m; prog O6 h. Qed.
Print Assumptions C73_to_vec.

(** README.md:48-60: what the example does print. *)
Theorem C73_readme_header : forall m ip6 h, octets16 ip6 ->
  readme_header m ip6 h =
  (lines ["0";
     "#### MyHeader         Size   Data";
     "-------------------------------------------";
     "field_1             :    3 : 00";
     "field_2             :    1 : 01";
     "field_3             :   12 : 00 0a";
     "field_4             :   16 : 08 00 "]%string,
   (Ret tt, h ++ [buf [0x10; 10; 8; 0]])).
Proof. intros m ip6 h O6. unfold readme_header. destruct m; prog O6 h. Qed.
Print Assumptions C73_readme_header.

(** README.md:75-106: what the example does print. *)
Theorem C73_readme_packet : forall m ip6 h, octets16 ip6 ->
  readme_packet m ip6 h =
  (lines ["#### Ether            Size   Data";
     "-------------------------------------------";
     "dst                 :   48 : 00 01 02 03 04 05 ";
     "src                 :   48 : 06 07 08 09 0a 0b ";
     "etype               :   16 : 08 00 ";
     "#### IPv4             Size   Data";
     "-------------------------------------------";
     "version             :    4 : 04";
     "ihl                 :    4 : 05";
     "diffserv            :    8 : 00";
     "total_len           :   16 : 00 14 ";
     "identification      :   16 : 00 33 ";
     "flags               :    3 : 02";
     "frag_startset       :   13 : 06 1d";
     "ttl                 :    8 : 40";
     "protocol            :    8 : 06";
     "header_checksum     :   16 : fa ec ";
     "src                 :   32 : c0 a8 00 01 ";
     "dst                 :   32 : c0 a8 00 02 ";
     "";
     "#### raw 34 bytes ####";
     "00 01 02 03 04 05 06 07 08 09 0a 0b 08 00 45 00 ";
     "00 14 00 33 40 dd 40 06 fa ec c0 a8 00 01 c0 a8 ";
     "00 02 ";
     "2048"]%string,
   (Ret (Pkt [Hdr Ether (length h); Hdr IPv4 (length h + 1)%nat] []),
    h ++ [buf [0; 1; 2; 3; 4; 5; 6; 7; 8; 9; 10; 11; 0x11; 0x11]; buf ip0])).
Proof. intros m ip6 h O6. unfold readme_packet. destruct m; prog O6 h. Qed.
Print Assumptions C73_readme_packet.

(** ** The output shown in README.md *)

(** What [show] prints is a heading and a line for each field. *)
Lemma text_lines T d s : header_text T d s ->
  exists ls, s = lines (("#### " ++ ht_name T ++ blanks (16 - String.length (ht_name T)) ++ " Size   Data")%string ::
      "-------------------------------------------"%string :: ls) /\
    Forall2 (fun f l => field_line d f (l ++ String nl "")%string) (ht_fields T) ls.
Proof.
  intros (tl & F & ->).
  assert (X : exists ls, tl = map (fun s => (s ++ String nl "")%string) ls /\
    Forall2 (fun f l => field_line d f (l ++ String nl "")%string) (ht_fields T) ls).
  { induction F as [|f t fs ts L F (ls & -> & G)]; [exists []; auto|].
    pose proof L as L0. destruct L as (n & g & _ & _ & ->).
    eexists ((f_name f ++ blanks (20 - String.length (f_name f)) ++ ": " ++ blanks (4 - String.length n) ++ n ++ " : " ++ g)%string :: ls).
    cbn [map]. rewrite !append_assoc. split; auto. constructor; auto. rewrite !append_assoc. exact L0. }
  destruct X as (ls & -> & G). exists ls. split; auto. unfold lines. cbn [map]. rewrite !concat_cons, !append_assoc. reflexivity.
Qed.

(** A value of [w] bits that is not whole octets: the last group begins with the last bit of the group before. *)
Lemma overlap w v a b : (8 < w < 16)%nat -> a < 256 -> b < 256 -> groups w v (hex2 a ++ " " ++ hex2 b) ->
  b / 2 ^ N.of_nat (w mod 8) = a mod 2.
Proof.
  intros W A B G. assert (E8 : (w / 8 = 1)%nat) by (symmetry; apply (Nat.div_unique _ _ _ (w - 8)); lia).
  assert (M8 : (w mod 8 = w - 8)%nat) by (symmetry; apply (Nat.mod_unique _ _ 1); lia).
  remember (hex2 a ++ " " ++ hex2 b)%string as s eqn:Es. destruct G as [L|l L R|l L R N1 O1 V1]; try lia.
  rewrite E8 in N1. destruct l as [|x [|y l]]; try discriminate N1.
  inversion O1; subst.
  pose proof (hexes_app_inj [x] [a] (hex2 (v mod 2 ^ N.of_nat (S (w mod 8)))) (hex2 b) eq_refl O1) as I.
  cbn [hexes] in I. rewrite !append_assoc in I. cbn [append] in *. destruct I as [Ia Ib]; auto.
  { repeat constructor; auto. }
  injection Ia as ->. set (k := N.of_nat (w mod 8)) in *.
  assert (K : N.of_nat (S (w mod 8)) = k + 1) by (unfold k; lia). rewrite K in Ib.
  assert (P : 2 ^ (k + 1) = 2 ^ k * 2) by (rewrite N.pow_add_r; reflexivity).
  assert (P0 : 2 ^ k <> 0) by (apply N.pow_nonzero; lia).
  apply hex2_inj in Ib; auto.
  - subst b. rewrite P, N.mod_mul_r by lia. replace (be [a]) with a in V1 by (cbn; lia). subst a.
    rewrite N.mul_comm, N.div_add by auto. rewrite N.div_small by (apply N.mod_lt; auto). lia.
  - assert (v mod 2 ^ (k + 1) < 2 ^ (k + 1)) by (apply N.mod_lt, N.pow_nonzero; lia).
    assert (2 ^ (k + 1) <= 2 ^ 8) by (apply N.pow_le_mono_r; unfold k; lia). change (2 ^ 8) with 256 in *. lia.
Qed.

(** A line that shows such a value as two groups. *)
Lemma overlap_line d f l w g a b : field_line d f (l ++ String nl "") -> f_width f = w ->
  (9 < w < 16)%nat -> a < 256 -> b < 256 -> g = (hex2 a ++ " " ++ hex2 b)%string ->
  l = (f_name f ++ blanks (20 - String.length (f_name f)) ++ ": " ++ "  " ++ fmt_num 10 (N.of_nat w) ++ " : " ++ g)%string ->
  b / 2 ^ N.of_nat (w mod 8) = a mod 2.
Proof.
  intros (n & s & D & G & E) <- W A B -> ->. rewrite !append_assoc in E.
  apply app_cancel_l in E. apply app_cancel_l in E. cbn [append] in E. injection E as E.
  assert (N2 : n = fmt_num 10 (N.of_nat (f_width f)) /\ s = (hex2 a ++ " " ++ hex2 b)%string).
  { assert (Fn : exists c1 c2, fmt_num 10 (N.of_nat (f_width f)) = String c1 (String c2 "") /\ c1 <> " "%char).
    { assert (X : (f_width f = 10 \/ f_width f = 11 \/ f_width f = 12 \/ f_width f = 13 \/ f_width f = 14 \/ f_width f = 15)%nat) by lia.
      destruct X as [X|[X|[X|[X|[X|X]]]]]; rewrite X; do 2 eexists; (split; [vm_compute; reflexivity|discriminate]). }
    destruct Fn as (c1 & c2 & Ef & Nc). rewrite Ef in *. destruct D as (Nu & NE & _).
    assert (Sp : forall t v, ~ numeral 10 (String " " t) v).
    { intros t v X. inversion X as [|? ? ? ? Dg]; subst. destruct Dg as [_ [(k & ? & ? & Dg)|[(k & ? & ? & Dg)|(k & ? & ? & Dg)]]]; change (N_of_ascii " ") with 32 in Dg; lia. }
    destruct n as [|x1 [|x2 [|x3 [|x4 n]]]]; cbn [String.length blanks Nat.sub append] in E; try congruence.
    - injection E as <- <- E. split; auto. apply (app_cancel_r _ _ nl). rewrite <- E. reflexivity.
    - injection E as <- _. destruct (Sp _ _ Nu).
    - injection E as <- _. destruct (Sp _ _ Nu). }
  destruct N2 as [-> ->]. eapply overlap; eauto. lia.
Qed.

Lemma same_length {A B} (R : A -> B -> Prop) l l' : Forall2 R l l' -> length l = length l'.
Proof. induction 1; cbn [length]; auto. Qed.

(** No MyHeader prints the README's line for [field_3], and no IPv4 header its line for
    [frag_startset] (README.md:68, 93), whatever bytes it holds. *)
Theorem C73_readme_never : forall m ip6 h r d,
  cell_at h r d -> bytes_ok d ->
  ((4 <= length d)%nat -> exists ls,
    w_call m ip6 (K_hshow (Hdr MyHeader r)) h =
      (lines ("#### MyHeader         Size   Data" :: "-------------------------------------------" :: ls)%string, (Ret (KVal VUnit), h)) /\
    length ls = 4%nat /\ ~ In "field_3             :   12 : 00 10"%string ls) /\
  ((20 <= length d)%nat -> exists ls,
    w_call m ip6 (K_hshow (Hdr IPv4 r)) h =
      (lines ("#### IPv4             Size   Data" :: "-------------------------------------------" :: ls)%string, (Ret (KVal VUnit), h)) /\
    length ls = 12%nat /\ ~ In "frag_startset       :   13 : 06 29"%string ls).
Proof.
  intros m ip6 h r d Hc Hd. split; intros L.
  - destruct (C68_show m ip6 (Hdr MyHeader r) h d Hc Hd) as (s & E & X).
    { repeat constructor; cbn; lia. }
    destruct (text_lines _ _ _ X) as (ls & -> & F). exists ls. split; [exact E|]. cbn [ht_fields MyHeader h_ty] in F.
    split; [rewrite <- (same_length _ _ _ F); reflexivity|]. intros I.
    repeat (inversion F as [|? ? ? ? H1 F1]; subst; clear F; rename F1 into F;
      destruct I as [I|I]; [rewrite I in H1|clear H1]). all: try (inversion F; subst; destruct I; fail).
    all: try (destruct H1 as (n & g & _ & _ & I'); discriminate I').
    pose proof (overlap_line _ _ _ 12 "00 10" 0 0x10 H1) as O. discriminate O; reflexivity || lia.
  - destruct (C68_show m ip6 (Hdr IPv4 r) h d Hc Hd) as (s & E & X).
    { repeat constructor; cbn; lia. }
    destruct (text_lines _ _ _ X) as (ls & -> & F). exists ls. split; [exact E|]. cbn [ht_fields IPv4 h_ty] in F.
    split; [rewrite <- (same_length _ _ _ F); reflexivity|]. intros I.
    repeat (inversion F as [|? ? ? ? H1 F1]; subst; clear F; rename F1 into F;
      destruct I as [I|I]; [rewrite I in H1|clear H1]). all: try (inversion F; subst; destruct I; fail).
    all: try (destruct H1 as (n & g & _ & _ & I'); discriminate I').
    pose proof (overlap_line _ _ _ 13 "06 29" 0x06 0x29 H1) as O. discriminate O; reflexivity || lia.
Qed.
Print Assumptions C73_readme_never.

(** README.md:62-69 and 80-98 show other texts, even without the line "Raw:" and apart from blanks
    at the ends of lines. *)
Fixpoint trim (s : string) : string :=
  match s with
  | String " " (String "010" _ as t) => trim t
  | String c t => String c (trim t)
  | EmptyString => EmptyString
  end.
Definition readme_show : list string :=
  ["#### MyHeader         Size   Data"; "-------------------------------------------";
   "field_1             :    3 : 02"; "field_2             :    1 : 01";
   "field_3             :   12 : 00 10"; "field_4             :   16 : 08 00"]%string.
Definition readme_packet_show : list string :=
  ["#### Ether         Size   Data"; "-------------------------------------------";
   "dst                 :   48 : 00 01 02 03 04 05"; "src                 :   48 : 00 06 07 08 09 0a";
   "etype               :   16 : 08 00"; "#### IPv4             Size   Data";
   "-------------------------------------------"; "version             :    4 : 04";
   "ihl                 :    4 : 05"; "diffserv            :    8 : 00"; "total_len           :   16 : 00 14";
   "identification      :   16 : 00 33"; "flags               :    3 : 02"; "frag_startset       :   13 : 06 29";
   "ttl                 :    8 : 64"; "protocol            :    8 : 06"; "header_checksum     :   16 : fa ec";
   "src                 :   32 : c0 a8 00 01"; "dst                 :   32 : c0 a8 00 02"]%string.
(** Of the header's six lines two differ; of the packet's 19 lines four, and there is more. *)
Theorem C73_readme_refuted : forall m ip6 h, octets16 ip6 ->
  (exists l, trim (fst (readme_header m ip6 h)) = lines ("0"%string :: l) /\ length l = length readme_show /\
    map (fun k => String.eqb (nth k l ""%string) (nth k readme_show ""%string)) (seq 0 6) = [true; true; false; true; false; true]) /\
  (exists l, trim (fst (readme_packet m ip6 h)) = lines l /\ (length readme_packet_show < length l)%nat /\
    filter (fun k => negb (String.eqb (nth k l ""%string) (nth k readme_packet_show ""%string))) (seq 0 19) = [0; 3; 13; 14]%nat).
Proof.
  intros m ip6 h O6. rewrite C73_readme_header, C73_readme_packet by auto. cbn [fst]. split.
  - exists ["#### MyHeader         Size   Data"; "-------------------------------------------";
      "field_1             :    3 : 00"; "field_2             :    1 : 01";
      "field_3             :   12 : 00 0a"; "field_4             :   16 : 08 00"]%string. vm_compute. auto.
  - exists ["#### Ether            Size   Data";
      "-------------------------------------------";
      "dst                 :   48 : 00 01 02 03 04 05";
      "src                 :   48 : 06 07 08 09 0a 0b";
      "etype               :   16 : 08 00";
      "#### IPv4             Size   Data";
      "-------------------------------------------";
      "version             :    4 : 04";
      "ihl                 :    4 : 05";
      "diffserv            :    8 : 00";
      "total_len           :   16 : 00 14";
      "identification      :   16 : 00 33";
      "flags               :    3 : 02";
      "frag_startset       :   13 : 06 1d";
      "ttl                 :    8 : 40";
      "protocol            :    8 : 06";
      "header_checksum     :   16 : fa ec";
      "src                 :   32 : c0 a8 00 01";
      "dst                 :   32 : c0 a8 00 02";
      "";
      "#### raw 34 bytes ####";
      "00 01 02 03 04 05 06 07 08 09 0a 0b 08 00 45 00";
      "00 14 00 33 40 dd 40 06 fa ec c0 a8 00 01 c0 a8";
      "00 02";
      "2048"]%string. vm_compute. repeat split. repeat constructor.
Qed.
Print Assumptions C73_readme_refuted.

(** ** Witnesses *)

(** The condition: the standard library's parser of IPv6 addresses (Ipv6.v). *)
Example C73_example : octets16 ipv6_from_str /\
  fst (pkt_rs Release ipv6_from_str [Cell [1; 2] true]) = pkt_rs_text /\
  nth_error (snd (snd (pkt_rs Release ipv6_from_str [Cell [1; 2] true]))) 0 = Some (Cell [1; 2] true) /\
  length pkt_rs_heap = 10%nat.
Proof. split; [exact C65_octets16|]. vm_compute. auto. Qed.
(** A MyHeader whose [field_3] prints as "00 0a" and one whose [field_3] prints as "01 10". *)
Example C73_example_never :
  fst (w_call Debug ipv6_from_str (K_hshow (Hdr MyHeader 0)) [Cell [0; 0x0a; 8; 0] false]) =
    lines ["#### MyHeader         Size   Data"; "-------------------------------------------";
      "field_1             :    3 : 00"; "field_2             :    1 : 00";
      "field_3             :   12 : 00 0a"; "field_4             :   16 : 08 00 "]%string /\
  fst (w_call Debug ipv6_from_str (K_hshow (Hdr MyHeader 0)) [Cell [0; 0x10; 8; 0] false]) =
    lines ["#### MyHeader         Size   Data"; "-------------------------------------------";
      "field_1             :    3 : 00"; "field_2             :    1 : 00";
      "field_3             :   12 : 01 10"; "field_4             :   16 : 08 00 "]%string.
Proof. vm_compute. auto. Qed.
