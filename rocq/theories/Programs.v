(** Programs.v -- the programs the crate documents itself with: examples/pkt.rs, and the
    examples in the comments of src/lib.rs and src/packet.rs. They use the crate through
    its public calls only ([w_call] of Print.v) and go on with what the calls return. *)

From Verif Require Import Base Bits Types Layout Heap Packet Text Build Utils Slow Fast Show Trait Ops Client Print.
Open Scope N_scope.

(** ** What a program does with a call *)

Section Programs.
Variables (m : mode) (ip6 : string -> option (list N)).

(** A call and what it returns; the type checker sees to it that it is of that kind. *)
Definition c_hdr (k : call) : W hdr :=
  wlet v := w_call m ip6 k in match v with KHdr x => run (ret x) | _ => run (lift UB) end.
Definition c_pkt (k : call) : W packet :=
  wlet v := w_call m ip6 k in match v with KPkt p => run (ret p) | _ => run (lift UB) end.
Definition c_num (k : call) : W N :=
  wlet v := w_call m ip6 k in match v with KVal (VNum n) => run (ret n) | _ => run (lift UB) end.
Definition c_bytes (k : call) : W (list N) :=
  wlet v := w_call m ip6 k in match v with KVal (VBytes d) => run (ret d) | _ => run (lift UB) end.
Definition c_do (k : call) : W unit := wlet _ := w_call m ip6 k in run (ret tt).
(** [p.get_header(name).unwrap()]. *)
Definition c_unwrap (k : call) : W hdr :=
  wlet v := w_call m ip6 k in match v with KHdr x => run (ret x) | _ => run (fail PUnwrap) end.

(** [println!("{}", n)] of an integer, [println!("{:?}", v)] of a [Vec<u8>]. *)
Definition print_num (n : N) : W unit := say (fmt_num 10 n ++ newline)%string.
Definition debug_bytes (d : list N) : string := ("[" ++ String.concat ", " (map (fmt_num 10) d) ++ "]")%string.
Definition print_bytes (d : list N) : W unit := say (debug_bytes d ++ newline)%string.

Definition new (T : htype) : W hdr := c_hdr (K_hdr (ONew T)).
Definition push_new (p : packet) (T : htype) : W packet :=
  wlet x := new T in c_pkt (K_push p (Owned x)).

(** ** examples/pkt.rs *)

(** pkt.rs:9-18 (also lib.rs:85-94 and README.md). *)
Definition MyHeader_field_1 : field := Fld "field_1" 0 2.
Definition MyHeader_field_2 : field := Fld "field_2" 3 3.
Definition MyHeader_field_3 : field := Fld "field_3" 4 15.
Definition MyHeader_field_4 : field := Fld "field_4" 16 31.
Definition MyHeader : htype :=
  HT 100 "MyHeader" 4 [MyHeader_field_1; MyHeader_field_2; MyHeader_field_3; MyHeader_field_4] [0; 0xa; 0x8; 0].

(** pkt.rs:8-93 [main]. *)
Definition pkt_rs : W unit :=
  wlet hdr := new MyHeader in
  wlet _ := c_do (K_hshow hdr) in
  wlet hdr := c_hdr (K_hdr (OFrom MyHeader [0xF3; 0x01; 0x08; 0xFF])) in
  wlet v := c_num (K_hdr (OGet hdr MyHeader_field_2)) in
  wlet _ := print_num v in
  wlet _ := c_do (K_hdr (OSet hdr MyHeader_field_2 1)) in
  wlet _ := c_do (K_hshow hdr) in
  wlet eth := new Ether in
  wlet _ := c_do (K_hshow eth) in
  wlet etype := c_num (K_hdr (OGet eth Ether_etype)) in
  wlet _ := print_num etype in
  wlet _ := c_do (K_hdr (OSet eth Ether_etype 0x8100)) in
  wlet _ := c_do (K_hshow eth) in
  wlet eth := c_hdr (K_make (H_ethernet "00:11:11:11:11:11" "00:11:11:11:11:11" 0x8100)) in
  wlet _ := c_do (K_hshow eth) in
  wlet pkt := c_pkt K_pnew in
  wlet pkt := push_new pkt Ether in
  wlet pkt := push_new pkt IPv4 in
  wlet pkt := push_new pkt UDP in
  wlet _ := c_do (K_pshow pkt) in
  wlet v := c_bytes (K_pto_vec pkt) in
  wlet _ := print_bytes v in
  wlet new_pkt := c_pkt (K_pclone pkt) in
  wlet _ := c_do (K_pshow new_pkt) in
  let payload := map N.of_nat (seq 0 100) in
  wlet pkt := c_pkt (K_create (P_tcp4 (EthA "00:01:02:03:04:05" "00:06:07:08:09:0a" false 10 3)
    (Ip4A 5 "10.10.10.1" "11.11.11.1" 0 64 115 0) (TcpA 1234 9090 100 101 5 0 0x10 2 0) payload)) in
  c_do (K_pshow pkt).

(** ** src/lib.rs *)

(** lib.rs:28-30. *)
Definition doc_header : W unit :=
  wlet eth := new Ether in
  wlet _ := c_do (K_hdr (OSet eth Ether_dst 0xaabbccddeeff)) in
  wlet v := c_num (K_hdr (OGet eth Ether_etype)) in
  print_num v.
(** lib.rs:44-47. *)
Definition doc_packet : W packet :=
  wlet pkt := c_pkt K_pnew in
  wlet pkt := push_new pkt Ether in
  wlet pkt := push_new pkt IPv4 in
  wlet udp := c_hdr (K_make (H_udp 1023 1234 95)) in
  c_pkt (K_push pkt (Owned udp)).
(** lib.rs:63-71. *)
Definition doc_parse : W unit :=
  wlet data := c_pkt K_pnew in
  wlet data := push_new data Ether in
  wlet data := push_new data IPv4 in
  wlet data := push_new data TCP in
  wlet data := c_bytes (K_pto_vec data) in
  wlet pkt := c_pkt (K_parse F_parse data) in
  wlet x := c_hdr (K_index pkt "Ether") in
  wlet eth := c_hdr (K_downcast Ether x) in
  wlet v := c_num (K_hdr (OGet eth Ether_etype)) in
  print_num v.
(** lib.rs:97-102. *)
Definition doc_define : W unit :=
  wlet hdr := new MyHeader in
  wlet v := c_num (K_hdr (OGet hdr MyHeader_field_2)) in
  wlet _ := print_num v in
  wlet _ := c_do (K_hdr (OSet hdr MyHeader_field_2 1)) in
  c_do (K_hshow hdr).

(** ** src/packet.rs *)

(** packet.rs:113-115. *)
Definition doc_push : W packet :=
  wlet pkt := c_pkt K_pnew in
  wlet eth := new Ether in
  c_pkt (K_push pkt (Owned eth)).
(** packet.rs:125-127. *)
Definition doc_insert : W packet :=
  wlet pkt := c_pkt K_pnew in
  wlet eth := new Ether in
  c_pkt (K_insert pkt (Owned eth)).
(** packet.rs:137-141. *)
Definition doc_pop : W packet :=
  wlet pkt := c_pkt K_pnew in
  wlet pkt := push_new pkt Ether in
  wlet pkt := push_new pkt Vlan in
  c_pkt (K_pop pkt).
(** packet.rs:153-156, 170-173, 187-190. *)
Definition doc_three : W packet :=
  wlet pkt := c_pkt K_pnew in
  wlet pkt := push_new pkt Ether in
  wlet pkt := push_new pkt Vlan in
  push_new pkt IPv4.
(** packet.rs:153-158. *)
Definition doc_remove : W packet := wlet pkt := doc_three in c_pkt (K_remove pkt 1).
(** packet.rs:187-194; without the [assert_eq!], packet.rs:170-176. *)
Definition doc_payload : W packet :=
  wlet pkt := doc_three in
  let pld := [1; 2; 3; 4; 5] in
  wlet pkt := c_pkt (K_set_payload pkt pld) in
  wlet _ := run (if list_eq_dec N.eq_dec (p_payload pkt) pld then ret tt else fail PAssert) in
  run (ret pkt).
(** packet.rs:205-219. *)
Definition doc_get : W unit :=
  wlet pkt := c_pkt K_pnew in
  wlet pkt := push_new pkt Ether in
  wlet x := c_unwrap (K_get_header Ether pkt "Ether") in
  wlet v := c_num (K_hdr (OGet x Ether_etype)) in
  wlet _ := print_num v in
  wlet y := c_hdr (K_index pkt "Ether") in
  wlet x := c_hdr (K_downcast Ether y) in
  wlet v := c_num (K_hdr (OGet x Ether_etype)) in
  wlet _ := print_num v in
  wlet y := c_hdr (K_index pkt "Ether") in
  wlet x := c_hdr (K_downcast Ether y) in
  wlet v := c_num (K_hdr (OGet x Ether_etype)) in
  print_num v.
(** packet.rs:236-245. *)
Definition doc_get_mut : W packet :=
  wlet pkt := c_pkt K_pnew in
  wlet pkt := push_new pkt Ether in
  wlet x := c_unwrap (K_get_header Ether pkt "Ether") in
  wlet _ := c_do (K_hdr (OSet x Ether_etype 0x9999)) in
  wlet y := c_hdr (K_index pkt "Ether") in
  wlet x := c_hdr (K_downcast Ether y) in
  wlet _ := c_do (K_hdr (OSet x Ether_etype 0x9999)) in
  run (ret pkt).
(** packet.rs:306-307. *)
Definition doc_new : W unit := wlet pkt := c_pkt K_pnew in c_do (K_pshow pkt).
(** packet.rs:322-324. *)
Definition doc_compare : W kres :=
  wlet pkt := c_pkt K_pnew in
  wlet other := c_pkt K_pnew in
  w_call m ip6 (K_compare pkt other).
(** packet.rs:336-338. *)
Definition doc_compare_slice : W kres :=
  wlet pkt := c_pkt K_pnew in
  wlet other := c_pkt K_pnew in
  wlet v := c_bytes (K_pto_vec other) in
  w_call m ip6 (K_compare_slice pkt v).
(** packet.rs:382-383. *)
Definition doc_to_vec : W (list N) := wlet pkt := c_pkt K_pnew in c_bytes (K_pto_vec pkt).
(** ** README.md *)

(** README.md:48-60 (without the second constructor, which is not Rust, and [octets()], which no
    header has). *)
Definition readme_header : W unit :=
  wlet hdr := new MyHeader in
  wlet v := c_num (K_hdr (OGet hdr MyHeader_field_2)) in
  wlet _ := print_num v in
  wlet _ := c_do (K_hdr (OSet hdr MyHeader_field_2 1)) in
  wlet hdr_new := c_hdr (K_hdr (OClone hdr)) in
  c_do (K_hshow hdr).
(** README.md:75-106 ([Packet::new] without the argument it does not take). *)
Definition readme_packet : W packet :=
  wlet pkt := c_pkt K_pnew in
  wlet pkt := push_new pkt Ether in
  wlet pkt := push_new pkt IPv4 in
  wlet _ := c_do (K_pshow pkt) in
  wlet y := c_hdr (K_index pkt "Ether") in
  wlet x := c_hdr (K_downcast Ether y) in
  wlet v := c_num (K_hdr (OGet x Ether_etype)) in
  wlet _ := print_num v in
  wlet y := c_hdr (K_index pkt "Ether") in
  wlet x := c_hdr (K_downcast Ether y) in
  wlet _ := c_do (K_hdr (OSet x Ether_etype 0x1111)) in
  run (ret pkt).
End Programs.
