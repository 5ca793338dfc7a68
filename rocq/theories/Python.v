(** Python.v -- the tables of the Python bindings (feature [python-module]).
    PyO3 itself is not modelled: a Python object is the header it wraps.
    [Packet::__add__] calls a method that does not exist in the crate
    ([push_boxed_header], packet.rs:269), so the feature does not compile; what is
    modelled is what the rest of the text says. *)

From Verif Require Import Base Layout Heap Packet Trait.
Open Scope N_scope.

(** headers.rs:101-123, [match self.name()]. *)
Definition to_object_table : list (string * htype) :=
  [ ("Ether"%string, Ether); ("ARP"%string, ARP); ("Vlan"%string, Vlan); ("ICMP"%string, ICMP);
    ("IPv4"%string, IPv4); ("IPv6"%string, IPv6); ("UDP"%string, UDP); ("TCP"%string, TCP);
    ("Vxlan"%string, Vxlan); ("Dot3"%string, Dot3); ("LLC"%string, LLC); ("SNAP"%string, SNAP);
    ("STP"%string, STP); ("GRE"%string, GRE); ("GREChksumOffset"%string, GREChksumOffset);
    ("GREKey"%string, GREKey); ("GRESequenceNum"%string, GRESequenceNum);
    ("ERSPAN2"%string, ERSPAN2); ("ERSPAN3"%string, ERSPAN3);
    ("ERSPANPLATFORM"%string, ERSPANPLATFORM); ("MPLS"%string, MPLS) ].
(** headers.rs:67-88, [match obj.str()?]. *)
Definition extract_table : list (string * htype) :=
  [ ("Ether"%string, Ether); ("ARP"%string, ARP); ("Vlan"%string, Vlan); ("ICMP"%string, ICMP);
    ("IPv4"%string, IPv4); ("IPv6"%string, IPv6); ("UDP"%string, UDP); ("TCP"%string, TCP);
    ("Vxlan"%string, Vxlan); ("Dot3"%string, Dot3); ("LLC"%string, LLC); ("SNAP"%string, SNAP);
    ("STP"%string, STP); ("GRE"%string, GRE); ("GREChksumOffset"%string, GREChksumOffset);
    ("GREKey"%string, GREKey); ("GRESequenceNum"%string, GRESequenceNum);
    ("ERSPAN2"%string, ERSPAN2); ("ERSPAN3"%string, ERSPAN3);
    ("ERSPANPLATFORM"%string, ERSPANPLATFORM); ("MPLS"%string, MPLS) ].
(** lib.rs:144-165, the classes of the module (without [Packet]). *)
Definition module_classes : list htype :=
  [Ether; LLC; SNAP; Dot3; Vlan; ARP; IPv4; IPv6; ICMP; UDP; TCP; Vxlan; GRE; GREChksumOffset;
   GREKey; GRESequenceNum; ERSPAN2; ERSPAN3; ERSPANPLATFORM; STP; MPLS].

Fixpoint lookup (l : list (string * htype)) (name : string) : option htype :=
  match l with
  | [] => None
  | (n, T) :: t => if String.eqb n name then Some T else lookup t name
  end.

(** headers.rs:98-126 [to_object]: [<X>::from(self)] of the type named, a panic otherwise. *)
Definition to_object (a : any_header) : M hdr :=
  match lookup to_object_table (d_name a) with
  | Some T => d_from_boxed T a
  | None => fail PDowncast
  end.

(** headers.rs:64-96 [extract]: [obj.str()] of a header object is its type's name
    (headers.rs:445-448); [X::extract] takes over the object's shared buffer
    (the derive at 298-302 reads attribute [data]). [None] is the [TypeError]. *)
Definition extract (x : hdr) : option hdr :=
  match lookup extract_table (hname x) with
  | Some T => Some (Hdr T (h_ref x))
  | None => None
  end.

(** packet.rs:279-285 [__getitem__]. *)
Definition getitem (p : packet) (name : string) : M hdr :=
  mlet x := index_name p name in to_object (Owned x).

(** packet.rs:296-300 [__setitem__]: the value is an [Ether], whatever the name. *)
Definition setitem (p : packet) (name : string) (value : hdr) : M unit :=
  match get_header Ether p name with
  | Some x => hreplace x value
  | None => fail PUnwrap
  end.
