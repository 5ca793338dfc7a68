(** PropTypes.v -- property C49: protocol numbers. *)

From Coq Require Import Lia.
From Verif Require Import Base Types.
Open Scope N_scope.

(** The assigned numbers (IANA protocol and EtherType registries, ERSPAN draft). *)
Definition ip_versions : list (N * IpType) := [(4, V4); (6, V6)].
Definition ip_protocols : list (N * IpProtocol) :=
  [(1, P_ICMP); (4, P_IPIP); (6, P_TCP); (17, P_UDP); (41, P_IPV6); (47, P_GRE); (58, P_ICMPV6)].
Definition ether_types : list (N * EtherType) :=
  [(0x0800, E_IPV4); (0x0806, E_ARP); (0x8100, E_DOT1Q); (0x86DD, E_IPV6); (0x8847, E_MPLS);
   (0x88BE, E_ERSPANII); (0x22EB, E_ERSPANIII)].
Definition erspan_versions : list (N * ErspanVersion) := [(1, EV_II); (2, EV_III)].

(** [try] reads the numbers of the table and nothing else; [code] writes them. *)
Definition converts {A} (bits : N) (table : list (N * A)) (try : N -> option A) (code : A -> N) : Prop :=
  (forall v t, try v = Some t <-> In (v, t) table) /\
  (forall v, try v = None <-> ~ In v (map fst table)) /\
  (forall t, In (code t, t) table) /\
  (forall t, try (code t) = Some t) /\
  (forall v t, try v = Some t -> code t = v) /\
  (forall t, code t < 2 ^ bits).

Fixpoint look {A} (table : list (N * A)) (v : N) : option A :=
  match table with
  | [] => None
  | (k, t) :: l => if v =? k then Some t else look l v
  end.
Lemma look_in {A} (table : list (N * A)) v t : NoDup (map fst table) -> (look table v = Some t <-> In (v, t) table).
Proof.
  induction table as [|[k u] l IH]; cbn [look map fst]; intros D.
  - split; [discriminate|intros []].
  - inversion D as [|? ? Hk D']; subst. destruct (N.eqb_spec v k) as [->|E].
    + split; [intros [= <-]; left; reflexivity|]. intros [[= ->]|I]; auto.
      destruct Hk. apply (in_map fst) in I. exact I.
    + rewrite (IH D'). split; [right; auto|]. intros [[= -> ->]|I]; [congruence|auto].
Qed.
Lemma look_none {A} (table : list (N * A)) v : look table v = None <-> ~ In v (map fst table).
Proof.
  induction table as [|[k u] l IH]; cbn [look map fst].
  - split; [intros _ []|reflexivity].
  - destruct (N.eqb_spec v k) as [->|E].
    + split; [discriminate|]. intros H. destruct H. left. reflexivity.
    + rewrite IH. split; [intros H [->|I]; [congruence|auto]|]. intros H I. apply H. right. auto.
Qed.
Lemma converts_intro {A} bits (table : list (N * A)) try code :
  NoDup (map fst table) -> NoDup (map snd table) -> (forall v, try v = look table v) ->
  (forall t, In (code t, t) table) -> Forall (fun p => fst p < 2 ^ bits) table -> converts bits table try code.
Proof.
  intros D D2 E C B. split; [intros; rewrite E; apply look_in; auto|].
  split; [intros; rewrite E; apply look_none|]. split; [exact C|].
  split; [intros t; rewrite E; apply look_in; auto|]. split.
  - intros v t H. rewrite E in H. apply look_in in H; auto. specialize (C t).
    revert D2 C H. generalize (code t) as c. clear. intros c.
    induction table as [|[k u] l IH]; cbn [map snd]; [intros _ []|]; intros D [H1|H1] [H2|H2].
    + congruence.
    + injection H1 as -> ->. apply NoDup_cons_iff in D as [Hn _]. destruct Hn. apply (in_map snd) in H2. exact H2.
    + injection H2 as -> ->. apply NoDup_cons_iff in D as [Hn _]. destruct Hn. apply (in_map snd) in H1. exact H1.
    + apply NoDup_cons_iff in D as [_ D]. auto.
  - intros t. rewrite Forall_forall in B. exact (B _ (C t)).
Qed.
Ltac nodup := repeat constructor; cbn; intuition discriminate.
Ltac conv := apply converts_intro; [nodup|nodup|reflexivity|intros []; cbn; auto 10|repeat constructor].

Theorem C49_ip_type : converts 8 ip_versions IpType_try_from IpType_code.
Proof. conv. Qed.
Print Assumptions C49_ip_type.
Theorem C49_ip_protocol : converts 8 ip_protocols IpProtocol_try_from IpProtocol_code.
Proof. conv. Qed.
Print Assumptions C49_ip_protocol.
Theorem C49_ether_type : converts 16 ether_types EtherType_try_from EtherType_code.
Proof. conv. Qed.
Print Assumptions C49_ether_type.
Theorem C49_erspan_version : converts 16 erspan_versions ErspanVersion_try_from ErspanVersion_code.
Proof. conv. Qed.
Print Assumptions C49_erspan_version.

Example C49_example : EtherType_try_from 0x86DD = Some E_IPV6 /\ EtherType_try_from 0x86DE = None /\
  IpProtocol_try_from 58 = Some P_ICMPV6 /\ IpType_try_from 5 = None.
Proof. repeat split. Qed.
