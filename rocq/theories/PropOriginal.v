(** PropOriginal.v -- C104: parsing loses nothing.

    [original] is in OriginalSpec.v, [reports] in PropTag.v. *)

From Coq Require Import Lia.
From Verif Require Import Base Bits BitsProofs Layout Heap HeapProofs Packet PacketProofs Slow Fast Spec Grammar GrammarProofs SlowProofs FastProofs
  PropPacket PropParse PanicProofs PanicCalls TagSpec TagProofs PropTag EncapSpec EncapProofs PropEncap OriginalSpec OriginalProofs.
Open Scope N_scope.

(** The input is the bytes of the headers, each run of GRE words last to first, and the payload. *)
Theorem C104_original : forall m f b l pl, bytes_ok b -> reports m f b l pl -> b = original [] l ++ pl.
Proof. intros m f b l pl Hb R. apply reports_wire in R; auto. destruct R as (gs & W & ->). eapply wire_original; eauto. Qed.
Print Assumptions C104_original.

(** The slow parser alone ... *)
Theorem C104_slow : forall m f b h p h' l, bytes_ok b -> slow m f b h = (Ret p, h') -> holds h' (p_hdrs p) l -> b = original [] l ++ p_payload p.
Proof.
  intros m f b h p h' l Hb E H. destruct (C34_slow_sound m f b h p h' Hb E) as (gs & W & H'). rewrite (holds_fun _ _ _ _ H H'). eapply wire_original; eauto.
Qed.
Print Assumptions C104_slow.

(** ... and the fast one. *)
Theorem C104_fast : forall m f b p, bytes_ok b -> fast m f b = Ret p ->
  b = original [] (map (fun x => (s_ty x, sas_slice x)) (ps_hdrs p)) ++ v_bytes (ps_payload p).
Proof.
  intros m f b p Hb E. destruct (C34_fast_sound m f b p Hb E) as (gs & W & H).
  assert (Q : map (fun x => (s_ty x, sas_slice x)) (ps_hdrs p) = reported gs).
  { clear W. unfold sholds in H. induction H as [|x [T d] hs l [A B] H IH]; [reflexivity|]. cbn [map fst snd] in *. rewrite A, B, IH. reflexivity. }
  rewrite Q. eapply wire_original; eauto.
Qed.
Print Assumptions C104_fast.

(** Two inputs of any two functions, of either parser in either build mode, with the same headers and payload are the same. *)
Theorem C104_injective : forall m m' f f' b b' h h1 p q, bytes_ok b -> bytes_ok b' ->
  slow m f b h = (Ret p, h1) -> fast m' f' b' = Ret q ->
  holds h1 (p_hdrs p) (map (fun x => (s_ty x, sas_slice x)) (ps_hdrs q)) -> p_payload p = v_bytes (ps_payload q) -> b = b'.
Proof.
  intros m m' f f' b b' h h1 p q Hb Hb' E E' H P. rewrite (C104_slow _ _ _ _ _ _ _ Hb E H), P. symmetry. eapply C104_fast; eauto.
Qed.
Print Assumptions C104_injective.
Theorem C104_same : forall m m' f f' b b' l pl, bytes_ok b -> bytes_ok b' -> reports m f b l pl -> reports m' f' b' l pl -> b = b'.
Proof. intros m m' f f' b b' l pl Hb Hb' R R'. rewrite (C104_original _ _ _ _ _ Hb R). symmetry. eapply C104_original; eauto. Qed.
Print Assumptions C104_same.

(** ** Concrete packets *)

Definition plain_ip : list N := [0x45] ++ repeat 0 19.
Lemma plain_ip_reports m : reports m F_ipv4 plain_ip [(IPv4, plain_ip)] [].
Proof.
  apply reports_wire; [repeat constructor|]. exists [[(IPv4, plain_ip)]; []]. split; [|reflexivity].
  apply (wire_one F_ipv4 IPv4 plain_ip [] F_accept); auto. eexists. split; [reflexivity|]. constructor.
Qed.
(** IPv4 in GRE with key [k] and sequence number [s]. *)
Example C104_example : forall m k s, bytes_ok k -> bytes_ok s -> length k = 4%nat -> length s = 4%nat ->
  let l := [(GRE, gre_head); (GRESequenceNum, s); (GREKey, k); (IPv4, plain_ip)] in
  reports m F_gre (gre_head ++ k ++ s ++ plain_ip) l [] /\ original [] l = gre_head ++ k ++ s ++ plain_ip.
Proof.
  intros m k s Hk Hs Lk Ls l. split.
  - assert (C : carries F_gre (gre_head ++ k ++ s) [(GRE, gre_head); (GRESequenceNum, s); (GREKey, k)] F_ipv4).
    { apply (Carries_gre gre_head [0x08; 0x00] F_ipv4 [9; 9; 9; 9] k s); auto. left. reflexivity. }
    pose proof (Encap_more _ _ _ _ _ _ _ C (Encap_none F_ipv4)) as E. rewrite app_nil_r in E.
    pose proof (proj2 (C103_encap m m _ _ _ _ plain_ip [(IPv4, plain_ip)] [] E ltac:(repeat apply ok_both; auto; repeat constructor) ltac:(repeat constructor)) (plain_ip_reports m)) as R.
    rewrite <- !app_assoc in R. exact R.
  - cbn -[gre_head plain_ip app]. rewrite !app_nil_r. rewrite <- !app_assoc. reflexivity.
Qed.

(** That the contents without the types tell inputs apart is false: optional words of GRE are labels to [parse_mpls], which keeps their order. *)
Theorem C104_contents_refuted : ~ forall m f f' b b' l l' pl, bytes_ok b -> bytes_ok b' -> reports m f b l pl -> reports m f' b' l' pl ->
  map snd l = map snd l' -> b = b'.
Proof.
  intros H. set (k := [9; 9; 9; 9]). set (s := [0; 0; 1; 0]).
  destruct (C104_example Debug k s) as [R _]; try reflexivity; try (repeat constructor).
  assert (R' : reports Debug F_mpls (gre_head ++ s ++ k ++ plain_ip) [(MPLS, gre_head); (MPLS, s); (MPLS, k); (IPv4, plain_ip)] []).
  { pose proof (Encap_more _ _ _ _ _ _ _ (Carries_label gre_head eq_refl eq_refl) (Encap_none F_mpls)) as E. rewrite app_nil_r in E.
    refine (proj2 (C103_encap Debug Debug _ _ _ _ (s ++ k ++ plain_ip) [(MPLS, s); (MPLS, k); (IPv4, plain_ip)] [] E ltac:(repeat constructor) ltac:(repeat constructor)) _).
    destruct (C103_bottom Debug Debug s k 0x45 (repeat 0 19) ltac:(repeat constructor) ltac:(repeat constructor) ltac:(repeat constructor) eq_refl eq_refl eq_refl) as (_ & Q & _).
    apply (proj2 (Q [(IPv4, plain_ip)] [])). exact (plain_ip_reports Debug). }
  assert (X : gre_head ++ k ++ s ++ plain_ip = gre_head ++ s ++ k ++ plain_ip); [|discriminate X].
  refine (H Debug F_gre F_mpls _ _ _ _ [] _ _ R R' _); [repeat constructor|repeat constructor|reflexivity].
Qed.
Print Assumptions C104_contents_refuted.
