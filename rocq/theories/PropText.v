(** PropText.v -- properties C22 and C23: address texts. *)

From Coq Require Import Lia.
From Verif Require Import Base Types Text Layout Heap Spec BitsProofs TextProofs.
Open Scope N_scope.

(** * C22 *)

Theorem C22_mac : forall s b, to_mac_bytes s = Ret b <-> mac_text s b.
Proof. exact mac_ret. Qed.
Print Assumptions C22_mac.

Theorem C22_mac_panics : forall s, to_mac_bytes s = Panic PIndex <-> addr_too_long ":"%char 6 s.
Proof. intros s. apply fill_panic. lia. Qed.
Print Assumptions C22_mac_panics.

(** Nothing else can happen, and the result is six octets. *)
Theorem C22_mac_total : forall s,
  (exists b, to_mac_bytes s = Ret b /\ length b = 6%nat /\ bytes_ok b) \/ to_mac_bytes s = Panic PIndex.
Proof.
  intros s. destruct (addr_total ":"%char 16 6 s) as [[b H]|H]; [lia| |].
  - left. exists b. split; [apply mac_ret; exact H|]. split; [eapply mac_len; exact H|eapply mac_ok; exact H].
  - right. apply C22_mac_panics; auto.
Qed.
Print Assumptions C22_mac_total.

Lemma all_bytes (P : N -> bool) : forallb P (map N.of_nat (seq 0 256)) = true ->
  forall b, b < 256 -> P b = true.
Proof.
  intros H b L. rewrite forallb_forall in H. apply H. apply in_map_iff.
  exists (N.to_nat b). split; [apply N2Nat.id|]. apply in_seq. lia.
Qed.

Fixpoint has_char (c : ascii) (s : string) : bool :=
  match s with EmptyString => false | String a t => Ascii.eqb a c || has_char c t end.
Lemma has_char_in c s : has_char c s = false -> ~ char_in c s.
Proof.
  induction s as [|a t IH]; simpl; auto. intros H [->|I].
  - rewrite Ascii.eqb_refl in H. discriminate.
  - apply orb_false_iff in H as [_ H]. apply IH; auto.
Qed.

Lemma print_ok radix (pr : N -> string) sep :
  1 < radix ->
  forallb (fun b => match from_str_radix radix (pr b) with Some x => N.eqb x b | None => false end
                    && negb (has_char sep (pr b))) (map N.of_nat (seq 0 256)) = true ->
  forall n l, length l = n -> n <> 0%nat -> bytes_ok l ->
  addr_text sep radix n (join sep (map pr l)) l.
Proof.
  intros Hr H n l <- N0 Hl. pose proof (all_bytes _ H) as P. clear H.
  assert (Q : forall b, b < 256 -> part_val radix (pr b) b /\ ~ char_in sep (pr b)).
  { intros b Hb. specialize (P b Hb). cbv beta in P. apply andb_true_iff in P as [P1 P2].
    destruct (from_str_radix radix (pr b)) as [x|] eqn:E; [|discriminate].
    apply N.eqb_eq in P1. subst x. split.
    - left. apply from_str_radix_spec; auto.
    - apply has_char_in. destruct (has_char sep (pr b)); auto; discriminate. }
  exists (map pr l), l. split; auto. split; [destruct l; [simpl in N0; congruence|discriminate]|]. split.
  - apply Forall_forall. intros s Hs. apply in_map_iff in Hs as (b & <- & Hb).
    apply Q. unfold bytes_ok in Hl. rewrite Forall_forall in Hl. apply Hl; auto.
  - split; [|rewrite Nat.sub_diag; cbn [repeat]; rewrite app_nil_r; auto].
    clear N0. induction Hl; cbn [map]; constructor; auto. apply Q; auto.
Qed.

(** Printing and reading back. *)
Theorem C22_mac_roundtrip : forall b, length b = 6%nat -> bytes_ok b ->
  to_mac_bytes (join ":"%char (map hex2 b)) = Ret b.
Proof.
  intros b L H. apply mac_ret. unfold mac_text.
  apply (print_ok 16 hex2 ":"%char); [lia|vm_compute; reflexivity|exact L|discriminate|exact H].
Qed.
Print Assumptions C22_mac_roundtrip.

Example C22_example :
  to_mac_bytes "00:Ab:+7:zz:100" = Ret [0; 171; 7; 0; 0; 0] /\
  to_mac_bytes "1:2:3:4:5:6:7" = Panic PIndex /\
  join ":"%char (map hex2 [0; 17; 34; 51; 171; 255]) = "00:11:22:33:ab:ff"%string.
Proof. repeat split. Qed.

(** * C23 *)

Theorem C23_ipv4 : forall s b, to_ipv4_bytes s = Ret b <-> ipv4_text s b.
Proof. exact ipv4_ret. Qed.
Print Assumptions C23_ipv4.

Theorem C23_ipv4_panics : forall s, to_ipv4_bytes s = Panic PIndex <-> addr_too_long "."%char 4 s.
Proof. intros s. apply fill_panic. lia. Qed.
Print Assumptions C23_ipv4_panics.

Theorem C23_ipv4_total : forall s,
  (exists b, to_ipv4_bytes s = Ret b /\ length b = 4%nat /\ bytes_ok b) \/ to_ipv4_bytes s = Panic PIndex.
Proof.
  intros s. destruct (addr_total "."%char 10 4 s) as [[b H]|H]; [lia| |].
  - left. exists b. split; [apply ipv4_ret; exact H|]. split; [eapply ipv4_len; exact H|eapply ipv4_ok; exact H].
  - right. apply C23_ipv4_panics; auto.
Qed.
Print Assumptions C23_ipv4_total.

Theorem C23_ipv4_roundtrip : forall b, length b = 4%nat -> bytes_ok b ->
  to_ipv4_bytes (join "."%char (map dec b)) = Ret b.
Proof.
  intros b L H. apply ipv4_ret. unfold ipv4_text.
  apply (print_ok 10 dec "."%char); [lia|vm_compute; reflexivity|exact L|discriminate|exact H].
Qed.
Print Assumptions C23_ipv4_roundtrip.

Example C23_example :
  to_ipv4_bytes "10.300.+7" = Ret [10; 0; 7; 0] /\
  to_ipv4_bytes "1.2.3.4.5" = Panic PIndex /\
  join "."%char (map dec [192; 168; 0; 1]) = "192.168.0.1"%string.
Proof. repeat split. Qed.
