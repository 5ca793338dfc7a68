(** OriginalProofs.v -- proofs for PropOriginal.v. *)

From Coq Require Import Lia.
From Verif Require Import Base Bits BitsProofs Layout Heap HeapProofs Packet PacketProofs Slow Fast Spec Grammar GrammarProofs OriginalSpec.
Open Scope N_scope.

Definition words (l : list seg) : Prop := Forall (fun s => gre_word (fst s) = true) l.
Definition fresh (l : list seg) : Prop := match l with [] => True | s :: _ => gre_word (fst s) = false end.

Lemma original_words l : words l -> forall acc r, original acc (rev l ++ r) = original (seg_bytes l ++ acc) r.
Proof.
  induction 1 as [|[T x] l W F IH]; intros acc r; [reflexivity|]. cbn [rev]. rewrite <- app_assoc, IH. cbn [app original]. cbn [fst] in W. rewrite W.
  unfold seg_bytes. cbn. rewrite <- !app_assoc. reflexivity.
Qed.
Lemma original_fresh acc r : fresh r -> original acc r = acc ++ original [] r.
Proof.
  destruct r as [|[T x] r]; cbn; [rewrite app_nil_r; auto|]. intros ->. reflexivity.
Qed.
Lemma header_no_word f T : header_of f = Some T -> gre_word T = false.
Proof. destruct f; intros E; try discriminate; injection E as <-; reflexivity. Qed.
Lemma wire_fresh f b gs pl : wire f b gs pl -> fresh (reported gs).
Proof. induction 1; [exact I|auto|]. cbn. eapply header_no_word; eauto. Qed.
Lemma original_options f x os r : map (@length N) os = map ht_size (options f x) -> fresh r ->
  original [] (rev (combine (options f x) os) ++ r) = concat os ++ original [] r.
Proof.
  intros L Fr. assert (Lo : length os = length (options f x)) by (rewrite <- (map_length (@length N)), L, map_length; reflexivity). clear L.
  assert (Q : words (combine (options f x) os) -> original [] (rev (combine (options f x) os) ++ r) = concat os ++ original [] r).
  { intros W. rewrite original_words, app_nil_r, original_fresh by auto. f_equal. clear - Lo. unfold seg_bytes.
    revert Lo. generalize (options f x). induction os as [|o os IH]; intros [|T l] L; try discriminate; [reflexivity|]. cbn in *. f_equal. apply IH. lia. }
  destruct f; try (apply Q; destruct os; [constructor|discriminate Lo]).
  - apply Q. unfold options in *. unfold words. apply Forall_forall. intros [T o] I. apply in_combine_l in I. rewrite !in_app_iff in I. cbn [fst].
    destruct I as [I|[I|I]]; [destruct (bit x 0)|destruct (bit x 2)|destruct (bit x 3)]; cbn [In] in I; intuition (subst; reflexivity).
  - clear Q. unfold options in *. destruct (bit x 95); [|destruct os; [reflexivity|discriminate Lo]].
    destruct os as [|o [|]]; try discriminate Lo. cbn. rewrite app_nil_r. reflexivity.
Qed.
Lemma wire_original f b gs pl : wire f b gs pl -> b = original [] (reported gs) ++ pl.
Proof.
  induction 1 as [b|b gs pl L W IH|f T x os rest g gs pl Hf L Lo D W IH]; [reflexivity|auto|].
  change (reported ([(T, x)] :: combine (options f x) os :: gs)) with ((T, x) :: rev (combine (options f x) os) ++ reported gs).
  cbn [original]. rewrite (header_no_word _ _ Hf). rewrite original_options by (auto; eapply wire_fresh; eauto).
  rewrite IH at 1. cbn [app]. rewrite <- !app_assoc. reflexivity.
Qed.
