(** PcapProofs.v -- the file that [pcap_write] leaves. *)

From Coq Require Import Lia.
From Verif Require Import Base Pcap PcapSpec.
Open Scope N_scope.

(** ** Numbers *)

Lemma le_le4 v : v < 2 ^ 32 -> le (le4 v) = v.
Proof.
  intros H. unfold le4, le.
  pose proof (N.div_mod' v 256) as A. pose proof (N.div_mod' (v / 256) 256) as B. pose proof (N.div_mod' (v / 256 / 256) 256) as C.
  assert (D : v / 256 / 256 / 256 mod 256 = v / 256 / 256 / 256).
  { apply N.mod_small. rewrite !N.div_div by discriminate. apply N.div_lt_upper_bound; [discriminate|]. exact H. }
  rewrite D. lia.
Qed.
Lemma u32_lt v : u32 v < 2 ^ 32.
Proof. apply N.mod_lt. discriminate. Qed.
Lemma u32_small v : v < 2 ^ 32 -> u32 v = v.
Proof. apply N.mod_small. Qed.

(** ** The text of a file *)

Definition text_one (sec usec : N) (p : list N) : list N := packet_header sec usec p ++ p.
Definition texts (sec usec : N) (ps : list (list N)) : list N := concat (map (text_one sec usec) ps).
Definition text (sec usec : N) (ps : list (list N)) : list N := global_header ++ texts sec usec ps.

Lemma texts_length sec usec ps : length (texts sec usec ps) = list_sum (map (fun p => 16 + length p)%nat ps).
Proof.
  unfold texts. induction ps as [|p ps IH]; [reflexivity|]. cbn [map concat]. rewrite app_length, IH.
  unfold text_one. rewrite app_length. reflexivity.
Qed.
Lemma text_length sec usec ps : length (text sec usec ps) = file_length ps.
Proof. unfold text, file_length. rewrite app_length, texts_length. reflexivity. Qed.

Lemma skip_skip {A} a b (l : list A) : skipn a (skipn b l) = skipn (b + a) l.
Proof. revert l. induction b as [|b IH]; intros [|x l]; cbn [skipn Nat.add]; auto. apply skipn_nil. Qed.
(** Writing behind what is written already: old contents [old] from position 0. *)
Definition laid (t old : list N) : list N := t ++ skipn (length t) old.
Lemma put_laid t old data : put (laid t old) (length t) data = laid (t ++ data) old.
Proof.
  unfold put, laid. rewrite firstn_app, firstn_all, Nat.sub_diag, firstn_O, app_nil_r. rewrite <- app_assoc. do 2 f_equal.
  rewrite skipn_app, app_length. rewrite (skipn_all2 t) by lia. cbn [app].
  replace (length t + length data - length t)%nat with (length data) by lia.
  rewrite skip_skip. reflexivity.
Qed.

(** A run of writes has left a prefix of its text over the old contents. *)
Lemma write_packets_laid s sec usec ps n t old r file : write_packets s sec usec ps n (laid t old) (length t) = (r, file) ->
  (r = Ret tt /\ file = laid (t ++ texts sec usec ps) old /\ forall i, (n <= i < n + 2 * length ps)%nat -> s_write s i = None) \/
  (r = Panic PUnwrap /\ (exists i, (n <= i < n + 2 * length ps)%nat /\ s_write s i <> None) /\
   exists k, file = laid (t ++ firstn k (texts sec usec ps)) old).
Proof.
  revert n t. induction ps as [|p ps IH]; intros n t E; cbn [write_packets] in E.
  - injection E as <- <-. left. unfold texts. cbn. rewrite app_nil_r. repeat split; auto. intros i H. lia.
  - assert (T : texts sec usec (p :: ps) = packet_header sec usec p ++ p ++ texts sec usec ps).
    { unfold texts, text_one. cbn [map concat]. rewrite <- app_assoc. reflexivity. }
    unfold write_all in E at 1. destruct (s_write s n) as [k|] eqn:W1.
    + injection E as <- <-. right. split; [reflexivity|]. split; [exists n; cbn; split; [lia|congruence]|].
      rewrite put_laid. exists (length (firstn k (packet_header sec usec p))). rewrite T. f_equal. f_equal.
      rewrite firstn_app. replace (_ - _)%nat with 0%nat by (rewrite firstn_length; lia). cbn [firstn]. rewrite app_nil_r.
      rewrite firstn_length. destruct (Nat.min_spec k (length (packet_header sec usec p))) as [[_ ->]|[L ->]]; auto.
      rewrite firstn_all, firstn_all2; auto.
    + rewrite put_laid in E. rewrite <- app_length in E. unfold write_all in E. destruct (s_write s (S n)) as [k|] eqn:W2.
      * injection E as <- <-. right. split; [reflexivity|]. split; [exists (S n); cbn; split; [lia|congruence]|].
        rewrite put_laid. exists (length (packet_header sec usec p) + length (firstn k p))%nat. rewrite T. f_equal. rewrite <- app_assoc. f_equal.
        rewrite firstn_app_2. f_equal. rewrite firstn_app. replace (_ - _)%nat with 0%nat by (rewrite firstn_length; lia). cbn [firstn]. rewrite app_nil_r.
        rewrite firstn_length. destruct (Nat.min_spec k (length p)) as [[_ ->]|[L ->]]; auto. rewrite firstn_all, firstn_all2; auto.
      * rewrite put_laid in E. rewrite <- app_length in E. destruct (IH _ _ E) as [(-> & -> & H)|(-> & (i & Hi & Wi) & k & ->)].
        -- left. rewrite T, <- !app_assoc. repeat split; auto. intros i Hi. cbn [length] in Hi.
           destruct (Nat.eq_dec i n) as [->|]; auto. destruct (Nat.eq_dec i (S n)) as [->|]; auto. apply H. lia.
        -- right. split; [reflexivity|]. split; [exists i; cbn [length]; split; [lia|exact Wi]|].
           exists (length (packet_header sec usec p) + (length p + k))%nat. rewrite T, !firstn_app_2, <- !app_assoc. reflexivity.
Qed.
Definition old_bytes (disk : option (list N)) : list N := match disk with Some f => f | None => [] end.
Lemma pcap_laid s ps disk secs nanos r d : s_now s = Some (secs, nanos) -> s_open s = true -> pcap_write s ps disk = (r, d) ->
  let t := text (u32 secs) (u32 (nanos / 1000000)) ps in
  (r = Ret tt /\ d = Some (laid t (old_bytes disk)) /\ forall i, (i < 1 + 2 * length ps)%nat -> s_write s i = None) \/
  (r = Panic PUnwrap /\ (exists i, (i < 1 + 2 * length ps)%nat /\ s_write s i <> None) /\
   exists k, d = Some (laid (firstn k t) (old_bytes disk))).
Proof.
  intros Hn Ho E t. unfold pcap_write in E. rewrite Hn, Ho in E. fold (old_bytes disk) in E. unfold write_all in E.
  change (put (old_bytes disk) 0) with (put (laid [] (old_bytes disk)) (length (@nil N))) in E.
  destruct (s_write s 0) as [k|] eqn:W.
  - injection E as <- <-. right. split; [reflexivity|]. split; [exists 0%nat; split; [lia|congruence]|].
    rewrite put_laid. exists (length (firstn k global_header)). unfold t, text. cbn [app]. do 2 f_equal. rewrite firstn_app.
    replace (length (firstn k global_header) - length global_header)%nat with 0%nat by (rewrite firstn_length; lia).
    cbn [firstn]. rewrite app_nil_r. rewrite firstn_length.
    destruct (Nat.min_spec k (length global_header)) as [[_ ->]|[L ->]]; auto. rewrite firstn_all, firstn_all2; auto.
  - rewrite put_laid in E. change (0 + length global_header)%nat with (length ([] ++ global_header)) in E.
    destruct (write_packets _ _ _ _ _ _ _) as [r' f'] eqn:Q in E. injection E as <- <-.
    destruct (write_packets_laid _ _ _ _ _ _ _ _ _ Q) as [(-> & -> & H)|(-> & (i & Hi & Wi) & k & ->)].
    + left. repeat split; auto. intros i Hi. destruct i as [|i]; auto. apply H. lia.
    + right. split; [reflexivity|]. split; [exists i; split; [lia|exact Wi]|]. exists (length global_header + k)%nat.
      unfold t, text. rewrite firstn_app_2. reflexivity.
Qed.

(** ** Reading *)

Definition short (p : list N) : Prop := N.of_nat (length p) < 2 ^ 32.
Lemma captures_app sec usec ps rest l : sec < 2 ^ 32 -> usec < 2 ^ 32 -> Forall short ps -> captures rest l ->
  captures (texts sec usec ps ++ rest) (stamped sec usec ps ++ l).
Proof.
  intros Hs Hu Hp C. induction Hp as [|p ps Hp F IH]; [exact C|].
  unfold texts, text_one, stamped, packet_header in *. cbn [map concat app].
  rewrite <- !app_assoc, (u32_small _ Hp).
  pose proof (Cap_one (le4 sec) (le4 usec) (le4 (N.of_nat (length p))) (le4 (N.of_nat (length p))) p _ _ eq_refl eq_refl eq_refl eq_refl
    (eq_sym (le_le4 _ Hp)) IH) as K.
  rewrite !le_le4 in K by assumption. exact K.
Qed.
Lemma text_pcap sec usec ps rest l : sec < 2 ^ 32 -> usec < 2 ^ 32 -> Forall short ps -> captures rest l ->
  pcap (text sec usec ps ++ rest) 65535 1 (stamped sec usec ps ++ l).
Proof.
  intros Hs Hu Hp C. pose proof (captures_app sec usec ps rest l Hs Hu Hp C) as K. unfold text. rewrite <- app_assoc.
  exact (Pcap [0xd4; 0xc3; 0xb2; 0xa1] [2; 0] [4; 0] [0; 0; 0; 0] [0; 0; 0; 0] [0xff; 0xff; 0; 0] [1; 0; 0; 0] _ _
    eq_refl eq_refl eq_refl eq_refl eq_refl eq_refl eq_refl eq_refl eq_refl eq_refl K).
Qed.
Lemma app_cut {A} (a b c d : list A) : length a = length c -> a ++ b = c ++ d -> a = c /\ b = d.
Proof.
  revert c. induction a as [|x a IH]; intros [|y c] L E; try discriminate; auto. cbn [app] in E. injection E as -> E.
  injection L as L. destruct (IH c L E) as [-> ->]. auto.
Qed.
Lemma captures_fun b l : captures b l -> forall l', captures b l' -> l = l'.
Proof.
  induction 1 as [|sec usec incl orig bytes rest l L1 L2 L3 L4 L5 C IH]; intros l' C'.
  - inversion C' as [|sec usec incl orig bytes rest l L1 L2 L3 L4 L5 C E Z]; auto.
    apply (f_equal (@length N)) in E. rewrite app_length, L1 in E. discriminate.
  - inversion C' as [E Z|sec' usec' incl' orig' bytes' rest' l2 M1 M2 M3 M4 M5 C2 E Z].
    + apply (f_equal (@length N)) in E. rewrite app_length, L1 in E. discriminate.
    + apply app_cut in E; [|congruence]. destruct E as [-> E]. apply app_cut in E; [|congruence]. destruct E as [-> E].
      apply app_cut in E; [|congruence]. destruct E as [-> E]. apply app_cut in E; [|congruence]. destruct E as [-> E].
      apply app_cut in E; [|lia]. destruct E as [-> E]. subst. f_equal. auto.
Qed.
Lemma pcap_fun b snap link l : pcap b snap link l -> forall snap' link' l', pcap b snap' link' l' -> snap = snap' /\ link = link' /\ l = l'.
Proof.
  intros H snap' link' l' H'. destruct H as [a1 a2 a3 a4 a5 a6 a7 rest l L1 L2 L3 L4 L5 L6 L7 _ _ _ C].
  inversion H' as [b1 b2 b3 b4 b5 b6 b7 rest' l2 M1 M2 M3 M4 M5 M6 M7 V1 V2 V3 C2 E]. clear H'.
  repeat (apply app_cut in E; [|congruence]; destruct E as [-> E]). subst. repeat split; auto. eapply captures_fun; eauto.
Qed.
Lemma captures_rest sec usec ps rest l : Forall short ps -> captures (texts sec usec ps ++ rest) l -> exists l', captures rest l'.
Proof.
  intros Hp. revert l. induction Hp as [|p ps Hp F IH]; intros l C; [eauto|].
  unfold texts, text_one, packet_header in C. cbn [map concat] in C. rewrite <- !app_assoc, (u32_small _ Hp) in C.
  match type of C with captures ?x _ => remember x as z eqn:E end.
  destruct C as [|a b c d bytes r l2 L1 L2 L3 L4 L5 C2]; [discriminate|].
  apply app_cut in E; [|assumption]. destruct E as [-> E]. apply app_cut in E; [|assumption]. destruct E as [-> E].
  apply app_cut in E; [|assumption]. destruct E as [-> E]. apply app_cut in E; [|assumption]. destruct E as [-> E].
  rewrite (le_le4 _ Hp) in L5. apply app_cut in E; [|lia]. destruct E as [-> ->]. apply (IH _ C2).
Qed.
Lemma pcap_rest sec usec ps rest snap link l : Forall short ps -> pcap (text sec usec ps ++ rest) snap link l -> exists l', captures rest l'.
Proof.
  intros Hp P. remember (text sec usec ps ++ rest) as z eqn:E.
  destruct P as [a1 a2 a3 a4 a5 a6 a7 r l' L1 L2 L3 L4 L5 L6 L7 V1 V2 V3 C].
  unfold text in E. rewrite <- app_assoc in E. eapply (captures_rest sec usec ps); [exact Hp|].
  rewrite !app_assoc in E. rewrite <- (app_assoc global_header) in E. apply app_cut in E.
  - destruct E as [_ <-]. exact C.
  - rewrite !app_length, L1, L2, L3, L4, L5, L6, L7. reflexivity.
Qed.
Lemma captures_long b l : captures b l -> b = [] \/ (16 <= length b)%nat.
Proof.
  destruct 1 as [|sec usec incl orig bytes rest l L1 L2 L3 L4 _ _]; [auto|right]. rewrite !app_length, L1, L2, L3, L4. lia.
Qed.
