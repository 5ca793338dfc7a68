(** LegibleProofs.v -- for C80: equal texts are texts of equal things. *)

From Coq Require Import Lia.
From Verif Require Import Base Bits BitsProofs Layout Heap HeapProofs Packet PacketProofs Show ShowSpec ShowProofs
  Spec PropHeader PropShow LegibleSpec.
Open Scope N_scope.

Lemma app_inj_length (a b s t : string) : String.length a = String.length b -> (a ++ s = b ++ t)%string -> a = b /\ s = t.
Proof.
  revert b. induction a as [|c a IH]; intros [|c' b] L E; try discriminate L; [auto|].
  cbn [append] in E. apply string_inj in E as [-> E]. injection L as L. destruct (IH b L E) as [-> ->]. auto.
Qed.

Lemma hexes_length l : String.length (hexes l) = (3 * length l)%nat.
Proof. induction l as [|b l IH]; [reflexivity|]. cbn [hexes length]. unfold hex2. cbn [append String.length]. lia. Qed.

Lemma groups_length w v v' s s' : groups w v s -> groups w v' s' -> String.length s = String.length s'.
Proof.
  intros A B. destruct A as [L1|l L1 R1 N1 O1 V1|l L1 R1 N1 O1 V1]; destruct B as [L2|l' L2 R2 N2 O2 V2|l' L2 R2 N2 O2 V2];
    try lia; rewrite ?append_length, ?hexes_length, ?N1, ?N2; reflexivity.
Qed.

Lemma field_val_bound d f : field_in f (length d) -> field_val d f < 2 ^ N.of_nat (f_width f).
Proof. intros [H _]. unfold field_val. rewrite <- rv_bits_val by auto. apply rv_bound. Qed.

(** Blanks before a number can be counted. *)
Lemma blanks_cancel a b x n y n' (s t : string) : decimal n x -> decimal n' y ->
  (blanks a ++ n ++ s = blanks b ++ n' ++ t)%string -> a = b /\ (n ++ s = n' ++ t)%string.
Proof.
  intros Hn Hn'.
  assert (D : forall u, ~ is_digit 10 " " u).
  { intros u (_ & [(k & A & _ & B)|[(k & A & _ & B)|(k & A & _ & B)]]); change (N_of_ascii " ") with 32 in B; lia. }
  assert (F : forall n z q r, decimal n z -> (n ++ q = String " " r)%string -> False).
  { intros m z q r (Hm & Ne & _) E. destruct Hm as [|c m x' y' Hc Hm]; [congruence|]. cbn [append] in E.
    apply string_inj in E as [-> _]. eapply D; eauto. }
  revert b. induction a as [|a IH]; intros [|b] E; cbn [blanks append] in E; auto.
  - exfalso. eapply (F n); eauto.
  - exfalso. symmetry in E. eapply (F n'); eauto.
  - apply string_inj in E as [_ E]. destruct (IH b E) as [-> Q]. auto.
Qed.

Lemma line_inj d d' f s s' r r' : field_in f (length d) -> field_in f (length d') ->
  field_line d f s -> field_line d' f s' -> (s ++ r = s' ++ r')%string -> field_val d f = field_val d' f /\ r = r'.
Proof.
  intros I I' (n & g & Hn & Hg & ->) (n' & g' & Hn' & Hg' & ->) E. rewrite !append_assoc in E.
  apply app_cancel_l in E. apply app_cancel_l in E. cbn [append] in E.
  apply string_inj in E as [_ E]. apply string_inj in E as [_ E].
  destruct (blanks_cancel _ _ _ _ _ _ _ _ Hn Hn' E) as [_ Q]. cbn [append] in Q.
  apply (numeral_cancel 10 _ _ _ _ _ _ (proj1 Hn) (proj1 Hn')) in Q as [_ Q].
  apply string_inj in Q as [_ Q]. apply string_inj in Q as [_ Q].
  destruct (app_inj_length _ _ _ _ (groups_length _ _ _ _ _ Hg Hg') Q) as [<- R].
  apply string_inj in R as [_ R]. split; [|exact R].
  eapply C53_readable; eauto using field_val_bound.
Qed.

Lemma lines_inj d d' fs : Forall (fun f => field_in f (length d)) fs -> Forall (fun f => field_in f (length d')) fs ->
  forall ls ls' r r', Forall2 (field_line d) fs ls -> Forall2 (field_line d') fs ls' ->
  (String.concat "" ls ++ r = String.concat "" ls' ++ r')%string ->
  Forall (fun f => field_val d f = field_val d' f) fs /\ r = r'.
Proof.
  induction fs as [|f fs IH]; intros F F' ls ls' r r' L L' E; inversion L; inversion L'; subst.
  - auto.
  - inversion F; inversion F'; subst. rewrite !concat_cons, !append_assoc in E.
    destruct (line_inj d d' f _ _ _ _ ltac:(assumption) ltac:(assumption) ltac:(eassumption) ltac:(eassumption) E) as [V Q].
    destruct (IH ltac:(assumption) ltac:(assumption) _ _ _ _ ltac:(eassumption) ltac:(eassumption) Q) as [Vs R].
    split; auto.
Qed.

(** A heading names the type. *)
Definition padded_name (T : htype) : string := (ht_name T ++ blanks (16 - String.length (ht_name T)))%string.
Lemma padded_length T : In T predefined -> String.length (padded_name T) = 16%nat.
Proof. intros H. cbn in H. repeat (destruct H as [<-|H]; [reflexivity|]). destruct H. Qed.
Lemma padded_inj T T' : In T predefined -> In T' predefined -> padded_name T = padded_name T' -> T = T'.
Proof.
  assert (F : forall T, In T predefined ->
    find (fun U => String.eqb (padded_name U) (padded_name T)) predefined = Some T).
  { intros U H. cbn in H. repeat (destruct H as [<-|H]; [reflexivity|]). destruct H. }
  intros I I' E. pose proof (F T I) as A. pose proof (F T' I') as B. rewrite E, B in A. congruence.
Qed.

Lemma text_inj T T' d d' s s' r r' : In T predefined -> In T' predefined ->
  Forall (fun f => field_in f (length d)) (ht_fields T) -> Forall (fun f => field_in f (length d')) (ht_fields T') ->
  header_text T d s -> header_text T' d' s' -> (s ++ r = s' ++ r')%string ->
  T = T' /\ Forall (fun f => field_val d f = field_val d' f) (ht_fields T) /\ r = r'.
Proof.
  intros I I' F F' (ls & L & ->) (ls' & L' & ->) E. rewrite !append_assoc in E.
  apply app_cancel_l in E.
  rewrite <- !(append_assoc (ht_name _)) in E. fold (padded_name T) in E. fold (padded_name T') in E.
  destruct (app_inj_length _ _ _ _ (eq_trans (padded_length T I) (eq_sym (padded_length T' I'))) E) as [P Q].
  pose proof (padded_inj _ _ I I' P) as <-. split; [reflexivity|].
  apply app_cancel_l in Q. apply app_cancel_l in Q. apply app_cancel_l in Q. apply app_cancel_l in Q.
  eapply lines_inj; eauto.
Qed.

(** The fields of a header are all of it. *)
Lemma predefined_cover T : In T predefined ->
  (forall f, In f (ht_fields T) -> field_in f (ht_size T)) /\
  (forall i, (i < 8 * ht_size T)%nat -> exists f, In f (ht_fields T) /\ (f_start f <= i)%nat /\ (i <= f_end f)%nat).
Proof.
  assert (C : forallb (fun T =>
      forallb (fun f => (f_start f <=? f_end f)%nat && (f_end f <? 8 * ht_size T)%nat) (ht_fields T) &&
      forallb (fun i => existsb (fun f => (f_start f <=? i)%nat && (i <=? f_end f)%nat) (ht_fields T)) (seq 0 (8 * ht_size T)))
      predefined = true) by (vm_compute; reflexivity).
  intros I. rewrite forallb_forall in C. specialize (C T I). apply andb_true_iff in C as [A B].
  rewrite forallb_forall in A, B. split.
  - intros f If. specialize (A f If). apply andb_true_iff in A as [A1 A2]. apply Nat.leb_le in A1. apply Nat.ltb_lt in A2. split; auto.
  - intros i Hi. specialize (B i ltac:(apply in_seq; lia)). apply existsb_exists in B as (f & If & B).
    apply andb_true_iff in B as [B1 B2]. apply Nat.leb_le in B1. apply Nat.leb_le in B2. eauto.
Qed.

Lemma fields_all T d d' : In T predefined -> bytes_ok d -> bytes_ok d' ->
  length d = ht_size T -> length d' = ht_size T ->
  Forall (fun f => field_val d f = field_val d' f) (ht_fields T) -> d = d'.
Proof.
  intros I Hd Hd' L L' F. destruct (predefined_cover T I) as (In_ & Co).
  assert (B : forall i, (i < 8 * length d)%nat -> bit d i = bit d' i).
  { intros i Hi. rewrite L in Hi. destruct (Co i Hi) as (f & If & C1 & C2). destruct (In_ f If) as [J1 J2].
    rewrite Forall_forall in F. specialize (F f If). unfold field_val in F.
    rewrite <- !rv_bits_val in F by auto.
    pose proof (rv_testbit d (f_start f) (f_end f - f_start f + 1) (f_end f - i) Hd ltac:(lia)) as A.
    pose proof (rv_testbit d' (f_start f) (f_end f - f_start f + 1) (f_end f - i) Hd' ltac:(lia)) as A'.
    rewrite F in A. rewrite A in A'.
    assert (Lt : (f_end f - i <? f_end f - f_start f + 1)%nat = true) by (apply Nat.ltb_lt; lia).
    rewrite !Lt in A'.
    replace (f_start f + (f_end f - f_start f + 1) - 1 - (f_end f - i))%nat with i in A' by lia. exact A'. }
  apply be_inj; auto; [congruence|].
  assert (X : rv d 0 (8 * length d) = rv d' 0 (8 * length d')).
  { replace (length d') with (length d) by congruence. apply rv_ext; auto; try congruence; try lia.
    intros j Hj. apply B. lia. }
  unfold rv in X. rewrite !Nat.sub_0_r, !Nat.sub_diag in X. cbn [N.of_nat] in X. rewrite !N.pow_0_r, !N.div_1_r in X.
  rewrite !N.mod_small in X by (apply be_bound; auto). exact X.
Qed.

Lemma sized_fields s : sized s -> Forall (fun f => field_in f (length (snd s))) (ht_fields (fst s)).
Proof.
  intros (I & _ & L). rewrite L. apply Forall_forall. apply (predefined_cover (fst s) I).
Qed.

Lemma header_first T d s : header_text T d s -> exists t, s = String "#" t.
Proof. intros (ls & _ & ->). eexists. reflexivity. Qed.
Lemma raw_first v s : raw_text v s -> exists t, s = String nl t.
Proof. intros (n & r & _ & _ & ->). eexists. reflexivity. Qed.

Lemma texts_inj a a' : Forall sized a -> Forall sized a' -> forall ts ts' v v' r r',
  Forall2 (fun s t => header_text (fst s) (snd s) t) a ts -> Forall2 (fun s t => header_text (fst s) (snd s) t) a' ts' ->
  raw_text v r -> raw_text v' r' -> bytes_ok v -> bytes_ok v' ->
  (String.concat "" ts ++ r = String.concat "" ts' ++ r')%string -> a = a' /\ v = v'.
Proof.
  revert a'. induction a as [|s a IH]; intros a' Z Z' ts ts' v v' r r' H H' R R' Hv Hv' E.
  - inversion H; subst. destruct a' as [|s' a']; inversion H' as [|? t' ? ts2 Ht Hts]; subst.
    + cbn [String.concat append] in E. subst. split; [reflexivity|]. eapply C53_dump_readable; eauto.
    + exfalso. destruct (raw_first _ _ R) as (q & ->). destruct (header_first _ _ _ Ht) as (q' & ->).
      rewrite concat_cons in E. cbn [String.concat append] in E. apply string_inj in E as [E _]. discriminate.
  - inversion H as [|? t ? ts1 Ht Hts]; subst. destruct a' as [|s' a']; inversion H' as [|? t' ? ts2 Ht' Hts']; subst.
    + exfalso. destruct (raw_first _ _ R') as (q & ->). destruct (header_first _ _ _ Ht) as (q' & ->).
      rewrite concat_cons in E. cbn [String.concat append] in E. apply string_inj in E as [E _]. discriminate.
    + inversion Z as [|? ? Z1 Z2]; inversion Z' as [|? ? Z1' Z2']; subst. rewrite !concat_cons, !append_assoc in E.
      destruct (text_inj _ _ _ _ _ _ _ _ (proj1 Z1) (proj1 Z1') (sized_fields _ Z1) (sized_fields _ Z1') Ht Ht' E) as (ET & Fv & Q).
      destruct (IH a' Z2 Z2' _ _ _ _ _ _ Hts Hts' R R' Hv Hv' Q) as [-> ->]. split; [|reflexivity]. f_equal.
      destruct s as [T d], s' as [T' d']; cbn [fst snd] in *. subst T'.
      destruct Z1 as (I & B & L), Z1' as (_ & B' & L'); cbn [fst snd] in *. f_equal. eapply fields_all; eauto.
Qed.

(** ** The text of headers, by type and contents *)

Fixpoint shown (m : mode) (ss : list (htype * list N)) : out string :=
  match ss with
  | [] => Ret EmptyString
  | s :: t =>
      olet a := (olet a := sshow_fields m (snd s) (ht_fields (fst s)) in Ret (show_title (fst s) ++ a)%string) in
      olet b := shown m t in Ret (a ++ b)%string
  end.

Lemma shown_text m ss : Forall sized ss ->
  exists ts, shown m ss = Ret (String.concat "" ts) /\ Forall2 (fun s t => header_text (fst s) (snd s) t) ss ts.
Proof.
  induction 1 as [|s ss Z Zs (ts & E & F)]; [exists []; split; [reflexivity|constructor]|].
  destruct (sshow_text m (fst s) (snd s) (proj1 (proj2 Z)) (sized_fields _ Z)) as (t & Et & Ht).
  exists (t :: ts). split; [|constructor; auto]. cbn [shown]. rewrite Et, E. cbn [obind]. rewrite concat_cons. reflexivity.
Qed.

(** No check of a debug build is reached. *)
Lemma sshow_field_mode m m' d f : bytes_ok d -> field_in f (length d) -> sshow_field m d f = sshow_field m' d f.
Proof.
  intros Hd [H1 H2]. unfold sshow_field.
  assert (Ew : f_width f = (f_end f - f_start f + 1)%nat) by reflexivity. set (w := f_width f) in *.
  pose proof (Nat.div_mod w 8 ltac:(lia)) as Dm. pose proof (Nat.mod_upper_bound w 8 ltac:(lia)) as Mb.
  destruct (Nat.leb_spec w 8) as [L|L]; [rewrite !get_bits_val by (auto; lia); reflexivity|].
  destruct (Nat.eqb_spec (w mod 8) 0) as [E|E]; rewrite !sshow_octets_ok by (auto; lia); [reflexivity|].
  cbn [obind]. rewrite !get_bits_val by (auto; lia). reflexivity.
Qed.
Lemma sshow_fields_mode m m' d l : bytes_ok d -> Forall (fun f => field_in f (length d)) l ->
  sshow_fields m d l = sshow_fields m' d l.
Proof.
  intros Hd. induction 1 as [|f l Hf Hl IH]; cbn [sshow_fields]; [reflexivity|].
  rewrite (sshow_field_mode m m') by auto. rewrite IH. reflexivity.
Qed.
Lemma shown_mode m m' ss : Forall sized ss -> shown m ss = shown m' ss.
Proof.
  induction 1 as [|s ss Z Zs IH]; cbn [shown]; [reflexivity|].
  rewrite (sshow_fields_mode m m'), IH by (try apply sized_fields; auto; apply Z). reflexivity.
Qed.

Definition all_bytes (ss : list (htype * list N)) : list N := concat (map snd ss).
Lemma sized_ok ss : Forall sized ss -> bytes_ok (all_bytes ss).
Proof.
  unfold all_bytes. induction 1 as [|s ss (_ & B & _) F IH]; [constructor|]. cbn [map concat]. apply bytes_ok_app. auto.
Qed.

(** The text of a whole packet. *)
Definition page (m : mode) (ss : list (htype * list N)) (pl : list N) : out string :=
  olet a := shown m ss in Ret (a ++ show_raw (all_bytes ss ++ pl))%string.

Theorem page_inj m m' ss ss' pl pl' : Forall sized ss -> Forall sized ss' -> bytes_ok pl -> bytes_ok pl' ->
  (page m ss pl = page m' ss' pl' <-> ss = ss' /\ pl = pl').
Proof.
  intros Z Z' Hp Hp'. unfold page.
  destruct (shown_text m ss Z) as (ts & E & F). destruct (shown_text m' ss' Z') as (ts' & E' & F').
  split.
  - rewrite E, E'. cbn [obind]. intros Q. injection Q as Q.
    assert (B : bytes_ok (all_bytes ss ++ pl)) by (apply bytes_ok_app; split; auto; apply sized_ok; auto).
    assert (B' : bytes_ok (all_bytes ss' ++ pl')) by (apply bytes_ok_app; split; auto; apply sized_ok; auto).
    destruct (texts_inj _ _ Z Z' _ _ _ _ _ _ F F' (show_raw_text _ B) (show_raw_text _ B') B B' Q) as [-> V].
    split; [reflexivity|]. apply app_inv_head in V. exact V.
  - intros [-> ->]. rewrite (shown_mode m m') by auto. reflexivity.
Qed.
