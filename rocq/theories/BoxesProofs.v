(** BoxesProofs.v -- lemmas for C85. *)

From Coq Require Import Lia.
From Verif Require Import Base Bits Layout Heap Packet Fast Show Trait Ops Client ClientSpec Boxes BoxesSpec PacketProofs.
Open Scope N_scope.

(** ** Calls in turn *)

Fixpoint run_all {A} (l : list (M A)) : M (list A) :=
  match l with [] => ret [] | f :: t => mlet a := f in mlet r := run_all t in ret (a :: r) end.
Lemma in_turn_run {A} (l : list (M A)) : forall h r h', in_turn l h r h' <-> run_all l h = (Ret r, h').
Proof.
  induction l as [|f l IH]; intros h r h'; cbn [run_all].
  - split; [inversion 1; reflexivity|]. unfold ret. intros E. injection E as <- <-. constructor.
  - unfold bind, ret. split.
    + intros T. inversion T as [|f0 l0 h0 a h1 r0 h2 F G]; subst. rewrite F. apply IH in G. rewrite G. reflexivity.
    + intros E. destruct (f h) as [[a|e| | |] h1] eqn:F; try discriminate E.
      destruct (run_all l h1) as [[r1|e| | |] h2] eqn:G; try discriminate E. injection E as <- <-.
      econstructor; [exact F|apply IH; exact G].
Qed.
Lemma stops_run {A B} (l : list (M A)) (o : out B) : forall h h', stops l h o h' <-> exists o1, run_all l h = (o1, h') /\ ends_alike o1 o.
Proof.
  induction l as [|f l IH]; intros h h'; cbn [run_all].
  - split.
    + intros (before & f & after & r & h1 & o1 & E & _). destruct before; discriminate E.
    + intros (o1 & E & S). unfold ret in E. injection E as <- <-. destruct o; destruct S.
  - unfold bind, ret. split.
    + intros (before & f' & after & r & h1 & o1 & E & T & F & S). destruct before as [|g before]; cbn [app] in E; injection E as -> ->.
      * inversion T; subst. rewrite F. destruct o1; [destruct o; destruct S|eexists; (split; [reflexivity|exact S])..].
      * inversion T as [|f0 l0 h0 a h2 r0 h3 F0 G]; subst. rewrite F0.
        assert (X : stops (before ++ f' :: after) h2 o h') by (exists before, f', after, r0, h1, o1; auto).
        apply IH in X. destruct X as (o2 & X & Y). rewrite X. destruct o2; [destruct o; destruct Y|eexists; (split; [reflexivity|exact Y])..].
    + intros (o1 & E & S). destruct (f h) as [[a|e| | |] h1] eqn:F.
      * destruct (run_all l h1) as [o2 h2] eqn:G.
        assert (X : stops l h1 o h').
        { apply IH. destruct o2; injection E as <- <-; [destruct o; destruct S|eexists; (split; [exact G|exact S])..]. }
        destruct X as (before & f' & after & r & h3 & o3 & -> & T & F' & S').
        exists (f :: before), f', after, (a :: r), h3, o3. repeat split; auto. econstructor; eauto.
      * injection E as <- <-. exists [], f, l, [], h, (Panic e). repeat split; auto. constructor.
      * injection E as <- <-. exists [], f, l, [], h, UB. repeat split; auto. constructor.
      * injection E as <- <-. exists [], f, l, [], h, Hang. repeat split; auto. constructor.
      * injection E as <- <-. exists [], f, l, [], h, Fuel. repeat split; auto. constructor.
Qed.
Lemma turns_run {A B} (x : M B) (l : list (M A)) g : (forall h, x h = bind (run_all l) (fun r => ret (g r)) h) -> turns x l g.
Proof.
  intros E h h'. split.
  - intros b. rewrite E. unfold bind, ret. split.
    + intros X. destruct (run_all l h) as [[r|e| | |] h1] eqn:F; try discriminate X. injection X as <- <-. exists r. split; auto.
      apply in_turn_run. exact F.
    + intros (r & T & ->). apply in_turn_run in T. rewrite T. reflexivity.
  - intros o N. rewrite stops_run, E. unfold bind, ret. destruct (run_all l h) as [o1 h1]. split.
    + intros X. destruct o1; injection X as <- <-; [elim (N _ eq_refl)|eexists; (split; [reflexivity|cbn; auto])..].
    + intros (o2 & X & S). injection X as <- <-. destruct o1, o; try destruct S; auto.
Qed.

Lemma b_vecs_run l h : b_vecs l h = bind (run_all (map b_to_vec l)) (fun r => ret (concat r)) h.
Proof.
  revert h. induction l as [|b l IH]; intros h; cbn [b_vecs map run_all]; [reflexivity|].
  unfold bind in *. destruct (b_to_vec b h) as [[v|e| | |] h1]; auto. rewrite IH. destruct (run_all (map b_to_vec l) h1) as [[r|e| | |] h2]; reflexivity.
Qed.
Lemma b_clones_run l h : b_clones l h = run_all (map b_clone l) h.
Proof.
  revert h. induction l as [|b l IH]; intros h; cbn [b_clones map run_all]; [reflexivity|].
  unfold bind in *. destruct (b_clone b h) as [[v|e| | |] h1]; auto. rewrite IH. reflexivity.
Qed.
Lemma bp_to_vec_turns p : turns (bp_to_vec p) (map b_to_vec (b_hdrs p)) (fun r => concat r ++ b_payload p).
Proof.
  apply turns_run. intros h. unfold bp_to_vec, bind. rewrite b_vecs_run. unfold bind.
  destruct (run_all (map b_to_vec (b_hdrs p)) h) as [[r|e| | |] h1]; reflexivity.
Qed.
Lemma bp_clone_turns p : turns (bp_clone p) (map b_clone (b_hdrs p)) (fun r => BP r (b_payload p)).
Proof. apply turns_run. intros h. unfold bp_clone, bind. rewrite b_clones_run. reflexivity. Qed.
Lemma bp_add_turns p q : turns (bp_add p q) (map b_clone (b_hdrs q)) (fun r => BP (b_hdrs p ++ r) (b_payload p)).
Proof. apply turns_run. intros h. unfold bp_add, bind. rewrite b_clones_run. reflexivity. Qed.

Lemma run_all_snoc {A} (l : list (M A)) f h :
  run_all (l ++ [f]) h = bind (run_all l) (fun r => bind f (fun a => ret (r ++ [a]))) h.
Proof.
  revert h. induction l as [|g l IH]; intros h; cbn [app run_all]; unfold bind, ret in *; [destruct (f h) as [[a|e| | |] h1]; reflexivity|].
  destruct (g h) as [[a|e| | |] h1]; auto. rewrite IH. destruct (run_all l h1) as [[r|e| | |] h2]; auto. destruct (f h2) as [[b|e| | |] h3]; reflexivity.
Qed.
Lemma b_shows_run m l h : b_shows m l h = bind (run_all (map (b_show m) l)) (fun r => ret (fold_right append EmptyString r)) h.
Proof.
  revert h. induction l as [|b l IH]; intros h; cbn [b_shows map run_all]; [reflexivity|].
  unfold bind in *. destruct (b_show m b h) as [[v|e| | |] h1]; auto. rewrite IH. destruct (run_all (map (b_show m) l) h1) as [[r|e| | |] h2]; reflexivity.
Qed.
Lemma bp_show_turns m p : turns (bp_show m p) (map (b_show m) (b_hdrs p) ++ [bind (bp_to_vec p) (fun v => ret (show_raw v))]) (fold_right append EmptyString).
Proof.
  apply turns_run. intros h. unfold bind at 1. rewrite run_all_snoc. unfold bp_show, bind. rewrite b_shows_run. unfold bind, ret.
  destruct (run_all (map (b_show m) (b_hdrs p)) h) as [[r|e| | |] h1]; auto. destruct (bp_to_vec p h1) as [[v|e| | |] h2]; auto.
  f_equal. f_equal. clear. induction r as [|s r IH]; cbn [fold_right app].
  - induction (show_raw v) as [|c s IH]; cbn; [reflexivity|]. rewrite <- IH. reflexivity.
  - rewrite <- IH. generalize (fold_right append EmptyString r) (show_raw v). clear. intros a b. induction s as [|c s IHs]; [reflexivity|]. cbn [append]. rewrite IHs. reflexivity.
Qed.

(** ** Places *)

Lemma place_first name l before x after : first_named name l before x after -> place name l = Some (length before).
Proof.
  intros (-> & N & F). induction F as [|y before Y F IH]; cbn [app place length].
  - rewrite (proj2 (String.eqb_eq _ _) N). reflexivity.
  - rewrite (proj2 (String.eqb_neq _ _) Y), IH. reflexivity.
Qed.
Lemma place_none name l : Forall (fun y => b_name y <> name) l -> place name l = None.
Proof. induction 1 as [|y l Y F IH]; cbn [place]; auto. rewrite (proj2 (String.eqb_neq _ _) Y), IH. reflexivity. Qed.
Lemma first_or_none name l : (exists before x after, first_named name l before x after) \/ Forall (fun y => b_name y <> name) l.
Proof.
  induction l as [|y l [(before & x & after & E & N & F)|IH]]; [right; constructor| |].
  - left. destruct (string_dec (b_name y) name) as [Y|Y].
    + exists [], y, l. split; [reflexivity|split; auto].
    + exists (y :: before), x, after. rewrite E. split; [reflexivity|split; auto].
  - destruct (string_dec (b_name y) name) as [Y|Y]; [left|right; constructor; auto].
    exists [], y, l. split; [reflexivity|split; auto].
Qed.
Lemma nth_middle_error {A} (l : list A) x r : nth_error (l ++ x :: r) (length l) = Some x.
Proof. induction l; cbn; auto. Qed.
Lemma put_middle {A} (l : list A) x r a : put_at (length l) a (l ++ x :: r) = l ++ a :: r.
Proof. induction l as [|y l IH]; cbn [put_at app length]; [|rewrite IH]; reflexivity. Qed.
Lemma index_first p name before x after : first_named name (b_hdrs p) before x after -> b_index p name = ret x.
Proof.
  intros F. unfold b_index. rewrite (place_first _ _ _ _ _ F). cbn [option_map]. destruct F as (-> & _). rewrite nth_middle_error. reflexivity.
Qed.

(** ** Packets as Packet.v has them *)

Lemma run_own_vec l h : b_vecs (map BOwn l) h = concat_vecs l h.
Proof.
  revert h. induction l as [|x l IH]; intros h; cbn [map b_vecs concat_vecs]; [reflexivity|]. unfold bind. cbn [b_to_vec].
  destruct (hto_vec x h) as [[v|e| | |] h1]; auto. rewrite IH. reflexivity.
Qed.
Lemma own_to_vec p h : bp_to_vec (own p) h = to_vec p h.
Proof. unfold bp_to_vec, to_vec, bind. cbn [own b_hdrs]. rewrite run_own_vec. reflexivity. Qed.
Lemma own_len p : bp_len (own p) = pkt_len p.
Proof. unfold bp_len, pkt_len. cbn [own b_hdrs b_payload]. rewrite map_map. reflexivity. Qed.
Lemma own_clones l h : b_clones (map BOwn l) h = (Ret (map BOwn l), h).
Proof.
  revert h. induction l as [|x l IH]; intros h; cbn [map b_clones]; [reflexivity|]. unfold bind. cbn. rewrite IH. destruct x; reflexivity.
Qed.
Lemma own_shows m l h : b_shows m (map BOwn l) h = show_hdrs m l h.
Proof.
  revert h. induction l as [|x l IH]; intros h; cbn [map b_shows show_hdrs]; [reflexivity|]. unfold bind. cbn [b_show].
  destruct (hshow m x h) as [[v|e| | |] h1]; auto. rewrite IH. reflexivity.
Qed.
Lemma own_place name l : match find_name name l with
  | Some x => exists i, place name (map BOwn l) = Some i /\ nth_error (map BOwn l) i = Some (BOwn x)
  | None => place name (map BOwn l) = None end.
Proof.
  induction l as [|x l IH]; cbn [find_name map place b_name]; [reflexivity|]. destruct (String.eqb (hname x) name); [exists O; auto|].
  destruct (find_name name l); [destruct IH as (i & -> & E); exists (S i); auto|rewrite IH; reflexivity].
Qed.
Lemma map_removelast {A B} (f : A -> B) l : map f (removelast l) = removelast (map f l).
Proof. induction l as [|x [|y l] IH]; auto. change (f x :: map f (removelast (y :: l)) = f x :: removelast (map f (y :: l))). rewrite IH. reflexivity. Qed.
Lemma map_remove_nth {A B} (f : A -> B) l : forall i, map f (remove_nth i l) = remove_nth i (map f l).
Proof. induction l as [|x l IH]; intros [|i]; cbn; auto. rewrite IH. reflexivity. Qed.

(** ** Keeping an invariant *)

Lemma keeps_all {A} I (l : list (M A)) : Forall (keeps I) l -> keeps I (run_all l).
Proof.
  induction 1 as [|f l F _ IH]; cbn [run_all]; intros h H; [split; auto; left; eexists; reflexivity|].
  unfold bind, ret. destruct (F h H) as (C & H1). destruct (f h) as [[a|e| | |] h1]; cbn [fst snd] in *;
    try (split; auto; destruct C as [[? C]|[? C]]; discriminate C || (right; eexists; reflexivity)).
  destruct (IH h1 H1) as (C2 & H2). destruct (run_all l h1) as [[r|e| | |] h2]; cbn [fst snd] in *; split; auto;
    try (left; eexists; reflexivity); try (right; eexists; reflexivity); destruct C2 as [[? C2]|[? C2]]; discriminate C2.
Qed.
Lemma keeps_bind {A B} I (x : M A) (k : A -> M B) : keeps I x -> (forall a, keeps I (k a)) -> keeps I (bind x k).
Proof.
  intros X K h H. unfold bind. destruct (X h H) as (C & H1). destruct (x h) as [[a|e| | |] h1]; cbn [fst snd] in *; [apply K; auto|..];
    (split; auto; destruct C as [[? C]|[? C]]; discriminate C || (right; eexists; reflexivity)).
Qed.
Lemma keeps_ret {A} I (a : A) : keeps I (ret a).
Proof. intros h H. split; auto. left. eexists. reflexivity. Qed.
Lemma keeps_ext {A} I (x y : M A) : (forall h, x h = y h) -> keeps I y -> keeps I x.
Proof. intros E K h. rewrite E. apply K. Qed.
Lemma keeps_vec I p : Forall (fun b => keeps I (b_to_vec b)) (b_hdrs p) -> keeps I (bp_to_vec p).
Proof.
  intros F. unfold bp_to_vec. apply keeps_bind; [|intros; apply keeps_ret]. eapply keeps_ext; [apply b_vecs_run|].
  apply keeps_bind; [|intros; apply keeps_ret]. apply keeps_all. apply Forall_map. exact F.
Qed.
Lemma keeps_clones I l : Forall (fun b => keeps I (b_clone b)) l -> keeps I (b_clones l).
Proof. intros F. eapply keeps_ext; [apply b_clones_run|]. apply keeps_all. apply Forall_map. exact F. Qed.
Lemma keeps_shows I m l : Forall (fun b => keeps I (b_show m b)) l -> keeps I (b_shows m l).
Proof. induction 1 as [|b l B _ IH]; cbn [b_shows]; [apply keeps_ret|]. apply keeps_bind; auto. intros s. apply keeps_bind; auto. intros; apply keeps_ret. Qed.
Lemma keeps_compare I p b : keeps I (bp_to_vec p) -> keeps I (bp_compare_slice p b).
Proof.
  intros K. unfold bp_compare_slice. cbv zeta. destruct (negb _); [apply keeps_ret|]. apply keeps_bind; auto. intros a. destruct (_ || _); apply keeps_ret.
Qed.
