From Verif Require Import Py Lib ZipModel ZipSpec.
From Coq Require Import String Lia.
Local Open Scope nat_scope.
Local Notation length := List.length.
Local Notation concat := List.concat.

Lemma path_eqb_eq : forall a b, path_eqb a b = true <-> a = b.
Proof.
  induction a as [|x a IH]; intros [|y b]; cbn [path_eqb]; split; intros H; try congruence; try discriminate.
  - apply andb_true_iff in H. destruct H as [H1 H2]. apply String.eqb_eq in H1. apply IH in H2. congruence.
  - inversion H; subst. rewrite String.eqb_refl. apply IH. reflexivity.
Qed.
Lemma path_eqb_refl : forall a, path_eqb a a = true.
Proof. intros a. apply path_eqb_eq. reflexivity. Qed.
Lemma path_eqb_neq : forall a b, a <> b -> path_eqb a b = false.
Proof. intros a b H. destruct (path_eqb a b) eqn:E; [|reflexivity]. apply path_eqb_eq in E. contradiction. Qed.

Lemma read_in : forall f e, Paths f -> In e f -> read_file f (e_path e) = Some (e_content e).
Proof.
  unfold Paths. induction f as [|x t IH]; intros e H He; [contradiction|]. cbn [map] in H. inversion H; subst. cbn [read_file].
  destruct He as [->|He]; [rewrite path_eqb_refl; reflexivity|].
  rewrite path_eqb_neq; [apply IH; assumption|]. intros E. apply H2. rewrite E. apply in_map. exact He.
Qed.

Lemma read_some : forall f p c, read_file f p = Some c -> exists e, In e f /\ e_path e = p /\ e_content e = c.
Proof.
  induction f as [|x t IH]; intros p c H; [discriminate|]. cbn [read_file] in H. destruct (path_eqb (e_path x) p) eqn:E.
  - inversion H; subst. apply path_eqb_eq in E. exists x. split; [left; reflexivity|]. auto.
  - destruct (IH p c H) as [e [A B]]. exists e. split; [right; exact A|exact B].
Qed.

Lemma read_written : forall f z c, read_file (write_file f z c) [z] = Some c.
Proof.
  induction f as [|x t IH]; intros z c; cbn [write_file].
  - cbn [read_file e_path e_dir e_name app e_content]. rewrite path_eqb_refl. reflexivity.
  - destruct (path_eqb (e_path x) [z]) eqn:E; cbn [read_file].
    + cbn [e_path e_dir e_name app e_content]. change (path_eqb (e_path (mkentry [] z c)) [z]) with (path_eqb [z] [z]).
      rewrite path_eqb_refl. reflexivity.
    + rewrite E. apply IH.
Qed.

Lemma read_other : forall f z c p, p <> [z] -> read_file (write_file f z c) p = read_file f p.
Proof.
  induction f as [|x t IH]; intros z c p H; cbn [write_file].
  - cbn [read_file]. change (e_path (mkentry [] z c)) with [z]. rewrite path_eqb_neq by congruence. reflexivity.
  - destruct (path_eqb (e_path x) [z]) eqn:E; cbn [read_file].
    + change (e_path (mkentry [] z c)) with [z]. rewrite path_eqb_neq by congruence. apply path_eqb_eq in E. rewrite E.
      rewrite path_eqb_neq by congruence. reflexivity.
    + rewrite IH by exact H. reflexivity.
Qed.

Lemma write_paths_in : forall f z c p, In p (map e_path (write_file f z c)) -> p = [z] \/ In p (map e_path f).
Proof.
  induction f as [|x t IH]; intros z c p H; cbn [write_file] in H.
  - destruct H as [<-|[]]. left. reflexivity.
  - destruct (path_eqb (e_path x) [z]) eqn:E; cbn [map] in H; destruct H as [H|H].
    + left. subst. reflexivity.
    + right. right. exact H.
    + right. left. exact H.
    + destruct (IH z c p H) as [K|K]; [left; exact K|right; right; exact K].
Qed.

Lemma write_paths : forall f z c, Paths f -> Paths (write_file f z c).
Proof.
  unfold Paths. induction f as [|x t IH]; intros z c H; cbn [write_file].
  - repeat constructor. intros [].
  - cbn [map] in H. inversion H; subst. destruct (path_eqb (e_path x) [z]) eqn:E; cbn [map].
    + apply path_eqb_eq in E. change (e_path (mkentry [] z c)) with [z]. constructor; [rewrite <- E; exact H2|exact H3].
    + constructor; [|apply IH; exact H3]. intros F. apply write_paths_in in F. destruct F as [F|F]; [|contradiction].
      rewrite F, path_eqb_refl in E. discriminate.
Qed.

Lemma written_in : forall f z c, exists e, In e (write_file f z c) /\ e = mkentry [] z c.
Proof.
  intros f z c. exists (mkentry [] z c). split; [|reflexivity]. induction f as [|x t IH]; cbn [write_file]; [left; reflexivity|].
  destruct (path_eqb (e_path x) [z]); [left; reflexivity|right; exact IH].
Qed.

Definition now (z : string) (e : entry) : content := if path_eqb (e_path e) [z] then Unfinished else e_content e.

Lemma add_all : forall base z f g, Paths f -> (forall e, In e g -> In e f) ->
  add_items (write_file f z Unfinished) (get_items base g) = Ok (map (fun e => (arcname base e, now z e)) g).
Proof.
  intros base z f g Hf. induction g as [|e t IH]; intros Hg; [reflexivity|]. unfold get_items in *. cbn [map add_items fst snd].
  assert (read_file (write_file f z Unfinished) (e_path e) = Some (now z e)) as ->.
  { unfold now. destruct (path_eqb (e_path e) [z]) eqn:E.
    - apply path_eqb_eq in E. rewrite E. apply read_written.
    - rewrite read_other; [apply read_in; [exact Hf|apply Hg; left; reflexivity]|]. intros F. rewrite F, path_eqb_refl in E. discriminate. }
  rewrite IH by (intros e' H'; apply Hg; right; exact H'). reflexivity.
Qed.

Definition contents (base z : string) (f : folder) : list (list string * content) := map (fun e => (arcname base e, now z e)) f.

Lemma zipped : forall base z f, Paths f -> get_zipped_path base z f = Ok (write_file f z (Archive (contents base z f))).
Proof. intros base z f H. unfold get_zipped_path, compress_path. rewrite add_all by auto. reflexivity. Qed.

(** The formats that are returned as archives. *)
Lemma format_zip : forall fmt aux base z f, Paths f -> fmt = FOther \/ (fmt <> FOcgis /\ aux = true) ->
  format_return fmt aux base z f = Ok (ZipPath, write_file f z (Archive (contents base z f))).
Proof.
  intros fmt aux base z f Hf [->|[H ->]]; [|destruct fmt; [congruence| | |]]; cbn [format_return]; rewrite zipped by exact Hf; reflexivity.
Qed.

(** ** Members *)

Lemma member_in : forall l n c, member l n = Some c -> In (n, c) l.
Proof.
  induction l as [|[m d] t IH]; intros n c H; [discriminate|]. cbn [member] in H. destruct (member t n) eqn:E.
  - inversion H; subst. right. apply IH. exact E.
  - destruct (path_eqb m n) eqn:P; [|discriminate]. inversion H; subst. apply path_eqb_eq in P. subst. left. reflexivity.
Qed.

Lemma member_some : forall l n c, In (n, c) l -> exists c', member l n = Some c'.
Proof.
  induction l as [|[m d] t IH]; intros n c H; [contradiction|]. cbn [member]. destruct H as [H|H].
  - inversion H; subst. destruct (member t n); [eauto|]. rewrite path_eqb_refl. eauto.
  - destruct (IH n c H) as [c' ->]. eauto.
Qed.

Lemma member_map : forall {A} (name : A -> list string) (con : A -> content) l a, In a l ->
  (forall b, In b l -> name b = name a -> con b = con a) -> member (map (fun x => (name x, con x)) l) (name a) = Some (con a).
Proof.
  intros A name con l a Ha H.
  assert (In (name a, con a) (map (fun x => (name x, con x)) l)) as Hi by (apply in_map_iff; exists a; split; [reflexivity|exact Ha]).
  destruct (member_some _ _ _ Hi) as [c' E]. rewrite E. f_equal. apply member_in in E. apply in_map_iff in E.
  destruct E as [b [Eb Hb]]. pose proof (f_equal fst Eb) as E1. pose proof (f_equal snd Eb) as E2. cbn [fst snd] in E1, E2.
  rewrite <- E2. apply H; assumption.
Qed.

(** ** Names *)

Lemma shp_dir : forall base e, InShp base e <-> String.eqb (last (e_dir e) base) "shp" = true.
Proof.
  intros base e. rewrite String.eqb_eq. unfold InShp. split.
  - intros [[ds ->]|[-> ->]]; [apply last_last|reflexivity].
  - intros H. destruct (e_dir e) as [|d t] eqn:E; [right; split; [reflexivity|exact H]|]. left.
    destruct (@exists_last _ (d :: t)) as [ds [x Ex]]; [discriminate|]. exists ds. rewrite Ex in *. rewrite last_last in H. congruence.
Qed.

Lemma arcname_shp : forall base e, InShp base e -> arcname base e = ["shp"%string; e_name e].
Proof. intros base e H. apply shp_dir in H. unfold arcname. rewrite H. reflexivity. Qed.
Lemma arcname_plain : forall base e, ~ InShp base e -> arcname base e = [e_name e].
Proof.
  intros base e H. unfold arcname. destruct (String.eqb (last (e_dir e) base) "shp") eqn:E; [|reflexivity].
  exfalso. apply H. apply shp_dir. exact E.
Qed.
Lemma shp_dec : forall base e, InShp base e \/ ~ InShp base e.
Proof.
  intros base e. destruct (String.eqb (last (e_dir e) base) "shp") eqn:E; [left; apply shp_dir; exact E|right].
  intros F. apply shp_dir in F. congruence.
Qed.

Lemma arcname_apart : forall base e1 e2, arcname base e1 = arcname base e2 -> e_name e1 = e_name e2 /\ (InShp base e1 <-> InShp base e2).
Proof.
  intros base e1 e2 H. destruct (shp_dec base e1) as [S1|S1], (shp_dec base e2) as [S2|S2];
    rewrite ?(arcname_shp base e1 S1), ?(arcname_shp base e2 S2), ?(arcname_plain base e1 S1), ?(arcname_plain base e2 S2) in H;
    inversion H; split; try assumption; tauto.
Qed.

Lemma arcname_ends : forall base e, exists ds, arcname base e = ds ++ [e_name e].
Proof.
  intros base e. destruct (shp_dec base e) as [S1|S1]; [rewrite arcname_shp by exact S1; exists ["shp"%string]|rewrite arcname_plain by exact S1; exists []]; reflexivity.
Qed.

Lemma holds : forall base z f, NamesApart base f -> ~ In [z] (map e_path f) -> HoldsAll (contents base z f) f.
Proof.
  intros base z f Ha Hz. exists (arcname base). split; [|split].
  - intros e He. split; [|apply arcname_ends].
    assert (forall e, In e f -> now z e = e_content e) as Hn.
    { intros e' He'. unfold now. rewrite path_eqb_neq; [reflexivity|]. intros F. apply Hz. rewrite <- F. apply in_map. exact He'. }
    rewrite <- (Hn e He). apply (member_map (arcname base) (now z)); [exact He|].
    intros b Hb E. apply arcname_apart in E. destruct E as [E1 E2]. rewrite (Ha b e Hb He E1 E2). reflexivity.
  - intros e1 e2 H1 H2 E. apply arcname_apart in E. destruct E as [E1 E2]. exact (Ha e1 e2 H1 H2 E1 E2).
  - intros n c H. apply in_map_iff in H. destruct H as [e [E He]]. exists e. split; [exact He|]. inversion E; reflexivity.
Qed.

Lemma name_forms : forall base z f name e, In e f -> member (contents base z f) name = Some (e_content e) ->
  (exists ds, name = ds ++ [e_name e]) -> name = [e_name e] \/ name = ["shp"%string; e_name e].
Proof.
  intros base z f name e He Hm [ds ->]. apply member_in in Hm. apply in_map_iff in Hm. destruct Hm as [b [Eb Hb]].
  pose proof (f_equal fst Eb) as E. cbn [fst] in E. destruct (shp_dec base b) as [S1|S1].
  - rewrite arcname_shp in E by exact S1. destruct ds as [|d [|d' t]]; cbn [app] in E.
    + inversion E.
    + right. inversion E; subst. reflexivity.
    + inversion E. destruct t; discriminate.
  - rewrite arcname_plain in E by exact S1. destruct ds as [|d t]; [left; reflexivity|]. inversion E. destruct t; discriminate.
Qed.

Lemma clash : forall base z f e1 e2, In e1 f -> In e2 f -> e1 <> e2 -> e_name e1 = e_name e2 ->
  (InShp base e1 <-> InShp base e2) -> ~ HoldsAll (contents base z f) f.
Proof.
  intros base z f e1 e2 H1 H2 Hne En Es [name [Hn [Hinj Hall]]].
  assert (forall e, In e f -> name e = [e_name e] \/ name e = ["shp"%string; e_name e]) as Hf.
  { intros e He. destruct (Hn e He) as [A B]. eapply name_forms; eassumption. }
  assert (forall e, In e f -> exists b, In b f /\ name e = arcname base b) as Hb.
  { intros e He. destruct (Hn e He) as [A _]. apply member_in in A. apply in_map_iff in A. destruct A as [b [E Hb]].
    exists b. split; [exact Hb|]. inversion E; reflexivity. }
  assert (forall e, In e f -> e_name e = e_name e1 -> e = e1 \/ e = e2) as Hthree.
  { intros e He E. destruct (Hf e1 H1) as [F1|F1], (Hf e2 H2) as [F2|F2], (Hf e He) as [F|F];
      try (exfalso; apply Hne; apply Hinj; [assumption|assumption|congruence]);
      (left; apply Hinj; [assumption|assumption|congruence]) || (right; apply Hinj; [assumption|assumption|congruence]). }
  destruct (shp_dec base e1) as [S1|S1].
  - assert (exists e, In e f /\ name e = [e_name e1]) as [e [He Ee]].
    { destruct (Hf e1 H1) as [F1|F1]; [eauto|]. destruct (Hf e2 H2) as [F2|F2]; [exists e2; split; [assumption|congruence]|].
      exfalso. apply Hne. apply Hinj; [assumption|assumption|congruence]. }
    destruct (Hb e He) as [b [Hbf Eb]]. rewrite Ee in Eb. destruct (shp_dec base b) as [Sb|Sb].
    + rewrite arcname_shp in Eb by exact Sb. discriminate.
    + rewrite arcname_plain in Eb by exact Sb. inversion Eb as [Ebn]. symmetry in Ebn. destruct (Hthree b Hbf Ebn); subst; tauto.
  - assert (exists e, In e f /\ name e = ["shp"%string; e_name e1]) as [e [He Ee]].
    { destruct (Hf e1 H1) as [F1|F1]; [|eauto]. destruct (Hf e2 H2) as [F2|F2]; [|exists e2; split; [assumption|congruence]].
      exfalso. apply Hne. apply Hinj; [assumption|assumption|congruence]. }
    destruct (Hb e He) as [b [Hbf Eb]]. rewrite Ee in Eb. destruct (shp_dec base b) as [Sb|Sb].
    + rewrite arcname_shp in Eb by exact Sb. inversion Eb as [Ebn]. symmetry in Ebn. destruct (Hthree b Hbf Ebn); subst; tauto.
    + rewrite arcname_plain in Eb by exact Sb. discriminate.
Qed.

Lemma again : forall base z f c, exists n, In (n, Unfinished) (contents base z (write_file f z c)) /\ exists ds, n = ds ++ [z].
Proof.
  intros base z f c. destruct (written_in f z c) as [e [He E]]. exists (arcname base e). split.
  - apply in_map_iff. exists e. split; [|exact He]. unfold now. rewrite E. change (e_path (mkentry [] z c)) with [z].
    rewrite path_eqb_refl. reflexivity.
  - destruct (arcname_ends base e) as [ds H]. exists ds. rewrite H, E. reflexivity.
Qed.

(** ** The stream *)

Lemma list_dir_in : forall f n, In n (list_dir f) <-> exists e, In e f /\ top_name e = n.
Proof.
  intros f n. unfold list_dir. induction f as [|x t IH]; cbn [map fold_right].
  - split; [intros []|intros [e [[] _]]].
  - unfold add_name at 1. destruct (existsb (String.eqb (top_name x)) (fold_right add_name [] (map top_name t))) eqn:E.
    + rewrite IH. split; intros [e [He En]]; [exists e; split; [right; exact He|exact En]|].
      destruct He as [->|He]; [|eauto]. apply existsb_exists in E. destruct E as [y [Hy Ey]]. apply String.eqb_eq in Ey.
      apply IH. rewrite <- En, Ey. exact Hy.
    + cbn [In]. rewrite IH. split.
      * intros [<-|[e [He En]]]; [exists x; split; [left; reflexivity|reflexivity]|exists e; split; [right; exact He|exact En]].
      * intros [e [[->|He] En]]; [left; exact En|right; eauto].
Qed.

Lemma stream_holds : forall f, Paths f -> (forall e, In e f -> e_dir e = []) -> HoldsAll (zip_stream f) f.
Proof.
  intros f Hf Hd. exists (fun e => [e_name e]). split; [|split].
  - intros e He. split; [|exists []; reflexivity].
    assert (In (e_name e) (list_dir f)) as Hl.
    { apply list_dir_in. exists e. split; [exact He|]. unfold top_name. rewrite Hd by exact He. reflexivity. }
    pose proof (read_in f e Hf He) as R. unfold e_path in R. rewrite Hd in R by exact He. cbn [app] in R.
    pose proof (member_map (fun n => [n]) (fun n => match read_file f [n] with Some c => c | None => Directory end) (list_dir f) (e_name e) Hl) as M.
    unfold zip_stream. rewrite M; [rewrite R; reflexivity|]. intros b _ E. inversion E; reflexivity.
  - intros e1 e2 H1 H2 E. inversion E as [En].
    assert (e_path e1 = e_path e2) as Ep by (unfold e_path; rewrite !Hd by assumption; rewrite En; reflexivity).
    clear -Hf H1 H2 Ep. unfold Paths in Hf. induction f as [|x t IH]; [contradiction|]. cbn [map] in Hf. inversion Hf; subst.
    destruct H1 as [<-|H1], H2 as [<-|H2].
    + reflexivity.
    + exfalso. apply H3. rewrite Ep. apply in_map. exact H2.
    + exfalso. apply H3. rewrite <- Ep. apply in_map. exact H1.
    + apply IH; assumption.
  - intros n c H. apply in_map_iff in H. destruct H as [b [Eb Hb]]. apply list_dir_in in Hb. destruct Hb as [e [He En]].
    exists e. split; [exact He|]. unfold top_name in En. rewrite Hd in En by exact He. inversion Eb. congruence.
Qed.

Lemma stream_loses : forall f e, In e f -> e_dir e <> [] -> (forall e', In e' f -> e_content e' <> Directory) ->
  ~ HoldsAll (zip_stream f) f.
Proof.
  intros f e He Hd Hc [name [Hn [Hinj _]]].
  assert (forall e, In e f -> name e = [e_name e] /\ In ([e_name e], e_content e) (zip_stream f)) as K.
  { intros b Hb. destruct (Hn b Hb) as [A [ds B]]. apply member_in in A. pose proof A as A'. apply in_map_iff in A. destruct A as [n [En _]].
    pose proof (f_equal fst En) as E1. cbn [fst] in E1. rewrite B in E1. destruct ds as [|d t]; cbn [app] in E1.
    - rewrite B in A'. cbn [app] in A'. split; [exact B|exact A'].
    - inversion E1. destruct t; discriminate. }
  destruct (K e He) as [A B]. apply in_map_iff in B. destruct B as [n [En _]].
  pose proof (f_equal fst En) as E1. pose proof (f_equal snd En) as E2. cbn [fst snd] in E1, E2. inversion E1; subst n.
  destruct (read_file f [e_name e]) as [c|] eqn:R.
  - apply read_some in R. destruct R as [e' [He' [Ep _]]]. unfold e_path in Ep.
    destruct (e_dir e') as [|d t] eqn:Ed; cbn [app] in Ep; [|inversion Ep; destruct t; discriminate].
    inversion Ep as [En']. destruct (K e' He') as [A' _]. assert (e' = e) by (apply Hinj; [assumption|assumption|congruence]). subst. contradiction.
  - symmetry in E2. exact (Hc e He E2).
Qed.
