(** C155: outputs returned as archives. *)
From Verif Require Import Py ZipModel ZipSpec ZipProofs.
From Coq Require Import String Lia.
Local Open Scope nat_scope.
Local Notation length := List.length.

(** C155.  The archive that [format_return] makes of an output holds all files of the folder of
    the output, each under a name of its own, and nothing else; the files stay as they are. *)
Theorem C155_archive_partial : forall fmt aux base z f, fmt = FOther \/ (fmt <> FOcgis /\ aux = true) ->
  Paths f -> NamesApart base f -> read_file f [z] = None ->
  exists f' l, format_return fmt aux base z f = Ok (ZipPath, f') /\
    read_file f' [z] = Some (Archive l) /\ HoldsAll l f /\ (forall p, p <> [z] -> read_file f' p = read_file f p).
Proof.
  intros fmt aux base z f Hf Hp Ha Hz. do 2 eexists. split; [apply format_zip; assumption|]. split; [apply read_written|].
  split; [|intros p H; apply read_other; exact H]. apply holds; [exact Ha|].
  intros F. apply in_map_iff in F. destruct F as [e [Ee He]]. rewrite <- Ee, (read_in f e Hp He) in Hz. discriminate.
Qed.
Print Assumptions C155_archive_partial.

Definition output : folder :=
  [mkentry [] "out.csv" (Bytes 1); mkentry [] "out_did.csv" (Bytes 2);
   mkentry ["shp"%string] "out_gid.shp" (Bytes 3); mkentry ["shp"%string] "out.csv" (Bytes 4)].
Example C155_case : Paths output /\ NamesApart "run" output /\ read_file output ["out.zip"%string] = None /\
  format_return FOther false "run" "out.zip" output =
    Ok (ZipPath, output ++ [mkentry [] "out.zip" (Archive
         [(["out.csv"%string], Bytes 1); (["out_did.csv"%string], Bytes 2);
          (["shp"; "out_gid.shp"]%string, Bytes 3); (["shp"; "out.csv"]%string, Bytes 4)])]).
Proof.
  split; [repeat constructor; cbn; intuition discriminate|]. split; [|split; vm_compute; reflexivity].
  intros e1 e2 H1 H2 En Es. rewrite !shp_dir in Es. cbn [In output] in H1, H2.
  repeat match goal with H : _ \/ _ |- _ => destruct H as [H|H] end; try contradiction; subst; try reflexivity; try discriminate;
    cbn in Es; destruct Es as [A B]; (specialize (A eq_refl) || specialize (B eq_refl)); discriminate.
Qed.

(** Two files of the same name in different directories (neither or both called "shp") cannot
    both be had from the archive. *)
Theorem C155_same_names_refuted : forall fmt aux base z f f' l e1 e2, fmt = FOther \/ (fmt <> FOcgis /\ aux = true) ->
  Paths f -> In e1 f -> In e2 f -> e1 <> e2 -> e_name e1 = e_name e2 -> (InShp base e1 <-> InShp base e2) ->
  format_return fmt aux base z f = Ok (ZipPath, f') -> read_file f' [z] = Some (Archive l) -> ~ HoldsAll l f.
Proof.
  intros fmt aux base z f f' l e1 e2 Hf Hp H1 H2 Hne En Es H R.
  rewrite (format_zip fmt aux base z f Hp Hf) in H. pose proof (f_equal (fun r => match r with Ok x => snd x | Err _ => [] end) H) as E.
  cbn [snd] in E. rewrite <- E, read_written in R. inversion R as [El]. exact (clash base z f e1 e2 H1 H2 Hne En Es).
Qed.
Print Assumptions C155_same_names_refuted.
Definition logs : folder := [mkentry ["a"%string] "run.log" (Bytes 1); mkentry ["b"%string] "run.log" (Bytes 2)].
Example C155_same_names_case : Paths logs /\
  match format_return FOther false "run" "out.zip" logs with
  | Ok (_, f') => match read_file f' ["out.zip"%string] with
                  | Some (Archive l) => length l = 2 /\ member l ["run.log"%string] = Some (Bytes 2)
                  | _ => False
                  end
  | Err _ => False
  end.
Proof. split; [repeat constructor; cbn; intuition discriminate|vm_compute; split; reflexivity]. Qed.

(** A second call packs the archive of the first into itself, unfinished. *)
Theorem C155_again_refuted : forall fmt aux base z f f', fmt = FOther \/ (fmt <> FOcgis /\ aux = true) -> Paths f ->
  format_return fmt aux base z f = Ok (ZipPath, f') ->
  exists f'' l n, format_return fmt aux base z f' = Ok (ZipPath, f'') /\ read_file f'' [z] = Some (Archive l) /\
    In (n, Unfinished) l /\ exists ds, n = ds ++ [z].
Proof.
  intros fmt aux base z f f' Hf Hp H. rewrite (format_zip fmt aux base z f Hp Hf) in H.
  pose proof (f_equal (fun r => match r with Ok x => snd x | Err _ => [] end) H) as E. cbn [snd] in E. subst f'.
  destruct (again base z f (Archive (contents base z f))) as [n [Hn Hd]].
  do 2 eexists. exists n. split; [apply format_zip; [apply write_paths; exact Hp|exact Hf]|].
  split; [apply read_written|]. split; [exact Hn|exact Hd].
Qed.
Print Assumptions C155_again_refuted.
Example C155_again_case :
  match format_return FOther false "run" "out.zip" [mkentry [] "out.shp" (Bytes 1)] with
  | Ok (_, f') => match format_return FOther false "run" "out.zip" f' with
                  | Ok (_, f'') => read_file f'' ["out.zip"%string] =
                      Some (Archive [(["out.shp"%string], Bytes 1); (["out.zip"%string], Unfinished)])
                  | Err _ => False
                  end
  | Err _ => False
  end.
Proof. vm_compute. reflexivity. Qed.

(** CSV and netCDF files without their auxiliary files are returned as they are; what is in
    memory only cannot be returned so. *)
Theorem C155_as_given : forall fmt base z f,
  (fmt = FCsv \/ fmt = FNc -> format_return fmt false base z f = Ok (GivenPath, f)) /\
  (forall aux, format_return FOcgis aux base z f = Err NotImplementedError).
Proof. intros fmt base z f. split; [intros [->| ->]; reflexivity|reflexivity]. Qed.
Print Assumptions C155_as_given.

(** The stream of a folder holds its files, if all of them are directly in it; *)
Theorem C155_stream_partial : forall f, Paths f -> (forall e, In e f -> e_dir e = []) -> HoldsAll (zip_stream f) f.
Proof. exact stream_holds. Qed.
Print Assumptions C155_stream_partial.
Example C155_stream_case : zip_stream [mkentry [] "a" (Bytes 1); mkentry [] "b" (Bytes 2)] = [(["a"%string], Bytes 1); (["b"%string], Bytes 2)].
Proof. vm_compute. reflexivity. Qed.

(** with a file in a directory below it does not. *)
Theorem C155_stream_refuted : forall f e, In e f -> e_dir e <> [] -> (forall e', In e' f -> e_content e' <> Directory) ->
  ~ HoldsAll (zip_stream f) f.
Proof. exact stream_loses. Qed.
Print Assumptions C155_stream_refuted.
Example C155_stream_loses_case : zip_stream output = [(["out.csv"%string], Bytes 1); (["out_did.csv"%string], Bytes 2); (["shp"%string], Directory)] /\
  forall e', In e' output -> e_content e' <> Directory.
Proof. split; [vm_compute; reflexivity|]. intros e' H. cbn in H. repeat destruct H as [<-|H]; try discriminate. contradiction. Qed.
