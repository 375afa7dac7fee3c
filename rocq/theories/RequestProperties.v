(** * Properties of requests for datasets. *)
From Verif Require Import Py Lib RequestModel RequestSpec RequestProofs RequestNames.
From Coq Require Import String Ascii Bool List ZArith Lia.
Import ListNotations.
Local Open Scope string_scope.
Local Open Scope list_scope.

(** ** C107: the driver fits the type of the file *)

(** One URI: the one type of file it mentions decides, and a URI of no known type is
    refused. *)
Theorem C107_single_partial u :
  (only_csv u -> discover [u] = Ok CSV) /\
  (only_shp u -> discover [u] = Ok VECTOR) /\
  (only_nc u -> discover [u] = Ok NETCDF_CF) /\
  (~ mentions ".csv" u -> ~ mentions ".shp" u -> ~ netcdf_uri u -> discover [u] = Err RequestValidationError).
Proof.
  split; [exact (discover_one_csv u)|]. split; [exact (discover_one_shp u)|]. split.
  - intros (N & _). exact (discover_netcdf [u] u (or_introl eq_refl) N).
  - intros C V N. apply discover_none. intros x [<-|[]]. auto.
Qed.
Print Assumptions C107_single_partial.

Example C107_single_case :
  discover ["/data/stations.csv"] = Ok CSV /\ discover ["/data/states.shp"] = Ok VECTOR /\
  discover ["/data/tas.nc"] = Ok NETCDF_CF /\ discover ["http://host/tas"] = Ok NETCDF_CF /\
  discover ["/data/tas.grb"] = Err RequestValidationError.
Proof. vm_compute. auto. Qed.

(** Several netCDF files get the netCDF-CF driver. *)
Theorem C107_files_partial uris : uris <> [] -> (forall u, In u uris -> only_nc u) -> discover uris = Ok NETCDF_CF.
Proof.
  intros N H. destruct uris as [|u t]; [easy|].
  exact (discover_netcdf (u :: t) u (or_introl eq_refl) (proj1 (H u (or_introl eq_refl)))).
Qed.
Print Assumptions C107_files_partial.

Example C107_files_case : discover ["a_1990.nc"; "a_1991.nc"; "http://h/a_1992"] = Ok NETCDF_CF.
Proof. reflexivity. Qed.

(** Several CSV files, or several shapefiles, are always refused, though they are all
    of one type. *)
Theorem C107_several_refuted uris :
  (2 <= List.length uris)%nat -> (forall u, In u uris -> only_csv u) \/ (forall u, In u uris -> only_shp u) ->
  discover uris = Err RequestValidationError.
Proof.
  intros L H. apply (discover_several uris L). intros u I.
  destruct H as [H|H]; destruct (H u I) as (A & _ & N); auto.
Qed.
Print Assumptions C107_several_refuted.

Example C107_several_case : discover ["/d/a.csv"; "/d/b.csv"] = Err RequestValidationError.
Proof. reflexivity. Qed.

(** Files of different types are taken for netCDF as soon as one of them is. *)
Theorem C107_mixed_refuted uris u : In u uris -> netcdf_uri u -> discover uris = Ok NETCDF_CF.
Proof. exact (discover_netcdf uris u). Qed.
Print Assumptions C107_mixed_refuted.

Example C107_mixed_case : discover ["a.csv"; "b.nc"; "c.shp"] = Ok NETCDF_CF.
Proof. reflexivity. Qed.

(** The type may be mentioned by a directory: whatever is in a directory with a name
    ending in .nc is taken for netCDF. *)
Theorem C107_directory_refuted dirname name :
  ~ In newline (list_ascii_of_string dirname) ->
  discover [(dirname ++ ".nc/" ++ name)%string] = Ok NETCDF_CF.
Proof. exact (discover_anywhere dirname name). Qed.
Print Assumptions C107_directory_refuted.

Example C107_directory_case : discover ["/home/u/out.nc/table.csv"] = Ok NETCDF_CF.
Proof. reflexivity. Qed.

(** A driver that is asked for, by key or by class, is the one used. *)
Theorem C107_named_partial d :
  get_driver (DKey (driver_key d)) = Ok (Registered d) /\ get_driver (DClass d) = Ok (Registered d).
Proof. split; [exact (get_driver_key d)|exact (get_driver_class_arg d)]. Qed.
Print Assumptions C107_named_partial.

Example C107_named_case : get_driver (DKey "netcdf-scrip") = Ok (Registered SCRIP).
Proof. reflexivity. Qed.

(** A key that no driver has is not refused: the netCDF-CF driver is used. *)
Theorem C107_typo_refuted k :
  k <> "base" -> (forall d, k <> driver_key d) -> get_driver (DKey k) = Ok (Registered NETCDF_CF).
Proof. exact (get_driver_unknown k). Qed.
Print Assumptions C107_typo_refuted.

Example C107_typo_case : get_driver (DKey "shapefile") = Ok (Registered NETCDF_CF) /\ get_driver DOther = Ok (Registered NETCDF_CF).
Proof. split; reflexivity. Qed.

(** ** C108: the search for files *)

(** Every answer is the URI itself, if it exists or is remote, or the path of a file
    with that name below one of the directories. *)
Theorem C108_answer_partial known dirs uris out :
  get_uri known dirs false uris = Ok out ->
  Forall2 (fun u o => exists p, o = Some p /\
    ((p = u /\ (known u = true \/ remote u)) \/
     (known u = false /\ known p = true /\
      exists root, In root dirs /\ file_at (fst root) (snd root) u p))) uris out.
Proof.
  intros H. apply get_uri_ok in H. eapply Forall2_imp; [|exact H].
  intros u o (p & -> & [C|(K & Kp & pre & root & post & -> & F & _)]); exists p; split; try reflexivity.
  - left. exact C.
  - right. split; [exact K|]. split; [exact Kp|]. exists root. split; [|exact F].
    apply in_app_iff. right. now left.
Qed.
Print Assumptions C108_answer_partial.

Definition ex_known (p : string) : bool :=
  existsb (String.eqb p) ["/local.nc"; "/a/x/t.nc"; "/b/t.nc"; "/a/x/u.nc"].
Definition ex_dirs : list (string * dir) :=
  [("/a", Dir ["r.nc"] [("x", Dir ["u.nc"; "t.nc"] [])]); ("/b", Dir ["t.nc"] [])].

Example C108_answer_case :
  get_uri ex_known ex_dirs false ["/local.nc"; "http://h/x"; "u.nc"] =
    Ok [Some "/local.nc"; Some "http://h/x"; Some "/a/x/u.nc"].
Proof. reflexivity. Qed.

(** A file below one of the directories is found, at any depth. *)
Theorem C108_found known dirs uris : uris <> [] ->
  (forall r u p, In r dirs -> file_at (fst r) (snd r) u p -> known p = true) ->
  (forall u, In u uris -> known u = true \/ remote u \/ exists r, In r dirs /\ holds_file r u) ->
  exists out, get_uri known dirs false uris = Ok out.
Proof. exact (get_uri_answers known dirs uris). Qed.
Print Assumptions C108_found.

Example C108_found_case : get_uri (fun p => negb (String.eqb p "t.nc")) ex_dirs false ["t.nc"] = Ok [Some "/b/t.nc"].
Proof. reflexivity. Qed.

(** A file that is nowhere is refused. *)
Theorem C108_missing known dirs uris u : In u uris -> known u = false -> ~ remote u ->
  (forall r, In r dirs -> ~ holds_file r u) -> get_uri known dirs false uris = Err ValueError.
Proof. exact (get_uri_missing known dirs uris u). Qed.
Print Assumptions C108_missing.

Example C108_missing_case : get_uri ex_known ex_dirs false ["/local.nc"; "none.nc"] = Err ValueError.
Proof. reflexivity. Qed.

(** When errors are ignored nothing is refused, and what is found nowhere is left out. *)
Theorem C108_ignored known dirs uris : uris <> [] -> exists out, get_uri known dirs true uris = Ok out /\
  Forall2 (fun u o => ((known u = true \/ remote u) -> o = Some u) /\
    (known u = false -> ~ remote u -> match o with
      | Some p => exists root, In root dirs /\ file_at (fst root) (snd root) u p
      | None => forall root, In root dirs -> ~ holds_file root u end)) uris out.
Proof. exact (get_uri_ignored known dirs uris). Qed.
Print Assumptions C108_ignored.

Example C108_ignored_case : get_uri ex_known ex_dirs true ["u.nc"; "none.nc"] = Ok [Some "/a/x/u.nc"; None].
Proof. reflexivity. Qed.

(** The directories are not searched in the order they are given: the last of them
    that holds the file is the one that counts. *)
Theorem C108_order_refuted known pre root u : known u = false -> ~ remote u -> holds_file root u ->
  (forall p, file_at (fst root) (snd root) u p -> known p = true) ->
  exists p, get_uri known (pre ++ [root]) false [u] = Ok [Some p] /\ file_at (fst root) (snd root) u p.
Proof. exact (get_uri_last known pre root u). Qed.
Print Assumptions C108_order_refuted.

Example C108_order_case : get_uri ex_known ex_dirs false ["t.nc"] = Ok [Some "/b/t.nc"] /\
  file_at "/a" (snd (hd ("", Dir [] []) ex_dirs)) "t.nc" "/a/x/t.nc".
Proof.
  split; [reflexivity|]. cbn. apply (file_below "/a" _ _ "x" (Dir ["u.nc"; "t.nc"] [])); [now left|].
  apply (file_here "/a/x"). cbn. auto.
Qed.

(** A path relative to one of the directories is never found. *)
Theorem C108_relative_refuted known dirs u : known u = false -> ~ remote u -> contains "/" u = true ->
  (forall r, In r dirs -> plain_names (snd r)) -> get_uri known dirs false [u] = Err ValueError.
Proof. exact (get_uri_relative known dirs u). Qed.
Print Assumptions C108_relative_refuted.

Example C108_relative_case : get_uri ex_known ex_dirs false ["x/u.nc"] = Err ValueError.
Proof. reflexivity. Qed.

(** ** C109: names of the variables and of the field *)

Definition ex_entry (n : string) (dims : list string) (u : string) : string * vmeta := (n, mkvm n dims (Some u) None).
Definition ex_meta : meta :=
  [ex_entry "time" ["time"] "days"; ex_entry "lat" ["lat"] "deg"; ex_entry "lon" ["lon"] "deg";
   ex_entry "tas" ["time"; "lat"; "lon"] "K"; ex_entry "pr" ["time"; "lat"; "lon"] "mm"].
Definition ex_rd (v rn : option (list string)) (given : bool) : rd :=
  mkrd ex_meta (Some ["time"]) (Some ["lon"]) (Some ["lat"]) v rn None given.

(** Without new names the data variables of the field are the variables of the
    request, in order, each read from the variable of that name; the other variables
    of the file are there too. *)
Theorem C109_plain file r vs : r_rename r = None -> from_file (r_meta r) -> rd_variable r = Ok vs -> NoDup vs ->
  exists f, rd_get file r = Ok f /\ data_variables f = map (fun v => (v, (file, v))) vs /\
    (forall k, In k (map fst (r_meta r)) -> dget String.eqb (f_vars f) k = Some (file, k)) /\
    (forall k, In k (map fst (f_vars f)) -> In k (map fst (r_meta r))).
Proof. exact (get_plain file r vs). Qed.
Print Assumptions C109_plain.

Example C109_plain_case : exists f, rd_get 0 (ex_rd (Some ["pr"; "tas"]) None false) = Ok f /\
  data_variables f = [("pr", (0%nat, "pr")); ("tas", (0%nat, "tas"))] /\ f_name f = "ocgis_field".
Proof. eexists. vm_compute. auto. Qed.

(** A file without data variables gives a field without data variables. *)
Theorem C109_no_data file r : r_rename r = None -> from_file (r_meta r) -> rd_variable r = Err NoDataVariablesFound ->
  exists f, rd_get file r = Ok f /\ data_variables f = [] /\
    (forall k, In k (map fst (r_meta r)) -> dget String.eqb (f_vars f) k = Some (file, k)).
Proof. exact (get_no_data file r). Qed.
Print Assumptions C109_no_data.

Example C109_no_data_case :
  rd_variable (mkrd ex_meta None (Some ["lon"]) (Some ["lat"]) None None None false) = Err NoDataVariablesFound.
Proof. reflexivity. Qed.

(** A variable which the file does not have is refused. *)
Theorem C109_missing file r l v : r_variable r = Some l -> In v l -> ~ In v (map fst (r_meta r)) ->
  r_rename r = None \/ r_given r = false -> rd_get file r = Err VariableNotFoundError.
Proof.
  intros E I N C.
  assert (V : variable_of r (r_meta r) = Err VariableNotFoundError).
  { unfold variable_of. rewrite E. destruct (forallb (dmem String.eqb (r_meta r)) l) eqn:F; [|reflexivity].
    rewrite forallb_forall in F. apply F, dmem_iff in I. easy. }
  unfold rd_get. destruct (r_rename r) as [ns|] eqn:R.
  - destruct C as [C|C]; [easy|]. unfold metadata_of, rename_map. now rewrite C, R, V.
  - assert (M : metadata_of r = Ok (r_meta r)) by (unfold metadata_of; rewrite R; now destruct (r_given r)).
    assert (W : rd_rename r = Err VariableNotFoundError) by (unfold rd_rename, rename_of; rewrite M; cbn [bind]; now rewrite R).
    rewrite M, W. cbn [bind]. unfold rd_field_name. destruct (r_field_name r); [reflexivity|].
    rewrite W. reflexivity.
Qed.
Print Assumptions C109_missing.

Example C109_missing_case : rd_get 0 (ex_rd (Some ["tas"; "hurs"]) None false) = Err VariableNotFoundError.
Proof. reflexivity. Qed.

(** With one new name for each variable, none twice and none that of another variable
    of the file, the data variables have the new names, in order, and are read from
    the variables asked for. *)
Theorem C109_renamed_partial file r vs ns :
  r_given r = false -> from_file (r_meta r) ->
  rd_variable r = Ok vs -> NoDup vs ->
  r_rename r = Some ns -> List.length ns = List.length vs -> NoDup ns ->
  (forall k, In k (map fst (r_meta r)) -> ~ In k vs -> ~ In k ns) ->
  exists f, rd_get file r = Ok f /\
    data_variables f = combine ns (map (fun v => (file, v)) vs) /\
    (forall k, In k (map fst (r_meta r)) -> ~ In k vs -> dget String.eqb (f_vars f) k = Some (file, k)).
Proof. intros Hg Ff Hv. exact (get_renamed file r vs ns Hg Ff (rd_variable_raw r vs Hv)). Qed.
Print Assumptions C109_renamed_partial.

Example C109_renamed_case : exists f, rd_get 0 (ex_rd (Some ["tas"; "pr"]) (Some ["pr"; "tas"]) false) = Ok f /\
  data_variables f = [("pr", (0%nat, "tas")); ("tas", (0%nat, "pr"))].
Proof. eexists. vm_compute. auto. Qed.

(** Fewer names than variables are accepted, and the variables left over are not data
    variables of the field. *)
Theorem C109_short_refuted file r vs ns f :
  rd_variable r = Ok vs -> r_rename r = Some ns -> (List.length ns < List.length vs)%nat ->
  rd_get file r = Ok f -> (List.length (data_variables f) < List.length vs)%nat.
Proof. intros Hv Hr L G. destruct (data_among file r ns f Hr G) as (_ & B). lia. Qed.
Print Assumptions C109_short_refuted.

Example C109_short_case : exists f, rd_get 0 (ex_rd (Some ["tas"; "pr"]) (Some ["t"]) false) = Ok f /\
  data_variables f = [("t", (0%nat, "tas"))] /\ f_name f = "t".
Proof. eexists. vm_compute. auto. Qed.

(** New names are lost when the metadata is given, and the field then has no data
    variables. *)
Theorem C109_given_refuted file r ns f : r_given r = true -> r_rename r = Some ns -> rd_get file r = Ok f ->
  (forall k e, In (k, e) (r_meta r) -> ~ In (vm_name e) ns) -> data_variables f = [].
Proof. exact (get_given file r ns f). Qed.
Print Assumptions C109_given_refuted.

Example C109_given_case : exists f, rd_get 0 (ex_rd (Some ["tas"]) (Some ["temp"]) true) = Ok f /\
  data_variables f = [] /\ map fst (f_vars f) = ["time"; "lat"; "lon"; "tas"; "pr"].
Proof. eexists. vm_compute. auto. Qed.

(** A new name that another variable of the file has: one of the two is lost without
    an error, the one that comes first in the file. The coordinate variable is
    replaced by the data, or the data by the coordinate variable. *)
Theorem C109_clash_refuted :
  (exists f, rd_get 0 (ex_rd (Some ["tas"]) (Some ["lat"]) false) = Ok f /\
     dget String.eqb (f_vars f) "lat" = Some (0%nat, "tas")) /\
  (exists f, rd_get 0 (mkrd (rev ex_meta) (Some ["time"]) (Some ["lon"]) (Some ["lat"]) (Some ["tas"]) (Some ["lat"]) None false) = Ok f /\
     data_variables f = [("lat", (0%nat, "lat"))]).
Proof. split; eexists; vm_compute; auto. Qed.
Print Assumptions C109_clash_refuted.

(** A variable asked for twice is refused when the field is read. *)
Theorem C109_twice file r vs : r_rename r = None -> rd_variable r = Ok vs -> ~ NoDup vs -> rd_get file r = Err ValueError.
Proof. exact (get_twice file r vs). Qed.
Print Assumptions C109_twice.

Example C109_twice_case : rd_get 0 (ex_rd (Some ["tas"; "tas"]) None false) = Err ValueError.
Proof. reflexivity. Qed.

(** Iterating over a request gives each variable with its own units. *)
Theorem C109_iter r vs : rd_variable r = Ok vs ->
  exists l, rd_iter r = Ok l /\
    Forall2 (fun v x => exists e, dget String.eqb (r_meta r) v = Some e /\ x = (v, vm_units e, vm_conform e)) vs l.
Proof. exact (rd_iter_ok r vs). Qed.
Print Assumptions C109_iter.

Example C109_iter_case :
  rd_iter (ex_rd (Some ["pr"; "tas"]) (Some ["a"; "b"]) false) = Ok [("pr", Some "mm", None); ("tas", Some "K", None)].
Proof. reflexivity. Qed.

(** Iterating over a request without data variables gives nothing. *)
Theorem C109_iter_none r : rd_variable r = Err NoDataVariablesFound -> rd_iter r = Ok [].
Proof. exact (rd_iter_none r). Qed.
Print Assumptions C109_iter_none.

Example C109_iter_none_case : rd_iter (mkrd ex_meta None (Some ["lon"]) (Some ["lat"]) None None None false) = Ok [].
Proof. reflexivity. Qed.

(** The name of the field: the name given, else the one name of the data variable,
    else the default. *)
Theorem C109_field_name file r f : rd_get file r = Ok f ->
  match r_field_name r with
  | Some n => f_name f = n
  | None => forall ns, rd_rename r = Ok ns ->
              match ns with [n] => f_name f = n | _ => f_name f = "ocgis_field" end
  end.
Proof.
  intros G. apply rd_get_name in G. destruct (r_field_name r) as [n|] eqn:E.
  - rewrite (field_name_given r n E) in G. now injection G.
  - intros ns R. unfold rd_field_name in G. rewrite E, R in G.
    destruct ns as [|n [|n' t]]; now injection G.
Qed.
Print Assumptions C109_field_name.

Example C109_field_name_case : exists f, rd_get 0 (ex_rd (Some ["tas"]) None false) = Ok f /\ f_name f = "tas".
Proof. eexists. vm_compute. auto. Qed.

(** ** C110: requests made of several datasets *)

Definition ex_other (n : string) : rd :=
  mkrd [ex_entry "time" ["time"] "days"; ex_entry "lat" ["lat"] "deg"; ex_entry "lon" ["lon"] "deg";
        ex_entry n ["time"; "lat"; "lon"] "m"]
       (Some ["time"]) (Some ["lon"]) (Some ["lat"]) None None None false.

(** The field has the variables of the first dataset and the data variables of the
    others; its data variables are those of all datasets in order, each read from its
    own file. *)
Theorem C110_merge_partial r rs f fs vs : r_rename r = None -> from_file (r_meta r) -> rd_variable r = Ok vs ->
  got 0 (r :: rs) (f :: fs) ->
  NoDup (map fst (f_vars f) ++ map fst (List.concat (map data_variables fs))) ->
  exists g, multi_get (r :: rs) = Ok g /\ f_name g = f_name f /\
    f_vars g = f_vars f ++ List.concat (map data_variables fs) /\
    data_variables g = List.concat (map data_variables (f :: fs)).
Proof. exact (multi_get_ok r rs f fs vs). Qed.
Print Assumptions C110_merge_partial.

Example C110_merge_case : exists g,
  multi_get [ex_rd None None false; ex_other "uas"; ex_other "vas"] = Ok g /\
  data_variables g = [("tas", (0%nat, "tas")); ("pr", (0%nat, "pr")); ("uas", (1%nat, "uas")); ("vas", (2%nat, "vas"))].
Proof. eexists. vm_compute. auto. Qed.

(** Two datasets with a variable of the same name are refused. *)
Theorem C110_clash r q rs f fq vs n : r_rename r = None -> from_file (r_meta r) -> rd_variable r = Ok vs ->
  rd_get 0 r = Ok f -> rd_get 1 q = Ok fq ->
  In n (map fst (data_variables fq)) -> In n (map fst (f_vars f)) ->
  multi_get (r :: q :: rs) = Err VariableInCollectionError.
Proof. exact (multi_get_clash r q rs f fq vs n). Qed.
Print Assumptions C110_clash.

Example C110_clash_case : multi_get [ex_rd None None false; ex_other "tas"] = Err VariableInCollectionError.
Proof. reflexivity. Qed.

(** Looking at the metadata changes the first dataset: the variables of the others are
    in its own metadata afterwards, and the request can no longer be read. *)
Theorem C110_metadata_refuted r q t m rds' vs :
  (forall x, In x (r :: q :: t) -> r_rename x = None /\ from_file (r_meta x)) ->
  rd_variable q = Ok vs ->
  multi_metadata (r :: q :: t) = Ok (m, rds') ->
  exists r', rds' = r' :: q :: t /\ metadata_of r' = Ok m /\
    (forall v, In v vs -> In v (map fst m)) /\ (exists e, multi_get rds' = Err e).
Proof. exact (metadata_spoils r q t m rds' vs). Qed.
Print Assumptions C110_metadata_refuted.

Example C110_metadata_case :
  match multi_metadata [ex_rd None None false; ex_other "uas"] with
  | Ok (m, rds') => map fst m = ["time"; "lat"; "lon"; "tas"; "pr"; "uas"] /\
                    multi_get rds' = Err VariableInCollectionError
  | Err _ => False
  end.
Proof. vm_compute. auto. Qed.

(** The names and the units of a request go together element by element. *)
Theorem C110_aligned rds : (forall r, In r rds -> exists vs, rd_variable r = Ok vs) ->
  exists vs us, multi_variable rds = Ok vs /\ multi_units rds = Ok us /\
    Forall2 (fun v u => exists r e, In r rds /\ dget String.eqb (r_meta r) v = Some e /\ u = vm_units e) vs us.
Proof. exact (multi_aligned rds). Qed.
Print Assumptions C110_aligned.

Example C110_aligned_case :
  multi_variable [ex_rd None None false; ex_other "uas"] = Ok ["tas"; "pr"; "uas"] /\
  multi_units [ex_rd None None false; ex_other "uas"] = Ok [Some "K"; Some "mm"; Some "m"].
Proof. split; reflexivity. Qed.

(** ** C111: which variables are data variables *)

(** With a time, an X and a Y dimension, the variables found are those that have all
    three. *)
Theorem C111_found_partial r t x y v :
  r_variable r = None -> r_rename r = None ->
  r_time r = Some [t] -> r_x r = Some [x] -> r_y r = Some [y] -> t <> x -> t <> y -> x <> y ->
  ((exists vs, rd_variable r = Ok vs /\ In v vs) <->
   exists e, In (v, e) (r_meta r) /\ In t (vm_dims e) /\ In x (vm_dims e) /\ In y (vm_dims e)).
Proof.
  intros Hv Hr Ht Hx Hy N1 N2 N3. rewrite <- (data_three r (r_meta r) t x y v Ht Hx Hy N1 N2 N3).
  rewrite (rd_variable_found r Hv Hr). destruct (data_variable_names r (r_meta r)) as [|a q].
  - split; [intros (vs & H & _); easy|easy].
  - split; [intros (vs & [= <-] & I); exact I|]. intros I. now exists (a :: q).
Qed.
Print Assumptions C111_found_partial.

Example C111_found_case : rd_variable (ex_rd None None false) = Ok ["tas"; "pr"].
Proof. reflexivity. Qed.

(** Without one of the axes there are none. *)
Theorem C111_missing r : r_variable r = None -> r_rename r = None ->
  r_time r = None \/ r_x r = None \/ r_y r = None -> rd_variable r = Err NoDataVariablesFound.
Proof. intros Hv Hr H. rewrite (rd_variable_found r Hv Hr). now rewrite (data_missing r (r_meta r) H). Qed.
Print Assumptions C111_missing.

Example C111_missing_case :
  rd_variable (mkrd ex_meta (Some ["time"]) None (Some ["lat"]) None None None false) = Err NoDataVariablesFound.
Proof. reflexivity. Qed.

(** When X and Y are on one dimension (stations, trajectories, cells of a mesh) no
    variable is ever found. *)
Theorem C111_shared_refuted r t s : r_variable r = None -> r_rename r = None ->
  r_time r = Some [t] -> r_x r = Some [s] -> r_y r = Some [s] -> rd_variable r = Err NoDataVariablesFound.
Proof.
  intros Hv Hr Ht Hx Hy. rewrite (rd_variable_found r Hv Hr). now rewrite (data_shared r (r_meta r) t s Ht Hx Hy).
Qed.
Print Assumptions C111_shared_refuted.

Example C111_shared_case :
  rd_variable (mkrd [ex_entry "time" ["time"] "days"; ex_entry "x" ["n"] "deg"; ex_entry "y" ["n"] "deg";
                     ex_entry "tas" ["time"; "n"] "K"]
                    (Some ["time"]) (Some ["n"]) (Some ["n"]) None None None false) = Err NoDataVariablesFound.
Proof. reflexivity. Qed.

(** With more than one dimension for an axis any three of them are enough: a variable
    without the time dimension is found. *)
Theorem C111_more_refuted : exists r v e,
  rd_variable r = Ok [v] /\ In (v, e) (r_meta r) /\ r_time r = Some ["time"] /\ ~ In "time" (vm_dims e).
Proof.
  exists (mkrd [ex_entry "area" ["a"; "b"; "c"] "m2"] (Some ["time"]) (Some ["a"; "b"]) (Some ["c"]) None None None false).
  exists "area", (mkvm "area" ["a"; "b"; "c"] (Some "m2") None).
  split; [reflexivity|]. split; [now left|]. split; [reflexivity|].
  intros [E|[E|[E|[]]]]; discriminate E.
Qed.
Print Assumptions C111_more_refuted.
