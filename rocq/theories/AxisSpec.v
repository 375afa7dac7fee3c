(** What the theorems about the axes of a file say. *)
From Coq Require Import List String Ascii ZArith Bool.
From Verif Require Import Py DmapModel AxisModel.
Import ListNotations.
Local Open Scope string_scope.

(** The metadata of a file: names differ and are not empty, and every variable has
    attributes, perhaps none. *)
Definition plain (ms : vmetas) : Prop :=
  NoDup (map fst ms) /\ forall k v, In (k, v) ms -> m_name v = k /\ k <> "" /\ exists a, m_attrs v = Some a.

(** The axes of a file and the letters the CF conventions give them. *)
Definition axes : list (string * string) :=
  [("realization", "R"); ("time", "T"); ("level", "Z"); ("x", "X"); ("y", "Y")].

(** [k] is the name of a variable with dimensions whose attribute has the value. *)
Definition declares (ms : vmetas) (attribute value k : string) : Prop :=
  exists v, In (k, v) ms /\ attr v attribute = Some value /\ m_dims v <> [].

(** Usual names of coordinates. *)
Definition usual_name (axis k : string) : Prop :=
  (axis = "T" /\ k = "time") \/
  (axis = "X" /\ In k ["x"; "xc"; "longitude"; "lon"]) \/
  (axis = "Y" /\ In k ["y"; "yc"; "latitude"; "lat"]) \/
  (axis = "Z" /\ In k ["z"; "zc"; "level"; "lvl"; "height"]).

(** A candidate for an axis: a variable that declares it, or, when none does and
    the search is not strict, a variable with a usual name. *)
Definition candidate (strict : bool) (ms : vmetas) (axis attribute value k : string) : Prop :=
  declares ms attribute value k \/
  (strict = false /\ (forall k', ~ declares ms attribute value k') /\ usual_name axis k /\ In k (map fst ms)).
Definition the_only (P : string -> Prop) (k : string) : Prop := P k /\ forall k', P k' -> k' = k.

(** The dimensions along an axis held by a variable with these dimensions: those of
    two-dimensional horizontal coordinates are (y, x). *)
Definition along (strict : bool) (axis : string) (dims : list string) : list string :=
  match strict, dims with
  | false, first :: second :: _ =>
      if String.eqb axis "X" then [second] else if String.eqb axis "Y" then [first] else dims
  | _, _ => dims
  end.

(** The name of bounds in the attributes of a coordinate variable. *)
Definition names_bounds (key : string) (v : vmeta) (b : string) : Prop :=
  key <> "realization" /\ (attr v "bounds" = Some b \/ (key = "time" /\ attr v "climatology" = Some b)).

(** [get_bounds] of a dimension map, as a result only. *)
Definition bounds_of (st : storage) (key : string) : res (option string) := snd (get_bounds st key).

(** What a map says about an axis. *)
Definition same_axis (st st' : storage) (key : string) : Prop :=
  var_of st key = var_of st' key /\ dims_of st key = dims_of st' key /\ bounds_of st key = bounds_of st' key.

(** No two variables have the role of a mask. *)
Definition one_mask (ms : vmetas) : Prop := forall k k' v v', In (k, v) ms -> In (k', v') ms ->
  attr v "ocgis_role" = Some "spatial_mask" -> attr v' "ocgis_role" = Some "spatial_mask" -> k = k'.

(** All groups below a group, each before the groups within it. *)
Fixpoint below (g : gmeta) : list (string * gmeta) :=
  match g with
  | GMeta _ _ groups =>
      (fix go (l : list (string * gmeta)) : list (string * gmeta) :=
         match l with
         | [] => []
         | (k, s) :: t => ((k, s) :: below s ++ go t)%list
         end) groups
  end.

(** How a file is read. *)
Definition cf_read (crs_name : option string) (spherical : bool) (g : gmeta) : res storage :=
  cf_map crs_name spherical false (g_vars g).

(** The host of a mesh: the last variable that declares one. *)
Definition mesh_host (ms : vmetas) (host : vmeta) : Prop :=
  exists before k after, ms = (before ++ (k, host) :: after)%list /\ attr host "cf_role" = Some "mesh_topology" /\
    forall k' v, In (k', v) after -> attr v "cf_role" <> Some "mesh_topology".

(** The larger of two dimensions, the first one if they are equally large. *)
Definition larger (sizes : list (string * Z)) (first second n : string) : Prop :=
  exists a b, dget String.eqb sizes first = Some a /\ dget String.eqb sizes second = Some b /\
    ((n = first /\ (b <= a)%Z) \/ (n = second /\ (a < b)%Z)).

(** A dimension map whose axes are absent or entries, as those made from
    dictionaries or by [set_variable]. *)
Definition proper_map (st : storage) : Prop :=
  forall k, In k ["realization"; "time"; "level"; "x"; "y"; "crs"; "spatial_mask"; "attribute_host"] ->
    dget String.eqb st k = None \/ exists e, dget String.eqb st k = Some (IEntry e).

(** The map of a topology of a mesh. *)
Definition topology_of (st : storage) (name : string) : option storage :=
  match dget String.eqb st "topology" with
  | Some (ITopology ts) => match dget String.eqb ts name with Some (Some (DMap s)) => Some s | _ => None end
  | _ => None
  end.

(** A word without spaces. *)
Fixpoint no_space (s : string) : Prop :=
  match s with EmptyString => True | String c t => c <> " "%char /\ no_space t end.
