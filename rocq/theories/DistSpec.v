(** What a distribution of dimensions over ranks should look like (C03, C08, C38). *)
From Verif Require Import Py Spec DimensionModel DimensionSpec DistModel.

(** A longest one of the dimensions marked as distributed. *)
Definition LongestDistributed (dims : list dim) (dd : dim) : Prop :=
  In dd dims /\ d_dist dd = true /\ forall d, In d dims -> d_dist d = true -> dim_len d <= dim_len dd.

(** The state of the chosen dimension over all ranks: rank [k] holds the part
    [nth k ls] of the whole, its local bounds say where; ranks holding nothing
    are marked empty; the extent is known everywhere it is needed. *)
Record Parts (whole : list Z) (parts : list dim) (ls : list (list Z)) : Prop := {
  pt_represents : Forall2 Represents parts ls;
  pt_whole : concat ls = whole;
  pt_dead : Forall (fun d => d_empty d = true -> bounds_local d = (0, 0)) parts;
  pt_empty : Forall2 (fun d l => d_empty d = true <-> l = []) parts ls;
  pt_size : Forall (fun d => d_empty d = false ->
              0 < dim_len d /\ snd (bounds_local d) - fst (bounds_local d) = dim_len d /\
              bounds_global d = (0, zlen whole)) parts;
  pt_tiles : Tiles 0 (zlen whole) (map bounds_local (filter nonempty parts))
}.

(** Dimension [d'] is what is left of [d] when it is not chosen. *)
Definition OnlyUndistributed (d d' : dim) : Prop :=
  d_dist d' = false /\ d_name d' = d_name d /\ d_size d' = d_size d /\ d_size_current d' = d_size_current d /\
  d_src d' = d_src d /\ d_empty d' = d_empty d /\ d_bounds_local d' = d_bounds_local d /\ d_bounds_global d' = d_bounds_global d.

(** A cell of the grid belongs to a chunk given by its row and column range. *)
Definition InChunk (c : (Z * Z) * (Z * Z)) (y x : Z) : Prop := InIval y (fst c) /\ InIval x (snd c).

(** Both source indices are absent, or bounds, or index arrays. *)
Definition SameKind (s s' : option srcidx) : Prop :=
  match s, s' with
  | None, None | Some (SrcBounds _ _), Some (SrcBounds _ _) | Some (SrcFancy _), Some (SrcFancy _) => True
  | _, _ => False
  end.
