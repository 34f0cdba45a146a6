(** * SpecDz: what "thickness of a cell inside a depth range" means *)
From Coq Require Import Reals.
From Verif Require Import Num.
Local Open Scope R_scope.

(** Length of the intersection of the cell [[zt,zb]] with the range [[lo,hi]]. *)
Definition overlap (zt zb lo hi : R) : R := Rmax 0 (Rmin zb hi - Rmax zt lo).

(** Water depth at a point: missing bathymetry counts as zero depth. *)
Definition water_depth (d : fval) : R := match d with Fin x => x | _ => 0 end.

(** Deepest point considered: the sea floor or, if requested, a shallower limit. *)
Definition range_floor (d : R) (bottom : option R) : R :=
  match bottom with None => d | Some b => Rmin d b end.

Definition obot (bottom : option R) : option fval := option_map Fin bottom.
