(** * AvgMeta: attributes of annual_cycle and monthly_average (src/momlevel/util.py) *)
From Coq Require Import List String Bool.
From Verif Require Import Py Meta.
Import ListNotations.
Local Open Scope string_scope.

(** A variable that is the result of a reduction: with xarray's option [keep_attrs] (off by default) it keeps the
    attributes of its operand. *)
Definition reduced (keep : bool) (m : meta) : meta := mkMeta (if keep then m_attrs m else []) [].

(** util.py:149-156 and 474-481: the data variables of a Dataset that are averaged; [numeric] tells those whose dtype is
    neither object nor timedelta64[ns]. *)
Definition averaged_vars (numeric : string -> bool) (x : xmeta) : dict meta :=
  filter (fun p => negb (smem (fst p) (x_dims x)) && negb (smem (fst p) (x_coords x)) && numeric (fst p)) (x_vars x).

(** Metadata of the results of util.py:122-196 (annual_cycle) and 454-511 (monthly_average), which agree: a Dataset is
    rebuilt from an empty one (153, 478), so that its own attributes are gone whatever the option; a DataArray is reduced
    itself; nothing is copied back from [xobj], and the time axis is new (193-194, 504-505).  [crd] are the other coordinate
    variables as the reduction leaves them and [dims] the dimensions of the result. *)
Definition climatology_meta (keep is_dataset : bool) (numeric : string -> bool) (tcoord : string) (x : xmeta) (crd : dict meta)
           (dims : list string) : xmeta :=
  let axis := (tcoord, mkMeta [] []) in
  if is_dataset then
    mkX (axis :: crd ++ map (fun p => (fst p, reduced keep (snd p))) (averaged_vars numeric x))%list (tcoord :: dkeys crd) dims []
  else mkX (axis :: crd) (tcoord :: dkeys crd) dims (if keep then x_attrs x else []).
