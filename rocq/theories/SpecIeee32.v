(** * SpecIeee32: vocabulary for single precision data *)
From Coq Require Import List.
From Verif Require Import Ieee Ieee32.

(** The same cell with its temperature and salinity converted to binary64 (exactly). *)
Definition wide (c : cell32) : cell :=
  mkCell (ztop32 c) (zbot32 c) (zmid32 c) (wet32 c) (widen (temp32 c)) (widen (salt32 c)) (widen (temp_ref32 c)) (widen (salt_ref32 c)).
