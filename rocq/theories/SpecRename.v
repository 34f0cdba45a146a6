(** * SpecRename: renaming the variables and dimensions of a dataset *)
From Coq Require Import List String.
From Verif Require Import Py Arr.
Import ListNotations.

(** The name given to [x] by the dictionary [m]. *)
Definition new_name (m : dict string) (x y : string) : Prop :=
  In (x, y) m \/ (y = x /\ forall v, ~ In (x, v) m).
(** The same array with its dimensions renamed. *)
Definition same_array (m : dict string) (a a' : arr) : Prop :=
  Forall2 (fun p q => new_name m (fst p) (fst q) /\ snd p = snd q) (adims a) (adims a')
  /\ forall e e', (forall d d', new_name m d d' -> e d = e' d') -> at_ a e = at_ a' e'.
(** The same dataset with its variables and dimensions renamed. *)
Definition same_dataset (m : dict string) (d d' : dict arr) : Prop :=
  Forall2 (fun p q => new_name m (fst p) (fst q) /\ same_array m (snd p) (snd q)) d d'.
(** The names in use: variables and dimensions. *)
Definition has_variable (d : dict arr) (x : string) : Prop := exists a, In (x, a) d.
Definition has_dimension (d : dict arr) (x : string) : Prop := exists v a n, In (v, a) d /\ In (x, n) (adims a).
