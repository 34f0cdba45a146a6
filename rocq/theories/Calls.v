(** * Calls: how steric, thermosteric and halosteric take their arguments, and what verbose prints (src/momlevel/steric.py) *)
From Coq Require Import Reals List String Bool Arith.
From Verif Require Import Num Py Arr Derived Dataset.
Import ListNotations.
Local Open Scope string_scope.

(** Argument values; [PObj] is any other object (datasets, dictionaries, arrays), told apart by a number. *)
Inductive pyval : Type := PNone | PReal (r : R) | PStr (s : string) | PBool (b : bool) | PObj (i : nat).

(** Python's binding of arguments to the parameters [ps] of a function (name and default).  Too many positional arguments, an argument given
    twice, an unknown keyword or a missing argument without default raise TypeError.  Keywords in [kw] are distinct. *)
Fixpoint bind_args (ps : list (string * option pyval)) (args : list pyval) (kw : dict pyval) : res (dict pyval) :=
  match ps with
  | [] => match args with [] => Ok [] | _ :: _ => Err TypeError end
  | (p, d) :: ps' =>
      match args with
      | v :: args' => if dmem p kw then Err TypeError else let* r := bind_args ps' args' kw in Ok ((p, v) :: r)
      | [] =>
          let* v := match dget p kw with Some v => Ok v | None => match d with Some v => Ok v | None => Err TypeError end end in
          let* r := bind_args ps' [] kw in Ok ((p, v) :: r)
      end
  end.
Definition call (ps : list (string * option pyval)) (args : list pyval) (kw : dict pyval) : res (dict pyval) :=
  if forallb (fun k => dmem k ps) (dkeys kw) then bind_args ps args kw else Err TypeError.

(** steric.py:17-31: the parameters of steric *)
Definition steric_params : list (string * option pyval) :=
  [("dset", None); ("reference", Some PNone); ("coord_names", Some PNone); ("varname_map", Some PNone); ("rhozero", Some (PReal 1035));
   ("patm", Some (PReal 101325)); ("equation_of_state", Some (PStr "Wright")); ("variant", Some (PStr "steric")); ("domain", Some (PStr "local"));
   ("dtype", Some (PStr "float32")); ("strict", Some (PBool true)); ("annual", Some (PBool false)); ("verbose", Some (PBool false))].
Definition steric_call (args : list pyval) (kw : dict pyval) : res (dict pyval) := call steric_params args kw.

(** steric.py:187-196: [steric( *args, **kwargs, variant=...)]; a keyword that occurs twice raises TypeError *)
Definition wrapper_call (variant : string) (args : list pyval) (kw : dict pyval) : res (dict pyval) :=
  if dmem "variant" kw then Err TypeError else steric_call args (kw ++ [("variant", PStr variant)])%list.
Definition halosteric_call := wrapper_call "halosteric".
Definition thermosteric_call := wrapper_call "thermosteric".

(** steric.py:84-109: the lines that a call of steric prints before it returns or raises *)
Definition steric_prints (dset : dataset) (reference : option dataset) (coord_names varname_map : option (dict string))
    (patm : arr) (eos domain : string) (strict verbose : bool) : list string :=
  match (let* ds := ds_rename varname_map dset in
         let '(tcoord, zcoord, zbounds) := default_coords coord_names in
         let* _ := validate_dataset ds false strict (if String.eqb domain "global" then [] else [zbounds; "deptho"]) in
         let* z := ds_get zcoord ds in
         let* pres := aadd (const_r fmul z (Fin 10000%R)) patm in
         match reference with
         | Some _ => Ok (if verbose then ["Using supplied reference state"] else [])
         | None => let* _ := setup_reference_state ds patm eos coord_names 0 in
                   Ok (if verbose then ["Generating reference state from first timestep"] else [])
         end) with
  | Ok l => l
  | Err _ => []
  end.
