(** * SpecUnits: the meaning of a units attribute (UDUNITS notation: [kg m-3], [m s-1]) *)
From Coq Require Import Reals ZArith List String Ascii Bool.
From Verif Require Import Num Py Arr.
Import ListNotations.
Local Open Scope string_scope.

(** Ten to the power [u10] times metres, seconds and kilograms to the given powers. *)
Record unit_ := mkU { u10 : Z; uL : Z; uT : Z; uM : Z }.

Definition digit (c : ascii) : option Z :=
  let n := Z.of_nat (nat_of_ascii c) in
  if (Z.leb 48 n && Z.leb n 57)%bool then Some (n - 48)%Z else None.

Fixpoint digits (s : string) (acc : Z) : option Z :=
  match s with
  | EmptyString => Some acc
  | String c s' => match digit c with Some d => digits s' (10 * acc + d)%Z | None => None end
  end.

(** An exponent: nothing means one. *)
Definition exponent (s : string) : option Z :=
  match s with
  | EmptyString => Some 1%Z
  | String "-" s' => match s' with EmptyString => None | _ => option_map Z.opp (digits s' 0) end
  | _ => digits s 0
  end.

Definition letter (c : ascii) : bool :=
  let n := nat_of_ascii c in (Nat.leb 65 n && Nat.leb n 90) || (Nat.leb 97 n && Nat.leb n 122).

(** The leading letters and the rest. *)
Fixpoint base (s : string) : string * string :=
  match s with
  | EmptyString => (EmptyString, EmptyString)
  | String c s' => if letter c then let (b, r) := base s' in (String c b, r) else (EmptyString, s)
  end.

Definition factor_unit (token : string) : option unit_ :=
  match token with
  | String "1" (String "0" (String "^" s)) => option_map (fun n => mkU n 0 0 0) (exponent s)
  | _ =>
    let (b, r) := base token in
    match exponent r with
    | None => None
    | Some n =>
        if String.eqb b "m" then Some (mkU 0 n 0 0)
        else if String.eqb b "cm" then Some (mkU (-2 * n) n 0 0)
        else if String.eqb b "s" then Some (mkU 0 0 n 0)
        else if String.eqb b "kg" then Some (mkU 0 0 0 n)
        else None
    end
  end.

Fixpoint words (s word : string) : list string :=
  match s with
  | EmptyString => [word]
  | String " " s' => word :: words s' EmptyString
  | String c s' => words s' (word ++ String c EmptyString)
  end.

Definition times (a b : unit_) : unit_ :=
  mkU (u10 a + u10 b) (uL a + uL b) (uT a + uT b) (uM a + uM b).

Fixpoint product (l : list string) : option unit_ :=
  match l with
  | [] => Some (mkU 0 0 0 0)
  | w :: l' => match factor_unit w, product l' with Some a, Some b => Some (times a b) | _, _ => None end
  end.

Definition parse_units (s : string) : option unit_ := product (words s EmptyString).

(** The units attribute of an object. *)
Definition units_of (attrs : dict string) : option unit_ :=
  match dget "units" attrs with Some s => parse_units s | None => None end.

(** The same quantities in other units: numbers of metres are multiplied by [l], numbers of
    seconds by [t], numbers of kilograms by [m]. *)
Definition change (l t m : R) (u : unit_) : R :=
  (powerRZ l (uL u) * powerRZ t (uT u) * powerRZ m (uM u))%R.
Definition rescale (c : R) (a : arr) : arr := mkArr (adims a) (fun e => fmul (Fin c) (at_ a e)).
Definition in_units (l t m : R) (u : unit_) (a : arr) : arr := rescale (change l t m u) a.
Definition res_map {A B} (g : A -> B) (r : res A) : res B :=
  match r with Ok a => Ok (g a) | Err e => Err e end.
