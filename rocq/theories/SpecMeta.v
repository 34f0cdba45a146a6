(** * SpecMeta: which variables an attribute refers to (CF conventions and FMS) *)
From Coq Require Import List String Ascii Bool.
Import ListNotations.
Local Open Scope string_scope.

(** The pieces of a text between separators. *)
Fixpoint pieces (sep : ascii) (s : string) : list string :=
  match s with
  | EmptyString => [""]
  | String c s' =>
      let l := pieces sep s' in
      if Ascii.eqb c sep then "" :: l else match l with [] => [String c ""] | p :: q => String c p :: q end
  end.
(** A key of a "key: name key: name" list ends with a colon. *)
Fixpoint ends_with_colon (s : string) : bool :=
  match s with EmptyString => false | String c "" => Ascii.eqb c ":" | String _ s' => ends_with_colon s' end.

(** [bounds] and [edges] name one variable; [cell_measures] is "measure: name ..."; FMS writes the variables
    describing averaging periods into [time_avg_info], separated by commas. *)
Definition refers_to (attribute value : string) : list string :=
  if String.eqb attribute "bounds" || String.eqb attribute "edges" then [value]
  else if String.eqb attribute "time_avg_info" then pieces "," value
  else if String.eqb attribute "cell_measures" then filter (fun w => negb (ends_with_colon w)) (pieces " " value)
  else [].
