(** * PropertiesAvgMeta: C162 *)
From Coq Require Import List String Bool.
From Verif Require Import Py Meta AvgMeta ProofsAlign2 ProofsGeo2 PropertiesMeta.
Import ListNotations.
Local Open Scope string_scope.

(** C162, refuted: annual_average keeps the units of a variable and the title of a Dataset; annual_cycle and
    monthly_average of the same Dataset lose both, and the description of the time axis. *)
Theorem C162_refuted : exists x numeric raw,
  attrs_of x "tos" = [("units", "degC")] /\ numeric "tos" = true /\ x_attrs x = [("title", "run 7")] /\ attrs_of x "time" = [("long_name", "time")] /\
  (let r := annual_average_attrs true x raw in
   attrs_of r "tos" = [("units", "degC")] /\ x_attrs r = [("title", "run 7")] /\ attrs_of r "time" = [("long_name", "time")]) /\
  (let r := climatology_meta false true numeric "time" x [] ["time"] in
   dmem "tos" (x_vars r) = true /\ attrs_of r "tos" = [] /\ x_attrs r = [] /\ attrs_of r "time" = []).
Proof.
  exists (mkX [("time", mkMeta [("long_name", "time")] []); ("tos", mkMeta [("units", "degC")] [])] ["time"] ["time"] [("title", "run 7")]),
    (fun _ => true), (mkX [("time", mkMeta [] []); ("tos", mkMeta [] [])] ["time"] ["time"] []).
  repeat split; reflexivity.
Qed.
Print Assumptions C162_refuted.

Lemma averaged_get numeric x k : dget k (averaged_vars numeric x) =
  if negb (smem k (x_dims x)) && negb (smem k (x_coords x)) && numeric k then dget k (x_vars x) else None.
Proof. unfold averaged_vars. apply (dget_filter_key (fun k => negb (smem k (x_dims x)) && negb (smem k (x_coords x)) && numeric k)). Qed.
Lemma reduced_get keep l k : dget k (map (fun p : string * meta => (fst p, reduced keep (snd p))) l) = option_map (reduced keep) (dget k l).
Proof. induction l as [|[k' m] l IH]; [reflexivity|]. cbn. destruct (String.eqb k k'); [reflexivity|exact IH]. Qed.

(** What the results carry.  By default no variable has attributes; with xarray's option [keep_attrs] variables keep
    theirs.  A Dataset always loses its own attributes and the time axis is always bare. *)
Theorem C162_partial : forall keep numeric tcoord x crd dims, smem tcoord (x_coords x) = true -> (forall k, In k (dkeys crd) -> In k (x_coords x)) ->
  let r := climatology_meta keep true numeric tcoord x crd dims in
  x_attrs r = [] /\ attrs_of r tcoord = [] /\
  (forall k m, dget k (x_vars x) = Some m -> ~ In k (x_dims x) -> ~ In k (x_coords x) ->
    (numeric k = true -> exists m', dget k (x_vars r) = Some m' /\ m_attrs m' = (if keep then m_attrs m else [])) /\
    (numeric k = false -> dget k (x_vars r) = None)) /\
  (let a := climatology_meta keep false numeric tcoord x crd dims in
   x_attrs a = (if keep then x_attrs x else []) /\ attrs_of a tcoord = []).
Proof.
  intros keep numeric tcoord x crd dims Ht Hc r. unfold climatology_meta in r. subst r. cbn [x_attrs x_vars x_coords x_dims]. split; [reflexivity|].
  split; [unfold attrs_of; cbn; rewrite String.eqb_refl; reflexivity|]. split.
  - intros k m G D C. assert (Nt : String.eqb k tcoord = false).
    { apply String.eqb_neq. intros ->. apply C, smem_In, Ht. }
    assert (Nc : dget k crd = None) by (apply dget_notin; intros I; apply C, Hc, I).
    assert (Sd : smem k (x_dims x) = false) by (apply Bool.not_true_is_false; rewrite smem_In; exact D).
    assert (Sc : smem k (x_coords x) = false) by (apply Bool.not_true_is_false; rewrite smem_In; exact C).
    assert (E : dget k ((tcoord, mkMeta [] []) :: crd ++ map (fun p => (fst p, reduced keep (snd p))) (averaged_vars numeric x))%list =
                option_map (reduced keep) (dget k (averaged_vars numeric x))).
    { cbn [dget]. rewrite Nt, dget_app, Nc. apply reduced_get. }
    rewrite E, averaged_get, Sd, Sc, G. cbn [negb andb]. split; intros ->; [|reflexivity].
    eexists. split; [reflexivity|]. reflexivity.
  - split; [reflexivity|]. unfold attrs_of. cbn. rewrite String.eqb_refl. reflexivity.
Qed.
Print Assumptions C162_partial.

(** A Dataset with a numeric variable, a variable of strings and attributes, with the option switched on. *)
Example C162_case :
  let x := mkX [("time", mkMeta [("long_name", "time")] []); ("tos", mkMeta [("units", "degC")] []); ("note", mkMeta [] [])]
               ["time"] ["time"] [("title", "run 7")] in
  let numeric := fun k => negb (String.eqb k "note") in
  let r := climatology_meta true true numeric "time" x [] ["time"] in
  smem "time" (x_coords x) = true /\ attrs_of r "tos" = [("units", "degC")] /\ dget "note" (x_vars r) = None /\ x_attrs r = [].
Proof.
  intros x numeric r. destruct (C162_partial true numeric "time" x [] ["time"] eq_refl (fun k I => match I with end)) as (A & _ & B & _). fold r in A, B.
  assert (D : forall k, String.eqb k "time" = false -> ~ In k ["time"]) by (intros k N [E|[]]; subst k; discriminate N).
  split; [reflexivity|]. split; [|split; [|exact A]].
  - destruct (B "tos" _ eq_refl (D "tos" eq_refl) (D "tos" eq_refl)) as [H _]. destruct (H eq_refl) as (m' & G & E).
    unfold attrs_of. rewrite G. exact E.
  - exact (proj2 (B "note" _ eq_refl (D "note" eq_refl) (D "note" eq_refl)) eq_refl).
Qed.
