(** * PropertiesAlign: C112 *)
From Coq Require Import Reals ZArith Lra Lia List String Bool Arith.
From Verif Require Import Num NumFacts Py Arr ArrFacts Eos SpecEos Derived Dataset ProofsUtil Align ProofsAlign.
Import ListNotations.
Local Open Scope string_scope.

(** A Dataset has at most one index per dimension. *)
Definition one_index (L : labels) : Prop := NoDup (dkeys L).

Lemma dget_unique {A} (l : dict A) k v : NoDup (dkeys l) -> In (k, v) l -> dget k l = Some v.
Proof.
  induction l as [|[k' w] l IH]; intros N I; [destruct I|]. cbn in N. inversion N as [|? ? N1 N2]; subst.
  cbn [dget]. destruct (String.eqb_spec k k') as [->|Nk].
  - destruct I as [I|I]; [congruence|]. exfalso. apply N1. apply (in_map fst) in I. exact I.
  - destruct I as [I|I]; [congruence|]. apply IH; assumption.
Qed.

(** C112: a dataset and a reference whose labels agree give the result of the computation
    by position: the same values, or the same exception. *)
Theorem C112_same_labels : forall D R cn rhozero patm eos variant domain strict,
  one_index (ld_lab D) -> one_index (ld_lab R) ->
  (forall d l l', dget d (ld_lab D) = Some l -> dget d (ld_lab R) = Some l' -> l = l') ->
  match lsteric D R cn rhozero patm eos variant domain strict,
        steric (ld_vars D) (Some (ld_vars R)) cn None rhozero patm eos variant domain strict with
  | Ok (r, R'), Ok (r', ref) =>
      map (fun p => (fst p, la (snd p))) r = r' /\ R' = R /\ ref = ld_vars R /\
      forall k a, In (k, a) r -> forall d l, In (d, l) (lab a) -> dget d (ld_lab D) = Some l \/ dget d (ld_lab R) = Some l
  | Err e, Err e' => e = e'
  | _, _ => False
  end.
Proof.
  intros D R cn rz patm eos variant domain strict UD UR AG.
  set (G := fun d => match dget d (ld_lab D) with Some l => Some l | None => dget d (ld_lab R) end).
  assert (HD : drawn G (ld_lab D)).
  { intros d x I. unfold G. rewrite (dget_unique _ _ _ UD I). reflexivity. }
  assert (HR : drawn G (ld_lab R)).
  { intros d x I. unfold G. apply (dget_unique _ _ _ UR) in I. destruct (dget d (ld_lab D)) as [l|] eqn:E; [|exact I].
    f_equal. apply (AG d); assumption. }
  unfold lsteric, steric. cbn [ds_rename bind]. destruct (default_coords cn) as [[t z] zb].
  destruct (validate_dataset (ld_vars D) false strict _) as [[]|]; [|reflexivity]. cbn [bind].
  set (Q := fun (x : res (dict larr * lds)) (y : res (dict arr * dataset)) => match x, y with
    | Ok (r, R'), Ok (r', ref) => map (fun p => (fst p, la (snd p))) r = r' /\ R' = R /\ ref = ld_vars R /\
        forall k a, In (k, a) r -> forall d l, In (d, l) (lab a) -> dget d (ld_lab D) = Some l \/ dget d (ld_lab R) = Some l
    | Err e, Err e' => e = e' | _, _ => False end).
  match goal with |- match ?a with Ok _ => _ | Err _ => _ end => match goal with |- context [bind (ds_get z (ld_vars D)) ?f] =>
    change (Q a (bind (ds_get z (ld_vars D)) f)) end end.
  apply (same_bind G _ _ _ _ Q); [apply ld_get_same, HD|reflexivity|intros zl Dz].
  unfold aadd.
  match goal with |- Q (bind (linner fadd (mkL ?w ?l) (mkL ?w' ?l')) _) _ =>
    change (amap2 fadd w w') with (amap2 fadd (la (mkL w l)) (la (mkL w' l'))) end.
  apply (same_bind G _ _ _ _ Q); [apply linner_same; [exact Dz|intros ? ? []]|reflexivity|intros p Dp].
  destruct (validate_dataset (ld_vars R) true strict []) as [[]|]; [|reflexivity]. cbn [bind].
  assert (SF : match lselect_fields D R variant, select_fields (ld_vars D) (ld_vars R) variant with
    | Ok (a, b), Ok (a', b') => la a = a' /\ la b = b' /\ drawn G (lab a) /\ drawn G (lab b)
    | Err e, Err e' => e = e' | _, _ => False end).
  { unfold lselect_fields, select_fields.
    assert (X : forall n1 n2 A B, drawn G (ld_lab A) -> drawn G (ld_lab B) ->
      match (let* u := ld_get n1 A in let* v := ld_get n2 B in Ok (u, v)), (let* u := ds_get n1 (ld_vars A) in let* v := ds_get n2 (ld_vars B) in Ok (u, v)) with
      | Ok (a, b), Ok (a', b') => la a = a' /\ la b = b' /\ drawn G (lab a) /\ drawn G (lab b)
      | Err e, Err e' => e = e' | _, _ => False end).
    { intros n1 n2 A B HA HB. pose proof (ld_get_same G n1 A HA) as S1. pose proof (ld_get_same G n2 B HB) as S2.
      destruct (ld_get n1 A) as [a|], (ds_get n1 (ld_vars A)); cbn in S1; try contradiction; cbn [bind]; [|exact S1].
      destruct (ld_get n2 B) as [b|], (ds_get n2 (ld_vars B)); cbn in S2; try contradiction; cbn [bind]; [|exact S2].
      tauto. }
    destruct (String.eqb variant "thermosteric"); [apply X; assumption|].
    destruct (String.eqb variant "halosteric"); [apply X; assumption|].
    destruct (String.eqb variant "steric"); [apply X; assumption|reflexivity]. }
  destruct (lselect_fields D R variant) as [[a b]|], (select_fields (ld_vars D) (ld_vars R) variant) as [[a' b']|]; try contradiction;
    [|exact SF]. destruct SF as (<- & <- & Da & Db). cbn [bind fst snd].
  apply (same_bind G _ _ _ _ Q); [apply lcalc_rho_same; assumption|reflexivity|intros rho Dr].
  assert (FI : same_dict G (if String.eqb domain "global" then lsteric_global R rho variant t else lsteric_local D R rho rz variant t z zb)
     (if String.eqb domain "global" then steric_global (ld_vars R) (la rho) variant t else steric_local (ld_vars D) (ld_vars R) (la rho) rz variant t z zb)).
  { destruct (String.eqb domain "global"); [apply global_same|apply local_same]; assumption. }
  match goal with |- Q (bind ?x _) (bind ?y _) => destruct x as [r|], y as [r'|]; cbn in FI; try contradiction; cbn [bind]; [|exact FI] end.
  destruct FI as [V W]. split; [exact V|]. split; [reflexivity|]. split; [reflexivity|].
  intros k y I d l J. specialize (W k y I d l J). unfold G in W. destruct (dget d (ld_lab D)); [left|right]; exact W.
Qed.
Print Assumptions C112_same_labels.

(** thermosteric and halosteric take one field from the dataset and one from the reference:
    a dimension labelled differently in the two is an error. *)
Theorem C112_fixed_field : forall D R cn rhozero patm eos variant domain strict T S d l l' out,
  variant = "thermosteric" /\ dget "thetao" (ld_vars D) = Some T /\ dget "so" (ld_vars R) = Some S \/
  variant = "halosteric" /\ dget "thetao" (ld_vars R) = Some T /\ dget "so" (ld_vars D) = Some S ->
  In d (names T) -> In d (names S) -> one_index (ld_lab D) -> one_index (ld_lab R) ->
  dget d (ld_lab D) = Some l -> dget d (ld_lab R) = Some l' -> l <> l' ->
  lsteric D R cn rhozero patm eos variant domain strict <> Ok out.
Proof.
  intros D R cn rz patm eos variant domain strict T S d l l' out HV IT IS UD UR GD GR N H.
  unfold lsteric in H. destruct (default_coords cn) as [[t z] zb].
  do 4 (apply bind_inv in H; destruct H as (? & _ & H)). apply bind_inv in H. destruct H as ([a b] & SF & H).
  apply bind_inv in H. destruct H as (rho & HR & _). cbn [fst snd] in HR.
  unfold lcalc_rho in HR. apply bind_inv in HR. destruct HR as (f & _ & HR). apply bind_inv in HR. destruct HR as (u & EX & _).
  assert (HN : forall (A : arr) L x, In d (names A) -> one_index L -> dget d L = Some x -> In (d, x) (filter (fun p => has_dim (fst p) A) L)).
  { intros A L y I U E. apply filter_In. split; [apply dget_In', E|]. cbn [fst]. unfold has_dim, dmem.
    unfold names in I. destruct (dget d (adims A)) eqn:Z; [reflexivity|]. exfalso. revert I Z. clear.
    induction (adims A) as [|[k v] m IH]; cbn; [tauto|]. intros [->|I]; [rewrite String.eqb_refl; discriminate|].
    destruct (String.eqb d k); [discriminate|apply IH, I]. }
  assert (NJ : forall p q x y, In (d, x) p -> In (d, y) q -> NoDup (dkeys q) -> x <> y -> joined p q <> []).
  { intros p q u1 y I J U Ne E. unfold joined in E.
    assert (K : In (d, zinter u1 y) (flat_map (fun p0 => match dget (fst p0) q with Some l0 => if zlist_eqb (snd p0) l0 then [] else [(fst p0, zinter (snd p0) l0)] | None => [] end) p)).
    { apply in_flat_map. exists (d, u1). split; [exact I|]. cbn [fst snd]. rewrite (dget_unique _ _ _ U J).
      destruct (zlist_eqb u1 y) eqn:Z; [apply zlist_eqb_eq in Z; contradiction|left; reflexivity]. }
    rewrite E in K. destruct K. }
  assert (UF : forall L (g : string * list Z -> bool), NoDup (dkeys L) -> NoDup (dkeys (filter g L))).
  { intros L g. induction L as [|p L IH]; [exact (fun z => z)|]. cbn. intros U. inversion U as [|? ? U1 U2]; subst.
    destruct (g p); [|apply IH, U2]. cbn. constructor; [|apply IH, U2]. intros I. apply U1. clear - I.
    induction L as [|q L IH]; [destruct I|]. cbn in *. destruct (g q); [destruct I as [->|I]; [left; reflexivity|right; apply IH, I]|right; apply IH, I]. }
  unfold lexact in EX.
  destruct HV as [(-> & G1 & G2)|(-> & G1 & G2)]; unfold lselect_fields, ld_get, ds_get in SF; cbn in SF;
    rewrite G1, G2 in SF; cbn [bind] in SF; apply Ok_inj in SF; injection SF as <- <-; cbn [lab] in EX.
  - destruct (joined _ _) eqn:J in EX; [|discriminate]. revert J.
    apply (NJ _ _ l l'); [apply HN; assumption|apply HN; assumption|apply UF, UR|exact N].
  - destruct (joined _ _) eqn:J in EX; [|discriminate]. revert J.
    apply (NJ _ _ l' l); [apply HN; assumption|apply HN; assumption|apply UF, UD|congruence].
Qed.
Print Assumptions C112_fixed_field.
