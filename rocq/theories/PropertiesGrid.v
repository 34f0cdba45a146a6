(** * PropertiesGrid: C121, C122 *)
From Coq Require Import Reals Lra Lia List String Bool Arith ZArith.
From Verif Require Import Num NumFacts Py Arr ArrFacts ProofsGeo2 Derived Dataset Grid PropertiesBudget.
Import ListNotations.
Local Open Scope string_scope.

(** ** C121 *)
(** The four names, with the default for those not given *)
Definition name_or_default (cd : dict string) (k dflt : string) : string := match dget k cd with Some v => v | None => dflt end.
Definition completed (cd : dict string) : dict string :=
  [("xcenter", name_or_default cd "xcenter" "xh"); ("ycenter", name_or_default cd "ycenter" "yh");
   ("xcorner", name_or_default cd "xcorner" "xq"); ("ycorner", name_or_default cd "ycorner" "yq")].
Theorem C121_refuted : ~ (forall vars vmap cd sym, rel_vort vars vmap (Some cd) sym = rel_vort vars vmap (Some (completed cd)) sym).
Proof.
  intros H. specialize (H ev_vars None [("xcenter", "xh")] false).
  assert (X : rel_vort ev_vars None (Some [("xcenter", "xh")]) false = Err KeyError) by reflexivity.
  assert (Y : exists r, rel_vort ev_vars None (Some (completed [("xcenter", "xh")])) false = Ok r) by (eexists; reflexivity).
  destruct Y as (r & Y). pose proof (eq_trans (eq_sym X) (eq_trans H Y)) as Z. discriminate Z.
Qed.
Print Assumptions C121_refuted.

Definition four_keys : list string := ["xcenter"; "ycenter"; "xcorner"; "ycorner"].
Lemma names_given cd : (forall k, In k four_keys -> exists v, dget k cd = Some v) -> grid_names (Some cd) = grid_names (Some (completed cd)).
Proof.
  intros H. destruct (H "xcenter") as (a & Ha); [cbn; tauto|]. destruct (H "ycenter") as (b & Hb); [cbn; tauto|].
  destruct (H "xcorner") as (c & Hc); [cbn; tauto|]. destruct (H "ycorner") as (d & Hd); [cbn; tauto|].
  unfold grid_names, completed, name_or_default, dlookup. rewrite Ha, Hb, Hc, Hd. reflexivity.
Qed.
Lemma names_missing cd k : In k four_keys -> dget k cd = None -> grid_names (Some cd) = Err KeyError.
Proof.
  intros I E. unfold grid_names, dlookup. destruct (dget "xcenter" cd) eqn:E1; [|reflexivity]. destruct (dget "xcorner" cd) eqn:E2; [|reflexivity].
  destruct (dget "ycenter" cd) eqn:E3; [|reflexivity]. destruct (dget "ycorner" cd) eqn:E4; [|reflexivity].
  exfalso. cbn in I. intuition (subst; congruence).
Qed.
Theorem C121_partial : forall vars vmap cd sym, (forall k v, In (k, v) (match vmap with None => default_vmap | Some m => m end) -> In v (map fst vars)) ->
  ((forall k, In k four_keys -> exists v, dget k cd = Some v) -> rel_vort vars vmap (Some cd) sym = rel_vort vars vmap (Some (completed cd)) sym) /\
  ((exists k, In k four_keys /\ dget k cd = None) -> rel_vort vars vmap (Some cd) sym = Err KeyError) /\
  rel_vort vars vmap None sym = rel_vort vars vmap (Some (completed [])) sym.
Proof.
  intros vars vmap cd sym HV. unfold rel_vort, get_xgcm_grid.
  match goal with |- context [if negb ?b then _ else _] => assert (B : b = true) end.
  { apply forallb_forall. intros (k, v) I. apply dmem_true. apply (HV k v I). }
  rewrite !B. cbn [negb]. split; [|split].
  - intros H. rewrite (names_given cd H). reflexivity.
  - intros (k & I & E). rewrite (names_missing cd k I E). reflexivity.
  - reflexivity.
Qed.
Print Assumptions C121_partial.
Theorem C121_pv_partial : forall zeta co n2 g cd sym units,
  ((forall k, In k four_keys -> exists v, dget k cd = Some v) -> pot_vort zeta co n2 g (Some cd) sym units true = pot_vort zeta co n2 g (Some (completed cd)) sym units true) /\
  ((exists k, In k four_keys /\ dget k cd = None) -> pot_vort zeta co n2 g (Some cd) sym units true = Err KeyError) /\
  (forall cd', pot_vort zeta co n2 g cd' sym units false = pot_vort zeta co n2 g None sym units false).
Proof.
  intros. unfold pot_vort, get_xgcm_grid. split; [|split].
  - intros H. rewrite (names_given cd H). reflexivity.
  - intros (k & I & E). rewrite (names_missing cd k I E). reflexivity.
  - reflexivity.
Qed.
Print Assumptions C121_pv_partial.
(** The names must be dimensions of the data. *)
Theorem C121_dimensions : forall vars vmap cd sym r, rel_vort vars vmap cd sym = Ok r ->
  exists cs, calc_rel_vort vars vmap cs sym = Ok r /\
    forall k, In k four_keys -> exists d, dget k (match cd with None => completed [] | Some m => m end) = Some d /\
      (exists v a, In (v, a) vars /\ In d (names a)) /\
      d = (if String.eqb k "xcenter" then xcenter cs else if String.eqb k "ycenter" then ycenter cs else if String.eqb k "xcorner" then xcorner cs else ycorner cs).
Proof.
  intros vars vmap cd sym r E. unfold rel_vort, get_xgcm_grid in E. destruct (negb _); [discriminate|].
  destruct (grid_names cd) as [cs|] eqn:G; [|discriminate]. cbn [bind] in E. destruct (forallb _ _) eqn:F; [|discriminate]. cbn [bind] in E.
  exists cs. split; [exact E|].
  assert (D : forall d, In d [xcenter cs; xcorner cs; ycenter cs; ycorner cs] -> exists v a, In (v, a) vars /\ In d (names a)).
  { intros d I. rewrite forallb_forall in F. specialize (F d I). apply smem_In in F. unfold ds_dims in F. apply in_flat_map in F. destruct F as ((v, a) & I1 & I2). eauto. }
  unfold grid_names, dlookup in G. change default_coord_dict with (completed []) in G.
  set (m := match cd with None => completed [] | Some m => m end) in *. clearbody m.
  destruct (dget "xcenter" m) eqn:E1; [|discriminate]. cbn [bind] in G. destruct (dget "xcorner" m) eqn:E2; [|discriminate]. cbn [bind] in G.
  destruct (dget "ycenter" m) eqn:E3; [|discriminate]. cbn [bind] in G. destruct (dget "ycorner" m) eqn:E4; [|discriminate]. cbn [bind] in G. injection G as <-.
  intros k I. cbn in I. destruct I as [<-|[<-|[<-|[<-|[]]]]]; eexists; (split; [eassumption|]); (split; [apply D; cbn; tauto|reflexivity]).
Qed.
Print Assumptions C121_dimensions.
(** Likewise for the potential vorticity, where the four names may come from any of the three arrays. *)
Theorem C121_pv_dimensions : forall zeta co n2 g cd sym units r,
  let m := match cd with None => completed [] | Some m => m end in
  pot_vort zeta co n2 g cd sym units true = Ok r <->
  exists cs, calc_pv zeta co n2 g cs sym units true = Ok r /\
    (dget "xcenter" m = Some (xcenter cs) /\ dget "ycenter" m = Some (ycenter cs) /\
     dget "xcorner" m = Some (xcorner cs) /\ dget "ycorner" m = Some (ycorner cs)) /\
    forall d, In d [xcenter cs; ycenter cs; xcorner cs; ycorner cs] -> In d (names zeta) \/ In d (names co) \/ In d (names n2).
Proof.
  intros zeta co n2 g cd sym units r m. unfold pot_vort, get_xgcm_grid, grid_names, dlookup. change default_coord_dict with (completed []). fold m. clearbody m. split.
  - intros E. destruct (dget "xcenter" m) eqn:E1; [|discriminate]. cbn [bind] in E. destruct (dget "xcorner" m) eqn:E2; [|discriminate]. cbn [bind] in E.
    destruct (dget "ycenter" m) eqn:E3; [|discriminate]. cbn [bind] in E. destruct (dget "ycorner" m) eqn:E4; [|discriminate]. cbn [bind] in E.
    destruct (forallb _ _) eqn:F; [|discriminate]. cbn [bind] in E. eexists. split; [exact E|]. cbn [xcenter ycenter xcorner ycorner]. split; [tauto|].
    intros d I. rewrite forallb_forall in F. assert (X : smem d (names zeta ++ names co ++ names n2) = true) by (apply F; cbn [In xcenter ycenter xcorner ycorner] in *; tauto).
    apply smem_In in X. rewrite !in_app_iff in X. exact X.
  - intros (cs & E & (E1 & E2 & E3 & E4) & F). rewrite E1, E2, E3, E4. cbn [bind xcenter ycenter xcorner ycorner].
    match goal with |- context [if ?b then _ else _] => assert (B : b = true) end.
    { apply forallb_forall. intros d I. apply smem_In. rewrite !in_app_iff. apply F. cbn [In] in *. tauto. }
    rewrite B. cbn [bind]. destruct cs; exact E.
Qed.
Print Assumptions C121_pv_dimensions.
Example C121_nonvacuous : (exists r, rel_vort ev_vars None (Some (completed [])) false = Ok r) /\
  (exists r, pot_vort (ev_q 1) (ev_q 2) ev_n2 (Fin 9.8) None false "cm" true = Ok r) /\
  rel_vort ev_vars None (Some (completed [("xcenter", "lon")])) false = Err ValueError.
Proof. split; [eexists; reflexivity|]. split; [eexists; reflexivity|reflexivity]. Qed.

(** ** C122 *)
(** A non-negative value has exactly one level interval, and every interval has a colour. *)
Definition in_interval (v : R) (k : nat) : Prop :=
  (k < List.length pv_levels)%nat /\ (nth k pv_levels 0 <= v)%R /\ ((S k < List.length pv_levels)%nat -> (v < nth (S k) pv_levels 0)%R).
Lemma levels_step i : (S i < 30)%nat -> (nth i pv_levels 0 < nth (S i) pv_levels 0)%R.
Proof. intros H. do 29 (destruct i as [|i]; [cbn; lra|]). lia. Qed.
Lemma levels_mono j i : (i < j)%nat -> (j < 30)%nat -> (nth i pv_levels 0 < nth j pv_levels 0)%R.
Proof.
  induction j as [|j IH]; intros H1 H2; [lia|]. destruct (Nat.eq_dec i j) as [->|N]; [apply levels_step, H2|].
  eapply Rlt_trans; [apply IH; lia|apply levels_step, H2].
Qed.
Theorem C122_intervals : forall v, (0 <= v)%R -> exists k c, in_interval v k /\ nth_error pv_colors k = Some c /\ forall k', in_interval v k' -> k' = k.
Proof.
  intros v Hv. change (List.length pv_levels) with 30%nat in *.
  assert (E : exists k, in_interval v k).
  { assert (G : forall m, (m <= 30)%nat -> (exists k, (k < m)%nat /\ (nth k pv_levels 0 <= v)%R /\ ((S k < m)%nat -> (v < nth (S k) pv_levels 0)%R)) \/ m = O).
    { induction m as [|m IH]; intros Hm; [right; reflexivity|]. left. destruct (Rle_lt_dec (nth m pv_levels 0%R) v) as [L|L].
      - exists m. split; [lia|]. split; [exact L|lia].
      - destruct IH as [(k & A & B & C)| ->]; [lia| |cbn in L; lra]. exists k. split; [lia|]. split; [exact B|]. intros _.
        destruct (Nat.eq_dec (S k) m) as [->|N]; [exact L|apply C; lia]. }
    destruct (G 30%nat (le_n _)) as [(k & A & B & C)|X]; [|discriminate]. exists k. split; [exact A|]. split; [exact B|exact C]. }
  destruct E as (k & K). destruct (nth_error pv_colors k) as [c|] eqn:Ec.
  - exists k, c. split; [exact K|]. split; [exact Ec|]. intros k' K'. destruct K as (A & B & C), K' as (A' & B' & C'). change (List.length pv_levels) with 30%nat in *.
    destruct (Nat.lt_trichotomy k' k) as [L|[L|L]]; [|exact L|].
    + exfalso. specialize (C' ltac:(lia)). destruct (Nat.eq_dec (S k') k) as [<-|N]; [lra|]. pose proof (levels_mono k (S k') ltac:(lia) A). lra.
    + exfalso. specialize (C ltac:(lia)). destruct (Nat.eq_dec (S k) k') as [<-|N]; [lra|]. pose proof (levels_mono k' (S k) ltac:(lia) A'). lra.
  - exfalso. apply nth_error_None in Ec. destruct K as (A & _). change (List.length pv_levels) with 30%nat in A. change (List.length pv_colors) with 30%nat in Ec. lia.
Qed.
Print Assumptions C122_intervals.
Example C122_case : in_interval 12 11 /\ nth_error pv_colors 11 = Some "#99ff00".
Proof. split; [|reflexivity]. split; [cbn; lia|]. split; [cbn; lra|intros _; cbn; lra]. Qed.
