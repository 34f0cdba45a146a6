(** * ProofsStericDemo: a concrete dataset, used to show that the hypotheses of the
    steric theorems can be met *)
From Coq Require Import Reals Lra Lia List String Bool Arith ZArith.
From Verif Require Import Num NumFacts Py Arr ArrFacts Eos SpecEos Derived SpecDz Dataset SpecSteric
  ProofsEos ProofsEosApi ProofsFields ProofsFields2 ProofsDz ProofsBudget ProofsSteric ProofsSteric2 ProofsSteric3
  ProofsSteric4 ProofsStericOk ProofsSteric5.
Import ListNotations.
Local Open Scope string_scope.
Local Open Scope R_scope.

(** Two months, two levels, 2 x 2 columns; x = 1 is land, the second month is one degree warmer. *)
Definition d4 : list (string * nat) := [("time", 2%nat); ("z_l", 2%nat); ("yh", 2%nat); ("xh", 2%nat)].
Definition d2 : list (string * nat) := [("yh", 2%nat); ("xh", 2%nat)].
Definition demo_T := mkArr d4 (fun e => Fin (10 + INR (e "time"))).
Definition demo_S := mkArr d4 (fun _ => Fin 35).
Definition demo_V := mkArr d4 (fun e => if Nat.eqb (e "xh") 1 then NaN else Fin 1000).
Definition demo_A := mkArr d2 (fun _ => Fin (361110920000000 / 4)).
Definition demo_D := mkArr d2 (fun _ => Fin 3000).
Definition demo_zl := mkArr [("z_l", 2%nat)] (fun e => Fin (1000 + 2000 * INR (e "z_l"))).
Definition demo_zi := mkArr [("z_i", 3%nat)] (fun e => Fin (2000 * INR (e "z_i"))).
Definition demo : dataset :=
  [("thetao", demo_T); ("so", demo_S); ("volcello", demo_V); ("areacello", demo_A); ("deptho", demo_D);
   ("z_l", demo_zl); ("z_i", demo_zi)].

Ltac nodup := repeat constructor; cbn; intuition discriminate.
Lemma wf_of dims f : NoDup (map fst dims) -> (forall e e', (forall d, In d (map fst dims) -> e d = e' d) -> f e = f e') -> wf_arr (mkArr dims f).
Proof. intros H1 H2. split; [exact H1|]. intros e e' H. apply H2. exact H. Qed.

Lemma demo_wf : wf_ds demo.
Proof.
  intros k a H. unfold demo in H. cbn [dget] in H.
  repeat (destruct (String.eqb k _); [injection H as <-; apply wf_of; [nodup|intros e e' He;
    try reflexivity; rewrite ?(He "time"), ?(He "xh"), ?(He "z_l"), ?(He "z_i") by (cbn; tauto); reflexivity]|]).
  discriminate.
Qed.

Lemma demo_regular : regular demo "time" "z_l" "yh" "xh" "z_i" "z_i" 2 2 2 2 demo_T demo_S demo_V demo_A demo_D demo_zl demo_zi.
Proof.
  constructor; try reflexivity; try lia;
    try (match goal with |- wf_arr demo_D => exact (demo_wf "deptho" demo_D eq_refl) | |- wf_arr demo_zl => exact (demo_wf "z_l" demo_zl eq_refl)
         | |- wf_arr demo_zi => exact (demo_wf "z_i" demo_zi eq_refl) end).
  - nodup.
  - intros e _ [H|(x & H & Hx)]; [discriminate|]. cbn in H. injection H as <-. lra.
  - intros e _. split; [|discriminate]. intros [H|(x & H & Hx)]; [discriminate|]. cbn [demo_zl at_] in H. injection H as <-.
    assert (G := pos_INR (e "z_l")). lra.
  - intros e _. split; [|discriminate]. intros [H|(x & H & Hx)]; [discriminate|]. cbn [demo_zi at_] in H. injection H as <-.
    assert (G := pos_INR (e "z_i")). lra.
Qed.

Lemma demo_area : validate_areacello demo_A ocean_area area_tolerance = true.
Proof.
  apply area_interval; [lra|nodup|intros e s H; discriminate|].
  unfold area_in_range, total_area. cbn. lra.
Qed.

(** Any variant, either equation of state and either domain is computed. *)
Lemma demo_ok m eos variant domain : same_name eos (module_name m) -> In variant ["steric"; "thermosteric"; "halosteric"] ->
  exists r T0 S0 V0 rho0 volo masso rhoga, let ref := [("thetao", T0); ("so", S0); ("volcello", V0); ("rho", rho0); ("volo", volo);
      ("masso", masso); ("rhoga", rhoga); ("areacello", demo_A)] in
  setup_reference_state demo (scalar (Fin 101325)) eos None 0 = Ok ref /\
  steric demo None None None 1035 (scalar (Fin 101325)) eos variant domain true = Ok (r, ref) /\
  (forall e, at_ T0 e = Fin 10) /\ (forall e, at_ S0 e = Fin 35) /\ (forall e, at_ V0 e = at_ demo_V e).
Proof.
  intros Hm Hv.
  assert (Hk : py_index 0 2 = Some O) by reflexivity.
  destruct (reference_ok _ _ _ _ _ _ _ _ _ _ _ _ _ _ _ _ _ _ demo_regular (Fin 101325) eos m Hm None 0 0 eq_refl Hk)
    as (T0 & S0 & V0 & rho0 & volo & masso & rhoga & E & D1 & D2 & D3 & D4 & D5 & D6 & D7 & V1 & V2 & V3).
  destruct (steric_ok_given _ _ _ _ _ _ _ _ _ _ _ _ _ _ _ _ _ _ demo_regular true (Fin 101325) eos m Hm (fun _ => demo_area)
    None 1035 variant domain eq_refl Hv T0 S0 V0 rho0 volo masso rhoga D1 D2 D3 D4 D5 D6 D7) as (r & Er).
  { intros _. lra. }
  exists r, T0, S0, V0, rho0, volo, masso, rhoga. cbv zeta. split; [exact E|]. split.
  - apply reference_reuse. split; [|exact Er]. exists demo. split; [reflexivity|exact E].
  - split; [intros e; rewrite V1; cbn; f_equal; lra|]. split; [intros e; rewrite V2; reflexivity|].
    intros e. rewrite V3. reflexivity.
Qed.

Definition demo_p (k : nat) : R := 10000 * (1000 + 2000 * INR k) + 101325.
Definition demo_w (k : nat) : R := 2000 * INR k.

Lemma demo_column m eos variant domain r T0 S0 V0 rho0 volo masso rhoga e T S :
  same_name eos (module_name m) -> In variant ["steric"; "thermosteric"; "halosteric"] ->
  let ref := [("thetao", T0); ("so", S0); ("volcello", V0); ("rho", rho0); ("volo", volo);
      ("masso", masso); ("rhoga", rhoga); ("areacello", demo_A)] in
  setup_reference_state demo (scalar (Fin 101325)) eos None 0 = Ok ref ->
  steric demo None None None 1035 (scalar (Fin 101325)) eos variant domain true = Ok (r, ref) ->
  (forall e, at_ T0 e = Fin 10) -> (forall e, at_ S0 e = Fin 35) ->
  uses_fields demo ref variant T S ->
  m = Linear ->
  column_ok m "z_l" "z_i" 2 T S rho0 demo_D demo_zl (scalar (Fin 101325)) demo_zi demo_p demo_w e /\
  (forall e, at_ rho0 e = Fin (lin_rho 10 35)).
Proof.
  intros Hm Hv ref E Er H1 H2 Hu ->.
  assert (Hrho : forall e, at_ rho0 e = Fin (lin_rho 10 35)).
  { intros e'. rewrite (built_density demo (scalar (Fin 101325)) eos None 0 ref Linear "time" "z_l" "z_i" T0 S0 rho0 demo_zl E eq_refl
      eq_refl Hm eq_refl eq_refl eq_refl). rewrite H1, H2. cbn [at_ demo_zl scalar]. cbn [fmul fadd].
    rewrite eos_density_Fin by exact I. reflexivity. }
  split; [|exact Hrho]. split; [reflexivity|]. split; [reflexivity|].
  split; [intros k _; cbn; reflexivity|]. split; [intros k _; unfold demo_w; rewrite S_INR; lra|].
  split; [intros s; discriminate|]. intros k Hk. cbv zeta.
  assert (HT : forall e b, at_ T e <> Inf b).
  { intros e' b. inversion Hu as [A B D1 D2|A B D1 D2|A B D1 D2]; subst; cbn in D1; injection D1 as <-; rewrite ?H1; discriminate. }
  assert (HS : forall e b, at_ S e <> Inf b).
  { intros e' b. inversion Hu as [A B D1 D2|A B D1 D2|A B D1 D2]; subst; cbn in D2; injection D2 as <-; rewrite ?H2; discriminate. }
  split; [intros s; apply HT|]. split; [intros s; apply HS|]. split; [intros s; rewrite Hrho; discriminate|].
  split; [|intros; exact I].
  exists (1000 + 2000 * INR k), 101325. split; [cbn; reflexivity|]. split; reflexivity.
Qed.

Definition at_time (i : nat) (e : index) : index := upd e "time" i.

(** One degree of warming over 3000 m of water: 600/1035 m. *)
Lemma demo_thermosteric : exists r ref sea,
  steric demo None None None 1035 (scalar (Fin 101325)) "Linear" "thermosteric" "local" true = Ok (r, ref) /\
  dget "thermosteric" r = Some sea /\
  at_ sea (fun d => if String.eqb d "time" then 1%nat else 0%nat) = Fin (600 / 1035) /\
  at_ sea (fun d => if String.eqb d "xh" then 1%nat else 0%nat) = NaN.
Proof.
  assert (Hm : same_name "Linear" (module_name Linear)) by (apply same_name_lower; reflexivity).
  assert (Hv : In "thermosteric" ["steric"; "thermosteric"; "halosteric"]) by (cbn; tauto).
  destruct (demo_ok Linear "Linear" "thermosteric" "local" Hm Hv) as (r & T0 & S0 & V0 & rho0 & volo & masso & rhoga & E & Er & H1 & H2 & H3).
  assert (Hu : uses_fields demo [("thetao", T0); ("so", S0); ("volcello", V0); ("rho", rho0); ("volo", volo);
      ("masso", masso); ("rhoga", rhoga); ("areacello", demo_A)] "thermosteric" demo_T S0) by (apply uf_thermo; reflexivity).
  assert (Hloc : "local" <> "global") by discriminate.
  assert (HF : forall e, _) by (intros e;
    destruct (demo_column Linear "Linear" "thermosteric" "local" r T0 S0 V0 rho0 volo masso rhoga e demo_T S0 Hm Hv E Er H1 H2 Hu eq_refl) as [Hc _];
    exact (local_formula _ _ _ _ _ _ _ _ _ _ _ _ demo Linear "time" "z_l" "z_i" demo_T S0 V0 rho0 demo_zl demo_zi demo_D "z_i" 2 _ _ e
      Er Hloc eq_refl eq_refl Hm demo_wf Hu eq_refl eq_refl eq_refl eq_refl eq_refl ltac:(cbn; intuition discriminate) Hc)).
  assert (Hrho : forall e, at_ rho0 e = Fin (lin_rho 10 35)).
  { exact (proj2 (demo_column Linear "Linear" "thermosteric" "local" r T0 S0 V0 rho0 volo masso rhoga (fun _ => O) demo_T S0 Hm Hv E Er H1 H2 Hu eq_refl)). }
  destruct (HF (fun d => if String.eqb d "time" then 1%nat else 0%nat)) as (delta & sea & _ & Hs & _ & Hval).
  destruct (HF (fun d => if String.eqb d "xh" then 1%nat else 0%nat)) as (delta' & sea' & _ & Hs' & _ & Hval').
  rewrite Hs in Hs'. injection Hs' as <-.
  eexists r, _, sea. split; [exact Er|]. split; [exact Hs|]. split.
  - rewrite Hval. rewrite H3. cbn [at_ demo_V upd String.eqb Ascii.eqb Bool.eqb Nat.eqb notnull].
    unfold steric_height. cbn [Rsum]. unfold density_change, column_at. cbn [c_wet c_T c_S c_rho0 c_p c_w c_floor].
    rewrite !H2, !Hrho, !H3. cbn [demo_T demo_V demo_D at_ opt notnull upd String.eqb Ascii.eqb Bool.eqb Nat.eqb water_depth odef eos_rho].
    unfold demo_w. cbn [INR].
    assert (O1 : overlap (2000 * 0) (2000 * 1) 0 3000 = 2000) by (unfold overlap, Rmin, Rmax; repeat destruct (Rle_dec _ _); lra).
    assert (O2 : overlap (2000 * 1) (2000 * (1 + 1)) 0 3000 = 1000) by (unfold overlap, Rmin, Rmax; repeat destruct (Rle_dec _ _); lra).
    rewrite O1, O2. unfold lin_rho. change (notnull (Fin 1000)) with true. cbv iota. cbn [odef]. f_equal. lra.
  - rewrite Hval', H3. reflexivity.
Qed.

Definition demo_pe (e : index) : R := 10000 * (1000 + 2000 * INR (e "z_l")) + 101325.

(** Everything the theorems ask about the demo dataset, Linear equation of state. *)
Lemma demo_facts variant domain : In variant ["steric"; "thermosteric"; "halosteric"] ->
  exists r ref T0 S0 V0 rho0 volo rhoga,
  setup_reference_state demo (scalar (Fin 101325)) "Linear" None 0 = Ok ref /\
  steric demo None None None 1035 (scalar (Fin 101325)) "Linear" variant domain true = Ok (r, ref) /\
  dget "thetao" ref = Some T0 /\ dget "so" ref = Some S0 /\ dget "volcello" ref = Some V0 /\ dget "rho" ref = Some rho0 /\
  dget "volo" ref = Some volo /\ dget "rhoga" ref = Some rhoga /\ dget "areacello" ref = Some demo_A /\
  adims T0 = [("z_l", 2%nat); ("yh", 2%nat); ("xh", 2%nat)] /\ adims S0 = [("z_l", 2%nat); ("yh", 2%nat); ("xh", 2%nat)] /\
  adims V0 = [("z_l", 2%nat); ("yh", 2%nat); ("xh", 2%nat)] /\
  (forall e, at_ T0 e = Fin 10) /\ (forall e, at_ S0 e = Fin 35) /\ (forall e, at_ V0 e = at_ demo_V e) /\
  (forall e, at_ rho0 e = Fin (lin_rho 10 35)) /\ (forall e, at_ volo e = Fin 4000) /\ (forall e, at_ rhoga e = Fin 1026).
Proof.
  intros Hv.
  assert (Hm : same_name "Linear" (module_name Linear)) by (apply same_name_lower; reflexivity).
  destruct (demo_ok Linear "Linear" variant domain Hm Hv) as (r & T0 & S0 & V0 & rho0 & volo & masso & rhoga & E & Er & H1 & H2 & H3).
  destruct (reference_values demo _ _ _ _ _ Linear "time" "z_l" "z_i" demo_T demo_S demo_V E eq_refl Hm demo_wf eq_refl eq_refl eq_refl)
    as (T0' & S0' & V0' & rho0' & volo' & masso' & rhoga' & zl & nT & nS & nV & iT & iS & iV & G1 & G2 & G3 & G4 & G5 & G6 & G7 & G8 & G9
        & _ & _ & D1 & _ & _ & _ & D2 & _ & _ & _ & D3 & _ & HF).
  { intros a d n [->|[->| ->]] Hin Hd; cbn in Hin; repeat (destruct Hin as [Hin|Hin]; [injection Hin as <- <-; discriminate|]); destruct Hin. }
  cbn in G1, G2, G3, G4, G5, G6, G7. injection G1 as <-. injection G2 as <-. injection G3 as <-. injection G4 as <-.
  injection G5 as <-. injection G6 as <-. injection G7 as <-. cbn in G9. injection G9 as <-.
  cbn in D1, D2, D3.
  destruct (HF demo_pe) as (F1 & F2 & F3).
  { intros e. split; [intros s; rewrite H1; discriminate|]. split; [intros s; rewrite H2; discriminate|].
    split; [intros s; rewrite H3; cbn; destruct (Nat.eqb _ 1); discriminate|]. split; [|intros; exact I].
    exists (1000 + 2000 * INR (e "z_l")), 101325. repeat split. }
  assert (SG : forall a, adims a = [("z_l", 2%nat); ("yh", 2%nat); ("xh", 2%nat)] -> same_grid "time" V0 a).
  { intros a Ha. unfold same_grid, names. rewrite Ha, D3. split; [nodup|]. split; [intros d Hd; right; exact Hd|intros d n Hd _; exact Hd]. }
  destruct F3 as [F4 F5]; [apply SG, D1|apply SG, D2| | |].
  { unfold same_grid, names. rewrite D3. cbn. split; [nodup|]. split; [tauto|]. intros d n [H|[]] _. left. exact H. }
  { split; [constructor|]. split; [intros d []|intros d n []]. }
  assert (HV : forall e, at_ volo e = Fin 4000).
  { intros e. rewrite F2, D3. cbn. rewrite !H3. cbn. f_equal. lra. }
  eexists r, _, T0, S0, V0, rho0, volo, rhoga. split; [exact E|]. split; [exact Er|].
  repeat (split; [reflexivity || assumption|]).
  split; [|split; [exact HV|]].
  - intros e. rewrite F1, H1, H2. reflexivity.
  - intros e. rewrite F5, HV, F4. unfold total_mass. rewrite D3. cbn. rewrite !H1, !H2, !H3. cbn.
    destruct (Reqb 4000 0) eqn:X; [apply Reqb_true in X; lra|]. unfold lin_rho. f_equal. lra.
Qed.

(** The mean density falls from 1026 to 1025.8. *)
Lemma demo_global : exists r ref sea,
  steric demo None None None 1035 (scalar (Fin 101325)) "Linear" "steric" "global" true = Ok (r, ref) /\
  dget "steric" r = Some sea /\
  at_ sea (fun d => if String.eqb d "time" then 1%nat else 0%nat) = Fin (4000 / 361110920000000 * ln (1026 / 1025.8)).
Proof.
  destruct (demo_facts "steric" "global") as (r & ref & T0 & S0 & V0 & rho0 & volo & rhoga & E & Er & G1 & G2 & G3 & G4 & G5 & G6 & G7
    & D1 & D2 & D3 & H1 & H2 & H3 & H4 & H5 & H6); [cbn; tauto|].
  assert (Hm : same_name "Linear" (module_name Linear)) by (apply same_name_lower; reflexivity).
  assert (Hu : uses_fields demo ref "steric" demo_T demo_S) by (apply uf_steric; reflexivity).
  set (e1 := fun d => if String.eqb d "time" then 1%nat else 0%nat).
  assert (HM : total_mass Linear demo_T demo_S V0 demo_pe e1 = 4103200).
  { unfold total_mass. rewrite D3. cbn. rewrite !H3. cbn. unfold lin_rho. lra. }
  assert (HA : total_area demo_A e1 = 361110920000000) by (unfold total_area; cbn; lra).
  assert (S4 : forall a, adims a = d4 -> same_grid "time" V0 a).
  { intros a Ha. unfold same_grid, names. rewrite Ha, D3. cbn. split; [nodup|]. split; [intuition|].
    intros d n [H|[H|[H|[H|[]]]]] Hd; injection H as <- <-; first [tauto|exfalso; apply Hd; reflexivity]. }
  destruct (global_formula demo None None None 1035 (scalar (Fin 101325)) "Linear" "steric" true r ref demo Linear "time" "z_l" "z_i"
    demo_T demo_S V0 volo rhoga demo_A demo_zl demo_pe e1 4000 1026) as (h & sea & A1 & A2 & A3 & A4); try assumption; try reflexivity.
  - unfold names; rewrite D3; nodup.
  - unfold names; rewrite D3; cbn; intuition discriminate.
  - intros e. split; [intros s; discriminate|]. split; [intros s; discriminate|].
    split; [intros s; rewrite H3; cbn; destruct (Nat.eqb _ 1); discriminate|]. split; [|intros; exact I].
    exists (1000 + 2000 * INR (e "z_l")), 101325. repeat split.
  - apply S4; reflexivity.
  - apply S4; reflexivity.
  - unfold same_grid, names. rewrite D3. cbn. split; [nodup|]. split; [tauto|]. intros d n [H|[]] _. left. exact H.
  - split; [constructor|]. split; [intros d []|intros d n []].
  - nodup.
  - intros e s; discriminate.
  - apply H5.
  - apply H6.
  - lra.
  - rewrite HA. lra.
  - rewrite HM. apply Rdiv_lt_0_compat; lra.
  - rewrite HM. lra.
  - exists r, ref, sea. split; [exact Er|]. split; [exact A2|]. rewrite A4, HA, HM. f_equal. f_equal. f_equal. f_equal. lra.
Qed.
