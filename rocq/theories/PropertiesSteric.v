(** * PropertiesSteric: C30-C31 (reference state), C32-C40 (steric height), C41-C45 (validation) *)
From Coq Require Import Reals Lra Lia List String Bool Arith ZArith.
From Verif Require Import Num NumFacts Py Arr ArrFacts Eos SpecEos Derived SpecDz Dataset SpecSteric
  ProofsEos ProofsEosBox ProofsEosApi ProofsFields ProofsFields2 ProofsDz ProofsBudget ProofsSteric ProofsSteric2 ProofsSteric3
  ProofsThermal ProofsSteric4 ProofsStericOk ProofsSteric5 ProofsStericDemo ProofsStericDemo2.
Import ListNotations.
Local Open Scope string_scope.
Local Open Scope R_scope.

(** ** C30: the reference state is the chosen time level *)
Theorem C30_reference_values : forall ds patm eos cn k ref m t z zb T Sa V,
  setup_reference_state ds patm eos cn k = Ok ref -> default_coords cn = (t, z, zb) ->
  same_name eos (module_name m) -> wf_ds ds ->
  dget "thetao" ds = Some T -> dget "so" ds = Some Sa -> dget "volcello" ds = Some V ->
  (forall a d n, a = T \/ a = Sa \/ a = V -> In (d, n) (adims a) -> d <> t -> n <> 1%nat) ->
  exists T0 S0 V0 rho0 volo masso rhoga zl nT nS nV iT iS iV,
    dget "thetao" ref = Some T0 /\ dget "so" ref = Some S0 /\ dget "volcello" ref = Some V0 /\ dget "rho" ref = Some rho0 /\
    dget "volo" ref = Some volo /\ dget "masso" ref = Some masso /\ dget "rhoga" ref = Some rhoga /\
    dget "areacello" ref = dget "areacello" ds /\ ds_get z ds = Ok zl /\
    dget t (adims T) = Some nT /\ selects k nT iT /\ adims T0 = drop_dim t (adims T) /\ (forall e, at_ T0 e = at_ T (upd e t iT)) /\
    dget t (adims Sa) = Some nS /\ selects k nS iS /\ adims S0 = drop_dim t (adims Sa) /\ (forall e, at_ S0 e = at_ Sa (upd e t iS)) /\
    dget t (adims V) = Some nV /\ selects k nV iV /\ adims V0 = drop_dim t (adims V) /\ (forall e, at_ V0 e = at_ V (upd e t iV)) /\
    forall p, field_ok m T0 S0 V0 zl patm p ->
     (forall e, at_ rho0 e = fof (cell_density m (at_ T0 e) (at_ S0 e) (p e))) /\
     (forall e, at_ volo e = Fin (Rsum_box (adims V0) (fun e' => odef (opt (at_ V0 e'))) e)) /\
     (same_grid t V0 T0 -> same_grid t V0 S0 -> same_grid t V0 zl -> same_grid t V0 patm ->
       (forall e, at_ masso e = Fin (total_mass m T0 S0 V0 p e)) /\
       (forall e, at_ rhoga e = fdiv (at_ masso e) (at_ volo e))).
Proof. exact reference_values. Qed.
Print Assumptions C30_reference_values.

(** The time index is a Python index: accepted iff it selects a position, IndexError otherwise. *)
Theorem C30_time_index : forall ds t z y x zb zn nt nz ny nx T Sa V area depth zl zi pa eos m cn k,
  regular ds t z y x zb zn nt nz ny nx T Sa V area depth zl zi -> same_name eos (module_name m) ->
  default_coords cn = (t, z, zb) ->
  ((exists i, selects k nt i) -> is_ok (setup_reference_state ds (scalar pa) eos cn k) = true) /\
  ((forall i, ~ selects k nt i) -> setup_reference_state ds (scalar pa) eos cn k = Err IndexError).
Proof.
  intros ds t z y x zb zn nt nz ny nx T Sa V area depth zl zi pa eos m cn k RG Hm Hc. split.
  - intros (i & Hi). apply index_selects in Hi.
    destruct (reference_ok _ _ _ _ _ _ _ _ _ _ _ _ _ _ _ _ _ _ RG pa eos m Hm cn k i Hc Hi)
      as (T0 & S0 & V0 & rho0 & volo & masso & rhoga & E & _). rewrite E. reflexivity.
  - intros Hn. destruct RG. unfold setup_reference_state. rewrite Hc.
    rewrite (ds_get_var _ _ _ rg_z), (ds_get_var _ _ _ rg_T), (ds_get_var _ _ _ rg_S), (ds_get_var _ _ _ rg_V). cbn [bind].
    unfold aadd, amap2. cbn [compatible adims scalar forallb bind].
    unfold isel_z at 1. rewrite rg_dT. cbn [dget]. rewrite String.eqb_refl.
    destruct (py_index k nt) as [i|] eqn:E; [|reflexivity]. exfalso. exact (Hn i (selects_index _ _ _ E)).
Qed.
Print Assumptions C30_time_index.

Example C30_last_month : exists ref T0, setup_reference_state demo (scalar (Fin 101325)) "wright" None (-1) = Ok ref /\
  dget "thetao" ref = Some T0 /\ forall e, at_ T0 e = Fin 11.
Proof.
  assert (Hm : same_name "wright" (module_name Wright)) by (apply same_name_lower; reflexivity).
  destruct (reference_ok _ _ _ _ _ _ _ _ _ _ _ _ _ _ _ _ _ _ demo_regular (Fin 101325) "wright" Wright Hm None (-1) 1 eq_refl eq_refl)
    as (T0 & S0 & V0 & rho0 & volo & masso & rhoga & E & _ & _ & _ & _ & _ & _ & _ & V1 & _).
  eexists _, T0. split; [exact E|]. split; [reflexivity|]. intros e. rewrite V1. cbn. f_equal. lra.
Qed.

(** ** C31: size-one spatial dimensions *)
Definition one2 : list (string * nat) := [("yh", 1%nat); ("xh", 1%nat)].
Definition one4 : list (string * nat) := [("time", 2%nat); ("z_l", 2%nat); ("yh", 1%nat); ("xh", 1%nat)].
Definition single_column : dataset :=
  [("thetao", mkArr one4 (fun e => Fin (10 + INR (e "time")))); ("so", mkArr one4 (fun _ => Fin 35));
   ("volcello", mkArr one4 (fun _ => Fin 1000)); ("areacello", mkArr one2 (fun _ => Fin 361110920000000));
   ("deptho", mkArr one2 (fun _ => Fin 3000)); ("z_l", demo_zl); ("z_i", demo_zi)].

(** Refuted: a single column is accepted by validate_dataset and gives no reference
    state; any size-one dimension of the volume other than time has this effect. *)
Theorem C31_refuted :
  validate_dataset single_column false true ["z_i"; "deptho"] = Ok tt /\
  (forall patm eos k, is_ok (setup_reference_state single_column patm eos None k) = false) /\
  (forall ds patm eos cn k t z zb V d, default_coords cn = (t, z, zb) -> dget "volcello" ds = Some V -> ndim V = 4%nat ->
    NoDup (names V) -> d <> t -> In (d, 1%nat) (adims V) -> is_ok (setup_reference_state ds patm eos cn k) = false).
Proof.
  split; [|split].
  - apply validate_iff. split; [|split].
    + intros v Hv. inversion Hv as [w H|w H|w H1 H2]; subst; [| |discriminate];
        repeat (destruct H as [<-|H]; [eexists; reflexivity|]); destruct H.
    + intros v a n Hr Hg. inversion Hr as [w H|w H|r w H|w H]; subst;
        repeat (destruct H as [<-|H]; [cbn in Hg; injection Hg as <-; reflexivity|]); destruct H.
    + intros _ a Hg. cbn in Hg. injection Hg as <-. apply area_interval; [lra|nodup|intros e s H; discriminate|].
      unfold area_in_range, total_area. cbn. lra.
  - intros patm eos k. apply (size_one_fails single_column patm eos None k "time" "z_l" "z_i" (mkArr one4 (fun _ => Fin 1000)) "yh");
      try reflexivity; [nodup|discriminate|cbn; tauto].
  - exact size_one_fails.
Qed.
Print Assumptions C31_refuted.

(** What holds: without size-one spatial dimensions the reference state exists and is accepted. *)
Theorem C31_partial : forall ds t z y x zb zn nt nz ny nx T Sa V area depth zl zi pa eos m cn k strict,
  regular ds t z y x zb zn nt nz ny nx T Sa V area depth zl zi -> same_name eos (module_name m) ->
  default_coords cn = (t, z, zb) -> (exists i, selects k nt i) ->
  (strict = true -> validate_areacello area (Fin 361110920000000%R) (Fin (2 / 100)%R) = true) ->
  exists ref, setup_reference_state ds (scalar pa) eos cn k = Ok ref /\ validate_dataset ref true strict [] = Ok tt.
Proof.
  intros ds t z y x zb zn nt nz ny nx T Sa V area depth zl zi pa eos m cn k strict RG Hm Hc (i & Hi) Ha. apply index_selects in Hi.
  destruct (reference_ok _ _ _ _ _ _ _ _ _ _ _ _ _ _ _ _ _ _ RG pa eos m Hm cn k i Hc Hi)
      as (T0 & S0 & V0 & rho0 & volo & masso & rhoga & E & D1 & D2 & D3 & D4 & D5 & D6 & D7 & _).
  eexists. split; [exact E|]. eapply reference_valid; eassumption.
Qed.
Print Assumptions C31_partial.

Example C31_demo : exists ref, setup_reference_state demo (scalar (Fin 101325)) "Wright" None (-1) = Ok ref /\ validate_dataset ref true true [] = Ok tt.
Proof.
  apply (C31_partial _ _ _ _ _ _ _ _ _ _ _ _ _ _ _ _ _ _ (Fin 101325) "Wright" Wright None (-1)%Z true demo_regular).
  - apply same_name_lower; reflexivity.
  - reflexivity.
  - exists 1%nat. split; [lia|right; reflexivity].
  - intros _. exact demo_area.
Qed.

(** ** C32: local steric height *)
Theorem C32_local_formula : forall d reference cn vm rhozero patm eos variant domain strict res ref ds m t z zb T S vol rho0 zl ifaces depth zi n p w e,
  steric d reference cn vm rhozero patm eos variant domain strict = Ok (res, ref) -> domain <> "global" ->
  ds_rename vm d = Ok ds -> default_coords cn = (t, z, zb) -> same_name eos (module_name m) -> wf_ds ds ->
  uses_fields ds ref variant T S ->
  dget "volcello" ref = Some vol -> dget "rho" ref = Some rho0 -> ds_get z ds = Ok zl ->
  dget zb ds = Some ifaces -> dget "deptho" ds = Some depth -> ~ In z (names depth) ->
  column_ok m z zi n T S rho0 depth zl patm ifaces p w e ->
  let c := column_at z T S rho0 vol depth p w e in
  exists delta sea, dget "delta_rho" res = Some delta /\ dget variant res = Some sea /\
    (forall k, (k < n)%nat -> at_ delta (upd e z k) = fof (density_change m c k)) /\
    at_ sea e = (if notnull (at_ vol (upd e z 0)) then Fin (steric_height m rhozero n c) else NaN).
Proof. exact local_formula. Qed.
Print Assumptions C32_local_formula.

(** Regular datasets are never rejected. *)
Theorem C32_defined : forall ds t z y x zb zn nt nz ny nx T Sa V area depth zl zi strict pa eos m cn rhozero variant domain,
  regular ds t z y x zb zn nt nz ny nx T Sa V area depth zl zi -> same_name eos (module_name m) ->
  (strict = true -> validate_areacello area (Fin 361110920000000%R) (Fin (2 / 100)%R) = true) ->
  default_coords cn = (t, z, zb) -> In variant ["steric"; "thermosteric"; "halosteric"] -> (1 <= nt)%nat ->
  (domain <> "global" -> rhozero <> 0) ->
  exists r ref, steric ds None cn None rhozero (scalar pa) eos variant domain strict = Ok (r, ref).
Proof.
  intros ds t z y x zb zn nt nz ny nx T Sa V area depth zl zi strict pa eos m cn rhozero variant domain RG Hm Ha Hc Hv Hnt Hr.
  exact (steric_ok _ _ _ _ _ _ _ _ _ _ _ _ _ _ _ _ _ _ RG strict pa eos m Hm Ha cn rhozero variant domain Hc Hv Hnt Hr).
Qed.
Print Assumptions C32_defined.

(** One degree of warming over 3000 m of water; the land column is missing. *)
Example C32_demo : exists r ref sea,
  steric demo None None None 1035 (scalar (Fin 101325)) "Linear" "thermosteric" "local" true = Ok (r, ref) /\
  dget "thermosteric" r = Some sea /\
  at_ sea (fun d => if String.eqb d "time" then 1%nat else 0%nat) = Fin (600 / 1035) /\
  at_ sea (fun d => if String.eqb d "xh" then 1%nat else 0%nat) = NaN.
Proof. exact demo_thermosteric. Qed.

(** ** C33: zero at the reference time *)
Theorem C33_local : forall d cn vm rhozero patm eos variant domain strict res ref ds m t z zb T S vol rho0 zl ifaces depth zi n p w e,
  steric d None cn vm rhozero patm eos variant domain strict = Ok (res, ref) -> domain <> "global" ->
  ds_rename vm d = Ok ds -> default_coords cn = (t, z, zb) -> same_name eos (module_name m) -> wf_ds ds -> t <> z ->
  uses_fields ds ref variant T S ->
  dget "volcello" ref = Some vol -> dget "rho" ref = Some rho0 -> ds_get z ds = Ok zl ->
  dget zb ds = Some ifaces -> dget "deptho" ds = Some depth -> ~ In z (names depth) ->
  column_ok m z zi n T S rho0 depth zl patm ifaces p w e -> e t = O ->
  exists sea, dget variant res = Some sea /\
    at_ sea e = (if notnull (at_ vol (upd e z 0)) then Fin 0 else NaN).
Proof. exact local_vanish. Qed.
Print Assumptions C33_local.

Theorem C33_global : forall d cn vm rhozero patm eos variant strict res ref ds m t z zb T S vol volo rhoga area zl p e V g,
  steric d None cn vm rhozero patm eos variant "global" strict = Ok (res, ref) ->
  ds_rename vm d = Ok ds -> default_coords cn = (t, z, zb) -> same_name eos (module_name m) -> wf_ds ds ->
  uses_fields ds ref variant T S -> ds_get z ds = Ok zl ->
  dget "volcello" ref = Some vol -> dget "volo" ref = Some volo -> dget "rhoga" ref = Some rhoga -> dget "areacello" ref = Some area ->
  field_ok m T S vol zl patm p ->
  same_grid t vol T -> same_grid t vol S -> same_grid t vol zl -> same_grid t vol patm ->
  wf_arr patm -> ~ In t (names patm) -> ~ In t (names zl) ->
  NoDup (names area) -> no_inf area ->
  at_ volo e = Fin V -> at_ rhoga e = Fin g -> V <> 0 -> g <> 0 -> total_area area e <> 0 -> e t = O ->
  exists sea, dget variant res = Some sea /\ at_ sea e = Fin 0.
Proof. exact global_vanish. Qed.
Print Assumptions C33_global.

Example C33_global_demo : exists r ref sea,
  steric demo None None None 1035 (scalar (Fin 101325)) "Linear" "steric" "global" true = Ok (r, ref) /\
  dget "steric" r = Some sea /\ at_ sea (fun _ => O) = Fin 0.
Proof.
  destruct (demo_facts "steric" "global") as (r & ref & T0 & S0 & V0 & rho0 & volo & rhoga & E & Er & G1 & G2 & G3 & G4 & G5 & G6 & G7
    & D1 & D2 & D3 & H1 & H2 & H3 & H4 & H5 & H6); [cbn; tauto|].
  assert (Hm : same_name "Linear" (module_name Linear)) by (apply same_name_lower; reflexivity).
  assert (Hu : uses_fields demo ref "steric" demo_T demo_S) by (apply uf_steric; reflexivity).
  assert (S4 : forall a, adims a = d4 -> same_grid "time" V0 a).
  { intros a Ha. unfold same_grid, names. rewrite Ha, D3. cbn. split; [nodup|]. split; [intuition|].
    intros d n [H|[H|[H|[H|[]]]]] Hd; injection H as <- <-; first [tauto|exfalso; apply Hd; reflexivity]. }
  destruct (C33_global demo None None 1035 (scalar (Fin 101325)) "Linear" "steric" true r ref demo Linear "time" "z_l" "z_i"
    demo_T demo_S V0 volo rhoga demo_A demo_zl demo_pe (fun _ => O) 4000 1026) as (sea & A1 & A2); try assumption; try reflexivity.
  - exact demo_wf.
  - intros e. split; [intros s; discriminate|]. split; [intros s; discriminate|].
    split; [intros s; rewrite H3; cbn; destruct (Nat.eqb _ 1); discriminate|]. split; [|intros; exact I].
    exists (1000 + 2000 * INR (e "z_l")), 101325. repeat split.
  - apply S4; reflexivity.
  - apply S4; reflexivity.
  - unfold same_grid, names. rewrite D3. cbn. split; [nodup|]. split; [tauto|]. intros d n [H|[]] _. left. exact H.
  - split; [constructor|]. split; [intros d []|intros d n []].
  - split; [constructor|]. reflexivity.
  - cbn; tauto.
  - cbn; intuition discriminate.
  - nodup.
  - intros e s; discriminate.
  - apply H5.
  - apply H6.
  - lra.
  - lra.
  - assert (total_area demo_A (fun _ => O) = 361110920000000) as -> by (unfold total_area; cbn; lra). lra.
  - exists r, ref, sea. split; [exact Er|]. split; [exact A1|exact A2].
Qed.

(** ** C34: land mask *)
Theorem C34_land_mask : forall d reference cn vm rhozero patm eos variant domain strict res ref ds m t z zb T S vol rho0 zl ifaces depth zi n p w e,
  steric d reference cn vm rhozero patm eos variant domain strict = Ok (res, ref) -> domain <> "global" ->
  ds_rename vm d = Ok ds -> default_coords cn = (t, z, zb) -> same_name eos (module_name m) -> wf_ds ds ->
  uses_fields ds ref variant T S ->
  dget "volcello" ref = Some vol -> dget "rho" ref = Some rho0 -> ds_get z ds = Ok zl ->
  dget zb ds = Some ifaces -> dget "deptho" ds = Some depth -> ~ In z (names depth) ->
  column_ok m z zi n T S rho0 depth zl patm ifaces p w e ->
  exists sea, dget variant res = Some sea /\ (at_ sea e = NaN <-> at_ vol (upd e z 0) = NaN) /\ forall s, at_ sea e <> Inf s.
Proof.
  intros d reference cn vm rhozero patm eos variant domain strict res ref ds m t z zb T S vol rho0 zl ifaces depth zi n p w e
    H H0 H1 H2 H3 H4 H5 H6 H7 H8 H9 H10 H11 H12.
  destruct (local_formula d reference cn vm rhozero patm eos variant domain strict res ref ds m t z zb T S vol rho0 zl ifaces depth zi n p w e
    H H0 H1 H2 H3 H4 H5 H6 H7 H8 H9 H10 H11 H12)
    as (delta & sea & _ & Hs & _ & Hv).
  exists sea. split; [exact Hs|]. rewrite Hv. destruct (at_ vol (upd e z 0)) as [|b|v]; cbn; split.
  - tauto.
  - intros s; discriminate.
  - split; discriminate.
  - intros s; discriminate.
  - split; discriminate.
  - intros s; discriminate.
Qed.
Print Assumptions C34_land_mask.

(** Both in the demonstration dataset: zero in the first month, missing on land (x = 1) in the second. *)
Example C33_C34_demo : exists r ref sea,
  steric demo None None None 1035 (scalar (Fin 101325)) "Linear" "thermosteric" "local" true = Ok (r, ref) /\
  dget "thermosteric" r = Some sea /\ at_ sea (fun _ => O) = Fin 0 /\
  at_ sea (fun d => if String.eqb d "time" then 1%nat else if String.eqb d "xh" then 1%nat else O) = NaN /\
  at_ sea (fun d => if String.eqb d "time" then 1%nat else O) <> NaN.
Proof.
  assert (Hm : same_name "Linear" (module_name Linear)) by (apply same_name_lower; reflexivity).
  assert (Hv : In "thermosteric" ["steric"; "thermosteric"; "halosteric"]) by (cbn; tauto).
  destruct (demo_ok Linear "Linear" "thermosteric" "local" Hm Hv) as (r & T0 & S0 & V0 & rho0 & volo & masso & rhoga & E & Er & H1 & H2 & H3).
  assert (Hu : uses_fields demo [("thetao", T0); ("so", S0); ("volcello", V0); ("rho", rho0); ("volo", volo);
      ("masso", masso); ("rhoga", rhoga); ("areacello", demo_A)] "thermosteric" demo_T S0) by (apply uf_thermo; reflexivity).
  assert (Hc := fun e => proj1 (demo_column Linear "Linear" "thermosteric" "local" r T0 S0 V0 rho0 volo masso rhoga e demo_T S0 Hm Hv E Er H1 H2 Hu eq_refl)).
  assert (Hloc : "local" <> "global") by discriminate. assert (Htz : "time" <> "z_l") by discriminate.
  assert (Hz : ~ In "z_l" (names demo_D)) by (cbn; intuition discriminate).
  destruct (C33_local _ _ _ _ _ _ _ _ _ _ _ demo Linear "time" "z_l" "z_i" demo_T S0 V0 rho0 demo_zl demo_zi demo_D "z_i" 2 demo_p demo_w (fun _ => O)
    Er Hloc eq_refl eq_refl Hm demo_wf Htz Hu eq_refl eq_refl eq_refl eq_refl eq_refl Hz (Hc _) eq_refl) as (sea & Hs & V).
  destruct (C34_land_mask _ _ _ _ _ _ _ _ _ _ _ _ demo Linear "time" "z_l" "z_i" demo_T S0 V0 rho0 demo_zl demo_zi demo_D "z_i" 2 demo_p demo_w
    (fun d => if String.eqb d "time" then 1%nat else if String.eqb d "xh" then 1%nat else O)
    Er Hloc eq_refl eq_refl Hm demo_wf Hu eq_refl eq_refl eq_refl eq_refl eq_refl Hz (Hc _)) as (sea1 & Hs1 & V1 & _).
  destruct (C34_land_mask _ _ _ _ _ _ _ _ _ _ _ _ demo Linear "time" "z_l" "z_i" demo_T S0 V0 rho0 demo_zl demo_zi demo_D "z_i" 2 demo_p demo_w
    (fun d => if String.eqb d "time" then 1%nat else O)
    Er Hloc eq_refl eq_refl Hm demo_wf Hu eq_refl eq_refl eq_refl eq_refl eq_refl Hz (Hc _)) as (sea2 & Hs2 & V2 & _).
  rewrite Hs in Hs1, Hs2. injection Hs1 as <-. injection Hs2 as <-.
  exists r. eexists. exists sea. split; [exact Er|]. split; [exact Hs|]. split; [rewrite V, H3; reflexivity|].
  rewrite V1, V2, !H3. split; [reflexivity|discriminate].
Qed.

(** ** C35: Linear equation of state *)
Theorem C35_linear_additive : forall d ref cn vm rhozero patm eos domain strict r1 r2 r3 ds d0 patm0 eos0 cn0 k0 t z zb T S T0 S0 vol rho0 zl ifaces depth zi n p w e,
  steric d (Some ref) cn vm rhozero patm eos "steric" domain strict = Ok (r1, ref) ->
  thermosteric d (Some ref) cn vm rhozero patm eos domain strict = Ok (r2, ref) ->
  halosteric d (Some ref) cn vm rhozero patm eos domain strict = Ok (r3, ref) ->
  setup_reference_state d0 patm0 eos0 cn0 k0 = Ok ref -> same_name eos0 "linear" ->
  domain <> "global" -> ds_rename vm d = Ok ds -> default_coords cn = (t, z, zb) -> same_name eos "linear" -> wf_ds ds ->
  dget "thetao" ds = Some T -> dget "so" ds = Some S -> dget "thetao" ref = Some T0 -> dget "so" ref = Some S0 ->
  dget "volcello" ref = Some vol -> dget "rho" ref = Some rho0 -> ds_get z ds = Ok zl ->
  dget zb ds = Some ifaces -> dget "deptho" ds = Some depth -> ~ In z (names depth) ->
  column_ok Linear z zi n T S rho0 depth zl patm ifaces p w e ->
  (forall k, (k < n)%nat -> let ek := upd e z k in
     (is_fin (at_ T0 ek) = true /\ is_fin (at_ S0 ek) = true /\ is_fin (at_ T ek) = true /\ is_fin (at_ S ek) = true) \/
     (at_ T ek = NaN /\ at_ S ek = NaN) \/ (at_ T0 ek = NaN /\ at_ S0 ek = NaN)) ->
  (forall k s, (k < n)%nat -> at_ T0 (upd e z k) <> Inf s /\ at_ S0 (upd e z k) <> Inf s) ->
  exists s1 s2 s3, dget "steric" r1 = Some s1 /\ dget "thermosteric" r2 = Some s2 /\ dget "halosteric" r3 = Some s3 /\
    at_ s1 e = fadd (at_ s2 e) (at_ s3 e).
Proof. exact linear_additive. Qed.
Print Assumptions C35_linear_additive.

Example C35_demo : exists r1 r2 r3 ref s1 s2 s3,
  steric demo (Some ref) None None 1035 (scalar (Fin 101325)) "Linear" "steric" "local" true = Ok (r1, ref) /\
  thermosteric demo (Some ref) None None 1035 (scalar (Fin 101325)) "Linear" "local" true = Ok (r2, ref) /\
  halosteric demo (Some ref) None None 1035 (scalar (Fin 101325)) "Linear" "local" true = Ok (r3, ref) /\
  dget "steric" r1 = Some s1 /\ dget "thermosteric" r2 = Some s2 /\ dget "halosteric" r3 = Some s3 /\
  let e := fun d => if String.eqb d "time" then 1%nat else 0%nat in at_ s1 e = fadd (at_ s2 e) (at_ s3 e).
Proof.
  assert (RU : forall v r ref, steric demo None None None 1035 (scalar (Fin 101325)) "Linear" v "local" true = Ok (r, ref) ->
     steric demo (Some ref) None None 1035 (scalar (Fin 101325)) "Linear" v "local" true = Ok (r, ref)).
  { intros v r ref H. exact (proj2 (proj1 (reference_reuse _ _ _ _ _ _ _ _ _ _ _) H)). }
  destruct (demo_facts "steric" "local") as (r1 & ref & T0 & S0 & V0 & rho0 & volo & rhoga & E & Er & G1 & G2 & G3 & G4 & G5 & G6 & G7
    & D1 & D2 & D3 & H1 & H2 & H3 & H4 & H5 & H6); [cbn; tauto|].
  destruct (demo_facts "thermosteric" "local") as (r2 & ref2 & _ & _ & _ & _ & _ & _ & E2 & Er2 & _); [cbn; tauto|].
  destruct (demo_facts "halosteric" "local") as (r3 & ref3 & _ & _ & _ & _ & _ & _ & E3 & Er3 & _); [cbn; tauto|].
  rewrite E in E2, E3. injection E2 as <-. injection E3 as <-.
  apply RU in Er. apply RU in Er2. apply RU in Er3.
  assert (Hm : same_name "Linear" "linear") by (apply same_name_lower; reflexivity).
  set (e := fun d => if String.eqb d "time" then 1%nat else 0%nat).
  destruct (C35_linear_additive demo ref None None 1035 (scalar (Fin 101325)) "Linear" "local" true r1 r2 r3 demo demo (scalar (Fin 101325)) "Linear" None 0
    "time" "z_l" "z_i" demo_T demo_S T0 S0 V0 rho0 demo_zl demo_zi demo_D "z_i" 2 demo_p demo_w e) as (s1 & s2 & s3 & A1 & A2 & A3 & A4);
    try assumption; try reflexivity; try discriminate; try exact demo_wf.
  - cbn; intuition discriminate.
  - split; [reflexivity|]. split; [reflexivity|].
    split; [intros k _; reflexivity|]. split; [intros k _; unfold demo_w; rewrite S_INR; lra|].
    split; [intros s; discriminate|]. intros k Hk. cbv zeta. split; [intros s; discriminate|].
    split; [intros s; discriminate|]. split; [intros s; rewrite H4; discriminate|]. split; [|intros; exact I].
    exists (1000 + 2000 * INR k), 101325. repeat split.
  - intros k Hk. left. cbv zeta. rewrite H1, H2. repeat split.
  - intros k s _. rewrite H1, H2. split; discriminate.
  - exists r1, r2, r3, ref, s1, s2, s3. repeat (split; [assumption|]). exact A4.
Qed.

(** ** C36: sign of the response.  [built_from] is the reference state of a dataset [d0]
    on the same vertical grid. *)
Definition local_column (d : dataset) (reference : option dataset) (cn vm : option (dict string)) (rhozero : R) (patm : arr) (eos variant domain : string)
  (strict : bool) (res ref ds : dataset) (m : eos_module) (T S T0 S0 : arr) (z : string) (n : nat) (p w : nat -> R) (e : index) : Prop :=
  steric d reference cn vm rhozero patm eos variant domain strict = Ok (res, ref) /\ domain <> "global" /\ 0 < rhozero /\
  ds_rename vm d = Ok ds /\ same_name eos (module_name m) /\ wf_ds ds /\ uses_fields ds ref variant T S /\
  dget "thetao" ref = Some T0 /\ dget "so" ref = Some S0 /\
  (exists d0 k0, setup_reference_state d0 patm eos cn k0 = Ok ref /\ ds_get z d0 = ds_get z ds) /\
  (exists t zb vol rho0 zl ifaces depth zi, default_coords cn = (t, z, zb) /\
    dget "volcello" ref = Some vol /\ dget "rho" ref = Some rho0 /\ ds_get z ds = Ok zl /\
    dget zb ds = Some ifaces /\ dget "deptho" ds = Some depth /\ ~ In z (names depth) /\
    column_ok m z zi n T S rho0 depth zl patm ifaces p w e) /\
  (forall k s, (k < n)%nat -> at_ T0 (upd e z k) <> Inf s /\ at_ S0 (upd e z k) <> Inf s).

Lemma column_sign d reference cn vm rhozero patm eos variant domain strict res ref ds m T S T0 S0 z n p w e :
  local_column d reference cn vm rhozero patm eos variant domain strict res ref ds m T S T0 S0 z n p w e ->
  (forall k x y x0 y0, (k < n)%nat -> at_ T (upd e z k) = Fin x -> at_ S (upd e z k) = Fin y ->
     at_ T0 (upd e z k) = Fin x0 -> at_ S0 (upd e z k) = Fin y0 ->
     eos_defined m x0 y0 (p k) /\ eos_rho m x y (p k) <= eos_rho m x0 y0 (p k)) ->
  exists sea, dget variant res = Some sea /\ (at_ sea e = NaN \/ exists h, at_ sea e = Fin h /\ 0 <= h).
Proof.
  intros (H1 & H2 & H3 & H4 & H5 & H6 & H7 & H8 & H9 & (d0 & k0 & H10 & H11) & (t & zb & vol & rho0 & zl & ifaces & depth & zi & G1 & G2 & G3 & G4 & G5 & G6 & G7 & G8) & H12) Hmono.
  apply (sign_response d reference cn vm rhozero patm eos variant domain strict res ref ds d0 k0 m t z zb T S T0 S0 vol rho0 zl ifaces depth zi n p w e); assumption.
Qed.

(** Warming, Linear: any values. *)
Theorem C36_warming_linear : forall d reference cn vm rhozero patm eos domain strict res ref ds T S T0 S0 z n p w e,
  local_column d reference cn vm rhozero patm eos "thermosteric" domain strict res ref ds Linear T S T0 S0 z n p w e ->
  (forall k x x0, (k < n)%nat -> at_ T (upd e z k) = Fin x -> at_ T0 (upd e z k) = Fin x0 -> x0 <= x) ->
  exists sea, dget "thermosteric" res = Some sea /\ (at_ sea e = NaN \/ exists h, at_ sea e = Fin h /\ 0 <= h).
Proof.
  intros d reference cn vm rhozero patm eos domain strict res ref ds T S T0 S0 z n p w e H HT. apply (column_sign d reference cn vm rhozero patm eos _ domain strict res ref ds _ T S T0 S0 z n p w e H).
  intros k x y x0 y0 Hk A B C D. split; [exact I|].
  destruct H as (_ & _ & _ & _ & _ & _ & Hu & _ & H9 & _). inversion Hu; subst. rewrite H9 in H0. injection H0 as <-.
  rewrite B in D. injection D as <-. specialize (HT k x x0 Hk A C). cbn. unfold lin_rho. lra.
Qed.
Print Assumptions C36_warming_linear.

(** Warming, Wright: temperatures above the temperature of maximum density (warm_box). *)
Theorem C36_warming_wright : forall d reference cn vm rhozero patm eos domain strict res ref ds T S T0 S0 z n p w e,
  local_column d reference cn vm rhozero patm eos "thermosteric" domain strict res ref ds Wright T S T0 S0 z n p w e ->
  (forall k x y x0, (k < n)%nat -> at_ T (upd e z k) = Fin x -> at_ S (upd e z k) = Fin y -> at_ T0 (upd e z k) = Fin x0 ->
     warm_box x y (p k) /\ warm_box x0 y (p k) /\ x0 <= x) ->
  exists sea, dget "thermosteric" res = Some sea /\ (at_ sea e = NaN \/ exists h, at_ sea e = Fin h /\ 0 <= h).
Proof.
  intros d reference cn vm rhozero patm eos domain strict res ref ds T S T0 S0 z n p w e H HT. apply (column_sign d reference cn vm rhozero patm eos _ domain strict res ref ds _ T S T0 S0 z n p w e H).
  intros k x y x0 y0 Hk A B C D.
  destruct H as (_ & _ & _ & _ & _ & _ & Hu & _ & H9 & _). inversion Hu; subst. rewrite H9 in H0. injection H0 as <-.
  rewrite B in D. injection D as <-. destruct (HT k x y x0 Hk A B C) as (W1 & W2 & Hle). cbn. split.
  - apply Rgt_not_eq. apply denom_pos. apply W2.
  - destruct Hle as [Hlt| ->]; [|lra]. left. apply rho_decreasing_T; assumption.
Qed.
Print Assumptions C36_warming_wright.

(** Freshening, Linear: any values. *)
Theorem C36_freshening_linear : forall d reference cn vm rhozero patm eos domain strict res ref ds T S T0 S0 z n p w e,
  local_column d reference cn vm rhozero patm eos "halosteric" domain strict res ref ds Linear T S T0 S0 z n p w e ->
  (forall k x x0, (k < n)%nat -> at_ S (upd e z k) = Fin x -> at_ S0 (upd e z k) = Fin x0 -> x <= x0) ->
  exists sea, dget "halosteric" res = Some sea /\ (at_ sea e = NaN \/ exists h, at_ sea e = Fin h /\ 0 <= h).
Proof.
  intros d reference cn vm rhozero patm eos domain strict res ref ds T S T0 S0 z n p w e H HS. apply (column_sign d reference cn vm rhozero patm eos _ domain strict res ref ds _ T S T0 S0 z n p w e H).
  intros k x y x0 y0 Hk A B C D. split; [exact I|].
  destruct H as (_ & _ & _ & _ & _ & _ & Hu & H8 & _ & _). inversion Hu; subst. rewrite H8 in H. injection H as <-.
  rewrite A in C. injection C as <-. specialize (HS k y y0 Hk B D). cbn. unfold lin_rho. lra.
Qed.
Print Assumptions C36_freshening_linear.

(** Freshening, Wright: inside the ocean box. *)
Theorem C36_freshening_wright : forall d reference cn vm rhozero patm eos domain strict res ref ds T S T0 S0 z n p w e,
  local_column d reference cn vm rhozero patm eos "halosteric" domain strict res ref ds Wright T S T0 S0 z n p w e ->
  (forall k x y y0, (k < n)%nat -> at_ T (upd e z k) = Fin x -> at_ S (upd e z k) = Fin y -> at_ S0 (upd e z k) = Fin y0 ->
     ocean_box x y (p k) /\ ocean_box x y0 (p k) /\ y <= y0) ->
  exists sea, dget "halosteric" res = Some sea /\ (at_ sea e = NaN \/ exists h, at_ sea e = Fin h /\ 0 <= h).
Proof.
  intros d reference cn vm rhozero patm eos domain strict res ref ds T S T0 S0 z n p w e H HS. apply (column_sign d reference cn vm rhozero patm eos _ domain strict res ref ds _ T S T0 S0 z n p w e H).
  intros k x y x0 y0 Hk A B C D.
  destruct H as (_ & _ & _ & _ & _ & _ & Hu & H8 & _ & _). inversion Hu; subst. rewrite H8 in H. injection H as <-.
  rewrite A in C. injection C as <-. destruct (HS k x y y0 Hk A B D) as (W1 & W2 & Hle). cbn. split.
  - apply Rgt_not_eq. apply denom_pos. exact W2.
  - destruct Hle as [Hlt| ->]; [|lra]. left. apply rho_increasing_S; assumption.
Qed.
Print Assumptions C36_freshening_wright.

(** The demo dataset meets the hypotheses. *)
Example C36_demo : exists r ref T0 S0,
  local_column demo None None None 1035 (scalar (Fin 101325)) "Linear" "thermosteric" "local" true r ref demo Linear
    demo_T S0 T0 S0 "z_l" 2 demo_p demo_w (fun d => if String.eqb d "time" then 1%nat else 0%nat) /\
  exists sea h, dget "thermosteric" r = Some sea /\ at_ sea (fun d => if String.eqb d "time" then 1%nat else 0%nat) = Fin h /\ 0 < h.
Proof.
  destruct (demo_facts "thermosteric" "local") as (r & ref & T0 & S0 & V0 & rho0 & volo & rhoga & E & Er & G1 & G2 & G3 & G4 & G5 & G6 & G7
    & D1 & D2 & D3 & H1 & H2 & H3 & H4 & H5 & H6); [cbn; tauto|].
  exists r, ref, T0, S0. split.
  - split; [exact Er|]. split; [discriminate|]. split; [lra|]. split; [reflexivity|].
    split; [apply same_name_lower; reflexivity|]. split; [exact demo_wf|]. split; [apply uf_thermo; [reflexivity|exact G2]|].
    split; [exact G1|]. split; [exact G2|]. split; [exists demo, 0%Z; split; [exact E|reflexivity]|]. split.
    + exists "time", "z_i", V0, rho0, demo_zl, demo_zi, demo_D, "z_i". repeat (split; [reflexivity || assumption|]).
      split; [cbn; intuition discriminate|]. split; [reflexivity|]. split; [reflexivity|].
      split; [intros k _; reflexivity|]. split; [intros k _; unfold demo_w; rewrite S_INR; lra|].
      split; [intros s; discriminate|]. intros k Hk. cbv zeta. split; [intros s; discriminate|].
      split; [intros s; rewrite H2; discriminate|]. split; [intros s; rewrite H4; discriminate|]. split; [|intros; exact I].
      exists (1000 + 2000 * INR k), 101325. repeat split.
    + intros k s _. rewrite H1, H2. split; discriminate.
  - destruct demo_thermosteric as (r' & ref' & sea & Er' & Hs & Hv & _). rewrite Er in Er'. injection Er' as <- <-.
    exists sea, (600 / 1035). split; [exact Hs|]. split; [exact Hv|lra].
Qed.

(** Wright's equation: the second month is one degree warmer and one unit fresher. *)
Example C36_fresh : forall variant, variant = "thermosteric" \/ variant = "halosteric" ->
  exists r ref T S T0 S0, let e := fun d => if String.eqb d "time" then 1%nat else 0%nat in
  local_column fresh None None None 1035 (scalar (Fin 101325)) "Wright" variant "local" true r ref fresh Wright T S T0 S0 "z_l" 2 demo_p demo_w e /\
  (forall k, at_ T0 (upd e "z_l" k) = Fin 10 /\ at_ S0 (upd e "z_l" k) = Fin 35) /\
  (variant = "thermosteric" -> forall k, at_ T (upd e "z_l" k) = Fin 11) /\ (variant = "halosteric" -> forall k, at_ S (upd e "z_l" k) = Fin 34) /\
  exists sea, dget variant r = Some sea /\ (at_ sea e = NaN \/ exists h, at_ sea e = Fin h /\ 0 <= h).
Proof.
  intros variant Hv.
  destruct (fresh_facts variant ltac:(destruct Hv; subst; cbn; tauto)) as (r & ref & T0 & S0 & V0 & rho0 & E & Er & G1 & G2 & G3 & G4 & H1 & H2 & H3).
  set (e := fun d => if String.eqb d "time" then 1%nat else 0%nat).
  assert (H11 : INR 1 = 1) by reflexivity.
  assert (B : forall k t s, (k < 2)%nat -> 10 <= t <= 11 -> 34 <= s <= 35 -> warm_box t s (demo_p k)).
  { intros k t s Hk Ht Hs. unfold warm_box, ocean_box, demo_p. destruct k as [|[|k]]; [cbn; lra|cbn; lra|lia]. }
  assert (O : forall k t s, (k < 2)%nat -> 10 <= t <= 11 -> 34 <= s <= 35 -> ocean_box t s (demo_p k)).
  { intros k t s Hk Ht Hs. unfold ocean_box, demo_p. destruct k as [|[|k]]; [cbn; lra|cbn; lra|lia]. }
  assert (LC : forall T S, uses_fields fresh ref variant T S ->
     (forall k, at_ T (upd e "z_l" k) = Fin 11 \/ at_ T (upd e "z_l" k) = Fin 10) -> (forall k, at_ S (upd e "z_l" k) = Fin 34 \/ at_ S (upd e "z_l" k) = Fin 35) ->
     local_column fresh None None None 1035 (scalar (Fin 101325)) "Wright" variant "local" true r ref fresh Wright T S T0 S0 "z_l" 2 demo_p demo_w e).
  { intros T S Hu HT HS. split; [exact Er|]. split; [discriminate|]. split; [lra|]. split; [reflexivity|].
    split; [apply same_name_lower; reflexivity|]. split; [exact fresh_wf|]. split; [exact Hu|].
    split; [exact G1|]. split; [exact G2|]. split; [exists fresh, 0%Z; split; [exact E|reflexivity]|]. split.
    + exists "time", "z_i", V0, rho0, demo_zl, demo_zi, demo_D, "z_i". repeat (split; [reflexivity || assumption|]).
      split; [cbn; intuition discriminate|]. split; [reflexivity|]. split; [reflexivity|].
      split; [intros k _; reflexivity|]. split; [intros k _; unfold demo_w; rewrite S_INR; lra|].
      split; [intros s; discriminate|]. intros k Hk. cbv zeta.
      split; [intros s; destruct (HT k) as [-> | ->]; discriminate|]. split; [intros s; destruct (HS k) as [-> | ->]; discriminate|].
      split; [intros s; destruct (H3 e k Hk) as [x ->]; discriminate|]. split.
      * exists (1000 + 2000 * INR k), 101325. repeat split.
      * intros t s Et Es. cbn [eos_defined]. apply Rgt_not_eq, denom_pos, O; [exact Hk| |];
          [destruct (HT k) as [Q|Q]|destruct (HS k) as [Q|Q]]; (rewrite Et in Q || rewrite Es in Q); injection Q as ->; lra.
    + intros k s _. rewrite H1, H2. split; discriminate. }
  assert (FT : forall k, at_ demo_T (upd e "z_l" k) = Fin 11) by (intros k; cbn; f_equal; lra).
  assert (FS : forall k, at_ fresh_S (upd e "z_l" k) = Fin 34) by (intros k; cbn; f_equal; lra).
  destruct Hv as [-> | ->].
  - assert (L := LC demo_T S0 (uf_thermo fresh ref demo_T S0 eq_refl G2) (fun k => or_introl (FT k)) (fun k => or_intror (H2 _))).
    exists r, ref, demo_T, S0, T0, S0. split; [exact L|]. split; [intros k; split; [apply H1|apply H2]|]. split; [intros _; exact FT|].
    split; [discriminate|].
    apply (C36_warming_wright _ _ _ _ _ _ _ _ _ _ _ _ _ _ _ _ _ _ _ _ _ L). intros k x y x0 Hk Hx Hy Hx0.
    rewrite FT in Hx. rewrite H2 in Hy. rewrite H1 in Hx0. injection Hx as <-. injection Hy as <-. injection Hx0 as <-.
    split; [apply B; [exact Hk|lra|lra]|]. split; [apply B; [exact Hk|lra|lra]|lra].
  - assert (L := LC T0 fresh_S (uf_halo fresh ref T0 fresh_S G1 eq_refl) (fun k => or_intror (H1 _)) (fun k => or_introl (FS k))).
    exists r, ref, T0, fresh_S, T0, S0. split; [exact L|]. split; [intros k; split; [apply H1|apply H2]|]. split; [discriminate|].
    split; [intros _; exact FS|].
    apply (C36_freshening_wright _ _ _ _ _ _ _ _ _ _ _ _ _ _ _ _ _ _ _ _ _ L). intros k x y y0 Hk Hx Hy Hy0.
    rewrite FS in Hy. rewrite H2 in Hy0. rewrite H1 in Hx. injection Hx as <-. injection Hy as <-. injection Hy0 as <-.
    split; [apply O; [exact Hk|lra|lra]|]. split; [apply O; [exact Hk|lra|lra]|lra].
Qed.

(** ** C37: global steric height *)
Theorem C37_global_formula : forall d reference cn vm rhozero patm eos variant strict res ref ds m t z zb T S vol volo rhoga area zl p e V g,
  steric d reference cn vm rhozero patm eos variant "global" strict = Ok (res, ref) ->
  ds_rename vm d = Ok ds -> default_coords cn = (t, z, zb) -> same_name eos (module_name m) ->
  uses_fields ds ref variant T S -> ds_get z ds = Ok zl ->
  dget "volcello" ref = Some vol -> dget "volo" ref = Some volo -> dget "rhoga" ref = Some rhoga -> dget "areacello" ref = Some area ->
  NoDup (names vol) -> ~ In t (names vol) -> field_ok m T S vol zl patm p ->
  same_grid t vol T -> same_grid t vol S -> same_grid t vol zl -> same_grid t vol patm ->
  NoDup (names area) -> no_inf area ->
  at_ volo e = Fin V -> at_ rhoga e = Fin g -> 0 < V / total_area area e -> 0 < g -> 0 < total_mass m T S vol p e / V ->
  let M := total_mass m T S vol p e in
  exists h sea x, dget "reference_height" res = Some h /\ dget variant res = Some sea /\
    at_ h e = Fin (V / total_area area e) /\
    at_ sea e = Fin x /\ x = V / total_area area e * ln (g / (M / V)) /\
    (0 < x <-> M / V < g) /\ (x = 0 <-> M / V = g).
Proof.
  intros d reference cn vm rhozero patm eos variant strict res ref ds m t z zb T S vol volo rhoga area zl p e V g
   H1 H2 H3 H4 H5 H6 H7 H8 H9 H10 H11 H12 H13 H14 H15 H16 H17 H18 H19 H20 H21 HA Hg HM M.
  assert (V0 : V <> 0) by (intros ->; unfold Rdiv in HA; rewrite Rmult_0_l in HA; lra).
  assert (A0 : total_area area e <> 0).
  { intros E. rewrite E in HA. unfold Rdiv in HA. rewrite Rinv_0, Rmult_0_r in HA. lra. }
  assert (M0 : M <> 0) by (intros E; unfold M in E; rewrite E in HM; unfold Rdiv in HM; rewrite Rmult_0_l in HM; lra).
  assert (HR : 0 < g / (M / V)) by (apply Rdiv_lt_0_compat; assumption).
  destruct (global_formula d reference cn vm rhozero patm eos variant strict res ref ds m t z zb T S vol volo rhoga area zl p e V g
    H1 H2 H3 H4 H5 H6 H7 H8 H9 H10 H11 H12 H13 H14 H15 H16 H17 H18 H19 H20 H21 V0 A0 HR M0)
    as (h & sea & E1 & E2 & E3 & E4).
  exists h, sea, (V / total_area area e * ln (g / (M / V))). repeat (split; [assumption || reflexivity|]).
  exact (global_sign V (total_area area e) g M HA Hg HM).
Qed.
Print Assumptions C37_global_formula.

(** The mean density falls from 1026 to 1025.8. *)
Example C37_demo : exists r ref sea,
  steric demo None None None 1035 (scalar (Fin 101325)) "Linear" "steric" "global" true = Ok (r, ref) /\
  dget "steric" r = Some sea /\
  at_ sea (fun d => if String.eqb d "time" then 1%nat else 0%nat) = Fin (4000 / 361110920000000 * ln (1026 / 1025.8)).
Proof. exact demo_global. Qed.

(** ** C38: variants *)
Theorem C38_unknown_variant : forall d reference cn vm rhozero patm eos variant variant' domain strict,
  is_ok (steric d reference cn vm rhozero patm eos variant domain strict) = true ->
  ~ In variant' ["steric"; "thermosteric"; "halosteric"] ->
  steric d reference cn vm rhozero patm eos variant' domain strict = Err ValueError.
Proof. exact unknown_variant. Qed.
Print Assumptions C38_unknown_variant.

(** Thermosteric ignores salinity after the reference time (everywhere, with a given
    reference), halosteric ignores temperature. *)
Theorem C38_independent : forall v variant d d' reference cn vm rhozero patm eos domain strict ds ds' a a' t z zb,
  (v = "so" /\ variant = "thermosteric" \/ v = "thetao" /\ variant = "halosteric") ->
  ds_rename vm d = Ok ds -> ds_rename vm d' = Ok ds' -> differ_in v ds ds' a a' ->
  default_coords cn = (t, z, zb) -> z <> v -> zb <> v ->
  (reference = None -> forall e, at_ a' (upd e t 0) = at_ a (upd e t 0)) ->
  steric d' reference cn vm rhozero patm eos variant domain strict = steric d reference cn vm rhozero patm eos variant domain strict.
Proof. exact variant_independent. Qed.
Print Assumptions C38_independent.

(** The dataset with a salinity change after the first month. *)
Definition salty : dataset := dset "so" (mkArr d4 (fun e => Fin (35 + INR (e "time")))) demo.
Example C38_salty : forall rhozero eos domain strict,
  steric salty None None None rhozero (scalar (Fin 101325)) eos "thermosteric" domain strict =
  steric demo None None None rhozero (scalar (Fin 101325)) eos "thermosteric" domain strict.
Proof.
  intros. apply (C38_independent "so" "thermosteric" demo salty None None None rhozero (scalar (Fin 101325)) eos domain strict demo salty
    demo_S (mkArr d4 (fun e => Fin (35 + INR (e "time")))) "time" "z_l" "z_i"); try reflexivity; try discriminate.
  - left. split; reflexivity.
  - repeat split; try reflexivity.
    intros k Hk. unfold salty, demo. cbn. destruct (String.eqb k "thetao"); [reflexivity|].
    destruct (String.eqb k "so") eqn:E; [apply String.eqb_eq in E; contradiction|reflexivity].
  - intros _ e. cbn. f_equal. lra.
Qed.

(** ** C39: the domain argument.  Refuted: any string other than "global" means "local". *)
Theorem C39_refuted :
  (forall d reference cn vm rhozero patm eos variant domain strict, domain <> "global" ->
    steric d reference cn vm rhozero patm eos variant domain strict =
    steric d reference cn vm rhozero patm eos variant "local" strict) /\
  exists r ref, steric demo None None None 1035 (scalar (Fin 101325)) "Wright" "steric" "regional" true = Ok (r, ref).
Proof.
  split; [exact other_domain_is_local|].
  assert (Hm : same_name "Wright" (module_name Wright)) by (apply same_name_lower; reflexivity).
  assert (Hv : In "steric" ["steric"; "thermosteric"; "halosteric"]) by (cbn; tauto).
  destruct (demo_ok Wright "Wright" "steric" "regional" Hm Hv) as (r & T0 & S0 & V0 & rho0 & volo & masso & rhoga & E & Er & _).
  eexists r, _. exact Er.
Qed.
Print Assumptions C39_refuted.

(** ** C40: re-using the reference *)
Theorem C40_reuse : forall d cn vm rhozero patm eos variant domain strict res ref,
  steric d None cn vm rhozero patm eos variant domain strict = Ok (res, ref) ->
  steric d (Some ref) cn vm rhozero patm eos variant domain strict = Ok (res, ref).
Proof. intros. apply (proj1 (reference_reuse _ _ _ _ _ _ _ _ _ _ _)). assumption. Qed.
Print Assumptions C40_reuse.

Theorem C40_default_reference : forall d cn vm rhozero patm eos variant domain strict ds ref res,
  ds_rename vm d = Ok ds -> setup_reference_state ds patm eos cn 0 = Ok ref ->
  steric d (Some ref) cn vm rhozero patm eos variant domain strict = Ok (res, ref) ->
  steric d None cn vm rhozero patm eos variant domain strict = Ok (res, ref).
Proof. intros. apply reference_reuse. split; [exists ds; split; assumption|assumption]. Qed.
Print Assumptions C40_default_reference.

Example C40_demo : exists r ref,
  steric demo None None None 1035 (scalar (Fin 101325)) "Wright" "halosteric" "local" true = Ok (r, ref) /\
  steric demo (Some ref) None None 1035 (scalar (Fin 101325)) "Wright" "halosteric" "local" true = Ok (r, ref).
Proof.
  assert (Hm : same_name "Wright" (module_name Wright)) by (apply same_name_lower; reflexivity).
  assert (Hv : In "halosteric" ["steric"; "thermosteric"; "halosteric"]) by (cbn; tauto).
  destruct (demo_ok Wright "Wright" "halosteric" "local" Hm Hv) as (r & T0 & S0 & V0 & rho0 & volo & masso & rhoga & E & Er & _).
  eexists r, _. split; [exact Er|]. apply C40_reuse. exact Er.
Qed.

(** ** C41: cell area check *)
Theorem C41_open_interval : forall area r tol, 0 < r -> NoDup (names area) -> no_inf area ->
  validate_areacello area (Fin r) (Fin tol) = true <->
  r - tol * r < Rsum_box (adims area) (fun e => match at_ area e with Fin x => x | _ => 0 end) (fun _ => O) < r + tol * r.
Proof.
  intros area r tol Hr Hn Hi. rewrite (area_interval area r tol Hr Hn Hi). unfold area_in_range, total_area.
  rewrite (Rsum_box_ext (adims area) (fun e => match at_ area e with Fin x => x | _ => 0 end) (fun e' => odef (opt (at_ area e'))));
    [reflexivity|]. intros e. destruct (at_ area e); reflexivity.
Qed.
Print Assumptions C41_open_interval.

(** The end points are excluded. *)
Example C41_boundary : validate_areacello (mkArr [("x", 2%nat)] (fun e => if Nat.eqb (e "x") 0 then Fin 102 else NaN)) (Fin 100) (Fin (2/100)) = false
  /\ validate_areacello (mkArr [("x", 2%nat)] (fun e => if Nat.eqb (e "x") 0 then Fin 101 else NaN)) (Fin 100) (Fin (2/100)) = true.
Proof.
  assert (Hi : forall v, no_inf (mkArr [("x", 2%nat)] (fun e => if Nat.eqb (e "x") 0 then Fin v else NaN))).
  { intros v e s. cbn. destruct (Nat.eqb (e "x") 0); discriminate. }
  split.
  - match goal with |- ?b = false => destruct b eqn:E; [|reflexivity] end. exfalso.
    apply C41_open_interval in E; [|lra|nodup|apply Hi]. cbn in E. lra.
  - apply C41_open_interval; [lra|nodup|apply Hi|]. cbn. lra.
Qed.

(** ** C42: decision rule of validate_dataset *)
Theorem C42_decision : forall ds reference strict extra,
  (validate_dataset ds reference strict extra = Ok tt <->
   (forall v, required reference extra v -> exists a, dget v ds = Some a) /\
   (forall v a n, rank_rule reference v n -> dget v ds = Some a -> List.length (adims a) = n) /\
   (strict = true -> forall a, dget "areacello" ds = Some a -> validate_areacello a (Fin 361110920000000%R) (Fin (2 / 100)%R) = true)) /\
  (validate_dataset ds reference strict extra = Ok tt \/ validate_dataset ds reference strict extra = Err ValueError).
Proof. exact validate_iff. Qed.
Print Assumptions C42_decision.

(** Every failed check is reported, and nothing else. *)
Theorem C42_reports : forall ds reference strict extra,
  let errs := validate_errors ds reference strict extra in
  (forall v, In (BadRank v) errs <-> wrong_rank ds reference v) /\
  (In BadArea errs <-> strict = true /\ exists a, dget "areacello" ds = Some a /\ validate_areacello a (Fin 361110920000000%R) (Fin (2 / 100)%R) = false) /\
  (forall v, (exists l, In (Missing l) errs /\ In v l) <-> misses ds reference extra v).
Proof.
  intros ds reference strict extra errs. split; [|split].
  - intros v. apply (errors_iff ds reference strict extra (BadRank v)).
  - apply (errors_iff ds reference strict extra BadArea).
  - intros v. split.
    + intros (l & H & Hv). apply (errors_iff ds reference strict extra (Missing l)) in H as (_ & H & _). apply H, Hv.
    + intros Hv. set (ms := filter (fun x => negb (dmem x ds))
       (["thetao"; "so"; "volcello"; "areacello"] ++ extra ++ (if reference then ["rho"; "volo"; "masso"; "rhoga"] else []))%list).
      assert (Hms : forall v, In v ms <-> misses ds reference extra v).
      { intros w. unfold ms, misses. rewrite filter_In, required_iff, negb_true_iff. unfold dmem.
        destruct (dget w ds); split; intros [A B]; split; auto; discriminate. }
      exists ms. split; [|apply Hms, Hv]. apply (errors_iff ds reference strict extra (Missing ms)).
      split; [|split; [exact Hms|reflexivity]]. intros E. assert (In v ms) by (apply Hms, Hv). rewrite E in H. exact H.
Qed.
Print Assumptions C42_reports.

Example C42_demo : validate_dataset demo false true ["z_i"; "deptho"] = Ok tt /\ validate_dataset demo true true [] = Err ValueError /\
  In (BadRank "thetao") (validate_errors demo true true []) /\ In (Missing ["rho"; "volo"; "masso"; "rhoga"]) (validate_errors demo true true []).
Proof.
  assert (H3 : In (BadRank "thetao") (validate_errors demo true true [])).
  { apply C42_reports. exists demo_T, 3%nat. split; [reflexivity|]. split; [apply rr_ref; cbn; tauto|]. cbn. discriminate. }
  split; [exact (input_valid _ _ _ _ _ _ _ _ _ _ _ _ _ _ _ _ _ _ demo_regular true (fun _ => demo_area) _ (incl_refl _))|].
  split; [|split; [exact H3|cbn; tauto]]. unfold validate_dataset. destruct (validate_errors demo true true []); [destruct H3|reflexivity].
Qed.

(** ** C43: a reference with a time coordinate.  Refuted: the coordinate is never noticed. *)
Definition demo_ref : dataset :=
  let d3 := [("z_l", 2%nat); ("yh", 2%nat); ("xh", 2%nat)] in
  [("thetao", mkArr d3 (fun _ => Fin 10)); ("so", mkArr d3 (fun _ => Fin 35)); ("volcello", mkArr d3 (fun _ => Fin 1000));
   ("rho", mkArr d3 (fun _ => Fin 1026)); ("volo", scalar (Fin 8000)); ("masso", scalar (Fin 8208000)); ("rhoga", scalar (Fin 1026));
   ("areacello", demo_A); ("time", mkArr [("time", 2%nat)] (fun e => Fin (INR (e "time"))))].

Theorem C43_refuted :
  (forall ds strict extra tc, ~ In "time" extra ->
    validate_dataset (("time", tc) :: ds) true strict extra = validate_dataset (filter (fun p => negb (String.eqb (fst p) "time")) ds) true strict extra) /\
  (exists tc, dget "time" demo_ref = Some tc) /\ validate_dataset demo_ref true true [] = Ok tt.
Proof.
  split; [|split; [eexists; reflexivity|]].
  - intros ds strict extra tc He.
    assert (Hg : forall v, v <> "time" -> dget v (("time", tc) :: ds) = dget v (filter (fun p => negb (String.eqb (fst p) "time")) ds)).
    { intros v Hv. cbn [dget]. destruct (String.eqb v "time") eqn:E; [apply String.eqb_eq in E; contradiction|].
      induction ds as [|[k a] l IH]; [reflexivity|]. cbn [dget filter fst].
      destruct (String.eqb k "time") eqn:Ek; cbn [negb].
      - apply String.eqb_eq in Ek. subst k. rewrite E. exact IH.
      - cbn [dget]. destruct (String.eqb v k); [reflexivity|exact IH]. }
    set (d1 := ("time", tc) :: ds) in *. set (d2 := filter _ ds) in *.
    destruct (validate_iff d1 true strict extra) as [I1 O1]. destruct (validate_iff d2 true strict extra) as [I2 O2].
    assert (Hreq : forall v, required true extra v -> v <> "time").
    { intros v Hv ->. inversion Hv as [w H|w H|w _ H]; subst; [|contradiction|];
        repeat (destruct H as [H|H]; [discriminate H|]); destruct H. }
    assert (Hrank : forall v n, rank_rule true v n -> v <> "time").
    { intros v n Hv ->. inversion Hv as [w H|w H|r w H|w H]; subst; repeat (destruct H as [H|H]; [discriminate H|]); destruct H. }
    assert (Heq : validate_dataset d1 true strict extra = Ok tt <-> validate_dataset d2 true strict extra = Ok tt).
    { rewrite I1, I2. split; intros (A & B & C).
      - split; [|split].
        + intros v Hv. rewrite <- Hg by (apply Hreq, Hv). apply A, Hv.
        + intros v a n Hr. rewrite <- Hg by (apply (Hrank v n), Hr). apply B, Hr.
        + rewrite <- Hg by discriminate. exact C.
      - split; [|split].
        + intros v Hv. rewrite Hg by (apply Hreq, Hv). apply A, Hv.
        + intros v a n Hr. rewrite Hg by (apply (Hrank v n), Hr). apply B, Hr.
        + rewrite Hg by discriminate. exact C. }
    destruct O1 as [O1|O1], O2 as [O2|O2]; rewrite ?O1, ?O2; try reflexivity.
    + apply Heq in O1. congruence.
    + apply Heq in O2. congruence.
  - apply validate_iff. split; [|split].
    + intros v Hv. inversion Hv as [w H|w H|w H1 H]; subst; repeat (destruct H as [<-|H]; [eexists; reflexivity|]); destruct H.
    + intros v a n Hr Hg. inversion Hr as [w H|w H|r w H|w H]; subst;
        repeat (destruct H as [<-|H]; [cbn in Hg; try discriminate Hg; injection Hg as <-; reflexivity|]); destruct H.
    + intros _ a Hg. cbn in Hg. injection Hg as <-. exact demo_area.
Qed.
Print Assumptions C43_refuted.

(** What holds: a reference whose 3-D fields still have their four dimensions is rejected. *)
Theorem C43_partial : forall ds strict extra v a,
  In v ["thetao"; "so"; "volcello"; "rho"] -> dget v ds = Some a -> List.length (adims a) = 4%nat ->
  validate_dataset ds true strict extra = Err ValueError.
Proof.
  intros ds strict extra v a Hv Hg Hl. destruct (validate_iff ds true strict extra) as [I [O|O]]; [|exact O].
  apply I in O as (_ & B & _). specialize (B v a 3%nat (rr_ref v Hv) Hg). congruence.
Qed.
Print Assumptions C43_partial.

Example C43_demo : validate_dataset demo true false [] = Err ValueError.
Proof. apply (C43_partial demo false [] "thetao" demo_T); [left; reflexivity|reflexivity|reflexivity]. Qed.

(** ** C44: strict=False.  Refuted: it only silences the area check. *)
Theorem C44_refuted :
  (forall ds reference extra v, required reference extra v -> dget v ds = None -> validate_dataset ds reference false extra = Err ValueError) /\
  (forall ds reference extra v, wrong_rank ds reference v -> validate_dataset ds reference false extra = Err ValueError).
Proof.
  split.
  - intros ds reference extra v Hr Hg. destruct (validate_iff ds reference false extra) as [I [O|O]]; [|exact O].
    apply I in O as (A & _). destruct (A v Hr) as [a E]. congruence.
  - intros ds reference extra v (a & n & Hg & Hr & Hn). destruct (validate_iff ds reference false extra) as [I [O|O]]; [|exact O].
    apply I in O as (_ & B & _). specialize (B v a n Hr Hg). contradiction.
Qed.
Print Assumptions C44_refuted.

Example C44_empty : validate_dataset [] false false [] = Err ValueError.
Proof. apply (proj1 C44_refuted [] false [] "so"); [apply rq_basic; cbn; tauto|reflexivity]. Qed.

(** What holds: strict=False accepts exactly what strict=True accepts once the area check is disregarded. *)
Theorem C44_partial : forall ds reference extra,
  (validate_dataset ds reference true extra = Ok tt <->
   validate_dataset ds reference false extra = Ok tt /\
   (forall a, dget "areacello" ds = Some a -> validate_areacello a (Fin 361110920000000%R) (Fin (2 / 100)%R) = true)) /\
  ~ In BadArea (validate_errors ds reference false extra).
Proof.
  intros ds reference extra. split.
  - destruct (validate_iff ds reference true extra) as [I1 _]. destruct (validate_iff ds reference false extra) as [I2 _].
    rewrite I1, I2. split.
    + intros (A & B & C). split; [|exact (C eq_refl)]. split; [exact A|]. split; [exact B|discriminate].
    + intros ((A & B & _) & C). split; [exact A|]. split; [exact B|]. intros _. exact C.
  - intros H. apply (errors_iff ds reference false extra BadArea) in H as [H _]. discriminate.
Qed.
Print Assumptions C44_partial.

(** ** C45: coordinate names *)
Theorem C45_default_coords : forall m,
  let '(t, z, zb) := default_coords (Some m) in
  (forall v, dget "t" m = Some v -> t = v) /\ (~ In "t" (dkeys m) -> t = "time") /\
  (forall v, dget "z" m = Some v -> z = v) /\ (~ In "z" (dkeys m) -> z = "z_l") /\
  (forall v, dget "zbounds" m = Some v -> zb = v) /\ (~ In "zbounds" (dkeys m) -> zb = "z_i").
Proof.
  intros m. cbn.
  assert (G : forall k, ~ In k (dkeys m) -> dget k m = None).
  { intros k Hk. destruct (dget k m) eqn:E; [|reflexivity]. exfalso. apply Hk. apply dget_In in E.
    apply (in_map fst) in E. exact E. }
  split; [intros v ->; reflexivity|]. split; [intros Hk; rewrite (G _ Hk); reflexivity|].
  split; [intros v ->; reflexivity|]. split; [intros Hk; rewrite (G _ Hk); reflexivity|].
  split; [intros v ->; reflexivity|]. intros Hk; rewrite (G _ Hk); reflexivity.
Qed.
Print Assumptions C45_default_coords.

Theorem C45_other_keys : forall m m', (forall k, In k ["t"; "z"; "zbounds"] -> dget k m = dget k m') ->
  default_coords (Some m) = default_coords (Some m') /\ default_coords None = ("time", "z_l", "z_i").
Proof.
  intros m m' H. split; [|reflexivity]. unfold default_coords.
  rewrite (H "t"), (H "z"), (H "zbounds") by (cbn; tauto). reflexivity.
Qed.
Print Assumptions C45_other_keys.

Example C45_some_keys : default_coords (Some [("x", "lon"); ("z", "lev")]) = ("time", "lev", "z_i").
Proof. reflexivity. Qed.

(** ** C73: Wright density decreases with temperature above the freezing-side line
    T = 4.4 - 0.22 S *)
Theorem C73_density_decreases : forall T T' S p, warm_box T S p -> warm_box T' S p -> T < T' ->
  exists r r', wright_density (Fin T) (Fin S) (Fin p) = Fin r /\ wright_density (Fin T') (Fin S) (Fin p) = Fin r' /\ r' < r.
Proof.
  intros T T' S p H H' Hlt. assert (D := denom_pos T S p (proj1 H)). assert (D' := denom_pos T' S p (proj1 H')).
  exists (wr_rho T S p), (wr_rho T' S p). split; [apply wright_density_Fin; lra|]. split; [apply wright_density_Fin; lra|].
  apply rho_decreasing_T; assumption.
Qed.
Print Assumptions C73_density_decreases.

Theorem C73_expansion_positive : forall T S p, warm_box T S p ->
  exists d a, wright_drho_dtemp (Fin T) (Fin S) (Fin p) = Fin d /\ d < 0 /\
              wright_alpha (Fin T) (Fin S) (Fin p) = Fin a /\ 0 < a.
Proof.
  intros T S p H. assert (D := denom_pos T S p (proj1 H)). assert (Hn := drho_dT_neg T S p H).
  assert (Hr := rho_bounds T S p (proj1 H)).
  assert (E : wright_density (Fin T) (Fin S) (Fin p) = Fin (wr_rho T S p)) by (apply wright_density_Fin; lra).
  destruct (wright_alpha_beta T S p (wr_rho T S p) E ltac:(lra)) as (dT & dS & H1 & _ & H3 & _).
  exists (wr_drho_dT T S p), (- (1 / wr_rho T S p) * dT).
  split; [apply wright_drho_dtemp_Fin; lra|]. split; [exact Hn|]. split; [exact H3|].
  assert (F : is_fin (wright_density (Fin T) (Fin S) (Fin p)) = true) by (rewrite E; reflexivity).
  destruct (wright_dT T S p F) as (d & Hd & Hd'). rewrite wright_drho_dtemp_Fin in Hd by lra. injection Hd as <-.
  assert (EQ := uniqueness_limite _ _ _ _ H1 Hd'). rewrite EQ.
  assert (0 < 1 / wr_rho T S p) by (apply Rdiv_lt_0_compat; lra). nra.
Qed.
Print Assumptions C73_expansion_positive.

Example C73_surface : warm_box 10 35 101325 /\ warm_box (-2) 35 101325.
Proof. unfold warm_box, ocean_box. lra. Qed.
