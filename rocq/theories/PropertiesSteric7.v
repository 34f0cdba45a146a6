(** * PropertiesSteric7: C123 (the global height and the mean of the local heights) *)
From Coq Require Import Reals Lra Lia List String Bool Arith ZArith.
From Verif Require Import Num NumFacts Py Arr ArrFacts Eos SpecEos Derived SpecDz Dataset SpecSteric
  ProofsEos ProofsEosBox ProofsEosApi ProofsFields ProofsFields2 ProofsDz ProofsBudget ProofsSteric ProofsSteric2 ProofsSteric3
  ProofsThermal ProofsSteric4 ProofsStericOk ProofsSteric5 ProofsStericDemo ProofsStericDemo2 PropertiesSteric PropertiesSteric6.
Import ListNotations.
Local Open Scope string_scope.
Local Open Scope R_scope.

(** Mass of the water in the volumes of time level [i] with the temperature and salinity of
    the given time, each replaced by that of time level [i] if it is held fixed. *)
Definition held (fixed : bool) (t : string) (i : nat) (a : arr) (e : index) : fval := at_ a (if fixed then upd e t i else e).
Definition water_mass (m : eos_module) (dims : list (string * nat)) (fixT fixS : bool) (t : string) (i : nat) (T Sa V : arr) (p : index -> R) (e : index) : R :=
  Rsum_box dims (fun e' => odef (cell_density m (held fixT t i T e') (held fixS t i Sa e') (p e')) * odef (opt (held true t i V e'))) e.
Definition fixes_T (variant : string) : bool := String.eqb variant "halosteric".
Definition fixes_S (variant : string) : bool := String.eqb variant "thermosteric".

(** The logarithmic mean *)
Lemma ln_upper x : 0 < x -> ln x <= x - 1.
Proof.
  intros H. destruct (Req_dec x 1) as [->|N]; [rewrite ln_1; lra|].
  assert (X := exp_ineq1 (x - 1) ltac:(lra)). assert (Y : ln x < ln (exp (x - 1))) by (apply ln_increasing; lra). rewrite ln_exp in Y. lra.
Qed.
Lemma log_mean a b : 0 < a -> 0 < b -> exists r, Rmin a b <= r <= Rmax a b /\ r * (ln a - ln b) = a - b.
Proof.
  assert (G : forall a b, 0 < b -> b < a -> exists r, b <= r <= a /\ r * (ln a - ln b) = a - b).
  { clear a b. intros a b Hb Hab. assert (La : 0 < ln a - ln b) by (assert (X := ln_increasing b a Hb Hab); lra).
    exists ((a - b) / (ln a - ln b)).
    assert (U : ln a - ln b <= a / b - 1).
    { replace (ln a - ln b) with (ln (a / b)); [apply ln_upper, Rdiv_lt_0_compat; lra|].
      unfold Rdiv. rewrite ln_mult, ln_Rinv by (try apply Rinv_0_lt_compat; lra). ring. }
    assert (W : ln b - ln a <= b / a - 1).
    { replace (ln b - ln a) with (ln (b / a)); [apply ln_upper, Rdiv_lt_0_compat; lra|].
      unfold Rdiv. rewrite ln_mult, ln_Rinv by (try apply Rinv_0_lt_compat; lra). ring. }
    assert (U' : b * (ln a - ln b) <= a - b).
    { apply Rmult_le_compat_l with (r := b) in U; [|lra]. replace (b * (a / b - 1)) with (a - b) in U by (field; lra). exact U. }
    assert (W' : a - b <= a * (ln a - ln b)).
    { apply Rmult_le_compat_l with (r := a) in W; [|lra]. replace (a * (b / a - 1)) with (b - a) in W by (field; lra). lra. }
    split; [|field; lra]. split.
    - apply Rmult_le_reg_r with (ln a - ln b); [exact La|]. replace ((a - b) / (ln a - ln b) * (ln a - ln b)) with (a - b) by (field; lra). exact U'.
    - apply Rmult_le_reg_r with (ln a - ln b); [exact La|]. replace ((a - b) / (ln a - ln b) * (ln a - ln b)) with (a - b) by (field; lra). exact W'. }
  intros Ha Hb. destruct (Rtotal_order a b) as [L|[->|L]].
  - destruct (G b a Ha L) as (r & B & E). exists r. rewrite Rmin_left, Rmax_right by lra. split; [exact B|]. lra.
  - exists b. rewrite Rmin_left, Rmax_left by lra. split; [lra|ring].
  - destruct (G a b Hb L) as (r & B & E). exists r. rewrite Rmin_right, Rmax_left by lra. split; [exact B|exact E].
Qed.

Section Both.
Variables (ds : dataset) (t z y x zb zn : string) (nt nz ny nx : nat) (T Sa V area depth zl zi : arr)
  (pa : R) (eos : string) (m : eos_module) (cn : option (dict string)) (p : index -> R).
Hypothesis RG : regular ds t z y x zb zn nt nz ny nx T Sa V area depth zl zi.
Hypothesis Hm : same_name eos (module_name m).
Hypothesis Hc : default_coords cn = (t, z, zb).
Hypothesis WF : wf_ds ds.
Hypothesis FO : field_ok m T Sa V zl (scalar (Fin pa)) p.
Let L3 := [(z, nz); (y, ny); (x, nx)].

Lemma level_fields k i : selects k nt i ->
  exists T0 S0 V0 rho0 volo masso rhoga,
  setup_reference_state ds (scalar (Fin pa)) eos cn k =
    Ok [("thetao", T0); ("so", S0); ("volcello", V0); ("rho", rho0); ("volo", volo); ("masso", masso); ("rhoga", rhoga); ("areacello", area)] /\
  adims T0 = L3 /\ adims S0 = L3 /\ adims V0 = L3 /\ adims rho0 = L3 /\ adims volo = [] /\ adims masso = [] /\ adims rhoga = [] /\
  (forall e, at_ T0 e = at_ T (upd e t i)) /\ (forall e, at_ S0 e = at_ Sa (upd e t i)) /\ (forall e, at_ V0 e = at_ V (upd e t i)) /\
  (forall e, at_ rho0 e = fof (cell_density m (at_ T (upd e t i)) (at_ Sa (upd e t i)) (p e))) /\
  (forall e, at_ volo e = Fin (Rsum_box L3 (fun e' => odef (opt (at_ V (upd e' t i)))) e)) /\
  (forall e, at_ rhoga e = fdiv (Fin (Rsum_box L3 (fun e' => odef (cell_density m (at_ T (upd e' t i)) (at_ Sa (upd e' t i)) (p e')) * odef (opt (at_ V (upd e' t i)))) e)) (at_ volo e)).
Proof.
  intros Hi. destruct (level_state _ _ _ _ _ _ _ _ _ _ _ _ _ _ _ _ _ _ _ _ _ _ _ RG Hm Hc WF FO k i Hi)
    as (T0 & S0 & V0 & rho0 & volo & masso & rhoga & E & D1 & D2 & D3 & D4 & D5 & D6 & D7 & E3 & E4 & E5 & E6).
  apply index_selects in Hi.
  destruct (reference_ok _ _ _ _ _ _ _ _ _ _ _ _ _ _ _ _ _ _ RG (Fin pa) eos m Hm cn k i Hc Hi)
    as (T1 & S1 & V1 & rho1 & volo1 & masso1 & rhoga1 & E' & _ & _ & _ & _ & _ & _ & _ & E1 & E2 & _).
  rewrite E in E'. injection E' as <- <- _ _ _ _ _.
  exists T0, S0, V0, rho0, volo, masso, rhoga. repeat (split; [assumption|]). assumption.
Qed.

Variables (k : Z) (i : nat).
Variable T0 S0 V0 rho0 volo masso rhoga : arr.
Let ref := [("thetao", T0); ("so", S0); ("volcello", V0); ("rho", rho0); ("volo", volo); ("masso", masso); ("rhoga", rhoga); ("areacello", area)].
Hypothesis D1 : adims T0 = L3.
Hypothesis D2 : adims S0 = L3.
Hypothesis D3 : adims V0 = L3.
Hypothesis E1 : forall e, at_ T0 e = at_ T (upd e t i).
Hypothesis E2 : forall e, at_ S0 e = at_ Sa (upd e t i).
Hypothesis E3 : forall e, at_ V0 e = at_ V (upd e t i).
Hypothesis E4 : forall e, at_ rho0 e = fof (cell_density m (at_ T (upd e t i)) (at_ Sa (upd e t i)) (p e)).
Hypothesis E5 : forall e, at_ volo e = Fin (Rsum_box L3 (fun e' => odef (opt (at_ V (upd e' t i)))) e).
Hypothesis E6 : forall e, at_ rhoga e = fdiv (Fin (Rsum_box L3 (fun e' => odef (cell_density m (at_ T (upd e' t i)) (at_ Sa (upd e' t i)) (p e')) * odef (opt (at_ V (upd e' t i)))) e)) (at_ volo e).
Variables (variant : string).
Hypothesis Hvar : In variant ["steric"; "thermosteric"; "halosteric"].

Lemma used_fields : exists Tu Su, uses_fields ds ref variant Tu Su /\
  (forall e, at_ Tu e = held (fixes_T variant) t i T e) /\ (forall e, at_ Su e = held (fixes_S variant) t i Sa e) /\
  (forall vol, adims vol = L3 -> same_grid t vol Tu /\ same_grid t vol Su).
Proof.
  assert (RG' := RG). destruct RG'.
  assert (N4 : NoDup (map fst ((t, nt) :: L3))) by exact rg_names.
  assert (N3 : NoDup (map fst L3)) by (inversion rg_names; assumption).
  assert (S4 : forall a vol, adims vol = L3 -> adims a = (t, nt) :: L3 -> same_grid t vol a).
  { intros a vol DV Da. split; [unfold names; rewrite Da; exact N4|]. unfold names. rewrite Da, DV. split.
    - intros d [<-|Hd]; [left; reflexivity|right; exact Hd].
    - intros d n [Hd|Hd] Hne; [injection Hd as <- _; congruence|exact Hd]. }
  assert (S3 : forall a vol, adims vol = L3 -> adims a = L3 -> same_grid t vol a).
  { intros a vol DV Da. split; [unfold names; rewrite Da; exact N3|]. unfold names. rewrite Da, DV. tauto. }
  destruct Hvar as [<-|[<-|[<-|[]]]].
  - exists T, Sa. split; [apply uf_steric; assumption|]. split; [reflexivity|]. split; [reflexivity|]. intros vol DV. split; apply S4; assumption.
  - exists T, S0. split; [apply uf_thermo; [assumption|reflexivity]|]. split; [reflexivity|]. split; [exact E2|]. intros vol DV. split; [apply S4|apply S3]; assumption.
  - exists T0, Sa. split; [apply uf_halo; [reflexivity|assumption]|]. split; [exact E1|]. split; [reflexivity|]. intros vol DV. split; [apply S3|apply S4]; assumption.
Qed.

Lemma held_ok e : (forall s, held (fixes_T variant) t i T e <> Inf s) /\ (forall s, held (fixes_S variant) t i Sa e <> Inf s).
Proof. unfold held. destruct (fixes_T variant), (fixes_S variant); split; apply FO. Qed.

(** The used fields stay where the equation of state is defined. *)
Hypothesis DEF : forall e a b, held (fixes_T variant) t i T e = Fin a -> held (fixes_S variant) t i Sa e = Fin b -> eos_defined m a b (p e).
Let M1 := water_mass m L3 (fixes_T variant) (fixes_S variant) t i T Sa V p.
Let M0 := water_mass m L3 true true t i T Sa V p.
Let volume e := Rsum_box L3 (fun e' => odef (opt (held true t i V e'))) e.

Lemma both_global rhozero strict r : no_inf area -> (forall e, 0 < total_area area e) -> (forall e, 0 < volume e) -> (forall e, 0 < M1 e) -> (forall e, 0 < M0 e) ->
  steric ds (Some ref) cn None rhozero (scalar (Fin pa)) eos variant "global" strict = Ok (r, ref) ->
  exists s, dget variant r = Some s /\ forall e, at_ s e = Fin (volume e / total_area area e * (ln (M0 e / volume e) - ln (M1 e / volume e))).
Proof.
  intros IA PA PV PM1 PM0 H. assert (RG' := RG). destruct RG'.
  assert (NT : ~ In t (map fst L3)) by (inversion rg_names; assumption).
  assert (N3 : NoDup (map fst L3)) by (inversion rg_names; assumption).
  destruct used_fields as (Tu & Su & UF & UT & US & SG). destruct (SG V0 D3) as (SG1 & SG2).
  assert (Q : forall e, exists s, dget variant r = Some s /\ at_ s e = Fin (volume e / total_area area e * (ln (M0 e / volume e) - ln (M1 e / volume e)))).
  2:{ destruct (Q (fun _ => 0%nat)) as (s & Hs & _). exists s. split; [exact Hs|]. intros e. destruct (Q e) as (s' & Hs' & V'). rewrite Hs in Hs'. injection Hs' as <-. exact V'. }
  intros e. assert (PV' := PV e). assert (PA' := PA e). assert (PM1' := PM1 e). assert (PM0' := PM0 e).
  assert (Vo : at_ volo e = Fin (volume e)) by (rewrite E5; reflexivity).
  assert (Rg : at_ rhoga e = Fin (M0 e / volume e)) by (rewrite E6, Vo, fdiv_Fin by lra; reflexivity).
  assert (TM : total_mass m Tu Su V0 p e = M1 e).
  { unfold total_mass, M1, water_mass. rewrite D3. apply Rsum_box_ext. intros e'. rewrite UT, US, E3. reflexivity. }
  destruct (C37_global_formula ds (Some ref) cn None rhozero (scalar (Fin pa)) eos variant strict r ref ds m t z zb Tu Su V0 volo rhoga area zl p e (volume e) (M0 e / volume e)
    H eq_refl Hc Hm UF) as (h & s & v & _ & Hs & _ & Vs & Ev & _); try reflexivity.
  - unfold ds_get. rewrite rg_z. reflexivity.
  - unfold names. rewrite D3. exact N3.
  - unfold names. rewrite D3. exact NT.
  - intros e'. destruct (held_ok e') as (A & B). destruct (FO e') as (_ & _ & _ & D & _). destruct (FO (upd e' t i)) as (_ & _ & C & _).
    rewrite UT, US, E3. split; [exact A|]. split; [exact B|]. split; [exact C|]. split; [exact D|]. apply DEF.
  - exact SG1.
  - exact SG2.
  - split; [unfold names; rewrite rg_dz; repeat constructor; intros []|]. unfold names. rewrite rg_dz, D3. cbn. split; [tauto|]. intros d n [Hd|[]] _. left. exact Hd.
  - split; [constructor|]. cbn. split; intros; contradiction.
  - unfold names. rewrite rg_dA. inversion N3 as [|? ? _ N2]. exact N2.
  - exact IA.
  - exact Vo.
  - exact Rg.
  - apply Rdiv_lt_0_compat; assumption.
  - apply Rdiv_lt_0_compat; assumption.
  - rewrite TM. apply Rdiv_lt_0_compat; assumption.
  - exists s. split; [exact Hs|]. rewrite Vs. f_equal. rewrite Ev, TM. f_equal.
    unfold Rdiv at 1. rewrite ln_mult, ln_Rinv; [ring| | |]; try apply Rinv_0_lt_compat; apply Rdiv_lt_0_compat; assumption.
Qed.

Hypothesis HD : forall e s, at_ depth e <> Inf s.
Variable w : nat -> R.
Hypothesis HI : forall e l, (l <= nz)%nat -> at_ zi (upd e zn l) = Fin (w l).
Hypothesis HW : forall l, (l < nz)%nat -> w l <= w (S l).
Hypothesis GT : steady_gaps t T.
Hypothesis GS : steady_gaps t Sa.
(** The volume of a wet cell is its area times its thickness; there is no water below land. *)
Hypothesis CV : forall e l v, (l < nz)%nat -> held true t i V (upd e z l) = Fin v ->
  (exists a, at_ area e = Fin a /\ v = a * overlap (w l) (w (S l)) 0 (water_depth (at_ depth e))) /\ held true t i V (upd e z 0) <> NaN.

Lemma change_held e l : (l < nz)%nat -> forall Tu Su, (forall e, at_ Tu e = held (fixes_T variant) t i T e) -> (forall e, at_ Su e = held (fixes_S variant) t i Sa e) ->
  let c := column_at z Tu Su rho0 V0 depth (fun l => p (upd e z l)) w e in
  odef (density_change m c l) * odef (opt (at_ V0 (upd e z l))) =
  (odef (cell_density m (held (fixes_T variant) t i T (upd e z l)) (held (fixes_S variant) t i Sa (upd e z l)) (p (upd e z l))) -
   odef (cell_density m (at_ T (upd (upd e z l) t i)) (at_ Sa (upd (upd e z l) t i)) (p (upd e z l)))) * odef (opt (at_ V0 (upd e z l))).
Proof.
  intros Hl Tu Su UT US c. unfold density_change, c. cbn [c_wet c_T c_S c_rho0 c_p column_at]. rewrite UT, US, E4. set (ek := upd e z l).
  destruct (notnull (at_ V0 ek)) eqn:NV; [|apply opt_none in NV; rewrite NV; cbn; ring].
  assert (NT : notnull (held (fixes_T variant) t i T ek) = notnull (at_ T (upd ek t i))) by (unfold held; destruct (fixes_T variant); rewrite ?GT; reflexivity).
  assert (NS : notnull (held (fixes_S variant) t i Sa ek) = notnull (at_ Sa (upd ek t i))) by (unfold held; destruct (fixes_S variant); rewrite ?GS; reflexivity).
  destruct (held_ok ek) as (A & B). destruct (FO (upd ek t i)) as (A' & B' & _).
  unfold cell_density.
  destruct (held (fixes_T variant) t i T ek) as [|s|a]; [|destruct (A s eq_refl)|];
  (destruct (at_ T (upd ek t i)) as [|s'|a']; [|destruct (A' s' eq_refl)|]); try discriminate NT; cbn [fof opt odef]; try ring;
  (destruct (held (fixes_S variant) t i Sa ek) as [|s|b]; [|destruct (B s eq_refl)|]);
  (destruct (at_ Sa (upd ek t i)) as [|s'|b']; [|destruct (B' s' eq_refl)|]); try discriminate NS; cbn [fof opt odef]; ring.
Qed.

Lemma both_local rhozero domain strict r : domain <> "global" -> rhozero <> 0 ->
  steric ds (Some ref) cn None rhozero (scalar (Fin pa)) eos variant domain strict = Ok (r, ref) ->
  exists s, dget variant r = Some s /\ forall e,
    rhozero * Rsum_box [(y, ny); (x, nx)] (fun e' => odef (opt (at_ area e')) * odef (opt (at_ s e'))) e = M0 e - M1 e.
Proof.
  intros Hd Hr H. assert (RG' := RG). destruct RG'.
  destruct used_fields as (Tu & Su & UF & UT & US & _).
  set (P := fun (e : index) (v : fval) => v = if notnull (at_ V0 (upd e z 0)) then
      Fin (steric_height m rhozero nz (column_at z Tu Su rho0 V0 depth (fun l => p (upd e z l)) w e)) else NaN).
  assert (Q : forall e, exists s, dget variant r = Some s /\ P e (at_ s e)).
  { intros e.
    destruct (C32_local_formula ds (Some ref) cn None rhozero (scalar (Fin pa)) eos variant domain strict r ref ds m t z zb Tu Su V0 rho0 zl zi depth zn nz
      (fun l => p (upd e z l)) w e H Hd eq_refl Hc Hm WF UF eq_refl eq_refl) as (delta & s & _ & Hs & _ & Hv).
    - unfold ds_get. rewrite rg_z. reflexivity.
    - exact rg_i.
    - exact rg_D.
    - unfold names. rewrite rg_dD. intros [A|[A|[]]]; cbn in A; subst; inversion rg_names as [|? ? _ N]; inversion N as [|? ? N' _]; apply N'; cbn; tauto.
    - split; [exact rg_dz|]. split; [exact rg_di|]. split; [intros l Hl; apply HI; exact Hl|]. split; [exact HW|]. split; [apply HD|].
      intros l Hl ek. destruct (FO ek) as (_ & _ & _ & C & _). destruct (held_ok ek) as (A & B). rewrite UT, US. split; [exact A|]. split; [exact B|]. split.
      + intros s0. rewrite E4. destruct (cell_density _ _ _ _); discriminate.
      + split; [exact C|]. apply DEF.
    - exists s. split; [exact Hs|exact Hv]. }
  destruct (Q (fun _ => 0%nat)) as (s & Hs & _). exists s. split; [exact Hs|].
  assert (Vs : forall e, P e (at_ s e)) by (intros e; destruct (Q e) as (s' & Hs' & V'); rewrite Hs in Hs'; injection Hs' as <-; exact V').
  clear Q. intros e.
  assert (NZ : ~ In z (map fst [(y, ny); (x, nx)])) by (inversion rg_names as [|? ? _ N]; inversion N; assumption).
  set (G := fun e' => (odef (cell_density m (held (fixes_T variant) t i T e') (held (fixes_S variant) t i Sa e') (p e')) -
     odef (cell_density m (at_ T (upd e' t i)) (at_ Sa (upd e' t i)) (p e'))) * odef (opt (at_ V0 e'))).
  rewrite (Rsum_box_ext _ _ (fun e' => (- (1 / rhozero)) * Rsum nz (fun l => G (upd e' z l)))).
  - rewrite Rsum_box_scal, Rsum_box_out by exact NZ. change (Rsum nz _) with (Rsum_box L3 G e).
    assert (EG : Rsum_box L3 G e = M1 e - M0 e).
    { unfold M1, M0, water_mass.
      replace (Rsum_box L3 _ e - Rsum_box L3 _ e) with (Rsum_box L3 (fun e0 => odef (cell_density m (held (fixes_T variant) t i T e0) (held (fixes_S variant) t i Sa e0) (p e0)) * odef (opt (held true t i V e0))) e +
        (-1) * Rsum_box L3 (fun e0 => odef (cell_density m (held true t i T e0) (held true t i Sa e0) (p e0)) * odef (opt (held true t i V e0))) e) by ring.
      rewrite <- Rsum_box_scal, <- Rsum_box_plus. apply Rsum_box_ext. intros e'. unfold G. rewrite E3. change (held true t i T e') with (at_ T (upd e' t i)). change (held true t i Sa e') with (at_ Sa (upd e' t i)). change (held true t i V e') with (at_ V (upd e' t i)). ring. }
    rewrite EG. field. exact Hr.
  - intros e'. specialize (Vs e'). unfold P in Vs. rewrite Vs. unfold steric_height.
    destruct (notnull (at_ V0 (upd e' z 0))) eqn:N0.
    + cbn [opt odef]. rewrite <- Rmult_assoc, (Rmult_comm (odef _) (- _)), Rmult_assoc. f_equal. rewrite <- Rsum_scal. apply Rsum_ext. intros l Hl.
      unfold G. rewrite <- (change_held e' l Hl Tu Su UT US). cbn [c_w c_floor column_at].
      destruct (at_ V0 (upd e' z l)) as [|b|v] eqn:EVl.
      * unfold density_change. cbn [c_wet column_at]. rewrite EVl. cbn. ring.
      * rewrite E3 in EVl. destruct (FO (upd (upd e' z l) t i)) as (_ & _ & C & _). destruct (C b EVl).
      * destruct (CV e' l v Hl) as ((a & Ea & ->) & _); [unfold held; rewrite <- E3; exact EVl|]. rewrite Ea. cbn [opt odef]. ring.
    + cbn [opt odef]. rewrite Rmult_0_r. symmetry. rewrite Rsum_zero; [ring|]. intros l Hl. unfold G.
      destruct (at_ V0 (upd e' z l)) as [|b|v] eqn:EVl; cbn [opt odef]; try ring.
      exfalso. destruct (CV e' l v Hl) as (_ & W); [unfold held; rewrite <- E3; exact EVl|]. apply W. unfold held. rewrite <- E3. apply opt_none, N0.
Qed.
End Both.

(** C123: if the volume of every wet cell is its area times its thickness, the global height times
    a density between the two mean densities is [rhozero] times the area mean of the local heights. *)
Theorem C123_global_local : forall ds t z y x zb zn nt nz ny nx T Sa V area depth zl zi pa eos m cn rhozero domain strict variant k i w p,
  regular ds t z y x zb zn nt nz ny nx T Sa V area depth zl zi -> wf_ds ds -> same_name eos (module_name m) -> default_coords cn = (t, z, zb) ->
  (strict = true -> validate_areacello area (Fin 361110920000000%R) (Fin (2 / 100)%R) = true) -> domain <> "global" -> rhozero <> 0 ->
  In variant ["steric"; "thermosteric"; "halosteric"] -> selects k nt i ->
  field_ok m T Sa V zl (scalar (Fin pa)) p ->
  (forall e a b, held (fixes_T variant) t i T e = Fin a -> held (fixes_S variant) t i Sa e = Fin b -> eos_defined m a b (p e)) ->
  (forall e s, at_ depth e <> Inf s) ->
  (forall e l, (l <= nz)%nat -> at_ zi (upd e zn l) = Fin (w l)) -> (forall l, (l < nz)%nat -> w l <= w (S l)) ->
  steady_gaps t T -> steady_gaps t Sa ->
  (forall e l v, (l < nz)%nat -> held true t i V (upd e z l) = Fin v ->
    (exists a, at_ area e = Fin a /\ v = a * overlap (w l) (w (S l)) 0 (water_depth (at_ depth e))) /\ held true t i V (upd e z 0) <> NaN) ->
  no_inf area -> (forall e, 0 < total_area area e) ->
  let dims := [(z, nz); (y, ny); (x, nx)] in
  let volume e := Rsum_box dims (fun e' => odef (opt (held true t i V e'))) e in
  let M0 := water_mass m dims true true t i T Sa V p in
  let M1 := water_mass m dims (fixes_T variant) (fixes_S variant) t i T Sa V p in
  (forall e, 0 < volume e) -> (forall e, 0 < M0 e) -> (forall e, 0 < M1 e) ->
  exists ref rl rg sl sg,
    setup_reference_state ds (scalar (Fin pa)) eos cn k = Ok ref /\
    steric ds (Some ref) cn None rhozero (scalar (Fin pa)) eos variant domain strict = Ok (rl, ref) /\
    steric ds (Some ref) cn None rhozero (scalar (Fin pa)) eos variant "global" strict = Ok (rg, ref) /\
    dget variant rl = Some sl /\ dget variant rg = Some sg /\
    forall e, exists h rho,
      at_ sg e = Fin h /\ Rmin (M0 e / volume e) (M1 e / volume e) <= rho <= Rmax (M0 e / volume e) (M1 e / volume e) /\
      rho * h = rhozero * (Rsum_box [(y, ny); (x, nx)] (fun e' => odef (opt (at_ area e')) * odef (opt (at_ sl e'))) e / total_area area e).
Proof.
  intros ds t z y x zb zn nt nz ny nx T Sa V area depth zl zi pa eos m cn rhozero domain strict variant k i w p
    RG WF Hm Hc Ha Hd Hr Hvar Hk FO DEF HD HI HW GT GS CV IA PA dims volume M0 M1 PV PM0 PM1.
  destruct (level_fields _ _ _ _ _ _ _ _ _ _ _ _ _ _ _ _ _ _ _ _ _ _ _ RG Hm Hc WF FO k i Hk)
    as (T0 & S0 & V0 & rho0 & volo & masso & rhoga & E & D1 & D2 & D3 & D4 & D5 & D6 & D7 & E1 & E2 & E3 & E4 & E5 & E6).
  destruct (steric_ok_given _ _ _ _ _ _ _ _ _ _ _ _ _ _ _ _ _ _ RG strict (Fin pa) eos m Hm Ha cn rhozero variant domain Hc Hvar
    T0 S0 V0 rho0 volo masso rhoga D1 D2 D3 D4 D5 D6 D7 (fun _ => Hr)) as (rl & Rl).
  destruct (steric_ok_given _ _ _ _ _ _ _ _ _ _ _ _ _ _ _ _ _ _ RG strict (Fin pa) eos m Hm Ha cn rhozero variant "global" Hc Hvar
    T0 S0 V0 rho0 volo masso rhoga D1 D2 D3 D4 D5 D6 D7 (fun _ => Hr)) as (rg & Rg).
  destruct (both_local _ _ _ _ _ _ _ _ _ _ _ _ _ _ _ _ _ _ pa eos m cn p RG Hm Hc WF FO i T0 S0 V0 rho0 volo masso rhoga D1 D2 D3 E1 E2 E3 E4 E5 E6 variant Hvar DEF HD w HI HW GT GS CV
    rhozero domain strict rl Hd Hr Rl) as (sl & Hsl & Vsl).
  destruct (both_global _ _ _ _ _ _ _ _ _ _ _ _ _ _ _ _ _ _ pa eos m cn p RG Hm Hc FO i T0 S0 V0 rho0 volo masso rhoga D1 D2 D3 E1 E2 E3 E5 E6 variant Hvar DEF
    rhozero strict rg IA PA PV PM1 PM0 Rg) as (sg & Hsg & Vsg).
  eexists. exists rl, rg, sl, sg. split; [exact E|]. split; [exact Rl|]. split; [exact Rg|]. split; [exact Hsl|]. split; [exact Hsg|].
  intros e. specialize (PV e). specialize (PM0 e). specialize (PM1 e). specialize (PA e).
  destruct (log_mean (M0 e / volume e) (M1 e / volume e)) as (rho & B & L); try (apply Rdiv_lt_0_compat; assumption).
  exists (volume e / total_area area e * (ln (M0 e / volume e) - ln (M1 e / volume e))), rho. split; [apply Vsg|]. split; [exact B|].
  specialize (Vsl e). fold dims in Vsl. fold M0 M1 in Vsl.
  replace (rhozero * (Rsum_box [(y, ny); (x, nx)] (fun e' => odef (opt (at_ area e')) * odef (opt (at_ sl e'))) e / total_area area e))
    with (rhozero * Rsum_box [(y, ny); (x, nx)] (fun e' => odef (opt (at_ area e')) * odef (opt (at_ sl e'))) e / total_area area e) by (unfold Rdiv; ring).
  rewrite Vsl. replace (rho * (volume e / total_area area e * (ln (M0 e / volume e) - ln (M1 e / volume e))))
    with (volume e / total_area area e * (rho * (ln (M0 e / volume e) - ln (M1 e / volume e)))) by ring.
  rewrite L. field. split; lra.
Qed.
Print Assumptions C123_global_local.

(** Two months on four columns, two of them land; cell volumes are area times thickness. *)
Definition gl_V := mkArr d4 (fun e => if Nat.eqb (e "xh") 1 then NaN else Fin (361110920000000 / 4 * (if Nat.eqb (e "z_l") 0 then 2000 else 1000))).
Definition gl : dataset :=
  [("thetao", ch_T); ("so", demo_S); ("volcello", gl_V); ("areacello", demo_A); ("deptho", demo_D); ("z_l", ch_zl); ("z_i", demo_zi)].
Lemma gl_wf : wf_ds gl.
Proof.
  intros k a H. unfold gl in H. cbn [dget] in H.
  repeat (destruct (String.eqb k _); [injection H as <-; apply wf_of; [nodup|intros e e' He;
    try reflexivity; rewrite ?(He "time"), ?(He "xh"), ?(He "z_l"), ?(He "z_i") by (cbn; tauto); reflexivity]|]).
  discriminate.
Qed.
Lemma gl_regular : regular gl "time" "z_l" "yh" "xh" "z_i" "z_i" 2 2 2 2 ch_T demo_S gl_V demo_A demo_D ch_zl demo_zi.
Proof. destruct ch_regular. constructor; try assumption; reflexivity. Qed.
Lemma gl_field m : field_ok m ch_T demo_S gl_V ch_zl (scalar (Fin 101325)) ch_p.
Proof.
  intros e. destruct (ch_field m e) as (A & B & _ & C & D). split; [exact A|]. split; [exact B|].
  split; [intros s; cbn; destruct (Nat.eqb _ 1); discriminate|]. split; [exact C|exact D].
Qed.
Example C123_case : forall variant, In variant ["steric"; "thermosteric"; "halosteric"] -> exists ref rl rg sl sg,
  setup_reference_state gl (scalar (Fin 101325)) "Linear" None 0 = Ok ref /\
  steric gl (Some ref) None None 1035 (scalar (Fin 101325)) "Linear" variant "local" true = Ok (rl, ref) /\
  steric gl (Some ref) None None 1035 (scalar (Fin 101325)) "Linear" variant "global" true = Ok (rg, ref) /\
  dget variant rl = Some sl /\ dget variant rg = Some sg /\
  forall e, exists h rho, at_ sg e = Fin h /\ 1025 <= rho <= 1027 /\
    rho * h = 1035 * (Rsum_box d2 (fun e' => odef (opt (at_ demo_A e')) * odef (opt (at_ sl e'))) e / 361110920000000).
Proof.
  intros variant Hvar. assert (Hm : same_name "Linear" (module_name Linear)) by (apply same_name_lower; reflexivity).
  assert (W : forall hT hS e, water_mass Linear [("z_l", 2%nat); ("yh", 2%nat); ("xh", 2%nat)] hT hS "time" 0 ch_T demo_S gl_V ch_p e =
    (1000 + (-(1 / 5)) * (if orb hT (Nat.eqb (e "time") 0) then 10 else 11) + 4 / 5 * 35) * (361110920000000 / 4 * 6000)).
  { intros hT hS e. unfold water_mass, held. cbn. unfold lin_rho. destruct hT, hS, (Nat.eqb (e "time") 0) eqn:E; cbn; rewrite ?E; cbn; lra. }
  assert (VOL : forall e, Rsum_box [("z_l", 2%nat); ("yh", 2%nat); ("xh", 2%nat)] (fun e' => odef (opt (held true "time" 0 gl_V e'))) e = 361110920000000 / 4 * 6000) by (intros e; cbn; lra).
  assert (AR : forall e, total_area demo_A e = 361110920000000) by (intros e; unfold total_area; cbn; lra).
  destruct (C123_global_local _ _ _ _ _ _ _ _ _ _ _ _ _ _ _ _ _ _ 101325 "Linear" Linear None 1035 "local" true variant 0 0 demo_w ch_p gl_regular gl_wf Hm) as
    (ref & rl & rg & sl & sg & A & B & C & D & E & F); try reflexivity.
  - intros _. exact demo_area.
  - discriminate.
  - lra.
  - exact Hvar.
  - split; [lia|left; reflexivity].
  - apply gl_field.
  - intros e s. discriminate.
  - intros i _. unfold demo_w. rewrite S_INR. lra.
  - apply ch_gaps.
  - apply ch_gaps.
  - intros e l v Hl Hv. unfold held in *. cbn in Hv |- *. destruct (Nat.eqb _ 1); [discriminate|]. injection Hv as <-. split; [|discriminate].
    eexists. split; [reflexivity|]. f_equal. unfold demo_w, overlap, Rmin, Rmax. destruct l as [|[|l]]; [| |lia]; cbn; repeat destruct (Rle_dec _ _); lra.
  - intros e s. discriminate.
  - intros e. rewrite AR. lra.
  - intros e. rewrite VOL. lra.
  - intros e. rewrite W. cbn. lra.
  - intros e. rewrite W. destruct (orb _ _); lra.
  - exists ref, rl, rg, sl, sg. split; [exact A|]. split; [exact B|]. split; [exact C|]. split; [exact D|]. split; [exact E|]. intros e.
    destruct (F e) as (h & rho & F1 & F2 & F3). exists h, rho. split; [exact F1|]. rewrite VOL, !W, AR in *. split; [|exact F3].
    clear F3. unfold Rmin, Rmax in F2. cbn [orb] in F2. destruct (orb _ _); repeat destruct (Rle_dec _ _); lra.
Qed.
