(** * PropertiesAnnual2: a case for C124 and C125 *)
From Coq Require Import Reals ZArith Lra Lia List String Bool Arith.
From Verif Require Import Num NumFacts Py Arr ArrFacts Calendar TimeAvg Eos SpecEos Derived SpecDz Dataset SpecSteric SpecTime
  ProofsEos ProofsEosApi ProofsFields ProofsSteric ProofsSteric2 ProofsSteric3 ProofsSteric4 ProofsStericOk ProofsSteric5 ProofsStericDemo
  ProofsUtil ProofsAvg ProofsStericAnnual PropertiesSteric PropertiesSteric6 PropertiesSteric7 PropertiesTime PropertiesAnnual.
Import ListNotations.
Local Open Scope string_scope.
Local Open Scope R_scope.

(** The twelve months of 2001, getting warmer, and their annual averages; land in the second column. *)
Definition yr_ax := mkAxis "time" (Some NoLeap) (one_year 2001).
Definition yr_avg (a : arr) : arr := annual_var NoLeap (one_year 2001) "time" a.
Definition yr_ds : dataset :=
  [("thetao", yr_avg (tdemo_T "time")); ("so", yr_avg (tdemo_S "time")); ("volcello", yr_avg (tdemo_V "time")); ("areacello", demo_A); ("deptho", demo_D);
   ("z_l", demo_zl); ("z_i", demo_zi)].
Lemma tdemo_wf : wf_ds (tdemo "time").
Proof.
  intros k a H. unfold tdemo in H. cbn [dget] in H.
  repeat (destruct (String.eqb k _); [injection H as <-; apply wf_of; [nodup|intros e e' He;
    try reflexivity; rewrite ?(He "time"), ?(He "xh"), ?(He "z_l"), ?(He "z_i") by (cbn; tauto); reflexivity]|]).
  discriminate.
Qed.
Lemma wf_yr a : wf_arr a -> wf_arr (yr_avg a).
Proof.
  intros (N & F). split.
  - unfold names. cbn. constructor; [|apply drop_NoDup, N]. intros H. apply drop_names in H. tauto.
  - intros e e' H. unfold yr_avg, annual_var. cbn [at_]. rewrite (H "time") by (left; reflexivity). f_equal. apply map_ext. intros i. f_equal.
    apply F. intros x Hx. destruct (String.eqb_spec "time" x) as [<-|E]; [rewrite !upd_same; reflexivity|]. rewrite !upd_other by congruence. apply H. right. apply drop_names. split; [exact Hx|congruence].
Qed.
Lemma yr_wf : wf_ds yr_ds.
Proof.
  intros k a H. assert (Q := tdemo_wf k). unfold yr_ds, tdemo in *. cbn [dget] in H, Q.
  repeat (destruct (String.eqb k _); [injection H as <-; first [apply wf_yr, Q; reflexivity|apply Q; reflexivity]|]). discriminate.
Qed.
Lemma yr_regular : ProofsStericOk.regular yr_ds "time" "z_l" "yh" "xh" "z_i" "z_i" 1 2 2 2 (yr_avg (tdemo_T "time")) (yr_avg (tdemo_S "time")) (yr_avg (tdemo_V "time")) demo_A demo_D demo_zl demo_zi.
Proof. destruct (tdemo_regular "time" (or_intror eq_refl)). constructor; try assumption; reflexivity. Qed.
Definition yr_p (k : nat) : R := 10000 * (1000 + 2000 * INR k) + 101325.
Lemma yr_field : field_ok Linear (tdemo_T "time") (tdemo_S "time") (tdemo_V "time") demo_zl (scalar (Fin 101325)) (fun e => yr_p (e "z_l")).
Proof.
  intros e. split; [intros s; discriminate|]. split; [intros s; discriminate|]. split; [intros s; cbn; destruct (Nat.eqb _ 1); discriminate|].
  split; [eexists _, _; repeat split|intros; exact I].
Qed.

(** (shows both the C124 formula and the C125 equality) *)
Example C125_case : forall variant, In variant ["steric"; "thermosteric"; "halosteric"] -> exists ref ax' out r' delta sea delta' sea',
  setup_reference_state (tdemo "time") (scalar (Fin 101325)) "Linear" None 0 = Ok ref /\
  steric_annual yr_ax (tdemo "time") (Some ref) None None 1035 (scalar (Fin 101325)) "Linear" variant "local" true = Ok (ax', out, ref) /\
  steric yr_ds (Some ref) None None 1035 (scalar (Fin 101325)) "Linear" variant "local" true = Ok (r', ref) /\
  dget "delta_rho" out = Some delta /\ dget variant out = Some sea /\ dget "delta_rho" r' = Some delta' /\ dget variant r' = Some sea' /\
  forall e, e "time" = 0%nat ->
    (forall k, (k < 2)%nat -> at_ delta' (upd e "z_l" k) = at_ delta (upd e "z_l" k)) /\ at_ sea' e = at_ sea e /\
    at_ sea e = if Nat.eqb (e "xh") 1 then NaN
      else Fin (- (1 / 1035) * Rsum 2 (fun k => overlap (demo_w k) (demo_w (S k)) 0 3000 * odef (opt (at_ delta (upd e "z_l" k))))).
Proof.
  intros variant Hvar. assert (Hm : same_name "Linear" (module_name Linear)) by (apply same_name_lower; reflexivity).
  destruct (level_fields _ _ _ _ _ _ _ _ _ _ _ _ _ _ _ _ _ _ 101325 "Linear" Linear None _ (tdemo_regular "time" (or_intror eq_refl)) Hm eq_refl tdemo_wf yr_field 0%Z 0%nat)
    as (T0 & S0 & V0 & rho0 & volo & masso & rhoga & E & D1 & D2 & D3 & D4 & D5 & D6 & D7 & E1 & E2 & E3 & E4 & _); [split; [lia|left; reflexivity]|].
  destruct (steric_ok_given _ _ _ _ _ _ _ _ _ _ _ _ _ _ _ _ _ _ (tdemo_regular "time" (or_intror eq_refl)) true (Fin 101325) "Linear" Linear Hm (fun _ => demo_area) None 1035 variant "local" eq_refl Hvar
    T0 S0 V0 rho0 volo masso rhoga D1 D2 D3 D4 D5 D6 D7) as (r & R); [intros _; lra|].
  destruct (steric_ok_given _ _ _ _ _ _ _ _ _ _ _ _ _ _ _ _ _ _ yr_regular true (Fin 101325) "Linear" Linear Hm (fun _ => demo_area) None 1035 variant "local" eq_refl Hvar
    T0 S0 V0 rho0 volo masso rhoga D1 D2 D3 D4 D5 D6 D7) as (r' & R'); [intros _; lra|].
  set (ref := [("thetao", T0); ("so", S0); ("volcello", V0); ("rho", rho0); ("volo", volo); ("masso", masso); ("rhoga", rhoga); ("areacello", demo_A)]) in *.
  destruct (C78_partial yr_ax _ _ _ _ _ _ _ _ _ _ _ _ NoLeap R eq_refl eq_refl) as [_ Q]; [discriminate|].
  destruct Q as (ax' & out & O & _); [reflexivity|discriminate| |].
  { intros i Hi. cbn in Hi. do 12 (destruct i as [|i]; [reflexivity|]). lia. }
  assert (N0 : NoDup (map fst [("z_l", 2%nat); ("yh", 2%nat); ("xh", 2%nat)])) by nodup.
  assert (WR : forall k a, In k ["thetao"; "so"; "volcello"; "rho"] -> dget k ref = Some a -> wf_arr a /\ ~ In "time" (names a)).
  { assert (G : forall a (f : index -> fval), adims a = [("z_l", 2%nat); ("yh", 2%nat); ("xh", 2%nat)] -> (forall e, at_ a e = f e) ->
      (forall e e', e "z_l" = e' "z_l" -> e "xh" = e' "xh" -> f e = f e') -> wf_arr a /\ ~ In "time" (names a)).
    { intros a f Da Va Hf. unfold names. rewrite Da. split; [|cbn; intuition discriminate]. split; [unfold names; rewrite Da; exact N0|].
      intros e e' He. unfold names in He. rewrite Da in He. rewrite !Va. apply Hf; apply He; cbn; tauto. }
    intros k a Hk Ha. cbn in Hk. destruct Hk as [<-|[<-|[<-|[<-|[]]]]]; cbn in Ha; injection Ha as <-.
    - apply (G _ _ D1 E1). reflexivity.
    - apply (G _ _ D2 E2). reflexivity.
    - apply (G _ _ D3 E3). intros e e' _ He. cbn. rewrite He. reflexivity.
    - apply (G _ _ D4 E4). intros e e' He _. cbn. reflexivity. }
  assert (UF : exists T S, uses_fields (tdemo "time") ref variant T S /\ (forall e, exists x, at_ T e = Fin x) /\ (forall e, exists x, at_ S e = Fin x)).
  { destruct Hvar as [<-|[<-|[<-|[]]]].
    - exists (tdemo_T "time"), (tdemo_S "time"). split; [apply uf_steric; reflexivity|]. split; intros e; eexists; reflexivity.
    - exists (tdemo_T "time"), S0. split; [apply uf_thermo; reflexivity|]. split; intros e; [eexists; reflexivity|]. rewrite E2. eexists; reflexivity.
    - exists T0, (tdemo_S "time"). split; [apply uf_halo; reflexivity|]. split; intros e; [|eexists; reflexivity]. rewrite E1. eexists; reflexivity. }
  destruct UF as (T & S & UF & FT & FS).
  assert (CO : forall e i, column_ok Linear "z_l" "z_i" 2 T S rho0 demo_D demo_zl (scalar (Fin 101325)) demo_zi yr_p demo_w (upd e "time" i)).
  { intros e i. split; [reflexivity|]. split; [reflexivity|]. split; [intros k _; reflexivity|].
    split; [intros k _; unfold demo_w; rewrite S_INR; lra|]. split; [intros s; discriminate|].
    intros k Hk ek. destruct (FT ek) as (a & ->). destruct (FS ek) as (b & ->). split; [intros s; discriminate|]. split; [intros s; discriminate|].
    split; [intros s; rewrite E4; discriminate|]. split; [eexists _, _; repeat split|intros; exact I]. }
  assert (ST : forall e a, (forall e, exists x, at_ a e = Fin x) -> steady_column "z_l" 2 a e).
  { intros e a F k i _. destruct (F (upd (upd e "time" i) "z_l" k)) as (b & ->). destruct (F (upd e "z_l" k)) as (b' & ->). reflexivity. }
  assert (Q : forall e, e "time" = 0%nat -> exists delta sea delta' sea', dget "delta_rho" out = Some delta /\ dget variant out = Some sea /\
    dget "delta_rho" r' = Some delta' /\ dget variant r' = Some sea' /\
    (forall k, (k < 2)%nat -> at_ delta' (upd e "z_l" k) = at_ delta (upd e "z_l" k)) /\ at_ sea' e = at_ sea e).
  { intros e He.
    apply (C125_linear yr_ax (tdemo "time") yr_ds (Some ref) None 1035 (scalar (Fin 101325)) "Linear" variant "local" true ax' out r' ref "z_l" "z_i" T S V0 rho0 demo_zl demo_zi demo_D "z_i" 2 yr_p demo_w e);
      try assumption; try reflexivity; try discriminate.
    - intros k a Hk Ha. cbn in Hk. destruct Hk as [<-|[<-|[]]]; cbn in Ha; injection Ha as <-; eexists _, _; split; reflexivity.
    - intros k Hk. cbn in Hk. destruct Hk as [<-|[<-|[<-|[]]]]; reflexivity.
    - exact tdemo_wf.
    - exact yr_wf.
    - cbn. intuition discriminate.
    - cbn. intuition discriminate.
    - apply CO.
    - apply ST, FT.
    - apply ST, FS.
    - lia.
    - rewrite He. cbn. lia. }
  destruct (Q (fun _ => 0%nat) eq_refl) as (delta & sea & delta' & sea' & A1 & A2 & A3 & A4 & _).
  exists ref, ax', out, r', delta, sea, delta', sea'. split; [exact E|]. split; [exact O|]. split; [exact R'|].
  split; [exact A1|]. split; [exact A2|]. split; [exact A3|]. split; [exact A4|]. intros e He.
  destruct (Q e He) as (d1 & s1 & d2' & s2 & B1 & B2 & B3 & B4 & B5 & B6). rewrite A1 in B1. rewrite A2 in B2. rewrite A3 in B3. rewrite A4 in B4.
  injection B1 as <-. injection B2 as <-. injection B3 as <-. injection B4 as <-. split; [exact B5|]. split; [exact B6|].
  destruct (C124_annual_formula yr_ax (tdemo "time") (Some ref) None None 1035 (scalar (Fin 101325)) "Linear" variant "local" true ax' out ref (tdemo "time") Linear "z_l" "z_i" T S V0 rho0 demo_zl demo_zi demo_D "z_i" 2 yr_p demo_w e)
    as (d3 & s3 & F1 & F2 & F3); try assumption; try reflexivity; try discriminate.
  - exact tdemo_wf.
  - cbn. intuition discriminate.
  - cbn. intuition discriminate.
  - apply CO.
  - intros a [<-|[<-|[<-|[<-|[]]]]].
    + apply ST, FT.
    + apply ST, FS.
    + intros k i _. rewrite !E4. reflexivity.
    + intros k i _. rewrite !E3. reflexivity.
  - lia.
  - rewrite He. cbn. lia.
  - rewrite A1 in F1. rewrite A2 in F2. injection F1 as <-. injection F2 as <-. rewrite F3, E3. cbn [at_ tdemo_V].
    rewrite (upd_other (upd e "z_l" 0) "time" 0%nat "xh"), (upd_other e "z_l" 0%nat "xh") by discriminate. destruct (Nat.eqb (e "xh") 1); reflexivity.
Qed.
