(** * ProofsStericDemo2: a dataset in which the second month is warmer and fresher *)
From Coq Require Import Reals Lra Lia List String Bool Arith ZArith.
From Verif Require Import Num NumFacts Py Arr ArrFacts Eos SpecEos Derived SpecDz Dataset SpecSteric
  ProofsEos ProofsEosBox ProofsEosApi ProofsFields ProofsFields2 ProofsDz ProofsBudget ProofsSteric ProofsSteric2 ProofsSteric3
  ProofsSteric4 ProofsStericOk ProofsSteric5 ProofsStericDemo.
Import ListNotations.
Local Open Scope string_scope.
Local Open Scope R_scope.

Definition fresh_S := mkArr d4 (fun e => Fin (35 - INR (e "time"))).
Definition fresh : dataset :=
  [("thetao", demo_T); ("so", fresh_S); ("volcello", demo_V); ("areacello", demo_A); ("deptho", demo_D);
   ("z_l", demo_zl); ("z_i", demo_zi)].
Lemma fresh_wf : wf_ds fresh.
Proof.
  intros k a H. unfold fresh in H. cbn [dget] in H.
  repeat (destruct (String.eqb k _); [injection H as <-; apply wf_of; [nodup|intros e e' He;
    try reflexivity; rewrite ?(He "time"), ?(He "xh"), ?(He "z_l"), ?(He "z_i") by (cbn; tauto); reflexivity]|]).
  discriminate.
Qed.
Lemma fresh_regular : regular fresh "time" "z_l" "yh" "xh" "z_i" "z_i" 2 2 2 2 demo_T fresh_S demo_V demo_A demo_D demo_zl demo_zi.
Proof.
  constructor; try reflexivity; try lia;
    try (match goal with |- wf_arr demo_D => exact (fresh_wf "deptho" demo_D eq_refl) | |- wf_arr demo_zl => exact (fresh_wf "z_l" demo_zl eq_refl)
         | |- wf_arr demo_zi => exact (fresh_wf "z_i" demo_zi eq_refl) end).
  - nodup.
  - intros e _ [H|(x & H & Hx)]; [discriminate|]. cbn in H. injection H as <-. lra.
  - intros e _. split; [|discriminate]. intros [H|(x & H & Hx)]; [discriminate|]. cbn [demo_zl at_] in H. injection H as <-.
    assert (G := pos_INR (e "z_l")). lra.
  - intros e _. split; [|discriminate]. intros [H|(x & H & Hx)]; [discriminate|]. cbn [demo_zi at_] in H. injection H as <-.
    assert (G := pos_INR (e "z_i")). lra.
Qed.
Lemma fresh_facts variant : In variant ["steric"; "thermosteric"; "halosteric"] ->
  exists r ref T0 S0 V0 rho0,
  setup_reference_state fresh (scalar (Fin 101325)) "Wright" None 0 = Ok ref /\
  steric fresh None None None 1035 (scalar (Fin 101325)) "Wright" variant "local" true = Ok (r, ref) /\
  dget "thetao" ref = Some T0 /\ dget "so" ref = Some S0 /\ dget "volcello" ref = Some V0 /\ dget "rho" ref = Some rho0 /\
  (forall e, at_ T0 e = Fin 10) /\ (forall e, at_ S0 e = Fin 35) /\
  (forall e k, (k < 2)%nat -> exists x, at_ rho0 (upd e "z_l" k) = Fin x).
Proof.
  intros Hv.
  assert (Hm : same_name "Wright" (module_name Wright)) by (apply same_name_lower; reflexivity).
  assert (Hk : py_index 0 2 = Some O) by reflexivity.
  destruct (reference_ok _ _ _ _ _ _ _ _ _ _ _ _ _ _ _ _ _ _ fresh_regular (Fin 101325) "Wright" Wright Hm None 0 0 eq_refl Hk)
    as (T0 & S0 & V0 & rho0 & volo & masso & rhoga & E & D1 & D2 & D3 & D4 & D5 & D6 & D7 & V1 & V2 & V3).
  destruct (steric_ok_given _ _ _ _ _ _ _ _ _ _ _ _ _ _ _ _ _ _ fresh_regular true (Fin 101325) "Wright" Wright Hm (fun _ => demo_area)
    None 1035 variant "local" eq_refl Hv T0 S0 V0 rho0 volo masso rhoga D1 D2 D3 D4 D5 D6 D7) as (r & Er).
  { intros _. lra. }
  eexists r, _, T0, S0, V0, rho0. split; [exact E|]. split; [apply reference_reuse; split; [|exact Er]; exists fresh; split; [reflexivity|exact E]|].
  repeat (split; [reflexivity|]).
  assert (H1 : forall e, at_ T0 e = Fin 10) by (intros e; rewrite V1; cbn; f_equal; lra).
  assert (H2 : forall e, at_ S0 e = Fin 35) by (intros e; rewrite V2; cbn; f_equal; lra).
  split; [exact H1|]. split; [exact H2|]. intros e k Hk2.
  rewrite (built_density fresh (scalar (Fin 101325)) "Wright" None 0 _ Wright "time" "z_l" "z_i" T0 S0 rho0 demo_zl E eq_refl
      eq_refl Hm eq_refl eq_refl eq_refl). rewrite H1, H2. cbn [at_ demo_zl scalar]. cbn [fmul fadd]. rewrite upd_same.
  rewrite eos_density_Fin; [eexists; reflexivity|]. cbn [eos_defined].
  apply Rgt_not_eq, denom_pos. unfold ocean_box. destruct k as [|[|k]]; [cbn; lra|cbn; lra|lia].
Qed.
