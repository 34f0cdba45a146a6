(** * PropertiesPieces2: concrete cases for C117, C118 *)
From Coq Require Import Reals Lra Lia List String Bool Arith FunctionalExtensionality.
From Verif Require Import Num NumFacts Py Arr ArrFacts Eos Derived Dataset SpecEos SpecSteric SpecUnits ProofsEos ProofsEosApi SpecPieces ProofsDz ProofsPieces
  ProofsStericOk ProofsSteric3 ProofsStericDemo PropertiesDz PropertiesN2 PropertiesBudget PropertiesPieces.
Import ListNotations.
Local Open Scope string_scope.

Definition pc_d3 : list (string * nat) := [("z_l", 2%nat); ("yh", 2%nat); ("xh", 2%nat)].
Definition pc_V := mkArr pc_d3 (fun e => if Nat.eqb (e "xh") 1 then NaN else Fin 1000).
Definition pc_ref : dataset :=
  [("thetao", mkArr pc_d3 (fun _ => Fin 10)); ("so", mkArr pc_d3 (fun _ => Fin 35)); ("volcello", pc_V); ("rho", mkArr pc_d3 (fun _ => Fin 1026));
   ("volo", scalar (Fin 4000)); ("masso", scalar (Fin 4104000)); ("rhoga", scalar (Fin 1026)); ("areacello", demo_A)].
Lemma pc_steric domain strict : exists r, steric demo (Some pc_ref) None None 1035 (scalar (Fin 101325)) "Linear" "steric" domain strict = Ok (r, pc_ref).
Proof.
  assert (Hm : same_name "Linear" (module_name Linear)) by (apply same_name_lower; reflexivity).
  apply (steric_ok_given _ _ _ _ _ _ _ _ _ _ _ _ _ _ _ _ _ _ demo_regular strict (Fin 101325) "Linear" Linear Hm (fun _ => demo_area)
    None 1035 "steric" domain eq_refl (or_introl eq_refl)); try reflexivity. intros _. lra.
Qed.
Ltac entries H := cbn [demo pc_ref dget] in H; repeat (match type of H with context [String.eqb ?k ?n] => destruct (String.eqb k n) end; [injection H as <-|]); [..|discriminate H].
Lemma pc_sized d k a : In d ["time"; "yh"; "xh"] -> dget k demo = Some a -> sized d 2 a.
Proof.
  intros Hd H. entries H; intros m I; cbn in I, Hd; intuition (subst; try discriminate; try (injection H as <-; reflexivity); try congruence).
Qed.
Lemma pc_sized_ref d k a : In d ["time"; "yh"; "xh"] -> dget k pc_ref = Some a -> sized d 2 a.
Proof.
  intros Hd H. entries H; intros m I; cbn in I, Hd; intuition (subst; try discriminate; try congruence).
Qed.
Lemma pc_wf k a : In (k, a) pc_ref -> wf_arr a /\ ~ In "time" (names a).
Proof.
  intros H. cbn in H. repeat (destruct H as [H|H]; [injection H as <- <-; split; [apply wf_of; [nodup|intros e e' He; try reflexivity; rewrite ?(He "xh") by (cbn; tauto); reflexivity]|cbn; intuition discriminate]|]). destruct H.
Qed.

(** The second month alone, in either domain, and the first column in x alone. *)
Example C117_nonvacuous : (forall domain, exists r,
  steric demo (Some pc_ref) None None 1035 (scalar (Fin 101325)) "Linear" "steric" domain true = Ok (r, pc_ref) /\
  steric (select_all "time" 1 (fun _ => 1%nat) demo) (Some pc_ref) None None 1035 (scalar (Fin 101325)) "Linear" "steric" domain true =
    Ok (select_all "time" 1 (fun _ => 1%nat) r, pc_ref)) /\
  (exists r, steric demo (Some pc_ref) None None 1035 (scalar (Fin 101325)) "Linear" "steric" "local" false = Ok (r, pc_ref) /\
  steric (select_all "xh" 1 (fun _ => 0%nat) demo) (Some (select_all "xh" 1 (fun _ => 0%nat) pc_ref)) None None 1035
    (select "xh" 1 (fun _ => 0%nat) (scalar (Fin 101325))) "Linear" "steric" "local" false =
    Ok (select_all "xh" 1 (fun _ => 0%nat) r, select_all "xh" 1 (fun _ => 0%nat) pc_ref)).
Proof.
  split.
  - intros domain. destruct (pc_steric domain true) as (r & E). exists r. split; [exact E|].
    apply (C117_time 1 (fun _ => 1%nat) 2 demo pc_ref None 1035 (scalar (Fin 101325)) "Linear" "steric" domain true r "time" "z_l" "z_i").
    + reflexivity.
    + discriminate.
    + intros k Hk. lia.
    + intros k a H. split; [apply (demo_wf k a H)|apply (pc_sized "time" k a); [cbn; tauto|exact H]].
    + exact pc_wf.
    + split; [apply wf_of; [constructor|reflexivity]|intros []].
    + intros k a Hk H. cbn in Hk. destruct Hk as [<-|[<-|[<-|[]]]]; cbn in H; injection H as <-; cbn; intuition discriminate.
    + intros k a Hk H. cbn in Hk. destruct Hk as [<-|[<-|[]]]; cbn in H; injection H as <-; cbn; tauto.
    + exact E.
  - destruct (pc_steric "local" false) as (r & E). exists r. split; [exact E|].
    apply (C117_steric "xh" 1 (fun _ => 0%nat) 2 demo pc_ref None 1035 (scalar (Fin 101325)) "Linear" "steric" "local" false r "time" "z_l" "z_i"); try reflexivity; try discriminate.
    + intros k Hk. lia.
    + intros k a H. split; [apply (demo_wf k a H)|apply (pc_sized "xh" k a); [cbn; tauto|exact H]].
    + intros k a H. apply (pc_sized_ref "xh" k a); [cbn; tauto|exact H].
    + intros m [].
    + intros a [H|H]; cbn in H; injection H as <-; cbn; intuition discriminate.
    + intros a [H|H]; cbn in H; injection H as <-; cbn; tauto.
    + left. reflexivity.
    + left. reflexivity.
    + exact E.
Qed.

Ltac szd := let m := fresh in let I := fresh in intros m I; cbn in I; intuition congruence.
Definition pc_p := mkArr [("z_l", 2%nat)] (fun e => Fin (INR (e "z_l"))).
Definition pc_z (k : nat) : fval := Fin (INR k * 10 + 5).
Definition pc_t := mkArr [("time", 2%nat); ("z_l", 3%nat); ("xh", 2%nat)] (fun e => Fin (10 - INR (e "z_l"))).
Definition pc_s := mkArr [("time", 2%nat); ("z_l", 3%nat); ("xh", 2%nat)] (fun e => Fin (35 + INR (e "time"))).
Definition pc_vel : dict arr :=
  [("uo", mkArr [("time", 2%nat); ("yh", 3%nat); ("xq", 3%nat)] (fun e => Fin (INR (e "yh") + INR (e "time"))));
   ("vo", mkArr [("time", 2%nat); ("yq", 3%nat); ("xh", 3%nat)] (fun e => Fin (INR (e "xh"))));
   ("dxCu", mkArr [("yh", 3%nat); ("xq", 3%nat)] (fun _ => Fin 2));
   ("dyCv", mkArr [("yq", 3%nat); ("xh", 3%nat)] (fun _ => Fin 2));
   ("areacello_bu", mkArr [("yq", 3%nat); ("xq", 3%nat)] (fun _ => Fin 4))].
Example C118_nonvacuous :
  (sized "time" 2 demo_T /\ sized "time" 2 demo_S /\ sized "time" 2 pc_p /\ carried "time" demo_T demo_S pc_p /\
   exists r, calc_rho demo_T demo_S pc_p "Linear" = Ok r) /\
  (sized "xh" 2 pc_t /\ sized "xh" 2 pc_s /\ carried "xh" pc_t pc_s (scalar (Fin 101325)) /\
   (exists r, calc_n2 false pc_t pc_s pc_z "Linear" (Fin (-9.8)) (scalar (Fin 101325)) "z_l" false = Ok r) /\
   exists r, calc_stability_angle false pc_t pc_s pc_s pc_z "Linear" "z_l" = Ok r) /\
  (sized "xh" 2 exn_n2 /\ sized "xh" 2 exn_dz /\ (exists l, adims exn_n2 = ("z_l", 3%nat) :: l) /\
   (exists r, adjust_negative_n2 exn_n2 "z_l" = Ok r) /\ exists r, calc_wave_speed exn_n2 exn_dz "z_l" = Ok r) /\
  (sized "time" 2 ev_rho /\ sized "time" 2 ev_vol /\ exists r, calc_masso ev_rho ev_vol "time" = Ok r) /\
  (vertical_or_time "time" default_grid /\ (forall k a, dget k pc_vel = Some a -> sized "time" 2 a) /\
   exists r, calc_rel_vort pc_vel None default_grid false = Ok r) /\
  (~ In "xh" (names ex_levels) /\ ~ In "xh" (names ex_ifaces) /\ sized "xh" 3 ex_depth /\ positions_in 3 2 S /\
   wf_arr ex_levels /\ wf_arr ex_ifaces /\ wf_arr ex_depth /\ exists r, calc_dz ex_levels ex_ifaces ex_depth (Fin 0) None false = Ok r).
Proof.
  split; [repeat split; [szd|szd|szd|left; cbn; tauto|eexists; reflexivity]|].
  split; [repeat split; [szd|szd|left; cbn; tauto|eexists; reflexivity|eexists; reflexivity]|].
  split; [repeat split; [szd|szd|eexists; reflexivity| |]; destruct C17_C22_nonvacuous as (A & B & _); assumption|].
  split; [repeat split; [szd|szd|eexists; reflexivity]|].
  split; [split; [repeat split; discriminate|split; [|eexists; reflexivity]]|].
  { intros k a H. cbn [pc_vel dget] in H. repeat (match type of H with context [String.eqb ?k ?n] => destruct (String.eqb k n) end; [injection H as <-; szd|]). discriminate H. }
  split; [cbn; intuition discriminate|]. split; [cbn; intuition discriminate|]. split; [szd|]. split; [intros k Hk; lia|].
  destruct ex_wf as (A & B & C). split; [exact A|]. split; [exact B|]. split; [exact C|]. apply ex_accept.
Qed.
