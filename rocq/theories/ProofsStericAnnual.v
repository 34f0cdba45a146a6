(** * ProofsStericAnnual: steric with annual averaging *)
From Coq Require Import Reals ZArith Lra Lia List String Bool Arith.
From Verif Require Import Num NumFacts Py Arr ArrFacts Calendar TimeAvg Eos SpecEos Derived Dataset SpecSteric
  ProofsEos ProofsEosApi ProofsFields ProofsSteric ProofsSteric2 ProofsSteric3 ProofsSteric4 ProofsStericOk ProofsSteric5 ProofsStericDemo ProofsUtil ProofsAvg.
Import ListNotations.
Local Open Scope string_scope.
Local Open Scope R_scope.

(** The demo dataset with twelve months and a time dimension called "t" or "time". *)
Section named.
  Variable tn : string.
  Definition t4 : list (string * nat) := [(tn, 12%nat); ("z_l", 2%nat); ("yh", 2%nat); ("xh", 2%nat)].
  Definition tdemo_T := mkArr t4 (fun e => Fin (10 + INR (e tn))).
  Definition tdemo_S := mkArr t4 (fun _ => Fin 35).
  Definition tdemo_V := mkArr t4 (fun e => if Nat.eqb (e "xh") 1 then NaN else Fin 1000).
  Definition tdemo : dataset :=
    [("thetao", tdemo_T); ("so", tdemo_S); ("volcello", tdemo_V); ("areacello", demo_A); ("deptho", demo_D);
     ("z_l", demo_zl); ("z_i", demo_zi)].
End named.

Lemma tdemo_regular tn : tn = "t" \/ tn = "time" ->
  regular (tdemo tn) tn "z_l" "yh" "xh" "z_i" "z_i" 12 2 2 2 (tdemo_T tn) (tdemo_S tn) (tdemo_V tn) demo_A demo_D demo_zl demo_zi.
Proof.
  intros [-> | ->].
  all: constructor; try reflexivity; try lia;
    try (match goal with |- wf_arr demo_D => exact (demo_wf "deptho" demo_D eq_refl) | |- wf_arr demo_zl => exact (demo_wf "z_l" demo_zl eq_refl)
         | |- wf_arr demo_zi => exact (demo_wf "z_i" demo_zi eq_refl) end); try solve [nodup].
  all: intros e _.
  all: try (intros [H|(x & H & Hx)]; [discriminate|]; cbn in H; injection H as <-; lra).
  all: split; [|discriminate]; intros [H|(x & H & Hx)]; [discriminate|]; cbn [demo_zl demo_zi at_] in H; injection H as <-.
  all: assert (G := pos_INR (e "z_l")); assert (G' := pos_INR (e "z_i")); lra.
Qed.

Lemma tdemo_ok tn : tn = "t" \/ tn = "time" -> exists r ref,
  steric (tdemo tn) None (Some [("t", tn)]) None 1035 (scalar (Fin 101325)) "Linear" "steric" "local" true = Ok (r, ref).
Proof.
  intros Ht. assert (Hm : same_name "Linear" (module_name Linear)) by (apply same_name_lower; reflexivity).
  exact (steric_ok _ _ _ _ _ _ _ _ _ _ _ _ _ _ _ _ _ _ (tdemo_regular tn Ht) true (Fin 101325) "Linear" Linear Hm (fun _ => demo_area)
    (Some [("t", tn)]) 1035 "steric" "local" eq_refl (or_introl eq_refl) ltac:(lia) ltac:(intros; lra)).
Qed.

(** The local result always carries the time dimension. *)
Lemma local_has_time ds ref rho rz variant t z zb r :
  steric_local ds ref rho rz variant t z zb = Ok r -> exists delta, In ("delta_rho", delta) r /\ has_dim t delta = true.
Proof.
  unfold steric_local. intros H. repeat (apply bind_inv in H; destruct H as (? & ? & H)).
  apply Ok_inj in H. subst r.
  match goal with H : transpose_first t _ = Ok ?d |- context [("delta_rho", ?d')] =>
    exists d'; split; [left; reflexivity|] end.
  repeat match goal with H : transpose_first t _ = Ok _ |- _ =>
    unfold transpose_first in H; destruct (dget t _) eqn:?; [|discriminate]; apply Ok_inj in H; subst end.
  unfold has_dim, dmem. cbn [adims dget]. rewrite String.eqb_refl. reflexivity.
Qed.
