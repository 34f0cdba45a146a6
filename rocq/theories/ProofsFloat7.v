(** * ProofsFloat7: concrete data for C89-C96 (proofs only) *)
From Coq Require Import Reals Lra Lia List ZArith Bool QArith.
From Flocq Require Import Core IEEE754.BinarySingleNaN.
From Verif Require Import SpecFloat64 Ieee SpecIeee SpecDz SpecEos ProofsEos ProofsEosBox ProofsThermal
  ProofsIeee ProofsFloat3 ProofsFloat4 ProofsFloat5 ProofsFloat6.
Import ListNotations.
Local Open Scope R_scope.

Definition w_T : f32 := narrow (of_Z 10).
Definition w_T' : f32 := narrow (lit (40961 # 4096)).
Definition w_S : f32 := narrow (of_Z 35).
Definition w_p : f64 := of_Z 151325.
Lemma warming32 : exists (T T' S : f32) (p : f64),
  is_finite T = true /\ is_finite T' = true /\ is_finite S = true /\ is_finite p = true
  /\ warm_box (B2R T) (B2R S) (B2R p) /\ warm_box (B2R T') (B2R S) (B2R p)
  /\ B2R T + 2e-4 < B2R T'
  /\ wr_rho (B2R T') (B2R S) (B2R p) < wr_rho (B2R T) (B2R S) (B2R p)
  /\ B2R (density32 T S p) + 1e-5 < B2R (density32 T' S p).
Proof.
  exists w_T, w_T', w_S, w_p.
  b2r w_T H1. b2r w_T' H2. b2r w_S H3. b2r w_p H4.
  b2r (density32 w_T w_S w_p) H5. b2r (density32 w_T' w_S w_p) H6.
  do 4 (split; [vm_compute; reflexivity|]).
  assert (W1 : warm_box (B2R w_T) (B2R w_S) (B2R w_p)) by (unfold warm_box, ocean_box; lra).
  assert (W2 : warm_box (B2R w_T') (B2R w_S) (B2R w_p)) by (unfold warm_box, ocean_box; lra).
  split; [exact W1|]. split; [exact W2|]. split; [lra|]. split; [|lra].
  apply rho_decreasing_T; [exact W1|exact W2|lra].
Qed.
