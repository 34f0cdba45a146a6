(** * PropertiesFloat5: C138 (the local steric height of single precision data) *)
From Coq Require Import Reals Lra Lia List ZArith QArith Bool.
From Flocq Require Import Core IEEE754.BinarySingleNaN.
From Verif Require Import SpecFloat64 Ieee Ieee32 SpecIeee SpecIeee32 SpecDz SpecEos ProofsIeee ProofsFloat3 ProofsFloat4 ProofsFloat5 ProofsFloat6
  ProofsFloat13 ProofsFloat14 PropertiesFloat.
Import ListNotations.
Local Open Scope R_scope.

(** What holds: in an ocean column of at most 1000 levels, summed in any order, the error is at most
    0.78 micrometres per metre of water. *)
Theorem C138_column32_partial : forall (rhozero depth patm : f64) (column : list cell32) (h : f64),
  is_finite rhozero = true -> 1000 <= B2R rhozero <= 1100 ->
  is_finite depth = true -> 0 <= B2R depth ->
  is_finite patm = true -> 0 <= B2R patm <= 110000 ->
  (forall c, In c column ->
     cell_finite (wide c) /\ 0 <= B2R (ztop32 c) <= B2R (zbot32 c) /\ (wet32 c = true -> wet_ok (wide c))) ->
  let water := rsum (map (fun c => thickness (B2R depth) (wide c)) column) in
  water <= 12000 -> (length column <= 1000)%nat ->
  steric32 rhozero depth patm column h ->
  is_finite h = true
  /\ Rabs (B2R h - exact_height (B2R rhozero) (B2R depth) (B2R patm) (map wide column)) <= 7.8e-7 * water + 1e-9.
Proof. intros rhozero depth patm column h F1 H1 F2 H2 F3 H3 Hc water Ht Hn Hs. apply column_close32; assumption. Qed.
Print Assumptions C138_column32_partial.

(** Unchanged temperature and salinity still give exactly zero, whatever their values. *)
Theorem C138_unchanged32_partial : forall (rhozero depth patm : f64) (column : list cell32) (h : f64),
  is_finite rhozero = true -> 1 <= B2R rhozero -> is_finite depth = true -> 0 <= B2R depth ->
  (forall c, In c column -> cell_finite (wide c) /\ 0 <= B2R (ztop32 c) /\ 0 <= B2R (zbot32 c)
     /\ temp32 c = temp_ref32 c /\ salt32 c = salt_ref32 c) ->
  steric32 rhozero depth patm column h -> is_finite h = true /\ B2R h = 0.
Proof.
  intros rhozero depth patm column h F1 H1 F2 H2 Hc (s & Hs & ->).
  apply height_zero; [exact F1|exact H1|]. apply (sum_zero _ _ Hs).
  apply Forall_forall. intros x Hx. apply in_map_iff in Hx as (c & <- & Ic).
  destruct (Hc c Ic) as (A1 & A2 & A3 & A4 & A5). apply term_unchanged32; assumption.
Qed.
Print Assumptions C138_unchanged32_partial.

(** Six levels of 1000 m at 1.78 degC and 34 PSU, warmed by 1/2048 K. *)
Definition level32 (k : Z) : cell32 :=
  let T0 := narrow (lit (7305 # 4096)) in let T := narrow (lit (7307 # 4096)) in let S := narrow (lit 34) in
  mkCell32 (of_Z (1000 * k)) (of_Z (1000 * (k + 1))) (of_Z (1000 * k + 500)) true T S T0 S.
Definition col138 : list cell32 := map level32 [0; 1; 2; 3; 4; 5]%Z.

Lemma thick_level k : In k [0; 1; 2; 3; 4; 5]%Z -> thickness (B2R (of_Z 6000)) (wide (level32 k)) = 1000.
Proof.
  intros I. unfold thickness. cbn [wide level32 ztop zbot ztop32 zbot32]. b2r (of_Z 6000) H6.
  assert (E : B2R (of_Z (1000 * k)) = 1000 * IZR k /\ B2R (of_Z (1000 * (k + 1))) = 1000 * IZR k + 1000 /\ 0 <= IZR k <= 5).
  { destruct I as [<-|[<-|[<-|[<-|[<-|[<-|[]]]]]]];
      match goal with |- B2R ?x = _ /\ B2R ?y = _ /\ _ => b2r x H0; b2r y H1; lra end. }
  destruct E as (-> & -> & R). unfold overlap, Rmin, Rmax. repeat destruct (Rle_dec _ _); lra.
Qed.
Lemma thick138 : rsum (map (fun c => thickness (B2R (of_Z 6000)) (wide c)) col138) = 6000.
Proof.
  unfold col138. rewrite map_map.
  rewrite (map_ext_in _ (fun _ => 1000)) by (intros k I; apply thick_level; exact I). cbn [map rsum]. lra.
Qed.

Theorem C138_refuted : exists h : f64,
  (forall c, In c col138 -> cell_finite (wide c) /\ 0 <= B2R (ztop32 c) <= B2R (zbot32 c) /\ (wet32 c = true -> wet_ok (wide c))) /\
  rsum (map (fun c => thickness (B2R (of_Z 6000)) (wide c)) col138) = 6000 /\
  (forall c, In c col138 -> B2R (temp_ref32 c) < B2R (temp32 c) /\ salt32 c = salt_ref32 c) /\
  steric32 (of_Z 1035) (of_Z 6000) (of_Z 101325) col138 h /\
  exact_height (B2R (of_Z 1035)) (B2R (of_Z 6000)) (B2R (of_Z 101325)) (map wide col138) > 4e-4 /\ B2R h < -1e-4.
Proof.
  assert (Hcells : forall c, In c col138 -> cell_finite (wide c) /\ 0 <= B2R (ztop32 c) <= B2R (zbot32 c) /\ (wet32 c = true -> wet_ok (wide c))).
  { intros c [<-|[<-|[<-|[<-|[<-|[<-|[]]]]]]];
      match goal with |- context [level32 ?k] =>
        b2r (ztop32 (level32 k)) H0; b2r (zbot32 (level32 k)) H1; b2r (zmid32 (level32 k)) H2;
        b2r (temp (wide (level32 k))) H3; b2r (salt (wide (level32 k))) H4; b2r (temp_ref (wide (level32 k))) H5; b2r (salt_ref (wide (level32 k))) H6;
        (split; [split; vm_compute; reflexivity|]); (split; [lra|]); intros _; unfold wet_ok;
        do 5 (split; [vm_compute; reflexivity|]); change (zmid (wide (level32 k))) with (zmid32 (level32 k)); lra end. }
  b2r (of_Z 6000) H6. b2r (of_Z 1035) H7. b2r (of_Z 101325) H8.
  pose (t := map (term32 (of_Z 6000) (of_Z 101325)) col138).
  pose (w := map (term64 (of_Z 6000) (of_Z 101325)) (map wide col138)).
  assert (Add6 : forall l : list f64, length l = 6%nat -> exists s, sum64 l s /\
    s = (nth 0 l zero + (nth 1 l zero + (nth 2 l zero + (nth 3 l zero + (nth 4 l zero + nth 5 l zero)))))%f64).
  { intros l Hl. destruct l as [|a [|b [|c [|d [|e [|f [|]]]]]]]; try discriminate. eexists. split; [|reflexivity]. cbn [nth].
    exact (sum_add [a] ([b] ++ [c] ++ [d] ++ [e] ++ [f]) _ _ (sum_one a) (sum_add [b] ([c] ++ [d] ++ [e] ++ [f]) _ _ (sum_one b)
      (sum_add [c] ([d] ++ [e] ++ [f]) _ _ (sum_one c) (sum_add [d] ([e] ++ [f]) _ _ (sum_one d) (sum_add [e] [f] _ _ (sum_one e) (sum_one f)))))). }
  destruct (Add6 t eq_refl) as (s & Hs & Es). destruct (Add6 w eq_refl) as (s' & Hs' & Es').
  exists (lit (-1) / of_Z 1035 * s)%f64. split; [exact Hcells|].
  assert (Th := thick138).
  split; [exact Th|]. split; [|split; [exists s; split; [exact Hs|reflexivity]|split]].
  - intros c Ic. assert (E : exists k, c = level32 k) by (apply in_map_iff in Ic as (k & <- & _); exists k; reflexivity).
    destruct E as (k & ->). split; [|reflexivity].
    assert (E0 : temp_ref32 (level32 k) = temp_ref32 (level32 0)) by reflexivity. assert (E1 : temp32 (level32 k) = temp32 (level32 0)) by reflexivity.
    rewrite E0, E1. clear. b2r (temp_ref32 (level32 0)) H0. b2r (temp32 (level32 0)) H1. lra.
  - assert (St : steric64 (of_Z 1035) (of_Z 6000) (of_Z 101325) (map wide col138) (lit (-1) / of_Z 1035 * s')%f64) by (exists s'; split; [exact Hs'|reflexivity]).
    assert (C : Rabs (B2R (lit (-1) / of_Z 1035 * s')%f64 - exact_height (B2R (of_Z 1035)) (B2R (of_Z 6000)) (B2R (of_Z 101325)) (map wide col138)) <= 3e-10).
    { apply (C92_column64 (of_Z 1035) (of_Z 6000) (of_Z 101325) (map wide col138)); try lra; try (match goal with |- is_finite _ = true => vm_compute; reflexivity end).
      - intros c Ic. apply in_map_iff in Ic as (d & <- & Id). exact (Hcells d Id).
      - rewrite map_map, Th. lra.
      - cbn. lia.
      - exact St. }
    subst s'. unfold w in C. clear Es Hs St Hs' H6 H7 H8 Th Add6 Hcells. clear t s w.
    b2r (lit (-1) / of_Z 1035 * (nth 0 (map (term64 (of_Z 6000) (of_Z 101325)) (map wide col138)) zero
      + (nth 1 (map (term64 (of_Z 6000) (of_Z 101325)) (map wide col138)) zero + (nth 2 (map (term64 (of_Z 6000) (of_Z 101325)) (map wide col138)) zero
      + (nth 3 (map (term64 (of_Z 6000) (of_Z 101325)) (map wide col138)) zero + (nth 4 (map (term64 (of_Z 6000) (of_Z 101325)) (map wide col138)) zero
      + nth 5 (map (term64 (of_Z 6000) (of_Z 101325)) (map wide col138)) zero))))))%f64 HH.
    rewrite HH in C. apply Rabs_le_inv in C. lra.
  - subst s. unfold t. clear.
    b2r (lit (-1) / of_Z 1035 * (nth 0 (map (term32 (of_Z 6000) (of_Z 101325)) col138) zero
      + (nth 1 (map (term32 (of_Z 6000) (of_Z 101325)) col138) zero + (nth 2 (map (term32 (of_Z 6000) (of_Z 101325)) col138) zero
      + (nth 3 (map (term32 (of_Z 6000) (of_Z 101325)) col138) zero + (nth 4 (map (term32 (of_Z 6000) (of_Z 101325)) col138) zero
      + nth 5 (map (term32 (of_Z 6000) (of_Z 101325)) col138) zero))))))%f64 HH.
    rewrite HH. lra.
Qed.
Print Assumptions C138_refuted.

(** The hypotheses are met by this column, and by the unwarmed one for C138_unchanged32_partial. *)
Example C138_data : exists h, steric32 (of_Z 1035) (of_Z 6000) (of_Z 101325) col138 h /\ is_finite h = true /\
  Rabs (B2R h - exact_height (B2R (of_Z 1035)) (B2R (of_Z 6000)) (B2R (of_Z 101325)) (map wide col138)) <= 4.7e-3.
Proof.
  destruct C138_refuted as (h & Hc & Ht & _ & Hs & _). exists h. split; [exact Hs|].
  b2r (of_Z 6000) H6. b2r (of_Z 1035) H7. b2r (of_Z 101325) H8.
  destruct (C138_column32_partial (of_Z 1035) (of_Z 6000) (of_Z 101325) col138 h) as [F E]; try lra; try exact Hc; try exact Hs; try (rewrite Ht; lra);
    try (match goal with |- is_finite _ = true => vm_compute; reflexivity end); [cbn; lia|].
  rewrite Ht in E. split; [exact F|lra].
Qed.
Example C138_still : let still := map (fun c => mkCell32 (ztop32 c) (zbot32 c) (zmid32 c) true (temp_ref32 c) (salt_ref32 c) (temp_ref32 c) (salt_ref32 c)) col138 in
  (forall c, In c still -> cell_finite (wide c) /\ 0 <= B2R (ztop32 c) /\ 0 <= B2R (zbot32 c) /\ temp32 c = temp_ref32 c /\ salt32 c = salt_ref32 c)
  /\ is_finite (temp32 (hd (level32 0) still)) = true.
Proof.
  intros still. split; [|vm_compute; reflexivity]. intros c Ic. apply in_map_iff in Ic as (d & <- & Id).
  destruct C138_refuted as (_ & Hc & _). destruct (Hc d Id) as ([A B] & C & _). cbn [ztop32 zbot32 temp32 temp_ref32 salt32 salt_ref32].
  split; [split; [exact A|exact B]|]. repeat split; try lra; reflexivity.
Qed.
