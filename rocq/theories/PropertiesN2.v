(** * PropertiesN2: C17, C18, C21-C23 *)
From Coq Require Import Reals Lra Lia List String Bool Arith.
From Verif Require Import Num NumFacts Py Arr ArrFacts Eos SpecEos Derived SpecN2 SpecDz
  ProofsEosApi ProofsFields ProofsFields2 ProofsFields3 ProofsDz ProofsN2 ProofsWave ProofsRename PropertiesDz.
Import ListNotations.
Local Open Scope R_scope.

(** C17 *)
Theorem C17_adjust_negative_n2 : forall n2 zc n rest, adims n2 = (zc, S n) :: rest -> NoDup (names n2) ->
  exists r, adjust_negative_n2 n2 zc = Ok r /\ adims r = adims n2 /\
   forall e, let column := fun k => at_ n2 (upd e zc k) in
    stabilised column (e zc) (at_ r e) /\
    (at_ r e = NaN <-> at_ n2 e = NaN) /\ (at_ n2 e <> NaN -> positive (at_ r e)).
Proof.
  intros n2 zc n rest Hd Hn. assert (H := adjust_total _ _ _ _ Hd Hn).
  destruct (adjust_negative_n2 n2 zc) as [r|] eqn:E; [|discriminate]. exists r. split; [reflexivity|].
  destruct (adjust_first _ _ _ _ _ E Hd) as [H1 H2]. split; [exact H1|]. intros e column. split; [apply H2|].
  assert (F := stabilised_facts _ _ _ (H2 e)). cbv beta in F. rewrite upd_id in F. exact F.
Qed.
Print Assumptions C17_adjust_negative_n2.

(** C18 is false: whenever a later surface value is unstable the result is missing there,
    so it is not the stabilised value. *)
Theorem C18_time_dependent_refuted : forall n2 zc d0 n0 rest r e,
  adjust_negative_n2 n2 zc = Ok r -> adims n2 = (d0, n0) :: rest -> d0 <> zc ->
  e d0 <> O -> e zc = O -> at_ n2 e <> NaN -> ~ positive (at_ n2 e) ->
  at_ r e = NaN /\ ~ stabilised (fun k => at_ n2 (upd e zc k)) (e zc) (at_ r e).
Proof.
  intros n2 zc d0 n0 rest r e H Hd Hne Ht Hz Hn Hp.
  destruct (adjust_time _ _ _ _ _ _ H Hd Hne e) as (_ & _ & H3). cbv beta in H3. rewrite upd_id in H3.
  destruct (H3 Hn Hp) as [_ H4].
  assert (E : at_ r e = NaN).
  { destruct (H4 Ht) as [(j & Hj & _)|[_ E]]; [rewrite Hz in Hj; lia|exact E]. }
  split; [exact E|]. intros S. apply stabilised_facts in S as [S _]. cbv beta in S. rewrite upd_id in S.
  apply Hn, S, E.
Qed.
Print Assumptions C18_time_dependent_refuted.

(** What does hold for a leading time (or other) dimension [d0]. *)
Theorem C18_time_dependent_partial : forall n2 zc d0 n0 rest r,
  adjust_negative_n2 n2 zc = Ok r -> adims n2 = (d0, n0) :: rest -> d0 <> zc ->
  forall e, let f := fun k => at_ n2 (upd e zc k) in
  (f (e zc) = NaN -> at_ r e = NaN) /\
  (positive (f (e zc)) -> at_ r e = f (e zc)) /\
  (f (e zc) <> NaN -> ~ positive (f (e zc)) ->
     (e d0 = O -> at_ r e = small) /\
     (e d0 <> O -> (exists j, (j < e zc)%nat /\ positive (f j) /\ (forall i, (j < i < e zc)%nat -> ~ positive (f i)) /\ at_ r e = f j)
                   \/ ((forall j, (j < e zc)%nat -> ~ positive (f j)) /\ at_ r e = NaN))).
Proof. exact adjust_time. Qed.
Print Assumptions C18_time_dependent_partial.

(** C21 is false: with another coordinate name the two functions always raise. *)
Theorem C21_zcoord_refuted : forall ti t s z eos g patm zc n2 dz,
  zc <> "z_l"%string -> ~ In "z_l"%string (names t) -> ~ In "z_l"%string (names s) -> ~ In "z_l"%string (names patm) ->
  ~ In "z_l"%string (names n2) ->
  is_ok (calc_n2 ti t s z eos g patm zc true) = false /\ is_ok (calc_wave_speed n2 dz zc) = false.
Proof.
  intros ti t s z eos g patm zc n2 dz Hz Ht Hs Hp Hn.
  exact (conj (n2_adjust_other_zcoord ti t s z eos g patm zc Hz Ht Hs Hp) (wave_speed_other_zcoord n2 dz zc Hn)).
Qed.
Print Assumptions C21_zcoord_refuted.

(** True part: without the adjustment the coordinate name is honoured exactly. *)
Theorem C21_zcoord_partial : forall old new ti t s z eos g patm,
  old <> new -> ~ In new (names t) -> ~ In new (names s) -> ~ In new (names patm) -> wf_arr t -> wf_arr s ->
  calc_n2 ti (rename old new t) (rename old new s) z eos g (rename old new patm) new false =
  rmap (rename old new) (calc_n2 ti t s z eos g patm old false).
Proof. exact rename_n2. Qed.
Print Assumptions C21_zcoord_partial.

(** C22 *)
Theorem C22_wave_speed : forall n2 dz n rest r e,
  calc_wave_speed n2 dz "z_l" = Ok r -> adims n2 = ("z_l"%string, n) :: rest ->
  let f := fun k => at_ n2 (upd e "z_l" k) in
  let h := fun k => at_ dz (upd e "z_l" k) in
  (forall k, (k < n)%nat -> finite_or_missing (f k) /\ finite_or_missing (h k)) ->
  (forall k x, (k < n)%nat -> h k = Fin x -> 0 <= x) ->
  (forall d, In d (names r) <-> (In d (names n2) \/ In d (names dz)) /\ d <> "z_l"%string) /\
  (at_ r e = NaN <-> f O = NaN) /\
  (f O <> NaN -> exists g c, (forall k, (k < n)%nat -> stabilised f k (g k)) /\ at_ r e = Fin c /\
     c = 1 / PI * Rsum n (fun k => n_times_dz (g k) (h k)) /\ 0 <= c).
Proof.
  intros n2 dz n rest r e H Hd f h Hfin Hpos.
  destruct (wave_column n2 dz n rest r e H Hd Hfin) as (H1 & H2 & H3). split; [exact H1|].
  assert (P := PI_RGT_0).
  assert (G : f O <> NaN -> exists g c, (forall k, (k < n)%nat -> stabilised f k (g k)) /\ at_ r e = Fin c /\
     c = 1 / PI * Rsum n (fun k => n_times_dz (g k) (h k)) /\ 0 <= c).
  { intros H0. destruct (H3 H0) as (g & Hg & E). eexists g, _. split; [exact Hg|]. split; [exact E|].
    split; [reflexivity|]. apply Rmult_le_pos.
    - apply Rlt_le, Rdiv_lt_0_compat; lra.
    - apply Rsum_nonneg. intros k Hk. apply n_times_dz_nonneg. intros x Hx. exact (Hpos k x Hk Hx). }
  split; [|exact G]. split; [|exact H2]. intros E.
  destruct (f O) as [|s|x] eqn:E0; [reflexivity| |]; exfalso;
    (destruct (G ltac:(discriminate)) as (g & c & _ & Ec & _); rewrite E in Ec; discriminate).
Qed.
Print Assumptions C22_wave_speed.

(** C23 is false: the vertical dimension always remains in the result. *)
Theorem C23_time_dependent_refuted : forall n2 dz zc d0 n0 rest r,
  calc_wave_speed n2 dz zc = Ok r -> adims n2 = (d0, n0) :: rest -> d0 <> "z_l"%string ->
  In "z_l"%string (names r).
Proof.
  intros n2 dz zc d0 n0 rest r H Hd Hne. apply wave_inv in H as (adj & d0' & n0' & rest' & Ha & Hd' & _ & Hn & _).
  rewrite Hd in Hd'. injection Hd' as <- <- <-. apply adjust_inv in Ha as (_ & _ & _ & _ & Hin & _).
  apply Hn. left. split; [exact Hin|congruence].
Qed.
Print Assumptions C23_time_dependent_refuted.

(** True part: along that spurious dimension the result is constant except where the first
    time level of N2 is missing. *)
Theorem C23_time_dependent_partial : forall n2 dz d0 n0 rest r e k,
  calc_wave_speed n2 dz "z_l" = Ok r -> adims n2 = (d0, n0) :: rest -> d0 <> "z_l"%string ->
  (at_ n2 (upd e d0 0) = NaN -> at_ r e = NaN) /\
  (at_ n2 (upd e d0 0) <> NaN -> at_ n2 (upd (upd e "z_l" k) d0 0) <> NaN ->
     at_ r (upd e "z_l" k) = at_ r e).
Proof.
  intros n2 dz d0 n0 rest r e k H Hd Hne. apply wave_inv in H as (adj & d0' & n0' & rest' & Ha & Hd' & _ & _ & Hv).
  rewrite Hd in Hd'. injection Hd' as <- <- <-. rewrite !Hv. split.
  - intros ->. reflexivity.
  - intros H1 H2.
    assert (N1 : isnull (at_ n2 (upd e d0 0)) = false) by (destruct (at_ n2 (upd e d0 0)); [contradiction| |]; reflexivity).
    assert (N2 : isnull (at_ n2 (upd (upd e "z_l" k) d0 0)) = false)
      by (destruct (at_ n2 (upd (upd e "z_l" k) d0 0)); [contradiction| |]; reflexivity).
    rewrite N1, N2. f_equal. apply fsum_ext. intros i _. rewrite !upd_upd. reflexivity.
Qed.
Print Assumptions C23_time_dependent_partial.

(** Non-vacuity: a column with an unstable middle level and a missing bottom, and a
    two-time version of it with an unstable surface at the second time. *)
Definition exn_col (k : nat) : fval :=
  match k with 0%nat => Fin 1 | 1%nat => Fin (-1) | _ => NaN end.
Definition exn_n2 : arr := mkArr [("z_l"%string, 3%nat); ("xh"%string, 2%nat)] (fun e => exn_col (e "z_l"%string)).
Definition exn_dz : arr := mkArr [("z_l"%string, 3%nat)] (fun _ => Fin 10).
Example C17_C22_nonvacuous :
  (exists r, adjust_negative_n2 exn_n2 "z_l" = Ok r) /\ (exists r, calc_wave_speed exn_n2 exn_dz "z_l" = Ok r) /\
  stabilised exn_col 1 (Fin 1).
Proof.
  split; [eexists; reflexivity|]. split; [eexists; reflexivity|]. split; [discriminate|].
  split; [cbn; lra|]. intros _ _. left. exists O. cbn. repeat split; try lra; try lia.
Qed.
Definition exn_n2t : arr := mkArr [("time"%string, 2%nat); ("z_l"%string, 3%nat)]
  (fun e => match e "time"%string with O => Fin 1 | _ => Fin (-1) end).
Example C18_C23_nonvacuous :
  (exists r, adjust_negative_n2 exn_n2t "z_l" = Ok r /\
     at_ exn_n2t (upd (fun _ => O) "time" 1) <> NaN /\ ~ positive (at_ exn_n2t (upd (fun _ => O) "time" 1))) /\
  (exists r, calc_wave_speed exn_n2t exn_dz "z_l" = Ok r).
Proof.
  split; [|eexists; reflexivity]. eexists. split; [reflexivity|]. cbn. split; [discriminate|lra].
Qed.
Example C21_nonvacuous :
  is_ok (calc_n2 false w_T w_S w_z "Linear" (Fin (-9.8)) (scalar (Fin 0)) "z_l" false) = true /\ wf_arr w_T /\ wf_arr w_S.
Proof.
  split; [reflexivity|]. split; split; try (repeat constructor; intros []); intros e e' H; cbn in *;
    rewrite (H _ (or_introl eq_refl)); reflexivity.
Qed.
