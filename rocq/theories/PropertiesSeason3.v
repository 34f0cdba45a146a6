(** * PropertiesSeason3: C137 (seasonal fits are linear in the data) *)
From Coq Require Import Reals ZArith List String Bool Arith Lia Lra.
From Verif Require Import Num NumFacts Py Arr ArrFacts Calendar Trend SpecTime ProofsCal ProofsUtil ProofsTide Seasonal SpecSeason
  ProofsPinv ProofsSeason ProofsSeason2 ProofsSeason3 ProofsSeason4 ProofsSeason5 PropertiesSeason PropertiesSeason2.
Import ListNotations.
Local Open Scope string_scope.
Local Open Scope R_scope.
#[local] Opaque pinv.

Definition mix (k : R) (u : fval) (l : R) (v : fval) : fval := fadd (fmul (Fin k) u) (fmul (Fin l) v).

Section Mix.
  Variables (n : nat) (td : nat -> R) (x y : nat -> fval) (k l : R).
  Hypothesis Fx : all_finite n x.
  Hypothesis Fy : all_finite n y.
  Let z i := mix k (x i) l (y i).

  Lemma mix_fin : all_finite n z.
  Proof. intros i Hi. unfold z, mix. specialize (Fx i Hi). specialize (Fy i Hi). destruct (x i), (y i); try discriminate. reflexivity. Qed.
  Lemma mix_val i : (i < n)%nat -> val (z i) = k * val (x i) + l * val (y i).
  Proof. intros Hi. unfold z, mix. specialize (Fx i Hi). specialize (Fy i Hi). destruct (x i), (y i); try discriminate. reflexivity. Qed.

  Let P := pinv n 6 (regressor n td).
  Lemma cf_mix j : cf n P (fun i => val (z i)) j = k * cf n P (fun i => val (x i)) j + l * cf n P (fun i => val (y i)) j.
  Proof.
    unfold cf. rewrite <- !Rsum_scal, <- Rsum_plus. apply Rs_ext. intros i Hi. rewrite mix_val by exact Hi. ring.
  Qed.
  Lemma coeff_mix j : coeff_of n td z j = mix k (coeff_of n td x j) l (coeff_of n td y j).
  Proof. rewrite !coeff_fin by (assumption || exact mix_fin). fold P. rewrite cf_mix. reflexivity. Qed.
  Lemma model_mix i : model_of n td z i = mix k (model_of n td x i) l (model_of n td y i).
  Proof.
    rewrite !model_fin by (assumption || exact mix_fin). fold P. unfold mix. cbn [fadd fmul]. f_equal. unfold comb.
    rewrite <- !Rsum_scal, <- Rsum_plus. apply Rs_ext. intros j _. rewrite cf_mix. ring.
  Qed.
  Lemma resid_mix i : (i < n)%nat -> resid_of n td z i = mix k (resid_of n td x i) l (resid_of n td y i).
  Proof.
    intros Hi. unfold resid_of. rewrite model_mix. rewrite !model_fin by assumption. unfold z, mix.
    specialize (Fx i Hi). specialize (Fy i Hi). destruct (x i), (y i); try discriminate. cbn. f_equal. ring.
  Qed.
End Mix.

(** Adding one of the fitted curves. *)
Lemma resid_add_curve n td x g i : all_finite n x -> (i < n)%nat ->
  resid_of n td (fun i => fadd (x i) (Fin (curve g (td i)))) i = resid_of n td x i.
Proof.
  intros Fx Hi. set (y := fun i => Fin (curve g (td i))).
  assert (Fy : all_finite n y) by (intros j _; reflexivity).
  pose proof (resid_mix n td x y 1 1 Fx Fy i Hi) as E. cbv beta in E.
  assert (Z : resid_of n td y i = Fin 0) by (apply (resid_exact n td y Fy g); [intros j _; reflexivity|exact Hi]).
  rewrite Z in E.
  assert (X : resid_of n td (fun i => fadd (x i) (Fin (curve g (td i)))) i = resid_of n td (fun i => mix 1 (x i) 1 (y i)) i).
  { unfold resid_of. assert (M : forall j, (j < n)%nat -> fadd (x j) (Fin (curve g (td j))) = mix 1 (x j) 1 (y j)).
    { intros j Hj. specialize (Fx j Hj). unfold mix, y. destruct (x j); try discriminate. cbn. f_equal. ring. }
    rewrite (M i Hi). f_equal. apply model_ext. exact M. }
  rewrite X, E. unfold mix. destruct (resid_fin n td x i Hi Fx). rewrite (resid_fin n td x i Hi Fx). cbn. f_equal. ring.
Qed.

(** [k * x + l * y], value by value. *)
Definition mixed (k : R) (x : darr) (l : R) (y : darr) : darr :=
  mkDarr (da_name x) (mkArr (adims (da_data x)) (fun e => fadd (fmul (Fin k) (at_ (da_data x) e)) (fmul (Fin l) (at_ (da_data y) e)))) (da_attrs x).

Lemma mixed_wf k x l y : wf_arr (da_data x) -> wf_arr (da_data y) -> names (da_data y) = names (da_data x) -> wf_arr (da_data (mixed k x l y)).
Proof.
  intros [N W] [N' W'] E. split; [exact N|]. intros e e' H. cbn [mixed da_data at_]. rewrite (W e e'), (W' e e'); [reflexivity| |].
  - rewrite E. exact H.
  - exact H.
Qed.

(** ** C137: seasonal_model *)
Theorem C137_model : forall ax x y k l, ta_name ax = "time" -> wf_arr (da_data x) -> wf_arr (da_data y) ->
  In ("time", List.length (ta_dates ax)) (adims (da_data x)) -> adims (da_data y) = adims (da_data x) ->
  let n := List.length (ta_dates ax) in
  exists s r s' r' s'' r'', seasonal_model ax x "time" = Ok (s, r) /\ seasonal_model ax y "time" = Ok (s', r') /\
    seasonal_model ax (mixed k x l y) "time" = Ok (s'', r'') /\
    forall e i, (i < n)%nat -> all_finite n (series (da_data x) e) -> all_finite n (series (da_data y) e) ->
      series (da_data s'') e i = fadd (fmul (Fin k) (series (da_data s) e i)) (fmul (Fin l) (series (da_data s') e i)) /\
      series (da_data r'') e i = fadd (fmul (Fin k) (series (da_data r) e i)) (fmul (Fin l) (series (da_data r') e i)).
Proof.
  intros ax x y k l Hn Wx Wy Dx Dy n.
  destruct (seasonal_model_ok ax x Hn Wx Dx) as (s & r & E & _ & _ & S1 & R1 & _).
  destruct (seasonal_model_ok ax y Hn Wy) as (s' & r' & E' & _ & _ & S2 & R2 & _); [rewrite Dy; exact Dx|].
  destruct (seasonal_model_ok ax (mixed k x l y) Hn (mixed_wf k x l y Wx Wy ltac:(unfold names; rewrite Dy; reflexivity)) Dx) as (s'' & r'' & E'' & _ & _ & S3 & R3 & _).
  exists s, r, s', r', s'', r''. split; [exact E|]. split; [exact E'|]. split; [exact E''|].
  intros e i Hi Fx Fy. unfold series. rewrite S1, S2, S3, R1, R2, R3. split.
  - exact (model_mix n (season_td ax) (series (da_data x) e) (series (da_data y) e) k l Fx Fy i).
  - exact (resid_mix n (season_td ax) (series (da_data x) e) (series (da_data y) e) k l Fx Fy i Hi).
Qed.
Print Assumptions C137_model.

(** ** C137: deseason, whatever the chunks of the two arrays *)
Theorem C137_deseason : forall ax c x y ch ch' k l, deseasonable ax c x ch -> deseasonable ax c y ch' -> adims (da_data y) = adims (da_data x) ->
  let n := List.length (ta_dates ax) in
  forall fmt, fmt = "residuals" \/ fmt = "model" ->
  exists r r' r'', snd (deseason ax x ch "time" fmt) = Ok r /\ snd (deseason ax y ch' "time" fmt) = Ok r' /\
    snd (deseason ax (mixed k x l y) ch "time" fmt) = Ok r'' /\
    forall e, inrange (adims (da_data x)) e -> all_finite n (series (da_data x) e) -> all_finite n (series (da_data y) e) ->
      at_ (da_data r'') e = fadd (fmul (Fin k) (at_ (da_data r) e)) (fmul (Fin l) (at_ (da_data r') e)).
Proof.
  intros ax c x y ch ch' k l H H' D n fmt Hf.
  assert (H'' : deseasonable ax c (mixed k x l y) ch).
  { destruct H as [W N C T P K Q]. constructor; auto. apply mixed_wf; [exact W|apply (de_wf _ _ _ _ H')|unfold names; rewrite D; reflexivity]. }
  destruct (deseason_plain ax c x ch H fmt Hf) as (r & E & _ & V).
  destruct (deseason_plain ax c y ch' H' fmt Hf) as (r' & E' & _ & V').
  destruct (deseason_plain ax c (mixed k x l y) ch H'' fmt Hf) as (r'' & E'' & _ & V'').
  rewrite E, E', E''. cbn [snd]. do 3 eexists. split; [reflexivity|]. split; [reflexivity|]. split; [reflexivity|]. cbn [da_data].
  intros e R Fx Fy. rewrite V, V', V''; [|exact R|rewrite D; exact R|exact R].
  assert (Hi : (e "time" < n)%nat) by (apply (R "time" n (de_dim _ _ _ _ H))).
  destruct Hf as [-> | ->].
  - change (String.eqb "residuals" "residuals") with true. lazy iota.
    exact (resid_mix n (deseason_td c ax) (series (da_data x) e) (series (da_data y) e) k l Fx Fy _ Hi).
  - change (String.eqb "model" "residuals") with false. lazy iota.
    exact (model_mix n (deseason_td c ax) (series (da_data x) e) (series (da_data y) e) k l Fx Fy _).
Qed.
Print Assumptions C137_deseason.

Theorem C137_coefficients : forall ax c x y ch ch' k l, deseasonable ax c x ch -> deseasonable ax c y ch' -> adims (da_data y) = adims (da_data x) ->
  ndim (da_data x) <> 1%nat ->
  let n := List.length (ta_dates ax) in
  exists r r' r'', snd (deseason ax x ch "time" "coeff") = Ok r /\ snd (deseason ax y ch' "time" "coeff") = Ok r' /\
    snd (deseason ax (mixed k x l y) ch "time" "coeff") = Ok r'' /\
    forall e, inrange (drop_dim "time" (adims (da_data x))) e -> all_finite n (series (da_data x) e) -> all_finite n (series (da_data y) e) ->
      at_ (da_data r'') e = fadd (fmul (Fin k) (at_ (da_data r) e)) (fmul (Fin l) (at_ (da_data r') e)).
Proof.
  intros ax c x y ch ch' k l H H' D Nd n.
  assert (H'' : deseasonable ax c (mixed k x l y) ch).
  { destruct H as [W N C T P K Q]. constructor; auto. apply mixed_wf; [exact W|apply (de_wf _ _ _ _ H')|unfold names; rewrite D; reflexivity]. }
  destruct (deseason_coeff ax c x ch H Nd) as (r & E & _ & V).
  destruct (deseason_coeff ax c y ch' H') as (r' & E' & _ & V'); [unfold ndim in *; rewrite D; exact Nd|].
  destruct (deseason_coeff ax c (mixed k x l y) ch H'' Nd) as (r'' & E'' & _ & V'').
  rewrite E, E', E''. cbn [snd]. do 3 eexists. split; [reflexivity|]. split; [reflexivity|]. split; [reflexivity|]. cbn [da_data].
  intros e R Fx Fy. rewrite V, V', V''; [|exact R|rewrite D; exact R|exact R].
  exact (coeff_mix n (deseason_td c ax) (series (da_data x) e) (series (da_data y) e) k l Fx Fy _).
Qed.
Print Assumptions C137_coefficients.

(** ** Adding a trend and a seasonal cycle of the fitted form leaves the residuals unchanged *)
Theorem C137_residuals : forall ax c x y ch ch' g, deseasonable ax c x ch -> deseasonable ax c y ch' -> adims (da_data y) = adims (da_data x) ->
  let n := List.length (ta_dates ax) in
  let td i := INR i / IZR (if leap c (d_year (time_of (ta_dates ax) i)) then 366 else 365) in
  exists r r', snd (deseason ax x ch "time" "residuals") = Ok r /\ snd (deseason ax y ch' "time" "residuals") = Ok r' /\
    forall e, inrange (adims (da_data x)) e -> all_finite n (series (da_data x) e) ->
      (forall i, (i < n)%nat -> series (da_data y) e i = fadd (series (da_data x) e i) (Fin (curve g (td i)))) ->
      at_ (da_data r') e = at_ (da_data r) e.
Proof.
  intros ax c x y ch ch' g H H' D n td.
  destruct (deseason_plain ax c x ch H "residuals" (or_introl eq_refl)) as (r & E & _ & V).
  destruct (deseason_plain ax c y ch' H' "residuals" (or_introl eq_refl)) as (r' & E' & _ & V').
  change (String.eqb "residuals" "residuals") with true in V, V'. lazy iota in V, V'.
  rewrite E, E'. do 2 eexists. split; [reflexivity|]. split; [reflexivity|]. cbn [da_data]. intros e R Fx Y.
  assert (Hi : (e "time" < n)%nat) by (apply (R "time" n (de_dim _ _ _ _ H))).
  rewrite V, V'; [|rewrite D; exact R|exact R].
  refine (eq_trans _ (resid_add_curve n (deseason_td c ax) (series (da_data x) e) g (e "time") Fx Hi)).
  assert (Y' : forall i, (i < n)%nat -> at_ (da_data y) (upd e "time" i) = fadd (series (da_data x) e i) (Fin (curve g (deseason_td c ax i)))).
  { intros i Hi'. refine (eq_trans (Y i Hi') _). f_equal. f_equal. f_equal. unfold td. rewrite deseason_td_spec by exact Hi'. unfold year_length.
    destruct (leap c _); reflexivity. }
  unfold resid_of. rewrite (Y' _ Hi). f_equal. apply model_ext. exact Y'.
Qed.
Print Assumptions C137_residuals.

(** A field in two chunkings, combined with itself. *)
Example C137_example : exists r r'', snd (deseason demo_axis demo_2d None "time" "residuals") = Ok r /\
  snd (deseason demo_axis (mixed 2 demo_2d 3 demo_2d) None "time" "residuals") = Ok r'' /\
  forall e, inrange (adims (da_data demo_2d)) e -> exists v, at_ (da_data r) e = Fin v /\ at_ (da_data r'') e = Fin (5 * v).
Proof.
  destruct demo_2d_ok as [A B].
  assert (F : forall e, all_finite (List.length (ta_dates demo_axis)) (series (da_data demo_2d) e)) by (intros e i _; reflexivity).
  destruct (C137_deseason demo_axis NoLeap demo_2d demo_2d None (Some [("time", [4; 6]); ("x", [2; 1])]%nat) 2 3 B A eq_refl "residuals" (or_introl eq_refl))
    as (r & r' & r'' & E & E' & E'' & V).
  destruct (deseason_plain demo_axis NoLeap demo_2d None B "residuals" (or_introl eq_refl)) as (q & Eq & _ & Vq).
  exists r, r''. split; [exact E|]. split; [exact E''|]. intros e R.
  pose proof (C68_chunks demo_axis NoLeap demo_2d None _ B A "residuals") as C. rewrite E, E' in C. destruct C as (_ & _ & Dm & C).
  rewrite Eq in E. cbn [snd] in E. apply Ok_inj in E. subst r. cbn [da_data] in *.
  rewrite (V e R (F e) (F e)).
  assert (Hi : (e "time" < List.length (ta_dates demo_axis))%nat) by (apply (R "time" _ (de_dim _ _ _ _ B))).
  rewrite <- C.
  - rewrite Vq by exact R. change (String.eqb "residuals" "residuals") with true. lazy iota.
    rewrite (resid_fin _ _ _ _ Hi (F e)). eexists. split; [reflexivity|]. cbn [fadd fmul]. f_equal. ring.
  - destruct (deseason_plain demo_axis NoLeap demo_2d None B "residuals" (or_introl eq_refl)) as (q' & Eq' & Dq & _).
    rewrite Eq in Eq'. injection Eq' as <-. rewrite Dq. intros d m [I|I]; [injection I as <- <-; exact Hi|]. apply filter_In in I as [I _]. exact (R d m I).
Qed.
