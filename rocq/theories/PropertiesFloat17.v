(** * PropertiesFloat17: distances and nearest grid points in binary64 (C167) *)
From Coq Require Import QArith Reals Lra Lia List ZArith Bool.
From Flocq Require Import Core IEEE754.BinarySingleNaN Relative.
From Verif Require Import SpecGeo Ieee IeeeWave IeeeGeo SpecIeeeGeo ProofsFloat ProofsIeee ProofsFloat4 ProofsFloat10 ProofsPi ProofsFloat22 ProofsFloat26 ProofsFloat28 ProofsFloat29.
Import ListNotations.
Local Open Scope R_scope.

(** ** C167: the distance of a site and a grid point less than a quarter of the circumference away.  The sine, cosine and
    arcsine of the C library are only assumed accurate to within 2^-50. *)
Theorem C167_distance : forall sin64 cos64 asin64 rad_earth q p, accurate_trig sin64 cos64 asin64 -> on_earth q -> on_earth p ->
  central_angle (place_R q) (place_R p) <= PI / 2 -> is_finite rad_earth = true -> 1 <= B2R rad_earth <= 2 ^ 100 ->
  let d := distance64 sin64 cos64 asin64 rad_earth q p in
  is_finite d = true /\ Rabs (B2R d - B2R rad_earth * central_angle (place_R q) (place_R p)) <= 1e-13 * B2R rad_earth.
Proof. exact distance_ok. Qed.
Print Assumptions C167_distance.

(** The grid point that is found: no other one is nearer by more than 2e-13 radians (about a micrometre). *)
Theorem C167_nearest : forall sin64 cos64 asin64 q pts j pj k pk, accurate_trig sin64 cos64 asin64 -> on_earth q -> Forall on_earth pts ->
  closest64 sin64 cos64 q pts j -> nth_error pts j = Some pj -> nth_error pts k = Some pk -> central_angle (place_R q) (place_R pk) <= PI / 2 ->
  central_angle (place_R q) (place_R pj) <= central_angle (place_R q) (place_R pk) + 2e-13.
Proof. exact closest_ok. Qed.
Print Assumptions C167_nearest.

(** One is always found. *)
Theorem C167_found : forall sin64 cos64 asin64 q pts, accurate_trig sin64 cos64 asin64 -> on_earth q -> Forall on_earth pts -> pts <> [] ->
  exists j, closest64 sin64 cos64 q pts j.
Proof.
  intros sin64 cos64 asin64 q pts A Hq. induction pts as [|p rest IH]; intros Hp NE; [contradiction|].
  inversion Hp as [|? ? Hp1 Hr]; subst. destruct (rdist_ok _ _ _ q p A Hq Hp1) as (Fp & _).
  assert (F : forall x, In x rest -> is_finite (rdist64 sin64 cos64 q x) = true).
  { intros x Hx. rewrite Forall_forall in Hr. exact (proj1 (rdist_ok _ _ _ q x A Hq (Hr x Hx))). }
  assert (Rf : Bleb (rdist64 sin64 cos64 q p) (rdist64 sin64 cos64 q p) = true) by (rewrite Bleb_correct by assumption; apply Rle_bool_true, Rle_refl).
  destruct rest as [|p2 rest'].
  - exists 0%nat, p. split; [reflexivity|]. intros [|k] p' E; [injection E as <-; exact Rf|destruct k; discriminate E].
  - destruct (IH Hr ltac:(discriminate)) as (j & pj & Ej & Hj). assert (Fj := F _ (nth_error_In _ _ Ej)).
    destruct (Bleb (rdist64 sin64 cos64 q p) (rdist64 sin64 cos64 q pj)) eqn:C.
    + exists 0%nat, p. split; [reflexivity|]. intros [|k] p' E; [injection E as <-; exact Rf|]. assert (L := Hj k p' E). assert (Fk := F _ (nth_error_In (p2 :: rest') k E)).
      rewrite Bleb_correct in C, L |- * by assumption. apply Rle_bool_true. revert C L. do 2 case Rle_bool_spec; try discriminate. intros. lra.
    + exists (S j), pj. split; [exact Ej|]. intros [|k] p' E; [|exact (Hj k p' E)]. injection E as <-.
      rewrite Bleb_correct in C |- * by assumption. apply Rle_bool_true. revert C. case Rle_bool_spec; [discriminate|]. intros. lra.
Qed.
Print Assumptions C167_found.

(** The threshold: sites nearer than it are kept and sites farther than it are dropped, except within 1e-13 radii of it;
    a computed distance equal to the threshold is kept. *)
Theorem C167_threshold : forall sin64 cos64 asin64 rad_earth threshold q p, accurate_trig sin64 cos64 asin64 -> on_earth q -> on_earth p ->
  central_angle (place_R q) (place_R p) <= PI / 2 -> is_finite rad_earth = true -> 1 <= B2R rad_earth <= 2 ^ 100 -> is_finite threshold = true ->
  let d := B2R rad_earth * central_angle (place_R q) (place_R p) in let kept := kept64 (distance64 sin64 cos64 asin64 rad_earth q p) threshold in
  (d <= B2R threshold - 1e-13 * B2R rad_earth -> kept = true) /\ (B2R threshold + 1e-13 * B2R rad_earth < d -> kept = false) /\
  (B2R (distance64 sin64 cos64 asin64 rad_earth q p) = B2R threshold -> kept = true).
Proof.
  intros sin64 cos64 asin64 w t q p A Hq Hp Hc Fw Bw Ft d kept. destruct (distance_ok _ _ _ w q p A Hq Hp Hc Fw Bw) as [Fd Ed]. fold d in Ed. apply Rabs_le_inv in Ed.
  unfold kept, kept64. rewrite Bleb_correct by assumption. split; [|split]; intros H; [apply Rle_bool_true|apply Rle_bool_false|apply Rle_bool_true]; lra.
Qed.
Print Assumptions C167_threshold.

(** Correctly rounded functions are accurate. *)
Definition sin_cr (x : f64) : f64 := nearest (sin (B2R x)).
Definition cos_cr (x : f64) : f64 := nearest (cos (B2R x)).
Definition asin_cr (x : f64) : f64 := nearest (asin (B2R x)).
Lemma trig_cr : accurate_trig sin_cr cos_cr asin_cr.
Proof.
  assert (D := PI_digits). split; [|split; [|split]]; intros x Fx Lx.
  - assert (B := SIN_bound (B2R x)). destruct (nearest_small (sin (B2R x)) ltac:(apply Rabs_le; lra)) as (F & V & E). unfold sin_cr. rewrite V. split; assumption.
  - assert (B := COS_bound (B2R x)). destruct (nearest_small (cos (B2R x)) ltac:(apply Rabs_le; lra)) as (F & V & E). unfold cos_cr. rewrite V. split; assumption.
  - assert (B := COS_bound (B2R x)). destruct (nearest_small (cos (B2R x)) ltac:(apply Rabs_le; lra)) as (F & V & E). unfold cos_cr. rewrite V, <- fl_0. apply fl_mono. apply Rabs_le_inv in Lx. apply cos_ge_0; lra.
  - assert (B := asin_bound (B2R x)). destruct (nearest_small (asin (B2R x)) ltac:(apply Rabs_le; lra)) as (F & V & E). unfold asin_cr. rewrite V. split; assumption.
Qed.

(** New York and three grid points, one of them given with a longitude east of Greenwich. *)
Definition site : place64 := (of_Z 41, of_Z (-74)).
Definition grid : list place64 := [(of_Z 52, of_Z 0); (of_Z 40, of_Z (-74)); (of_Z (-34), of_Z 151)].
Lemma earth_Z a b : (Z.abs a <= 90)%Z -> (Z.abs b <= 360)%Z -> on_earth (of_Z a, of_Z b).
Proof.
  intros Ha Hb. destruct (of_Z_rep a ltac:(change (2 ^ 53)%Z with 9007199254740992%Z; lia)) as [Fa Va]. destruct (of_Z_rep b ltac:(change (2 ^ 53)%Z with 9007199254740992%Z; lia)) as [Fb Vb].
  unfold on_earth. cbn [fst snd]. rewrite Va, Vb, <- !abs_IZR. repeat split; try assumption; apply IZR_le; assumption.
Qed.
Lemma meridian a b l : 0 <= a <= 90 -> 0 <= b <= 90 -> central_angle (a, l) (b, l) <= PI / 2.
Proof.
  intros Ha Hb. assert (D := PI_digits). unfold central_angle. rewrite <- acos_0.
  assert (R : forall x, 0 <= x <= 90 -> 0 <= rad_of x <= PI / 2) by (intros x Hx; unfold rad_of; split; [apply Rmult_le_pos; lra|apply Rle_trans with (90 * (PI / 180)); [apply Rmult_le_compat_r; lra|lra]]).
  assert (Ra := R a Ha). assert (Rb := R b Hb). assert (Ca : 0 <= cos (rad_of a)) by (apply cos_ge_0; lra). assert (Cb : 0 <= cos (rad_of b)) by (apply cos_ge_0; lra).
  assert (Sa : 0 <= sin (rad_of a)) by (apply sin_ge_0; lra). assert (Sb : 0 <= sin (rad_of b)) by (apply sin_ge_0; lra).
  set (x := dot _ _). assert (X : x = cos (rad_of a) * cos (rad_of b) + sin (rad_of a) * sin (rad_of b)).
  { unfold x, dot, uvec. cbn. assert (P := sin2_cos2 (rad_of l)). unfold Rsqr in P.
    replace (cos (rad_of a) * cos (rad_of l) * (cos (rad_of b) * cos (rad_of l)) + cos (rad_of a) * sin (rad_of l) * (cos (rad_of b) * sin (rad_of l)) + sin (rad_of a) * sin (rad_of b))
      with (cos (rad_of a) * cos (rad_of b) * (sin (rad_of l) * sin (rad_of l) + cos (rad_of l) * cos (rad_of l)) + sin (rad_of a) * sin (rad_of b)) by ring. rewrite P. ring. }
  assert (0 <= x) by (rewrite X; apply Rplus_le_le_0_compat; apply Rmult_le_pos; assumption).
  assert (x <= 1) by (rewrite X, <- cos_minus; apply COS_bound).
  apply Rnot_lt_le. intros C. assert (B1 := acos_bound x). assert (B0 := acos_bound 0). assert (cos (acos x) < cos (acos 0)) by (apply cos_decreasing_1; lra). rewrite !cos_acos in *; lra.
Qed.
Example C167_case : accurate_trig sin_cr cos_cr asin_cr /\ on_earth site /\ Forall on_earth grid /\ central_angle (place_R site) (place_R (of_Z 40, of_Z (-74))) <= PI / 2 /\
  (exists j, closest64 sin_cr cos_cr site grid j) /\
  Rabs (B2R (distance64 sin_cr cos_cr asin_cr (of_Z 6378) site (of_Z 40, of_Z (-74))) - 6378 * central_angle (41, -74) (40, -74)) <= 1e-9.
Proof.
  assert (Es : on_earth site) by (apply earth_Z; lia). assert (Eg : Forall on_earth grid) by (unfold grid; repeat (apply Forall_cons; [apply earth_Z; lia|]); apply Forall_nil).
  assert (V : forall a b, (Z.abs a <= 90)%Z -> (Z.abs b <= 360)%Z -> place_R (of_Z a, of_Z b) = (IZR a, IZR b)).
  { intros a b Ha Hb. unfold place_R. cbn [fst snd]. rewrite (proj2 (of_Z_rep a ltac:(change (2 ^ 53)%Z with 9007199254740992%Z; lia))), (proj2 (of_Z_rep b ltac:(change (2 ^ 53)%Z with 9007199254740992%Z; lia))). reflexivity. }
  assert (C : central_angle (place_R site) (place_R (of_Z 40, of_Z (-74))) <= PI / 2) by (unfold site; rewrite !V by lia; apply meridian; lra).
  split; [exact trig_cr|]. split; [exact Es|]. split; [exact Eg|]. split; [exact C|]. split; [refine (C167_found _ _ _ site grid trig_cr Es Eg _); discriminate|].
  destruct (of_Z_rep 6378 eq_refl) as [FR VR].
  assert (H := C167_distance sin_cr cos_cr asin_cr (of_Z 6378) site (of_Z 40, of_Z (-74)) trig_cr Es (earth_Z 40 (-74) ltac:(lia) ltac:(lia)) C FR).
  rewrite VR in H. specialize (H ltac:(split; [lra|apply Rle_trans with (2 ^ 13); [lra|apply Rle_pow; [lra|lia]]])). destruct H as [_ H].
  unfold site in H at 2. rewrite !V in H by lia. eapply Rle_trans; [exact H|lra].
Qed.
