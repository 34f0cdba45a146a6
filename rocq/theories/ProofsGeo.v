(** * ProofsGeo: great-circle geometry *)
From Coq Require Import Reals Lra Lia List String Bool Arith Psatz.
From Verif Require Import Num NumFacts Py Arr ArrFacts Util Geo SpecGeo.
Import ListNotations.
Local Open Scope R_scope.

Lemma uvec_unit la lo : dot (uvec la lo) (uvec la lo) = 1.
Proof.
  unfold dot, uvec. pose proof (sin2_cos2 (rad_of la)). pose proof (sin2_cos2 (rad_of lo)). unfold Rsqr in *.
  set (c := cos (rad_of la)) in *. set (s := sin (rad_of la)) in *.
  set (c' := cos (rad_of lo)) in *. set (s' := sin (rad_of lo)) in *.
  replace (c * c' * (c * c') + c * s' * (c * s') + s * s) with (c * c * (s' * s' + c' * c') + s * s) by ring.
  rewrite H0. lra.
Qed.

(** Cauchy-Schwarz *)
Lemma dot_sq u v : dot u v * dot u v <= dot u u * dot v v.
Proof.
  destruct u as [[a b] c], v as [[a' b'] c']. unfold dot.
  pose proof (Rle_0_sqr (a * b' - b * a')). pose proof (Rle_0_sqr (a * c' - c * a')). pose proof (Rle_0_sqr (b * c' - c * b')).
  assert (I : (a * a + b * b + c * c) * (a' * a' + b' * b' + c' * c') - (a * a' + b * b' + c * c') * (a * a' + b * b' + c * c')
    = (a * b' - b * a')² + (a * c' - c * a')² + (b * c' - c * b')²) by (unfold Rsqr; ring).
  lra.
Qed.
Lemma dot_comm u v : dot u v = dot v u.
Proof. destruct u as [[a b] c], v as [[a' b'] c']. unfold dot. ring. Qed.
Lemma dot_bound u v : dot u u = 1 -> dot v v = 1 -> -1 <= dot u v <= 1.
Proof. intros U V. pose proof (dot_sq u v). rewrite U, V in H. split; nra. Qed.
Lemma dot_one u v : dot u u = 1 -> dot v v = 1 -> dot u v = 1 -> u = v.
Proof.
  destruct u as [[a b] c], v as [[a' b'] c']. unfold dot. intros U V W.
  pose proof (Rle_0_sqr (a - a')). pose proof (Rle_0_sqr (b - b')). pose proof (Rle_0_sqr (c - c')).
  assert ((a - a')² + (b - b')² + (c - c')² = 0).
  { transitivity ((a * a + b * b + c * c) + (a' * a' + b' * b' + c' * c') - 2 * (a * a' + b * b' + c * c')); [unfold Rsqr; ring|lra]. }
  assert (a - a' = 0) by (apply Rsqr_eq_0; lra). assert (b - b' = 0) by (apply Rsqr_eq_0; lra). assert (c - c' = 0) by (apply Rsqr_eq_0; lra).
  repeat f_equal; lra.
Qed.

Lemma uvec_dot p q : dot (uvec (fst p) (snd p)) (uvec (fst q) (snd q)) =
  sin (rad_of (fst p)) * sin (rad_of (fst q)) +
  cos (rad_of (fst p)) * cos (rad_of (fst q)) * cos (rad_of (snd p) - rad_of (snd q)).
Proof. unfold dot, uvec. rewrite cos_minus. ring. Qed.

Lemma half_sq x : sin (x / 2) * sin (x / 2) = (1 - cos x) / 2.
Proof.
  replace (cos x) with (cos (2 * (x / 2))) by (f_equal; field). rewrite cos_2a_sin. field.
Qed.

Lemma asin_half d : -1 <= d <= 1 -> 2 * asin (sqrt ((1 - d) / 2)) = acos d.
Proof.
  intros H. set (s := sqrt ((1 - d) / 2)).
  assert (S : s * s = (1 - d) / 2) by (apply sqrt_sqrt; lra).
  assert (S0 : 0 <= s) by apply sqrt_pos.
  assert (S1 : s <= 1) by nra.
  assert (B := asin_bound s).
  assert (A0 : 0 <= asin s).
  { destruct (Rle_dec 0 (asin s)) as [L|L]; [exact L|]. exfalso.
    assert (sin (asin s) < 0) by (apply sin_lt_0_var; lra). rewrite sin_asin in H0 by lra. lra. }
  assert (C : cos (2 * asin s) = d).
  { rewrite cos_2a_sin. rewrite sin_asin by lra. nra. }
  rewrite <- C. rewrite acos_cos; lra.
Qed.

Lemma haversine_angle p q :
  haversine (rad_of (fst p), rad_of (snd p)) (rad_of (fst q), rad_of (snd q)) = central_angle p q.
Proof.
  unfold haversine, central_angle. cbn [fst snd].
  rewrite <- asin_half by (apply dot_bound; apply uvec_unit). rewrite uvec_dot.
  do 2 f_equal. f_equal. rewrite !half_sq, cos_minus. field.
Qed.

Lemma central_angle_cos p q :
  cos (central_angle p q) = dot (uvec (fst p) (snd p)) (uvec (fst q) (snd q)).
Proof. unfold central_angle. apply cos_acos. apply dot_bound; apply uvec_unit. Qed.
Lemma central_angle_bound p q : 0 <= central_angle p q <= PI.
Proof. apply acos_bound. Qed.
Lemma central_angle_sym p q : central_angle p q = central_angle q p.
Proof. unfold central_angle. rewrite dot_comm. reflexivity. Qed.
Lemma central_angle_zero p q : central_angle p q = 0 <-> uvec (fst p) (snd p) = uvec (fst q) (snd q).
Proof.
  split.
  - intros H. pose proof (central_angle_cos p q) as C. rewrite H, cos_0 in C.
    apply dot_one; [apply uvec_unit|apply uvec_unit|lra].
  - intros H. unfold central_angle. rewrite H, uvec_unit. apply acos_1.
Qed.

(** Spherical triangle inequality. *)
Lemma perp_bound u v w : dot u u = 1 -> dot v v = 1 -> dot w w = 1 ->
  (dot u w - dot u v * dot v w) * (dot u w - dot u v * dot v w)
  <= (1 - dot u v * dot u v) * (1 - dot v w * dot v w).
Proof.
  intros U V W.
  set (x := dot u v). set (y := dot v w). set (z := dot u w).
  (* Gram: apply Cauchy-Schwarz to u - x v and w - y v *)
  assert (G : dot (let '(a,b,c) := u in let '(a',b',c') := v in (a - x*a', b - x*b', c - x*c'))
                  (let '(a,b,c) := w in let '(a',b',c') := v in (a - y*a', b - y*b', c - y*c')) = z - x * y).
  { unfold z. transitivity (dot u w - y * dot u v - x * dot v w + x * y * dot v v).
    - destruct u as [[a b] c], v as [[a' b'] c'], w as [[a'' b''] c'']. unfold dot. ring.
    - rewrite V. fold x y. ring. }
  assert (G1 : forall t : vec3, dot t t = 1 -> forall k, dot t v = k ->
     dot (let '(a,b,c) := t in let '(a',b',c') := v in (a - k*a', b - k*b', c - k*c'))
         (let '(a,b,c) := t in let '(a',b',c') := v in (a - k*a', b - k*b', c - k*c')) = 1 - k * k).
  { intros t T k K. transitivity (dot t t - 2 * k * dot t v + k * k * dot v v).
    - destruct t as [[a b] c], v as [[a' b'] c']. unfold dot. ring.
    - rewrite T, V, K. ring. }
  pose proof (G1 u U x eq_refl) as Gu. pose proof (G1 w W y (dot_comm w v)) as Gw.
  pose proof (dot_sq (let '(a,b,c) := u in let '(a',b',c') := v in (a - x*a', b - x*b', c - x*c'))
                     (let '(a,b,c) := w in let '(a',b',c') := v in (a - y*a', b - y*b', c - y*c'))) as D.
  rewrite G, Gu, Gw in D. exact D.
Qed.

Lemma acos_triangle u v w : dot u u = 1 -> dot v v = 1 -> dot w w = 1 ->
  acos (dot u w) <= acos (dot u v) + acos (dot v w).
Proof.
  intros U V W. pose proof (perp_bound u v w U V W) as P.
  pose proof (dot_bound u v U V) as B1. pose proof (dot_bound v w V W) as B2. pose proof (dot_bound u w U W) as B3.
  pose proof (acos_bound (dot u v)) as A1. pose proof (acos_bound (dot v w)) as A2. pose proof (acos_bound (dot u w)) as A3.
  set (a := acos (dot u v)) in *. set (b := acos (dot v w)) in *. set (c := acos (dot u w)) in *.
  assert (Ca : cos a = dot u v) by (apply cos_acos; exact B1).
  assert (Cb : cos b = dot v w) by (apply cos_acos; exact B2).
  assert (Cc : cos c = dot u w) by (apply cos_acos; exact B3).
  destruct (Rle_dec c (a + b)) as [L|L]; [exact L|]. exfalso. apply Rnot_le_lt in L.
  assert (cos c < cos (a + b)) by (apply cos_decreasing_1; lra).
  rewrite cos_plus in H. rewrite <- Ca, <- Cb, <- Cc in P.
  assert (Sa : 0 <= sin a) by (apply sin_ge_0; lra). assert (Sb : 0 <= sin b) by (apply sin_ge_0; lra).
  pose proof (sin2_cos2 a) as Qa. pose proof (sin2_cos2 b) as Qb. unfold Rsqr in *.
  replace (1 - cos a * cos a) with (sin a * sin a) in P by lra.
  replace (1 - cos b * cos b) with (sin b * sin b) in P by lra.
  assert (0 <= sin a * sin b) by nra.
  assert (cos c - cos a * cos b < - (sin a * sin b)) by lra.
  nra.
Qed.
Lemma central_angle_triangle p q r : central_angle p r <= central_angle p q + central_angle q r.
Proof. apply acos_triangle; apply uvec_unit. Qed.

Lemma uvec_360 la lo : uvec la (lo + 360) = uvec la lo.
Proof.
  unfold uvec. replace (rad_of (lo + 360)) with (rad_of lo + 2 * PI) by (unfold rad_of; field).
  rewrite cos_plus, sin_plus, cos_2PI, sin_2PI. repeat f_equal; ring.
Qed.
Lemma uvec_360k la lo k : uvec la (lo + 360 * IZR k) = uvec la lo.
Proof.
  assert (P : forall n : nat, uvec la (lo + 360 * INR n) = uvec la lo).
  { intros n. induction n as [|n IH]; [cbn [INR]; f_equal; ring|].
    rewrite S_INR. replace (lo + 360 * (INR n + 1)) with (lo + 360 * INR n + 360) by ring. rewrite uvec_360. exact IH. }
  assert (N : forall (n : nat) l, uvec la (l - 360 * INR n) = uvec la l).
  { intros n. induction n as [|n IH]; intros l; [cbn [INR]; f_equal; ring|].
    rewrite S_INR. rewrite <- (uvec_360 la (l - _)). rewrite <- (IH l). f_equal. ring. }
  destruct (Z_le_dec 0 k) as [Z0|Z0].
  - rewrite <- (Z2Nat.id k Z0), <- INR_IZR_INZ. apply P.
  - rewrite <- (N (Z.to_nat (- k)) lo). f_equal. rewrite INR_IZR_INZ, Z2Nat.id, opp_IZR by lia. ring.
Qed.

(** For places given as latitude in [-90,90]: the same unit vector means the same latitude
    and, away from the poles, longitudes equal modulo 360. *)
Lemma same_place la lo la' lo' : -90 <= la <= 90 -> -90 <= la' <= 90 ->
  uvec la lo = uvec la' lo' -> la = la' /\ (-90 < la < 90 -> exists k, lo' = lo + 360 * IZR k).
Proof.
  intros H H' E. pose proof PI_RGT_0 as P. unfold uvec in E. injection E as E1 E2 E3.
  assert (L : la = la').
  { assert (R : rad_of la = rad_of la').
    { unfold rad_of in *. destruct (Rtotal_order (la * (PI / 180)) (la' * (PI / 180))) as [L|[L|L]]; [|exact L|].
      - apply sin_increasing_1 in L; nra.
      - apply sin_increasing_1 in L; nra. }
    unfold rad_of in R. apply Rmult_eq_reg_r in R; [exact R|nra]. }
  split; [exact L|]. intros Hs. subst la'.
  assert (C : 0 < cos (rad_of la)) by (apply cos_gt_0; unfold rad_of; nra).
  apply Rmult_eq_reg_l in E1; [|lra]. apply Rmult_eq_reg_l in E2; [|lra].
  assert (D : cos (rad_of lo' - rad_of lo) = 1).
  { rewrite cos_minus, E1, E2. pose proof (sin2_cos2 (rad_of lo')). unfold Rsqr in *. lra. }
  assert (Sh : sin ((rad_of lo' - rad_of lo) / 2) = 0).
  { pose proof (half_sq (rad_of lo' - rad_of lo)) as Q. rewrite D in Q. nra. }
  apply sin_eq_0_0 in Sh. destruct Sh as [k Hk]. exists k. unfold rad_of in Hk.
  assert (lo' - lo = 360 * IZR k); [|lra]. apply (Rmult_eq_reg_r (PI / 180 / 2)); [|nra]. lra.
Qed.
