(** * ProofsSpice2: the spiciness polynomial increases with temperature and salinity *)
From Coq Require Import Reals Lra Lia.
From Verif Require Import Num NumFacts SpecSpice ProofsEos.
Local Open Scope R_scope.

(** The coefficient of [T ^ i] as a polynomial in [s = S - 35], and of [s ^ j] in [T]. *)
Definition cT0 (s : R) : R := (0.0) + (7.7442e-1) * s + (-5.85e-3) * s ^ 2 + (-9.84e-4) * s ^ 3 + (-2.06e-4) * s ^ 4.
Definition cT1 (s : R) : R := (5.1655e-2) + (2.034e-3) * s + (-2.742e-4) * s ^ 2 + (-8.5e-6) * s ^ 3 + (1.36e-5) * s ^ 4.
Definition cT2 (s : R) : R := (6.64783e-3) + (-2.4681e-4) * s + (-1.428e-5) * s ^ 2 + (3.337e-5) * s ^ 3 + (7.894e-6) * s ^ 4.
Definition cT3 (s : R) : R := (-5.4023e-5) + (7.326e-6) * s + (7.0036e-6) * s ^ 2 + (-3.0412e-6) * s ^ 3 + (-1.0853e-6) * s ^ 4.
Definition cT4 (s : R) : R := (3.949e-7) + (-3.029e-8) * s + (-3.8209e-7) * s ^ 2 + (1.0012e-7) * s ^ 3 + (4.7133e-8) * s ^ 4.
Definition cT5 (s : R) : R := (-6.36e-10) + (-1.309e-9) * s + (6.048e-9) * s ^ 2 + (-1.1409e-9) * s ^ 3 + (-6.676e-10) * s ^ 4.
Definition cS0 (T : R) : R := (0.0) + (5.1655e-2) * T + (6.64783e-3) * T ^ 2 + (-5.4023e-5) * T ^ 3 + (3.949e-7) * T ^ 4 + (-6.36e-10) * T ^ 5.
Definition cS1 (T : R) : R := (7.7442e-1) + (2.034e-3) * T + (-2.4681e-4) * T ^ 2 + (7.326e-6) * T ^ 3 + (-3.029e-8) * T ^ 4 + (-1.309e-9) * T ^ 5.
Definition cS2 (T : R) : R := (-5.85e-3) + (-2.742e-4) * T + (-1.428e-5) * T ^ 2 + (7.0036e-6) * T ^ 3 + (-3.8209e-7) * T ^ 4 + (6.048e-9) * T ^ 5.
Definition cS3 (T : R) : R := (-9.84e-4) + (-8.5e-6) * T + (3.337e-5) * T ^ 2 + (-3.0412e-6) * T ^ 3 + (1.0012e-7) * T ^ 4 + (-1.1409e-9) * T ^ 5.
Definition cS4 (T : R) : R := (-2.06e-4) + (1.36e-5) * T + (7.894e-6) * T ^ 2 + (-1.0853e-6) * T ^ 3 + (4.7133e-8) * T ^ 4 + (-6.676e-10) * T ^ 5.

Definition poly5 (c0 c1 c2 c3 c4 c5 x : R) : R := c0 + c1 * x + c2 * x ^ 2 + c3 * x ^ 3 + c4 * x ^ 4 + c5 * x ^ 5.
Definition dpoly5 (c1 c2 c3 c4 c5 x : R) : R := c1 + 2 * c2 * x + 3 * c3 * x ^ 2 + 4 * c4 * x ^ 3 + 5 * c5 * x ^ 4.
Lemma pi_in_T T S : flament_pi T S = poly5 (cT0 (S - 35)) (cT1 (S - 35)) (cT2 (S - 35)) (cT3 (S - 35)) (cT4 (S - 35)) (cT5 (S - 35)) T.
Proof. unfold flament_pi, poly5, cT0, cT1, cT2, cT3, cT4, cT5. cbv zeta. ring. Qed.
Lemma pi_in_S T S : flament_pi T S = poly5 (cS0 T) (cS1 T) (cS2 T) (cS3 T) (cS4 T) 0 (S - 35).
Proof. unfold flament_pi, poly5, cS0, cS1, cS2, cS3, cS4. cbv zeta. ring. Qed.

Lemma poly5_deriv c0 c1 c2 c3 c4 c5 x : derivable_pt_lim (poly5 c0 c1 c2 c3 c4 c5) x (dpoly5 c1 c2 c3 c4 c5 x).
Proof.
  assert (M : forall c n, derivable_pt_lim (fun y => c * y ^ n) x (c * (INR n * x ^ pred n))).
  { intros c n. apply (derivable_pt_lim_scal (fun y => y ^ n) c x). apply derivable_pt_lim_pow. }
  assert (M0 : derivable_pt_lim (fun _ => c0) x 0) by apply derivable_pt_lim_const.
  assert (M1 : derivable_pt_lim (fun y => c1 * y) x (c1 * 1)) by (apply (derivable_pt_lim_scal id c1 x); apply derivable_pt_lim_id).
  assert (H := derivable_pt_lim_plus _ _ _ _ _ (derivable_pt_lim_plus _ _ _ _ _ (derivable_pt_lim_plus _ _ _ _ _ (derivable_pt_lim_plus _ _ _ _ _
    (derivable_pt_lim_plus _ _ _ _ _ M0 M1) (M c2 2%nat)) (M c3 3%nat)) (M c4 4%nat)) (M c5 5%nat)).
  replace (dpoly5 c1 c2 c3 c4 c5 x) with (0 + c1 * 1 + c2 * (INR 2 * x ^ 1) + c3 * (INR 3 * x ^ 2) + c4 * (INR 4 * x ^ 3) + c5 * (INR 5 * x ^ 4)).
  - exact H.
  - unfold dpoly5. simpl INR. ring.
Qed.
Lemma poly5_increase c0 c1 c2 c3 c4 c5 k x y : x <= y -> (forall w, x <= w <= y -> k <= dpoly5 c1 c2 c3 c4 c5 w) ->
  k * (y - x) <= poly5 c0 c1 c2 c3 c4 c5 y - poly5 c0 c1 c2 c3 c4 c5 x.
Proof.
  intros H HD. destruct (Req_dec x y) as [->|N]; [lra|].
  destruct (MVT_cor2 (poly5 c0 c1 c2 c3 c4 c5) (dpoly5 c1 c2 c3 c4 c5) x y) as (w & E & Hw); [lra|intros; apply poly5_deriv|].
  rewrite E. apply Rmult_le_compat_r; [lra|]. apply HD. lra.
Qed.

(** Bernstein forms of the derivatives: all coefficients are non-negative. *)
Lemma bern_term c x y : 0 <= c -> 0 <= x -> 0 <= y -> 0 <= c * (x * y).
Proof. intros. apply Rmult_le_pos; [|apply Rmult_le_pos]; assumption. Qed.
Ltac bern_pos := repeat match goal with |- 0 <= _ + _ => apply Rplus_le_le_0_compat end;
  (apply bern_term; [lra|apply Rmult_le_pos; apply pow_le; assumption|apply Rmult_le_pos; apply pow_le; assumption]).
Lemma bern_warm u v : 0 <= u <= 1 -> 0 <= v <= 1 -> 3 / 100 <= dpoly5 (cT1 (-5 + 10 * v)) (cT2 (-5 + 10 * v)) (cT3 (-5 + 10 * v)) (cT4 (-5 + 10 * v)) (cT5 (-5 + 10 * v)) (30 * u).
Proof.
  intros Hu Hv. assert (E : exists a b, 0 <= a /\ 0 <= b /\ 40000000 * (dpoly5 (cT1 (-5 + 10 * v)) (cT2 (-5 + 10 * v)) (cT3 (-5 + 10 * v)) (cT4 (-5 + 10 * v)) (cT5 (-5 + 10 * v)) (30 * u) - 3 / 100) =
      567700 * (u ^ 0 * a ^ 4 * (v ^ 0 * b ^ 4)) +
      1206200 * (u ^ 0 * a ^ 4 * (v ^ 1 * b ^ 3)) +
      7785600 * (u ^ 0 * a ^ 4 * (v ^ 2 * b ^ 2)) +
      3003400 * (u ^ 0 * a ^ 4 * (v ^ 3 * b ^ 1)) +
      1296300 * (u ^ 0 * a ^ 4 * (v ^ 4 * b ^ 0)) +
      22160512 * (u ^ 1 * a ^ 3 * (v ^ 0 * b ^ 4)) +
      47225408 * (u ^ 1 * a ^ 3 * (v ^ 1 * b ^ 3)) +
      199630752 * (u ^ 1 * a ^ 3 * (v ^ 2 * b ^ 2)) +
      2523328 * (u ^ 1 * a ^ 3 * (v ^ 3 * b ^ 1)) +
      39173472 * (u ^ 1 * a ^ 3 * (v ^ 4 * b ^ 0)) +
      39992982 * (u ^ 2 * a ^ 2 * (v ^ 0 * b ^ 4)) +
      314107608 * (u ^ 2 * a ^ 2 * (v ^ 1 * b ^ 3)) +
      39805812 * (u ^ 2 * a ^ 2 * (v ^ 2 * b ^ 2)) +
      349267128 * (u ^ 2 * a ^ 2 * (v ^ 3 * b ^ 1)) +
      12459942 * (u ^ 2 * a ^ 2 * (v ^ 4 * b ^ 0)) +
      50064040 * (u ^ 3 * a ^ 1 * (v ^ 0 * b ^ 4)) +
      98589392 * (u ^ 3 * a ^ 1 * (v ^ 1 * b ^ 3)) +
      368183616 * (u ^ 3 * a ^ 1 * (v ^ 2 * b ^ 2)) +
      91327216 * (u ^ 3 * a ^ 1 * (v ^ 3 * b ^ 1)) +
      53694552 * (u ^ 3 * a ^ 1 * (v ^ 4 * b ^ 0)) +
      12624253 * (u ^ 4 * a ^ 0 * (v ^ 0 * b ^ 4)) +
      56380994 * (u ^ 4 * a ^ 0 * (v ^ 1 * b ^ 3)) +
      65048964 * (u ^ 4 * a ^ 0 * (v ^ 2 * b ^ 2)) +
      55631758 * (u ^ 4 * a ^ 0 * (v ^ 3 * b ^ 1)) +
      11745135 * (u ^ 4 * a ^ 0 * (v ^ 4 * b ^ 0))).
  { exists (1 - u), (1 - v). split; [lra|]. split; [lra|]. unfold dpoly5, cT1, cT2, cT3, cT4, cT5. dec_norm. field. }
  destruct E as (a & b & Ha & Hb & E). assert (0 <= 40000000 * (dpoly5 (cT1 (-5 + 10 * v)) (cT2 (-5 + 10 * v)) (cT3 (-5 + 10 * v)) (cT4 (-5 + 10 * v)) (cT5 (-5 + 10 * v)) (30 * u) - 3 / 100)); [|lra].
  rewrite E. destruct Hu as [Hu _], Hv as [Hv _]. bern_pos.
Qed.
Lemma bern_salty u v : 0 <= u <= 1 -> 0 <= v <= 1 -> 36 / 100 <= dpoly5 (cS1 (30 * u)) (cS2 (30 * u)) (cS3 (30 * u)) (cS4 (30 * u)) 0 (-5 + 10 * v).
Proof.
  intros Hu Hv. assert (E : exists a b, 0 <= a /\ 0 <= b /\ 20000000 * (dpoly5 (cS1 (30 * u)) (cS2 (30 * u)) (cS3 (30 * u)) (cS4 (30 * u)) 0 (-5 + 10 * v) - 36 / 100) =
      10042400 * (u ^ 0 * a ^ 5 * (v ^ 0 * b ^ 3)) +
      21331200 * (u ^ 0 * a ^ 5 * (v ^ 1 * b ^ 2)) +
      31351200 * (u ^ 0 * a ^ 5 * (v ^ 2 * b ^ 1)) +
      3582400 * (u ^ 0 * a ^ 5 * (v ^ 3 * b ^ 0)) +
      48615100 * (u ^ 1 * a ^ 4 * (v ^ 0 * b ^ 3)) +
      124584900 * (u ^ 1 * a ^ 4 * (v ^ 1 * b ^ 2)) +
      146914500 * (u ^ 1 * a ^ 4 * (v ^ 2 * b ^ 1)) +
      21184700 * (u ^ 1 * a ^ 4 * (v ^ 3 * b ^ 0)) +
      66167720 * (u ^ 2 * a ^ 3 * (v ^ 0 * b ^ 3)) +
      442358760 * (u ^ 2 * a ^ 3 * (v ^ 1 * b ^ 2)) +
      60360 * (u ^ 2 * a ^ 3 * (v ^ 2 * b ^ 1)) +
      157997320 * (u ^ 2 * a ^ 3 * (v ^ 3 * b ^ 0)) +
      143235560 * (u ^ 3 * a ^ 2 * (v ^ 0 * b ^ 3)) +
      11003160 * (u ^ 3 * a ^ 2 * (v ^ 1 * b ^ 2)) +
      484155240 * (u ^ 3 * a ^ 2 * (v ^ 2 * b ^ 1)) +
      8283640 * (u ^ 3 * a ^ 2 * (v ^ 3 * b ^ 0)) +
      33492742 * (u ^ 4 * a ^ 1 * (v ^ 0 * b ^ 3)) +
      170726226 * (u ^ 4 * a ^ 1 * (v ^ 1 * b ^ 2)) +
      68683026 * (u ^ 4 * a ^ 1 * (v ^ 2 * b ^ 1)) +
      50435942 * (u ^ 4 * a ^ 1 * (v ^ 3 * b ^ 0)) +
      8463743 * (u ^ 5 * a ^ 0 * (v ^ 0 * b ^ 3)) +
      22431729 * (u ^ 5 * a ^ 0 * (v ^ 1 * b ^ 2)) +
      24775809 * (u ^ 5 * a ^ 0 * (v ^ 2 * b ^ 1)) +
      7491823 * (u ^ 5 * a ^ 0 * (v ^ 3 * b ^ 0))).
  { exists (1 - u), (1 - v). split; [lra|]. split; [lra|]. unfold dpoly5, cS1, cS2, cS3, cS4. dec_norm. field. }
  destruct E as (a & b & Ha & Hb & E). assert (0 <= 20000000 * (dpoly5 (cS1 (30 * u)) (cS2 (30 * u)) (cS3 (30 * u)) (cS4 (30 * u)) 0 (-5 + 10 * v) - 36 / 100)); [|lra].
  rewrite E. destruct Hu as [Hu _], Hv as [Hv _]. bern_pos.
Qed.
Lemma bern_warm2 u v : 0 <= u <= 1 -> 0 <= v <= 1 -> 16 / 1000 <= dpoly5 (cT1 (-3 + 6 * v)) (cT2 (-3 + 6 * v)) (cT3 (-3 + 6 * v)) (cT4 (-3 + 6 * v)) (cT5 (-3 + 6 * v)) (-2 + 42 * u).
Proof.
  intros Hu Hv. assert (E : exists a b, 0 <= a /\ 0 <= b /\ 125000000000 * (dpoly5 (cT1 (-3 + 6 * v)) (cT2 (-3 + 6 * v)) (cT3 (-3 + 6 * v)) (cT4 (-3 + 6 * v)) (cT5 (-3 + 6 * v)) (-2 + 42 * u) - 16 / 1000) =
      32505795 * (u ^ 0 * a ^ 4 * (v ^ 0 * b ^ 4)) +
      1960632726 * (u ^ 0 * a ^ 4 * (v ^ 1 * b ^ 3)) +
      4594674132 * (u ^ 0 * a ^ 4 * (v ^ 2 * b ^ 2)) +
      9079545978 * (u ^ 0 * a ^ 4 * (v ^ 3 * b ^ 1)) +
      1138074009 * (u ^ 0 * a ^ 4 * (v ^ 4 * b ^ 0)) +
      74300728488 * (u ^ 1 * a ^ 3 * (v ^ 0 * b ^ 4)) +
      297065437968 * (u ^ 1 * a ^ 3 * (v ^ 1 * b ^ 3)) +
      550236394368 * (u ^ 1 * a ^ 3 * (v ^ 2 * b ^ 2)) +
      227463899568 * (u ^ 1 * a ^ 3 * (v ^ 3 * b ^ 1)) +
      91046678808 * (u ^ 1 * a ^ 3 * (v ^ 4 * b ^ 0)) +
      220934743470 * (u ^ 2 * a ^ 2 * (v ^ 0 * b ^ 4)) +
      878500284120 * (u ^ 2 * a ^ 2 * (v ^ 1 * b ^ 3)) +
      794696261220 * (u ^ 2 * a ^ 2 * (v ^ 2 * b ^ 2)) +
      964395801720 * (u ^ 2 * a ^ 2 * (v ^ 3 * b ^ 1)) +
      155494069470 * (u ^ 2 * a ^ 2 * (v ^ 4 * b ^ 0)) +
      138229383600 * (u ^ 3 * a ^ 1 * (v ^ 0 * b ^ 4)) +
      514197369600 * (u ^ 3 * a ^ 1 * (v ^ 1 * b ^ 3)) +
      1310093913600 * (u ^ 3 * a ^ 1 * (v ^ 2 * b ^ 2)) +
      469422921600 * (u ^ 3 * a ^ 1 * (v ^ 3 * b ^ 1)) +
      180809451600 * (u ^ 3 * a ^ 1 * (v ^ 4 * b ^ 0)) +
      58564873500 * (u ^ 4 * a ^ 0 * (v ^ 0 * b ^ 4)) +
      241978881000 * (u ^ 4 * a ^ 0 * (v ^ 1 * b ^ 3)) +
      210897576000 * (u ^ 4 * a ^ 0 * (v ^ 2 * b ^ 2)) +
      243673431000 * (u ^ 4 * a ^ 0 * (v ^ 3 * b ^ 1)) +
      47134438500 * (u ^ 4 * a ^ 0 * (v ^ 4 * b ^ 0))).
  { exists (1 - u), (1 - v). split; [lra|]. split; [lra|]. unfold dpoly5, cT1, cT2, cT3, cT4, cT5. dec_norm. field. }
  destruct E as (a & b & Ha & Hb & E). assert (0 <= 125000000000 * (dpoly5 (cT1 (-3 + 6 * v)) (cT2 (-3 + 6 * v)) (cT3 (-3 + 6 * v)) (cT4 (-3 + 6 * v)) (cT5 (-3 + 6 * v)) (-2 + 42 * u) - 16 / 1000)); [|lra].
  rewrite E. destruct Hu as [Hu _], Hv as [Hv _]. bern_pos.
Qed.
Lemma bern_salty2 u v : 0 <= u <= 1 -> 0 <= v <= 1 -> 14 / 100 <= dpoly5 (cS1 (-2 + 42 * u)) (cS2 (-2 + 42 * u)) (cS3 (-2 + 42 * u)) (cS4 (-2 + 42 * u)) 0 (-3 + 6 * v).
Proof.
  intros Hu Hv. assert (E : exists a b, 0 <= a /\ 0 <= b /\ 312500000000 * (dpoly5 (cS1 (-2 + 42 * u)) (cS2 (-2 + 42 * u)) (cS3 (-2 + 42 * u)) (cS4 (-2 + 42 * u)) 0 (-3 + 6 * v) - 14 / 100) =
      206494400135 * (u ^ 0 * a ^ 5 * (v ^ 0 * b ^ 3)) +
      587495483241 * (u ^ 0 * a ^ 5 * (v ^ 1 * b ^ 2)) +
      606080161113 * (u ^ 0 * a ^ 5 * (v ^ 2 * b ^ 1)) +
      173194228631 * (u ^ 0 * a ^ 5 * (v ^ 3 * b ^ 0)) +
      1064507667730 * (u ^ 1 * a ^ 4 * (v ^ 0 * b ^ 3)) +
      2995357792710 * (u ^ 1 * a ^ 4 * (v ^ 1 * b ^ 2)) +
      3346263374790 * (u ^ 1 * a ^ 4 * (v ^ 2 * b ^ 1)) +
      786744269170 * (u ^ 1 * a ^ 4 * (v ^ 3 * b ^ 0)) +
      2127812420600 * (u ^ 2 * a ^ 3 * (v ^ 0 * b ^ 3)) +
      7821884740200 * (u ^ 2 * a ^ 3 * (v ^ 1 * b ^ 2)) +
      3034317211800 * (u ^ 2 * a ^ 3 * (v ^ 2 * b ^ 1)) +
      2769813175400 * (u ^ 2 * a ^ 3 * (v ^ 3 * b ^ 0)) +
      2097253397000 * (u ^ 3 * a ^ 2 * (v ^ 0 * b ^ 3)) +
      1719586149000 * (u ^ 3 * a ^ 2 * (v ^ 1 * b ^ 2)) +
      10639787361000 * (u ^ 3 * a ^ 2 * (v ^ 2 * b ^ 1)) +
      772365953000 * (u ^ 3 * a ^ 2 * (v ^ 3 * b ^ 0)) +
      879225977500 * (u ^ 4 * a ^ 1 * (v ^ 0 * b ^ 3)) +
      5574274342500 * (u ^ 4 * a ^ 1 * (v ^ 1 * b ^ 2)) +
      17747782500 * (u ^ 4 * a ^ 1 * (v ^ 2 * b ^ 1)) +
      1496623097500 * (u ^ 4 * a ^ 1 * (v ^ 3 * b ^ 0)) +
      202863050000 * (u ^ 5 * a ^ 0 * (v ^ 0 * b ^ 3)) +
      50359650000 * (u ^ 5 * a ^ 0 * (v ^ 1 * b ^ 2)) +
      1085837550000 * (u ^ 5 * a ^ 0 * (v ^ 2 * b ^ 1)) +
      106349750000 * (u ^ 5 * a ^ 0 * (v ^ 3 * b ^ 0))).
  { exists (1 - u), (1 - v). split; [lra|]. split; [lra|]. unfold dpoly5, cS1, cS2, cS3, cS4. dec_norm. field. }
  destruct E as (a & b & Ha & Hb & E). assert (0 <= 312500000000 * (dpoly5 (cS1 (-2 + 42 * u)) (cS2 (-2 + 42 * u)) (cS3 (-2 + 42 * u)) (cS4 (-2 + 42 * u)) 0 (-3 + 6 * v) - 14 / 100)); [|lra].
  rewrite E. destruct Hu as [Hu _], Hv as [Hv _]. bern_pos.
Qed.

Lemma pi_warm T S : 0 <= T <= 30 -> 30 <= S <= 40 -> 3 / 100 <= dpoly5 (cT1 (S - 35)) (cT2 (S - 35)) (cT3 (S - 35)) (cT4 (S - 35)) (cT5 (S - 35)) T.
Proof. intros H1 H2. assert (B := bern_warm (T / 30) ((S - 30) / 10)). replace (30 * (T / 30)) with T in B by field. replace (-5 + 10 * ((S - 30) / 10)) with (S - 35) in B by field. apply B; lra. Qed.
Lemma pi_salty T S : 0 <= T <= 30 -> 30 <= S <= 40 -> 36 / 100 <= dpoly5 (cS1 T) (cS2 T) (cS3 T) (cS4 T) 0 (S - 35).
Proof. intros H1 H2. assert (B := bern_salty (T / 30) ((S - 30) / 10)). replace (30 * (T / 30)) with T in B by field. replace (-5 + 10 * ((S - 30) / 10)) with (S - 35) in B by field. apply B; lra. Qed.
Lemma pi_warm2 T S : -2 <= T <= 40 -> 32 <= S <= 38 -> 16 / 1000 <= dpoly5 (cT1 (S - 35)) (cT2 (S - 35)) (cT3 (S - 35)) (cT4 (S - 35)) (cT5 (S - 35)) T.
Proof. intros H1 H2. assert (B := bern_warm2 ((T + 2) / 42) ((S - 32) / 6)). replace (-2 + 42 * ((T + 2) / 42)) with T in B by field. replace (-3 + 6 * ((S - 32) / 6)) with (S - 35) in B by field. apply B; lra. Qed.
Lemma pi_salty2 T S : -2 <= T <= 40 -> 32 <= S <= 38 -> 14 / 100 <= dpoly5 (cS1 T) (cS2 T) (cS3 T) (cS4 T) 0 (S - 35).
Proof. intros H1 H2. assert (B := bern_salty2 ((T + 2) / 42) ((S - 32) / 6)). replace (-2 + 42 * ((T + 2) / 42)) with T in B by field. replace (-3 + 6 * ((S - 32) / 6)) with (S - 35) in B by field. apply B; lra. Qed.
