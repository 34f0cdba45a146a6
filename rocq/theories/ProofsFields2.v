(** * ProofsFields2: lemmas for C08, C20, C25, C26 (proofs only) *)
From Coq Require Import Reals Lra Lia List String Bool Arith FunctionalExtensionality.
From Verif Require Import Num NumFacts Py Arr ArrFacts Eos SpecEos Spice Derived ProofsEos ProofsEosBox ProofsEosApi ProofsFields.
Import ListNotations.
Local Open Scope R_scope.

(** ** C20 *)
Lemma dget_union k d1 d2 v : dget k d1 = Some v -> dget k (union_dims d1 d2) = Some v.
Proof.
  unfold union_dims. induction d1 as [|[k' v'] d1 IH]; simpl; [discriminate|].
  destruct (String.eqb k k') eqn:E; [auto|].
  intros H. revert IH. 
  assert (G : forall l, dget k d1 = Some v -> dget k (d1 ++ l) = Some v).
  { clear. intros l. induction d1 as [|[a b] d1 IH]; simpl; [discriminate|].
    destruct (String.eqb k a); auto. }
  intros _. apply G. exact H.
Qed.

Lemma linear_eos_name eos fn m r : same_name eos "linear" -> eos_func_from_str eos fn = Ok (m, r) -> m = Linear /\ r = fn.
Proof.
  intros H E. apply (eos_resolves eos Linear fn) in H. rewrite H in E. injection E as <- <-. auto.
Qed.

Lemma calc_linear_inv fn ti t s p eos r : same_name eos "linear" ->
  (let* f := eos_func_from_str eos fn in eos_ufunc ti f t s p) = Ok r ->
  forall e, at_ r e = eos_apply ti (Linear, fn) (at_ t e) (at_ s e) (at_ p e).
Proof.
  intros Hn H e. apply bind_inv in H as ([m f] & Hf & H).
  destruct (linear_eos_name _ _ _ _ Hn Hf) as [-> ->].
  apply eos_ufunc_inv in H. subst r. reflexivity.
Qed.

Lemma n2_unfold ti t s z eos g patm zc r n :
  calc_n2 ti t s z eos (Fin g) patm zc false = Ok r -> dget zc (adims t) = Some n ->
  exists pres al be dt ds,
    pressure_from_depth (zarr zc n z) patm = Ok pres /\
    calc_alpha ti t s pres eos = Ok al /\ calc_beta ti t s pres eos = Ok be /\
    differentiate zc z t = Ok dt /\ differentiate zc z s = Ok ds /\
    forall e, at_ r e = fmul (Fin g) (fsub (fmul (at_ al e) (at_ dt e)) (fmul (at_ be e) (at_ ds e))).
Proof.
  intros H Hd. unfold calc_n2 in H. rewrite Hd in H. cbn [bind] in H.
  apply bind_inv in H as (pres & Hp & H). apply bind_inv in H as (al & Hal & H).
  apply bind_inv in H as (be & Hbe & H). apply bind_inv in H as (dt & Hdt & H).
  apply bind_inv in H as (ds & Hds & H). apply bind_inv in H as (u & Hu & H).
  apply bind_inv in H as (v & Hv & H). apply bind_inv in H as (w & Hw & H).
  injection H as <-. exists pres, al, be, dt, ds. repeat (split; [assumption|]).
  intros e. apply amap2_inv in Hu, Hv, Hw. subst w u v. reflexivity.
Qed.

Definition strictly_monotone (n : nat) (x : nat -> R) : Prop :=
  (forall i, (S i < n)%nat -> x i < x (S i)) \/ (forall i, (S i < n)%nat -> x (S i) < x i).

Lemma n2_linear t s x eos g patm zc n r p rho drho e T S k :
  calc_n2 false t s (fun i => Fin (x i)) eos (Fin g) patm zc false = Ok r ->
  same_name eos "linear" ->
  dget zc (adims t) = Some n -> dget zc (adims s) = Some n ->
  strictly_monotone n x -> e zc = k -> (k < n)%nat ->
  (forall i, (i < n)%nat -> at_ t (upd e zc i) = Fin (T i)) ->
  (forall i, (i < n)%nat -> at_ s (upd e zc i) = Fin (S i)) ->
  calc_rho t s p eos = Ok rho -> differentiate zc (fun i => Fin (x i)) rho = Ok drho ->
  exists r0 d, at_ rho e = Fin r0 /\ at_ drho e = Fin d /\
    (r0 <> 0 -> at_ r e = Fin (- (g / r0) * d)).
Proof.
  intros Hn2 Hname Hdt Hds Hmono He Hk HT HS Hrho Hdrho.
  destruct (n2_unfold _ _ _ _ _ _ _ _ _ _ Hn2 Hdt) as (pres & al & be & dt & ds & Hp & Hal & Hbe & Hddt & Hdds & Hr).
  unfold calc_alpha in Hal. unfold calc_beta in Hbe. unfold calc_rho in Hrho.
  assert (Hrho' := calc_linear_inv _ _ _ _ _ _ _ Hname Hrho).
  assert (Hal' := calc_linear_inv _ _ _ _ _ _ _ Hname Hal).
  assert (Hbe' := calc_linear_inv _ _ _ _ _ _ _ Hname Hbe).
  assert (Hdrn : dget zc (adims rho) = Some n).
  { apply bind_inv in Hrho as (f & Hf & Hrho). apply eos_ufunc_inv in Hrho. subst rho. simpl.
    apply dget_union, dget_union. exact Hdt. }
  destruct (differentiate_inv _ _ _ _ _ Hdt Hddt) as [Hn Edt].
  destruct (differentiate_inv _ _ _ _ _ Hds Hdds) as [_ Eds].
  destruct (differentiate_inv _ _ _ _ _ Hdrn Hdrho) as [_ Edr].
  assert (Ee : upd e zc k = e) by (rewrite <- He; apply upd_id).
  assert (Te : at_ t e = Fin (T k)) by (rewrite <- Ee; apply HT; exact Hk).
  assert (Se : at_ s e = Fin (S k)) by (rewrite <- Ee; apply HS; exact Hk).
  destruct (grad_linear n x Hn Hmono T S (-0.2) 0.8 1000 k Hk) as (dT & dS & G1 & G2 & G3).
  exists (lin_rho (T k) (S k)), (-0.2 * dT + 0.8 * dS).
  split; [rewrite Hrho'; simpl; rewrite Te, Se; apply linear_density_Fin|].
  split.
  - rewrite Edr. simpl. rewrite He.
    rewrite <- G3. apply grad_col_ext; [exact Hn|exact Hk|].
    intros i Hi. rewrite Hrho'. simpl. rewrite HT, HS by exact Hi. rewrite linear_density_Fin.
    f_equal. unfold lin_rho. lra.
  - intros Hr0. rewrite Hr, Hal', Hbe'. simpl eos_apply. unfold linear_alpha, linear_beta.
    rewrite Te, Se, linear_density_Fin. unfold full_like, DRHO_DT, DRHO_DS.
    rewrite !fdiv_Fin by exact Hr0.
    assert (Edt' : at_ dt e = Fin dT).
    { rewrite Edt. simpl. rewrite He. rewrite <- G1. apply grad_col_ext; [exact Hn|exact Hk|]. exact HT. }
    assert (Eds' : at_ ds e = Fin dS).
    { rewrite Eds. simpl. rewrite He. rewrite <- G2. apply grad_col_ext; [exact Hn|exact Hk|]. exact HS. }
    rewrite Edt', Eds'. cbn [fmul fsub fadd fopp]. f_equal.
    replace (-0.2) with (- (2/10)) by lra. replace 0.8 with (8/10) by lra. field. exact Hr0.
Qed.

(** ** C25, C26 *)
Lemma atan_bounds z : - (PI / 2) < atan z < PI / 2.
Proof. assert (H := atan_bound z). lra. Qed.
Lemma atan_lt_1 z : - (PI / 4) < atan z < PI / 4 <-> -1 < z < 1.
Proof.
  rewrite <- atan_1. assert (Em : - atan 1 = atan (-1)) by (rewrite <- atan_opp; reflexivity).
  rewrite Em. split.
  - intros [H1 H2]. split.
    + apply Rnot_le_lt. intros [H| ->]; [apply atan_increasing in H; lra|lra].
    + apply Rnot_le_lt. intros [H|<-]; [apply atan_increasing in H; lra|lra].
  - intros [H1 H2]. split; apply atan_increasing; assumption.
Qed.

Definition ratio (a b x y : R) : R := (b * y) / (a * x).

Lemma angle_scalar R1 : R1 <> 1 ->
  exists ang, degrees (fatan (fdiv (fadd (Fin 1) (Fin R1)) (fsub (Fin 1) (Fin R1)))) = Fin ang /\
    -90 < ang < 90 /\ tan (ang * PI / 180) = (1 + R1) / (1 - R1) /\
    (-45 < ang < 45 <-> R1 < 0) /\ (ang = 45 <-> R1 = 0).
Proof.
  intros H1. cbn [fadd fsub fopp]. rewrite fdiv_Fin by lra. unfold degrees. cbn [fatan fmul].
  set (z := (1 + R1) / (1 + - R1)). eexists; split; [reflexivity|].
  assert (HP := PI_RGT_0). assert (HB := atan_bounds z).
  assert (E : forall c, c * (PI / 180) < atan z <-> c < atan z * (180 / PI)).
  { intros c. split; intros H.
    - apply (Rmult_lt_reg_r (PI / 180)); [lra|].
      replace (atan z * (180 / PI) * (PI / 180)) with (atan z) by (field; lra). exact H.
    - apply (Rmult_lt_compat_r (PI / 180)) in H; [|lra].
      replace (atan z * (180 / PI) * (PI / 180)) with (atan z) in H by (field; lra). exact H. }
  assert (E' : forall c, atan z < c * (PI / 180) <-> atan z * (180 / PI) < c).
  { intros c. split; intros H.
    - apply (Rmult_lt_reg_r (PI / 180)); [lra|].
      replace (atan z * (180 / PI) * (PI / 180)) with (atan z) by (field; lra). exact H.
    - apply (Rmult_lt_compat_r (PI / 180)) in H; [|lra].
      replace (atan z * (180 / PI) * (PI / 180)) with (atan z) in H by (field; lra). exact H. }
  assert (Hz : -1 < z < 1 <-> R1 < 0).
  { assert (Ez : z * (1 - R1) = 1 + R1) by (unfold z; field; lra). split; intros H.
    - destruct (Rlt_dec R1 1) as [Hc|Hc]; nra.
    - split; nra. }
  assert (HzR : z = 1 <-> R1 = 0).
  { assert (Ez : z * (1 - R1) = 1 + R1) by (unfold z; field; lra). split; intros H; [rewrite H in Ez; lra|].
    rewrite H in Ez. lra. }
  split; [split; [apply E; lra | apply E'; lra]|].
  split.
  - replace (atan z * (180 / PI) * PI / 180) with (atan z) by (field; lra).
    rewrite (Ratan.atan_right_inv z). unfold z. field; lra.
  - split.
    + rewrite <- Hz, <- atan_lt_1. rewrite <- E, <- E'. split; intros; lra.
    + rewrite <- HzR. split.
      * intros H. assert (Ha : atan z = PI / 4).
        { apply (Rmult_eq_reg_r (180 / PI)); [|apply Rgt_not_eq, Rdiv_lt_0_compat; lra].
          rewrite H. field. lra. }
        rewrite <- (Ratan.atan_right_inv z), Ha. exact tan_PI4.
      * intros ->. rewrite atan_1. field. lra.
Qed.

Lemma angle_at_one : degrees (fatan (fdiv (fadd (Fin 1) (Fin 1)) (fsub (Fin 1) (Fin 1)))) = Fin 90.
Proof.
  cbn [fadd fsub fopp]. replace (1 + 1) with 2 by ring. replace (1 + Ropp 1) with 0 by ring.
  cbn [fdiv]. rewrite Reqb_refl. assert (E : Reqb 2 0 = false) by (apply Reqb_false; lra). rewrite E.
  assert (E2 : Rltb 2 0 = false) by (apply Rltb_false; lra). rewrite E2. unfold degrees. cbn [fatan fmul]. f_equal.
  assert (H := PI_RGT_0). field. lra.
Qed.

Lemma angle_unfold ti t s p z eos zc r :
  calc_stability_angle ti t s p z eos zc = Ok r ->
  exists al be dt ds,
    calc_alpha ti t s p eos = Ok al /\ calc_beta ti t s p eos = Ok be /\
    differentiate zc z t = Ok dt /\ differentiate zc z s = Ok ds /\
    forall e, at_ r e =
      let q := fdiv (fmul (at_ be e) (at_ ds e)) (fmul (at_ al e) (at_ dt e)) in
      degrees (fatan (fdiv (fadd (Fin 1) q) (fsub (Fin 1) q))).
Proof.
  intros H. unfold calc_stability_angle in H.
  apply bind_inv in H as (al & Hal & H).
  apply bind_inv in H as (be & Hbe & H). apply bind_inv in H as (dt & Hdt & H).
  apply bind_inv in H as (ds & Hds & H). apply bind_inv in H as (u & Hu & H).
  apply bind_inv in H as (v & Hv & H). apply bind_inv in H as (w & Hw & H).
  injection H as <-. exists al, be, dt, ds. repeat (split; [assumption|]).
  intros e. apply amap2_inv in Hu, Hv, Hw. subst w u v. reflexivity.
Qed.

Lemma angle_facts ti t s p z eos zc r al be dt ds e a b x y :
  calc_stability_angle ti t s p z eos zc = Ok r ->
  calc_alpha ti t s p eos = Ok al -> calc_beta ti t s p eos = Ok be ->
  differentiate zc z t = Ok dt -> differentiate zc z s = Ok ds ->
  at_ al e = Fin a -> at_ be e = Fin b -> at_ dt e = Fin x -> at_ ds e = Fin y ->
  (a * x = 0 -> at_ r e = NaN) /\
  (a * x <> 0 -> exists ang, at_ r e = Fin ang /\ -90 < ang <= 90 /\
     (ang = 90 <-> b * y = a * x) /\
     (b * y <> a * x -> tan (ang * PI / 180) = (a * x + b * y) / (a * x - b * y)) /\
     (-45 < ang < 45 <-> (b * y) * (a * x) < 0) /\ (ang = 45 <-> b * y = 0)).
Proof.
  intros H Hal Hbe Hdt Hds Ha Hb Hx Hy.
  destruct (angle_unfold _ _ _ _ _ _ _ _ H) as (al' & be' & dt' & ds' & H1 & H2 & H3 & H4 & Hr).
  rewrite Hal in H1; rewrite Hbe in H2; rewrite Hdt in H3; rewrite Hds in H4.
  injection H1 as <-; injection H2 as <-; injection H3 as <-; injection H4 as <-.
  rewrite Hr, Ha, Hb, Hx, Hy. cbn [fmul]. split.
  - intros E. rewrite E. cbv zeta. simpl. rewrite Reqb_refl. destruct (Reqb (b * y) 0); [reflexivity|].
    simpl. unfold fsub. simpl. destruct (Rltb (b * y) 0); reflexivity.
  - intros E. cbv zeta. rewrite fdiv_Fin by exact E. set (q := b * y / (a * x)).
    assert (Ea : a <> 0) by (intros ->; apply E; ring). assert (Ex : x <> 0) by (intros ->; apply E; ring).
    assert (Eq : q * (a * x) = b * y) by (unfold q; field; split; assumption).
    assert (Q1 : q = 1 <-> b * y = a * x).
    { split; intros H0; [rewrite <- Eq, H0; ring|]. apply (Rmult_eq_reg_r (a * x)); [lra|exact E]. }
    assert (Hsq : 0 < (a * x) * (a * x)) by (apply Rsqr_pos_lt in E; exact E).
    destruct (Req_EM_T q 1) as [Hq|Hq].
    + rewrite Hq, angle_at_one. exists 90. split; [reflexivity|]. split; [lra|].
      split; [split; [intros _; apply Q1; exact Hq|reflexivity]|].
      split; [intros Hc; exfalso; apply Hc; apply Q1; exact Hq|].
      split; [split; intros; [lra|exfalso; rewrite (proj1 Q1 Hq) in H0; lra]|].
      split; intros; [lra|]. exfalso. rewrite (proj1 Q1 Hq) in H0. contradiction.
    + destruct (angle_scalar q Hq) as (ang & E1 & B & Ht & H45 & H45').
      exists ang. split; [exact E1|]. split; [lra|].
      split; [split; [intros; lra|intros H0; exfalso; apply Hq; apply Q1; exact H0]|].
      split.
      { intros Hc. rewrite Ht. unfold q.
        field. repeat split; try assumption; lra. }
      split; [rewrite H45|rewrite H45'].
      * rewrite <- Eq. split; intros; nra.
      * rewrite <- Eq. split; intros H0; [rewrite H0; ring|]. 
        apply Rmult_integral in H0 as [H0|H0]; [exact H0|contradiction].
Qed.
