(** * ProofsFields: lemmas for C07, C09, C10, C19, C20, C24-C26 (proofs only) *)
From Coq Require Import Reals Lra Lia List String Bool Arith FunctionalExtensionality.
From Verif Require Import Num NumFacts Py Arr ArrFacts Eos SpecEos Spice Derived ProofsEos ProofsEosBox ProofsEosApi.
Import ListNotations.
Local Open Scope R_scope.

Ltac binv H := 
  match type of H with bind _ _ = Ok _ =>
    let a := fresh "a" in let Ha := fresh "Ha" in
    apply bind_inv in H as (a & Ha & H) end.

(** ** C07 *)
Lemma wright_density_nan T S p : T = NaN \/ S = NaN \/ p = NaN -> wright_density T S p = NaN.
Proof.
  unfold wright_density, w_al0, w_p0, w_lam.
  intros [->|[->| ->]]; autorewrite with nan; reflexivity.
Qed.
Lemma wright_dtemp_nan T S p : T = NaN \/ S = NaN \/ p = NaN -> wright_drho_dtemp T S p = NaN.
Proof.
  unfold wright_drho_dtemp, w_al0, w_p0, w_lam.
  intros [->|[->| ->]]; autorewrite with nan; reflexivity.
Qed.
Lemma wright_dsal_nan T S p : T = NaN \/ S = NaN \/ p = NaN -> wright_drho_dsal T S p = NaN.
Proof.
  unfold wright_drho_dsal, w_al0, w_p0, w_lam.
  intros [->|[->| ->]]; autorewrite with nan; reflexivity.
Qed.
Lemma wright_nan f T S p ti : T = NaN \/ S = NaN \/ p = NaN -> eos_apply ti (Wright, f) T S p = NaN.
Proof.
  intros H. destruct f; simpl; unfold wright_alpha, wright_beta;
  rewrite ?wright_density_nan, ?wright_dtemp_nan, ?wright_dsal_nan by exact H; reflexivity.
Qed.
Lemma linear_density_nan T S p : T = NaN \/ S = NaN -> linear_density T S p = NaN.
Proof.
  unfold linear_density, linear_density_ref. intros [->| ->]; autorewrite with nan; reflexivity.
Qed.
Lemma linear_nan f T S p ti : T = NaN \/ S = NaN -> eos_apply ti (Linear, f) T S p = NaN.
Proof.
  intros H. destruct f; simpl; unfold linear_alpha, linear_beta;
  rewrite ?linear_density_nan by exact H; autorewrite with nan; reflexivity.
Qed.

Lemma eos_ufunc_inv ti f t s p r : eos_ufunc ti f t s p = Ok r ->
  r = mkArr (union_dims (union_dims (adims t) (adims s)) (adims p))
            (fun e => eos_apply ti f (at_ t e) (at_ s e) (at_ p e)).
Proof.
  unfold eos_ufunc. intros H. apply bind_inv in H as (a & Ha & H).
  destruct (eos_shape_ok _ _ _ _); [|discriminate]. injection H as <-.
  apply amap3_inv in Ha. exact Ha.
Qed.

Lemma compat_shape_full u own st : (forall d, In d (map fst u) -> In d (map fst own)) ->
  compat_shape u own st = map snd u.
Proof.
  revert st. induction u as [|[d n] u IH]; intros st H; simpl; [reflexivity|].
  assert (E : dmem d own = true) by (apply dmem_true; apply H; left; reflexivity).
  rewrite E. f_equal. apply IH. intros x Hx. apply H. right; exact Hx.
Qed.

Lemma list_nat_eqb_refl l : list_nat_eqb l l = true.
Proof. unfold list_nat_eqb. destruct (list_eq_dec Nat.eq_dec l l); congruence. Qed.

Lemma eos_ufunc_ok ti m f t s p :
  NoDup (names t) -> NoDup (names s) ->
  dims_agree (adims t) (adims s) -> dims_agree (adims t) (adims p) -> dims_agree (adims s) (adims p) ->
  (m = Linear -> forall d, In d (names p) -> In d (names t) \/ In d (names s)) ->
  is_ok (eos_ufunc ti (m, f) t s p) = true.
Proof.
  intros Ht Hs H1 H2 H3 Hm. unfold eos_ufunc, amap3.
  assert (E1 : compatible (adims t) (adims s) = true) by (apply compatible_agree; assumption).
  assert (E2 : compatible (union_dims (adims t) (adims s)) (adims p) = true).
  { apply compatible_agree; [apply union_NoDup; assumption|].
    intros d n n' Ha Hb. apply union_In in Ha as [Ha|Ha]; [exact (H2 _ _ _ Ha Hb)|exact (H3 _ _ _ Ha Hb)]. }
  rewrite E1, E2. simpl. destruct m; simpl; [reflexivity|].
  rewrite compat_shape_full; [rewrite list_nat_eqb_refl; reflexivity|].
  intros d Hd. apply union_names in Hd. rewrite map_app, in_app_iff.
  destruct Hd as [Hd|Hd]; [apply union_names in Hd; exact Hd|].
  exact (Hm eq_refl d Hd).
Qed.

Lemma eos_calc_pointwise ti fn t s p eos r :
  (let* f := eos_func_from_str eos fn in eos_ufunc ti f t s p) = Ok r ->
  exists m, same_name eos (module_name m) /\
    (forall e, at_ r e = eos_apply ti (m, fn) (at_ t e) (at_ s e) (at_ p e)) /\
    (forall d, In d (names r) <-> In d (names t) \/ In d (names s) \/ In d (names p)) /\
    (forall e, at_ t e = NaN \/ at_ s e = NaN \/ (m = Wright /\ at_ p e = NaN) -> at_ r e = NaN).
Proof.
  intros H. apply bind_inv in H as ([m f] & Hf & H).
  destruct (eos_never_mixed _ _ fn _ _ Hf) as [-> _].
  exists m. apply eos_ufunc_inv in H. subst r. split; [apply (eos_resolves eos m fn); exact Hf|].
  split; [reflexivity|]. split.
  - intros d. unfold names; simpl. rewrite !union_names. tauto.
  - intros e He. simpl. destruct m.
    + apply (wright_nan fn _ _ _ ti). tauto.
    + apply (linear_nan fn _ _ _ ti). destruct He as [He|[He|[He _]]]; [tauto|tauto|discriminate].
Qed.

Lemma eos_calc_total ti fn t s p eos m :
  same_name eos (module_name m) ->
  NoDup (names t) -> NoDup (names s) ->
  dims_agree (adims t) (adims s) -> dims_agree (adims t) (adims p) -> dims_agree (adims s) (adims p) ->
  (m = Linear -> forall d, In d (names p) -> In d (names t) \/ In d (names s)) ->
  is_ok (let* f := eos_func_from_str eos fn in eos_ufunc ti f t s p) = true.
Proof.
  intros Hm Ht Hs H1 H2 H3 H4. apply (eos_resolves eos m fn) in Hm. rewrite Hm. simpl.
  apply eos_ufunc_ok; assumption.
Qed.

(** ** C09 *)
Definition omega2 : R := 4 * PI / 86400.
Lemma calc_coriolis_Fin lat e x : at_ lat e = Fin x ->
  at_ (calc_coriolis lat) e = Fin (omega2 * sin (x * PI / 180)).
Proof.
  intros H. simpl. rewrite H. cbn [fmul]. rewrite fdiv_Fin by lra. simpl. f_equal.
  unfold omega2. assert (E : 60 * 60 * 24 = 86400) by lra. rewrite E. lra.
Qed.
Lemma omega2_pos : 0 < omega2.
Proof. unfold omega2. assert (H := PI_RGT_0). lra. Qed.

Lemma coriolis_odd lat lat' e : at_ lat' e = fopp (at_ lat e) ->
  at_ (calc_coriolis lat') e = fopp (at_ (calc_coriolis lat) e).
Proof.
  intros H. destruct (at_ lat e) as [|s|x] eqn:E.
  - simpl. rewrite H, E. reflexivity.
  - simpl. rewrite H, E. simpl.
    destruct (Reqb PI 0) eqn:E0; [apply Reqb_true in E0; assert (H1 := PI_RGT_0); lra|].
    destruct s; reflexivity.
  - rewrite (calc_coriolis_Fin lat e x E). rewrite (calc_coriolis_Fin lat' e (- x)) by (rewrite H; reflexivity).
    simpl. f_equal. replace (- x * PI / 180) with (- (x * PI / 180)) by lra. rewrite sin_neg. lra.
Qed.
Lemma coriolis_bound lat e x : at_ lat e = Fin x ->
  exists f, at_ (calc_coriolis lat) e = Fin f /\ Rabs f <= 4 * PI / 86400.
Proof.
  intros H. rewrite (calc_coriolis_Fin lat e x H). eexists; split; [reflexivity|].
  assert (H1 := omega2_pos). rewrite Rabs_mult, (Rabs_pos_eq omega2) by lra. fold omega2.
  rewrite <- (Rmult_1_r omega2) at 2. apply Rmult_le_compat_l; [lra|].
  apply Rabs_le. apply SIN_bound.
Qed.
Lemma coriolis_mono lat e e' x y : at_ lat e = Fin x -> at_ lat e' = Fin y ->
  -90 <= x -> x < y -> y <= 90 ->
  exists f g, at_ (calc_coriolis lat) e = Fin f /\ at_ (calc_coriolis lat) e' = Fin g /\ f < g.
Proof.
  intros Hx Hy H1 H2 H3. rewrite (calc_coriolis_Fin _ _ _ Hx), (calc_coriolis_Fin _ _ _ Hy).
  do 2 eexists. split; [reflexivity|]. split; [reflexivity|].
  apply Rmult_lt_compat_l; [apply omega2_pos|]. assert (HP := PI_RGT_0).
  apply sin_increasing_1; try nra.
Qed.
Lemma coriolis_sign lat e x : at_ lat e = Fin x -> -90 <= x <= 90 ->
  exists f, at_ (calc_coriolis lat) e = Fin f /\ (f = 0 <-> x = 0) /\ (0 < f <-> 0 < x) /\ (f < 0 <-> x < 0).
Proof.
  intros H Hx. rewrite (calc_coriolis_Fin _ _ _ H). eexists; split; [reflexivity|].
  assert (HP := PI_RGT_0). assert (Ho := omega2_pos).
  assert (P : 0 < x -> 0 < omega2 * sin (x * PI / 180)).
  { intros Hp. apply Rmult_lt_0_compat; [exact Ho|]. apply sin_gt_0; nra. }
  assert (N : x < 0 -> omega2 * sin (x * PI / 180) < 0).
  { intros Hp. assert (0 < sin (- (x * PI / 180))) by (apply sin_gt_0; nra).
    rewrite sin_neg in H0. nra. }
  assert (Z : x = 0 -> omega2 * sin (x * PI / 180) = 0).
  { intros ->. replace (0 * PI / 180) with 0 by lra. rewrite sin_0. lra. }
  destruct (Rtotal_order x 0) as [Hc|[Hc|Hc]].
  - specialize (N Hc). repeat split; intros; lra.
  - specialize (Z Hc). repeat split; intros; lra.
  - specialize (P Hc). repeat split; intros; lra.
Qed.

(** ** C10 *)
Lemma inverse_barometer_hydrostatic t s p g eos h :
  inverse_barometer t s p (Fin g) eos = Ok h -> g <> 0 ->
  exists rho, calc_rho t s p eos = Ok rho /\
   forall e, 
    (forall r q, at_ rho e = Fin r -> r <> 0 -> at_ p e = Fin q ->
       exists x, at_ h e = Fin x /\ r * g * x = - q) /\
    (at_ t e = NaN \/ at_ s e = NaN \/ at_ p e = NaN -> at_ h e = NaN).
Proof.
  unfold inverse_barometer. intros H Hg. apply bind_inv in H as (rho & Hr & H).
  exists rho. split; [exact Hr|]. apply amap2_inv in H. subst h. intros e. split.
  - intros r q Er Hr0 Eq. cbn [at_ amap]. rewrite Er, Eq. cbn [fmul].
    assert (Hrg : r * g <> 0) by (apply Rmult_integral_contrapositive; split; assumption).
    rewrite fdiv_Fin by exact Hrg. cbn [fmul]. eexists; split; [reflexivity|]. field. split; assumption.
  - intros HN. cbn [at_ amap]. unfold calc_rho in Hr.
    destruct (eos_calc_pointwise false FDensity t s p eos rho Hr) as (m & _ & _ & _ & Hnan).
    destruct HN as [HN|[HN|HN]].
    + rewrite (Hnan e) by tauto. autorewrite with nan. reflexivity.
    + rewrite (Hnan e) by tauto. autorewrite with nan. reflexivity.
    + rewrite HN. reflexivity.
Qed.

(** ** C24 *)
Lemma rossby_facts c f r : calc_rossby_rd c f = Ok r -> forall e,
  (forall x y, at_ c e = Fin x -> at_ f e = Fin y -> y <> 0 ->
     exists z, at_ r e = Fin z /\ z * Rabs y = x /\ (0 <= x -> 0 <= z)) /\
  (forall x, at_ c e = Fin x -> at_ f e = Fin 0 -> 0 < x -> at_ r e = Inf false) /\
  (at_ c e = NaN \/ at_ f e = NaN -> at_ r e = NaN) /\
  (at_ r e = Inf false -> forall x, at_ c e = Fin x -> at_ f e = Fin 0).
Proof.
  unfold calc_rossby_rd. intros H e. apply amap2_inv in H; subst r. cbn [at_ amap]. repeat split.
  - intros x y -> -> Hy. cbn [fabs].
    assert (Ha : Rabs y <> 0) by (apply Rabs_no_R0; exact Hy).
    assert (Hp : 0 < Rabs y) by (apply Rabs_pos_lt; exact Hy).
    rewrite fdiv_Fin by exact Ha. eexists; split; [reflexivity|]. split; [field; exact Ha|].
    intros Hx. apply Rmult_le_pos; [exact Hx|]. left; apply Rinv_0_lt_compat; exact Hp.
  - intros x -> -> Hx. simpl. rewrite Rabs_R0, Reqb_refl.
    assert (E : Reqb x 0 = false) by (apply Reqb_false; lra).
    assert (E2 : Rltb x 0 = false) by (apply Rltb_false; lra). rewrite E, E2. reflexivity.
  - intros [->| ->]; simpl; autorewrite with nan; reflexivity.
  - intros Hr x Hx. rewrite Hx in Hr. destruct (at_ f e) as [|s|y] eqn:E; simpl in Hr; try discriminate.
    destruct (Reqb (Rabs y) 0) eqn:E2; [|discriminate]. apply Reqb_true in E2.
    destruct (Req_EM_T y 0) as [->|Hn]; [reflexivity|]. apply Rabs_no_R0 in Hn. contradiction.
Qed.

Lemma rossby_even c f f' r r' : calc_rossby_rd c f = Ok r -> calc_rossby_rd c f' = Ok r' ->
  forall e, at_ f' e = fopp (at_ f e) -> at_ r' e = at_ r e.
Proof.
  unfold calc_rossby_rd. intros H H' e E. apply amap2_inv in H, H'; subst. cbn [at_ amap].
  rewrite E. f_equal. destruct (at_ f e); simpl; try reflexivity. rewrite Rabs_Ropp. reflexivity.
Qed.

(** ** C19: the vertical derivative *)
Section Grad.
Variables (n : nat) (x : nat -> R).
Hypothesis Hn : (3 <= n)%nat.
Hypothesis Hmono : (forall i, (S i < n)%nat -> x i < x (S i)) \/ (forall i, (S i < n)%nat -> x (S i) < x i).

Lemma step_ne i : (S i < n)%nat -> x (S i) - x i <> 0.
Proof. intros Hi. destruct Hmono as [H|H]; specialize (H i Hi); lra. Qed.
Lemma step2_ne i : (S (S i) < n)%nat -> x (S i) - x i + (x (S (S i)) - x (S i)) <> 0.
Proof.
  intros Hi. destruct Hmono as [H|H]; assert (H1 := H i ltac:(lia)); assert (H2 := H (S i) Hi); lra.
Qed.

Definition fx (i : nat) : fval := Fin (x i).

(** The derivative at level k is a fixed combination of three profile values, exact on quadratics. *)
Lemma grad_weights k : (k < n)%nat -> exists i wa wb wc, (S (S i) < n)%nat /\
  (forall f, grad_col n fx (fun j => Fin (f j)) k = Fin (wa * f i + wb * f (S i) + wc * f (S (S i)))) /\
  (forall a b c, wa * (a + b * x i + c * (x i)^2) + wb * (a + b * x (S i) + c * (x (S i))^2)
        + wc * (a + b * x (S (S i)) + c * (x (S (S i)))^2) = b + 2 * c * x k).
Proof.
  intros Hk. unfold grad_col.
  destruct (Nat.eqb_spec k 0) as [->|Hk0].
  - exists 0%nat. assert (D1 := step_ne 0 ltac:(lia)). assert (D2 := step_ne 1 ltac:(lia)).
    assert (D3 := step2_ne 0 ltac:(lia)).
    exists (- (2 * (x 1%nat - x 0%nat) + (x 2%nat - x 1%nat)) / ((x 1%nat - x 0%nat) * (x 1%nat - x 0%nat + (x 2%nat - x 1%nat)))),
           ((x 1%nat - x 0%nat + (x 2%nat - x 1%nat)) / ((x 1%nat - x 0%nat) * (x 2%nat - x 1%nat))),
           (- (x 1%nat - x 0%nat) / ((x 2%nat - x 1%nat) * (x 1%nat - x 0%nat + (x 2%nat - x 1%nat)))).
    split; [lia|]. split.
    + intros f. unfold grad_first, fx. cbn [fsub fadd fopp fmul].
      rewrite !fdiv_Fin by (apply Rmult_integral_contrapositive; split; assumption). cbn [fadd fmul]. reflexivity.
    + intros a b c. field. repeat split; first [exact D1 | exact D2 | exact D3 | lra].
  - destruct (Nat.eqb_spec k (n - 1)) as [->|Hkn].
    + exists (n - 3)%nat. replace (S (n - 3)) with (n - 2)%nat by lia. replace (S (n - 2)) with (n - 1)%nat by lia.
      assert (D1 := step_ne (n - 3) ltac:(lia)). assert (D2 := step_ne (n - 2) ltac:(lia)).
      assert (D3 := step2_ne (n - 3) ltac:(lia)).
      replace (S (n - 3)) with (n - 2)%nat in * by lia. replace (S (n - 2)) with (n - 1)%nat in * by lia.
      set (x0 := x (n - 3)%nat) in *. set (x1 := x (n - 2)%nat) in *. set (x2 := x (n - 1)%nat) in *.
      exists ((x2 - x1) / ((x1 - x0) * (x1 - x0 + (x2 - x1)))),
             (- (x2 - x1 + (x1 - x0)) / ((x1 - x0) * (x2 - x1))),
             ((2 * (x2 - x1) + (x1 - x0)) / ((x2 - x1) * (x1 - x0 + (x2 - x1)))).
      split; [lia|]. split.
      * intros f. unfold grad_last, fx. fold x0 x1 x2. cbn [fsub fadd fopp fmul].
        fold x0 x1 x2.
        rewrite !fdiv_Fin by (apply Rmult_integral_contrapositive; split; assumption). cbn [fadd fmul]. reflexivity.
      * intros a b c. field. repeat split; first [exact D1 | exact D2 | exact D3 | lra].
    + exists (k - 1)%nat. replace (S (k - 1)) with k by lia.
      assert (D1 := step_ne (k - 1) ltac:(lia)). assert (D2 := step_ne k ltac:(lia)).
      assert (D3 := step2_ne (k - 1) ltac:(lia)). replace (S (k - 1)) with k in * by lia.
      destruct (uniform_spacing n fx) eqn:U.
      * assert (E : forall i, (S i < n)%nat -> x (S i) - x i = x 1%nat - x 0%nat).
        { intros i Hi. unfold uniform_spacing in U. rewrite forallb_forall in U.
          specialize (U i). rewrite in_seq in U. specialize (U ltac:(lia)). unfold fx in U. simpl in U.
          apply Reqb_true in U. rewrite Nat.add_1_r in U. lra. }
        assert (E1 := E (k - 1)%nat ltac:(lia)). replace (S (k - 1)) with k in E1 by lia.
        assert (E2 := E k ltac:(lia)).
        set (h := x 1%nat - x 0%nat) in *.
        exists (- / (2 * h)), 0, (/ (2 * h)).
        assert (Hh : h <> 0) by lra.
        split; [lia|]. split.
        -- intros f. unfold grad_uniform, fx. cbn [fsub fadd fopp fmul]. fold h.
           rewrite Nat.add_1_r.
           change (x 1%nat + - x 0%nat) with h.
           rewrite fdiv_Fin by lra. f_equal. field. exact Hh.
        -- intros a b c.
           replace (x (S k)) with (x k + h) by lra. replace (x (k - 1)%nat) with (x k - h) by lra.
           field. exact Hh.
      * set (x0 := x (k - 1)%nat) in *. set (x1 := x k) in *. set (x2 := x (S k)) in *.
        exists (- (x2 - x1) / ((x1 - x0) * (x1 - x0 + (x2 - x1)))),
               ((x2 - x1 - (x1 - x0)) / ((x1 - x0) * (x2 - x1))),
               ((x1 - x0) / ((x2 - x1) * (x1 - x0 + (x2 - x1)))).
        split; [lia|]. split.
        -- intros f. unfold grad_interior, fx. rewrite Nat.add_1_r. cbn [fsub fadd fopp fmul].
           fold x0 x1 x2.
           rewrite !fdiv_Fin by (apply Rmult_integral_contrapositive; split; assumption). cbn [fadd fmul]. reflexivity.
        -- intros a b c. field. repeat split; first [exact D1 | exact D2 | exact D3 | lra].
Qed.

Lemma grad_quadratic a b c k : (k < n)%nat ->
  grad_col n fx (fun j => Fin (a + b * x j + c * (x j)^2)) k = Fin (b + 2 * c * x k).
Proof.
  intros Hk. destruct (grad_weights k Hk) as (i & wa & wb & wc & Hi & E & Q).
  rewrite E. f_equal. apply Q.
Qed.

Lemma grad_linear f g u v c k : (k < n)%nat ->
  exists df dg, grad_col n fx (fun j => Fin (f j)) k = Fin df /\
    grad_col n fx (fun j => Fin (g j)) k = Fin dg /\
    grad_col n fx (fun j => Fin (c + u * f j + v * g j)) k = Fin (u * df + v * dg).
Proof.
  intros Hk. destruct (grad_weights k Hk) as (i & wa & wb & wc & Hi & E & Q).
  rewrite !E. do 2 eexists. split; [reflexivity|]. split; [reflexivity|]. f_equal.
  assert (Z : wa + wb + wc = 0) by (assert (Q1 := Q 1 0 0); lra).
  assert (wa * c + wb * c + wc * c = 0) by (replace (wa * c + wb * c + wc * c) with ((wa + wb + wc) * c) by ring; rewrite Z; ring).
  lra.
Qed.
End Grad.

Lemma grad_col_ext n x f g k : (3 <= n)%nat -> (k < n)%nat ->
  (forall i, (i < n)%nat -> f i = g i) -> grad_col n x f k = grad_col n x g k.
Proof.
  intros Hn Hk H. unfold grad_col.
  destruct (Nat.eqb_spec k 0); [unfold grad_first; rewrite !H by lia; reflexivity|].
  destruct (Nat.eqb_spec k (n - 1)); [unfold grad_last; rewrite !H by lia; reflexivity|].
  destruct (uniform_spacing n x); [unfold grad_uniform|unfold grad_interior]; rewrite !H by lia; reflexivity.
Qed.

Lemma differentiate_inv d x a r n : dget d (adims a) = Some n -> differentiate d x a = Ok r ->
  (3 <= n)%nat /\ r = mkArr (adims a) (fun e => grad_col n x (fun k => at_ a (upd e d k)) (e d)).
Proof.
  intros Hd. unfold differentiate. rewrite Hd. destruct (Nat.ltb_spec n 3); [discriminate|].
  intros [=]; auto.
Qed.
