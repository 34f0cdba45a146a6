(** * PropertiesN2Edges: C85 - C88, buoyancy frequency with Wright's equation and on cell edges *)
From Coq Require Import Reals Lra Lia List String Bool Arith.
From Verif Require Import Num NumFacts Py Arr ArrFacts Eos SpecEos SpecN2 Derived N2Edges
  ProofsEos ProofsEosBox ProofsEosApi ProofsFields ProofsFields2 ProofsFields3 ProofsN2 ProofsN2Edges PropertiesN2.
Import ListNotations.
Local Open Scope R_scope.

(** C85: N2 with Wright's equation is [-(g / rho)] times the rate of change of density when
    temperature and salinity change at their vertical rates [a] and [b] and the pressure is
    held at its local value; it is positive exactly where that rate is. *)
Theorem C85_n2_wright : forall ti t s x eos g patm zc n r e T S dt ds a b pa,
  calc_n2 ti t s (fun i => Fin (x i)) eos (Fin g) patm zc false = Ok r -> same_name eos "wright" ->
  dget zc (adims t) = Some n -> at_ t e = Fin T -> at_ s e = Fin S -> at_ patm e = Fin pa ->
  differentiate zc (fun i => Fin (x i)) t = Ok dt -> at_ dt e = Fin a ->
  differentiate zc (fun i => Fin (x i)) s = Ok ds -> at_ ds e = Fin b ->
  let p := 10000 * x (e zc) + pa in ocean_box T S p ->
  exists D n2, derivable_pt_lim (fun h => wr_rho (T + a * h) (S + b * h) p) 0 D /\
    at_ r e = Fin n2 /\ n2 = - (g / wr_rho T S p) * D /\ (g < 0 -> (0 < n2 <-> 0 < D)).
Proof.
  intros ti t s x eos g patm zc n r e T S dt ds a b pa H Hn Hd HT HS Hp H1 Ha H2 Hb p Box.
  destruct (n2_wright _ _ _ _ _ _ _ _ _ _ _ _ _ _ _ _ _ _ H Hn Hd HT HS Hp H1 Ha H2 Hb Box) as (D & HD & Hr).
  exists D, (- (g / wr_rho T S p) * D). split; [exact HD|]. split; [exact Hr|]. split; [reflexivity|].
  intros Hg. assert (B := rho_bounds T S p Box).
  assert (P : 0 < - (g / wr_rho T S p)).
  { replace (- (g / wr_rho T S p)) with ((- g) / wr_rho T S p) by (field; lra). apply Rdiv_lt_0_compat; lra. }
  split; intros Q; [|apply Rmult_lt_0_compat; assumption].
  apply Rmult_lt_reg_l with (- (g / wr_rho T S p)); [exact P|]. lra.
Qed.
Print Assumptions C85_n2_wright.

(** C86: with interfaces, N2 is computed from the temperature and salinity interpolated
    linearly, column by column, to the interfaces; the new dimension replaces the old one. *)
Definition regridded (zc : string) (x : nat -> R) (zi : string) (ni : nat) (iv : nat -> R) (a b : arr) : Prop :=
  (forall d, In d (names b) <-> (In d (names a) /\ d <> zc) \/ d = zi) /\ dget zi (adims b) = Some ni /\
  exists n, dget zc (adims a) = Some n /\
    forall e, piecewise_linear n x (fun k => at_ a (upd e zc k)) (iv (e zi)) (at_ b e).

Theorem C86_edges : forall t s n x eos g patm zc zi ni iv adj r,
  calc_n2_edges t s (fun i => Fin (x i)) eos g patm zc zi ni (fun i => Fin (iv i)) adj = Ok r ->
  dget zc (adims t) = Some n -> dget zc (adims s) = Some n -> strictly_monotone n x -> (0 < n)%nat ->
  exists t' s', regridded zc x zi ni iv t t' /\ regridded zc x zi ni iv s s' /\
    calc_n2 false t' s' (fun i => Fin (iv i)) eos g patm zi adj = Ok r.
Proof.
  intros t s n x eos g patm zc zi ni iv adj r H Ht Hs Hx Hn. unfold calc_n2_edges in H.
  apply bind_inv in H as (t' & Et & H). apply bind_inv in H as (s' & Es & H).
  exists t', s'.
  assert (G : forall a a', dget zc (adims a) = Some n ->
     transform_z zc (fun i => Fin (x i)) zi ni (fun i => Fin (iv i)) a = Ok a' -> regridded zc x zi ni iv a a').
  { intros a a' Ha E. assert (Z := transform_size _ _ _ _ _ _ _ E).
    apply transform_inv in E as (n' & Hd & Hfresh & Hdims & Hv). rewrite Ha in Hd. injection Hd as <-.
    split; [|split; [exact Z|exists n; split; [exact Ha|]]].
    - intros d. unfold names. rewrite Hdims, map_app, in_app_iff. split.
      + intros [Q|[<-|[]]]; [left; apply drop_dim_sub; exact Q|right; reflexivity].
      + intros [[Q N]| ->]; [left|right; left; reflexivity].
        apply in_map_iff in Q as ([k v] & <- & Q). apply in_map_iff. exists (k, v). split; [reflexivity|].
        apply filter_In. split; [exact Q|]. simpl. simpl in N.
        first [destruct (String.eqb_spec k zc); [congruence|reflexivity] | destruct (String.eqb_spec zc k); [congruence|reflexivity]].
    - intros e. rewrite Hv. apply interp_piecewise; assumption. }
  split; [apply G; assumption|]. split; [apply G; assumption|exact H].
Qed.
Print Assumptions C86_edges.

(** It succeeds for temperature and salinity on the same dimensions. *)
Theorem C86_total : forall t s lv eos m g pa zc zi n ni iv,
  adims s = adims t -> NoDup (names t) -> dget zc (adims t) = Some n -> ~ In zi (names t) -> (3 <= ni)%nat ->
  same_name eos (module_name m) ->
  is_ok (calc_n2_edges t s lv eos g (scalar pa) zc zi ni iv false) = true.
Proof.
  intros t s lv eos m g pa zc zi n ni iv Es Nd Hd Hz Hn Hm.
  assert (F : forall a, adims a = adims t -> transform_z zc lv zi ni iv a =
    Ok (mkArr (drop_dim zc (adims t) ++ [(zi, ni)])
          (fun e => interp_levels n lv (fun k => at_ a (upd e zc k)) (iv (e zi))))).
  { intros a Ea. unfold transform_z, has_dim. rewrite Ea, Hd. apply dmem_false in Hz. rewrite Hz. reflexivity. }
  unfold calc_n2_edges. rewrite (F t eq_refl). cbn [bind]. rewrite (F s Es). cbn [bind].
  assert (Q : ~ In zi (map fst (drop_dim zc (adims t)))).
  { intros C. apply drop_dim_sub in C as [C _]. contradiction. }
  match goal with |- is_ok (calc_n2 _ ?a ?b _ _ _ _ _ _) = true =>
    destruct (n2_total false a b iv eos g zi ni m pa) as (r & -> & _); [reflexivity| |apply dget_last; exact Q|exact Hn|exact Hm|reflexivity] end.
  unfold names. cbn [adims]. rewrite map_app. apply NoDup_app'.
  - apply NoDup_map_filter. exact Nd.
  - repeat constructor. intros [].
  - intros y Hy [<-|[]]. contradiction.
Qed.
Print Assumptions C86_total.

(** C87 is false: when the outermost interfaces lie beyond the outermost levels (every ocean
    grid), N2 is missing at the first two and the last two interfaces, although the second and
    the last but one lie between two levels.  With four interfaces or fewer nothing is left. *)
Theorem C87_next_to_end_refuted : forall t s n x eos g patm zc zi ni iv r e,
  calc_n2_edges t s (fun i => Fin (x i)) eos (Fin g) patm zc zi ni (fun i => Fin (iv i)) false = Ok r ->
  dget zc (adims t) = Some n -> strictly_monotone n x -> (0 < n)%nat -> (e zi < ni)%nat ->
  ((e zi <= 1)%nat /\ ((forall j, (j < n)%nat -> iv O < x j) \/ (forall j, (j < n)%nat -> x j < iv O))) \/
  ((ni <= e zi + 2)%nat /\
     ((forall j, (j < n)%nat -> iv (ni - 1)%nat < x j) \/ (forall j, (j < n)%nat -> x j < iv (ni - 1)%nat))) ->
  at_ r e = NaN.
Proof.
  intros t s n x eos g patm zc zi ni iv r e H Ht Hx Hn He Hk. unfold calc_n2_edges in H.
  apply bind_inv in H as (t' & Et & H). apply bind_inv in H as (s' & Es & H).
  assert (Z := transform_size _ _ _ _ _ _ _ Et).
  apply transform_inv in Et as (n' & Hd & _ & _ & Hv). rewrite Ht in Hd. injection Hd as <-.
  destruct (n2_unfold _ _ _ _ _ _ _ _ _ _ H Z) as (pres & al & be & dt & ds & _ & _ & _ & E4 & _ & E6).
  destruct (differentiate_inv _ _ _ _ _ Z E4) as [H3 ->]. rewrite E6. cbn [at_].
  rewrite grad_missing; [autorewrite with nan; reflexivity|exact H3|exact He| |].
  - assert (V : forall k, (forall j, (j < n)%nat -> iv k < x j) \/ (forall j, (j < n)%nat -> x j < iv k) ->
                at_ t' (upd e zi k) = NaN).
    { intros k Hk'. rewrite Hv, upd_same. apply interp_outside; assumption. }
    destruct Hk as [[Hk Ho]|[Hk Ho]]; apply V in Ho.
    + destruct (Nat.eq_dec (e zi) 0) as [E|E]; [left; rewrite E; exact Ho|].
      right. left. split; [lia|]. replace (e zi - 1)%nat with O by lia. exact Ho.
    + destruct (Nat.eq_dec (e zi) (ni - 1)) as [E|E]; [left; rewrite E; exact Ho|].
      right. right. split; [lia|]. replace (S (e zi)) with (ni - 1)%nat by lia. exact Ho.
  - intros [K1 K2].
    assert (V : forall k, (forall j, (j < n)%nat -> iv k < x j) \/ (forall j, (j < n)%nat -> x j < iv k) ->
                at_ t' (upd e zi k) = NaN).
    { intros k Hk'. rewrite Hv, upd_same. apply interp_outside; assumption. }
    destruct Hk as [[Hk Ho]|[Hk Ho]]; apply V in Ho.
    + left. replace (e zi - 1)%nat with O by lia. exact Ho.
    + right. replace (S (e zi)) with (ni - 1)%nat by lia. exact Ho.
Qed.
Print Assumptions C87_next_to_end_refuted.

(** What does hold: at an interface which, with both its neighbours, lies within the range of
    the levels, N2 of profiles linear in depth is exact for Wright's equation, on any grid. *)
Theorem C87_linear_profiles_partial : forall t s n x eos g patm zc zi ni iv r e T0 T1 S0 S1 pa,
  calc_n2_edges t s (fun i => Fin (x i)) eos (Fin g) patm zc zi ni (fun i => Fin (iv i)) false = Ok r ->
  same_name eos "wright" -> dget zc (adims t) = Some n -> dget zc (adims s) = Some n ->
  wf_arr t -> wf_arr s -> strictly_monotone n x -> strictly_monotone ni iv ->
  (0 < e zi)%nat -> (S (e zi) < ni)%nat ->
  (forall k, (e zi - 1 <= k <= e zi + 1)%nat -> exists i j, (i < n)%nat /\ (j < n)%nat /\ x i <= iv k <= x j) ->
  (forall j, (j < n)%nat -> at_ t (upd e zc j) = Fin (T0 + T1 * x j) /\ at_ s (upd e zc j) = Fin (S0 + S1 * x j)) ->
  at_ patm e = Fin pa ->
  let z := iv (e zi) in let p := 10000 * z + pa in ocean_box (T0 + T1 * z) (S0 + S1 * z) p ->
  exists D, derivable_pt_lim (fun z' => wr_rho (T0 + T1 * z') (S0 + S1 * z') p) z D /\
    at_ r e = Fin (- (g / wr_rho (T0 + T1 * z) (S0 + S1 * z) p) * D).
Proof.
  intros t s n x eos g patm zc zi ni iv r e T0 T1 S0 S1 pa H Hname Ht Hs Wt Ws Hx Hiv K0 K1 Hin Hprof Hpa z p Box.
  unfold calc_n2_edges in H. apply bind_inv in H as (t' & Et & H). apply bind_inv in H as (s' & Es & H).
  assert (Zt := transform_size _ _ _ _ _ _ _ Et). assert (Zs := transform_size _ _ _ _ _ _ _ Es).
  assert (Hn : (0 < n)%nat) by (destruct (Hin (e zi) ltac:(lia)) as (i & _ & Hi & _); lia).
  apply transform_inv in Et as (n' & Hd & F1 & _ & Hv). rewrite Ht in Hd. injection Hd as <-.
  apply transform_inv in Es as (n' & Hd & F2 & _ & Hw). rewrite Hs in Hd. injection Hd as <-.
  assert (Hne : zi <> zc) by (intros ->; apply F1; eapply dget_Some_mem; exact Ht).
  assert (Col : forall a k j, wf_arr a -> ~ In zi (names a) -> at_ a (upd (upd e zi k) zc j) = at_ a (upd e zc j)).
  { intros a k j [_ W] F. apply W. intros d Hd. unfold upd. destruct (String.eqb_spec zc d); [reflexivity|].
    destruct (String.eqb_spec zi d) as [<-|]; [contradiction|reflexivity]. }
  assert (Vt : forall k, (e zi - 1 <= k <= e zi + 1)%nat -> at_ t' (upd e zi k) = Fin (T0 + T1 * iv k)).
  { intros k Hk. rewrite Hv, upd_same. apply (interp_affine n x Hx Hn); [|apply Hin; exact Hk].
    intros j Hj. rewrite Col by assumption. apply Hprof, Hj. }
  assert (Vs : forall k, (e zi - 1 <= k <= e zi + 1)%nat -> at_ s' (upd e zi k) = Fin (S0 + S1 * iv k)).
  { intros k Hk. rewrite Hw, upd_same. apply (interp_affine n x Hx Hn); [|apply Hin; exact Hk].
    intros j Hj. rewrite Col by assumption. apply Hprof, Hj. }
  destruct (n2_unfold _ _ _ _ _ _ _ _ _ _ H Zt) as (_ & _ & _ & dt & ds & _ & _ & _ & E4 & E5 & _).
  assert (Gr : forall a da c0 c1, dget zi (adims a) = Some ni -> differentiate zi (fun i => Fin (iv i)) a = Ok da ->
     (forall k, (e zi - 1 <= k <= e zi + 1)%nat -> at_ a (upd e zi k) = Fin (c0 + c1 * iv k)) -> at_ da e = Fin c1).
  { intros a da c0 c1 Za Ea Va. destruct (differentiate_inv _ _ _ _ _ Za Ea) as [H3 ->]. cbn [at_].
    rewrite (grad_local ni _ _ (fun k => Fin (c0 + c1 * iv k + 0 * (iv k)^2)));
      [|exact K0|exact K1|rewrite Va by lia; f_equal; ring|rewrite Va by lia; f_equal; ring|rewrite Va by lia; f_equal; ring].
    refine (eq_trans (grad_quadratic ni iv H3 Hiv c0 c1 0 (e zi) _) _); [lia|]. f_equal. ring. }
  assert (Da := Gr t' dt T0 T1 Zt E4 Vt). assert (Db := Gr s' ds S0 S1 Zs E5 Vs).
  assert (Te := Vt (e zi) ltac:(lia)). assert (Se := Vs (e zi) ltac:(lia)). rewrite upd_id in Te, Se.
  destruct (n2_wright _ _ _ _ _ _ _ _ _ _ _ _ _ _ _ _ _ _ H Hname Zt Te Se Hpa E4 Da E5 Db Box) as (D & HD & Hr).
  exists D. split; [|exact Hr]. intros eps Heps. destruct (HD eps Heps) as [del Hdel]. exists del. intros h H0 Hh.
  specialize (Hdel h H0 Hh). rewrite Rplus_0_l, Rmult_0_r, Rplus_0_r in Hdel. rewrite Rmult_0_r, Rplus_0_r in Hdel.
  replace (T0 + T1 * (z + h)) with (T0 + T1 * z + T1 * h) by ring.
  replace (S0 + S1 * (z + h)) with (S0 + S1 * z + S1 * h) by ring. exact Hdel.
Qed.
Print Assumptions C87_linear_profiles_partial.

(** C88 is false: with the default coordinate name the adjustment of negative values always
    fails on cell edges, because [calc_n2] adjusts along the dimension "z_l", which the
    regridding has removed. *)
Theorem C88_adjust_edges_refuted : forall t s lv eos g patm zi ni iv,
  ~ In "z_l"%string (names patm) ->
  is_ok (calc_n2_edges t s lv eos g patm "z_l" zi ni iv true) = false.
Proof.
  intros t s lv eos g patm zi ni iv Hp.
  destruct (calc_n2_edges t s lv eos g patm "z_l" zi ni iv true) eqn:E; [|reflexivity]. exfalso.
  unfold calc_n2_edges in E. apply bind_inv in E as (t' & Et & E). apply bind_inv in E as (s' & Es & E).
  assert (G : forall b b', transform_z "z_l" lv zi ni iv b = Ok b' -> zi <> "z_l"%string /\ ~ In "z_l"%string (names b')).
  { intros b b' H. apply transform_inv in H as (n & Hd & F & Hdims & _).
    assert (Hz : zi <> "z_l"%string) by (intros ->; apply F; eapply dget_Some_mem; exact Hd).
    split; [exact Hz|]. unfold names. rewrite Hdims, map_app, in_app_iff. intros [C|[C|[]]]; [|contradiction].
    apply drop_dim_sub in C as [_ C]. congruence. }
  destruct (G _ _ Et) as [Hz Ht]. destruct (G _ _ Es) as [_ Hs].
  assert (A := n2_adjust_other_zcoord false t' s' iv eos g patm zi Hz Ht Hs Hp). rewrite E in A. discriminate.
Qed.
Print Assumptions C88_adjust_edges_refuted.

(** What does hold: for single columns whose interfaces carry the name "z_l" the adjusted
    result is the stabilised one (C17). *)
Theorem C88_adjust_column_partial : forall t s lv eos m g pa zc n ni iv,
  adims t = [(zc, n)] -> adims s = [(zc, n)] -> zc <> "z_l"%string -> (3 <= ni)%nat -> same_name eos (module_name m) ->
  exists n2 r, calc_n2_edges t s lv eos g (scalar pa) zc "z_l" ni iv false = Ok n2 /\
    calc_n2_edges t s lv eos g (scalar pa) zc "z_l" ni iv true = Ok r /\
    forall e, stabilised (fun k => at_ n2 (upd e "z_l" k)) (e "z_l"%string) (at_ r e).
Proof.
  intros t s lv eos m g pa zc n ni iv Ht Hs Hz Hn Hm.
  assert (F : forall a, adims a = [(zc, n)] -> exists v, transform_z zc lv "z_l" ni iv a = Ok (mkArr [("z_l"%string, ni)] v)).
  { intros a Ea. unfold transform_z, has_dim, dmem, drop_dim. rewrite Ea. cbn [dget filter fst].
    rewrite String.eqb_refl. destruct (String.eqb_spec "z_l" zc); [congruence|]. eexists; reflexivity. }
  destruct (F t Ht) as [vt Et]. destruct (F s Hs) as [vs Es].
  unfold calc_n2_edges. rewrite Et, Es. cbn [bind]. rewrite n2_adjust.
  edestruct (n2_total false (mkArr [("z_l"%string, ni)] vt) (mkArr [("z_l"%string, ni)] vs) iv eos g "z_l" ni m pa) as (n2 & E & D);
    [reflexivity|repeat constructor; intros []|reflexivity|exact Hn|exact Hm|].
  rewrite E. cbn [bind]. exists n2. destruct ni as [|ni]; [lia|].
  destruct (C17_adjust_negative_n2 n2 "z_l" ni [] D) as (r & Er & _ & St).
  { unfold names. rewrite D. repeat constructor. intros []. }
  exists r. split; [reflexivity|]. split; [exact Er|]. intros e. apply (St e).
Qed.
Print Assumptions C88_adjust_column_partial.

Example C88_case : exists n2 r,
  calc_n2_edges (mkArr [("lev"%string, 4%nat)] (fun e => Fin (20 - INR (e "lev"%string)))) (mkArr [("lev"%string, 4%nat)] (fun _ => Fin 35)) (fun i => Fin (10 * INR i)) "Wright"%string (Fin (-9.8)) (scalar (Fin 101325)) "lev"%string "z_l"%string 5 (fun i => Fin (7 * INR i)) false = Ok n2 /\
  calc_n2_edges (mkArr [("lev"%string, 4%nat)] (fun e => Fin (20 - INR (e "lev"%string)))) (mkArr [("lev"%string, 4%nat)] (fun _ => Fin 35)) (fun i => Fin (10 * INR i)) "Wright"%string (Fin (-9.8)) (scalar (Fin 101325)) "lev"%string "z_l"%string 5 (fun i => Fin (7 * INR i)) true = Ok r /\
  forall e, stabilised (fun k => at_ n2 (upd e "z_l"%string k)) (e "z_l"%string) (at_ r e).
Proof.
  apply (C88_adjust_column_partial _ _ _ "Wright"%string Wright (Fin (-9.8)) (Fin 101325) "lev"%string 4 5); try reflexivity; try discriminate; try lia. apply same_name_lower; reflexivity.
Qed.

(** A column of four levels (5, 15, 25, 35 m) between five interfaces (0, 10, .. 40 m), 20 degC
    at the surface and cooling by 0.1 degC per metre: N2 is known at the middle interface only. *)
Definition col_x (i : nat) : R := 5 + 10 * INR i.
Definition col_i (i : nat) : R := 10 * INR i.
Definition col (a b : R) : arr := mkArr [("z_l"%string, 4%nat)] (fun e => Fin (a + b * col_x (e "z_l"%string))).
Example C85_C88_nonvacuous : exists r,
  calc_n2_edges (col 20 (-0.1)) (col 35 0) (fun i => Fin (col_x i)) "Wright" (Fin (-9.8)) (scalar (Fin 101325))
    "z_l" "z_i" 5 (fun i => Fin (col_i i)) false = Ok r /\
  (forall e, e "z_i"%string = 1%nat -> at_ r e = NaN) /\
  (forall e, e "z_i"%string = 2%nat -> exists v, at_ r e = Fin v).
Proof.
  assert (Mx : strictly_monotone 4 col_x) by (left; intros i _; unfold col_x; rewrite S_INR; lra).
  assert (Mi : strictly_monotone 5 col_i) by (left; intros i _; unfold col_i; rewrite S_INR; lra).
  assert (Wf : forall a b, wf_arr (col a b)).
  { intros a b. split; [repeat constructor; intros []|]. intros e e' H. cbn [col at_].
    rewrite (H "z_l"%string) by (left; reflexivity). reflexivity. }
  assert (SN : same_name "Wright" "wright").
  { repeat first [apply sn_nil | apply sn_cons; [first [apply sl_same | apply sl_upper_lower; cbv; lia]|]]. }
  assert (T : is_ok (calc_n2_edges (col 20 (-0.1)) (col 35 0) (fun i => Fin (col_x i)) "Wright" (Fin (-9.8)) (scalar (Fin 101325))
    "z_l" "z_i" 5 (fun i => Fin (col_i i)) false) = true).
  { apply (C86_total _ _ _ _ Wright) with (n := 4%nat); try reflexivity; try lia.
    - repeat constructor. intros [].
    - intros [C|[]]. discriminate.
    - exact SN. }
  destruct (calc_n2_edges (col 20 (-0.1)) _ _ _ _ _ _ _ _ _ _) as [r|] eqn:E; [|discriminate].
  exists r. split; [reflexivity|]. split.
  - intros e He. apply (C87_next_to_end_refuted _ _ 4 _ _ _ _ _ _ _ _ _ e E); try reflexivity; try lia; [exact Mx|].
    left. split; [lia|]. left. intros j _. unfold col_i, col_x. simpl INR. assert (P := pos_INR j). lra.
  - intros e He.
    assert (Z : col_i (e "z_i"%string) = 20) by (rewrite He; unfold col_i; simpl; lra).
    destruct (C87_linear_profiles_partial _ _ 4 _ _ _ _ _ _ _ _ _ e 20 (-0.1) 35 0 101325 E SN) as (D & _ & Hr);
      try reflexivity; try (apply Wf); try assumption; try lia.
    + intros k Hk. exists O, 3%nat. split; [lia|]. split; [lia|]. unfold col_x, col_i.
      assert (1 <= INR k <= 3) by (split; [change 1 with (INR 1)|replace 3 with (INR 3) by (simpl; lra)]; apply le_INR; lia).
      simpl (INR 0). replace (INR 3) with 3 by (simpl; lra). lra.
    + intros j Hj. cbn [col at_]. rewrite upd_same. split; reflexivity.
    + rewrite Z. unfold ocean_box. lra.
    + eexists. exact Hr.
Qed.
