(** * ProofsTide2: keys of the result and concrete runs *)
From Coq Require Import Reals Lra Lia List String Bool Arith.
From Verif Require Import Num NumFacts Py Arr ArrFacts Util Geo SpecGeo ProofsFields ProofsUtil ProofsGeo ProofsGeo2 ProofsTide.
Import ListNotations.
Local Open Scope string_scope.

Lemma dset_fresh {A} k (v : A) d : ~ In k (dkeys d) -> dset k v d = (d ++ [(k, v)])%list.
Proof.
  induction d as [|[q w] d IH]; intros H; [reflexivity|]. cbn [dset app]. cbn in H.
  rewrite (proj2 (String.eqb_neq k q)) by (intros ->; tauto). rewrite IH by tauto. reflexivity.
Qed.
Lemma collect_NoDup {A} (l : list (string * A)) : forall d, NoDup (dkeys d ++ map fst l)%list -> collect l d = (d ++ l)%list.
Proof.
  induction l as [|[k v] l IH]; intros d N; cbn [collect fold_left fst snd]; [symmetry; apply app_nil_r|].
  fold (collect l (dset k v d)). cbn [map fst] in N.
  assert (F : ~ In k (dkeys d)).
  { intros I. apply NoDup_remove_2 in N. apply N. apply in_or_app. left. exact I. }
  rewrite dset_fresh by exact F. rewrite IH.
  - rewrite <- app_assoc. reflexivity.
  - unfold dkeys in *. rewrite map_app, <- app_assoc. exact N.
Qed.

Lemma F2_strengthen {A B} (P : A -> B -> Prop) l ys : Forall2 P l ys -> Forall2 (fun x y => P x y /\ In x l /\ In y ys) l ys.
Proof.
  induction 1 as [|x y l ys H H2 IH]; constructor.
  - split; [exact H|]. split; left; reflexivity.
  - eapply F2_impl; [|exact IH]. intros x' y' _ (E & I & J). split; [exact E|]. split; right; assumption.
Qed.
Lemma F2_names {A B} (P : A -> B -> Prop) (f : A -> string) (g : B -> string) l ys :
  Forall2 P l ys -> (forall x y, P x y -> g y = f x) -> map g ys = map f l.
Proof. intros H E. induction H as [|x y l ys H H2 IH]; [reflexivity|]. cbn [map]. rewrite IH, (E x y H). reflexivity. Qed.
Lemma NoDup_map_inj {A} (f : A -> string) l x y : NoDup (map f l) -> In x l -> In y l -> f x = f y -> x = y.
Proof.
  induction l as [|z l IH]; intros N A1 B E; [destruct A1|]. inversion N as [|? ? N1 N2]; subst.
  destruct A1 as [-> | A1], B as [-> | B].
  - reflexivity.
  - exfalso. apply N1. rewrite E. apply in_map. exact B.
  - exfalso. apply N1. rewrite <- E. apply in_map. exact A1.
  - apply IH; assumption.
Qed.

Section Keys.
  Variables (nearest : list point -> point -> nat) (lab : labels) (a : arr) (coords : dict arr)
    (xcoord ycoord : carg) (xn yn : string) (x y : arr) (ds : list (string * nat)) (mask : option arr)
    (locs : frame string) (th : option fval) (dw : bool).
  Hypothesis NS : nearest_spec nearest.
  Hypothesis Hx : denotes coords xcoord xn x.
  Hypothesis Hy : denotes coords ycoord yn y.
  Hypothesis Dx : adims x = ds.
  Hypothesis Dy : adims y = ds.
  Hypothesis Wx : wf_arr x.
  Hypothesis Wy : wf_arr y.
  Hypothesis Hmask : forall m, mask = Some m -> adims m = ds /\ wf_arr m.
  Hypothesis Hrank : List.length ds <> 1%nat.
  Hypothesis Nxy : xn <> yn.
  Hypothesis Nx : xn <> "mask".
  Hypothesis Ny : yn <> "mask".
  Hypothesis U : unique_labels lab ds.
  Hypothesis Ha : forall d n, In (d, n) ds -> dget d (adims a) = Some n.

  Lemma extract_keys out : NoDup (map fst (frows locs)) ->
    extract_tidegauge nearest lab a coords xcoord ycoord (Some locs) mask th dw = Ok out ->
    exists b : string * dict fval -> bool,
      dkeys out = map fst (filter b (frows locs)) /\
      forall s, In s (frows locs) -> exists q c p,
        located ("lat", "lon") s q /\ nearest_wet ds x y mask q c p /\
        (b s = true <-> within th (6378 * central_angle p q)).
  Proof.
    intros NDl H. rewrite (extract_unfold nearest lab a coords xcoord ycoord xn yn x y ds mask locs th dw Hx Hy Dx Dy Hrank) in H.
    apply bind_inv in H. destruct H as ([rows warned] & G & H). cbn [fst] in H.
    apply bind_inv in H. destruct H as (pts & Hp & H). apply Ok_inj in H. subst out.
    destruct (geolocate_inv nearest _ locs th (yn, xn) 6378 ("lat", "lon") true dw rows warned NS G) as (full & Hf & Hr & _).
    apply mapM_F2 in Hp.
    assert (Names : map fst pts = map o_name rows).
    { eapply F2_names; [exact Hp|]. intros o pt E. apply bind_inv in E. destruct E as (v & _ & E). apply Ok_inj in E. subst pt. reflexivity. }
    assert (Full : map o_name full = map fst (frows locs)).
    { eapply F2_names; [exact Hf|]. intros s o (? & ? & ? & _ & _ & _ & E & _). exact E. }
    assert (NDf : NoDup (map o_name full)) by (rewrite Full; exact NDl).
    set (P := fun o : orow (list nat) => match th with None => true | Some t => fleb (o_distance o) t end).
    assert (Hr' : rows = filter P full).
    { rewrite Hr. unfold P. clear. destruct th; [reflexivity|]. symmetry. induction full as [|z l IH]; [reflexivity|]. cbn [filter]. f_equal. exact IH. }
    assert (NDr : NoDup (map o_name rows)) by (rewrite Hr'; apply NoDup_map_filter; exact NDf).
    exists (fun s => smem (fst s) (map o_name rows)).
    assert (Align : forall s o, site_ok (model_frame lab x y (emask x mask) xn yn) true (yn, xn) ("lat", "lon") 6378 s o ->
              In o full -> smem (fst s) (map o_name rows) = P o).
    { intros s o S I. destruct S as (? & ? & ? & _ & _ & _ & E & _). rewrite <- E. apply eq_true_iff_eq.
      rewrite smem_In, in_map_iff. split.
      - intros (o' & E' & I'). rewrite Hr' in I'. apply filter_In in I'. destruct I' as [I1 I2].
        assert (o' = o) by (exact (NoDup_map_inj o_name full o' o NDf I1 I E')). subst. exact I2.
      - intros Po. exists o. split; [reflexivity|]. rewrite Hr'. apply filter_In. auto. }
    split.
    - rewrite collect_NoDup; [|cbn [dkeys map app]; rewrite Names; exact NDr]. cbn [app]. unfold dkeys. rewrite Names. transitivity (map o_name (filter P full)); [rewrite <- Hr'; reflexivity|].
      apply F2_strengthen in Hf.
      assert (FF := F2_filter _ (fun s => smem (fst s) (map o_name rows)) P _ _ Hf).
      assert (FF' := FF ltac:(intros s o (S & _ & I); apply Align; assumption)).
      eapply F2_names; [exact FF'|]. intros s o ((? & ? & ? & _ & _ & _ & E & _) & _). exact E.
    - intros s I. destruct (F2_In_l _ _ _ s Hf I) as (o & Io & So).
      destruct (site_cell lab a xn yn x y ds mask Dx Dy Wx Wy Hmask Hrank Nxy Nx Ny U Ha s o So)
        as (q & c & p & v & Lq & NW & On & Od & _).
      exists q, c, p. split; [exact Lq|]. split; [exact NW|]. rewrite (Align s o So Io). unfold P, within.
      destruct th; [rewrite Od; tauto|tauto].
  Qed.
End Keys.

Lemma dset_NoDup {A} k (v : A) d : NoDup (dkeys d) -> NoDup (dkeys (dset k v d)).
Proof.
  induction d as [|[q w] d IH]; intros N; cbn [dset dkeys map fst]; [repeat constructor; tauto|].
  inversion N as [|? ? N1 N2]; subst. destruct (String.eqb k q) eqn:E; cbn [map fst]; [exact N|].
  constructor; [|apply IH; exact N2]. fold (dkeys (dset k v d)). rewrite dkeys_dset_In. apply String.eqb_neq in E.
  intros [X|X]; [congruence|contradiction].
Qed.
Lemma collect_NoDup_keys {A} (l : list (string * A)) : forall d, NoDup (dkeys d) -> NoDup (dkeys (collect l d)).
Proof.
  induction l as [|[k v] l IH]; intros d N; [exact N|]. cbn [collect fold_left fst snd].
  fold (collect l (dset k v d)). apply IH. apply dset_NoDup. exact N.
Qed.

(** Names of the result without a threshold, whatever the site names. *)
Lemma extract_names nearest lab a coords xcoord ycoord xn yn x y ds mask locs dw out :
  nearest_spec nearest -> denotes coords xcoord xn x -> denotes coords ycoord yn y ->
  adims x = ds -> adims y = ds -> List.length ds <> 1%nat ->
  extract_tidegauge nearest lab a coords xcoord ycoord (Some locs) mask None dw = Ok out ->
  NoDup (dkeys out) /\ forall k, In k (dkeys out) <-> In k (map fst (frows locs)).
Proof.
  intros NS Hx Hy Dx Dy Hr H.
  rewrite (extract_unfold nearest lab a coords xcoord ycoord xn yn x y ds mask locs None dw Hx Hy Dx Dy Hr) in H.
  apply bind_inv in H. destruct H as ([rows warned] & G & H). cbn [fst] in H.
  apply bind_inv in H. destruct H as (pts & Hp & H). apply Ok_inj in H. subst out.
  destruct (geolocate_inv nearest _ locs None (yn, xn) 6378 ("lat", "lon") true dw rows warned NS G) as (full & Hf & -> & _).
  apply mapM_F2 in Hp.
  assert (Names : map fst pts = map o_name full).
  { eapply F2_names; [exact Hp|]. intros o pt E. apply bind_inv in E. destruct E as (v & _ & E). apply Ok_inj in E. subst pt. reflexivity. }
  assert (Full : map o_name full = map fst (frows locs)).
  { eapply F2_names; [exact Hf|]. intros s o (? & ? & ? & _ & _ & _ & E & _). exact E. }
  split; [apply collect_NoDup_keys; constructor|]. intros k. rewrite collect_keys, Names, Full. cbn. tauto.
Qed.

(** ** A 2x2 grid *)
Definition cell_lat : index -> fval := fun e => Fin (10 * INR (e "yh")).
Definition cell_lon : index -> fval := fun e => Fin (10 * INR (e "xh")).
Definition grid_dims := [("yh", 2%nat); ("xh", 2%nat)].
Definition grid_x := mkArr grid_dims cell_lon.
Definition grid_y := mkArr grid_dims cell_lat.
(** the same latitudes stored with the dimensions swapped *)
Definition grid_y_swapped := mkArr [("xh", 2%nat); ("yh", 2%nat)] cell_lat.
(** a field with one value per cell and time *)
Definition field := mkArr [("time", 3%nat); ("yh", 2%nat); ("xh", 2%nat)]
  (fun e => Fin (100 * INR (e "time") + 10 * INR (e "yh") + INR (e "xh"))).
Definition plain_labels : labels := fun _ i => i.

Lemma grid_wf v : (forall e e', e "yh" = e' "yh" -> e "xh" = e' "xh" -> v e = v e') -> wf_arr (mkArr grid_dims v).
Proof.
  intros H. split.
  - cbn. repeat constructor; cbn; intuition discriminate.
  - intros e e' E. cbn [at_]. apply H; apply E; cbn; tauto.
Qed.
Lemma grid_ok mask : (forall m, mask = Some m -> adims m = grid_dims /\ wf_arr m) ->
  tide_grid plain_labels field [] (CArr "geolon" grid_x) (CArr "geolat" grid_y) mask "geolon" "geolat" grid_x grid_y grid_dims.
Proof.
  intros Hm. constructor.
  - split; reflexivity.
  - split; reflexivity.
  - reflexivity.
  - reflexivity.
  - apply grid_wf. intros e e' _ E. unfold cell_lon. rewrite E. reflexivity.
  - apply grid_wf. intros e e' E _. unfold cell_lat. rewrite E. reflexivity.
  - exact Hm.
  - discriminate.
  - discriminate.
  - discriminate.
  - discriminate.
  - intros d n _ i j _ _ E. exact E.
  - intros d n [E | [E | []]]; injection E as <- <-; reflexivity.
Qed.

(** ** Swapped coordinates *)
(** the row of label [k] in the frame built from the swapped latitudes *)
Definition swapped_row (j i : nat) : list nat * dict fval :=
  ([j; i], [("geolon", Fin (10 * INR i)); ("geolat", Fin (10 * INR i)); ("mask", Fin 1)]).
Definition swapped_frame := concat3 "geolon" "geolat" "mask" (to_dataframe plain_labels grid_x)
   (to_dataframe plain_labels grid_y_swapped) (to_dataframe plain_labels (amap (fun _ => Fin 1) grid_x)).
Lemma swapped_rows : frows swapped_frame = [swapped_row 0 0; swapped_row 0 1; swapped_row 1 0; swapped_row 1 1].
Proof. reflexivity. Qed.

Local Open Scope R_scope.
Lemma angle_far : central_angle (10, 10) (10, 0) < central_angle (0, 0) (10, 0).
Proof.
  pose proof (central_angle_bound (10, 10) (10, 0)) as B1. pose proof (central_angle_bound (0, 0) (10, 0)) as B2.
  destruct (Rlt_dec (central_angle (10, 10) (10, 0)) (central_angle (0, 0) (10, 0))) as [L|L]; [exact L|]. exfalso.
  apply Rnot_lt_le in L.
  assert (C : cos (central_angle (10, 10) (10, 0)) <= cos (central_angle (0, 0) (10, 0))).
  { destruct (Rle_lt_or_eq_dec _ _ L) as [L'|L']; [apply Rlt_le, cos_decreasing_1; lra|rewrite L'; lra]. }
  rewrite !central_angle_cos in C. cbn [fst snd] in C. unfold dot, uvec in C.
  assert (Z : rad_of 0 = 0) by (unfold rad_of; ring). rewrite Z, sin_0, cos_0 in C.
  set (c := cos (rad_of 10)) in *. set (s := sin (rad_of 10)) in *.
  pose proof (sin2_cos2 (rad_of 10)) as Q. unfold Rsqr in Q. fold c s in Q.
  assert (S0 : 0 < s).
  { unfold s. apply sin_gt_0; unfold rad_of; pose proof PI_RGT_0; nra. }
  assert (C0 : c < 1) by nra.
  assert (P : 0 < s * s * (1 - c)) by (apply Rmult_lt_0_compat; [nra|lra]).
  replace (c * c * (c * 1) + c * s * (c * 0) + s * s) with (c * (c * c) + s * s) in C by ring.
  replace (c * c) with (1 - s * s) in C by lra. lra.
Qed.
