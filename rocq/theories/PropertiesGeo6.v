(** * PropertiesGeo6: C173 (tide gauges with a search that is only nearly exact) *)
From Coq Require Import Reals Lra Lia List String Bool Arith.
From Verif Require Import Num NumFacts Py Arr ArrFacts Util Geo SpecGeo ProofsUtil ProofsGeo ProofsGeo2 ProofsTide ProofsTide2 PropertiesGeo PropertiesGeo4.
Import ListNotations.
Local Open Scope string_scope.
Local Open Scope R_scope.

(** The cell [c] is a wet cell of the grid at [p] and no wet cell is more than [eps] radians nearer to [q]. *)
Definition nearly_nearest_wet (eps : R) (ds : list (string * nat)) (x y : arr) (mask : option arr) (q : R * R) (c : index) (p : R * R) : Prop :=
  inrange ds c /\ wet mask c /\ at_ y c = Fin (fst p) /\ at_ x c = Fin (snd p) /\
  forall c' p', inrange ds c' -> wet mask c' -> at_ y c' = Fin (fst p') -> at_ x c' = Fin (snd p') ->
    central_angle p q <= central_angle p' q + eps.

Section Near.
  Variables (eps : R) (nearest : list point -> point -> nat) (lab : labels) (a : arr) (coords : dict arr)
    (xcoord ycoord : carg) (xn yn : string) (x y : arr) (ds : list (string * nat)) (mask : option arr)
    (locs : frame string) (th : option fval) (dw : bool).
  Hypothesis NS : nearest_within eps nearest.
  Hypothesis T : tide_grid lab a coords xcoord ycoord mask xn yn x y ds.
  Let mf := model_frame lab x y (emask x mask) xn yn.
  Let row_ok (s : string * dict fval) (o : orow (list nat)) : Prop :=
    exists row p q, In row (chosen mf true) /\ located (yn, xn) row p /\ located ("lat", "lon") s q /\
      o_name o = fst s /\ o_dim_vals o = fst row /\ o_model_coords o = (Fin (fst p), Fin (snd p)) /\ o_distance o = Fin (6378 * central_angle p q) /\
      forall row', In row' (chosen mf true) -> exists p', located (yn, xn) row' p' /\ central_angle p q <= central_angle p' q + eps.

  Lemma near_cell s o : row_ok s o ->
    exists q c p v, located ("lat", "lon") s q /\ nearly_nearest_wet eps ds x y mask q c p /\
      o_name o = fst s /\ o_distance o = Fin (6378 * central_angle p q) /\
      extract_point lab a (map fst ds) o = Ok v /\
      adims v = drop_all (map fst ds) (adims a) /\ (forall e, at_ v e = at_ a (overlay ds c e)).
  Proof.
    destruct T as [Hx Hy Dx Dy Wx Wy Hmask Hrank Nxy Nx Ny U Ha].
    assert (NDd := ND x ds Dx Wx). assert (Dem := Dm x ds mask Dx Hmask).
    intros (row & p & q & I & Lp & Lq & On & Ov & _ & Od & Mn).
    apply chosen_In in I. unfold mf in I. apply (selectable_cell lab ds x y (emask x mask) xn yn U Dx Dy Dem Nxy Nx Ny) in I.
    destruct I as (t & F & W & ->).
    destruct (row_cols xn yn Nxy Nx Ny (label_of lab ds t) (at_ x (place ds t zero_index)) (at_ y (place ds t zero_index)) (at_ (emask x mask) (place ds t zero_index))) as (C1 & C2 & _).
    unfold located in Lp. cbn [fst snd] in Lp. rewrite C1, C2 in Lp. destruct Lp as [Ly Lx].
    destruct (sel_place lab ds t a NDd U F Ha) as (v & Ev & Dv & Vv).
    exists q, (place ds t zero_index), p, v.
    split; [exact Lq|]. split.
    - split; [apply place_inrange; [exact NDd|exact F]|]. split; [apply (emask_wet x ds mask Hmask); exact W|].
      split; [exact Ly|]. split; [exact Lx|].
      intros c' p' R' W' Y' X'.
      set (row' := (label_of lab ds (tuple ds c'), [(xn, at_ x (place ds (tuple ds c') zero_index)); (yn, at_ y (place ds (tuple ds c') zero_index)); ("mask", at_ (emask x mask) (place ds (tuple ds c') zero_index))])).
      destruct (Mn row') as (p2 & L2 & M2).
      { apply chosen_In. apply (selectable_cell lab ds x y (emask x mask) xn yn U Dx Dy Dem Nxy Nx Ny). exists (tuple ds c').
        split; [apply tuple_F2; exact R'|]. split; [|reflexivity]. apply (emask_wet x ds mask Hmask), (wet_place x ds mask Dx Wx Hmask). exact W'. }
      destruct (row_cols xn yn Nxy Nx Ny (label_of lab ds (tuple ds c')) (at_ x (place ds (tuple ds c') zero_index)) (at_ y (place ds (tuple ds c') zero_index)) (at_ (emask x mask) (place ds (tuple ds c') zero_index))) as (D1 & D2 & _).
      unfold located in L2. cbn [fst snd] in L2. fold row' in D1, D2. rewrite D1, D2 in L2.
      rewrite (at_place x ds Dx Wx y) in L2 by assumption. rewrite (at_place x ds Dx Wx x) in L2 by assumption.
      destruct L2 as [Y2 X2]. rewrite Y' in Y2. rewrite X' in X2. injection Y2 as Y2. injection X2 as X2.
      destruct p' as [u w], p2 as [u2 w2]. cbn [fst snd] in *. subst. exact M2.
    - split; [exact On|]. split; [exact Od|]. split; [unfold extract_point; rewrite Ov; exact Ev|]. split; [exact Dv|].
      intros e. rewrite Vv. rewrite (place_overlay ds t e zero_index NDd); [reflexivity|]. symmetry. apply (F2_length _ _ _ F).
  Qed.

  Lemma extract_near out : NoDup (map fst (frows locs)) ->
    extract_tidegauge nearest lab a coords xcoord ycoord (Some locs) mask th dw = Ok out ->
    (forall s, In s (frows locs) ->
       exists q c p, located ("lat", "lon") s q /\ nearly_nearest_wet eps ds x y mask q c p /\
         (within th (6378 * central_angle p q) ->
            exists v, dget (fst s) out = Some v /\ adims v = remaining ds (adims a) /\
                      forall e, at_ v e = at_ a (overlay ds c e)) /\
         (~ within th (6378 * central_angle p q) -> dget (fst s) out = None)) /\
    (forall k, In k (dkeys out) -> In k (map fst (frows locs))).
  Proof.
    intros NDl H.
    rewrite (extract_unfold nearest lab a coords xcoord ycoord xn yn x y ds mask locs th dw (tg_x _ _ _ _ _ _ _ _ _ _ _ T) (tg_y _ _ _ _ _ _ _ _ _ _ _ T)
      (tg_dx _ _ _ _ _ _ _ _ _ _ _ T) (tg_dy _ _ _ _ _ _ _ _ _ _ _ T) (tg_rank _ _ _ _ _ _ _ _ _ _ _ T)) in H.
    apply bind_inv in H. destruct H as ([rows warned] & G & H). cbn [fst] in H.
    apply bind_inv in H. destruct H as (pts & Hp & H). apply Ok_inj in H. subst out.
    destruct (geolocate_near eps nearest mf locs th (yn, xn) 6378 ("lat", "lon") true dw rows warned NS G) as (full & Hf & Hr).
    apply mapM_F2 in Hp.
    assert (Names : map fst pts = map o_name rows).
    { clear -Hp. induction Hp as [|o pt rows pts E Hp IH]; [reflexivity|]. cbn [map]. rewrite IH. f_equal.
      apply bind_inv in E. destruct E as (v & _ & E). apply Ok_inj in E. subst pt. reflexivity. }
    assert (Full : map o_name full = map fst (frows locs)).
    { clear -Hf. induction Hf as [|s o l l' E Hf IH]; [reflexivity|]. cbn [map]. rewrite IH. f_equal.
      destruct E as (? & ? & ? & _ & _ & _ & E & _). exact E. }
    assert (Sub : forall o, In o rows -> In o full).
    { intros o I. rewrite Hr in I. destruct th; [apply filter_In in I; tauto|exact I]. }
    assert (NDf : NoDup (map o_name full)) by (rewrite Full; exact NDl).
    assert (NDr : NoDup (map fst pts)).
    { rewrite Names, Hr. destruct th; [apply NoDup_map_filter; exact NDf|exact NDf]. }
    split.
    - intros s I. destruct (F2_In_l _ _ _ s Hf I) as (o & Io & So).
      destruct (near_cell s o So) as (q & c & p & v & Lq & NW & On & Od & Ev & Dv & Vv).
      exists q, c, p. split; [exact Lq|]. split; [exact NW|].
      assert (In_rows : In o rows <-> within th (6378 * central_angle p q)).
      { rewrite Hr. unfold within. destruct th as [t|]; [|tauto]. rewrite filter_In, Od. tauto. }
      split.
      + intros Wi. apply In_rows in Wi. destruct (F2_In_l _ _ _ o Hp Wi) as ([k w] & Ip & E).
        rewrite Ev in E. cbn [bind] in E. apply Ok_inj in E. injection E as <- <-. exists v.
        split; [rewrite <- On; apply collect_get; assumption|]. split; [rewrite Dv; apply drop_all_remaining|exact Vv].
      + intros Wn. apply dget_None. intros J. apply collect_keys in J. destruct J as [J|[]].
        rewrite Names in J. apply in_map_iff in J. destruct J as (o' & E' & I').
        assert (o' = o).
        { apply Sub in I'. assert (E : o_name o' = o_name o) by congruence. clear -NDf E I' Io. revert NDf I' Io E. induction full as [|z l IH]; intros N A B E; [destruct A|].
          inversion N as [|? ? N1 N2]; subst. destruct A as [-> | A], B as [-> | B].
          - reflexivity.
          - exfalso. apply N1. rewrite E. apply in_map. exact B.
          - exfalso. apply N1. rewrite <- E. apply in_map. exact A.
          - apply IH; assumption. }
        subst o'. apply Wn. apply In_rows. exact I'.
    - intros k J. apply collect_keys in J. destruct J as [J|[]]. rewrite Names in J. rewrite <- Full.
      apply in_map_iff in J. destruct J as (o & <- & I). apply in_map. apply Sub. exact I.
  Qed.
End Near.

(** ** C173: with a search accurate to [eps], every site gets the series of a wet cell at most [eps] radians farther than the nearest one; it is
    kept exactly when the distance of that cell is within the threshold. *)
Theorem C173_near : forall eps nearest lab a coords xcoord ycoord mask xn yn x y ds locs th dw out,
  nearest_within eps nearest -> tide_grid lab a coords xcoord ycoord mask xn yn x y ds -> NoDup (map fst (frows locs)) ->
  extract_tidegauge nearest lab a coords xcoord ycoord (Some locs) mask th dw = Ok out ->
  (forall s, In s (frows locs) ->
     exists q c p, located ("lat", "lon") s q /\ nearly_nearest_wet eps ds x y mask q c p /\
       (within th (6378 * central_angle p q) ->
          exists v, dget (fst s) out = Some v /\ adims v = remaining ds (adims a) /\ forall e, at_ v e = at_ a (overlay ds c e)) /\
       (~ within th (6378 * central_angle p q) -> dget (fst s) out = None)) /\
  (forall k, In k (dkeys out) -> In k (map fst (frows locs))).
Proof.
  intros eps nearest lab a coords xcoord ycoord mask xn yn x y ds locs th dw out NS T N E.
  exact (extract_near eps nearest lab a coords xcoord ycoord xn yn x y ds mask locs th dw NS T out N E).
Qed.
Print Assumptions C173_near.

(** A wet cell [c] at [p] that is more than [eps] radians nearer to [q] than every other wet cell. *)
Definition clearly_nearest_wet (eps : R) (ds : list (string * nat)) (x y : arr) (mask : option arr) (q : R * R) (c : index) (p : R * R) : Prop :=
  inrange ds c /\ wet mask c /\ at_ y c = Fin (fst p) /\ at_ x c = Fin (snd p) /\
  forall c' p', inrange ds c' -> wet mask c' -> at_ y c' = Fin (fst p') -> at_ x c' = Fin (snd p') ->
    (exists d, In d (map fst ds) /\ c' d <> c d) -> central_angle p q + eps < central_angle p' q.

(** Then the site gets the series of that very cell, kept exactly when its distance is within the threshold. *)
Theorem C173_exact : forall eps nearest lab a coords xcoord ycoord mask xn yn x y ds locs th dw out s q c p,
  nearest_within eps nearest -> tide_grid lab a coords xcoord ycoord mask xn yn x y ds -> wf_arr a -> NoDup (map fst (frows locs)) ->
  extract_tidegauge nearest lab a coords xcoord ycoord (Some locs) mask th dw = Ok out ->
  In s (frows locs) -> located ("lat", "lon") s q -> clearly_nearest_wet eps ds x y mask q c p ->
  (within th (6378 * central_angle p q) ->
     exists v, dget (fst s) out = Some v /\ adims v = remaining ds (adims a) /\ forall e, at_ v e = at_ a (overlay ds c e)) /\
  (~ within th (6378 * central_angle p q) -> dget (fst s) out = None).
Proof.
  intros eps nearest lab a coords xcoord ycoord mask xn yn x y ds locs th dw out s q c p NS T Wa N E Is Lq (Rc & Wc & Yc & Xc & Far).
  destruct (C173_near eps nearest lab a coords xcoord ycoord mask xn yn x y ds locs th dw out NS T N E) as [A _].
  destruct (A s Is) as (q' & c' & p' & Lq' & (Rc' & Wc' & Yc' & Xc' & Near) & W1 & W2).
  assert (q' = q). { destruct Lq as [L1 L2], Lq' as [M1 M2], q as [u v], q' as [u' v']. cbn [fst snd] in *. congruence. } subst q'.
  assert (Same : forall d, In d (map fst ds) -> c' d = c d).
  { intros d Id. destruct (Nat.eq_dec (c' d) (c d)) as [|Nd]; [assumption|]. exfalso.
    assert (F := Far c' p' Rc' Wc' Yc' Xc' (ex_intro _ d (conj Id Nd))). assert (G := Near c p Rc Wc Yc Xc). lra. }
  assert (Ep : p' = p).
  { assert (Y : at_ y c' = at_ y c) by (apply (proj2 (tg_wy _ _ _ _ _ _ _ _ _ _ _ T)); unfold names; rewrite (tg_dy _ _ _ _ _ _ _ _ _ _ _ T); exact Same).
    assert (X : at_ x c' = at_ x c) by (apply (proj2 (tg_wx _ _ _ _ _ _ _ _ _ _ _ T)); unfold names; rewrite (tg_dx _ _ _ _ _ _ _ _ _ _ _ T); exact Same).
    rewrite Yc, Yc' in Y. rewrite Xc, Xc' in X. destruct p as [u v], p' as [u' v']. cbn [fst snd] in *. congruence. }
  subst p'. split; [|exact W2]. intros W. destruct (W1 W) as (v & G & D & V). exists v. split; [exact G|]. split; [exact D|].
  intros e. rewrite V. apply (proj2 Wa). intros d _. unfold overlay. destruct (in_dec string_dec d (map fst ds)) as [I|]; [exact (Same d I)|reflexivity].
Qed.
Print Assumptions C173_exact.

(** The 2 x 2 grid with one dry column: the site at 10N 0E has the wet cells 10N 0E and, 10 degrees away, 0N 0E. *)
Definition west_wet : arr := mkArr grid_dims (fun e => if Nat.eqb (e "xh") 0 then Fin 1 else Fin 0).
Lemma west_ok m : Some west_wet = Some m -> adims m = grid_dims /\ wf_arr m.
Proof. intros [= <-]. split; [reflexivity|]. apply grid_wf. intros e e' _ H. rewrite H. reflexivity. Qed.
Lemma field_wf : wf_arr field.
Proof.
  split; [cbn; repeat (apply NoDup_cons; [cbn; intuition discriminate|]); apply NoDup_nil|].
  intros e e' H. cbn. rewrite (H "time"), (H "yh"), (H "xh") by (cbn; tauto). reflexivity.
Qed.
Lemma ten_degrees : central_angle (0, 0) (10, 0) = PI / 18.
Proof.
  unfold central_angle, dot, uvec, rad_of. cbn [fst snd]. rewrite !Rmult_0_l, cos_0, sin_0.
  replace (1 * 1 * (cos (10 * (PI / 180)) * 1) + 1 * 0 * (cos (10 * (PI / 180)) * 0) + 0 * sin (10 * (PI / 180))) with (cos (PI / 18)).
  - apply acos_cos. pose proof PI_RGT_0. lra.
  - replace (10 * (PI / 180)) with (PI / 18) by field. ring.
Qed.
Example C173_case : let c := upd zero_index "yh" 1 in
  nearest_within 2e-13 scan /\
  tide_grid plain_labels field [] (CArr "geolon" grid_x) (CArr "geolat" grid_y) (Some west_wet) "geolon" "geolat" grid_x grid_y grid_dims /\ wf_arr field /\
  clearly_nearest_wet 2e-13 grid_dims grid_x grid_y (Some west_wet) (10, 0) c (10, 0) /\
  exists out v, extract_tidegauge scan plain_labels field [] (CArr "geolon" grid_x) (CArr "geolat" grid_y) (Some (one_site 10 0)) (Some west_wet) (Some (Fin 50)) true = Ok out /\
    dget "SITE" out = Some v /\ forall e, at_ v e = at_ field (overlay grid_dims c e).
Proof.
  intros c. assert (T := grid_ok (Some west_wet) west_ok).
  assert (NW : nearest_within 2e-13 scan) by (apply C172_relaxed; [lra|exact scan_spec]).
  assert (Z : central_angle (10, 0) (10, 0) = 0) by (apply central_angle_zero; reflexivity).
  assert (CN : clearly_nearest_wet 2e-13 grid_dims grid_x grid_y (Some west_wet) (10, 0) c (10, 0)).
  { split; [intros d n [X|[X|[]]]; injection X as <- <-; [change (c "yh") with 1%nat|change (c "xh") with 0%nat]; lia|]. split; [reflexivity|]. split; [cbv [at_ grid_y cell_lat]; change (c "yh") with 1%nat; cbn [INR fst]; f_equal; lra|]. split; [cbv [at_ grid_x cell_lon]; change (c "xh") with 0%nat; cbn [INR snd]; f_equal; lra|].
    intros c' p' R' W' Y' X' (d & Id & Nd). rewrite Z. cbn in W'. destruct (Nat.eqb_spec (c' "xh") 0) as [Ex|]; [|injection W' as W'; lra].
    assert (By := R' "yh" 2%nat ltac:(cbn; tauto)).
    assert (Ey : c' "yh" = 0%nat). { cbn [map fst grid_dims In] in Id. destruct Id as [<-|[<-|[]]]; [change (c "yh") with 1%nat in Nd|change (c "xh") with 0%nat in Nd]; lia. }
    cbn in Y', X'. unfold cell_lat, cell_lon in *. rewrite Ey in Y'. rewrite Ex in X'. cbn in Y', X'. injection Y' as Y'. injection X' as X'.
    destruct p' as [u v]. cbn [fst snd] in *. rewrite Rmult_0_r in Y', X'. subst u v. rewrite ten_degrees. pose proof PI2_1. lra. }
  split; [exact NW|]. split; [exact T|]. split; [exact field_wf|]. split; [exact CN|].
  destruct (C53_total scan plain_labels field [] _ _ (Some west_wet) _ _ grid_x grid_y grid_dims (one_site 10 0) (Some (Fin 50)) true scan_spec T) as [out E].
  - cbn; tauto.
  - cbn; tauto.
  - discriminate.
  - intros s [<- | []]. eexists (_, _); split; reflexivity.
  - exists c. split; [exact (proj1 CN)|exact (proj1 (proj2 CN))].
  - intros e _ _. eexists _, _. split; reflexivity.
  - discriminate.
  - destruct (C173_exact 2e-13 scan plain_labels field [] _ _ (Some west_wet) _ _ grid_x grid_y grid_dims (one_site 10 0) (Some (Fin 50)) true out
      ("SITE", [("lat", Fin 10); ("lon", Fin 0)]) (10, 0) c (10, 0) NW T field_wf) as [H _].
    + apply NoDup_cons; [intros []|apply NoDup_nil].
    + exact E.
    + left. reflexivity.
    + split; reflexivity.
    + exact CN.
    + rewrite Z in H. destruct H as (v & G & _ & V); [unfold within; rewrite fleb_Fin; apply Rleb_true; lra|]. exists out, v. split; [exact E|]. split; [exact G|exact V].
Qed.
