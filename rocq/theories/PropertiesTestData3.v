(** * PropertiesTestData3: C106 (gauges on grid points, kinds of points), C107 (generated velocities) *)
From Coq Require Import Reals Lra Lia List String Bool Arith ZArith FunctionalExtensionality.
From Verif Require Import Num NumFacts Py Arr ArrFacts Eos Derived SpecVort Dataset Util Geo SpecGeo ProofsUtil ProofsGeo ProofsGeo2 ProofsTide ProofsTide2
  PropertiesGeo ProofsFields ProofsDz ProofsBudget ProofsVort Calendar TestData ProofsStericDemo ProofsTestData.
Import ListNotations.
Local Open Scope string_scope.
Local Open Scope R_scope.

Lemma Fin_inj a b : Fin a = Fin b -> a = b.
Proof. intros H. injection H as H. exact H. Qed.

(** ** C106 *)
(** Two cells of the grid at the same place are the same cell. *)
Definition places_differ (ds : list (string * nat)) (x y : arr) (mask : option arr) : Prop :=
  forall c c' la lo k, inrange ds c -> inrange ds c' -> wet mask c -> wet mask c' ->
    at_ y c = Fin la -> at_ x c = Fin lo -> at_ y c' = Fin la -> at_ x c' = Fin (lo + 360 * IZR k) ->
    forall d, In d (map fst ds) -> c' d = c d.

(** C106: a gauge at the position of a wet grid cell (in any longitude convention) is given
    the series of that cell, whatever the threshold. *)
Theorem C106_on_grid : forall nearest lab a coords xcoord ycoord mask xn yn x y ds locs th dw out,
  nearest_spec nearest -> tide_grid lab a coords xcoord ycoord mask xn yn x y ds -> NoDup (map fst (frows locs)) ->
  extract_tidegauge nearest lab a coords xcoord ycoord (Some locs) mask th dw = Ok out ->
  places_differ ds x y mask -> (forall c la, inrange ds c -> wet mask c -> at_ y c = Fin la -> -90 <= la <= 90) ->
  (forall t, th = Some t -> t = Inf false \/ exists r, t = Fin r /\ 0 <= r) ->
  forall s c la lo k, In s (frows locs) -> inrange ds c -> wet mask c -> at_ y c = Fin la -> at_ x c = Fin lo -> -90 < la < 90 ->
    located ("lat", "lon") s (la, lo + 360 * IZR k) ->
    exists v, dget (fst s) out = Some v /\ adims v = remaining ds (adims a) /\ forall e, at_ v e = at_ a (overlay ds c e).
Proof.
  intros nearest lab a coords xcoord ycoord mask xn yn x y ds locs th dw out NS T N E PD LR TH s c la lo k Hs Hc Wc Ya Xa La Lq.
  destruct (C53_nearest_series nearest lab a coords xcoord ycoord mask xn yn x y ds locs th dw out NS T N E) as [H _].
  destruct (H s Hs) as (q & c' & p & Q & (R' & W' & Y' & X' & Min) & In' & _).
  assert (Eq : q = (la, lo + 360 * IZR k)).
  { destruct Q as [Q1 Q2], Lq as [L1 L2]. destruct q as [q1 q2]. cbn [fst snd] in *. f_equal; congruence. }
  subst q.
  assert (Z : central_angle p (la, lo + 360 * IZR k) = 0).
  { apply Rle_antisym; [|apply central_angle_bound].
    rewrite <- (proj2 (central_angle_zero (la, lo) (la, lo + 360 * IZR k))); [apply (Min c (la, lo) Hc Wc Ya Xa)|].
    cbn [fst snd]. symmetry. apply uvec_360k. }
  apply central_angle_zero in Z as U. cbn [fst snd] in U. rewrite uvec_360k in U.
  destruct (ProofsGeo.same_place _ _ _ _ (LR c' _ R' W' Y') (conj (Rlt_le _ _ (proj1 La)) (Rlt_le _ _ (proj2 La))) U) as [L1 L2].
  destruct p as [pa po]. cbn [fst snd] in *. subst pa. destruct (L2 La) as [k' Hk'].
  assert (S : forall d, In d (map fst ds) -> c' d = c d).
  { apply (PD c c' la lo (- k')%Z Hc R' Wc W' Ya Xa Y'). rewrite X'. f_equal. rewrite opp_IZR. lra. }
  destruct In' as (v & V1 & V2 & V3).
  { rewrite Z, Rmult_0_r. destruct th as [t|]; [|exact I]. destruct (TH t eq_refl) as [->|(r & -> & Hr)]; [reflexivity|].
    cbn [within]. rewrite fleb_Fin. destruct (Rleb 0 r) eqn:B; [reflexivity|]. apply Rleb_false in B. lra. }
  exists v. split; [exact V1|]. split; [exact V2|]. intros e. rewrite V3. f_equal. apply functional_extensionality. intros d.
  unfold overlay. destruct (in_dec string_dec d (map fst ds)) as [I|I]; [apply S, I|reflexivity].
Qed.
Print Assumptions C106_on_grid.

(** The positions of the generated grid points: centres of cells of 36 by 72 degrees. *)
Theorem C106_generated_positions : forall ds point dx dy glon glat name f ds', In (point, (dx, dy, glon, glat, name)) point_dict ->
  xy_fields ds point f = Ok ds' ->
  exists x y, dget glon ds' = Some x /\ dget glat ds' = Some y /\ adims x = [(dy, 5%nat); (dx, 5%nat)] /\ adims y = [(dy, 5%nat); (dx, 5%nat)] /\
    forall e, (e dy < 5)%nat -> (e dx < 5)%nat -> at_ x e = Fin (36 + 72 * INR (e dx)) /\ at_ y e = Fin (-72 + 36 * INR (e dy)).
Proof.
  intros ds point dx dy glon glat name f ds' I E.
  assert (L : dlookup point point_dict = Ok (dx, dy, glon, glat, name)) by (cbn in I; destruct I as [I|[I|[I|[I|[]]]]]; injection I as <- <- <- <- <- <-; reflexivity).
  unfold xy_fields in E. rewrite L in E. cbn [bind] in E.
  destruct (normalised_area dy dx f) as [area|] eqn:A; [|discriminate]. cbn [bind] in E. apply Ok_inj in E. subst ds'.
  exists (field5 dy dx (fun j i => nth i (midpoints lon_edges) 0)), (field5 dy dx (fun j i => nth j (midpoints lat_edges) 0)).
  assert (D : name <> glon /\ name <> glat /\ glat <> glon) by (cbn in I; destruct I as [I|[I|[I|[I|[]]]]]; injection I as <- <- <- <- <- <-; repeat split; discriminate).
  destruct D as (D1 & D2 & D3).
  split; [rewrite !dget_dset_other by assumption; apply dget_dset_same|].
  split; [rewrite dget_dset_other by assumption; apply dget_dset_same|]. split; [reflexivity|]. split; [reflexivity|].
  intros e H1 H2. cbn [field5 at_]. 
  split; f_equal.
  - destruct (e dx) as [|[|[|[|[|n]]]]]; [..|lia]; cbn; lra.
  - destruct (e dy) as [|[|[|[|[|n]]]]]; [..|lia]; cbn; lra.
Qed.
Print Assumptions C106_generated_positions.

(** The four kinds of points do not share positions or areas: generating the fields of
    another kind changes nothing that is there already, and adds three fields. *)
Theorem C106_generated_separate : forall p q f g ds ds', p <> q -> xy_fields [] p f = Ok ds -> xy_fields ds q g = Ok ds' ->
  (forall n a, dget n ds = Some a -> dget n ds' = Some a) /\
  exists l, NoDup l /\ List.length l = 3%nat /\
    forall n, In n l -> dget n ds = None /\ exists a, dget n ds' = Some a /\ List.length (adims a) = 2%nat.
Proof.
  intros p q f g ds ds' N E1 E2. unfold xy_fields in E1, E2.
  destruct (dlookup p point_dict) as [[[[[dx dy] glon] glat] nm]|] eqn:L1; [|discriminate].
  destruct (dlookup q point_dict) as [[[[[dx' dy'] glon'] glat'] nm']|] eqn:L2; [|discriminate]. cbn [bind] in E1, E2.
  destruct (normalised_area dy dx f) as [area|] eqn:A1; [|discriminate].
  destruct (normalised_area dy' dx' g) as [area'|] eqn:A2; [|discriminate].
  cbn [bind] in E1, E2. apply Ok_inj in E1, E2.
  clear A1. apply (f_equal (fun r => match r with Ok a => List.length (adims a) | _ => 0%nat end)) in A2.
  unfold dlookup, point_dict in L1, L2. cbn [dget] in L1, L2.
  repeat match type of L1 with context [String.eqb p ?x] => destruct (String.eqb_spec p x) as [?EQ|?NE]; [subst p; injection L1 as <- <- <- <- <-|] end; [..|discriminate L1];
  (repeat match type of L2 with context [String.eqb q ?x] => destruct (String.eqb_spec q x) as [?EQ|?NE]; [subst q; injection L2 as <- <- <- <- <-|] end; [..|discriminate L2]);
  try (exfalso; apply N; reflexivity); cbn -[field5 midpoints axis5] in E1; subst ds; cbn -[field5 midpoints axis5] in E2; subst ds'.
  all: split;
   [intros n a; cbn [dget]; intros H; repeat match type of H with context [String.eqb n ?x] => destruct (String.eqb_spec n x) as [?EQ|?NE]; [subst n; exact H|] end; discriminate H|].
  all: match goal with |- exists l, _ /\ _ /\ forall n, In n l -> _ /\ exists a, dget n ?d = Some a /\ _ =>
     let l := eval cbv in (map fst d) in exists (skipn (List.length l - 3) l) end; cbn [skipn List.length Nat.sub];
   split; [nodup|]; split; [reflexivity|].
  all: intros n [<-|[<-|[<-|[]]]]; split; try reflexivity; eexists; split; try reflexivity; try (symmetry; exact A2).
Qed.
Print Assumptions C106_generated_separate.

Example C106_separate_case : exists ds ds' a a', xy_fields [] "h" (fun _ _ => 1) = Ok ds /\ xy_fields ds "u" (fun j i => INR j + 1) = Ok ds' /\
  dget "areacello" ds' = Some a /\ dget "areacello_cu" ds' = Some a' /\ at_ a (fun _ => 1%nat) = Fin 14444436800000 /\
  at_ a' (fun _ => 0%nat) = Fin (14444436800000 / 3).
Proof.
  destruct (normalised_ok "yh" "xh" (fun _ _ => 1) ltac:(discriminate) ltac:(cbn; lra)) as (a & E & _ & V & _).
  destruct (normalised_ok "yh" "xq" (fun j i => INR j + 1) ltac:(discriminate) ltac:(cbn; lra)) as (a' & E' & _ & V' & _).
  eexists; eexists; exists a, a'. unfold xy_fields. cbn [dlookup point_dict dget String.eqb Ascii.eqb Bool.eqb bind]. rewrite E, E'. cbn [bind].
  split; [reflexivity|]. split; [reflexivity|]. split; [reflexivity|]. split; [reflexivity|].
  rewrite V, V'. cbn. split; f_equal; field.
Qed.

Definition gdims : list (string * nat) := [("yh", 5%nat); ("xh", 5%nat)].

Lemma generated_grid lab a f ds x y : xy_fields [] "h" f = Ok ds -> dget "geolon" ds = Some x -> dget "geolat" ds = Some y ->
  unique_labels lab gdims -> dget "yh" (adims a) = Some 5%nat -> dget "xh" (adims a) = Some 5%nat ->
  tide_grid lab a [] (CArr "geolon" x) (CArr "geolat" y) None "geolon" "geolat" x y gdims.
Proof.
  intros E Gx Gy UL Dy Dx.
  destruct (C106_generated_positions [] "h" "xh" "yh" "geolon" "geolat" "areacello" f ds ltac:(cbn; tauto) E) as (x' & y' & Gx' & Gy' & Ax & Ay & P).
  rewrite Gx in Gx'. injection Gx' as <-. rewrite Gy in Gy'. injection Gy' as <-.
  assert (W : wf_arr x /\ wf_arr y).
  { unfold xy_fields in E. cbn [dlookup point_dict dget String.eqb Ascii.eqb Bool.eqb bind] in E.
    destruct (normalised_area "yh" "xh" f) as [area|] eqn:A; [|discriminate]. cbn [bind] in E. apply Ok_inj in E. subst ds.
    cbn -[field5 midpoints axis5] in Gx, Gy. injection Gx as <-. injection Gy as <-.
    split; (apply wf_of; [nodup|]); intros e e' H; cbn [field5 at_]; rewrite ?(H "yh"), ?(H "xh") by (cbn; tauto); reflexivity. }
  constructor; try reflexivity; try tauto; try (discriminate); try (cbn; lia).
  - split; reflexivity.
  - split; reflexivity.
  - intros d n [H|[H|[]]]; injection H as <- <-; assumption.
Qed.

(** Every gauge at the centre of a generated cell gets the series of that cell. *)
Theorem C106_generated : forall nearest lab a f ds x y locs th dw out,
  nearest_spec nearest -> xy_fields [] "h" f = Ok ds -> dget "geolon" ds = Some x -> dget "geolat" ds = Some y ->
  unique_labels lab gdims -> dget "yh" (adims a) = Some 5%nat -> dget "xh" (adims a) = Some 5%nat ->
  NoDup (map fst (frows locs)) ->
  extract_tidegauge nearest lab a [] (CArr "geolon" x) (CArr "geolat" y) (Some locs) None th dw = Ok out ->
  (forall t, th = Some t -> t = Inf false \/ exists r, t = Fin r /\ 0 <= r) ->
  forall s j i k, In s (frows locs) -> (j < 5)%nat -> (i < 5)%nat ->
    located ("lat", "lon") s (-72 + 36 * INR j, 36 + 72 * INR i + 360 * IZR k) ->
    exists v, dget (fst s) out = Some v /\ forall e, e "yh" = j -> e "xh" = i -> at_ v e = at_ a e.
Proof.
  intros nearest lab a f ds x y locs th dw out NS E Gx Gy UL Dy Dx N EO TH s j i k Hs Hj Hi Lq.
  destruct (C106_generated_positions [] "h" "xh" "yh" "geolon" "geolat" "areacello" f ds ltac:(cbn; tauto) E) as (x' & y' & Gx' & Gy' & Ax & Ay & P).
  rewrite Gx in Gx'. injection Gx' as <-. rewrite Gy in Gy'. injection Gy' as <-.
  set (gd := gdims) in *.
  assert (B : forall c, inrange gd c -> (c "yh" < 5)%nat /\ (c "xh" < 5)%nat).
  { intros c H. split; [apply (H "yh"); left; reflexivity|apply (H "xh"); right; left; reflexivity]. }
  assert (IS : forall n, (n < 5)%nat -> 0 <= INR n <= 4).
  { intros n Hn. split; [apply pos_INR|]. replace 4 with (INR 4) by (cbn; lra). apply le_INR. lia. }
  assert (T := generated_grid lab a f ds x y E Gx Gy UL Dy Dx).
  assert (C := C106_on_grid nearest lab a [] _ _ None _ _ x y gd locs th dw out NS T N EO).
  set (c := fun d : string => if String.eqb d "yh" then j else i).
  assert (Ic : inrange gd c).
  { intros d n [H|[H|[]]]; injection H as <- <-; cbn; lia. }
  destruct C with (s := s) (c := c) (la := -72 + 36 * INR j) (lo := 36 + 72 * INR i) (k := k) as (v & V1 & _ & V3); try assumption.
  - intros c1 c2 la lo k' I1 I2 _ _ Y1 X1 Y2 X2.
    destruct (B c1 I1) as [J1 K1], (B c2 I2) as [J2 K2], (P c1 J1 K1) as [P1 P2], (P c2 J2 K2) as [P3 P4].
    rewrite P2 in Y1. rewrite P4 in Y2. rewrite P1 in X1. rewrite P3 in X2.
    assert (Y : INR (c1 "yh") = INR (c2 "yh")) by (assert (Fin (-72 + 36 * INR (c1 "yh")) = Fin (-72 + 36 * INR (c2 "yh"))) by congruence; apply Fin_inj in H; lra).
    assert (X : 36 + 72 * INR (c2 "xh") = 36 + 72 * INR (c1 "xh") + 360 * IZR k') by (assert (HH : lo = 36 + 72 * INR (c1 "xh")) by (apply Fin_inj; congruence); rewrite <- HH; apply Fin_inj; congruence).
    assert (k' = 0%Z).
    { destruct (IS _ K1), (IS _ K2). assert (-1 < IZR k' < 1) as [G1 G2] by lra. apply lt_IZR in G1, G2. lia. }
    subst k'. assert (X' : INR (c2 "xh") = INR (c1 "xh")) by lra.
    intros d [<-|[<-|[]]]; apply INR_eq; cbn [fst]; congruence.
  - intros c1 la I1 _ Y1. destruct (B c1 I1) as [J1 K1], (P c1 J1 K1) as [P1 P2]. rewrite P2 in Y1. apply Fin_inj in Y1. destruct (IS _ J1). lra.
  - exact I.
  - apply (P c); cbn; lia.
  - apply (P c); cbn; lia.
  - destruct (IS _ Hj). lra.
  - exists v. split; [exact V1|]. intros e Ey Ex. rewrite V3. f_equal. apply functional_extensionality. intros d. unfold overlay, c.
    destruct (in_dec string_dec d (map fst gd)) as [[<-|[<-|[]]]|_]; cbn; auto.
Qed.
Print Assumptions C106_generated.

(** A gauge at 36 N, 252 W: the centre of row 3 and column 1, where the grid says 108 E. *)
Definition gauge_field : arr := mkArr [("time", 12%nat); ("yh", 5%nat); ("xh", 5%nat)]
  (fun e => Fin (100 * INR (e "time") + 10 * INR (e "yh") + INR (e "xh"))).

Example C106_case : forall nearest, nearest_spec nearest ->
  exists ds x y out v, xy_fields [] "h" (fun _ _ => 1) = Ok ds /\ dget "geolon" ds = Some x /\ dget "geolat" ds = Some y /\
    extract_tidegauge nearest plain_labels gauge_field [] (CArr "geolon" x) (CArr "geolat" y) (Some (one_site 36 (-252))) None (Some (Fin 50)) true = Ok out /\
    dget "SITE" out = Some v /\ forall e, e "yh" = 3%nat -> e "xh" = 1%nat -> at_ v e = Fin (100 * INR (e "time") + 31).
Proof.
  intros nearest NS.
  destruct (xy_fields [] "h" (fun _ _ => 1)) as [ds|] eqn:E.
  2:{ exfalso. unfold xy_fields in E. destruct (normalised_ok "yh" "xh" (fun _ _ => 1) ltac:(discriminate) ltac:(cbn; lra)) as (a & Ea & _).
      cbn [dlookup point_dict dget String.eqb Ascii.eqb Bool.eqb bind] in E. rewrite Ea in E. discriminate. }
  destruct (C106_generated_positions [] "h" "xh" "yh" "geolon" "geolat" "areacello" _ ds ltac:(cbn; tauto) E) as (x & y & Gx & Gy & _ & _ & P).
  assert (UL : unique_labels plain_labels gdims) by (intros d n _ i j _ _ H; unfold plain_labels in H; congruence).
  assert (T := generated_grid plain_labels gauge_field _ ds x y E Gx Gy UL eq_refl eq_refl).
  assert (In5 : forall c, inrange gdims c -> (c "yh" < 5)%nat /\ (c "xh" < 5)%nat).
  { intros c H. split; [apply (H "yh"); left; reflexivity|apply (H "xh"); right; left; reflexivity]. }
  destruct (C53_total nearest plain_labels gauge_field [] _ _ None _ _ x y gdims (one_site 36 (-252)) (Some (Fin 50)) true NS T) as [out EO].
  - cbn; tauto.
  - cbn; tauto.
  - discriminate.
  - intros s [<- | []]. eexists (_, _); split; reflexivity.
  - exists (fun _ => O). split; [|exact I]. intros d n [X | [X | []]]; injection X as <- <-; lia.
  - intros c Hc _. destruct (In5 c Hc) as [C1 C2], (P c C1 C2) as [P1 P2]. eexists; eexists. split; [exact P2|exact P1].
  - discriminate.
  - exists ds, x, y, out.
    assert (N : NoDup (map fst (frows (one_site 36 (-252))))) by (repeat constructor; cbn; tauto).
    destruct (C106_generated nearest plain_labels gauge_field _ ds x y _ _ true out NS E Gx Gy UL eq_refl eq_refl N EO)
      with (s := ("SITE", [("lat", Fin 36); ("lon", Fin (-252))])) (j := 3%nat) (i := 1%nat) (k := (-1)%Z) as (v & V1 & V2).
    + intros t [= <-]. right. exists 50. split; [reflexivity|lra].
    + left. reflexivity.
    + lia.
    + lia.
    + split; cbn [fst snd colv dget String.eqb Ascii.eqb Bool.eqb]; cbn; f_equal; lra.
    + exists v. repeat split; try assumption. intros e Ey Ex. rewrite (V2 e Ey Ex). cbn [gauge_field at_]. rewrite Ey, Ex. f_equal. cbn. lra.
Qed.

(** ** C107 *)
(** C107: calc_rel_vort accepts every generated velocity dataset; on its unit grid the vorticity
    is the difference of the neighbouring velocities over the corner's area, the velocity
    outside the domain being zero. *)
Definition inside5 (f : nat -> R) (k : nat) : R := if Nat.ltb k 5 then f k else 0.

Lemma uv_vars nt f g U V F A : Rsum 5 (fun j => Rsum 5 (fun i => A j i)) <> 0 ->
  exists ds a, generate_test_data_uv nt f g U V F A = Ok ds /\ normalised_area "yq" "xq" A = Ok a /\
    dget "uo" ds = Some (field4_on nt "yh" "xq" U) /\ dget "vo" ds = Some (field4_on nt "yq" "xh" V) /\
    dget "dxCu" ds = Some (field5 "yh" "xq" (fun _ _ => 1)) /\ dget "dyCv" ds = Some (field5 "yq" "xh" (fun _ _ => 1)) /\
    dget "areacello_bu" ds = Some a.
Proof.
  intros HS. destruct (normalised_ok "yq" "xq" A ltac:(discriminate) HS) as (a & Ea & _).
  assert (Eh : exists h, normalised_area "yh" "xh" f = Ok h).
  { destruct (Req_dec (field_sum f) 0) as [Z|Z].
    - destruct (normalised_zero "yh" "xh" f ltac:(discriminate) Z) as (h & Eh & _). eauto.
    - destruct (normalised_ok "yh" "xh" f ltac:(discriminate) Z) as (h & Eh & _). eauto. }
  destruct Eh as [h Eh].
  eexists _, a. split.
  { unfold generate_test_data_uv, xy_fields. cbn [dlookup point_dict dget String.eqb Ascii.eqb Bool.eqb bind]. rewrite Eh. cbn [bind].
    unfold zlevel_fields. cbn -[normalised_area field5 axis5 vec half_axis field4_on deptho_field midpoints]. rewrite Ea. reflexivity. }
  split; [exact Ea|]. repeat split.
Qed.

Theorem C107_generated_vorticity : forall nt f g U V F A,
  Rsum 5 (fun j => Rsum 5 (fun i => A j i)) <> 0 -> (forall j i, (j < 5)%nat -> (i < 5)%nat -> A j i <> 0) ->
  exists ds z, generate_test_data_uv nt f g U V F A = Ok ds /\ calc_rel_vort ds None default_grid false = Ok z /\
    adims z = [("time", nt); ("z_l", 5%nat); ("yq", 5%nat); ("xq", 5%nat)] /\
    forall e, (e "yq" < 5)%nat -> (e "xq" < 5)%nat ->
      let t := e "time" in let k := e "z_l" in let j := e "yq" in let i := e "xq" in
      at_ z e = Fin ((inside5 (V t k j) (S i) - V t k j i - (inside5 (fun j => U t k j i) (S j) - U t k j i))
                     / (A j i / Rsum 5 (fun j => Rsum 5 (fun i => A j i)) * 361110920000000)).
Proof.
  intros nt f g U V F A HS HA.
  destruct (uv_vars nt f g U V F A HS) as (ds & a & E & Ea & Gu & Gv & Gx & Gy & Ga).
  destruct (normalised_ok "yq" "xq" A ltac:(discriminate) HS) as (a' & Ea' & Da & Va & _ & _).
  rewrite Ea in Ea'. apply Ok_inj in Ea'. subst a'.
  exists ds. eexists. split; [exact E|]. clear E.
  split; [|split].
  - unfold calc_rel_vort, default_vmap, dmem. cbn [forallb snd]. rewrite Gu, Gv, Gx, Gy, Ga. cbn [andb negb].
    unfold dlookup. cbn [dget String.eqb Ascii.eqb Bool.eqb]. cbn [bind]. rewrite Gu, Gv, Gx, Gy, Ga. cbn [bind].
    unfold amul, aadd, adiv, xg_diff, xg_op, amap2, rename_dim, amap.
    cbn -[at_ fmul fadd fdiv fsub xg_left xg_right].
    rewrite ?Nat.eqb_refl, Da. cbn -[at_ fmul fadd fdiv fsub xg_left xg_right]. rewrite ?Nat.eqb_refl.
    cbn -[at_ fmul fadd fdiv fsub xg_left xg_right].
    reflexivity.
  - reflexivity.
  - intros e Hj Hi t k j i. cbn [at_]. rewrite Va.
    assert (Q : A (e "yq") (e "xq") / field_sum A * 361110920000000 <> 0).
    { fold (field_sum A) in HS. intros Q. apply Rmult_integral in Q. destruct Q as [Q|Q]; [|lra].
      apply (Rmult_integral (A (e "yq") (e "xq"))) in Q. destruct Q as [Q|Q]; [exact (HA _ _ Hj Hi Q)|].
      exact (Rinv_neq_0_compat _ HS Q). }
    assert (Val : forall (f : nat -> R) n, center_val 5 (fun k => fmul (Fin (f k)) (Fin 1)) n = Fin (inside5 f n)).
    { intros f0 n. unfold center_val, inside5. destruct (Nat.ltb n 5); [|reflexivity]. rewrite fmul_Fin, Rmult_1_r. reflexivity. }
    assert (In5 : forall (f : nat -> R) n, (n < 5)%nat -> inside5 f n = f n).
    { intros f0 n Hn. unfold inside5. apply Nat.ltb_lt in Hn. rewrite Hn. reflexivity. }
    unfold xg_right, xg_left. cbn [field4_on field5 at_ upd String.eqb Ascii.eqb Bool.eqb].
    rewrite !(Val (fun k0 => U (e "time") (e "z_l") k0 (e "xq"))), !(Val (fun k0 => V (e "time") (e "z_l") (e "yq") k0)).
    rewrite !fsub_Fin, fopp_Fin, fadd_Fin, fdiv_Fin by exact Q. f_equal. unfold t, k, j, i.
    rewrite (In5 (fun k0 => U (e "time") (e "z_l") k0 (e "xq")) (e "yq") Hj), (In5 (fun k0 => V (e "time") (e "z_l") (e "yq") k0) (e "xq") Hi).
    fold (field_sum A). apply (f_equal (fun z => z / (A (e "yq") (e "xq") / field_sum A * 361110920000000))).
    change (fun k0 => V (e "time") (e "z_l") (e "yq") k0) with (V (e "time") (e "z_l") (e "yq")). lra.
Qed.
Print Assumptions C107_generated_vorticity.

(** The generated corner areas are a valid ocean area too. *)
Theorem C107_generated_area : forall nt f g U V F A, Rsum 5 (fun j => Rsum 5 (fun i => A j i)) <> 0 ->
  exists ds a, generate_test_data_uv nt f g U V F A = Ok ds /\ dget "areacello_bu" ds = Some a /\
    adims a = [("yq", 5%nat); ("xq", 5%nat)] /\ validate_areacello a (Fin 361110920000000%R) (Fin (2 / 100)%R) = true.
Proof.
  intros nt f g U V F A HS.
  destruct (uv_vars nt f g U V F A HS) as (ds & a & E & Ea & _ & _ & _ & _ & Ga).
  destruct (normalised_ok "yq" "xq" A ltac:(discriminate) HS) as (a' & Ea' & Da & _ & _ & B).
  rewrite Ea in Ea'. apply Ok_inj in Ea'. subst a'. exists ds, a. auto.
Qed.
Print Assumptions C107_generated_area.

(** A rigid rotation on the unit grid: u = -2 j, v = 3 i in rows of 25 equal cells. *)
Example C107_case : exists ds z, generate_test_data_uv 5 (fun _ _ => 1) (fun _ _ => 0) (fun _ _ j _ => - 2 * INR j) (fun _ _ _ i => 3 * INR i)
    (fun _ _ => 0) (fun _ _ => 100) = Ok ds /\ calc_rel_vort ds None default_grid false = Ok z /\
  at_ z (fun d => if String.eqb d "time" then 4 else 2)%nat = Fin (5 / 14444436800000).
Proof.
  destruct (C107_generated_vorticity 5 (fun _ _ => 1) (fun _ _ => 0) (fun _ _ j _ => - 2 * INR j) (fun _ _ _ i => 3 * INR i) (fun _ _ => 0) (fun _ _ => 100))
    as (ds & z & E & Z & _ & H); [cbn; lra|intros; lra|].
  exists ds, z. split; [exact E|]. split; [exact Z|]. rewrite H by (cbn; lia). f_equal. cbn. field.
Qed.
