(** * PropertiesGeo: C50 - C54 and C74 - C77 (nearest grid points, tide gauges) *)
From Coq Require Import Reals Lra Lia List String Bool Arith ZArith.
From Verif Require Import Num NumFacts Py Arr ArrFacts Util Geo SpecGeo ProofsUtil ProofsGeo ProofsGeo2 ProofsTide ProofsTide2.
Import ListNotations.
Local Open Scope string_scope.
Local Open Scope R_scope.

(** ** C51, C75: the metric *)

(** The distance computed by the search is the central angle: the angle in [0,pi] whose
    cosine is the scalar product of the two unit vectors. *)
Theorem C51_central_angle : forall la lo la' lo',
  let d := haversine (la * (PI / 180), lo * (PI / 180)) (la' * (PI / 180), lo' * (PI / 180)) in
  0 <= d <= PI /\ cos d = dot (uvec la lo) (uvec la' lo').
Proof.
  intros la lo la' lo' d. unfold d. change (la * (PI / 180)) with (rad_of la). change (lo * (PI / 180)) with (rad_of lo).
  change (la' * (PI / 180)) with (rad_of la'). change (lo' * (PI / 180)) with (rad_of lo'). rewrite haversine_angle2.
  split; [apply central_angle_bound|apply (central_angle_cos (la, lo) (la', lo'))].
Qed.
Print Assumptions C51_central_angle.

Theorem C51_metric : forall p q : R * R,
  let hav a b := haversine (fst a * (PI / 180), snd a * (PI / 180)) (fst b * (PI / 180), snd b * (PI / 180)) in
  hav p q = hav q p /\ 0 <= hav p q <= PI /\
  (-90 <= fst p <= 90 -> -90 <= fst q <= 90 ->
    (hav p q = 0 <->
      fst p = fst q /\ (Rabs (fst p) = 90 \/ exists k, snd q = snd p + 360 * IZR k))) /\
  (forall k, hav (fst p, snd p + 360 * IZR k) q = hav p q /\ hav p (fst q, snd q + 360 * IZR k) = hav p q).
Proof.
  intros [la lo] [la' lo'] hav.
  assert (H : forall a b, hav a b = central_angle a b) by (intros a b; apply haversine_angle).
  split; [rewrite !H; apply central_angle_sym|]. split; [rewrite H; apply central_angle_bound|]. split.
  - cbn [fst snd]. intros R1 R2. rewrite H, central_angle_zero. cbn [fst snd]. split.
    + intros E. destruct (same_place la lo la' lo' R1 R2 E) as [E1 E2]. split; [exact E1|].
      destruct (Req_dec (Rabs la) 90) as [P|P]; [left; exact P|]. right. apply E2.
      unfold Rabs in P. destruct (Rcase_abs la); lra.
    + intros [-> [P | [k ->]]]; [|rewrite uvec_360k; reflexivity].
      unfold uvec. assert (C : cos (rad_of la') = 0).
      { unfold rad_of. unfold Rabs in P. destruct (Rcase_abs la').
        - replace la' with (-90) by lra. replace (-90 * (PI / 180)) with (- (PI / 2)) by field. rewrite cos_neg. apply cos_PI2.
        - replace la' with 90 by lra. replace (90 * (PI / 180)) with (PI / 2) by field. apply cos_PI2. }
      rewrite C. f_equal. f_equal; ring.
  - intros k. rewrite !H. unfold central_angle. cbn [fst snd]. rewrite !uvec_360k. auto.
Qed.
Print Assumptions C51_metric.

(** Pole to equator is a quarter of a great circle. *)
Example C51_example : haversine (90 * (PI / 180), 7 * (PI / 180)) (0 * (PI / 180), -100 * (PI / 180)) = PI / 2.
Proof.
  destruct (C51_central_angle 90 7 0 (-100)) as [B C].
  rewrite <- (acos_cos _ B). rewrite C. unfold dot, uvec, rad_of.
  replace (90 * (PI / 180)) with (PI / 2) by field. replace (0 * (PI / 180)) with 0 by ring. rewrite cos_PI2, sin_0.
  replace (0 * cos (7 * (PI / 180)) * (cos 0 * cos (-100 * (PI / 180))) + 0 * sin (7 * (PI / 180)) * (cos 0 * sin (-100 * (PI / 180))) + sin (PI / 2) * 0) with 0 by ring.
  apply acos_0.
Qed.

(** C75 *)
Theorem C75_triangle : forall p q r : R * R,
  let hav a b := haversine (fst a * (PI / 180), snd a * (PI / 180)) (fst b * (PI / 180), snd b * (PI / 180)) in
  hav p r <= hav p q + hav q r.
Proof.
  intros p q r hav. assert (H : forall a b, hav a b = central_angle a b) by (intros a b; apply haversine_angle).
  rewrite !H. apply central_angle_triangle.
Qed.
Print Assumptions C75_triangle.

(** ** C50: the nearest valid point within the threshold.  [full] lists the answer for
    every site; the output keeps those within the threshold, in order. *)
Theorem C50_nearest : forall (L : Type) nearest (m : frame L) dl th mc r lc am dw out warned,
  nearest_spec nearest ->
  geolocate_points nearest m dl th mc (Fin r) lc am dw = Ok (out, warned) ->
  exists full,
    Forall2 (fun s o =>
      exists row p q, selectable m am row /\ located mc row p /\ located lc s q /\
        o_name o = fst s /\ o_dim_vals o = fst row /\ o_model_coords o = (Fin (fst p), Fin (snd p)) /\
        o_distance o = Fin (r * central_angle p q) /\
        forall row', selectable m am row' -> exists p', located mc row' p' /\ central_angle p q <= central_angle p' q)
      (frows dl) full /\
    out = match th with None => full | Some t => filter (fun o => fleb (o_distance o) t) full end.
Proof.
  intros L nearest m dl th mc r lc am dw out warned NS H.
  destruct (geolocate_inv nearest m dl th mc r lc am dw out warned NS H) as (full & F & E & _).
  exists full. split; [|exact E]. eapply F2_impl; [|exact F].
  intros s o _ (row & p & q & N & Lp & Lq & On & Od & Ov & Om & _ & Mn). exists row, p, q.
  split; [apply chosen_In; eapply nth_error_In; exact N|]. split; [exact Lp|]. split; [exact Lq|].
  split; [exact On|]. split; [exact Ov|]. split; [exact Om|]. split; [exact Od|].
  intros row' I. apply Mn. apply chosen_In. exact I.
Qed.
Print Assumptions C50_nearest.

Theorem C50_total : forall (L : Type) nearest (m : frame L) dl th mc r lc am dw,
  nearest_spec nearest ->
  In (fst mc) (fcols m) -> In (snd mc) (fcols m) ->
  In (fst lc) (fcols dl) -> In (snd lc) (fcols dl) -> In "lat"%string (fcols dl) -> In "lon"%string (fcols dl) ->
  (exists row, selectable m am row) -> (forall row, selectable m am row -> exists p, located mc row p) ->
  frows dl <> [] -> (forall s, In s (frows dl) -> exists q, located lc s q) ->
  (dw = false -> th <> None) ->
  exists out warned, geolocate_points nearest m dl th mc (Fin r) lc am dw = Ok (out, warned).
Proof. intros L nearest m dl. exact (geolocate_ok nearest m dl). Qed.
Print Assumptions C50_total.

(** A search meeting the contract exists. *)
Theorem C50_contract_met : nearest_spec scan.
Proof. exact scan_spec. Qed.
Print Assumptions C50_contract_met.

(** Two model points, one masked: the site is mapped to the valid one. *)
Definition two_points : frame nat :=
  mkFrame ["geolon"; "geolat"; "mask"]%string
    [(7%nat, [("geolon"%string, Fin 0); ("geolat"%string, Fin 0); ("mask"%string, Fin 0)]);
     (8%nat, [("geolon"%string, Fin 10); ("geolat"%string, Fin 0); ("mask"%string, Fin 1)])].
Definition one_site (la lo : R) : frame string :=
  mkFrame ["lat"; "lon"]%string [("SITE"%string, [("lat"%string, Fin la); ("lon"%string, Fin lo)])].

Lemma two_points_selectable row : selectable two_points true row -> row = (8%nat, [("geolon"%string, Fin 10); ("geolat"%string, Fin 0); ("mask"%string, Fin 1)]).
Proof.
  intros [[<- | [<- | []]] H]; [|reflexivity]. exfalso.
  assert (E : Fin 0 = Fin 1) by (apply H; [reflexivity|cbn; tauto]). injection E. lra.
Qed.
Lemma two_points_run nearest th dw : nearest_spec nearest -> (dw = false -> th <> None) ->
  exists out warned, geolocate_points nearest two_points (one_site 0 10) th ("geolat", "geolon")%string (Fin 6378) ("lat", "lon")%string true dw = Ok (out, warned).
Proof.
  intros NS Hw. apply geolocate_ok; try exact NS; try exact Hw; try (cbn; tauto).
  - exists (8%nat, [("geolon"%string, Fin 10); ("geolat"%string, Fin 0); ("mask"%string, Fin 1)]).
    split; [cbn; tauto|]. reflexivity.
  - intros row I. apply two_points_selectable in I. subst row. exists (0, 10). split; reflexivity.
  - discriminate.
  - intros s [<- | []]. exists (0, 10). split; reflexivity.
Qed.
Lemma two_points_site nearest th dw out warned : nearest_spec nearest ->
  geolocate_points nearest two_points (one_site 0 10) th ("geolat", "geolon")%string (Fin 6378) ("lat", "lon")%string true dw = Ok (out, warned) ->
  exists o, o_mod_index o = O /\ o_dim_vals o = 8%nat /\ o_distance o = Fin 0 /\ o_name o = "SITE"%string /\
    out = match th with None => [o] | Some t => if fleb (Fin 0) t then [o] else [] end /\
    warned = if dw then [] else match th with None => [] | Some t => if fleb t (Fin 0) then ["SITE"%string] else [] end.
Proof.
  intros NS H. destruct (geolocate_inv _ _ _ _ _ _ _ _ _ _ _ NS H) as (full & F & E & W).
  inversion F as [|s o l l' S F' Es Ef]; subst. inversion F'; subst.
  destruct S as (row & p & q & N & Lp & Lq & On & Od & Ov & _ & _ & _).
  assert (I : selectable two_points true row) by (apply chosen_In; eapply nth_error_In; exact N).
  apply two_points_selectable in I. subst row.
  assert (Ep : p = (0, 10)).
  { destruct Lp as [A B], p as [u v]. injection A as <-. injection B as <-. reflexivity. }
  assert (Eq : q = (0, 10)).
  { destruct Lq as [A B], q as [u v]. injection A as <-. injection B as <-. reflexivity. }
  subst p q. assert (Z : central_angle (0, 10) (0, 10) = 0) by (apply central_angle_zero; reflexivity).
  rewrite Z, Rmult_0_r in Od. exists o. cbn [fst] in *.
  assert (Ch : chosen two_points true = [(8%nat, [("geolon"%string, Fin 10); ("geolat"%string, Fin 0); ("mask"%string, Fin 1)])]).
  { unfold chosen, two_points. cbn. rewrite Reqb_refl.
    assert (X : Reqb 0 1 = false) by (apply Reqb_false; lra). rewrite X. reflexivity. }
  split.
  { rewrite Ch in N. destruct (o_mod_index o) as [|[|k]]; [reflexivity|discriminate|discriminate]. }
  split; [exact Ov|]. split; [exact Od|]. split; [exact On|].
  split.
  - destruct th as [t|]; [|reflexivity]. cbn [filter]. rewrite Od. reflexivity.
  - destruct dw; [reflexivity|]. destruct th as [t|]; [|reflexivity]. cbn [filter]. rewrite Od.
    destruct (fleb t (Fin 0)); cbn [map]; [rewrite On; reflexivity|reflexivity].
Qed.

Example C50_example : forall nearest, nearest_spec nearest ->
  exists o, geolocate_points nearest two_points (one_site 0 10) None ("geolat", "geolon")%string (Fin 6378) ("lat", "lon")%string true true
    = Ok ([o], []) /\ o_dim_vals o = 8%nat /\ o_distance o = Fin 0.
Proof.
  intros nearest NS. destruct (two_points_run nearest None true NS) as (out & wd & E); [discriminate|].
  destruct (two_points_site _ _ _ _ _ NS E) as (o & _ & V & D & _ & -> & ->). exists o. auto.
Qed.

(** ** C52: mod_index counts rows of the masked frame, not of [df_model]. *)
Theorem C52_refuted : forall nearest, nearest_spec nearest ->
  exists (m : frame nat) dl o,
    geolocate_points nearest m dl None ("geolat", "geolon")%string (Fin 6378) ("lat", "lon")%string true true = Ok ([o], []) /\
    exists selected other, fst selected = o_dim_vals o /\ nth_error (frows m) 1 = Some selected /\
      nth_error (frows m) (o_mod_index o) = Some other /\ other <> selected /\ colv "mask" other = Fin 0.
Proof.
  intros nearest NS. destruct (two_points_run nearest None true NS) as (out & wd & E); [discriminate|].
  destruct (two_points_site _ _ _ _ _ NS E) as (o & I & V & D & _ & -> & ->). exists two_points, (one_site 0 10), o.
  split; [exact E|]. eexists; eexists. rewrite I, V. split; [|split; [reflexivity|split; [reflexivity|split; [discriminate|reflexivity]]]].
  reflexivity.
Qed.
Print Assumptions C52_refuted.

(** Missing for the full claim: frames with a row excluded by the mask. *)
Theorem C52_partial : forall (L : Type) nearest (m : frame L) dl th mc r lc am dw out warned,
  nearest_spec nearest ->
  geolocate_points nearest m dl th mc (Fin r) lc am dw = Ok (out, warned) ->
  (forall row, In row (frows m) -> selectable m am row) ->
  forall o, In o out -> exists row, nth_error (frows m) (o_mod_index o) = Some row /\ o_dim_vals o = fst row.
Proof.
  intros L nearest m dl th mc r lc am dw out warned NS H A o I.
  destruct (geolocate_inv nearest m dl th mc r lc am dw out warned NS H) as (full & F & E & _).
  assert (J : In o full) by (rewrite E in I; destruct th; [apply filter_In in I; tauto|exact I]).
  assert (Ch : chosen m am = frows m).
  { unfold chosen. destruct (am && smem "mask" (fcols m)) eqn:B; [|reflexivity].
    apply andb_true_iff in B. destruct B as [B1 B2]. apply smem_In in B2.
    assert (G : forall l : list (L * dict fval), (forall row, In row l -> colv "mask" row = Fin 1) -> filter (fun r => feqb (colv "mask" r) (Fin 1)) l = l).
    { intros l. induction l as [|z l IH]; intros K; [reflexivity|]. cbn [filter].
      rewrite (proj2 (feqb_Fin _ _) (K z (or_introl eq_refl))). f_equal. apply IH. intros row X. apply K. right. exact X. }
    apply G. intros row X. destruct (A row X) as [_ Y]. apply Y; assumption. }
  clear -F J Ch. induction F as [|s o' l l' S F IH]; [destruct J|]. destruct J as [-> | J]; [|auto].
  destruct S as (row & p & q & N & _ & _ & _ & _ & V & _). rewrite Ch in N. exists row. auto.
Qed.
Print Assumptions C52_partial.

(** With [apply_mask=False] every row is kept; the nearest of the two points is the second. *)
Example C52_case : forall nearest, nearest_spec nearest ->
  exists out warned o, geolocate_points nearest two_points (one_site 0 10) None ("geolat", "geolon")%string (Fin 6378) ("lat", "lon")%string false true
    = Ok (out, warned) /\ In o out /\ exists row, nth_error (frows two_points) (o_mod_index o) = Some row /\ o_dim_vals o = fst row.
Proof.
  intros nearest NS.
  assert (All : forall row, In row (frows two_points) -> selectable two_points false row) by (intros row I; split; [exact I|discriminate]).
  destruct (C50_total nat nearest two_points (one_site 0 10) None ("geolat", "geolon")%string 6378 ("lat", "lon")%string false true NS)
    as (out & wd & E); try (cbn; tauto).
  - eexists. apply All. left. reflexivity.
  - intros row [[<-|[<-|[]]] _]; eexists (_, _); split; reflexivity.
  - discriminate.
  - intros s [<-|[]]. eexists (_, _); split; reflexivity.
  - discriminate.
  - destruct (C50_nearest _ _ _ _ _ _ _ _ _ _ _ _ NS E) as (full & F & Eo). inversion F as [|s o l l' _ F' Es Ef]; subst.
    exists (o :: l'), wd, o. split; [exact E|]. split; [left; reflexivity|].
    apply (C52_partial _ _ _ _ _ _ _ _ _ _ _ _ NS E All). left. reflexivity.
Qed.

(** ** C74: a site exactly at the threshold is both warned about and returned. *)
Theorem C74_refuted : forall nearest, nearest_spec nearest ->
  exists (m : frame nat) dl t o,
    geolocate_points nearest m dl (Some t) ("geolat", "geolon")%string (Fin 6378) ("lat", "lon")%string true false
      = Ok ([o], ["SITE"%string]) /\ o_name o = "SITE"%string.
Proof.
  intros nearest NS. destruct (two_points_run nearest (Some (Fin 0)) false NS) as (out & wd & E); [discriminate|].
  destruct (two_points_site _ _ _ _ _ NS E) as (o & I & V & D & On & Eo & Ew). exists two_points, (one_site 0 10), (Fin 0), o.
  rewrite fleb_Fin in Eo, Ew. rewrite (proj2 (Rleb_true 0 0) (Rle_refl 0)) in Eo, Ew. subst. auto.
Qed.
Print Assumptions C74_refuted.

(** Missing for the full claim: sites exactly at the threshold. *)
Theorem C74_partial : forall (L : Type) nearest (m : frame L) dl t mc r lc am out warned,
  nearest_spec nearest ->
  geolocate_points nearest m dl (Some (Fin t)) mc (Fin r) lc am false = Ok (out, warned) ->
  exists full,
    List.length full = List.length (frows dl) /\ map o_name full = map fst (frows dl) /\
    out = filter (fun o => fleb (o_distance o) (Fin t)) full /\
    warned = map o_name (filter (fun o => fleb (Fin t) (o_distance o)) full) /\
    forall o, In o full -> o_distance o <> Fin t ->
      (fleb (o_distance o) (Fin t) = negb (fleb (Fin t) (o_distance o))).
Proof.
  intros L nearest m dl t mc r lc am out warned NS H.
  destruct (geolocate_inv nearest m dl (Some (Fin t)) mc r lc am false out warned NS H) as (full & F & E & W).
  exists full. split; [symmetry; apply (F2_length _ _ _ F)|]. split.
  { eapply F2_names; [exact F|]. intros s o (? & ? & ? & _ & _ & _ & X & _). exact X. }
  split; [exact E|]. split; [exact W|].
  intros o I N. assert (D : exists d, o_distance o = Fin d).
  { clear -F I. induction F as [|s o' l l' S F IH]; [destruct I|]. destruct I as [-> | I]; [|auto].
    destruct S as (? & p & q & _ & _ & _ & _ & D & _). eexists. exact D. }
  destruct D as [d D]. rewrite D in *. rewrite !fleb_Fin. unfold Rleb.
  destruct (Rle_dec d t), (Rle_dec t d); try reflexivity; exfalso; [apply N; f_equal|]; lra.
Qed.
Print Assumptions C74_partial.

(** The site at distance 0 with a threshold of 50 km: returned, and no warning. *)
Example C74_case : forall nearest, nearest_spec nearest ->
  exists o, geolocate_points nearest two_points (one_site 0 10) (Some (Fin 50)) ("geolat", "geolon")%string (Fin 6378) ("lat", "lon")%string true false
    = Ok ([o], []) /\ o_distance o = Fin 0.
Proof.
  intros nearest NS. destruct (two_points_run nearest (Some (Fin 50)) false NS) as (out & wd & E); [discriminate|].
  destruct (two_points_site _ _ _ _ _ NS E) as (o & _ & _ & D & _ & Eo & Ew). exists o.
  rewrite fleb_Fin in Eo, Ew. unfold Rleb in Eo, Ew. destruct (Rle_dec 0 50), (Rle_dec 50 0); try lra. subst. split; [exact E|exact D].
Qed.

(** Enabling the warnings without a threshold is a TypeError. *)
Theorem C74_no_threshold : forall (L : Type) nearest (m : frame L) dl mc r lc am,
  nearest_spec nearest ->
  In (fst mc) (fcols m) -> In (snd mc) (fcols m) -> In (fst lc) (fcols dl) -> In (snd lc) (fcols dl) ->
  (exists row, selectable m am row) -> (forall row, selectable m am row -> exists p, located mc row p) ->
  frows dl <> [] -> (forall s, In s (frows dl) -> exists q, located lc s q) ->
  geolocate_points nearest m dl None mc (Fin r) lc am false = Err TypeError.
Proof.
  intros L nearest m dl [y1 x1] r [y2 x2] am NS M1 M2 L1 L2 Hs Hm Hn Hl. cbn [fst snd] in *.
  unfold geolocate_points. fold (chosen m am). unfold need_cols. cbn [forallb].
  apply smem_In in M1, M2, L1, L2. rewrite M1, M2, L1, L2. cbn [andb bind].
  destruct (F2_ex (fun r y => radians_of (colv y1 r) (colv x1 r) = Ok y) (chosen m am)) as [pts Hp].
  { intros row I. apply chosen_In in I. destruct (Hm row I) as [p [P1 P2]]. cbn [fst snd] in *. rewrite P1, P2.
    eexists. apply radians_of_ok. }
  pose proof Hp as Hp'. apply mapM_F2 in Hp'. rewrite Hp'. cbn [bind].
  destruct pts as [|p0 pts].
  { exfalso. apply F2_length in Hp. destruct Hs as [row I]. apply chosen_In in I. destruct (chosen m am); [destruct I|discriminate]. }
  cbn [nonempty bind].
  destruct (F2_ex (fun r y => (let* q := radians_of (colv y2 r) (colv x2 r) in Ok (r, q)) = Ok y) (frows dl)) as [qs Hq].
  { intros s I. destruct (Hl s I) as [q [Q1 Q2]]. cbn [fst snd] in *. rewrite Q1, Q2, radians_of_ok. eexists. reflexivity. }
  pose proof Hq as Hq'. apply mapM_F2 in Hq'. rewrite Hq'. cbn [bind].
  destruct qs as [|q0 qs]; [exfalso; apply F2_length in Hq; destruct (frows dl); [contradiction|discriminate]|].
  reflexivity.
Qed.
Print Assumptions C74_no_threshold.

(** ** C76: other names for the site columns are accepted, then "lat" and "lon" are read. *)
Theorem C76_refuted : forall nearest, nearest_spec nearest ->
  exists (m : frame nat) dl, 
    (exists row, selectable m true row /\ located ("geolat", "geolon")%string row (0, 10)) /\
    (forall s, In s (frows dl) -> located ("latitude", "longitude")%string s (0, 10)) /\ frows dl <> [] /\
    fcols dl = ["latitude"; "longitude"]%string /\
    geolocate_points nearest m dl None ("geolat", "geolon")%string (Fin 6378) ("latitude", "longitude")%string true true = Err KeyError.
Proof.
  intros nearest NS.
  exists two_points, (mkFrame ["latitude"; "longitude"]%string [("SITE"%string, [("latitude"%string, Fin 0); ("longitude"%string, Fin 10)])]).
  split.
  { exists (8%nat, [("geolon"%string, Fin 10); ("geolat"%string, Fin 0); ("mask"%string, Fin 1)]).
    split; [split; [cbn; tauto|reflexivity]|split; reflexivity]. }
  split; [intros s [<- | []]; split; reflexivity|]. split; [discriminate|]. split; [reflexivity|].
  unfold geolocate_points. fold (chosen two_points true).
  assert (Ch : chosen two_points true = [(8%nat, [("geolon"%string, Fin 10); ("geolat"%string, Fin 0); ("mask"%string, Fin 1)])]).
  { unfold chosen, two_points. cbn. rewrite Reqb_refl.
    assert (X : Reqb 0 1 = false) by (apply Reqb_false; lra). rewrite X. reflexivity. }
  rewrite Ch. reflexivity.
Qed.
Print Assumptions C76_refuted.

(** Missing for the full claim: site frames without "lat" and "lon" columns.  With them the
    search uses the requested columns, but [real_coords] reports "lat" and "lon". *)
Theorem C76_partial : forall (L : Type) nearest (m : frame L) dl th mc r lc am dw,
  nearest_spec nearest ->
  In (fst mc) (fcols m) -> In (snd mc) (fcols m) ->
  In (fst lc) (fcols dl) -> In (snd lc) (fcols dl) -> In "lat"%string (fcols dl) -> In "lon"%string (fcols dl) ->
  (exists row, selectable m am row) -> (forall row, selectable m am row -> exists p, located mc row p) ->
  frows dl <> [] -> (forall s, In s (frows dl) -> exists q, located lc s q) ->
  (dw = false -> th <> None) ->
  exists out warned, geolocate_points nearest m dl th mc (Fin r) lc am dw = Ok (out, warned) /\
    forall o, In o out -> exists s p q, In s (frows dl) /\ located lc s q /\ o_model_coords o = (Fin (fst p), Fin (snd p)) /\
      o_distance o = Fin (r * central_angle p q) /\ o_real_coords o = (colv "lat" s, colv "lon" s).
Proof.
  intros L nearest m dl th mc r lc am dw NS M1 M2 L1 L2 L3 L4 Hs Hm Hn Hl Hw.
  destruct (geolocate_ok nearest m dl th mc r lc am dw NS M1 M2 L1 L2 L3 L4 Hs Hm Hn Hl Hw) as (out & wd & E).
  exists out, wd. split; [exact E|]. intros o I.
  destruct (geolocate_inv nearest m dl th mc r lc am dw out wd NS E) as (full & F & Eo & _).
  assert (J : In o full) by (rewrite Eo in I; destruct th; [apply filter_In in I; tauto|exact I]).
  clear -F J. induction F as [|s o' l l' S F IH]; [destruct J|]. destruct J as [-> | J].
  - destruct S as (row & p & q & _ & _ & Lq & _ & D & _ & M & Rc & _). exists s, p, q. split; [left; reflexivity|]. auto.
  - destruct (IH J) as (s' & p & q & I' & K). exists s', p, q. split; [right; exact I'|exact K].
Qed.
Print Assumptions C76_partial.

(** A list of sites with both pairs of columns: the search uses the requested pair, the report the other. *)
Example C76_case : forall nearest, nearest_spec nearest -> exists o,
  let dl := mkFrame ["lat"; "lon"; "latitude"; "longitude"]%string
    [("SITE"%string, [("lat"%string, Fin 5); ("lon"%string, Fin 6); ("latitude"%string, Fin 0); ("longitude"%string, Fin 10)])] in
  geolocate_points nearest two_points dl None ("geolat", "geolon")%string (Fin 6378) ("latitude", "longitude")%string true true = Ok ([o], [])
  /\ o_model_coords o = (Fin 0, Fin 10) /\ o_real_coords o = (Fin 5, Fin 6).
Proof.
  intros nearest NS.
  pose (dl := mkFrame ["lat"; "lon"; "latitude"; "longitude"]%string
    [("SITE"%string, [("lat"%string, Fin 5); ("lon"%string, Fin 6); ("latitude"%string, Fin 0); ("longitude"%string, Fin 10)])]).
  destruct (C76_partial nat nearest two_points dl None ("geolat", "geolon")%string 6378 ("latitude", "longitude")%string true true NS)
    as (out & wd & E & H); try (cbn; tauto).
  - eexists. split; [right; left; reflexivity|]. reflexivity.
  - intros row I. apply two_points_selectable in I. subst row. exists (0, 10). split; reflexivity.
  - discriminate.
  - intros s [<-|[]]. exists (0, 10). split; reflexivity.
  - discriminate.
  - destruct (geolocate_inv _ _ _ _ _ _ _ _ _ _ _ NS E) as (full & F & Eo & Ew). inversion F as [|s o l l' So F' Es Ef]; subst.
    inversion F'; subst. destruct So as (row & p & q & N & Lp & _ & _ & _ & _ & M & Rc & _).
    assert (I : selectable two_points true row) by (apply chosen_In; eapply nth_error_In; exact N).
    apply two_points_selectable in I. subst row. destruct Lp as [L1 L2], p as [u w]. injection L1 as <-. injection L2 as <-.
    exists o. split; [exact E|]. split; [exact M|exact Rc].
Qed.

(** ** C53: the series of the nearest wet cell *)
Lemma drop_all_remaining ns : forall l, drop_all ns l = filter (fun p => if in_dec string_dec (fst p) ns then false else true) l.
Proof.
  induction ns as [|n ns IH]; intros l; cbn [drop_all fold_left].
  - induction l as [|p l IH]; [reflexivity|]. cbn. f_equal. exact IH.
  - fold (drop_all ns (drop_dim n l)). rewrite IH. unfold drop_dim. induction l as [|p l IHl]; [reflexivity|]. cbn [filter].
    destruct (String.eqb_spec n (fst p)) as [E|E]; cbn [negb].
    + destruct (in_dec string_dec (fst p) (n :: ns)) as [I|I]; [exact IHl|exfalso; apply I; left; exact E].
    + cbn [filter]. destruct (in_dec string_dec (fst p) ns) as [I|I]; destruct (in_dec string_dec (fst p) (n :: ns)) as [J|J].
      * exact IHl.
      * exfalso. apply J. right. exact I.
      * exfalso. destruct J as [J|J]; auto.
      * f_equal. exact IHl.
Qed.

Theorem C53_nearest_series : forall nearest lab a coords xcoord ycoord mask xn yn x y ds locs th dw out,
  nearest_spec nearest -> tide_grid lab a coords xcoord ycoord mask xn yn x y ds -> NoDup (map fst (frows locs)) ->
  extract_tidegauge nearest lab a coords xcoord ycoord (Some locs) mask th dw = Ok out ->
  (forall s, In s (frows locs) ->
     exists q c p, located ("lat", "lon")%string s q /\ nearest_wet ds x y mask q c p /\
       (within th (6378 * central_angle p q) ->
          exists v, dget (fst s) out = Some v /\ adims v = remaining ds (adims a) /\
                    forall e, at_ v e = at_ a (overlay ds c e)) /\
       (~ within th (6378 * central_angle p q) -> dget (fst s) out = None)) /\
  (forall k, In k (dkeys out) -> In k (map fst (frows locs))).
Proof.
  intros nearest lab a coords xcoord ycoord mask xn yn x y ds locs th dw out NS [T1 T2 T3 T4 T5 T6 T7 T8 T9 T10 T11 T12 T13] N E.
  destruct (extract_spec nearest lab a coords xcoord ycoord xn yn x y ds mask locs th dw NS T1 T2 T3 T4 T5 T6 T7 T8 T9 T10 T11 T12 T13 out N E) as [A B].
  split; [|exact B]. intros s I. destruct (A s I) as (q & c & p & Lq & NW & W1 & W2). exists q, c, p.
  split; [exact Lq|]. split; [exact NW|]. split; [|exact W2]. intros W. destruct (W1 W) as (v & G & D & V).
  exists v. split; [exact G|]. split; [|exact V]. rewrite D. apply drop_all_remaining.
Qed.
Print Assumptions C53_nearest_series.

Theorem C53_total : forall nearest lab a coords xcoord ycoord mask xn yn x y ds locs th dw,
  nearest_spec nearest -> tide_grid lab a coords xcoord ycoord mask xn yn x y ds ->
  In "lat"%string (fcols locs) -> In "lon"%string (fcols locs) -> frows locs <> [] ->
  (forall s, In s (frows locs) -> exists q, located ("lat", "lon")%string s q) ->
  (exists c, inrange ds c /\ wet mask c) ->
  (forall c, inrange ds c -> wet mask c -> exists la lo, at_ y c = Fin la /\ at_ x c = Fin lo) ->
  (dw = false -> th <> None) ->
  exists out, extract_tidegauge nearest lab a coords xcoord ycoord (Some locs) mask th dw = Ok out.
Proof.
  intros nearest lab a coords xcoord ycoord mask xn yn x y ds locs th dw NS [T1 T2 T3 T4 T5 T6 T7 T8 T9 T10 T11 T12 T13] C1 C2 Hn Hl Hw Hc Ht.
  exact (extract_ok nearest lab a coords xcoord ycoord xn yn x y ds mask locs th dw NS T1 T2 T3 T4 T5 T6 T7 T8 T9 T10 T11 T12 T13 C1 C2 Hn Hl Hw Hc Ht).
Qed.
Print Assumptions C53_total.

(** 1-D coordinates behave as the tiled 2-D coordinates would. *)
Theorem C53_one_dimensional : forall nearest lab a coords xcoord ycoord mask dx dy nx ny x y locs th dw (X Y : nat -> fval),
  denotes coords xcoord dx x -> denotes coords ycoord dy y -> adims x = [(dx, nx)] -> adims y = [(dy, ny)] -> dx <> dy ->
  (forall e, at_ x e = X (e dx)) -> (forall e, at_ y e = Y (e dy)) ->
  exists lon lat, adims lon = [(dy, ny); (dx, nx)] /\ adims lat = [(dy, ny); (dx, nx)] /\
    (forall e, at_ lon e = X (e dx) /\ at_ lat e = Y (e dy)) /\
    extract_tidegauge nearest lab a coords xcoord ycoord locs mask th dw =
    extract_tidegauge nearest lab a coords (CArr "geolon" lon) (CArr "geolat" lat) locs mask th dw.
Proof.
  intros nearest lab a coords xcoord ycoord mask dx dy nx ny x y locs th dw X Y Hx Hy Dx Dy N VX VY.
  exists (mkArr [(dy, ny); (dx, nx)] (fun e => at_ x (upd (fun _ => O) dx (e dx)))),
         (mkArr [(dy, ny); (dx, nx)] (fun e => at_ y (upd (fun _ => O) dy (e dy)))).
  split; [reflexivity|]. split; [reflexivity|]. split.
  { intros e. cbn [at_]. rewrite VX, VY, !upd_same. auto. }
  unfold extract_tidegauge, tidegauge_rows. rewrite (denotes_get _ _ _ _ Hx), (denotes_get _ _ _ _ Hy). cbn [bind fst snd get_coord].
  unfold ndim. rewrite Dx, Dy. cbn [List.length Nat.eqb assert_ bind adims].
  unfold tile_nominal_coords. rewrite Dx, Dy, (proj2 (String.eqb_neq dx dy) N), !String.eqb_refl. reflexivity.
Qed.
Print Assumptions C53_one_dimensional.

(** ** C77 *)
Theorem C77_partial : forall nearest lab a coords xcoord ycoord mask xn yn x y ds locs th dw out,
  nearest_spec nearest -> tide_grid lab a coords xcoord ycoord mask xn yn x y ds -> NoDup (map fst (frows locs)) ->
  extract_tidegauge nearest lab a coords xcoord ycoord (Some locs) mask th dw = Ok out ->
  exists b : string * dict fval -> bool,
    dkeys out = map fst (filter b (frows locs)) /\
    forall s, In s (frows locs) -> exists q c p,
      located ("lat", "lon")%string s q /\ nearest_wet ds x y mask q c p /\
      (b s = true <-> within th (6378 * central_angle p q)).
Proof.
  intros nearest lab a coords xcoord ycoord mask xn yn x y ds locs th dw out NS [T1 T2 T3 T4 T5 T6 T7 T8 T9 T10 T11 T12 T13] N E.
  exact (extract_keys nearest lab a coords xcoord ycoord xn yn x y ds mask locs th dw NS T1 T2 T3 T4 T5 T6 T7 T8 T9 T10 T11 T12 T13 out N E).
Qed.
Print Assumptions C77_partial.

(** Two records with the same name (as MAYPORT in the bundled US list) leave one variable. *)
Definition two_records : frame string :=
  mkFrame ["lat"; "lon"]%string
    [("MAYPORT"%string, [("lat"%string, Fin 10); ("lon"%string, Fin 0)]);
     ("MAYPORT"%string, [("lat"%string, Fin 0); ("lon"%string, Fin 0)])].

Theorem C77_refuted : forall nearest, nearest_spec nearest ->
  exists lab a x y ds locs out,
    tide_grid lab a [] (CArr "geolon" x) (CArr "geolat" y) None "geolon" "geolat" x y ds /\
    extract_tidegauge nearest lab a [] (CArr "geolon" x) (CArr "geolat" y) (Some locs) None None true = Ok out /\
    List.length (frows locs) = 2%nat /\ List.length out = 1%nat.
Proof.
  intros nearest NS. exists plain_labels, field, grid_x, grid_y, grid_dims, two_records.
  pose proof (grid_ok None ltac:(discriminate)) as T.
  destruct (C53_total nearest plain_labels field [] _ _ None _ _ grid_x grid_y grid_dims two_records None true NS T) as [out E].
  - cbn; tauto.
  - cbn; tauto.
  - discriminate.
  - intros s [<- | [<- | []]]; eexists (_, _); split; reflexivity.
  - exists (fun _ => O). split; [|exact I]. intros d n [X | [X | []]]; injection X as <- <-; lia.
  - intros c _ _. exists (10 * INR (c "yh"%string)), (10 * INR (c "xh"%string)). split; reflexivity.
  - discriminate.
  - exists out. split; [exact T|]. split; [exact E|]. split; [reflexivity|]. destruct T as [T1 T2 T3 T4 T5 T6 T7 T8 T9 T10 T11 T12 T13].
    destruct (extract_names nearest plain_labels field [] _ _ _ _ grid_x grid_y grid_dims None two_records true out NS T1 T2 T3 T4 T8 E) as [N K].
    unfold dkeys in *. rewrite <- (map_length fst out). destruct (map fst out) as [|k l].
    + exfalso. apply (K "MAYPORT"%string). cbn. tauto.
    + destruct l as [|k' l]; [reflexivity|]. exfalso.
      assert (A : k = "MAYPORT"%string) by (assert (J := proj1 (K k) (or_introl eq_refl)); cbn in J; intuition congruence).
      assert (B : k' = "MAYPORT"%string) by (assert (J := proj1 (K k') (or_intror (or_introl eq_refl))); cbn in J; intuition congruence).
      subst. inversion N as [|? ? N1 _]. apply N1. left. reflexivity.
Qed.
Print Assumptions C77_refuted.

(** A 2x2 grid, a site at cell (yh=1, xh=0). *)
Example C53_example : forall nearest, nearest_spec nearest ->
  exists out v, extract_tidegauge nearest plain_labels field [] (CArr "geolon" grid_x) (CArr "geolat" grid_y) (Some (one_site 10 0)) None (Some (Fin 50)) true = Ok out /\
    dkeys out = ["SITE"%string] /\ dget "SITE" out = Some v /\ adims v = [("time"%string, 3%nat)] /\
    forall e, at_ v e = Fin (100 * INR (e "time"%string) + 10 * INR 1 + INR 0).
Proof.
  intros nearest NS. pose proof (grid_ok None ltac:(discriminate)) as T.
  destruct (C53_total nearest plain_labels field [] _ _ None _ _ grid_x grid_y grid_dims (one_site 10 0) (Some (Fin 50)) true NS T) as [out E].
  - cbn; tauto.
  - cbn; tauto.
  - discriminate.
  - intros s [<- | []]. eexists (_, _); split; reflexivity.
  - exists (fun _ => O). split; [|exact I]. intros d n [X | [X | []]]; injection X as <- <-; lia.
  - intros c _ _. exists (10 * INR (c "yh"%string)), (10 * INR (c "xh"%string)). split; reflexivity.
  - discriminate.
  - exists out.
    assert (N : NoDup (map fst (frows (one_site 10 0)))) by (repeat constructor; cbn; tauto).
    destruct (C53_nearest_series nearest plain_labels field [] _ _ None _ _ grid_x grid_y grid_dims (one_site 10 0) (Some (Fin 50)) true out NS T N E) as [A B].
    destruct (A _ (or_introl eq_refl)) as (q & c & p & Lq & (Rc & _ & Yc & Xc & Mn) & W1 & _).
    assert (Eq : q = (10, 0)). { destruct Lq as [L1 L2], q as [u w]. injection L1 as <-. injection L2 as <-. reflexivity. }
    subst q. cbn [fst] in W1.
    assert (c "yh"%string < 2)%nat by (apply Rc; cbn; tauto). assert (c "xh"%string < 2)%nat by (apply Rc; cbn; tauto).
    set (c' := upd (upd (fun _ => O) "yh" 1) "xh" 0).
    assert (Z : central_angle p (10, 0) <= central_angle (10, 0) (10, 0)).
    { apply (Mn c' (10, 0)).
      - intros d n [X | [X | []]]; injection X as <- <-; cbn; lia.
      - exact I.
      - change (Fin (10 * INR 1) = Fin 10). f_equal. cbn. lra.
      - change (Fin (10 * INR 0) = Fin 0). f_equal. cbn. lra. }
    rewrite (proj2 (central_angle_zero (10, 0) (10, 0)) eq_refl) in Z.
    assert (Z0 : central_angle p (10, 0) = 0) by (pose proof (central_angle_bound p (10, 0)); lra).
    assert (P : p = (10 * INR (c "yh"%string), 10 * INR (c "xh"%string))).
    { destruct p as [u w]. injection Yc as <-. injection Xc as <-. reflexivity. }
    assert (Cell : c "yh"%string = 1%nat /\ c "xh"%string = O).
    { apply central_angle_zero in Z0. rewrite P in Z0. cbn [fst snd] in Z0.
      apply same_place in Z0.
      - destruct Z0 as [Z1 Z2]. destruct (c "yh"%string) as [|[|k]]; [cbn in Z1; lra| |lia]. split; [reflexivity|].
        destruct Z2 as [k Hk]; [cbn; lra|]. destruct (c "xh"%string) as [|[|j]]; [reflexivity| |lia]. exfalso. cbn in Hk.
        assert (X : IZR (36 * k) = IZR (-1)) by (rewrite mult_IZR; lra). apply eq_IZR in X. lia.
      - destruct (c "yh"%string) as [|[|k]]; [cbn; lra|cbn; lra|lia].
      - lra. }
    destruct Cell as [C1 C2].
    destruct W1 as (v & G & D & V).
    { unfold within. rewrite Z0, Rmult_0_r, fleb_Fin. apply Rleb_true. lra. }
    exists v. split; [exact E|]. split.
    + destruct (C77_partial nearest plain_labels field [] _ _ None _ _ grid_x grid_y grid_dims (one_site 10 0) (Some (Fin 50)) true out NS T N E) as (b & K & _).
      rewrite K. cbn [frows one_site filter] in *. destruct (b _); [reflexivity|]. exfalso. cbn [map] in K.
      destruct out; [discriminate G|discriminate K].
    + split; [exact G|]. split; [rewrite D; reflexivity|]. intros e. rewrite V. cbn. rewrite C1, C2. reflexivity.
Qed.

(** ** C54: the check compares the x dimensions with themselves.  Latitudes stored with
    swapped dimensions are accepted; a site exactly on a cell gets the series of another. *)
Theorem C54_refuted : forall nearest, nearest_spec nearest ->
  exists lab a x y locs out v c,
    names x <> names y /\
    extract_tidegauge nearest lab a [] (CArr "geolon" x) (CArr "geolat" y) (Some locs) None None true = Ok out /\
    dget "SITE" out = Some v /\
    (forall s, In s (frows locs) -> exists p, located ("lat", "lon")%string s p /\ at_ y c = Fin (fst p) /\ at_ x c = Fin (snd p)) /\
    inrange (adims x) c /\
    forall e, at_ v e <> at_ a (overlay (adims x) c e).
Proof.
  intros nearest NS. exists plain_labels, field, grid_x, grid_y_swapped, (one_site 10 0).
  assert (U : extract_tidegauge nearest plain_labels field [] (CArr "geolon" grid_x) (CArr "geolat" grid_y_swapped) (Some (one_site 10 0)) None None true
    = let* mapped := geolocate_points nearest swapped_frame (one_site 10 0) None ("geolat", "geolon")%string (Fin 6378) ("lat", "lon")%string true true in
      let* pts := mapM (fun row => let* v := extract_point plain_labels field ["yh"; "xh"]%string row in Ok (o_name row, v)) (fst mapped) in
      Ok (collect pts [])).
  { transitivity (let* rows := (let* mapped := geolocate_points nearest swapped_frame (one_site 10 0) None ("geolat", "geolon")%string (Fin 6378) ("lat", "lon")%string true true in
        Ok (["yh"; "xh"]%string, fst mapped)) in
      let* pts := mapM (fun row => let* v := extract_point plain_labels field (fst rows) row in Ok (o_name row, v)) (snd rows) in
      Ok (collect pts [])); [reflexivity|]. destruct (geolocate_points _ _ _ _ _ _ _ _ _); reflexivity. }
  destruct (geolocate_ok nearest swapped_frame (one_site 10 0) None ("geolat", "geolon")%string 6378 ("lat", "lon")%string true true NS) as (rows & wd & G); try (cbn; tauto).
  { exists (swapped_row 0 1). split; [rewrite swapped_rows; cbn; tauto|reflexivity]. }
  { intros row [I _]. rewrite swapped_rows in I. destruct I as [<- | [<- | [<- | [<- | []]]]]; eexists (_, _); split; reflexivity. }
  { discriminate. }
  { intros s [<- | []]. eexists (_, _); split; reflexivity. }
  { discriminate. }
  destruct (geolocate_inv _ _ _ _ _ _ _ _ _ _ _ NS G) as (full & F & -> & _).
  inversion F as [|s o l l' S F' Es Ef]; subst. inversion F'; subst. clear F F'.
  destruct S as (row & p & q & N & Lp & Lq & On & Od & Ov & _ & _ & Mn).
  assert (Eq : q = (10, 0)). { destruct Lq as [L1 L2], q as [u w]. injection L1 as <-. injection L2 as <-. reflexivity. }
  subst q.
  assert (In_ : selectable swapped_frame true row) by (apply chosen_In; eapply nth_error_In; exact N).
  destruct (Mn (swapped_row 0 1)) as (p' & Lp' & M').
  { apply chosen_In. split; [rewrite swapped_rows; cbn; tauto|reflexivity]. }
  assert (Ep' : p' = (10, 10)).
  { destruct Lp' as [L1 L2], p' as [u w]. injection L1 as L1. injection L2 as L2. cbn in L1, L2. f_equal; lra. }
  subst p'. pose proof angle_far as Far.
  assert (Pz : forall i, row = swapped_row i 0 -> False).
  { intros i ->. assert (Ep : p = (0, 0)).
    { destruct Lp as [L1 L2], p as [u w]. injection L1 as L1. injection L2 as L2. cbn in L1, L2. f_equal; lra. }
    subst p. lra. }
  assert (Rw : exists j, (j < 2)%nat /\ row = swapped_row j 1).
  { destruct In_ as [I _]. rewrite swapped_rows in I. destruct I as [<- | [<- | [<- | [<- | []]]]].
    - exfalso. apply (Pz O). reflexivity.
    - exists O. split; [lia|reflexivity].
    - exfalso. apply (Pz 1%nat). reflexivity.
    - exists 1%nat. split; [lia|reflexivity]. }
  destruct Rw as (j & Hj & ->). cbn [fst swapped_row] in Ov. cbn [fst] in On.
  set (v := mkArr [("time"%string, 3%nat)] (fun e => at_ field (upd (upd e "xh" 1) "yh" j))).
  assert (X : extract_point plain_labels field ["yh"; "xh"]%string o = Ok v).
  { unfold extract_point. rewrite Ov. destruct j as [|[|j]]; [reflexivity|reflexivity|lia]. }
  exists [("SITE"%string, v)], v, (upd (upd (fun _ => O) "yh" 1) "xh" 0).
  split; [discriminate|]. split.
  { rewrite U, G. cbn [bind fst mapM]. rewrite X. cbn [bind]. rewrite On. reflexivity. }
  split; [reflexivity|]. split.
  { intros s [<- | []]. exists (10, 0). split; [split; reflexivity|].
    split; [change (Fin (10 * INR 1) = Fin 10)|change (Fin (10 * INR 0) = Fin 0)]; f_equal; cbn; lra. }
  split; [intros d n [K | [K | []]]; injection K as <- <-; cbn; lia|].
  intros e. cbn. intros K. injection K as K. destruct j as [|[|j]]; [cbn in K; lra|cbn in K; lra|lia].
Qed.
Print Assumptions C54_refuted.

(** Missing for the full claim: coordinates of the same rank on different dimensions. *)
Theorem C54_partial : forall nearest lab a coords xcoord ycoord xn yn x y csv mask th dw,
  denotes coords xcoord xn x -> denotes coords ycoord yn y -> ndim x <> ndim y ->
  extract_tidegauge nearest lab a coords xcoord ycoord csv mask th dw = Err AssertionError.
Proof.
  intros nearest lab a coords xcoord ycoord xn yn x y csv mask th dw Hx Hy N.
  unfold extract_tidegauge, tidegauge_rows. rewrite (denotes_get _ _ _ _ Hx), (denotes_get _ _ _ _ Hy). cbn [bind fst snd].
  rewrite (proj2 (Nat.eqb_neq _ _) N). reflexivity.
Qed.
Print Assumptions C54_partial.

(** Arguments that are neither coordinate names nor arrays, and missing files, are rejected. *)
Theorem C54_bad_arguments : forall nearest lab a coords xcoord ycoord csv mask th dw,
  (forall n x, ~ denotes coords xcoord n x) \/ (forall n x, ~ denotes coords ycoord n x) ->
  extract_tidegauge nearest lab a coords xcoord ycoord csv mask th dw = Err AssertionError.
Proof.
  intros nearest lab a coords xcoord ycoord csv mask th dw H.
  assert (K : forall c, (forall n x, ~ denotes coords c n x) -> get_coord coords c = Err AssertionError).
  { intros [s|n b|] C; cbn [get_coord]; [|exfalso; apply (C n b); split; reflexivity|reflexivity].
    destruct (dget s coords) as [x|] eqn:E; [|reflexivity]. exfalso. apply (C s x). split; [reflexivity|exact E]. }
  unfold extract_tidegauge, tidegauge_rows. destruct H as [H|H]; [rewrite (K _ H); reflexivity|].
  assert (Y := K _ H). destruct (get_coord coords xcoord) as [xc|er] eqn:E; cbn [bind].
  - rewrite Y. reflexivity.
  - destruct xcoord as [s|n b|]; cbn [get_coord] in E; [destruct (dget s coords)|..]; congruence.
Qed.
Print Assumptions C54_bad_arguments.

(** One-dimensional longitudes with two-dimensional latitudes, and the name of no coordinate. *)
Example C54_case : forall nearest lab,
  extract_tidegauge nearest lab field [] (CArr "lon" (mkArr [("xh"%string, 2%nat)] (fun e => Fin (INR (e "xh"%string))))) (CArr "geolat" grid_y)
    (Some (one_site 10 0)) None None true = Err AssertionError
  /\ extract_tidegauge nearest lab field [("geolat"%string, grid_y)] (CName "geolon") (CName "geolat") (Some (one_site 10 0)) None None true = Err AssertionError.
Proof.
  intros nearest lab. split.
  - eapply C54_partial; [split; reflexivity|split; reflexivity|discriminate].
  - apply C54_bad_arguments. left. intros n x [_ H]. discriminate.
Qed.
