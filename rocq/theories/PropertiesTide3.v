(** * PropertiesTide3: C180 (warnings of extract_tidegauge) *)
From Coq Require Import Reals List String Bool Arith Lia Lra.
From Verif Require Import Num Py Arr ArrFacts Util Geo SpecGeo TideWarn ProofsTide2 PropertiesGeo.
Import ListNotations.
Local Open Scope string_scope.

Lemma bind_ok {A B} (r : res A) (f : A -> res B) b : bind r f = Ok b -> exists a, r = Ok a /\ f a = Ok b.
Proof. destruct r; [eauto|discriminate]. Qed.
Lemma Ok_eq {A} (a b : A) : Ok a = Ok b -> a = b.
Proof. congruence. Qed.
Lemma pair_ok {A B} (a a' : A) (b b' : B) : Ok (a, b) = Ok (a', b') -> a = a' /\ b = b'.
Proof. intros H. split; congruence. Qed.

Lemma geolocate_silent {L} nearest (m : frame L) dl th mc r lc am out w : geolocate_points nearest m dl th mc r lc am true = Ok (out, w) -> w = [].
Proof.
  intros H. destruct mc as [y1 x1], lc as [y2 x2]. unfold geolocate_points in H. do 6 (apply bind_ok in H as (? & _ & H)). apply bind_ok in H as (w' & W & H).
  do 2 (apply bind_ok in H as (? & _ & H)). apply pair_ok in H as [_ <-]. cbn in W. congruence.
Qed.
Lemma mapM_names {A L} (f : A -> res (orow L)) (nm : A -> string) (ds : A -> fval) (l : list A) :
  (forall a o, f a = Ok o -> o_name o = nm a /\ o_distance o = ds a) -> forall out, mapM f l = Ok out ->
  forall p, map o_name (filter (fun o => p (o_distance o)) out) = map nm (filter (fun a => p (ds a)) l).
Proof.
  intros F. induction l as [|a l IH]; intros out H p; cbn [mapM] in H; [injection H as <-; reflexivity|].
  apply bind_ok in H as (o & O & H). apply bind_ok in H as (os & S & H). assert (E : out = o :: os) by congruence. subst out.
  destruct (F a o O) as [N D]. cbn [filter]. rewrite D. destruct (p (ds a)); cbn [map]; [rewrite N|]; rewrite (IH os S p); reflexivity.
Qed.
Lemma geolocate_warned {L} nearest (m : frame L) dl t mc r lc am full w0 out w :
  geolocate_points nearest m dl None mc r lc am true = Ok (full, w0) -> geolocate_points nearest m dl (Some t) mc r lc am false = Ok (out, w) ->
  w = map o_name (filter (fun o => fleb t (o_distance o)) full).
Proof.
  intros H0 H. destruct mc as [y1 x1], lc as [y2 x2]. unfold geolocate_points in H0, H.
  do 2 (apply bind_ok in H as (? & E & H); rewrite E in H0; clear E; cbn [bind] in H0).
  apply bind_ok in H as (pts & E & H). rewrite E in H0. clear E. cbn [bind] in H0.
  apply bind_ok in H as (? & E & H). rewrite E in H0. clear E. cbn [bind] in H0.
  apply bind_ok in H as (qs & E & H). rewrite E in H0. clear E. cbn [bind] in H0.
  apply bind_ok in H as (? & E & H). rewrite E in H0. clear E. cbn [bind] in H0.
  apply bind_ok in H as (w' & W & H). do 2 (apply bind_ok in H as (? & _ & H)). apply pair_ok in H as [_ <-].
  apply bind_ok in H0 as (? & _ & H0). apply bind_ok in H0 as (full' & F & H0). apply pair_ok in H0 as [<- _].
  cbn beta iota in W. apply Ok_eq in W. subst w'. symmetry. refine (mapM_names _ (fun x => fst (fst (fst x))) (fun x => snd (fst x)) _ _ _ F (fleb t)).
  intros [[a d] k] o X. cbn in X. destruct (nth_error _ k); [|discriminate]. assert (O := f_equal (fun q => match q with Ok o' => o' | Err _ => o end) X). cbn in O. subst o. split; reflexivity.
Qed.

(** ** C180: with disable_warning no site is warned about; the one warning left says that 1-D coordinates were tiled. *)
Theorem C180_disabled : forall nearest lab coords xcoord ycoord csv mask th,
  let w := tidegauge_warnings nearest lab coords xcoord ycoord csv mask th true in
  let nominal := exists nx x ny y, get_coord coords xcoord = Ok (nx, x) /\ get_coord coords ycoord = Ok (ny, y) /\ ndim x = 1%nat /\ ndim y = 1%nat in
  (nominal -> w = [NominalCoords]) /\ (~ nominal -> w = []).
Proof.
  intros nearest lab coords xcoord ycoord csv mask th w nominal. subst w nominal. unfold tidegauge_warnings.
  destruct (get_coord coords xcoord) as [[nx x]|]; cbn [bind snd fst]; [|split; [intros (? & ? & ? & ? & X & _); discriminate|reflexivity]].
  destruct (get_coord coords ycoord) as [[ny y]|]; cbn [bind snd fst]; [|split; [intros (? & ? & ? & ? & _ & X & _); discriminate|reflexivity]].
  destruct (Nat.eqb_spec (ndim x) (ndim y)) as [E|E]; cbn [assert_ bind].
  2:{ split; [|reflexivity]. intros (? & x' & ? & y' & X & Y & Dx & Dy). apply pair_ok in X as [_ <-]. apply pair_ok in Y as [_ <-]. lia. }
  assert (Q : forall (r : res (list (orow (list nat)) * list string)), (forall o w, r = Ok (o, w) -> w = []) -> match r with Ok mapped => map Unmapped (snd mapped) | Err _ => [] end = []).
  { intros [[o w]|] Z; [|reflexivity]. cbn [snd]. rewrite (Z o w eq_refl). reflexivity. }
  rewrite Q.
  - cbn [snd]. destruct (Nat.eqb_spec (ndim x) 1) as [D|D]; cbn [app tile_warnings]; split; intros N; try reflexivity; exfalso.
    + apply N. exists nx, x, ny, y. repeat split; congruence.
    + destruct N as (? & x' & ? & y' & X & Y & Dx & Dy). apply pair_ok in X as [_ <-]. contradiction.
  - intros o w H. apply bind_ok in H as ([[n1 a1] [n2 a2]] & _ & H). apply bind_ok in H as (d & _ & H). exact (geolocate_silent _ _ _ _ _ _ _ _ _ _ H).
Qed.
Print Assumptions C180_disabled.

(** With the warnings enabled and a threshold, the sites warned about are those whose distance reaches the threshold, in the order of the file. *)
Theorem C180_enabled : forall nearest lab coords xcoord ycoord csv mask t dims full out,
  tidegauge_rows nearest lab coords xcoord ycoord csv mask None true = Ok (dims, full) ->
  tidegauge_rows nearest lab coords xcoord ycoord csv mask (Some t) false = Ok out ->
  tidegauge_warnings nearest lab coords xcoord ycoord csv mask (Some t) false =
  (tidegauge_warnings nearest lab coords xcoord ycoord csv mask (Some t) true ++ map Unmapped (map o_name (filter (fun o => fleb t (o_distance o)) full)))%list.
Proof.
  intros nearest lab coords xcoord ycoord csv mask t dims full out H0 H. unfold tidegauge_rows in H0, H. unfold tidegauge_warnings.
  apply bind_ok in H as (xc & E & H). rewrite E in *. clear E. cbn [bind] in *. apply bind_ok in H as (yc & E & H). rewrite E in *. clear E. cbn [bind] in *.
  apply bind_ok in H as ([] & E & H). rewrite E in *. clear E. cbn [bind] in *. apply bind_ok in H as ([[nx x] [ny y]] & E & H). rewrite E in *. clear E. cbn [bind] in *.
  apply bind_ok in H as (? & E & H). rewrite E in *. clear E. cbn [bind] in *. apply bind_ok in H as (dl & E & H). rewrite E in *. clear E. cbn [bind] in *.
  apply bind_ok in H as ([o w] & G & _). rewrite G. apply bind_ok in H0 as ([o0 w0] & G0 & H0). apply pair_ok in H0 as [_ <-]. cbn [fst snd].
  rewrite (geolocate_warned _ _ _ _ _ _ _ _ _ _ _ _ G0 G). rewrite <- app_assoc. f_equal.
  destruct (geolocate_points _ _ _ (Some t) _ _ _ _ true) as [[o1 w1]|] eqn:G1; [|reflexivity]. cbn [snd]. rewrite (geolocate_silent _ _ _ _ _ _ _ _ _ _ G1). reflexivity.
Qed.
Print Assumptions C180_enabled.

(** 1-D coordinates give the warning whatever follows; on the 2x2 grid of C53 the hypotheses of C180_enabled hold. *)
Example C180_case : forall nearest, nearest_spec nearest ->
  (forall lab csv mask th x y, adims x = [("lon", 4%nat)] -> adims y = [("lat", 3%nat)] ->
     tidegauge_warnings nearest lab [("lon", x); ("lat", y)] (CName "lon") (CName "lat") csv mask th true = [NominalCoords]) /\
  (exists dims full out, tidegauge_rows nearest plain_labels [] (CArr "geolon" grid_x) (CArr "geolat" grid_y) (Some (one_site 10 0)) None None true = Ok (dims, full) /\
     tidegauge_rows nearest plain_labels [] (CArr "geolon" grid_x) (CArr "geolat" grid_y) (Some (one_site 10 0)) None (Some (Fin 50)) false = Ok out).
Proof.
  intros nearest NS. split.
  - intros lab csv mask th x y Dx Dy. apply C180_disabled. exists "lon", x, "lat", y. unfold ndim. rewrite Dx, Dy. repeat split.
  - assert (G : forall th dw, (dw = false -> th <> None) -> exists r, tidegauge_rows nearest plain_labels [] (CArr "geolon" grid_x) (CArr "geolat" grid_y) (Some (one_site 10 0)) None th dw = Ok r).
    { intros th dw Ht. pose proof (grid_ok None ltac:(discriminate)) as T.
      destruct (C53_total nearest plain_labels field [] _ _ None _ _ grid_x grid_y grid_dims (one_site 10 0) th dw NS T) as [out E].
      - cbn; tauto.
      - cbn; tauto.
      - discriminate.
      - intros s [<- | []]. eexists (_, _); split; reflexivity.
      - exists (fun _ => O). split; [|exact I]. intros d n [X | [X | []]]; injection X as <- <-; lia.
      - intros c _ _. eexists _, _. split; reflexivity.
      - exact Ht.
      - unfold extract_tidegauge in E. apply bind_ok in E as (r & R & _). exists r. exact R. }
    destruct (G None true) as [[dims full] E]; [discriminate|]. destruct (G (Some (Fin 50)) false) as [out E']; [discriminate|]. exists dims, full, out. split; assumption.
Qed.
