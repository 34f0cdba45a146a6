(** * PropertiesGeo2: C102 (longitude conventions, order of the grid points) *)
From Coq Require Import Reals Lra Lia List String Bool Arith ZArith.
From Verif Require Import Num NumFacts Py Arr ArrFacts Util Geo SpecGeo ProofsUtil ProofsGeo ProofsGeo2 PropertiesGeo.
Import ListNotations.
Local Open Scope string_scope.
Local Open Scope R_scope.

(** The same place, with longitudes counted from another meridian (0..360 or -180..180, say). *)
Definition same_place (p q : R * R) : Prop := fst p = fst q /\ exists k, snd q = snd p + 360 * IZR k.
(** Every selectable grid point of [m] has its place among those of [m']. *)
Definition covered {L} (mc : string * string) (am : bool) (m m' : frame L) : Prop :=
  forall row p, selectable m am row -> located mc row p ->
    exists row' p', selectable m' am row' /\ located mc row' p' /\ same_place p p'.

Lemma same_place_sym p q : same_place p q -> same_place q p.
Proof. intros (E & k & H). split; [congruence|]. exists (- k)%Z. rewrite opp_IZR. lra. Qed.
Lemma same_place_angle p p' q q' : same_place p p' -> same_place q q' -> central_angle p' q' = central_angle p q.
Proof.
  intros (E1 & k1 & H1) (E2 & k2 & H2). unfold central_angle. rewrite <- E1, <- E2, H1, H2, !uvec_360k. reflexivity.
Qed.

(** C102: the names and distances which geolocate_points returns do not depend on the order of
    the model's grid points, on the convention for longitudes (of the model or of the
    locations), or on which of several equally near points the ball tree returns. *)
Theorem C102_longitudes : forall (L : Type) nearest nearest' (m m' : frame L) dl dl' th mc r lc am dw out warned out' warned',
  nearest_spec nearest -> nearest_spec nearest' ->
  covered mc am m m' -> covered mc am m' m ->
  Forall2 (fun s s' => fst s = fst s' /\ forall q, located lc s q -> exists q', located lc s' q' /\ same_place q q') (frows dl) (frows dl') ->
  geolocate_points nearest m dl th mc (Fin r) lc am dw = Ok (out, warned) ->
  geolocate_points nearest' m' dl' th mc (Fin r) lc am dw = Ok (out', warned') ->
  map (fun o => (o_name o, o_distance o)) out = map (fun o => (o_name o, o_distance o)) out'.
Proof.
  intros L nearest nearest' m m' dl dl' th mc r lc am dw out warned out' warned' N N' C C' D G G'.
  destruct (C50_nearest L nearest m dl th mc r lc am dw out warned N G) as (full & F & ->).
  destruct (C50_nearest L nearest' m' dl' th mc r lc am dw out' warned' N' G') as (full' & F' & ->). clear G G'.
  assert (E : map (fun o => (o_name o, o_distance o)) full = map (fun o => (o_name o, o_distance o)) full').
  { revert full full' F F'. induction D as [|s s' l l' [Hn Hq] D IH]; intros full full' F F'.
    - inversion F. inversion F'. reflexivity.
    - inversion F as [|a o ? full0 H1 H2]. inversion F' as [|a' o' ? full0' H1' H2']. subst. cbn [map]. f_equal; [|apply IH; assumption].
      destruct H1 as (row & p & q & S1 & Lp & Lq & On & _ & _ & Od & Min).
      destruct H1' as (row' & p' & q' & S1' & Lp' & Lq' & On' & _ & _ & Od' & Min').
      rewrite On, On', Od, Od', Hn. f_equal. f_equal. f_equal.
      destruct (Hq q Lq) as (q2 & Lq2 & Sq).
      assert (q2 = q') as ->.
      { destruct Lq2 as [A B], Lq' as [A' B']. destruct q2, q'. cbn in *. congruence. }
      destruct (C row p S1 Lp) as (row2 & p2 & S2 & L2 & P2).
      destruct (C' row' p' S1' Lp') as (row2' & p2' & S2' & L2' & P2').
      destruct (Min row2' S2') as (p3 & L3 & M3). destruct (Min' row2 S2) as (p3' & L3' & M3').
      assert (p3 = p2') as ->.
      { destruct L3 as [A B], L2' as [A' B']. destruct p3, p2'. cbn in *. congruence. }
      assert (p3' = p2) as ->.
      { destruct L3' as [A B], L2 as [A' B']. destruct p3', p2. cbn in *. congruence. }
      assert (A1 := same_place_angle _ _ _ _ P2 Sq). assert (A2 := same_place_angle _ _ _ _ (same_place_sym _ _ P2') Sq). lra. }
  clear - E. destruct th as [t|]; [|exact E].
  revert full' E. induction full as [|o full IH]; intros [|o' full'] E; try discriminate; [reflexivity|].
  cbn [map] in E. injection E as E1 E2 E3. cbn [filter]. rewrite E2. destruct (fleb (o_distance o') t); cbn [map]; rewrite (IH full' E3), ?E1, ?E2; reflexivity.
Qed.
Print Assumptions C102_longitudes.

(** The grid point at 10 degrees east, also called 370 degrees east, and a land point; the site at 350 degrees west. *)
Definition two_points' : frame nat :=
  mkFrame ["geolon"; "geolat"; "mask"]
    [(8%nat, [("geolon", Fin 370); ("geolat", Fin 0); ("mask", Fin 1)]);
     (7%nat, [("geolon", Fin 9); ("geolat", Fin 0); ("mask", Fin 0)])].
Example C102_case : covered ("geolat", "geolon") true two_points two_points' /\ covered ("geolat", "geolon") true two_points' two_points /\
  Forall2 (fun s s' : string * dict fval => fst s = fst s' /\ forall q, located ("lat", "lon") s q -> exists q', located ("lat", "lon") s' q' /\ same_place q q')
    (frows (one_site 0 10)) (frows (one_site 0 (-350))).
Proof.
  split; [|split].
  - intros row p Hs Hl. apply two_points_selectable in Hs. subst row. destruct Hl as [A B]. cbn in A, B. injection A as A. injection B as B.
    eexists (8%nat, _), (0, 370). split; [split; [left; reflexivity|reflexivity]|]. split; [split; reflexivity|]. split; cbn; [lra|]. exists 1%Z. lra.
  - intros row p [[<-|[<-|[]]] Hm] Hl.
    + destruct Hl as [A B]. cbn in A, B. injection A as A. injection B as B.
      exists (8%nat, [("geolon", Fin 10); ("geolat", Fin 0); ("mask", Fin 1)]), (0, 10).
      split; [split; [right; left; reflexivity|reflexivity]|]. split; [split; reflexivity|]. split; cbn; [lra|]. exists (-1)%Z. lra.
    + exfalso. assert (X := Hm eq_refl ltac:(cbn; tauto)). cbn in X. injection X as X. lra.
  - constructor; [|constructor]. split; [reflexivity|]. intros q [A B]. cbn in A, B. injection A as A. injection B as B.
    exists (0, -350). split; [split; reflexivity|]. split; cbn; [lra|]. exists (-1)%Z. lra.
Qed.
