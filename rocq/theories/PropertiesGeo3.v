(** * PropertiesGeo3: geolocation under larger thresholds, finer grids and moved sites (C146) *)
From Coq Require Import Reals Lra Lia List String Bool Arith ZArith.
From Verif Require Import Num NumFacts Py Arr ArrFacts Util Geo SpecGeo ProofsUtil ProofsGeo ProofsGeo2 PropertiesGeo PropertiesGeo2.
Import ListNotations.
Local Open Scope string_scope.
Local Open Scope R_scope.

Lemma mapM_sub {A B} (f : A -> res B) (P P' : A -> bool) (Q : B -> bool) :
  (forall x y, f x = Ok y -> Q y = P x) ->
  forall l out out', (forall x, In x l -> P x = true -> P' x = true) ->
  mapM f (filter P l) = Ok out -> mapM f (filter P' l) = Ok out' -> out = filter Q out'.
Proof.
  intros HQ. induction l as [|a l IH]; intros out out' HP H H'; cbn [filter mapM] in *.
  - injection H as <-. injection H' as <-. reflexivity.
  - assert (HP' : forall x, In x l -> P x = true -> P' x = true) by (intros x Hx; apply HP; right; exact Hx).
    destruct (P a) eqn:E.
    + cbn [mapM] in H. apply bind_inv in H as (y & Hy & H). apply bind_inv in H as (ys & Hys & H). injection H as <-.
      rewrite (HP a (or_introl eq_refl) E) in H'. cbn [mapM] in H'. apply bind_inv in H' as (y' & Hy' & H').
      apply bind_inv in H' as (ys' & Hys' & H'). injection H' as <-. rewrite Hy in Hy'. injection Hy' as <-.
      cbn [filter]. rewrite (HQ a y Hy), E. f_equal. exact (IH _ _ HP' Hys Hys').
    + destruct (P' a); [|exact (IH _ _ HP' H H')].
      cbn [mapM] in H'. apply bind_inv in H' as (y & Hy & H'). apply bind_inv in H' as (ys' & Hys' & H'). injection H' as <-.
      cbn [filter]. rewrite (HQ a y Hy), E. exact (IH _ _ HP' H Hys').
Qed.

(** The threshold [th'] lets every distance pass which [th] lets pass. *)
Definition at_least_as_wide (th th' : option fval) : Prop :=
  forall d, SpecGeo.within th d -> SpecGeo.within th' d.

(** C146: with a wider threshold the same sites are found, in the same places, and perhaps more. *)
Theorem C146_threshold : forall (L : Type) nearest (m : frame L) dl th th' mc r lc am dw dw' out warned out' warned',
  at_least_as_wide th th' ->
  geolocate_points nearest m dl th mc (Fin r) lc am dw = Ok (out, warned) ->
  geolocate_points nearest m dl th' mc (Fin r) lc am dw' = Ok (out', warned') ->
  out = filter (fun o => match th with None => true | Some t => fleb (o_distance o) t end) out'.
Proof.
  intros L nearest m dl th th' [y1 x1] r [y2 x2] am dw dw' out warned out' warned' W G G'.
  unfold geolocate_points in G, G'. cbv zeta in G, G'.
  apply bind_inv in G as ([] & _ & G). apply bind_inv in G as ([] & _ & G). apply bind_inv in G as (pts & Hp & G).
  apply bind_inv in G as ([] & _ & G). apply bind_inv in G as (qs & Hq & G). apply bind_inv in G as ([] & _ & G).
  apply bind_inv in G as (wd & _ & G). apply bind_inv in G as ([] & _ & G). apply bind_inv in G as (o & Ho & G). injection G as <- <-.
  apply bind_inv in G' as ([] & _ & G'). apply bind_inv in G' as ([] & _ & G'). apply bind_inv in G' as (pts' & Hp' & G').
  apply bind_inv in G' as ([] & _ & G'). apply bind_inv in G' as (qs' & Hq' & G'). apply bind_inv in G' as ([] & _ & G').
  apply bind_inv in G' as (wd' & _ & G'). apply bind_inv in G' as ([] & _ & G'). apply bind_inv in G' as (o' & Ho' & G'). injection G' as <- <-.
  rewrite Hp in Hp'. injection Hp' as <-. rewrite Hq in Hq'. injection Hq' as <-. clear Hp Hq.
  set (found := map _ qs) in *.
  set (P := fun (th : option fval) (x : (string * dict fval) * fval * nat) => match th with None => true | Some t => fleb (snd (fst x)) t end).
  assert (F : forall th, match th with None => found | Some t => filter (fun x => fleb (snd (fst x)) t) found end = filter (P th) found).
  { intros [t|]; unfold P; [reflexivity|]. clear. induction found as [|x l IH]; [reflexivity|]. cbn [filter]. f_equal. exact IH. }
  rewrite F in Ho, Ho'.
  assert (Fin_d : forall x, In x found -> exists d, snd (fst x) = Fin d).
  { intros x Hx. unfold found in Hx. apply in_map_iff in Hx as (rq & <- & _). cbn. eexists. reflexivity. }
  eapply mapM_sub; [| |exact Ho|exact Ho'].
  - intros [[rr d] k] y. cbn. destruct (nth_error _ k) as [r1|]; [|discriminate]. intros H. injection H as <-. reflexivity.
  - intros x Hx. destruct (Fin_d x Hx) as (d & E). specialize (W d). unfold P, SpecGeo.within in *. rewrite E.
    destruct th as [t|], th' as [t'|]; auto.
Qed.
Print Assumptions C146_threshold.

(** The second row names the same site, no farther from its grid point. *)
Definition no_farther {L L'} (o : orow L) (o' : orow L') : Prop :=
  o_name o' = o_name o /\ exists d d', o_distance o = Fin d /\ o_distance o' = Fin d' /\ d' <= d.

Lemma fleb_mono d d' t : d' <= d -> fleb (Fin d) t = true -> fleb (Fin d') t = true.
Proof.
  intros H. destruct t as [|[]|t]; try (cbn; discriminate).
  - reflexivity.
  - rewrite !fleb_Fin. intros E. apply Rleb_true in E. apply Rleb_true. lra.
Qed.

(** On a grid with more points (and the ones there were) no site is lost, and none is found farther away. *)
Theorem C146_finer_grid : forall (L L' : Type) nearest nearest' (m : frame L) (m' : frame L') dl th mc mc' r lc am am' dw dw' out warned out' warned',
  nearest_spec nearest -> nearest_spec nearest' -> 0 <= r ->
  (forall row p, selectable m am row -> located mc row p ->
     exists row' p', selectable m' am' row' /\ located mc' row' p' /\ same_place p p') ->
  geolocate_points nearest m dl th mc (Fin r) lc am dw = Ok (out, warned) ->
  geolocate_points nearest' m' dl th mc' (Fin r) lc am' dw' = Ok (out', warned') ->
  (th = None -> Forall2 no_farther out out') /\
  (forall o, In o out -> exists o', In o' out' /\ no_farther o o').
Proof.
  intros L L' nearest nearest' m m' dl th mc mc' r lc am am' dw dw' out warned out' warned' N N' R C G G'.
  destruct (C50_nearest L nearest m dl th mc r lc am dw out warned N G) as (full & F & Eo).
  destruct (C50_nearest L' nearest' m' dl th mc' r lc am' dw' out' warned' N' G') as (full' & F' & Eo'). clear G G'.
  assert (Fo : Forall2 no_farther full full').
  { clear Eo Eo'. revert full full' F F'. induction (frows dl) as [|s l IH]; intros full full' F F'.
    - inversion F. inversion F'. constructor.
    - inversion F as [|a o ? full0 H1 H2]. inversion F' as [|a' o' ? full0' H1' H2']. subst. constructor; [|apply IH; assumption].
      destruct H1 as (row & p & q & S1 & Lp & Lq & On & _ & _ & Od & _).
      destruct H1' as (row' & p' & q' & S1' & Lp' & Lq' & On' & _ & _ & Od' & Min').
      assert (q' = q) as ->. { destruct Lq as [A B], Lq' as [A' B']. destruct q, q'. cbn in *. congruence. }
      destruct (C row p S1 Lp) as (row2 & p2 & S2 & L2 & P2). destruct (Min' row2 S2) as (p3 & L3 & M3).
      assert (p3 = p2) as ->. { destruct L3 as [A B], L2 as [A' B']. destruct p3, p2. cbn in *. congruence. }
      split; [congruence|]. exists (r * central_angle p q), (r * central_angle p' q). split; [exact Od|]. split; [exact Od'|].
      apply Rmult_le_compat_l; [exact R|].
      assert (Q : same_place q q) by (split; [reflexivity|exists 0%Z; lra]).
      rewrite <- (same_place_angle _ _ _ _ P2 Q). exact M3. }
  split.
  - intros ->. subst out out'. exact Fo.
  - intros o Ho.
    assert (K : In o full /\ match th with None => True | Some t => fleb (o_distance o) t = true end).
    { subst out. destruct th; [apply filter_In in Ho; exact Ho|split; [exact Ho|exact I]]. }
    destruct K as [Hf Hk].
    assert (X : exists o', In o' full' /\ no_farther o o').
    { clear - Fo Hf. induction Fo as [|a b l l' H Fo IH]; [destruct Hf|]. destruct Hf as [->|Hf].
      - exists b. split; [left; reflexivity|exact H].
      - destruct (IH Hf) as (o' & I1 & I2). exists o'. split; [right; exact I1|exact I2]. }
    destruct X as (o' & I1 & I2). exists o'. split; [|exact I2]. subst out'. destruct th as [t|]; [|exact I1].
    apply filter_In. split; [exact I1|]. destruct I2 as (_ & d & d' & E & E' & Le). rewrite E'. rewrite E in Hk. exact (fleb_mono d d' t Le Hk).
Qed.
Print Assumptions C146_finer_grid.

Lemma Forall2_len {A B} (P : A -> B -> Prop) l l' : Forall2 P l l' -> List.length l = List.length l'.
Proof. induction 1; cbn; congruence. Qed.

(** Moving the sites changes their distances to the grid by no more than they were moved. *)
Theorem C146_moved_sites : forall (L : Type) nearest (m : frame L) dl dl' mc r lc am out warned out' warned',
  nearest_spec nearest -> 0 <= r ->
  List.length (frows dl) = List.length (frows dl') ->
  geolocate_points nearest m dl None mc (Fin r) lc am true = Ok (out, warned) ->
  geolocate_points nearest m dl' None mc (Fin r) lc am true = Ok (out', warned') ->
  List.length out = List.length (frows dl) /\ List.length out' = List.length (frows dl) /\
  forall i s s' q q' o o',
    nth_error (frows dl) i = Some s -> nth_error (frows dl') i = Some s' -> located lc s q -> located lc s' q' ->
    nth_error out i = Some o -> nth_error out' i = Some o' ->
    exists d d', o_distance o = Fin d /\ o_distance o' = Fin d' /\ Rabs (d' - d) <= r * central_angle q q'.
Proof.
  intros L nearest m dl dl' mc r lc am out warned out' warned' N R Len G G'.
  destruct (C50_nearest L nearest m dl None mc r lc am true out warned N G) as (full & F & ->).
  destruct (C50_nearest L nearest m dl' None mc r lc am true out' warned' N G') as (full' & F' & ->). clear G G'.
  assert (L1 := Forall2_len _ _ _ F). assert (L2 := Forall2_len _ _ _ F'). split; [congruence|]. split; [congruence|].
  intros i s s' q q' o o' Hs Hs' Lq Lq' Ho Ho'. clear Len L1 L2.
  assert (X : forall (l : list (string * dict fval)) f P, Forall2 P l f -> forall i s (o : orow L), nth_error l i = Some s -> nth_error f i = Some o -> P s o).
  { clear. intros l f P F. induction F as [|a b l f H F IH]; intros [|i] s o H1 H2; cbn in *; try discriminate.
    - injection H1 as <-. injection H2 as <-. exact H.
    - exact (IH i s o H1 H2). }
  destruct (X _ _ _ F i s o Hs Ho) as (row & p & q0 & S1 & Lp & Lq0 & _ & _ & _ & Od & Min).
  destruct (X _ _ _ F' i s' o' Hs' Ho') as (row' & p' & q0' & S1' & Lp' & Lq0' & _ & _ & _ & Od' & Min').
  assert (q0 = q) as ->. { destruct Lq as [A B], Lq0 as [A' B']. destruct q, q0. cbn in *. congruence. }
  assert (q0' = q') as ->. { destruct Lq' as [A B], Lq0' as [A' B']. destruct q', q0'. cbn in *. congruence. }
  destruct (Min row' S1') as (p2 & L2 & M2). assert (p2 = p') as ->. { destruct Lp' as [A B], L2 as [A' B']. destruct p', p2. cbn in *. congruence. }
  destruct (Min' row S1) as (p3 & L3 & M3). assert (p3 = p) as ->. { destruct Lp as [A B], L3 as [A' B']. destruct p, p3. cbn in *. congruence. }
  exists (r * central_angle p q), (r * central_angle p' q'). split; [exact Od|]. split; [exact Od'|].
  assert (T1 := central_angle_triangle p q q'). assert (T2 := central_angle_triangle p' q' q).
  rewrite (central_angle_sym q' q) in T2. apply Rabs_le. split; nra.
Qed.
Print Assumptions C146_moved_sites.

(** Non-trivial instances: thresholds of 50 km and 200 km; a grid refined by a point at 11 degrees east;
    a site moved from 10 to 11 degrees east. *)
Definition three_points : frame nat :=
  mkFrame ["geolon"; "geolat"; "mask"]
    [(7%nat, [("geolon", Fin 0); ("geolat", Fin 0); ("mask", Fin 0)]);
     (8%nat, [("geolon", Fin 10); ("geolat", Fin 0); ("mask", Fin 1)]);
     (9%nat, [("geolon", Fin 11); ("geolat", Fin 0); ("mask", Fin 1)])].
Lemma run_at nearest th lo : nearest_spec nearest ->
  exists out warned, geolocate_points nearest two_points (one_site 0 lo) th ("geolat", "geolon") (Fin 6378) ("lat", "lon") true true = Ok (out, warned).
Proof.
  intros NS. apply geolocate_ok; try exact NS; try discriminate; try (cbn; tauto).
  - exists (8%nat, [("geolon", Fin 10); ("geolat", Fin 0); ("mask", Fin 1)]). split; [cbn; tauto|]. reflexivity.
  - intros row I. apply two_points_selectable in I. subst row. exists (0, 10). split; reflexivity.
  - intros s [<- | []]. exists (0, lo). split; reflexivity.
Qed.
Lemma run_three nearest th lo : nearest_spec nearest ->
  exists out warned, geolocate_points nearest three_points (one_site 0 lo) th ("geolat", "geolon") (Fin 6378) ("lat", "lon") true true = Ok (out, warned).
Proof.
  intros NS. apply geolocate_ok; try exact NS; try discriminate; try (cbn; tauto).
  - exists (8%nat, [("geolon", Fin 10); ("geolat", Fin 0); ("mask", Fin 1)]). split; [cbn; tauto|]. reflexivity.
  - intros row [[<-|[<-|[<-|[]]]] _]; eexists (_, _); split; reflexivity.
  - intros s [<- | []]. exists (0, lo). split; reflexivity.
Qed.
Example C146_case : forall nearest, nearest_spec nearest ->
  at_least_as_wide (Some (Fin 50)) (Some (Fin 200)) /\ at_least_as_wide (Some (Fin 50)) None
  /\ (forall th lo, exists out w, geolocate_points nearest two_points (one_site 0 lo) th ("geolat", "geolon") (Fin 6378) ("lat", "lon") true true = Ok (out, w))
  /\ (forall th lo, exists out w, geolocate_points nearest three_points (one_site 0 lo) th ("geolat", "geolon") (Fin 6378) ("lat", "lon") true true = Ok (out, w))
  /\ (forall row p, selectable two_points true row -> located ("geolat", "geolon") row p ->
        exists row' p', selectable three_points true row' /\ located ("geolat", "geolon") row' p' /\ same_place p p')
  /\ central_angle (0, 10) (0, 11) > 0.
Proof.
  intros nearest NS. split; [|split; [|split; [|split; [|split]]]].
  - intros d. cbn -[fleb]. rewrite !fleb_Fin. intros H. apply Rleb_true in H. apply Rleb_true. lra.
  - intros d _. exact I.
  - intros th lo. apply run_at, NS.
  - intros th lo. apply run_three, NS.
  - intros row p Hs Hl. apply two_points_selectable in Hs. subst row. destruct Hl as [A B]. cbn in A, B. injection A as A. injection B as B.
    eexists (8%nat, _), (0, 10). split; [split; [right; left; reflexivity|reflexivity]|]. split; [split; reflexivity|].
    split; cbn; [lra|]. exists 0%Z. lra.
  - destruct (central_angle_bound (0, 10) (0, 11)) as [[H|H] _]; [lra|]. exfalso. symmetry in H. apply central_angle_zero in H.
    unfold uvec in H. cbn [fst snd] in H. injection H as _ H2. assert (Z : rad_of 0 = 0) by (unfold rad_of; lra). rewrite Z, cos_0, !Rmult_1_l in H2.
    assert (P := PI_RGT_0). assert (sin (rad_of 10) < sin (rad_of 11)); [|lra].
    apply sin_increasing_1; unfold rad_of; lra.
Qed.
