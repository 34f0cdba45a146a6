(** * PropertiesGauges: C171 (repeated names and the bundled lists of tide gauges) *)
From Coq Require Import Reals Lra Lia List String Ascii Bool Arith ZArith.
From Verif Require Import Num NumFacts Py Arr ArrFacts Util Geo Gauges SpecGeo ProofsUtil ProofsGeo ProofsGeo2 ProofsTide ProofsTide2 PropertiesGeo.
Import ListNotations.
Local Open Scope string_scope.
Local Open Scope R_scope.

Lemma collect_other {A} (l : list (string * A)) : forall d k, ~ In k (map fst l) -> dget k (collect l d) = dget k d.
Proof.
  induction l as [|[q w] l IH]; intros d k H; [reflexivity|]. cbn [collect fold_left fst snd]. fold (collect l (dset q w d)). cbn in H.
  rewrite IH by tauto. apply dget_dset_other. tauto.
Qed.
Lemma collect_last {A} (l l' : list (string * A)) d k v : ~ In k (map fst l') -> dget k (collect (l ++ (k, v) :: l')%list d) = Some v.
Proof.
  intros H. unfold collect. rewrite fold_left_app. cbn [fold_left fst snd]. fold (collect l d). fold (collect l' (dset k v (collect l d))).
  rewrite collect_other by exact H. apply dget_dset_same.
Qed.
Lemma F2_split {A B} (R : A -> B -> Prop) l1 : forall x l2 l', Forall2 R (l1 ++ x :: l2)%list l' ->
  exists l1' y l2', l' = (l1' ++ y :: l2')%list /\ Forall2 R l1 l1' /\ R x y /\ Forall2 R l2 l2'.
Proof.
  induction l1 as [|z l1 IH]; intros x l2 l' H; cbn in H; inversion H as [|? y' ? l'' E F]; subst.
  - exists [], y', l''. repeat split; auto.
  - destruct (IH x l2 l'' F) as (l1' & y & l2' & -> & F1 & E' & F2). exists (y' :: l1'), y, l2'. repeat split; auto.
Qed.

Lemma keep_all {A} (b : A -> bool) l : (forall x, In x l -> b x = true) -> filter b l = l.
Proof. induction l as [|z l IH]; intros H; [reflexivity|]. cbn [filter]. rewrite (H z (or_introl eq_refl)). f_equal. apply IH. intros x I. apply H. right. exact I. Qed.
Lemma unlisted k l : smem k l = false -> ~ In k l.
Proof. intros H I. apply smem_In in I. congruence. Qed.

(** A wet grid cell is within the threshold of the site. *)
Definition reached (ds : list (string * nat)) (x y : arr) (mask : option arr) (th : option fval) (s : string * dict fval) : Prop :=
  exists q c p, located ("lat", "lon") s q /\ inrange ds c /\ wet mask c /\ at_ y c = Fin (fst p) /\ at_ x c = Fin (snd p) /\
    within th (6378 * central_angle p q).

Lemma within_le th d d' : d <= d' -> within th d' -> within th d.
Proof.
  intros H. unfold within. destruct th as [t|]; [|auto]. destruct t as [|s|t]; auto. rewrite !fleb_Fin, !Rleb_true. lra.
Qed.
Lemma located_same {L} cs (s : L * dict fval) q q' : located cs s q -> located cs s q' -> q = q'.
Proof. intros [A B] [A' B']. rewrite A in A'. rewrite B in B'. injection A' as A'. injection B' as B'. destruct q, q'. cbn in *. subst. reflexivity. Qed.

(** ** C171: a variable is the series of the last site of its name that a wet cell reaches. *)
Theorem C171_last : forall nearest lab a coords xcoord ycoord mask xn yn x y ds locs th dw out,
  nearest_spec nearest -> tide_grid lab a coords xcoord ycoord mask xn yn x y ds ->
  extract_tidegauge nearest lab a coords xcoord ycoord (Some locs) mask th dw = Ok out ->
  NoDup (dkeys out) /\
  (forall k, In k (dkeys out) <-> exists s, In s (frows locs) /\ fst s = k /\ reached ds x y mask th s) /\
  forall pre s suf, frows locs = (pre ++ s :: suf)%list -> reached ds x y mask th s ->
    (forall s', In s' suf -> fst s' = fst s -> ~ reached ds x y mask th s') ->
    exists q c p v, located ("lat", "lon") s q /\ nearest_wet ds x y mask q c p /\
      dget (fst s) out = Some v /\ adims v = remaining ds (adims a) /\ forall e, at_ v e = at_ a (overlay ds c e).
Proof.
  intros nearest lab a coords xcoord ycoord mask xn yn x y ds locs th dw out NS [T1 T2 T3 T4 T5 T6 T7 T8 T9 T10 T11 T12 T13] H.
  rewrite (extract_unfold nearest lab a coords xcoord ycoord xn yn x y ds mask locs th dw T1 T2 T3 T4 T8) in H.
  apply bind_inv in H. destruct H as ([rows warned] & G & H). cbn [fst] in H.
  apply bind_inv in H. destruct H as (pts & Hp & H). apply Ok_inj in H. subst out.
  destruct (geolocate_inv nearest _ locs th (yn, xn) 6378 ("lat", "lon") true dw rows warned NS G) as (full & Hf & Hr & _).
  apply mapM_F2 in Hp.
  pose proof (site_cell lab a xn yn x y ds mask T3 T4 T5 T6 T7 T8 T9 T10 T11 T12 T13) as SC.
  set (P := fun o : orow (list nat) => match th with None => true | Some t => fleb (o_distance o) t end).
  assert (Hr' : rows = filter P full).
  { rewrite Hr. unfold P. clear. destruct th; [reflexivity|]. symmetry. induction full as [|z l IH]; [reflexivity|]. cbn [filter]. f_equal. exact IH. }
  assert (Pt : forall o pt, (let* v := extract_point lab a (map fst ds) o in Ok (o_name o, v)) = Ok pt -> fst pt = o_name o).
  { intros o pt E. apply bind_inv in E. destruct E as (v & _ & E). apply Ok_inj in E. subst pt. reflexivity. }
  assert (Names : map fst pts = map o_name rows) by (eapply F2_names; [exact Hp|exact Pt]).
  set (SO := site_ok (model_frame lab x y (emask x mask) xn yn) true (yn, xn) ("lat", "lon") 6378) in *.
  assert (Re : forall s o, SO s o -> (P o = true <-> reached ds x y mask th s)).
  { intros s o S0. destruct (SC s o S0) as (q & c & p & v & Lq & (Rc & Wc & Yc & Xc & Mn) & On & Od & _). unfold P. rewrite Od. split.
    - intros W. exists q, c, p. repeat (split; [assumption|]). unfold within. destruct th; [exact W|exact I].
    - intros (q' & c' & p' & Lq' & R' & W' & Y' & X' & Wi). assert (q' = q) by (exact (located_same _ _ _ _ Lq' Lq)). subst q'.
      apply (within_le th (6378 * central_angle p q)) in Wi; [|apply Rmult_le_compat_l; [lra|exact (Mn c' p' R' W' Y' X')]].
      unfold within in Wi. destruct th; [exact Wi|reflexivity]. }
  assert (On : forall s o, SO s o -> o_name o = fst s) by (intros s o (? & ? & ? & _ & _ & _ & E & _); exact E).
  split; [apply collect_NoDup_keys; constructor|]. split.
  - intros k. rewrite collect_keys, Names. split.
    + intros [J|[]]. apply in_map_iff in J as (o & <- & I). rewrite Hr' in I. apply filter_In in I as [I Po].
      assert (K : exists s, In s (frows locs) /\ SO s o).
      { clear -Hf I. induction Hf as [|s o' l l' E Hf IH]; [destruct I|]. destruct I as [-> | I]; [exists s; split; [left; reflexivity|exact E]|]. destruct (IH I) as (s' & I' & E'). exists s'. split; [right; exact I'|exact E']. }
      destruct K as (s & Is & S0). exists s. split; [exact Is|]. split; [symmetry; exact (On s o S0)|]. apply (Re s o S0). exact Po.
    + intros (s & Is & <- & Rs). left. destruct (F2_In_l _ _ _ s Hf Is) as (o & Io & S0). rewrite <- (On s o S0). apply in_map. rewrite Hr'. apply filter_In. split; [exact Io|]. apply (Re s o S0). exact Rs.
  - intros pre s suf E Rs Last. rewrite E in Hf. destruct (F2_split _ _ _ _ _ Hf) as (f1 & o & f2 & -> & _ & S0 & F2).
    destruct (SC s o S0) as (q & c & p & v & Lq & NW & _ & _ & Ev & Dv & Vv).
    assert (Po : P o = true) by (apply (Re s o S0); exact Rs).
    rewrite Hr', filter_app in Hp. cbn [filter] in Hp. rewrite Po in Hp. destruct (F2_split _ _ _ _ _ Hp) as (p1 & pt & p2 & -> & _ & Ept & Hp2).
    rewrite Ev in Ept. cbn [bind] in Ept. apply Ok_inj in Ept. subst pt. rewrite (On s o S0).
    exists q, c, p, v. split; [exact Lq|]. split; [exact NW|]. split; [|split; [rewrite Dv; apply drop_all_remaining|exact Vv]].
    apply collect_last. intros J. assert (N2 : map fst p2 = map o_name (filter P f2)) by (eapply F2_names; [exact Hp2|exact Pt]).
    rewrite N2 in J. apply in_map_iff in J as (o' & En & I'). apply filter_In in I' as [I' Po'].
    assert (K : exists s', In s' suf /\ SO s' o').
    { clear -F2 I'. induction F2 as [|s1 o1 l l' E F2 IH]; [destruct I'|]. destruct I' as [-> | I']; [exists s1; split; [left; reflexivity|exact E]|]. destruct (IH I') as (s2 & I2 & E2). exists s2. split; [right; exact I2|exact E2]. }
    destruct K as (s' & Is' & S'). apply (Last s' Is'); [rewrite <- (On s' o' S'); exact En|]. apply (Re s' o' S'). exact Po'.
Qed.
Print Assumptions C171_last.

(** ** The bundled lists *)
(** Every wet cell has a position, and there is one. *)
Definition placed (ds : list (string * nat)) (x y : arr) (mask : option arr) : Prop :=
  (exists c, inrange ds c /\ wet mask c) /\ forall c, inrange ds c -> wet mask c -> exists la lo, at_ y c = Fin la /\ at_ x c = Fin lo.

Lemma gauge_located g : located ("lat", "lon") (gauge_row g) (IZR (fst (snd g)) / 1000000, IZR (snd (snd g)) / 1000000).
Proof. split; reflexivity. Qed.
Lemma gauge_reached ds x y mask g : placed ds x y mask -> reached ds x y mask None (gauge_row g).
Proof.
  intros [(c & Rc & W) P]. destruct (P c Rc W) as (la & lo & Y & X). exists (IZR (fst (snd g)) / 1000000, IZR (snd (snd g)) / 1000000), c, (la, lo).
  split; [apply gauge_located|]. repeat (split; [assumption|]). exact I.
Qed.
Lemma gauge_names l : map fst (frows (gauge_frame l)) = map fst l.
Proof. cbn [gauge_frame frows]. rewrite map_map. reflexivity. Qed.
Lemma listed_total nearest lab a coords xcoord ycoord mask xn yn x y ds l th :
  nearest_spec nearest -> tide_grid lab a coords xcoord ycoord mask xn yn x y ds -> placed ds x y mask -> l <> [] ->
  exists out, extract_tidegauge nearest lab a coords xcoord ycoord (Some (gauge_frame l)) mask th true = Ok out.
Proof.
  intros NS T [P1 P2] Hl. apply (C53_total nearest lab a coords xcoord ycoord mask xn yn x y ds (gauge_frame l) th true NS T); try assumption; try discriminate; try (cbn; tauto).
  - destruct l; [contradiction|discriminate].
  - intros s I. cbn [gauge_frame frows] in I. apply in_map_iff in I as (g & <- & _). eexists. apply gauge_located.
Qed.

(** With the global list, every gauge gives one variable, in the order of the list: the series of the wet cell nearest to it. *)
Theorem C171_global_partial : forall nearest lab a coords xcoord ycoord mask xn yn x y ds files,
  nearest_spec nearest -> tide_grid lab a coords xcoord ycoord mask xn yn x y ds -> placed ds x y mask ->
  exists out, extract_listed nearest lab a coords xcoord ycoord files (Some "global") mask None true = Ok out /\
    dkeys out = ["WELLINGTON_HARBOUR"; "ATLANTIC_CITY"; "BALBOA"; "KUSHIMOTO"; "SAN_DIEGO"; "BREST"; "CHARLESTON"; "ALEXANDRIA"; "LAUTOKA";
      "NEW_YORK"; "LUSI"; "BUENOS_AIRES"; "PAGO_BAY_GUAM"; "SYDNEY_FORT_DENISON"; "VENEZIA_ARSENALE"; "CUXHAVEN"; "ZANZIBAR"; "PAPEETE"] /\
    forall n la lo, In (n, (la, lo)) global_gauges -> exists c p v,
      nearest_wet ds x y mask (IZR la / 1000000, IZR lo / 1000000) c p /\
      dget n out = Some v /\ adims v = remaining ds (adims a) /\ forall e, at_ v e = at_ a (overlay ds c e).
Proof.
  intros nearest lab a coords xcoord ycoord mask xn yn x y ds files NS T P.
  destruct (listed_total nearest lab a coords xcoord ycoord mask xn yn x y ds global_gauges None NS T P ltac:(discriminate)) as [out E].
  exists out. split; [exact E|].
  assert (N : NoDup (map fst (frows (gauge_frame global_gauges)))).
  { rewrite gauge_names. replace (map fst global_gauges) with (nodup string_dec (map fst global_gauges)) by (vm_compute; reflexivity). apply NoDup_nodup. }
  split.
  - destruct (C77_partial nearest lab a coords xcoord ycoord mask xn yn x y ds _ None true out NS T N E) as (b & K & B). rewrite K.
    rewrite (keep_all b); [rewrite gauge_names; reflexivity|]. intros s I. destruct (B s I) as (q & c & p & _ & _ & W). apply W. exact Logic.I.
  - intros n la lo I. destruct (C53_nearest_series nearest lab a coords xcoord ycoord mask xn yn x y ds _ None true out NS T N E) as [A _].
    destruct (A (gauge_row (n, (la, lo)))) as (q & c & p & Lq & NW & W & _); [cbn [gauge_frame frows]; apply in_map; exact I|].
    destruct (W Logic.I) as (v & V). assert (q = (IZR la / 1000000, IZR lo / 1000000)) by exact (located_same _ _ _ _ Lq (gauge_located (n, (la, lo)))). subst q.
    exists c, p, v. split; [exact NW|exact V].
Qed.
Print Assumptions C171_global_partial.

(** With the list of US gauges, the default, 117 gauges give 116 variables: of the two gauges called MAYPORT the one at 30.40 N (PSMSL 2326)
    is lost, whatever the grid. *)
Theorem C171_us_refuted : forall nearest lab a coords xcoord ycoord mask xn yn x y ds files,
  nearest_spec nearest -> tide_grid lab a coords xcoord ycoord mask xn yn x y ds -> placed ds x y mask ->
  exists out, extract_listed nearest lab a coords xcoord ycoord files None mask None true = Ok out /\
    List.length us_gauges = 117%nat /\ List.length (dkeys out) = 116%nat /\
    In ("MAYPORT", (30400000, -81430000)%Z) us_gauges /\
    exists c p v, nearest_wet ds x y mask (30390000 / 1000000, -81430000 / 1000000) c p /\
      dget "MAYPORT" out = Some v /\ forall e, at_ v e = at_ a (overlay ds c e).
Proof.
  intros nearest lab a coords xcoord ycoord mask xn yn x y ds files NS T P.
  destruct (listed_total nearest lab a coords xcoord ycoord mask xn yn x y ds us_gauges None NS T P ltac:(discriminate)) as [out E].
  exists out. split; [exact E|]. destruct (C171_last nearest lab a coords xcoord ycoord mask xn yn x y ds _ None true out NS T E) as (N & K & L).
  split; [reflexivity|]. split; [|split].
  - replace 116%nat with (List.length (nodup string_dec (map fst us_gauges))) by (vm_compute; reflexivity).
    assert (Q : forall k, In k (dkeys out) <-> In k (nodup string_dec (map fst us_gauges))).
    { intros k. rewrite K, nodup_In, <- gauge_names, in_map_iff. split; [intros (s & I & F & _); exists s; auto|].
      intros (s & F & I). exists s. split; [exact I|]. split; [exact F|]. cbn [gauge_frame frows] in I. apply in_map_iff in I as (g & <- & _). apply gauge_reached, P. }
    apply Nat.le_antisymm; apply NoDup_incl_length; try assumption; try apply NoDup_nodup; intros k; apply Q.
  - repeat first [left; reflexivity|right].
  - set (g := ("MAYPORT", (30390000, -81430000)%Z)).
    assert (S0 : exists pre suf, us_gauges = (pre ++ g :: suf)%list /\ ~ In "MAYPORT" (map fst suf)).
    { exists (firstn 56 us_gauges), (skipn 57 us_gauges). split; [reflexivity|]. intros I. revert I. apply unlisted. vm_compute. reflexivity. }
    destruct S0 as (pre & suf & Es & Ns).
    destruct (L (map gauge_row pre) (gauge_row g) (map gauge_row suf)) as (q & c & p & v & Lq & NW & D & _ & V).
    + cbn [gauge_frame frows]. rewrite Es, map_app. reflexivity.
    + apply gauge_reached, P.
    + intros s' I F. exfalso. apply Ns. apply in_map_iff in I as (g' & <- & I). cbn [fst gauge_row g] in F. rewrite <- F. change (In (fst g') (map fst suf)). apply in_map. exact I.
    + assert (q = (IZR 30390000 / 1000000, IZR (-81430000) / 1000000)) by exact (located_same _ _ _ _ Lq (gauge_located g)). subst q.
      exists c, p, v. auto.
Qed.
Print Assumptions C171_us_refuted.

(** Every other gauge of the list has its own variable. *)
Theorem C171_us_partial : forall nearest lab a coords xcoord ycoord mask xn yn x y ds files out n la lo,
  nearest_spec nearest -> tide_grid lab a coords xcoord ycoord mask xn yn x y ds -> placed ds x y mask ->
  extract_listed nearest lab a coords xcoord ycoord files None mask None true = Ok out ->
  In (n, (la, lo)) us_gauges -> n <> "MAYPORT" ->
  exists c p v, nearest_wet ds x y mask (IZR la / 1000000, IZR lo / 1000000) c p /\
    dget n out = Some v /\ adims v = remaining ds (adims a) /\ forall e, at_ v e = at_ a (overlay ds c e).
Proof.
  intros nearest lab a coords xcoord ycoord mask xn yn x y ds files out n la lo NS T P E I NM.
  destruct (C171_last nearest lab a coords xcoord ycoord mask xn yn x y ds _ None true out NS T E) as (_ & _ & L).
  set (f := fun g : string * (Z * Z) => negb (String.eqb (fst g) "MAYPORT")).
  assert (N : NoDup (map fst (filter f us_gauges))).
  { replace (map fst (filter f us_gauges)) with (nodup string_dec (map fst (filter f us_gauges))) by (vm_compute; reflexivity). apply NoDup_nodup. }
  apply in_split in I as (pre & suf & Es).
  assert (Fg : f (n, (la, lo)) = true) by (unfold f; cbn [fst]; apply (proj2 (String.eqb_neq n "MAYPORT")) in NM; rewrite NM; reflexivity).
  rewrite Es, filter_app in N. cbn [filter] in N. rewrite Fg, map_app in N. cbn [map fst] in N. apply NoDup_remove_2 in N.
  destruct (L (map gauge_row pre) (gauge_row (n, (la, lo))) (map gauge_row suf)) as (q & c & p & v & Lq & NW & V).
  - change (frows (gauge_frame us_gauges) = map gauge_row pre ++ gauge_row (n, (la, lo)) :: map gauge_row suf)%list. cbn [gauge_frame frows]. rewrite Es, map_app. reflexivity.
  - apply gauge_reached, P.
  - intros s' J F _. apply N. apply in_or_app. right. apply in_map_iff in J as (g' & <- & J). change (fst g' = n) in F. apply in_map_iff. exists g'. split; [exact F|]. apply filter_In. split; [exact J|].
    unfold f. rewrite F. apply (proj2 (String.eqb_neq n "MAYPORT")) in NM. rewrite NM. reflexivity.
  - assert (q = (IZR la / 1000000, IZR lo / 1000000)) by exact (located_same _ _ _ _ Lq (gauge_located (n, (la, lo)))). subst q.
    exists c, p, v. split; [exact NW|exact V].
Qed.
Print Assumptions C171_us_partial.

(** Any other name is the path of a file: its sites are used, and without the file there is no result.  A file called "us" or "global" is not read. *)
Theorem C171_file : forall nearest lab a coords xcoord ycoord mask xn yn x y ds files csv th dw out,
  nearest_spec nearest -> tide_grid lab a coords xcoord ycoord mask xn yn x y ds -> csv <> "us" -> csv <> "global" ->
  extract_listed nearest lab a coords xcoord ycoord files (Some csv) mask th dw = Ok out ->
  exists locs, files csv = Some locs /\
    forall k, In k (dkeys out) <-> exists s, In s (frows locs) /\ fst s = k /\ reached ds x y mask th s.
Proof.
  intros nearest lab a coords xcoord ycoord mask xn yn x y ds files csv th dw out NS T N1 N2 E.
  unfold extract_listed, select_csv in E. apply String.eqb_neq in N1, N2. rewrite N1, N2 in E. destruct (files csv) as [locs|].
  - exists locs. split; [reflexivity|]. exact (proj1 (proj2 (C171_last nearest lab a coords xcoord ycoord mask xn yn x y ds locs th dw out NS T E))).
  - exfalso. destruct T as [T1 T2 T3 T4 T5 T6 T7 T8 T9 T10 T11 T12 T13]. unfold extract_tidegauge, tidegauge_rows in E.
    rewrite (denotes_get _ _ _ _ T1), (denotes_get _ _ _ _ T2) in E. cbn [bind fst snd] in E. unfold ndim in E. rewrite T3, T4, Nat.eqb_refl in E. cbn [assert_ bind] in E.
    rewrite (proj2 (Nat.eqb_neq _ _) T8) in E. cbn [bind fst snd] in E. destruct (list_eq_dec string_dec (names x) (names x)) as [_|C]; [|contradiction]. discriminate E.
Qed.
Print Assumptions C171_file.

(** A grid and two records of one name: the last one within reach is kept. *)
Example C171_case : forall nearest, nearest_spec nearest ->
  placed grid_dims grid_x grid_y None /\ tide_grid plain_labels field [] (CArr "geolon" grid_x) (CArr "geolat" grid_y) None "geolon" "geolat" grid_x grid_y grid_dims /\
  exists out, extract_tidegauge nearest plain_labels field [] (CArr "geolon" grid_x) (CArr "geolat" grid_y) (Some two_records) None None true = Ok out /\
    extract_listed nearest plain_labels field [] (CArr "geolon" grid_x) (CArr "geolat" grid_y) (fun _ => Some two_records) (Some "sites.csv") None None true = Ok out /\
    (forall s, In s (frows two_records) -> reached grid_dims grid_x grid_y None None s).
Proof.
  intros nearest NS. pose proof (grid_ok None ltac:(discriminate)) as T.
  assert (P : placed grid_dims grid_x grid_y None).
  { split.
    - exists (fun _ => O). split; [|exact I]. intros d n [X | [X | []]]; injection X as <- <-; lia.
    - intros c _ _. exists (10 * INR (c "yh"%string)), (10 * INR (c "xh"%string)). split; reflexivity. }
  split; [exact P|]. split; [exact T|]. destruct P as [(c & Rc & W) P].
  destruct (C53_total nearest plain_labels field [] _ _ None _ _ grid_x grid_y grid_dims two_records None true NS T) as [out E]; try (cbn; tauto); try discriminate; try assumption.
  - intros s [<- | [<- | []]]; eexists (_, _); split; reflexivity.
  - exists c. auto.
  - exists out. split; [exact E|]. split; [exact E|]. intros s Is. destruct (P c Rc W) as (la & lo & Y & X).
    destruct Is as [<- | [<- | []]]; eexists (_, _), c, (la, lo); (split; [split; reflexivity|]); repeat (split; [assumption|]); exact I.
Qed.
