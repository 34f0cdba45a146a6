(** * PropertiesTide2: C134 (coordinates attached to the coordinate arrays) *)
From Coq Require Import Reals Lra Lia List String Bool Arith ZArith FunctionalExtensionality.
From Verif Require Import Num NumFacts Py Arr ArrFacts Util Geo SpecGeo ProofsUtil ProofsGeo ProofsGeo2 ProofsTide ProofsTide2 TideAux PropertiesGeo.
Import ListNotations.
Local Open Scope string_scope.
Local Open Scope R_scope.

(** ** geolocate_points reads three columns of the model frame and its index *)
Lemma filter_map_comm {A B} (f : A -> B) (P : B -> bool) l : filter P (map f l) = map f (filter (fun x => P (f x)) l).
Proof. induction l as [|a l IH]; [reflexivity|]. cbn [map filter]. rewrite IH. destruct (P (f a)); reflexivity. Qed.
Lemma mapM_map {A B C} (f : A -> B) (g : B -> res C) l : mapM g (map f l) = mapM (fun x => g (f x)) l.
Proof. induction l as [|a l IH]; [reflexivity|]. cbn [map mapM]. rewrite IH. reflexivity. Qed.
Lemma mapM_ext_in {A B} (f g : A -> res B) l : (forall x, In x l -> f x = g x) -> mapM f l = mapM g l.
Proof.
  induction l as [|a l IH]; intros H; [reflexivity|]. cbn [mapM]. rewrite (H a (or_introl eq_refl)), IH; [reflexivity|].
  intros x I. apply H. right. exact I.
Qed.

Lemma geolocate_columns {L K} nearest (h1 h2 : K -> L * dict fval) (keys : list K) c1 c2 locs th xn yn rad lc am dw :
  (forall k, In k keys -> fst (h1 k) = fst (h2 k) /\ forall c, In c [xn; yn; "mask"] -> colv c (h1 k) = colv c (h2 k)) ->
  (forall c, In c [xn; yn; "mask"] -> smem c c1 = smem c c2) ->
  geolocate_points nearest (mkFrame c1 (map h1 keys)) locs th (yn, xn) rad lc am dw =
  geolocate_points nearest (mkFrame c2 (map h2 keys)) locs th (yn, xn) rad lc am dw.
Proof.
  intros H Hc. unfold geolocate_points. destruct lc as [y2 x2]. cbn [fcols frows].
  assert (Hn : need_cols [xn; yn] c1 = need_cols [xn; yn] c2).
  { unfold need_cols. cbn [forallb]. rewrite (Hc xn), (Hc yn) by (cbn; tauto). reflexivity. }
  rewrite Hn. rewrite (Hc "mask") by (cbn; tauto).
  assert (G : exists ks, (forall k, In k ks -> In k keys) /\
    (if am && smem "mask" c2 then filter (fun r => feqb (colv "mask" r) (Fin 1)) (map h1 keys) else map h1 keys) = map h1 ks /\
    (if am && smem "mask" c2 then filter (fun r => feqb (colv "mask" r) (Fin 1)) (map h2 keys) else map h2 keys) = map h2 ks).
  { destruct (am && smem "mask" c2).
    - exists (filter (fun k => feqb (colv "mask" (h1 k)) (Fin 1)) keys). split; [intros k I; apply filter_In in I; tauto|].
      rewrite !filter_map_comm. split; [reflexivity|]. f_equal. apply filter_ext_in. intros k I.
      destruct (H k I) as [_ E]. rewrite (E "mask") by (cbn; tauto). reflexivity.
    - exists keys. auto. }
  destruct G as (ks & Hk & E1 & E2). rewrite E1, E2. clear E1 E2 Hn.
  destruct (need_cols [xn; yn] c2); cbn [bind]; [|reflexivity].
  destruct (need_cols [x2; y2] (fcols locs)); cbn [bind]; [|reflexivity].
  rewrite !mapM_map.
  rewrite (mapM_ext_in (fun k => radians_of (colv yn (h1 k)) (colv xn (h1 k))) (fun k => radians_of (colv yn (h2 k)) (colv xn (h2 k)))).
  2: { intros k I. destruct (H k (Hk k I)) as [_ E]. rewrite (E yn), (E xn) by (cbn; tauto). reflexivity. }
  match goal with |- bind ?t _ = _ => destruct t as [pts|]; cbn [bind]; [|reflexivity] end.
  destruct (nonempty pts); cbn [bind]; [|reflexivity].
  match goal with |- bind ?t _ = _ => destruct t as [qs|]; cbn [bind]; [|reflexivity] end.
  destruct (nonempty qs); cbn [bind]; [|reflexivity].
  match goal with |- bind ?t _ = _ => destruct t as [wd|]; cbn [bind]; [|reflexivity] end.
  destruct (need_cols ["lat"; "lon"] (fcols locs)); cbn [bind]; [|reflexivity].
  match goal with |- bind ?t _ = bind ?u _ => assert (E : t = u); [|rewrite E; reflexivity] end.
  apply mapM_ext_in. intros [[r d] k] _. rewrite !nth_error_map. destruct (nth_error ks k) as [j|] eqn:N; cbn [option_map]; [|reflexivity].
  apply nth_error_In in N. destruct (H j (Hk j N)) as [F E]. rewrite F, (E yn), (E xn) by (cbn; tauto). reflexivity.
Qed.

(** ** The columns of the concatenated frame *)
Lemma dget_app {A} k (a b : dict A) : dget k (a ++ b)%list = match dget k a with Some v => Some v | None => dget k b end.
Proof. induction a as [|[k' v] a IH]; [reflexivity|]. cbn [app dget]. destruct (String.eqb k k'); [reflexivity|exact IH]. Qed.
Lemma dget_map_snd {A B} (f : A -> B) k (l : dict A) : dget k (map (fun p => (fst p, f (snd p))) l) = option_map f (dget k l).
Proof. induction l as [|[k' v] l IH]; [reflexivity|]. cbn [map dget fst snd]. destruct (String.eqb k k'); [reflexivity|exact IH]. Qed.
Lemma dget_filter_keep {A} (P : string * A -> bool) k (l : dict A) :
  (forall v, P (k, v) = true) -> dget k (filter P l) = dget k l.
Proof.
  intros H. induction l as [|[k' v] l IH]; [reflexivity|]. cbn [filter dget]. destruct (String.eqb_spec k k') as [EQ|NE].
  - subst k'. rewrite H. cbn [dget]. rewrite String.eqb_refl. reflexivity.
  - destruct (P (k', v)); [cbn [dget]; destruct (String.eqb_spec k k') as [EQ|_]; [contradiction|]|]; exact IH.
Qed.

Lemma dget_columns lab c n : ~ In n (names (c_arr c)) ->
  dget n (to_columns lab c) =
  match dget n (c_aux c) with
  | Some b => Some (column lab (adims (c_arr c)) b)
  | None => if String.eqb n (c_name c) then Some (to_dataframe lab (c_arr c)) else None
  end.
Proof.
  intros N. unfold to_columns. rewrite dget_app, dget_map_snd, dget_filter_keep.
  - destruct (dget n (c_aux c)); cbn [option_map dget]; reflexivity.
  - intros v. cbn [fst]. destruct (smem n (names (c_arr c))) eqn:E; [apply smem_In in E; contradiction|reflexivity].
Qed.

Lemma colv_map k n (cols : dict (list (list nat * fval))) :
  colv n (k, map (fun c => (fst c, lkget k (snd c))) cols) = match dget n cols with Some f => lkget k f | None => NaN end.
Proof. unfold colv. cbn [snd]. rewrite dget_map_snd. destruct (dget n cols); reflexivity. Qed.

Lemma smem_fst_dget {A} n (l : dict A) : smem n (map fst l) = match dget n l with Some _ => true | None => false end.
Proof. induction l as [|[k v] l IH]; [reflexivity|]. cbn. destruct (String.eqb n k); [reflexivity|exact IH]. Qed.

(** ** Specification: which array gives the positions *)
(** The argument denotes the named array with its attached coordinates: a coordinate taken from
    the array by name brings those coordinates that live on its dimensions. *)
Definition given (coords : dict arr) (x : xarg) (c : carr) : Prop :=
  match x with
  | XName s => exists a, dget s coords = Some a /\ c_name c = s /\ c_arr c = a /\
      c_aux c = filter (fun p => forallb (fun d => smem d (names a)) (names (snd p))) coords
  | XArr b => b = c
  | XBad => False
  end.

Lemma given_get coords x c : given coords x c -> get_carr coords x = Ok c.
Proof.
  destruct x; cbn [given get_carr]; [|intros ->; reflexivity|intros []]. intros (a & -> & <- & <- & E).
  destruct c as [n b aux]. cbn [c_name c_arr c_aux] in *. rewrite E. reflexivity.
Qed.

(** The first array under the name [n] in the lists, else [own]. *)
Fixpoint first_under (n : string) (auxs : list (dict arr)) (own : arr) : arr :=
  match auxs with
  | [] => own
  | d :: auxs' => match dget n d with Some b => b | None => first_under n auxs' own end
  end.

(** Two coordinate arrays on the dimensions [ds] with distinct names that are neither dimensions nor [mask], and
    nothing attached to them or to the wet mask under the name [mask]. *)
Record plain_grid (ds : list (string * nat)) (x y : carr) (mask : option carr) : Prop := {
  pg_x : adims (c_arr x) = ds;
  pg_y : adims (c_arr y) = ds;
  pg_rank : List.length ds <> 1%nat;
  pg_xy : c_name x <> c_name y;
  pg_nx : c_name x <> "mask";
  pg_ny : c_name y <> "mask";
  pg_dx : ~ In (c_name x) (map fst ds);
  pg_dy : ~ In (c_name y) (map fst ds);
  pg_mx : dget "mask" (c_aux x) = None;
  pg_my : dget "mask" (c_aux y) = None;
  pg_mm : forall m, mask = Some m -> dget "mask" (c_aux m) = None;
  pg_md : ~ In "mask" (map fst ds);
  pg_mk : forall m, mask = Some m -> ~ In "mask" (names (c_arr m)) }.

Lemma rows_aux nearest lab coords xcoord ycoord csv mask th dw x y ds :
  given coords xcoord x -> given coords ycoord y -> plain_grid ds x y mask ->
  tidegauge_rows_aux nearest lab coords xcoord ycoord csv mask th dw =
  tidegauge_rows nearest lab [] (CArr (c_name x) (mkArr ds (at_ (first_under (c_name x) [c_aux x] (c_arr x)))))
     (CArr (c_name y) (mkArr ds (at_ (first_under (c_name y) [c_aux x; c_aux y] (c_arr y))))) csv (option_map c_arr mask) th dw.
Proof.
  intros Gx Gy [P1 P2 P3 P4 P5 P6 P7 P8 P9 P10 P11 P12 P13].
  unfold tidegauge_rows_aux, tidegauge_rows. rewrite (given_get _ _ _ Gx), (given_get _ _ _ Gy). cbn [bind get_coord fst snd].
  unfold ndim. rewrite P1, P2. cbn [adims]. rewrite Nat.eqb_refl. cbn [assert_ bind].
  rewrite (proj2 (Nat.eqb_neq _ _) P3). cbn [bind fst snd].
  change (names (mkArr ds (at_ (first_under (c_name x) [c_aux x] (c_arr x))))) with (map fst ds).
  assert (Nx : names (c_arr x) = map fst ds) by (unfold names; rewrite P1; reflexivity). rewrite Nx.
  assert (Ny : names (c_arr y) = map fst ds) by (unfold names; rewrite P2; reflexivity).
  destruct (list_eq_dec string_dec (map fst ds) (map fst ds)) as [_|C]; [|contradiction]. cbn [assert_ bind].
  destruct csv as [locs|]; cbn [bind]; [|reflexivity].
  match goal with |- bind ?t _ = bind ?u _ => assert (E : t = u); [|rewrite E; reflexivity] end.
  set (ex := mkArr ds (at_ (first_under (c_name x) [c_aux x] (c_arr x)))).
  set (ey := mkArr ds (at_ (first_under (c_name y) [c_aux x; c_aux y] (c_arr y)))).
  set (mc := match mask with
     | Some m => mkCarr "mask" (amap (fun v => fillna v (Fin 0)) (c_arr m)) (c_aux m)
     | None => mkCarr "mask" (amap (fun _ => Fin 1) (c_arr x)) (c_aux x) end).
  assert (Em : match option_map c_arr mask with
     | Some m => amap (fun v => fillna v (Fin 0)) m | None => amap (fun _ => Fin 1) ex end = c_arr mc).
  { unfold mc. destruct mask; [reflexivity|]. cbn [option_map c_arr]. unfold amap, ex. cbn [adims]. rewrite P1. reflexivity. }
  rewrite Em. unfold concat_columns, concat3.
  assert (Kx : map fst (to_dataframe lab (c_arr x)) = map fst (to_dataframe lab ex)).
  { unfold to_dataframe. rewrite P1. cbn [adims ex]. rewrite !map_map. reflexivity. }
  assert (Ky : map fst (to_dataframe lab (c_arr y)) = map fst (to_dataframe lab ey)).
  { unfold to_dataframe. rewrite P2. cbn [adims ey]. rewrite !map_map. reflexivity. }
  rewrite Kx, Ky.
  assert (Mm : ~ In "mask" (names (c_arr mc)) /\ dget "mask" (c_aux mc) = None /\ c_name mc = "mask").
  { unfold mc. destruct mask as [m|].
    - split; [exact (P13 m eq_refl)|]. split; [exact (P11 m eq_refl)|reflexivity].
    - cbn [c_arr c_aux c_name]. split; [|split; [exact P9|reflexivity]]. unfold names, amap. cbn [adims]. rewrite P1. exact P12. }
  destruct Mm as (M1 & M2 & M3).
  set (cols := (to_columns lab x ++ to_columns lab y ++ to_columns lab mc)%list).
  assert (Dx : dget (c_name x) cols = Some (to_dataframe lab ex)).
  { unfold cols. rewrite dget_app, dget_columns by (rewrite Nx; exact P7). unfold ex. cbn [first_under].
    destruct (dget (c_name x) (c_aux x)) as [b|]; [rewrite P1; reflexivity|]. rewrite String.eqb_refl. f_equal.
    unfold to_dataframe. cbn [adims at_]. rewrite P1. reflexivity. }
  assert (Dy : dget (c_name y) cols = Some (to_dataframe lab ey)).
  { unfold cols. rewrite dget_app, dget_columns by (rewrite Nx; exact P8). unfold ey. cbn [first_under].
    destruct (dget (c_name y) (c_aux x)) as [b|]; [rewrite P1; reflexivity|].
    destruct (String.eqb_spec (c_name y) (c_name x)) as [EQ|_]; [congruence|].
    rewrite dget_app, dget_columns by (rewrite Ny; exact P8).
    destruct (dget (c_name y) (c_aux y)) as [b|]; [rewrite P2; reflexivity|]. rewrite String.eqb_refl. f_equal.
    unfold to_dataframe. cbn [adims at_]. rewrite P2. reflexivity. }
  assert (Dm : dget "mask" cols = Some (to_dataframe lab (c_arr mc))).
  { unfold cols. rewrite dget_app, dget_columns, P9 by (rewrite Nx; exact P12).
    destruct (String.eqb_spec "mask" (c_name x)) as [EQ|_]; [congruence|].
    rewrite dget_app, dget_columns, P10 by (rewrite Ny; exact P12).
    destruct (String.eqb_spec "mask" (c_name y)) as [EQ|_]; [congruence|].
    rewrite dget_columns, M2, M3 by exact M1. reflexivity. }
  apply (geolocate_columns nearest (fun k => (k, map (fun c => (fst c, lkget k (snd c))) cols))
    (fun k => (k, [(c_name x, lkget k (to_dataframe lab ex)); (c_name y, lkget k (to_dataframe lab ey)); ("mask", lkget k (to_dataframe lab (c_arr mc)))]))).
  - intros k _. split; [reflexivity|]. intros c [<-|[<-|[<-|[]]]]; rewrite colv_map; [rewrite Dx|rewrite Dy|rewrite Dm];
      unfold colv; cbn [snd dget].
    + rewrite String.eqb_refl. reflexivity.
    + destruct (String.eqb_spec (c_name y) (c_name x)) as [EQ|_]; [congruence|]. rewrite String.eqb_refl. reflexivity.
    + destruct (String.eqb_spec "mask" (c_name x)) as [EQ|_]; [congruence|].
      destruct (String.eqb_spec "mask" (c_name y)) as [EQ|_]; [congruence|]. reflexivity.
  - intros c [<-|[<-|[<-|[]]]]; rewrite smem_fst_dget; [rewrite Dx|rewrite Dy|rewrite Dm]; symmetry; apply smem_In; cbn; tauto.
Qed.

(** ** C134: the positions come from the first column under the name of each coordinate *)
Theorem C134_used_partial : forall nearest lab a coords xcoord ycoord csv mask th dw x y ds,
  given coords xcoord x -> given coords ycoord y -> plain_grid ds x y mask ->
  extract_tidegauge_aux nearest lab a coords xcoord ycoord csv mask th dw =
  extract_tidegauge nearest lab a [] (CArr (c_name x) (mkArr ds (at_ (first_under (c_name x) [c_aux x] (c_arr x)))))
     (CArr (c_name y) (mkArr ds (at_ (first_under (c_name y) [c_aux x; c_aux y] (c_arr y))))) csv (option_map c_arr mask) th dw.
Proof.
  intros. unfold extract_tidegauge_aux, extract_tidegauge. rewrite (rows_aux nearest lab coords xcoord ycoord csv mask th dw x y ds) by assumption.
  reflexivity.
Qed.
Print Assumptions C134_used_partial.

(** The attached coordinates under the names of the two arrays hold the values of these arrays. *)
Definition consistent (ds : list (string * nat)) (x y : carr) : Prop :=
  (forall b, dget (c_name x) (c_aux x) = Some b -> forall c, inrange ds c -> at_ b c = at_ (c_arr x) c) /\
  (forall b, dget (c_name y) (c_aux x) = Some b \/ dget (c_name y) (c_aux y) = Some b -> forall c, inrange ds c -> at_ b c = at_ (c_arr y) c).

Lemma rows_values nearest lab coords xn yn x x' y y' csv mask th dw ds :
  NoDup (map fst ds) -> adims x = ds -> adims x' = ds -> adims y = ds -> adims y' = ds -> List.length ds <> 1%nat ->
  (forall c, inrange ds c -> at_ x c = at_ x' c) -> (forall c, inrange ds c -> at_ y c = at_ y' c) ->
  tidegauge_rows nearest lab coords (CArr xn x) (CArr yn y) csv mask th dw =
  tidegauge_rows nearest lab coords (CArr xn x') (CArr yn y') csv mask th dw.
Proof.
  intros N X X' Y Y' R Ex Ey. unfold tidegauge_rows. cbn [get_coord bind fst snd]. unfold ndim, names. rewrite X, X', Y, Y', Nat.eqb_refl. cbn [assert_ bind].
  rewrite (proj2 (Nat.eqb_neq _ _) R). cbn [bind fst snd]. rewrite X, X'.
  assert (D : forall b b', adims b = ds -> adims b' = ds -> (forall c, inrange ds c -> at_ b c = at_ b' c) -> to_dataframe lab b = to_dataframe lab b').
  { intros b b' B B' E. unfold to_dataframe. rewrite B, B'. apply map_ext_in. intros p I. f_equal. apply E.
    apply place_inrange; [exact N|apply positions_In; exact I]. }
  rewrite (D x x' X X' Ex), (D y y' Y Y' Ey).
  replace (amap (fun _ => Fin 1) x) with (amap (fun _ => Fin 1) x') by (unfold amap; rewrite X, X'; reflexivity). reflexivity.
Qed.

Theorem C134_consistent_partial : forall nearest lab a coords xcoord ycoord csv mask th dw x y ds,
  given coords xcoord x -> given coords ycoord y -> plain_grid ds x y mask -> NoDup (map fst ds) -> consistent ds x y ->
  extract_tidegauge_aux nearest lab a coords xcoord ycoord csv mask th dw =
  extract_tidegauge nearest lab a coords (CArr (c_name x) (c_arr x)) (CArr (c_name y) (c_arr y)) csv (option_map c_arr mask) th dw.
Proof.
  intros nearest lab a coords xcoord ycoord csv mask th dw x y ds Gx Gy P N [Cx Cy].
  rewrite (C134_used_partial nearest lab a coords xcoord ycoord csv mask th dw x y ds Gx Gy P).
  destruct P as [P1 P2 P3 _ _ _ _ _ _ _ _ _ _]. unfold extract_tidegauge. cbn [first_under].
  match goal with |- bind ?t _ = bind ?u _ => assert (E : t = u); [|rewrite E; reflexivity] end.
  transitivity (tidegauge_rows nearest lab [] (CArr (c_name x) (c_arr x)) (CArr (c_name y) (c_arr y)) csv (option_map c_arr mask) th dw); [|reflexivity].
  apply rows_values with (ds := ds); try reflexivity; try assumption; intros c I; cbn [at_].
  - destruct (dget (c_name x) (c_aux x)) as [b|] eqn:E; [exact (Cx b eq_refl c I)|reflexivity].
  - destruct (dget (c_name y) (c_aux x)) as [b|] eqn:E; [exact (Cy b (or_introl eq_refl) c I)|].
    destruct (dget (c_name y) (c_aux y)) as [b|] eqn:E'; [exact (Cy b (or_intror eq_refl) c I)|reflexivity].
Qed.
Print Assumptions C134_consistent_partial.

Lemma dget_filter_first {A} (P : string * A -> bool) k v (l : dict A) :
  dget k l = Some v -> P (k, v) = true -> dget k (filter P l) = Some v.
Proof.
  intros H K. induction l as [|[k' w] l IH]; [discriminate|]. cbn [dget filter] in *. destruct (String.eqb_spec k k') as [EQ|NE].
  - injection H as ->. subst k'. rewrite K. cbn [dget]. rewrite String.eqb_refl. reflexivity.
  - destruct (P (k', w)); [cbn [dget]; destruct (String.eqb_spec k k'); [contradiction|]|]; exact (IH H).
Qed.

(** Coordinates taken from the array by name bring themselves: the values used are theirs. *)
Theorem C134_by_name_partial : forall nearest lab a coords xn yn x y csv mask th dw ds,
  dget xn coords = Some x -> dget yn coords = Some y -> adims x = ds -> adims y = ds -> NoDup (map fst ds) -> List.length ds <> 1%nat ->
  xn <> yn -> xn <> "mask" -> yn <> "mask" -> ~ In xn (map fst ds) -> ~ In yn (map fst ds) ->
  dget "mask" coords = None -> ~ In "mask" (map fst ds) ->
  (forall m, mask = Some m -> dget "mask" (c_aux m) = None /\ ~ In "mask" (names (c_arr m))) ->
  extract_tidegauge_aux nearest lab a coords (XName xn) (XName yn) csv mask th dw =
  extract_tidegauge nearest lab a coords (CName xn) (CName yn) csv (option_map c_arr mask) th dw.
Proof.
  intros nearest lab a coords xn yn x y csv mask th dw ds X Y Dx Dy N R XY Nx Ny Ix Iy Mc Md Mm.
  set (cx := mkCarr xn x (attached coords x)). set (cy := mkCarr yn y (attached coords y)).
  assert (Self : forall n b b', dget n coords = Some b -> names b = names b' -> dget n (attached coords b') = Some b).
  { intros n b b' E Eb. unfold attached. apply dget_filter_first; [exact E|]. cbn [snd]. rewrite Eb. apply forallb_forall. intros d I. apply smem_In. exact I. }
  assert (NN : names x = names y) by (unfold names; rewrite Dx, Dy; reflexivity).
  assert (MM : forall b, dget "mask" (attached coords b) = None).
  { intros b. unfold attached. clear -Mc. induction coords as [|[k v] l IH]; [reflexivity|]. cbn [dget filter] in *.
    destruct (String.eqb_spec "mask" k) as [EQ|NE]; [discriminate|].
    destruct (forallb _ _); [cbn [dget]; destruct (String.eqb_spec "mask" k); [contradiction|]|]; exact (IH Mc). }
  rewrite (C134_consistent_partial nearest lab a coords (XName xn) (XName yn) csv mask th dw cx cy ds).
  - unfold extract_tidegauge, tidegauge_rows. cbn [get_coord bind c_name c_arr cx cy]. rewrite X, Y. reflexivity.
  - exists x. repeat split; auto.
  - exists y. repeat split; auto.
  - constructor; cbn [c_name c_arr c_aux cx cy]; auto; try (intros m E; apply (Mm m E)).
  - exact N.
  - split; cbn [c_name c_arr c_aux cx cy].
    + intros b E c _. rewrite (Self xn x x X eq_refl) in E. injection E as <-. reflexivity.
    + intros b E c _. rewrite (Self yn y x Y (eq_sym NN)), (Self yn y y Y eq_refl) in E. destruct E as [E|E]; injection E as <-; reflexivity.
Qed.
Print Assumptions C134_by_name_partial.

(** One-dimensional (nominal) coordinates are tiled first; the tiled arrays have nothing attached, so that
    coordinates attached to the two arguments never count. *)
Theorem C134_nominal_partial : forall nearest lab a coords xcoord ycoord csv mask th dw x y nx ny,
  given coords xcoord x -> given coords ycoord y -> adims (c_arr x) = [(c_name x, nx)] -> adims (c_arr y) = [(c_name y, ny)] ->
  (forall n, In n ["geolon"; "geolat"; "mask"] -> c_name x <> n /\ c_name y <> n) ->
  (forall m, mask = Some m -> dget "mask" (c_aux m) = None /\ ~ In "mask" (names (c_arr m))) ->
  extract_tidegauge_aux nearest lab a coords xcoord ycoord csv mask th dw =
  extract_tidegauge nearest lab a coords (CArr (c_name x) (c_arr x)) (CArr (c_name y) (c_arr y)) csv (option_map c_arr mask) th dw.
Proof.
  intros nearest lab a coords xcoord ycoord csv mask th dw x y nx ny Gx Gy Dx Dy Nn Mm.
  unfold extract_tidegauge_aux, extract_tidegauge.
  match goal with |- bind ?t _ = bind ?u _ => assert (E : t = u); [|rewrite E; reflexivity] end.
  destruct (tile_nominal_coords (c_name x) (c_arr x) (c_name y) (c_arr y)) as [g|er] eqn:T.
  - assert (G : adims (fst g) = [(c_name y, ny); (c_name x, nx)] /\ adims (snd g) = [(c_name y, ny); (c_name x, nx)]).
    { unfold tile_nominal_coords in T. rewrite Dx, Dy in T. destruct (String.eqb _ _); [discriminate|].
      destruct (_ && _); [|discriminate]. injection T as <-. split; reflexivity. }
    destruct G as [G1 G2].
    set (gx := mkCarr "geolon" (fst g) []). set (gy := mkCarr "geolat" (snd g) []).
    transitivity (tidegauge_rows_aux nearest lab [] (XArr gx) (XArr gy) csv mask th dw).
    + unfold tidegauge_rows_aux. rewrite (given_get _ _ _ Gx), (given_get _ _ _ Gy). cbn [bind get_carr]. unfold ndim.
      rewrite Dx, Dy, T. cbn [c_arr gx gy]. rewrite G1, G2. reflexivity.
    + rewrite (rows_aux nearest lab [] (XArr gx) (XArr gy) csv mask th dw gx gy [(c_name y, ny); (c_name x, nx)]); try reflexivity.
      * assert (E1 : forall b ds, adims b = ds -> mkArr ds (at_ b) = b) by (intros [d v] ds <-; reflexivity).
        cbn [gx gy c_name c_arr c_aux first_under dget]. rewrite (E1 _ _ G1), (E1 _ _ G2).
        unfold tidegauge_rows. cbn [get_coord bind fst snd]. unfold ndim. rewrite Dx, Dy, T, G1, G2. reflexivity.
      * destruct (Nn "geolon" ltac:(cbn; tauto)), (Nn "geolat" ltac:(cbn; tauto)), (Nn "mask" ltac:(cbn; tauto)).
        constructor; cbn [gx gy c_name c_arr c_aux]; try assumption; try reflexivity; try discriminate; try (intros m Hm; apply (Mm m Hm));
          cbn [map fst In]; intuition congruence.
  - unfold tidegauge_rows_aux, tidegauge_rows. rewrite (given_get _ _ _ Gx), (given_get _ _ _ Gy). cbn [bind get_coord fst snd]. unfold ndim.
    rewrite Dx, Dy, T. reflexivity.
Qed.
Print Assumptions C134_nominal_partial.

(** Longitudes after a computation that keeps the original as attached coordinate under the same name, as xarray's arithmetic
    does: the two columns of the grid are exchanged. *)
Definition mirrored := mkArr grid_dims (fun e => Fin (10 - 10 * INR (e "xh"))).
Definition stale := mkCarr "geolon" mirrored [("geolon", grid_x); ("geolat", grid_y)].
Definition latitudes := mkCarr "geolat" grid_y [("geolon", grid_x); ("geolat", grid_y)].

Theorem C134_refuted : forall nearest, nearest_spec nearest ->
  exists lab a x y locs out v s c,
    extract_tidegauge_aux nearest lab a [] (XArr x) (XArr y) (Some locs) None (Some (Fin 50)) true = Ok out /\
    In s (frows locs) /\ dget (fst s) out = Some v /\
    inrange (adims (c_arr x)) c /\ at_ (c_arr x) c = colv "lon" s /\ at_ (c_arr y) c = colv "lat" s /\
    forall e, at_ v e <> at_ a (overlay (adims (c_arr x)) c e).
Proof.
  intros nearest NS. destruct (C53_example nearest NS) as (out & v & E & _ & G & _ & V).
  exists plain_labels, field, stale, latitudes, (one_site 10 0), out, v, ("SITE", [("lat", Fin 10); ("lon", Fin 0)]),
    (upd (upd (fun _ => O) "yh" 1) "xh" 1).
  split.
  { rewrite (C134_used_partial nearest plain_labels field [] (XArr stale) (XArr latitudes) _ None _ _ stale latitudes grid_dims); [exact E|reflexivity|reflexivity|].
    constructor; cbn; try reflexivity; try discriminate; intuition discriminate. }
  split; [left; reflexivity|]. split; [exact G|].
  split; [intros d n [X|[X|[]]]; injection X as <- <-; cbn; lia|].
  split; [change (Fin (10 - 10 * INR 1) = Fin 0); f_equal; cbn; lra|].
  split; [change (Fin (10 * INR 1) = Fin 10); f_equal; cbn; lra|].
  intros e X. rewrite V in X. cbn in X. injection X as X. cbn in X. lra.
Qed.
Print Assumptions C134_refuted.

(** The hypotheses on a grid whose coordinates are taken by name. *)
Example C134_example : forall nearest, nearest_spec nearest ->
  exists out v,
    extract_tidegauge_aux nearest plain_labels field [("geolon", grid_x); ("geolat", grid_y)] (XName "geolon") (XName "geolat")
      (Some (one_site 10 0)) None (Some (Fin 50)) true = Ok out /\ dget "SITE" out = Some v /\
    forall e, at_ v e = Fin (100 * INR (e "time") + 10 * INR 1 + INR 0).
Proof.
  intros nearest NS. destruct (C53_example nearest NS) as (out & v & E & _ & G & _ & V). exists out, v. split; [|split; [exact G|exact V]].
  rewrite (C134_by_name_partial nearest plain_labels field _ "geolon" "geolat" grid_x grid_y _ None _ _ grid_dims); try reflexivity; try discriminate.
  - exact E.
  - cbn. repeat constructor; cbn; intuition discriminate.
  - cbn. intuition discriminate.
  - cbn. intuition discriminate.
  - cbn. intuition discriminate.
Qed.

Example C134_nominal_example : forall nearest lab a csv th dw x y,
  adims x = [("lon", 4%nat)] -> adims y = [("lat", 3%nat)] ->
  extract_tidegauge_aux nearest lab a [("lon", x); ("lat", y)] (XName "lon") (XName "lat") csv None th dw =
  extract_tidegauge nearest lab a [("lon", x); ("lat", y)] (CName "lon") (CName "lat") csv None th dw.
Proof.
  intros nearest lab a csv th dw x y Dx Dy. set (coords := [("lon", x); ("lat", y)]).
  rewrite (C134_nominal_partial nearest lab a coords (XName "lon") (XName "lat") csv None th dw (mkCarr "lon" x (attached coords x)) (mkCarr "lat" y (attached coords y)) 4 3).
  - reflexivity.
  - exists x. repeat split; reflexivity.
  - exists y. repeat split; reflexivity.
  - exact Dx.
  - exact Dy.
  - intros n [<-|[<-|[<-|[]]]]; split; discriminate.
  - discriminate.
Qed.
