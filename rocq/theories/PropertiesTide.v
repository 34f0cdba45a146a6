(** * PropertiesTide: C128 (dimension order of the wet mask), C129 (attributes of extracted series) *)
From Coq Require Import Reals Lra Lia List String Bool Arith ZArith FunctionalExtensionality.
From Verif Require Import Num NumFacts Py Arr ArrFacts Util Geo SpecGeo ProofsUtil ProofsGeo ProofsGeo2 ProofsTide ProofsTide2 TideMeta PropertiesGeo.
Import ListNotations.
Local Open Scope string_scope.
Local Open Scope R_scope.

(** ** C128: xarray objects match by dimension name, [pd.concat] matches label tuples by position *)

(** The index with the positions along two dimensions exchanged. *)
Definition exchange (d1 d2 : string) (e : index) : index :=
  fun d => if String.eqb d d1 then e d2 else if String.eqb d d2 then e d1 else e d.

Lemma label_tuple2 lab d1 d2 i j n1 n2 : label_of lab [(d1, n1); (d2, n2)] [i; j] = [lab d1 i; lab d2 j].
Proof. reflexivity. Qed.
Lemma positions2 d1 d2 n1 n2 p : In p (positions [(d1, n1); (d2, n2)]) -> exists i j, p = [i; j] /\ (i < n1)%nat /\ (j < n2)%nat.
Proof.
  intros H. apply positions_In in H. inversion H as [|? i ? q A B]; subst. inversion B as [|? j ? q' A' B']; subst. inversion B'; subst.
  exists i, j. auto.
Qed.

Lemma to_dataframe_exchange lab d1 d2 n m : d1 <> d2 -> (forall i, (i < n)%nat -> lab d1 i = lab d2 i) ->
  adims m = [(d2, n); (d1, n)] ->
  to_dataframe lab m = to_dataframe lab (mkArr [(d1, n); (d2, n)] (fun e => at_ m (exchange d1 d2 e))).
Proof.
  intros D L A. unfold to_dataframe. rewrite A. cbn [adims at_].
  change (positions [(d2, n); (d1, n)]) with (positions [(d1, n); (d2, n)]).
  apply map_ext_in. intros p H. apply positions2 in H as (i & j & -> & Hi & Hj). cbn [label_of place]. f_equal.
  - rewrite (L i Hi), (L j Hj). reflexivity.
  - f_equal. apply functional_extensionality. intros d. unfold exchange, upd.
    repeat match goal with |- context [String.eqb ?u ?w] => destruct (String.eqb_spec u w); subst; try congruence end.
Qed.

(** What happens on a square grid without labels (or with the same labels along both dimensions):
    a mask listed as (x, y) is applied as if its dimensions were named (y, x). *)
Theorem C128_square_partial : forall nearest lab a coords xcoord ycoord csv m th dw d1 d2 n,
  d1 <> d2 -> (forall i, (i < n)%nat -> lab d1 i = lab d2 i) -> adims m = [(d2, n); (d1, n)] ->
  extract_tidegauge nearest lab a coords xcoord ycoord csv (Some m) th dw =
  extract_tidegauge nearest lab a coords xcoord ycoord csv (Some (mkArr [(d1, n); (d2, n)] (fun e => at_ m (exchange d1 d2 e)))) th dw.
Proof.
  intros nearest lab a coords xcoord ycoord csv m th dw d1 d2 n D L A. unfold extract_tidegauge.
  match goal with |- bind ?t _ = bind ?u _ => assert (E : t = u); [|rewrite E; reflexivity] end. unfold tidegauge_rows.
  destruct (get_coord coords xcoord) as [xc|]; cbn [bind]; [|reflexivity].
  destruct (get_coord coords ycoord) as [yc|]; cbn [bind]; [|reflexivity].
  destruct (assert_ (Nat.eqb (ndim (snd xc)) (ndim (snd yc)))); cbn [bind]; [|reflexivity].
  match goal with |- bind ?t _ = _ => destruct t as [[xc' yc']|]; cbn [bind]; [|reflexivity] end.
  match goal with |- bind ?t _ = _ => destruct t; cbn [bind]; [|reflexivity] end.
  rewrite (to_dataframe_exchange lab d1 d2 n (amap (fun v => fillna v (Fin 0)) m) D L A). reflexivity.
Qed.
Print Assumptions C128_square_partial.

(** With different labels along the two dimensions such a mask is refused: the wet cell gets a row without coordinates. *)
Theorem C128_labels_partial : forall nearest lab a coords xcoord ycoord xn yn x y m locs th dw d1 d2 n1 n2 i j e,
  denotes coords xcoord xn x -> denotes coords ycoord yn y -> xn <> "mask" -> yn <> "mask" ->
  adims x = [(d1, n1); (d2, n2)] -> adims y = [(d1, n1); (d2, n2)] -> adims m = [(d2, n2); (d1, n1)] -> wf_arr m ->
  unique_labels lab (adims m) -> In "lat" (fcols locs) -> In "lon" (fcols locs) ->
  (i < n2)%nat -> (j < n1)%nat -> at_ m (upd (upd e d2 i) d1 j) = Fin 1 -> (forall k, (k < n1)%nat -> lab d1 k <> lab d2 i) ->
  extract_tidegauge nearest lab a coords xcoord ycoord (Some locs) (Some m) th dw = Err ValueError.
Proof.
  intros nearest lab a coords xcoord ycoord xn yn x y m locs th dw d1 d2 n1 n2 i j e Hx Hy Nx Ny Dx Dy Dm W U Hla Hlo Hi Hj Wet Lb.
  unfold extract_tidegauge, tidegauge_rows. rewrite (denotes_get _ _ _ _ Hx), (denotes_get _ _ _ _ Hy). cbn [bind fst snd].
  assert (R2 : ndim x = 2%nat) by (unfold ndim; rewrite Dx; reflexivity).
  assert (R2' : ndim y = 2%nat) by (unfold ndim; rewrite Dy; reflexivity).
  rewrite R2, R2'. cbn [Nat.eqb assert_ bind fst snd].
  destruct (list_eq_dec string_dec (names x) (names x)) as [_|N]; [|congruence]. cbn [assert_ bind].
  set (fx := to_dataframe lab x). set (fy := to_dataframe lab y). set (mm := amap (fun v => fillna v (Fin 0)) m). set (fm := to_dataframe lab mm).
  set (K := [lab d2 i; lab d1 j]).
  assert (NK : forall b, adims b = [(d1, n1); (d2, n2)] -> forall v, ~ In (K, v) (to_dataframe lab b)).
  { intros b Db v I. unfold to_dataframe in I. rewrite Db in I. apply in_map_iff in I as (p & E & P). apply positions2 in P as (i' & j' & -> & A & B).
    cbn [label_of] in E. injection E as E1 E2 _. exact (Lb i' A E1). }
  assert (MISS : forall l, (forall v, ~ In (K, v) l) -> lkget K l = NaN).
  { induction l as [|[k v] l IH]; intros H; cbn [lkget]; [reflexivity|]. destruct (lkey_eqb K k) eqn:E.
    - apply lkey_eqb_true in E. subst k. exfalso. apply (H v). left. reflexivity.
    - apply IH. intros v' I. apply (H v'). right. exact I. }
  assert (Pm : In [i; j] (positions (adims m))).
  { apply positions_In. rewrite Dm. repeat constructor; assumption. }
  assert (FM : lkget K fm = Fin 1).
  { unfold fm, to_dataframe, K. change (adims mm) with (adims m).
    change [lab d2 i; lab d1 j] with (label_of lab [(d2, n2); (d1, n1)] [i; j]). rewrite <- Dm.
    rewrite (lkget_map (label_of lab (adims m)) (fun p => at_ mm (place (adims m) p (fun _ => O))) (positions (adims m)) [i; j] Pm).
    - unfold mm. cbn [at_ amap]. rewrite Dm. cbn [place].
      replace (at_ m (upd (upd (fun _ => O) d2 i) d1 j)) with (Fin 1); [reflexivity|].
      rewrite <- Wet. destruct W as [_ W]. apply W. intros d H. unfold names in H. rewrite Dm in H. cbn [map fst] in H.
      unfold upd. destruct (String.eqb_spec d1 d); [reflexivity|]. destruct (String.eqb_spec d2 d); [reflexivity|].
      destruct H as [H|[H|[]]]; congruence.
    - intros p' I E. apply (label_inj lab (adims m) U); [apply positions_In; exact I|apply positions_In; exact Pm|exact E]. }
  unfold geolocate_points. cbn [bind andb].
  set (df := concat3 xn yn "mask" fx fy fm).
  assert (C : smem "mask" (fcols df) = true) by (apply smem_In; cbn; tauto). rewrite C.
  assert (NC : need_cols [xn; yn] (fcols df) = Ok tt).
  { unfold need_cols. cbn [forallb]. rewrite !(proj2 (smem_In _ _)) by (cbn; tauto). reflexivity. }
  assert (NL : need_cols ["lon"; "lat"] (fcols locs) = Ok tt).
  { unfold need_cols. cbn [forallb]. rewrite !(proj2 (smem_In _ _)) by assumption. reflexivity. }
  rewrite NC, NL. cbn [bind].
  assert (ROW : In (K, [(xn, NaN); (yn, NaN); ("mask", Fin 1)]) (frows df)).
  { unfold df, concat3. cbn [frows]. apply in_map_iff. exists K. split.
    - rewrite FM, (MISS fx) by (apply NK; exact Dx). rewrite (MISS fy) by (apply NK; exact Dy). reflexivity.
    - assert (IK : In K (map fst fm)).
      { unfold fm, to_dataframe. rewrite map_map. cbn [fst]. change (adims mm) with (adims m). apply in_map_iff. exists [i; j]. rewrite Dm. split; [reflexivity|].
        rewrite Dm in Pm. exact Pm. }
      unfold index_union at 1. apply in_or_app. destruct (in_dec (list_eq_dec Nat.eq_dec) K (index_union (map fst fx) (map fst fy))) as [I|I]; [left; exact I|right].
      apply filter_In. split; [exact IK|]. apply negb_true_iff. destruct (existsb _ _) eqn:X; [|reflexivity].
      apply existsb_exists in X as (k' & I' & E'). apply lkey_eqb_true in E'. subst k'. contradiction. }
  assert (COL : colv "mask" (K, [(xn, NaN); (yn, NaN); ("mask", Fin 1)]) = Fin 1).
  { unfold colv. cbn [snd dget]. rewrite !(proj2 (String.eqb_neq "mask" _)) by congruence. reflexivity. }
  assert (CY : colv yn (K, [(xn, NaN); (yn, NaN); ("mask", Fin 1)]) = NaN).
  { unfold colv. cbn [snd dget]. destruct (String.eqb yn xn); [reflexivity|]. rewrite String.eqb_refl. reflexivity. }
  match goal with |- context [mapM ?f (filter ?g (frows df))] => assert (F : mapM f (filter g (frows df)) = Err ValueError) end.
  { match goal with |- mapM ?f ?l = _ => assert (G : forall z e', f z = Err e' -> e' = ValueError); [|
      assert (IL : In (K, [(xn, NaN); (yn, NaN); ("mask", Fin 1)]) l);
      [|assert (FK : f (K, [(xn, NaN); (yn, NaN); ("mask", Fin 1)]) = Err ValueError); [|revert IL; generalize l; clear -G FK]]] end.
    - intros z e' E. unfold radians_of in E. destruct (deg2rad (colv yn z)), (deg2rad (colv xn z)); congruence.
    - apply filter_In. split; [exact ROW|]. rewrite COL. apply feqb_Fin. reflexivity.
    - rewrite CY. reflexivity.
    - intros l. induction l as [|z l IH]; intros I; [destruct I|]. cbn [mapM]. destruct (radians_of (colv yn z) (colv xn z)) as [w|e'] eqn:Z; cbn [bind].
      + destruct I as [->|I]; [congruence|]. rewrite (IH I). reflexivity.
      + f_equal. exact (G z e' Z). }
  rewrite F. reflexivity.
Qed.
Print Assumptions C128_labels_partial.

(** Refuted: a gauge at the only wet cell of a 2x2 grid gets the series of a land cell. *)
Definition mask_xy : arr := mkArr [("xh", 2%nat); ("yh", 2%nat)] (fun e => if Nat.eqb (e "yh") 1 && Nat.eqb (e "xh") 0 then Fin 1 else Fin 0).

Theorem C128_refuted : forall nearest, nearest_spec nearest ->
  exists lab a x y m c land locs out v,
    adims m = rev (adims x) /\ adims y = adims x /\ wf_arr m /\
    inrange (adims x) c /\ at_ m c = Fin 1 /\
    (forall s, In s (frows locs) -> exists p, located ("lat", "lon") s p /\ at_ y c = Fin (fst p) /\ at_ x c = Fin (snd p)) /\
    extract_tidegauge nearest lab a [] (CArr "geolon" x) (CArr "geolat" y) (Some locs) (Some m) None true = Ok out /\
    dget "SITE" out = Some v /\ inrange (adims x) land /\ at_ m land = Fin 0 /\
    forall e, at_ v e = at_ a (overlay (adims x) land e) /\ at_ v e <> at_ a (overlay (adims x) c e).
Proof.
  intros nearest NS.
  set (c := upd (upd (fun _ => O) "yh" 1) "xh" 0). set (land := upd (upd (fun _ => O) "yh" 0) "xh" 1%nat).
  set (m' := mkArr grid_dims (fun e => at_ mask_xy (exchange "yh" "xh" e))).
  assert (W' : adims m' = grid_dims /\ wf_arr m').
  { split; [reflexivity|]. apply grid_wf. intros e e' E1 E2. unfold exchange, mask_xy. cbn. rewrite E1, E2. reflexivity. }
  pose proof (grid_ok (Some m') ltac:(intros m E; injection E as <-; exact W')) as T.
  destruct (C53_total nearest plain_labels field [] _ _ (Some m') _ _ grid_x grid_y grid_dims (one_site 10 0) None true NS T) as [out E].
  { cbn; tauto. } { cbn; tauto. } { discriminate. }
  { intros s [<- | []]. eexists (_, _); split; reflexivity. }
  { exists land. split; [|reflexivity]. intros d n [X | [X | []]]; injection X as <- <-; cbn; lia. }
  { intros k _ _. exists (10 * INR (k "yh")), (10 * INR (k "xh")). split; reflexivity. }
  { discriminate. }
  assert (N : NoDup (map fst (frows (one_site 10 0)))) by (repeat constructor; cbn; tauto).
  destruct (C53_nearest_series nearest plain_labels field [] _ _ (Some m') _ _ grid_x grid_y grid_dims (one_site 10 0) None true out NS T N E) as [A _].
  destruct (A _ (or_introl eq_refl)) as (q & k & p & _ & (Rk & Wk & _) & V & _).
  destruct (V I) as (v & G & _ & Ev). clear V.
  assert (Kc : k "yh" = O /\ k "xh" = 1%nat).
  { cbn [wet m' at_] in Wk. unfold mask_xy, exchange in Wk. cbn in Wk.
    destruct (Nat.eqb (k "xh") 1) eqn:X; [|cbn in Wk; injection Wk as Wk; lra].
    destruct (Nat.eqb (k "yh") 0) eqn:Y; [|cbn in Wk; injection Wk as Wk; lra].
    apply Nat.eqb_eq in X, Y. auto. }
  destruct Kc as [K1 K2].
  exists plain_labels, field, grid_x, grid_y, mask_xy, c, land, (one_site 10 0), out, v.
  split; [reflexivity|]. split; [reflexivity|]. split.
  { split; [repeat constructor; cbn; intuition discriminate|]. intros e e' H. unfold mask_xy. cbn [at_].
    rewrite (H "yh"), (H "xh") by (cbn; tauto). reflexivity. }
  split; [intros d n [X | [X | []]]; injection X as <- <-; cbn; lia|]. split; [reflexivity|]. split.
  { intros s [<- | []]. exists (10, 0). split; [split; reflexivity|].
    split; [change (Fin (10 * INR 1) = Fin 10)|change (Fin (10 * INR 0) = Fin 0)]; f_equal; cbn; lra. }
  split.
  { rewrite <- E. apply C128_square_partial; [discriminate|reflexivity|reflexivity]. }
  split; [exact G|]. split; [intros d n [X | [X | []]]; injection X as <- <-; cbn; lia|]. split; [reflexivity|].
  intros e. rewrite Ev. cbn. rewrite K1, K2. split; [reflexivity|]. intros X. injection X as X. cbn in X. lra.
Qed.
Print Assumptions C128_refuted.

(** A 2x2 grid with different labels along the two dimensions. *)
Definition degree_labels : labels := fun d i => if String.eqb d "yh" then (30 + i)%nat else (280 + i)%nat.
Example C128_example : forall nearest,
  extract_tidegauge nearest degree_labels field [] (CArr "geolon" grid_x) (CArr "geolat" grid_y) (Some (one_site 10 0)) (Some mask_xy) None true = Err ValueError.
Proof.
  intros nearest. apply (C128_labels_partial nearest degree_labels field [] _ _ "geolon" "geolat" grid_x grid_y mask_xy (one_site 10 0) None true "yh" "xh" 2 2 0 1 (fun _ => O));
    try (split; reflexivity); try discriminate; try reflexivity; try (cbn; tauto); try lia.
  - split; [repeat constructor; cbn; intuition discriminate|]. intros e e' H. unfold mask_xy. cbn [at_].
    rewrite (H "yh"), (H "xh") by (cbn; tauto). reflexivity.
  - intros d n [X | [X | []]] i j _ _; injection X as <- _; unfold degree_labels; cbn; lia.
  - intros k Hk. unfold degree_labels. cbn. lia.
Qed.

(** ** C129: an extracted series says where it comes from *)

Lemma F2_In_r {A B} (P : A -> B -> Prop) l ys y : Forall2 P l ys -> In y ys -> exists x, In x l /\ P x y.
Proof.
  induction 1 as [|x z l ys H F IH]; intros I; [destruct I|]. destruct I as [<-|I]; [exists x; split; [left; reflexivity|exact H]|].
  destruct (IH I) as (x' & I' & H'). exists x'. split; [right; exact I'|exact H'].
Qed.
Lemma dget_merge {A} k : forall (d' d : dict A), NoDup (dkeys d') ->
  dget k (merge d d') = match dget k d' with Some v => Some v | None => dget k d end.
Proof.
  induction d' as [|[k' v] d' IH]; intros d N; [reflexivity|]. cbn [dkeys map fst] in N. inversion N as [|? ? N1 N2]; subst.
  unfold merge. cbn [fold_left fst snd dget]. fold (merge (dset k' v d) d'). rewrite (IH (dset k' v d) N2).
  destruct (String.eqb_spec k k') as [->|NE].
  - assert (X : dget k' d' = None) by (apply dget_None; exact N1). rewrite X. apply dget_dset_same.
  - destruct (dget k d'); [reflexivity|]. apply dget_dset_other. congruence.
Qed.
Lemma merge_NoDup {A} (d' : dict A) : forall d, NoDup (dkeys d) -> NoDup (dkeys (merge d d')).
Proof. intros d N. exact (collect_NoDup_keys d' d N). Qed.

Lemma filter_keys_NoDup {A} (f : string * A -> bool) (d : dict A) : NoDup (dkeys d) -> NoDup (dkeys (filter f d)).
Proof. intros N. apply NoDup_map_filter. exact N. Qed.

Lemma dget_filter {A} (g : string -> bool) k (d : dict A) :
  dget k (filter (fun p => g (fst p)) d) = if g k then dget k d else None.
Proof.
  induction d as [|[k' v] d IH]; cbn [filter dget fst]; [destruct (g k); reflexivity|].
  destruct (String.eqb_spec k k') as [<-|NE].
  - destruct (g k); cbn [dget]; [rewrite String.eqb_refl; reflexivity|exact IH].
  - destruct (g k'); cbn [dget]; [|exact IH]. rewrite (proj2 (String.eqb_neq k k') NE). exact IH.
Qed.

(** The columns that geolocate_points and extract_tidegauge write, and those they drop. *)
Definition added_columns := ["name"; "distance"; "mod_index"; "model_coords"; "dim_vals"; "real_coords"; "dims"].
Definition dropped_columns := ["yrad"; "xrad"; "lat"; "lon"].

Lemma row_entries_NoDup columns dims row : NoDup (dkeys columns) -> NoDup (dkeys (row_entries columns dims row)).
Proof.
  intros N. unfold row_entries. apply merge_NoDup, dset_NoDup, filter_keys_NoDup, N.
Qed.
Lemma row_entries_get columns dims row k : NoDup (dkeys columns) ->
  dget k (row_entries columns dims row) =
  match dget k [("distance", ANum (o_distance row)); ("mod_index", AInt (o_mod_index row));
     ("model_coords", ACoords (o_model_coords row)); ("dim_vals", ALabels (o_dim_vals row));
     ("real_coords", ACoords (o_real_coords row)); ("dims", ADims dims)] with
  | Some v => Some v
  | None => if String.eqb k "name" then Some (AStr (o_name row)) else if smem k dropped_columns then None else dget k columns
  end.
Proof.
  intros N. unfold row_entries. rewrite dget_merge by (cbn; repeat constructor; cbn; intuition discriminate).
  match goal with |- match ?t with _ => _ end = _ => destruct t; [reflexivity|] end.
  destruct (String.eqb_spec k "name") as [->|NE]; [apply dget_dset_same|].
  rewrite dget_dset_other by congruence.
  fold dropped_columns. pose proof (dget_filter (fun k => negb (smem k dropped_columns)) k columns) as F. cbv beta in F. rewrite F. destruct (smem k dropped_columns); reflexivity.
Qed.

Lemma map_dset {A B} (f : A -> B) k v (d : dict A) :
  map (fun p => (fst p, f (snd p))) (dset k v d) = dset k (f v) (map (fun p => (fst p, f (snd p))) d).
Proof.
  induction d as [|[k' v'] d IH]; [reflexivity|]. cbn [dset map fst snd]. destruct (String.eqb k k'); cbn [map fst snd]; [reflexivity|]. rewrite IH. reflexivity.
Qed.
Lemma map_merge {A B} (f : A -> B) : forall (l d : dict A),
  map (fun p => (fst p, f (snd p))) (merge d l) = merge (map (fun p => (fst p, f (snd p))) d) (map (fun p => (fst p, f (snd p))) l).
Proof.
  induction l as [|[k v] l IH]; intros d; [reflexivity|]. unfold merge. cbn [fold_left map fst snd].
  fold (merge (dset k v d) l). rewrite IH, map_dset. reflexivity.
Qed.

(** The values are those of C53, with the same errors. *)
Theorem C129_values : forall nearest lab a attrs columns coords xcoord ycoord csv mask th dw,
  extract_tidegauge nearest lab a coords xcoord ycoord csv mask th dw =
  let* out := extract_tidegauge_meta nearest lab a attrs columns coords xcoord ycoord csv mask th dw in
  Ok (map (fun p => (fst p, fst (snd p))) out).
Proof.
  intros. unfold extract_tidegauge, extract_tidegauge_meta.
  destruct (tidegauge_rows nearest lab coords xcoord ycoord csv mask th dw) as [[dims rows]|]; cbn [bind fst snd]; [|reflexivity].
  assert (E : mapM (fun row => let* v := extract_point lab a dims row in Ok (o_name row, v)) rows =
    let* pts := mapM (fun row => let* v := extract_point_meta lab a attrs (columns (o_name row)) dims row in Ok (o_name row, v)) rows in
    Ok (map (fun p => (fst p, fst (snd p))) pts)).
  { induction rows as [|r rows IH]; [reflexivity|]. cbn [mapM]. rewrite IH. clear IH.
    match goal with |- context [bind (mapM ?f rows) (fun pts => Ok (map _ pts))] => set (rest := mapM f rows) end.
    unfold extract_point_meta. destruct (extract_point lab a dims r); cbn [bind]; [|reflexivity].
    destruct rest; reflexivity. }
  rewrite E. clear E. match goal with |- context [bind (mapM ?f rows) (fun pts => Ok (map _ pts))] => destruct (mapM f rows) as [pts|]; cbn [bind]; [|reflexivity] end. f_equal.
  symmetry. exact (map_merge (@fst arr (dict aval)) pts []).
Qed.
Print Assumptions C129_values.

Theorem C129_provenance : forall nearest lab a attrs columns coords xcoord ycoord mask xn yn x y ds locs th dw out,
  nearest_spec nearest -> tide_grid lab a coords xcoord ycoord mask xn yn x y ds -> NoDup (map fst (frows locs)) ->
  (forall s, NoDup (dkeys (columns s))) ->
  extract_tidegauge_meta nearest lab a attrs columns coords xcoord ycoord (Some locs) mask th dw = Ok out ->
  forall k v at', dget k out = Some (v, at') ->
    exists s q c p, In s (frows locs) /\ fst s = k /\ located ("lat", "lon") s q /\ nearest_wet ds x y mask q c p /\
      (forall e, at_ v e = at_ a (overlay ds c e)) /\
      dget "name" at' = Some (AStr k) /\
      dget "distance" at' = Some (ANum (Fin (6378 * central_angle p q))) /\
      dget "model_coords" at' = Some (ACoords (Fin (fst p), Fin (snd p))) /\
      dget "real_coords" at' = Some (ACoords (Fin (fst q), Fin (snd q))) /\
      dget "dims" at' = Some (ADims (map fst ds)) /\
      dget "dim_vals" at' = Some (ALabels (map (fun d => lab d (c d)) (map fst ds))) /\
      (forall j w, ~ In j added_columns -> ~ In j dropped_columns -> dget j (columns k) = Some w -> dget j at' = Some w) /\
      (forall j, ~ In j added_columns -> In j dropped_columns \/ dget j (columns k) = None -> dget j at' = dget j attrs).
Proof.
  intros nearest lab a attrs columns coords xcoord ycoord mask xn yn x y ds locs th dw out NS [T1 T2 T3 T4 T5 T6 T7 T8 T9 T10 T11 T12 T13] N NC H k v at' G.
  unfold extract_tidegauge_meta in H. apply bind_inv in H as ([dims rows] & HR & H). cbn [fst snd] in H.
  apply bind_inv in H as (pts & HP & H). apply Ok_inj in H. subst out.
  assert (R : dims = map fst ds /\ exists wd, geolocate_points nearest (model_frame lab x y (emask x mask) xn yn) locs th (yn, xn) (Fin 6378) ("lat", "lon") true dw = Ok (rows, wd)).
  { unfold tidegauge_rows in HR. rewrite (denotes_get _ _ _ _ T1), (denotes_get _ _ _ _ T2) in HR. cbn [bind fst snd] in HR.
    unfold ndim in HR. rewrite T3, T4, Nat.eqb_refl in HR. cbn [assert_ bind] in HR.
    rewrite (proj2 (Nat.eqb_neq _ _) T8) in HR. cbn [bind fst snd] in HR.
    destruct (list_eq_dec string_dec (names x) (names x)) as [_|C]; [|contradiction]. cbn [assert_ bind] in HR.
    apply bind_inv in HR as ([rows' wd] & GE & HR). apply Ok_inj in HR. cbn [fst] in HR. injection HR as <- <-.
    split; [unfold names; rewrite T3; reflexivity|]. exists wd. exact GE. }
  destruct R as (-> & wd & GE).
  destruct (geolocate_inv nearest _ locs th (yn, xn) 6378 ("lat", "lon") true dw rows wd NS GE) as (full & Hf & Hr & _).
  apply mapM_F2 in HP.
  assert (IK : In k (map fst pts)).
  { assert (J : In k (dkeys (merge [] pts))) by (apply dmem_true; unfold dmem; rewrite G; reflexivity).
    apply (collect_keys pts []) in J. destruct J as [J|[]]. exact J. }
  assert (Names : map fst pts = map o_name rows).
  { eapply F2_names; [exact HP|]. intros o pt E. apply bind_inv in E as (w & _ & E). apply Ok_inj in E. subst pt. reflexivity. }
  assert (Full : map o_name full = map fst (frows locs)).
  { eapply F2_names; [exact Hf|]. intros s o (? & ? & ? & _ & _ & _ & E & _). exact E. }
  assert (NDr : NoDup (map fst pts)).
  { rewrite Names, Hr. destruct th; [apply NoDup_map_filter|]; rewrite Full; exact N. }
  apply in_map_iff in IK as ([k' [w bt]] & E & IP). cbn [fst] in E. subst k'.
  assert (X : dget k (merge [] pts) = Some (w, bt)) by (apply (collect_get pts []); assumption).
  rewrite X in G. injection G as -> ->.
  destruct (F2_In_r _ _ _ _ HP IP) as (o & Io & Eo). apply bind_inv in Eo as (vv & EP & Eo). apply Ok_inj in Eo. injection Eo as Ek ->.
  unfold extract_point_meta in EP. apply bind_inv in EP as (v' & EV & EP). apply Ok_inj in EP. injection EP as -> <-.
  assert (IF : In o full) by (rewrite Hr in Io; destruct th; [apply filter_In in Io; tauto|exact Io]).
  destruct (F2_In_r _ _ _ _ Hf IF) as (s & Is & Ss).
  destruct (site_cell_full lab a xn yn x y ds mask T3 T4 T5 T6 T7 T8 T9 T10 T11 T12 T13 s o Ss)
    as (q & c & p & v2 & Lq & NW & On & Od & EV2 & _ & Vv & Ov & Om & Or).
  rewrite EV in EV2. apply Ok_inj in EV2. subst v2.
  pose proof (row_entries_get (columns (o_name o)) (map fst ds) o) as RG.
  assert (MG : forall j, dget j (merge attrs (row_entries (columns (o_name o)) (map fst ds) o)) =
    match dget j (row_entries (columns (o_name o)) (map fst ds) o) with Some u => Some u | None => dget j attrs end).
  { intros j. apply dget_merge, row_entries_NoDup, NC. }
  exists s, q, c, p. split; [exact Is|]. split; [congruence|]. split; [exact Lq|]. split; [exact NW|]. split; [exact Vv|].
  rewrite !MG. rewrite !(RG _ (NC _)). cbn [dget String.eqb Ascii.eqb Bool.eqb].
  split; [rewrite Ek; reflexivity|]. split; [rewrite Od; reflexivity|]. split; [rewrite Om; reflexivity|].
  split; [rewrite Or; reflexivity|]. split; [reflexivity|]. split; [rewrite Ov; reflexivity|].
  assert (Other : forall j, ~ In j added_columns ->
    dget j (row_entries (columns (o_name o)) (map fst ds) o) = if smem j dropped_columns then None else dget j (columns (o_name o))).
  { intros j Nj. rewrite (RG j (NC _)). cbn [dget]. unfold added_columns in Nj. cbn [In] in Nj.
    repeat match goal with |- context [String.eqb j ?b] => destruct (String.eqb_spec j b) as [EQ|_]; [exfalso; apply Nj; subst; tauto|] end. reflexivity. }
  split.
  - intros j w' Nj Dj Cj. rewrite MG, (Other j Nj). destruct (smem j dropped_columns) eqn:SM; [apply smem_In in SM; contradiction|].
    rewrite Ek, Cj. reflexivity.
  - intros j Nj Cj. rewrite MG, (Other j Nj). destruct (smem j dropped_columns) eqn:SM; [reflexivity|].
    destruct Cj as [Cj|Cj]; [apply smem_In in Cj; congruence|]. rewrite Ek, Cj. reflexivity.
Qed.
Print Assumptions C129_provenance.

Example C129_example : forall nearest, nearest_spec nearest ->
  exists out v at',
    extract_tidegauge_meta nearest plain_labels field [("units", AStr "m"); ("name", AStr "sea level")]
      (fun _ => [("Country", AStr "United States"); ("lat", ANum (Fin 10)); ("lon", ANum (Fin 0))]) []
      (CArr "geolon" grid_x) (CArr "geolat" grid_y) (Some (one_site 10 0)) None (Some (Fin 50)) true = Ok out /\
    dget "SITE" out = Some (v, at') /\ dget "name" at' = Some (AStr "SITE") /\ dget "units" at' = Some (AStr "m") /\
    dget "Country" at' = Some (AStr "United States") /\ dget "lat" at' = None /\ dget "real_coords" at' = Some (ACoords (Fin 10, Fin 0)) /\
    dget "dims" at' = Some (ADims ["yh"; "xh"]).
Proof.
  intros nearest NS. set (at0 := [("units", AStr "m"); ("name", AStr "sea level")]).
  set (cols := fun _ : string => [("Country", AStr "United States"); ("lat", ANum (Fin 10)); ("lon", ANum (Fin 0))]).
  destruct (C53_example nearest NS) as (out0 & v0 & E & _ & G0 & _).
  rewrite (C129_values nearest plain_labels field at0 cols) in E. apply bind_inv in E as (out & E & M). apply Ok_inj in M.
  assert (G : exists v at', dget "SITE" out = Some (v, at')).
  { subst out0. clear -G0. induction out as [|[k [v b]] l IH]; [discriminate G0|]. cbn [map dget fst snd] in *.
    destruct (String.eqb "SITE" k); [exists v, b; reflexivity|exact (IH G0)]. }
  destruct G as (v & at' & G). exists out, v, at'. split; [exact E|]. split; [exact G|].
  assert (N : NoDup (map fst (frows (one_site 10 0)))) by (repeat constructor; cbn; tauto).
  destruct (C129_provenance nearest plain_labels field at0 cols [] _ _ None _ _ grid_x grid_y grid_dims (one_site 10 0) (Some (Fin 50)) true out NS
     (grid_ok None ltac:(discriminate)) N ltac:(intros s; cbn; repeat constructor; cbn; intuition discriminate) E "SITE" v at' G)
    as (s & q & c & p & Is & _ & Lq & _ & _ & A1 & _ & _ & A2 & A3 & _ & K1 & K2).
  destruct Is as [<-|[]]. destruct Lq as [L1 L2], q as [u w]. injection L1 as <-. injection L2 as <-.
  split; [exact A1|]. split.
  { rewrite (K2 "units"); [reflexivity|cbn; intuition discriminate|right; reflexivity]. }
  split; [apply K1; [cbn; intuition discriminate|cbn; intuition discriminate|reflexivity]|]. split.
  { rewrite (K2 "lat"); [reflexivity|cbn; intuition discriminate|left; cbn; tauto]. }
  split; [exact A2|exact A3].
Qed.
