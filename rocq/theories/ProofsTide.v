(** * ProofsTide: extract_tidegauge *)
From Coq Require Import Reals Lra Lia List String Bool Arith FunctionalExtensionality.
From Verif Require Import Num NumFacts Py Arr ArrFacts Util Geo SpecGeo ProofsFields ProofsUtil ProofsGeo ProofsGeo2.
Import ListNotations.

(** ** Positions and labels *)
Lemma positions_In ds : forall p, In p (positions ds) <-> Forall2 (fun dn i => (i < snd dn)%nat) ds p.
Proof.
  induction ds as [|[d n] ds IH]; intros p; cbn [positions].
  - split; [intros [<- | []]; constructor|intros H; inversion H; left; reflexivity].
  - rewrite in_flat_map. split.
    + intros (i & Hi & H). apply in_seq in Hi. apply in_map_iff in H. destruct H as (p' & <- & H).
      constructor; [cbn; lia|apply IH; exact H].
    + intros H. inversion H as [|? i ? p' A B]; subst. exists i. split; [apply in_seq; cbn in A; lia|].
      apply in_map. apply IH. exact B.
Qed.

Lemma place_out ds : forall p e d, ~ In d (map fst ds) -> place ds p e d = e d.
Proof.
  induction ds as [|[d' n] ds IH]; intros p e d H; [destruct p; reflexivity|].
  destruct p as [|i p]; [reflexivity|]. cbn [place]. cbn in H. rewrite IH by tauto. apply upd_other. tauto.
Qed.
Lemma place_in ds : forall p e e' d, NoDup (map fst ds) -> List.length p = List.length ds -> In d (map fst ds) ->
  place ds p e d = place ds p e' d.
Proof.
  induction ds as [|[d' n] ds IH]; intros p e e' d N H I; [destruct I|].
  destruct p as [|i p]; [discriminate|]. cbn [place]. inversion N as [|? ? N1 N2]; subst. cbn in I.
  destruct (in_dec string_dec d (map fst ds)) as [J|J].
  - apply IH; auto.
  - rewrite !place_out by exact J. destruct I as [-> | I]; [rewrite !upd_same; reflexivity|contradiction].
Qed.
Lemma place_overlay ds p e e' : NoDup (map fst ds) -> List.length p = List.length ds ->
  place ds p e = overlay ds (place ds p e') e.
Proof.
  intros N H. apply functional_extensionality. intros d. unfold overlay.
  destruct (in_dec string_dec d (map fst ds)) as [I|I]; [apply place_in; assumption|apply place_out; exact I].
Qed.
Lemma place_inrange ds : forall p e, NoDup (map fst ds) -> Forall2 (fun dn i => (i < snd dn)%nat) ds p -> inrange ds (place ds p e).
Proof.
  induction ds as [|[d n] ds IH]; intros p e N H; [intros d n []|].
  inversion H as [|? i ? p' A B]; subst. inversion N as [|? ? N1 N2]; subst. intros d' n' [E | I].
  - injection E as <- <-. cbn [place]. rewrite place_out by exact N1. rewrite upd_same. exact A.
  - cbn [place]. apply (IH p' (upd e d i) N2 B d' n' I).
Qed.
(** the position tuple of an in-range index *)
Definition tuple (ds : list (string * nat)) (c : index) : list nat := map (fun dn => c (fst dn)) ds.
Lemma tuple_F2 ds c : inrange ds c -> Forall2 (fun dn i => (i < snd dn)%nat) ds (tuple ds c).
Proof.
  unfold tuple. induction ds as [|[d n] ds IH]; intros H; cbn [map]; constructor.
  - apply H. left. reflexivity.
  - apply IH. intros d' n' I. apply H. right. exact I.
Qed.
Lemma place_tuple ds c e d : NoDup (map fst ds) -> In d (map fst ds) -> place ds (tuple ds c) e d = c d.
Proof.
  revert e. induction ds as [|[d' n] ds IH]; intros e N I; [destruct I|]. inversion N as [|? ? N1 N2]; subst.
  cbn [tuple map place fst]. fold (tuple ds c). destruct (in_dec string_dec d (map fst ds)) as [J|J].
  - apply IH; assumption.
  - rewrite place_out by exact J. destruct I as [<- | I]; [apply upd_same|contradiction].
Qed.

Lemma label_inj lab ds : unique_labels lab ds -> forall p p',
  Forall2 (fun dn i => (i < snd dn)%nat) ds p -> Forall2 (fun dn i => (i < snd dn)%nat) ds p' ->
  label_of lab ds p = label_of lab ds p' -> p = p'.
Proof.
  induction ds as [|[d n] ds IH]; intros U p p' H H' E; inversion H as [|? i ? q A B]; inversion H' as [|? i' ? q' A' B']; subst; [reflexivity|].
  cbn [label_of] in E. injection E as E1 E2. f_equal.
  - apply (U d n); [left; reflexivity|exact A|exact A'|exact E1].
  - apply IH; try assumption. intros d' n' I. apply U. right. exact I.
Qed.

Lemma label_place lab ds : forall p e, NoDup (map fst ds) -> Forall2 (fun dn i => (i < snd dn)%nat) ds p ->
  label_of lab ds p = map (fun d => lab d (place ds p e d)) (map fst ds).
Proof.
  induction ds as [|[d n] ds IH]; intros p e N H; inversion H as [|? i ? q A B]; subst; [reflexivity|].
  inversion N as [|? ? N1 N2]; subst. cbn [label_of map fst place]. f_equal.
  - rewrite place_out by exact N1. rewrite upd_same. reflexivity.
  - apply IH; assumption.
Qed.

(** ** The concatenated frame *)
Lemma lkey_eqb_true a b : lkey_eqb a b = true <-> a = b.
Proof. unfold lkey_eqb. destruct (list_eq_dec Nat.eq_dec a b); split; congruence. Qed.
Lemma index_union_same a : index_union a a = a.
Proof.
  unfold index_union.
  assert (H : forall l, (forall k, In k l -> In k a) -> filter (fun k => negb (existsb (lkey_eqb k) a)) l = []).
  { induction l as [|k l IH]; intros I; [reflexivity|]. cbn [filter].
    assert (E : existsb (lkey_eqb k) a = true).
    { apply existsb_exists. exists k. split; [apply I; left; reflexivity|apply lkey_eqb_true; reflexivity]. }
    rewrite E. cbn [negb]. apply IH. intros k' J. apply I. right. exact J. }
  rewrite H; [apply app_nil_r|auto].
Qed.
Lemma lkget_map (f : list nat -> list nat) (v : list nat -> fval) l p :
  In p l -> (forall p', In p' l -> f p' = f p -> p' = p) -> lkget (f p) (map (fun q => (f q, v q)) l) = v p.
Proof.
  induction l as [|q l IH]; intros I J; [destruct I|]. cbn [map lkget].
  destruct (lkey_eqb (f p) (f q)) eqn:E.
  - apply lkey_eqb_true in E. symmetry in E. apply J in E; [subst; reflexivity|left; reflexivity].
  - destruct I as [-> | I]; [rewrite (proj2 (lkey_eqb_true (f p) (f p)) eq_refl) in E; discriminate|].
    apply IH; [exact I|]. intros p' I'. apply J. right. exact I'.
Qed.

Section Frame.
  Variables (lab : labels) (ds : list (string * nat)) (x y m : arr) (xn yn : string).
  Hypothesis ND : NoDup (map fst ds).
  Hypothesis U : unique_labels lab ds.
  Hypothesis Dx : adims x = ds.
  Hypothesis Dy : adims y = ds.
  Hypothesis Dm : adims m = ds.

  Definition model_frame := concat3 xn yn "mask" (to_dataframe lab x) (to_dataframe lab y) (to_dataframe lab m).
  Definition zero_index : index := fun _ => O.

  Lemma frame_rows : frows model_frame =
    map (fun p => (label_of lab ds p, [(xn, at_ x (place ds p zero_index)); (yn, at_ y (place ds p zero_index));
                                       ("mask"%string, at_ m (place ds p zero_index))])) (positions ds).
  Proof.
    unfold model_frame, concat3. cbn [frows]. unfold to_dataframe at 4 5 6. rewrite !map_map, Dx, Dy, Dm. cbn [fst].
    rewrite !index_union_same, map_map. apply map_ext_in. intros p I.
    assert (J : forall p', In p' (positions ds) -> label_of lab ds p' = label_of lab ds p -> p' = p).
    { intros p' I' E. apply (label_inj lab ds U); [apply positions_In; exact I'|apply positions_In; exact I|exact E]. }
    unfold to_dataframe. rewrite Dx, Dy, Dm.
    rewrite (lkget_map (label_of lab ds) (fun p => at_ x (place ds p (fun _ => O))) (positions ds) p I J).
    rewrite (lkget_map (label_of lab ds) (fun p => at_ y (place ds p (fun _ => O))) (positions ds) p I J).
    rewrite (lkget_map (label_of lab ds) (fun p => at_ m (place ds p (fun _ => O))) (positions ds) p I J).
    reflexivity.
  Qed.

  Hypothesis Nxy : xn <> yn.
  Hypothesis Nx : xn <> "mask"%string.
  Hypothesis Ny : yn <> "mask"%string.

  Lemma row_cols {L} (k : L) a b c :
    let r := (k, [(xn, a); (yn, b); ("mask"%string, c)]) in colv xn r = a /\ colv yn r = b /\ colv "mask" r = c.
  Proof.
    unfold colv. cbn [snd dget]. rewrite !String.eqb_refl.
    rewrite (proj2 (String.eqb_neq yn xn)) by congruence.
    rewrite (proj2 (String.eqb_neq "mask"%string xn)) by congruence.
    rewrite (proj2 (String.eqb_neq "mask"%string yn)) by congruence. auto.
  Qed.

  (** selectable rows are the wet cells *)
  Lemma selectable_cell row : selectable model_frame true row <->
    exists p, Forall2 (fun dn i => (i < snd dn)%nat) ds p /\ at_ m (place ds p zero_index) = Fin 1 /\
      row = (label_of lab ds p, [(xn, at_ x (place ds p zero_index)); (yn, at_ y (place ds p zero_index));
                                 ("mask"%string, at_ m (place ds p zero_index))]).
  Proof.
    unfold selectable. rewrite frame_rows, in_map_iff. split.
    - intros ((p & <- & I) & H). exists p. split; [apply positions_In; exact I|]. split; [|reflexivity].
      specialize (H eq_refl). assert (J : In "mask"%string (fcols model_frame)) by (cbn; tauto).
      specialize (H J). destruct (row_cols (label_of lab ds p) (at_ x (place ds p zero_index)) (at_ y (place ds p zero_index)) (at_ m (place ds p zero_index))) as (_ & _ & E).
      rewrite E in H. exact H.
    - intros (p & F & W & ->). split; [exists p; split; [reflexivity|apply positions_In; exact F]|].
      intros _ _. destruct (row_cols (label_of lab ds p) (at_ x (place ds p zero_index)) (at_ y (place ds p zero_index)) (at_ m (place ds p zero_index))) as (_ & _ & E).
      rewrite E. exact W.
  Qed.
End Frame.

(** ** Extraction *)
Lemma find_seq (f : nat -> bool) n i : (i < n)%nat -> f i = true -> (forall j, (j < n)%nat -> f j = true -> j = i) ->
  find f (seq 0 n) = Some i.
Proof.
  intros Hi Fi Hu. destruct (find f (seq 0 n)) as [j|] eqn:E.
  - apply find_some in E. destruct E as [I F]. apply in_seq in I. f_equal. apply Hu; [lia|exact F].
  - exfalso. assert (f i = false) by (apply (find_none _ _ E i); apply in_seq; lia). congruence.
Qed.
Lemma upd_place ds : forall p e d k, ~ In d (map fst ds) -> upd (place ds p e) d k = place ds p (upd e d k).
Proof.
  induction ds as [|[d' n] ds IH]; intros p e d k H; [destruct p; reflexivity|]. destruct p as [|i p]; [reflexivity|].
  cbn [place]. cbn in H. rewrite IH by tauto. f_equal. apply upd_comm. tauto.
Qed.
Definition drop_all (ns : list string) (ds : list (string * nat)) : list (string * nat) :=
  fold_left (fun l d => drop_dim d l) ns ds.

Lemma sel_place lab : forall ds p a, NoDup (map fst ds) -> unique_labels lab ds ->
  Forall2 (fun dn i => (i < snd dn)%nat) ds p ->
  (forall d n, In (d, n) ds -> dget d (adims a) = Some n) ->
  exists v, sel lab (combine (map fst ds) (label_of lab ds p)) a = Ok v /\
    adims v = drop_all (map fst ds) (adims a) /\ forall e, at_ v e = at_ a (place ds p e).
Proof.
  induction ds as [|[d n] ds IH]; intros p a N U F S; inversion F as [|? i ? p' A B]; subst.
  - exists a. cbn. auto.
  - inversion N as [|? ? N1 N2]; subst. cbn [map label_of combine sel fst].
    unfold sel1. rewrite (S d n (or_introl eq_refl)). cbn [snd] in A.
    rewrite (find_seq (fun j => Nat.eqb (lab d j) (lab d i)) n i A (Nat.eqb_refl _)).
    2:{ intros j Hj E. apply Nat.eqb_eq in E. apply (U d n (or_introl eq_refl) j i Hj A E). }
    cbn [bind]. set (b := mkArr _ _).
    destruct (IH p' b N2) as (v & E & D & V).
    + intros d' n' I. apply U. right. exact I.
    + exact B.
    + intros d' n' I. unfold b. cbn [adims]. rewrite dget_drop; [apply S; right; exact I|].
      intros ->. apply N1. apply (in_map fst) in I. exact I.
    + exists v. split; [exact E|]. split; [exact D|]. intros e. rewrite V. unfold b. cbn [at_].
      rewrite upd_place by exact N1. reflexivity.
Qed.

(** ** Collecting results *)
Lemma dget_dset_same {A} k (v : A) d : dget k (dset k v d) = Some v.
Proof.
  induction d as [|[k' v'] d IH]; cbn [dset dget]; [rewrite String.eqb_refl; reflexivity|].
  destruct (String.eqb k k') eqn:E; cbn [dget]; rewrite E; [reflexivity|exact IH].
Qed.
Lemma dget_dset_other {A} k k' (v : A) d : k <> k' -> dget k' (dset k v d) = dget k' d.
Proof.
  intros N. induction d as [|[q w] d IH]; cbn [dset dget].
  - rewrite (proj2 (String.eqb_neq k' k)) by congruence. reflexivity.
  - destruct (String.eqb k q) eqn:E; cbn [dget].
    + apply String.eqb_eq in E. subst q. rewrite (proj2 (String.eqb_neq k' k)) by congruence. reflexivity.
    + rewrite IH. reflexivity.
Qed.
Lemma dkeys_dset_In {A} k (v : A) d x : In x (dkeys (dset k v d)) <-> x = k \/ In x (dkeys d).
Proof.
  induction d as [|[q w] d IH]; cbn [dset dkeys map fst In]; [intuition|].
  destruct (String.eqb k q) eqn:E; cbn [map fst In].
  - apply String.eqb_eq in E. subst q. intuition congruence.
  - fold (dkeys (dset k v d)). rewrite IH. fold (dkeys d). intuition congruence.
Qed.
Definition collect {A} (l : list (string * A)) (d : dict A) : dict A := fold_left (fun d p => dset (fst p) (snd p) d) l d.
Lemma collect_keys {A} (l : list (string * A)) : forall d x, In x (dkeys (collect l d)) <-> In x (map fst l) \/ In x (dkeys d).
Proof.
  induction l as [|[k v] l IH]; intros d x; cbn [collect fold_left map fst snd In]; [tauto|].
  fold (collect l (dset k v d)). rewrite IH, dkeys_dset_In. intuition congruence.
Qed.
Lemma collect_get {A} (l : list (string * A)) : forall d k v, NoDup (map fst l) -> In (k, v) l -> dget k (collect l d) = Some v.
Proof.
  induction l as [|[k' v'] l IH]; intros d k v N I; [destruct I|]. inversion N as [|? ? N1 N2]; subst.
  cbn [collect fold_left fst snd]. fold (collect l (dset k' v' d)). destruct I as [E | I].
  - injection E as <- <-.
    assert (K : forall (l : list (string * A)) (d : dict A), ~ In k' (map fst l) -> dget k' (collect l d) = dget k' d).
    { clear. induction l as [|[q w] l IH]; intros d H; [reflexivity|]. cbn [collect fold_left fst snd].
      fold (collect l (dset q w d)). cbn in H. rewrite IH by tauto. apply dget_dset_other. tauto. }
    rewrite K by exact N1. apply dget_dset_same.
  - apply IH; assumption.
Qed.

Lemma denotes_get coords c n a : denotes coords c n a -> get_coord coords c = Ok (n, a).
Proof.
  destruct c; cbn [denotes get_coord]; [intros [-> ->]|intros [-> ->]|intros []]; reflexivity.
Qed.

Section Extract.
  Variables (nearest : list point -> point -> nat) (lab : labels) (a : arr) (coords : dict arr)
    (xcoord ycoord : carg) (xn yn : string) (x y : arr) (ds : list (string * nat)) (mask : option arr)
    (locs : frame string) (th : option fval) (dw : bool).
  Hypothesis NS : nearest_spec nearest.
  Hypothesis Hx : denotes coords xcoord xn x.
  Hypothesis Hy : denotes coords ycoord yn y.
  Hypothesis Dx : adims x = ds.
  Hypothesis Dy : adims y = ds.
  Hypothesis Wx : wf_arr x.
  Hypothesis Wy : wf_arr y.
  Hypothesis Hmask : forall m, mask = Some m -> adims m = ds /\ wf_arr m.
  Hypothesis Hrank : List.length ds <> 1%nat.
  Hypothesis Nxy : xn <> yn.
  Hypothesis Nx : xn <> "mask"%string.
  Hypothesis Ny : yn <> "mask"%string.
  Hypothesis U : unique_labels lab ds.
  Hypothesis Ha : forall d n, In (d, n) ds -> dget d (adims a) = Some n.

  Lemma ND : NoDup (map fst ds).
  Proof. destruct Wx as [W _]. unfold names in W. rewrite Dx in W. exact W. Qed.

  Definition emask : arr := match mask with
              | Some m => amap (fun v => fillna v (Fin 0)) m
              | None => amap (fun _ => Fin 1) x
              end.
  Lemma Dm : adims emask = ds.
  Proof. unfold emask. destruct mask as [m|]; cbn [amap adims]; [apply (Hmask m eq_refl)|exact Dx]. Qed.
  Lemma emask_wet c : at_ emask c = Fin 1 <-> wet mask c.
  Proof.
    unfold emask, wet. destruct mask as [m|]; cbn [amap at_]; [|split; auto].
    unfold fillna. destruct (at_ m c) as [|s|v]; cbn [isnull]; split; try discriminate; auto.
    intros E. injection E as E. lra.
  Qed.
  Lemma at_place (b : arr) c e : adims b = ds -> wf_arr b -> at_ b (place ds (tuple ds c) e) = at_ b c.
  Proof.
    intros D [_ W]. apply W. unfold names. rewrite D. intros d I. apply place_tuple; [exact ND|exact I].
  Qed.
  Lemma wet_place c e : wet mask (place ds (tuple ds c) e) <-> wet mask c.
  Proof.
    unfold wet. destruct mask as [m|] eqn:E; [|tauto]. destruct (Hmask m eq_refl) as [D W].
    rewrite at_place by assumption. tauto.
  Qed.

  Let mf := model_frame lab x y emask xn yn.

  Lemma extract_unfold :
    extract_tidegauge nearest lab a coords xcoord ycoord (Some locs) mask th dw =
    let* mapped := geolocate_points nearest mf locs th (yn, xn) (Fin 6378) ("lat"%string, "lon"%string) true dw in
    let* pts := mapM (fun row => let* v := extract_point lab a (map fst ds) row in Ok (o_name row, v)) (fst mapped) in
    Ok (collect pts []).
  Proof.
    unfold extract_tidegauge, tidegauge_rows. rewrite (denotes_get _ _ _ _ Hx), (denotes_get _ _ _ _ Hy). cbn [bind fst snd].
    unfold ndim. rewrite Dx, Dy, Nat.eqb_refl. cbn [assert_ bind].
    rewrite (proj2 (Nat.eqb_neq _ _) Hrank). cbn [bind fst snd].
    destruct (list_eq_dec string_dec (names x) (names x)) as [_|C]; [|contradiction]. cbn [assert_ bind].
    unfold names. rewrite Dx. destruct (geolocate_points _ _ _ _ _ _ _ _ _); reflexivity.
  Qed.

  Let site := (string * dict fval)%type.

  (** what a mapped row says, in terms of cells *)
  Lemma site_cell_full s o : site_ok mf true (yn, xn) ("lat"%string, "lon"%string) 6378 s o ->
    exists q c p v, located ("lat"%string, "lon"%string) s q /\ nearest_wet ds x y mask q c p /\
      o_name o = fst s /\ o_distance o = Fin (6378 * central_angle p q) /\
      extract_point lab a (map fst ds) o = Ok v /\
      adims v = drop_all (map fst ds) (adims a) /\ (forall e, at_ v e = at_ a (overlay ds c e)) /\
      o_dim_vals o = map (fun d => lab d (c d)) (map fst ds) /\ o_model_coords o = (Fin (fst p), Fin (snd p)) /\
      o_real_coords o = (Fin (fst q), Fin (snd q)).
  Proof.
    intros (row & p & q & E & Lp & Lq & On & Od & Ov & Om & Or & Mn).
    assert (I : In row (chosen mf true)) by (eapply nth_error_In; exact E).
    apply chosen_In in I.
    unfold mf in I. apply (selectable_cell lab ds x y emask xn yn U Dx Dy Dm Nxy Nx Ny) in I.
    destruct I as (t & F & W & ->).
    destruct (row_cols xn yn Nxy Nx Ny (label_of lab ds t) (at_ x (place ds t zero_index)) (at_ y (place ds t zero_index)) (at_ emask (place ds t zero_index))) as (C1 & C2 & _).
    unfold located in Lp. cbn [fst snd] in Lp. rewrite C1, C2 in Lp. destruct Lp as [Ly Lx].
    destruct (sel_place lab ds t a ND U F Ha) as (v & Ev & Dv & Vv).
    exists q, (place ds t zero_index), p, v.
    split; [exact Lq|]. split.
    - split; [apply place_inrange; [exact ND|exact F]|]. split; [apply emask_wet; exact W|].
      split; [exact Ly|]. split; [exact Lx|].
      intros c' p' R' W' Y' X'.
      set (row' := (label_of lab ds (tuple ds c'), [(xn, at_ x (place ds (tuple ds c') zero_index)); (yn, at_ y (place ds (tuple ds c') zero_index)); ("mask"%string, at_ emask (place ds (tuple ds c') zero_index))])).
      destruct (Mn row') as (p2 & L2 & M2).
      { apply chosen_In. apply (selectable_cell lab ds x y emask xn yn U Dx Dy Dm Nxy Nx Ny). exists (tuple ds c').
        split; [apply tuple_F2; exact R'|]. split; [|reflexivity]. apply emask_wet, wet_place. exact W'. }
      destruct (row_cols xn yn Nxy Nx Ny (label_of lab ds (tuple ds c')) (at_ x (place ds (tuple ds c') zero_index)) (at_ y (place ds (tuple ds c') zero_index)) (at_ emask (place ds (tuple ds c') zero_index))) as (D1 & D2 & _).
      unfold located in L2. cbn [fst snd] in L2. fold row' in D1, D2. rewrite D1, D2 in L2.
      rewrite (at_place y) in L2 by assumption. rewrite (at_place x) in L2 by assumption.
      destruct L2 as [Y2 X2]. rewrite Y' in Y2. rewrite X' in X2. injection Y2 as Y2. injection X2 as X2.
      destruct p' as [u w], p2 as [u2 w2]. cbn [fst snd] in *. subst. exact M2.
    - split; [exact On|]. split; [exact Od|]. split; [unfold extract_point; rewrite Ov; exact Ev|]. split; [exact Dv|]. split; [|split; [|split]].
      + intros e. rewrite Vv. rewrite (place_overlay ds t e zero_index ND); [reflexivity|].
        symmetry. apply (F2_length _ _ _ F).
      + rewrite Ov. cbn [fst]. apply label_place; [exact ND|exact F].
      + exact Om.
      + destruct Lq as [Lq1 Lq2]. cbn [fst snd] in Lq1, Lq2. rewrite Or, Lq1, Lq2. reflexivity.
  Qed.

  Lemma site_cell s o : site_ok mf true (yn, xn) ("lat"%string, "lon"%string) 6378 s o ->
    exists q c p v, located ("lat"%string, "lon"%string) s q /\ nearest_wet ds x y mask q c p /\
      o_name o = fst s /\ o_distance o = Fin (6378 * central_angle p q) /\
      extract_point lab a (map fst ds) o = Ok v /\
      adims v = drop_all (map fst ds) (adims a) /\ forall e, at_ v e = at_ a (overlay ds c e).
  Proof.
    intros S0. destruct (site_cell_full s o S0) as (q & c & p & v & A & B & C & D & E & F & G & _).
    exists q, c, p, v. repeat (split; [assumption|]). assumption.
  Qed.

  Lemma extract_spec out : NoDup (map fst (frows locs)) ->
    extract_tidegauge nearest lab a coords xcoord ycoord (Some locs) mask th dw = Ok out ->
    (forall s, In s (frows locs) ->
       exists q c p, located ("lat"%string, "lon"%string) s q /\ nearest_wet ds x y mask q c p /\
         (within th (6378 * central_angle p q) ->
            exists v, dget (fst s) out = Some v /\ adims v = drop_all (map fst ds) (adims a) /\
                      forall e, at_ v e = at_ a (overlay ds c e)) /\
         (~ within th (6378 * central_angle p q) -> dget (fst s) out = None)) /\
    (forall k, In k (dkeys out) -> In k (map fst (frows locs))).
  Proof.
    intros NDl H. rewrite extract_unfold in H.
    apply bind_inv in H. destruct H as ([rows warned] & G & H). cbn [fst] in H.
    apply bind_inv in H. destruct H as (pts & Hp & H). apply Ok_inj in H. subst out.
    destruct (geolocate_inv nearest mf locs th (yn, xn) 6378 ("lat"%string, "lon"%string) true dw rows warned NS G) as (full & Hf & Hr & _).
    apply mapM_F2 in Hp.
    assert (Names : map fst pts = map o_name rows).
    { clear -Hp. induction Hp as [|o pt rows pts E Hp IH]; [reflexivity|]. cbn [map]. rewrite IH. f_equal.
      apply bind_inv in E. destruct E as (v & _ & E). apply Ok_inj in E. subst pt. reflexivity. }
    assert (Full : map o_name full = map fst (frows locs)).
    { clear -Hf. induction Hf as [|s o l l' E Hf IH]; [reflexivity|]. cbn [map]. rewrite IH. f_equal.
      destruct E as (? & ? & ? & _ & _ & _ & E & _). exact E. }
    assert (Sub : forall o, In o rows -> In o full).
    { intros o I. rewrite Hr in I. destruct th; [apply filter_In in I; tauto|exact I]. }
    assert (NDf : NoDup (map o_name full)) by (rewrite Full; exact NDl).
    assert (NDr : NoDup (map fst pts)).
    { rewrite Names, Hr. destruct th; [apply NoDup_map_filter; exact NDf|exact NDf]. }
    split.
    - intros s I. destruct (F2_In_l _ _ _ s Hf I) as (o & Io & So).
      destruct (site_cell s o So) as (q & c & p & v & Lq & NW & On & Od & Ev & Dv & Vv).
      exists q, c, p. split; [exact Lq|]. split; [exact NW|].
      assert (In_rows : In o rows <-> within th (6378 * central_angle p q)).
      { rewrite Hr. unfold within. destruct th as [t|]; [|tauto]. rewrite filter_In, Od. tauto. }
      split.
      + intros Wi. apply In_rows in Wi. destruct (F2_In_l _ _ _ o Hp Wi) as ([k w] & Ip & E).
        rewrite Ev in E. cbn [bind] in E. apply Ok_inj in E. injection E as <- <-. exists v.
        split; [rewrite <- On; apply collect_get; assumption|]. split; [exact Dv|exact Vv].
      + intros Wn. apply dget_None. intros J. apply collect_keys in J. destruct J as [J|[]].
        rewrite Names in J. apply in_map_iff in J. destruct J as (o' & E' & I').
        assert (o' = o).
        { apply Sub in I'. assert (E : o_name o' = o_name o) by congruence. clear -NDf E I' Io. revert NDf I' Io E. induction full as [|z l IH]; intros N A B E; [destruct A|].
          inversion N as [|? ? N1 N2]; subst. destruct A as [-> | A], B as [-> | B].
          - reflexivity.
          - exfalso. apply N1. rewrite E. apply in_map. exact B.
          - exfalso. apply N1. rewrite <- E. apply in_map. exact A.
          - apply IH; assumption. }
        subst o'. apply Wn. apply In_rows. exact I'.
    - intros k J. apply collect_keys in J. destruct J as [J|[]]. rewrite Names in J. rewrite <- Full.
      apply in_map_iff in J. destruct J as (o & <- & I). apply in_map. apply Sub. exact I.
  Qed.

  Lemma extract_ok :
    In "lat"%string (fcols locs) -> In "lon"%string (fcols locs) -> frows locs <> [] ->
    (forall s, In s (frows locs) -> exists q, located ("lat"%string, "lon"%string) s q) ->
    (exists c, inrange ds c /\ wet mask c) ->
    (forall c, inrange ds c -> wet mask c -> exists la lo, at_ y c = Fin la /\ at_ x c = Fin lo) ->
    (dw = false -> th <> None) ->
    exists out, extract_tidegauge nearest lab a coords xcoord ycoord (Some locs) mask th dw = Ok out.
  Proof.
    intros C1 C2 Hne Hl Hw Hc Ht. rewrite extract_unfold.
    destruct (geolocate_ok nearest mf locs th (yn, xn) 6378 ("lat"%string, "lon"%string) true dw) as (rows & warned & G); auto.
    - cbn. tauto.
    - cbn. tauto.
    - destruct Hw as (c & R & W). eexists. apply (selectable_cell lab ds x y emask xn yn U Dx Dy Dm Nxy Nx Ny).
      exists (tuple ds c). split; [apply tuple_F2; exact R|]. split; [|reflexivity]. apply emask_wet, wet_place. exact W.
    - intros row I. apply (selectable_cell lab ds x y emask xn yn U Dx Dy Dm Nxy Nx Ny) in I. destruct I as (t & F & W & ->).
      destruct (Hc (place ds t zero_index)) as (la & lo & Y & X); [apply place_inrange; [exact ND|exact F]|apply emask_wet; exact W|].
      destruct (row_cols xn yn Nxy Nx Ny (label_of lab ds t) (at_ x (place ds t zero_index)) (at_ y (place ds t zero_index)) (at_ emask (place ds t zero_index))) as (D1 & D2 & _).
      exists (la, lo). unfold located. cbn [fst snd]. rewrite D1, D2. auto.
    - rewrite G. cbn [bind fst].
      destruct (geolocate_inv nearest mf locs th (yn, xn) 6378 ("lat"%string, "lon"%string) true dw rows warned NS G) as (full & Hf & Hr & _).
      destruct (F2_ex (fun row y => (let* v := extract_point lab a (map fst ds) row in Ok (o_name row, v)) = Ok y) rows) as [pts Hp].
      + intros o I. assert (J : In o full) by (rewrite Hr in I; destruct th; [apply filter_In in I; tauto|exact I]).
        assert (K : exists s, site_ok mf true (yn, xn) ("lat"%string, "lon"%string) 6378 s o).
        { clear -Hf J. induction Hf as [|s o' l l' E Hf IH]; [destruct J|]. destruct J as [-> | J]; [exists s; exact E|auto]. }
        destruct K as [s K]. destruct (site_cell s o K) as (q & c & p & v & _ & _ & _ & _ & Ev & _).
        rewrite Ev. eexists. reflexivity.
      + apply mapM_F2 in Hp. rewrite Hp. cbn [bind]. eexists. reflexivity.
  Qed.
End Extract.
