(** * PropertiesMeta: C110, C111 *)
From Coq Require Import Reals List String Ascii Bool Arith Lia.
From Verif Require Import Num Py Arr ArrFacts Dataset Calendar TimeAvg ProofsUtil ProofsTide Meta ProofsAvg2 ProofsStericAnnual PropertiesTime.
Import ListNotations.
Local Open Scope string_scope.

Lemma set_attrs_get n a x k : dget k (x_vars (set_attrs n a x)) =
  match dget k (x_vars x) with
  | Some m => Some (if String.eqb n k then mkMeta a (m_enc m) else m)
  | None => None
  end.
Proof.
  unfold set_attrs; cbn [x_vars]. induction (x_vars x) as [|[k' m] l IH]; [reflexivity|].
  cbn [map fst snd dget]. destruct (String.eqb_spec n k') as [<-|N]; cbn [dget].
  - destruct (String.eqb_spec k n) as [->|K].
    + rewrite String.eqb_refl. reflexivity.
    + exact IH.
  - destruct (String.eqb_spec k k') as [->|K]; [|exact IH].
    destruct (String.eqb_spec n k'); [contradiction|reflexivity].
Qed.

Lemma set_enc_get n e v x k : dget k (x_vars (set_enc n e v x)) =
  match dget k (x_vars x) with
  | Some m => Some (if String.eqb n k then mkMeta (m_attrs m) (dset e v (m_enc m)) else m)
  | None => None
  end.
Proof.
  unfold set_enc; cbn [x_vars]. induction (x_vars x) as [|[k' m] l IH]; [reflexivity|].
  cbn [map fst snd dget]. destruct (String.eqb_spec n k') as [<-|N]; cbn [dget].
  - destruct (String.eqb_spec k n) as [->|K].
    + rewrite String.eqb_refl. reflexivity.
    + exact IH.
  - destruct (String.eqb_spec k k') as [->|K]; [|exact IH].
    destruct (String.eqb_spec n k'); [contradiction|reflexivity].
Qed.

(** Loops that set attributes: each name visited gets [f name], the others and all encodings
    stay. *)
Lemma loop_get (f : string -> attrs) (g : string -> bool) : forall l x k,
  dget k (x_vars (fold_left (fun r v => if g v then set_attrs v (f v) r else r) l x)) =
  match dget k (x_vars x) with
  | Some m => Some (if smem k l && g k then mkMeta (f k) (m_enc m) else m)
  | None => None
  end.
Proof.
  induction l as [|v l IH]; intros x k; cbn [fold_left].
  - destruct (dget k (x_vars x)); reflexivity.
  - rewrite IH. destruct (g v) eqn:G.
    + rewrite set_attrs_get. destruct (dget k (x_vars x)) as [m|]; [|reflexivity].
      cbn [smem existsb]. rewrite (String.eqb_sym v k).
      destruct (String.eqb_spec k v) as [->|N]; cbn [orb m_enc].
      * rewrite G. fold (smem v l). destruct (smem v l); reflexivity.
      * reflexivity.
    + destruct (dget k (x_vars x)) as [m|]; [|reflexivity]. cbn [smem existsb].
      destruct (String.eqb_spec k v) as [->|N]; cbn [orb]; [|reflexivity].
      rewrite G, andb_false_r. reflexivity.
Qed.

Lemma loop_rest (f : string -> attrs) (g : string -> bool) : forall l x,
  let y := fold_left (fun r v => if g v then set_attrs v (f v) r else r) l x in
  x_coords y = x_coords x /\ x_dims y = x_dims x /\ x_attrs y = x_attrs x.
Proof.
  induction l as [|v l IH]; intros x y; subst y; cbn [fold_left]; [repeat split|].
  destruct (IH (if g v then set_attrs v (f v) x else x)) as (A & B & C). rewrite A, B, C.
  destruct (g v); repeat split.
Qed.

Lemma copy_get from known todo x k : dget k (x_vars (copy_attrs from known todo x)) =
  match dget k (x_vars x) with
  | Some m => Some (if smem k todo then mkMeta (if smem k known then attrs_of from k else []) (m_enc m) else m)
  | None => None
  end.
Proof.
  unfold copy_attrs. rewrite (loop_get (fun v => if smem v known then attrs_of from v else []) (fun _ => true)).
  destruct (dget k (x_vars x)); [rewrite andb_true_r|]; reflexivity.
Qed.
Lemma copy_rest from known todo x :
  let y := copy_attrs from known todo x in
  x_coords y = x_coords x /\ x_dims y = x_dims x /\ x_attrs y = x_attrs x.
Proof. apply (loop_rest (fun v => if smem v known then attrs_of from v else []) (fun _ => true)). Qed.

Lemma smem_keys {A} k (l : dict A) : smem k (dkeys l) = dmem k l.
Proof.
  unfold dmem. induction l as [|[k' v] l IH]; [reflexivity|]. cbn.
  destruct (String.eqb k k'); [reflexivity|exact IH].
Qed.

(** C111: annual_average keeps the attributes of the object and of every variable and
    coordinate, whatever the averaging left on them; a name the argument does not have
    gets none, and encodings are not touched. *)
Theorem C111_dataset : forall x raw,
  let r := annual_average_attrs true x raw in
  x_attrs r = x_attrs x /\
  forall k m, dget k (x_vars raw) = Some m ->
    exists m', dget k (x_vars r) = Some m' /\ m_enc m' = m_enc m /\
      (dget k (x_vars x) = None -> m_attrs m' = []) /\
      (forall mx, dget k (x_vars x) = Some mx ->
         (In k (x_coords raw) -> In k (x_coords x)) -> (In k (x_dims raw) -> In k (x_dims x)) ->
         m_attrs m' = m_attrs mx).
Proof.
  intros x raw r. split; [reflexivity|]. intros k m G.
  subst r. unfold annual_average_attrs; cbn [x_vars]. rewrite !copy_get, G. rewrite !smem_keys. unfold dmem. rewrite G.
  set (a := if match dget k (x_vars x) with Some _ => true | None => false end then attrs_of x k else []).
  set (b := if smem k (x_coords raw) then _ else _).
  eexists. split; [reflexivity|].
  assert (U : forall l, smem k l = true <-> In k l).
  { intros l. unfold smem. rewrite existsb_exists. split; [intros (y & Y & E); apply String.eqb_eq in E; subst; exact Y|].
    intros I; exists k; split; [exact I|apply String.eqb_refl]. }
  split; [|split].
  - destruct (smem k (x_dims raw)), (smem k (x_coords raw)); reflexivity.
  - intros N. assert (A : attrs_of x k = []) by (unfold attrs_of; rewrite N; reflexivity).
    subst b a. rewrite N. repeat match goal with |- context [if ?c then _ else _] => destruct c; cbn [m_attrs] end; auto.
  - intros mx X Hc Hd. assert (A : attrs_of x k = m_attrs mx) by (unfold attrs_of; rewrite X; reflexivity).
    subst b a. rewrite X.
    rewrite <- (U (x_coords raw)), <- (U (x_coords x)) in Hc. rewrite <- (U (x_dims raw)), <- (U (x_dims x)) in Hd.
    destruct (smem k (x_dims raw)); cbn [m_attrs]; [rewrite Hd by reflexivity; exact A|].
    destruct (smem k (x_coords raw)); cbn [m_attrs]; [rewrite Hc by reflexivity; exact A|exact A].
Qed.
Print Assumptions C111_dataset.

(** A DataArray: its own attributes and those of its coordinates. *)
Theorem C111_dataarray : forall x raw,
  let r := annual_average_attrs false x raw in
  x_attrs r = x_attrs x /\
  forall k m, dget k (x_vars raw) = Some m -> In k (x_coords raw) ->
    exists m', dget k (x_vars r) = Some m' /\ m_enc m' = m_enc m /\
      (~ In k (x_coords x) -> ~ In k (x_dims x) -> m_attrs m' = []) /\
      (forall mx, dget k (x_vars x) = Some mx -> In k (x_coords x) -> (In k (x_dims raw) -> In k (x_dims x)) ->
         m_attrs m' = m_attrs mx).
Proof.
  intros x raw r. split; [reflexivity|]. intros k m G Ic.
  subst r. unfold annual_average_attrs; cbn [x_vars]. rewrite !copy_get, G.
  assert (U : forall l, smem k l = true <-> In k l).
  { intros l. unfold smem. rewrite existsb_exists. split; [intros (y & Y & E); apply String.eqb_eq in E; subst; exact Y|].
    intros I; exists k; split; [exact I|apply String.eqb_refl]. }
  rewrite (proj2 (U _) Ic). eexists. split; [reflexivity|].
  split; [destruct (smem k (x_dims raw)); reflexivity|split].
  - intros N1 N2. rewrite <- U in N1, N2. apply Bool.not_true_is_false in N1, N2. rewrite N1, N2.
    destruct (smem k (x_dims raw)); reflexivity.
  - intros mx X I Hd. assert (A : attrs_of x k = m_attrs mx) by (unfold attrs_of; rewrite X; reflexivity).
    rewrite (proj2 (U _) I). rewrite <- (U (x_dims raw)), <- (U (x_dims x)) in Hd.
    destruct (smem k (x_dims raw)); cbn [m_attrs]; [rewrite Hd by reflexivity|]; exact A.
Qed.
Print Assumptions C111_dataarray.

(** A Dataset with an attribute of its own, a variable and a time coordinate. *)
Example C111_case :
  let x := mkX [("time", mkMeta [("long_name", "time")] []); ("tos", mkMeta [("units", "degC")] [("dtype", "float32")])]
               ["time"] ["time"] [("title", "run 7")] in
  let raw := mkX [("time", mkMeta [] []); ("tos", mkMeta [] [])] ["time"] ["time"] [] in
  let r := annual_average_attrs true x raw in
  x_attrs r = [("title", "run 7")] /\ attrs_of r "tos" = [("units", "degC")] /\ attrs_of r "time" = [("long_name", "time")].
Proof.
  intros x raw r. destruct (C111_dataset x raw) as [A B]. fold r in A, B.
  destruct (B "tos" _ eq_refl) as (m & G & _ & _ & H). destruct (B "time" _ eq_refl) as (m' & G' & _ & _ & H').
  split; [exact A|]. unfold attrs_of. rewrite G, G'.
  split; [exact (H _ eq_refl (fun Z => ltac:(cbn in Z; intuition discriminate)) (fun Z => ltac:(cbn in Z; intuition discriminate)))|].
  exact (H' _ eq_refl (fun _ => or_introl eq_refl) (fun _ => or_introl eq_refl)).
Qed.

(** C110.  The names of the data variables of a result. *)
Lemma steric_keys ds ref cn vm rz patm eos variant domain strict r ref' :
  steric ds ref cn vm rz patm eos variant domain strict = Ok (r, ref') ->
  dkeys r = [if String.eqb domain "global" then "reference_height" else "delta_rho"; variant] /\
  In variant ["thermosteric"; "halosteric"; "steric"].
Proof.
  unfold steric. intros E. apply bind_inv in E. destruct E as (d & _ & E).
  destruct (default_coords cn) as [[t z] zb].
  repeat (apply bind_inv in E; destruct E as (? & ? & E)). apply Ok_inj in E. injection E as -> <-.
  split.
  - destruct (String.eqb domain "global").
    + unfold steric_global in *. repeat match goal with H : bind _ _ = Ok r |- _ => apply bind_inv in H; destruct H as (? & _ & H) end.
      match goal with H : Ok _ = Ok r |- _ => apply Ok_inj in H; subst r end. reflexivity.
    + unfold steric_local in *. repeat match goal with H : bind _ _ = Ok r |- _ => apply bind_inv in H; destruct H as (? & _ & H) end.
      match goal with H : Ok _ = Ok r |- _ => apply Ok_inj in H; subst r end. reflexivity.
  - match goal with H : select_fields _ _ _ = Ok _ |- _ => unfold select_fields in H;
      destruct (String.eqb_spec variant "thermosteric") as [->|_]; [cbn; tauto|];
      destruct (String.eqb_spec variant "halosteric") as [->|_]; [cbn; tauto|];
      destruct (String.eqb_spec variant "steric") as [->|_]; [cbn; tauto|discriminate H] end.
Qed.

Lemma dget_app_r {A} k (l l' : dict A) : dget k l = None -> dget k (l ++ l')%list = dget k l'.
Proof.
  induction l as [|[k' v] l IH]; intros H; [reflexivity|]. cbn [dget List.app] in *.
  destruct (String.eqb k k'); [discriminate|apply IH, H].
Qed.
Lemma dget_app_l {A} k (l l' : dict A) v : dget k l = Some v -> dget k (l ++ l')%list = Some v.
Proof.
  induction l as [|[k' w] l IH]; intros H; [discriminate|]. cbn [dget List.app] in *.
  destruct (String.eqb k k'); [exact H|apply IH, H].
Qed.

(** The metadata of a data variable of the result. *)
Lemma steric_data d crd dims variant domain dtype k :
  let other := if String.eqb domain "global" then "reference_height" else "delta_rho" in
  variant <> other -> dget k crd = None -> ~ In k dims -> In k [other; variant] ->
  dget k (x_vars (steric_meta d crd dims variant domain dtype)) =
  Some (if String.eqb k variant
      then mkMeta [("long_name", capitalize variant ++ " height adjustment"); ("units", "m")] [("dtype", dtype)]
      else mkMeta (if String.eqb domain "global" then [("long_name", "Reference column height"); ("units", "m")]
                   else [("long_name", "change in in situ density from reference state"); ("units", "kg m-3")])
                  [("dtype", dtype)]).
Proof.
  intros other N G Hd I. unfold steric_meta.
  rewrite (loop_get (fun v => attrs_of d v) (fun v => dmem v (x_vars d))).
  rewrite set_enc_get, set_attrs_get.
  match goal with |- context [x_coords (set_enc variant "dtype" dtype ?y)] =>
    assert (S1 : smem k (x_coords (set_enc variant "dtype" dtype y) ++
                 filter (fun v => negb (smem v (x_coords (set_enc variant "dtype" dtype y)))) (x_dims (set_enc variant "dtype" dtype y)))%list = false) end.
  { unfold smem. rewrite existsb_app. apply orb_false_iff. split.
    - change (smem k (dkeys crd) = false) || idtac.
      assert (Q : smem k (dkeys crd) = false) by (rewrite smem_keys; unfold dmem; rewrite G; reflexivity).
      destruct (String.eqb domain "global"); exact Q.
    - apply Bool.not_true_is_false. intros Q. apply existsb_exists in Q. destruct Q as (y & Y & E).
      apply String.eqb_eq in E; subst y. apply filter_In in Y. destruct Y as [Y _]. apply Hd.
      destruct (String.eqb domain "global"); exact Y. }
  rewrite S1. cbn [andb].
  unfold other in *. clear other S1. destruct I as [I|[I|[]]]; subst k.
  - destruct (String.eqb domain "global"); rewrite set_enc_get; cbn [x_vars]; rewrite (dget_app_r _ _ _ G); cbn [dget];
    rewrite !String.eqb_refl, (proj2 (String.eqb_neq _ _) N), (proj2 (String.eqb_neq _ _) (fun Z => N (eq_sym Z))); reflexivity.
  - destruct (String.eqb domain "global"); rewrite set_enc_get; cbn [x_vars]; rewrite (dget_app_r _ _ _ G); cbn [dget];
    rewrite (proj2 (String.eqb_neq _ _) N), !String.eqb_refl;
    rewrite (proj2 (String.eqb_neq _ _) (fun Z => N (eq_sym Z))); reflexivity.
Qed.

(** Coordinates of the result carry the attributes of the dataset's variables. *)
Lemma steric_coord d crd dims variant domain dtype c m :
  let other := if String.eqb domain "global" then "reference_height" else "delta_rho" in
  dget c crd = Some m -> c <> variant -> c <> other ->
  exists m', dget c (x_vars (steric_meta d crd dims variant domain dtype)) = Some m' /\ m_enc m' = m_enc m /\
    m_attrs m' = match dget c (x_vars d) with Some md => m_attrs md | None => m_attrs m end.
Proof.
  intros other G N1 N2. unfold steric_meta.
  rewrite (loop_get (fun v => attrs_of d v) (fun v => dmem v (x_vars d))).
  rewrite set_enc_get, set_attrs_get.
  rewrite (proj2 (String.eqb_neq variant c) (fun Z => N1 (eq_sym Z))).
  match goal with |- context [smem c ?l] => assert (S1 : smem c l = true) end.
  { unfold smem. rewrite existsb_app. apply orb_true_iff. left.
    assert (Q : smem c (dkeys crd) = true) by (rewrite smem_keys; unfold dmem; rewrite G; reflexivity).
    destruct (String.eqb domain "global"); exact Q. }
  rewrite S1. cbn [andb].
  assert (V : dget c (x_vars (if String.eqb domain "global"
     then set_enc "reference_height" "dtype" dtype
            (mkX (crd ++ [("reference_height", mkMeta [("long_name", "Reference column height"); ("units", "m")] []); (variant, computed)])%list (dkeys crd) dims [])
     else set_enc "delta_rho" "dtype" dtype
            (mkX (crd ++ [("delta_rho", mkMeta [("long_name", "change in in situ density from reference state"); ("units", "kg m-3")] []); (variant, computed)])%list (dkeys crd) dims []))) = Some m).
  { unfold other in N2. destruct (String.eqb domain "global"); rewrite set_enc_get; cbn [x_vars]; rewrite (dget_app_l _ _ _ _ G);
      rewrite (proj2 (String.eqb_neq _ c) (fun Z => N2 (eq_sym Z))); reflexivity. }
  rewrite V. eexists. split; [reflexivity|].
  unfold dmem, attrs_of. destruct (dget c (x_vars d)); split; reflexivity.
Qed.

(** C110, without annual averaging: every data variable of the result is to be stored with the
    requested [dtype], has units, and the coordinates carry the dataset's attributes. *)
Theorem C110_dtype_partial : forall ds ref cn vm rz patm eos variant domain strict r ref' d crd dims dtype,
  steric ds ref cn vm rz patm eos variant domain strict = Ok (r, ref') ->
  (forall k, In k (dkeys r) -> dget k crd = None /\ ~ In k dims) ->
  let x := steric_meta d crd dims variant domain dtype in
  (forall k, In k (dkeys r) -> exists m, dget k (x_vars x) = Some m /\
     dget "dtype" (m_enc m) = Some dtype /\
     dget "units" (m_attrs m) = Some (if String.eqb k "delta_rho" then "kg m-3" else "m")) /\
  (forall c m, dget c crd = Some m -> exists m', dget c (x_vars x) = Some m' /\ m_enc m' = m_enc m /\
     m_attrs m' = match dget c (x_vars d) with Some md => m_attrs md | None => m_attrs m end).
Proof.
  intros ds ref cn vm rz patm eos variant domain strict r ref' d crd dims dtype E Dj x.
  destruct (steric_keys _ _ _ _ _ _ _ _ _ _ _ _ E) as [K V].
  assert (N : variant <> (if String.eqb domain "global" then "reference_height" else "delta_rho")).
  { cbn in V. destruct (String.eqb domain "global"); intros Z; rewrite Z in V; repeat destruct V as [V|V]; try discriminate V; exact V. }
  split.
  - intros k I. destruct (Dj k I) as [G Hd]. rewrite K in I. eexists. split; [apply (steric_data d crd dims variant domain dtype k N G Hd I)|].
    destruct (String.eqb_spec k variant) as [->|Nk]; (split; [reflexivity|]).
    + cbn [m_attrs dget]. cbn in V. destruct V as [<-|[<-|[<-|[]]]]; reflexivity.
    + destruct I as [I|[I|[]]]; [|congruence]. subst k. destruct (String.eqb domain "global"); reflexivity.
  - intros c m G. apply steric_coord; [exact G| |].
    + intros ->. rewrite K in Dj. destruct (Dj variant ltac:(right; left; reflexivity)) as [Z _]. congruence.
    + intros ->. rewrite K in Dj. destruct (Dj _ ltac:(left; reflexivity)) as [Z _]. congruence.
Qed.
Print Assumptions C110_dtype_partial.

(** Averaging keeps the names. *)
Lemma annual_keys ax ds ref cn vm rz patm eos variant domain strict ax' out ref' :
  steric_annual ax ds ref cn vm rz patm eos variant domain strict = Ok (ax', out, ref') ->
  exists r, steric ds ref cn vm rz patm eos variant domain strict = Ok (r, ref') /\ dkeys out = dkeys r.
Proof.
  intros E. unfold steric_annual in E. apply bind_inv in E. destruct E as ([r rf] & E & F).
  apply bind_inv in F. destruct F as ([ax2 o] & F & Q).
  apply Ok_inj in Q. injection Q as -> -> ->. cbn [fst snd] in *. exists r. split; [exact E|].
  unfold annual_average_ds in F. apply bind_inv in F. destruct F as (c & _ & F).
  destruct (groupable _ _); [|discriminate]. apply bind_inv in F. destruct F as ([] & _ & F). apply Ok_inj in F. injection F as _ <-.
  unfold dkeys, numeric_vars. rewrite map_map. cbn [fst]. clear. induction r as [|[k a] r IH]; [reflexivity|]. cbn. f_equal. exact IH.
Qed.

(** With annual averaging the names and attributes survive but the encoding does not. *)
Theorem C110_annual_partial : forall ax ds ref cn vm rz patm eos variant domain strict ax' out ref' d crd crd' dims dims' dtype,
  steric_annual ax ds ref cn vm rz patm eos variant domain strict = Ok (ax', out, ref') ->
  (forall k, In k (dkeys out) -> dget k crd = None /\ ~ In k dims /\ dget k crd' = None /\ ~ In k dims') ->
  let x := steric_annual_meta d crd crd' dims dims' variant domain dtype in
  forall k, In k (dkeys out) -> exists m, dget k (x_vars x) = Some m /\ m_enc m = [] /\
    dget "units" (m_attrs m) = Some (if String.eqb k "delta_rho" then "kg m-3" else "m") /\
    exists m0, dget k (x_vars (steric_meta d crd dims variant domain dtype)) = Some m0 /\ m_attrs m = m_attrs m0.
Proof.
  intros ax ds ref cn vm rz patm eos variant domain strict ax' out ref' d crd crd' dims dims' dtype E Dj x k I.
  destruct (annual_keys _ _ _ _ _ _ _ _ _ _ _ _ _ _ E) as (r & E' & Ko). clear E; rename E' into E.
  assert (Dj1 : forall k, In k (dkeys r) -> dget k crd = None /\ ~ In k dims) by (intros k0 I0; rewrite <- Ko in I0; destruct (Dj k0 I0) as (A & B & _); split; assumption).
  destruct (C110_dtype_partial _ _ _ _ _ _ _ _ _ _ _ _ d crd dims dtype E Dj1) as [D _].
  destruct (Dj k I) as (G & Hd & G' & Hd'). rewrite Ko in I.
  destruct (D k I) as (m0 & M0 & _ & Un).
  unfold steric_annual_meta in x. set (x0 := steric_meta d crd dims variant domain dtype) in *.
  set (raw := mkX _ (dkeys crd') dims' []) in x.
  assert (C0 : forall q, In q (x_coords x0) -> In q (dkeys crd)).
  { intros q. unfold x0, steric_meta. 
    rewrite (proj1 (loop_rest (fun v => attrs_of d v) (fun v => dmem v (x_vars d)) _ _)).
    destruct (String.eqb domain "global"); exact (fun z => z). }
  assert (Nk : forall q (l : dict meta), dget q l = None -> ~ In q (dkeys l)).
  { intros q l Z J. assert (W : smem q (dkeys l) = true) by (unfold smem; apply existsb_exists; exists q; split; [exact J|apply String.eqb_refl]).
    rewrite smem_keys in W. unfold dmem in W. rewrite Z in W. discriminate. }
  assert (R : dget k (x_vars raw) = Some computed).
  { unfold raw; cbn [x_vars]. rewrite (dget_app_r _ _ _ G').
    assert (T : smem k (x_coords x0) = false).
    { apply Bool.not_true_is_false. intros W. unfold smem in W. apply existsb_exists in W. destruct W as (q & Q1 & Q2).
      apply String.eqb_eq in Q2; subst q. apply C0 in Q1. exact (Nk k crd G Q1). }
    revert T M0. clear. set (cs := x_coords x0). intros T. induction (x_vars x0) as [|[q mq] l IH]; [discriminate|].
    cbn [dget filter fst]. destruct (String.eqb_spec k q) as [<-|N].
    - intros _. rewrite T. cbn [negb map dget fst]. rewrite String.eqb_refl. reflexivity.
    - intros M. destruct (negb (smem q cs)); [|apply IH, M]. cbn [map dget fst].
      rewrite (proj2 (String.eqb_neq _ _) N). apply IH, M. }
  destruct (C111_dataset x0 raw) as [_ B]. destruct (B k computed R) as (m & Gm & Em & _ & Am). fold x in Gm.
  assert (A : m_attrs m = m_attrs m0).
  { apply Am; [exact M0| |]; intros J; exfalso; [exact (Nk k crd' G' J)|exact (Hd' J)]. }
  exists m. split; [exact Gm|]. split; [exact Em|]. rewrite A. split; [exact Un|]. exists m0. split; [exact M0|reflexivity].
Qed.
Print Assumptions C110_annual_partial.

(** Hence [dtype] is not honoured by [annual=True]. *)
Theorem C110_annual_refuted :
  ~ (forall ax ds ref cn vm rz patm eos variant domain strict ax' out ref' d crd crd' dims dims' dtype,
       steric_annual ax ds ref cn vm rz patm eos variant domain strict = Ok (ax', out, ref') ->
       (forall k, In k (dkeys out) -> dget k crd = None /\ ~ In k dims /\ dget k crd' = None /\ ~ In k dims') ->
       forall k, In k (dkeys out) -> exists m,
         dget k (x_vars (steric_annual_meta d crd crd' dims dims' variant domain dtype)) = Some m /\
         dget "dtype" (m_enc m) = Some dtype).
Proof.
  intros H. destruct C78_case as (r & ref & ax' & out & E & F).
  assert (K : In "steric" (dkeys out)).
  { destruct (annual_keys _ _ _ _ _ _ _ _ _ _ _ _ _ _ F) as (r' & E' & ->).
    rewrite (proj1 (steric_keys _ _ _ _ _ _ _ _ _ _ _ _ E')). right; left; reflexivity. }
  destruct (C110_annual_partial _ _ _ _ _ _ _ _ _ _ _ _ _ _ (mkX [] [] [] []) [] [] [] [] "float32" F
              (fun k _ => conj eq_refl (conj (fun z => z) (conj eq_refl (fun z => z)))) "steric" K) as (m & G & N & _).
  destruct (H _ _ _ _ _ _ _ _ _ _ _ _ _ _ (mkX [] [] [] []) [] [] [] [] "float32" F
              (fun k _ => conj eq_refl (conj (fun z => z) (conj eq_refl (fun z => z)))) "steric" K) as (m' & G' & D).
  rewrite G in G'. injection G' as <-. rewrite N in D. discriminate D.
Qed.
Print Assumptions C110_annual_refuted.

(** The demonstration dataset, with and without averaging. *)
Example C110_case : exists r ref,
  steric (tdemo "time") None (Some [("t", "time")]) None 1035 (scalar (Fin 101325)) "Linear" "steric" "local" true = Ok (r, ref) /\
  forall k, In k (dkeys r) -> exists m,
    dget k (x_vars (steric_meta (mkX [("time", mkMeta [("axis", "T")] [])] ["time"] ["time"] []) [("time", computed)] ["time"; "y"; "x"]
                      "steric" "local" "float64")) = Some m /\ dget "dtype" (m_enc m) = Some "float64".
Proof.
  destruct C78_case as (r & ref & _ & _ & E & _). exists r, ref. split; [exact E|]. intros k I.
  destruct (steric_keys _ _ _ _ _ _ _ _ _ _ _ _ E) as [K _].
  destruct (proj1 (C110_dtype_partial _ _ _ _ _ _ _ _ _ _ _ _ (mkX [("time", mkMeta [("axis", "T")] [])] ["time"] ["time"] [])
              [("time", computed)] ["time"; "y"; "x"] "float64" E
              (fun k I => ltac:(rewrite K in I; cbn in I; destruct I as [<-|[<-|[]]]; (split; [reflexivity|cbn; intuition discriminate]))))
              k I) as (m & G & D & _).
  exists m. split; assumption.
Qed.
