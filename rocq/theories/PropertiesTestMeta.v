(** * PropertiesTestMeta: C155, C156 (generated datasets, references between variables) *)
From Coq Require Import Reals Lra Lia List String Ascii Bool Arith.
From Verif Require Import Num NumFacts Py Arr ArrFacts Attrs Meta TestData TestMeta SpecMeta PropertiesMeta ProofsTestData.
Import ListNotations.
Local Open Scope string_scope.

Definition present (v : dict meta) (name : string) : bool := dmem name v.
(** Every variable an attribute refers to is in the dataset. *)
Definition self_contained (v : dict meta) : Prop :=
  forall var m a value name, dget var v = Some m -> dget a (m_attrs m) = Some value -> In name (refers_to a value) -> dmem name v = true.

(** A decision procedure for it. *)
Definition dangling (v : dict meta) : list (string * string) :=
  flat_map (fun p => flat_map (fun q => map (fun n => (fst p, n)) (filter (fun n => negb (dmem n v)) (refers_to (fst q) (snd q)))) (m_attrs (snd p))) v.
Lemma dget_pair {A} k (d : dict A) x : dget k d = Some x -> In (k, x) d.
Proof. induction d as [|[k' y] d IH]; cbn; [discriminate|]. destruct (String.eqb k k') eqn:E; [apply String.eqb_eq in E; subst; intros [= ->]; left; reflexivity|right; auto]. Qed.
Lemma dangling_complete v var m a value name : dget var v = Some m -> dget a (m_attrs m) = Some value -> In name (refers_to a value) ->
  dmem name v = false -> In (var, name) (dangling v).
Proof.
  intros H1 H2 H3 H4. apply in_flat_map. exists (var, m). split; [apply dget_pair, H1|]. apply in_flat_map. exists (a, value). split; [apply dget_pair, H2|].
  apply in_map_iff. exists name. split; [reflexivity|]. apply filter_In. split; [exact H3|]. cbn. rewrite H4. reflexivity.
Qed.
Lemma self_contained_of v : dangling v = [] -> self_contained v.
Proof.
  intros E var m a value name H1 H2 H3. destruct (dmem name v) eqn:D; [reflexivity|]. exfalso.
  assert (X := dangling_complete _ _ _ _ _ _ H1 H2 H3 D). rewrite E in X. exact X.
Qed.

(** ** C156 *)
(** Without a real time axis (nyears=0, the default) the generated data refer to variables that are not there. *)
Theorem C156_generated_refuted : ~ (forall nyears calendar v, generate_test_data_meta nyears calendar = Ok v -> self_contained v).
Proof.
  intros H. specialize (H 0%nat "noleap" _ eq_refl "time" _ "bounds" "time_bnds" "time_bnds" eq_refl eq_refl (or_introl eq_refl)).
  discriminate.
Qed.
Print Assumptions C156_generated_refuted.

(** With one they do not; without one exactly the descriptions of the averaging periods are missing. *)
Theorem C156_generated_partial : forall nyears calendar,
  exists v w, generate_test_data_meta nyears calendar = Ok v /\ generate_test_data_uv_meta nyears calendar = Ok w /\
  (nyears <> O -> self_contained v /\ self_contained w) /\
  (nyears = O -> forall z, z = v \/ z = w -> forall var m a value name, dget var z = Some m -> dget a (m_attrs m) = Some value ->
     In name (refers_to a value) -> dmem name z = false <-> In name ["time_bnds"; "average_T1"; "average_T2"; "average_DT"]).
Proof.
  intros nyears calendar.
  destruct nyears as [|n].
  - eexists. eexists. split; [reflexivity|]. split; [reflexivity|]. split; [congruence|]. intros _ z Hz var m a value name H1 H2 H3. split.
    + intros D. assert (X := dangling_complete _ _ _ _ _ _ H1 H2 H3 D). revert X. clear - Hz. destruct Hz as [-> | -> ]; cbn; intuition (try discriminate; match goal with H : _ = (_, _) |- _ => injection H as <- <-; auto 6 end).
    + clear - Hz. destruct Hz as [-> | -> ]; cbn; intros [<-|[<-|[<-|[<-|[]]]]]; reflexivity.
  - eexists. eexists. split; [reflexivity|]. split; [reflexivity|]. split; [|discriminate]. intros _.
    split; apply self_contained_of; reflexivity.
Qed.
Print Assumptions C156_generated_partial.

(** The reference state of a self-contained dataset keeps references to the averaging periods, which it drops. *)
Definition one_year : dict meta := match generate_test_data_meta 1 "noleap" with Ok v => v | Err _ => [] end.
Theorem C156_reference_refuted : ~ (forall d crd eos r, self_contained d -> reference_meta d crd eos = Ok r -> self_contained r).
Proof.
  intros H. destruct (C156_generated_partial 1 "noleap") as (v & w & E & _ & C & _). assert (Ev : v = one_year) by (unfold one_year; rewrite E; reflexivity).
  destruct (C ltac:(discriminate)) as [Cv _]. rewrite Ev in Cv.
  specialize (H one_year ["z_l"; "yh"; "xh"] "Wright" _ Cv eq_refl "thetao" _ "time_avg_info" "average_T1,average_T2,average_DT" "average_T1" eq_refl eq_refl (or_introl eq_refl)).
  discriminate.
Qed.
Print Assumptions C156_reference_refuted.

Lemma dget_app_ {A} k (a b : dict A) : dget k (a ++ b)%list = match dget k a with Some x => Some x | None => dget k b end.
Proof. induction a as [|[k' x] a IH]; cbn; [reflexivity|]. destruct (String.eqb k k'); [reflexivity|exact IH]. Qed.
Lemma dget_filter_ {A} k (f : string -> bool) (d : dict A) : dget k (filter (fun p => f (fst p)) d) = if f k then dget k d else None.
Proof.
  induction d as [|[k' x] d IH]; cbn; [destruct (f k); reflexivity|]. destruct (f k') eqn:F; cbn.
  - destruct (String.eqb k k') eqn:E; [apply String.eqb_eq in E; subst; rewrite F; reflexivity|exact IH].
  - destruct (String.eqb k k') eqn:E; [apply String.eqb_eq in E; subst; rewrite F in IH |- *; exact IH|exact IH].
Qed.
Definition computed_names : list string := ["rho"; "volo"; "masso"; "rhoga"].
Definition copied_names : list string := ["thetao"; "so"; "volcello"; "areacello"].

(** What it holds: the copied variables and coordinates with the attributes they had, and the four computed ones,
    which say what they are and refer to nothing.  A reference dangles exactly if it was copied and its target is
    neither a coordinate kept nor one of the eight variables. *)
Theorem C156_reference_partial : forall d crd eos r, reference_meta d crd eos = Ok r ->
  (forall k, In k (computed_names ++ copied_names) -> ~ In k crd) ->
  (forall k, In k copied_names \/ In k crd -> dget k r = dget k d) /\
  (forall k, In k copied_names -> dmem k r = true) /\
  (forall k m, In k computed_names -> dget k r = Some m ->
     (exists t, dget "long_name" (m_attrs m) = Some t) /\ (exists t, dget "units" (m_attrs m) = Some t) /\
     forall a value, dget a (m_attrs m) = Some value -> refers_to a value = []) /\
  (exists m, dget "rho" r = Some m /\ dget "comment" (m_attrs m) = Some ("calculated with the " ++ eos ++ " equation of state")) /\
  (forall k, dmem k r = true <-> In k (computed_names ++ copied_names) \/ In k crd /\ dmem k d = true) /\
  (forall var m a value name, dget var r = Some m -> dget a (m_attrs m) = Some value -> In name (refers_to a value) ->
     dget var d = Some m /\
     (dmem name r = false <-> ~ In name (computed_names ++ copied_names) /\ ~ (In name crd /\ dmem name d = true))).
Proof.
  intros d crd eos r H Hc. unfold reference_meta in H.
  apply bind_inv in H as (T & HT & H). apply bind_inv in H as (Sa & HS & H). apply bind_inv in H as (V & HV & H). apply bind_inv in H as (A & HA & H).
  injection H as <-.
  assert (L : forall k x, dlookup k d = Ok x -> dget k d = Some x) by (intros k x; unfold dlookup; destruct (dget k d); [intros [= ->]; reflexivity|discriminate]).
  apply L in HT, HS, HV, HA.
  match goal with |- context [(?f ++ ?l)%list] => set (eight := l) in * end.
  assert (G : forall k, dget k (filter (fun p => smem (fst p) crd) d ++ eight)%list = if smem k crd then match dget k d with Some x => Some x | None => dget k eight end else dget k eight).
  { intros k. rewrite dget_app_, (dget_filter_ k (fun n => smem n crd)). destruct (smem k crd); reflexivity. }
  assert (SM : forall k, smem k crd = true <-> In k crd).
  { intros k. unfold smem. rewrite existsb_exists. split; [intros (x & Hx & E); apply String.eqb_eq in E; subst; exact Hx|intros Hk; exists k; split; [exact Hk|apply String.eqb_refl]]. }
  assert (NC : forall k, In k (computed_names ++ copied_names) -> smem k crd = false).
  { intros k Hk. destruct (smem k crd) eqn:E; [|reflexivity]. exfalso. apply (Hc k Hk), SM, E. }
  assert (E8 : forall k, In k (computed_names ++ copied_names) <-> dmem k eight = true).
  { intros k. split.
    - intros Hk. repeat (destruct Hk as [<-|Hk]; [reflexivity|]). destruct Hk.
    - unfold dmem. destruct (dget k eight) eqn:E; [|discriminate]. intros _. apply dget_pair in E. cbn in E.
      repeat (destruct E as [E|E]; [injection E as <- _; cbn; tauto|]). destruct E. }
  assert (DM : forall k, dmem k (filter (fun p => smem (fst p) crd) d ++ eight)%list = true <-> In k (computed_names ++ copied_names) \/ In k crd /\ dmem k d = true).
  { intros k. rewrite E8. unfold dmem at 1. rewrite G. destruct (smem k crd) eqn:E.
    - assert (In k crd) by (apply SM, E). unfold dmem. destruct (dget k d); [tauto|]. destruct (dget k eight); intuition discriminate.
    - assert (~ In k crd) by (rewrite <- SM, E; discriminate). unfold dmem. destruct (dget k eight); intuition discriminate. }
  assert (CP : forall k, In k copied_names \/ In k crd -> dget k (filter (fun p => smem (fst p) crd) d ++ eight)%list = dget k d).
  { intros k [Hk|Hk].
    - rewrite G, NC by (apply in_or_app; right; exact Hk). destruct Hk as [<-|[<-|[<-|[<-|[]]]]]; cbn; congruence.
    - rewrite G. rewrite (proj2 (SM k) Hk). destruct (dget k d); [reflexivity|].
      destruct (dget k eight) eqn:E; [|reflexivity]. exfalso. apply (Hc k); [|exact Hk]. apply E8. unfold dmem. rewrite E. reflexivity. }
  assert (CM : forall k m, In k computed_names -> dget k (filter (fun p => smem (fst p) crd) d ++ eight)%list = Some m ->
     (exists t, dget "long_name" (m_attrs m) = Some t) /\ (exists t, dget "units" (m_attrs m) = Some t) /\
     forall a value, dget a (m_attrs m) = Some value -> refers_to a value = []).
  { intros k m Hk. rewrite G, NC by (apply in_or_app; left; exact Hk). destruct Hk as [<-|[<-|[<-|[<-|[]]]]]; cbn; intros [= <-]; cbn;
      (split; [eexists; reflexivity|split; [eexists; reflexivity|]]); intros a value;
      repeat (match goal with |- context [String.eqb a ?s] => let E := fresh "E" in destruct (String.eqb a s) eqn:E; [apply String.eqb_eq in E; subst a; intros; reflexivity|clear E] end); intros; discriminate. }
  split; [exact CP|]. split; [intros k Hk; apply DM; left; apply in_or_app; right; exact Hk|]. split; [exact CM|]. split.
  { exists (mkMeta (calc_rho_attrs eos) []). split; [|reflexivity]. rewrite G, NC by (cbn; tauto). reflexivity. }
  split; [exact DM|].
  intros var m a value name H1 H2 H3.
  assert (Hv : In var copied_names \/ In var crd).
  { assert (X : dmem var (filter (fun p => smem (fst p) crd) d ++ eight)%list = true) by (unfold dmem; rewrite H1; reflexivity).
    apply DM in X. destruct X as [X|[X _]]; [|right; exact X]. apply in_app_or in X. destruct X as [X|X]; [|left; exact X]. exfalso.
    destruct (CM var m X H1) as (_ & _ & N). rewrite (N a value H2) in H3. exact H3. }
  split; [rewrite <- (CP var Hv); exact H1|].
  rewrite <- not_true_iff_false, DM. tauto.
Qed.
Print Assumptions C156_reference_partial.

(** The heights of a self-contained dataset keep the reference of time to its bounds, which they do not hold. *)
Theorem C156_steric_refuted : ~ (forall d crd dims variant domain dtype, self_contained (x_vars d) ->
  (forall k, In k (dkeys crd) -> dmem k (x_vars d) = true) -> self_contained (x_vars (steric_meta d crd dims variant domain dtype))).
Proof.
  intros H. destruct (C156_generated_partial 1 "noleap") as (v & w & E & _ & C & _). assert (Ev : v = one_year) by (unfold one_year; rewrite E; reflexivity).
  destruct (C ltac:(discriminate)) as [Cv _]. rewrite Ev in Cv.
  specialize (H (mkX one_year ["time"] ["time"] []) [("time", computed)] ["time"] "steric" "local" "float32" Cv).
  specialize (H ltac:(intros k [<-|[]]; reflexivity) "time" _ "bounds" "time_bnds" "time_bnds" eq_refl eq_refl (or_introl eq_refl)). discriminate.
Qed.
Print Assumptions C156_steric_refuted.

(** Only coordinates are concerned, and only by attributes they had in the dataset: the heights and density changes
    themselves refer to nothing. *)
Theorem C156_steric_partial : forall d crd dims variant domain dtype,
  In variant ["thermosteric"; "halosteric"; "steric"] ->
  (forall k, In k ["reference_height"; "delta_rho"; variant] -> dget k crd = None /\ ~ In k dims) ->
  let x := steric_meta d crd dims variant domain dtype in
  forall var m a value name, dget var (x_vars x) = Some m -> dget a (m_attrs m) = Some value -> In name (refers_to a value) ->
  dmem var crd = true /\ (forall md, dget var (x_vars d) = Some md -> dget a (m_attrs md) = Some value) /\
  (dmem name (x_vars x) = false -> dmem name crd = false).
Proof.
  intros d crd dims variant domain dtype V Dj x var m a value name H1 H2 H3.
  set (other := if String.eqb domain "global" then "reference_height" else "delta_rho").
  assert (Ho : dget other crd = None /\ ~ In other dims) by (apply Dj; unfold other; destruct (String.eqb domain "global"); cbn; tauto).
  assert (Hv : dget variant crd = None /\ ~ In variant dims) by (apply Dj; cbn; tauto).
  assert (N : variant <> other).
  { unfold other. cbn in V. destruct (String.eqb domain "global"); intros Z; rewrite Z in V; repeat destruct V as [V|V]; try discriminate V; exact V. }
  assert (K : In var [other; variant] \/ dmem var crd = true).
  { unfold dmem. destruct (dget var crd) eqn:G; [right; reflexivity|left].
    revert H1. unfold x, steric_meta. rewrite (loop_get (fun v => attrs_of d v) (fun v => dmem v (x_vars d))), set_enc_get, set_attrs_get.
    unfold other. destruct (String.eqb domain "global"); rewrite set_enc_get; cbn [x_vars]; rewrite (dget_app_r _ _ _ G); cbn [dget].
    - destruct (String.eqb_spec var "reference_height") as [->|]; [left; reflexivity|]. destruct (String.eqb_spec var variant) as [->|]; [right; left; reflexivity|]. rewrite ?andb_false_r; cbn. discriminate.
    - destruct (String.eqb_spec var "delta_rho") as [->|]; [left; reflexivity|]. destruct (String.eqb_spec var variant) as [->|]; [right; left; reflexivity|]. rewrite ?andb_false_r; cbn. discriminate. }
  destruct K as [K|K].
  - exfalso. assert (G : dget var crd = None /\ ~ In var dims) by (destruct K as [<-|[<-|[]]]; assumption).
    assert (X := steric_data d crd dims variant domain dtype var N (proj1 G) (proj2 G) K). fold x in X. rewrite H1 in X. injection X as ->.
    revert H2. destruct (String.eqb var variant); [|destruct (String.eqb domain "global")]; cbn;
      (destruct (String.eqb_spec a "long_name") as [->|]; [intros; cbn in H3; exact H3|]; destruct (String.eqb_spec a "units") as [->|]; [intros; cbn in H3; exact H3|discriminate]).
  - split; [exact K|]. unfold dmem in K. destruct (dget var crd) as [mc|] eqn:G; [|discriminate].
    assert (Nv : var <> variant) by (intros ->; rewrite (proj1 Hv) in G; discriminate).
    assert (No : var <> other) by (intros ->; rewrite (proj1 Ho) in G; discriminate).
    destruct (steric_coord d crd dims variant domain dtype var mc G Nv No) as (m' & Hm & _ & A). fold x in Hm. rewrite H1 in Hm. injection Hm as <-.
    split; [intros md D; rewrite D in A; rewrite <- A; exact H2|].
    intros Z. unfold dmem. destruct (dget name crd) as [mn|] eqn:Gn; [|reflexivity]. exfalso.
    assert (Nv' : name <> variant) by (intros ->; rewrite (proj1 Hv) in Gn; discriminate).
    assert (No' : name <> other) by (intros ->; rewrite (proj1 Ho) in Gn; discriminate).
    destruct (steric_coord d crd dims variant domain dtype name mn Gn Nv' No') as (m' & Hm' & _). fold x in Hm'. unfold dmem in Z. rewrite Hm' in Z. discriminate.
Qed.
Print Assumptions C156_steric_partial.

(** Example: a year of generated data and its reference. *)
Example C156_case : exists v r, generate_test_data_meta 1 "noleap" = Ok v /\ self_contained v /\ reference_meta v ["z_l"; "yh"; "xh"] "Wright" = Ok r /\
  dangling v = [] /\ map snd (dangling r) = ["z_i"; "average_T1"; "average_T2"; "average_DT"; "average_T1"; "average_T2"; "average_DT"; "average_T1"; "average_T2"; "average_DT"] /\
  In "steric" ["thermosteric"; "halosteric"; "steric"].
Proof. eexists. eexists. split; [reflexivity|]. split; [apply self_contained_of; reflexivity|]. split; [reflexivity|]. split; [reflexivity|]. split; [reflexivity|]. cbn. tauto. Qed.

(** ** C155: shapes *)
Local Open Scope R_scope.
(** One size for every dimension name in the whole dataset: what xarray requires of a Dataset. *)
Definition consistent (ds : dict arr) : Prop :=
  forall k a k' b d n m, In (k, a) ds -> In (k', b) ds -> In (d, n) (adims a) -> In (d, m) (adims b) -> n = m.
Lemma consistent_of (size : string -> nat) (ds : dict arr) : Forall (fun p => Forall (fun q => snd q = size (fst q)) (adims (snd p))) ds -> consistent ds.
Proof.
  intros H k a k' b d n m I1 I2 J1 J2. rewrite Forall_forall in H. assert (A := H _ I1). assert (B := H _ I2). cbn in A, B.
  rewrite Forall_forall in A, B. assert (X := A _ J1). assert (Y := B _ J2). cbn in X, Y. congruence.
Qed.
Definition td_size (nt : nat) (d : string) : nat :=
  if String.eqb d "time" then nt else if String.eqb d "z_i" then 6%nat else 5%nat.
(** All sizes agree, every coordinate axis belongs to its dimension, and the corner axes lie half a cell after the centres. *)
Theorem C155_consistent : forall nt f g T Sa V U W F A, Rsum 5 (fun j => Rsum 5 (fun i => f j i)) <> 0 -> Rsum 5 (fun j => Rsum 5 (fun i => A j i)) <> 0 ->
  exists ds uv, generate_test_data nt f g T Sa V = Ok ds /\ generate_test_data_uv nt f g U W F A = Ok uv /\
  consistent ds /\ consistent uv /\ (forall u, consistent (generate_test_data_dz u)) /\
  (forall d, In d ["xh"; "yh"; "z_l"; "z_i"]%string -> exists a, dget d ds = Some a /\ dget d uv = Some a /\ map fst (adims a) = [d]) /\
  (forall h q, In (h, q) [("xh", "xq"); ("yh", "yq")]%string -> exists c x, dget h uv = Some c /\ dget q uv = Some x /\
     forall e e', (e h < 5)%nat -> e' q = e h -> exists r, at_ c e = Fin r /\ at_ x e' = Fin (r + 1 / 2)).
Proof.
  intros nt f g T Sa V U W F A Hf HA.
  destruct (normalised_ok "yh" "xh" f ltac:(discriminate) Hf) as (h & Eh & Dh & _).
  destruct (normalised_ok "yq" "xq" A ltac:(discriminate) HA) as (a & Ea & Da & _).
  eexists. eexists. split; [|split; [|split; [|split; [|split; [|split]]]]].
  - unfold generate_test_data, xy_fields. cbn [dlookup point_dict dget String.eqb Ascii.eqb Bool.eqb bind]. rewrite Eh. cbn [bind].
    unfold zlevel_fields. cbn -[normalised_area field5 axis5 vec field4 deptho_field midpoints]. reflexivity.
  - unfold generate_test_data_uv, xy_fields. cbn [dlookup point_dict dget String.eqb Ascii.eqb Bool.eqb bind]. rewrite Eh. cbn [bind].
    unfold zlevel_fields. cbn -[normalised_area field5 axis5 vec half_axis field4_on deptho_field midpoints]. rewrite Ea. reflexivity.
  - apply (consistent_of (td_size nt)). repeat (apply Forall_cons; [cbn [snd]; rewrite ?Dh; repeat (apply Forall_cons; [reflexivity|]); apply Forall_nil|]). apply Forall_nil.
  - apply (consistent_of (td_size nt)). repeat (apply Forall_cons; [cbn [snd]; rewrite ?Dh, ?Da; repeat (apply Forall_cons; [reflexivity|]); apply Forall_nil|]). apply Forall_nil.
  - intros u. apply (consistent_of (td_size nt)). repeat (apply Forall_cons; [cbn [snd]; repeat (apply Forall_cons; [reflexivity|]); apply Forall_nil|]). apply Forall_nil.
  - intros d Hd. repeat (destruct Hd as [<-|Hd]; [eexists; split; [reflexivity|split; reflexivity]|]). destruct Hd.
  - intros h0 q [E|[E|[]]]; injection E as <- <-; (do 2 eexists; split; [reflexivity|split; [reflexivity|]]); intros e e' He Hq; cbn -[INR]; rewrite Hq;
      (eexists; split; [reflexivity|]); f_equal;
      (destruct (e _) as [|[|[|[|[|k]]]]]; [cbn; lra|cbn; lra|cbn; lra|cbn; lra|cbn; lra|lia]).
Qed.
Print Assumptions C155_consistent.

(** The names of the variables are those described in the attributes. *)
Theorem C155_described : forall nt f g T Sa V U W F A nyears calendar ds uv v w,
  generate_test_data nt f g T Sa V = Ok ds -> generate_test_data_uv nt f g U W F A = Ok uv ->
  generate_test_data_meta nyears calendar = Ok v -> generate_test_data_uv_meta nyears calendar = Ok w ->
  forall k, ~ In k ["time"; "bnds"; "time_bnds"; "average_T1"; "average_T2"; "average_DT"]%string ->
  (dmem k v = true <-> dmem k ds = true) /\ (dmem k w = true <-> dmem k uv = true).
Proof.
  intros nt f g T Sa V U W F A nyears calendar ds uv v w E1 E2 E3 E4 k Hk.
  unfold generate_test_data, generate_test_data_uv, xy_fields in E1, E2. cbn [dlookup point_dict dget String.eqb Ascii.eqb Bool.eqb bind] in E1, E2.
  destruct (normalised_area "yh" "xh" f) as [h|]; [|discriminate]. cbn [bind] in E1, E2.
  unfold zlevel_fields in E1, E2. cbn -[normalised_area field5 axis5 vec half_axis field4 field4_on deptho_field midpoints] in E1, E2.
  destruct (normalised_area "yq" "xq" A) as [a|]; [|discriminate]. cbn [bind] in E2. injection E1 as <-. injection E2 as <-.
  assert (M : forall B (d : dict B), dmem k d = smem k (dkeys d)) by (intros B d; symmetry; apply smem_keys).
  rewrite !M.
  assert (I : forall l, smem k l = true <-> In k l).
  { intros l. unfold smem. rewrite existsb_exists. split; [intros (x & X & Y); apply String.eqb_eq in Y; subst; exact X|intros X; exists k; split; [exact X|apply String.eqb_refl]]. }
  rewrite !I.
  destruct nyears as [|n]; vm_compute in E3, E4; injection E3 as <-; injection E4 as <-; cbn [dkeys map fst]; cbn [In] in *; tauto.
Qed.
Print Assumptions C155_described.

Example C155_case : exists ds uv, generate_test_data 5 (fun _ _ => 1) (fun _ _ => 0) (fun _ _ _ _ => 10) (fun _ _ _ _ => 35) (fun _ _ _ _ => 1000) = Ok ds /\
  generate_test_data_uv 5 (fun _ _ => 1) (fun _ _ => 0) (fun _ _ _ _ => 0) (fun _ _ _ _ => 0) (fun _ _ => 0) (fun _ _ => 1) = Ok uv /\ consistent ds /\ consistent uv.
Proof.
  destruct (C155_consistent 5 (fun _ _ => 1) (fun _ _ => 0) (fun _ _ _ _ => 10) (fun _ _ _ _ => 35) (fun _ _ _ _ => 1000) (fun _ _ _ _ => 0) (fun _ _ _ _ => 0) (fun _ _ => 0) (fun _ _ => 1))
    as (ds & uv & A & B & C & D & _); [cbn; lra|cbn; lra|]. exists ds, uv. auto.
Qed.
