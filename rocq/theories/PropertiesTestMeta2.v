(** * PropertiesTestMeta2: C168 (units, edges and cell methods of the generated test data) *)
From Coq Require Import Reals Lra Lia List String Ascii Bool Arith.
From Verif Require Import Num NumFacts Py Arr ArrFacts Attrs Meta TestData TestMeta SpecMeta SpecMeta2 PropertiesMeta ProofsTestData ProofsStericOk PropertiesTestMeta.
Import ListNotations.
Local Open Scope string_scope.

Definition attr (a : string) (m : meta) : option string := dget a (m_attrs m).
Definition generated (nyears : nat) (calendar : string) (z : dict meta) : Prop :=
  generate_test_data_meta nyears calendar = Ok z \/ generate_test_data_uv_meta nyears calendar = Ok z.
Lemma over_dict {B} (P : string -> B -> Prop) (d : dict B) : Forall (fun p => P (fst p) (snd p)) d -> forall k x, dget k d = Some x -> P k x.
Proof. intros H k x E. rewrite Forall_forall in H. exact (H _ (dget_pair _ _ _ E)). Qed.
Ltac each := repeat (apply Forall_cons; [cbn [fst snd]; intros|]); try apply Forall_nil.
Ltac known := unfold attr in *; cbn in *; repeat match goal with H : Some _ = Some _ |- _ => injection H as <- | H : Some _ = None |- _ => discriminate H | H : None = Some _ |- _ => discriminate H end.

(** Units agree with the standard name, the axis and the quantity; depths count downwards and the time axis names its calendar. *)
Theorem C168_units : forall nyears calendar z, generated nyears calendar z -> forall var m, dget var z = Some m ->
  (forall n, attr "standard_name" m = Some n -> exists un, dget n cf_units = Some un /\ attr "units" m = Some un) /\
  (forall x, attr "axis" m = Some x -> exists un, dget x axis_units = Some un /\ attr "units" m = Some un /\ (x = "Z" -> attr "positive" m = Some "down")) /\
  (forall un, dget var quantity_units = Some un -> attr "units" m = Some un) /\
  (var = "time" -> attr "calendar_type" m = Some calendar /\ attr "cartesian_axis" m = Some "T").
Proof.
  intros nyears calendar z Hz. apply (over_dict (fun var m =>
  (forall n, attr "standard_name" m = Some n -> exists un, dget n cf_units = Some un /\ attr "units" m = Some un) /\
  (forall x, attr "axis" m = Some x -> exists un, dget x axis_units = Some un /\ attr "units" m = Some un /\ (x = "Z" -> attr "positive" m = Some "down")) /\
  (forall un, dget var quantity_units = Some un -> attr "units" m = Some un) /\
  (var = "time" -> attr "calendar_type" m = Some calendar /\ attr "cartesian_axis" m = Some "T"))).
  destruct Hz as [E|E]; destruct nyears as [|n]; vm_compute in E; injection E as <-; each;
    (split; [intros n0 H; known; try (eexists; split; reflexivity)|]);
    (split; [intros x H; known; try (eexists; split; [reflexivity|split; [reflexivity|intros X; try reflexivity; discriminate X]])|]);
    (split; [intros un H; known; reflexivity|intros X; try discriminate X; split; reflexivity]).
Qed.
Print Assumptions C168_units.

(** The edges of an axis: one more than its points, which lie in the middle between neighbouring edges. *)
Local Open Scope R_scope.
Theorem C168_edges : forall nt f g T Sa V nyears calendar ds v,
  generate_test_data nt f g T Sa V = Ok ds -> generate_test_data_meta nyears calendar = Ok v ->
  forall var m e, dget var v = Some m -> attr "edges" m = Some e ->
  exists c b n, dget var ds = Some c /\ dget e ds = Some b /\ adims c = [(var, n)] /\ adims b = [(e, S n)] /\
  forall k, (k < n)%nat -> exists lo hi, at_ b (fun _ => k) = Fin lo /\ at_ b (fun _ => S k) = Fin hi /\ lo < hi /\ at_ c (fun _ => k) = Fin ((lo + hi) / 2).
Proof.
  intros nt f g T Sa V nyears calendar ds v E1 E2 var m e Hm He.
  unfold generate_test_data, xy_fields in E1. cbn [dlookup point_dict dget String.eqb Ascii.eqb Bool.eqb bind] in E1.
  destruct (normalised_area "yh" "xh" f) as [h|]; [|discriminate]. cbn [bind] in E1.
  unfold zlevel_fields in E1. cbn -[normalised_area field5 axis5 vec half_axis field4 deptho_field midpoints] in E1. injection E1 as <-.
  revert m e Hm He. revert var. enough (G : forall var m, dget var v = Some m -> forall e, attr "edges" m = Some e -> var = "z_l"%string /\ e = "z_i"%string).
  { intros var m e Hm He. destruct (G var m Hm e He) as [-> ->]. exists (vec "z_l" z_centres), (vec "z_i" z_interfaces), 5%nat.
    repeat (split; [reflexivity|]). intros k Hk. cbn. destruct k as [|[|[|[|[|k]]]]]; [| | | | |lia];
      (do 2 eexists; split; [reflexivity|split; [reflexivity|split; [lra|f_equal; lra]]]). }
  apply (over_dict (fun var m => forall e, attr "edges" m = Some e -> var = "z_l"%string /\ e = "z_i"%string)).
  destruct nyears as [|n]; vm_compute in E2; injection E2 as <-; each; known; split; reflexivity.
Qed.
Print Assumptions C168_edges.

(** Cell methods name dimensions of the variable (besides time and area), and all of them for quantities with a standard name. *)
Theorem C168_methods : forall nt f g T Sa V U W F A nyears calendar ds v,
  (generate_test_data nt f g T Sa V = Ok ds /\ generate_test_data_meta nyears calendar = Ok v) \/
  (generate_test_data_uv nt f g U W F A = Ok ds /\ generate_test_data_uv_meta nyears calendar = Ok v) ->
  forall var m a value, dget var v = Some m -> dget var ds = Some a -> attr "cell_methods" m = Some value ->
  (forall d, In d (method_names value) -> d <> "area"%string -> d <> "time"%string -> In d (map fst (adims a))) /\
  (attr "standard_name" m <> None -> forall d, In d (map fst (adims a)) -> In d (method_names value)).
Proof.
  intros nt f g T Sa V U W F A nyears calendar ds v H.
  enough (G : forall var m, dget var v = Some m -> forall a, dget var ds = Some a -> forall value, attr "cell_methods" m = Some value ->
    (forall d, In d (method_names value) -> d <> "area"%string -> d <> "time"%string -> In d (map fst (adims a))) /\
    (attr "standard_name" m <> None -> forall d, In d (map fst (adims a)) -> In d (method_names value))).
  { intros var m a value H1 H2 H3. exact (G var m H1 a H2 value H3). }
  apply (over_dict (fun var m => forall a, dget var ds = Some a -> forall value, attr "cell_methods" m = Some value ->
    (forall d, In d (method_names value) -> d <> "area"%string -> d <> "time"%string -> In d (map fst (adims a))) /\
    (attr "standard_name" m <> None -> forall d, In d (map fst (adims a)) -> In d (method_names value)))).
  assert (ND : forall dy dx f h, dy <> dx -> normalised_area dy dx f = Ok h -> adims h = [(dy, 5%nat); (dx, 5%nat)]).
  { clear. intros dy dx f h Q E. unfold normalised_area in E. assert (D0 : adims (asum_all (field5 dy dx f)) = []) by (apply asum_all_dims, field5_nodup, Q).
    unfold adiv, amap2 in E. rewrite D0 in E. cbn [compatible forallb adims field5 union_dims bind amap] in E. injection E as <-. reflexivity. }
  destruct H as [[E1 E2]|[E1 E2]].
  - unfold generate_test_data, xy_fields in E1. cbn [dlookup point_dict dget String.eqb Ascii.eqb Bool.eqb bind] in E1.
    destruct (normalised_area "yh" "xh" f) as [h|] eqn:Eh; [|discriminate]. cbn [bind] in E1. apply ND in Eh; [|discriminate].
    unfold zlevel_fields in E1. cbn -[normalised_area field5 axis5 vec half_axis field4 deptho_field midpoints] in E1. injection E1 as <-.
    destruct nyears as [|n]; vm_compute in E2; injection E2 as <-; each;
      match goal with HA : dget _ _ = Some ?a, HV : attr _ _ = Some _ |- _ => cbn in HA; known end;
      rewrite ?Eh; (split; [intros d Hd N1 N2|intros Hs d Hd]; cbn in *; first [contradiction|repeat (destruct Hd as [<-|Hd]; [solve [contradiction|congruence|auto 10]|]); contradiction]).
  - unfold generate_test_data_uv, xy_fields in E1. cbn [dlookup point_dict dget String.eqb Ascii.eqb Bool.eqb bind] in E1.
    destruct (normalised_area "yh" "xh" f) as [h|] eqn:Eh; [|discriminate]. cbn [bind] in E1. apply ND in Eh; [|discriminate].
    unfold zlevel_fields in E1. cbn -[normalised_area field5 axis5 vec half_axis field4_on deptho_field midpoints] in E1.
    destruct (normalised_area "yq" "xq" A) as [b|] eqn:Eb; [|discriminate]. cbn [bind] in E1. apply ND in Eb; [|discriminate]. injection E1 as <-.
    destruct nyears as [|n]; vm_compute in E2; injection E2 as <-; each;
      match goal with HA : dget _ _ = Some ?a, HV : attr _ _ = Some _ |- _ => cbn in HA; known end;
      rewrite ?Eh, ?Eb; (split; [intros d Hd N1 N2|intros Hs d Hd]; cbn in *; first [contradiction|repeat (destruct Hd as [<-|Hd]; [solve [contradiction|congruence|auto 10]|]); contradiction]).
Qed.
Print Assumptions C168_methods.

(** Example: the temperature of a generated year. *)
Example C168_case : exists v ds m a, generated 1 "julian" v /\ generate_test_data_meta 1 "julian" = Ok v /\
  generate_test_data 12 (fun _ _ => 1) (fun _ _ => 0) (fun _ _ _ _ => 10) (fun _ _ _ _ => 35) (fun _ _ _ _ => 1000) = Ok ds /\
  dget "thetao" v = Some m /\ dget "thetao" ds = Some a /\ attr "standard_name" m = Some "sea_water_potential_temperature"%string /\
  attr "cell_methods" m = Some "area:mean z_l:mean yh:mean xh:mean time: mean"%string /\
  method_names "area:mean z_l:mean yh:mean xh:mean time: mean" = ["area"; "z_l"; "yh"; "xh"; "time"]%string /\
  exists mz, dget "z_l" v = Some mz /\ attr "edges" mz = Some "z_i"%string /\ attr "axis" mz = Some "Z"%string.
Proof.
  destruct (C155_consistent 12 (fun _ _ => 1) (fun _ _ => 0) (fun _ _ _ _ => 10) (fun _ _ _ _ => 35) (fun _ _ _ _ => 1000) (fun _ _ _ _ => 0) (fun _ _ _ _ => 0) (fun _ _ => 0) (fun _ _ => 1))
    as (ds & uv & E & _); [cbn; lra|cbn; lra|].
  destruct (generate_test_data_meta 1 "julian") as [v|] eqn:Ev; [|discriminate].
  assert (Hm : exists m, dget "thetao" v = Some m /\ attr "standard_name" m = Some "sea_water_potential_temperature"%string /\ attr "cell_methods" m = Some "area:mean z_l:mean yh:mean xh:mean time: mean"%string)
    by (vm_compute in Ev; injection Ev as <-; eexists; split; [reflexivity|split; reflexivity]).
  assert (Hz : exists mz, dget "z_l" v = Some mz /\ attr "edges" mz = Some "z_i"%string /\ attr "axis" mz = Some "Z"%string)
    by (vm_compute in Ev; injection Ev as <-; eexists; split; [reflexivity|split; reflexivity]).
  destruct Hm as (m & M1 & M2 & M3).
  assert (Ha : exists a, dget "thetao" ds = Some a).
  { unfold generate_test_data, xy_fields in E. cbn [dlookup point_dict dget String.eqb Ascii.eqb Bool.eqb bind] in E. destruct (normalised_area "yh" "xh" (fun _ _ => 1)) as [h|]; [|discriminate].
    cbn [bind] in E. unfold zlevel_fields in E. cbn -[normalised_area field5 axis5 vec half_axis field4 deptho_field midpoints] in E. injection E as <-. eexists. reflexivity. }
  destruct Ha as (a & Ea). exists v, ds, m, a. repeat (split; [first [left; exact Ev|assumption|reflexivity]|]). exact Hz.
Qed.
