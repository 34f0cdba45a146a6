(** * ProofsSteric: reference state and steric height *)
From Coq Require Import Reals Lra Lia List String Bool Arith ZArith FunctionalExtensionality.
From Verif Require Import Num NumFacts Py Arr ArrFacts Eos SpecEos Derived SpecDz Dataset SpecSteric
  ProofsEos ProofsEosApi ProofsFields ProofsFields2 ProofsDz ProofsBudget.
Import ListNotations.
Local Open Scope string_scope.
Local Open Scope R_scope.


(** ** Inversion of a successful call *)
Lemma validated_get ds reference strict extra v :
  validate_dataset ds reference strict extra = Ok tt ->
  In v (["thetao"; "so"; "volcello"; "areacello"] ++ extra ++
        (if reference then ["rho"; "volo"; "masso"; "rhoga"] else []))%list ->
  exists a, dget v ds = Some a.
Proof.
  unfold validate_dataset. intros H Hv. destruct (validate_errors ds reference strict extra) eqn:E; [|discriminate].
  unfold validate_errors in E.
  apply app_eq_nil in E as [_ E]. apply app_eq_nil in E as [E _].
  destruct (filter _ _) eqn:F in E; [|discriminate].
  destruct (dget v ds) as [a|] eqn:D; [eauto|]. exfalso.
  assert (G : In v (filter (fun x => negb (dmem x ds))
     (["thetao"; "so"; "volcello"; "areacello"] ++ extra ++ (if reference then ["rho"; "volo"; "masso"; "rhoga"] else []))%list)).
  { apply filter_In. split; [exact Hv|]. unfold dmem. now rewrite D. }
  rewrite F in G. exact G.
Qed.

Lemma rank_error_nil ds n v a : rank_error ds n v = [] -> dget v ds = Some a -> ndim a = n.
Proof.
  unfold rank_error. intros H E. rewrite E in H. destruct (Nat.eqb (ndim a) n) eqn:N; [|discriminate].
  now apply Nat.eqb_eq.
Qed.

Lemma validated_rank ds reference strict extra v a :
  validate_dataset ds reference strict extra = Ok tt -> In v ["thetao"; "so"; "volcello"] ->
  dget v ds = Some a -> ndim a = (if reference then 3 else 4)%nat.
Proof.
  unfold validate_dataset. intros H Hv Ha. destruct (validate_errors ds reference strict extra) eqn:E; [|discriminate].
  unfold validate_errors in E.
  apply app_eq_nil in E as [_ E]. apply app_eq_nil in E as [_ E]. apply app_eq_nil in E as [E _].
  cbn [flat_map] in E. apply app_eq_nil in E as [E1 E]. apply app_eq_nil in E as [E2 E]. apply app_eq_nil in E as [E3 _].
  destruct Hv as [<-|[<-|[<-|[]]]].
  - exact (rank_error_nil _ _ _ _ E1 Ha).
  - exact (rank_error_nil _ _ _ _ E2 Ha).
  - exact (rank_error_nil _ _ _ _ E3 Ha).
Qed.

Lemma ds_get_var v ds a : dget v ds = Some a -> ds_get v ds = Ok a.
Proof. unfold ds_get. intros ->. reflexivity. Qed.

(** Everything computed before the domain is looked at. *)
Definition prepared (ds : dataset) (reference : option dataset) (coord_names : option (dict string)) (patm : arr)
  (eos variant domain : string) (strict : bool) (t z zb : string) (ref : dataset) (zl pres T S rho : arr) : Prop :=
  default_coords coord_names = (t, z, zb) /\
  validate_dataset ds false strict (if String.eqb domain "global" then [] else [zb; "deptho"]) = Ok tt /\
  ds_get z ds = Ok zl /\ aadd (const_r fmul zl (Fin 10000)) patm = Ok pres /\
  (match reference with Some r => ref = r | None => setup_reference_state ds patm eos coord_names 0 = Ok ref end) /\
  validate_dataset ref true strict [] = Ok tt /\
  select_fields ds ref variant = Ok (T, S) /\ calc_rho T S pres eos = Ok rho.

Lemma validate_unit ds r s e u : validate_dataset ds r s e = Ok u -> validate_dataset ds r s e = Ok tt.
Proof. destruct u. auto. Qed.

Lemma steric_inv d reference coord_names vm rhozero patm eos variant domain strict res ref :
  steric d reference coord_names vm rhozero patm eos variant domain strict = Ok (res, ref) ->
  exists ds t z zb zl pres T S rho,
    ds_rename vm d = Ok ds /\
    prepared ds reference coord_names patm eos variant domain strict t z zb ref zl pres T S rho /\
    (if String.eqb domain "global" then steric_global ref rho variant t
     else steric_local ds ref rho rhozero variant t z zb) = Ok res.
Proof.
  unfold steric. intros H. binv H. rename a into ds. destruct (default_coords coord_names) as [[t z] zb] eqn:Ec.
  binv H. binv H. rename a0 into zl. binv H. rename a0 into pres.
  apply bind_inv in H as (rf & Hr & H). binv H. apply bind_inv in H as ([T Sa] & Hs & H). cbn [fst snd] in H.
  apply bind_inv in H as (rho & Hrho & H). apply bind_inv in H as (rs & Hres & H). injection H as -> ->.
  exists ds, t, z, zb, zl, pres, T, Sa, rho. split; [assumption|]. split; [|assumption].
  apply validate_unit in Ha0. apply validate_unit in Ha3.
  split; [assumption|]. split; [exact Ha0|]. split; [assumption|]. split; [assumption|].
  split; [destruct reference; [now injection Hr|exact Hr]|]. auto.
Qed.

Lemma steric_fwd d reference coord_names vm rhozero patm eos variant domain strict ref ds t z zb zl pres T S rho :
  ds_rename vm d = Ok ds ->
  prepared ds reference coord_names patm eos variant domain strict t z zb ref zl pres T S rho ->
  steric d reference coord_names vm rhozero patm eos variant domain strict =
  bind (if String.eqb domain "global" then steric_global ref rho variant t
     else steric_local ds ref rho rhozero variant t z zb) (fun res => Ok (res, ref)).
Proof.
  intros Hd (Hc & Hv & Hz & Hp & Hr & Hv' & Hs & Hrho). unfold steric. rewrite Hd. cbn [bind]. rewrite Hc.
  rewrite Hv. cbn [bind]. rewrite Hz. cbn [bind]. rewrite Hp. cbn [bind].
  replace (match reference with Some r => Ok r | None => setup_reference_state ds patm eos coord_names 0 end)
    with (Ok ref : Py.res dataset) by (destruct reference; [now subst|now rewrite Hr]).
  cbn [bind]. rewrite Hv'. cbn [bind]. rewrite Hs. cbn [bind fst snd]. rewrite Hrho. reflexivity.
Qed.

(** ** Fields of the reference state *)
Lemma setup_inv ds patm eos coord_names k ref :
  setup_reference_state ds patm eos coord_names k = Ok ref ->
  exists t z zb zl pres T S V T0 S0 V0 rho volo masso rhoga area,
    default_coords coord_names = (t, z, zb) /\ ds_get z ds = Ok zl /\
    aadd (const_r fmul zl (Fin 10000)) patm = Ok pres /\
    ds_get "thetao" ds = Ok T /\ ds_get "so" ds = Ok S /\ ds_get "volcello" ds = Ok V /\
    isel_z t k T = Ok T0 /\ isel_z t k S = Ok S0 /\ isel_z t k V = Ok V0 /\
    calc_rho (squeeze T0) (squeeze S0) pres eos = Ok rho /\
    calc_volo (squeeze V0) = Ok volo /\ calc_masso rho (squeeze V0) t = Ok masso /\
    calc_rhoga masso volo = Ok rhoga /\ dget "areacello" ds = Some area /\
    ref = [("thetao", squeeze T0); ("so", squeeze S0); ("volcello", squeeze V0); ("rho", rho); ("volo", volo);
           ("masso", masso); ("rhoga", rhoga); ("areacello", area)].
Proof.
  unfold setup_reference_state. destruct (default_coords coord_names) as [[t z] zb]. intros H.
  binv H. rename a into zl. binv H. rename a into pres.
  apply bind_inv in H as (T0 & H0 & H). binv H0. binv H0. injection H0 as <-.
  apply bind_inv in H as (S0 & H0 & H). binv H0. binv H0. injection H0 as <-.
  apply bind_inv in H as (V0 & H0 & H). binv H0. binv H0. injection H0 as <-.
  binv H. binv H. binv H. binv H. binv H.
  destruct (dget "areacello" ds) eqn:E; [|discriminate]. injection Ha11 as <-. injection H as <-.
  exists t, z, zb, zl, pres, a, a1, a3, a0, a2, a4, a5, a6, a7, a8, a10.
  repeat (split; [reflexivity || assumption|]). reflexivity.
Qed.

Lemma isel_z_inv t k a r : isel_z t k a = Ok r -> exists n i, dget t (adims a) = Some n /\
  py_index k n = Some i /\ (i < n)%nat /\ adims r = drop_dim t (adims a) /\ forall e, at_ r e = at_ a (upd e t i).
Proof.
  unfold isel_z. destruct (dget t (adims a)) as [n|] eqn:E; [|discriminate].
  destruct (py_index k n) as [i|] eqn:P; [|discriminate]. unfold isel. rewrite E.
  destruct (Nat.ltb i n) eqn:L; [|discriminate]. intros [=<-]. exists n, i.
  repeat split; try assumption. now apply Nat.ltb_lt.
Qed.

Lemma squeeze_at a e : inrange (adims a) e -> NoDup (names a) -> at_ (squeeze a) e = at_ a e.
Proof.
  intros H Hn. unfold squeeze. cbn [at_]. f_equal. apply functional_extensionality. intros d.
  destruct (Nat.eqb (size_of d a) 1 && has_dim d a) eqn:E; [|reflexivity].
  apply andb_true_iff in E as [E1 E2]. apply Nat.eqb_eq in E1.
  unfold size_of in E1. unfold has_dim, dmem in E2. destruct (dget d (adims a)) as [n|] eqn:D; [|discriminate].
  apply dget_In in D. specialize (H d n D). lia.
Qed.

Lemma squeeze_id a : (forall d n, In (d, n) (adims a) -> n <> 1%nat) -> NoDup (names a) -> adims (squeeze a) = adims a /\
  forall e, at_ (squeeze a) e = at_ a e.
Proof.
  intros H Hn. split.
  - cbn. induction (adims a) as [|[d n] l IH]; [reflexivity|]. cbn.
    assert (n <> 1%nat) by (apply (H d n); left; reflexivity).
    rewrite (proj2 (Nat.eqb_neq n 1) H0). cbn. f_equal. apply IH. intros d' n' Hin; apply (H d' n'); right; exact Hin.
  - intros e. unfold squeeze. cbn [at_]. f_equal. apply functional_extensionality. intros d.
    destruct (Nat.eqb (size_of d a) 1 && has_dim d a) eqn:E; [|reflexivity].
    apply andb_true_iff in E as [E1 E2]. apply Nat.eqb_eq in E1.
    unfold size_of in E1. unfold has_dim, dmem in E2. destruct (dget d (adims a)) as [n|] eqn:D; [|discriminate].
    apply dget_In in D. specialize (H d n D). lia.
Qed.

(** ** The local branch *)
Lemma truth_notnull v : truth (fbool (notnull v)) = notnull v.
Proof. destruct v; cbn; unfold Reqb; repeat destruct (Req_EM_T _ _); cbn; try reflexivity; lra. Qed.

Lemma transpose_inv t a r : transpose_first t a = Ok r ->
  exists n, dget t (adims a) = Some n /\ adims r = (t, n) :: drop_dim t (adims a) /\ forall e, at_ r e = at_ a e.
Proof. unfold transpose_first. destruct (dget t (adims a)) as [n|]; [|discriminate]. intros [=<-]. exists n. auto. Qed.

Lemma local_inv ds ref rho rhozero variant t z zb res :
  steric_local ds ref rho rhozero variant t z zb = Ok res ->
  rhozero <> 0 /\
  exists vol rho0 zl zi depth dz delta prod s sea,
    ds_get "volcello" ref = Ok vol /\ ds_get "rho" ref = Ok rho0 /\ ds_get z ds = Ok zl /\ ds_get zb ds = Ok zi /\
    ds_get "deptho" ds = Ok depth /\ calc_dz zl zi depth (Fin 0) None false = Ok dz /\
    (forall e, at_ delta e = if notnull (at_ vol e) then fsub (at_ rho e) (at_ rho0 e) else NaN) /\
    (exists nt, names delta = t :: nt) /\
    amul dz delta = Ok prod /\ asum [z] prod = Ok s /\ In z (names vol) /\
    (forall e, at_ sea e = if notnull (at_ vol (upd e z 0)) then fmul (Fin (-1 / rhozero)) (at_ s e) else NaN) /\
    (exists nt, names sea = t :: nt) /\
    res = [("delta_rho", delta); (variant, sea)].
Proof.
  unfold steric_local. intros H.
  apply bind_inv in H as (vol & Hvol & H). apply bind_inv in H as (rho0 & Hrho0 & H).
  apply bind_inv in H as (diff & Hdiff & H). apply bind_inv in H as (d0 & Hd0 & H).
  apply bind_inv in H as (delta & Hdelta & H). apply bind_inv in H as (zl & Hzl & H).
  apply bind_inv in H as (zi & Hzi & H). apply bind_inv in H as (depth & Hdepth & H).
  apply bind_inv in H as (dz & Hdz & H). apply bind_inv in H as (fact & Hfact & H).
  apply bind_inv in H as (prod & Hprod & H). apply bind_inv in H as (s & Hs & H).
  apply bind_inv in H as (s1 & Hs1 & H). apply bind_inv in H as (surf & Hsurf & H).
  apply bind_inv in H as (sea & Hsea & H). injection H as <-.
  destruct (Reqb rhozero 0) eqn:E0; [discriminate|]. apply Reqb_false in E0. injection Hfact as <-.
  split; [exact E0|]. exists vol, rho0, zl, zi, depth, dz, delta, prod, s, sea.
  repeat (split; [assumption|]).
  apply transpose_inv in Hdelta as (n1 & D1 & D2 & D3). apply transpose_inv in Hs1 as (n2 & E1 & E2 & E3).
  apply amap2_inv in Hdiff. apply amap3_inv in Hd0. apply amap2_inv in Hsea.
  split. { intros e. rewrite D3, Hd0, Hdiff. cbn [at_ anotnull amap scalar]. rewrite truth_notnull. reflexivity. }
  split. { unfold names. rewrite D2. cbn. eauto. }
  repeat (split; [assumption|]).
  unfold isel in Hsurf. destruct (dget z (adims vol)) as [nz|] eqn:Ez; [|discriminate].
  destruct (Nat.ltb 0 nz); [|discriminate]. injection Hsurf as <-.
  split. { exact (dget_Some_mem _ _ _ Ez). }
  split. { intros e. rewrite Hsea. cbn [at_ anotnull amap]. rewrite truth_notnull, E3. reflexivity. }
  split; [|reflexivity]. rewrite Hsea. unfold names. cbn [adims]. rewrite E2. cbn. eauto.
Qed.

Lemma eos_density_Fin m t s p : eos_defined m t s p ->
  eos_apply false (m, FDensity) (Fin t) (Fin s) (Fin p) = Fin (eos_rho m t s p).
Proof.
  destruct m; cbn [eos_apply eos_rho eos_defined]; intros H.
  - apply wright_density_Fin, H.
  - apply linear_density_Fin.
Qed.

Lemma eos_density_nan m t s p : t = NaN \/ s = NaN -> eos_apply false (m, FDensity) t s p = NaN.
Proof. destruct m; intros H; [apply wright_nan; tauto|apply linear_nan; tauto]. Qed.

Lemma rho_inv T S pres eos rho m : calc_rho T S pres eos = Ok rho -> same_name eos (module_name m) ->
  forall e, at_ rho e = eos_apply false (m, FDensity) (at_ T e) (at_ S e) (at_ pres e).
Proof.
  unfold calc_rho. intros H Hm e. apply (eos_resolves eos m FDensity) in Hm. rewrite Hm in H. cbn [bind] in H.
  apply eos_ufunc_inv in H. subst rho. reflexivity.
Qed.

(** Density anomaly of one cell. *)
Lemma cell_change m t s p r v : (forall b, t <> Inf b) -> (forall b, s <> Inf b) -> (forall b, r <> Inf b) ->
  (forall x y, t = Fin x -> s = Fin y -> eos_defined m x y p) ->
  (if notnull v then fsub (eos_apply false (m, FDensity) t s (Fin p)) r else NaN) =
  match (if notnull v then match opt t, opt s, opt r with
          | Some x, Some y, Some q => Some (eos_rho m x y p - q) | _, _, _ => None end else None) with
  | Some x => Fin x | None => NaN end.
Proof.
  intros Ht Hs Hr Hd. destruct (notnull v); [|reflexivity].
  destruct t as [|b|x]; [rewrite eos_density_nan by tauto; reflexivity|exfalso; exact (Ht b eq_refl)|].
  destruct s as [|b|y]; [rewrite eos_density_nan by tauto; reflexivity|exfalso; exact (Hs b eq_refl)|].
  rewrite eos_density_Fin by (apply Hd; reflexivity).
  destruct r as [|b|q]; [reflexivity|exfalso; exact (Hr b eq_refl)|]. reflexivity.
Qed.


Lemma local_value ds ref T S pres patm eos rho m rhozero variant t z zb res vol rho0 zl zi ifaces depth p w n e :
  steric_local ds ref rho rhozero variant t z zb = Ok res ->
  ds_get z ds = Ok zl -> aadd (const_r fmul zl (Fin 10000)) patm = Ok pres ->
  calc_rho T S pres eos = Ok rho -> same_name eos (module_name m) ->
  dget "volcello" ref = Some vol -> dget "rho" ref = Some rho0 -> dget zb ds = Some ifaces -> dget "deptho" ds = Some depth ->
  wf_arr ifaces -> wf_arr depth -> ~ In z (names depth) ->
  column_ok m z zi n T S rho0 depth zl patm ifaces p w e ->
  let c := column_at z T S rho0 vol depth p w e in
  exists delta sea, res = [("delta_rho", delta); (variant, sea)] /\
    (forall k, (k < n)%nat -> at_ delta (upd e z k) = fof (density_change m c k)) /\
    at_ sea e = (if notnull (at_ vol (upd e z 0)) then Fin (steric_height m rhozero n c) else NaN).
Proof.
  intros H Hz Hp Hrho Hm Dv Dr Di Dd Wi Wd Hzd (Cz & Ci & Cw & Cm & Cd & Ck) c.
  apply local_inv in H as (H0 & vol' & rho0' & zl' & zi' & depth' & dz & delta & prod & s & sea & G1 & G2 & G3 & G4 & G5 & G6
    & G7 & _ & G8 & G9 & _ & G10 & _ & ->).
  rewrite (ds_get_var _ _ _ Dv) in G1. injection G1 as <-.
  rewrite (ds_get_var _ _ _ Dr) in G2. injection G2 as <-.
  rewrite Hz in G3. injection G3 as <-.
  rewrite (ds_get_var _ _ _ Di) in G4. injection G4 as <-.
  rewrite (ds_get_var _ _ _ Dd) in G5. injection G5 as <-.
  exists delta, sea. split; [reflexivity|].
  assert (Hdel : forall k, (k < n)%nat -> at_ delta (upd e z k) = fof (density_change m c k)).
  { intros k Hk. destruct (Ck k Hk) as (K1 & K2 & K3 & (x & y & K4 & K5 & K6) & K7). cbn zeta in *.
    rewrite G7, (rho_inv _ _ _ _ _ _ Hrho Hm). apply amap2_inv in Hp. rewrite Hp. cbn [at_ const_r amap].
    rewrite K4, K5. cbn [fmul fadd]. replace (x * 10000 + y) with (p k) by (rewrite K6; ring).
    rewrite cell_change; [|assumption|assumption|assumption|assumption]. reflexivity. }
  split; [exact Hdel|]. rewrite G10. destruct (notnull (at_ vol (upd e z 0))); [|reflexivity].
  assert (Gz : dget z (adims prod) = Some n).
  { assert (G6' := G6). apply calc_dz_inv in G6' as (_ & z' & n' & zi'' & ni & L1 & _ & _ & _ & L2 & _).
    rewrite Cz in L1. injection L1 as <- <-. apply amap2_inv in G8. rewrite G8. cbn [adims]. apply dget_union, L2. }
  assert (Hg : grid_values zl ifaces e z zi n w) by (split; [exact Cz|split; [exact Ci|exact Cw]]).
  assert (Hdz : forall k, (k < n)%nat -> at_ dz (upd e z k) = Fin (overlap (w k) (w (Datatypes.S k)) 0 (water_depth (at_ depth e)))).
  { intros k Hk. assert (Hdv : at_ depth (upd e z k) = at_ depth e).
    { apply Wd. intros d Hin. apply upd_other. intros ->. contradiction. }
    assert (X := dz_overlap0 zl ifaces depth None dz (upd e z k) z zi n w G6 Wi
              (grid_values_any _ _ _ _ _ _ _ _ Wi Hg) Cm).
    rewrite upd_same, Hdv in X. apply X; [exact Hk|exact Cd]. }
  unfold asum in G9. destruct (forallb _ _); [|discriminate]. injection G9 as <-. cbn [fold_left].
  unfold sum1. cbn [at_]. unfold size_of. cbn [adims amap]. rewrite Gz.
  rewrite (fsum_ext n _ (fun k => Fin (overlap (c_w c k) (c_w c (Datatypes.S k)) 0 (c_floor c) * odef (density_change m c k)))).
  - rewrite fsum_Fin, fmul_Fin. f_equal. unfold steric_height. f_equal. field. exact H0.
  - intros k Hk. cbn [at_ amap]. apply amap2_inv in G8. rewrite G8. cbn [at_]. rewrite (Hdz k Hk), (Hdel k Hk).
    cbn [c c_w c_floor column_at]. destruct (density_change m c k) as [x|]; cbn; f_equal; ring.
Qed.
