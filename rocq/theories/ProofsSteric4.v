(** * ProofsSteric4: additivity, sign of the response, dispatch *)
From Coq Require Import Reals Lra Lia List String Bool Arith ZArith FunctionalExtensionality Permutation.
From Verif Require Import Num NumFacts Py Arr ArrFacts Eos SpecEos Derived SpecDz Dataset SpecSteric
  ProofsEos ProofsEosBox ProofsEosApi ProofsFields ProofsFields2 ProofsDz ProofsBudget ProofsThermal ProofsSteric ProofsSteric2.
Import ListNotations.
Local Open Scope string_scope.
Local Open Scope R_scope.

(** Reference density of a generated reference state. *)
Lemma built_density d0 patm eos cn k0 ref m t z zb T0 S0 rho0 zl :
  setup_reference_state d0 patm eos cn k0 = Ok ref -> default_coords cn = (t, z, zb) -> ds_get z d0 = Ok zl ->
  same_name eos (module_name m) ->
  dget "thetao" ref = Some T0 -> dget "so" ref = Some S0 -> dget "rho" ref = Some rho0 ->
  forall e, at_ rho0 e = eos_apply false (m, FDensity) (at_ T0 e) (at_ S0 e) (fadd (fmul (at_ zl e) (Fin 10000)) (at_ patm e)).
Proof.
  intros H Hc Hz Hm D1 D2 D3 e.
  apply setup_inv in H as (t' & z' & zb' & zl' & pres & T' & S' & V' & T1 & S1 & V1 & rho & volo & masso & rhoga & area
    & G0 & G1 & G2 & G3 & G4 & G5 & G6 & G7 & G8 & G9 & G10 & G11 & G12 & G13 & ->).
  rewrite Hc in G0. injection G0 as <- <- <-. rewrite Hz in G1. injection G1 as <-.
  injection D1 as <-. injection D2 as <-. injection D3 as <-.
  rewrite (rho_inv _ _ _ _ _ _ G9 Hm). apply amap2_inv in G2. rewrite G2. reflexivity.
Qed.

Lemma linear_ignores_p t s p q : eos_apply false (Linear, FDensity) t s p = eos_apply false (Linear, FDensity) t s q.
Proof. reflexivity. Qed.

(** Reference density of one level, on numbers. *)
Lemma opt_Fin v x : opt v = Some x <-> v = Fin x.
Proof. destruct v; cbn; split; intros H; inversion H; reflexivity. Qed.

(** ** C35 *)
Lemma linear_additive d ref cn vm rhozero patm eos domain strict r1 r2 r3 ds d0 patm0 eos0 cn0 k0 t z zb T S T0 S0 vol rho0 zl ifaces depth zi n p w e :
  steric d (Some ref) cn vm rhozero patm eos "steric" domain strict = Ok (r1, ref) ->
  steric d (Some ref) cn vm rhozero patm eos "thermosteric" domain strict = Ok (r2, ref) ->
  steric d (Some ref) cn vm rhozero patm eos "halosteric" domain strict = Ok (r3, ref) ->
  setup_reference_state d0 patm0 eos0 cn0 k0 = Ok ref -> same_name eos0 "linear" ->
  domain <> "global" -> ds_rename vm d = Ok ds -> default_coords cn = (t, z, zb) -> same_name eos "linear" -> wf_ds ds ->
  dget "thetao" ds = Some T -> dget "so" ds = Some S -> dget "thetao" ref = Some T0 -> dget "so" ref = Some S0 ->
  dget "volcello" ref = Some vol -> dget "rho" ref = Some rho0 -> ds_get z ds = Ok zl ->
  dget zb ds = Some ifaces -> dget "deptho" ds = Some depth -> ~ In z (names depth) ->
  column_ok Linear z zi n T S rho0 depth zl patm ifaces p w e ->
  (forall k, (k < n)%nat -> let ek := upd e z k in
     (is_fin (at_ T0 ek) = true /\ is_fin (at_ S0 ek) = true /\ is_fin (at_ T ek) = true /\ is_fin (at_ S ek) = true) \/
     (at_ T ek = NaN /\ at_ S ek = NaN) \/ (at_ T0 ek = NaN /\ at_ S0 ek = NaN)) ->
  (forall k s, (k < n)%nat -> at_ T0 (upd e z k) <> Inf s /\ at_ S0 (upd e z k) <> Inf s) ->
  exists s1 s2 s3, dget "steric" r1 = Some s1 /\ dget "thermosteric" r2 = Some s2 /\ dget "halosteric" r3 = Some s3 /\
    at_ s1 e = fadd (at_ s2 e) (at_ s3 e).
Proof.
  intros H1 H2 H3 Hset He0 Hd Hr Hc Hm Hw DT DS DT0 DS0 Dv Dr Dz Di Dd Hzd Hcol Hval Hinf.
  assert (Hcol2 : column_ok Linear z zi n T S0 rho0 depth zl patm ifaces p w e).
  { destruct Hcol as (C1 & C2 & C3 & C4 & C5 & C6). repeat (split; [assumption|]). intros k Hk.
    destruct (C6 k Hk) as (K1 & K2 & K3 & K4 & K5). cbn zeta. split; [exact K1|]. split; [intros s; apply Hinf, Hk|].
    split; [exact K3|]. split; [exact K4|]. intros; exact I. }
  assert (Hcol3 : column_ok Linear z zi n T0 S rho0 depth zl patm ifaces p w e).
  { destruct Hcol as (C1 & C2 & C3 & C4 & C5 & C6). repeat (split; [assumption|]). intros k Hk.
    destruct (C6 k Hk) as (K1 & K2 & K3 & K4 & K5). cbn zeta. split; [intros s; apply (Hinf k s Hk)|].
    split; [exact K2|]. split; [exact K3|]. split; [exact K4|]. intros; exact I. }
  destruct (local_formula _ _ _ _ _ _ _ _ _ _ _ _ ds Linear t z zb T S vol rho0 zl ifaces depth zi n p w e
    H1 Hd Hr Hc Hm Hw (uf_steric _ _ _ _ DT DS) Dv Dr Dz Di Dd Hzd Hcol) as (_ & s1 & _ & E1 & _ & V1).
  destruct (local_formula _ _ _ _ _ _ _ _ _ _ _ _ ds Linear t z zb T S0 vol rho0 zl ifaces depth zi n p w e
    H2 Hd Hr Hc Hm Hw (uf_thermo _ _ _ _ DT DS0) Dv Dr Dz Di Dd Hzd Hcol2) as (_ & s2 & _ & E2 & _ & V2).
  destruct (local_formula _ _ _ _ _ _ _ _ _ _ _ _ ds Linear t z zb T0 S vol rho0 zl ifaces depth zi n p w e
    H3 Hd Hr Hc Hm Hw (uf_halo _ _ _ _ DT0 DS) Dv Dr Dz Di Dd Hzd Hcol3) as (_ & s3 & _ & E3 & _ & V3).
  exists s1, s2, s3. repeat (split; [assumption|]). rewrite V1, V2, V3.
  destruct (notnull (at_ vol (upd e z 0))); [|reflexivity]. rewrite fadd_Fin. f_equal.
  unfold steric_height. rewrite <- Rmult_plus_distr_l, <- Rsum_plus. f_equal. apply Rsum_ext. intros k Hk.
  cbn [c_w c_floor column_at]. rewrite <- Rmult_plus_distr_l. f_equal.
  unfold density_change. cbn [c_wet c_T c_S c_rho0 c_p column_at]. set (ek := upd e z k).
  destruct (notnull (at_ vol ek)); [|cbn; lra].
  destruct (default_coords cn0) as [[t0 z0] zb0] eqn:Hc0.
  assert (Hr0 : exists zl0, ds_get z0 d0 = Ok zl0).
  { assert (Hs := Hset). apply setup_inv in Hs as (t' & z' & zb' & zl' & x). decompose [ex and] x. rewrite Hc0 in H. injection H as <- <- <-. eauto. }
  destruct Hr0 as (zl0 & Hz0).
  assert (Er := built_density d0 patm0 eos0 cn0 k0 ref Linear t0 z0 zb0 T0 S0 rho0 zl0 Hset Hc0 Hz0 He0 DT0 DS0 Dr ek).
  rewrite Er. specialize (Hval k Hk). cbn zeta in Hval. fold ek in Hval.
  destruct Hval as [(F1 & F2 & F3 & F4)|[[F1 F2]|[F1 F2]]].
  - apply is_fin_ex in F1 as (a & ->). apply is_fin_ex in F2 as (b & ->). apply is_fin_ex in F3 as (c & ->). apply is_fin_ex in F4 as (f & ->).
    rewrite (linear_ignores_p _ _ _ (Fin 0)), eos_density_Fin by exact I. cbn [opt odef eos_rho]. unfold lin_rho. ring.
  - rewrite F1, F2. cbn. destruct (opt (at_ T0 ek)); cbn; lra.
  - rewrite F1, F2, eos_density_nan by tauto. cbn. destruct (opt (at_ T ek)), (opt (at_ S ek)); cbn; lra.
Qed.

(** ** C36 *)
Lemma height_nonneg m rhozero n c : 0 < rhozero ->
  (forall k x, (k < n)%nat -> density_change m c k = Some x -> x <= 0) -> 0 <= steric_height m rhozero n c.
Proof.
  intros H0 H. unfold steric_height.
  assert (Hs : 0 <= Rsum n (fun k => overlap (c_w c k) (c_w c (S k)) 0 (c_floor c) * - odef (density_change m c k))).
  { apply Rsum_nonneg. intros k Hk. apply Rmult_le_pos; [unfold overlap; apply Rmax_l|].
    destruct (density_change m c k) as [x|] eqn:E; cbn; [|lra]. specialize (H k x Hk E). lra. }
  rewrite (Rsum_ext n _ (fun k => -1 * (overlap (c_w c k) (c_w c (S k)) 0 (c_floor c) * odef (density_change m c k)))) in Hs
    by (intros; ring).
  rewrite Rsum_scal in Hs. assert (0 < 1 / rhozero) by (apply Rdiv_lt_0_compat; lra).
  set (A := Rsum n (fun k => overlap (c_w c k) (c_w c (S k)) 0 (c_floor c) * odef (density_change m c k))) in *.
  assert (0 <= (1 / rhozero) * (- A)) by (apply Rmult_le_pos; lra). lra.
Qed.

Lemma sign_response d reference cn vm rhozero patm eos variant domain strict res ref ds d0 k0 m t z zb T S T0 S0 vol rho0 zl ifaces depth zi n p w e :
  steric d reference cn vm rhozero patm eos variant domain strict = Ok (res, ref) -> domain <> "global" ->
  setup_reference_state d0 patm eos cn k0 = Ok ref -> ds_rename vm d = Ok ds -> ds_get z d0 = ds_get z ds ->
  default_coords cn = (t, z, zb) -> same_name eos (module_name m) -> wf_ds ds ->
  uses_fields ds ref variant T S -> dget "thetao" ref = Some T0 -> dget "so" ref = Some S0 ->
  dget "volcello" ref = Some vol -> dget "rho" ref = Some rho0 -> ds_get z ds = Ok zl ->
  dget zb ds = Some ifaces -> dget "deptho" ds = Some depth -> ~ In z (names depth) ->
  column_ok m z zi n T S rho0 depth zl patm ifaces p w e -> 0 < rhozero ->
  (forall k s, (k < n)%nat -> at_ T0 (upd e z k) <> Inf s /\ at_ S0 (upd e z k) <> Inf s) ->
  (forall k x y x0 y0, (k < n)%nat -> at_ T (upd e z k) = Fin x -> at_ S (upd e z k) = Fin y ->
     at_ T0 (upd e z k) = Fin x0 -> at_ S0 (upd e z k) = Fin y0 ->
     eos_defined m x0 y0 (p k) /\ eos_rho m x y (p k) <= eos_rho m x0 y0 (p k)) ->
  exists sea, dget variant res = Some sea /\ (at_ sea e = NaN \/ exists h, at_ sea e = Fin h /\ 0 <= h).
Proof.
  intros H Hd Hset Hr Hz0 Hc Hm Hw Hu DT0 DS0 Dv Dr Dz Di Dd Hzd Hcol Hpos Hinf Hmono.
  destruct (local_formula _ _ _ _ _ _ _ _ _ _ _ _ ds m t z zb T S vol rho0 zl ifaces depth zi n p w e
    H Hd Hr Hc Hm Hw Hu Dv Dr Dz Di Dd Hzd Hcol) as (_ & sea & _ & E & _ & V).
  exists sea. split; [exact E|]. rewrite V. destruct (notnull _); [right|left; reflexivity].
  eexists. split; [reflexivity|]. apply height_nonneg; [exact Hpos|]. intros k x Hk.
  unfold density_change. cbn [c_wet c_T c_S c_rho0 c_p column_at]. destruct (notnull (at_ vol (upd e z k))); [|discriminate].
  rewrite Dz in Hz0.
  assert (Er := built_density d0 patm eos cn k0 ref m t z zb T0 S0 rho0 zl Hset Hc Hz0 Hm DT0 DS0 Dr (upd e z k)).
  destruct (at_ T (upd e z k)) as [|s|a] eqn:ET; try discriminate. destruct (at_ S (upd e z k)) as [|s|b] eqn:ES; try discriminate.
  destruct (at_ T0 (upd e z k)) as [|s|a0] eqn:ET0.
  { rewrite eos_density_nan in Er by tauto. rewrite Er. discriminate. }
  { exfalso. apply (proj1 (Hinf k s Hk)), ET0. }
  destruct (at_ S0 (upd e z k)) as [|s|b0] eqn:ES0.
  { rewrite eos_density_nan in Er by tauto. rewrite Er. discriminate. }
  { exfalso. apply (proj2 (Hinf k s Hk)), ES0. }
  destruct (Hmono k a b a0 b0 Hk ET ES ET0 ES0) as [M1 M2].
  destruct Hcol as (_ & _ & _ & _ & _ & C6). destruct (C6 k Hk) as (_ & _ & _ & (x1 & y1 & K4 & K5 & K6) & _).
  rewrite K4, K5 in Er. cbn [fmul fadd] in Er. replace (x1 * 10000 + y1) with (p k) in Er by (rewrite K6; ring).
  rewrite eos_density_Fin in Er by exact M1. rewrite Er. cbn [opt]. intros [=<-]. lra.
Qed.

(** ** C38 *)
Lemma variant_known ds ref variant T S : select_fields ds ref variant = Ok (T, S) -> In variant ["steric"; "thermosteric"; "halosteric"].
Proof.
  unfold select_fields. destruct (String.eqb variant "thermosteric") eqn:E1; [apply String.eqb_eq in E1; subst; cbn; tauto|].
  destruct (String.eqb variant "halosteric") eqn:E2; [apply String.eqb_eq in E2; subst; cbn; tauto|].
  destruct (String.eqb variant "steric") eqn:E3; [apply String.eqb_eq in E3; subst; cbn; tauto|]. discriminate.
Qed.

Lemma unknown_variant d reference cn vm rhozero patm eos variant variant' domain strict :
  is_ok (steric d reference cn vm rhozero patm eos variant domain strict) = true ->
  ~ In variant' ["steric"; "thermosteric"; "halosteric"] ->
  steric d reference cn vm rhozero patm eos variant' domain strict = Err ValueError.
Proof.
  intros H Hn. destruct (steric d reference cn vm rhozero patm eos variant domain strict) as [[res ref]|] eqn:E; [|discriminate].
  apply steric_inv in E as (ds & t & z & zb & zl & pres & T & S & rho & G1 & (P1 & P2 & P3 & P4 & P5 & P6 & P7 & P8) & G3).
  unfold steric. rewrite G1. cbn [bind]. rewrite P1, P2. cbn [bind]. rewrite P3. cbn [bind]. rewrite P4. cbn [bind].
  replace (match reference with Some r => Ok r | None => setup_reference_state ds patm eos cn 0 end)
    with (Ok ref : Py.res dataset) by (destruct reference; [now subst|now rewrite P5]).
  cbn [bind]. rewrite P6. cbn [bind]. unfold select_fields.
  destruct (String.eqb variant' "thermosteric") eqn:E1; [apply String.eqb_eq in E1; subst; exfalso; apply Hn; cbn; tauto|].
  destruct (String.eqb variant' "halosteric") eqn:E2; [apply String.eqb_eq in E2; subst; exfalso; apply Hn; cbn; tauto|].
  destruct (String.eqb variant' "steric") eqn:E3; [apply String.eqb_eq in E3; subst; exfalso; apply Hn; cbn; tauto|].
  reflexivity.
Qed.


Lemma existsb_false {A} (l : list A) : existsb (fun _ => false) l = false.
Proof. induction l; [reflexivity|exact IHl]. Qed.

Lemma differ_get v ds ds' a a' k : differ_in v ds ds' a a' -> k <> v -> ds_get k ds' = ds_get k ds.
Proof. intros (_ & _ & _ & H & H') Hk. unfold ds_get. rewrite (H k Hk), H'. reflexivity. Qed.

Lemma differ_validate v ds ds' a a' r s ex : differ_in v ds ds' a a' -> v <> "areacello" ->
  validate_dataset ds' r s ex = validate_dataset ds r s ex.
Proof.
  intros (H1 & H2 & H3 & H4 & _) Hv.
  assert (Hmem : forall k, dmem k ds' = dmem k ds).
  { intros k. unfold dmem. destruct (string_dec k v) as [->|Hk]; [now rewrite H1, H2|now rewrite (H4 k Hk)]. }
  assert (Hrank : forall n k, rank_error ds' n k = rank_error ds n k).
  { intros n k. unfold rank_error. destruct (string_dec k v) as [->|Hk]; [|now rewrite (H4 k Hk)].
    rewrite H1, H2. unfold ndim. now rewrite H3. }
  unfold validate_dataset, validate_errors. rewrite !existsb_false.
  rewrite (filter_ext _ (fun x => negb (dmem x ds))) by (intros k; now rewrite Hmem).
  cbn [flat_map]. rewrite !Hrank, (H4 "areacello") by congruence. reflexivity.
Qed.

Lemma differ_setup v ds ds' a a' patm eos cn t z zb : differ_in v ds ds' a a' -> In v ["thetao"; "so"] ->
  default_coords cn = (t, z, zb) -> z <> v ->
  (forall e, at_ a' (upd e t 0) = at_ a (upd e t 0)) ->
  setup_reference_state ds' patm eos cn 0 = setup_reference_state ds patm eos cn 0.
Proof.
  intros Hdif Hv Hc Hz Hval. unfold setup_reference_state. rewrite Hc.
  rewrite (differ_get _ _ _ _ _ z Hdif Hz).
  assert (Hlev : forall k, (let* b := ds_get k ds' in let* c := isel_z t 0 b in Ok (squeeze c)) =
                           (let* b := ds_get k ds in let* c := isel_z t 0 b in Ok (squeeze c))).
  { intros k. destruct (string_dec k v) as [->|Hk]; [|now rewrite (differ_get _ _ _ _ _ k Hdif Hk)].
    destruct Hdif as (H1 & H2 & H3 & _). rewrite (ds_get_var _ _ _ H1), (ds_get_var _ _ _ H2). cbn [bind].
    unfold isel_z. rewrite H3. destruct (dget t (adims a)) as [n|] eqn:E; [|reflexivity].
    destruct (py_index 0 n) as [i|] eqn:P; [|reflexivity].
    assert (i = O) by (apply py_index_selects in P; lia). subst i.
    unfold isel. rewrite H3, E. destruct (Nat.ltb 0 n); [|reflexivity].
    replace (fun e => at_ a' (upd e t 0)) with (fun e => at_ a (upd e t 0)); [reflexivity|].
    apply functional_extensionality. intros e. symmetry. apply Hval. }
  rewrite !Hlev. destruct Hdif as (_ & _ & _ & H4 & _). rewrite (H4 "areacello"); [reflexivity|].
  intros <-. destruct Hv as [Hv|[Hv|[]]]; discriminate.
Qed.

Lemma variant_independent v variant d d' reference cn vm rhozero patm eos domain strict ds ds' a a' t z zb :
  (v = "so" /\ variant = "thermosteric" \/ v = "thetao" /\ variant = "halosteric") ->
  ds_rename vm d = Ok ds -> ds_rename vm d' = Ok ds' -> differ_in v ds ds' a a' ->
  default_coords cn = (t, z, zb) -> z <> v -> zb <> v ->
  (reference = None -> forall e, at_ a' (upd e t 0) = at_ a (upd e t 0)) ->
  steric d' reference cn vm rhozero patm eos variant domain strict = steric d reference cn vm rhozero patm eos variant domain strict.
Proof.
  intros Hv Hr Hr' Hdif Hc Hz Hzb Hval. unfold steric. rewrite Hr, Hr'. cbn [bind]. rewrite Hc.
  assert (Hva : v <> "areacello") by (destruct Hv as [[-> _]|[-> _]]; discriminate).
  rewrite (differ_validate _ _ _ _ _ _ _ _ Hdif Hva), (differ_get _ _ _ _ _ z Hdif Hz).
  assert (Hset : match reference with Some r => Ok r | None => setup_reference_state ds' patm eos cn 0 end =
                 match reference with Some r => Ok r | None => setup_reference_state ds patm eos cn 0 end).
  { destruct reference; [reflexivity|].
    apply (differ_setup v ds ds' a a' patm eos cn t z zb Hdif); [destruct Hv as [[-> _]|[-> _]]; cbn; tauto|exact Hc|exact Hz|].
    apply Hval. reflexivity. }
  rewrite Hset.
  assert (Hsel : forall r, select_fields ds' r variant = select_fields ds r variant).
  { intros r. unfold select_fields. destruct Hv as [[-> ->]|[-> ->]]; cbn [String.eqb Ascii.eqb Bool.eqb].
    - rewrite (differ_get _ _ _ _ _ "thetao" Hdif) by discriminate. reflexivity.
    - rewrite (differ_get _ _ _ _ _ "so" Hdif) by discriminate. reflexivity. }
  assert (Hloc : forall r rho, steric_local ds' r rho rhozero variant t z zb = steric_local ds r rho rhozero variant t z zb).
  { intros r rho. unfold steric_local. rewrite (differ_get _ _ _ _ _ z Hdif Hz), (differ_get _ _ _ _ _ zb Hdif Hzb).
    rewrite (differ_get _ _ _ _ _ "deptho" Hdif); [reflexivity|]. destruct Hv as [[-> _]|[-> _]]; discriminate. }
  destruct (validate_dataset ds false strict _); [cbn [bind]|reflexivity].
  destruct (ds_get z ds); [cbn [bind]|reflexivity]. destruct (aadd _ patm); [cbn [bind]|reflexivity].
  destruct (match reference with Some r => Ok r | None => setup_reference_state ds patm eos cn 0 end) as [r|]; [cbn [bind]|reflexivity].
  destruct (validate_dataset r true strict []); [cbn [bind]|reflexivity].
  rewrite Hsel. destruct (select_fields ds r variant) as [[x y]|]; [cbn [bind fst snd]|reflexivity].
  destruct (calc_rho x y _ eos); [cbn [bind]|reflexivity]. rewrite Hloc. reflexivity.
Qed.

(** ** C39 *)
Lemma other_domain_is_local d reference cn vm rhozero patm eos variant domain strict :
  domain <> "global" ->
  steric d reference cn vm rhozero patm eos variant domain strict = steric d reference cn vm rhozero patm eos variant "local" strict.
Proof. intros H. unfold steric. rewrite (proj2 (String.eqb_neq _ _) H). reflexivity. Qed.
