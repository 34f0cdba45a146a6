(** * ProofsSteric2: reference state, masks, additivity, global formula *)
From Coq Require Import Reals Lra Lia List String Bool Arith ZArith FunctionalExtensionality Permutation.
From Verif Require Import Num NumFacts Py Arr ArrFacts Eos SpecEos Derived SpecDz Dataset SpecSteric
  ProofsEos ProofsEosApi ProofsFields ProofsFields2 ProofsDz ProofsBudget ProofsSteric.
Import ListNotations.
Local Open Scope string_scope.
Local Open Scope R_scope.

Lemma py_index_selects k n i : py_index k n = Some i <-> ((0 <= k)%Z /\ (i < n)%nat /\ k = Z.of_nat i) \/
  ((k < 0)%Z /\ (i < n)%nat /\ (k + Z.of_nat n)%Z = Z.of_nat i).
Proof.
  unfold py_index. destruct (Z.ltb_spec k 0) as [H|H]; cbn zeta.
  - destruct ((0 <=? k + Z.of_nat n) && (k + Z.of_nat n <? Z.of_nat n))%Z eqn:E.
    + apply andb_true_iff in E as [E1 E2]. apply Z.leb_le in E1. apply Z.ltb_lt in E2. split.
      * intros [=<-]. right. lia.
      * intros [G|G]; [lia|]. f_equal. lia.
    + split; [discriminate|]. intros [G|G]; [lia|]. apply andb_false_iff in E as [E|E];
      [apply Z.leb_gt in E|apply Z.ltb_ge in E]; lia.
  - destruct ((0 <=? k) && (k <? Z.of_nat n))%Z eqn:E.
    + apply andb_true_iff in E as [E1 E2]. apply Z.leb_le in E1. apply Z.ltb_lt in E2. split.
      * intros [=<-]. left. lia.
      * intros [G|G]; [|lia]. f_equal. lia.
    + split; [discriminate|]. intros [G|G]; [|lia]. apply andb_false_iff in E as [E|E];
      [apply Z.leb_gt in E|apply Z.ltb_ge in E]; lia.
Qed.

Lemma filter_length_le' {A} (f : A -> bool) l : (List.length (filter f l) <= List.length l)%nat.
Proof. induction l as [|a l IH]; cbn; [lia|]. destruct (f a); cbn; lia. Qed.

Lemma length_filter_all {A} (f : A -> bool) l : List.length (filter f l) = List.length l -> forall x, In x l -> f x = true.
Proof.
  induction l as [|a l IH]; cbn; [intros _ x []|]. intros H x [<-|Hx].
  - destruct (f a) eqn:E; [reflexivity|]. exfalso. assert (G := filter_length_le' f l). rewrite H in G. lia.
  - apply IH; [|exact Hx]. destruct (f a); cbn in H; [lia|]. assert (G := filter_length_le' f l). rewrite H in G. lia.
Qed.

Lemma drop_length t l n : NoDup (map fst l) -> dget t l = Some n -> S (List.length (drop_dim t l)) = List.length l.
Proof.
  induction l as [|[d m] l IH]; cbn; [discriminate|]. intros Hn H. inversion Hn as [|? ? Hd Hn']; subst.
  destruct (String.eqb t d) eqn:E.
  - cbn. f_equal. apply String.eqb_eq in E. subst d. f_equal. clear -Hd.
    induction l as [|[d m] l IH]; [reflexivity|]. cbn in *. destruct (String.eqb t d) eqn:E.
    + apply String.eqb_eq in E. subst. tauto.
    + cbn. f_equal. apply IH. tauto.
  - cbn. f_equal. apply IH; assumption.
Qed.

(** One field of the reference state, when it has three dimensions left. *)
Lemma level_field t k T T0 : isel_z t k T = Ok T0 -> ndim T = 4%nat -> ndim (squeeze T0) = 3%nat -> NoDup (names T) ->
  exists n i, dget t (adims T) = Some n /\ py_index k n = Some i /\
    adims (squeeze T0) = drop_dim t (adims T) /\ forall e, at_ (squeeze T0) e = at_ T (upd e t i).
Proof.
  intros H H4 H3 Hn. apply isel_z_inv in H as (n & i & H1 & H2 & _ & H5 & H6).
  exists n, i. split; [exact H1|]. split; [exact H2|].
  assert (L : S (List.length (drop_dim t (adims T))) = 4%nat).
  { rewrite (drop_length _ _ _ Hn H1). exact H4. }
  assert (Hs : forall d m, In (d, m) (adims T0) -> m <> 1%nat).
  { intros d m Hin. assert (G := length_filter_all (fun p => negb (Nat.eqb (snd p) 1)) (adims T0)).
    assert (GL : List.length (filter (fun p => negb (Nat.eqb (snd p) 1)) (adims T0)) = List.length (adims T0)).
    { transitivity 3%nat; [exact H3|]. rewrite H5. lia. }
    specialize (G GL (d, m) Hin). apply negb_true_iff, Nat.eqb_neq in G. exact G. }
  assert (N0 : NoDup (names T0)) by (unfold names; rewrite H5; apply drop_NoDup; exact Hn).
  destruct (squeeze_id T0 Hs N0) as [S1 S2]. split; [rewrite S1; exact H5|].
  intros e. rewrite S2. apply H6.
Qed.

Lemma upd_self e t i : e t = i -> upd e t i = e.
Proof. intros <-. apply upd_id. Qed.

Lemma select_uses ds ref variant T S : select_fields ds ref variant = Ok (T, S) ->
  (exists a, dget "thetao" ds = Some a) -> (exists a, dget "so" ds = Some a) ->
  (exists a, dget "thetao" ref = Some a) -> (exists a, dget "so" ref = Some a) ->
  uses_fields ds ref variant T S.
Proof.
  intros H (a & Ha) (b & Hb) (c & Hc) (d & Hd). unfold select_fields in H.
  rewrite (ds_get_var _ _ _ Ha), (ds_get_var _ _ _ Hb), (ds_get_var _ _ _ Hc), (ds_get_var _ _ _ Hd) in H. cbn [bind] in H.
  destruct (String.eqb variant "thermosteric") eqn:E1.
  { apply String.eqb_eq in E1. subst. injection H as <- <-. constructor; assumption. }
  destruct (String.eqb variant "halosteric") eqn:E2.
  { apply String.eqb_eq in E2. subst. injection H as <- <-. constructor; assumption. }
  destruct (String.eqb variant "steric") eqn:E3; [|discriminate].
  apply String.eqb_eq in E3. subst. injection H as <- <-. constructor; assumption.
Qed.

Lemma uses_unique ds ref variant T S T' S' : uses_fields ds ref variant T S -> uses_fields ds ref variant T' S' -> T = T' /\ S = S'.
Proof. intros H H'. inversion H; subst; inversion H'; subst; split; congruence. Qed.

Lemma prepared_uses ds reference cn patm eos variant domain strict t z zb ref zl pres T S rho :
  prepared ds reference cn patm eos variant domain strict t z zb ref zl pres T S rho -> uses_fields ds ref variant T S.
Proof.
  intros (_ & Hv & _ & _ & _ & Hv' & Hs & _). apply select_uses; [exact Hs| | | |];
    (eapply validated_get; [eassumption|]); cbn; tauto.
Qed.

Lemma uses_not_delta ds ref variant T S : uses_fields ds ref variant T S -> String.eqb variant "delta_rho" = false.
Proof. intros H. inversion H; reflexivity. Qed.

(** ** C32 *)
Lemma local_formula d reference cn vm rhozero patm eos variant domain strict res ref ds m t z zb T S vol rho0 zl ifaces depth zi n p w e :
  steric d reference cn vm rhozero patm eos variant domain strict = Ok (res, ref) -> domain <> "global" ->
  ds_rename vm d = Ok ds -> default_coords cn = (t, z, zb) -> same_name eos (module_name m) -> wf_ds ds ->
  uses_fields ds ref variant T S ->
  dget "volcello" ref = Some vol -> dget "rho" ref = Some rho0 -> ds_get z ds = Ok zl ->
  dget zb ds = Some ifaces -> dget "deptho" ds = Some depth -> ~ In z (names depth) ->
  column_ok m z zi n T S rho0 depth zl patm ifaces p w e ->
  let c := column_at z T S rho0 vol depth p w e in
  exists delta sea, dget "delta_rho" res = Some delta /\ dget variant res = Some sea /\
    (forall k, (k < n)%nat -> at_ delta (upd e z k) = fof (density_change m c k)) /\
    at_ sea e = (if notnull (at_ vol (upd e z 0)) then Fin (steric_height m rhozero n c) else NaN).
Proof.
  intros H Hd Hr Hc Hm Hw Hu Dv Dr Dz Di Dd Hzd Hcol c.
  apply steric_inv in H as (ds' & t' & z' & zb' & zl' & pres & T' & S' & rho & G1 & G2 & G3).
  rewrite Hr in G1. injection G1 as <-.
  rewrite (proj2 (String.eqb_neq _ _) Hd) in G3.
  assert (Hu' := prepared_uses _ _ _ _ _ _ _ _ _ _ _ _ _ _ _ _ _ G2).
  destruct (uses_unique _ _ _ _ _ _ _ Hu Hu') as [<- <-].
  destruct G2 as (P1 & P2 & P3 & P4 & P5 & P6 & P7 & P8). rewrite Hc in P1. injection P1 as <- <- <-.
  rewrite Dz in P3. injection P3 as <-.
  destruct (local_value ds ref T S pres patm eos rho m rhozero variant t z zb res vol rho0 zl zi ifaces depth p w n e
    G3 Dz P4 P8 Hm Dv Dr Di Dd (Hw _ _ Di) (Hw _ _ Dd) Hzd Hcol) as (delta & sea & -> & R1 & R2).
  exists delta, sea. split; [reflexivity|]. split; [|split; assumption].
  cbn [dget]. rewrite (uses_not_delta _ _ _ _ _ Hu), String.eqb_refl. reflexivity.
Qed.

(** ** C40 *)
Lemma reference_reuse d cn vm rhozero patm eos variant domain strict res ref :
  steric d None cn vm rhozero patm eos variant domain strict = Ok (res, ref) <->
  (exists ds, ds_rename vm d = Ok ds /\ setup_reference_state ds patm eos cn 0 = Ok ref) /\
  steric d (Some ref) cn vm rhozero patm eos variant domain strict = Ok (res, ref).
Proof.
  split.
  - intros H. apply steric_inv in H as (ds & t & z & zb & zl & pres & T & S & rho & G1 & G2 & G3).
    split; [exists ds; split; [exact G1|apply G2]|].
    rewrite (steric_fwd d (Some ref) cn vm rhozero patm eos variant domain strict ref ds t z zb zl pres T S rho G1).
    + rewrite G3. reflexivity.
    + destruct G2 as (P1 & P2 & P3 & P4 & P5 & P6 & P7 & P8). repeat (split; [assumption || reflexivity|]). assumption.
  - intros [(ds' & G1' & G0) H]. apply steric_inv in H as (ds & t & z & zb & zl & pres & T & S & rho & G1 & G2 & G3).
    rewrite G1 in G1'. injection G1' as <-.
    rewrite (steric_fwd d None cn vm rhozero patm eos variant domain strict ref ds t z zb zl pres T S rho G1).
    + rewrite G3. reflexivity.
    + destruct G2 as (P1 & P2 & P3 & P4 & P5 & P6 & P7 & P8). repeat (split; [assumption || reflexivity|]). assumption.
Qed.

(** ** A reference state built from a dataset is consistent *)
Lemma ref_fields ds patm eos cn k ref strict extra t z zb T S V :
  setup_reference_state ds patm eos cn k = Ok ref -> default_coords cn = (t, z, zb) ->
  validate_dataset ds false strict extra = Ok tt -> validate_dataset ref true strict [] = Ok tt -> wf_ds ds ->
  dget "thetao" ds = Some T -> dget "so" ds = Some S -> dget "volcello" ds = Some V ->
  exists T0 S0 V0 rho0 zl pres volo masso rhoga,
    dget "thetao" ref = Some T0 /\ dget "so" ref = Some S0 /\ dget "volcello" ref = Some V0 /\ dget "rho" ref = Some rho0 /\
    dget "volo" ref = Some volo /\ dget "masso" ref = Some masso /\ dget "rhoga" ref = Some rhoga /\
    ds_get z ds = Ok zl /\ aadd (const_r fmul zl (Fin 10000)) patm = Ok pres /\
    calc_rho T0 S0 pres eos = Ok rho0 /\ calc_volo V0 = Ok volo /\ calc_masso rho0 V0 t = Ok masso /\ calc_rhoga masso volo = Ok rhoga /\
    (exists n i, dget t (adims T) = Some n /\ py_index k n = Some i /\ adims T0 = drop_dim t (adims T) /\ forall e, at_ T0 e = at_ T (upd e t i)) /\
    (exists n i, dget t (adims S) = Some n /\ py_index k n = Some i /\ adims S0 = drop_dim t (adims S) /\ forall e, at_ S0 e = at_ S (upd e t i)) /\
    (exists n i, dget t (adims V) = Some n /\ py_index k n = Some i /\ adims V0 = drop_dim t (adims V) /\ forall e, at_ V0 e = at_ V (upd e t i)).
Proof.
  intros H Hc Hv Hv' Hw DT DS DV.
  apply setup_inv in H as (t' & z' & zb' & zl & pres & T' & S' & V' & T0 & S0 & V0 & rho & volo & masso & rhoga & area
    & G0 & G1 & G2 & G3 & G4 & G5 & G6 & G7 & G8 & G9 & G10 & G11 & G12 & G13 & ->).
  rewrite Hc in G0. injection G0 as <- <- <-.
  rewrite (ds_get_var _ _ _ DT) in G3. injection G3 as <-.
  rewrite (ds_get_var _ _ _ DS) in G4. injection G4 as <-.
  rewrite (ds_get_var _ _ _ DV) in G5. injection G5 as <-.
  exists (squeeze T0), (squeeze S0), (squeeze V0), rho, zl, pres, volo, masso, rhoga.
  repeat (split; [reflexivity || assumption|]).
  split; [|split].
  - apply (level_field _ _ _ _ G6); [exact (validated_rank _ _ _ _ "thetao" _ Hv (or_introl eq_refl) DT)
      |exact (validated_rank _ _ _ _ "thetao" _ Hv' (or_introl eq_refl) eq_refl)|exact (proj1 (Hw _ _ DT))].
  - apply (level_field _ _ _ _ G7); [exact (validated_rank _ _ _ _ "so" _ Hv (or_intror (or_introl eq_refl)) DS)
      |exact (validated_rank _ _ _ _ "so" _ Hv' (or_intror (or_introl eq_refl)) eq_refl)|exact (proj1 (Hw _ _ DS))].
  - apply (level_field _ _ _ _ G8); [exact (validated_rank _ _ _ _ "volcello" _ Hv (or_intror (or_intror (or_introl eq_refl))) DV)
      |exact (validated_rank _ _ _ _ "volcello" _ Hv' (or_intror (or_intror (or_introl eq_refl))) eq_refl)|exact (proj1 (Hw _ _ DV))].
Qed.
