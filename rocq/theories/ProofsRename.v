(** * ProofsRename: array operations commute with renaming a dimension *)
From Coq Require Import Reals Lra Lia List String Bool Arith FunctionalExtensionality.
From Verif Require Import Num NumFacts Py Arr ArrFacts Eos Derived ProofsFields ProofsFields2.
Import ListNotations.

(** [a.rename({old: new})] *)
Definition rho (old new : string) (p : string * nat) : string * nat :=
  if String.eqb (fst p) old then (new, snd p) else p.
Definition rename (old new : string) (a : arr) : arr :=
  mkArr (map (rho old new) (adims a)) (fun e => at_ a (upd e old (e new))).
Definition rmap {A B} (f : A -> B) (r : res A) : res B :=
  match r with Ok a => Ok (f a) | Err e => Err e end.
Definition rn (old new d : string) : string := if String.eqb d old then new else d.

Section Rename.
Variables old new : string.
Let R := rename old new.

Lemma rho_fst p : fst (rho old new p) = rn old new (fst p).
Proof. unfold rho, rn. destruct (String.eqb (fst p) old); reflexivity. Qed.
Lemma rho_snd p : snd (rho old new p) = snd p.
Proof. unfold rho. destruct (String.eqb (fst p) old); reflexivity. Qed.

Lemma dget_rho d l : d <> new -> ~ In new (map fst l) -> dget (rn old new d) (map (rho old new) l) = dget d l.
Proof.
  intros Hd. induction l as [|[x n] l IH]; intros Hn; [reflexivity|]. cbn [map dget].
  destruct (rho old new (x, n)) as [x' n'] eqn:E.
  assert (E1 := rho_fst (x, n)). assert (E2 := rho_snd (x, n)). rewrite E in E1, E2. cbn in E1, E2. subst x' n'.
  cbn in Hn. assert (Hx : x <> new) by tauto.
  assert (Eb : String.eqb (rn old new d) (rn old new x) = String.eqb d x).
  { unfold rn. destruct (String.eqb d old) eqn:A, (String.eqb x old) eqn:B; try apply String.eqb_eq in A; try apply String.eqb_eq in B; subst.
    - rewrite !String.eqb_refl. reflexivity.
    - rewrite (proj2 (String.eqb_neq new x)) by congruence. apply String.eqb_neq in B. symmetry. apply String.eqb_neq. congruence.
    - rewrite (proj2 (String.eqb_neq d new)) by congruence. apply String.eqb_neq in A. symmetry. apply String.eqb_neq. congruence.
    - reflexivity. }
  rewrite Eb. destruct (String.eqb d x); [reflexivity|]. apply IH. tauto.
Qed.
Lemma dmem_rho d l : d <> new -> ~ In new (map fst l) -> dmem (rn old new d) (map (rho old new) l) = dmem d l.
Proof. intros H1 H2. unfold dmem. rewrite dget_rho by assumption. reflexivity. Qed.

Lemma compatible_rho d1 d2 : ~ In new (map fst d1) -> ~ In new (map fst d2) ->
  compatible (map (rho old new) d1) (map (rho old new) d2) = compatible d1 d2.
Proof.
  intros H1. unfold compatible. induction d2 as [|[x n] d2 IH]; intros H2; [reflexivity|].
  cbn [map forallb]. rewrite rho_fst, rho_snd. cbn in H2. cbn [fst snd]. rewrite dget_rho by tauto.
  rewrite IH by tauto. reflexivity.
Qed.
Lemma union_rho d1 d2 : ~ In new (map fst d1) -> ~ In new (map fst d2) ->
  union_dims (map (rho old new) d1) (map (rho old new) d2) = map (rho old new) (union_dims d1 d2).
Proof.
  intros H1 H2. unfold union_dims. rewrite map_app. f_equal.
  induction d2 as [|[x n] d2 IH]; [reflexivity|]. cbn [map filter]. rewrite rho_fst. cbn in H2. cbn [fst].
  rewrite dmem_rho by tauto. rewrite IH by tauto. destruct (dmem x d1); reflexivity.
Qed.

Definition fresh (a : arr) : Prop := ~ In new (names a).

Lemma rename_amap f a : amap f (R a) = R (amap f a).
Proof. reflexivity. Qed.
Lemma rename_amap2 f a b : fresh a -> fresh b -> amap2 f (R a) (R b) = rmap R (amap2 f a b).
Proof.
  intros Ha Hb. unfold amap2, R. cbn [adims rename]. rewrite compatible_rho by assumption.
  destruct (compatible _ _); [|reflexivity]. cbn. f_equal. unfold rename. cbn. rewrite union_rho by assumption. reflexivity.
Qed.
Lemma fresh_union a b : fresh a -> fresh b -> ~ In new (map fst (union_dims (adims a) (adims b))).
Proof. intros Ha Hb. rewrite union_names. unfold fresh, names in *. tauto. Qed.
Lemma rename_amap3 f a b c : fresh a -> fresh b -> fresh c -> amap3 f (R a) (R b) (R c) = rmap R (amap3 f a b c).
Proof.
  intros Ha Hb Hc. unfold amap3, R. cbn [adims rename]. rewrite compatible_rho by assumption.
  rewrite union_rho by assumption. rewrite compatible_rho by (try apply fresh_union; assumption).
  destruct (_ && _); [|reflexivity]. cbn. f_equal. unfold rename. cbn.
  rewrite union_rho by (try apply fresh_union; assumption). reflexivity.
Qed.
Lemma fresh_amap2 f a b r : fresh a -> fresh b -> amap2 f a b = Ok r -> fresh r.
Proof. intros Ha Hb H. apply amap2_inv in H. subst. unfold fresh, names. cbn. apply fresh_union; assumption. Qed.

Lemma compat_shape_rho u own b : ~ In new (map fst u) -> ~ In new (map fst own) ->
  compat_shape (map (rho old new) u) (map (rho old new) own) b = compat_shape u own b.
Proof.
  intros Hu Ho. revert b. induction u as [|[d n] u IH]; intros b; [reflexivity|]. cbn [map].
  destruct (rho old new (d, n)) as [d' n'] eqn:E.
  assert (E1 := rho_fst (d, n)). assert (E2 := rho_snd (d, n)). rewrite E in E1, E2. cbn in E1, E2. subst d' n'.
  cbn in Hu. cbn [compat_shape]. rewrite dmem_rho by tauto. rewrite !IH by tauto. reflexivity.
Qed.
Lemma map_snd_rho l : map snd (map (rho old new) l) = map snd l.
Proof. rewrite map_map. apply map_ext. intros p. apply rho_snd. Qed.

Lemma rename_eos ti f t s p : fresh t -> fresh s -> fresh p ->
  eos_ufunc ti f (R t) (R s) (R p) = rmap R (eos_ufunc ti f t s p).
Proof.
  intros Ht Hs Hp. unfold eos_ufunc. rewrite rename_amap3 by assumption.
  destruct (amap3 (eos_apply ti f) t s p); [|reflexivity]. cbn [rmap bind].
  assert (E : eos_shape_ok (fst f) (R t) (R s) (R p) = eos_shape_ok (fst f) t s p).
  { unfold eos_shape_ok, R. destruct (fst f); [reflexivity|]. cbn [adims rename].
    rewrite <- map_app. rewrite !union_rho by (try apply fresh_union; assumption).
    rewrite compat_shape_rho, map_snd_rho; [reflexivity| |].
    - rewrite union_names. intros [H|H]; [revert H; apply fresh_union; assumption|contradiction].
    - rewrite map_app, in_app_iff. unfold fresh, names in *. tauto. }
  rewrite E. clear E. destruct (eos_shape_ok (fst f) t s p); reflexivity.
Qed.
Lemma fresh_eos ti f t s p r : fresh t -> fresh s -> fresh p -> eos_ufunc ti f t s p = Ok r -> fresh r.
Proof.
  intros Ht Hs Hp H. unfold eos_ufunc in H. apply bind_inv in H as (q & Hq & H).
  destruct (eos_shape_ok _ _ _ _); [|discriminate]. injection H as <-. apply amap3_inv in Hq. subst.
  unfold fresh, names. cbn. rewrite union_names. intros [H|H]; [revert H; apply fresh_union; assumption|contradiction].
Qed.

Lemma rename_differentiate x a : old <> new -> fresh a -> wf_arr a ->
  differentiate new x (R a) = rmap R (differentiate old x a).
Proof.
  intros Hne Hf [_ Hw]. unfold differentiate, R. cbn [adims rename].
  assert (E : dget new (map (rho old new) (adims a)) = dget old (adims a)).
  { rewrite <- (dget_rho old (adims a) Hne Hf). unfold rn. rewrite String.eqb_refl. reflexivity. }
  rewrite E. destruct (dget old (adims a)) as [n|]; [|reflexivity].
  destruct (Nat.ltb n 3); [reflexivity|]. cbn. f_equal. unfold rename. cbn. f_equal.
  apply functional_extensionality; intros e. rewrite upd_same. f_equal.
  apply functional_extensionality; intros k. apply Hw. intros d Hd.
  assert (d <> new) by (intros ->; contradiction).
  destruct (string_dec d old) as [->|].
  - rewrite !upd_same. reflexivity.
  - rewrite !upd_other by congruence. reflexivity.
Qed.
Lemma fresh_differentiate x a r : fresh a -> differentiate old x a = Ok r -> fresh r.
Proof.
  intros Hf. unfold differentiate. destruct (dget old (adims a)); [|discriminate].
  destruct (Nat.ltb _ 3); [discriminate|]. intros [=<-]. exact Hf.
Qed.

Lemma rename_zarr n z : R (zarr old n z) = zarr new n z.
Proof.
  unfold R, rename, zarr. cbn. unfold rho. cbn. rewrite String.eqb_refl. f_equal.
  apply functional_extensionality; intros e. rewrite upd_same. reflexivity.
Qed.

(** N2 of renamed fields is the renamed N2. *)
Lemma rename_n2 ti t s z eos g patm : old <> new -> fresh t -> fresh s -> fresh patm -> wf_arr t -> wf_arr s ->
  calc_n2 ti (R t) (R s) z eos g (R patm) new false = rmap R (calc_n2 ti t s z eos g patm old false).
Proof.
  intros Hne Ht Hs Hp Wt Ws. unfold calc_n2.
  assert (E : dget new (adims (R t)) = dget old (adims t)).
  { unfold R. cbn. rewrite <- (dget_rho old (adims t) Hne Ht). unfold rn. rewrite String.eqb_refl. reflexivity. }
  rewrite E. destruct (dget old (adims t)) as [n|]; [|reflexivity]. cbn [bind].
  unfold pressure_from_depth. rewrite <- rename_zarr.
  assert (Fz : fresh (zarr old n z)) by (unfold fresh; cbn; intros [H|[]]; congruence).
  assert (Fz' : fresh (const_r fmul (zarr old n z) (Fin 10000))) by exact Fz.
  change (const_r fmul (R (zarr old n z)) (Fin 10000)) with (R (const_r fmul (zarr old n z) (Fin 10000))).
  unfold aadd. rewrite rename_amap2 by assumption.
  destruct (amap2 fadd _ patm) as [pres|] eqn:Ep; [|reflexivity]. cbn [rmap bind].
  assert (Fp := fresh_amap2 _ _ _ _ Fz' Hp Ep).
  unfold calc_alpha. destruct (eos_func_from_str eos FAlpha) as [fa|]; [|reflexivity]. cbn [bind].
  rewrite rename_eos by assumption. destruct (eos_ufunc ti fa t s pres) as [al|] eqn:Ea; [|reflexivity]. cbn [rmap bind].
  assert (Fa := fresh_eos _ _ _ _ _ _ Ht Hs Fp Ea).
  unfold calc_beta. destruct (eos_func_from_str eos FBeta) as [fb|]; [|reflexivity]. cbn [bind].
  rewrite rename_eos by assumption. destruct (eos_ufunc ti fb t s pres) as [be|] eqn:Eb; [|reflexivity]. cbn [rmap bind].
  assert (Fb := fresh_eos _ _ _ _ _ _ Ht Hs Fp Eb).
  rewrite rename_differentiate by assumption. destruct (differentiate old z t) as [dt|] eqn:Edt; [|reflexivity]. cbn [rmap bind].
  assert (Fdt := fresh_differentiate _ _ _ Ht Edt).
  rewrite rename_differentiate by assumption. destruct (differentiate old z s) as [ds|] eqn:Eds; [|reflexivity]. cbn [rmap bind].
  assert (Fds := fresh_differentiate _ _ _ Hs Eds).
  unfold amul, asub. rewrite rename_amap2 by assumption. destruct (amap2 fmul al dt) as [u|] eqn:Eu; [|reflexivity]. cbn [rmap bind].
  assert (Fu := fresh_amap2 _ _ _ _ Fa Fdt Eu).
  rewrite rename_amap2 by assumption. destruct (amap2 fmul be ds) as [v|] eqn:Ev; [|reflexivity]. cbn [rmap bind].
  assert (Fv := fresh_amap2 _ _ _ _ Fb Fds Ev).
  rewrite rename_amap2 by assumption. destruct (amap2 fsub u v) as [w|]; [|reflexivity]. reflexivity.
Qed.
End Rename.
