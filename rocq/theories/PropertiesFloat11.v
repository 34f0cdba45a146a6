(** * PropertiesFloat11: C157 (volume, mass and mean density in binary64) *)
From Coq Require Import Reals Lra Lia List String ZArith QArith Qreals Bool.
From Flocq Require Import Core IEEE754.BinarySingleNaN.
From Verif Require Import Num NumFacts Py Arr ArrFacts Derived SpecFloat64 SpecIeee Ieee IeeeGlobal IeeeTime IeeeBudget
  ProofsFloat ProofsIeee ProofsFloat4 ProofsFloat6 ProofsBudget ProofsFloat8 ProofsFloat9 ProofsFloat19 ProofsFloat21 PropertiesBudget.
Import ListNotations.
Local Open Scope R_scope.

(** A density or a volume: missing, zero, or between 2^-100 and 2^100. *)
Definition amount (x : f64) : Prop := is_nan x = true \/ is_finite x = true /\ (B2R x = 0 \/ / 2 ^ 100 <= B2R x <= 2 ^ 100).
(** All cells of a block of an array: the dimensions [ds] run, the others are those of [e]. *)
Fixpoint block (ds : list (string * nat)) (e : index) : list index :=
  match ds with
  | [] => [e]
  | (d, n) :: ds' => flat_map (fun k => block ds' (upd e d k)) (seq 0 n)
  end.
Lemma amount_adm x : amount x -> adm x.
Proof.
  unfold amount, adm. assert (E1 : bpow radix2 100 = 2 ^ 100) by (rewrite (pow_IZR 2 100); reflexivity).
  assert (E2 : bpow radix2 (-100) = / 2 ^ 100) by (change (-100)%Z with (- (100))%Z; rewrite bpow_opp, E1; reflexivity). rewrite E1, E2. auto.
Qed.
Lemma block_sum F ds : forall e, Rsum_box ds F e = rsum (map F (block ds e)).
Proof.
  induction ds as [|[d n] ds IH]; intros e; [cbn; lra|]. cbn [Rsum_box block].
  rewrite (Rsum_ext n _ (fun k => rsum (map F (block ds (upd e d k))))) by (intros; apply IH).
  rewrite <- rsum_Rsum. generalize (seq 0 n). intros l. induction l as [|k l IHl]; [reflexivity|].
  cbn [map flat_map rsum]. rewrite map_app, rsum_app, IHl. reflexivity.
Qed.
Lemma of_f64_val (x : f64) : adm x -> (match of_f64 x with Fin v => v | _ => 0 end) = ProofsFloat21.val x.
Proof.
  unfold ProofsFloat21.val. intros _. destruct x; reflexivity.
Qed.
Lemma rsum_ext {A} (f g : A -> R) l : (forall x, In x l -> f x = g x) -> rsum (map f l) = rsum (map g l).
Proof. intros H. f_equal. apply map_ext_in, H. Qed.

(** [fr], [fv]: the binary64 data; [sm], [sv]: their sums in any order of at most [k] additions. *)
Theorem C157_budget : forall rho vol t m v g e,
  calc_masso rho vol t = Ok m -> calc_volo vol = Ok v -> calc_rhoga m v = Ok g ->
  NoDup (names rho) -> NoDup (names vol) ->
  forall fr fv : index -> f64, (forall i, at_ rho i = of_f64 (fr i)) -> (forall i, at_ vol i = of_f64 (fv i)) ->
  (forall i, amount (fr i) /\ amount (fv i)) ->
  let wet := block (other_dims t (union_dims (adims rho) (adims vol))) e in
  let all := block (adims vol) e in
  (Z.of_nat (List.length wet) <= 2 ^ 100)%Z -> (Z.of_nat (List.length all) <= 2 ^ 100)%Z ->
  forall k sm sv, (Z.of_nat k <= 500000)%Z ->
  tree64 k (map (fun i => cell_mass64 (fr i, fv i)) wet) sm -> tree64 k (map (fun i => cell_vol64 (fr i, fv i)) all) sv ->
  exists mx vx, at_ m e = Fin mx /\ at_ v e = Fin vx /\ 0 <= mx /\ 0 <= vx /\
    is_finite sm = true /\ Rabs (B2R sm - mx) <= (INR k + 1) * 1.12e-16 * mx /\
    is_finite sv = true /\ Rabs (B2R sv - vx) <= INR k * 1.12e-16 * vx /\
    (0 < vx -> exists gx, at_ g e = Fin gx /\ is_finite (rhoga64 sm sv) = true /\
       Rabs (B2R (rhoga64 sm sv) - gx) <= (2 * INR k + 2) * 1.12e-16 * gx).
Proof.
  intros rho vol t m v g e Hm Hv Hg Nr Nv fr fv Er Ev HA wet all L1 L2 k sm sv Hk Tm Tv.
  assert (NI : forall i, is_nan (fr i) = true \/ is_finite (fr i) = true) by (intros i; destruct (HA i) as [[H|[H _]] _]; auto).
  assert (NI2 : forall i, is_nan (fv i) = true \/ is_finite (fv i) = true) by (intros i; destruct (HA i) as [_ [H|[H _]]]; auto).
  assert (Ir : no_inf rho) by (intros i s; rewrite Er; destruct (NI i) as [H|H]; destruct (fr i); try discriminate H; discriminate).
  assert (Iv : no_inf vol) by (intros i s; rewrite Ev; destruct (NI2 i) as [H|H]; destruct (fv i); try discriminate H; discriminate).
  destruct (masso_value _ _ _ _ Hm Nr Nv Ir Iv) as [Em _]. specialize (Em e).
  destruct (volo_value _ _ Hv Nv Iv) as (_ & Ev' & _). specialize (Ev' e).
  rewrite block_sum in Em, Ev'. fold wet in Em. fold all in Ev'.
  set (c := fun i => (fr i, fv i)).
  destruct (budget (map c wet) (map c all) k sm sv) as (F1 & N1 & F2 & N2 & G); rewrite ?map_length, ?map_map; try assumption.
  { intros x Hx. apply in_map_iff in Hx as (i & <- & _). destruct (HA i). split; apply amount_adm; assumption. }
  { intros x Hx. apply in_map_iff in Hx as (i & <- & _). destruct (HA i). apply amount_adm; assumption. }
  unfold Mex, Vex in *. rewrite !map_map in N1, N2, G.
  assert (EM : rsum (map (fun i => cell_mass (at_ rho i) (at_ vol i)) wet) = rsum (map (fun x => ProofsFloat21.val (fst (c x)) * ProofsFloat21.val (snd (c x))) wet)).
  { apply rsum_ext. intros i _. destruct (HA i) as [A1 A2]. unfold c. cbn [fst snd]. rewrite <- !of_f64_val by (apply amount_adm; assumption).
    rewrite Er, Ev. unfold cell_mass. destruct (of_f64 (fr i)), (of_f64 (fv i)); lra. }
  assert (EV : rsum (map (fun i => NumFacts.val (at_ vol i)) all) = rsum (map (fun x => ProofsFloat21.val (snd (c x))) all)).
  { apply rsum_ext. intros i _. destruct (HA i) as [A1 A2]. unfold c. cbn [snd]. rewrite <- of_f64_val by (apply amount_adm; assumption).
    rewrite Ev. reflexivity. }
  rewrite EM in Em. rewrite EV in Ev'.
  set (M := rsum _) in Em. set (V := rsum _) in Ev'.
  exists M, V. split; [exact Em|]. split; [exact Ev'|]. split; [apply N1|]. split; [apply N2|].
  split; [exact F1|]. split; [apply (rel_bound k 1); [lia|exact N1]|]. split; [exact F2|].
  split; [replace (INR k) with (INR k + INR 0) by (cbn; lra); apply rel_bound; rewrite Nat.add_0_r; [lia|exact N2]|].
  intros VP. destruct (G VP) as [Fg Ng]. rewrite (map_map c _ wet) in Ng. exists (M / V). split; [apply (rhoga_value _ _ _ _ _ _ Hg Em Ev'); lra|]. split; [exact Fg|].
  replace (2 * INR k + 2) with (INR (k + k) + INR 2) by (rewrite plus_INR; cbn [INR]; lra). apply rel_bound; [lia|exact Ng].
Qed.
Print Assumptions C157_budget.

(** The exact mean of the densities lies between the smallest and the largest (C27_rhoga_between); the
    mean computed in binary64 of one cell of density 1020.7 and volume 74388 exceeds 1020.7. *)
Definition b_rho : f64 := lit (10207 # 10).
Definition b_vol : f64 := of_Z 74388.
Theorem C157_between_refuted : ~ (forall cells k sm sv lo hi, cells <> [] ->
  (forall c, In c cells -> is_finite (fst c) = true /\ lo <= B2R (fst c) <= hi /\ is_finite (snd c) = true /\ 1 <= B2R (snd c) <= 2 ^ 60) ->
  1000 <= lo -> hi <= 1100 ->
  tree64 k (map cell_mass64 cells) sm -> tree64 k (map cell_vol64 cells) sv ->
  lo <= B2R (rhoga64 sm sv) <= hi).
Proof.
  intros H. assert (E1 : B2R b_vol = 74388) by apply (of_Z_rep 74388 eq_refl). b2r b_rho E2.
  specialize (H [(b_rho, b_vol)] O (cell_mass64 (b_rho, b_vol)) (cell_vol64 (b_rho, b_vol)) (B2R b_rho) (B2R b_rho) ltac:(discriminate)).
  assert (B : 1 <= 74388 <= 2 ^ 60) by lra.
  destruct H as [_ H]; try apply tree_one; try (rewrite E2; lra).
  { intros c [<-|[]]. cbn [fst snd]. rewrite E1. repeat split; try lra; vm_compute; reflexivity. }
  set (r := rhoga64 _ _) in H. b2r r E3. rewrite E2 in H. lra.
Qed.
Print Assumptions C157_between_refuted.

(** Rounding moves the mean outside the range of the densities by a relative [(2 k + 2) 1.12e-16] at most. *)
Theorem C157_between_partial : forall cells k sm sv lo hi,
  (Z.of_nat (List.length cells) <= 2 ^ 100)%Z -> (Z.of_nat k <= 500000)%Z -> 0 <= lo ->
  (forall c, In c cells -> amount (fst c) /\ amount (snd c) /\
     (is_nan (snd c) = false -> is_nan (fst c) = false /\ lo <= B2R (fst c) <= hi)) ->
  (exists c, In c cells /\ is_nan (snd c) = false /\ 0 < B2R (snd c)) ->
  tree64 k (map cell_mass64 cells) sm -> tree64 k (map cell_vol64 cells) sv ->
  let d := (2 * INR k + 2) * 1.12e-16 in
  is_finite (rhoga64 sm sv) = true /\ lo * (1 - d) <= B2R (rhoga64 sm sv) <= hi * (1 + d).
Proof.
  intros cells k sm sv lo hi Hn Hk Lo HA (c0 & I0 & W0 & P0) Tm Tv d.
  destruct (budget cells cells k sm sv Hn Hn Hk) as (_ & _ & _ & N2 & G); try assumption.
  { intros c Hc. destruct (HA c Hc) as (A & B & _). split; apply amount_adm; assumption. }
  { intros c Hc. destruct (HA c Hc) as (A & B & _). apply amount_adm; assumption. }
  assert (NN : forall c, In c cells -> 0 <= ProofsFloat21.val (snd c)).
  { intros c Hc. destruct (HA c Hc) as (_ & B & _). destruct (adm_val _ (amount_adm _ B)) as [->|[X _]]; [lra|].
    assert (Y := bpow_ge_0 radix2 (-100)). lra. }
  assert (VP : 0 < Vex cells).
  { unfold Vex. apply in_split in I0 as (l1 & l2 & ->). rewrite map_app, rsum_app. cbn [map rsum].
    assert (A1 : 0 <= rsum (map (fun c => ProofsFloat21.val (snd c)) l1)) by (apply rsum_nonneg; intros c Hc; apply NN, in_or_app; left; exact Hc).
    assert (A2 : 0 <= rsum (map (fun c => ProofsFloat21.val (snd c)) l2)) by (apply rsum_nonneg; intros c Hc; apply NN, in_or_app; right; right; exact Hc).
    unfold ProofsFloat21.val at 2. rewrite W0. lra. }
  destruct (G VP) as [F N]. split; [exact F|].
  assert (B : lo * Vex cells <= Mex cells <= hi * Vex cells).
  { unfold Vex, Mex. rewrite <- !rsum_scal, !map_map. split; apply rsum_le; intros c Hc; assert (X := NN c Hc); destruct (HA c Hc) as (_ & _ & B);
      (destruct (is_nan (snd c)) eqn:W; [unfold ProofsFloat21.val; rewrite W; lra|]; destruct (B eq_refl) as [D E]; replace (ProofsFloat21.val (fst c)) with (B2R (fst c)) by (unfold ProofsFloat21.val; rewrite D; reflexivity);
       apply Rmult_le_compat_r; [exact X|lra]). }
  assert (Q : lo <= Mex cells / Vex cells <= hi).
  { split; apply (Rmult_le_reg_r (Vex cells)); try exact VP; unfold Rdiv; rewrite Rmult_assoc, Rinv_l by lra; lra. }
  assert (R := rel_bound (k + k) 2 _ _ ltac:(lia) N). rewrite plus_INR in R. replace (INR k + INR k + INR 2) with (2 * INR k + 2) in R by (cbn [INR]; lra). fold d in R.
  assert (D0 : 0 <= d) by (unfold d; assert (P := pos_INR k); nra). set (q := Mex cells / Vex cells) in *.
  apply Rabs_le_inv in R. assert (d * lo <= d * q) by (apply Rmult_le_compat_l; lra). assert (d * q <= d * hi) by (apply Rmult_le_compat_l; lra).
  assert (D1 : d <= 1) by (unfold d; assert (P : INR k <= 500000) by (rewrite INR_IZR_INZ; apply IZR_le; lia); nra).
  split; [|lra]. assert (lo * (1 - d) <= q * (1 - d)) by (apply Rmult_le_compat_r; lra). lra.
Qed.
Print Assumptions C157_between_partial.

(** The three functions in sequence, with numpy's sum of either list. *)
Theorem C157_mean : forall sum cells k lo hi,
  (Z.of_nat (List.length cells) <= 2 ^ 100)%Z -> (Z.of_nat k <= 500000)%Z -> 0 <= lo ->
  (forall c, In c cells -> amount (fst c) /\ amount (snd c) /\
     (is_nan (snd c) = false -> is_nan (fst c) = false /\ lo <= B2R (fst c) <= hi)) ->
  (exists c, In c cells /\ is_nan (snd c) = false /\ 0 < B2R (snd c)) ->
  tree64 k (map cell_mass64 cells) (sum (map cell_mass64 cells)) -> tree64 k (map cell_vol64 cells) (sum (map cell_vol64 cells)) ->
  let d := (2 * INR k + 2) * 1.12e-16 in
  is_finite (mean_density64 sum cells) = true /\ lo * (1 - d) <= B2R (mean_density64 sum cells) <= hi * (1 + d).
Proof. intros sum cells k lo hi Hn Hk Lo HA HE Tm Tv. exact (C157_between_partial cells k _ _ lo hi Hn Hk Lo HA HE Tm Tv). Qed.
Print Assumptions C157_mean.

(** Two levels of two columns, one cell of land; a sum of three additions. *)
Definition b_fv (e : index) : f64 := if Nat.eqb (e "z_l"%string + e "xh"%string) 2 then B754_nan else b_vol.
Definition b_fr (e : index) : f64 := b_rho.
Definition b_arr (d : list (string * nat)) (f : index -> f64) : arr := mkArr d (fun e => of_f64 (f e)).
Definition b_dims : list (string * nat) := [("z_l", 2%nat); ("yh", 1%nat); ("xh", 2%nat)]%string.
Definition seq_sum (l : list f64) : f64 := fold_left (fun a b => (a + b)%f64) (tl l) (hd zero l).
Example C157_case :
  (exists m v g, calc_masso (b_arr (("time", 3%nat) :: b_dims)%string b_fr) (b_arr b_dims b_fv) "time" = Ok m /\ calc_volo (b_arr b_dims b_fv) = Ok v /\ calc_rhoga m v = Ok g) /\
  (forall i, amount (b_fr i) /\ amount (b_fv i)) /\
  (forall e x1 x2 x3 x4, map (fun i => cell_mass64 (b_fr i, b_fv i)) (block b_dims e) = [x1; x2; x3; x4] ->
     tree64 3 [x1; x2; x3; x4] (seq_sum [x1; x2; x3; x4])) /\
  List.length (block b_dims (fun _ => O)) = 4%nat /\
  is_nan (b_fv (fun d => if String.eqb d "z_l" then 1%nat else if String.eqb d "xh" then 1%nat else O)) = true /\
  B2R (mean_density64 seq_sum [(b_rho, b_vol)]) - B2R b_rho = / 2 ^ 43.
Proof.
  assert (A1 : amount b_rho).
  { right. split; [vm_compute; reflexivity|]. right. b2r b_rho E. rewrite E. lra. }
  assert (A2 : amount b_vol).
  { right. split; [vm_compute; reflexivity|]. right. assert (E : B2R b_vol = 74388) by apply (of_Z_rep 74388 eq_refl). rewrite E. lra. }
  split; [eexists _, _, _; repeat split; reflexivity|].
  split; [intros i; split; [exact A1|unfold b_fv; destruct (Nat.eqb _ _); [left; reflexivity|exact A2]]|].
  split.
  { intros e x1 x2 x3 x4 _. unfold seq_sum. cbn [tl hd fold_left].
    apply (tree_add 2 [x1; x2; x3] [x4]); [|apply tree_one]. apply (tree_add 1 [x1; x2] [x3]); [|apply tree_one]. apply (tree_add 0 [x1] [x2]); apply tree_one. }
  split; [reflexivity|]. split; [reflexivity|].
  set (r := mean_density64 _ _). b2r r E. b2r b_rho E2. rewrite E, E2. lra.
Qed.
