(** * ProofsTrend3: calc_linear_trend, broadcast_trend and _detrend_array *)
From Coq Require Import Reals ZArith List String Ascii Bool Arith Lia Lra Psatz.
From Verif Require Import Num NumFacts Py Arr ArrFacts Trend SpecTime SpecTrend ProofsUtil ProofsFields ProofsTide ProofsStericOk ProofsTrend ProofsTrend2 ProofsAvg.
Import ListNotations.
Local Open Scope string_scope.
Local Open Scope R_scope.

Definition sumsq (ix : taxis1) : R := SL (fun i => ix_val ix i * ix_val ix i) (seq 0 (ix_n ix)).

Lemma sumsq_nz ix : sumsq ix <> 0 <-> exists i, (i < ix_n ix)%nat /\ ix_val ix i <> 0.
Proof.
  split.
  - intros H. apply Classical_Prop.NNPP. intros N. apply H. unfold sumsq. rewrite <- (SL_zero (seq 0 (ix_n ix))). apply SL_ext.
    intros i Hi. apply in_seq in Hi. destruct (Req_dec (ix_val ix i) 0) as [-> |Q]; [ring|]. exfalso. apply N. exists i. split; [lia|exact Q].
  - intros (i & Hi & N) Z. apply N. apply (SL_sq_zero (ix_val ix) (seq 0 (ix_n ix)) Z). apply in_seq. lia.
Qed.

Lemma increasing_ok ix : strictly_increasing ix = true <-> forall i, (S i < ix_n ix)%nat -> ix_val ix i < ix_val ix (S i).
Proof.
  unfold strictly_increasing. rewrite forallb_forall. split.
  - intros H i Hi. apply Rltb_true. apply H. apply in_seq. lia.
  - intros H i Hi. apply in_seq in Hi. apply Rltb_true. apply H. lia.
Qed.

Definition fit_of (ix : taxis1) (a : arr) (e : index) : fval * fval := polyfit1 (ix_n ix) (ix_val ix) (series ix a e).

(** ** calc_linear_trend *)
Definition unit_scale (ix : taxis1) (tu : option string) (v : R) : Prop :=
  if ix_cf ix then known (match tu with None => "ns" | Some u => u end) v else v = 1.

Lemma scale_pos ix tu v : unit_scale ix tu v -> 0 < v.
Proof. unfold unit_scale. destruct (ix_cf ix); [apply known_pos|intros ->; lra]. Qed.

Lemma dim_dget ix (a : arr) n : In (ix_dim ix, n) (adims a) -> dget (ix_dim ix) (adims a) <> None.
Proof.
  intros H E. apply dget_None in E. apply E. apply in_map_iff. exists (ix_dim ix, n). auto.
Qed.

Lemma calc_ok ix x tu v : In (ix_dim ix) (names (da_data x)) -> sumsq ix <> 0 -> unit_scale ix tu v ->
  exists s i, calc_linear_trend ix x tu = Ok (s, i) /\
    da_name s = da_name x ++ "_slope" /\ da_name i = da_name x ++ "_intercept" /\
    adims (da_data s) = drop_dim (ix_dim ix) (adims (da_data x)) /\
    adims (da_data i) = drop_dim (ix_dim ix) (adims (da_data x)) /\
    (forall e, at_ (da_data s) e = fmul (fst (fit_of ix (da_data x) e)) (Fin v)) /\
    (forall e, at_ (da_data i) e = snd (fit_of ix (da_data x) e)) /\
    (ix_cf ix = true -> dget "units" (da_attrs s) =
       Some ((match dget "units" (da_attrs x) with Some u => u ++ " " | None => "" end)
             ++ " " ++ (match tu with None => "ns" | Some u => u end) ++ "-1")).
Proof.
  intros Hd Hs Hv. unfold calc_linear_trend.
  assert (D : exists n, dget (ix_dim ix) (adims (da_data x)) = Some n).
  { destruct (dget (ix_dim ix) (adims (da_data x))) eqn:E; [eauto|]. apply dget_None in E. contradiction. }
  destruct D as [n ->]. cbn [bind]. change (Rsum_list _ _) with (sumsq ix). apply Reqb_false in Hs. rewrite Hs. cbn [bind].
  unfold unit_scale in Hv. destruct (ix_cf ix) eqn:C.
  - set (w := match tu with None => "ns" | Some u => u end) in *. rewrite (factor_known "ns" w 1 v known_ns Hv). cbn [bind].
    pose proof (known_pos _ _ Hv) as P.
    eexists _, _. split; [reflexivity|]. cbn [da_name da_data da_attrs amap adims at_]. repeat (split; [reflexivity|]). split.
    + intros e. replace (1 / (1 / v)) with v by (field; lra). reflexivity.
    + split; [intros e; reflexivity|]. intros _. rewrite dget_dset_same, dget_dset_other by discriminate. reflexivity.
  - subst v. eexists _, _. split; [reflexivity|]. cbn [da_name da_data da_attrs amap adims at_]. repeat (split; [reflexivity|]). split.
    + intros e. unfold fit_of. destruct (fst (polyfit1 _ _ _)) as [|b|z] eqn:E; cbn.
      * reflexivity.
      * exfalso. unfold polyfit1 in E. destruct (valid_rows _ _); [discriminate|]. destruct (forallb _ _); [|discriminate].
        destruct (lstsq2 _ _ _ _). discriminate.
      * f_equal. ring.
    + split; [intros e; reflexivity|discriminate].
Qed.

Lemma slope_words u w v : known w v ->
  filter has_inv (split_space ((match u with Some u => u ++ " " | None => "" end) ++ " " ++ w ++ "-1"))
  = ((match u with Some u => filter has_inv (split_space u) | None => [] end) ++ [(w ++ "-1")%string])%list.
Proof.
  intros K. destruct (unit_word w v K) as (W1 & W2 & _). destruct u as [u|].
  - rewrite app_assoc_s. change (" " ++ " " ++ w ++ "-1") with (String " " (String " " (w ++ "-1"))).
    change (String " " (w ++ "-1")) with ("" ++ String " " (w ++ "-1")). rewrite !split_app, W1. cbn [split_space].
    rewrite !filter_app. cbn [filter has_inv]. rewrite W2. reflexivity.
  - change ("" ++ " " ++ w ++ "-1") with ("" ++ String " " (w ++ "-1")). rewrite split_app, W1. cbn [split_space app filter has_inv].
    rewrite W2. reflexivity.
Qed.

(** ** broadcast_trend on a slope produced by calc_linear_trend *)
Lemma NoDup_drop d (l : list (string * nat)) : NoDup (map fst l) -> NoDup (map fst (drop_dim d l)).
Proof.
  intros H. unfold drop_dim. induction l as [|p l IH]; [constructor|]. cbn [filter]. inversion H as [|? ? H1 H2]; subst.
  destruct (negb _); [|auto]. cbn [map]. constructor; [|auto].
  intros I. apply H1. apply in_map_iff in I. destruct I as (q & E & I). apply filter_In in I. apply in_map_iff. exists q. tauto.
Qed.
Lemma drop_not_in d (l : list (string * nat)) : ~ In d (map fst (drop_dim d l)).
Proof.
  intros I. apply in_map_iff in I. destruct I as (q & E & I). apply filter_In in I. destruct I as [_ I]. rewrite E, String.eqb_refl in I. discriminate.
Qed.

Lemma amul_interp ix (s : arr) : ~ In (ix_dim ix) (names s) ->
  amul s (interp_index ix) = Ok (mkArr (adims s ++ [(ix_dim ix, ix_n ix)])%list (fun e => fmul (at_ s e) (Fin (ix_val ix (e (ix_dim ix)))))).
Proof.
  intros N. unfold amul, amap2, interp_index, compatible, union_dims. cbn [adims forallb fst snd filter at_].
  assert (G : dget (ix_dim ix) (adims s) = None).
  { destruct (dget (ix_dim ix) (adims s)) eqn:E; [|reflexivity]. exfalso. apply N. apply dget_In in E. apply in_map_iff. eexists; split; [|exact E]. reflexivity. }
  unfold dmem. rewrite G. reflexivity.
Qed.

Lemma broadcast_ok ix x tu v s i : In (ix_dim ix) (names (da_data x)) -> unit_scale ix tu v ->
  (forall j, (S j < ix_n ix)%nat -> ix_val ix j < ix_val ix (S j)) ->
  (ix_cf ix = true -> forall u, dget "units" (da_attrs x) = Some u -> ~ contains_inverse u) ->
  sumsq ix <> 0 -> calc_linear_trend ix x tu = Ok (s, i) ->
  exists f, broadcast_trend s ix false = Ok f /\
    adims f = (drop_dim (ix_dim ix) (adims (da_data x)) ++ [(ix_dim ix, ix_n ix)])%list /\
    forall e, at_ f e = fmul (fst (fit_of ix (da_data x) e)) (Fin (ix_val ix (e (ix_dim ix)))).
Proof.
  intros Hd Hv Hi Hu Hs E. destruct (calc_ok ix x tu v Hd Hs Hv) as (s' & i' & E' & _ & _ & Ds & _ & Vs & _ & Us).
  rewrite E in E'. apply Ok_inj in E'. injection E' as <- <-.
  pose proof (scale_pos _ _ _ Hv) as Pv.
  assert (NI : ~ In (ix_dim ix) (names (da_data s))) by (unfold names; rewrite Ds; apply drop_not_in).
  apply increasing_ok in Hi. unfold broadcast_trend.
  assert (F1 : forall e, fmul (fmul (fst (fit_of ix (da_data x) e)) (Fin v)) (Fin (1 / v)) = fst (fit_of ix (da_data x) e)).
  { intros e. unfold fit_of, polyfit1. destruct (valid_rows _ _); [reflexivity|]. destruct (forallb _ _); [|reflexivity].
    destruct (lstsq2 _ _ _ _). cbn. f_equal. field. split; [|lra].
    intros Z. apply Hs. unfold sumsq. apply sqrt_eq_0 in Z; [exact Z|]. apply SL_nonneg. intros; apply Rle_0_sqr. }
  unfold unit_scale in Hv. destruct (ix_cf ix) eqn:C.
  - rewrite (Us eq_refl). rewrite (slope_words _ _ v Hv).
    assert (W0 : match dget "units" (da_attrs x) with Some u => filter has_inv (split_space u) | None => [] end = []).
    { destruct (dget "units" (da_attrs x)) as [u|] eqn:Q; [|reflexivity]. apply no_words, Hu; auto. }
    rewrite W0. cbn [app map]. destruct (unit_word _ _ Hv) as (_ & _ & ->).
    set (w := match tu with None => "ns" | Some u => u end) in *.
    destruct (String.eqb_spec w "ns") as [Ew|Nw].
    + cbn [bind]. rewrite Hi. cbn [bind]. rewrite amul_interp by exact NI. cbn [bind]. eexists. split; [reflexivity|].
      split; [cbn [adims]; rewrite Ds; reflexivity|]. intros e. cbn [at_]. rewrite Vs.
      assert (v = 1) as -> by (rewrite Ew in Hv; unfold known in Hv; cbn in Hv; injection Hv as <-; reflexivity).
      specialize (F1 e). replace (1 / 1) with 1 in F1 by field.
      destruct (fst (fit_of ix (da_data x) e)) as [|b|z] eqn:Z; cbn; try reflexivity.
      * exfalso. unfold fit_of, polyfit1 in Z. destruct (valid_rows _ _); [discriminate|]. destruct (forallb _ _); [|discriminate].
        destruct (lstsq2 _ _ _ _). discriminate.
      * f_equal. ring.
    + rewrite (factor_known w "ns" v 1 Hv known_ns). cbn [bind]. rewrite Hi. cbn [bind].
      rewrite amul_interp by exact NI. cbn [bind amap adims]. eexists. split; [reflexivity|].
      split; [cbn [adims]; rewrite Ds; reflexivity|]. intros e. cbn [at_ amap]. rewrite Vs.
      replace (1 / (v / 1)) with (1 / v) by (field; lra). rewrite F1. reflexivity.
  - subst v. cbn [bind]. rewrite Hi. cbn [bind]. rewrite amul_interp by exact NI. cbn [bind]. eexists. split; [reflexivity|].
    split; [cbn [adims]; rewrite Ds; reflexivity|]. intros e. cbn [at_]. rewrite Vs.
    specialize (F1 e). destruct (fst (fit_of ix (da_data x) e)) as [|b|z] eqn:Z; cbn; try reflexivity.
    + exfalso. unfold fit_of, polyfit1 in Z. destruct (valid_rows _ _); [discriminate|]. destruct (forallb _ _); [|discriminate].
      destruct (lstsq2 _ _ _ _). discriminate.
    + f_equal. ring.
Qed.

(** ** _detrend_array *)
Definition line_at (ix : taxis1) (mode : string) (a : arr) (e : index) : fval :=
  let p := fmul (fst (fit_of ix a e)) (Fin (ix_val ix (e (ix_dim ix)))) in
  if String.eqb mode "remove" then fadd p (snd (fit_of ix a e)) else p.

Lemma detrend_ok ix x mode : detrendable ix x -> mode = "remove" \/ mode = "correct" ->
  exists r, detrend_array ix x 1 mode = Ok r /\ da_name r = da_name x /\ adims (da_data r) = adims (da_data x) /\
    (forall e, at_ (da_data r) e = fsub (at_ (da_data x) e) (line_at ix mode (da_data x) e)) /\
    (forall k, k <> "detrend_comment" -> dget k (da_attrs r) = dget k (da_attrs x)).
Proof.
  intros [[Nd W] Hd Hi Hz Hu] Hm. apply sumsq_nz in Hz.
  assert (Hn : In (ix_dim ix) (names (da_data x))) by (unfold names; apply in_map_iff; eexists; split; [|exact Hd]; reflexivity).
  unfold detrend_array. cbn [Z.eqb Pos.eqb assert_ bind].
  assert (Hv : unit_scale ix None 1) by (unfold unit_scale; destruct (ix_cf ix); reflexivity).
  destruct (calc_ok ix x None 1 Hn Hz Hv) as (s & i & E & _ & _ & Ds & Di & Vs & Vi & _). rewrite E. cbn [bind].
  destruct (broadcast_ok ix x None 1 s i Hn Hv Hi Hu Hz E) as (f & Ef & Df & Vf). rewrite Ef. cbn [bind].
  set (L := adims (da_data x)). assert (NL : NoDup (map fst L)) by exact Nd.
  assert (OX : over L (da_data x)) by (split; [exact Nd|apply incl_refl]).
  assert (Id : incl (drop_dim (ix_dim ix) L) L) by (intros p Hp; apply filter_In in Hp; tauto).
  assert (OF : over L f).
  { split.
    - unfold names. rewrite Df, map_app. cbn [map fst]. apply NoDup_app'; [apply NoDup_drop, NL|repeat constructor; intros []|].
      intros d H1 [<- |[]]. exact (drop_not_in _ _ H1).
    - rewrite Df. intros p Hp. apply in_app_iff in Hp. destruct Hp as [Hp|[<- |[]]]; [apply Id; exact Hp|exact Hd]. }
  assert (OI : over L (da_data i)) by (split; [unfold names; rewrite Di; apply NoDup_drop, NL|rewrite Di; exact Id]).
  assert (FT : exists g, (if String.eqb mode "remove" then aadd f (da_data i) else if String.eqb mode "correct" then Ok f else Err ValueError) = Ok g /\
                 over L g /\ forall e, at_ g e = line_at ix mode (da_data x) e).
  { destruct Hm as [-> | ->]; cbn [String.eqb Ascii.eqb Bool.eqb].
    - unfold aadd. rewrite (over_amap2 L NL _ _ _ OF OI). eexists. split; [reflexivity|]. split; [apply over_union; assumption|].
      intros e. cbn [at_]. rewrite Vf, Vi. reflexivity.
    - exists f. split; [reflexivity|]. split; [exact OF|]. intros e. rewrite Vf. reflexivity. }
  destruct FT as (g & Eg & OG & Vg). rewrite Eg. cbn [bind]. unfold asub. rewrite (over_amap2 L NL _ _ _ OX OG). cbn [bind].
  eexists. split; [reflexivity|]. cbn [da_name da_data da_attrs adims at_]. split; [reflexivity|]. split.
  - apply union_absorb. intros d Hin. apply in_map_iff in Hin. destruct Hin as (p & <- & Hp). apply in_map. apply OG. exact Hp.
  - split; [intros e; rewrite Vg; reflexivity|]. intros k Hk. apply dget_dset_other. auto.
Qed.
