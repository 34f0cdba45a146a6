(** * PropertiesPieces3: C119 *)
From Coq Require Import Reals Lra Lia List String Bool Arith ZArith FunctionalExtensionality.
From Verif Require Import Num NumFacts Py Arr ArrFacts Calendar Derived Dataset TimeAvg Trend Seasonal SpecUnits SpecPieces ProofsDz ProofsPieces PropertiesPieces.
Import ListNotations.
Local Open Scope string_scope.

Definition with_series {A} (g : arr -> arr) (r : res (A * arr)) : res (A * arr) := res_map (fun p => (fst p, g (snd p))) r.
Definition on_data (g : arr -> arr) (x : darr) : darr := mkDarr (da_name x) (g (da_data x)) (da_attrs x).

Section Pc.
  Context (d : string) (n : nat) (f : nat -> nat).
  Let T := select d n f.
  Lemma sel_upd a t e i : t <> d -> at_ (T a) (upd e t i) = at_ a (upd (upd e d (f (e d))) t i).
  Proof. intros H. cbn [T select at_]. rewrite upd_other by congruence. rewrite upd_comm by congruence. reflexivity. Qed.
  Lemma sel_mk t q m l v w : t <> d -> (forall e, w e = v (upd e d (f (e d)))) ->
    mkArr ((t, m) :: drop_dim q (resize d n l)) w = select d n f (mkArr ((t, m) :: drop_dim q l) v).
  Proof.
    intros Ht H. unfold select. cbn [adims at_]. rewrite <- rs_drop. unfold resize at 2. cbn [map fst]. rewrite (proj2 (String.eqb_neq d t)) by congruence.
    f_equal. apply functional_extensionality. exact H.
  Qed.
  Lemma annual_select c ds t a : t <> d -> "time" <> d -> annual_var c ds t (T a) = T (annual_var c ds t a).
  Proof.
    intros Ht H. apply sel_mk; [exact H|]. intros e. rewrite upd_other by congruence. f_equal. apply map_ext. intros i. f_equal. apply sel_upd, Ht.
  Qed.
  Lemma cycle_select g ds t a : t <> d -> cycle_var g ds t (T a) = T (cycle_var g ds t a).
  Proof.
    intros Ht. apply sel_mk; [exact Ht|]. intros e. rewrite upd_other by congruence. f_equal. apply map_ext. intros i. apply sel_upd, Ht.
  Qed.
End Pc.

Theorem C119_averages : forall d n f ax a t func ty, d <> t -> d <> "time" ->
  annual_average_da ax (select d n f a) t = with_series (select d n f) (annual_average_da ax a t) /\
  annual_cycle_da ax (select d n f a) t func ty = with_series (select d n f) (annual_cycle_da ax a t func ty) /\
  monthly_average_da ax (select d n f a) t = with_series (select d n f) (monthly_average_da ax a t).
Proof.
  intros d n f ax a t func ty Ht H. split; [|split].
  - unfold annual_average_da. destruct (axis_calendar ax t) as [c|]; [|reflexivity]. cbn [bind]. destruct (check_years _); [|reflexivity]. cbn [bind with_series res_map fst snd].
    rewrite annual_select by congruence. reflexivity.
  - unfold annual_cycle_da. destruct (axis_calendar ax t) as [c|]; [|reflexivity]. cbn [bind]. destruct (cycle_func func) as [g|]; [|reflexivity]. cbn [bind].
    rewrite cycle_select by congruence. assert (E : size_of t (select d n f (cycle_var g (ta_dates ax) t a)) = size_of t (cycle_var g (ta_dates ax) t a)).
    { unfold size_of. cbn [select adims]. rewrite dget_rs, (proj2 (String.eqb_neq d t)) by congruence. reflexivity. }
    rewrite E. destruct (Nat.eqb _ _); reflexivity.
  - unfold monthly_average_da. destruct (axis_calendar ax t) as [c|]; [|reflexivity]. cbn [bind]. destruct (mapM _ _) as [bl|]; [|reflexivity]. cbn [bind with_series res_map fst snd].
    do 2 f_equal. apply sel_mk; [congruence|]. intros e. rewrite (upd_other e) by congruence. f_equal. apply map_ext. intros i. apply (sel_upd d n f). congruence.
Qed.
Print Assumptions C119_averages.

Theorem C119_trend : forall d n f N ix x tu order mode, d <> ix_dim ix -> sized d N (da_data x) ->
  calc_linear_trend ix (on_data (select d n f) x) tu =
    res_map (fun p => (on_data (select d n f) (fst p), on_data (select d n f) (snd p))) (calc_linear_trend ix x tu) /\
  detrend_array ix (on_data (select d n f) x) order mode = res_map (on_data (select d n f)) (detrend_array ix x order mode).
Proof.
  intros d n f N ix x tu order mode Hd Sx.
  assert (A : forall tu, calc_linear_trend ix (on_data (select d n f) x) tu =
    res_map (fun p => (on_data (select d n f) (fst p), on_data (select d n f) (snd p))) (calc_linear_trend ix x tu)).
  { intros tu'. unfold calc_linear_trend. cbn [on_data da_data da_name da_attrs]. cbn [select adims]. rewrite dget_rs, (proj2 (String.eqb_neq d (ix_dim ix))) by congruence.
    destruct (dget (ix_dim ix) (adims (da_data x))); [|reflexivity]. cbn [bind]. destruct (Reqb _ 0); [reflexivity|]. cbn [bind].
    assert (F : forall e, polyfit1 (ix_n ix) (ix_val ix) (series ix (select d n f (da_data x)) e) = polyfit1 (ix_n ix) (ix_val ix) (series ix (da_data x) (upd e d (f (e d))))).
    { intros e. f_equal. apply functional_extensionality. intros i. unfold series. apply (sel_upd d n f). congruence. }
    rewrite (functional_extensionality _ _ (fun e => f_equal fst (F e))), (functional_extensionality _ _ (fun e => f_equal snd (F e))).
    rewrite <- rs_drop. destruct (ix_cf ix); [|reflexivity]. destruct (time_conversion_factor _ _ _ _); reflexivity. }
  split; [apply A|].
  unfold detrend_array. destruct (assert_ _); [|reflexivity]. cbn [bind]. rewrite A.
  destruct (calc_linear_trend ix x None) as [[sl ic]|] eqn:E; [|reflexivity]. cbn [bind res_map fst snd].
  assert (SZ : sized d N (da_data sl) /\ sized d N (da_data ic)).
  { unfold calc_linear_trend in E. do 2 (apply bind_inv in E as ([] & _ & E)).
    assert (SD : forall v, sized d N (mkArr (drop_dim (ix_dim ix) (adims (da_data x))) v)) by (intros v m I; apply Sx; eapply filter_In, I).
    destruct (ix_cf ix); [apply bind_inv in E as (fc & _ & E)|]; injection E as <- <-; split; apply SD. }
  destruct SZ as (Ssl & Sic).
  assert (SI : sized d N (interp_index ix)) by (apply sized_other; congruence).
  assert (EI : select d n f (interp_index ix) = interp_index ix).
  { apply select_without; [|intros [X|[]]; cbn in X; congruence]. split; [repeat constructor; intros []|]. intros e e' X. cbn. rewrite (X (ix_dim ix) (or_introl eq_refl)). reflexivity. }
  assert (B : broadcast_trend (on_data (select d n f) sl) ix false = res_map (select d n f) (broadcast_trend sl ix false) /\
    forall r, broadcast_trend sl ix false = Ok r -> sized d N r).
  { unfold broadcast_trend. cbn [on_data da_attrs da_data].
    set (conv := fun v : arr => if ix_cf ix then match dget "units" (da_attrs sl) with
       | Some u => match map drop_inv (filter has_inv (split_space u)) with [] => Ok v
         | [unit] => if String.eqb unit "ns" then Ok v else let* f0 := time_conversion_factor unit "ns" default_month default_year in Ok (amap (fun w => fmul w (Fin (1 / f0)%R)) v)
         | _ => Err ValueError end | None => Ok v end else Ok v).
    change (bind (conv (select d n f (da_data sl))) (fun s => let* _ := if strictly_increasing ix then Ok tt else Err ValueError in let* result := amul s (interp_index ix) in Ok result)
      = res_map (select d n f) (bind (conv (da_data sl)) (fun s => let* _ := if strictly_increasing ix then Ok tt else Err ValueError in let* result := amul s (interp_index ix) in Ok result)) /\
      forall r, bind (conv (da_data sl)) (fun s => let* _ := if strictly_increasing ix then Ok tt else Err ValueError in let* result := amul s (interp_index ix) in Ok result) = Ok r -> sized d N r).
    assert (C : conv (select d n f (da_data sl)) = res_map (select d n f) (conv (da_data sl)) /\ forall r, conv (da_data sl) = Ok r -> sized d N r).
    { unfold conv. destruct (ix_cf ix); [|split; [reflexivity|intros r X; injection X as <-; exact Ssl]].
      destruct (dget "units" (da_attrs sl)); [|split; [reflexivity|intros r X; injection X as <-; exact Ssl]].
      destruct (map drop_inv _) as [|u [|? ?]]; [split; [reflexivity|intros r X; injection X as <-; exact Ssl]| |split; [reflexivity|discriminate]].
      destruct (String.eqb u "ns"); [split; [reflexivity|intros r X; injection X as <-; exact Ssl]|].
      destruct (time_conversion_factor _ _ _ _); [|split; [reflexivity|discriminate]]. split; [reflexivity|]. cbn [bind]. intros r X. injection X as <-. exact Ssl. }
    clearbody conv. destruct C as (C1 & C2). rewrite C1. destruct (conv (da_data sl)) as [s|]; [|split; [reflexivity|discriminate]]. cbn [bind res_map].
    specialize (C2 s eq_refl). destruct (strictly_increasing ix); [|split; [reflexivity|discriminate]]. cbn [bind].
    assert (M : amul (select d n f s) (interp_index ix) = res_map (select d n f) (amul s (interp_index ix)))
      by (rewrite <- EI at 1; apply (tk_amap2 d n f N); assumption).
    rewrite M. destruct (amul s (interp_index ix)) as [m|] eqn:Em; [|split; [reflexivity|discriminate]]. split; [reflexivity|]. cbn [bind].
    intros r X. injection X as <-. eapply sized_amap2; [exact Em| |]; assumption. }
  destruct B as (B1 & B2). rewrite B1. destruct (broadcast_trend sl ix false) as [ft|]; [|reflexivity]. specialize (B2 ft eq_refl). cbn [bind res_map].
  destruct (String.eqb mode "remove").
  - cbn [on_data da_data]. unfold aadd, asub. rewrite (tk_amap2 d n f N) by assumption. destruct (amap2 fadd ft (da_data ic)) as [g|] eqn:Eg; [|reflexivity]. cbn [bind res_map].
    rewrite (tk_amap2 d n f N); [|assumption|eapply sized_amap2; [exact Eg| |]; assumption]. destruct (amap2 fsub _ _); reflexivity.
  - destruct (String.eqb mode "correct"); [|reflexivity]. cbn [bind on_data da_data]. unfold asub. rewrite (tk_amap2 d n f N) by assumption. destruct (amap2 fsub _ _); reflexivity.
Qed.
Print Assumptions C119_trend.

Theorem C119_seasonal : forall d n f N ax x t, d <> t -> sized d N (da_data x) ->
  seasonal_model ax (on_data (select d n f) x) t =
    res_map (fun p => (on_data (select d n f) (fst p), on_data (select d n f) (snd p))) (seasonal_model ax x t).
Proof.
  intros d n f N ax x t Ht Sx. unfold seasonal_model. cbn [on_data da_data da_attrs]. cbn [select adims]. rewrite dmem_rs.
  destruct (String.eqb (ta_name ax) t); [|destruct (dmem t _); reflexivity]. destruct (String.eqb_spec t "time") as [->|]; [|reflexivity]. cbn [bind].
  set (m := List.length (ta_dates ax)). set (td := fun i => decimal_time (axis_cal ax) (date_at (ta_dates ax) i)).
  set (sm := mkArr (drop_dim "time" (adims (da_data x)) ++ [("time", m)])%list _).
  set (sm' := mkArr (drop_dim "time" (resize d n (adims (da_data x))) ++ [("time", m)])%list _).
  assert (E : sm' = select d n f sm).
  { unfold sm, sm', select. cbn [adims at_]. unfold resize at 2. rewrite map_app. fold (resize d n (drop_dim "time" (adims (da_data x)))). rewrite rs_drop. cbn [map fst].
    rewrite (proj2 (String.eqb_neq d "time")) by congruence. f_equal. apply functional_extensionality. intros e. rewrite (upd_other e) by congruence. f_equal.
    apply functional_extensionality. intros i. rewrite (upd_other e) by congruence. rewrite upd_comm by congruence. reflexivity. }
  rewrite E. change (mkArr (resize d n (adims (da_data x))) _) with (select d n f (da_data x)) || idtac.
  assert (Ssm : sized d N sm).
  { intros k I. cbn in I. apply in_app_or in I. destruct I as [I|[I|[]]]; [apply Sx; eapply filter_In, I|injection I as I _; congruence]. }
  unfold asub. rewrite (tk_amap2 d n f N) by assumption. destruct (amap2 fsub (da_data x) sm); reflexivity.
Qed.
Print Assumptions C119_seasonal.

(** Ten daily values on three points: every function is computed, and so is the first point alone. *)
Definition pc_axis := mkAxis "time" (Some NoLeap) (range_D NoLeap 2001 10).
Definition pc_da := mkDarr "zos" (mkArr [("time", 10); ("x", 3)]%nat (fun e => Fin (INR (e "time") * INR (e "x")))) [("units", "m")].
Definition pc_ix := mkIx "time" false 10 (fun i => INR (S i)).
Definition pc_monthly := mkArr [("time", 12); ("x", 3)]%nat (fun e => Fin (INR (e "time") * INR (e "x"))).
Example C119_nonvacuous : let ax := mkAxis "time" (Some NoLeap) (map (fun m => mkDate 2001 m 15) (seq 1 12)) in
  (exists p, annual_average_da ax pc_monthly "time" = Ok p) /\ (exists p, annual_cycle_da ax pc_monthly "time" "std" None = Ok p) /\
  (exists p, monthly_average_da ax pc_monthly "time" = Ok p) /\ sized "x" 3 (da_data pc_da) /\
  (exists p, calc_linear_trend pc_ix pc_da None = Ok p) /\ (exists p, seasonal_model pc_axis pc_da "time" = Ok p) /\
  (exists p, detrend_array pc_ix pc_da 1 "remove" = Ok p).
Proof.
  cbv zeta. split; [eexists; reflexivity|]. split; [eexists; reflexivity|]. split; [eexists; reflexivity|].
  split; [intros m I; cbn in I; intuition congruence|].
  assert (B : Reqb (Rsum_list (fun i => ix_val pc_ix i * ix_val pc_ix i)%R (seq 0 10)) 0 = false) by (apply Reqb_false; cbn; lra).
  assert (A : exists p, calc_linear_trend pc_ix pc_da None = Ok p).
  { unfold calc_linear_trend. change (ix_n pc_ix) with 10%nat. rewrite B. eexists. reflexivity. }
  split; [exact A|]. split; [eexists; reflexivity|].
  assert (C : strictly_increasing pc_ix = true).
  { unfold strictly_increasing. apply forallb_forall. intros i _. cbn [pc_ix ix_val]. apply Rltb_true. apply lt_INR. lia. }
  unfold detrend_array, calc_linear_trend, broadcast_trend. change (ix_n pc_ix) with 10%nat. rewrite B, C. cbn [assert_ Z.eqb bind Pos.eqb pc_da da_data adims dget String.eqb Ascii.eqb Bool.eqb pc_ix ix_dim ix_cf].
  eexists. reflexivity.
Qed.
