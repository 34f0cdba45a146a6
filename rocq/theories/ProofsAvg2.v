(** * ProofsAvg2: monthly then annual averaging; annual cycle *)
From Coq Require Import Reals ZArith List String Bool Arith Lia Lra Sorted.
From Verif Require Import Num NumFacts Py Arr ArrFacts Calendar TimeAvg SpecTime ProofsCal ProofsUtil ProofsAvg.
Import ListNotations.
Local Open Scope R_scope.

(** ** Sums over lists *)
Definition LS {A} (f : A -> R) (l : list A) : R := fold_right Rplus 0 (map f l).

Lemma LS_app {A} (f : A -> R) l1 l2 : LS f (l1 ++ l2) = LS f l1 + LS f l2.
Proof. unfold LS. rewrite map_app. induction l1 as [|x l1 IH]; cbn in *; [lra | rewrite IH; lra]. Qed.

Lemma LS_ext {A} (f g : A -> R) l : (forall x, In x l -> f x = g x) -> LS f l = LS g l.
Proof. intros H. unfold LS. f_equal. apply map_ext_in, H. Qed.

Lemma LS_plus {A} (f g : A -> R) l : LS (fun x => f x + g x) l = LS f l + LS g l.
Proof. unfold LS. induction l as [|x l IH]; cbn in *; [lra | rewrite IH; lra]. Qed.

Lemma LS_zero {A} (f : A -> R) l : (forall x, In x l -> f x = 0) -> LS f l = 0.
Proof.
  intros H. unfold LS. induction l as [|x l IH]; cbn; [reflexivity|].
  rewrite (H x (or_introl eq_refl)). rewrite IH; [lra|]. intros y Hy; apply H; right; exact Hy.
Qed.

Lemma LS_flat {A B} (g : B -> R) (h : A -> list B) l : LS g (flat_map h l) = LS (fun y => LS g (h y)) l.
Proof. induction l as [|x l IH]; cbn [flat_map]; [reflexivity|]. rewrite LS_app, IH. reflexivity. Qed.

Lemma LS_map {A B} (g : B -> R) (h : A -> B) l : LS g (map h l) = LS (fun x => g (h x)) l.
Proof. unfold LS. rewrite map_map. reflexivity. Qed.

Lemma LS_pick {A} (g : A -> R) l y : NoDup l -> In y l -> (forall z, In z l -> z <> y -> g z = 0) -> LS g l = g y.
Proof.
  intros N. induction N as [|x l Hx N IH]; intros HI HZ; [destruct HI|].
  change (LS g (x :: l)) with (g x + LS g l). destruct HI as [->|HI].
  - rewrite LS_zero; [lra|]. intros z Hz. apply HZ; [right; exact Hz|]. intros ->; contradiction.
  - rewrite IH; [|exact HI|]. 
    + rewrite (HZ x); [lra | left; reflexivity |]. intros ->; contradiction.
    + intros z Hz. apply HZ. right; exact Hz.
Qed.

Lemma Rsum_list {A} (l : list A) d (f : A -> R) : Rsum (List.length l) (fun i => f (nth i l d)) = LS f l.
Proof.
  induction l as [|x l IH] using rev_ind; [reflexivity|].
  rewrite app_length, LS_app. cbn [List.length]. rewrite Nat.add_1_r. cbn [Rsum].
  rewrite app_nth2, Nat.sub_diag by lia. cbn [nth]. unfold LS at 2. cbn [map fold_right].
  rewrite Rplus_0_r. f_equal.
  rewrite <- IH. apply Rsum_ext. intros i Hi. rewrite app_nth1 by exact Hi. reflexivity.
Qed.

Lemma Sum_if_list {A} (l : list A) d (p : A -> bool) (f : A -> R) (p' : nat -> bool) (f' : nat -> R) :
  (forall i, (i < List.length l)%nat -> p' i = p (nth i l d)) ->
  (forall i, (i < List.length l)%nat -> p' i = true -> f' i = f (nth i l d)) ->
  Sum_if (List.length l) p' f' = LS (fun x => if p x then f x else 0) l.
Proof.
  intros H1 H2. rewrite <- (Rsum_list l d). apply Rsum_ext. intros i Hi.
  rewrite <- H1 by exact Hi. destruct (p' i) eqn:E; [apply H2; assumption | reflexivity].
Qed.

Lemma Sum_partition n (p : nat -> bool) (k : nat -> nat) (f : nat -> R) :
  (forall i, (i < n)%nat -> p i = true -> (1 <= k i <= 12)%nat) ->
  LS (fun m => Sum_if n (fun i => p i && Nat.eqb (k i) m) f) (seq 1 12) = Sum_if n p f.
Proof.
  induction n as [|n IH]; intros H.
  - apply LS_zero. reflexivity.
  - unfold Sum_if. cbn [Rsum]. rewrite LS_plus. f_equal; [apply IH; auto|].
    destruct (p n) eqn:E; cbn [andb]; [|apply LS_zero; reflexivity].
    rewrite (LS_pick _ _ (k n)).
    + rewrite Nat.eqb_refl. reflexivity.
    + apply seq_NoDup.
    + apply in_seq. specialize (H n (Nat.lt_succ_diag_r n) E). lia.
    + intros z _ Hz. destruct (Nat.eqb_spec (k n) z); [congruence|reflexivity].
Qed.

Lemma filter_filter {A} (p q : A -> bool) l : filter q (filter p l) = filter (fun x => p x && q x) l.
Proof.
  induction l as [|x l IH]; cbn [filter]; [reflexivity|].
  destruct (p x); cbn [filter andb]; [|exact IH]. destruct (q x); [f_equal|]; exact IH.
Qed.

Lemma mapM_all {A B} (f : A -> res B) (g : A -> B) l :
  (forall x, In x l -> f x = Ok (g x)) -> mapM f l = Ok (map g l).
Proof.
  induction l as [|x l IH]; intros H; cbn [mapM map]; [reflexivity|].
  rewrite (H x (or_introl eq_refl)). cbn [bind]. rewrite IH by (intros y Hy; apply H; right; exact Hy). reflexivity.
Qed.

Lemma flat_map_split {A B C D} (g : A -> list B) (h : B -> C) (f1 : A -> D) (pr : D -> list C) l :
  (forall y, pr (f1 y) = map h (g y)) -> flat_map pr (map f1 l) = map h (flat_map g l).
Proof.
  intros H. induction l as [|y l IH]; cbn [map flat_map]; [reflexivity|]. rewrite map_app, IH, H. reflexivity.
Qed.

(** ** Complete daily data *)
Section Daily.
  Variables (c : cal) (ts : list date) (t : string) (a : arr).
  Hypothesis Hmonth : forall i, (i < List.length ts)%nat -> (1 <= d_month (time_of ts i) <= 12)%nat.
  Hypothesis Hreg : forall i, (i < List.length ts)%nat -> regular c (d_year (time_of ts i)).
  Hypothesis Hfull : forall y m, (exists i, (i < List.length ts)%nat /\ d_year (time_of ts i) = y) ->
    (1 <= m <= 12)%nat ->
    Z.of_nat (count_if (List.length ts) (fun i => same_year ts y i && same_month ts m i)) = days_in_month c y m.
  Hypothesis Hne : ts <> [].

  Let n := List.length ts.
  Let sel y m := filter (fun i => same_year ts y i && same_month ts m i) (seq 0 n).
  Let blk y := map (fun m => (mkDate y m (IZR (days_in_month c y m) / 2), sel y m)) (seq 1 12).
  Let L := flat_map blk (years ts).
  Let dflt : date * list nat := (mkDate 0 1 0, []).

  Lemma years_reg y : In y (years ts) -> regular c y.
  Proof. intros H. apply years_In in H. destruct H as (i & Hi & <-). apply Hreg, Hi. Qed.

  Lemma sel_length y m : In y (years ts) -> (1 <= m <= 12)%nat -> Z.of_nat (List.length (sel y m)) = days_in_month c y m.
  Proof. intros Hy Hm. apply Hfull; [apply years_In, Hy | exact Hm]. Qed.

  Lemma sel_nonempty y m : In y (years ts) -> (1 <= m <= 12)%nat -> exists i, In i (sel y m).
  Proof.
    intros Hy Hm. pose proof (sel_length y m Hy Hm) as E. pose proof (dim_bounds c y m).
    destruct (sel y m) as [|i l]; [cbn in E; lia|]. exists i. left; reflexivity.
  Qed.

  Lemma of_month_sel y m : of_month ts m (of_year ts y) = sel y m.
  Proof. unfold of_month, of_year, positions. rewrite filter_filter. reflexivity. Qed.

  Lemma sel_In y m i : In i (sel y m) <-> (i < n)%nat /\ d_year (time_of ts i) = y /\ d_month (time_of ts i) = m.
  Proof.
    unfold sel. rewrite filter_In, in_seq, andb_true_iff. unfold same_year, same_month.
    rewrite Z.eqb_eq, Nat.eqb_eq. intuition lia.
  Qed.

  Lemma of_year_In y i : In i (of_year ts y) <-> (i < n)%nat /\ d_year (time_of ts i) = y.
  Proof. unfold of_year, positions. rewrite filter_In, in_seq, Z.eqb_eq, nth_date_time. fold n. intuition lia. Qed.

  Lemma year_months y : In y (years ts) -> months ts (of_year ts y) = seq 1 12.
  Proof.
    intros Hy. apply months_full.
    - intros i Hi. apply of_year_In in Hi. apply Hmonth. apply Hi.
    - intros m Hm. destruct (sel_nonempty y m Hy Hm) as (i & Hi). exists i.
      apply sel_In in Hi. split; [apply of_year_In; tauto | tauto].
  Qed.

  Lemma year_record_blk y : In y (years ts) -> year_record ts y = map snd (blk y).
  Proof.
    intros Hy. unfold year_record. rewrite year_months by exact Hy. unfold blk. rewrite map_map.
    apply map_ext. intros m. apply of_month_sel.
  Qed.

  Lemma midpoints_blk y : In y (years ts) -> month_midpoints c y = map fst (blk y).
  Proof.
    intros Hy. rewrite month_midpoints_eq by (apply years_reg, Hy). unfold blk. rewrite map_map. reflexivity.
  Qed.

  Definition monthly_arr : arr :=
    mkArr ((t, List.length (map snd L)) :: drop_dim t (adims a))
      (fun e => lmean (map (fun i => at_ a (upd e t i)) (nth (e t) (map snd L) []))).

  Lemma monthly_ok :
    monthly_average_da (mkAxis t (Some c) ts) a t = Ok (mkAxis t (Some c) (map fst L), monthly_arr).
  Proof.
    unfold monthly_average_da.
    replace (axis_calendar (mkAxis t (Some c) ts) t) with (Ok c)
      by (symmetry; apply (axis_calendar_ok (mkAxis t (Some c) ts)); [reflexivity | exact Hne]).
    cbn [bind ta_dates].
    rewrite (mapM_all _ (fun y => (map snd (blk y), map fst (blk y)))).
    - cbn [bind].
      assert (flat_map fst (map (fun y => (map snd (blk y), map fst (blk y))) (years ts)) = map snd L) as E1.
      { apply flat_map_split. reflexivity. }
      assert (flat_map snd (map (fun y => (map snd (blk y), map fst (blk y))) (years ts)) = map fst L) as E2.
      { apply flat_map_split. reflexivity. }
      rewrite E1, E2. reflexivity.
    - intros y Hy. rewrite year_record_blk by exact Hy.
      assert (List.length (map snd (blk y)) = 12%nat) as -> by (unfold blk; rewrite !map_length; reflexivity).
      rewrite midpoints_blk by exact Hy. reflexivity.
  Qed.

  Lemma L_nth i : (i < List.length L)%nat -> time_of (map fst L) i = fst (nth i L dflt).
  Proof. intros _. unfold time_of. change (mkDate 0 1 0) with (fst dflt). apply map_nth. Qed.

  Lemma L_sum y (f : date * list nat -> R) : In y (years ts) ->
    LS (fun p => if (d_year (fst p) =? y)%Z then f p else 0) L =
    LS (fun m => f (mkDate y m (IZR (days_in_month c y m) / 2), sel y m)) (seq 1 12).
  Proof.
    intros Hy. unfold L. rewrite LS_flat. rewrite (LS_pick _ _ y).
    - unfold blk. rewrite LS_map. apply LS_ext. intros m _. cbn [fst d_year]. rewrite Z.eqb_refl. reflexivity.
    - apply sorted_NoDup, zgroups_sorted.
    - exact Hy.
    - intros z _ Hz. unfold blk. rewrite LS_map. apply LS_zero. intros m _. cbn [fst d_year].
      destruct (Z.eqb_spec z y); [contradiction|reflexivity].
  Qed.

  Lemma years_monthly : years (map fst L) = years ts.
  Proof.
    apply sorted_unique; try apply zgroups_sorted. intros y. rewrite years_In, map_length.
    split.
    - intros (i & Hi & E). rewrite L_nth in E by exact Hi.
      assert (In (nth i L dflt) L) as HI by (apply nth_In; exact Hi).
      destruct (nth i L dflt) as [d ps]. unfold L in HI. apply in_flat_map in HI. destruct HI as (z & Hz & HI).
      unfold blk in HI. apply in_map_iff in HI. destruct HI as (m & Q & _). injection Q as <- <-. cbn in E. congruence.
    - intros Hy. assert (In (mkDate y 1 (IZR (days_in_month c y 1) / 2), sel y 1) L) as HI.
      { unfold L. apply in_flat_map. exists y. split; [exact Hy|]. unfold blk. cbn [seq map]. left; reflexivity. }
      destruct (In_nth _ _ dflt HI) as (i & Hi & E). exists i. split; [exact Hi|].
      rewrite L_nth, E by exact Hi. reflexivity.
  Qed.

  Lemma check_monthly : check_years (map fst L) = Ok tt.
  Proof.
    apply check_years_ok. rewrite years_monthly. intros y Hy.
    apply INR_eq. change (List.length (of_year (map fst L) y)) with (count_if (List.length (map fst L)) (same_year (map fst L) y)).
    rewrite count_Sum, map_length.
    rewrite (Sum_if_list L dflt (fun p => d_year (fst p) =? y)%Z (fun _ => 1)).
    - rewrite (L_sum y (fun _ => 1)) by exact Hy. unfold LS. cbn [seq map fold_right INR]. lra.
    - intros i Hi. unfold same_year. rewrite L_nth by exact Hi. reflexivity.
    - reflexivity.
  Qed.

  Section Value.
    Variable e : index.
    Hypothesis Hk : (e "time"%string < List.length (years ts))%nat.
    Hypothesis Hfin : forall i, (i < n)%nat -> is_fin (at_ a (upd e t i)) = true.
    Let y := nth (e "time"%string) (years ts) 0%Z.
    Let x i := at_ a (upd e t i).

    Lemma y_In : In y (years ts).
    Proof. apply nth_In, Hk. Qed.

    Lemma mean_sel m : (1 <= m <= 12)%nat ->
      lmean (map x (sel y m)) =
      Fin (Sum_if n (fun i => same_year ts y i && same_month ts m i) (fun i => val (x i)) / IZR (days_in_month c y m)).
    Proof.
      intros Hm. destruct (sel_nonempty y m y_In Hm) as (k & Hk').
      pose proof (sel_length y m y_In Hm) as E.
      unfold sel in Hk'. apply filter_In in Hk'. destruct Hk' as [Hs Hp]. apply in_seq in Hs.
      unfold sel. rewrite lmean_some with (k := k).
      - assert (Q : forall i, (i < n)%nat -> ((same_year ts y i && same_month ts m i) && notnull (x i)) = (same_year ts y i && same_month ts m i)).
        { intros i Hi. specialize (Hfin i Hi). unfold x. destruct (at_ a (upd e t i)); try discriminate. apply andb_true_r. }
        f_equal. f_equal.
        + apply Sum_if_ext; auto.
        + rewrite count_Sum. rewrite (Sum_if_ext _ _ _ _ _ Q (fun _ _ _ => eq_refl)). rewrite <- count_Sum.
          rewrite INR_IZR_INZ. f_equal. exact E.
      - intros i Hi _. specialize (Hfin i Hi). unfold x. destruct (at_ a (upd e t i)); try discriminate; exact I.
      - lia.
      - cbv beta in *. rewrite Hp. specialize (Hfin k). unfold x.
        destruct (at_ a (upd e t k)); cbn in *; try (discriminate Hfin; lia); reflexivity.
    Qed.

    Lemma year_count : INR (count_if n (same_year ts y)) = LS (fun m => IZR (days_in_month c y m)) (seq 1 12).
    Proof.
      rewrite count_Sum. rewrite <- (Sum_partition n _ (fun i => d_month (time_of ts i))).
      - apply LS_ext. intros m Hm. apply in_seq in Hm.
        rewrite <- (sel_length y m y_In) by lia. rewrite <- INR_IZR_INZ.
        change (List.length (sel y m)) with (count_if n (fun i => same_year ts y i && same_month ts m i)).
        rewrite count_Sum. reflexivity.
      - intros i Hi _. apply Hmonth, Hi.
    Qed.

    Lemma daily_value :
      at_ (annual_var c (map fst L) t monthly_arr) e =
      Fin (Sum_if n (same_year ts y) (fun i => val (x i)) / INR (count_if n (same_year ts y))).
    Proof.
      rewrite annual_var_eq, years_monthly. fold y. rewrite map_length.
      set (p := same_year (map fst L) y).
      assert (Hx : forall k, (k < List.length L)%nat -> p k = true ->
                 exists m, (1 <= m <= 12)%nat /\ nth k L dflt = (mkDate y m (IZR (days_in_month c y m) / 2), sel y m)).
      { intros k Hk' Hp. assert (In (nth k L dflt) L) as HI by (apply nth_In; exact Hk').
        unfold p, same_year in Hp. rewrite L_nth in Hp by exact Hk'. apply Z.eqb_eq in Hp.
        unfold L in HI at 2. apply in_flat_map in HI. destruct HI as (z & Hz & HI).
        unfold blk in HI. apply in_map_iff in HI. destruct HI as (m & Q & Hm). rewrite <- Q in Hp |- *. cbn in Hp. subst z.
        exists m. split; [|reflexivity]. apply in_seq in Hm. lia. }
      assert (Hv : forall k, (k < List.length L)%nat ->
                 at_ monthly_arr (upd e t k) = lmean (map x (snd (nth k L dflt)))).
      { intros k Hk'. unfold monthly_arr. cbn [at_]. rewrite upd_same.
        change (@nil nat) with (snd dflt). rewrite map_nth. f_equal. apply map_ext. intros i. rewrite upd_upd. reflexivity. }
      assert (Hfv : forall k, (k < List.length L)%nat -> p k = true -> is_fin (at_ monthly_arr (upd e t k)) = true).
      { intros k Hk' Hp. rewrite Hv by exact Hk'. destruct (Hx k Hk' Hp) as (m & Hm & ->). cbn [snd].
        rewrite mean_sel by exact Hm. reflexivity. }
      assert (In (mkDate y 1 (IZR (days_in_month c y 1) / 2), sel y 1) L) as HI.
      { unfold L. apply in_flat_map. exists y. split; [exact y_In|]. unfold blk. cbn [seq map]. left; reflexivity. }
      destruct (In_nth _ _ dflt HI) as (k0 & Hk0 & E0).
      assert (p k0 = true) as P0.
      { unfold p, same_year. rewrite L_nth, E0 by exact Hk0. apply Z.eqb_refl. }
      assert (forall i, (i < List.length L)%nat -> p i && notnull (at_ monthly_arr (upd e t i)) = p i) as Q.
      { intros i Hi. destruct (p i) eqn:Ep; [|reflexivity]. specialize (Hfv i Hi Ep).
        destruct (at_ monthly_arr (upd e t i)); try discriminate; reflexivity. }
      rewrite wmean_some with (k := k0).
      - f_equal.
        assert (N : Sum_if (List.length L) (fun i => p i && notnull (at_ monthly_arr (upd e t i)))
                      (fun i => days_weight c (time_of (map fst L) i) * val (at_ monthly_arr (upd e t i)))
                    = Sum_if n (same_year ts y) (fun i => val (x i))).
        { rewrite (Sum_if_ext _ _ _ _ _ Q (fun _ _ _ => eq_refl)).
          rewrite (Sum_if_list L dflt (fun q => d_year (fst q) =? y)%Z
                     (fun q => days_weight c (fst q) * val (lmean (map x (snd q))))).
          - rewrite (L_sum y (fun q => days_weight c (fst q) * val (lmean (map x (snd q))))) by exact y_In.
            rewrite <- (Sum_partition n _ (fun i => d_month (time_of ts i))).
            + apply LS_ext. intros m Hm. apply in_seq in Hm. cbn [fst snd]. unfold days_weight. cbn [d_year d_month].
              rewrite mean_sel by lia. cbn [val]. 
              pose proof (dim_bounds c y m) as [Lo _]. apply IZR_le in Lo. unfold same_month. field. lra.
            + intros i Hi _. apply Hmonth, Hi.
          - intros i Hi. unfold p, same_year. rewrite L_nth by exact Hi. reflexivity.
          - intros i Hi _. rewrite L_nth, Hv by exact Hi. reflexivity. }
        assert (W : Sum_if (List.length L) (fun i => p i && notnull (at_ monthly_arr (upd e t i)))
                      (fun i => days_weight c (time_of (map fst L) i))
                    = INR (count_if n (same_year ts y))).
        { rewrite (Sum_if_ext _ _ _ _ _ Q (fun _ _ _ => eq_refl)).
          rewrite (Sum_if_list L dflt (fun q => d_year (fst q) =? y)%Z (fun q => days_weight c (fst q))).
          - rewrite (L_sum y (fun q => days_weight c (fst q))) by exact y_In. rewrite year_count. reflexivity.
          - intros i Hi. unfold p, same_year. rewrite L_nth by exact Hi. reflexivity.
          - intros i Hi _. rewrite L_nth by exact Hi. reflexivity. }
        rewrite N, W. reflexivity.
      - intros i Hi Hp. specialize (Hfv i Hi Hp). destruct (at_ monthly_arr (upd e t i)); try discriminate; exact I.
      - intros i _ _. apply days_weight_pos.
      - exact Hk0.
      - rewrite Q by exact Hk0. exact P0.
    Qed.
  End Value.

  Lemma annual_monthly_ok :
    annual_average_da (mkAxis t (Some c) (map fst L)) monthly_arr t =
    Ok (annual_axis c ts, annual_var c (map fst L) t monthly_arr).
  Proof.
    unfold annual_average_da.
    replace (axis_calendar (mkAxis t (Some c) (map fst L)) t) with (Ok c).
    - cbn [bind ta_dates]. rewrite check_monthly. cbn [bind]. unfold annual_axis. rewrite years_monthly. reflexivity.
    - symmetry. apply (axis_calendar_ok (mkAxis t (Some c) (map fst L))); [reflexivity|]. cbn [ta_dates].
      intros E. pose proof years_monthly as Y. rewrite E in Y.
      assert (In (d_year (time_of ts 0)) (years ts)) as HI.
      { apply years_In. exists O. split; [|reflexivity]. destruct ts; [contradiction|cbn; lia]. }
      rewrite <- Y in HI. exact HI.
  Qed.

  Lemma daily_dims : adims (annual_var c (map fst L) t monthly_arr) =
    ("time"%string, List.length (years ts)) :: drop_dim t (adims a).
  Proof.
    unfold annual_var. cbn [adims]. rewrite years_monthly. f_equal. unfold monthly_arr. cbn [adims].
    unfold drop_dim at 1. cbn [filter fst]. rewrite String.eqb_refl. cbn [negb].
    unfold drop_dim. rewrite filter_filter. apply filter_ext. intros p. apply andb_diag.
  Qed.
End Daily.
