(** * PropertiesYears: C120 *)
From Coq Require Import Reals Lra Lia List String Bool Arith ZArith FunctionalExtensionality Permutation.
From Verif Require Import Num NumFacts Py Arr ArrFacts Calendar Derived Dataset TimeAvg SpecTime SpecUnits SpecPieces ProofsDz ProofsAvg ProofsPieces PropertiesTime.
Import ListNotations.
Local Open Scope string_scope.

(** ** Reductions do not depend on the order *)
Lemma fadd_cm a b : fadd a b = fadd b a.
Proof. destruct a as [|[]|], b as [|[]|]; cbn; try reflexivity. f_equal. lra. Qed.
Lemma fadd_as a b c : fadd a (fadd b c) = fadd (fadd a b) c.
Proof. destruct a as [|[]|], b as [|[]|], c as [|[]|]; cbn; try reflexivity. f_equal. lra. Qed.
Lemma lsum_perm l l' : Permutation l l' -> lsum l = lsum l'.
Proof.
  induction 1 as [|x l l' _ IH|x y l|l l' l'' _ IH1 _ IH2]; [reflexivity| | |congruence].
  - cbn. unfold lsum in IH. rewrite IH. reflexivity.
  - cbn. rewrite !fadd_as, (fadd_cm y x). reflexivity.
Qed.
Lemma wmean_perm l l' : Permutation l l' -> wmean l = wmean l'.
Proof. intros P. unfold wmean. rewrite !(lsum_perm _ _ (Permutation_map _ P)). reflexivity. Qed.
Lemma filter_perm {A} (q : A -> bool) l l' : Permutation l l' -> Permutation (filter q l) (filter q l').
Proof.
  induction 1 as [|x l l' _ IH|x y l|l l' l'' _ IH1 _ IH2]; [constructor| | |eapply perm_trans; eassumption].
  - cbn. destruct (q x); [constructor|]; exact IH.
  - cbn. destruct (q x), (q y); try apply Permutation_refl. apply perm_swap.
Qed.
Lemma lmean_perm l l' : Permutation l l' -> lmean l = lmean l'.
Proof. intros P. unfold lmean. rewrite (lsum_perm _ _ (Permutation_map nan0 P)). unfold valid. rewrite (Permutation_length (filter_perm notnull _ _ P)). reflexivity. Qed.
Lemma lstd_perm l l' : Permutation l l' -> lstd l = lstd l'.
Proof. intros P. unfold lstd. rewrite (lmean_perm _ _ P). f_equal. apply lmean_perm, Permutation_map, P. Qed.

Section Best.
  Context (op : fval -> fval -> fval).
  Hypothesis op_val : forall a b, op a b = a \/ op a b = b.
  Hypothesis op_cm : forall a b, notnull a = true -> notnull b = true -> op a b = op b a.
  Hypothesis op_rc : forall a b c, notnull a = true -> notnull b = true -> notnull c = true -> op (op a b) c = op (op a c) b.
  Lemma op_nn a b : notnull a = true -> notnull b = true -> notnull (op a b) = true.
  Proof. intros. destruct (op_val a b) as [-> | ->]; assumption. Qed.
  Lemma fold_perm l l' : Permutation l l' -> Forall (fun v => notnull v = true) l -> forall x, notnull x = true -> fold_left op l x = fold_left op l' x.
  Proof.
    induction 1 as [|y l l' P IH|y z l|l l' l'' P1 IH1 P2 IH2]; intros F x Hx; [reflexivity| | |].
    - inversion_clear F as [|? ? Hy F']. cbn. apply IH; [assumption|]. apply op_nn; assumption.
    - inversion_clear F as [|? ? Hz F']. inversion_clear F' as [|? ? Hy F'']. cbn. rewrite op_rc by assumption. reflexivity.
    - rewrite IH1 by assumption. apply IH2; [|assumption]. rewrite Forall_forall in *. intros w Hw. apply F. eapply Permutation_in; [apply Permutation_sym, P1|exact Hw].
  Qed.
  Definition best (l : list fval) : fval := match l with [] => NaN | x :: xs => fold_left op xs x end.
  Lemma best_perm l l' : Permutation l l' -> Forall (fun v => notnull v = true) l -> best l = best l'.
  Proof.
    induction 1 as [|y l l' P IH|y z l|l l' l'' P1 IH1 P2 IH2]; intros F; [reflexivity| | |].
    - inversion_clear F as [|? ? Hy F']. apply fold_perm; assumption.
    - inversion_clear F as [|? ? Hz F']. inversion_clear F' as [|? ? Hy F'']. cbn. rewrite op_cm by assumption. reflexivity.
    - rewrite IH1 by assumption. apply IH2. rewrite Forall_forall in *. intros w Hw. apply F. eapply Permutation_in; [apply Permutation_sym, P1|exact Hw].
  Qed.
End Best.
Definition bmin (acc v : fval) : fval := if fltb v acc then v else acc.
Definition bmax (acc v : fval) : fval := if fltb acc v then v else acc.
Ltac cmpR := unfold Rltb; repeat match goal with |- context [Rlt_dec ?a ?b] => destruct (Rlt_dec a b) end.
Ltac bst := intros; repeat match goal with v : fval |- _ => destruct v as [|[]|] end; try discriminate; unfold bmin, bmax; cbn [fltb negb];
  cmpR; cbn [fltb negb]; cmpR; try reflexivity; try (f_equal; lra); exfalso; lra.
Lemma lmin_perm l l' : Permutation l l' -> lmin l = lmin l'.
Proof.
  intros P. change (best bmin (valid l) = best bmin (valid l')). apply best_perm.
  - intros a b. unfold bmin. destruct (fltb b a); auto.
  - bst.
  - bst.
  - apply filter_perm, P.
  - apply Forall_forall. intros v Hv. apply filter_In in Hv. apply Hv.
Qed.
Lemma lmax_perm l l' : Permutation l l' -> lmax l = lmax l'.
Proof.
  intros P. change (best bmax (valid l) = best bmax (valid l')). apply best_perm.
  - intros a b. unfold bmax. destruct (fltb a b); auto.
  - bst.
  - bst.
  - apply filter_perm, P.
  - apply Forall_forall. intros v Hv. apply filter_In in Hv. apply Hv.
Qed.

(** ** A selection of samples *)
Definition sub_axis (ax : taxis) (ps : list nat) : taxis := mkAxis (ta_name ax) (ta_cal ax) (map (time_of (ta_dates ax)) ps).
Definition samples (t : string) (ps : list nat) (a : arr) : arr := select t (List.length ps) (fun k => nth k ps O) a.

Section Sub.
  Context (ts : list date) (ps : list nat).
  Let n := List.length ts.
  Let ts2 := map (time_of ts) ps.
  Let pick k := nth k ps O.
  Hypothesis ND : NoDup ps.
  Hypothesis IN : forall i, In i ps -> (i < n)%nat.
  Lemma date_pick k : (k < List.length ps)%nat -> nth_date ts2 k = time_of ts (pick k).
  Proof.
    intros H. unfold nth_date, ts2, pick. rewrite (nth_indep _ _ (time_of ts O)) by (rewrite map_length; exact H). apply map_nth.
  Qed.
  Lemma map_pick : map pick (seq 0 (List.length ps)) = ps.
  Proof.
    unfold pick. clear. induction ps as [|p l IH]; [reflexivity|]. cbn. f_equal. rewrite <- seq_shift, map_map. exact IH.
  Qed.
  Lemma filter_map_swap {A B} (g : A -> B) (q : B -> bool) l : map g (filter (fun x => q (g x)) l) = filter q (map g l).
  Proof. induction l as [|x l IH]; [reflexivity|]. cbn. destruct (q (g x)); cbn; rewrite IH; reflexivity. Qed.
  Lemma pick_filter (q : date -> bool) : map pick (filter (fun k => q (nth_date ts2 k)) (positions ts2)) = filter (fun i => q (time_of ts i)) ps.
  Proof.
    transitivity (filter (fun i => q (time_of ts i)) (map pick (seq 0 (List.length ps)))); [|rewrite map_pick; reflexivity].
    rewrite <- filter_map_swap. f_equal. unfold positions, ts2. rewrite map_length.
    apply filter_ext_in. intros k Hk. apply in_seq in Hk. rewrite date_pick by lia. reflexivity.
  Qed.
  Lemma pick_perm (q : date -> bool) : (forall i, (i < n)%nat -> q (time_of ts i) = true -> In i ps) ->
    Permutation (map pick (filter (fun k => q (nth_date ts2 k)) (positions ts2))) (filter (fun i => q (nth_date ts i)) (positions ts)).
  Proof.
    intros C. rewrite pick_filter. apply NoDup_Permutation; [apply NoDup_filter, ND|apply NoDup_filter, seq_NoDup|].
    intros i. rewrite !filter_In. unfold positions. rewrite in_seq. split; intros (A & B); split; auto.
    - apply IN in A. unfold n in A. lia.
    - apply C; [unfold n; lia|exact B].
  Qed.
  Lemma at_samples t a e k : at_ (samples t ps a) (upd e t k) = at_ a (upd e t (pick k)).
  Proof. unfold samples. cbn [select at_]. rewrite upd_same, upd_upd. reflexivity. Qed.
  Lemma of_year_perm y : (forall i, (i < n)%nat -> d_year (time_of ts i) = y -> In i ps) -> Permutation (map pick (of_year ts2 y)) (of_year ts y).
  Proof. intros C. apply (pick_perm (fun d => (d_year d =? y)%Z)). intros i Hi H. apply C; [exact Hi|]. apply Z.eqb_eq, H. Qed.
  Lemma year2 y : In y (years ts2) <-> exists i, In i ps /\ d_year (time_of ts i) = y.
  Proof.
    rewrite years_In. unfold ts2. rewrite map_length. split.
    - intros (k & Hk & E). exists (pick k). split; [apply nth_In, Hk|]. rewrite <- E. change (time_of (map (time_of ts) ps) k) with (nth_date ts2 k). rewrite date_pick by exact Hk. reflexivity.
    - intros (i & Hi & E). destruct (In_nth ps i O Hi) as (k & Hk & X). exists k. split; [exact Hk|]. change (time_of (map (time_of ts) ps) k) with (nth_date ts2 k). rewrite date_pick by exact Hk.
      unfold pick. rewrite X. exact E.
  Qed.
  Lemma annual_pick c t a y : (forall i, (i < n)%nat -> d_year (time_of ts i) = y -> In i ps) -> forall e,
    wmean (map (fun i => (days_weight c (nth_date ts2 i), at_ (samples t ps a) (upd e t i))) (of_year ts2 y)) =
    wmean (map (fun i => (days_weight c (nth_date ts i), at_ a (upd e t i))) (of_year ts y)).
  Proof.
    intros C e. rewrite <- (wmean_perm _ _ (Permutation_map (fun i => (days_weight c (nth_date ts i), at_ a (upd e t i))) (of_year_perm y C))).
    rewrite map_map. f_equal. apply map_ext_in. intros k Hk. rewrite at_samples. f_equal. unfold of_year in Hk. apply filter_In in Hk. destruct Hk as (Hk & _).
    unfold positions, ts2 in Hk. rewrite map_length in Hk. apply in_seq in Hk. rewrite date_pick by lia. reflexivity.
  Qed.
End Sub.

(** ** C120 *)
(** Every sample of a year of which one sample is selected is selected too. *)
Definition whole_years (ts : list date) (ps : list nat) : Prop :=
  forall i j, In i ps -> (j < List.length ts)%nat -> d_year (time_of ts j) = d_year (time_of ts i) -> In j ps.
Theorem C120_whole_years : forall ax a t ps ax' r, annual_average_da ax a t = Ok (ax', r) -> wf_arr a -> t = "time" \/ ~ In "time" (names a) ->
  NoDup ps -> ps <> [] -> (forall i, In i ps -> (i < List.length (ta_dates ax))%nat) -> whole_years (ta_dates ax) ps ->
  exists ax2 r2 ys ys2, annual_average_da (sub_axis ax ps) (samples t ps a) t = Ok (ax2, r2) /\
    years_of (ta_dates ax) ys /\ years_of (map (time_of (ta_dates ax)) ps) ys2 /\ incl ys2 ys /\
    forall k2, (k2 < List.length ys2)%nat -> exists k, (k < List.length ys)%nat /\ nth k ys 0%Z = nth k2 ys2 0%Z /\
      time_of (ta_dates ax2) k2 = time_of (ta_dates ax') k /\
      forall e, at_ r2 (upd e "time" k2) = at_ r (upd e "time" k).
Proof.
  intros ax a t ps ax' r E (_ & W) HT ND NE IN WY. unfold annual_average_da in *. set (ts := ta_dates ax) in *.
  apply bind_inv in E as (c & Ec & E). apply bind_inv in E as ([] & Ey & E). injection E as <- <-.
  assert (Ec2 : axis_calendar (sub_axis ax ps) t = Ok c).
  { unfold axis_calendar in *. cbn [sub_axis ta_name ta_cal ta_dates]. destruct (String.eqb (ta_name ax) t); [|discriminate]. fold ts in Ec |- *.
    destruct ts eqn:X; [discriminate|]. destruct ps; [contradiction|]. cbn [map]. exact Ec. }
  rewrite Ec2. cbn [bind sub_axis ta_dates]. fold ts. set (ts2 := map (time_of ts) ps).
  assert (CL : forall y, In y (years ts2) -> forall i, (i < List.length ts)%nat -> d_year (time_of ts i) = y -> In i ps).
  { intros y Hy i Hi X. apply year2 in Hy as (j & Hj & Y). apply (WY j i Hj Hi). congruence. }
  assert (SUB : incl (years ts2) (years ts)).
  { intros y Hy. apply year2 in Hy as (j & Hj & Y). apply years_In. exists j. split; [apply IN, Hj|exact Y]. }
  assert (Ey2 : check_years ts2 = Ok tt).
  { unfold check_years in *. destruct (forallb _ (years ts)) eqn:F; [|discriminate]. rewrite forallb_forall in F.
    replace (forallb _ (years ts2)) with true; [reflexivity|]. symmetry. apply forallb_forall. intros y Hy. rewrite <- (F y (SUB y Hy)). f_equal.
    rewrite <- (Permutation_length (of_year_perm ts ps ND IN y (CL y Hy))). rewrite map_length. reflexivity. }
  rewrite Ey2. cbn [bind]. do 2 eexists. exists (years ts), (years ts2). split; [reflexivity|]. split; [apply years_years_of|]. split; [apply years_years_of|]. split; [exact SUB|].
  intros k2 Hk2. assert (Hy : In (nth k2 (years ts2) 0%Z) (years ts2)) by (apply nth_In, Hk2).
  destruct (In_nth _ _ 0%Z (SUB _ Hy)) as (k & Hk & Ek). exists k. split; [exact Hk|]. split; [exact Ek|]. split.
  - unfold annual_axis. cbn [ta_dates]. unfold time_of. rewrite (nth_indep (map _ (years ts2)) _ (ann_midpoint c 0)) by (rewrite map_length; exact Hk2).
    rewrite (nth_indep (map _ (years ts)) _ (ann_midpoint c 0)) by (rewrite map_length; exact Hk). rewrite !map_nth, Ek. reflexivity.
  - intros e. unfold annual_var. cbn [at_]. rewrite !upd_same, Ek. rewrite (annual_pick ts ps ND IN c t a _ (CL _ Hy)). f_equal. apply map_ext. intros i. f_equal.
    apply W. intros q Hq. destruct (String.eqb_spec q t) as [->|Nt]; [rewrite !upd_same; reflexivity|]. rewrite !(upd_other _ t) by congruence.
    destruct (String.eqb_spec q "time") as [->|Nq]; [destruct HT; [congruence|contradiction]|]. rewrite !upd_other by congruence. reflexivity.
Qed.
Print Assumptions C120_whole_years.

Lemma groups_same l l' : (forall y, In y l <-> In y l') -> zgroups l = zgroups l'.
Proof. intros H. apply sorted_unique; [apply zgroups_sorted|apply zgroups_sorted|]. intros y. rewrite !zgroups_In. apply H. Qed.
(** The samples in any order *)
Theorem C120_order : forall ax a t ps func y, Permutation ps (seq 0 (List.length (ta_dates ax))) ->
  annual_average_da (sub_axis ax ps) (samples t ps a) t = annual_average_da ax a t /\
  annual_cycle_da (sub_axis ax ps) (samples t ps a) t func (Some y) = annual_cycle_da ax a t func (Some y) /\
  monthly_average_da (sub_axis ax ps) (samples t ps a) t = monthly_average_da ax a t.
Proof.
  intros ax a t ps func y P. set (ts := ta_dates ax) in *. set (ts2 := map (time_of ts) ps).
  assert (ND : NoDup ps) by (eapply Permutation_NoDup; [apply Permutation_sym, P|apply seq_NoDup]).
  assert (IN : forall i, In i ps -> (i < List.length ts)%nat) by (intros i Hi; apply (Permutation_in _ P), in_seq in Hi; lia).
  assert (CL : forall i, (i < List.length ts)%nat -> In i ps) by (intros i Hi; apply (Permutation_in _ (Permutation_sym P)), in_seq; lia).
  assert (LP : List.length ps = List.length ts) by (rewrite (Permutation_length P); apply seq_length).
  assert (EC : axis_calendar (sub_axis ax ps) t = axis_calendar ax t).
  { unfold axis_calendar. cbn [sub_axis ta_name ta_cal ta_dates]. fold ts. destruct (String.eqb (ta_name ax) t); [|reflexivity].
    destruct ts, ps; try discriminate LP; reflexivity. }
  assert (YR : years ts2 = years ts).
  { apply groups_same. intros z. rewrite !in_map_iff. split.
    - intros (k & E & Hk). unfold positions, ts2 in Hk. rewrite map_length in Hk. apply in_seq in Hk. exists (nth k ps O). unfold ts2 in E. rewrite date_pick in E by lia. split; [exact E|].
      unfold positions. apply in_seq. split; [lia|]. apply IN, nth_In. lia.
    - intros (i & E & Hi). unfold positions in Hi. apply in_seq in Hi. destruct (In_nth ps i O (CL i ltac:(lia))) as (k & Hk & X). exists k. unfold ts2. rewrite date_pick by exact Hk. rewrite X.
      split; [exact E|]. unfold positions. rewrite map_length. apply in_seq. lia. }
  assert (OY : forall z, Permutation (map (fun k => nth k ps O) (of_year ts2 z)) (of_year ts z)) by (intros z; apply (of_year_perm ts ps ND IN); intros i Hi _; apply CL, Hi).
  assert (DM : forall t a, drop_dim t (adims (samples t ps a)) = drop_dim t (adims a)).
  { intros t' a'. unfold samples. cbn [select adims]. unfold resize, drop_dim. induction (adims a') as [|[q m] l IH]; [reflexivity|]. cbn [map fst filter].
    destruct (String.eqb t' q) eqn:B; cbn [fst]; rewrite B; cbn [negb]; [exact IH|]. f_equal. exact IH. }
  split; [|split].
  - unfold annual_average_da. rewrite EC. destruct (axis_calendar ax t) as [c|]; [|reflexivity]. cbn [bind]. cbn [sub_axis ta_dates]. fold ts. fold ts2.
    assert (CK : check_years ts2 = check_years ts).
    { unfold check_years. rewrite YR. f_equal. clear - OY. induction (years ts) as [|z l IH]; [reflexivity|]. cbn [forallb]. rewrite IH. f_equal. rewrite <- (Permutation_length (OY z)), map_length. reflexivity. }
    rewrite CK. destruct (check_years ts) as [[]|]; [|reflexivity]. cbn [bind]. unfold annual_axis, annual_var. rewrite YR, DM. do 3 f_equal. apply functional_extensionality. intros e.
    apply (annual_pick ts ps ND IN). intros i Hi _. apply CL, Hi.
  - assert (PS : positions ts2 = positions ts) by (unfold positions, ts2; rewrite map_length, LP; reflexivity).
    assert (MS : months ts2 (positions ts2) = months ts (positions ts)).
    { unfold months. f_equal. apply groups_same. intros z. rewrite !in_map_iff. split.
      - intros (k & E & Hk). unfold positions, ts2 in Hk. rewrite map_length in Hk. apply in_seq in Hk. exists (nth k ps O). unfold ts2 in E. rewrite date_pick in E by lia. split; [exact E|].
        unfold positions. apply in_seq. split; [lia|]. apply IN, nth_In. lia.
      - intros (i & E & Hi). unfold positions in Hi. apply in_seq in Hi. destruct (In_nth ps i O (CL i ltac:(lia))) as (k & Hk & X). exists k. unfold ts2. rewrite date_pick by exact Hk. rewrite X.
        split; [exact E|]. unfold positions. rewrite map_length. apply in_seq. lia. }
    assert (CV : forall f, (forall l l', Permutation l l' -> f l = f l') -> cycle_var f ts2 t (samples t ps a) = cycle_var f ts t a).
    { intros f Hf. unfold cycle_var. rewrite MS, DM. f_equal. apply functional_extensionality. intros e.
      assert (PM : Permutation (map (fun k => nth k ps O) (of_month ts2 (nth (e t) (months ts (positions ts)) O) (positions ts2))) (of_month ts (nth (e t) (months ts (positions ts)) O) (positions ts)))
        by (apply (pick_perm ts ps ND IN (fun d => Nat.eqb (d_month d) _)); intros i Hi _; apply CL, Hi).
      rewrite <- (Hf _ _ (Permutation_map (fun i => at_ a (upd e t i)) PM)). rewrite map_map. f_equal. apply map_ext. intros k. apply at_samples. }
    unfold annual_cycle_da. rewrite EC. destruct (axis_calendar ax t) as [c|]; [|reflexivity]. cbn [bind]. cbn [sub_axis ta_dates cycle_year]. fold ts. fold ts2.
    assert (CF : forall f, cycle_func func = Ok f -> forall l l', Permutation l l' -> f l = f l').
    { intros f E. unfold cycle_func in E. destruct (String.eqb func "mean"); [injection E as <-; apply lmean_perm|]. destruct (String.eqb func "min"); [injection E as <-; apply lmin_perm|].
      destruct (String.eqb func "max"); [injection E as <-; apply lmax_perm|]. destruct (String.eqb func "std"); [injection E as <-; apply lstd_perm|]. discriminate. }
    destruct (cycle_func func) as [f|]; [|reflexivity]. cbn [bind]. rewrite (CV f (CF f eq_refl)). reflexivity.
  - unfold monthly_average_da. rewrite EC. destruct (axis_calendar ax t) as [c|]; [|reflexivity]. cbn [bind]. cbn [sub_axis ta_dates]. fold ts. fold ts2. rewrite YR.
    assert (YM : forall z, months ts2 (of_year ts2 z) = months ts (of_year ts z)).
    { intros z. unfold months. f_equal. apply groups_same. intros x. rewrite !in_map_iff. split.
      - intros (k & E & Hk). exists (nth k ps O). split.
        + rewrite <- E. do 2 f_equal. symmetry. apply date_pick. unfold of_year in Hk. apply filter_In in Hk. destruct Hk as (Hk & _). unfold positions, ts2 in Hk. rewrite map_length in Hk. apply in_seq in Hk. lia.
        + eapply Permutation_in; [apply OY|]. apply in_map_iff. exists k. auto.
      - intros (i & E & Hi). apply (Permutation_in _ (Permutation_sym (OY z))) in Hi. apply in_map_iff in Hi. destruct Hi as (k & X & Hk). exists k. split; [|exact Hk].
        rewrite <- E, <- X. do 2 f_equal. apply date_pick. unfold of_year in Hk. apply filter_In in Hk. destruct Hk as (Hk & _). unfold positions, ts2 in Hk. rewrite map_length in Hk. apply in_seq in Hk. lia. }
    assert (OM : forall z m, Permutation (map (fun k => nth k ps O) (of_month ts2 m (of_year ts2 z))) (of_month ts m (of_year ts z))).
    { intros z m. unfold of_month. assert (X : map (fun k => nth k ps O) (filter (fun i => Nat.eqb (d_month (nth_date ts2 i)) m) (of_year ts2 z)) =
        filter (fun i => Nat.eqb (d_month (nth_date ts i)) m) (map (fun k => nth k ps O) (of_year ts2 z))).
      { rewrite <- filter_map_swap. f_equal. apply filter_ext_in. intros k Hk. unfold of_year in Hk. apply filter_In in Hk. destruct Hk as (Hk & _). unfold positions, ts2 in Hk. rewrite map_length in Hk. apply in_seq in Hk.
        unfold ts2. rewrite date_pick by lia. reflexivity. }
      rewrite X. apply filter_perm, OY. }
    set (H := fun z : Z => if Nat.eqb (List.length (year_record ts2 z)) 12 then _ else _). set (G := fun z : Z => if Nat.eqb (List.length (year_record ts z)) 12 then _ else _).
    assert (R : match mapM H (years ts), mapM G (years ts) with
      | Ok b, Ok b' => Forall2 (fun x x' => Permutation (map (fun k => nth k ps O) x) x') (flat_map fst b) (flat_map fst b') /\ flat_map snd b = flat_map snd b' | Err e, Err e' => e = e' | _, _ => False end). 
    { clear YR. induction (years ts) as [|z l IH]; [cbn; auto|]. cbn [mapM].
      change (H z) with (if Nat.eqb (List.length (year_record ts2 z)) 12 then Ok (year_record ts2 z, month_midpoints c z) else Err ValueError).
      change (G z) with (if Nat.eqb (List.length (year_record ts z)) 12 then Ok (year_record ts z, month_midpoints c z) else Err ValueError).
      assert (L : List.length (year_record ts2 z) = List.length (year_record ts z)) by (unfold year_record; rewrite !map_length, YM; reflexivity).
      rewrite L. destruct (Nat.eqb (List.length (year_record ts z)) 12); [|cbn [bind]; reflexivity]. cbn [bind].
      destruct (mapM H l) as [b|], (mapM G l) as [b'|]; cbn [bind]; try contradiction; [|exact IH]. cbn [flat_map fst snd]. destruct IH as (I1 & I2). rewrite I2. split; [|reflexivity].
      apply Forall2_app; [|exact I1]. unfold year_record. rewrite YM. generalize (months ts (of_year ts z)). intros ms. induction ms as [|m ms IH]; cbn; constructor; [apply OM|exact IH]. }
    destruct (mapM H (years ts)) as [b|], (mapM G (years ts)) as [b'|]; try contradiction; [|cbn; congruence]. destruct R as (R1 & R2). cbn [bind]. rewrite R2, DM.
    assert (LG : List.length (flat_map fst b) = List.length (flat_map fst b')) by (clear - R1; induction R1; cbn; congruence). rewrite LG. do 3 f_equal. apply functional_extensionality. intros e.
    assert (PN : Permutation (map (fun k => nth k ps O) (nth (e t) (flat_map fst b) [])) (nth (e t) (flat_map fst b') [])).
    { clear - R1. generalize (e t). induction R1 as [|x x' l l' Hx _ IH]; intros [|k]; cbn; auto. }
    rewrite <- (lmean_perm _ _ (Permutation_map (fun i => at_ a (upd e t i)) PN)). rewrite map_map. f_equal. apply map_ext. intros k. apply at_samples.
Qed.
Print Assumptions C120_order.

(** Two years of monthly values: the second year alone, and the record backwards. *)
Example C120_nonvacuous : let ax := mkAxis "time" (Some NoLeap) two_years in
  (exists ax' r, annual_average_da ax ramp "time" = Ok (ax', r)) /\ wf_arr ramp /\ NoDup (seq 12 12) /\
  (forall i, In i (seq 12 12) -> (i < List.length two_years)%nat) /\ whole_years two_years (seq 12 12) /\
  years_of (map (time_of two_years) (seq 12 12)) [2001%Z] /\ Permutation (rev (seq 0 24)) (seq 0 (List.length two_years)).
Proof.
  assert (Y : forall i, (i < 24)%nat -> d_year (time_of two_years i) = if (i <? 12)%nat then 2000%Z else 2001%Z).
  { intros i Hi. do 24 (destruct i as [|i]; [reflexivity|]). lia. }
  cbv zeta. split; [do 2 eexists; reflexivity|]. split.
  { split; [repeat constructor; intros []|]. intros e e' H. unfold ramp. cbn [at_]. rewrite (H "time" (or_introl eq_refl)). reflexivity. }
  split; [apply seq_NoDup|]. split; [intros i H; apply in_seq in H; exact (proj2 H)|]. split.
  { intros i j Hi Hj. apply in_seq in Hi. change (List.length two_years) with 24%nat in Hj. rewrite !Y by lia.
    rewrite in_seq. destruct (Nat.ltb_spec i 12), (Nat.ltb_spec j 12); intros; try discriminate; lia. }
  split; [apply (years_years_of (map (time_of two_years) (seq 12 12)))|]. apply Permutation_sym, Permutation_rev.
Qed.
