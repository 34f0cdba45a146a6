(** * PropertiesAvg: C135 (averages over time are linear and monotone), C136 (standard deviations of the annual cycle) *)
From Coq Require Import Reals ZArith List String Bool Arith Lia Lra.
From Verif Require Import Num NumFacts Py Arr ArrFacts Calendar TimeAvg SpecTime ProofsCal ProofsUtil ProofsAvg ProofsAvg2 ProofsAvg3 ProofsAvg4 ProofsGeo ProofsGeo2 ProofsTide ProofsTide2 PropertiesTime PropertiesTime2.
Import ListNotations.
Local Open Scope string_scope.
Local Open Scope R_scope.

(** [k * a + l * b], value by value. *)
Definition combination (k : R) (a : arr) (l : R) (b : arr) : arr :=
  mkArr (adims a) (fun e => fadd (fmul (Fin k) (at_ a e)) (fmul (Fin l) (at_ b e))).

(** The three averages over time, the cycle with its [mean]. *)
Definition averages (y : option Z) : list (taxis -> arr -> string -> res (taxis * arr)) :=
  [annual_average_da; monthly_average_da; (fun ax a t => annual_cycle_da ax a t "mean" y)].

Lemma F2_In_r {A B} (P : A -> B -> Prop) l ys y : Forall2 P l ys -> In y ys -> exists x, In x l /\ P x y.
Proof.
  induction 1 as [|x y' l ys H F IH]; intros I; [destruct I|]. destruct I as [<-|I]; [exists x; split; [left; reflexivity|exact H]|].
  destruct (IH I) as (z & Z & K). exists z. split; [right; exact Z|exact K].
Qed.

(** Each of them is [avg] over positions that depend on the dates only. *)
Lemma average_form y f ax a t ax1 r : In f (averages y) -> f ax a t = Ok (ax1, r) ->
  exists ds (ps : index -> list nat) w, (forall e i, In i (ps e) -> (i < List.length (ta_dates ax))%nat) /\ (forall i, 0 < w i) /\
    forall b, exists r', f ax b t = Ok (ax1, r') /\ adims r' = (ds :: drop_dim t (adims b)) /\
      forall e, (forall i, (i < List.length (ta_dates ax))%nat -> not_inf (at_ b (upd e t i))) ->
        at_ r' e = avg w (fun i => at_ b (upd e t i)) (ps e).
Proof.
  intros I H. destruct I as [<-|[<-|[<-|[]]]].
  - unfold annual_average_da in H. apply bind_inv in H as (c & Hc & H). apply bind_inv in H as (u & Hu & H). apply Ok_inj in H. injection H as <- _.
    exists ("time", List.length (years (ta_dates ax))), (fun e => of_year (ta_dates ax) (nth (e "time") (years (ta_dates ax)) 0%Z)), (fun i => days_weight c (nth_date (ta_dates ax) i)).
    split; [intros e i J; apply filter_In in J as [J _]; apply in_seq in J; lia|]. split; [intros; apply days_weight_pos|].
    intros b. eexists. split; [unfold annual_average_da; rewrite Hc; cbn [bind]; rewrite Hu; reflexivity|]. split; [reflexivity|].
    intros e N. cbn [at_ annual_var]. apply wmean_avg. intros i J. apply N. apply filter_In in J as [J _]. apply in_seq in J. lia.
  - unfold monthly_average_da in H. apply bind_inv in H as (c & Hc & H). apply bind_inv in H as (bl & Hb & H). apply Ok_inj in H. injection H as <- _.
    assert (B : forall g i, In g (flat_map fst bl) -> In i g -> (i < List.length (ta_dates ax))%nat).
    { intros g i J K. apply in_flat_map in J as (x & X & J).
      apply mapM_F2 in Hb. destruct (F2_In_r _ _ _ _ Hb X) as (yy & _ & E). destruct (Nat.eqb _ 12); [|discriminate]. apply Ok_inj in E. subst x. cbn [fst] in J.
      unfold year_record in J. apply in_map_iff in J as (m & <- & _). apply filter_In in K as [K _]. apply filter_In in K as [K _]. apply in_seq in K. lia. }
    exists (t, List.length (flat_map fst bl)), (fun e => nth (e t) (flat_map fst bl) []), (fun _ => 1).
    assert (B' : forall e i, In i (nth (e t) (flat_map fst bl) []) -> (i < List.length (ta_dates ax))%nat).
    { intros e i J. destruct (nth_in_or_default (e t) (flat_map fst bl) []) as [K|K]; [exact (B _ i K J)|rewrite K in J; destruct J]. }
    split; [intros e; exact (B' e)|]. split; [intros; lra|].
    intros b. eexists. split; [unfold monthly_average_da; rewrite Hc; cbn [bind]; rewrite Hb; reflexivity|]. split; [reflexivity|].
    intros e N. cbn [at_]. apply lmean_avg. intros i J. apply N, (B' e i J).
  - apply cycle_inv in H as (c & g & H1 & H2 & H3 & H4 & H5 & -> & _). cbn in H4. injection H4 as <-.
    exists (t, List.length (months (ta_dates ax) (positions (ta_dates ax)))),
      (fun e => of_month (ta_dates ax) (nth (e t) (months (ta_dates ax) (positions (ta_dates ax))) O) (positions (ta_dates ax))), (fun _ => 1).
    assert (B' : forall m i, In i (of_month (ta_dates ax) m (positions (ta_dates ax))) -> (i < List.length (ta_dates ax))%nat).
    { intros m i J. apply filter_In in J as [J _]. apply in_seq in J. lia. }
    split; [intros e i; apply B'|]. split; [intros; lra|].
    intros b. exists (cycle_var lmean (ta_dates ax) t b).
    split; [rewrite (cycle_ok ax b t "mean" y c lmean H1 H2 H3 eq_refl), H5; reflexivity|]. split; [reflexivity|].
    intros e N. cbn [at_ cycle_var]. apply lmean_avg. intros i J. apply N, (B' _ i J).
Qed.

(** ** C135 *)
Theorem C135_linear : forall y f ax a b t ax1 r k l, In f (averages y) -> f ax a t = Ok (ax1, r) ->
  exists s c, f ax b t = Ok (ax1, s) /\ f ax (combination k a l b) t = Ok (ax1, c) /\ adims c = adims r /\
    forall e, (forall i, (i < List.length (ta_dates ax))%nat -> alike (at_ a (upd e t i)) (at_ b (upd e t i))) ->
      at_ c e = fadd (fmul (Fin k) (at_ r e)) (fmul (Fin l) (at_ s e)).
Proof.
  intros y f ax a b t ax1 r k l I H. destruct (average_form y f ax a t ax1 r I H) as (ds & ps & w & P & W & F).
  destruct (F a) as (r' & Ra & Da & Va). rewrite H in Ra. apply Ok_inj in Ra. injection Ra as <-.
  destruct (F b) as (s & Rb & Db & Vb). destruct (F (combination k a l b)) as (c & Rc & Dc & Vc).
  exists s, c. split; [exact Rb|]. split; [exact Rc|]. split; [rewrite Dc, Da; reflexivity|].
  intros e A. rewrite Va, Vb, Vc.
  - apply (avg_linear w k (fun i => at_ a (upd e t i)) l (fun i => at_ b (upd e t i))). intros i J. apply A, (P e), J.
  - intros i J. apply (alike_lin k _ l _ (A i J)).
  - intros i J. apply (alike_not_inf _ _ (A i J)).
  - intros i J. apply (alike_not_inf _ _ (A i J)).
Qed.
Print Assumptions C135_linear.

Theorem C135_monotone : forall y f ax a b t ax1 r, In f (averages y) -> f ax a t = Ok (ax1, r) ->
  exists s, f ax b t = Ok (ax1, s) /\
    forall e, (forall i, (i < List.length (ta_dates ax))%nat -> below (at_ a (upd e t i)) (at_ b (upd e t i))) -> below (at_ r e) (at_ s e).
Proof.
  intros y f ax a b t ax1 r I H. destruct (average_form y f ax a t ax1 r I H) as (ds & ps & w & P & W & F).
  destruct (F a) as (r' & Ra & Da & Va). rewrite H in Ra. apply Ok_inj in Ra. injection Ra as <-.
  destruct (F b) as (s & Rb & Db & Vb). exists s. split; [exact Rb|].
  intros e A. rewrite Va, Vb by (intros i J; apply (alike_not_inf _ _ (below_alike _ _ (A i J)))).
  apply avg_monotone; [intros i _; left; apply W|]. intros i J. apply A, (P e), J.
Qed.
Print Assumptions C135_monotone.

Theorem C135_extremes : forall func ax a b t y ax1 r, func = "min" \/ func = "max" -> annual_cycle_da ax a t func y = Ok (ax1, r) ->
  exists s, annual_cycle_da ax b t func y = Ok (ax1, s) /\
    forall e, (forall i, (i < List.length (ta_dates ax))%nat -> below (at_ a (upd e t i)) (at_ b (upd e t i))) -> below (at_ r e) (at_ s e).
Proof.
  intros func ax a b t y ax1 r Fu H. apply cycle_inv in H as (c & g & H1 & H2 & H3 & H4 & H5 & -> & ->).
  exists (cycle_var g (ta_dates ax) t b). split; [rewrite (cycle_ok ax b t func y c g H1 H2 H3 H4), H5; reflexivity|].
  intros e A. unfold cycle_var. cbn [at_]. apply (lbest_monotone g (fun i => at_ a (upd e t i)) (fun i => at_ b (upd e t i))).
  - destruct Fu as [-> | ->]; cbn in H4; injection H4 as <-; auto.
  - intros i J. apply A. apply filter_In in J as [J _]. apply in_seq in J. lia.
Qed.
Print Assumptions C135_extremes.

(** A record of two years with a missing sample, combined with itself. *)
Example C135_example : exists ax1 r c,
  annual_average_da (mkAxis "time" (Some NoLeap) two_years) ramp "time" = Ok (ax1, r) /\
  annual_average_da (mkAxis "time" (Some NoLeap) two_years) (combination 2 ramp 3 ramp) "time" = Ok (ax1, c) /\
  (forall e i, (i < List.length two_years)%nat -> below (at_ ramp (upd e "time" i)) (at_ ramp (upd e "time" i))) /\
  (exists v, at_ r (fun _ => 1%nat) = Fin v) /\ forall e v, at_ r e = Fin v -> at_ c e = Fin (5 * v).
Proof.
  assert (O : exists ax1 r, annual_average_da (mkAxis "time" (Some NoLeap) two_years) ramp "time" = Ok (ax1, r)) by (do 2 eexists; reflexivity).
  destruct O as (ax1 & r & E).
  destruct (C135_linear None annual_average_da _ ramp ramp "time" ax1 r 2 3 (or_introl eq_refl) E) as (s & c & Es & Ec & _ & V).
  rewrite E in Es. apply Ok_inj in Es. injection Es as <-. exists ax1, r, c.
  assert (B : forall e i, (i < List.length two_years)%nat -> below (at_ ramp (upd e "time" i)) (at_ ramp (upd e "time" i))).
  { intros e i _. unfold ramp. cbn [at_]. destruct (Nat.eqb _ 12); [left; auto|right; do 2 eexists; repeat split; lra]. }
  split; [exact E|]. split; [exact Ec|]. split; [exact B|]. split.
  - destruct (C55_bounds _ _ _ _ _ E) as (ys & Y & K). cbn [ta_dates] in *.
    assert (Ys : ys = [2000%Z; 2001%Z]).
    { destruct (years_years_of two_years) as [A1 A2]. destruct Y as [B1 B2]. change (years two_years) with [2000%Z; 2001%Z] in *.
      apply sorted_unique; [apply ascending_sorted; exact B1|apply ascending_sorted; exact A1|]. intros y. rewrite A2, B2. reflexivity. }
    subst ys. destruct (K (fun _ => 1%nat)) with (lo := 0) (hi := 24) as (v & Ev & _); [cbn; lia| | | |exists v; exact Ev].
    + intros i Hi _. apply (alike_not_inf _ _ (below_alike _ _ (B (fun _ => 1%nat) i Hi))).
    + exists 13%nat. split; [cbn; lia|]. split; reflexivity.
    + intros i v Hi _ X. unfold ramp in X. cbn [at_] in X. destruct (Nat.eqb _ 12); [discriminate|]. injection X as <-. unfold upd. cbn [String.eqb Ascii.eqb Bool.eqb].
      change (List.length two_years) with 24%nat in Hi. split; [apply pos_INR|]. apply lt_INR in Hi. cbn in Hi |- *. lra.
  - intros e v X. rewrite V, X by (intros i Hi; apply below_alike, B, Hi). cbn. f_equal. ring.
Qed.

(** ** C136 *)
Theorem C136_spread : forall ax a t y ax1 r k c, annual_cycle_da ax a t "std" y = Ok (ax1, r) ->
  exists s, annual_cycle_da ax (mkArr (adims a) (fun e => fadd (fmul (Fin k) (at_ a e)) (Fin c))) t "std" y = Ok (ax1, s) /\
    forall e, (forall i, (i < List.length (ta_dates ax))%nat -> not_inf (at_ a (upd e t i))) -> at_ s e = fmul (Fin (Rabs k)) (at_ r e).
Proof.
  intros ax a t y ax1 r k c0 H. apply cycle_inv in H as (c & g & H1 & H2 & H3 & H4 & H5 & -> & ->). cbn in H4. injection H4 as <-.
  set (b := mkArr (adims a) (fun e => fadd (fmul (Fin k) (at_ a e)) (Fin c0))).
  exists (cycle_var lstd (ta_dates ax) t b). split; [rewrite (cycle_ok ax b t "std" y c lstd H1 H2 H3 eq_refl), H5; reflexivity|].
  intros e A. unfold cycle_var. cbn [at_ b]. apply (lstd_affine k c0 (fun i => at_ a (upd e t i))).
  intros i J. apply A. apply filter_In in J as [J _]. apply in_seq in J. lia.
Qed.
Print Assumptions C136_spread.

(** The ramp in other units: the spread scales, the offset drops out. *)
Example C136_example : exists ax1 r s,
  annual_cycle_da (mkAxis "time" (Some NoLeap) two_years) ramp "time" "std" None = Ok (ax1, r) /\
  annual_cycle_da (mkAxis "time" (Some NoLeap) two_years) (mkArr (adims ramp) (fun e => fadd (fmul (Fin (-2)) (at_ ramp e)) (Fin 7))) "time" "std" None = Ok (ax1, s) /\
  forall e, at_ s e = fmul (Fin 2) (at_ r e).
Proof.
  assert (O : exists ax1 r, annual_cycle_da (mkAxis "time" (Some NoLeap) two_years) ramp "time" "std" None = Ok (ax1, r)) by (do 2 eexists; reflexivity).
  destruct O as (ax1 & r & E). destruct (C136_spread _ _ _ _ _ _ (-2) 7 E) as (s & Es & V).
  exists ax1, r, s. split; [exact E|]. split; [exact Es|]. intros e. rewrite V.
  - rewrite Rabs_left by lra. f_equal. f_equal. ring.
  - intros i _. unfold ramp. cbn [at_]. destruct (Nat.eqb _ 12); exact I.
Qed.
