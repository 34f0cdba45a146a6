(** * ProofsAvg3: extrema, deviation, and the annual cycle *)
From Coq Require Import Reals ZArith List String Bool Arith Lia Lra Sorted.
From Verif Require Import Num NumFacts Py Arr ArrFacts Calendar TimeAvg SpecTime ProofsCal ProofsUtil ProofsAvg ProofsAvg2.
Import ListNotations.
Local Open Scope R_scope.

Lemma valid_In l v : In v (valid l) <-> In v l /\ notnull v = true.
Proof. unfold valid. apply filter_In. Qed.

Lemma fold_best (better : fval -> fval -> bool) (R1 : R -> R -> Prop) :
  (forall x y, better (Fin x) (Fin y) = true -> R1 x y) ->
  (forall x y, better (Fin x) (Fin y) = false -> R1 y x) ->
  (forall x, R1 x x) -> (forall x y z, R1 x y -> R1 y z -> R1 x z) ->
  forall l acc, (forall v, In v l -> exists x, v = Fin x) ->
  exists m, fold_left (fun acc v => if better v acc then v else acc) l (Fin acc) = Fin m /\
            (In (Fin m) l \/ m = acc) /\ R1 m acc /\ forall z, In (Fin z) l -> R1 m z.
Proof.
  intros H1 H2 Hr Ht l. induction l as [|v l IH]; intros acc Hl; cbn [fold_left].
  - exists acc. repeat split; auto; intros z [].
  - destruct (Hl v (or_introl eq_refl)) as [x ->].
    destruct (better (Fin x) (Fin acc)) eqn:E.
    + destruct (IH x) as (m & A & B & C & D); [intros w Hw; apply Hl; right; exact Hw|].
      exists m. split; [exact A|]. split; [|split].
      * destruct B as [B|B]; left; [right; exact B | left; congruence].
      * eapply Ht; [exact C | apply H1, E].
      * intros z [Hz|Hz]; [injection Hz as <-; exact C | apply D, Hz].
    + destruct (IH acc) as (m & A & B & C & D); [intros w Hw; apply Hl; right; exact Hw|].
      exists m. split; [exact A|]. split; [|split].
      * destruct B as [B|B]; [left; right; exact B | right; exact B].
      * exact C.
      * intros z [Hz|Hz]; [injection Hz as <-; eapply Ht; [exact C | apply H2, E] | apply D, Hz].
Qed.

Lemma lbest_spec better (R1 : R -> R -> Prop) l :
  (forall x y, better (Fin x) (Fin y) = true -> R1 x y) ->
  (forall x y, better (Fin x) (Fin y) = false -> R1 y x) ->
  (forall x, R1 x x) -> (forall x y z, R1 x y -> R1 y z -> R1 x z) ->
  (forall v, In v l -> not_inf v) -> (exists v, In v l /\ notnull v = true) ->
  exists m, lbest better l = Fin m /\ In (Fin m) l /\ forall z, In (Fin z) l -> R1 m z.
Proof.
  intros H1 H2 Hr Ht Hi (v & Hv & Hn). unfold lbest.
  assert (F : forall w, In w (valid l) -> exists x, w = Fin x).
  { intros w Hw. apply valid_In in Hw. destruct Hw as [Hw Hwn]. specialize (Hi w Hw).
    destruct w; [discriminate | contradiction | eexists; reflexivity]. }
  assert (Hv' : In v (valid l)) by (apply valid_In; split; assumption).
  assert (Sub : forall z, In (Fin z) l -> In (Fin z) (valid l)) by (intros z Hz; apply valid_In; split; [exact Hz|reflexivity]).
  assert (Sup : forall w, In w (valid l) -> In w l) by (intros w Hw; apply valid_In in Hw; tauto).
  destruct (valid l) as [|w ws]; [destruct Hv'|].
  destruct (F w (or_introl eq_refl)) as [x ->].
  destruct (fold_best better R1 H1 H2 Hr Ht ws x) as (m & A & B & C & D); [intros w Hw; apply F; right; exact Hw|].
  exists m. split; [exact A|]. split.
  - apply Sup. destruct B as [B| ->]; [right; exact B | left; reflexivity].
  - intros z Hz. destruct (Sub z Hz) as [E|E]; [injection E as <-; exact C | apply D, E].
Qed.

Lemma lmin_spec l : (forall v, In v l -> not_inf v) -> (exists v, In v l /\ notnull v = true) ->
  exists m, lmin l = Fin m /\ In (Fin m) l /\ forall z, In (Fin z) l -> m <= z.
Proof.
  apply lbest_spec.
  - intros x y H. cbn in H. apply Rltb_true in H. lra.
  - intros x y H. cbn in H. apply Rltb_false in H. lra.
  - intros; lra.
  - intros; lra.
Qed.

Lemma lmax_spec l : (forall v, In v l -> not_inf v) -> (exists v, In v l /\ notnull v = true) ->
  exists m, lmax l = Fin m /\ In (Fin m) l /\ forall z, In (Fin z) l -> z <= m.
Proof.
  apply (lbest_spec _ (fun a b => b <= a)).
  - intros x y H. cbn in H. apply Rltb_true in H. lra.
  - intros x y H. cbn in H. apply Rltb_false in H. lra.
  - intros; lra.
  - intros; lra.
Qed.

Lemma lbest_none better l : (forall v, In v l -> v = NaN) -> lbest better l = NaN.
Proof.
  intros H. unfold lbest. destruct (valid l) as [|v w] eqn:E; [reflexivity|].
  assert (In v (valid l)) as I by (rewrite E; left; reflexivity). apply valid_In in I. destruct I as [I N].
  rewrite (H v I) in N. discriminate.
Qed.

(** Population standard deviation of the valid samples. *)
Lemma lstd_some n p (x : nat -> fval) k : (forall i, (i < n)%nat -> p i = true -> not_inf (x i)) ->
  let q i := p i && notnull (x i) in
  (k < n)%nat -> q k = true ->
  let mu := Sum_if n q (fun i => val (x i)) / INR (count_if n q) in
  lstd (map x (filter p (seq 0 n))) =
  Fin (sqrt (Sum_if n q (fun i => (val (x i) - mu) * (val (x i) - mu)) / INR (count_if n q))).
Proof.
  intros Hx q Hk Hq mu. unfold lstd. rewrite (lmean_some n p x k Hx Hk Hq). fold q. fold mu. rewrite map_map.
  set (x2 := fun i => fmul (fsub (x i) (Fin mu)) (fsub (x i) (Fin mu))).
  assert (V : forall i, (i < n)%nat -> p i = true -> notnull (x2 i) = notnull (x i) /\ not_inf (x2 i)).
  { intros i Hi Hp. specialize (Hx i Hi Hp). unfold x2. destruct (x i); cbn in *; [split; [reflexivity|exact I] | contradiction | split; [reflexivity|exact I]]. }
  assert (Q : forall i, (i < n)%nat -> p i && notnull (x2 i) = q i).
  { intros i Hi. unfold q. destruct (p i) eqn:E; [|reflexivity]. destruct (V i Hi E) as [-> _]. reflexivity. }
  rewrite (lmean_some n p x2 k).
  - assert (N : Sum_if n (fun i => p i && notnull (x2 i)) (fun i => val (x2 i)) =
                Sum_if n q (fun i => (val (x i) - mu) * (val (x i) - mu))).
    { apply Sum_if_ext; [exact Q|]. intros i Hi Hqi. unfold q in Hqi. apply andb_prop in Hqi. destruct Hqi as [Hp Hn].
      specialize (Hx i Hi Hp). unfold x2. destruct (x i); cbn in *; [discriminate|contradiction|]. lra. }
    assert (C : INR (count_if n (fun i => p i && notnull (x2 i))) = INR (count_if n q)).
    { rewrite !count_Sum. apply Sum_if_ext; [exact Q | reflexivity]. }
    rewrite N, C. apply fsqrt_Fin.
    apply Rmult_le_pos; [|left; apply Rinv_0_lt_compat, (count_pos n q k Hk Hq)].
    apply Rsum_nonneg. intros i _. destruct (q i); [apply Rle_0_sqr | lra].
  - intros i Hi Hp. apply V; assumption.
  - exact Hk.
  - rewrite Q by exact Hk. exact Hq.
Qed.

(** ** annual_cycle *)
Section Cycle.
  Variables (c : cal) (ts : list date) (t : string) (a : arr).
  Hypothesis Hmonth : forall i, (i < List.length ts)%nat -> (1 <= d_month (time_of ts i) <= 12)%nat.

  Lemma positions_In i : In i (positions ts) <-> (i < List.length ts)%nat.
  Proof. unfold positions. rewrite in_seq. lia. Qed.

  Lemma cycle_months : List.length (months ts (positions ts)) = 12%nat -> months ts (positions ts) = seq 1 12.
  Proof. intros H. apply months_12; [|exact H]. intros i Hi. apply Hmonth, positions_In, Hi. Qed.

  Lemma cycle_value f e : months ts (positions ts) = seq 1 12 -> (e t < 12)%nat ->
    at_ (cycle_var f ts t a) e =
    f (map (fun i => at_ a (upd e t i)) (filter (same_month ts (S (e t))) (seq 0 (List.length ts)))).
  Proof.
    intros H He. unfold cycle_var. cbn [at_]. rewrite H. rewrite seq_nth by exact He. reflexivity.
  Qed.

  Lemma cycle_full_iff : List.length (months ts (positions ts)) = 12%nat <->
    forall m, (1 <= m <= 12)%nat -> exists i, (i < List.length ts)%nat /\ d_month (time_of ts i) = m.
  Proof.
    split; intros H.
    - apply cycle_months in H. intros m Hm. assert (In m (months ts (positions ts))) as I by (rewrite H; apply in_seq; lia).
      apply months_In in I. destruct I as (i & Hi & E). exists i. split; [apply positions_In, Hi | exact E].
    - rewrite months_full; [reflexivity| |].
      + intros i Hi. apply Hmonth, positions_In, Hi.
      + intros m Hm. destruct (H m Hm) as (i & Hi & E). exists i. split; [apply positions_In, Hi | exact E].
  Qed.
End Cycle.

Lemma month_midpoints_length c y : List.length (month_midpoints c y) = 12%nat.
Proof. unfold month_midpoints. rewrite map_length. reflexivity. Qed.

Lemma cycle_inv ax a t func ty ax' r : annual_cycle_da ax a t func ty = Ok (ax', r) ->
  exists c f, ta_name ax = t /\ ta_cal ax = Some c /\ ta_dates ax <> [] /\ cycle_func func = Ok f /\
    List.length (months (ta_dates ax) (positions (ta_dates ax))) = 12%nat /\
    ax' = mkAxis t (Some c) (month_midpoints c (cycle_year c (ta_dates ax) ty)) /\
    r = cycle_var f (ta_dates ax) t a.
Proof.
  unfold annual_cycle_da. destruct (axis_calendar ax t) as [c|] eqn:A; [|discriminate]. cbn [bind].
  destruct (cycle_func func) as [f|] eqn:F; [|discriminate]. cbn [bind]. intros H.
  apply axis_calendar_inv in A. destruct A as (A1 & A2 & A3).
  rewrite month_midpoints_length in H.
  destruct (Nat.eqb_spec (size_of t (cycle_var f (ta_dates ax) t a)) 12) as [S|S]; [|discriminate].
  apply Ok_inj in H. injection H as <- <-. exists c, f. repeat split; auto.
  unfold size_of, cycle_var in S. cbn [adims dget] in S. rewrite String.eqb_refl in S. exact S.
Qed.

Lemma cycle_ok ax a t func ty c f : ta_name ax = t -> ta_cal ax = Some c -> ta_dates ax <> [] ->
  cycle_func func = Ok f ->
  annual_cycle_da ax a t func ty =
  if Nat.eqb (List.length (months (ta_dates ax) (positions (ta_dates ax)))) 12
  then Ok (mkAxis t (Some c) (month_midpoints c (cycle_year c (ta_dates ax) ty)), cycle_var f (ta_dates ax) t a)
  else Err ValueError.
Proof.
  intros <- H2 H3 H4. unfold annual_cycle_da. rewrite (axis_calendar_ok ax c) by assumption. cbn [bind]. rewrite H4. cbn [bind].
  rewrite month_midpoints_length. unfold size_of, cycle_var at 1. cbn [adims dget]. rewrite String.eqb_refl. reflexivity.
Qed.

Lemma NoDup_map_in {A B} (f : A -> B) l :
  (forall x y, In x l -> In y l -> f x = f y -> x = y) -> NoDup l -> NoDup (map f l).
Proof.
  intros H N. induction N as [|x l Hx N IH]; cbn [map]; constructor.
  - rewrite in_map_iff. intros (y & E & Hy). apply Hx.
    rewrite (H x y); [exact Hy | left; reflexivity | right; exact Hy | congruence].
  - apply IH. intros u v Hu Hv. apply H; right; assumption.
Qed.
