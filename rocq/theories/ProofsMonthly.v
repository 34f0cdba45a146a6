(** * ProofsMonthly: complete monthly records *)
From Coq Require Import Reals ZArith Lra Lia List String Bool Arith Sorted FunctionalExtensionality.
From Verif Require Import Num NumFacts Py Arr ArrFacts Calendar TimeAvg Derived Dataset SpecTime ProofsCal ProofsUtil ProofsAvg ProofsAvg2 ProofsAvg3 ProofsFields.
Import ListNotations.
Local Open Scope string_scope.
Local Open Scope R_scope.

Lemma Rsum_block n (g : nat -> R) : Rsum (12 * n) g = Rsum n (fun k => Rsum 12 (fun m => g (12 * k + m)%nat)).
Proof.
  induction n as [|n IH]; [reflexivity|]. replace (12 * S n)%nat with (12 * n + 12)%nat by lia.
  rewrite Rsum_split, IH. reflexivity.
Qed.

Lemma Rsum_pick n k (g : nat -> R) : (k < n)%nat -> (forall j, (j < n)%nat -> j <> k -> g j = 0) -> Rsum n g = g k.
Proof.
  induction n as [|n IH]; intros Hk H; [lia|]. cbn [Rsum]. destruct (Nat.eq_dec k n) as [->|N].
  - rewrite Rsum_zero by (intros i Hi; apply H; lia). lra.
  - rewrite IH by (lia || (intros j Hj; apply H; lia)). rewrite (H n) by lia. lra.
Qed.

Lemma block_div k m : (m < 12)%nat -> ((12 * k + m) / 12 = k /\ (12 * k + m) mod 12 = m)%nat.
Proof.
  intros H. rewrite (Nat.mul_comm 12), Nat.add_comm. split.
  - rewrite Nat.div_add by lia. rewrite (Nat.div_small m) by exact H. reflexivity.
  - rewrite Nat.mod_add by lia. apply Nat.mod_small, H.
Qed.

Lemma filter_none {A} (p : A -> bool) l : (forall x, In x l -> p x = false) -> filter p l = [].
Proof. induction l as [|x l IH]; intros H; [reflexivity|]. cbn [filter]. rewrite (H x (or_introl eq_refl)). apply IH. intros y Hy. apply H. right; exact Hy. Qed.
Lemma filter_every {A} (p : A -> bool) l : (forall x, In x l -> p x = true) -> filter p l = l.
Proof. induction l as [|x l IH]; intros H; [reflexivity|]. cbn [filter]. rewrite (H x (or_introl eq_refl)). f_equal. apply IH. intros y Hy. apply H. right; exact Hy. Qed.
Lemma filter_ext_in' {A} (p q : A -> bool) l : (forall x, In x l -> p x = q x) -> filter p l = filter q l.
Proof. intros H. induction l as [|x l IH]; [reflexivity|]. cbn [filter]. rewrite (H x (or_introl eq_refl)), IH; [reflexivity|]. intros y Hy. apply H. right; exact Hy. Qed.

Lemma seq_block n : seq 0 (12 * S n) = (seq 0 (12 * n) ++ seq (12 * n) 12)%list.
Proof. replace (12 * S n)%nat with (12 * n + 12)%nat by lia. apply seq_app. Qed.

Lemma filter_year n k : (k < n)%nat -> filter (fun i => Nat.eqb (i / 12) k) (seq 0 (12 * n)) = seq (12 * k) 12.
Proof.
  assert (O : forall j, (forall i, In i (seq (12 * j) 12) -> (i / 12 = j)%nat)).
  { intros j i Hi. apply in_seq in Hi. replace i with (12 * j + (i - 12 * j))%nat by lia. apply block_div. lia. }
  induction n as [|n IH]; intros Hk; [lia|]. rewrite seq_block, filter_app.
  destruct (Nat.eq_dec k n) as [->|N].
  - rewrite filter_none, filter_every.
    + reflexivity.
    + intros i Hi. apply Nat.eqb_eq, O, Hi.
    + intros i Hi. apply Nat.eqb_neq. apply in_seq in Hi. assert (i / 12 < n)%nat by (apply Nat.div_lt_upper_bound; lia). lia.
  - rewrite IH, (filter_none _ (seq (12 * n) 12)), app_nil_r by (lia || (intros i Hi; apply Nat.eqb_neq; rewrite (O n i Hi); lia)). reflexivity.
Qed.

Lemma seq_plus a n : seq a n = map (fun j => (a + j)%nat) (seq 0 n).
Proof.
  revert a. induction n as [|n IH]; intros a; [reflexivity|]. cbn [seq map]. f_equal; [lia|].
  rewrite (IH (S a)), <- seq_shift, map_map. apply map_ext. intros; lia.
Qed.

Lemma filter_one m : (m < 12)%nat -> filter (fun j => Nat.eqb j m) (seq 0 12) = [m].
Proof. intros H. do 12 (destruct m as [|m]; [reflexivity|]). lia. Qed.

Lemma filter_map_swap {A B} (f : A -> B) (p : B -> bool) l : filter p (map f l) = map f (filter (fun x => p (f x)) l).
Proof. induction l as [|x l IH]; [reflexivity|]. cbn [map filter]. destruct (p (f x)); cbn [map]; rewrite IH; reflexivity. Qed.

Lemma filter_month_block k m : (m < 12)%nat -> filter (fun i => Nat.eqb (i mod 12) m) (seq (12 * k) 12) = [(12 * k + m)%nat].
Proof.
  intros H. rewrite seq_plus, filter_map_swap.
  rewrite (filter_ext_in' _ (fun j => Nat.eqb j m)).
  - rewrite filter_one by exact H. reflexivity.
  - intros j Hj. apply in_seq in Hj. destruct (block_div k j ltac:(lia)) as [_ ->]. reflexivity.
Qed.

Lemma filter_month n m : (m < 12)%nat -> filter (fun i => Nat.eqb (i mod 12) m) (seq 0 (12 * n)) = map (fun k => (12 * k + m)%nat) (seq 0 n).
Proof.
  intros H. induction n as [|n IH]; [reflexivity|]. rewrite seq_block, filter_app, IH, filter_month_block by exact H.
  rewrite (seq_S n 0), map_app. reflexivity.
Qed.

(** A record of the twelve months of the years s .. s + n - 1, in order. *)
Definition monthly_record (ts : list date) (s : Z) (n : nat) : Prop :=
  List.length ts = (12 * n)%nat /\
  forall i, (i < 12 * n)%nat -> d_year (time_of ts i) = (s + Z.of_nat (i / 12))%Z /\ d_month (time_of ts i) = S (i mod 12).

Section Monthly.
  Variables (ts : list date) (s : Z) (n : nat).
  Hypothesis HT : monthly_record ts s n.
  Hypothesis Hn : (1 <= n)%nat.

  Lemma mr_nonempty : ts <> [].
  Proof. destruct HT as [L _]. intros E. rewrite E in L. cbn in L. lia. Qed.

  Lemma mr_years : years ts = map (fun k => (s + Z.of_nat k)%Z) (seq 0 n).
  Proof.
    destruct HT as [L H]. apply sorted_unique.
    - apply zgroups_sorted.
    - clear. generalize 0%nat. induction n as [|m IH]; intros a; cbn [seq map]; constructor; [apply IH|].
      apply Forall_forall. intros x Hx. apply in_map_iff in Hx. destruct Hx as (k & <- & Hk). apply in_seq in Hk. lia.
    - intros y. rewrite years_In, in_map_iff, L. split.
      + intros (i & Hi & <-). exists (i / 12)%nat. split; [symmetry; apply H, Hi|]. apply in_seq.
        split; [lia|]. apply Nat.div_lt_upper_bound; lia.
      + intros (k & <- & Hk). apply in_seq in Hk. exists (12 * k + 0)%nat. split; [lia|].
        rewrite (proj1 (H (12 * k + 0)%nat ltac:(lia))). destruct (block_div k 0 ltac:(lia)) as [-> _]. reflexivity.
  Qed.

  Lemma mr_of_year k : (k < n)%nat -> of_year ts (s + Z.of_nat k) = seq (12 * k) 12.
  Proof.
    intros Hk. destruct HT as [L H]. unfold of_year, positions. rewrite L, <- (filter_year n k Hk).
    apply filter_ext_in'. intros i Hi. apply in_seq in Hi. rewrite nth_date_time, (proj1 (H i ltac:(lia))).
    destruct (Nat.eqb_spec (i / 12) k) as [->|N]; [apply Z.eqb_refl|apply Z.eqb_neq; lia].
  Qed.

  Lemma mr_of_month m : (m < 12)%nat -> of_month ts (S m) (positions ts) = map (fun k => (12 * k + m)%nat) (seq 0 n).
  Proof.
    intros Hm. destruct HT as [L H]. unfold of_month, positions. rewrite L, <- (filter_month n m Hm).
    apply filter_ext_in'. intros i Hi. apply in_seq in Hi. rewrite nth_date_time, (proj2 (H i ltac:(lia))). reflexivity.
  Qed.

  Lemma mr_month_of_year k m : (k < n)%nat -> (m < 12)%nat -> of_month ts (S m) (of_year ts (s + Z.of_nat k)) = [(12 * k + m)%nat].
  Proof.
    intros Hk Hm. destruct HT as [L H]. rewrite mr_of_year by exact Hk. unfold of_month. rewrite <- (filter_month_block k m Hm).
    apply filter_ext_in'. intros i Hi. apply in_seq in Hi. rewrite nth_date_time, (proj2 (H i ltac:(lia))). reflexivity.
  Qed.

  Lemma mr_months ps : (exists k, (k < n)%nat /\ forall m, (m < 12)%nat -> In (12 * k + m)%nat ps) -> (forall i, In i ps -> (i < 12 * n)%nat) ->
    months ts ps = seq 1 12.
  Proof.
    intros (k & Hk & H1) H2. destruct HT as [L H]. apply months_full.
    - intros i Hi. rewrite (proj2 (H i (H2 i Hi))). pose proof (Nat.mod_upper_bound i 12 ltac:(lia)). lia.
    - intros m Hm. exists (12 * k + (m - 1))%nat. assert (I := H1 (m - 1)%nat ltac:(lia)). split; [exact I|].
      rewrite (proj2 (H _ (H2 _ I))). destruct (block_div k (m - 1) ltac:(lia)) as [_ ->]. lia.
  Qed.

  Lemma mr_months_all : months ts (positions ts) = seq 1 12.
  Proof.
    destruct HT as [L _]. apply mr_months.
    - exists 0%nat. split; [lia|]. intros m Hm. unfold positions. apply in_seq. lia.
    - intros i Hi. unfold positions in Hi. apply in_seq in Hi. lia.
  Qed.

  Lemma mr_months_year k : (k < n)%nat -> months ts (of_year ts (s + Z.of_nat k)) = seq 1 12.
  Proof.
    intros Hk. rewrite mr_of_year by exact Hk. apply mr_months.
    - exists k. split; [exact Hk|]. intros m Hm. apply in_seq. lia.
    - intros i Hi. apply in_seq in Hi. lia.
  Qed.

  Lemma mr_record k : (k < n)%nat -> year_record ts (s + Z.of_nat k) = map (fun m => [(12 * k + m)%nat]) (seq 0 12).
  Proof.
    intros Hk. unfold year_record. rewrite mr_months_year by exact Hk. rewrite <- seq_shift, map_map. apply map_ext_in.
    intros m Hm. apply in_seq in Hm. apply mr_month_of_year; [exact Hk|lia].
  Qed.

  Lemma mr_year_nth k : (k < n)%nat -> nth k (years ts) 0%Z = (s + Z.of_nat k)%Z.
  Proof.
    intros Hk. rewrite mr_years. rewrite (nth_indep _ 0%Z (s + Z.of_nat 0)%Z) by (rewrite map_length, seq_length; exact Hk).
    rewrite (map_nth (fun k => (s + Z.of_nat k)%Z)), seq_nth by exact Hk. reflexivity.
  Qed.

  Lemma mr_check : check_years ts = Ok tt.
  Proof.
    apply check_years_ok. intros y Hy. rewrite mr_years in Hy. apply in_map_iff in Hy. destruct Hy as (k & <- & Hk). apply in_seq in Hk.
    rewrite mr_of_year by lia. apply seq_length.
  Qed.

  Lemma mr_sum_year k f : (k < n)%nat -> Sum_if (List.length ts) (same_year ts (s + Z.of_nat k)) f = Rsum 12 (fun m => f (12 * k + m)%nat).
  Proof.
    intros Hk. destruct HT as [L H]. rewrite L. unfold Sum_if. rewrite Rsum_block.
    assert (Y : forall j m, (j < n)%nat -> (m < 12)%nat -> same_year ts (s + Z.of_nat k) (12 * j + m) = Nat.eqb j k).
    { intros j m Hj Hm. unfold same_year. rewrite (proj1 (H (12 * j + m)%nat ltac:(lia))). destruct (block_div j m Hm) as [-> _].
      destruct (Nat.eqb_spec j k) as [->|N]; [apply Z.eqb_refl|apply Z.eqb_neq; lia]. }
    rewrite (Rsum_pick n k).
    - apply Rsum_ext. intros m Hm. rewrite Y by assumption. rewrite Nat.eqb_refl. reflexivity.
    - exact Hk.
    - intros j Hj N. apply Rsum_zero. intros m Hm. rewrite Y by assumption. apply Nat.eqb_neq in N. rewrite N. reflexivity.
  Qed.

  Lemma mr_sum_month m f : (m < 12)%nat -> Sum_if (List.length ts) (same_month ts (S m)) f = Rsum n (fun k => f (12 * k + m)%nat).
  Proof.
    intros Hm. destruct HT as [L H]. rewrite L. unfold Sum_if. rewrite Rsum_block. apply Rsum_ext. intros k Hk.
    assert (Y : forall j, (j < 12)%nat -> same_month ts (S m) (12 * k + j) = Nat.eqb j m).
    { intros j Hj. unfold same_month. rewrite (proj2 (H (12 * k + j)%nat ltac:(lia))). destruct (block_div k j Hj) as [_ ->]. reflexivity. }
    rewrite (Rsum_pick 12 m).
    - rewrite Y, Nat.eqb_refl by exact Hm. reflexivity.
    - exact Hm.
    - intros j Hj N. rewrite Y by exact Hj. apply Nat.eqb_neq in N. rewrite N. reflexivity.
  Qed.
End Monthly.

Lemma days_of_year c y : regular c y -> Rsum 12 (fun m => IZR (days_in_month c y (S m))) = IZR (year_start c (y + 1) - year_start c y).
Proof.
  intros R. rewrite (year_start_step c y R). replace (year_start c y + month_start c y 13 - year_start c y)%Z with (month_start c y 13) by lia.
  unfold month_start. cbn [seq Nat.sub map fold_right Rsum]. rewrite !plus_IZR. lra.
Qed.

Lemma flat_blocks {A} (g : nat -> nat -> A) n :
  flat_map (fun k => map (g k) (seq 0 12)) (seq 0 n) = map (fun i => g (i / 12)%nat (i mod 12)%nat) (seq 0 (12 * n)).
Proof.
  induction n as [|n IH]; [reflexivity|]. rewrite (seq_S n 0), flat_map_app, IH, seq_block, map_app. f_equal.
  cbn [flat_map]. rewrite app_nil_r, Nat.add_0_l, (seq_plus (12 * n) 12), map_map. apply map_ext_in. intros m Hm. apply in_seq in Hm.
  destruct (block_div n m ltac:(lia)) as [-> ->]. reflexivity.
Qed.
