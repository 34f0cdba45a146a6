(** * ProofsSpice: lemmas for C08 (proofs only) *)
From Coq Require Import Reals Lra Lia List String Bool Arith.
From Verif Require Import Num NumFacts Py Arr ArrFacts Eos Spice SpecSpice Derived ProofsEos ProofsFields.
Import ListNotations.
Local Open Scope R_scope.

Lemma fpow_Fin x n : fpow (Fin x) n = Fin (x ^ n).
Proof.
  induction n as [|n IH]; [reflexivity|]. destruct n as [|n].
  - simpl. f_equal. ring.
  - change (fpow (Fin x) (S (S n))) with (fmul (Fin x) (fpow (Fin x) (S n))). rewrite IH. reflexivity.
Qed.
Lemma fpow_NaN n : fpow NaN (S n) = NaN.
Proof. destruct n; reflexivity. Qed.

Lemma spice_point_Fin T S : spice_point (Fin T) (Fin S) = Fin (flament_pi T S).
Proof.
  unfold spice_point. cbn [fsub fadd fopp].
  rewrite (fsum_ext 6 _ (fun i => Fin (Rsum 5 (fun j => (S - 35)^j * T^i * B_IJ i j)))).
  - rewrite fsum_Fin. f_equal. unfold flament_pi. cbn [Rsum].
    unfold B_IJ, B_flat. cbn [nth Nat.mul Nat.add]. dring.
  - intros i _. rewrite <- fsum_Fin. apply fsum_ext. intros j _.
    change (S + - (35)) with (S - 35). rewrite !fpow_Fin. reflexivity.
Qed.

Lemma fsum_NaN n f k : (k < n)%nat -> f k = NaN -> fsum n f = NaN.
Proof.
  induction n as [|n IH]; intros Hk Hf; [lia|]. simpl.
  destruct (Nat.eq_dec k n) as [->|Hne]; [rewrite Hf; apply fadd_NaN_r|].
  rewrite IH by (auto; lia). reflexivity.
Qed.
Lemma spice_point_nan T S : T = NaN \/ S = NaN -> spice_point T S = NaN.
Proof.
  intros [-> | ->]; unfold spice_point; apply (fsum_NaN 6 _ 1); try lia; apply (fsum_NaN 5 _ 1); try lia.
  - cbn [fpow]. autorewrite with nan. reflexivity.
  - cbn [fpow]. autorewrite with nan. reflexivity.
Qed.

Lemma combine_powers ts ss :
  map (fun '(tr, sr) => fsum 6 (fun i => fsum 5 (fun j =>
          fmul (fmul (nth j sr NaN) (nth i tr NaN)) (Fin (B_IJ i j)))))
      (combine (map (fun v => map (fpow v) (seq 0 6)) ts)
               (map (fun v => map (fpow (fsub v (Fin 35))) (seq 0 5)) ss))
  = map (fun '(t, s) => spice_point t s) (combine ts ss).
Proof.
  revert ss. induction ts as [|t ts IH]; intros [|s ss]; [reflexivity..|].
  cbn [map combine]. rewrite IH. reflexivity.
Qed.

Lemma nth_error_combine {A B} (l : list A) (m : list B) k a b :
  nth_error l k = Some a -> nth_error m k = Some b -> nth_error (combine l m) k = Some (a, b).
Proof.
  revert m k. induction l as [|x l IH]; intros [|y m] [|k]; simpl; try discriminate.
  - intros [=] [=]; subst; reflexivity.
  - apply IH.
Qed.

Lemma flat_pos_lt s idx : Forall2 lt idx s -> (flat_pos s idx < prod_shape s)%nat.
Proof.
  revert idx. induction s as [|n s IH]; intros idx H; inversion H as [|i n' idx' s' Hi Hr]; subst; [simpl; lia|].
  simpl. specialize (IH _ Hr). unfold prod_shape in *. simpl. nia.
Qed.
Lemma np_get_some a idx : wf_np a -> Forall2 lt idx (shape a) -> exists v, np_get a idx = Some v.
Proof.
  intros Hw Hi. unfold np_get. destruct (nth_error (data a) (flat_pos (shape a) idx)) eqn:E; [eauto|].
  apply nth_error_None in E. rewrite Hw in E. apply flat_pos_lt in Hi. lia.
Qed.

Lemma spice_elementwise t s : wf_np t -> wf_np s -> shape t = shape s ->
  exists r, spice (NpArray t) (NpArray s) = Ok r /\ shape r = shape t /\ wf_np r /\
    forall idx, Forall2 lt idx (shape t) ->
      exists u v, np_get t idx = Some u /\ np_get s idx = Some v /\ np_get r idx = Some (spice_point u v).
Proof.
  intros Ht Hs Hsh. unfold spice. simpl to_np.
  destruct (list_eq_dec Nat.eq_dec (shape t) (shape s)) as [_|Hc]; [|contradiction].
  rewrite combine_powers. eexists. split; [reflexivity|]. split; [reflexivity|]. split.
  - unfold wf_np in *. simpl. rewrite map_length, combine_length, Ht, Hs, Hsh. lia.
  - intros idx Hi. destruct (np_get_some t idx Ht Hi) as [u Hu].
    assert (Hi' := Hi). rewrite Hsh in Hi'. destruct (np_get_some s idx Hs Hi') as [v Hv].
    exists u, v. split; [exact Hu|]. split; [exact Hv|]. unfold np_get in *. simpl. rewrite <- Hsh in Hv.
    rewrite nth_error_map, (nth_error_combine _ _ _ _ _ Hu Hv). reflexivity.
Qed.

Lemma spice_shape_mismatch t s : shape t <> shape s ->
  spice (NpArray t) (NpArray s) = Err AssertionError.
Proof.
  intros H. unfold spice. simpl to_np. destruct (list_eq_dec Nat.eq_dec (shape t) (shape s)); [contradiction|reflexivity].
Qed.

Lemma spice_scalars t s : spice (NpScalar t) (NpScalar s) = Ok (mkNp [1%nat] [spice_point t s]).
Proof.
  unfold spice. simpl to_np. cbn [shape data].
  destruct (list_eq_dec Nat.eq_dec [1%nat] [1%nat]); [|congruence].
  rewrite combine_powers. reflexivity.
Qed.

(** calc_spice on labelled arrays *)
Lemma calc_spice_same_dims t s : NoDup (names t) -> NoDup (names s) ->
  (forall d n, In (d, n) (adims t) <-> In (d, n) (adims s)) ->
  exists r, calc_spice t s = Ok r /\ adims r = adims t /\ forall e, at_ r e = spice_point (at_ t e) (at_ s e).
Proof.
  intros Ht Hs H. unfold calc_spice.
  assert (Hag : dims_agree (adims t) (adims s)).
  { intros d n n' H1 H2. apply H in H1. apply In_dget in H1, H2; auto. congruence. }
  assert (E : compatible (adims t) (adims s) = true) by (apply compatible_agree; assumption).
  rewrite E. cbn [negb].
  assert (Hu : union_dims (adims t) (adims s) = adims t).
  { unfold union_dims. replace (filter _ (adims s)) with (@nil (string * nat)); [apply app_nil_r|].
    symmetry. assert (G : forall l, (forall p, In p l -> In (fst p) (map fst (adims t))) ->
       filter (fun p : string * nat => negb (dmem (fst p) (adims t))) l = []).
    { induction l as [|p l IH]; intros Hl; simpl; [reflexivity|].
      assert (Em : dmem (fst p) (adims t) = true) by (apply dmem_true; apply Hl; left; reflexivity).
      rewrite Em. simpl. apply IH. intros q Hq. apply Hl. right; exact Hq. }
    apply G. intros [d n] Hp. apply H in Hp. apply (in_map fst) in Hp. exact Hp. }
  rewrite Hu. rewrite !compat_shape_full.
  - rewrite list_nat_eqb_refl. cbn [assert_ bind]. unfold amap2. rewrite E, Hu.
    eexists. split; [reflexivity|]. split; reflexivity.
  - intros d Hd. apply in_map_iff in Hd as ([d' n] & Hd & Hin). simpl in Hd; subst.
    apply H in Hin. apply (in_map fst) in Hin. exact Hin.
  - auto.
Qed.

Lemma compat_shape_started u own :
  compat_shape u own true = map (fun p => if dmem (fst p) own then snd p else 1%nat) u.
Proof.
  induction u as [|[d n] u IH]; simpl; [reflexivity|]. destruct (dmem d own); rewrite IH; reflexivity.
Qed.

(** A dimension of size other than one that only one of the two arrays has. *)
Lemma compat_shape_differ u o1 o2 d n b : (forall p, In p u -> In (fst p) (map fst o1)) ->
  In (d, n) u -> ~ In d (map fst o2) -> n <> 1%nat ->
  compat_shape u o1 b <> compat_shape u o2 b.
Proof.
  intros Hall Hin Hno Hn. rewrite compat_shape_full.
  2:{ intros x Hx. apply in_map_iff in Hx as (p & <- & Hp). apply Hall; exact Hp. }
  revert b. induction u as [|[x m] u IH]; [contradiction|]. intros b E.
  assert (Hlen : forall v st, (List.length (compat_shape v o2 st) <= List.length v)%nat).
  { induction v as [|[y q] v IHv]; intros st; simpl; [lia|].
    destruct (dmem y o2); [simpl; specialize (IHv true); lia|].
    destruct st; simpl; [specialize (IHv true); lia|specialize (IHv false); lia]. }
  simpl in E. destruct (dmem x o2) eqn:Ex.
  - injection E as E. destruct Hin as [Hin|Hin].
    + injection Hin as -> ->. apply dmem_true in Ex. contradiction.
    + apply (IH (fun p Hp => Hall p (or_intror Hp)) Hin true E).
  - destruct b.
    + injection E as E1 E2. destruct Hin as [Hin|Hin].
      * injection Hin as -> ->. contradiction.
      * apply (IH (fun p Hp => Hall p (or_intror Hp)) Hin true E2).
    + assert (L := f_equal (@List.length nat) E). simpl in L. rewrite map_length in L.
      specialize (Hlen u false). lia.
Qed.

Lemma calc_spice_missing_dim t s d n : NoDup (names t) -> NoDup (names s) ->
  dims_agree (adims t) (adims s) ->
  (forall x, In x (names s) -> In x (names t)) ->
  In (d, n) (adims t) -> ~ In d (names s) -> n <> 1%nat ->
  calc_spice t s = Err AssertionError.
Proof.
  intros Ht Hs Hag Hsub Hin Hno Hn. unfold calc_spice.
  assert (E : compatible (adims t) (adims s) = true) by (apply compatible_agree; assumption).
  rewrite E. cbn [negb].
  set (u := union_dims (adims t) (adims s)).
  assert (D : compat_shape u (adims t) false <> compat_shape u (adims s) false).
  { apply (compat_shape_differ u (adims t) (adims s) d n); auto.
    - intros p Hp. apply union_In in Hp as [Hp|Hp]; [apply in_map; exact Hp|].
      apply Hsub. apply (in_map fst) in Hp. exact Hp.
    - apply union_In_l. exact Hin. }
  unfold list_nat_eqb. destruct (list_eq_dec _ _ _); [contradiction|reflexivity].
Qed.
