(** * ProofsUtil *)
From Coq Require Import Reals Lra Lia List String Ascii Bool Arith NArith Permutation Sorted.
From Verif Require Import Num NumFacts Py Arr ArrFacts Util SpecUtil.
Import ListNotations.
Local Open Scope string_scope.

(** ** Sorting *)
Lemma ascii_compare_lt a b : Ascii.compare a b = Lt <-> (nat_of_ascii a < nat_of_ascii b)%nat.
Proof.
  unfold Ascii.compare. rewrite N.compare_lt_iff. unfold nat_of_ascii. lia.
Qed.
Lemma ascii_compare_refl a : Ascii.compare a a = Eq.
Proof. unfold Ascii.compare. apply N.compare_refl. Qed.
Lemma lex_compare a b : lex a b <-> String.compare a b = Lt.
Proof.
  split.
  - induction 1; cbn [String.compare].
    + reflexivity.
    + apply ascii_compare_lt in H. rewrite H. reflexivity.
    + rewrite ascii_compare_refl. exact IHlex.
  - revert b. induction a as [|c s IH]; intros [|c' s']; cbn [String.compare]; try discriminate.
    + intros _. constructor.
    + destruct (Ascii.compare c c') eqn:E.
      * apply Ascii.compare_eq_iff in E. subst c'. intros H. apply lex_tail. apply IH. exact H.
      * intros _. apply lex_head. apply ascii_compare_lt. exact E.
      * discriminate.
Qed.
Lemma leb_lex a b : String.leb a b = true <-> a = b \/ lex a b.
Proof.
  unfold String.leb. rewrite lex_compare. destruct (String.compare a b) eqn:E.
  - apply String.compare_eq_iff in E. split; auto.
  - split; auto.
  - split; [discriminate|]. intros [-> | H]; [|discriminate].
    exfalso. clear -E. induction b as [|c s IH]; cbn [String.compare] in E; [discriminate|].
    rewrite ascii_compare_refl in E. auto.
Qed.
Lemma lex_trans a b c : lex a b -> lex b c -> lex a c.
Proof.
  intros H. revert c. induction H; intros c' H'; inversion H'; subst.
  - constructor.
  - constructor.
  - apply lex_head. lia.
  - apply lex_head. assumption.
  - apply lex_head. assumption.
  - apply lex_tail. auto.
Qed.
Lemma leb_false_lex a b : String.leb a b = false -> lex b a.
Proof.
  intros H. destruct (String.leb_total a b) as [E|E]; [congruence|].
  apply leb_lex in E. destruct E as [<- | E]; [|exact E].
  rewrite (proj2 (leb_lex b b)) in H; [discriminate|auto].
Qed.
Lemma sinsert_perm x l : Permutation (sinsert x l) (x :: l).
Proof.
  induction l as [|y l IH]; cbn [sinsert]; [reflexivity|].
  destruct (String.leb x y); [reflexivity|]. rewrite IH. constructor.
Qed.
Lemma sorted_perm l : Permutation (sorted l) l.
Proof.
  induction l as [|y l IH]; [reflexivity|]. cbn [sorted fold_right]. rewrite sinsert_perm.
  constructor. exact IH.
Qed.
Lemma sinsert_sorted x l : StronglySorted lex l -> ~ In x l -> StronglySorted lex (sinsert x l).
Proof.
  induction 1 as [|y l S IH F]; intros N; cbn [sinsert].
  - repeat constructor.
  - destruct (String.leb x y) eqn:E.
    + apply leb_lex in E. destruct E as [-> | E]; [exfalso; apply N; left; reflexivity|].
      constructor; [constructor; assumption|]. constructor; [exact E|].
      eapply Forall_impl; [|exact F]. intros z. apply lex_trans. exact E.
    + apply leb_false_lex in E. constructor; [apply IH; intros I; apply N; right; exact I|].
      rewrite (sinsert_perm x l). constructor; assumption.
Qed.
Lemma sorted_sorted l : NoDup l -> StronglySorted lex (sorted l).
Proof.
  induction 1 as [|y l N D IH]; [constructor|]. cbn [sorted fold_right]. apply sinsert_sorted; [exact IH|].
  intros I. apply N. eapply Permutation_in; [apply sorted_perm|exact I].
Qed.
Lemma sorted_id l : StronglySorted lex l -> sorted l = l.
Proof.
  induction 1 as [|y l S IH F]; [reflexivity|]. cbn [sorted fold_right].
  fold (sorted l). rewrite IH. destruct l as [|z l]; [reflexivity|]. cbn [sinsert].
  rewrite (proj2 (leb_lex y z)); [reflexivity|]. right. inversion F; assumption.
Qed.

Section Pick.
  Context {A : Type}.
  Definition pick (ds : dict A) (k : string) : dict A :=
    match dget k ds with Some v => [(k, v)] | None => [] end.
  Lemma pick_self (ds : dict A) : NoDup (dkeys ds) -> flat_map (pick ds) (dkeys ds) = ds.
  Proof.
    intros N. assert (H : forall l, (forall p, In p l -> In p ds) -> flat_map (pick ds) (map fst l) = l).
    { induction l as [|[k v] l IH]; intros I; [reflexivity|]. cbn [map fst flat_map].
      unfold pick at 1. rewrite (In_dget k ds v) by (auto with datatypes). cbn [app]. f_equal.
      apply IH. intros p Hp. apply I. right. exact Hp. }
    apply H. auto.
  Qed.
  Lemma alphabetize_perm (ds : dict A) : NoDup (dkeys ds) -> Permutation (alphabetize_dataset ds) ds.
  Proof.
    intros N. change (alphabetize_dataset ds) with (flat_map (pick ds) (sorted (dkeys ds))).
    etransitivity; [apply Permutation_flat_map; apply sorted_perm|]. rewrite pick_self by exact N. reflexivity.
  Qed.
  Lemma alphabetize_keys (ds : dict A) : dkeys (alphabetize_dataset ds) = sorted (dkeys ds).
  Proof.
    change (alphabetize_dataset ds) with (flat_map (pick ds) (sorted (dkeys ds))).
    assert (H : forall l, (forall k, In k l -> In k (dkeys ds)) -> dkeys (flat_map (pick ds) l) = l).
    { induction l as [|k l IH]; intros I; [reflexivity|]. cbn [flat_map]. unfold dkeys. rewrite map_app.
      fold (dkeys (flat_map (pick ds) l)). rewrite IH by (auto with datatypes). unfold pick.
      destruct (dget k ds) eqn:E; [reflexivity|]. apply dget_None in E. exfalso. apply E. apply I. left. reflexivity. }
    apply H. intros k. apply Permutation_in. apply sorted_perm.
  Qed.
  Lemma alphabetize_sorted (ds : dict A) : NoDup (dkeys ds) -> StronglySorted lex (dkeys (alphabetize_dataset ds)).
  Proof. intros N. rewrite alphabetize_keys. apply sorted_sorted. exact N. Qed.
  Lemma alphabetize_idem (ds : dict A) : NoDup (dkeys ds) ->
    alphabetize_dataset (alphabetize_dataset ds) = alphabetize_dataset ds.
  Proof.
    intros N. pose proof (alphabetize_sorted ds N) as S.
    set (d' := alphabetize_dataset ds) in *. change (alphabetize_dataset d') with (flat_map (pick d') (sorted (dkeys d'))). rewrite (sorted_id _ S). apply pick_self.
    eapply Permutation_NoDup; [apply Permutation_sym, Permutation_map, alphabetize_perm, N|exact N].
  Qed.
End Pick.

(** ** Encodings *)
Lemma pops_without {A} ks : forall d : dict A, fold_left (fun d k => dpop k d) ks d = without ks d.
Proof.
  induction ks as [|k ks IH]; intros d; cbn [fold_left].
  - unfold without. symmetry. induction d as [|p d IH]; [reflexivity|]. cbn. f_equal. exact IH.
  - rewrite IH. unfold without, dpop. induction d as [|p d IHd]; [reflexivity|]. cbn [filter].
    destruct (String.eqb k (fst p)) eqn:E; cbn [negb].
    + apply String.eqb_eq in E. destruct (in_dec string_dec (fst p) (k :: ks)) as [I|I].
      * exact IHd.
      * exfalso. apply I. left. exact E.
    + apply String.eqb_neq in E. cbn [filter].
      destruct (in_dec string_dec (fst p) ks) as [I|I]; destruct (in_dec string_dec (fst p) (k :: ks)) as [J|J].
      * exact IHd.
      * exfalso. apply J. right. exact I.
      * exfalso. destruct J as [J|J]; auto.
      * f_equal. exact IHd.
Qed.
Lemma reset_dataset {A} ks : forall enc (vars : dict (dict string * A)),
  fold_left
    (fun x k => match x with
                | XDataset enc vars =>
                    XDataset (dpop k enc) (map (fun v => (fst v, (dpop k (fst (snd v)), snd (snd v)))) vars)
                | x => x
                end) ks (XDataset enc vars)
  = XDataset (without ks enc) (map (fun v => (fst v, (without ks (fst (snd v)), snd (snd v)))) vars).
Proof.
  induction ks as [|k ks IH]; intros enc vars; cbn [fold_left].
  - rewrite <- pops_without. cbn [fold_left]. f_equal. induction vars as [|[n [e a]] vars IH]; [reflexivity|].
    cbn [map fst snd]. rewrite <- pops_without. cbn [fold_left]. f_equal. exact IH.
  - rewrite IH. rewrite <- !pops_without. cbn [fold_left]. f_equal. rewrite map_map. apply map_ext.
    intros [n [e a]]. cbn [fst snd]. rewrite <- !pops_without. reflexivity.
Qed.
Lemma without_In {A} ks (d : dict A) p : In p (without ks d) <-> In p d /\ ~ In (fst p) ks.
Proof. unfold without. rewrite filter_In. destruct (in_dec string_dec (fst p) ks); split; intros [? ?]; split; auto; try discriminate; try contradiction. Qed.
Lemma without_idem {A} ks (d : dict A) : without ks (without ks d) = without ks d.
Proof.
  unfold without. induction d as [|p d IH]; [reflexivity|]. cbn [filter].
  destruct (in_dec string_dec (fst p) ks) as [I|I] eqn:E; [exact IH|]. cbn [filter]. rewrite E. f_equal. exact IH.
Qed.

Lemma Ok_inj {A} (x y : A) : Ok x = Ok y -> x = y.
Proof. intros [=]; assumption. Qed.

(** ** Areas *)
Section Area.
  Local Open Scope R_scope.
  Variables (lat lon : arr) (dlat dlon : string) (n m : nat) (a w b v r : R).
  Hypothesis Hlat : axis lat dlat n a w.
  Hypothesis Hlon : axis lon dlon m b v.
  Hypothesis Hn : (2 <= n)%nat.
  Hypothesis Hm : (2 <= m)%nat.

  Definition rad (x : R) : R := x * (PI / 180).
  Definition edge (k : nat) : R := a + INR k * w.
  Definition cell (e : index) : R :=
    PI / 180 * r * r * Rabs (sin (rad (edge (e dlat))) - sin (rad (edge (S (e dlat))))) * Rabs v.

  Lemma area_inv area : standard_grid_cell_area lat lon (Fin r) = Ok area ->
    adims area = [(dlat, n); (dlon, m)] /\ forall e, at_ area e = Fin (cell e).
  Proof.
    destruct Hlat as [Dl Vl], Hlon as [Do Vo]. unfold standard_grid_cell_area, vget. rewrite Dl, Do.
    assert (L1 : Nat.ltb 1 n = true) by (apply Nat.ltb_lt; lia).
    assert (L0 : Nat.ltb 0 n = true) by (apply Nat.ltb_lt; lia).
    assert (M1 : Nat.ltb 1 m = true) by (apply Nat.ltb_lt; lia).
    assert (M0 : Nat.ltb 0 m = true) by (apply Nat.ltb_lt; lia).
    rewrite L1, L0, M1, M0. cbn [bind]. rewrite !Vl, !Vo, !upd_same. intros H. apply Ok_inj in H. subst area.
    cbn [adims at_]. split; [reflexivity|]. intros e. rewrite Vl, Vo.
    repeat first [rewrite fsub_Fin|rewrite fadd_Fin|rewrite fmul_Fin|rewrite fabs_Fin|rewrite fdiv_Fin by lra|progress cbn [fsin]].
    f_equal. unfold cell, rad, edge, centres. rewrite (S_INR (e dlat)). change (INR 1) with 1. change (INR 0) with 0.
    match goal with |- _ * Rabs (sin ?X - sin ?Y) * Rabs ?Z = _ * Rabs (sin ?X' - sin ?Y') * Rabs ?Z' =>
      replace X with X' by field; replace Y with Y' by field; replace Z with (- Z') by field end.
    rewrite Rabs_Ropp. reflexivity.
  Qed.
  Lemma area_ok : exists area, standard_grid_cell_area lat lon (Fin r) = Ok area.
  Proof.
    destruct Hlat as [Dl Vl], Hlon as [Do Vo]. unfold standard_grid_cell_area, vget. rewrite Dl, Do.
    assert (L1 : Nat.ltb 1 n = true) by (apply Nat.ltb_lt; lia).
    assert (L0 : Nat.ltb 0 n = true) by (apply Nat.ltb_lt; lia).
    assert (M1 : Nat.ltb 1 m = true) by (apply Nat.ltb_lt; lia).
    assert (M0 : Nat.ltb 0 m = true) by (apply Nat.ltb_lt; lia).
    rewrite L1, L0, M1, M0. cbn [bind]. eexists. reflexivity.
  Qed.
  Lemma cell_nonneg e : 0 <= cell e.
  Proof.
    unfold cell. pose proof PI_RGT_0. pose proof (Rabs_pos v).
    pose proof (Rabs_pos (sin (rad (edge (e dlat))) - sin (rad (edge (S (e dlat)))))).
    assert (0 <= r * r) by nra. replace (PI / 180 * r * r) with (PI / 180 * (r * r)) by ring.
    apply Rmult_le_pos; [|assumption]. apply Rmult_le_pos; [|assumption]. apply Rmult_le_pos; [lra|assumption].
  Qed.

  (** the band stays between the poles *)
  Hypothesis Hlo : -90 <= a <= 90.
  Hypothesis Hhi : -90 <= a + INR n * w <= 90.

  Lemma edge_range k : (k <= n)%nat -> -90 <= edge k <= 90.
  Proof.
    intros H. unfold edge. apply le_INR in H. pose proof (pos_INR k).
    assert (0 < INR n) by (apply lt_0_INR; lia).
    destruct (Rle_dec 0 w) as [P|P].
    - assert (0 <= INR k * w <= INR n * w) by (split; nra). lra.
    - assert (INR n * w <= INR k * w <= 0) by (split; nra). lra.
  Qed.
  Lemma sin_rad_le x y : -90 <= x -> x <= y -> y <= 90 -> sin (rad x) <= sin (rad y).
  Proof.
    intros. pose proof PI_RGT_0. unfold rad. destruct (Req_dec x y) as [-> | N]; [lra|].
    apply Rlt_le, sin_increasing_1; nra.
  Qed.
  Definition sgn : R := if Rle_dec 0 w then 1 else -1.
  Lemma step_abs k : (k < n)%nat ->
    Rabs (sin (rad (edge k)) - sin (rad (edge (S k)))) = sgn * (sin (rad (edge (S k))) - sin (rad (edge k))).
  Proof.
    intros H. pose proof (edge_range k ltac:(lia)). pose proof (edge_range (S k) ltac:(lia)).
    assert (E : edge (S k) = edge k + w) by (unfold edge; rewrite S_INR; ring).
    unfold sgn. destruct (Rle_dec 0 w) as [P|P].
    - assert (sin (rad (edge k)) <= sin (rad (edge (S k)))) by (apply sin_rad_le; lra).
      rewrite Rabs_left1; lra.
    - assert (sin (rad (edge (S k))) <= sin (rad (edge k))) by (apply sin_rad_le; lra).
      rewrite Rabs_right; lra.
  Qed.
  Hypothesis Hd : dlat <> dlon.
  Lemma area_total area : standard_grid_cell_area lat lon (Fin r) = Ok area ->
    forall e, at_ (asum_all area) e =
      Fin (PI / 180 * (r * r) * Rabs (sin (rad a) - sin (rad (a + INR n * w))) * (INR m * Rabs v)).
  Proof.
    intros H e. destruct (area_inv area H) as [D V].
    assert (N : NoDup (names area)).
    { unfold names. rewrite D. cbn [map fst]. repeat constructor; cbn; [|tauto]. intros [E|[]]. congruence. }
    assert (I : no_inf area) by (intros e' s; rewrite V; discriminate).
    rewrite (asum_all_Fin area e N I). f_equal. rewrite D. cbn [Rsum_box].
    transitivity (Rsum n (fun k => PI / 180 * r * r * Rabs v * INR m * sgn * (sin (rad (edge (S k))) - sin (rad (edge k))))).
    - apply Rsum_ext. intros k Hk. rewrite (Rsum_ext m _ (fun _ => PI / 180 * r * r * Rabs v * sgn * (sin (rad (edge (S k))) - sin (rad (edge k))))).
      + rewrite Rsum_const. ring.
      + intros j Hj. rewrite V. cbn [val]. unfold cell. rewrite (upd_other _ dlon) by congruence. rewrite upd_same.
        rewrite step_abs by exact Hk. ring.
    - rewrite Rsum_scal, (Rsum_telescope n (fun k => sin (rad (edge k)))).
      assert (E0 : edge 0 = a) by (unfold edge; cbn [INR]; ring). rewrite E0. fold (edge n).
      assert (A : Rabs (sin (rad a) - sin (rad (edge n))) = sgn * (sin (rad (edge n)) - sin (rad a))).
      { pose proof (edge_range n ltac:(lia)). assert (0 < INR n) by (apply lt_0_INR; lia).
        unfold sgn. destruct (Rle_dec 0 w) as [P|P].
        - assert (sin (rad a) <= sin (rad (edge n))) by (apply sin_rad_le; unfold edge in *; nra).
          rewrite Rabs_left1; lra.
        - assert (sin (rad (edge n)) <= sin (rad a)) by (apply sin_rad_le; unfold edge in *; nra).
          rewrite Rabs_right; lra. }
      rewrite A. ring.
  Qed.
End Area.

(** ** Tiling *)
Lemma tile_inv x y dx nx dy ny g : adims x = [(dx, nx)] -> adims y = [(dy, ny)] -> dx <> dy ->
  tile_nominal_coords dx x dy y = Ok g ->
  adims (fst g) = [(dy, ny); (dx, nx)] /\ adims (snd g) = [(dy, ny); (dx, nx)] /\
  forall e, at_ (fst g) e = at_ x (upd (fun _ => O) dx (e dx)) /\ at_ (snd g) e = at_ y (upd (fun _ => O) dy (e dy)).
Proof.
  intros X Y N. unfold tile_nominal_coords. rewrite X, Y.
  assert (E : String.eqb dx dy = false) by (apply String.eqb_neq; exact N). rewrite E, !String.eqb_refl.
  cbn [andb]. intros H. injection H as <-. cbn. auto.
Qed.
