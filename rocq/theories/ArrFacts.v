(** * ArrFacts: lemmas about labelled arrays (proofs only) *)
From Coq Require Import Reals Lra Lia List String Bool Arith FunctionalExtensionality.
From Verif Require Import Num NumFacts Py Arr.
Import ListNotations.

Lemma upd_same e d k : upd e d k d = k.
Proof. unfold upd; now rewrite String.eqb_refl. Qed.
Lemma upd_other e d k d' : d <> d' -> upd e d k d' = e d'.
Proof. intros H; unfold upd. apply String.eqb_neq in H; now rewrite H. Qed.
Lemma upd_id e d : upd e d (e d) = e.
Proof.
  apply functional_extensionality; intros d'. unfold upd.
  destruct (String.eqb d d') eqn:E; [apply String.eqb_eq in E; now subst|reflexivity].
Qed.
Lemma upd_upd e d k k' : upd (upd e d k) d k' = upd e d k'.
Proof. apply functional_extensionality; intros d'. unfold upd. destruct (String.eqb d d'); reflexivity. Qed.
Lemma upd_comm e d d' k k' : d <> d' -> upd (upd e d k) d' k' = upd (upd e d' k') d k.
Proof.
  intros H. apply functional_extensionality; intros x. unfold upd.
  destruct (String.eqb d x) eqn:E1, (String.eqb d' x) eqn:E2; try reflexivity.
  apply String.eqb_eq in E1, E2. congruence.
Qed.

(** ** Dictionaries *)
Lemma dget_In {A} k (d : dict A) v : dget k d = Some v -> In (k, v) d.
Proof.
  induction d as [|[k' v'] d IH]; simpl; [discriminate|].
  destruct (String.eqb k k') eqn:E; [|right; auto].
  apply String.eqb_eq in E; intros [=]; subst; left; reflexivity.
Qed.
Lemma In_dget {A} k (d : dict A) v : NoDup (map fst d) -> In (k, v) d -> dget k d = Some v.
Proof.
  induction d as [|[k' v'] d IH]; simpl; [tauto|]. intros Hn [H|H].
  - injection H as -> ->. rewrite String.eqb_refl. reflexivity.
  - inversion Hn as [|? ? Hk Hn']; subst. destruct (String.eqb k k') eqn:E.
    + apply String.eqb_eq in E; subst. exfalso; apply Hk. apply (in_map fst) in H. exact H.
    + apply IH; assumption.
Qed.
Lemma dmem_true {A} k (d : dict A) : dmem k d = true <-> In k (map fst d).
Proof.
  unfold dmem. induction d as [|[k' v] d IH]; simpl; [split; [discriminate|tauto]|].
  destruct (String.eqb k k') eqn:E.
  - apply String.eqb_eq in E; subst. tauto.
  - apply String.eqb_neq in E. rewrite IH. split; [tauto|]. intros [H|H]; [congruence|exact H].
Qed.
Lemma dmem_false {A} k (d : dict A) : dmem k d = false <-> ~ In k (map fst d).
Proof. rewrite <- dmem_true. destruct (dmem k d); split; congruence. Qed.
Lemma dget_None {A} k (d : dict A) : dget k d = None <-> ~ In k (map fst d).
Proof.
  rewrite <- dmem_false. unfold dmem. destruct (dget k d); split; congruence.
Qed.
Lemma dget_Some_mem {A} k (d : dict A) v : dget k d = Some v -> In k (map fst d).
Proof. intros H. apply dget_In in H. apply (in_map fst) in H. exact H. Qed.

(** ** Dimensions *)
Definition dims_agree (d1 d2 : list (string * nat)) : Prop :=
  forall d n n', In (d, n) d1 -> In (d, n') d2 -> n = n'.

Lemma compatible_agree d1 d2 : NoDup (map fst d1) ->
  compatible d1 d2 = true <-> dims_agree d1 d2.
Proof.
  intros Hn. unfold compatible, dims_agree. rewrite forallb_forall. split.
  - intros H d n n' H1 H2. specialize (H _ H2). simpl in H.
    rewrite (In_dget _ _ _ Hn H1) in H. apply Nat.eqb_eq in H. exact H.
  - intros H [d n'] H2. simpl. destruct (dget d d1) as [n|] eqn:E; [|reflexivity].
    apply dget_In in E. apply Nat.eqb_eq. exact (H _ _ _ E H2).
Qed.

Lemma union_names d1 d2 d :
  In d (map fst (union_dims d1 d2)) <-> In d (map fst d1) \/ In d (map fst d2).
Proof.
  unfold union_dims. rewrite map_app, in_app_iff. split.
  - intros [H|H]; [left; exact H|right]. apply in_map_iff in H as (p & <- & H).
    apply filter_In in H as [H _]. apply in_map; exact H.
  - intros [H|H]; [left; exact H|].
    destruct (dmem d d1) eqn:E; [left; apply dmem_true; exact E|right].
    apply in_map_iff in H as (p & <- & H). apply in_map. apply filter_In. split; [exact H|].
    rewrite E. reflexivity.
Qed.
Lemma NoDup_map_filter {A} (f : A -> string) g l : NoDup (map f l) -> NoDup (map f (filter g l)).
Proof.
  induction l as [|a l IH]; simpl; [auto|]. intros H; inversion H as [|? ? Ha Hl]; subst.
  destruct (g a); simpl; [constructor|]; auto.
  intros Hin. apply Ha. apply in_map_iff in Hin as (x & <- & Hx). apply filter_In in Hx as [Hx _].
  apply in_map; exact Hx.
Qed.
Lemma NoDup_app' {A} (l1 l2 : list A) : NoDup l1 -> NoDup l2 -> (forall x, In x l1 -> ~ In x l2) -> NoDup (l1 ++ l2).
Proof.
  induction l1 as [|a l1 IH]; simpl; intros H1 H2 H; [exact H2|].
  inversion H1; subst. constructor.
  - rewrite in_app_iff. intros [?|Hin]; [contradiction|]. apply (H a); [left; reflexivity|exact Hin].
  - apply IH; auto.
Qed.
Lemma union_NoDup d1 d2 : NoDup (map fst d1) -> NoDup (map fst d2) -> NoDup (map fst (union_dims d1 d2)).
Proof.
  intros H1 H2. unfold union_dims. rewrite map_app. apply NoDup_app'; auto.
  - apply NoDup_map_filter; exact H2.
  - intros x Hx Hx2. apply in_map_iff in Hx2 as (p & <- & Hp). apply filter_In in Hp as [_ Hp].
    apply negb_true_iff in Hp. apply dmem_false in Hp. contradiction.
Qed.
Lemma union_In d1 d2 p : In p (union_dims d1 d2) -> In p d1 \/ In p d2.
Proof.
  unfold union_dims. rewrite in_app_iff. intros [H|H]; [tauto|]. apply filter_In in H as [H _]; tauto.
Qed.
Lemma union_In_l d1 d2 p : In p d1 -> In p (union_dims d1 d2).
Proof. intros H; unfold union_dims; apply in_or_app; left; exact H. Qed.
Lemma union_In_r d1 d2 d n : dims_agree d1 d2 -> In (d, n) d2 -> In (d, n) (union_dims d1 d2).
Proof.
  intros Hag H. unfold union_dims. apply in_or_app.
  destruct (dmem d d1) eqn:E.
  - left. apply dmem_true in E. apply in_map_iff in E as ([d' n'] & Hd & Hin). simpl in Hd; subst.
    rewrite <- (Hag _ _ _ Hin H). exact Hin.
  - right. apply filter_In. split; [exact H|]. simpl. rewrite E. reflexivity.
Qed.

(** ** Pointwise results *)
Lemma amap2_inv f a b r : amap2 f a b = Ok r ->
  r = mkArr (union_dims (adims a) (adims b)) (fun e => f (at_ a e) (at_ b e)).
Proof. unfold amap2. destruct (compatible _ _); [|discriminate]. intros [=]; auto. Qed.
Lemma amap3_inv f a b c r : amap3 f a b c = Ok r ->
  r = mkArr (union_dims (union_dims (adims a) (adims b)) (adims c))
            (fun e => f (at_ a e) (at_ b e) (at_ c e)).
Proof. unfold amap3. destruct (_ && _); [|discriminate]. intros [=]; auto. Qed.
Lemma bind_inv {A B} (r : res A) (f : A -> res B) b : bind r f = Ok b -> exists a, r = Ok a /\ f a = Ok b.
Proof. destruct r; simpl; [eauto|discriminate]. Qed.

Lemma compatible_refl d : NoDup (map fst d) -> compatible d d = true.
Proof.
  intros H. apply compatible_agree; [exact H|]. intros x n n' H1 H2.
  apply In_dget in H1, H2; auto. congruence.
Qed.

(** ** Sums over all positions of some dimensions *)
Fixpoint Rsum_box (ds : list (string * nat)) (F : index -> R) (e : index) : R :=
  match ds with
  | [] => F e
  | (d, n) :: ds' => Rsum n (fun k => Rsum_box ds' F (upd e d k))
  end.

Lemma Rsum_box_ext ds F G e : (forall e', F e' = G e') -> Rsum_box ds F e = Rsum_box ds G e.
Proof.
  intros H. revert e. induction ds as [|[d n] ds IH]; intros e; simpl; [apply H|].
  apply Rsum_ext; intros; apply IH.
Qed.

Lemma Rsum_box_out ds F d n e : ~ In d (map fst ds) ->
  Rsum_box ds (fun e' => Rsum n (fun i => F (upd e' d i))) e
  = Rsum n (fun i => Rsum_box ds F (upd e d i)).
Proof.
  revert e. induction ds as [|[d' n'] ds IH]; intros e Hd; simpl; [reflexivity|].
  simpl in Hd.
  rewrite (Rsum_ext n' _ (fun k => Rsum n (fun i => Rsum_box ds F (upd (upd e d' k) d i)))).
  2:{ intros k _. apply IH. tauto. }
  rewrite Rsum_swap. apply Rsum_ext; intros i _. apply Rsum_ext; intros k _.
  f_equal. apply upd_comm. intros ->; tauto.
Qed.

(** positions that agree with [e] outside [ds] and lie in range inside [ds] *)
Definition in_box (ds : list (string * nat)) (e e' : index) : Prop :=
  (forall d n, In (d, n) ds -> (e' d < n)%nat) /\ (forall d, ~ In d (map fst ds) -> e' d = e d).

Lemma Rsum_box_ext_box ds F G e : NoDup (map fst ds) ->
  (forall e', in_box ds e e' -> F e' = G e') -> Rsum_box ds F e = Rsum_box ds G e.
Proof.
  revert e. induction ds as [|[d n] ds IH]; intros e Hn H; simpl.
  - apply H. split; [intros ? ? []|reflexivity].
  - inversion Hn as [|? ? Hd Hn']; subst. apply Rsum_ext; intros k Hk. apply IH; [exact Hn'|].
    intros e' [He1 He2]. apply H. split.
    + intros d' n' [H1|H1]; [|apply He1; exact H1]. injection H1 as -> ->.
      rewrite He2, upd_same by exact Hd. exact Hk.
    + intros d' Hd'. simpl in Hd'. rewrite He2 by tauto. apply upd_other. tauto.
Qed.
Lemma Rsum_box_nonneg ds F e : NoDup (map fst ds) ->
  (forall e', in_box ds e e' -> (0 <= F e')%R) -> (0 <= Rsum_box ds F e)%R.
Proof.
  revert e. induction ds as [|[d n] ds IH]; intros e Hn H; simpl.
  - apply H. split; [intros ? ? []|reflexivity].
  - inversion Hn as [|? ? Hd Hn']; subst. apply Rsum_nonneg; intros k Hk. apply IH; [exact Hn'|].
    intros e' [He1 He2]. apply H. split.
    + intros d' n' [H1|H1]; [|apply He1; exact H1]. injection H1 as -> ->.
      rewrite He2, upd_same by exact Hd. exact Hk.
    + intros d' Hd'. simpl in Hd'. rewrite He2 by tauto. apply upd_other. tauto.
Qed.
Lemma Rsum_box_plus ds F G e : Rsum_box ds (fun e => (F e + G e)%R) e = (Rsum_box ds F e + Rsum_box ds G e)%R.
Proof.
  revert e. induction ds as [|[d n] ds IH]; intros e; simpl; [reflexivity|].
  rewrite <- Rsum_plus. apply Rsum_ext; intros; apply IH.
Qed.
Lemma Rsum_box_scal ds c F e : Rsum_box ds (fun e => (c * F e)%R) e = (c * Rsum_box ds F e)%R.
Proof.
  revert e. induction ds as [|[d n] ds IH]; intros e; simpl; [reflexivity|].
  rewrite <- Rsum_scal. apply Rsum_ext; intros; apply IH.
Qed.
Lemma Rsum_box_le ds F G e : NoDup (map fst ds) ->
  (forall e', in_box ds e e' -> (F e' <= G e')%R) -> (Rsum_box ds F e <= Rsum_box ds G e)%R.
Proof.
  intros Hn H.
  assert (0 <= Rsum_box ds (fun e => G e + (-1) * F e)%R e)%R.
  { apply Rsum_box_nonneg; [exact Hn|]. intros e' He. specialize (H e' He). lra. }
  rewrite Rsum_box_plus, Rsum_box_scal in H0. lra.
Qed.

Lemma dget_drop d d' l : d <> d' -> dget d' (drop_dim d l) = dget d' l.
Proof.
  intros H. unfold drop_dim. induction l as [|[x n] l IH]; simpl; [reflexivity|].
  destruct (String.eqb d x) eqn:E; simpl.
  - apply String.eqb_eq in E. subst. destruct (String.eqb d' x) eqn:E2; [apply String.eqb_eq in E2; congruence|exact IH].
  - destruct (String.eqb d' x); [reflexivity|exact IH].
Qed.
Lemma drop_names d l x : In x (map fst (drop_dim d l)) <-> In x (map fst l) /\ x <> d.
Proof.
  unfold drop_dim. split.
  - intros H. apply in_map_iff in H as (p & <- & H). apply filter_In in H as [H1 H2].
    apply negb_true_iff, String.eqb_neq in H2. split; [apply in_map; exact H1|congruence].
  - intros [H1 H2]. apply in_map_iff in H1 as (p & <- & H). apply in_map, filter_In. split; [exact H|].
    apply negb_true_iff, String.eqb_neq. congruence.
Qed.
Lemma drop_NoDup d l : NoDup (map fst l) -> NoDup (map fst (drop_dim d l)).
Proof. apply NoDup_map_filter. Qed.
Lemma size_of_sum1 d d' a : d <> d' -> size_of d' (sum1 d a) = size_of d' a.
Proof. intros H. unfold size_of, sum1; simpl. rewrite dget_drop by exact H. reflexivity. Qed.

(** Every value of the array is finite. *)
Definition all_fin (a : arr) : Prop := forall e, exists x, at_ a e = Fin x.

Lemma sum1_Fin d a e : all_fin a ->
  at_ (sum1 d a) e = Fin (Rsum (size_of d a) (fun i => val (at_ a (upd e d i)))).
Proof.
  intros H. unfold sum1; simpl.
  rewrite (fsum_ext _ _ (fun i => Fin (val (at_ a (upd e d i))))); [apply fsum_Fin|].
  intros i _. destruct (H (upd e d i)) as [x Hx]. rewrite Hx. reflexivity.
Qed.

Lemma fold_sum_Fin ds a e : NoDup ds -> all_fin a ->
  at_ (fold_left (fun acc d => sum1 d acc) ds a) e
  = Fin (Rsum_box (map (fun d => (d, size_of d a)) ds) (fun e' => val (at_ a e')) e).
Proof.
  revert a. induction ds as [|d ds IH]; intros a Hn Ha; simpl.
  - destruct (Ha e) as [x Hx]. rewrite Hx. reflexivity.
  - inversion Hn as [|? ? Hd Hn']; subst. rewrite IH.
    + f_equal. rewrite <- Rsum_box_out.
      * rewrite (map_ext_in (fun d0 => (d0, size_of d0 (sum1 d a))) (fun d0 => (d0, size_of d0 a))).
        -- apply Rsum_box_ext. intros e'. rewrite sum1_Fin by exact Ha. reflexivity.
        -- intros x Hx. f_equal. apply size_of_sum1. intros ->; contradiction.
      * rewrite map_map. simpl. rewrite map_id. exact Hd.
    + exact Hn'.
    + intros e'. rewrite sum1_Fin by exact Ha. eauto.
Qed.

Lemma fold_sum_dims ds a :
  adims (fold_left (fun acc d => sum1 d acc) ds a) = fold_left (fun l d => drop_dim d l) ds (adims a).
Proof. revert a. induction ds as [|d ds IH]; intros a; simpl; [reflexivity|]. rewrite IH. reflexivity. Qed.

Lemma fold_drop_names ds l x :
  In x (map fst (fold_left (fun l d => drop_dim d l) ds l)) <-> In x (map fst l) /\ ~ In x ds.
Proof.
  revert l. induction ds as [|d ds IH]; intros l; simpl; [tauto|].
  rewrite IH, drop_names. split; intros H; intuition congruence.
Qed.

(** No infinite value. *)
Definition no_inf (a : arr) : Prop := forall e s, at_ a e <> Inf s.
Lemma nan0_all_fin a : no_inf a -> all_fin (amap nan0 a).
Proof.
  intros H e. simpl. specialize (H e). destruct (at_ a e) as [|s|x]; simpl; try (eexists; reflexivity).
  exfalso; apply (H s); reflexivity.
Qed.
Lemma val_nan0 v : val (nan0 v) = val v.
Proof. destruct v; reflexivity. Qed.

Lemma map_size_names a : NoDup (names a) -> map (fun d => (d, size_of d a)) (names a) = adims a.
Proof.
  unfold names, size_of. intros H. rewrite map_map.
  rewrite <- (map_id (adims a)) at 2. apply map_ext_in. intros [d n] Hin. simpl.
  rewrite (In_dget _ _ _ H Hin). reflexivity.
Qed.

Lemma asum_all_Fin a e : NoDup (names a) -> no_inf a ->
  at_ (asum_all a) e = Fin (Rsum_box (adims a) (fun e' => val (at_ a e')) e).
Proof.
  intros Hn Hi. unfold asum_all. rewrite fold_sum_Fin; [|exact Hn|apply nan0_all_fin; exact Hi].
  f_equal. rewrite <- (map_size_names a Hn) at 1.
  apply Rsum_box_ext. intros e'. simpl. apply val_nan0.
Qed.

Lemma asum_Fin ds a r : asum ds a = Ok r -> NoDup ds -> no_inf a ->
  forall e, at_ r e = Fin (Rsum_box (map (fun d => (d, size_of d a)) ds) (fun e' => val (at_ a e')) e).
Proof.
  unfold asum. destruct (forallb _ _); [|discriminate]. intros [=] Hn Hi e; subst.
  rewrite fold_sum_Fin; [|exact Hn|apply nan0_all_fin; exact Hi].
  f_equal. apply Rsum_box_ext. intros e'. simpl. apply val_nan0.
Qed.

Lemma asum_ok ds a : (forall d, In d ds -> In d (names a)) -> is_ok (asum ds a) = true.
Proof.
  intros H. unfold asum.
  assert (E : forallb (fun d => has_dim d a) ds = true).
  { apply forallb_forall. intros d Hd. apply dmem_true. apply H. exact Hd. }
  rewrite E. reflexivity.
Qed.

Lemma union_absorb d1 d2 : (forall x, In x (map fst d2) -> In x (map fst d1)) -> union_dims d1 d2 = d1.
Proof.
  intros H. unfold union_dims. rewrite <- (app_nil_r d1) at 2. f_equal.
  induction d2 as [|[x n] d2 IH]; [reflexivity|]. cbn.
  rewrite (proj2 (dmem_true x d1)) by (apply H; left; reflexivity). cbn. apply IH. intros y Hy. apply H. right; exact Hy.
Qed.
