(** * ProofsPieces: selection commutes with the array operations *)
From Coq Require Import Reals List String Bool Arith Lia FunctionalExtensionality.
From Verif Require Import Num NumFacts Py Arr ArrFacts Eos Derived Dataset SpecUnits SpecPieces ProofsDz.
Import ListNotations.
Local Open Scope string_scope.

Section S.
  Variables (d : string) (n : nat) (f : nat -> nat) (N : nat).
  Notation rs := (resize d n) (only parsing).
  Notation T := (select d n f).
  Definition lsized (l : list (string * nat)) : Prop := forall m, In (d, m) l -> m = N.

  Lemma rs_names l : map fst (rs l) = map fst l.
  Proof. unfold resize. rewrite map_map. apply map_ext. intros [k m]. cbn. destruct (String.eqb d k); reflexivity. Qed.
  Lemma rs_len l : List.length (rs l) = List.length l.
  Proof. apply map_length. Qed.
  Lemma dget_rs k l : dget k (rs l) = if String.eqb d k then option_map (fun _ => n) (dget k l) else dget k l.
  Proof.
    induction l as [|[q m] l IH]; cbn. { destruct (String.eqb d k); reflexivity. }
    destruct (String.eqb_spec d q) as [->|Nq]; cbn; destruct (String.eqb_spec k q) as [->|Nk].
    - rewrite String.eqb_refl. reflexivity.
    - exact IH.
    - rewrite (proj2 (String.eqb_neq d q) Nq). reflexivity.
    - exact IH.
  Qed.
  Lemma dmem_rs k l : dmem k (rs l) = dmem k l.
  Proof. unfold dmem. rewrite dget_rs. destruct (String.eqb d k), (dget k l); reflexivity. Qed.
  Lemma rs_out l : ~ In d (map fst l) -> rs l = l.
  Proof.
    intros H. unfold resize. rewrite <- (map_id l) at 2. apply map_ext_in. intros [k m] I. cbn.
    destruct (String.eqb_spec d k) as [->|]; [|reflexivity]. destruct H. apply (in_map fst) in I. exact I.
  Qed.
  Lemma rs_filter (p : string -> bool) l : rs (filter (fun q => p (fst q)) l) = filter (fun q => p (fst q)) (rs l).
  Proof.
    induction l as [|[k m] l IH]; [reflexivity|]. cbn. destruct (p k) eqn:E; cbn; destruct (String.eqb d k) eqn:D; cbn; rewrite E; try (f_equal; [..|exact IH]); try exact IH.
  Qed.
  Lemma rs_union a b : rs (union_dims a b) = union_dims (rs a) (rs b).
  Proof.
    unfold union_dims, resize at 1. rewrite map_app. fold (rs a). f_equal.
    change (map _ (filter _ b)) with (rs (filter (fun q => (fun k => negb (dmem k a)) (fst q)) b)). rewrite rs_filter.
    apply filter_ext. intros q. rewrite dmem_rs. reflexivity.
  Qed.
  Lemma rs_drop q l : rs (drop_dim q l) = drop_dim q (rs l).
  Proof. unfold drop_dim. apply (rs_filter (fun k => negb (String.eqb q k))). Qed.
  Lemma rs_compat a b : lsized a -> lsized b -> compatible (rs a) (rs b) = compatible a b.
  Proof.
    intros Ha Hb. unfold compatible, resize at 2. induction b as [|[k m] b IH]; [reflexivity|]. cbn [map forallb fst snd].
    rewrite IH by (intros x Hx; apply Hb; right; exact Hx). f_equal.
    destruct (String.eqb_spec d k) as [<-|E]; cbn [fst snd]; rewrite dget_rs.
    - rewrite String.eqb_refl. destruct (dget d a) eqn:G; cbn; [|reflexivity]. apply dget_In in G. apply Ha in G. subst.
      rewrite (Hb m (or_introl eq_refl)). rewrite !Nat.eqb_refl. reflexivity.
    - rewrite (proj2 (String.eqb_neq _ _) E). reflexivity.
  Qed.
  Lemma lsized_union a b : lsized a -> lsized b -> lsized (union_dims a b).
  Proof. intros Ha Hb m I. apply union_In in I. destruct I; auto. Qed.
  Lemma lsized_filter p l : lsized l -> lsized (filter p l).
  Proof. intros H m I. apply filter_In in I. apply H, I. Qed.

  Lemma select_without a : wf_arr a -> ~ In d (names a) -> T a = a.
  Proof.
    intros (ND & W) H. unfold select. rewrite rs_out by exact H.
    destruct a as [l v]. cbn [adims at_] in *. f_equal. apply functional_extensionality. intros e.
    apply W. intros q Hq. unfold upd. destruct (String.eqb_spec d q) as [->|]; [contradiction|reflexivity].
  Qed.

  Lemma tk_amap g a : amap g (T a) = T (amap g a).
  Proof. reflexivity. Qed.
  Lemma tk_amap2 g a b : lsized (adims a) -> lsized (adims b) -> amap2 g (T a) (T b) = res_map T (amap2 g a b).
  Proof.
    intros Ha Hb. unfold amap2. cbn [T adims at_]. rewrite rs_compat by assumption.
    destruct (compatible (adims a) (adims b)); [|reflexivity]. cbn [res_map]. unfold select. cbn [adims at_]. rewrite rs_union. reflexivity.
  Qed.
  Lemma tk_amap3 g a b c : lsized (adims a) -> lsized (adims b) -> lsized (adims c) ->
    amap3 g (T a) (T b) (T c) = res_map T (amap3 g a b c).
  Proof.
    intros Ha Hb Hc. unfold amap3. cbn [T adims at_]. rewrite <- rs_union, !rs_compat by (assumption || apply lsized_union; assumption).
    destruct (_ && _); [|reflexivity]. cbn [res_map]. unfold select. cbn [adims at_]. rewrite <- rs_union. reflexivity.
  Qed.
  Lemma tk_size q a : q <> d -> size_of q (T a) = size_of q a.
  Proof. intros H. unfold size_of. cbn [T adims]. rewrite dget_rs. rewrite (proj2 (String.eqb_neq d q)) by congruence. reflexivity. Qed.
  Lemma tk_sum1 q a : q <> d -> sum1 q (T a) = T (sum1 q a).
  Proof.
    intros H. unfold sum1. cbn [T select adims at_]. rewrite <- rs_drop. unfold select at 2. cbn [adims at_]. f_equal.
    apply functional_extensionality. intros e. rewrite tk_size by exact H. f_equal. apply functional_extensionality. intros i.
    rewrite upd_other by exact H. rewrite upd_comm by exact H. reflexivity.
  Qed.
  Lemma tk_fold l a : ~ In d l -> fold_left (fun acc q => sum1 q acc) l (T a) = T (fold_left (fun acc q => sum1 q acc) l a).
  Proof.
    revert a. induction l as [|q l IH]; intros a H; [reflexivity|]. cbn. rewrite tk_sum1 by (intros ->; apply H; left; reflexivity).
    apply IH. intros I. apply H. right. exact I.
  Qed.
  Lemma tk_asum l a : ~ In d l -> asum l (T a) = res_map T (asum l a).
  Proof.
    intros H. unfold asum, has_dim. cbn [T select adims]. 
    replace (forallb (fun q => dmem q (rs (adims a))) l) with (forallb (fun q => dmem q (adims a)) l).
    - destruct (forallb _ l); [|reflexivity]. cbn [res_map]. f_equal. rewrite tk_amap. apply tk_fold, H.
    - clear H. induction l as [|q l IH]; [reflexivity|]. cbn. rewrite IH, dmem_rs. reflexivity.
  Qed.
  Lemma tk_asum_all a : ~ In d (names a) -> asum_all (T a) = T (asum_all a).
  Proof. intros H. unfold asum_all, names. cbn [T select adims]. rewrite rs_names. rewrite tk_amap. apply tk_fold, H. Qed.
  Lemma tk_isel q k a : q <> d -> isel q k (T a) = res_map T (isel q k a).
  Proof.
    intros H. unfold isel. cbn [T select adims at_]. rewrite dget_rs, (proj2 (String.eqb_neq d q)) by congruence.
    destruct (dget q (adims a)); [|reflexivity]. destruct (Nat.ltb k n0); [|reflexivity]. cbn [res_map]. unfold select. cbn [adims at_].
    rewrite <- rs_drop. do 2 f_equal. apply functional_extensionality. intros e. rewrite upd_other by exact H. rewrite upd_comm by exact H. reflexivity.
  Qed.
  Lemma tk_transpose q a : transpose_first q (T a) = res_map T (transpose_first q a).
  Proof.
    unfold transpose_first. cbn [T select adims at_]. rewrite dget_rs. destruct (dget q (adims a)); [|destruct (String.eqb d q); reflexivity].
    unfold select. cbn [res_map adims at_ option_map resize map fst]. fold (rs (drop_dim q (adims a))). rewrite rs_drop. destruct (String.eqb d q); reflexivity.
  Qed.
  Lemma tk_broadcast_second a b : lsized (adims a) -> lsized (adims b) -> broadcast_second (T a) (T b) = res_map T (broadcast_second a b).
  Proof.
    intros Ha Hb. unfold broadcast_second. cbn [T select adims at_]. rewrite rs_compat by assumption. destruct (compatible _ _); [|reflexivity].
    cbn [res_map]. unfold select. cbn [adims at_]. rewrite rs_union. reflexivity.
  Qed.
  Lemma tk_broadcast_like a b : lsized (adims a) -> lsized (adims b) -> broadcast_like (T a) (T b) = res_map T (broadcast_like a b).
  Proof.
    intros Ha Hb. unfold broadcast_like. cbn [T select adims at_]. rewrite rs_compat by assumption. destruct (compatible _ _); [|reflexivity].
    cbn [res_map]. unfold select. cbn [adims at_]. rewrite rs_union. reflexivity.
  Qed.
  Lemma tk_ffill q a : q <> d -> ffill q (T a) = res_map T (ffill q a).
  Proof.
    intros H. unfold ffill, has_dim. cbn [T select adims at_]. rewrite dmem_rs. destruct (dmem q (adims a)); [|reflexivity]. cbn [res_map]. unfold select. cbn [adims at_].
    do 2 f_equal. apply functional_extensionality. intros e. rewrite (upd_other e d) by congruence. f_equal.
    apply functional_extensionality. intros k. rewrite upd_other by exact H. rewrite upd_comm by exact H. reflexivity.
  Qed.
  Lemma tk_differentiate q x a : q <> d -> differentiate q x (T a) = res_map T (differentiate q x a).
  Proof.
    intros H. unfold differentiate. cbn [T select adims at_]. rewrite dget_rs, (proj2 (String.eqb_neq d q)) by congruence.
    destruct (dget q (adims a)); [|reflexivity]. destruct (Nat.ltb n0 3); [reflexivity|]. cbn [res_map]. unfold select. cbn [adims at_].
    do 2 f_equal. apply functional_extensionality. intros e. rewrite (upd_other e d) by congruence. f_equal.
    apply functional_extensionality. intros k. rewrite upd_other by exact H. rewrite upd_comm by exact H. reflexivity.
  Qed.
  Lemma tk_getitem k a q m r : adims a = (q, m) :: r -> q <> d -> getitem k (T a) = res_map T (getitem k a).
  Proof.
    intros E H. unfold getitem. rewrite E. cbn [T select adims]. rewrite E. cbn [resize map fst]. rewrite (proj2 (String.eqb_neq d q)) by congruence.
    apply tk_isel, H.
  Qed.
  Lemma tk_setitem0 a v q m r : adims a = (q, m) :: r -> q <> d -> setitem0 (T a) (T v) = res_map T (setitem0 a v).
  Proof.
    intros E H. unfold setitem0. rewrite E. cbn [T select adims]. rewrite E. cbn [resize map fst]. rewrite (proj2 (String.eqb_neq d q)) by congruence.
    cbn [res_map]. unfold select. cbn [adims at_]. cbn [resize map fst]. rewrite (proj2 (String.eqb_neq d q)) by congruence.
    do 2 f_equal. apply functional_extensionality. intros e. rewrite (upd_other e d) by congruence. reflexivity.
  Qed.
  Lemma tk_xg op sym c q a : c <> d -> q <> d -> xg_op op sym c q (T a) = res_map T (xg_op op sym c q a).
  Proof.
    intros Hc Hq. unfold xg_op. cbn [T select adims at_]. rewrite dget_rs, (proj2 (String.eqb_neq d c)) by congruence.
    destruct (dget c (adims a)) as [m|]; [|reflexivity]. cbn [res_map]. unfold rename_dim, select. cbn [adims at_]. f_equal. f_equal.
    - unfold resize. rewrite !map_map. apply map_ext. intros [k j]. cbn [fst].
      destruct (String.eqb_spec d k) as [<-|Nk]; cbn [fst].
      + rewrite (proj2 (String.eqb_neq d c)) by congruence. cbn [fst]. rewrite String.eqb_refl. reflexivity.
      + destruct (String.eqb_spec k c) as [->|]; cbn [fst].
        * rewrite (proj2 (String.eqb_neq d q)) by congruence. reflexivity.
        * rewrite (proj2 (String.eqb_neq d k)) by congruence. reflexivity.
    - apply functional_extensionality. intros e. rewrite (upd_other e d) by congruence.
      assert (X : (fun k => at_ a (upd (upd e c k) d (f (upd e c k d)))) = (fun k => at_ a (upd (upd e d (f (e d))) c k))).
      { apply functional_extensionality. intros k. rewrite upd_other by exact Hc. rewrite upd_comm by exact Hc. reflexivity. }
      rewrite X. reflexivity.
  Qed.

  (** ** The shape test of [apply_ufunc] *)
  Lemma cs_true_len u own : List.length (compat_shape u own true) = List.length u.
  Proof. induction u as [|[k m] u IH]; [reflexivity|]. cbn. destruct (dmem k own); cbn; rewrite IH; reflexivity. Qed.
  Lemma cs_false_len u own : (List.length (compat_shape u own false) <= List.length u)%nat.
  Proof. induction u as [|[k m] u IH]; [reflexivity|]. cbn. destruct (dmem k own); cbn; [rewrite cs_true_len|]; lia. Qed.
  Lemma cs_true u own : compat_shape u own true = map snd u <-> (forall k m, In (k, m) u -> dmem k own = true \/ m = 1%nat).
  Proof.
    induction u as [|[k m] u IH]; [cbn; intuition|]. cbn [compat_shape map snd]. destruct (dmem k own) eqn:D.
    - split.
      + intros E k' m' [I|I]; [injection I as <- <-; auto|]. injection E as E. apply (proj1 IH E k' m' I).
      + intros H. f_equal. apply IH. intros k' m' I. apply H. right. exact I.
    - split.
      + intros E k' m' [I|I]; [injection I as <- <-; injection E as E _; auto|]. injection E as _ E. apply (proj1 IH E k' m' I).
      + intros H. destruct (H k m (or_introl eq_refl)) as [X| ->]; [congruence|]. f_equal. apply IH. intros k' m' I. apply H. right. exact I.
  Qed.
  Lemma cs_false u own : compat_shape u own false = map snd u <->
    match u with [] => True | (k, m) :: u' => dmem k own = true /\ (forall k m, In (k, m) u' -> dmem k own = true \/ m = 1%nat) end.
  Proof.
    destruct u as [|[k m] u]; [cbn; intuition|]. cbn [compat_shape map snd]. destruct (dmem k own) eqn:D.
    - split.
      + intros E. injection E as E. split; [reflexivity|]. apply cs_true, E.
      + intros (_ & H). f_equal. apply cs_true, H.
    - split; [|intros (X & _); discriminate X]. intros E. apply (f_equal (@List.length _)) in E. cbn in E. rewrite map_length in E.
      pose proof (cs_false_len u own). lia.
  Qed.
  Lemma dmem_app {A} k (l l' : dict A) : dmem k (l ++ l')%list = (dmem k l || dmem k l')%bool.
  Proof. unfold dmem. induction l as [|[q v] l IH]; [reflexivity|]. cbn. destruct (String.eqb k q); [reflexivity|exact IH]. Qed.
  Lemma tk_shape m t s p : In d (names t) \/ In d (names s) \/ ~ In d (names p) -> eos_shape_ok m (T t) (T s) (T p) = eos_shape_ok m t s p.
  Proof.
    intros H. destruct m; [reflexivity|]. unfold eos_shape_ok, list_nat_eqb. cbn [T select adims]. rewrite <- !rs_union.
    set (u := union_dims (union_dims (adims t) (adims s)) (adims p)). set (own := (adims t ++ adims s)%list).
    assert (Own : forall k, dmem k (rs (adims t) ++ rs (adims s))%list = dmem k own).
    { intros k. unfold own. rewrite !dmem_app, !dmem_rs. reflexivity. }
    assert (Hd : forall j, In (d, j) u -> dmem d own = true).
    { intros j I. unfold own. rewrite dmem_app. apply orb_true_iff. destruct H as [H|[H|H]].
      - left. apply dmem_true, H.
      - right. apply dmem_true, H.
      - apply union_In in I. destruct I as [I|I]; [apply union_In in I; destruct I as [I|I]|].
        + left. apply dmem_true. apply (in_map fst) in I. exact I.
        + right. apply dmem_true. apply (in_map fst) in I. exact I.
        + destruct H. apply (in_map fst) in I. exact I. }
    assert (E : compat_shape (rs u) (rs (adims t) ++ rs (adims s)) false = map snd (rs u) <-> compat_shape u own false = map snd u).
    { rewrite !cs_false. clearbody u own. destruct u as [|[k m] u]; [reflexivity|].
      assert (R : forall l, (forall j, In (d, j) l -> dmem d own = true) ->
        (forall k j, In (k, j) (rs l) -> dmem k (rs (adims t) ++ rs (adims s))%list = true \/ j = 1%nat) <-> (forall k j, In (k, j) l -> dmem k own = true \/ j = 1%nat)).
      { intros l Hl. split; intros X k' j I.
        - destruct (String.eqb_spec d k') as [<-|Nk]; [left; apply (Hl j I)|]. rewrite <- Own. apply X. apply in_map_iff. exists (k', j). cbn [fst].
          rewrite (proj2 (String.eqb_neq _ _) Nk). auto.
        - rewrite Own. apply in_map_iff in I. destruct I as ([k2 j2] & I & I2). cbn [fst] in I. destruct (String.eqb_spec d k2) as [<-|Nk].
          + injection I as <- <-. left. apply (Hl j2 I2).
          + injection I as <- <-. apply (X k2 j2 I2). }
      cbn [resize map fst]. fold (rs u). destruct (String.eqb d k); rewrite Own, (R u) by (intros j I; apply (Hd j); right; exact I); reflexivity. }
    destruct (list_eq_dec Nat.eq_dec (compat_shape (rs u) _ false) (map snd (rs u))) as [A|A], (list_eq_dec Nat.eq_dec (compat_shape u own false) (map snd u)) as [B|B]; try reflexivity;
      [destruct B; apply E, A|destruct A; apply E, B].
  Qed.
  Lemma tk_eos ti g t s p : lsized (adims t) -> lsized (adims s) -> lsized (adims p) ->
    In d (names t) \/ In d (names s) \/ ~ In d (names p) -> eos_ufunc ti g (T t) (T s) (T p) = res_map T (eos_ufunc ti g t s p).
  Proof.
    intros Ht Hs Hp H. unfold eos_ufunc. rewrite tk_amap3 by assumption. destruct (amap3 _ t s p); [|reflexivity]. cbn [bind res_map].
    rewrite tk_shape by exact H. destruct (eos_shape_ok _ _ _ _); reflexivity.
  Qed.
End S.
