(** * ProofsDz: layer thickness (derived.calc_dz) *)
From Coq Require Import Reals Lra Lia List String Bool Arith FunctionalExtensionality.
From Verif Require Import Num NumFacts Py Arr ArrFacts Derived SpecDz ProofsFields2.
Import ListNotations.
Local Open Scope R_scope.

(** ** Quantified checks *)
Lemma all_over_spec ds P e : NoDup (map fst ds) ->
  all_over ds P e = true <-> (forall e', in_box ds e e' -> P e' = true).
Proof.
  revert e. induction ds as [|[d n] ds IH]; intros e Hn; cbn [all_over].
  - split.
    + intros H e' [_ He]. replace e' with e; [exact H|].
      apply functional_extensionality; intros x. symmetry; apply He. intros [].
    + intros H; apply H. split; [intros ? ? []|reflexivity].
  - inversion Hn as [|? ? Hd Hn']; subst. rewrite forallb_forall. split.
    + intros H e' [H1 H2]. specialize (H (e' d)).
      assert (Hin : In (e' d) (seq 0 n)).
      { apply in_seq. split; [lia|]. cbn. apply H1. left; reflexivity. }
      specialize (H Hin). rewrite (IH (upd e d (e' d)) Hn') in H. apply H. split.
      * intros x m Hx; apply H1; right; exact Hx.
      * intros x Hx. unfold upd. destruct (String.eqb d x) eqn:E.
        -- apply String.eqb_eq in E; subst; reflexivity.
        -- apply H2. cbn. intros [->|H3]; [rewrite String.eqb_refl in E; discriminate|contradiction].
    + intros H k Hk. apply in_seq in Hk. rewrite (IH (upd e d k) Hn'). intros e' [H1 H2].
      apply H. split.
      * intros x m [Hx|Hx]; [|apply H1; exact Hx]. injection Hx as -> ->.
        rewrite (H2 x); [rewrite upd_same; lia|exact Hd].
      * intros x Hx. cbn in Hx. rewrite H2; [|tauto]. apply upd_other. tauto.
Qed.

Lemma aall_spec P a : wf_arr a ->
  aall P a = true <-> (forall e, inrange (adims a) e -> P (at_ a e) = true).
Proof.
  intros [Hn Hw]. unfold aall. rewrite all_over_spec by exact Hn. split.
  - intros H e He.
    rewrite (Hw e (fun d => if dmem d (adims a) then e d else O)).
    + apply (H (fun d => if dmem d (adims a) then e d else O)). split.
      * intros d n Hin. assert (E : dmem d (adims a) = true).
        { apply dmem_true. apply in_map_iff. exists (d, n). split; [reflexivity|exact Hin]. }
        rewrite E. apply He; exact Hin.
      * intros d Hd. rewrite (proj2 (dmem_false d (adims a)) Hd). reflexivity.
    + intros d Hd. rewrite (proj2 (dmem_true d (adims a)) Hd). reflexivity.
  - intros H e' [He _]. apply H. exact He.
Qed.

Lemma aall_false P a : wf_arr a ->
  (exists e, inrange (adims a) e /\ P (at_ a e) = false) -> aall P a = false.
Proof.
  intros Hw (e & He & Hp). destruct (aall P a) eqn:E; [|reflexivity].
  rewrite (proj1 (aall_spec P a Hw) E e He) in Hp. discriminate.
Qed.

Lemma aall_false_inv P a : wf_arr a -> aall P a = false ->
  ~ (forall e, inrange (adims a) e -> P (at_ a e) = true).
Proof. intros Hw E H. rewrite (proj2 (aall_spec P a Hw) H) in E. discriminate. Qed.

Lemma wf_amap f a : wf_arr a -> wf_arr (amap f a).
Proof. intros [H1 H2]. split; [exact H1|]. intros e e' H. cbn. now rewrite (H2 e e' H). Qed.

Lemma dget_union_r k (d1 d2 : list (string * nat)) : dget k d1 = None -> dget k (union_dims d1 d2) = dget k d2.
Proof.
  intros H. unfold union_dims.
  assert (G : forall l, dget k (d1 ++ l) = dget k l).
  { intros l. induction d1 as [|[a b] d1 IH]; [reflexivity|]. cbn in *.
    destruct (String.eqb k a); [discriminate|]. apply IH, H. }
  rewrite G. assert (Hm : dmem k d1 = false) by (unfold dmem; now rewrite H). clear G H.
  induction d2 as [|[a b] d2 IH]; [reflexivity|]. cbn.
  destruct (String.eqb k a) eqn:E.
  - apply String.eqb_eq in E; subst a. rewrite Hm. cbn. now rewrite String.eqb_refl.
  - destruct (dmem a d1); cbn; rewrite ?E; exact IH.
Qed.

(** ** Shape of a successful call *)
Definition nonneg_ok (levels interfaces depth : arr) : Prop :=
  aall fge0 (amap (fun v => fillna v (Fin 0)) depth) = true /\
  aall fge0 levels = true /\ aall fge0 interfaces = true.

(** Thickness from the four numbers that matter. *)
Definition dz_point (zt zb d top : fval) : fval :=
  let clip v := if fltb v (Fin 0) then Fin 0 else v in
  fmin (clip (fsub zb top)) (fmin (clip (fsub d zt)) (fsub zb zt)).
Definition floor_of (d : fval) (bottom : option fval) : fval :=
  match bottom with None => fillna d (Fin 0) | Some b => fmin (fillna d (Fin 0)) b end.
Definition frac_point (t f : fval) : fval :=
  fdiv (if feqb t (Fin 0) then NaN else t) (if feqb f (Fin 0) then NaN else f).

Lemma calc_dz_inv levels interfaces depth top bottom fr r :
  calc_dz levels interfaces depth top bottom fr = Ok r ->
  nonneg_ok levels interfaces depth /\
  exists z n zi ni, adims levels = [(z, n)] /\ adims interfaces = [(zi, ni)] /\ (ni - 1)%nat = n /\
   (forall d, In d (names r) <-> In d (names depth) \/ d = z) /\ dget z (adims r) = Some n /\
   forall e,
    let zt := at_ interfaces (upd e zi (e z)) in
    let zb := at_ interfaces (upd e zi (S (e z))) in
    let t := dz_point zt zb (floor_of (at_ depth e) bottom) top in
    at_ r e = if fr then frac_point t (fsub zb zt) else t.
Proof.
  unfold calc_dz. intros H.
  apply bind_inv in H as (u1 & A1 & H). apply bind_inv in H as (u2 & A2 & H).
  apply bind_inv in H as (u3 & A3 & H).
  unfold assert_ in A1, A2, A3.
  destruct (aall fge0 (amap _ depth)) eqn:E1; [|discriminate].
  destruct (aall fge0 levels) eqn:E2; [|discriminate].
  destruct (aall fge0 interfaces) eqn:E3; [|discriminate].
  split; [repeat split; assumption|].
  destruct (adims levels) as [|[z n] [|? ?]] eqn:El; try discriminate.
  destruct (adims interfaces) as [|[zi ni] [|? ?]] eqn:Ei; try discriminate.
  destruct (Nat.eqb (ni - 1) n) eqn:En; [|discriminate]. apply Nat.eqb_eq in En.
  exists z, n, zi, ni. split; [reflexivity|]. split; [reflexivity|]. split; [exact En|].
  assert (Ed : adims (match bottom with
                | Some b => const_r fmin (amap (fun v => fillna v (Fin 0)) depth) b
                | None => amap (fun v => fillna v (Fin 0)) depth end) = adims depth)
    by (destruct bottom; reflexivity).
  assert (Ev : at_ (match bottom with
                | Some b => const_r fmin (amap (fun v => fillna v (Fin 0)) depth) b
                | None => amap (fun v => fillna v (Fin 0)) depth end) = fun e => floor_of (at_ depth e) bottom)
    by (destruct bottom; reflexivity).
  revert H Ed Ev.
  generalize (match bottom with
                | Some b => const_r fmin (amap (fun v => fillna v (Fin 0)) depth) b
                | None => amap (fun v => fillna v (Fin 0)) depth end).
  intros dep H Ed Ev.
  apply bind_inv in H as (zt & B1 & H). apply bind_inv in H as (zb & B2 & H).
  apply bind_inv in H as (dl & B3 & H). apply bind_inv in H as (dzf & B4 & H).
  apply bind_inv in H as (part & B5 & H). apply bind_inv in H as (r1 & B6 & H).
  apply bind_inv in H as (r2 & B7 & H).
  unfold broadcast_second in B1, B2. unfold broadcast_like in B3.
  destruct (compatible (adims dep) _) eqn:C1 in B1; [|discriminate]. injection B1 as <-.
  destruct (compatible (adims dep) _) eqn:C2 in B2; [|discriminate]. injection B2 as <-.
  destruct (compatible (adims levels) _) eqn:C3 in B3; [|discriminate]. injection B3 as <-.
  assert (Gz : dget z (union_dims (adims depth) [(z, n)]) = Some n).
  { destruct (dget z (adims depth)) as [m|] eqn:Em.
    - rewrite (dget_union _ _ _ _ Em). rewrite <- Ed in Em. unfold compatible in C1. cbn in C1. rewrite Em in C1.
      rewrite andb_true_r in C1. apply Nat.eqb_eq in C1. now subst.
    - rewrite (dget_union_r _ _ _ Em). cbn. rewrite String.eqb_refl. reflexivity. }
  apply amap2_inv in B4, B5, B6, B7. subst dzf part r1 r2.
  cbn [adims at_ amap const_r clip0 const_l] in H.
  destruct fr.
  - apply amap2_inv in H. subst r. split; [|split; [cbn [adims amap clip0 const_r]; rewrite Ed; repeat (first [exact Gz | apply dget_union])|]].
    + intros d. unfold names. cbn [adims amap clip0 const_r]. repeat rewrite union_names.
      rewrite El, Ed. cbn. intuition congruence.
    + intros e. cbn. rewrite Ev. reflexivity.
  - injection H as <-. split; [|split; [cbn [adims amap clip0 const_r]; rewrite Ed; repeat (first [exact Gz | apply dget_union])|]].
    + intros d. unfold names. cbn [adims amap clip0 const_r]. repeat rewrite union_names.
      rewrite El, Ed. cbn. intuition congruence.
    + intros e. cbn. rewrite Ev. reflexivity.
Qed.

(** ** The arithmetic of one cell *)
Definition dz_real (zt zb d top : R) : R := Rmin (Rmax 0 (zb - top)) (Rmin (Rmax 0 (d - zt)) (zb - zt)).

Lemma clip_Fin x : (if fltb (Fin x) (Fin 0) then Fin 0 else Fin x) = Fin (Rmax 0 x).
Proof.
  cbn. unfold Rltb. destruct (Rlt_dec x 0) as [H|H]; f_equal.
  - rewrite Rmax_left; lra.
  - rewrite Rmax_right; lra.
Qed.

Lemma dz_point_Fin zt zb d top : dz_point (Fin zt) (Fin zb) (Fin d) (Fin top) = Fin (dz_real zt zb d top).
Proof. unfold dz_point. rewrite !fsub_Fin, !clip_Fin, !fmin_Fin. reflexivity. Qed.

Lemma floor_of_Fin d bottom : (forall s, d <> Inf s) ->
  floor_of d (obot bottom) = Fin (range_floor (water_depth d) bottom).
Proof.
  intros H. destruct d as [|s|x]; [|exfalso; exact (H s eq_refl)|]; destruct bottom as [b|]; cbn [obot option_map floor_of fillna isnull water_depth range_floor];
    rewrite ?fmin_Fin; reflexivity.
Qed.

Ltac minmax := unfold dz_real, overlap, Rmin, Rmax in *;
  repeat match goal with
  | |- context [Rle_dec ?a ?b] => destruct (Rle_dec a b)
  | H : context [Rle_dec ?a ?b] |- _ => destruct (Rle_dec a b)
  end; try lra.

Lemma dz_real_bounds zt zb d top : zt <= zb -> 0 <= dz_real zt zb d top <= zb - zt.
Proof. intros H. minmax. Qed.
Lemma dz_real_overlap0 zt zb d : 0 <= zt -> zt <= zb -> dz_real zt zb d 0 = overlap zt zb 0 d.
Proof. intros H0 H. minmax. Qed.
Lemma dz_real_overlap zt zb d top : zt <= zb ->
  dz_real zt zb d top = overlap zt zb top d <-> ~ (zt < top < zb /\ zt < d < zb).
Proof.
  intros H. split.
  - intros E [H1 H2]. revert E. minmax.
  - intros N.
    destruct (Rlt_dec zt top), (Rlt_dec top zb), (Rlt_dec zt d), (Rlt_dec d zb); try (exfalso; apply N; lra); minmax.
Qed.
Lemma dz_real_ge_overlap zt zb d top : zt <= zb -> overlap zt zb top d <= dz_real zt zb d top.
Proof. intros H. minmax. Qed.
Lemma overlap_telescope zt zb d : 0 <= zt -> zt <= zb -> 0 <= d ->
  overlap zt zb 0 d = Rmin zb d - Rmin zt d.
Proof. intros H0 H Hd. minmax. Qed.

(** ** Facts about the API call *)
Definition grid_values (levels interfaces : arr) (e : index) (z : string) (zi : string) (n : nat) (w : nat -> R) : Prop :=
  adims levels = [(z, n)] /\ adims interfaces = [(zi, S n)] /\
  forall k, (k <= n)%nat -> at_ interfaces (upd e zi k) = Fin (w k).

Lemma grid_nonneg levels interfaces depth e z zi n w :
  nonneg_ok levels interfaces depth -> wf_arr interfaces ->
  grid_values levels interfaces e z zi n w -> forall k, (k <= n)%nat -> 0 <= w k.
Proof.
  intros (_ & _ & H) Hw (_ & Hi & Hv) k Hk.
  assert (H1 := proj1 (aall_spec _ _ Hw) H (upd e zi k)).
  rewrite Hi, (Hv k Hk) in H1. unfold fge0 in H1. rewrite fleb_Fin in H1. apply Rleb_true, H1.
  intros d m [E|[]]. injection E as <- <-. rewrite upd_same. lia.
Qed.

Lemma calc_dz_value levels interfaces depth top bottom fr r e z zi n w :
  calc_dz levels interfaces depth (Fin top) (obot bottom) fr = Ok r ->
  grid_values levels interfaces e z zi n w -> (e z < n)%nat -> (forall s, at_ depth e <> Inf s) ->
  let k := e z in
  let t := dz_real (w k) (w (S k)) (range_floor (water_depth (at_ depth e)) bottom) top in
  at_ r e = if fr then frac_point (Fin t) (Fin (w (S k) - w k)) else Fin t.
Proof.
  intros H (Hl & Hi & Hv) Hk Hd. apply calc_dz_inv in H as (_ & z' & n' & zi' & ni' & El & Ei & _ & _ & _ & H).
  rewrite Hl in El. rewrite Hi in Ei. injection El as <- <-. injection Ei as <- <-.
  cbn zeta in *. rewrite H. rewrite (Hv (e z)) by lia. rewrite (Hv (S (e z))) by lia.
  rewrite (floor_of_Fin _ _ Hd), dz_point_Fin, fsub_Fin. reflexivity.
Qed.

Lemma frac_facts t f : 0 <= t <= f ->
  (frac_point (Fin t) (Fin f) = NaN <-> t = 0) /\
  (t <> 0 -> exists q, frac_point (Fin t) (Fin f) = Fin q /\ q = t / f /\ 0 < q <= 1).
Proof.
  intros H. unfold frac_point. cbn [feqb].
  destruct (Reqb t 0) eqn:E.
  - apply Reqb_true in E. split; [split; [intros; exact E|intros; apply fdiv_NaN_l]|contradiction].
  - apply Reqb_false in E. assert (Ef : Reqb f 0 = false) by (apply Reqb_false; lra).
    rewrite Ef, fdiv_Fin by lra. split; [split; [discriminate|contradiction]|].
    intros _. exists (t / f). split; [reflexivity|]. split; [reflexivity|]. split.
    + apply Rdiv_lt_0_compat; lra.
    + apply (Rmult_le_reg_r f); [lra|]. unfold Rdiv. rewrite Rmult_assoc, Rinv_l by lra. lra.
Qed.

(** Column sums. *)
Lemma column_total n w d : (forall k, (k < n)%nat -> w k <= w (S k)) -> (forall k, (k <= n)%nat -> 0 <= w k) ->
  w O = 0 -> 0 <= d -> Rsum n (fun k => overlap (w k) (w (S k)) 0 d) = Rmin d (w n).
Proof.
  intros Hm Hp H0 Hd.
  rewrite (Rsum_ext n _ (fun k => Rmin (w (S k)) d - Rmin (w k) d)).
  - rewrite (Rsum_telescope n (fun k => Rmin (w k) d)), H0, (Rmin_left 0 d Hd), Rmin_comm. lra.
  - intros k Hk. apply overlap_telescope; auto with arith.
Qed.

Lemma asum1_value d a r e n : asum [d] a = Ok r -> dget d (adims a) = Some n ->
  forall f, (forall i, (i < n)%nat -> at_ a (upd e d i) = Fin (f i)) -> at_ r e = Fin (Rsum n f).
Proof.
  unfold asum. destruct (forallb _ _); [|discriminate]. intros [=<-] Hn f Hf. cbn [fold_left].
  unfold sum1. cbn [at_]. unfold size_of. cbn [adims amap]. rewrite Hn. rewrite <- fsum_Fin.
  apply fsum_ext. intros i Hi. cbn [at_ amap]. rewrite Hf by exact Hi. reflexivity.
Qed.

Lemma grid_values_upd levels interfaces e z zi n w k : zi <> z ->
  wf_arr interfaces -> grid_values levels interfaces e z zi n w -> grid_values levels interfaces (upd e z k) z zi n w.
Proof.
  intros Hz [_ Hw] (H1 & H2 & H3). split; [exact H1|]. split; [exact H2|]. intros j Hj.
  rewrite <- (H3 j Hj). apply Hw. intros d Hd. unfold names in Hd. rewrite H2 in Hd. destruct Hd as [<-|[]]. cbn.
  rewrite !upd_same. reflexivity.
Qed.

(** The same, without requiring different dimension names. *)
Lemma grid_values_any levels interfaces e e' z zi n w :
  wf_arr interfaces -> grid_values levels interfaces e z zi n w -> grid_values levels interfaces e' z zi n w.
Proof.
  intros [_ Hw] (H1 & H2 & H3). split; [exact H1|]. split; [exact H2|]. intros j Hj.
  rewrite <- (H3 j Hj). apply Hw. intros d Hd. unfold names in Hd. rewrite H2 in Hd. destruct Hd as [<-|[]]. cbn.
  rewrite !upd_same. reflexivity.
Qed.

Lemma dz_bounds levels interfaces depth top bottom r e z zi n w :
  calc_dz levels interfaces depth (Fin top) (obot bottom) false = Ok r ->
  grid_values levels interfaces e z zi n w -> (forall k, (k < n)%nat -> w k <= w (S k)) ->
  (e z < n)%nat -> (forall s, at_ depth e <> Inf s) ->
  exists t, at_ r e = Fin t /\ 0 <= t <= w (S (e z)) - w (e z).
Proof.
  intros H Hg Hm Hk Hd. assert (V := calc_dz_value _ _ _ _ _ _ _ _ _ _ _ _ H Hg Hk Hd). cbn zeta in V.
  eexists. split; [exact V|]. apply dz_real_bounds, Hm, Hk.
Qed.

Lemma dz_overlap0 levels interfaces depth bottom r e z zi n w :
  calc_dz levels interfaces depth (Fin 0) (obot bottom) false = Ok r -> wf_arr interfaces ->
  grid_values levels interfaces e z zi n w -> (forall k, (k < n)%nat -> w k <= w (S k)) ->
  (e z < n)%nat -> (forall s, at_ depth e <> Inf s) ->
  at_ r e = Fin (overlap (w (e z)) (w (S (e z))) 0 (range_floor (water_depth (at_ depth e)) bottom)).
Proof.
  intros H Hw Hg Hm Hk Hd. assert (V := calc_dz_value _ _ _ _ _ _ _ _ _ _ _ _ H Hg Hk Hd). cbn zeta in V.
  rewrite V, dz_real_overlap0; [reflexivity| |apply Hm, Hk].
  apply calc_dz_inv in H as (Hn & _). apply (grid_nonneg _ _ _ _ _ _ _ _ Hn Hw Hg). lia.
Qed.

Lemma depth_nonneg levels interfaces depth e : nonneg_ok levels interfaces depth -> wf_arr depth ->
  inrange (adims depth) e -> 0 <= water_depth (at_ depth e).
Proof.
  intros (H & _) Hw He. assert (H1 := proj1 (aall_spec _ _ (wf_amap _ _ Hw)) H e He).
  cbn in H1. destruct (at_ depth e) as [|s|x]; cbn; try lra.
  unfold fge0 in H1. cbn [fillna isnull] in H1. rewrite fleb_Fin in H1. now apply Rleb_true.
Qed.

Lemma dz_column levels interfaces depth bottom r s e z zi n w :
  calc_dz levels interfaces depth (Fin 0) (obot bottom) false = Ok r ->
  asum [z] r = Ok s -> wf_arr interfaces -> wf_arr depth -> ~ In z (names depth) ->
  grid_values levels interfaces e z zi n w -> (forall k, (k < n)%nat -> w k <= w (S k)) -> w O = 0 ->
  inrange (adims depth) e -> (forall s, at_ depth e <> Inf s) ->
  match bottom with Some b => 0 <= b | None => True end ->
  at_ s e = Fin (Rmin (range_floor (water_depth (at_ depth e)) bottom) (w n)).
Proof.
  intros H Hs Hw Hwd Hz Hg Hm H0 He Hd Hb.
  assert (H' := H). apply calc_dz_inv in H' as (Hn & z' & n' & zi' & ni & El & Ei & _ & _ & Gz & _).
  assert (Hl := proj1 Hg). rewrite El in Hl. injection Hl as -> ->.
  assert (Hdv : forall k, at_ depth (upd e z k) = at_ depth e).
  { intros k. apply Hwd. intros d Hin. apply upd_other. intros ->. contradiction. }
  assert (Hnn := depth_nonneg _ _ _ _ Hn Hwd He).
  rewrite (asum1_value z r s e n Hs Gz
    (fun k => overlap (w k) (w (S k)) 0 (range_floor (water_depth (at_ depth e)) bottom))).
  - f_equal. apply column_total; auto.
    + intros k Hk. apply (grid_nonneg _ _ _ _ _ _ _ _ Hn Hw Hg k Hk).
    + destruct bottom as [b|]; cbn; [|exact Hnn]. apply Rmin_glb; assumption.
  - intros k Hk.
    rewrite (dz_overlap0 levels interfaces depth bottom r (upd e z k) z zi n w H Hw
              (grid_values_any _ _ _ _ _ _ _ _ Hw Hg) Hm).
    + rewrite upd_same, Hdv. reflexivity.
    + rewrite upd_same. exact Hk.
    + rewrite Hdv. exact Hd.
Qed.

(** ** Acceptance *)
Lemma fge0_false v : fge0 v = false <-> v = NaN \/ v = Inf true \/ exists x, v = Fin x /\ x < 0.
Proof.
  unfold fge0. destruct v as [|[|]|x].
  - cbn. split; auto.
  - cbn. split; auto.
  - cbn. split; [discriminate|]. intros [H|[H|(x & H & _)]]; discriminate.
  - rewrite fleb_Fin. rewrite Rleb_false. split.
    + intros H; right; right; exists x; auto.
    + intros [H|[H|(y & H & Hy)]]; try discriminate. injection H as ->. exact Hy.
Qed.

Definition negative (v : fval) : Prop := v = Inf true \/ exists x, v = Fin x /\ x < 0.

Lemma dz_reject levels interfaces depth top bottom fr :
  wf_arr levels -> wf_arr interfaces -> wf_arr depth ->
  ((exists e, inrange (adims depth) e /\ negative (at_ depth e)) \/
   (exists e, inrange (adims levels) e /\ (negative (at_ levels e) \/ at_ levels e = NaN)) \/
   (exists e, inrange (adims interfaces) e /\ (negative (at_ interfaces e) \/ at_ interfaces e = NaN))) ->
  calc_dz levels interfaces depth top bottom fr = Err AssertionError.
Proof.
  intros Wl Wi Wd H. unfold calc_dz.
  destruct (aall fge0 (amap (fun v => fillna v (Fin 0)) depth)) eqn:E1; [|reflexivity].
  cbn [assert_ bind].
  destruct (aall fge0 levels) eqn:E2; [|reflexivity]. cbn [assert_ bind].
  destruct (aall fge0 interfaces) eqn:E3; [|reflexivity]. exfalso.
  destruct H as [(e & He & Hv)|[(e & He & Hv)|(e & He & Hv)]].
  - assert (H1 := proj1 (aall_spec _ _ (wf_amap _ _ Wd)) E1 e He). cbn in H1.
    assert (F : fge0 (fillna (at_ depth e) (Fin 0)) = false).
    { apply fge0_false. destruct Hv as [Hv|(x & Hv & Hx)]; rewrite Hv; cbn; [auto|right; right; eauto]. }
    congruence.
  - assert (H1 := proj1 (aall_spec _ _ Wl) E2 e He).
    assert (F : fge0 (at_ levels e) = false) by (apply fge0_false; unfold negative in Hv; tauto). congruence.
  - assert (H1 := proj1 (aall_spec _ _ Wi) E3 e He).
    assert (F : fge0 (at_ interfaces e) = false) by (apply fge0_false; unfold negative in Hv; tauto). congruence.
Qed.

Lemma dz_mismatch levels interfaces depth top bottom fr z n zi ni :
  adims levels = [(z, n)] -> adims interfaces = [(zi, ni)] -> (ni - 1)%nat <> n ->
  is_ok (calc_dz levels interfaces depth top bottom fr) = false.
Proof.
  intros Hl Hi Hn. destruct (calc_dz levels interfaces depth top bottom fr) eqn:E; [|reflexivity].
  apply calc_dz_inv in E as (_ & z' & n' & zi' & ni' & El & Ei & Hn' & _).
  rewrite Hl in El. rewrite Hi in Ei. congruence.
Qed.

Lemma agree_compatible d1 d2 : NoDup (map fst d1) -> dims_agree d1 d2 -> compatible d1 d2 = true.
Proof. intros H. apply compatible_agree, H. Qed.

Lemma dz_accept levels interfaces depth top bottom fr z n zi :
  wf_arr levels -> wf_arr interfaces -> wf_arr depth ->
  adims levels = [(z, n)] -> adims interfaces = [(zi, S n)] -> ~ In z (names depth) ->
  (forall e, inrange (adims depth) e -> ~ negative (at_ depth e)) ->
  (forall e, inrange (adims levels) e -> ~ negative (at_ levels e) /\ at_ levels e <> NaN) ->
  (forall e, inrange (adims interfaces) e -> ~ negative (at_ interfaces e) /\ at_ interfaces e <> NaN) ->
  is_ok (calc_dz levels interfaces depth top bottom fr) = true.
Proof.
  intros Wl Wi Wd Hl Hi Hz Hd Hlv Hiv. unfold calc_dz.
  assert (E1 : aall fge0 (amap (fun v => fillna v (Fin 0)) depth) = true).
  { apply aall_spec; [apply wf_amap, Wd|]. intros e He. cbn. specialize (Hd e He).
    destruct (fge0 (fillna (at_ depth e) (Fin 0))) eqn:E; [reflexivity|]. exfalso.
    apply fge0_false in E. destruct (at_ depth e) as [|s|x]; cbn in E.
    - destruct E as [E|[E|(x & E & Hx)]]; try discriminate. injection E as <-. lra.
    - destruct E as [E|E]; [discriminate|]. apply Hd; exact E.
    - destruct E as [E|E]; [discriminate|]. apply Hd; exact E. }
  assert (E2 : aall fge0 levels = true).
  { apply aall_spec; [exact Wl|]. intros e He. destruct (Hlv e He) as [H1 H2].
    destruct (fge0 (at_ levels e)) eqn:E; [reflexivity|]. apply fge0_false in E. unfold negative in H1. tauto. }
  assert (E3 : aall fge0 interfaces = true).
  { apply aall_spec; [exact Wi|]. intros e He. destruct (Hiv e He) as [H1 H2].
    destruct (fge0 (at_ interfaces e)) eqn:E; [reflexivity|]. apply fge0_false in E. unfold negative in H1. tauto. }
  rewrite E1, E2, E3. cbn [assert_ bind]. rewrite Hl, Hi.
  replace (S n - 1)%nat with n by lia. rewrite Nat.eqb_refl.
  assert (Ed : adims (match bottom with
                | Some b => const_r fmin (amap (fun v => fillna v (Fin 0)) depth) b
                | None => amap (fun v => fillna v (Fin 0)) depth end) = adims depth)
    by (destruct bottom; reflexivity).
  revert Ed.
  generalize (match bottom with
                | Some b => const_r fmin (amap (fun v => fillna v (Fin 0)) depth) b
                | None => amap (fun v => fillna v (Fin 0)) depth end).
  intros dep Ed. destruct Wd as [Nd _]. unfold names in Nd, Hz.
  assert (NL : NoDup (map fst (adims levels))) by (apply Wl).
  assert (Nz : NoDup (map fst [(z, n)])) by (rewrite Hl in NL; exact NL).
  (* all the dimension lists agree *)
  set (all := (z, n) :: adims depth).
  assert (AA : forall x y, incl x all -> incl y all -> dims_agree x y).
  { intros x y Hx Hy d m m' H1 H2. apply Hx in H1. apply Hy in H2.
    assert (Na : NoDup (map fst all)) by (constructor; assumption).
    apply In_dget in H1; [|exact Na]. apply In_dget in H2; [|exact Na]. congruence. }
  assert (I1 : incl (adims depth) all) by (intros p Hp; right; exact Hp).
  assert (I2 : incl [(z, n)] all) by (intros p [<-|[]]; left; reflexivity).
  assert (IU : forall x y, incl x all -> incl y all -> incl (union_dims x y) all)
    by (intros x y Hx Hy p Hp; apply union_In in Hp as [Hp|Hp]; auto).
  assert (NU := union_NoDup).
  unfold broadcast_second, broadcast_like. rewrite Ed, Hl.
  cbn [adims]. rewrite (agree_compatible (adims depth) [(z, n)]) by auto. cbn [bind].
  rewrite (agree_compatible [(z, n)] (adims depth)) by auto. cbn [bind adims amap].
  unfold asub, amin, adiv, amap2, clip0, const_r. cbn [adims amap].
  repeat (rewrite agree_compatible by auto 12; cbn [bind adims amap]).
  destruct fr; [|reflexivity].
  repeat (rewrite agree_compatible by auto 12; cbn [bind adims amap]). reflexivity.
Qed.
