(** * ProofsAlign: arrays with equal labels need no alignment *)
From Coq Require Import Reals ZArith List String Bool Arith Lia.
From Verif Require Import Num NumFacts Py Arr ArrFacts Eos Derived Dataset ProofsUtil Align.
Import ListNotations.
Local Open Scope string_scope.

Lemma zlist_eqb_eq : forall l l', zlist_eqb l l' = true <-> l = l'.
Proof.
  induction l as [|x l IH]; intros [|y l']; cbn; split; try reflexivity; try discriminate.
  - intros H. apply andb_true_iff in H. destruct H as [A B]. apply Z.eqb_eq in A. apply IH in B. congruence.
  - intros H. injection H as -> ->. rewrite Z.eqb_refl. apply IH. reflexivity.
Qed.

Lemma reindex_nil a : reindex [] a = a.
Proof.
  destruct a as [[ds v] l]. unfold reindex; cbn [la lab adims at_ dget]. f_equal; [f_equal|]; apply map_id.
Qed.

(** Labels drawn from one assignment [G] of labels to dimensions. *)
Definition drawn (G : string -> option (list Z)) (l : labels) : Prop := forall d x, In (d, x) l -> G d = Some x.

Lemma dget_In' {A} k (l : dict A) v : dget k l = Some v -> In (k, v) l.
Proof.
  induction l as [|[k' w] l IH]; [discriminate|]. cbn. destruct (String.eqb_spec k k') as [->|N].
  - intros H; injection H as ->. left; reflexivity.
  - intros H. right; apply IH, H.
Qed.

Lemma joined_drawn G a b : drawn G a -> drawn G b -> joined a b = [].
Proof.
  intros A B. unfold joined. induction a as [|[d l] a IH]; [reflexivity|]. cbn [flat_map fst snd].
  rewrite IH by (intros d' x I; apply A; right; exact I). rewrite app_nil_r.
  destruct (dget d b) as [l'|] eqn:E; [|reflexivity].
  apply dget_In' in E. apply B in E. rewrite (A d l (or_introl eq_refl)) in E. injection E as ->.
  rewrite (proj2 (zlist_eqb_eq l' l') eq_refl). reflexivity.
Qed.

Lemma drawn_merge G a b : drawn G a -> drawn G b -> drawn G (merge_labels a b).
Proof.
  intros A B d x I. unfold merge_labels in I. apply in_app_or in I. destruct I as [I|I]; [apply A, I|].
  apply filter_In in I. apply B, I.
Qed.
Lemma drawn_filter G f a : drawn G a -> drawn G (filter f a).
Proof. intros A d x I. apply filter_In in I. apply A, I. Qed.

(** The labelled computation [r] agrees with the plain one [r']. *)
Definition same (G : string -> option (list Z)) (r : res larr) (r' : res arr) : Prop :=
  match r, r' with
  | Ok a, Ok a' => la a = a' /\ drawn G (lab a)
  | Err e, Err e' => e = e'
  | _, _ => False
  end.

Lemma same_bind G {A A'} (r : res larr) r' (f : larr -> res A) (f' : arr -> res A') (Q : res A -> res A' -> Prop) :
  same G r r' -> (forall e, Q (Err e) (Err e)) ->
  (forall a, drawn G (lab a) -> Q (f a) (f' (la a))) -> Q (bind r f) (bind r' f').
Proof.
  intros H E K. destruct r as [a|e], r' as [a'|e']; cbn in H; try contradiction.
  - destruct H as [<- D]. apply K, D.
  - subst. apply E.
Qed.

Lemma linner_same G f a b : drawn G (lab a) -> drawn G (lab b) -> same G (linner f a b) (amap2 f (la a) (la b)).
Proof.
  intros A B. unfold linner. rewrite (joined_drawn G) by assumption. cbv zeta. rewrite !reindex_nil.
  destruct (amap2 f (la a) (la b)); cbn; [|reflexivity]. split; [reflexivity|apply drawn_merge; assumption].
Qed.

Lemma lexact_same G a b : drawn G a -> drawn G b -> lexact a b = Ok tt.
Proof. intros A B. unfold lexact. rewrite (joined_drawn G) by assumption. reflexivity. Qed.

Lemma ld_get_same G n D : drawn G (ld_lab D) -> same G (ld_get n D) (ds_get n (ld_vars D)).
Proof.
  intros H. unfold ld_get. destruct (ds_get n (ld_vars D)); cbn; [|reflexivity].
  split; [reflexivity|apply drawn_filter, H].
Qed.

Lemma lift1_same G f a : drawn G (lab a) -> same G (lift1 f a) (f (la a)).
Proof.
  intros H. unfold lift1. destruct (f (la a)); cbn; [|reflexivity]. split; [reflexivity|apply drawn_filter, H].
Qed.

Lemma lcalc_rho_same G t s p eos : drawn G (lab t) -> drawn G (lab s) -> drawn G (lab p) ->
  same G (lcalc_rho t s p eos) (calc_rho (la t) (la s) (la p) eos).
Proof.
  intros A B C. unfold lcalc_rho, calc_rho. destruct (eos_func_from_str eos FDensity) as [f|]; cbn [bind]; [|reflexivity].
  rewrite (lexact_same G) by assumption. cbn [bind]. rewrite (lexact_same G) by (try apply drawn_merge; assumption). cbn [bind].
  destruct (eos_ufunc false f (la t) (la s) (la p)); cbn; [|reflexivity].
  split; [reflexivity|repeat apply drawn_merge; assumption].
Qed.

Lemma lcalc_masso_same G r v t : drawn G (lab r) -> drawn G (lab v) -> same G (lcalc_masso r v t) (calc_masso (la r) (la v) t).
Proof.
  intros A B. unfold lcalc_masso, calc_masso, amul.
  apply (same_bind G _ _ _ _ (same G)); [apply linner_same; assumption|reflexivity|].
  intros a D. cbv zeta. apply lift1_same, D.
Qed.

(** Results by name. *)
Definition same_dict (G : string -> option (list Z)) (r : res (dict larr)) (r' : res (dict arr)) : Prop :=
  match r, r' with
  | Ok a, Ok a' => map (fun p => (fst p, la (snd p))) a = a' /\ forall k x, In (k, x) a -> drawn G (lab x)
  | Err e, Err e' => e = e'
  | _, _ => False
  end.

Ltac step G := match goal with
  | |- same_dict _ (bind (linner _ _ _) _) _ => apply (same_bind G _ _ _ _ (same_dict G)); [apply linner_same; assumption|reflexivity|intros ? ?]
  | |- same_dict _ (bind (ld_get _ _) _) _ => apply (same_bind G _ _ _ _ (same_dict G)); [apply ld_get_same; assumption|reflexivity|intros ? ?]
  | |- same_dict _ (bind (lcalc_masso _ _ _) _) _ => apply (same_bind G _ _ _ _ (same_dict G)); [apply lcalc_masso_same; assumption|reflexivity|intros ? ?]
  | |- same_dict _ (bind (lift1 _ _) _) _ => apply (same_bind G _ _ _ _ (same_dict G)); [apply lift1_same; try assumption; cbn [lab]; try apply drawn_merge; assumption|reflexivity|intros ? ?]
  end.

Lemma lift1_ok G g a : drawn G (lab a) -> exists l, lift1 (fun x => Ok (g x)) a = Ok (mkL (g (la a)) l) /\ drawn G l.
Proof. intros D. eexists. split; [reflexivity|]. apply drawn_filter, D. Qed.

Lemma global_same G R rho variant t : drawn G (ld_lab R) -> drawn G (lab rho) ->
  same_dict G (lsteric_global R rho variant t) (steric_global (ld_vars R) (la rho) variant t).
Proof.
  intros HR Hr. unfold lsteric_global, steric_global, adiv, amul. cbv zeta.
  do 6 step G.
  match goal with |- context [lift1 (fun x => Ok (amap fln x)) ?a] => destruct (lift1_ok G (amap fln) a ltac:(assumption)) as (l1 & -> & D1) end.
  cbn [bind]. step G.
  match goal with |- context [lift1 (fun x => Ok (asum_all x)) ?a] => destruct (lift1_ok G asum_all a ltac:(assumption)) as (l2 & -> & D2) end.
  cbn [bind].
  match goal with |- same_dict _ (bind (linner fdiv ?v (mkL ?w ?l)) _) _ => change w with (la (mkL w l)) at 2 end.
  apply (same_bind G _ _ _ _ (same_dict G)); [apply linner_same; [assumption|exact D2]|reflexivity|intros h Dh].
  match goal with |- same_dict _ (bind (linner fmul ?v (mkL ?w ?l)) _) _ => change w with (la (mkL w l)) at 2 end.
  apply (same_bind G _ _ _ _ (same_dict G)); [apply linner_same; [assumption|exact D1]|reflexivity|intros s Ds].
  split; [reflexivity|]. intros k x [I|[I|[]]]; injection I as <- <-; assumption.
Qed.

Lemma local_same G D R rho rz variant t z zb : drawn G (ld_lab D) -> drawn G (ld_lab R) -> drawn G (lab rho) ->
  same_dict G (lsteric_local D R rho rz variant t z zb) (steric_local (ld_vars D) (ld_vars R) (la rho) rz variant t z zb).
Proof.
  intros HD HR Hr. unfold lsteric_local, steric_local, asub, amul. cbv zeta.
  step G. step G. step G. rewrite (lexact_same G) by assumption. cbn [bind].
  match goal with |- same_dict _ (bind ?r _) (bind ?r _) => destruct r as [dl|]; [|reflexivity] end. cbn [bind].
  match goal with |- same_dict _ (bind (lift1 (transpose_first t) (mkL ?w ?l)) _) _ => change w with (la (mkL w l)) at 2 end.
  step G. step G. step G. step G.
  match goal with |- same_dict _ (bind ?r _) (bind ?r _) => destruct r as [dz|]; [|reflexivity] end. cbn [bind].
  match goal with |- same_dict _ (bind ?r _) (bind ?r _) => destruct r as [fact|]; [|reflexivity] end. cbn [bind].
  match goal with |- same_dict _ (bind (linner fmul (mkL ?w ?l) _) _) _ => change (amap2 fmul w) with (amap2 fmul (la (mkL w l))) end.
  apply (same_bind G _ _ _ _ (same_dict G)); [apply linner_same; [apply drawn_filter, HD|assumption]|reflexivity|intros p Dp].
  step G.
  match goal with |- context [lift1 (fun x => Ok (const_l fmul fact x)) ?a] => destruct (lift1_ok G (const_l fmul fact) a ltac:(assumption)) as (l1 & -> & D1) end.
  cbn [bind].
  match goal with |- same_dict _ (bind (lift1 (transpose_first t) (mkL ?w ?l)) _) _ => change w with (la (mkL w l)) at 2 end.
  apply (same_bind G _ _ _ _ (same_dict G)); [apply lift1_same; exact D1|reflexivity|intros sl Dsl].
  step G. unfold where_method.
  match goal with |- same_dict _ (bind (linner ?f ?x (mkL ?w ?l)) _) _ => change w with (la (mkL w l)) at 2 end.
  apply (same_bind G _ _ _ _ (same_dict G)); [apply linner_same; [assumption|cbn [lab]; assumption]|reflexivity|intros mk Dmk].
  split; [reflexivity|]. intros k x [I|[I|[]]]; injection I as <- <-; assumption.
Qed.
