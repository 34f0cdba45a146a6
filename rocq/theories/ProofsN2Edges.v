(** * ProofsN2Edges: lemmas for C85 - C88 (proofs only) *)
From Coq Require Import Reals Lra Lia List String Bool Arith.
From Verif Require Import Num NumFacts Py Arr ArrFacts Eos SpecEos SpecN2 Derived N2Edges ProofsEos ProofsEosBox ProofsEosApi
  ProofsFields ProofsFields2 ProofsFields3 ProofsN2.
Import ListNotations.
Local Open Scope R_scope.

(** ** Interpolation *)
Lemma feqb_Fin x y : feqb (Fin x) (Fin y) = Reqb x y.
Proof. reflexivity. Qed.
Lemma fltb_Fin x y : fltb (Fin x) (Fin y) = Rltb x y.
Proof. reflexivity. Qed.

Lemma increasing_lt n x : (forall i, (S i < n)%nat -> x i < x (S i)) ->
  forall i j, (i < j)%nat -> (j < n)%nat -> x i < x j.
Proof.
  intros H i j Hij. induction Hij as [|j Hij IH]; intros Hj; [apply H; exact Hj|].
  apply Rlt_trans with (x j); [apply IH; lia | apply H; exact Hj].
Qed.

Lemma locate_ext n x y v : (forall i, (i < n)%nat -> x i = y i) -> locate n x v = locate n y v.
Proof. induction n; intros H; simpl; [reflexivity|]. rewrite H, IHn by auto. reflexivity. Qed.
Lemma interp1_ext n x y f v : (forall i, (i < n)%nat -> x i = y i) -> interp1 n x f v = interp1 n y f v.
Proof.
  intros H. unfold interp1. rewrite (locate_ext _ _ _ _ H).
  assert (L : forall m j, locate m y v = Some j -> (j < m)%nat).
  { clear. induction m; simpl; intros j; [discriminate|]. destruct (fleb (y m) v); [intros [=]; lia|].
    intros E. apply IHm in E. lia. }
  destruct (locate n y v) as [j|] eqn:E; [|reflexivity]. apply L in E.
  rewrite H by exact E. destruct (feqb (y j) v); [reflexivity|].
  destruct (Nat.eqb_spec (S j) n); [reflexivity|]. rewrite (H (S j)) by lia. reflexivity.
Qed.

Section Incr.
Context (n : nat) (x : nat -> R) (Hx : forall i, (S i < n)%nat -> x i < x (S i)).
Let fx := fun i => Fin (x i).

Lemma locate_some m j v : (m <= n)%nat -> (j < m)%nat -> x j <= v ->
  (forall i, (j < i < m)%nat -> v < x i) -> locate m fx (Fin v) = Some j.
Proof.
  induction m as [|m IH]; intros Hm Hj H1 H2; [lia|]. cbn [locate]. unfold fx at 1. rewrite fleb_Fin.
  destruct (Nat.eq_dec j m) as [->|Hne].
  - apply Rleb_true in H1. rewrite H1. reflexivity.
  - assert (G : Rleb (x m) v = false) by (apply Rleb_false, H2; lia).
    rewrite G. apply IH; try lia; [exact H1|]. intros i Hi. apply H2. lia.
Qed.
Lemma locate_none m v : (forall i, (i < m)%nat -> v < x i) -> locate m fx (Fin v) = None.
Proof.
  induction m as [|m IH]; intros H; [reflexivity|]. cbn [locate]. unfold fx at 1. rewrite fleb_Fin.
  assert (G : Rleb (x m) v = false) by (apply Rleb_false, H; lia). rewrite G. apply IH. auto.
Qed.

Lemma interp1_node f j : (j < n)%nat -> interp1 n fx f (Fin (x j)) = f j.
Proof.
  intros Hj. unfold interp1. rewrite (locate_some n j) by
    (first [lia | lra | intros i Hi; apply (increasing_lt n x Hx); lia]).
  unfold fx. rewrite feqb_Fin, Reqb_refl. reflexivity.
Qed.
Lemma interp1_between f j v : (S j < n)%nat -> x j < v < x (S j) ->
  interp1 n fx f (Fin v) =
  fadd (fmul (fdiv (fsub (f (S j)) (f j)) (Fin (x (S j) - x j))) (Fin (v - x j))) (f j).
Proof.
  intros Hj [H1 H2]. unfold interp1. rewrite (locate_some n j); try lia; [|lra|].
  - unfold fx. rewrite feqb_Fin. assert (E : Reqb (x j) v = false) by (apply Reqb_false; lra). rewrite E.
    destruct (Nat.eqb_spec (S j) n); [lia|]. reflexivity.
  - intros i Hi. destruct (Nat.eq_dec i (S j)) as [->|]; [exact H2|].
    apply Rlt_trans with (x (S j)); [exact H2|]. apply (increasing_lt n x Hx); lia.
Qed.
Lemma interp1_outside f v : (0 < n)%nat -> v < x O \/ x (n - 1)%nat < v -> interp1 n fx f (Fin v) = NaN.
Proof.
  intros Hn [H|H]; unfold interp1.
  - rewrite locate_none; [reflexivity|]. intros [|i] Hi; [exact H|].
    apply Rlt_trans with (x O); [exact H|]. apply (increasing_lt n x Hx); lia.
  - rewrite (locate_some n (n - 1)); try lia; [|lra].
    unfold fx. rewrite feqb_Fin. assert (E : Reqb (x (n - 1)%nat) v = false) by (apply Reqb_false; lra). rewrite E.
    destruct (Nat.eqb_spec (S (n - 1)) n); [reflexivity|lia].
Qed.
End Incr.

Section Mono.
Context (n : nat) (x : nat -> R) (Hx : strictly_monotone n x) (Hn : (0 < n)%nat).
Let fx := fun i => Fin (x i).

Lemma interp_levels_cases f v :
  ((forall i, (S i < n)%nat -> x i < x (S i)) /\ interp_levels n fx f v = interp1 n fx f v) \/
  ((forall i, (S i < n)%nat -> x (S i) < x i) /\
   interp_levels n fx f v = interp1 n (fun k => Fin (x (n - 1 - k)%nat)) (flip n f) v).
Proof.
  unfold interp_levels, fx. rewrite fltb_Fin.
  destruct Hx as [H|H].
  - left. split; [exact H|]. assert (E : Rltb (x (n - 1)%nat) (x O) = false).
    { apply Rltb_false. destruct (Nat.eq_dec n 1) as [->|]; [simpl; lra|].
      left. apply (increasing_lt n x H); lia. }
    rewrite E. reflexivity.
  - destruct (Nat.eq_dec n 1) as [->|Hn1].
    + left. split; [intros; lia|]. assert (E : Rltb (x (1 - 1)%nat) (x O) = false) by (apply Rltb_false; simpl; lra).
      rewrite E. reflexivity.
    + right. split; [exact H|]. assert (E : Rltb (x (n - 1)%nat) (x O) = true).
      { apply Rltb_true. apply Ropp_lt_cancel. apply (increasing_lt n (fun i => - x i)); [|lia|lia].
        intros i Hi. apply Ropp_lt_contravar, H, Hi. }
      rewrite E. reflexivity.
Qed.
Lemma flip_increasing : (forall i, (S i < n)%nat -> x (S i) < x i) ->
  forall i, (S i < n)%nat -> x (n - 1 - i)%nat < x (n - 1 - S i)%nat.
Proof. intros H i Hi. replace (n - 1 - i)%nat with (S (n - 1 - S i)) by lia. apply H. lia. Qed.

Lemma interp_node f j : (j < n)%nat -> interp_levels n fx f (Fin (x j)) = f j.
Proof.
  intros Hj. destruct (interp_levels_cases f (Fin (x j))) as [[H ->]|[H ->]]; unfold fx.
  - apply interp1_node; assumption.
  - assert (F := flip_increasing H). assert (K := interp1_node n (fun i => x (n - 1 - i)%nat) F (flip n f) (n - 1 - j)%nat).
    cbv beta in K. unfold flip in *. replace (n - 1 - (n - 1 - j))%nat with j in K by lia. apply K. lia.
Qed.
Lemma interp_chord f j v w a b : (S j < n)%nat -> f j = Fin a -> f (S j) = Fin b -> 0 <= w <= 1 ->
  v = x j + w * (x (S j) - x j) -> interp_levels n fx f (Fin v) = Fin (a + w * (b - a)).
Proof.
  intros Hj Ha Hb Hw Hv.
  assert (Hd : x (S j) - x j <> 0) by (destruct Hx as [H|H]; specialize (H j Hj); lra).
  destruct (Req_dec w 0) as [->|W0].
  { replace v with (x j) by lra. rewrite interp_node by lia. rewrite Ha. f_equal. lra. }
  destruct (Req_dec w 1) as [->|W1].
  { replace v with (x (S j)) by lra. rewrite interp_node by lia. rewrite Hb. f_equal. lra. }
  destruct (interp_levels_cases f (Fin v)) as [[H ->]|[H ->]]; unfold fx.
  - specialize (H j Hj). rewrite (interp1_between n x) with (j := j);
      [| |exact Hj|subst v; split; nra].
    2:{ destruct Hx as [G|G]; [exact G|]. specialize (G j Hj). lra. }
    rewrite Ha, Hb. cbn [fsub fadd fopp]. rewrite fdiv_Fin by lra. cbn [fmul fadd]. f_equal.
    subst v. field. lra.
  - assert (F := flip_increasing H).
    rewrite (interp1_between n (fun i => x (n - 1 - i)%nat) F (flip n f) (n - 2 - j)%nat v); [|lia|].
    + unfold flip. replace (n - 1 - S (n - 2 - j))%nat with j by lia.
      replace (n - 1 - (n - 2 - j))%nat with (S j) by lia.
      rewrite Ha, Hb. cbn [fsub fadd fopp]. rewrite fdiv_Fin by lra. cbn [fmul fadd]. f_equal.
      subst v. field. lra.
    + replace (n - 1 - S (n - 2 - j))%nat with j by lia.
      replace (n - 1 - (n - 2 - j))%nat with (S j) by lia. specialize (H j Hj). subst v. split; nra.
Qed.
Lemma interp_missing f j v : (S j < n)%nat -> x j < v < x (S j) \/ x (S j) < v < x j ->
  f j = NaN \/ f (S j) = NaN -> interp_levels n fx f (Fin v) = NaN.
Proof.
  intros Hj Hv Hf. destruct (interp_levels_cases f (Fin v)) as [[H ->]|[H ->]]; unfold fx.
  - rewrite (interp1_between n x H f j v Hj) by (specialize (H j Hj); lra).
    destruct Hf as [-> | ->]; autorewrite with nan; reflexivity.
  - assert (F := flip_increasing H).
    rewrite (interp1_between n (fun i => x (n - 1 - i)%nat) F (flip n f) (n - 2 - j)%nat v); [|lia|].
    + unfold flip. replace (n - 1 - S (n - 2 - j))%nat with j by lia.
      replace (n - 1 - (n - 2 - j))%nat with (S j) by lia.
      destruct Hf as [-> | ->]; autorewrite with nan; reflexivity.
    + replace (n - 1 - S (n - 2 - j))%nat with j by lia.
      replace (n - 1 - (n - 2 - j))%nat with (S j) by lia. specialize (H j Hj). lra.
Qed.
Lemma interp_outside f v : (forall j, (j < n)%nat -> v < x j) \/ (forall j, (j < n)%nat -> x j < v) ->
  interp_levels n fx f (Fin v) = NaN.
Proof.
  intros Hv. destruct (interp_levels_cases f (Fin v)) as [[H ->]|[H ->]]; unfold fx.
  - apply (interp1_outside n x H f v Hn). destruct Hv as [Hv|Hv]; [left|right]; apply Hv; lia.
  - apply (interp1_outside n (fun i => x (n - 1 - i)%nat) (flip_increasing H) (flip n f) v Hn).
    destruct Hv as [Hv|Hv]; [left|right]; apply Hv; lia.
Qed.
(** An affine column is reproduced everywhere between the end levels. *)
Lemma interp_affine f a b v : (forall j, (j < n)%nat -> f j = Fin (a + b * x j)) ->
  (exists i j, (i < n)%nat /\ (j < n)%nat /\ x i <= v <= x j) -> interp_levels n fx f (Fin v) = Fin (a + b * v).
Proof.
  intros Hf (i & j & Hi & Hj & Hv).
  assert (B : (exists k, (k < n)%nat /\ v = x k) \/
              (exists k, (S k < n)%nat /\ (x k < v < x (S k) \/ x (S k) < v < x k))).
  { clear f Hf. clear Hx fx. revert i j Hi Hj Hv.
    assert (Q : forall m, (m <= n)%nat -> forall i j, (i < m)%nat -> (j < m)%nat -> x i <= v <= x j ->
       (exists k, (k < n)%nat /\ v = x k) \/
       (exists k, (S k < n)%nat /\ (x k < v < x (S k) \/ x (S k) < v < x k))).
    { induction m as [|m IH]; intros Hm i j Hi Hj Hv; [lia|].
      destruct m as [|m].
      { left. exists O. split; [lia|]. assert (i = O) by lia. assert (j = O) by lia. subst. lra. }
      destruct (Req_dec v (x (S m))) as [E|NE]; [left; exists (S m); split; [lia|exact E]|].
      destruct (Rlt_dec (x m) v) as [L|L]; destruct (Rlt_dec (x (S m)) v) as [L'|L'].
      - assert (j <> S m) by (intros ->; lra).
        destruct (Nat.eq_dec i (S m)) as [->|].
        + apply (IH ltac:(lia) m j); try lia. lra.
        + apply (IH ltac:(lia) i j); try lia. lra.
      - right. exists m. split; [lia|]. left. lra.
      - destruct (Req_dec v (x m)) as [E|NE']; [left; exists m; split; [lia|exact E]|].
        right. exists m. split; [lia|]. right. lra.
      - assert (i <> S m) by (intros ->; lra).
        destruct (Nat.eq_dec j (S m)) as [->|].
        + apply (IH ltac:(lia) i m); try lia. lra.
        + apply (IH ltac:(lia) i j); try lia. lra. }
    intros i j Hi Hj Hv. exact (Q n (le_n n) i j Hi Hj Hv). }
  destruct B as [(k & Hk & ->)|(k & Hk & Hv')].
  - rewrite interp_node by exact Hk. apply Hf, Hk.
  - assert (D : x (S k) - x k <> 0) by lra.
    rewrite (interp_chord f k v ((v - x k) / (x (S k) - x k)) (a + b * x k) (a + b * x (S k)) Hk);
      [|apply Hf; lia|apply Hf; lia| |field; exact D].
    + f_equal. field. exact D.
    + destruct Hv' as [Hv'|Hv'].
      * split; [apply Rlt_le, Rdiv_lt_0_compat; lra|]. apply Rmult_le_reg_r with (x (S k) - x k); [lra|]. field_simplify; lra.
      * replace ((v - x k) / (x (S k) - x k)) with ((x k - v) / (x k - x (S k))) by (field; lra).
        split; [apply Rlt_le, Rdiv_lt_0_compat; lra|]. apply Rmult_le_reg_r with (x k - x (S k)); [lra|]. field_simplify; lra.
Qed.
End Mono.

(** ** Derivatives next to missing values *)
Lemma grad_local n x f g k : (0 < k)%nat -> (S k < n)%nat ->
  f (k - 1)%nat = g (k - 1)%nat -> f k = g k -> f (k + 1)%nat = g (k + 1)%nat ->
  grad_col n x f k = grad_col n x g k.
Proof.
  intros H0 Hn E1 E2 E3. unfold grad_col. destruct (Nat.eqb_spec k 0); [lia|].
  destruct (Nat.eqb_spec k (n - 1)); [lia|].
  unfold grad_uniform, grad_interior.
  rewrite ?E1, ?E2, ?E3. reflexivity.
Qed.
Lemma grad_missing n x f k : (3 <= n)%nat -> (k < n)%nat ->
  f k = NaN \/ ((0 < k)%nat /\ f (k - 1)%nat = NaN) \/ ((S k < n)%nat /\ f (S k) = NaN) ->
  ((0 < k)%nat /\ (S k < n)%nat -> f (k - 1)%nat = NaN \/ f (S k) = NaN) ->
  grad_col n x f k = NaN.
Proof.
  intros Hn Hk H H'. unfold grad_col. destruct (Nat.eqb_spec k 0) as [->|K0].
  - unfold grad_first. destruct H as [H|[[H _]|[_ H]]]; [|lia|]; rewrite H; autorewrite with nan; reflexivity.
  - destruct (Nat.eqb_spec k (n - 1)) as [->|Kn].
    + unfold grad_last. destruct H as [H|[[_ H]|[H _]]]; [| |lia].
      * rewrite H; autorewrite with nan; reflexivity.
      * replace (n - 1 - 1)%nat with (n - 2)%nat in H by lia. rewrite H; autorewrite with nan; reflexivity.
    + assert (A : f (k - 1)%nat = NaN \/ f (S k) = NaN) by (apply H'; lia).
      rewrite <- (Nat.add_1_r k) in A. unfold grad_uniform, grad_interior.
      destruct (uniform_spacing n x); destruct A as [A|A]; rewrite A; autorewrite with nan; reflexivity.
Qed.

(** ** The transformed array *)
Lemma transform_inv zc lv zi ni iv a r : transform_z zc lv zi ni iv a = Ok r ->
  exists n, dget zc (adims a) = Some n /\ ~ In zi (names a) /\
    adims r = (drop_dim zc (adims a) ++ [(zi, ni)])%list /\
    forall e, at_ r e = interp_levels n lv (fun k => at_ a (upd e zc k)) (iv (e zi)).
Proof.
  unfold transform_z. destruct (dget zc (adims a)) as [n|]; [|discriminate].
  destruct (has_dim zi a) eqn:E; [discriminate|]. intros [= <-]. exists n.
  split; [reflexivity|]. split; [|split; [reflexivity|reflexivity]].
  intros C. unfold has_dim, dmem in E. unfold names in C.
  destruct (dget zi (adims a)) eqn:G; [discriminate|].
  apply in_map_iff in C as ([d m] & Hd & Hin). simpl in Hd. subst d.
  clear -Hin G. induction (adims a) as [|[k v] l IH]; [destruct Hin|]. simpl in G.
  destruct (String.eqb_spec zi k) as [->|N]; [discriminate|]. destruct Hin as [[= -> _]|Hin]; [congruence|auto].
Qed.
Lemma dget_last k v (l : list (string * nat)) : ~ In k (map fst l) -> dget k (l ++ [(k, v)]) = Some v.
Proof.
  induction l as [|[a b] l IH]; simpl; intros H; [now rewrite String.eqb_refl|].
  destruct (String.eqb_spec k a) as [->|]; [tauto|]. apply IH. tauto.
Qed.
Lemma drop_dim_sub d k l : In k (map fst (drop_dim d l)) -> In k (map fst l) /\ k <> d.
Proof.
  unfold drop_dim. intros H. apply in_map_iff in H as ([a b] & <- & H). apply filter_In in H as [H N]. simpl in *.
  split; [apply in_map_iff; exists (a, b); auto|]. intros ->. rewrite String.eqb_refl in N. discriminate.
Qed.
Lemma transform_size zc lv zi ni iv a r : transform_z zc lv zi ni iv a = Ok r -> dget zi (adims r) = Some ni.
Proof.
  intros H. apply transform_inv in H as (n & _ & N & -> & _). apply dget_last. intros C.
  apply drop_dim_sub in C. apply N, C.
Qed.

(** ** Density along a line of temperature and salinity *)
Lemma cubic_at_0 c0 c1 c2 c3 f : (forall h, f h = c0 + c1 * h + c2 * h^2 + c3 * h^3) -> derivable_pt_lim f 0 c1.
Proof.
  intros E. eapply derivable_pt_lim_ext'; [intros t; symmetry; apply E|].
  assert (D := cubic_derivative c0 c1 c2 c3 0).
  assert (Z : c1 + 2 * c2 * 0 + 3 * c3 * 0 ^ 2 = c1) by ring. rewrite Z in D. exact D.
Qed.
Lemma wr_rho_directional T S p a b : wr_denom T S p <> 0 ->
  derivable_pt_lim (fun h => wr_rho (T + a * h) (S + b * h) p) 0 (a * wr_drho_dT T S p + b * wr_drho_dS T S p).
Proof.
  intros H.
  set (pT := 3.516535e6 - 2 * 4.002714e4 * T + 3 * 2.084372e2 * T^2 - 9.643486e3 * S).
  set (pS := 5.944068e5 - 9.643486e3 * T).
  set (lT := 7.904722e2 - 2 * 7.984422 * T + 3 * 5.140652e-2 * T^2 - 3.079464 * S).
  set (lS := - 2.302158e2 - 3.079464 * T).
  assert (DP : derivable_pt_lim (fun h => wr_p0 (T + a * h) (S + b * h)) 0 (a * pT + b * pS)).
  { apply (cubic_at_0 (wr_p0 T S) _ (a^2 * (- 4.002714e4 + 3 * 2.084372e2 * T) - 9.643486e3 * a * b) (2.084372e2 * a^3)).
    intros h. unfold wr_p0, pT, pS. dring. }
  assert (DL : derivable_pt_lim (fun h => wr_lambda (T + a * h) (S + b * h)) 0 (a * lT + b * lS)).
  { apply (cubic_at_0 (wr_lambda T S) _ (a^2 * (- 7.984422 + 3 * 5.140652e-2 * T) - 3.079464 * a * b) (5.140652e-2 * a^3)).
    intros h. unfold wr_lambda, lT, lS. dring. }
  assert (DA : derivable_pt_lim (fun h => wr_alpha0 (T + a * h) (S + b * h)) 0 (a * 3.480336e-7 - b * 1.112733e-7)).
  { apply (cubic_at_0 (wr_alpha0 T S) _ 0 0). intros h. unfold wr_alpha0. dring. }
  assert (E0 : wr_lambda (T + a * 0) (S + b * 0) + wr_alpha0 (T + a * 0) (S + b * 0) * (p + wr_p0 (T + a * 0) (S + b * 0)) <> 0)
    by (rewrite !Rmult_0_r, !Rplus_0_r; exact H).
  destruct (quotient_derivative _ _ _ p 0 _ _ _ DP DL DA E0) as [Q _].
  rewrite !Rmult_0_r, !Rplus_0_r in Q.
  match type of Q with derivable_pt_lim _ _ ?l => match goal with |- derivable_pt_lim _ _ ?m =>
    replace m with l; [exact Q|] end end.
  unfold wr_drho_dT, wr_drho_dS, wr_denom in *. fold pT pS lT. unfold lS.
  clearbody pT pS lT. dfield. exact H.
Qed.

Lemma wright_eos_inv fn ti t s p eos r : same_name eos "wright" ->
  (let* f := eos_func_from_str eos fn in eos_ufunc ti f t s p) = Ok r ->
  forall e, at_ r e = eos_apply ti (Wright, fn) (at_ t e) (at_ s e) (at_ p e).
Proof.
  intros Hn H e. apply bind_inv in H as ([m f] & Hf & H).
  apply (eos_resolves eos Wright fn) in Hn. rewrite Hn in Hf. injection Hf as <- <-.
  apply eos_ufunc_inv in H. subst r. reflexivity.
Qed.
Lemma wright_alpha_Fin T S p : ocean_box T S p ->
  wright_alpha (Fin T) (Fin S) (Fin p) = Fin (- (wr_drho_dT T S p / wr_rho T S p)).
Proof.
  intros H. assert (D := denom_pos T S p H). assert (B := rho_bounds T S p H). unfold wright_alpha.
  rewrite wright_drho_dtemp_Fin, wright_density_Fin by lra. rewrite fdiv_Fin by lra. cbn [fmul]. f_equal. lra.
Qed.
Lemma wright_beta_Fin T S p : ocean_box T S p ->
  wright_beta (Fin T) (Fin S) (Fin p) = Fin (wr_drho_dS T S p / wr_rho T S p).
Proof.
  intros H. assert (D := denom_pos T S p H). assert (B := rho_bounds T S p H). unfold wright_beta.
  rewrite wright_drho_dsal_Fin, wright_density_Fin by lra. rewrite fdiv_Fin by lra. reflexivity.
Qed.

Lemma n2_wright ti t s x eos g patm zc n r e T S dt ds a b pa :
  calc_n2 ti t s (fun i => Fin (x i)) eos (Fin g) patm zc false = Ok r -> same_name eos "wright" ->
  dget zc (adims t) = Some n -> at_ t e = Fin T -> at_ s e = Fin S -> at_ patm e = Fin pa ->
  differentiate zc (fun i => Fin (x i)) t = Ok dt -> at_ dt e = Fin a ->
  differentiate zc (fun i => Fin (x i)) s = Ok ds -> at_ ds e = Fin b ->
  let p := 10000 * x (e zc) + pa in ocean_box T S p ->
  exists D, derivable_pt_lim (fun h => wr_rho (T + a * h) (S + b * h) p) 0 D /\
    at_ r e = Fin (- (g / wr_rho T S p) * D).
Proof.
  intros H Hn Hd HT HS Hp Hdt Ha Hds Hb p Box.
  destruct (n2_unfold _ _ _ _ _ _ _ _ _ _ H Hd) as (pres & al & be & dt' & ds' & E1 & E2 & E3 & E4 & E5 & E6).
  rewrite Hdt in E4. apply (f_equal (fun r => match r with Ok v => v | Err _ => dt end)) in E4. simpl in E4. subst dt'.
  rewrite Hds in E5. apply (f_equal (fun r => match r with Ok v => v | Err _ => ds end)) in E5. simpl in E5. subst ds'.
  assert (P : at_ pres e = Fin p).
  { unfold pressure_from_depth in E1. apply amap2_inv in E1. subst pres. cbn [at_ const_r amap zarr]. rewrite Hp.
    cbn [fmul fadd]. f_equal. unfold p. lra. }
  assert (Dn := denom_pos T S p Box). assert (B := rho_bounds T S p Box).
  exists (a * wr_drho_dT T S p + b * wr_drho_dS T S p). split; [apply wr_rho_directional; lra|].
  rewrite E6, (wright_eos_inv _ _ _ _ _ _ _ Hn E2), (wright_eos_inv _ _ _ _ _ _ _ Hn E3), HT, HS, P, Ha, Hb.
  cbn [eos_apply]. rewrite wright_alpha_Fin, wright_beta_Fin by exact Box. cbn [fmul fsub fadd fopp]. f_equal.
  field. lra.
Qed.

Lemma interp_piecewise n x f v : strictly_monotone n x -> (0 < n)%nat ->
  piecewise_linear n x f v (interp_levels n (fun i => Fin (x i)) f (Fin v)).
Proof.
  intros Hx Hn. repeat split.
  - intros j Hj ->. apply interp_node; assumption.
  - intros j w a b Hj Ha Hb Hw Hv.
    rewrite (interp_chord n x Hx Hn f j v w a b Hj Ha Hb Hw) by lra. f_equal. lra.
  - intros j Hj Hv Hf. apply (interp_missing n x Hx Hn f j v Hj Hv Hf).
  - intros Hv. apply interp_outside; assumption.
Qed.

(** ** calc_n2 succeeds *)
Lemma n2_total ti t s z eos g zc n m pa :
  adims s = adims t -> NoDup (names t) -> dget zc (adims t) = Some n -> (3 <= n)%nat ->
  same_name eos (module_name m) ->
  exists r, calc_n2 ti t s z eos g (scalar pa) zc false = Ok r /\ adims r = adims t.
Proof.
  intros Es Nd Hd Hn Hm.
  assert (Nd' : NoDup (map fst (adims t))) by exact Nd.
  assert (U : union_dims (adims t) (adims t) = adims t) by (apply union_absorb; auto).
  assert (Cr := compatible_refl _ Nd').
  assert (Iz : In zc (map fst (adims t))) by (eapply dget_Some_mem; exact Hd).
  assert (U1 : union_dims (adims t) [(zc, n)] = adims t)
    by (apply union_absorb; intros x [<-|[]]; exact Iz).
  assert (C1 : compatible (adims t) [(zc, n)] = true) by (simpl; rewrite Hd, Nat.eqb_refl; reflexivity).
  assert (Al : forall fn p, adims p = [(zc, n)] -> exists v, (let* f := eos_func_from_str eos fn in eos_ufunc ti f t s p) = Ok (mkArr (adims t) v)).
  { intros fn p Hp. apply (eos_resolves eos m fn) in Hm. rewrite Hm. cbn [bind]. unfold eos_ufunc, amap3.
    rewrite Es, Hp, Cr, U, C1, U1. cbn [andb bind].
    assert (Sh : eos_shape_ok (fst (m, fn)) t s p = true).
    { unfold eos_shape_ok. cbn [fst]. destruct m; [reflexivity|]. cbv zeta. rewrite Es, Hp, U, U1.
      rewrite compat_shape_full; [apply list_nat_eqb_refl|].
      intros d Hin. rewrite map_app, in_app_iff. left. exact Hin. }
    rewrite Sh. eexists; reflexivity. }
  unfold calc_n2. rewrite Hd. cbn [bind]. unfold pressure_from_depth, aadd, amap2.
  cbn [adims scalar const_r amap zarr compatible forallb bind].
  match goal with |- context [calc_alpha ti t s ?p eos] => destruct (Al FAlpha p eq_refl) as [va Ea]; destruct (Al FBeta p eq_refl) as [vb Eb];
    unfold calc_alpha, calc_beta; rewrite Ea; cbn [bind]; rewrite Eb; cbn [bind] end.
  unfold differentiate. rewrite Es, Hd. destruct (Nat.ltb_spec n 3); [lia|]. cbn [bind].
  unfold amul, asub, amap2. cbn [adims]. rewrite Cr. cbn [bind adims]. rewrite U, Cr. cbn [bind].
  eexists. split; [reflexivity|]. cbn [adims const_l amap]. exact U.
Qed.

Lemma n2_adjust ti t s z eos g patm zc :
  calc_n2 ti t s z eos g patm zc true = (let* r := calc_n2 ti t s z eos g patm zc false in adjust_negative_n2 r "z_l").
Proof.
  unfold calc_n2. destruct (dget zc (adims t)); [|reflexivity]. cbn [bind].
  repeat match goal with |- context [bind ?x _] => destruct x; [cbn [bind]|reflexivity] end. reflexivity.
Qed.
