(** * ProofsN2: adjust_negative_n2 and calc_wave_speed *)
From Coq Require Import Reals Lra Lia List String Bool Arith FunctionalExtensionality.
From Verif Require Import Num NumFacts Py Arr ArrFacts Eos Derived SpecN2 ProofsFields ProofsFields2 ProofsDz.
Import ListNotations.
Local Open Scope R_scope.

Definition adj0 (v : fval) : fval := if fleb v (Fin 0) then NaN else v.

Lemma adj0_cases v : (positive v /\ adj0 v = v /\ v <> NaN) \/ (~ positive v /\ adj0 v = NaN).
Proof.
  unfold adj0. destruct v as [|[|]|x].
  - right. cbn. tauto.
  - right. cbn. split; [discriminate|reflexivity].
  - left. cbn. split; [reflexivity|]. split; [reflexivity|discriminate].
  - rewrite fleb_Fin. destruct (Rleb x 0) eqn:E.
    + apply Rleb_true in E. right. cbn. split; [lra|reflexivity].
    + apply Rleb_false in E. left. cbn. split; [exact E|]. split; [reflexivity|discriminate].
Qed.

Lemma positive_dec v : positive v \/ ~ positive v.
Proof. destruct (adj0_cases v) as [H|H]; tauto. Qed.

Lemma fmul_1_r v : fmul v (Fin 1) = v.
Proof.
  destruct v as [|s|x]; cbn; [reflexivity| |f_equal; lra].
  assert (E : Reqb 1 0 = false) by (apply Reqb_false; lra). rewrite E.
  assert (E2 : Rltb 1 0 = false) by (apply Rltb_false; lra). rewrite E2. destruct s; reflexivity.
Qed.

(** Forward fill of a column whose non-positive entries were removed. *)
Lemma ffill_spec f k :
  let g j := match j with O => fillna (adj0 (f O)) small | S _ => adj0 (f j) end in
  (exists j, (j <= k)%nat /\ positive (f j) /\ (forall i, (j < i <= k)%nat -> ~ positive (f i)) /\ ffill_col g k = f j)
  \/ ((forall j, (j <= k)%nat -> ~ positive (f j)) /\ ffill_col g k = small).
Proof.
  intros g. induction k as [|k IH].
  - cbn [ffill_col]. unfold g. destruct (adj0_cases (f O)) as [(H1 & H2 & H3)|(H1 & H2)].
    + left. exists O. repeat split; auto; [intros i Hi; lia|]. rewrite H2. destruct (f O); cbn; congruence.
    + right. rewrite H2. split; [|reflexivity]. intros j Hj. assert (j = O) by lia. subst. exact H1.
  - cbn [ffill_col]. change (g (S k)) with (adj0 (f (S k))). destruct (adj0_cases (f (S k))) as [(H1 & H2 & H3)|(H1 & H2)].
    + left. exists (S k). rewrite H2. repeat split; auto; [intros i Hi; lia|].
      destruct (f (S k)); cbn; congruence.
    + rewrite H2. cbn [isnull]. destruct IH as [(j & Hj & Hp & Hn & E)|(Hn & E)].
      * left. exists j. repeat split; auto. intros i Hi.
        destruct (Nat.eq_dec i (S k)) as [->|]; [exact H1|]. apply Hn. lia.
      * right. split; [|exact E]. intros j Hj.
        destruct (Nat.eq_dec j (S k)) as [->|]; [exact H1|]. apply Hn. lia.
Qed.

(** Without the surface fill (what happens at later times of a time-dependent array). *)
Lemma ffill_nofill_spec f k :
  let g j := adj0 (f j) in
  (exists j, (j <= k)%nat /\ positive (f j) /\ (forall i, (j < i <= k)%nat -> ~ positive (f i)) /\ ffill_col g k = f j)
  \/ ((forall j, (j <= k)%nat -> ~ positive (f j)) /\ ffill_col g k = NaN).
Proof.
  intros g. induction k as [|k IH].
  - cbn [ffill_col]. unfold g. destruct (adj0_cases (f O)) as [(H1 & H2 & H3)|(H1 & H2)].
    + left. exists O. repeat split; auto. intros i Hi; lia.
    + right. split; [|exact H2]. intros j Hj. assert (j = O) by lia. subst. exact H1.
  - cbn [ffill_col]. change (g (S k)) with (adj0 (f (S k))). destruct (adj0_cases (f (S k))) as [(H1 & H2 & H3)|(H1 & H2)].
    + left. exists (S k). rewrite H2. repeat split; auto; [intros i Hi; lia|].
      destruct (f (S k)); cbn; congruence.
    + rewrite H2. cbn [isnull]. destruct IH as [(j & Hj & Hp & Hn & E)|(Hn & E)].
      * left. exists j. repeat split; auto. intros i Hi.
        destruct (Nat.eq_dec i (S k)) as [->|]; [exact H1|]. apply Hn. lia.
      * right. split; [|exact E]. intros j Hj.
        destruct (Nat.eq_dec j (S k)) as [->|]; [exact H1|]. apply Hn. lia.
Qed.

Lemma isel_inv d k a r : isel d k a = Ok r ->
  exists n, dget d (adims a) = Some n /\ (k < n)%nat /\
    r = mkArr (drop_dim d (adims a)) (fun e => at_ a (upd e d k)).
Proof.
  unfold isel. destruct (dget d (adims a)) as [n|] eqn:E; [|discriminate].
  destruct (Nat.ltb_spec k n); [|discriminate]. intros [=<-]. exists n. auto.
Qed.

(** The value computed by adjust_negative_n2, whatever the order of dimensions.
    [d0] is the first dimension. *)
Lemma adjust_inv n2 zc r : adjust_negative_n2 n2 zc = Ok r ->
  exists d0 n0 rest, adims n2 = (d0, n0) :: rest /\ In zc (names n2) /\ (0 < n0)%nat /\
   adims r = adims n2 /\
   forall e, at_ r e =
    fmul (ffill_col (fun k => let e' := upd e zc k in
            if Nat.eqb (e' d0) 0 then fillna (adj0 (at_ n2 (upd e' d0 0))) small else adj0 (at_ n2 e')) (e zc))
         (if isnull (at_ n2 e) then NaN else Fin 1).
Proof.
  unfold adjust_negative_n2. intros H.
  apply bind_inv in H as (f0 & H0 & H). apply bind_inv in H as (a1 & H1 & H).
  apply bind_inv in H as (a2 & H2 & H). unfold getitem in H0. unfold setitem0 in H1.
  cbn [adims amap] in H0, H1. destruct (adims n2) as [|[d0 n0] rest] eqn:E; [discriminate|].
  apply isel_inv in H0 as (n & Hn & Hk & ->). injection H1 as <-.
  cbn [adims amap] in Hn. rewrite E in Hn. cbn in Hn. rewrite String.eqb_refl in Hn. injection Hn as <-.
  unfold ffill in H2. destruct (has_dim zc _) eqn:Ez; [|discriminate]. injection H2 as <-.
  exists d0, n0, rest. split; [reflexivity|]. split.
  { unfold has_dim in Ez. apply dmem_true in Ez. unfold names. cbn [adims amap] in Ez. rewrite E. exact Ez. }
  split; [exact Hk|].
  apply amap2_inv in H. subst r. split.
  - cbn [adims amap]. rewrite ?E.
    apply union_absorb. auto.
  - intros e. reflexivity.
Qed.

Lemma ffill_col_ext f g k : (forall j, (j <= k)%nat -> f j = g j) -> ffill_col f k = ffill_col g k.
Proof.
  induction k as [|k IH]; intros H; cbn; [apply H; lia|].
  rewrite (H (S k)) by lia. rewrite IH; [reflexivity|]. intros j Hj; apply H; lia.
Qed.

Lemma ffill_col_present f k : f k <> NaN -> ffill_col f k = f k.
Proof. destruct k; cbn; [reflexivity|]. intros H. destruct (f (S k)); cbn; congruence. Qed.

Lemma stabilised_facts f k v : stabilised f k v ->
  (v = NaN <-> f k = NaN) /\ (f k <> NaN -> positive v).
Proof.
  intros (H1 & H2 & H3).
  assert (P : f k <> NaN -> positive v).
  { intros Hn. destruct (positive_dec (f k)) as [Hp|Hp]; [rewrite (H2 Hp); exact Hp|].
    destruct (H3 Hn Hp) as [(j & _ & Hj & _ & ->)|(_ & ->)]; [exact Hj|]. cbn. lra. }
  split; [|exact P]. split; [|exact H1]. intros ->.
  destruct (f k) as [|s|x] eqn:E; [reflexivity| |]; exfalso; apply P; discriminate.
Qed.

Lemma stabilised_unique f k v v' : stabilised f k v -> stabilised f k v' -> v = v'.
Proof.
  intros (A1 & A2 & A3) (B1 & B2 & B3).
  destruct (f k) as [|s|x] eqn:E; [rewrite A1, B1; reflexivity| |].
  all: rewrite <- E in *; destruct (positive_dec (f k)) as [Hp|Hp]; [rewrite A2, B2 by assumption; reflexivity|];
    assert (Hn : f k <> NaN) by (rewrite E; discriminate);
    destruct (A3 Hn Hp) as [(j & Hj & Pj & Nj & ->)|(N & ->)], (B3 Hn Hp) as [(j' & Hj' & Pj' & Nj' & ->)|(N' & ->)]; try reflexivity.
  all: try (exfalso; eapply N'; eassumption); try (exfalso; eapply N; eassumption).
  all: destruct (Nat.lt_trichotomy j j') as [L|[->|L]]; try reflexivity; exfalso;
    [apply (Nj j'); [lia|assumption]|apply (Nj' j); [lia|assumption]].
Qed.

Lemma masked (v f : fval) : (f = NaN -> fmul v (if isnull f then NaN else Fin 1) = NaN) /\
  (f <> NaN -> fmul v (if isnull f then NaN else Fin 1) = v).
Proof.
  split; intros H.
  - rewrite H. cbn. apply fmul_NaN_r.
  - destruct f; [contradiction| |]; cbn; apply fmul_1_r.
Qed.

(** First dimension vertical. *)
Lemma adjust_first n2 zc n rest r : adjust_negative_n2 n2 zc = Ok r -> adims n2 = (zc, n) :: rest ->
  adims r = adims n2 /\ forall e, stabilised (fun k => at_ n2 (upd e zc k)) (e zc) (at_ r e).
Proof.
  intros H Hd. apply adjust_inv in H as (d0 & n0 & rest' & Hd' & _ & _ & Hdims & H).
  rewrite Hd in Hd'. injection Hd' as <- <- <-. split; [exact Hdims|]. intros e. rewrite H.
  set (f := fun k => at_ n2 (upd e zc k)).
  assert (Ef : at_ n2 e = f (e zc)) by (unfold f; now rewrite upd_id).
  rewrite (ffill_col_ext _ (fun j => match j with O => fillna (adj0 (f O)) small | S _ => adj0 (f j) end)).
  2:{ intros j _. cbn zeta. rewrite upd_same. destruct j; cbn [Nat.eqb]; [rewrite upd_upd|]; reflexivity. }
  rewrite Ef. destruct (masked (ffill_col (fun j => match j with O => fillna (adj0 (f O)) small | S _ => adj0 (f j) end) (e zc)) (f (e zc))) as [M1 M2].
  destruct (ffill_spec f (e zc)) as [(j & Hj & Hp & Hn & E)|(Hn & E)].
  - split; [exact M1|]. split.
    + intros Hpk. rewrite M2, E; [|intros C; rewrite C in Hpk; exact Hpk].
      destruct (Nat.eq_dec j (e zc)) as [->|Hne]; [reflexivity|]. exfalso. apply (Hn (e zc)); [lia|exact Hpk].
    + intros Hk Hpk. rewrite (M2 Hk), E. left. exists j. split; [|split; [exact Hp|split; [|reflexivity]]].
      * destruct (Nat.eq_dec j (e zc)) as [C|]; [rewrite C in Hp; contradiction|lia].
      * intros i Hi. apply Hn. lia.
  - split; [exact M1|]. split.
    + intros Hpk. exfalso. apply (Hn (e zc)); [lia|exact Hpk].
    + intros Hk _. rewrite (M2 Hk), E. right. split; [|reflexivity]. intros j Hj. apply Hn. lia.
Qed.

Lemma adjust_total n2 zc n rest : adims n2 = (zc, S n) :: rest -> NoDup (names n2) ->
  is_ok (adjust_negative_n2 n2 zc) = true.
Proof.
  intros Hd Hn. unfold adjust_negative_n2, getitem, setitem0. cbn [adims amap]. rewrite Hd.
  unfold isel. cbn [adims amap]. rewrite Hd. cbn [dget]. rewrite String.eqb_refl. cbn [Nat.ltb Nat.leb bind adims].
  unfold ffill, has_dim. cbn [adims]. unfold dmem. cbn [dget]. rewrite String.eqb_refl. cbn [bind].
  unfold amul, amap2. cbn [adims amap]. unfold names in Hn. rewrite Hd in Hn. rewrite Hd.
  rewrite compatible_refl by exact Hn. reflexivity.
Qed.

Lemma adjust_no_dim n2 zc : ~ In zc (names n2) -> is_ok (adjust_negative_n2 n2 zc) = false.
Proof.
  intros H. destruct (adjust_negative_n2 n2 zc) eqn:E; [|reflexivity].
  apply adjust_inv in E as (d0 & n0 & rest & _ & Hin & _). contradiction.
Qed.

(** First dimension not the vertical one (e.g. time): exact behaviour. *)
Lemma adjust_time n2 zc d0 n0 rest r : adjust_negative_n2 n2 zc = Ok r -> adims n2 = (d0, n0) :: rest -> d0 <> zc ->
  forall e, let f := fun k => at_ n2 (upd e zc k) in
  (f (e zc) = NaN -> at_ r e = NaN) /\
  (positive (f (e zc)) -> at_ r e = f (e zc)) /\
  (f (e zc) <> NaN -> ~ positive (f (e zc)) ->
     (e d0 = O -> at_ r e = small) /\
     (e d0 <> O -> (exists j, (j < e zc)%nat /\ positive (f j) /\ (forall i, (j < i < e zc)%nat -> ~ positive (f i)) /\ at_ r e = f j)
                   \/ ((forall j, (j < e zc)%nat -> ~ positive (f j)) /\ at_ r e = NaN))).
Proof.
  intros H Hd Hne e f. apply adjust_inv in H as (d0' & n0' & rest' & Hd' & _ & _ & _ & H).
  rewrite Hd in Hd'. injection Hd' as <- <- <-. rewrite H.
  assert (Ef : at_ n2 e = f (e zc)) by (unfold f; now rewrite upd_id). rewrite Ef.
  set (col := ffill_col _ (e zc)). destruct (masked col (f (e zc))) as [M1 M2].
  split; [exact M1|].
  assert (C0 : e d0 = O -> col = fillna (adj0 (f (e zc))) small).
  { intros H0. unfold col.
    rewrite (ffill_col_ext _ (fun j => fillna (adj0 (f j)) small)).
    - apply ffill_col_present. unfold adj0. destruct (fleb _ _); cbn; [discriminate|].
      destruct (f (e zc)); cbn; discriminate.
    - intros j _. cbn zeta. rewrite upd_other by congruence. rewrite H0. cbn [Nat.eqb].
      rewrite upd_comm by congruence. rewrite <- H0, upd_id. reflexivity. }
  assert (C1 : e d0 <> O -> col = ffill_col (fun j => adj0 (f j)) (e zc)).
  { intros H0. apply ffill_col_ext. intros j _. cbn zeta. rewrite upd_other by congruence.
    rewrite (proj2 (Nat.eqb_neq _ _) H0). reflexivity. }
  split.
  - intros Hp. assert (Hn : f (e zc) <> NaN) by (intros C; rewrite C in Hp; exact Hp). rewrite (M2 Hn).
    destruct (adj0_cases (f (e zc))) as [(_ & Ha & _)|(Hq & _)]; [|contradiction].
    destruct (Nat.eq_dec (e d0) 0) as [Z|Z].
    + rewrite (C0 Z), Ha. destruct (f (e zc)); cbn; congruence.
    + rewrite (C1 Z). rewrite ffill_col_present by (rewrite Ha; exact Hn). exact Ha.
  - intros Hn Hp. rewrite (M2 Hn). split; intros Z.
    + rewrite (C0 Z). destruct (adj0_cases (f (e zc))) as [(Hq & _)|(_ & Ha)]; [contradiction|]. rewrite Ha. reflexivity.
    + rewrite (C1 Z). destruct (ffill_nofill_spec f (e zc)) as [(j & Hj & Hpj & Hnj & E)|(Hnj & E)].
      * left. exists j. split; [|split; [exact Hpj|split; [|exact E]]].
        -- destruct (Nat.eq_dec j (e zc)) as [C|]; [rewrite C in Hpj; contradiction|lia].
        -- intros i Hi. apply Hnj. lia.
      * right. split; [|exact E]. intros j Hj. apply Hnj. lia.
Qed.

(** ** zcoord is not forwarded *)
Lemma n2_names ti t s z eos g patm zc r : calc_n2 ti t s z eos g patm zc false = Ok r ->
  forall d, In d (names r) -> In d (names t) \/ In d (names s) \/ In d (names patm) \/ d = zc.
Proof.
  unfold calc_n2. intros H. destruct (dget zc (adims t)) as [n|] eqn:E; [|discriminate]. cbn [bind] in H.
  apply bind_inv in H as (pres & Hp & H). apply bind_inv in H as (al & Hal & H).
  apply bind_inv in H as (be & Hbe & H). apply bind_inv in H as (dt & Hdt & H).
  apply bind_inv in H as (ds & Hds & H). apply bind_inv in H as (u & Hu & H).
  apply bind_inv in H as (v & Hv & H). apply bind_inv in H as (w & Hw & H). injection H as <-.
  destruct (eos_calc_pointwise ti FAlpha t s pres eos al Hal) as (_ & _ & _ & Na & _).
  destruct (eos_calc_pointwise ti FBeta t s pres eos be Hbe) as (_ & _ & _ & Nb & _).
  unfold differentiate in Hdt, Hds. rewrite E in Hdt. destruct (dget zc (adims s)) as [m|] eqn:E'; [|discriminate].
  destruct (Nat.ltb n 3); [discriminate|]. destruct (Nat.ltb m 3); [discriminate|].
  injection Hdt as <-. injection Hds as <-.
  apply amap2_inv in Hu, Hv, Hw. unfold pressure_from_depth in Hp. apply amap2_inv in Hp. subst.
  intros d Hd. unfold names in *. cbn [adims const_l amap] in Hd. rewrite !union_names in Hd.
  assert (P : In d (map fst (union_dims (adims (const_r fmul (zarr zc n z) (Fin 10000))) (adims patm))) ->
              d = zc \/ In d (map fst (adims patm))).
  { rewrite union_names. intros [[<-|[]]|Hq]; auto. }
  destruct Hd as [[Hd|Hd]|[Hd|Hd]]; [apply Na in Hd|auto|apply Nb in Hd|auto]; tauto.
Qed.

Lemma n2_adjust_other_zcoord ti t s z eos g patm zc :
  zc <> "z_l"%string -> ~ In "z_l"%string (names t) -> ~ In "z_l"%string (names s) -> ~ In "z_l"%string (names patm) ->
  is_ok (calc_n2 ti t s z eos g patm zc true) = false.
Proof.
  intros Hz Ht Hs Hp. destruct (calc_n2 ti t s z eos g patm zc true) eqn:E; [|reflexivity]. exfalso.
  assert (N := n2_names ti t s z eos g patm zc).
  unfold calc_n2 in E, N. destruct (dget zc (adims t)) as [n|]; [|discriminate]. cbn [bind] in E, N.
  apply bind_inv in E as (pres & E1 & E). apply bind_inv in E as (al & E2 & E).
  apply bind_inv in E as (be & E3 & E). apply bind_inv in E as (dt & E4 & E).
  apply bind_inv in E as (ds & E5 & E). apply bind_inv in E as (u & E6 & E).
  apply bind_inv in E as (v & E7 & E). apply bind_inv in E as (w & E8 & E).
  rewrite E1 in N; cbn [bind] in N. rewrite E2 in N; cbn [bind] in N. rewrite E3 in N; cbn [bind] in N.
  rewrite E4 in N; cbn [bind] in N. rewrite E5 in N; cbn [bind] in N. rewrite E6 in N; cbn [bind] in N.
  rewrite E7 in N; cbn [bind] in N. rewrite E8 in N; cbn [bind] in N.
  specialize (N _ eq_refl). apply adjust_inv in E as (_ & _ & _ & _ & Hin & _).
  apply N in Hin. intuition congruence.
Qed.

Lemma wave_speed_other_zcoord n2 dz zc : ~ In "z_l"%string (names n2) -> is_ok (calc_wave_speed n2 dz zc) = false.
Proof.
  intros H. assert (A := adjust_no_dim _ _ H). unfold calc_wave_speed.
  destruct (adjust_negative_n2 n2 "z_l"); [discriminate|reflexivity].
Qed.
