(** * PropertiesAnnual: C124, C125 (annual averages of local heights) *)
From Coq Require Import Reals ZArith Lra Lia List String Bool Arith.
From Verif Require Import Num NumFacts Py Arr ArrFacts Calendar TimeAvg Eos SpecEos Derived SpecDz Dataset SpecSteric SpecTime
  ProofsEos ProofsEosApi ProofsFields ProofsSteric ProofsSteric2 ProofsSteric3 ProofsSteric4 ProofsStericOk ProofsSteric5 ProofsStericDemo
  ProofsUtil ProofsAvg ProofsStericAnnual PropertiesSteric.
Import ListNotations.
Local Open Scope string_scope.
Local Open Scope R_scope.

(** ** Weighted means over a list of positions *)
Definition lr (L : list nat) (f : nat -> R) : R := fold_right Rplus 0 (map f L).
Lemma lr_ext L f g : (forall i, In i L -> f i = g i) -> lr L f = lr L g.
Proof. intros H. unfold lr. f_equal. apply map_ext_in, H. Qed.
Lemma lr_pos L f : L <> [] -> (forall i, In i L -> 0 < f i) -> 0 < lr L f.
Proof.
  induction L as [|i L IH]; intros N H; [congruence|]. cbn. destruct L as [|j L]; [cbn; specialize (H i (or_introl eq_refl)); lra|].
  assert (0 < lr (j :: L) f) by (apply IH; [discriminate|intros; apply H; right; assumption]). specialize (H i (or_introl eq_refl)). unfold lr in *. cbn in *. lra.
Qed.
Lemma lr_swap L n (g : nat -> nat -> R) : lr L (fun i => Rsum n (fun k => g i k)) = Rsum n (fun k => lr L (fun i => g i k)).
Proof. induction L as [|i L IH]; cbn; [symmetry; apply Rsum_zero; reflexivity|]. unfold lr in IH. rewrite IH, <- Rsum_plus. reflexivity. Qed.
Lemma lr_scal L c f : lr L (fun i => c * f i) = c * lr L f.
Proof. induction L as [|i L IH]; cbn; [lra|]. unfold lr in IH. rewrite IH. ring. Qed.
Lemma lr_plus L f g : lr L (fun i => f i + g i) = lr L f + lr L g.
Proof. induction L as [|i L IH]; cbn; [lra|]. unfold lr in IH. rewrite IH. ring. Qed.
Lemma lsum_fin L f : lsum (map (fun i => Fin (f i)) L) = Fin (lr L f).
Proof. induction L as [|i L IH]; [reflexivity|]. unfold lsum in *. cbn [map fold_right]. rewrite IH. reflexivity. Qed.

Lemma wmean_fin L wt (v : nat -> fval) f : L <> [] -> (forall i, In i L -> 0 < wt i) -> (forall i, In i L -> v i = Fin (f i)) ->
  wmean (map (fun i => (wt i, v i)) L) = Fin (lr L (fun i => wt i * f i) / lr L wt).
Proof.
  intros N P V. unfold wmean. rewrite !map_map. cbn [fst snd].
  rewrite (map_ext_in _ (fun i => Fin (wt i)) L) by (intros i Hi; rewrite (V i Hi); cbn; f_equal; ring).
  rewrite (map_ext_in (fun x => fmul (Fin (wt x)) (nan0 (v x))) (fun i => Fin (wt i * f i)) L) by (intros i Hi; rewrite (V i Hi); reflexivity).
  rewrite !lsum_fin. cbn [feqb]. assert (Q := lr_pos L wt N P). destruct (Reqb (lr L wt) 0) eqn:E; [apply Reqb_true in E; lra|].
  apply fdiv_Fin. lra.
Qed.
Lemma wmean_nan L wt (v : nat -> fval) : (forall i, In i L -> v i = NaN) -> wmean (map (fun i => (wt i, v i)) L) = NaN.
Proof.
  intros V. unfold wmean. rewrite !map_map. cbn [fst snd].
  rewrite (map_ext_in _ (fun i => Fin 0) L) by (intros i Hi; rewrite (V i Hi); cbn; f_equal; ring).
  rewrite lsum_fin. assert (lr L (fun _ => 0) = 0) as ->.
  { clear. induction L as [|i L IH]; cbn; [reflexivity|]. unfold lr in IH. rewrite IH. ring. }
  cbn [feqb]. rewrite Reqb_refl. reflexivity.
Qed.
Lemma wmean_opt L wt (o : nat -> option R) b : L <> [] -> (forall i, In i L -> 0 < wt i) -> (forall i, In i L -> (if o i then true else false) = b) ->
  wmean (map (fun i => (wt i, fof (o i))) L) = if b then Fin (lr L (fun i => wt i * odef (o i)) / lr L wt) else NaN.
Proof.
  intros N P B. destruct b.
  - apply wmean_fin with (f := fun i => odef (o i)); [exact N|exact P|]. intros i Hi. specialize (B i Hi). destruct (o i); [reflexivity|discriminate].
  - apply wmean_nan. intros i Hi. specialize (B i Hi). destruct (o i); [discriminate|reflexivity].
Qed.

Lemma of_year_nonempty ts y : In y (years ts) -> of_year ts y <> [].
Proof.
  intros H. apply years_In in H. destruct H as (i & Hi & E). intros N. assert (In i (of_year ts y)); [|rewrite N in *; contradiction].
  apply filter_In. split; [apply in_seq; lia|]. apply Z.eqb_eq. exact E.
Qed.

(** ** C124 *)
(** Missing at all times or at none, along one column *)
Definition steady_column (z : string) (n : nat) (a : arr) (e : index) : Prop :=
  forall k i, (k < n)%nat -> notnull (at_ a (upd (upd e "time" i) z k)) = notnull (at_ a (upd e z k)).

Lemma dget_annual c ts (l : dict arr) k : dget k (map (fun p => (fst p, annual_var c ts "time" (snd p))) l) = match dget k l with Some a => Some (annual_var c ts "time" a) | None => None end.
Proof. induction l as [|[k' a] l IH]; cbn; [reflexivity|]. destruct (String.eqb k k'); [reflexivity|exact IH]. Qed.
Lemma numeric_all (l : dict arr) : numeric_vars (map (fun p => (fst p, (true, snd p))) l) = l.
Proof. unfold numeric_vars. induction l as [|[k a] l IH]; cbn; [reflexivity|]. f_equal. exact IH. Qed.

Lemma annual_inv ax d reference cn vm rz patm eos variant domain strict ax' out ref :
  steric_annual ax d reference cn vm rz patm eos variant domain strict = Ok (ax', out, ref) ->
  exists c r, steric d reference cn vm rz patm eos variant domain strict = Ok (r, ref) /\ ta_cal ax = Some c /\
    out = map (fun p => (fst p, annual_var c (ta_dates ax) "time" (snd p))) r.
Proof.
  unfold steric_annual. intros H. apply bind_inv in H as ((r & ref') & E & H). cbn [fst snd] in H. apply bind_inv in H as ((ax1 & o) & E2 & H).
  apply Ok_inj in H. injection H as <- <- <-. unfold annual_average_ds in E2. apply bind_inv in E2 as (c & Ec & E2). rewrite numeric_all in E2.
  destruct (groupable "time" r); [|discriminate]. apply bind_inv in E2 as (u & _ & E2). apply Ok_inj in E2. injection E2 as <- <-.
  exists c, r. split; [exact E|]. split; [|reflexivity]. unfold axis_calendar in Ec. destruct (String.eqb _ _); [|discriminate].
  destruct (ta_dates ax); [discriminate|]. destruct (ta_cal ax); [congruence|discriminate].
Qed.

Section Column.
Variables (ax : taxis) (d : dataset) (reference : option dataset) (cn vm : option (dict string)) (rhozero : R) (patm : arr) (eos variant domain : string) (strict : bool)
  (ax' : taxis) (out : dict arr) (ref ds : dataset) (m : eos_module) (z zb : string) (T S vol rho0 zl ifaces depth : arr) (zi : string) (n : nat) (p w : nat -> R) (e : index).
Hypothesis H : steric_annual ax d reference cn vm rhozero patm eos variant domain strict = Ok (ax', out, ref).
Hypothesis Hd : domain <> "global".
Hypothesis Hvm : ds_rename vm d = Ok ds.
Hypothesis Hc : default_coords cn = ("time", z, zb).
Hypothesis Hz : z <> "time".
Hypothesis Hm : same_name eos (module_name m).
Hypothesis WF : wf_ds ds.
Hypothesis UF : uses_fields ds ref variant T S.
Hypothesis HV : dget "volcello" ref = Some vol.
Hypothesis HR : dget "rho" ref = Some rho0.
Hypothesis HZ : ds_get z ds = Ok zl.
Hypothesis HB : dget zb ds = Some ifaces.
Hypothesis HD : dget "deptho" ds = Some depth.
Hypothesis NZ : ~ In z (names depth).
Hypothesis NT : ~ In "time" (names depth).
Hypothesis CO : forall i, column_ok m z zi n T S rho0 depth zl patm ifaces p w (upd e "time" i).
Hypothesis GT : steady_column z n T e.
Hypothesis GS : steady_column z n S e.
Hypothesis GR : steady_column z n rho0 e.
Hypothesis GV : steady_column z n vol e.
Hypothesis PN : (0 < n)%nat.
Hypothesis HY : (e "time" < List.length (years (ta_dates ax)))%nat.

Let yr := of_year (ta_dates ax) (nth (e "time") (years (ta_dates ax)) 0%Z).
Let dc i k := density_change m (column_at z T S rho0 vol depth p w (upd e "time" i)) k.
Let here k := notnull (at_ vol (upd e z k)) && notnull (at_ T (upd e z k)) && notnull (at_ S (upd e z k)) && notnull (at_ rho0 (upd e z k)).

Lemma opt_null v : (forall s, v <> Inf s) -> (if opt v then true else false) = notnull v.
Proof. destruct v as [|s|a]; intros N; [reflexivity|destruct (N s eq_refl)|reflexivity]. Qed.
Lemma dc_here i k : (k < n)%nat -> (if dc i k then true else false) = here k.
Proof.
  intros Hk. unfold here. rewrite <- (GT k i Hk), <- (GS k i Hk), <- (GR k i Hk), <- (GV k i Hk). unfold dc, density_change. cbn [c_wet c_T c_S c_rho0 column_at].
  destruct (CO i) as (_ & _ & _ & _ & _ & Q). destruct (Q k Hk) as (Q1 & Q2 & Q3 & _). cbn zeta in Q1, Q2, Q3. rewrite <- (opt_null _ Q1), <- (opt_null _ Q2), <- (opt_null _ Q3).
  destruct (notnull _); [|reflexivity]. destruct (opt _); [|reflexivity]. destruct (opt _); [|reflexivity]. destruct (opt _); reflexivity.
Qed.

Lemma depth_time i : at_ depth (upd e "time" i) = at_ depth e.
Proof. apply (WF _ _ HD). intros x Hx. apply upd_other. intros <-. exact (NT Hx). Qed.

Lemma annual_column : exists c delta sea, ta_cal ax = Some c /\ dget "delta_rho" out = Some delta /\ dget variant out = Some sea /\
  (forall k, (k < n)%nat -> at_ delta (upd e z k) = if here k then Fin (lr yr (fun i => days_weight c (nth_date (ta_dates ax) i) * odef (dc i k)) / lr yr (fun i => days_weight c (nth_date (ta_dates ax) i))) else NaN) /\
  at_ sea e = if notnull (at_ vol (upd e z 0)) then
    Fin (- (1 / rhozero) * Rsum n (fun k => overlap (w k) (w (Datatypes.S k)) 0 (water_depth (at_ depth e)) * odef (opt (at_ delta (upd e z k))))) else NaN.
Proof.
  destruct (annual_inv _ _ _ _ _ _ _ _ _ _ _ _ _ _ H) as (c & r & E & Ec & Eo).
  set (wt := fun i => days_weight c (nth_date (ta_dates ax) i)).
  assert (PW : forall i, In i yr -> 0 < wt i) by (intros; apply days_weight_pos).
  assert (NY : yr <> []) by (apply of_year_nonempty, nth_In, HY).
  assert (W := lr_pos yr wt NY PW).
  assert (F : forall i, exists delta sea, dget "delta_rho" r = Some delta /\ dget variant r = Some sea /\
    (forall k, (k < n)%nat -> at_ delta (upd (upd e "time" i) z k) = fof (dc i k)) /\
    at_ sea (upd e "time" i) = (if notnull (at_ vol (upd e z 0)) then Fin (- (1 / rhozero) * Rsum n (fun k => overlap (w k) (w (Datatypes.S k)) 0 (water_depth (at_ depth e)) * odef (dc i k))) else NaN)).
  { intros i. destruct (C32_local_formula d reference cn vm rhozero patm eos variant domain strict r ref ds m "time" z zb T S vol rho0 zl ifaces depth zi n p w (upd e "time" i)
      E Hd Hvm Hc Hm WF UF HV HR HZ HB HD NZ (CO i)) as (delta & sea & A & B & C & D). exists delta, sea. split; [exact A|]. split; [exact B|]. split; [exact C|].
    rewrite D, (GV 0%nat i PN). unfold steric_height. cbn [c_w c_floor column_at]. rewrite depth_time. reflexivity. }
  destruct (F 0%nat) as (delta & sea & A & B & _).
  assert (F' : forall i, (forall k, (k < n)%nat -> at_ delta (upd (upd e "time" i) z k) = fof (dc i k)) /\
    at_ sea (upd e "time" i) = (if notnull (at_ vol (upd e z 0)) then Fin (- (1 / rhozero) * Rsum n (fun k => overlap (w k) (w (Datatypes.S k)) 0 (water_depth (at_ depth e)) * odef (dc i k))) else NaN)).
  { intros i. destruct (F i) as (d2 & s2 & A2 & B2 & C2). rewrite A in A2. rewrite B in B2. injection A2 as <-. injection B2 as <-. exact C2. }
  clear F.
  exists c, (annual_var c (ta_dates ax) "time" delta), (annual_var c (ta_dates ax) "time" sea).
  split; [exact Ec|]. split; [rewrite Eo, dget_annual, A; reflexivity|]. split; [rewrite Eo, dget_annual, B; reflexivity|].
  assert (DV : forall k, (k < n)%nat -> at_ (annual_var c (ta_dates ax) "time" delta) (upd e z k) = if here k then Fin (lr yr (fun i => wt i * odef (dc i k)) / lr yr wt) else NaN).
  { intros k Hk. unfold annual_var. cbn [at_]. rewrite (upd_other e z k "time") by congruence. fold yr.
    rewrite (map_ext _ (fun i => (wt i, fof (dc i k)))).
    - apply wmean_opt; [exact NY|exact PW|]. intros i _. apply dc_here, Hk.
    - intros i. rewrite (upd_comm e z "time" k i Hz). rewrite (proj1 (F' i) k Hk). reflexivity. }
  split; [exact DV|].
  unfold annual_var at 1. cbn [at_]. fold yr.
  destruct (notnull (at_ vol (upd e z 0))) eqn:N0.
  - erewrite (map_ext _ (fun i => (wt i, _))) by (intros i; rewrite (proj2 (F' i)), ?N0; reflexivity).
    rewrite wmean_fin with (f := fun i => - (1 / rhozero) * Rsum n (fun k => overlap (w k) (w (Datatypes.S k)) 0 (water_depth (at_ depth e)) * odef (dc i k))); [|exact NY|exact PW|reflexivity].
    f_equal. unfold Rdiv at 1. rewrite (lr_ext yr _ (fun i => - (1 / rhozero) * Rsum n (fun k => overlap (w k) (w (Datatypes.S k)) 0 (water_depth (at_ depth e)) * (wt i * odef (dc i k))))).
    2:{ intros i _. rewrite (Rmult_comm (wt i)), Rmult_assoc. f_equal. rewrite Rmult_comm, <- Rsum_scal. apply Rsum_ext. intros k _. ring. }
    rewrite lr_scal, Rmult_assoc. f_equal. rewrite lr_swap, Rmult_comm, <- Rsum_scal. apply Rsum_ext. intros k Hk. rewrite lr_scal, (DV k Hk).
    destruct (here k) eqn:Hh; cbn [opt odef]; [field; lra|].
    assert (lr yr (fun i => wt i * odef (dc i k)) = 0) as ->; [|ring].
    rewrite (lr_ext yr _ (fun i => 0 * 0)); [rewrite lr_scal; ring|]. intros i _. assert (X := dc_here i k Hk). rewrite Hh in X. destruct (dc i k); [discriminate|]. cbn. ring.
  - apply wmean_nan. intros i _. rewrite (proj2 (F' i)). reflexivity.
Qed.
End Column.

Theorem C124_annual_formula : forall ax d reference cn vm rhozero patm eos variant domain strict ax' out ref ds m z zb T S vol rho0 zl ifaces depth zi n p w e,
  steric_annual ax d reference cn vm rhozero patm eos variant domain strict = Ok (ax', out, ref) -> domain <> "global" ->
  ds_rename vm d = Ok ds -> default_coords cn = ("time", z, zb) -> z <> "time" -> same_name eos (module_name m) -> wf_ds ds ->
  uses_fields ds ref variant T S -> dget "volcello" ref = Some vol -> dget "rho" ref = Some rho0 -> ds_get z ds = Ok zl ->
  dget zb ds = Some ifaces -> dget "deptho" ds = Some depth -> ~ In z (names depth) -> ~ In "time" (names depth) ->
  (forall i, column_ok m z zi n T S rho0 depth zl patm ifaces p w (upd e "time" i)) ->
  (forall a, In a [T; S; rho0; vol] -> steady_column z n a e) -> (0 < n)%nat ->
  (e "time" < List.length (years (ta_dates ax)))%nat ->
  exists delta sea, dget "delta_rho" out = Some delta /\ dget variant out = Some sea /\
    at_ sea e = if notnull (at_ vol (upd e z 0)) then
      Fin (- (1 / rhozero) * Rsum n (fun k => overlap (w k) (w (Datatypes.S k)) 0 (water_depth (at_ depth e)) * odef (opt (at_ delta (upd e z k))))) else NaN.
Proof.
  intros ax d reference cn vm rhozero patm eos variant domain strict ax' out ref ds m z zb T S vol rho0 zl ifaces depth zi n p w e
    H Hd Hvm Hc Hz Hm WF UF HV HR HZ HB HD NZ NT CO G PN HY.
  destruct (annual_column ax d reference cn vm rhozero patm eos variant domain strict ax' out ref ds m z zb T S vol rho0 zl ifaces depth zi n p w e
    H Hd Hvm Hc Hz Hm WF UF HV HR HZ HB HD NZ NT CO) as (c & delta & sea & _ & A & B & _ & V); try assumption; try (apply G; cbn; tauto).
  exists delta, sea. split; [exact A|]. split; [exact B|exact V].
Qed.
Print Assumptions C124_annual_formula.

(** ** C125 *)
Section Commute.
Variables (ax : taxis) (d d' : dataset) (reference : option dataset) (cn : option (dict string)) (rhozero : R) (patm : arr) (eos variant domain : string) (strict : bool)
  (ax' : taxis) (out r' : dict arr) (ref : dataset) (z zb : string) (T S T' S' vol rho0 zl ifaces depth : arr) (zi : string) (n : nat) (p w : nat -> R) (e : index) (c : cal).
Let yr := of_year (ta_dates ax) (nth (e "time") (years (ta_dates ax)) 0%Z).
Let wt i := days_weight c (nth_date (ta_dates ax) i).
Let W := lr yr wt.
Hypothesis NY : yr <> [].

Lemma W_pos : 0 < W.
Proof. apply lr_pos; [exact NY|]. intros; apply days_weight_pos. Qed.

(** The averaged field along the column *)
Definition averaged (a a' : arr) : Prop := forall k, (k < n)%nat ->
  at_ a' (upd e z k) = if notnull (at_ a (upd e z k)) then Fin (lr yr (fun i => wt i * odef (opt (at_ a (upd (upd e "time" i) z k)))) / W) else NaN.
Lemma averaged_annual a : z <> "time" -> steady_column z n a e -> (forall i k s, (k < n)%nat -> at_ a (upd (upd e "time" i) z k) <> Inf s) ->
  averaged a (annual_var c (ta_dates ax) "time" a).
Proof.
  intros Hz G NI k Hk. unfold annual_var. cbn [at_]. rewrite (upd_other e z k "time") by congruence. fold yr.
  rewrite (map_ext _ (fun i => (wt i, fof (opt (at_ a (upd (upd e "time" i) z k)))))).
  - apply wmean_opt; [exact NY|intros; apply days_weight_pos|]. intros i _. rewrite (opt_null _ (fun s => NI i k s Hk)). apply G, Hk.
  - intros i. rewrite (upd_comm e z "time" k i Hz). f_equal. specialize (NI i k). destruct (at_ a _) as [|s|x]; [reflexivity|destruct (NI s Hk eq_refl)|reflexivity].
Qed.
Lemma averaged_fixed a : wf_arr a -> ~ In "time" (names a) -> z <> "time" -> (forall k s, (k < n)%nat -> at_ a (upd e z k) <> Inf s) -> averaged a a.
Proof.
  intros WA NA Hz NI k Hk.
  assert (E : forall i, at_ a (upd (upd e "time" i) z k) = at_ a (upd e z k)).
  { intros i. apply WA. intros x Hx. rewrite (upd_comm e "time" z i k) by congruence. apply upd_other. intros <-. exact (NA Hx). }
  destruct (at_ a (upd e z k)) as [|s|x] eqn:V; [reflexivity|destruct (NI k s Hk V)|]. cbn [notnull isnull negb]. f_equal.
  rewrite (lr_ext yr _ (fun i => x * wt i)) by (intros i _; rewrite E, ?V; cbn; ring). rewrite lr_scal. fold W. assert (Q := W_pos). field. lra.
Qed.

Lemma mean_density k : (k < n)%nat -> averaged T T' -> averaged S S' -> (forall i, at_ rho0 (upd (upd e "time" i) z k) = at_ rho0 (upd e z k)) ->
  (forall i, at_ vol (upd (upd e "time" i) z k) = at_ vol (upd e z k)) -> (forall s, at_ rho0 (upd e z k) <> Inf s) ->
  steady_column z n T e -> steady_column z n S e -> (forall i s, at_ T (upd (upd e "time" i) z k) <> Inf s) -> (forall i s, at_ S (upd (upd e "time" i) z k) <> Inf s) ->
  fof (density_change Linear (column_at z T' S' rho0 vol depth p w e) k) =
  if notnull (at_ vol (upd e z k)) && notnull (at_ T (upd e z k)) && notnull (at_ S (upd e z k)) && notnull (at_ rho0 (upd e z k))
  then Fin (lr yr (fun i => wt i * odef (density_change Linear (column_at z T S rho0 vol depth p w (upd e "time" i)) k)) / W) else NaN.
Proof.
  intros Hk AT AS ER EV IR GT GS IT IS. unfold density_change at 1. cbn [c_wet c_T c_S c_rho0 c_p column_at].
  destruct (notnull (at_ vol (upd e z k))) eqn:NV; [|reflexivity]. rewrite (AT k Hk), (AS k Hk).
  destruct (notnull (at_ T (upd e z k))) eqn:NT; [|reflexivity]. destruct (notnull (at_ S (upd e z k))) eqn:NS; [|reflexivity]. cbn [opt andb].
  destruct (at_ rho0 (upd e z k)) as [|s|r] eqn:VR; [reflexivity|destruct (IR s eq_refl)|]. cbn [opt notnull isnull negb fof]. f_equal.
  rewrite (lr_ext yr (fun i => wt i * odef (density_change _ _ _)) (fun i => (1000 - r) * wt i + ((- (0.2)) * (wt i * odef (opt (at_ T (upd (upd e "time" i) z k)))) + 0.8 * (wt i * odef (opt (at_ S (upd (upd e "time" i) z k))))))).
  - rewrite !lr_plus, !lr_scal. cbn [eos_rho]. unfold lin_rho. fold W. assert (Q := W_pos). set (A := lr _ _). set (B := lr _ _). clearbody A B. field. lra.
  - intros i _. unfold density_change. cbn [c_wet c_T c_S c_rho0 c_p column_at]. rewrite EV, NV, ER, ?VR.
    assert (X := GT k i Hk). assert (Y := GS k i Hk). rewrite NT in X. rewrite NS in Y.
    destruct (at_ T (upd (upd e "time" i) z k)) as [|s|a] eqn:E1; [discriminate|destruct (IT i s E1)|].
    destruct (at_ S (upd (upd e "time" i) z k)) as [|s|b] eqn:E2; [discriminate|destruct (IS i s E2)|]. cbn [opt odef eos_rho]. unfold lin_rho. ring.
Qed.
End Commute.

Lemma annual_da_inv ax a ax' a' c : annual_average_da ax a "time" = Ok (ax', a') -> ta_cal ax = Some c -> a' = annual_var c (ta_dates ax) "time" a.
Proof.
  unfold annual_average_da. intros H E. apply bind_inv in H as (c' & Ec & H). apply bind_inv in H as (u & _ & H). apply Ok_inj in H. injection H as _ <-.
  unfold axis_calendar in Ec. destruct (String.eqb _ _); [|discriminate]. destruct (ta_dates ax); [discriminate|]. rewrite E in Ec. apply Ok_inj in Ec. congruence.
Qed.

(** With the linear equation of state the annual averages of the anomaly and of the height are those
    of the annual averages of temperature and salinity. *)
Theorem C125_linear : forall ax d d' reference cn rhozero patm eos variant domain strict ax' out r' ref z zb T S vol rho0 zl ifaces depth zi n p w e,
  steric_annual ax d reference cn None rhozero patm eos variant domain strict = Ok (ax', out, ref) ->
  steric d' (Some ref) cn None rhozero patm eos variant domain strict = Ok (r', ref) -> domain <> "global" ->
  (forall k a, In k ["thetao"; "so"] -> dget k d = Some a -> exists ax1 a', annual_average_da ax a "time" = Ok (ax1, a') /\ dget k d' = Some a') ->
  (forall k, In k [z; zb; "deptho"] -> dget k d' = dget k d) ->
  default_coords cn = ("time", z, zb) -> z <> "time" -> same_name eos "linear" -> wf_ds d -> wf_ds d' ->
  uses_fields d ref variant T S -> dget "volcello" ref = Some vol -> dget "rho" ref = Some rho0 -> dget z d = Some zl ->
  dget zb d = Some ifaces -> dget "deptho" d = Some depth -> ~ In z (names depth) -> ~ In "time" (names depth) ->
  (forall k a, In k ["thetao"; "so"; "volcello"; "rho"] -> dget k ref = Some a -> wf_arr a /\ ~ In "time" (names a)) ->
  (forall i, column_ok Linear z zi n T S rho0 depth zl patm ifaces p w (upd e "time" i)) ->
  steady_column z n T e -> steady_column z n S e -> (0 < n)%nat ->
  (e "time" < List.length (years (ta_dates ax)))%nat ->
  exists delta sea delta' sea', dget "delta_rho" out = Some delta /\ dget variant out = Some sea /\
    dget "delta_rho" r' = Some delta' /\ dget variant r' = Some sea' /\
    (forall k, (k < n)%nat -> at_ delta' (upd e z k) = at_ delta (upd e z k)) /\ at_ sea' e = at_ sea e.
Proof.
  intros ax d d' reference cn rhozero patm eos variant domain strict ax' out r' ref z zb T S vol rho0 zl ifaces depth zi n p w e
    H H' Hd AV SAME Hc Hz Hm WF WF' UF HV HR HZ HB HD NZ NT RF CO GT GS PN HY.
  assert (I1 : In "thetao" ["thetao"; "so"; "volcello"; "rho"]) by (cbn; tauto). assert (I2 : In "so" ["thetao"; "so"; "volcello"; "rho"]) by (cbn; tauto).
  assert (I3 : In "volcello" ["thetao"; "so"; "volcello"; "rho"]) by (cbn; tauto). assert (I4 : In "rho" ["thetao"; "so"; "volcello"; "rho"]) by (cbn; tauto).
  assert (FIX : forall k a, In k ["thetao"; "so"; "volcello"; "rho"] -> dget k ref = Some a -> forall i l, at_ a (upd (upd e "time" i) z l) = at_ a (upd e z l)).
  { intros k a Ik Ha i l. destruct (RF k a Ik Ha) as (WA & NA). apply WA. intros x Hx. rewrite (upd_comm e "time" z i l) by congruence. apply upd_other. intros <-. exact (NA Hx). }
  assert (GR : steady_column z n rho0 e) by (intros k i _; rewrite (FIX _ _ I4 HR); reflexivity).
  assert (GV : steady_column z n vol e) by (intros k i _; rewrite (FIX _ _ I3 HV); reflexivity).
  assert (HZ' : ds_get z d = Ok zl) by (unfold ds_get; rewrite HZ; reflexivity).
  destruct (annual_column ax d reference cn None rhozero patm eos variant domain strict ax' out ref d Linear z zb T S vol rho0 zl ifaces depth zi n p w e
    H Hd eq_refl Hc Hz Hm WF UF HV HR HZ' HB HD NZ NT CO GT GS GR GV PN HY) as (c & delta & sea & Ec & A & B & DV & SV).
  assert (NY : of_year (ta_dates ax) (nth (e "time") (years (ta_dates ax)) 0%Z) <> []) by (apply of_year_nonempty, nth_In, HY).
  assert (IT : forall i k s, (k < n)%nat -> at_ T (upd (upd e "time" i) z k) <> Inf s) by (intros i k s Hk; apply (proj2 (proj2 (proj2 (proj2 (proj2 (CO i))))) k Hk)).
  assert (IS : forall i k s, (k < n)%nat -> at_ S (upd (upd e "time" i) z k) <> Inf s) by (intros i k s Hk; apply (proj2 (proj2 (proj2 (proj2 (proj2 (CO i))))) k Hk)).
  assert (IR : forall i k s, (k < n)%nat -> at_ rho0 (upd (upd e "time" i) z k) <> Inf s) by (intros i k s Hk; apply (proj2 (proj2 (proj2 (proj2 (proj2 (CO i))))) k Hk)).
  assert (EE : upd e "time" (e "time") = e) by apply upd_id.
  assert (C0 := CO (e "time")). rewrite EE in C0.
  assert (AD : forall k a, In k ["thetao"; "so"] -> dget k d = Some a -> dget k d' = Some (annual_var c (ta_dates ax) "time" a)).
  { intros k a Hk Ha. destruct (AV k a Hk Ha) as (ax1 & a' & E1 & E2). rewrite (annual_da_inv _ _ _ _ _ E1 Ec) in E2. exact E2. }
  assert (AVG : exists T' S', uses_fields d' ref variant T' S' /\ averaged ax z n e c T T' /\ averaged ax z n e c S S').
  { inversion UF as [Ta Sb E1 E2 EV ET ES|Ta Sb E1 E2 EV ET ES|Ta Sb E1 E2 EV ET ES]; subst Ta Sb variant.
    - exists (annual_var c (ta_dates ax) "time" T), (annual_var c (ta_dates ax) "time" S). split; [apply uf_steric; apply AD; auto; cbn; tauto|].
      split; apply averaged_annual; assumption.
    - exists (annual_var c (ta_dates ax) "time" T), S. split; [apply uf_thermo; [apply AD; auto; cbn; tauto|exact E2]|].
      split; [apply averaged_annual; assumption|]. destruct (RF _ _ I2 E2) as (WA & NA). apply averaged_fixed; try assumption. intros k s Hk. rewrite <- (FIX _ _ I2 E2 0%nat). apply IS, Hk.
    - exists T, (annual_var c (ta_dates ax) "time" S). split; [apply uf_halo; [exact E1|apply AD; auto; cbn; tauto]|].
      split; [|apply averaged_annual; assumption]. destruct (RF _ _ I1 E1) as (WA & NA). apply averaged_fixed; try assumption. intros k s Hk. rewrite <- (FIX _ _ I1 E1 0%nat). apply IT, Hk. }
  destruct AVG as (T' & S' & UF' & AT & AS).
  assert (HZ2 : ds_get z d' = Ok zl) by (unfold ds_get; rewrite (SAME z) by (cbn; tauto); rewrite HZ; reflexivity).
  assert (HB2 : dget zb d' = Some ifaces) by (rewrite (SAME zb) by (cbn; tauto); exact HB).
  assert (HD2 : dget "deptho" d' = Some depth) by (rewrite (SAME "deptho") by (cbn; tauto); exact HD).
  destruct (C32_local_formula d' (Some ref) cn None rhozero patm eos variant domain strict r' ref d' Linear "time" z zb T' S' vol rho0 zl ifaces depth zi n p w e
    H' Hd eq_refl Hc Hm WF' UF' HV HR HZ2 HB2 HD2 NZ) as (delta' & sea' & A' & B' & DV' & SV').
  { destruct C0 as (C1 & C2 & C3 & C4 & C5 & C6). split; [exact C1|]. split; [exact C2|]. split; [exact C3|]. split; [exact C4|]. split; [exact C5|].
    intros k Hk ek. destruct (C6 k Hk) as (_ & _ & Q3 & Q4 & _). unfold ek.
    split; [intros s E0; rewrite (AT k Hk) in E0; destruct (notnull (at_ T (upd e z k))); discriminate E0|].
    split; [intros s E0; rewrite (AS k Hk) in E0; destruct (notnull (at_ S (upd e z k))); discriminate E0|]. split; [exact Q3|]. split; [exact Q4|]. intros; exact I. }
  exists delta, sea, delta', sea'. split; [exact A|]. split; [exact B|]. split; [exact A'|]. split; [exact B'|].
  assert (DE : forall k, (k < n)%nat -> fof (density_change Linear (column_at z T' S' rho0 vol depth p w e) k) = at_ delta (upd e z k)).
  { intros k Hk. rewrite (DV k Hk). apply mean_density with (n := n); try assumption.
    - intros i. apply (FIX _ _ I4 HR).
    - intros i. apply (FIX _ _ I3 HV).
    - intros s. rewrite <- (FIX _ _ I4 HR 0%nat). apply IR, Hk.
    - intros i s. apply IT, Hk.
    - intros i s. apply IS, Hk. }
  split.
  - intros k Hk. rewrite (DV' k Hk). apply DE, Hk.
  - rewrite SV', SV. destruct (notnull _); [|reflexivity]. f_equal. unfold steric_height. cbn [c_w c_floor column_at]. f_equal. apply Rsum_ext. intros k Hk. f_equal.
    rewrite <- (DE k Hk). destruct (density_change _ _ _); reflexivity.
Qed.
Print Assumptions C125_linear.
