(** * PropertiesTestData2: the vertical grids of the generated datasets (C100) *)
From Coq Require Import Reals Lra Lia List String Bool Arith.
From Verif Require Import Num NumFacts Py Arr ArrFacts Derived Dataset TestData SpecDz ProofsUtil ProofsDz ProofsTestData ProofsStericOk ProofsStericDemo PropertiesDz.
Import ListNotations.
Local Open Scope string_scope.
Local Open Scope R_scope.

(** Interfaces start at the surface and increase; each level lies half way between its interfaces. *)
Definition sound_levels (levels interfaces : arr) : Prop :=
  adims levels = [("z_l", 5%nat)] /\ adims interfaces = [("z_i", 6%nat)] /\
  exists w : nat -> R, w O = 0 /\
    (forall k e, (k <= 5)%nat -> e "z_i" = k -> at_ interfaces e = Fin (w k)) /\
    (forall k, (k < 5)%nat -> w k < w (S k)) /\
    (forall k e, (k < 5)%nat -> e "z_l" = k -> at_ levels e = Fin ((w k + w (S k)) / 2)).

Lemma vec_wf d l : wf_arr (vec d l).
Proof. apply wf_of; [nodup|]. intros e e' H. cbn [at_ vec]. rewrite (H d) by (cbn; tauto). reflexivity. Qed.
Lemma five k : (k < 5)%nat -> k = 0%nat \/ k = 1%nat \/ k = 2%nat \/ k = 3%nat \/ k = 4%nat.
Proof. lia. Qed.
Lemma levels_sound z : z = z_interfaces \/ z = dz_interfaces ->
  forall l, (forall k, (k < 5)%nat -> nth k l 0 = (nth k z 0 + nth (S k) z 0) / 2) -> List.length l = 5%nat ->
  sound_levels (vec "z_l" l) (vec "z_i" z).
Proof.
  intros Hz l Hl L. split; [unfold vec; cbn [adims]; rewrite L; reflexivity|].
  split; [destruct Hz as [-> | ->]; reflexivity|]. exists (fun k => nth k z 0). split; [|split; [|split]].
  - destruct Hz as [-> | ->]; reflexivity.
  - intros k e _ E. cbn [vec at_]. rewrite E. reflexivity.
  - intros k Hk. destruct Hz as [-> | ->], (five k Hk) as [->|[->|[->|[->| ->]]]]; cbn; lra.
  - intros k e Hk E. cbn [vec at_]. rewrite E. f_equal. apply Hl, Hk.
Qed.

(** A column sum of thicknesses. *)
Lemma column_sum (z l : list R) (depth : arr) :
  z = z_interfaces \/ z = dz_interfaces -> sound_levels (vec "z_l" l) (vec "z_i" z) -> wf_arr depth ->
  adims depth = [("yh", 5%nat); ("xh", 5%nat)] ->
  (forall e, inrange (adims depth) e -> at_ depth e = NaN \/ exists x, at_ depth e = Fin x /\ 0 <= x <= nth 5 z 0) ->
  exists r s, calc_dz (vec "z_l" l) (vec "z_i" z) depth (Fin 0) None false = Ok r /\ asum ["z_l"] r = Ok s /\
    forall e, (e "yh" < 5)%nat -> (e "xh" < 5)%nat -> at_ s e = Fin (water_depth (at_ depth e)).
Proof.
  intros Hz (D1 & D2 & w & W0 & W1 & W2 & W3) Hw Hd Hr.
  assert (Nd : ~ In "z_l" (names depth)) by (unfold names; rewrite Hd; cbn; intros [H|[H|[]]]; discriminate).
  destruct (C14_accepts (vec "z_l" l) (vec "z_i" z) depth (Fin 0) None false "z_l" 5 "z_i" (vec_wf _ _) (vec_wf _ _) Hw D1 D2 Nd) as (r & Er & Nr).
  - intros e He [H|(x & H & Hx)]; destruct (Hr e He) as [E|(y & E & Hy)]; rewrite E in H; try discriminate.
    injection H as <-. lra.
  - intros e He. assert (K : (e "z_l" < 5)%nat) by (rewrite D1 in He; apply (He "z_l" 5%nat); left; reflexivity).
    rewrite (W3 _ e K eq_refl). split; [|discriminate]. intros [H|(x & H & Hx)]; [discriminate|]. injection H as <-.
    assert (P : forall k, (k <= 5)%nat -> 0 <= w k).
    { intros k. induction k as [|k IH]; intros Hk; [lra|]. assert (Q := W2 k ltac:(lia)). assert (Q' := IH ltac:(lia)). lra. }
    assert (P1 := P (e "z_l") ltac:(lia)). assert (P2 := P (S (e "z_l")) ltac:(lia)). lra.
  - intros e He. assert (K : (e "z_i" < 6)%nat) by (rewrite D2 in He; apply (He "z_i" 6%nat); left; reflexivity).
    rewrite (W1 (e "z_i") e ltac:(lia) eq_refl). split; [|discriminate]. intros [H|(x & H & Hx)]; [discriminate|]. injection H as <-.
    assert (P : forall k, (k <= 5)%nat -> 0 <= w k).
    { intros k. induction k as [|k IH]; intros Hk; [lra|]. assert (Q := W2 k ltac:(lia)). assert (Q' := IH ltac:(lia)). lra. }
    assert (P1 := P (e "z_i") ltac:(lia)). lra.
  - destruct (asum ["z_l"] r) as [s|x] eqn:Es.
    + exists r, s. split; [exact Er|]. split; [exact Es|]. intros e H1 H2.
      assert (I : inrange (adims depth) e).
      { rewrite Hd. intros d n [H|[H|[]]]; injection H as <- <-; assumption. }
      rewrite (C13_column_total (vec "z_l" l) (vec "z_i" z) depth None r s e "z_l" "z_i" 5 w Er Es (vec_wf _ _) Hw Nd); [|split; [exact D1|split; [exact D2|]]| | |exact I| |exact Logic.I].
      * cbn [range_floor]. f_equal. apply Rmin_left.
        assert (W5 : w 5%nat = nth 5 z 0).
        { assert (Q := W1 5%nat (fun _ => 5%nat) ltac:(lia) eq_refl). cbn [vec at_] in Q. congruence. }
        rewrite W5. destruct (Hr e I) as [->|(x & -> & Hx)]; cbn [water_depth]; [|lra].
        destruct Hz as [-> | ->]; cbn; lra.
      * intros k Hk. apply W1; [exact Hk|]. unfold upd. rewrite String.eqb_refl. reflexivity.
      * intros k Hk. left. apply W2, Hk.
      * exact W0.
      * intros sg. destruct (Hr e I) as [->|(x & -> & _)]; discriminate.
    + exfalso. assert (G : In "z_l" (names r)) by (apply Nr; right; reflexivity).
      assert (Q := asum_ok ["z_l"] r (fun d Hd => match Hd with or_introl E => eq_ind _ (fun d => In d (names r)) G _ E | or_intror F => match F with end end)).
      rewrite Es in Q. discriminate.
Qed.

(** C100: on every generated dataset the levels are the centres of their interfaces, and the
    thicknesses which calc_dz returns add up to the generated depth in every column. *)
Theorem C100_generated_columns : forall nt f g T S V,
  Rsum 5 (fun j => Rsum 5 (fun i => f j i)) <> 0 -> (forall j i, 0 <= g j i <= 1) ->
  exists ds levels interfaces depth r s,
    generate_test_data nt f g T S V = Ok ds /\
    dget "z_l" ds = Some levels /\ dget "z_i" ds = Some interfaces /\ dget "deptho" ds = Some depth /\
    sound_levels levels interfaces /\
    calc_dz levels interfaces depth (Fin 0) None false = Ok r /\ asum ["z_l"] r = Ok s /\
    forall e, (e "yh" < 5)%nat -> (e "xh" < 5)%nat -> at_ depth e = Fin (g (e "yh") (e "xh") * nth (e "yh") [5; 15; 185; 1815; 6185] 0) /\ at_ s e = at_ depth e.
Proof.
  intros nt f g T S V Hs Hg.
  destruct (generated_regular nt f g T S V Hs (fun j i => proj1 (Hg j i))) as (ds & a & E & _ & RG).
  assert (SL : sound_levels (vec "z_l" z_centres) (vec "z_i" z_interfaces)).
  { apply levels_sound; [left; reflexivity| |reflexivity].
    intros k Hk. destruct (five k Hk) as [->|[->|[->|[->| ->]]]]; cbn; lra. }
  destruct (column_sum z_interfaces z_centres (deptho_field g) (or_introl eq_refl) SL) as (r & s & Er & Es & V0).
  - apply wf_of; [nodup|]. intros e e' H. cbn [deptho_field field5 at_]. rewrite !(H "yh"), !(H "xh") by (cbn; tauto). reflexivity.
  - reflexivity.
  - intros e He. right. cbn [deptho_field field5 at_]. eexists. split; [reflexivity|].
    assert (K : (e "yh" < 5)%nat) by (apply (He "yh" 5%nat); left; reflexivity).
    assert (G := Hg (e "yh") (e "xh")).
    assert (B : 0 <= nth (Datatypes.S (e "yh")) z_interfaces 0 <= 6185).
    { destruct (five (e "yh") K) as [->|[->|[->|[->| ->]]]]; cbn; lra. }
    assert (B5 : nth 5 z_interfaces 0 = 6185) by reflexivity. rewrite B5. set (q := nth _ z_interfaces 0) in *. nra.
  - destruct RG. exists ds, (vec "z_l" z_centres), (vec "z_i" z_interfaces), (deptho_field g), r, s.
    repeat (split; [assumption|]). intros e H1 H2. split; [reflexivity|]. rewrite V0 by assumption. reflexivity.
Qed.
Print Assumptions C100_generated_columns.

(** In generate_test_data_dz the depth is missing in exactly two columns, which get no thickness. *)
Theorem C100_generated_dz : forall u, (forall j i, 0 <= u j i <= 1) ->
  exists levels interfaces depth r s,
    dget "z_l" (generate_test_data_dz u) = Some levels /\ dget "z_i" (generate_test_data_dz u) = Some interfaces /\
    dget "deptho" (generate_test_data_dz u) = Some depth /\ sound_levels levels interfaces /\
    calc_dz levels interfaces depth (Fin 0) None false = Ok r /\ asum ["z_l"] r = Ok s /\
    forall e, (e "yh" < 5)%nat -> (e "xh" < 5)%nat ->
      (e "yh" = 2%nat /\ (e "xh" = 2%nat \/ e "xh" = 3%nat) /\ at_ depth e = NaN /\ at_ s e = Fin 0) \/
      (~ (e "yh" = 2%nat /\ (e "xh" = 2%nat \/ e "xh" = 3%nat)) /\
       at_ depth e = Fin (100 * u (e "yh") (e "xh")) /\ at_ s e = at_ depth e).
Proof.
  intros u Hu.
  set (zl := map (fun k => ((nth (k + 1) dz_interfaces 0 + nth k dz_interfaces 0) / 2)%R) (seq 0 5)).
  assert (SL : sound_levels (vec "z_l" zl) (vec "z_i" dz_interfaces)).
  { apply levels_sound; [right; reflexivity| |reflexivity].
    intros k Hk. destruct (five k Hk) as [->|[->|[->|[->| ->]]]]; cbn; lra. }
  eexists (vec "z_l" zl), (vec "z_i" dz_interfaces), _.
  destruct (column_sum dz_interfaces zl (mkArr [("yh", 5%nat); ("xh", 5%nat)]
                 (fun e => if Nat.eqb (e "yh") 2 && (Nat.eqb (e "xh") 2 || Nat.eqb (e "xh") 3)
                           then NaN else Fin (100 * u (e "yh") (e "xh"))%R)) (or_intror eq_refl) SL) as (r & s & Er & Es & V0).
  - apply wf_of; [nodup|]. intros e e' H. cbn [at_]. rewrite !(H "yh"), !(H "xh") by (cbn; tauto). reflexivity.
  - reflexivity.
  - intros e _. cbn [at_]. destruct (_ && _); [left; reflexivity|]. right. eexists. split; [reflexivity|].
    assert (G := Hu (e "yh") (e "xh")). cbn. lra.
  - exists r, s. split; [reflexivity|]. split; [reflexivity|]. split; [reflexivity|]. split; [exact SL|]. split; [exact Er|]. split; [exact Es|].
    intros e H1 H2. rewrite (V0 e H1 H2). cbn [at_].
    destruct (Nat.eqb_spec (e "yh") 2) as [A|A], (Nat.eqb_spec (e "xh") 2) as [B|B], (Nat.eqb_spec (e "xh") 3) as [C|C]; cbn [andb orb water_depth];
      try (left; tauto); right; (split; [lia|split; reflexivity]).
Qed.
Print Assumptions C100_generated_dz.

Example C100_case : exists ds depth s,
  generate_test_data 5 (fun _ _ => 1 / 2) (fun _ _ => 1 / 3) (fun t k j i => 15 + INR t) (fun _ _ _ _ => 35) (fun _ _ _ _ => 1000) = Ok ds /\
  dget "deptho" ds = Some depth /\ at_ s (fun d => if String.eqb d "yh" then 2%nat else 0%nat) = Fin (1 / 3 * 185).
Proof.
  destruct (C100_generated_columns 5 (fun _ _ => 1 / 2) (fun _ _ => 1 / 3) (fun t k j i => 15 + INR t) (fun _ _ _ _ => 35) (fun _ _ _ _ => 1000))
    as (ds & l & i & d & r & s & E & _ & _ & D & _ & _ & _ & H); [cbn; lra|intros; lra|].
  exists ds, d, s. split; [exact E|]. split; [exact D|].
  destruct (H (fun d => if String.eqb d "yh" then 2%nat else 0%nat)) as (X1 & X2); [cbn; lia|cbn; lia|].
  rewrite X2, X1. reflexivity.
Qed.
Example C100_case_dz : exists u : nat -> nat -> R, (forall j i, 0 <= u j i <= 1) /\ u 0%nat 0%nat <> u 1%nat 0%nat.
Proof. exists (fun j _ => match j with O => 0 | _ => 1 end). split; [intros [|j] _; lra|lra]. Qed.
