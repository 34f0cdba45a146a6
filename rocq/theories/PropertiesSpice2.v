(** * PropertiesSpice2: C105 (warm and salty water is spicy) *)
From Coq Require Import Reals Lra Lia List String Bool Arith.
From Verif Require Import Num NumFacts Py Arr ArrFacts Spice SpecSpice Derived SpecDz ProofsEos ProofsSpice ProofsSpice2 PropertiesFields.
Import ListNotations.
Local Open Scope string_scope.
Local Open Scope R_scope.

(** Open-ocean ranges: 0..30 degC with 30..40 psu, and -2..40 degC with 32..38 psu. *)
Definition open_ocean (T S : R) : Prop := 0 <= T <= 30 /\ 30 <= S <= 40.
Definition mid_salinity (T S : R) : Prop := -2 <= T <= 40 /\ 32 <= S <= 38.

Lemma pi_increase T S T' S' : T <= T' -> S <= S' ->
  (open_ocean T S -> open_ocean T' S' -> 3 / 100 * (T' - T) + 36 / 100 * (S' - S) <= flament_pi T' S' - flament_pi T S) /\
  (mid_salinity T S -> mid_salinity T' S' -> 16 / 1000 * (T' - T) + 14 / 100 * (S' - S) <= flament_pi T' S' - flament_pi T S).
Proof.
  intros HT HS. split; intros [A1 A2] [B1 B2].
  - assert (P : 3 / 100 * (T' - T) <= flament_pi T' S - flament_pi T S).
    { rewrite !pi_in_T. apply poly5_increase; [exact HT|]. intros w Hw. apply pi_warm; lra. }
    assert (Q : 36 / 100 * (S' - 35 - (S - 35)) <= flament_pi T' S' - flament_pi T' S).
    { rewrite !pi_in_S. apply poly5_increase; [lra|]. intros w Hw. replace w with (w + 35 - 35) by ring. apply pi_salty; lra. }
    lra.
  - assert (P : 16 / 1000 * (T' - T) <= flament_pi T' S - flament_pi T S).
    { rewrite !pi_in_T. apply poly5_increase; [exact HT|]. intros w Hw. apply pi_warm2; lra. }
    assert (Q : 14 / 100 * (S' - 35 - (S - 35)) <= flament_pi T' S' - flament_pi T' S).
    { rewrite !pi_in_S. apply poly5_increase; [lra|]. intros w Hw. replace w with (w + 35 - 35) by ring. apply pi_salty2; lra. }
    lra.
Qed.

(** C105: of two cells, the warmer and saltier one is spicier, at least at these rates per degree
    and per psu. *)
Theorem C105_increasing : forall t s t' s' e T S T' S',
  NoDup (names t) -> NoDup (names s) -> NoDup (names t') -> NoDup (names s') ->
  (forall d n, In (d, n) (adims t) <-> In (d, n) (adims s)) -> (forall d n, In (d, n) (adims t') <-> In (d, n) (adims s')) ->
  at_ t e = Fin T -> at_ s e = Fin S -> at_ t' e = Fin T' -> at_ s' e = Fin S' -> T <= T' -> S <= S' ->
  exists r r' x x', calc_spice t s = Ok r /\ calc_spice t' s' = Ok r' /\ at_ r e = Fin x /\ at_ r' e = Fin x' /\
    (open_ocean T S -> open_ocean T' S' -> 3 / 100 * (T' - T) + 36 / 100 * (S' - S) <= x' - x) /\
    (mid_salinity T S -> mid_salinity T' S' -> 16 / 1000 * (T' - T) + 14 / 100 * (S' - S) <= x' - x).
Proof.
  intros t s t' s' e T S T' S' N1 N2 N3 N4 D D' E1 E2 E3 E4 HT HS.
  destruct (proj1 (C08_calc_spice t s N1 N2) D) as (r & R & _ & V). destruct (proj1 (C08_calc_spice t' s' N3 N4) D') as (r' & R' & _ & V').
  exists r, r', (flament_pi T S), (flament_pi T' S'). split; [exact R|]. split; [exact R'|].
  split; [apply V; assumption|]. split; [apply V'; assumption|]. apply pi_increase; assumption.
Qed.
Print Assumptions C105_increasing.

(** Equally spicy water of the open ocean: the warmer is the fresher (as along density surfaces,
    but in the opposite sense). *)
Theorem C105_compensation : forall t s t' s' e T S T' S' r r',
  NoDup (names t) -> NoDup (names s) -> NoDup (names t') -> NoDup (names s') ->
  (forall d n, In (d, n) (adims t) <-> In (d, n) (adims s)) -> (forall d n, In (d, n) (adims t') <-> In (d, n) (adims s')) ->
  at_ t e = Fin T -> at_ s e = Fin S -> at_ t' e = Fin T' -> at_ s' e = Fin S' ->
  calc_spice t s = Ok r -> calc_spice t' s' = Ok r' -> at_ r e = at_ r' e ->
  (open_ocean T S /\ open_ocean T' S' \/ mid_salinity T S /\ mid_salinity T' S') -> T < T' -> S' < S.
Proof.
  intros t s t' s' e T S T' S' r r' N1 N2 N3 N4 D D' E1 E2 E3 E4 R R' E B HT. apply Rnot_le_lt. intros HS.
  destruct (C105_increasing t s t' s' e T S T' S' N1 N2 N3 N4 D D' E1 E2 E3 E4 (Rlt_le _ _ HT) HS) as (q & q' & x & x' & Q & Q' & X & X' & B1 & B2).
  rewrite R in Q. rewrite R' in Q'. injection Q as <-. injection Q' as <-. rewrite X, X' in E. injection E as E.
  destruct B as [[B B']|[B B']]; [specialize (B1 B B')|specialize (B2 B B')]; lra.
Qed.
Print Assumptions C105_compensation.

(** Outside those ranges the fit is not monotone: at 40 degC, 40 psu is less spicy than 39 psu. *)
Theorem C105_range_needed : exists x y, spice (NpScalar (Fin 40)) (NpScalar (Fin 39.5)) = Ok (mkNp [1%nat] [Fin x]) /\
  spice (NpScalar (Fin 40)) (NpScalar (Fin 40)) = Ok (mkNp [1%nat] [Fin y]) /\ y < x.
Proof.
  assert (N : wf_np (mkNp [1%nat] [Fin 0])) by reflexivity.
  destruct (C08_spice_numpy _ _ N N) as (_ & _ & V & _). exists (flament_pi 40 39.5), (flament_pi 40 40).
  split; [apply V|]. split; [apply V|]. unfold flament_pi. cbv zeta. lra.
Qed.
Print Assumptions C105_range_needed.

(** Mediterranean water (13 degC, 38.4 psu) against deep Atlantic water (3 degC, 34.9 psu). *)
Definition med (v : R) : arr := mkArr [("z", 1%nat)] (fun _ => Fin v).
Example C105_case : exists r r' x x', calc_spice (med 3) (med 34.9) = Ok r /\ calc_spice (med 13) (med 38.4) = Ok r' /\
  at_ r (fun _ => 0%nat) = Fin x /\ at_ r' (fun _ => 0%nat) = Fin x' /\ x + 1.5 < x'.
Proof.
  assert (ND : forall v, NoDup (names (med v))) by (intros v; repeat constructor; intros []).
  destruct (C105_increasing (med 3) (med 34.9) (med 13) (med 38.4) (fun _ => 0%nat) 3 34.9 13 38.4) as (r & r' & x & x' & R & R' & X & X' & B & _);
    try apply ND; try reflexivity; try lra.
  exists r, r', x, x'. do 4 (split; [assumption|]). assert (open_ocean 3 34.9) by (unfold open_ocean; lra). assert (open_ocean 13 38.4) by (unfold open_ocean; lra).
  specialize (B H H0). lra.
Qed.
(** Water of 5 degC somewhere between 34 and 35 psu is exactly as spicy as water of 4 degC and 35 psu. *)
Example C105_compensation_case : exists S' r r', calc_spice (med 4) (med 35) = Ok r /\ calc_spice (med 5) (med S') = Ok r' /\
  at_ r (fun _ => 0%nat) = at_ r' (fun _ => 0%nat) /\ open_ocean 4 35 /\ open_ocean 5 S' /\ S' < 35.
Proof.
  assert (ND : forall v, NoDup (names (med v))) by (intros v; repeat constructor; intros []).
  assert (C : continuity (fun s => poly5 (cS0 5) (cS1 5) (cS2 5) (cS3 5) (cS4 5) 0 s - flament_pi 4 35)).
  { apply continuity_minus; [|apply continuity_const; intros u v; reflexivity]. intros s. apply derivable_continuous_pt.
    eexists. apply poly5_deriv. }
  destruct (IVT_cor _ (34 - 35) (35 - 35) C) as (q & Hq & Z); [lra| |].
  { rewrite <- !pi_in_S. unfold flament_pi. cbv zeta. nra. }
  assert (E : flament_pi 5 (q + 35) = flament_pi 4 35) by (rewrite (pi_in_S 5); replace (q + 35 - 35) with q by ring; lra).
  destruct (proj1 (C08_calc_spice (med 4) (med 35) (ND _) (ND _))) as (r & R & _ & V); [intros; reflexivity|].
  destruct (proj1 (C08_calc_spice (med 5) (med (q + 35)) (ND _) (ND _))) as (r' & R' & _ & V'); [intros; reflexivity|].
  exists (q + 35), r, r'. split; [exact R|]. split; [exact R'|].
  assert (W : at_ r (fun _ => 0%nat) = at_ r' (fun _ => 0%nat)).
  { rewrite (proj1 (V _) 4 35 eq_refl eq_refl), (proj1 (V' _) 5 (q + 35) eq_refl eq_refl), E. reflexivity. }
  split; [exact W|]. assert (O : open_ocean 4 35) by (unfold open_ocean; lra). assert (O' : open_ocean 5 (q + 35)) by (unfold open_ocean; lra).
  split; [exact O|]. split; [exact O'|].
  apply (C105_compensation (med 4) (med 35) (med 5) (med (q + 35)) (fun _ => 0%nat) 4 35 5 (q + 35) r r'); try apply ND; try assumption; try reflexivity; [left; split; assumption|lra].
Qed.
