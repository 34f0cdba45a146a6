(** * ProofsSteric5: reference state values, validation rules *)
From Coq Require Import Reals Lra Lia List String Bool Arith ZArith.
From Verif Require Import Num NumFacts Py Arr ArrFacts Eos SpecEos Derived SpecDz Dataset SpecSteric
  ProofsEos ProofsEosApi ProofsFields ProofsFields2 ProofsDz ProofsBudget ProofsSteric ProofsSteric2 ProofsSteric3 ProofsStericOk.
Import ListNotations.
Local Open Scope string_scope.
Local Open Scope R_scope.

(** ** Reference state *)
Lemma selects_index k n i : py_index k n = Some i -> selects k n i.
Proof. intros H. apply py_index_selects in H. unfold selects. destruct H as [(H1 & H2 & H3)|(H1 & H2 & H3)]; split; auto. Qed.

Lemma index_selects k n i : selects k n i -> py_index k n = Some i.
Proof.
  intros [H1 H2]. apply py_index_selects. destruct H2 as [->| H2]; [left; lia|].
  destruct (Z_lt_ge_dec k 0); [right; lia|]. exfalso. lia.
Qed.

Lemma drop_other t (l : list (string * nat)) d n : In (d, n) (drop_dim t l) -> In (d, n) l /\ d <> t.
Proof.
  intros H. apply filter_In in H as [H1 H2]. split; [exact H1|]. cbn in H2.
  apply negb_true_iff, String.eqb_neq in H2. congruence.
Qed.

Lemma level_value t k T T0 : isel_z t k T = Ok T0 -> NoDup (names T) ->
  (forall d n, In (d, n) (adims T) -> d <> t -> n <> 1%nat) ->
  exists n i, dget t (adims T) = Some n /\ selects k n i /\ adims (squeeze T0) = drop_dim t (adims T) /\
    forall e, at_ (squeeze T0) e = at_ T (upd e t i).
Proof.
  intros H Hn H1. apply isel_z_inv in H as (n & i & G1 & G2 & _ & G4 & G5).
  assert (Hd : forall d m, In (d, m) (adims T0) -> m <> 1%nat).
  { intros d m Hin. rewrite G4 in Hin. apply drop_other in Hin as [A B]. apply (H1 d m A B). }
  assert (Hn0 : NoDup (names T0)) by (unfold names; rewrite G4; apply drop_NoDup, Hn).
  destruct (squeeze_id T0 Hd Hn0) as [S1 S2].
  exists n, i. split; [exact G1|]. split; [apply selects_index, G2|]. split; [congruence|].
  intros e. rewrite S2. apply G5.
Qed.

Lemma reference_values ds patm eos cn k ref m t z zb T Sa V :
  setup_reference_state ds patm eos cn k = Ok ref -> default_coords cn = (t, z, zb) ->
  same_name eos (module_name m) -> wf_ds ds ->
  dget "thetao" ds = Some T -> dget "so" ds = Some Sa -> dget "volcello" ds = Some V ->
  (forall a d n, a = T \/ a = Sa \/ a = V -> In (d, n) (adims a) -> d <> t -> n <> 1%nat) ->
  exists T0 S0 V0 rho0 volo masso rhoga zl nT nS nV iT iS iV,
    dget "thetao" ref = Some T0 /\ dget "so" ref = Some S0 /\ dget "volcello" ref = Some V0 /\ dget "rho" ref = Some rho0 /\
    dget "volo" ref = Some volo /\ dget "masso" ref = Some masso /\ dget "rhoga" ref = Some rhoga /\
    dget "areacello" ref = dget "areacello" ds /\ ds_get z ds = Ok zl /\
    dget t (adims T) = Some nT /\ selects k nT iT /\ adims T0 = drop_dim t (adims T) /\ (forall e, at_ T0 e = at_ T (upd e t iT)) /\
    dget t (adims Sa) = Some nS /\ selects k nS iS /\ adims S0 = drop_dim t (adims Sa) /\ (forall e, at_ S0 e = at_ Sa (upd e t iS)) /\
    dget t (adims V) = Some nV /\ selects k nV iV /\ adims V0 = drop_dim t (adims V) /\ (forall e, at_ V0 e = at_ V (upd e t iV)) /\
    forall p, field_ok m T0 S0 V0 zl patm p ->
     (forall e, at_ rho0 e = fof (cell_density m (at_ T0 e) (at_ S0 e) (p e))) /\
     (forall e, at_ volo e = Fin (Rsum_box (adims V0) (fun e' => odef (opt (at_ V0 e'))) e)) /\
     (same_grid t V0 T0 -> same_grid t V0 S0 -> same_grid t V0 zl -> same_grid t V0 patm ->
       (forall e, at_ masso e = Fin (total_mass m T0 S0 V0 p e)) /\
       (forall e, at_ rhoga e = fdiv (at_ masso e) (at_ volo e))).
Proof.
  intros H Hc Hm Hw DT DS DV H1.
  apply setup_inv in H as (t' & z' & zb' & zl & pres & T' & S' & V' & T0 & S0 & V0 & rho & volo & masso & rhoga & area
    & G0 & G1 & G2 & G3 & G4 & G5 & G6 & G7 & G8 & G9 & G10 & G11 & G12 & G13 & ->).
  rewrite Hc in G0. injection G0 as <- <- <-.
  rewrite (ds_get_var _ _ _ DT) in G3. injection G3 as <-.
  rewrite (ds_get_var _ _ _ DS) in G4. injection G4 as <-.
  rewrite (ds_get_var _ _ _ DV) in G5. injection G5 as <-.
  destruct (level_value _ _ _ _ G6 (proj1 (Hw _ _ DT)) (fun d n => H1 T d n (or_introl eq_refl))) as (nT & iT & A1 & A2 & A3 & A4).
  destruct (level_value _ _ _ _ G7 (proj1 (Hw _ _ DS)) (fun d n => H1 Sa d n (or_intror (or_introl eq_refl)))) as (nS & iS & B1 & B2 & B3 & B4).
  destruct (level_value _ _ _ _ G8 (proj1 (Hw _ _ DV)) (fun d n => H1 V d n (or_intror (or_intror eq_refl)))) as (nV & iV & C1 & C2 & C3 & C4).
  exists (squeeze T0), (squeeze S0), (squeeze V0), rho, volo, masso, rhoga, zl, nT, nS, nV, iT, iS, iV.
  repeat (split; [solve [reflexivity|assumption|now symmetry]|]).
  intros p Hf.
  assert (NV : NoDup (names (squeeze V0))) by (unfold names; rewrite C3; apply drop_NoDup; exact (proj1 (Hw _ _ DV))).
  assert (Ht : ~ In t (names (squeeze V0))) by (unfold names; rewrite C3, drop_names; tauto).
  split; [|split].
  - intros e. rewrite (rho_inv _ _ _ _ _ _ G9 Hm).
    destruct (Hf e) as (F1 & F2 & F3 & (x & y & F4 & F5 & F6) & F7).
    apply amap2_inv in G2. rewrite G2. cbn [at_ const_r amap]. rewrite F4, F5. cbn [fmul fadd].
    replace (x * 10000 + y) with (p e) by lra. unfold cell_density.
    destruct (at_ (squeeze T0) e) as [|b|tt] eqn:E1.
    + cbn [opt fof]. apply eos_density_nan. left; reflexivity.
    + exfalso. exact (F1 b eq_refl).
    + destruct (at_ (squeeze S0) e) as [|b|ss] eqn:E2.
      * cbn [opt fof]. apply eos_density_nan. right; reflexivity.
      * exfalso. exact (F2 b eq_refl).
      * cbn [opt fof]. apply eos_density_Fin. apply F7; reflexivity.
  - assert (Hi : no_inf (squeeze V0)).
    { intros e s E. destruct (Hf e) as (_ & _ & F3 & _). exact (F3 s E). }
    destruct (volo_value _ _ G10 NV Hi) as (_ & Hv & _). intros e. rewrite Hv. f_equal. apply Rsum_box_ext.
    intros e'. symmetry. apply opt_val.
  - intros S1 S2 S3 S4. split.
    + intros e. apply (field_mass _ _ _ _ _ _ _ _ _ _ _ _ e G9 Hm G2 G11 NV Ht Hf S1 S2 S3 S4).
    + intros e. unfold calc_rhoga in G12. apply amap2_inv in G12. rewrite G12. reflexivity.
Qed.

(** A size-one dimension other than time makes the reference state fail. *)
Lemma size_one_fails ds patm eos cn k t z zb V d :
  default_coords cn = (t, z, zb) -> dget "volcello" ds = Some V -> ndim V = 4%nat -> NoDup (names V) ->
  d <> t -> In (d, 1%nat) (adims V) -> is_ok (setup_reference_state ds patm eos cn k) = false.
Proof.
  intros Hc DV HN Hn Hd Hin. destruct (setup_reference_state ds patm eos cn k) as [ref|] eqn:H; [exfalso|reflexivity].
  apply setup_inv in H as (t' & z' & zb' & zl & pres & T' & S' & V' & T0 & S0 & V0 & rho & volo & masso & rhoga & area
    & G0 & G1 & G2 & G3 & G4 & G5 & G6 & G7 & G8 & G9 & G10 & _).
  rewrite Hc in G0. injection G0 as <- <- <-. rewrite (ds_get_var _ _ _ DV) in G5. injection G5 as <-.
  apply isel_z_inv in G8 as (n & i & A1 & A2 & _ & A4 & A5).
  unfold calc_volo in G10. destruct (Nat.eqb (ndim (squeeze V0)) 3) eqn:E; [|discriminate]. apply Nat.eqb_eq in E.
  unfold ndim, squeeze in E. cbn [adims] in E. rewrite A4 in E.
  assert (HL := drop_length t (adims V) n Hn A1). unfold ndim in HN. rewrite HN in HL.
  assert (Hall := length_filter_all (fun p : string * nat => negb (Nat.eqb (snd p) 1)) (drop_dim t (adims V))).
  assert (HE : List.length (filter (fun p : string * nat => negb (Nat.eqb (snd p) 1)) (drop_dim t (adims V))) =
               List.length (drop_dim t (adims V))) by lia.
  specialize (Hall HE (d, 1%nat)). cbn in Hall. discriminate Hall.
  apply filter_In. split; [exact Hin|]. cbn. apply negb_true_iff, String.eqb_neq. congruence.
Qed.

(** ** Cell area check *)
Lemma area_interval area r tol : 0 < r -> NoDup (names area) -> no_inf area ->
  validate_areacello area (Fin r) (Fin tol) = true <-> area_in_range area r tol.
Proof.
  intros Hr Hn Hi. unfold validate_areacello, area_in_range, total_area. rewrite (asum_all_Fin _ _ Hn Hi).
  rewrite (Rsum_box_ext (adims area) (fun e' => odef (opt (at_ area e'))) (fun e' => val (at_ area e')))
    by (intros; apply opt_val).
  set (s := Rsum_box _ _ _). unfold fsub, fdiv. cbn.
  destruct (Reqb r 0) eqn:E; [apply Reqb_true in E; lra|]. cbn.
  destruct (Rltb _ _) eqn:L.
  - apply Rltb_true in L. split; [intros _|reflexivity].
    apply Rabs_def2 in L as [L1 L2].
    assert (HX : (s - r) / r * r = s - r) by (field; lra).
    split; nra.
  - apply Rltb_false in L. split; [discriminate|]. intros [H1 H2]. exfalso.
    assert (HX : (s - r) / r * r = s - r) by (field; lra).
    assert (Rabs ((s + - r) / r) < tol); [|lra]. replace (s + - r) with (s - r) by ring.
    apply Rabs_def1; apply (Rmult_lt_reg_r r); try exact Hr; rewrite HX; lra.
Qed.


(** ** Decision rule *)
Lemma rank_error_iff ds n v e : In e (rank_error ds n v) <-> e = BadRank v /\ exists a, dget v ds = Some a /\ List.length (adims a) <> n.
Proof.
  unfold rank_error. destruct (dget v ds) as [a|].
  - unfold ndim. destruct (Nat.eqb (List.length (adims a)) n) eqn:E.
    + apply Nat.eqb_eq in E. split; [intros []|]. intros (_ & b & [=<-] & H). contradiction.
    + apply Nat.eqb_neq in E. split.
      * intros [<-|[]]. split; [reflexivity|]. exists a. auto.
      * intros (-> & _). left; reflexivity.
  - split; [intros []|]. intros (_ & a & H & _). discriminate.
Qed.

Lemma required_iff (reference : bool) extra v :
  In v (["thetao"; "so"; "volcello"; "areacello"] ++ extra ++ (if reference then ["rho"; "volo"; "masso"; "rhoga"] else []))%list
  <-> required reference extra v.
Proof.
  rewrite !in_app_iff. split.
  - intros [H|[H|H]]; [apply rq_basic; exact H|apply rq_extra; exact H|].
    destruct reference; [apply rq_ref; [reflexivity|exact H]|destruct H].
  - intros H. destruct H as [w H|w H|w Hr H]; [left; exact H|right; left; exact H|right; right; rewrite Hr; exact H].
Qed.

Lemma errors_iff ds reference strict extra err :
  In err (validate_errors ds reference strict extra) <->
  match err with
  | HasTime => False
  | Missing l => l <> [] /\ (forall v, In v l <-> misses ds reference extra v) /\
      l = filter (fun x => negb (dmem x ds))
       (["thetao"; "so"; "volcello"; "areacello"] ++ extra ++ (if reference then ["rho"; "volo"; "masso"; "rhoga"] else []))%list
  | BadRank v => wrong_rank ds reference v
  | BadArea => strict = true /\ exists a, dget "areacello" ds = Some a /\ validate_areacello a ocean_area area_tolerance = false
  end.
Proof.
  unfold validate_errors.
  replace (existsb (fun _ : string => false) (dkeys ds)) with false
    by (symmetry; induction (dkeys ds) as [|? ? IH]; [reflexivity|exact IH]).
  rewrite andb_false_r. change (if false then [HasTime] else []) with (@nil verr). rewrite app_nil_l.
  set (ms := filter _ _). rewrite !in_app_iff.
  assert (Hms : forall v, In v ms <-> misses ds reference extra v).
  { intros v. unfold ms, misses. rewrite filter_In, required_iff, negb_true_iff. unfold dmem.
    destruct (dget v ds); split; intros [A B]; split; auto; discriminate. }
  assert (H2 : In err (match ms with [] => [] | _ => [Missing ms] end) <-> err = Missing ms /\ ms <> []).
  { destruct ms; split; try (intros []; fail).
    - intros [_ H]. now elim H.
    - intros [<-|[]]. split; [reflexivity|discriminate].
    - intros [-> _]. left; reflexivity. }
  rewrite H2. clear H2.
  assert (HF : forall n l, In err (flat_map (rank_error ds n) l) <->
            exists v, In v l /\ err = BadRank v /\ exists a, dget v ds = Some a /\ List.length (adims a) <> n).
  { intros n l. rewrite in_flat_map. split; intros (v & A & B); exists v; (split; [exact A|]); apply rank_error_iff; exact B. }
  rewrite !HF.
  assert (H6 : In err (if reference then (rank_error ds 3 "rho" ++ flat_map (rank_error ds 0) ["masso"; "volo"; "rhoga"])%list else [])
    <-> reference = true /\ ((err = BadRank "rho" /\ exists a, dget "rho" ds = Some a /\ List.length (adims a) <> 3%nat) \/
         exists v, In v ["masso"; "volo"; "rhoga"] /\ err = BadRank v /\ exists a, dget v ds = Some a /\ List.length (adims a) <> 0%nat)).
  { destruct reference; [rewrite in_app_iff, HF, rank_error_iff; tauto|]. split; [intros []|intros [H _]; discriminate]. }
  rewrite H6. clear H6.
  assert (H5 : In err (match dget "areacello" ds with
            | Some a => if validate_areacello a ocean_area area_tolerance then []
                        else if strict then [BadArea] else []
            | None => [] end) <-> err = BadArea /\ strict = true /\ exists a, dget "areacello" ds = Some a /\ validate_areacello a ocean_area area_tolerance = false).
  { destruct (dget "areacello" ds) as [a|].
    - destruct (validate_areacello a ocean_area area_tolerance) eqn:E.
      + split; [intros []|]. intros (_ & _ & b & [=<-] & H). congruence.
      + destruct strict.
        * split; [intros [<-|[]]; repeat split; exists a; auto|intros [-> _]; left; reflexivity].
        * split; [intros []|intros (_ & H & _); discriminate].
    - split; [intros []|intros (_ & _ & b & H & _); discriminate]. }
  rewrite H5. clear H5.
  destruct err as [|l|v|].
  - split; [|intros []]. intros H. repeat (destruct H as [H|H]).
    + destruct H; discriminate.
    + destruct H as (? & _ & H & _); discriminate.
    + destruct H as (? & _ & H & _); discriminate.
    + destruct H; discriminate.
    + destruct H as [_ [[H _]|(? & _ & H & _)]]; discriminate.
  - split.
    + intros H. repeat (destruct H as [H|H]).
      * destruct H as [[=->] H]. split; [exact H|]. split; [exact Hms|reflexivity].
      * destruct H as (? & _ & H & _); discriminate.
      * destruct H as (? & _ & H & _); discriminate.
      * destruct H; discriminate.
      * destruct H as [_ [[H _]|(? & _ & H & _)]]; discriminate.
    + intros (H1 & H2 & H3). left. split; [f_equal; exact H3|]. fold ms in H3. congruence.
  - split.
    + intros H. repeat (destruct H as [H|H]).
      * destruct H; discriminate.
      * destruct H as (w & Hw & [=->] & a & A & B). exists a. destruct reference.
        -- exists 3%nat. split; [exact A|]. split; [|exact B]. apply rr_ref. cbn in *; tauto.
        -- exists 4%nat. split; [exact A|]. split; [|exact B]. apply rr_input. exact Hw.
      * destruct H as (w & Hw & [=->] & a & A & B). exists a, 2%nat. split; [exact A|]. split; [|exact B]. apply rr_flat, Hw.
      * destruct H; discriminate.
      * destruct H as [-> [([=->] & a & A & B)|(w & Hw & [=->] & a & A & B)]].
        -- exists a, 3%nat. split; [exact A|]. split; [|exact B]. apply rr_ref. cbn; tauto.
        -- exists a, 0%nat. split; [exact A|]. split; [|exact B]. apply rr_scalar, Hw.
    + intros (a & n & A & Rr & B). inversion Rr as [w Hw|w Hw|r w Hw|w Hw]; subst.
      * right; left. exists v. split; [exact Hw|]. split; [reflexivity|]. exists a. auto.
      * destruct Hw as [<-|[<-|[<-|[<-|[]]]]].
        1-3: right; left; eexists; (split; [|split; [reflexivity|exists a; auto]]); cbn; tauto.
        do 4 right. split; [reflexivity|]. left. split; [reflexivity|]. exists a; auto.
      * right; right; left. exists v. split; [exact Hw|]. split; [reflexivity|]. exists a. auto.
      * do 4 right. split; [reflexivity|]. right. exists v. split; [exact Hw|]. split; [reflexivity|]. exists a. auto.
  - split.
    + intros H. repeat (destruct H as [H|H]).
      * destruct H; discriminate.
      * destruct H as (? & _ & H & _); discriminate.
      * destruct H as (? & _ & H & _); discriminate.
      * destruct H as [_ H]. exact H.
      * destruct H as [_ [[H _]|(? & _ & H & _)]]; discriminate.
    + intros H. do 3 right. left. split; [reflexivity|exact H].
Qed.

Lemma validate_iff ds reference strict extra :
  (validate_dataset ds reference strict extra = Ok tt <->
   (forall v, required reference extra v -> exists a, dget v ds = Some a) /\
   (forall v a n, rank_rule reference v n -> dget v ds = Some a -> List.length (adims a) = n) /\
   (strict = true -> forall a, dget "areacello" ds = Some a -> validate_areacello a ocean_area area_tolerance = true)) /\
  (validate_dataset ds reference strict extra = Ok tt \/ validate_dataset ds reference strict extra = Err ValueError).
Proof.
  assert (HE := errors_iff ds reference strict extra). unfold validate_dataset.
  destruct (validate_errors ds reference strict extra) as [|e0 l] eqn:E.
  - split; [|left; reflexivity]. split; [intros _|reflexivity].
    split; [|split].
    + intros v Hv. destruct (dget v ds) as [a|] eqn:D; [eauto|]. exfalso.
      set (ms := filter (fun x => negb (dmem x ds))
       (["thetao"; "so"; "volcello"; "areacello"] ++ extra ++ (if reference then ["rho"; "volo"; "masso"; "rhoga"] else []))%list).
      assert (Hms : forall v, In v ms <-> misses ds reference extra v).
      { intros w. unfold ms, misses. rewrite filter_In, required_iff, negb_true_iff. unfold dmem.
        destruct (dget w ds); split; intros [A B]; split; auto; discriminate. }
      apply (HE (Missing ms)). split; [|split; [exact Hms|reflexivity]].
      intros Hnil. assert (In v ms) by (apply Hms; split; assumption). rewrite Hnil in H. exact H.
    + intros v a n Hr D. destruct (Nat.eq_dec (List.length (adims a)) n) as [|Hn]; [assumption|]. exfalso.
      apply (HE (BadRank v)). exists a, n. auto.
    + intros Hs a D. destruct (validate_areacello a ocean_area area_tolerance) eqn:V; [reflexivity|]. exfalso.
      apply (HE BadArea). split; [exact Hs|]. exists a. auto.
  - split; [|right; reflexivity]. split; [discriminate|]. intros (H1 & H2 & H3). exfalso.
    assert (H0 := proj1 (HE e0) (or_introl eq_refl)). destruct e0 as [|ms|v|].
    + exact H0.
    + destruct H0 as (Hn & Hm & _). destruct ms as [|v ms]; [now apply Hn|].
      destruct (proj1 (Hm v) (or_introl eq_refl)) as [A B]. destruct (H1 v A) as [a D]. congruence.
    + destruct H0 as (a & n & D & Hr & B). apply B. exact (H2 v a n Hr D).
    + destruct H0 as (Hs & a & D & B). rewrite (H3 Hs a D) in B. discriminate.
Qed.
