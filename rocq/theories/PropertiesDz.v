(** * PropertiesDz: C11-C16, layer thickness *)
From Coq Require Import Reals Lra Lia List String Bool Arith.
From Verif Require Import Num NumFacts Py Arr ArrFacts Derived SpecDz ProofsDz.
Import ListNotations.
Local Open Scope R_scope.

(** [grid_values levels interfaces e z zi n w]: [levels] has the single dimension [z] of
    size [n], [interfaces] the single dimension [zi] of size [n+1] and values [w 0..w n]. *)

(** C11: for every depth range. *)
Theorem C11_thickness_bounds : forall levels interfaces depth top bottom r e z zi n w,
  calc_dz levels interfaces depth (Fin top) (obot bottom) false = Ok r ->
  grid_values levels interfaces e z zi n w -> (forall k, (k < n)%nat -> w k <= w (S k)) ->
  (e z < n)%nat -> (forall s, at_ depth e <> Inf s) ->
  exists t, at_ r e = Fin t /\ 0 <= t <= w (S (e z)) - w (e z).
Proof. exact dz_bounds. Qed.
Print Assumptions C11_thickness_bounds.

(** C12 *)
Theorem C12_default_top_is_overlap : forall levels interfaces depth bottom r e z zi n w,
  calc_dz levels interfaces depth (Fin 0) (obot bottom) false = Ok r -> wf_arr interfaces ->
  grid_values levels interfaces e z zi n w -> (forall k, (k < n)%nat -> w k <= w (S k)) ->
  (e z < n)%nat -> (forall s, at_ depth e <> Inf s) ->
  at_ r e = Fin (overlap (w (e z)) (w (S (e z))) 0 (range_floor (water_depth (at_ depth e)) bottom)).
Proof. exact dz_overlap0. Qed.
Print Assumptions C12_default_top_is_overlap.

(** C13 *)
Theorem C13_column_total : forall levels interfaces depth bottom r s e z zi n w,
  calc_dz levels interfaces depth (Fin 0) (obot bottom) false = Ok r ->
  asum [z] r = Ok s -> wf_arr interfaces -> wf_arr depth -> ~ In z (names depth) ->
  grid_values levels interfaces e z zi n w -> (forall k, (k < n)%nat -> w k <= w (S k)) -> w O = 0 ->
  inrange (adims depth) e -> (forall s, at_ depth e <> Inf s) ->
  match bottom with Some b => 0 <= b | None => True end ->
  at_ s e = Fin (Rmin (range_floor (water_depth (at_ depth e)) bottom) (w n)).
Proof. exact dz_column. Qed.
Print Assumptions C13_column_total.

(** C14 *)
Theorem C14_rejects_negative : forall levels interfaces depth top bottom fr,
  wf_arr levels -> wf_arr interfaces -> wf_arr depth ->
  ((exists e, inrange (adims depth) e /\ negative (at_ depth e)) \/
   (exists e, inrange (adims levels) e /\ (negative (at_ levels e) \/ at_ levels e = NaN)) \/
   (exists e, inrange (adims interfaces) e /\ (negative (at_ interfaces e) \/ at_ interfaces e = NaN))) ->
  calc_dz levels interfaces depth top bottom fr = Err AssertionError.
Proof. exact dz_reject. Qed.
Print Assumptions C14_rejects_negative.

Theorem C14_rejects_mismatch : forall levels interfaces depth top bottom fr z n zi ni,
  adims levels = [(z, n)] -> adims interfaces = [(zi, ni)] -> (ni - 1)%nat <> n ->
  is_ok (calc_dz levels interfaces depth top bottom fr) = false.
Proof. exact dz_mismatch. Qed.
Print Assumptions C14_rejects_mismatch.

Theorem C14_accepts : forall levels interfaces depth top bottom fr z n zi,
  wf_arr levels -> wf_arr interfaces -> wf_arr depth ->
  adims levels = [(z, n)] -> adims interfaces = [(zi, S n)] -> ~ In z (names depth) ->
  (forall e, inrange (adims depth) e -> ~ negative (at_ depth e)) ->
  (forall e, inrange (adims levels) e -> ~ negative (at_ levels e) /\ at_ levels e <> NaN) ->
  (forall e, inrange (adims interfaces) e -> ~ negative (at_ interfaces e) /\ at_ interfaces e <> NaN) ->
  exists r, calc_dz levels interfaces depth top bottom fr = Ok r /\
    forall d, In d (names r) <-> In d (names depth) \/ d = z.
Proof.
  intros levels interfaces depth top bottom fr z n zi H1 H2 H3 H4 H5 H6 H7 H8 H9.
  assert (H := dz_accept levels interfaces depth top bottom fr z n zi H1 H2 H3 H4 H5 H6 H7 H8 H9).
  destruct (calc_dz levels interfaces depth top bottom fr) as [r|] eqn:E; [|discriminate].
  exists r. split; [reflexivity|].
  destruct (calc_dz_inv _ _ _ _ _ _ _ E) as (_ & z' & n' & zi' & ni & El & _ & _ & Hn & _).
  rewrite H4 in El. injection El as <- <-. exact Hn.
Qed.
Print Assumptions C14_accepts.

(** C15: [t] is the thickness returned by the same call with fraction=False. *)
Theorem C15_wet_fraction : forall levels interfaces depth top bottom r r' e z zi n w t,
  calc_dz levels interfaces depth (Fin top) (obot bottom) true = Ok r ->
  calc_dz levels interfaces depth (Fin top) (obot bottom) false = Ok r' ->
  grid_values levels interfaces e z zi n w -> (forall k, (k < n)%nat -> w k <= w (S k)) ->
  (e z < n)%nat -> (forall s, at_ depth e <> Inf s) -> at_ r' e = Fin t ->
  (at_ r e = NaN <-> t = 0) /\
  (t <> 0 -> exists q, at_ r e = Fin q /\ q = t / (w (S (e z)) - w (e z)) /\ 0 < q <= 1).
Proof.
  intros levels interfaces depth top bottom r r' e z zi n w t H H' Hg Hm Hk Hd Ht.
  assert (V := calc_dz_value _ _ _ _ _ _ _ _ _ _ _ _ H Hg Hk Hd).
  assert (V' := calc_dz_value _ _ _ _ _ _ _ _ _ _ _ _ H' Hg Hk Hd). cbn zeta in V, V'.
  rewrite Ht in V'. injection V' as V'. rewrite <- V' in V. rewrite V. apply frac_facts.
  rewrite V'. apply dz_real_bounds, Hm, Hk.
Qed.
Print Assumptions C15_wet_fraction.

(** C16 holds exactly when the top and the floor of the range are not both strictly inside
    the cell; the returned thickness is never too small. *)
Theorem C16_range_overlap_partial : forall levels interfaces depth top bottom r e z zi n w,
  calc_dz levels interfaces depth (Fin top) (obot bottom) false = Ok r ->
  grid_values levels interfaces e z zi n w -> (forall k, (k < n)%nat -> w k <= w (S k)) ->
  (e z < n)%nat -> (forall s, at_ depth e <> Inf s) ->
  let zt := w (e z) in let zb := w (S (e z)) in
  let floor := range_floor (water_depth (at_ depth e)) bottom in
  exists t, at_ r e = Fin t /\ overlap zt zb top floor <= t /\
    (t = overlap zt zb top floor <-> ~ (zt < top < zb /\ zt < floor < zb)).
Proof.
  intros levels interfaces depth top bottom r e z zi n w H Hg Hm Hk Hd zt zb fl.
  assert (V := calc_dz_value _ _ _ _ _ _ _ _ _ _ _ _ H Hg Hk Hd). cbn zeta in V.
  eexists. split; [exact V|]. split.
  - apply dz_real_ge_overlap, Hm, Hk.
  - apply dz_real_overlap, Hm, Hk.
Qed.
Print Assumptions C16_range_overlap_partial.

(** Non-vacuity: one cell of 10 m and one of 30 m; a full, a partial and a dry column. *)
Definition ex_levels : arr := mkArr [("z_l"%string, 2%nat)] (fun e => match e "z_l"%string with O => Fin 5 | _ => Fin 25 end).
Definition ex_w (k : nat) : R := match k with 0 => 0 | 1 => 10 | _ => 40 end.
Definition ex_ifaces : arr := mkArr [("z_i"%string, 3%nat)] (fun e => Fin (ex_w (e "z_i"%string))).
Definition ex_depth : arr := mkArr [("xh"%string, 3%nat)]
  (fun e => match e "xh"%string with 0%nat => Fin 100 | 1%nat => Fin 15 | _ => NaN end).

Lemma ex_wf : wf_arr ex_levels /\ wf_arr ex_ifaces /\ wf_arr ex_depth.
Proof.
  repeat split; try (repeat constructor; intros []); intros e e' H; cbn in *;
    rewrite (H _ (or_introl eq_refl)); reflexivity.
Qed.
Lemma ex_grid e : grid_values ex_levels ex_ifaces e "z_l" "z_i" 2 ex_w.
Proof. split; [reflexivity|]. split; [reflexivity|]. intros k Hk. cbn. reflexivity. Qed.
Lemma ex_mono : forall k, (k < 2)%nat -> ex_w k <= ex_w (S k).
Proof. intros [|[|k]] H; cbn; try lra; lia. Qed.
Lemma ex_accept top bottom fr : exists r, calc_dz ex_levels ex_ifaces ex_depth top bottom fr = Ok r.
Proof.
  destruct ex_wf as (H1 & H2 & H3).
  destruct (C14_accepts ex_levels ex_ifaces ex_depth top bottom fr "z_l" 2 "z_i" H1 H2 H3 eq_refl eq_refl) as (r & Hr & _).
  - cbn. intros [E|[]]; discriminate.
  - intros e _. cbn. intros [E|(x & E & Hx)]; destruct (e "xh"%string) as [|[|k]]; try discriminate; injection E as <-; lra.
  - intros e _. cbn. split; [intros [E|(x & E & Hx)]|]; destruct (e "z_l"%string); try discriminate; injection E as <-; lra.
  - intros e He. cbn. split; [|discriminate]. intros [E|(x & E & Hx)]; [discriminate|]. injection E as <-.
    destruct (e "z_i"%string) as [|[|k]]; cbn in Hx; lra.
  - exists r. exact Hr.
Qed.
Example C11_C13_nonvacuous :
  (exists r, calc_dz ex_levels ex_ifaces ex_depth (Fin 0) (obot None) false = Ok r) /\
  (exists r, calc_dz ex_levels ex_ifaces ex_depth (Fin 3) (obot (Some 20)) true = Ok r) /\
  wf_arr ex_ifaces /\ ex_w 0 = 0.
Proof. split; [apply ex_accept|]. split; [apply ex_accept|]. split; [apply ex_wf|reflexivity]. Qed.

(** The theorems applied to this grid. *)
Definition ex_at (k x : nat) : index := fun d => if String.eqb d "z_l" then k else if String.eqb d "xh" then x else O.
Example C12_case : exists r, calc_dz ex_levels ex_ifaces ex_depth (Fin 0) None false = Ok r /\
  at_ r (ex_at 0 1) = Fin 10 /\ at_ r (ex_at 1 1) = Fin 5 /\ at_ r (ex_at 1 0) = Fin 30 /\ at_ r (ex_at 0 2) = Fin 0.
Proof.
  destruct (ex_accept (Fin 0) None false) as (r & Hr). exists r. split; [exact Hr|].
  assert (H : forall k x, (k < 2)%nat -> at_ r (ex_at k x) = Fin (overlap (ex_w k) (ex_w (S k)) 0 (range_floor (water_depth (at_ ex_depth (ex_at k x))) None))).
  { intros k x Hk. apply (C12_default_top_is_overlap ex_levels ex_ifaces ex_depth None r (ex_at k x) "z_l" "z_i" 2 ex_w Hr);
      [apply ex_wf|apply ex_grid|exact ex_mono|exact Hk|]. intros s. cbn. destruct x as [|[|x]]; discriminate. }
  rewrite !H by lia. cbn. unfold overlap, Rmin, Rmax. repeat split; f_equal; repeat destruct (Rle_dec _ _); lra.
Qed.
Example C13_case : exists r s, calc_dz ex_levels ex_ifaces ex_depth (Fin 0) None false = Ok r /\ asum ["z_l"%string] r = Ok s /\
  at_ s (ex_at 0 0) = Fin 40 /\ at_ s (ex_at 0 1) = Fin 15 /\ at_ s (ex_at 0 2) = Fin 0.
Proof.
  destruct (ex_accept (Fin 0) None false) as (r & Hr). destruct ex_wf as (W1 & W2 & W3).
  assert (N : ~ In "z_l"%string (names ex_depth)) by (cbn; intuition discriminate).
  assert (Hs : exists s, asum ["z_l"%string] r = Ok s).
  { assert (In "z_l"%string (names r)) as I.
    { destruct (C14_accepts ex_levels ex_ifaces ex_depth (Fin 0) None false "z_l" 2 "z_i" W1 W2 W3 eq_refl eq_refl N) as (r' & Hr' & D).
      - intros e _. cbn. intros [E|(x & E & Hx)]; destruct (e "xh"%string) as [|[|k]]; try discriminate; injection E as <-; lra.
      - intros e _. cbn. split; [intros [E|(x & E & Hx)]|]; destruct (e "z_l"%string); try discriminate; injection E as <-; lra.
      - intros e He. cbn. split; [|discriminate]. intros [E|(x & E & Hx)]; [discriminate|]. injection E as <-.
        destruct (e "z_i"%string) as [|[|k]]; cbn in Hx; lra.
      - rewrite Hr in Hr'. injection Hr' as <-. apply D. right. reflexivity. }
    assert (O := asum_ok ["z_l"%string] r ltac:(intros d [<-|[]]; exact I)).
    destruct (asum ["z_l"%string] r) as [s|]; [exists s; reflexivity|discriminate]. }
  destruct Hs as (s & Hs). exists r, s. split; [exact Hr|]. split; [exact Hs|].
  assert (H : forall x, (x < 3)%nat -> at_ s (ex_at 0 x) = Fin (Rmin (range_floor (water_depth (at_ ex_depth (ex_at 0 x))) None) (ex_w 2))).
  { intros x Hx. apply (C13_column_total ex_levels ex_ifaces ex_depth None r s (ex_at 0 x) "z_l" "z_i" 2 ex_w Hr Hs W2 W3 N (ex_grid _) ex_mono eq_refl).
    - intros d n [E|[]]. injection E as <- <-. exact Hx.
    - intros b. cbn. destruct x as [|[|x]]; discriminate.
    - exact I. }
  rewrite !H by lia. cbn. unfold Rmin. repeat split; f_equal; repeat destruct (Rle_dec _ _); lra.
Qed.
(** A negative depth and a grid with too few interfaces are rejected. *)
Example C14_case :
  calc_dz ex_levels ex_ifaces (mkArr [("xh"%string, 2%nat)] (fun e => match e "xh"%string with O => Fin 10 | _ => Fin (-1) end)) (Fin 0) None false
  = Err AssertionError
  /\ is_ok (calc_dz ex_levels (mkArr [("z_i"%string, 2%nat)] (fun e => Fin (ex_w (e "z_i"%string)))) ex_depth (Fin 0) None false) = false.
Proof.
  destruct ex_wf as (W1 & W2 & W3). split.
  - apply C14_rejects_negative; [exact W1|exact W2| |].
    + split; [repeat constructor; intros []|]. intros e e' H; cbn in *; rewrite (H _ (or_introl eq_refl)); reflexivity.
    + left. exists (ex_at 0 1). split; [intros d n [E|[]]; injection E as <- <-; cbn; lia|]. right. exists (-1). split; [reflexivity|lra].
  - apply (C14_rejects_mismatch _ _ _ _ _ _ "z_l" 2 "z_i" 2); [reflexivity|reflexivity|discriminate].
Qed.
Example C15_case : exists r, calc_dz ex_levels ex_ifaces ex_depth (Fin 0) None true = Ok r /\
  at_ r (ex_at 1 1) = Fin (1 / 6) /\ at_ r (ex_at 0 2) = NaN.
Proof.
  destruct (ex_accept (Fin 0) None true) as (r & Hr). destruct C12_case as (r' & Hr' & _ & V1 & _ & V2). exists r. split; [exact Hr|].
  assert (D : forall x b, at_ ex_depth (ex_at 1 x) <> Inf b) by (intros x b; cbn; destruct x as [|[|x]]; discriminate).
  destruct (C15_wet_fraction ex_levels ex_ifaces ex_depth 0 None r r' (ex_at 1 1) "z_l" "z_i" 2 ex_w 5 Hr Hr' (ex_grid _) ex_mono
    (le_n 2) (D 1%nat) V1) as [_ A].
  destruct (C15_wet_fraction ex_levels ex_ifaces ex_depth 0 None r r' (ex_at 0 2) "z_l" "z_i" 2 ex_w 0 Hr Hr' (ex_grid _) ex_mono
    (le_S _ _ (le_n 1)) (D 2%nat) V2) as [B _].
  split; [|apply B; reflexivity]. destruct (A ltac:(lra)) as (q & E & V & _). rewrite E, V. cbn. f_equal. field.
Qed.
(** The range [3, 15] cut out of both cells, where the code agrees with the overlap. *)
Example C16_case : exists r, calc_dz ex_levels ex_ifaces ex_depth (Fin 3) None false = Ok r /\
  at_ r (ex_at 0 1) = Fin 7 /\ at_ r (ex_at 1 1) = Fin 5.
Proof.
  destruct (ex_accept (Fin 3) None false) as (r & Hr). exists r. split; [exact Hr|].
  assert (D : forall k b, at_ ex_depth (ex_at k 1) <> Inf b) by (intros k b; discriminate).
  destruct (C16_range_overlap_partial ex_levels ex_ifaces ex_depth 3 None r (ex_at 0 1) "z_l" "z_i" 2 ex_w Hr (ex_grid _) ex_mono
    (le_S _ _ (le_n 1)) (D _)) as (t & E & _ & V).
  destruct (C16_range_overlap_partial ex_levels ex_ifaces ex_depth 3 None r (ex_at 1 1) "z_l" "z_i" 2 ex_w Hr (ex_grid _) ex_mono
    (le_n 2) (D _)) as (t' & E' & _ & V').
  cbn in V, V'. rewrite E, E', (proj2 V), (proj2 V') by lra. unfold overlap, Rmin, Rmax.
  split; f_equal; repeat destruct (Rle_dec _ _); lra.
Qed.

(** C16 is false as stated: range [12,15] inside the cell [10,40]. *)
Theorem C16_range_overlap_refuted :
  exists levels interfaces depth r e w,
    calc_dz levels interfaces depth (Fin 12) None false = Ok r /\
    grid_values levels interfaces e "z_l" "z_i" 2 w /\ (forall k, (k < 2)%nat -> w k <= w (S k)) /\
    at_ depth e = Fin 15 /\ (e "z_l"%string < 2)%nat /\
    overlap (w (e "z_l"%string)) (w (S (e "z_l"%string))) 12 15 = 3 /\ at_ r e = Fin 5.
Proof.
  destruct (ex_accept (Fin 12) None false) as (r & Hr).
  exists ex_levels, ex_ifaces, ex_depth, r, (fun _ => 1%nat), ex_w.
  split; [exact Hr|]. split; [apply ex_grid|]. split; [exact ex_mono|]. split; [reflexivity|]. split; [lia|].
  split.
  - cbn. unfold overlap, Rmin, Rmax. repeat destruct (Rle_dec _ _); lra.
  - rewrite (calc_dz_value ex_levels ex_ifaces ex_depth 12 None false r (fun _ => 1%nat) "z_l" "z_i" 2 ex_w Hr
              (ex_grid _) (le_n 2)) by (cbn; discriminate).
    cbn. f_equal. unfold dz_real, Rmin, Rmax. repeat destruct (Rle_dec _ _); lra.
Qed.
Print Assumptions C16_range_overlap_refuted.
