(** * PropertiesFloat10: C153, C154 (vorticity and potential vorticity in binary64) *)
From Coq Require Import FunctionalExtensionality Reals Lra Lia List String ZArith QArith Bool.
From Flocq Require Import Core IEEE754.BinarySingleNaN.
From Verif Require Import Num NumFacts Py Arr ArrFacts Derived SpecVort SpecFloat64 Ieee IeeeTime IeeeDerived IeeeWave IeeeVort
  ProofsFloat ProofsIeee ProofsFloat6 ProofsVort ProofsFloat8 ProofsFloat9 ProofsFloat19 ProofsFloat20 PropertiesBudget.
Import ListNotations.
Local Open Scope R_scope.

(** Admissible data: numbers up to 2^100; divisors of at least 2^-100. *)
Definition moderate (x : f64) : Prop := is_finite x = true /\ Rabs (B2R x) <= 2 ^ 100.
Definition nonzero (x : f64) : Prop := is_finite x = true /\ / 2 ^ 100 <= Rabs (B2R x).
Lemma bp100 : bpow radix2 100 = 2 ^ 100.
Proof. rewrite (pow_IZR 2 100). reflexivity. Qed.
Lemma bpm (n : nat) : bpow radix2 (- Z.of_nat n) = / 2 ^ n.
Proof. rewrite bpow_opp. f_equal. rewrite bpow_powerRZ, <- pow_powerRZ. reflexivity. Qed.
Lemma moderate_ok x : moderate x -> sized x.
Proof. unfold sized. rewrite bp100. auto. Qed.
Lemma nonzero_ok x : nonzero x -> divisor x.
Proof. unfold divisor. change (-100)%Z with (- Z.of_nat 100)%Z. rewrite bpm. auto. Qed.
Lemma nonzero_ne x : nonzero x -> B2R x <> 0.
Proof. intros [_ H] E. rewrite E, Rabs_R0 in H. assert (0 < / 2 ^ 100) by (apply Rinv_0_lt_compat, pow_lt; lra). lra. Qed.
Lemma Fac_const k c : (k <= 9)%nat -> 1.002 * (INR k * 1.1102230246251566e-16) <= c -> Fac k - 1 <= c.
Proof.
  intros K H. assert (UV := u_val). assert (I : INR k <= 9) by (apply (le_INR k 9) in K; replace 9 with (INR 9) by (cbn; lra); exact K). assert (P := pos_INR k).
  assert (B : INR k * u <= / 1000) by (rewrite UV; lra). assert (X := Fac_bound k B).
  assert (INR k * u <= INR k * 1.1102230246251566e-16) by (apply Rmult_le_compat_l; [exact P|rewrite UV; lra]). lra.
Qed.
Lemma ap_final k z n v y M c : z = (- Z.of_nat n)%Z -> (k <= 9)%nat -> 1.002 * (INR k * 1.1102230246251566e-16) <= c ->
  ap k (bpow radix2 z) v y M -> is_finite v = true /\ Rabs (B2R v - y) <= c * M + / 2 ^ n.
Proof.
  intros -> K C H. assert (M0 := ap_M _ _ _ _ _ H). destruct H as (F & _ & E). split; [exact F|]. rewrite bpm in E.
  assert (X := Fac_const k c K C). assert ((Fac k - 1) * M <= c * M) by (apply Rmult_le_compat_r; assumption). lra.
Qed.

(** Relative vorticity.  [fu], [fdx], [fv], [fdy], [fa]: the binary64 data. *)
Theorem C153_vorticity : forall vars vmap cs sym r, calc_rel_vort vars vmap cs sym = Ok r -> distinct_coords cs ->
  let vm := match vmap with None => default_vmap | Some m => m end in
  forall u dx v dy area, uses vars vm "u" u -> uses vars vm "dx" dx -> uses vars vm "v" v -> uses vars vm "dy" dy ->
  uses vars vm "area" area ->
  wf_arr u -> wf_arr dx -> wf_arr v -> wf_arr dy ->
  ~ In (ycorner cs) (names u) -> ~ In (ycorner cs) (names dx) ->
  ~ In (xcorner cs) (names v) -> ~ In (xcorner cs) (names dy) ->
  forall fu fdx fv fdy fa : index -> f64,
  (forall e, at_ u e = of_f64 (fu e)) -> (forall e, at_ dx e = of_f64 (fdx e)) ->
  (forall e, at_ v e = of_f64 (fv e)) -> (forall e, at_ dy e = of_f64 (fdy e)) -> (forall e, at_ area e = of_f64 (fa e)) ->
  exists ny nx, dget (ycenter cs) (union_dims (adims u) (adims dx)) = Some ny /\
    dget (xcenter cs) (union_dims (adims v) (adims dy)) = Some nx /\
  forall e j i,
    let yl := fun k => upd (upd e (xcorner cs) i) (ycenter cs) k in
    let xl := fun k => upd (upd e (ycorner cs) j) (xcenter cs) k in
    let A := fa (corner cs e j i) in
    (forall k, (k < ny)%nat -> moderate (fu (yl k)) /\ moderate (fdx (yl k))) ->
    (forall k, (k < nx)%nat -> moderate (fv (xl k)) /\ moderate (fdy (xl k))) -> nonzero A ->
    let aU := line sym ny (fun k => Rabs (B2R (fu (yl k)) * B2R (fdx (yl k)))) in
    let aV := line sym nx (fun k => Rabs (B2R (fv (xl k)) * B2R (fdy (xl k)))) in
    let computed := rel_vort64 sym ny nx (fun k => fu (yl k)) (fun k => fdx (yl k)) (fun k => fv (xl k)) (fun k => fdy (xl k)) A j i in
    exists z, at_ r (corner cs e j i) = Fin z /\ is_finite computed = true /\
      Rabs (B2R computed - z) <= 4.5e-16 * ((aU j + aU (S j) + aV i + aV (S i)) / Rabs (B2R A)) + / 2 ^ 900.
Proof.
  intros vars vmap cs sym r H D vm u dx v dy area Hu Hdx Hv Hdy Ha Wu Wdx Wv Wdy Nu Ndx Nv Ndy fu fdx fv fdy fa Eu Edx Ev Edy Ea.
  destruct (vort_corner _ _ _ _ _ H D u dx v dy area Hu Hdx Hv Hdy Ha Wu Wdx Wv Wdy Nu Ndx Nv Ndy) as (ny & nx & Hny & Hnx & P).
  exists ny, nx. split; [exact Hny|]. split; [exact Hnx|]. intros e j i yl xl A MU MV MA aU aV computed.
  assert (An := nonzero_ne _ MA).
  destruct (P e (fun k _ => B2R (fu (yl k)) * B2R (fdx (yl k))) (fun _ k => B2R (fv (xl k)) * B2R (fdy (xl k))) j i (B2R A)) as (z & Hz & Ez).
  - intros k Hk E. fold (yl k) in E. rewrite Eu, Edx. destruct (MU k Hk) as [[F1 _] [F2 _]]. subst E. rewrite !lift_finite by assumption. apply fmul_Fin.
  - intros k Hk E. fold (xl k) in E. rewrite Ev, Edy. destruct (MV k Hk) as [[F1 _] [F2 _]]. subst E. rewrite !lift_finite by assumption. apply fmul_Fin.
  - rewrite Ea. apply lift_finite, MA.
  - exact An.
  - exists z. split; [exact Hz|].
    assert (Q := vort_ap sym ny nx (fun k => fu (yl k)) (fun k => fdx (yl k)) (fun k => fv (xl k)) (fun k => fdy (xl k)) A j i
      (fun k Hk => conj (moderate_ok _ (proj1 (MU k Hk))) (moderate_ok _ (proj2 (MU k Hk))))
      (fun k Hk => conj (moderate_ok _ (proj1 (MV k Hk))) (moderate_ok _ (proj2 (MV k Hk)))) (nonzero_ok _ MA)).
    cbv beta zeta in Q. fold computed aU aV in Q. cbv beta in Ez.
    match type of Q with ap _ _ _ ?y _ => replace y with z in Q end.
    2:{ apply (Rmult_eq_reg_r (B2R A)); [|exact An]. rewrite Ez. field. exact An. }
    replace (aU j + aU (S j) + aV i + aV (S i)) with (aU (S j) + aU j + (aV (S i) + aV i)) by ring.
    refine (ap_final 4 (-900) 900 _ _ _ _ _ _ _ Q); [reflexivity|lia|cbn [INR]; lra].
Qed.
Print Assumptions C153_vorticity.

(** Rounding creates no vorticity in a uniform flow on a uniform grid. *)
Lemma left_interior sym n F c : interior sym n c -> left64 sym n F c = F (before sym c).
Proof.
  unfold interior, left64, before, center64. intros H. destruct sym.
  - destruct c as [|c]; [lia|]. replace (S c - 1)%nat with c by lia. replace (Nat.ltb c n) with true by (symmetry; apply Nat.ltb_lt; lia). reflexivity.
  - replace (Nat.ltb c n) with true by (symmetry; apply Nat.ltb_lt; lia). reflexivity.
Qed.
Lemma right_interior sym n F c : interior sym n c -> right64 sym n F c = F (S (before sym c)).
Proof.
  unfold interior, right64, before, center64. intros H. destruct sym.
  - replace (S (c - 1)) with c by lia. replace (Nat.ltb c n) with true by (symmetry; apply Nat.ltb_lt; lia). reflexivity.
  - replace (Nat.ltb (S c) n) with true by (symmetry; apply Nat.ltb_lt; lia). reflexivity.
Qed.
Lemma sub_self (x : f64) : is_finite x = true -> is_finite (x - x)%f64 = true /\ B2R (x - x)%f64 = 0.
Proof.
  intros F. destruct (sub64_rep x x _ _ (conj F eq_refl) (conj F eq_refl)) as [F' V].
  { replace (B2R x - B2R x) with 0 by ring. apply fits_small. rewrite Rabs_R0. apply bpow_ge_0. }
  split; [exact F'|]. rewrite V. replace (B2R x - B2R x) with 0 by ring. unfold fl. apply round_0. typeclasses eauto.
Qed.
Theorem C153_uniform_flow : forall sym ny nx (u dx v dy : nat -> f64) area j i, interior sym ny j -> interior sym nx i ->
  let a := before sym j in let b := before sym i in
  u (S a) = u a -> dx (S a) = dx a -> v (S b) = v b -> dy (S b) = dy b ->
  moderate (u a) -> moderate (dx a) -> moderate (v b) -> moderate (dy b) -> nonzero area ->
  is_finite (rel_vort64 sym ny nx u dx v dy area j i) = true /\ B2R (rel_vort64 sym ny nx u dx v dy area j i) = 0.
Proof.
  intros sym ny nx u dx v dy area j i Ij Ii a b Eu Edx Ev Edy Mu Mdx Mv Mdy MA.
  unfold rel_vort64. rewrite !left_interior, !right_interior by assumption. fold a b. rewrite Eu, Edx, Ev, Edy.
  destruct (sized_mul _ _ (moderate_ok _ Mu) (moderate_ok _ Mdx)) as [(F1 & _) _].
  destruct (sized_mul _ _ (moderate_ok _ Mv) (moderate_ok _ Mdy)) as [(F2 & _) _].
  destruct (sub_self _ F1) as [G1 Z1]. destruct (sub_self _ F2) as [G2 Z2].
  set (x := (u a * dx a - u a * dx a)%f64) in *. set (y := (v b * dy b - v b * dy b)%f64) in *.
  assert (G3 : is_finite (opp64 x) = true) by (unfold opp64; rewrite is_finite_Bopp; exact G1).
  assert (Z3 : B2R (opp64 x) = 0) by (unfold opp64; rewrite B2R_Bopp, Z1; ring).
  assert (Z0 : fl 0 = 0) by (unfold fl; apply round_0; typeclasses eauto).
  assert (L0 : fits64 (fl 0)) by (apply fits_small; rewrite Rabs_R0; apply bpow_ge_0).
  destruct (add64_rep (opp64 x) y 0 0 (conj G3 Z3) (conj G2 Z2)) as [G4 Z4]; [rewrite Rplus_0_r; exact L0|].
  rewrite Rplus_0_r, Z0 in Z4.
  destruct (div64_rep (opp64 x + y)%f64 area 0 _ (conj G4 Z4) (conj (proj1 MA) eq_refl) (nonzero_ne _ MA)) as [G5 Z5].
  { unfold Rdiv. rewrite Rmult_0_l. exact L0. }
  split; [exact G5|]. rewrite Z5. unfold Rdiv. rewrite Rmult_0_l. exact Z0.
Qed.
Print Assumptions C153_uniform_flow.

(** Potential vorticity with buoyancy frequency at the corners (interp_n2=False). *)
Theorem C153_pv_centers : forall z f n2 cs sym units r e (fz ff fn g : f64),
  calc_pv z f n2 (of_f64 g) cs sym units false = Ok r ->
  at_ z e = of_f64 fz -> at_ f e = of_f64 ff -> at_ n2 e = of_f64 fn ->
  moderate fz -> moderate ff -> moderate fn -> nonzero g ->
  exists p, at_ r e = Fin p /\
  (units = "m"%string -> is_finite (pv64 fz ff fn g) = true /\ Rabs (B2R (pv64 fz ff fn g) - p) <= 3.4e-16 * Rabs p + / 2 ^ 600) /\
  (units = "cm"%string -> is_finite (pv_cm64 fz ff fn g) = true /\ Rabs (B2R (pv_cm64 fz ff fn g) - p) <= 5.6e-16 * p + / 2 ^ 400).
Proof.
  intros z f n2 cs sym units r e fz ff fn g H Ez Ef En Mz Mf Mn Mg.
  rewrite lift_finite in H, Ez, Ef, En by apply Mg || apply Mz || apply Mf || apply Mn.
  destruct (C29_pv_centers z f n2 (B2R g) cs sym units r e _ _ _ H (nonzero_ne _ Mg) Ez Ef En) as [Hm Hc].
  assert (A : ap 0 (bpow radix2 (-900)) fn (B2R fn) (Rabs (B2R fn))) by (eapply ap_weaken; [| |apply ap_leaf, Mn]; [lia|apply bpow_ge_0]).
  assert (B := proj2 (moderate_ok _ Mn)).
  assert (P := proj1 (pv_ap 0 fz ff fn g _ _ ltac:(lia) (moderate_ok _ Mz) (moderate_ok _ Mf) (nonzero_ok _ Mg) A B)).
  assert (Q := pv_cm_ap 0 fz ff fn g _ _ ltac:(lia) (moderate_ok _ Mz) (moderate_ok _ Mf) (nonzero_ok _ Mg) A B).
  replace (Rabs (B2R fz + B2R ff) * (Rabs (B2R fn) / Rabs (B2R g))) with (Rabs ((B2R fz + B2R ff) * B2R fn / B2R g)) in P, Q
    by (unfold Rdiv; rewrite !Rabs_mult, Rabs_inv; ring).
  replace ((B2R fz + B2R ff) * (B2R fn / B2R g)) with ((B2R fz + B2R ff) * B2R fn / B2R g) in P, Q by (unfold Rdiv; ring).
  cbn [Nat.add] in P, Q.
  assert (U : units = "m"%string \/ units = "cm"%string).
  { destruct (String.string_dec units "m") as [E|N]; [left; exact E|]. destruct (String.string_dec units "cm") as [E|N']; [right; exact E|].
    assert (X := C29_pv_units z f n2 (Fin (B2R g)) cs sym units false N N'). rewrite H in X. discriminate. }
  destruct U as [U|U].
  - eexists. split; [apply Hm, U|]. split; intros U'; [|rewrite U in U'; discriminate]. refine (ap_final 3 (-600) 600 _ _ _ _ _ _ _ P); [reflexivity|lia|cbn [INR]; lra].
  - eexists. split; [apply Hc, U|]. split; intros U'; [rewrite U in U'; discriminate|]. refine (ap_final 5 (-400) 400 _ _ _ _ _ _ _ Q); [reflexivity|lia|cbn [INR]; lra].
Qed.
Print Assumptions C153_pv_centers.

(** Potential vorticity with buoyancy frequency interpolated to the corners (interp_n2=True): relative to the
    average size of the buoyancy frequencies around the corner. *)
Theorem C153_pv_corners : forall z f n2 cs sym units r (g : f64),
  calc_pv z f n2 (of_f64 g) cs sym units true = Ok r -> nonzero g -> distinct_coords cs ->
  wf_arr n2 -> ~ In (xcorner cs) (names n2) ->
  exists nx ny, dget (xcenter cs) (adims n2) = Some nx /\ dget (ycenter cs) (adims n2) = Some ny /\
  forall e (N : nat -> nat -> f64) fz ff,
   (forall j i, (j < ny)%nat -> (i < nx)%nat -> at_ n2 (upd (upd e (ycenter cs) j) (xcenter cs) i) = of_f64 (N j i)) ->
   at_ z e = of_f64 fz -> at_ f e = of_f64 ff ->
   moderate fz -> moderate ff -> (forall j i, (j < ny)%nat -> (i < nx)%nat -> moderate (N j i)) ->
   let aL j i := line sym ny (fun k => line sym nx (fun m => Rabs (B2R (N k m))) i) j in
   let j := e (ycorner cs) in let i := e (xcorner cs) in
   let size := Rabs (B2R fz + B2R ff) * ((aL j i + aL j (S i) + aL (S j) i + aL (S j) (S i)) / 4) / Rabs (B2R g) in
   let w := corner_n2_64 sym ny nx N j i in
   exists p, at_ r e = Fin p /\
   (units = "m"%string -> is_finite (pv64 fz ff w g) = true /\ Rabs (B2R (pv64 fz ff w g) - p) <= 7.8e-16 * size + / 2 ^ 600) /\
   (units = "cm"%string -> is_finite (pv_cm64 fz ff w g) = true /\ Rabs (B2R (pv_cm64 fz ff w g) - p) <= 1.01e-15 * (size * 10 ^ 12) + / 2 ^ 400).
Proof.
  intros z f n2 cs sym units r g H Mg D W Nx. rewrite lift_finite in H by apply Mg.
  destruct (C29_pv_corners z f n2 (B2R g) cs sym units r H (nonzero_ne _ Mg) D W Nx) as (nx & ny & Hx & Hy & P).
  exists nx, ny. split; [exact Hx|]. split; [exact Hy|]. intros e N fz ff HN Ez Ef Mz Mf MN aL j i size w.
  rewrite lift_finite in Ez, Ef by apply Mz || apply Mf.
  destruct (P e (fun a b => B2R (N a b)) (B2R fz) (B2R ff)) as [Hm Hc].
  { intros a b Ha Hb. rewrite (HN a b Ha Hb). apply lift_finite, (MN a b Ha Hb). }
  { exact Ez. } { exact Ef. }
  fold j i in Hm, Hc.
  destruct (corner_ap sym ny nx N j i (fun a b Ha Hb => moderate_ok _ (MN a b Ha Hb))) as [A B]. cbv beta zeta in A, B.
  fold (aL j i) (aL j (S i)) (aL (S j) i) (aL (S j) (S i)) w in A, B.
  set (L := fun a b => line sym ny (fun k => line sym nx (fun m => B2R (N k m)) b) a) in *. cbv zeta in Hm, Hc.
  fold (L j i) (L j (S i)) (L (S j) i) (L (S j) (S i)) in A, Hm, Hc. cbv beta in Hm, Hc.
  set (y := (L j i + L j (S i) + L (S j) i + L (S j) (S i)) / 4) in *. set (M := (aL j i + aL j (S i) + aL (S j) i + aL (S j) (S i)) / 4) in *.
  assert (Pm := proj1 (pv_ap 4 fz ff w g _ _ ltac:(lia) (moderate_ok _ Mz) (moderate_ok _ Mf) (nonzero_ok _ Mg) A B)).
  assert (Q := pv_cm_ap 4 fz ff w g _ _ ltac:(lia) (moderate_ok _ Mz) (moderate_ok _ Mf) (nonzero_ok _ Mg) A B).
  replace (Rabs (B2R fz + B2R ff) * (M / Rabs (B2R g))) with size in Pm, Q by (unfold size, Rdiv; ring).
  replace ((B2R fz + B2R ff) * (y / B2R g)) with ((B2R fz + B2R ff) * y / B2R g) in Pm, Q by (unfold Rdiv; ring).
  cbn [Nat.add] in Pm, Q.
  assert (U : units = "m"%string \/ units = "cm"%string).
  { destruct (String.string_dec units "m") as [E|N1]; [left; exact E|]. destruct (String.string_dec units "cm") as [E|N2]; [right; exact E|].
    assert (X := C29_pv_units z f n2 (Fin (B2R g)) cs sym units true N1 N2). rewrite H in X. discriminate. }
  destruct U as [U|U].
  - eexists. split; [apply Hm, U|]. split; intros U'; [|rewrite U in U'; discriminate]. refine (ap_final 7 (-600) 600 _ _ _ _ _ _ _ Pm); [reflexivity|lia|cbn [INR]; lra].
  - eexists. split; [apply Hc, U|]. split; intros U'; [rewrite U in U'; discriminate|]. refine (ap_final 9 (-400) 400 _ _ _ _ _ _ _ Q); [reflexivity|lia|cbn [INR]; lra].
Qed.
Print Assumptions C153_pv_corners.

(** ** C154: irrotational flow *)
(** The flow of a potential [phi] on corners around one interior corner, and its products as real numbers. *)
Definition potential_flow (phi : nat -> nat -> R) (sym : bool) (u dx v dy : nat -> f64) (j i : nat) : Prop :=
  let a := before sym j in let b := before sym i in
  (forall k, k = a \/ k = S a -> B2R (u k) * B2R (dx k) = phi k (S b) - phi k b) /\
  (forall k, k = b \/ k = S b -> B2R (v k) * B2R (dy k) = phi (S a) k - phi a k).

Definition w_u (k : nat) : f64 := match k with O => lit (4503599627370495 # 40564819207303340847894502572032) | _ => lit (4503599627370497 # 4503599627370496) end.
Definition w_dx (k : nat) : f64 := match k with O => of_Z 1 | _ => lit (9007199254740991 # 9007199254740992) end.
Definition w_v (k : nat) : f64 := match k with O => zero | _ => of_Z 1 end.
Definition w_dy (k : nat) : f64 := of_Z 1.
Definition w_phi (j i : nat) : R := match j, i with O, S _ => B2R (w_u 0) * B2R (w_dx 0) | S _, S _ => B2R (w_u 1) * B2R (w_dx 1) | _, _ => 0 end.

(** With every datum exact and every product the difference of a potential, rounding leaves a vorticity. *)
Theorem C154_irrotational_refuted : ~ (forall phi sym ny nx (u dx v dy : nat -> f64) area j i,
  interior sym ny j -> interior sym nx i ->
  (forall k, moderate (u k) /\ moderate (dx k) /\ moderate (v k) /\ moderate (dy k)) -> nonzero area ->
  potential_flow phi sym u dx v dy j i -> B2R (rel_vort64 sym ny nx u dx v dy area j i) = 0).
Proof.
  intros H. specialize (H w_phi false 2%nat 2%nat w_u w_dx w_v w_dy (of_Z 1) 0%nat 0%nat).
  assert (B1 : 1024 <= 2 ^ 100) by (change 1024 with (IZR 1024); rewrite (pow_IZR 2 100); apply IZR_le; vm_compute; discriminate).
  assert (I1 : / 2 ^ 100 <= 1) by (rewrite <- Rinv_1; apply Rinv_le_contravar; lra).
  assert (E1 : B2R (of_Z 1) = 1) by apply (of_Z_rep 1 eq_refl).
  b2r (w_u 0) U0. b2r (w_u 1) U1. b2r (w_dx 1) D1. change (B2R (w_dx 0)) with (B2R (of_Z 1)) in *.
  assert (X : B2R (rel_vort64 false 2 2 w_u w_dx w_v w_dy (of_Z 1) 0 0) = 0).
  { apply H.
    - cbn. lia.
    - cbn. lia.
    - intros k. split; [|split; [|split]].
      + destruct k as [|k]; (split; [vm_compute; reflexivity|]).
        * rewrite U0, Rabs_right by lra. lra.
        * change (w_u (S k)) with (w_u 1). rewrite U1, Rabs_right by lra. lra.
      + destruct k as [|k]; (split; [vm_compute; reflexivity|]).
        * change (w_dx 0) with (of_Z 1). rewrite E1, Rabs_right by lra. lra.
        * change (w_dx (S k)) with (w_dx 1). rewrite D1, Rabs_right by lra. lra.
      + destruct k as [|k]; (split; [vm_compute; reflexivity|]).
        * change (B2R (w_v 0)) with 0. rewrite Rabs_R0. lra.
        * change (w_v (S k)) with (of_Z 1). rewrite E1, Rabs_right by lra. lra.
      + split; [vm_compute; reflexivity|]. change (w_dy k) with (of_Z 1). rewrite E1, Rabs_right by lra. lra.
    - split; [vm_compute; reflexivity|]. rewrite E1, Rabs_right by lra. exact I1.
    - split; intros k [-> | -> ]; cbn [before w_phi]; change (B2R (w_v 0)) with 0; change (w_v 1) with (of_Z 1); change (w_dy 0) with (of_Z 1); change (w_dy 1) with (of_Z 1);
        change (w_dx 0) with (of_Z 1); rewrite ?E1, ?U0, ?U1, ?D1; lra. }
  assert (V : B2SF (rel_vort64 false 2 2 w_u w_dx w_v w_dy (of_Z 1) 0 0) = SpecFloat.S754_finite false 4503599627370496 (-105)) by (vm_compute; reflexivity).
  rewrite <- SF2R_B2SF, V in X. cbn [SF2R cond_Zopp] in X. unfold F2R in X. cbn [Fnum Fexp] in X.
  assert (0 < bpow radix2 (-105)) by apply bpow_gt_0. lra.
Qed.
Print Assumptions C154_irrotational_refuted.

Lemma line_interior sym n (f : nat -> R) c : interior sym n c -> line sym n f c = f (before sym c) /\ line sym n f (S c) = f (S (before sym c)).
Proof.
  unfold interior, line, before. intros H. destruct sym.
  - destruct c as [|c]; [lia|]. replace (S c - 1)%nat with c by lia. replace (Nat.ltb c n) with true by (symmetry; apply Nat.ltb_lt; lia). replace (Nat.ltb (S c) n) with true by (symmetry; apply Nat.ltb_lt; lia). auto.
  - replace (Nat.ltb c n) with true by (symmetry; apply Nat.ltb_lt; lia). replace (Nat.ltb (S c) n) with true by (symmetry; apply Nat.ltb_lt; lia). auto.
Qed.
(** What is true: it is at most rounding noise of the four products over the area; and it vanishes when the
    four products and the two differences are binary64 numbers.  Missing: that it is zero in general. *)
Theorem C154_irrotational_partial : forall phi sym ny nx (u dx v dy : nat -> f64) area j i,
  interior sym ny j -> interior sym nx i ->
  (forall k, (k < ny)%nat -> moderate (u k) /\ moderate (dx k)) -> (forall k, (k < nx)%nat -> moderate (v k) /\ moderate (dy k)) -> nonzero area ->
  potential_flow phi sym u dx v dy j i ->
  let a := before sym j in let b := before sym i in
  let p k := B2R (u k) * B2R (dx k) in let q k := B2R (v k) * B2R (dy k) in
  is_finite (rel_vort64 sym ny nx u dx v dy area j i) = true /\
  Rabs (B2R (rel_vort64 sym ny nx u dx v dy area j i)) <= 4.5e-16 * ((Rabs (p a) + Rabs (p (S a)) + Rabs (q b) + Rabs (q (S b))) / Rabs (B2R area)) + / 2 ^ 900 /\
  (fl (p a) = p a -> fl (p (S a)) = p (S a) -> fl (q b) = q b -> fl (q (S b)) = q (S b) -> fl (p (S a) - p a) = p (S a) - p a ->
   B2R (rel_vort64 sym ny nx u dx v dy area j i) = 0).
Proof.
  intros phi sym ny nx u dx v dy area j i Ij Ii HU HV MA [P Q] a b p q.
  assert (An := nonzero_ne _ MA).
  assert (Z := vort_ap sym ny nx u dx v dy area j i
      (fun k Hk => conj (moderate_ok _ (proj1 (HU k Hk))) (moderate_ok _ (proj2 (HU k Hk))))
      (fun k Hk => conj (moderate_ok _ (proj1 (HV k Hk))) (moderate_ok _ (proj2 (HV k Hk)))) (nonzero_ok _ MA)).
  cbv beta zeta in Z.
  destruct (line_interior sym ny (fun k => B2R (u k) * B2R (dx k)) j Ij) as [L1 L2].
  destruct (line_interior sym ny (fun k => Rabs (B2R (u k) * B2R (dx k))) j Ij) as [L3 L4].
  destruct (line_interior sym nx (fun k => B2R (v k) * B2R (dy k)) i Ii) as [L5 L6].
  destruct (line_interior sym nx (fun k => Rabs (B2R (v k) * B2R (dy k))) i Ii) as [L7 L8].
  rewrite L1, L2, L3, L4, L5, L6, L7, L8 in Z. cbv beta in Z. fold a b in Z.
  fold (p a) (p (S a)) (q b) (q (S b)) in Z.
  cbv zeta in P, Q. fold a b in P, Q.
  assert (p1 := P a (or_introl eq_refl)). assert (p2 := P (S a) (or_intror eq_refl)). assert (q1 := Q b (or_introl eq_refl)). assert (q2 := Q (S b) (or_intror eq_refl)).
  fold (p a) in p1. fold (p (S a)) in p2. fold (q b) in q1. fold (q (S b)) in q2.
  assert (E0 : p (S a) - p a = q (S b) - q b) by (rewrite p1, p2, q1, q2; ring).
  replace ((- (p (S a) - p a) + (q (S b) - q b)) / B2R area) with 0 in Z by (rewrite E0; field; exact An).
  replace (Rabs (p (S a)) + Rabs (p a) + (Rabs (q (S b)) + Rabs (q b))) with (Rabs (p a) + Rabs (p (S a)) + Rabs (q b) + Rabs (q (S b))) in Z by ring.
  set (res := rel_vort64 sym ny nx u dx v dy area j i) in *.
  assert (W : is_finite res = true /\ Rabs (B2R res - 0) <= 4.5e-16 * ((Rabs (p a) + Rabs (p (S a)) + Rabs (q b) + Rabs (q (S b))) / Rabs (B2R area)) + / 2 ^ 900).
  { refine (ap_final 4 (-900) 900 _ _ _ _ _ _ _ Z); [reflexivity|lia|cbn [INR]; lra]. }
  destruct W as [W1 W2]. rewrite Rminus_0_r in W2. split; [exact W1|]. split; [exact W2|].
  intros X1 X2 X3 X4 X5. subst res. unfold rel_vort64. rewrite !left_interior, !right_interior by assumption. fold a b.
  assert (Iy : (a < ny)%nat /\ (S a < ny)%nat) by (unfold a, before; unfold interior in Ij; destruct sym; lia).
  assert (Ix : (b < nx)%nat /\ (S b < nx)%nat) by (unfold b, before; unfold interior in Ii; destruct sym; lia).
  assert (PR : forall x y : f64, moderate x -> moderate y -> fl (B2R x * B2R y) = B2R x * B2R y -> rep64 (x * y)%f64 (B2R x * B2R y) /\ Rabs (B2R x * B2R y) <= bpow radix2 200).
  { intros x y Mx My E. destruct (sized_mul _ _ (moderate_ok _ Mx) (moderate_ok _ My)) as [_ L]. split; [|exact L].
    rewrite <- E at 1. apply mul64_rep; try (split; [apply Mx || apply My|reflexivity]). apply fits_small. eapply Rle_trans; [exact L|apply bpow_le; lia]. }
  destruct (PR _ _ (proj1 (HU _ (proj1 Iy))) (proj2 (HU _ (proj1 Iy))) X1) as [R1 S1].
  destruct (PR _ _ (proj1 (HU _ (proj2 Iy))) (proj2 (HU _ (proj2 Iy))) X2) as [R2 S2].
  destruct (PR _ _ (proj1 (HV _ (proj1 Ix))) (proj2 (HV _ (proj1 Ix))) X3) as [R3 S3].
  destruct (PR _ _ (proj1 (HV _ (proj2 Ix))) (proj2 (HV _ (proj2 Ix))) X4) as [R4 S4].
  fold (p a) in R1, S1. fold (p (S a)) in R2, S2. fold (q b) in R3, S3. fold (q (S b)) in R4, S4.
  assert (BB : Rabs (p (S a) - p a) <= bpow radix2 900).
  { eapply Rle_trans; [apply Rabs_triang|]. rewrite Rabs_Ropp. apply Rle_trans with (bpow radix2 1 * bpow radix2 200); [change (bpow radix2 1) with 2; lra|]. rewrite <- bpow_plus. apply bpow_le. lia. }
  assert (D1 := sub64_rep _ _ _ _ R2 R1 (fits_small _ BB)). assert (D2 := sub64_rep _ _ _ _ R4 R3 ltac:(rewrite <- E0; apply (fits_small _ BB))).
  rewrite <- E0 in D2. rewrite X5 in D1, D2.
  set (x := (u (S a) * dx (S a) - u a * dx a)%f64) in *. set (y := (v (S b) * dy (S b) - v b * dy b)%f64) in *.
  assert (D3 : rep64 (opp64 x) (- (p (S a) - p a))).
  { destruct D1 as [G V]. split; [unfold opp64; rewrite is_finite_Bopp; exact G|unfold opp64; rewrite B2R_Bopp, V; reflexivity]. }
  assert (Z0 : fl 0 = 0) by (unfold fl; apply round_0; typeclasses eauto).
  assert (L0 : fits64 (fl 0)) by (apply fits_small; rewrite Rabs_R0; apply bpow_ge_0).
  assert (D4 : rep64 (opp64 x + y)%f64 0).
  { assert (E4 : fl (- (p (S a) - p a) + (p (S a) - p a)) = 0) by (rewrite Rplus_opp_l; exact Z0). rewrite <- E4. apply add64_rep; [exact D3|exact D2|]. replace (- (p (S a) - p a) + (p (S a) - p a)) with 0 by ring. exact L0. }
  destruct (div64_rep _ area 0 _ D4 (conj (proj1 MA) eq_refl) An) as [G5 Z5].
  { unfold Rdiv. rewrite Rmult_0_l. exact L0. }
  rewrite Z5. unfold Rdiv. rewrite Rmult_0_l. exact Z0.
Qed.
Print Assumptions C154_irrotational_partial.

(** Example: the currents, grid and buoyancy frequency of a 3 x 3 box satisfying all hypotheses. *)
Definition ex_u (e : index) : f64 := lit (Z.of_nat (e "yh"%string) # 10).
Definition ex_v (e : index) : f64 := lit (Z.of_nat (e "xh"%string) # 10).
Definition ex_len (e : index) : f64 := of_Z 25000.
Definition ex_area (e : index) : f64 := of_Z 625000000.
Definition f64_arr (d : list (string * nat)) (f : index -> f64) : arr := mkArr d (fun e => of_f64 (f e)).
Definition ex_vars : dict arr :=
  [("uo", f64_arr [("yh", 3%nat); ("xq", 3%nat)] ex_u); ("vo", f64_arr [("yq", 3%nat); ("xh", 3%nat)] ex_v);
   ("dxCu", f64_arr [("yh", 3%nat); ("xq", 3%nat)] ex_len); ("dyCv", f64_arr [("yq", 3%nat); ("xh", 3%nat)] ex_len);
   ("areacello_bu", f64_arr [("yq", 3%nat); ("xq", 3%nat)] ex_area)]%string.
Example C153_data :
  (exists r, calc_rel_vort ex_vars None default_grid false = Ok r) /\
  (forall e k, (k < 3)%nat -> moderate (ex_u (upd e "yh" k)) /\ moderate (ex_v (upd e "xh" k)) /\ moderate (ex_len (upd e "yh" k))) /\
  (forall e, nonzero (ex_area e)) /\
  (exists r, calc_pv (f64_arr [("yq", 3%nat); ("xq", 3%nat)]%string (fun _ => lit (1 # 100000))) (f64_arr [("yq", 3%nat)]%string (fun _ => lit (1 # 10000)))
     (f64_arr [("yh", 3%nat); ("xh", 3%nat)]%string ex_v) (of_f64 (lit (98 # 10))) default_grid false "cm" true = Ok r) /\
  moderate (lit (1 # 100000)) /\ moderate (lit (1 # 10000)) /\ nonzero (lit (98 # 10)) /\
  (exists phi, potential_flow phi false (fun k => of_Z (Z.of_nat k)) (fun _ => of_Z 3) (fun k => of_Z (Z.of_nat k)) (fun _ => of_Z 3) 0 0) /\
  B2R (rel_vort64 false 2 2 (fun k => of_Z (Z.of_nat k)) (fun _ => of_Z 3) (fun k => of_Z (- Z.of_nat k)) (fun _ => of_Z 3) (of_Z 2) 0 0) = -3.
Proof.
  assert (B1 : 1125899906842624 <= 2 ^ 100) by (change 1125899906842624 with (IZR 1125899906842624); rewrite (pow_IZR 2 100); apply IZR_le; vm_compute; discriminate).
  assert (I1 : / 2 ^ 100 <= / 1125899906842624) by (apply Rinv_le_contravar; lra).
  split; [eexists; reflexivity|]. split; [|split; [|split; [eexists; reflexivity|split; [|split; [|split; [|split]]]]]].
  - intros e k Hk. split; [|split].
    + unfold ex_u. rewrite upd_same. destruct k as [|[|[|k]]]; [| | |lia]; cbn [Z.of_nat Pos.of_succ_nat Pos.succ]; (split; [vm_compute; reflexivity|]); match goal with |- Rabs (B2R ?x) <= _ => let E := fresh in b2r x E; rewrite E end; (rewrite Rabs_R0 || rewrite Rabs_right by lra); lra.
    + unfold ex_v. rewrite upd_same. destruct k as [|[|[|k]]]; [| | |lia]; cbn [Z.of_nat Pos.of_succ_nat Pos.succ]; (split; [vm_compute; reflexivity|]); match goal with |- Rabs (B2R ?x) <= _ => let E := fresh in b2r x E; rewrite E end; (rewrite Rabs_R0 || rewrite Rabs_right by lra); lra.
    + destruct (of_Z_rep 25000 eq_refl) as [F V]. split; [exact F|]. unfold ex_len. rewrite V, Rabs_right by lra. lra.
  - intros e. destruct (of_Z_rep 625000000 eq_refl) as [F V]. split; [exact F|]. unfold ex_area. rewrite V, Rabs_right by lra. lra.
  - split; [vm_compute; reflexivity|]. b2r (lit (1 # 100000)) E. rewrite E, Rabs_right by lra. lra.
  - split; [vm_compute; reflexivity|]. b2r (lit (1 # 10000)) E. rewrite E, Rabs_right by lra. lra.
  - split; [vm_compute; reflexivity|]. b2r (lit (98 # 10)) E. rewrite E, Rabs_right by lra. lra.
  - exists (fun j i => 3 * (INR j * INR i)). assert (V3 : B2R (of_Z 3) = 3) by apply (of_Z_rep 3 eq_refl). assert (V1 : B2R (of_Z 1) = 1) by apply (of_Z_rep 1 eq_refl).
    assert (V0 : B2R (of_Z 0) = 0) by reflexivity.
    split; intros k [-> | -> ]; cbn [before Z.of_nat Pos.of_succ_nat Pos.succ INR]; change (Z.pos 1) with 1%Z; rewrite V3, ?V1, ?V0; lra.
  - b2r (rel_vort64 false 2 2 (fun k => of_Z (Z.of_nat k)) (fun _ => of_Z 3) (fun k => of_Z (- Z.of_nat k)) (fun _ => of_Z 3) (of_Z 2) 0 0) E. rewrite E. lra.
Qed.
