(** * PropertiesBudget: C27 (volume, mass, mean density), C28, C29 (vorticity) *)
From Coq Require Import Reals Lra Lia List String Bool Arith.
From Verif Require Import Num NumFacts Py Arr ArrFacts Eos Derived SpecVort
  ProofsFields ProofsFields2 ProofsDz ProofsBudget ProofsVort.
Import ListNotations.
Local Open Scope R_scope.

(** C27: [Rsum_box ds F e] is the iterated sum of [F] over all positions along [ds]. *)
Theorem C27_volo : forall vol,
  (ndim vol <> 3%nat -> calc_volo vol = Err AssertionError) /\
  (ndim vol = 3%nat -> NoDup (names vol) -> no_inf vol ->
   exists r, calc_volo vol = Ok r /\ names r = [] /\
     forall e, at_ r e = Fin (Rsum_box (adims vol) (fun e' => match at_ vol e' with Fin v => v | _ => 0 end) e)).
Proof.
  intros vol. split; [apply volo_reject|]. intros H Hn Hi.
  destruct (calc_volo vol) as [r|] eqn:E.
  - exists r. destruct (volo_value _ _ E Hn Hi) as (_ & H1 & H2). auto.
  - unfold calc_volo in E. rewrite H in E. discriminate.
Qed.
Print Assumptions C27_volo.

Theorem C27_masso : forall rho vol t,
  NoDup (names rho) -> NoDup (names vol) -> no_inf rho -> no_inf vol -> dims_agree (adims rho) (adims vol) ->
  exists r, calc_masso rho vol t = Ok r /\
   (forall e, at_ r e = Fin (Rsum_box (other_dims t (union_dims (adims rho) (adims vol)))
                (fun e' => match at_ rho e', at_ vol e' with Fin x, Fin v => x * v | _, _ => 0 end) e)) /\
   (forall d, In d (names r) <-> d = t /\ (In t (names rho) \/ In t (names vol))).
Proof.
  intros rho vol t Nr Nv Ir Iv Hag. assert (H := masso_ok rho vol t Hag Nr).
  destruct (calc_masso rho vol t) as [r|] eqn:E; [|discriminate]. exists r.
  destruct (masso_value _ _ _ _ E Nr Nv Ir Iv) as (H1 & H2). split; [reflexivity|]. split; [exact H1|exact H2].
Qed.
Print Assumptions C27_masso.

Theorem C27_rhoga_between : forall rho vol t m v g e lo hi,
  calc_masso rho vol t = Ok m -> calc_volo vol = Ok v -> calc_rhoga m v = Ok g ->
  NoDup (names rho) -> NoDup (names vol) -> no_inf rho -> no_inf vol -> wf_arr vol ->
  dims_agree (adims rho) (adims vol) -> ~ In t (names vol) ->
  (forall d, In d (names rho) -> d = t \/ In d (names vol)) ->
  (forall e', in_box (adims vol) e e' ->
     (at_ vol e' = NaN <-> at_ rho e' = NaN) /\
     (forall x, at_ vol e' = Fin x -> 0 <= x) /\ (forall x, at_ rho e' = Fin x -> lo <= x <= hi)) ->
  exists mx vx, at_ m e = Fin mx /\ at_ v e = Fin vx /\
    (vx <> 0 -> exists gx, at_ g e = Fin gx /\ gx * vx = mx /\ 0 < vx /\ lo <= gx <= hi).
Proof. exact mean_between. Qed.
Print Assumptions C27_rhoga_between.

(** C28: vorticity times area summed over any block of corners is the circulation around it. *)
Theorem C28_circulation : forall vars vmap cs sym r, calc_rel_vort vars vmap cs sym = Ok r -> distinct_coords cs ->
  let vm := match vmap with None => default_vmap | Some m => m end in
  forall u dx v dy area, uses vars vm "u" u -> uses vars vm "dx" dx -> uses vars vm "v" v -> uses vars vm "dy" dy ->
  uses vars vm "area" area ->
  wf_arr u -> wf_arr dx -> wf_arr v -> wf_arr dy ->
  ~ In (ycorner cs) (names u) -> ~ In (ycorner cs) (names dx) ->
  ~ In (xcorner cs) (names v) -> ~ In (xcorner cs) (names dy) ->
  exists ny nx, dget (ycenter cs) (union_dims (adims u) (adims dx)) = Some ny /\
    dget (xcenter cs) (union_dims (adims v) (adims dy)) = Some nx /\
   forall e (U V A : nat -> nat -> R) j0 nj i0 ni,
    (forall a k, (a < ni)%nat -> (k < ny)%nat -> let E := upd (upd e (xcorner cs) (i0 + a)) (ycenter cs) k in
        fmul (at_ u E) (at_ dx E) = Fin (U k (i0 + a)%nat)) ->
    (forall b k, (b < nj)%nat -> (k < nx)%nat -> let E := upd (upd e (ycorner cs) (j0 + b)) (xcenter cs) k in
        fmul (at_ v E) (at_ dy E) = Fin (V (j0 + b)%nat k)) ->
    (forall b a, (b < nj)%nat -> (a < ni)%nat ->
        at_ area (corner cs e (j0 + b) (i0 + a)) = Fin (A b a) /\ A b a <> 0) ->
    (forall b a, (b < nj)%nat -> (a < ni)%nat -> is_fin (at_ r (corner cs e (j0 + b) (i0 + a))) = true) /\
    Rsum nj (fun b => Rsum ni (fun a => val (at_ r (corner cs e (j0 + b) (i0 + a))) * A b a))
    = circulation (fun j i => line sym ny (fun k => U k i) j) (fun j i => line sym nx (V j) i) j0 nj i0 ni.
Proof. exact vort_block. Qed.
Print Assumptions C28_circulation.

Theorem C28_potential_flow : forall vars vmap cs sym r, calc_rel_vort vars vmap cs sym = Ok r -> distinct_coords cs ->
  let vm := match vmap with None => default_vmap | Some m => m end in
  forall u dx v dy area, uses vars vm "u" u -> uses vars vm "dx" dx -> uses vars vm "v" v -> uses vars vm "dy" dy ->
  uses vars vm "area" area ->
  wf_arr u -> wf_arr dx -> wf_arr v -> wf_arr dy ->
  ~ In (ycorner cs) (names u) -> ~ In (ycorner cs) (names dx) ->
  ~ In (xcorner cs) (names v) -> ~ In (xcorner cs) (names dy) ->
  exists ny nx, dget (ycenter cs) (union_dims (adims u) (adims dx)) = Some ny /\
    dget (xcenter cs) (union_dims (adims v) (adims dy)) = Some nx /\
   forall e (phi : nat -> nat -> R) j i A, interior sym ny j -> interior sym nx i ->
    (forall k, (k < ny)%nat -> let E := upd (upd e (xcorner cs) i) (ycenter cs) k in
        fmul (at_ u E) (at_ dx E) = Fin (phi k (S (before sym i)) - phi k (before sym i))) ->
    (forall k, (k < nx)%nat -> let E := upd (upd e (ycorner cs) j) (xcenter cs) k in
        fmul (at_ v E) (at_ dy E) = Fin (phi (S (before sym j)) k - phi (before sym j) k)) ->
    at_ area (corner cs e j i) = Fin A -> A <> 0 ->
    at_ r (corner cs e j i) = Fin 0.
Proof. exact vort_potential. Qed.
Print Assumptions C28_potential_flow.

Theorem C28_missing_variable : forall vars vmap cs sym,
  let vm := match vmap with None => default_vmap | Some m => m end in
  (exists k v, In (k, v) vm /\ ~ In v (map fst vars)) -> calc_rel_vort vars vmap cs sym = Err ValueError.
Proof. exact vort_missing. Qed.
Print Assumptions C28_missing_variable.

(** C29 *)
Theorem C29_pv_units : forall z f n2 g cs sym units b,
  units <> "m"%string -> units <> "cm"%string -> is_ok (calc_pv z f n2 g cs sym units b) = false.
Proof. exact pv_units. Qed.
Print Assumptions C29_pv_units.

Theorem C29_pv_centers : forall z f n2 g cs sym units r e x y w,
  calc_pv z f n2 (Fin g) cs sym units false = Ok r -> g <> 0 ->
  at_ z e = Fin x -> at_ f e = Fin y -> at_ n2 e = Fin w ->
  (units = "m"%string -> at_ r e = Fin ((x + y) * w / g)) /\
  (units = "cm"%string -> at_ r e = Fin (Rabs ((x + y) * w / g) * 10 ^ 12)).
Proof.
  intros z f n2 g cs sym units r e x y w H Hg Hx Hy Hw.
  destruct (pv_inv _ _ _ _ _ _ _ _ _ H) as (n & -> & Hv). specialize (Hv e). cbn zeta in Hv.
  rewrite Hx, Hy, Hw, fadd_Fin, fdiv_Fin, fmul_Fin in Hv by exact Hg.
  replace ((x + y) * (w / g)) with ((x + y) * w / g) in Hv by (field; exact Hg).
  rewrite pv_cm_value in Hv by exact g.
  destruct Hv as [(-> & ->)|(-> & ->)]; split; intros E; try discriminate; reflexivity.
Qed.
Print Assumptions C29_pv_centers.

(** With interpolation, N2 is averaged over the four centres around the corner (0 outside). *)
Theorem C29_pv_corners : forall z f n2 g cs sym units r,
  calc_pv z f n2 (Fin g) cs sym units true = Ok r -> g <> 0 -> distinct_coords cs ->
  wf_arr n2 -> ~ In (xcorner cs) (names n2) ->
  exists nx ny, dget (xcenter cs) (adims n2) = Some nx /\ dget (ycenter cs) (adims n2) = Some ny /\
  forall e (N : nat -> nat -> R) x y,
   (forall j i, (j < ny)%nat -> (i < nx)%nat -> at_ n2 (upd (upd e (ycenter cs) j) (xcenter cs) i) = Fin (N j i)) ->
   at_ z e = Fin x -> at_ f e = Fin y ->
   let L j i := line sym ny (fun k => line sym nx (fun m => N k m) i) j in
   let j := e (ycorner cs) in let i := e (xcorner cs) in
   let w := (L j i + L j (S i) + L (S j) i + L (S j) (S i)) / 4 in
   (units = "m"%string -> at_ r e = Fin ((x + y) * w / g)) /\
   (units = "cm"%string -> at_ r e = Fin (Rabs ((x + y) * w / g) * 10 ^ 12)).
Proof.
  intros z f n2 g cs sym units r H Hg D W Nq.
  destruct (pv_inv _ _ _ _ _ _ _ _ _ H) as (n & (a & Ha & Hn) & Hv).
  destruct (interp_corner n2 cs sym a n D Ha Hn W Nq) as (nx & ny & Hnx & Hny & P).
  exists nx, ny. split; [exact Hnx|]. split; [exact Hny|]. intros e N x y HN Hx Hy L j i w.
  specialize (Hv e). cbn zeta in Hv. rewrite (P e N HN) in Hv. cbn zeta in Hv.
  change ((line sym ny (fun k => line sym nx (fun m => N k m) (e (xcorner cs))) (e (ycorner cs)) +
           line sym ny (fun k => line sym nx (fun m => N k m) (S (e (xcorner cs)))) (e (ycorner cs)) +
           line sym ny (fun k => line sym nx (fun m => N k m) (e (xcorner cs))) (S (e (ycorner cs))) +
           line sym ny (fun k => line sym nx (fun m => N k m) (S (e (xcorner cs)))) (S (e (ycorner cs)))) / 4) with w in Hv.
  clearbody w. rewrite Hx, Hy, fadd_Fin, fdiv_Fin, fmul_Fin in Hv by exact Hg.
  replace ((x + y) * (w / g)) with ((x + y) * w / g) in Hv by (field; exact Hg).
  rewrite pv_cm_value in Hv by exact g.
  destruct Hv as [(-> & ->)|(-> & ->)]; split; intros E; try discriminate; reflexivity.
Qed.
Print Assumptions C29_pv_corners.

(** Non-vacuity. *)
Definition ev_vars : dict arr :=
  [("uo", mkArr [("yh", 3%nat); ("xq", 3%nat)] (fun e => Fin (INR (e "yh"%string))));
   ("vo", mkArr [("yq", 3%nat); ("xh", 3%nat)] (fun e => Fin (INR (e "xh"%string))));
   ("dxCu", mkArr [("yh", 3%nat); ("xq", 3%nat)] (fun _ => Fin 2));
   ("dyCv", mkArr [("yq", 3%nat); ("xh", 3%nat)] (fun _ => Fin 2));
   ("areacello_bu", mkArr [("yq", 3%nat); ("xq", 3%nat)] (fun _ => Fin 4))]%string.
Example C28_nonvacuous : (exists r, calc_rel_vort ev_vars None default_grid false = Ok r) /\ distinct_coords default_grid /\
  interior false 3 1 /\ interior true 3 1.
Proof. split; [eexists; reflexivity|]. split; [constructor; discriminate|]. cbn. lia. Qed.
Definition ev_n2 : arr := mkArr [("yh", 3%nat); ("xh", 3%nat)]%string (fun e => Fin (INR (e "yh"%string) + 1)).
Definition ev_q (x : R) : arr := mkArr [("yq", 3%nat); ("xq", 3%nat)]%string (fun e => Fin x).
Example C29_nonvacuous :
  exists r, calc_pv (ev_q 1) (ev_q 2) ev_n2 (Fin 9.8) default_grid false "cm" true = Ok r.
Proof. eexists; reflexivity. Qed.
Definition ev_vol : arr := mkArr [("z_l", 2%nat); ("yh", 2%nat); ("xh", 2%nat)]%string
  (fun e => if Nat.eqb (e "xh"%string) 0 then NaN else Fin 5).
Definition ev_rho : arr := mkArr [("time", 2%nat); ("z_l", 2%nat); ("yh", 2%nat); ("xh", 2%nat)]%string
  (fun e => if Nat.eqb (e "xh"%string) 0 then NaN else Fin (1020 + INR (e "z_l"%string))).
Example C27_nonvacuous :
  (exists m v g, calc_masso ev_rho ev_vol "time" = Ok m /\ calc_volo ev_vol = Ok v /\ calc_rhoga m v = Ok g) /\
  no_inf ev_rho /\ no_inf ev_vol /\ NoDup (names ev_rho) /\ wf_arr ev_vol.
Proof.
  split; [do 3 eexists; repeat split; reflexivity|].
  split; [intros e s; cbn; destruct (Nat.eqb _ _); discriminate|].
  split; [intros e s; cbn; destruct (Nat.eqb _ _); discriminate|].
  split; [repeat constructor; cbn; intuition discriminate|].
  split; [repeat constructor; cbn; intuition discriminate|].
  intros e e' H. cbn. rewrite (H "xh"%string); [reflexivity|cbn; auto].
Qed.
