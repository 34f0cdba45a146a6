(** * PropertiesVort: C28, C29 (the number of corners of vorticity and potential vorticity) *)
From Coq Require Import Reals Lra Lia List String Bool Arith.
From Verif Require Import Num NumFacts Py Arr ArrFacts Eos Derived SpecVort ProofsAlign2 ProofsFields ProofsDz ProofsVort.
Import ListNotations.
Local Open Scope R_scope.

(** A symmetric grid has one corner more than centers along each axis. *)
Definition corners (sym : bool) (n : nat) : nat := if sym then (n + 1)%nat else n.
Lemma corners_size sym n : xg_size sym n = corners sym n.
Proof. unfold corners, xg_size. destruct sym; [rewrite Nat.add_1_r|]; reflexivity. Qed.

Lemma compat_dget d1 d2 d n m : compatible d1 d2 = true -> dget d d1 = Some n -> dget d d2 = Some m -> m = n.
Proof.
  unfold compatible. rewrite forallb_forall. intros H H1 H2. apply dget_In in H2. specialize (H _ H2). cbn in H. rewrite H1 in H.
  apply Nat.eqb_eq in H. auto.
Qed.
Lemma dget_absent {A} d (l : dict A) : ~ In d (map fst l) -> dget d l = None.
Proof. intros N. destruct (dget d l) eqn:E; [|reflexivity]. apply dget_In in E. exfalso. apply N. apply (in_map fst) in E. exact E. Qed.
Lemma dget_moved c q k n (l : list (string * nat)) d : dget c l = Some n ->
  dget d (map (fun p => if String.eqb (fst p) c then (q, k) else p) l) =
  if String.eqb d q then match dget d l with Some m => dget d (map (fun p => if String.eqb (fst p) c then (q, k) else p) l) | None => Some k end
  else if String.eqb d c then None else dget d l.
Proof.
  intros Hc. destruct (String.eqb_spec d q) as [->|N].
  - destruct (dget q l) eqn:E; [reflexivity|]. revert Hc E. induction l as [|[x y] l IH]; intros Hc E; [discriminate|]. cbn in *.
    destruct (String.eqb_spec x c) as [->|N]; cbn.
    + rewrite String.eqb_refl. reflexivity.
    + destruct (String.eqb_spec q x) as [->|N2]; [discriminate|]. apply IH; [|exact E]. destruct (String.eqb_spec c x) as [->|]; [contradiction|exact Hc].
  - clear Hc. induction l as [|[x y] l IH]; cbn; [destruct (String.eqb d c); reflexivity|].
    destruct (String.eqb_spec x c) as [->|N2]; cbn.
    + destruct (String.eqb_spec d q); [contradiction|]. rewrite IH. destruct (String.eqb_spec d c) as [->|]; [reflexivity|]. reflexivity.
    + destruct (String.eqb_spec d x) as [->|]; [destruct (String.eqb_spec x c); [contradiction|reflexivity]|exact IH].
Qed.
Lemma xg_dims op sym c q a r n : xg_op op sym c q a = Ok r -> dget c (adims a) = Some n -> ~ In q (names a) ->
  dget q (adims r) = Some (corners sym n) /\ (forall d, d <> q -> d <> c -> dget d (adims r) = dget d (adims a)).
Proof.
  intros H Hc Hq. destruct (xg_op_inv _ _ _ _ _ _ H) as (n' & Hn & _ & E). rewrite Hc in Hn. injection Hn as <-.
  rewrite E. split.
  - rewrite (dget_moved c q (xg_size sym n) n (adims a) q Hc), String.eqb_refl, (dget_absent _ _ Hq), corners_size. reflexivity.
  - intros d N1 N2. rewrite (dget_moved c q (xg_size sym n) n (adims a) d Hc).
    destruct (String.eqb_spec d q); [contradiction|]. destruct (String.eqb_spec d c); [contradiction|]. reflexivity.
Qed.
Lemma amap2_shape f a b r : amap2 f a b = Ok r -> compatible (adims a) (adims b) = true /\ adims r = union_dims (adims a) (adims b).
Proof. unfold amap2. destruct (compatible _ _); [|discriminate]. intros [=<-]. auto. Qed.
Lemma amap2_size f a b r d n : amap2 f a b = Ok r -> dget d (adims r) = Some n ->
  (forall m, dget d (adims a) = Some m -> m = n) /\ (forall m, dget d (adims b) = Some m -> m = n).
Proof.
  intros H G. destruct (amap2_shape _ _ _ _ H) as [C E]. rewrite E, dget_union in G.
  destruct (dget d (adims a)) as [k|] eqn:K.
  - injection G as ->. split; [intros m [=<-]; reflexivity|]. intros m Hm. exact (compat_dget _ _ _ _ _ C K Hm).
  - split; [discriminate|]. intros m Hm. congruence.
Qed.
Lemma amap2_names f a b r d : amap2 f a b = Ok r -> ~ In d (names a) -> ~ In d (names b) -> ~ In d (names r).
Proof. intros H A B. destruct (amap2_shape _ _ _ _ H) as [_ E]. unfold names in *. rewrite E. rewrite union_names. tauto. Qed.

(** The result has one corner per face, one more of each on a symmetric grid, and every variable
    with a corner dimension must have that size; so the flag [symmetric] has to fit the data. *)
Theorem C28_shape : forall vars vmap cs sym r, calc_rel_vort vars vmap cs sym = Ok r -> distinct_coords cs ->
  let vm := match vmap with None => default_vmap | Some m => m end in
  forall u dx v dy area, uses vars vm "u" u -> uses vars vm "dx" dx -> uses vars vm "v" v -> uses vars vm "dy" dy ->
  uses vars vm "area" area ->
  ~ In (ycorner cs) (names u) -> ~ In (ycorner cs) (names dx) ->
  ~ In (xcorner cs) (names v) -> ~ In (xcorner cs) (names dy) ->
  exists ny nx, dget (ycenter cs) (union_dims (adims u) (adims dx)) = Some ny /\
    dget (xcenter cs) (union_dims (adims v) (adims dy)) = Some nx /\
    dget (ycorner cs) (adims r) = Some (corners sym ny) /\ dget (xcorner cs) (adims r) = Some (corners sym nx) /\
    (forall a m, a = v \/ a = dy \/ a = area -> dget (ycorner cs) (adims a) = Some m -> m = corners sym ny) /\
    (forall a m, a = u \/ a = dx \/ a = area -> dget (xcorner cs) (adims a) = Some m -> m = corners sym nx).
Proof.
  intros vars vmap cs sym r H D vm u dx v dy area Hu Hdx Hv Hdy Ha N1 N2 N3 N4.
  unfold calc_rel_vort in H. cbv zeta in H. fold vm in H.
  destruct (forallb (fun p => dmem (snd p) vars) vm) eqn:Ef; [|discriminate]. cbn [negb] in H.
  assert (L : forall k a, uses vars vm k a -> (let* x := dlookup k vm in dlookup x vars) = Ok a).
  { intros k a (x & H1 & H2). unfold dlookup. rewrite H1. cbn [bind]. rewrite H2. reflexivity. }
  rewrite (L _ _ Hu), (L _ _ Hdx), (L _ _ Hv), (L _ _ Hdy), (L _ _ Ha) in H. cbn [bind] in H.
  apply bind_inv in H as (udx & Hudx & H). apply bind_inv in H as (duy & Hduy & H).
  apply bind_inv in H as (vdy & Hvdy & H). apply bind_inv in H as (dvx & Hdvx & H).
  apply bind_inv in H as (circ & Hc & H).
  destruct (xg_op_inv _ _ _ _ _ _ Hduy) as (ny & Hny & _ & _). destruct (xg_op_inv _ _ _ _ _ _ Hdvx) as (nx & Hnx & _ & _).
  destruct (xg_dims _ _ _ _ _ _ _ Hduy Hny (amap2_names _ _ _ _ _ Hudx N1 N2)) as [U1 U2].
  destruct (xg_dims _ _ _ _ _ _ _ Hdvx Hnx (amap2_names _ _ _ _ _ Hvdy N3 N4)) as [V1 V2].
  destruct (amap2_shape _ _ _ _ Hudx) as [_ Su]. destruct (amap2_shape _ _ _ _ Hvdy) as [_ Sv].
  destruct (amap2_shape _ _ _ _ Hc) as [Cc Sc]. destruct (amap2_shape _ _ _ _ H) as [Cr Sr].
  cbn [amap adims] in Cc, Sc.
  exists ny, nx. rewrite <- Su, <- Sv. split; [exact Hny|]. split; [exact Hnx|].
  assert (Ry : dget (ycorner cs) (adims circ) = Some (corners sym ny)) by (rewrite Sc, dget_union, U1; reflexivity).
  assert (Rx : dget (xcorner cs) (adims circ) = Some (corners sym nx)).
  { rewrite Sc, dget_union. rewrite V1. destruct (dget (xcorner cs) (adims duy)) as [k|] eqn:K; [|reflexivity]. f_equal. symmetry. exact (compat_dget _ _ _ _ _ Cc K V1). }
  assert (Ty : dget (ycorner cs) (adims r) = Some (corners sym ny)) by (rewrite Sr, dget_union, Ry; reflexivity).
  assert (Tx : dget (xcorner cs) (adims r) = Some (corners sym nx)) by (rewrite Sr, dget_union, Rx; reflexivity).
  split; [exact Ty|]. split; [exact Tx|].
  assert (Qu : forall k, dget (xcorner cs) (adims udx) = Some k -> k = corners sym nx).
  { intros k Hk. rewrite <- (U2 (xcorner cs)) in Hk by (intros E; destruct D; congruence). symmetry. exact (compat_dget _ _ _ _ _ Cc Hk V1). }
  assert (Qv : forall k, dget (ycorner cs) (adims vdy) = Some k -> k = corners sym ny).
  { intros k Hk. rewrite <- (V2 (ycorner cs)) in Hk by (intros E; destruct D; congruence). exact (compat_dget _ _ _ _ _ Cc U1 Hk). }
  assert (G : forall f a b s d m w, amap2 f a b = Ok s -> w = a \/ w = b -> dget d (adims w) = Some m -> dget d (adims s) = Some m).
  { intros f a b s d m w Hs W Hw. destruct (amap2_shape _ _ _ _ Hs) as [C E]. rewrite E, dget_union. destruct W as [-> | ->]; [rewrite Hw; reflexivity|].
    destruct (dget d (adims a)) as [k|] eqn:K; [|exact Hw]. f_equal. symmetry. exact (compat_dget _ _ _ _ _ C K Hw). }
  split; intros a m A Hm.
  - destruct A as [-> | [-> | -> ]].
    + apply Qv. exact (G _ _ _ _ _ _ _ Hvdy (or_introl eq_refl) Hm).
    + apply Qv. exact (G _ _ _ _ _ _ _ Hvdy (or_intror eq_refl) Hm).
    + exact (compat_dget _ _ _ _ _ Cr Ry Hm).
  - destruct A as [-> | [-> | -> ]].
    + apply Qu. exact (G _ _ _ _ _ _ _ Hudx (or_introl eq_refl) Hm).
    + apply Qu. exact (G _ _ _ _ _ _ _ Hudx (or_intror eq_refl) Hm).
    + exact (compat_dget _ _ _ _ _ Cr Rx Hm).
Qed.
Print Assumptions C28_shape.

(** Potential vorticity: interpolated N2 has the corners of the vorticity. *)
Theorem C29_shape : forall z f n2 g cs sym units r, calc_pv z f n2 g cs sym units true = Ok r -> distinct_coords cs ->
  ~ In (xcorner cs) (names n2) -> ~ In (ycorner cs) (names n2) ->
  exists nx ny, dget (xcenter cs) (adims n2) = Some nx /\ dget (ycenter cs) (adims n2) = Some ny /\
    dget (ycorner cs) (adims r) = Some (corners sym ny) /\ dget (xcorner cs) (adims r) = Some (corners sym nx) /\
    (forall a m, a = z \/ a = f -> dget (ycorner cs) (adims a) = Some m -> m = corners sym ny) /\
    (forall a m, a = z \/ a = f -> dget (xcorner cs) (adims a) = Some m -> m = corners sym nx).
Proof.
  intros z f n2 g cs sym units r H D Nx Ny. unfold calc_pv in H. apply bind_inv in H as (n & Hn & H). apply bind_inv in Hn as (a & Ha & Hn).
  apply bind_inv in H as (av & Hav & H). apply bind_inv in H as (pv & Hpv & H).
  assert (Sr : adims r = adims pv) by (destruct (String.eqb units "m"); [injection H as <-; reflexivity|]; destruct (String.eqb units "cm"); [injection H as <-; reflexivity|discriminate]).
  destruct (xg_op_inv _ _ _ _ _ _ Ha) as (nx & Hnx & _ & Ea). destruct (xg_op_inv _ _ _ _ _ _ Hn) as (ny & Hny & _ & _).
  destruct (xg_dims _ _ _ _ _ _ _ Ha Hnx Nx) as [A1 A2].
  assert (Ny' : ~ In (ycorner cs) (names a)).
  { unfold names. rewrite Ea. intros I. apply in_map_iff in I as ([x y] & E & I). apply in_map_iff in I as ([x' y'] & E' & I). cbn in *.
    destruct (String.eqb_spec x' (xcenter cs)) as [->|].
    - injection E' as <- <-. destruct D; congruence.
    - injection E' as <- <-. apply Ny. unfold names. rewrite <- E. apply (in_map fst) in I. exact I. }
  destruct (xg_dims _ _ _ _ _ _ _ Hn Hny Ny') as [B1 B2].
  rewrite (A2 (ycenter cs)) in Hny by (intros E; destruct D; congruence).
  rewrite <- (B2 (xcorner cs)) in A1 by (intros E; destruct D; congruence).
  exists nx, ny. split; [exact Hnx|]. split; [exact Hny|].
  destruct (amap2_shape _ _ _ _ Hpv) as [Cp Sp]. cbn [const_r amap adims] in Cp, Sp.
  destruct (amap2_shape _ _ _ _ Hav) as [Cv Sv].
  assert (K : forall d k, dget d (adims n) = Some k -> dget d (adims r) = Some k /\ forall w m, w = z \/ w = f -> dget d (adims w) = Some m -> m = k).
  { intros d k Hk. split.
    - rewrite Sr, Sp, dget_union. destruct (dget d (adims av)) as [j|] eqn:J; [|exact Hk]. f_equal. symmetry. exact (compat_dget _ _ _ _ _ Cp J Hk).
    - intros w m W Hm. assert (J : dget d (adims av) = Some m).
      { rewrite Sv, dget_union. destruct W as [-> | ->]; [rewrite Hm; reflexivity|]. destruct (dget d (adims z)) as [j|] eqn:J; [|exact Hm]. f_equal. symmetry. exact (compat_dget _ _ _ _ _ Cv J Hm). }
      symmetry. exact (compat_dget _ _ _ _ _ Cp J Hk). }
  destruct (K _ _ B1) as [K1 K2]. destruct (K _ _ A1) as [K3 K4]. auto.
Qed.
Print Assumptions C29_shape.

(** Example: a symmetric grid of 2 by 3 cells; without the flag the same data are rejected. *)
Definition sy_vars : dict arr :=
  [("uo", mkArr [("yh", 2%nat); ("xq", 4%nat)] (fun e => Fin (INR (e "yh"%string))));
   ("vo", mkArr [("yq", 3%nat); ("xh", 3%nat)] (fun e => Fin (INR (e "xh"%string))));
   ("dxCu", mkArr [("yh", 2%nat); ("xq", 4%nat)] (fun _ => Fin 2));
   ("dyCv", mkArr [("yq", 3%nat); ("xh", 3%nat)] (fun _ => Fin 2));
   ("areacello_bu", mkArr [("yq", 3%nat); ("xq", 4%nat)] (fun _ => Fin 4))]%string.
Example C28_symmetric : 
  (exists r, calc_rel_vort sy_vars None default_grid true = Ok r /\ adims r = [("yq", 3%nat); ("xq", 4%nat)]%string) /\
  calc_rel_vort sy_vars None default_grid false = Err ValueError.
Proof. split; [eexists; split; reflexivity|reflexivity]. Qed.
