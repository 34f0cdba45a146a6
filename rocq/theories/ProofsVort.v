(** * ProofsVort: relative and potential vorticity *)
From Coq Require Import Reals Lra Lia List String Bool Arith FunctionalExtensionality.
From Verif Require Import Num NumFacts Py Arr ArrFacts Eos Derived SpecVort ProofsFields ProofsFields2 ProofsDz.
Import ListNotations.
Local Open Scope R_scope.

Lemma xg_right_left sym n f k : xg_right sym n f k = xg_left sym n f (S k).
Proof. destruct sym; reflexivity. Qed.

Lemma xg_left_line sym n f (F : nat -> R) k : (forall j, (j < n)%nat -> f j = Fin (F j)) ->
  xg_left sym n f k = Fin (line sym n F k).
Proof.
  intros H. unfold xg_left, line, center_val.
  assert (G : forall j, (if Nat.ltb j n then f j else Fin 0) = Fin (if Nat.ltb j n then F j else 0)).
  { intros j. destruct (Nat.ltb_spec j n); [apply H; assumption|reflexivity]. }
  destruct sym; [destruct k; [reflexivity|]|]; apply G.
Qed.

Lemma xg_op_inv op sym c q a r : xg_op op sym c q a = Ok r ->
  exists n, dget c (adims a) = Some n /\
   (forall e, at_ r e = op (xg_left sym n (fun k => at_ a (upd e c k)) (e q)) (xg_right sym n (fun k => at_ a (upd e c k)) (e q))) /\
   adims r = map (fun p => if String.eqb (fst p) c then (q, xg_size sym n) else p) (adims a).
Proof.
  unfold xg_op. destruct (dget c (adims a)) as [n|]; [|discriminate]. intros [=<-]. exists n. auto.
Qed.

(** Names of the variables used. *)
Definition uses (vars : dict arr) (vm : dict string) (k : string) (a : arr) : Prop :=
  exists v, dget k vm = Some v /\ dget v vars = Some a.

Lemma rel_vort_inv vars vmap cs sym r : calc_rel_vort vars vmap cs sym = Ok r ->
  let vm := match vmap with None => default_vmap | Some m => m end in
  (forall k v, In (k, v) vm -> In v (map fst vars)) /\
  exists u dx v dy area ny nx,
    uses vars vm "u" u /\ uses vars vm "dx" dx /\ uses vars vm "v" v /\ uses vars vm "dy" dy /\ uses vars vm "area" area /\
    dget (ycenter cs) (union_dims (adims u) (adims dx)) = Some ny /\
    dget (xcenter cs) (union_dims (adims v) (adims dy)) = Some nx /\
    forall e,
     let U k := let E := upd e (ycenter cs) k in fmul (at_ u E) (at_ dx E) in
     let V k := let E := upd e (xcenter cs) k in fmul (at_ v E) (at_ dy E) in
     at_ r e = fdiv (fadd (fopp (fsub (xg_left sym ny U (S (e (ycorner cs)))) (xg_left sym ny U (e (ycorner cs)))))
                          (fsub (xg_left sym nx V (S (e (xcorner cs)))) (xg_left sym nx V (e (xcorner cs)))))
                    (at_ area e).
Proof.
  intros H vm. unfold calc_rel_vort in H. cbv zeta in H. fold vm in H.
  destruct (forallb (fun p => dmem (snd p) vars) vm) eqn:Ef; [|discriminate]. cbn [negb] in H.
  split.
  { intros k v Hin. rewrite forallb_forall in Ef. specialize (Ef (k, v) Hin). apply dmem_true in Ef. exact Ef. }
  assert (L : forall k a, (let* x := dlookup k vm in dlookup x vars) = Ok a -> uses vars vm k a).
  { intros k a Hk. apply bind_inv in Hk as (x & H1 & H2). unfold dlookup in *. exists x.
    destruct (dget k vm); [|discriminate]. injection H1 as ->. destruct (dget x vars); [|discriminate]. injection H2 as ->. auto. }
  apply bind_inv in H as (u & Hu & H). apply bind_inv in H as (dx & Hdx & H).
  apply bind_inv in H as (udx & Hudx & H). apply bind_inv in H as (duy & Hduy & H).
  apply bind_inv in H as (v & Hv & H). apply bind_inv in H as (dy & Hdy & H).
  apply bind_inv in H as (vdy & Hvdy & H). apply bind_inv in H as (dvx & Hdvx & H).
  apply bind_inv in H as (circ & Hc & H). apply bind_inv in H as (area & Ha & H).
  apply xg_op_inv in Hduy as (ny & Hny & Eu & _). apply xg_op_inv in Hdvx as (nx & Hnx & Ev & _).
  apply amap2_inv in Hudx, Hvdy, Hc, H. subst udx vdy circ r.
  exists u, dx, v, dy, area, ny, nx. repeat (split; [apply L; assumption|]).
  split; [exact Hny|]. split; [exact Hnx|]. intros e U V. cbn [at_ amap]. rewrite Eu, Ev.
  rewrite !xg_right_left. reflexivity.
Qed.

(** Vorticity times area at one corner. *)
Lemma rel_vort_point vars vmap cs sym r : calc_rel_vort vars vmap cs sym = Ok r ->
  let vm := match vmap with None => default_vmap | Some m => m end in
  forall u dx v dy area, uses vars vm "u" u -> uses vars vm "dx" dx -> uses vars vm "v" v -> uses vars vm "dy" dy ->
  uses vars vm "area" area ->
  exists ny nx, dget (ycenter cs) (union_dims (adims u) (adims dx)) = Some ny /\
    dget (xcenter cs) (union_dims (adims v) (adims dy)) = Some nx /\
   forall e (U V : nat -> R) A,
    (forall k, (k < ny)%nat -> let E := upd e (ycenter cs) k in fmul (at_ u E) (at_ dx E) = Fin (U k)) ->
    (forall k, (k < nx)%nat -> let E := upd e (xcenter cs) k in fmul (at_ v E) (at_ dy E) = Fin (V k)) ->
    at_ area e = Fin A -> A <> 0 ->
    exists z, at_ r e = Fin z /\
      z * A = (line sym nx V (S (e (xcorner cs))) - line sym nx V (e (xcorner cs)))
              - (line sym ny U (S (e (ycorner cs))) - line sym ny U (e (ycorner cs))).
Proof.
  intros H vm u dx v dy area Hu Hdx Hv Hdy Ha.
  destruct (rel_vort_inv _ _ _ _ _ H) as (_ & u' & dx' & v' & dy' & area' & ny & nx & Hu' & Hdx' & Hv' & Hdy' & Ha' & Hny & Hnx & E).
  fold vm in Hu', Hdx', Hv', Hdy', Ha'.
  assert (Q : forall k a a', uses vars vm k a -> uses vars vm k a' -> a = a').
  { intros k a a' (x & H1 & H2) (x' & H3 & H4). congruence. }
  rewrite <- (Q _ _ _ Hu Hu') in *. rewrite <- (Q _ _ _ Hdx Hdx') in *. rewrite <- (Q _ _ _ Hv Hv') in *.
  rewrite <- (Q _ _ _ Hdy Hdy') in *. rewrite <- (Q _ _ _ Ha Ha') in *. clear Q.
  exists ny, nx. split; [exact Hny|]. split; [exact Hnx|]. intros e U V A HU HV HA HA0.
  rewrite E. cbn zeta.
  rewrite !(xg_left_line sym ny _ U _ HU), !(xg_left_line sym nx _ V _ HV), HA.
  rewrite !fsub_Fin, fopp_Fin, fadd_Fin, fdiv_Fin by exact HA0.
  eexists. split; [reflexivity|]. field. exact HA0.
Qed.

(** Summation over a block: interior faces cancel. *)
Lemma block_sum U V j0 nj i0 ni :
  Rsum nj (fun b => Rsum ni (fun a =>
     (V (j0 + b)%nat (S (i0 + a)) - V (j0 + b)%nat (i0 + a)%nat)
     - (U (S (j0 + b)) (i0 + a)%nat - U (j0 + b)%nat (i0 + a)%nat)))
  = circulation U V j0 nj i0 ni.
Proof.
  unfold circulation.
  rewrite (Rsum_ext nj _ (fun b => (V (j0 + b)%nat (i0 + ni)%nat - V (j0 + b)%nat i0)
       - Rsum ni (fun a => U (S (j0 + b)) (i0 + a)%nat - U (j0 + b)%nat (i0 + a)%nat))).
  2:{ intros b _. rewrite Rsum_minus. f_equal.
      rewrite (Rsum_ext ni _ (fun a => V (j0 + b)%nat (i0 + S a)%nat - V (j0 + b)%nat (i0 + a)%nat)).
      - rewrite (Rsum_telescope ni (fun a => V (j0 + b)%nat (i0 + a)%nat)), Nat.add_0_r. reflexivity.
      - intros a _. rewrite Nat.add_succ_r. reflexivity. }
  rewrite Rsum_minus, Rsum_minus, Rsum_swap.
  rewrite (Rsum_ext ni (fun j => Rsum nj _) (fun a => U (j0 + nj)%nat (i0 + a)%nat - U j0 (i0 + a)%nat)).
  - rewrite Rsum_minus. lra.
  - intros a _. rewrite (Rsum_ext nj _ (fun b => U (j0 + S b)%nat (i0 + a)%nat - U (j0 + b)%nat (i0 + a)%nat)).
    + rewrite (Rsum_telescope nj (fun b => U (j0 + b)%nat (i0 + a)%nat)), Nat.add_0_r. reflexivity.
    + intros b _. rewrite Nat.add_succ_r. reflexivity.
Qed.

Record distinct_coords (cs : grid_coords) : Prop := {
  dc1 : xcenter cs <> ycenter cs; dc2 : xcenter cs <> xcorner cs; dc3 : xcenter cs <> ycorner cs;
  dc4 : ycenter cs <> xcorner cs; dc5 : ycenter cs <> ycorner cs; dc6 : xcorner cs <> ycorner cs }.

Definition corner (cs : grid_coords) (e : index) (j i : nat) : index := upd (upd e (ycorner cs) j) (xcorner cs) i.

Lemma wf_irrelevant a e d k : wf_arr a -> ~ In d (names a) -> at_ a (upd e d k) = at_ a e.
Proof. intros [_ H] Hd. apply H. intros x Hx. apply upd_other. intros ->. contradiction. Qed.

Lemma vort_corner vars vmap cs sym r : calc_rel_vort vars vmap cs sym = Ok r -> distinct_coords cs ->
  let vm := match vmap with None => default_vmap | Some m => m end in
  forall u dx v dy area, uses vars vm "u" u -> uses vars vm "dx" dx -> uses vars vm "v" v -> uses vars vm "dy" dy ->
  uses vars vm "area" area ->
  wf_arr u -> wf_arr dx -> wf_arr v -> wf_arr dy ->
  ~ In (ycorner cs) (names u) -> ~ In (ycorner cs) (names dx) ->
  ~ In (xcorner cs) (names v) -> ~ In (xcorner cs) (names dy) ->
  exists ny nx, dget (ycenter cs) (union_dims (adims u) (adims dx)) = Some ny /\
    dget (xcenter cs) (union_dims (adims v) (adims dy)) = Some nx /\
   forall e (U V : nat -> nat -> R) j i A,
    (forall k, (k < ny)%nat -> let E := upd (upd e (xcorner cs) i) (ycenter cs) k in fmul (at_ u E) (at_ dx E) = Fin (U k i)) ->
    (forall k, (k < nx)%nat -> let E := upd (upd e (ycorner cs) j) (xcenter cs) k in fmul (at_ v E) (at_ dy E) = Fin (V j k)) ->
    at_ area (corner cs e j i) = Fin A -> A <> 0 ->
    exists z, at_ r (corner cs e j i) = Fin z /\
      z * A = (line sym nx (V j) (S i) - line sym nx (V j) i)
              - (line sym ny (fun k => U k i) (S j) - line sym ny (fun k => U k i) j).
Proof.
  intros H D vm u dx v dy area Hu Hdx Hv Hdy Ha Wu Wdx Wv Wdy Nu Ndx Nv Ndy.
  destruct (rel_vort_point _ _ _ _ _ H u dx v dy area Hu Hdx Hv Hdy Ha) as (ny & nx & Hny & Hnx & P).
  exists ny, nx. split; [exact Hny|]. split; [exact Hnx|]. intros e U V j i A HU HV HA HA0.
  destruct D as [d1 d2 d3 d4 d5 d6].
  destruct (P (corner cs e j i) (fun k => U k i) (V j) A) as (z & Hz & E); try assumption.
  - intros k Hk. rewrite <- (HU k Hk). cbn zeta. unfold corner.
    rewrite (upd_comm e (ycorner cs) (xcorner cs)) by congruence.
    rewrite (upd_comm (upd e (xcorner cs) i) (ycorner cs) (ycenter cs)) by congruence.
    rewrite !(wf_irrelevant _ _ (ycorner cs)) by assumption. reflexivity.
  - intros k Hk. rewrite <- (HV k Hk). cbn zeta. unfold corner.
    rewrite (upd_comm (upd e (ycorner cs) j) (xcorner cs) (xcenter cs)) by congruence.
    rewrite !(wf_irrelevant _ _ (xcorner cs)) by assumption. reflexivity.
  - exists z. split; [exact Hz|]. rewrite E. unfold corner.
    rewrite upd_same, upd_other by congruence. rewrite upd_same. reflexivity.
Qed.

Lemma vort_block vars vmap cs sym r : calc_rel_vort vars vmap cs sym = Ok r -> distinct_coords cs ->
  let vm := match vmap with None => default_vmap | Some m => m end in
  forall u dx v dy area, uses vars vm "u" u -> uses vars vm "dx" dx -> uses vars vm "v" v -> uses vars vm "dy" dy ->
  uses vars vm "area" area ->
  wf_arr u -> wf_arr dx -> wf_arr v -> wf_arr dy ->
  ~ In (ycorner cs) (names u) -> ~ In (ycorner cs) (names dx) ->
  ~ In (xcorner cs) (names v) -> ~ In (xcorner cs) (names dy) ->
  exists ny nx, dget (ycenter cs) (union_dims (adims u) (adims dx)) = Some ny /\
    dget (xcenter cs) (union_dims (adims v) (adims dy)) = Some nx /\
   forall e (U V A : nat -> nat -> R) j0 nj i0 ni,
    (forall a k, (a < ni)%nat -> (k < ny)%nat -> let E := upd (upd e (xcorner cs) (i0 + a)) (ycenter cs) k in
        fmul (at_ u E) (at_ dx E) = Fin (U k (i0 + a)%nat)) ->
    (forall b k, (b < nj)%nat -> (k < nx)%nat -> let E := upd (upd e (ycorner cs) (j0 + b)) (xcenter cs) k in
        fmul (at_ v E) (at_ dy E) = Fin (V (j0 + b)%nat k)) ->
    (forall b a, (b < nj)%nat -> (a < ni)%nat ->
        at_ area (corner cs e (j0 + b) (i0 + a)) = Fin (A b a) /\ A b a <> 0) ->
    (forall b a, (b < nj)%nat -> (a < ni)%nat -> is_fin (at_ r (corner cs e (j0 + b) (i0 + a))) = true) /\
    Rsum nj (fun b => Rsum ni (fun a => val (at_ r (corner cs e (j0 + b) (i0 + a))) * A b a))
    = circulation (fun j i => line sym ny (fun k => U k i) j) (fun j i => line sym nx (V j) i) j0 nj i0 ni.
Proof.
  intros H D vm u dx v dy area Hu Hdx Hv Hdy Ha Wu Wdx Wv Wdy Nu Ndx Nv Ndy.
  destruct (vort_corner _ _ _ _ _ H D u dx v dy area Hu Hdx Hv Hdy Ha Wu Wdx Wv Wdy Nu Ndx Nv Ndy) as (ny & nx & Hny & Hnx & P).
  exists ny, nx. split; [exact Hny|]. split; [exact Hnx|]. intros e U V A j0 nj i0 ni HU HV HA. split.
  - intros b a Hb Ha'. destruct (HA b a Hb Ha') as [A1 A2].
    destruct (P e U V (j0 + b)%nat (i0 + a)%nat (A b a) (fun k Hk => HU a k Ha' Hk) (fun k Hk => HV b k Hb Hk) A1 A2) as (z & Hz & _). rewrite Hz. reflexivity.
  - rewrite <- block_sum. apply Rsum_ext. intros b Hb. apply Rsum_ext. intros a Ha'.
    destruct (HA b a Hb Ha') as [A1 A2].
    destruct (P e U V (j0 + b)%nat (i0 + a)%nat (A b a) (fun k Hk => HU a k Ha' Hk) (fun k Hk => HV b k Hb Hk) A1 A2) as (z & Hz & E).
    rewrite Hz. cbn [val]. exact E.
Qed.

Lemma line_interior sym n f c : interior sym n c ->
  line sym n f c = f (before sym c) /\ line sym n f (S c) = f (S (before sym c)).
Proof.
  unfold interior, line, before. destruct sym; intros H.
  - destruct c as [|c]; [lia|]. cbn [Nat.sub]. rewrite Nat.sub_0_r.
    rewrite !(proj2 (Nat.ltb_lt _ _)) by lia. auto.
  - rewrite !(proj2 (Nat.ltb_lt _ _)) by lia. auto.
Qed.

Lemma vort_potential vars vmap cs sym r : calc_rel_vort vars vmap cs sym = Ok r -> distinct_coords cs ->
  let vm := match vmap with None => default_vmap | Some m => m end in
  forall u dx v dy area, uses vars vm "u" u -> uses vars vm "dx" dx -> uses vars vm "v" v -> uses vars vm "dy" dy ->
  uses vars vm "area" area ->
  wf_arr u -> wf_arr dx -> wf_arr v -> wf_arr dy ->
  ~ In (ycorner cs) (names u) -> ~ In (ycorner cs) (names dx) ->
  ~ In (xcorner cs) (names v) -> ~ In (xcorner cs) (names dy) ->
  exists ny nx, dget (ycenter cs) (union_dims (adims u) (adims dx)) = Some ny /\
    dget (xcenter cs) (union_dims (adims v) (adims dy)) = Some nx /\
   forall e (phi : nat -> nat -> R) j i A, interior sym ny j -> interior sym nx i ->
    (forall k, (k < ny)%nat -> let E := upd (upd e (xcorner cs) i) (ycenter cs) k in
        fmul (at_ u E) (at_ dx E) = Fin (phi k (S (before sym i)) - phi k (before sym i))) ->
    (forall k, (k < nx)%nat -> let E := upd (upd e (ycorner cs) j) (xcenter cs) k in
        fmul (at_ v E) (at_ dy E) = Fin (phi (S (before sym j)) k - phi (before sym j) k)) ->
    at_ area (corner cs e j i) = Fin A -> A <> 0 ->
    at_ r (corner cs e j i) = Fin 0.
Proof.
  intros H D vm u dx v dy area Hu Hdx Hv Hdy Ha Wu Wdx Wv Wdy Nu Ndx Nv Ndy.
  destruct (vort_corner _ _ _ _ _ H D u dx v dy area Hu Hdx Hv Hdy Ha Wu Wdx Wv Wdy Nu Ndx Nv Ndy) as (ny & nx & Hny & Hnx & P).
  exists ny, nx. split; [exact Hny|]. split; [exact Hnx|]. intros e phi j i A Ij Ii HU HV HA HA0.
  destruct (P e (fun k i => phi k (S (before sym i)) - phi k (before sym i))
                (fun j k => phi (S (before sym j)) k - phi (before sym j) k) j i A HU HV HA HA0) as (z & Hz & E).
  rewrite Hz. f_equal.
  destruct (line_interior sym nx (fun k => phi (S (before sym j)) k - phi (before sym j) k) i Ii) as [L1 L2].
  destruct (line_interior sym ny (fun k => phi k (S (before sym i)) - phi k (before sym i)) j Ij) as [L3 L4].
  rewrite L1, L2, L3, L4 in E. apply (Rmult_eq_reg_r A); [|exact HA0]. rewrite E. ring.
Qed.

Lemma vort_missing vars vmap cs sym :
  let vm := match vmap with None => default_vmap | Some m => m end in
  (exists k v, In (k, v) vm /\ ~ In v (map fst vars)) ->
  calc_rel_vort vars vmap cs sym = Err ValueError.
Proof.
  intros vm (k & v & H1 & H2). unfold calc_rel_vort. cbv zeta. fold vm.
  destruct (forallb (fun p => dmem (snd p) vars) vm) eqn:E; [|reflexivity]. exfalso.
  rewrite forallb_forall in E. specialize (E _ H1). apply dmem_true in E. contradiction.
Qed.

(** ** Potential vorticity *)
Lemma pv_units z f n2 g cs sym units b : units <> "m"%string -> units <> "cm"%string ->
  is_ok (calc_pv z f n2 g cs sym units b) = false.
Proof.
  intros H1 H2. destruct (calc_pv z f n2 g cs sym units b) eqn:E; [|reflexivity]. unfold calc_pv in E.
  apply bind_inv in E as (n & _ & E). apply bind_inv in E as (av & _ & E). apply bind_inv in E as (pv & _ & E).
  rewrite (proj2 (String.eqb_neq _ _) H1), (proj2 (String.eqb_neq _ _) H2) in E. discriminate.
Qed.

Lemma pv_inv z f n2 g cs sym units b r : calc_pv z f n2 g cs sym units b = Ok r ->
  exists n, (if b then exists a, xg_interp sym (xcenter cs) (xcorner cs) n2 = Ok a /\ xg_interp sym (ycenter cs) (ycorner cs) a = Ok n else n = n2) /\
  forall e, let pv := fmul (fadd (at_ z e) (at_ f e)) (fdiv (at_ n e) g) in
    (units = "m"%string /\ at_ r e = pv) \/
    (units = "cm"%string /\ at_ r e = fabs (fmul (fdiv pv (Fin 100)) (Fin (10 ^ 14)))).
Proof.
  unfold calc_pv. intros H. apply bind_inv in H as (n & Hn & H). apply bind_inv in H as (av & Hav & H).
  apply bind_inv in H as (pv & Hpv & H). apply amap2_inv in Hav, Hpv. subst av pv.
  exists n. split.
  - destruct b; [apply bind_inv in Hn as (a & H1 & H2); exists a; auto|injection Hn as <-; reflexivity].
  - intros e. destruct (String.eqb units "m") eqn:E1; [|destruct (String.eqb units "cm") eqn:E2; [|discriminate]].
    + apply String.eqb_eq in E1. injection H as <-. left. split; [exact E1|reflexivity].
    + apply String.eqb_eq in E2. injection H as <-. right. split; [exact E2|reflexivity].
Qed.

Lemma line_lin sym n c f g p : line sym n (fun k => c * (f k + g k)) p = c * (line sym n f p + line sym n g p).
Proof. unfold line. destruct sym; [destruct p as [|p]; [lra|]|]; cbv beta iota zeta; destruct (Nat.ltb p n); lra. Qed.

(** Interpolation to corners averages the four surrounding centres (0 outside). *)
Lemma interp_corner n2 cs sym a n : distinct_coords cs ->
  xg_interp sym (xcenter cs) (xcorner cs) n2 = Ok a -> xg_interp sym (ycenter cs) (ycorner cs) a = Ok n ->
  wf_arr n2 -> ~ In (xcorner cs) (names n2) ->
  exists nx ny, dget (xcenter cs) (adims n2) = Some nx /\ dget (ycenter cs) (adims n2) = Some ny /\
  forall e (N : nat -> nat -> R),
   (forall j i, (j < ny)%nat -> (i < nx)%nat -> at_ n2 (upd (upd e (ycenter cs) j) (xcenter cs) i) = Fin (N j i)) ->
   let L j i := line sym ny (fun k => line sym nx (fun m => N k m) i) j in
   let j := e (ycorner cs) in let i := e (xcorner cs) in
   at_ n e = Fin ((L j i + L j (S i) + L (S j) i + L (S j) (S i)) / 4).
Proof.
  intros [d1 d2 d3 d4 d5 d6] Ha Hn W Nq.
  apply xg_op_inv in Ha as (nx & Hnx & Ea & Da). apply xg_op_inv in Hn as (ny & Hny & En & _).
  exists nx, ny. split; [exact Hnx|].
  assert (Hny' : dget (ycenter cs) (adims n2) = Some ny).
  { rewrite Da in Hny. clear - Hny d1 d4. induction (adims n2) as [|[x m] l IH]; [discriminate|].
    cbn in *. destruct (String.eqb x (xcenter cs)) eqn:Ex; cbn in Hny.
    - apply String.eqb_eq in Ex. subst x. rewrite (proj2 (String.eqb_neq _ _)) in Hny by exact d4.
      rewrite (proj2 (String.eqb_neq (ycenter cs) (xcenter cs))) by congruence. apply IH, Hny.
    - destruct (String.eqb (ycenter cs) x); [exact Hny|apply IH, Hny]. }
  split; [exact Hny'|]. intros e N HN L j i.
  set (G := fun k => line sym nx (fun m => N k m)).
  assert (HA : forall k, (k < ny)%nat -> at_ a (upd e (ycenter cs) k) = Fin (/ 2 * (G k i + G k (S i)))).
  { intros k Hk. rewrite Ea, xg_right_left.
    assert (X : forall m, (m < nx)%nat -> at_ n2 (upd (upd e (ycenter cs) k) (xcenter cs) m) = Fin (N k m)) by (intros m Hm; apply HN; assumption).
    rewrite !(xg_left_line sym nx _ (fun m => N k m) _ X). rewrite upd_other by congruence.
    fold i. rewrite fadd_Fin, fmul_Fin. f_equal. unfold G. field. }
  rewrite En, xg_right_left. rewrite !(xg_left_line sym ny _ (fun k => / 2 * (G k i + G k (S i))) _ HA).
  rewrite fadd_Fin, fmul_Fin. f_equal. fold j.
  assert (Q : forall p, line sym ny (fun k => / 2 * (G k i + G k (S i))) p = / 2 * (L p i + L p (S i))).
  { intros p. apply (line_lin sym ny (/ 2) (fun k => G k i) (fun k => G k (S i))). }
  rewrite !Q. lra.
Qed.

Lemma pv_cm_value (pv g : R) : fabs (fmul (fdiv (Fin pv) (Fin 100)) (Fin (10 ^ 14))) = Fin (Rabs pv * 10 ^ 12).
Proof.
  rewrite fdiv_Fin by lra. rewrite fmul_Fin, fabs_Fin. f_equal.
  replace (pv / 100 * 10 ^ 14) with (pv * 10 ^ 12) by field. rewrite Rabs_mult. f_equal.
  apply Rabs_right. apply Rle_ge, Rlt_le, pow_lt. lra.
Qed.
