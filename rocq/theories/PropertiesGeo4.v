(** * PropertiesGeo4: C172 (a search that is only nearly exact) *)
From Coq Require Import Reals Lra Lia List String Bool Arith.
From Verif Require Import Num NumFacts Py Arr ArrFacts Util Geo SpecGeo ProofsUtil ProofsGeo ProofsGeo2 ProofsTide ProofsTide2 PropertiesGeo.
Import ListNotations.
Local Open Scope string_scope.
Local Open Scope R_scope.

(** The search returns a point that is at most [eps] radians farther than any other one (2e-13 for binary64, see C167). *)
Definition nearest_within (eps : R) (nearest : list point -> point -> nat) : Prop :=
  forall pts q, pts <> [] ->
    (nearest pts q < List.length pts)%nat /\
    forall k, (k < List.length pts)%nat -> haversine (nth (nearest pts q) pts (0, 0)) q <= haversine (nth k pts (0, 0)) q + eps.

Lemma geolocate_near {L} eps nearest (m : frame L) dl th mc r lc am dw out warned :
  nearest_within eps nearest -> geolocate_points nearest m dl th mc (Fin r) lc am dw = Ok (out, warned) ->
  exists full,
    Forall2 (fun s o => exists row p q, In row (chosen m am) /\ located mc row p /\ located lc s q /\
      o_name o = fst s /\ o_dim_vals o = fst row /\ o_model_coords o = (Fin (fst p), Fin (snd p)) /\ o_distance o = Fin (r * central_angle p q) /\
      forall row', In row' (chosen m am) -> exists p', located mc row' p' /\ central_angle p q <= central_angle p' q + eps) (frows dl) full /\
    out = match th with None => full | Some t => filter (fun o => fleb (o_distance o) t) full end.
Proof.
  intros NS. unfold geolocate_points. destruct mc as [y1 x1], lc as [y2 x2]. fold (chosen m am).
  intros H. do 2 (apply bind_inv in H; destruct H as ([] & _ & H)).
  apply bind_inv in H. destruct H as (pts & Hp & H). apply bind_inv in H. destruct H as ([] & Hne & H).
  apply bind_inv in H. destruct H as (qs & Hq & H). apply bind_inv in H. destruct H as ([] & _ & H).
  apply bind_inv in H. destruct H as (wd & Hw & H). apply bind_inv in H. destruct H as ([] & _ & H).
  apply bind_inv in H. destruct H as (out' & Ho & H). apply Ok_inj in H. injection H as <- <-.
  assert (PN : pts <> []) by (intros ->; discriminate).
  match type of Ho with mapM ?g _ = _ => set (f := g) in Ho end.
  apply mapM_F2 in Hp. apply mapM_F2 in Hq. apply mapM_F2 in Ho.
  set (found := map _ qs) in *.
  assert (K : forall x, In x found -> exists y, f x = Ok y).
  { intros x Hx. unfold found in Hx. apply in_map_iff in Hx. destruct Hx as ([s q] & <- & _). cbn [fst snd].
    destruct (NS pts q PN) as [B _]. rewrite <- (F2_length _ _ _ Hp) in B.
    unfold f. destruct (nth_error (chosen m am) (nearest pts q)) as [rw|] eqn:E; [eexists; reflexivity|].
    apply nth_error_None in E. lia. }
  destruct (F2_ex _ found K) as [full Hf]. exists full.
  assert (Hrow : forall x y, f x = Ok y -> snd (fst x) = o_distance y).
  { intros [[rr d] k] y. unfold f. destruct (nth_error _ _); [|discriminate]. intros [=]; subst. auto. }
  split.
  - unfold found in Hf. apply F2_map_l in Hf. revert Hq Hf. generalize (frows dl) as l. generalize qs as l'. generalize full as l''.
    intros l'' l' l H1. revert l''. induction H1 as [|s a l l' A H1 IH]; intros l'' H2; inversion H2 as [|? b ? l2 B B']; subst; constructor.
    + apply bind_inv in A. destruct A as (q & A & A2). apply Ok_inj in A2. subst a. cbn [fst snd] in B.
      apply radians_of_inv in A. destruct A as (la & lo & C1 & C2 & ->).
      destruct (NS pts (rad_of la, rad_of lo) PN) as [KB KM].
      set (k := nearest pts (rad_of la, rad_of lo)) in *.
      destruct (F2_nth _ _ _ Hp k KB (0, 0)) as (row & Er & Rr).
      apply radians_of_inv in Rr. destruct Rr as (la1 & lo1 & D1 & D2 & D3).
      unfold f in B. rewrite Er in B. apply Ok_inj in B. subst b.
      exists row, (la1, lo1), (la, lo). cbn [o_mod_index o_name o_distance o_dim_vals o_model_coords o_real_coords fst snd].
      split; [exact (nth_error_In _ _ Er)|]. split; [split; [exact D1|exact D2]|]. split; [split; [exact C1|exact C2]|].
      split; [reflexivity|]. split; [reflexivity|]. split; [rewrite D1, D2; reflexivity|].
      rewrite D3, fmul_Fin, (haversine_angle2 la1 lo1 la lo). split; [f_equal; ring|].
      intros row' I. apply In_nth_error in I. destruct I as [k' E'].
      assert (KL : (k' < List.length pts)%nat).
      { rewrite <- (F2_length _ _ _ Hp). apply nth_error_Some. rewrite E'. discriminate. }
      destruct (F2_nth _ _ _ Hp k' KL (0, 0)) as (row2 & E2 & R2).
      rewrite E' in E2. injection E2 as <-. apply radians_of_inv in R2. destruct R2 as (la2 & lo2 & F1 & F2 & F3).
      exists (la2, lo2). split; [split; [exact F1|exact F2]|].
      specialize (KM k' KL). rewrite D3, F3 in KM.
      rewrite (haversine_angle2 la1 lo1 la lo), (haversine_angle2 la2 lo2 la lo) in KM. exact KM.
    + apply IH. exact B'.
  - destruct th as [t|].
    + eapply F2_fun; [exact Ho|]. apply F2_filter; [exact Hf|]. intros x y E. rewrite (Hrow x y E). reflexivity.
    + eapply F2_fun; eassumption.
Qed.

(** ** C172: with a search accurate to [eps], every site is mapped to a valid grid point at most [eps] radians farther than the nearest one,
    and the reported distance is the distance of the point it is mapped to. *)
Theorem C172_near : forall (L : Type) eps nearest (m : frame L) dl th mc r lc am dw out warned,
  nearest_within eps nearest -> geolocate_points nearest m dl th mc (Fin r) lc am dw = Ok (out, warned) ->
  exists full,
    Forall2 (fun s o => exists row p q, selectable m am row /\ located mc row p /\ located lc s q /\
      o_name o = fst s /\ o_dim_vals o = fst row /\ o_model_coords o = (Fin (fst p), Fin (snd p)) /\ o_distance o = Fin (r * central_angle p q) /\
      forall row', selectable m am row' -> exists p', located mc row' p' /\ central_angle p q <= central_angle p' q + eps) (frows dl) full /\
    out = match th with None => full | Some t => filter (fun o => fleb (o_distance o) t) full end.
Proof.
  intros L eps nearest m dl th mc r lc am dw out warned NS H. destruct (geolocate_near eps nearest m dl th mc r lc am dw out warned NS H) as (full & F & E).
  exists full. split; [|exact E]. eapply F2_impl; [|exact F]. intros s o _ (row & p & q & I & A & B & C & D & G & K & M). exists row, p, q.
  split; [apply chosen_In; exact I|]. repeat (split; [assumption|]). intros row' I'. apply M, chosen_In, I'.
Qed.
Print Assumptions C172_near.

(** The nearest valid point of the site is more than [eps] nearer than every other valid point of the frame. *)
Definition clear_winner {L} (eps : R) (m : frame L) (am : bool) (mc : string * string) (q : R * R) : Prop :=
  exists pre row post p, frows m = (pre ++ row :: post)%list /\ selectable m am row /\ located mc row p /\
    forall row' p', In row' (pre ++ post)%list -> selectable m am row' -> located mc row' p' -> central_angle p q + eps < central_angle p' q.

Lemma chosen_split {L} (m : frame L) am pre row post : frows m = (pre ++ row :: post)%list -> selectable m am row ->
  exists pre' post', chosen m am = (pre' ++ row :: post')%list /\ forall x, In x (pre' ++ post')%list -> In x (pre ++ post)%list.
Proof.
  intros E S0. unfold chosen. apply chosen_In in S0. unfold chosen in S0. destruct (am && smem "mask" (fcols m)).
  - apply filter_In in S0 as [_ S0]. exists (filter (fun r => feqb (colv "mask" r) (Fin 1)) pre), (filter (fun r => feqb (colv "mask" r) (Fin 1)) post).
    rewrite E, filter_app. cbn [filter]. rewrite S0. split; [reflexivity|]. intros x I. apply in_app_iff in I as [I|I]; apply filter_In in I as [I _]; apply in_or_app; auto.
  - exists pre, post. split; [exact E|auto].
Qed.
(** Then the result does not depend on the search: it is that of an exact one. *)
Theorem C172_exact : forall (L : Type) eps n1 n2 (m : frame L) dl th mc r lc am dw,
  0 <= eps -> nearest_within eps n1 -> nearest_within eps n2 ->
  (forall s q, In s (frows dl) -> located lc s q -> clear_winner eps m am mc q) ->
  geolocate_points n1 m dl th mc r lc am dw = geolocate_points n2 m dl th mc r lc am dw.
Proof.
  intros L eps n1 n2 m dl th mc r lc am dw He N1 N2 W. unfold geolocate_points. destruct mc as [y1 x1], lc as [y2 x2]. fold (chosen m am).
  destruct (need_cols [x1; y1] _) as [[]|]; [|reflexivity]. destruct (need_cols [x2; y2] _) as [[]|]; [|reflexivity]. cbn [bind].
  destruct (mapM (fun r0 => radians_of (colv y1 r0) (colv x1 r0)) (chosen m am)) as [pts|] eqn:Hp; [|reflexivity]. cbn [bind].
  destruct (nonempty pts) as [[]|] eqn:Hn; [|reflexivity]. cbn [bind].
  destruct (mapM _ (frows dl)) as [qs|] eqn:Hq; [|reflexivity]. cbn [bind].
  assert (PN : pts <> []) by (intros ->; discriminate Hn).
  apply mapM_F2 in Hp. apply mapM_F2 in Hq.
  assert (Same : forall rq, In rq qs -> n1 pts (snd rq) = n2 pts (snd rq)).
  { intros rq I.
    assert (J : exists s, In s (frows dl) /\ (let* q := radians_of (colv y2 s) (colv x2 s) in Ok (s, q)) = Ok rq).
    { clear -Hq I. induction Hq as [|s o' l l' E Hf IH]; [destruct I|]. destruct I as [-> | I]; [exists s; split; [left; reflexivity|exact E]|]. destruct (IH I) as (s' & I' & E'). exists s'. split; [right; exact I'|exact E']. }
    destruct J as (s & Is & E). apply bind_inv in E as (q0 & E & E'). apply Ok_inj in E'. subst rq. cbn [snd].
    apply radians_of_inv in E as (la & lo & C1 & C2 & ->).
    destruct (W s (la, lo) Is (conj C1 C2)) as (pre & row & post & p & Ef & Sel & Lp & Far).
    destruct (chosen_split m am pre row post Ef Sel) as (pre' & post' & Ec & Sub).
    set (k := List.length pre'). assert (Ek : nth_error (chosen m am) k = Some row) by (rewrite Ec, nth_error_app2, Nat.sub_diag by (unfold k; lia); reflexivity).
    assert (Len := F2_length _ _ _ Hp).
    assert (Kl : (k < List.length pts)%nat) by (rewrite <- Len; apply nth_error_Some; rewrite Ek; discriminate).
    assert (Only : forall n, nearest_within eps n -> n pts (rad_of la, rad_of lo) = k).
    { intros n N. destruct (N pts (rad_of la, rad_of lo) PN) as [KB KM]. set (j := n pts (rad_of la, rad_of lo)) in *.
      destruct (Nat.eq_dec j k) as [->|Hj]; [reflexivity|]. exfalso. specialize (KM k Kl).
      destruct (F2_nth _ _ _ Hp k Kl (0, 0)) as (row1 & E1 & R1). rewrite Ek in E1. injection E1 as <-. apply radians_of_inv in R1 as (la1 & lo1 & A1 & A2 & A3).
      destruct (F2_nth _ _ _ Hp j KB (0, 0)) as (row2 & E2 & R2). apply radians_of_inv in R2 as (la2 & lo2 & B1 & B2 & B3).
      assert (p = (la1, lo1)). { destruct Lp as [L1 L2], p as [u v]. cbn [fst snd] in *. rewrite A1 in L1. rewrite A2 in L2. injection L1 as ->. injection L2 as ->. reflexivity. } subst p.
      assert (I2 : In row2 (pre' ++ post')%list).
      { rewrite Ec in E2. apply in_or_app. destruct (Nat.lt_ge_cases j k) as [H|H].
        - rewrite nth_error_app1 in E2 by exact H. left. exact (nth_error_In _ _ E2).
        - rewrite nth_error_app2 in E2 by exact H. fold k in E2. destruct (j - k)%nat as [|i] eqn:D; [lia|]. right. cbn [nth_error] in E2. exact (nth_error_In _ _ E2). }
      assert (S2 : selectable m am row2) by (apply chosen_In; rewrite Ec; apply in_app_iff in I2 as [I2|I2]; apply in_or_app; [left; exact I2|right; right; exact I2]).
      assert (F := Far row2 (la2, lo2) (Sub _ I2) S2 (conj B1 B2)).
      rewrite A3, B3, (haversine_angle2 la1 lo1 la lo), (haversine_angle2 la2 lo2 la lo) in KM. lra. }
    rewrite (Only n1 N1), (Only n2 N2). reflexivity. }
  assert (E : map (fun rq : (string * dict fval) * point => (fst rq, fmul (Fin (haversine (nth (n1 pts (snd rq)) pts (0, 0)) (snd rq))) r, n1 pts (snd rq))) qs =
    map (fun rq => (fst rq, fmul (Fin (haversine (nth (n2 pts (snd rq)) pts (0, 0)) (snd rq))) r, n2 pts (snd rq))) qs).
  { apply map_ext_in. intros rq I. rewrite (Same rq I). reflexivity. }
  destruct (nonempty qs) as [[]|]; [|reflexivity]. cbn [bind]. cbv zeta. rewrite E. reflexivity.
Qed.
Print Assumptions C172_exact.

(** An exact search is accurate to any tolerance. *)
Theorem C172_relaxed : forall eps nearest, 0 <= eps -> nearest_spec nearest -> nearest_within eps nearest.
Proof. intros eps nearest He NS pts q PN. destruct (NS pts q PN) as [A B]. split; [exact A|]. intros k Hk. specialize (B k Hk). lra. Qed.
Print Assumptions C172_relaxed.

(** Two valid points a quarter of the circumference apart and a masked one at the site. *)
Definition three_points : frame nat :=
  mkFrame ["geolon"; "geolat"; "mask"]
    [(3%nat, [("geolon", Fin 90); ("geolat", Fin 0); ("mask", Fin 1)]); (4%nat, [("geolon", Fin 0); ("geolat", Fin 0); ("mask", Fin 0)]);
     (5%nat, [("geolon", Fin 0); ("geolat", Fin 0); ("mask", Fin 1)])].
Lemma quarter : central_angle (0, 90) (0, 0) = PI / 2.
Proof.
  unfold central_angle, dot, uvec, rad_of. cbn [fst snd]. replace (90 * (PI / 180)) with (PI / 2) by field. rewrite !Rmult_0_l, cos_0, sin_0, cos_PI2, sin_PI2.
  replace (1 * 0 * (1 * 1) + 1 * 1 * (1 * 0) + 0 * 0) with 0 by ring. exact acos_0.
Qed.
Example C172_case : (forall q, located ("lat", "lon") ("SITE", [("lat", Fin 0); ("lon", Fin 0)]) q -> clear_winner 2e-13 three_points true ("geolat", "geolon") q) /\
  nearest_within 2e-13 scan /\
  exists out, geolocate_points scan three_points (one_site 0 0) None ("geolat", "geolon") (Fin 6378) ("lat", "lon") true true = Ok out.
Proof.
  split; [|split].
  - intros q [Q1 Q2]. destruct q as [u v]. cbn in Q1, Q2. injection Q1 as <-. injection Q2 as <-.
    eexists [_; _], _, [], (0, 0). split; [reflexivity|]. split; [split; [cbn; tauto|reflexivity]|]. split; [split; reflexivity|].
    rewrite (proj2 (central_angle_zero (0, 0) (0, 0)) eq_refl).
    intros row' p' [<-|[<-|[]]] [_ Sel] [L1 L2].
    + destruct p' as [u v]. cbn in L1, L2. injection L1 as <-. injection L2 as <-. rewrite quarter. pose proof PI2_1. lra.
    + exfalso. specialize (Sel eq_refl ltac:(cbn; tauto)). cbn in Sel. injection Sel as Sel. lra.
  - apply C172_relaxed; [lra|exact scan_spec].
  - destruct (C50_total nat scan three_points (one_site 0 0) None ("geolat", "geolon") 6378 ("lat", "lon") true true scan_spec) as (out & w & E); try (cbn; tauto); try discriminate.
    + exists (5%nat, [("geolon", Fin 0); ("geolat", Fin 0); ("mask", Fin 1)]). split; [cbn; tauto|reflexivity].
    + intros row [[<-|[<-|[<-|[]]]] _]; eexists (_, _); split; reflexivity.
    + intros s [<-|[]]. eexists (_, _). split; reflexivity.
    + exists (out, w). exact E.
Qed.
