(** * ProofsGeo2: geolocate_points *)
From Coq Require Import Reals Lra Lia List String Bool Arith.
From Verif Require Import Num NumFacts Py Arr ArrFacts Util Geo SpecGeo ProofsFields ProofsUtil ProofsGeo.
Import ListNotations.
Local Open Scope R_scope.

Lemma mapM_F2 {A B} (f : A -> res B) : forall l ys, mapM f l = Ok ys <-> Forall2 (fun x y => f x = Ok y) l ys.
Proof.
  induction l as [|x l IH]; intros ys; cbn [mapM].
  - split; [intros [=]; subst; constructor|intros H; inversion H; reflexivity].
  - split.
    + intros H. apply bind_inv in H. destruct H as (y & E & H). apply bind_inv in H. destruct H as (ys' & E' & H).
      apply Ok_inj in H. subst ys. constructor; [exact E|apply IH; exact E'].
    + intros H. inversion H as [|? y ? ys' E E']; subst. rewrite E. cbn [bind]. apply IH in E'. rewrite E'. reflexivity.
Qed.
Lemma F2_ex {A B} (P : A -> B -> Prop) l : (forall x, In x l -> exists y, P x y) -> exists ys, Forall2 P l ys.
Proof.
  induction l as [|x l IH]; intros H; [exists []; constructor|].
  destruct (H x (or_introl eq_refl)) as [y Hy]. destruct IH as [ys Hys]; [intros z Hz; apply H; right; exact Hz|].
  exists (y :: ys). constructor; assumption.
Qed.
Lemma F2_filter {A B} (P : A -> B -> Prop) (a : A -> bool) (b : B -> bool) l ys :
  Forall2 P l ys -> (forall x y, P x y -> a x = b y) -> Forall2 P (filter a l) (filter b ys).
Proof.
  intros H E. induction H as [|x y l ys Hxy H IH]; [constructor|]. cbn [filter]. rewrite (E x y Hxy).
  destruct (b y); [constructor; assumption|exact IH].
Qed.
Lemma F2_fun {A B} (f : A -> res B) l ys ys' :
  Forall2 (fun x y => f x = Ok y) l ys -> Forall2 (fun x y => f x = Ok y) l ys' -> ys = ys'.
Proof. intros H H'. apply mapM_F2 in H. apply mapM_F2 in H'. congruence. Qed.
Lemma F2_map_l {A B C} (f : A -> C) (P : C -> B -> Prop) l ys :
  Forall2 P (map f l) ys <-> Forall2 (fun x y => P (f x) y) l ys.
Proof.
  revert ys. induction l as [|x l IH]; intros ys; cbn [map].
  - split; intros H; inversion H; constructor.
  - split; intros H; inversion H; subst; constructor; auto; apply IH; assumption.
Qed.
Lemma F2_In_l {A B} (P : A -> B -> Prop) l ys x : Forall2 P l ys -> In x l -> exists y, In y ys /\ P x y.
Proof.
  induction 1 as [|a b l ys H H2 IH]; intros I; [destruct I|]. destruct I as [-> | I].
  - exists b. split; [left; reflexivity|exact H].
  - destruct (IH I) as (y & J & E). exists y. split; [right; exact J|exact E].
Qed.
Lemma F2_nth {A B} (P : A -> B -> Prop) l ys : Forall2 P l ys -> forall k, (k < List.length ys)%nat ->
  forall d, exists x, nth_error l k = Some x /\ P x (nth k ys d).
Proof.
  induction 1 as [|a b l ys H H2 IH]; intros k Hk d; [cbn in Hk; lia|]. destruct k as [|k].
  - exists a. split; [reflexivity|exact H].
  - cbn in Hk. apply IH. lia.
Qed.
Lemma F2_length {A B} (P : A -> B -> Prop) l ys : Forall2 P l ys -> List.length l = List.length ys.
Proof. induction 1; cbn; congruence. Qed.
Lemma F2_impl {A B} (P Q : A -> B -> Prop) l ys : (forall x y, In x l -> P x y -> Q x y) -> Forall2 P l ys -> Forall2 Q l ys.
Proof.
  intros I H. induction H as [|a b l ys H H2 IH]; constructor; [apply I; [left; reflexivity|exact H]|].
  apply IH. intros x y J. apply I. right. exact J.
Qed.

(** ** Selection of rows *)
Definition chosen {L} (m : frame L) (am : bool) : list (L * dict fval) :=
  if am && smem "mask" (fcols m) then filter (fun r => feqb (colv "mask" r) (Fin 1)) (frows m) else frows m.

Lemma feqb_Fin v x : feqb v (Fin x) = true <-> v = Fin x.
Proof.
  destruct v as [|s|y]; cbn; split; try discriminate; intros H.
  - apply Reqb_true in H. subst; reflexivity.
  - injection H as ->. apply Reqb_refl.
Qed.
Lemma smem_In x l : smem x l = true <-> In x l.
Proof.
  unfold smem. rewrite existsb_exists. split.
  - intros (y & I & E). apply String.eqb_eq in E. subst. exact I.
  - intros I. exists x. split; [exact I|apply String.eqb_refl].
Qed.
Lemma chosen_In {L} (m : frame L) am r : In r (chosen m am) <-> selectable m am r.
Proof.
  unfold chosen, selectable. destruct am; cbn [andb].
  - destruct (smem "mask" (fcols m)) eqn:E.
    + rewrite filter_In, feqb_Fin. apply smem_In in E. tauto.
    + split; [|tauto]. intros I. split; [exact I|]. intros _ J. apply smem_In in J. congruence.
  - split; [|tauto]. intros I. split; [exact I|discriminate].
Qed.

Lemma radians_of_inv y x p : radians_of y x = Ok p ->
  exists la lo, y = Fin la /\ x = Fin lo /\ p = (rad_of la, rad_of lo).
Proof.
  unfold radians_of, deg2rad. destruct (fmul y _) as [| |a] eqn:E; try discriminate.
  destruct (fmul x _) as [| |b] eqn:E'; try discriminate. intros [=]; subst.
  apply fmul_fin_inv in E. apply fmul_fin_inv in E'.
  destruct E as (u & v & -> & Ev & ->). destruct E' as (u' & v' & -> & Ev' & ->).
  injection Ev as <-. injection Ev' as <-. exists u, u'. auto.
Qed.
Lemma radians_of_ok la lo : radians_of (Fin la) (Fin lo) = Ok (rad_of la, rad_of lo).
Proof. unfold radians_of, deg2rad. rewrite !fmul_Fin. reflexivity. Qed.

Lemma haversine_angle2 la lo la' lo' :
  haversine (rad_of la, rad_of lo) (rad_of la', rad_of lo') = central_angle (la, lo) (la', lo').
Proof. exact (haversine_angle (la, lo) (la', lo')). Qed.

(** A located site [o] for the row [s] of the sites. *)
Definition site_ok {L} (m : frame L) (am : bool) (mc lc : string * string) (r : R) (s : string * dict fval) (o : orow L) : Prop :=
  exists row p q,
    nth_error (chosen m am) (o_mod_index o) = Some row /\
    located mc row p /\ located lc s q /\
    o_name o = fst s /\
    o_distance o = Fin (r * central_angle p q) /\
    o_dim_vals o = fst row /\
    o_model_coords o = (Fin (fst p), Fin (snd p)) /\
    o_real_coords o = (colv "lat" s, colv "lon" s) /\
    forall row', In row' (chosen m am) -> exists p', located mc row' p' /\ central_angle p q <= central_angle p' q.

Lemma geolocate_inv {L} nearest (m : frame L) dl th mc r lc am dw out warned :
  nearest_spec nearest ->
  geolocate_points nearest m dl th mc (Fin r) lc am dw = Ok (out, warned) ->
  exists full,
    Forall2 (site_ok m am mc lc r) (frows dl) full /\
    out = match th with None => full | Some t => filter (fun o => fleb (o_distance o) t) full end /\
    warned = if dw then [] else match th with
                                | None => []
                                | Some t => map o_name (filter (fun o => fleb t (o_distance o)) full)
                                end.
Proof.
  intros NS. unfold geolocate_points. destruct mc as [y1 x1], lc as [y2 x2]. fold (chosen m am).
  intros H. do 2 (apply bind_inv in H; destruct H as ([] & _ & H)).
  apply bind_inv in H. destruct H as (pts & Hp & H). apply bind_inv in H. destruct H as ([] & Hne & H).
  apply bind_inv in H. destruct H as (qs & Hq & H). apply bind_inv in H. destruct H as ([] & _ & H).
  apply bind_inv in H. destruct H as (wd & Hw & H). apply bind_inv in H. destruct H as ([] & _ & H).
  apply bind_inv in H. destruct H as (out' & Ho & H). apply Ok_inj in H. injection H as <- <-.
  assert (PN : pts <> []) by (intros ->; discriminate).
  match type of Ho with mapM ?g _ = _ => set (f := g) in Ho end.
  apply mapM_F2 in Hp. apply mapM_F2 in Hq. apply mapM_F2 in Ho.
  set (found := map _ qs) in *.
  assert (K : forall x, In x found -> exists y, f x = Ok y).
  { intros x Hx. unfold found in Hx. apply in_map_iff in Hx. destruct Hx as ([s q] & <- & _). cbn [fst snd].
    destruct (NS pts q PN) as [B _]. rewrite <- (F2_length _ _ _ Hp) in B.
    unfold f. destruct (nth_error (chosen m am) (nearest pts q)) as [rw|] eqn:E; [eexists; reflexivity|].
    apply nth_error_None in E. lia. }
  destruct (F2_ex _ found K) as [full Hf]. exists full.
  assert (Hrow : forall x y, f x = Ok y -> snd (fst x) = o_distance y /\ fst (fst (fst x)) = o_name y).
  { intros [[rr d] k] y. unfold f. destruct (nth_error _ _); [|discriminate]. intros [=]; subst. auto. }
  split; [|split].
  - unfold found in Hf. apply F2_map_l in Hf.
    assert (T : forall l l' l'', Forall2 (fun x y => (let* q := radians_of (colv y2 x) (colv x2 x) in Ok (x, q)) = Ok y) l l' ->
              Forall2 (fun x y => f (fst x, fmul (Fin (haversine (nth (nearest pts (snd x)) pts (0, 0)) (snd x))) (Fin r), nearest pts (snd x)) = Ok y) l' l'' ->
              Forall2 (site_ok m am (y1, x1) (y2, x2) r) l l''); [|exact (T _ _ _ Hq Hf)].
    induction l as [|s l IH]; intros l' l'' H1 H2; inversion H1 as [|? a ? l1 A A']; subst; inversion H2 as [|? b ? l2 B B']; subst; constructor.
    + apply bind_inv in A. destruct A as (q & A & A2). apply Ok_inj in A2. subst a. cbn [fst snd] in B.
      apply radians_of_inv in A. destruct A as (la & lo & C1 & C2 & ->).
      destruct (NS pts (rad_of la, rad_of lo) PN) as [KB KM].
      set (k := nearest pts (rad_of la, rad_of lo)) in *.
      destruct (F2_nth _ _ _ Hp k KB (0, 0)) as (row & Er & Rr).
      apply radians_of_inv in Rr. destruct Rr as (la1 & lo1 & D1 & D2 & D3).
      unfold f in B. rewrite Er in B. apply Ok_inj in B. subst b.
      exists row, (la1, lo1), (la, lo). cbn [o_mod_index o_name o_distance o_dim_vals o_model_coords o_real_coords fst snd].
      split; [exact Er|]. split; [split; [exact D1|exact D2]|]. split; [split; [exact C1|exact C2]|].
      split; [reflexivity|]. rewrite D3, fmul_Fin.
      rewrite (haversine_angle2 la1 lo1 la lo).
      split; [f_equal; ring|]. split; [reflexivity|]. split; [rewrite D1, D2; reflexivity|]. split; [reflexivity|].
      intros row' I. apply In_nth_error in I. destruct I as [k' E'].
      assert (KL : (k' < List.length pts)%nat).
      { rewrite <- (F2_length _ _ _ Hp). apply nth_error_Some. rewrite E'. discriminate. }
      destruct (F2_nth _ _ _ Hp k' KL (0, 0)) as (row2 & E2 & R2).
      rewrite E' in E2. injection E2 as <-. apply radians_of_inv in R2. destruct R2 as (la2 & lo2 & F1 & F2 & F3).
      exists (la2, lo2). split; [split; [exact F1|exact F2]|].
      specialize (KM k' KL). rewrite D3, F3 in KM.
      rewrite (haversine_angle2 la1 lo1 la lo), (haversine_angle2 la2 lo2 la lo) in KM. exact KM.
    + eapply IH; eassumption.
  - destruct th as [t|].
    + eapply F2_fun; [exact Ho|]. apply F2_filter; [exact Hf|]. intros x y E. destruct (Hrow x y E) as [-> _]. reflexivity.
    + eapply F2_fun; eassumption.
  - destruct dw; [injection Hw as <-; reflexivity|]. destruct th as [t|]; [|discriminate]. apply Ok_inj in Hw. subst wd.
    assert (FF : Forall2 (fun x y => f x = Ok y) (filter (fun x => fleb t (snd (fst x))) found) (filter (fun o => fleb t (o_distance o)) full)).
    { apply F2_filter; [exact Hf|]. intros x y E. destruct (Hrow x y E) as [-> _]. reflexivity. }
    induction FF as [|x y l l' E FF IH]; [reflexivity|]. cbn [map]. rewrite IH. destruct (Hrow x y E) as [_ ->]. reflexivity.
Qed.

Lemma geolocate_ok {L} nearest (m : frame L) dl th mc r lc am dw :
  nearest_spec nearest ->
  In (fst mc) (fcols m) -> In (snd mc) (fcols m) ->
  In (fst lc) (fcols dl) -> In (snd lc) (fcols dl) -> In "lat"%string (fcols dl) -> In "lon"%string (fcols dl) ->
  (exists row, selectable m am row) -> (forall row, selectable m am row -> exists p, located mc row p) ->
  frows dl <> [] -> (forall s, In s (frows dl) -> exists q, located lc s q) ->
  (dw = false -> th <> None) ->
  exists out warned, geolocate_points nearest m dl th mc (Fin r) lc am dw = Ok (out, warned).
Proof.
  intros NS M1 M2 L1 L2 L3 L4 Hs Hm Hn Hl Hw. unfold geolocate_points. destruct mc as [y1 x1], lc as [y2 x2]. cbn [fst snd] in *.
  fold (chosen m am). unfold need_cols. cbn [forallb].
  apply smem_In in M1, M2, L1, L2, L3, L4. rewrite M1, M2, L1, L2, L3, L4. cbn [andb bind].
  destruct (F2_ex (fun r y => radians_of (colv y1 r) (colv x1 r) = Ok y) (chosen m am)) as [pts Hp].
  { intros row I. apply chosen_In in I. destruct (Hm row I) as [p [P1 P2]]. cbn [fst snd] in *. rewrite P1, P2.
    eexists. apply radians_of_ok. }
  pose proof Hp as Hp'. apply mapM_F2 in Hp'. rewrite Hp'. cbn [bind].
  assert (PN : pts <> []).
  { intros ->. apply F2_length in Hp. destruct Hs as [row I]. apply chosen_In in I. destruct (chosen m am); [destruct I|discriminate]. }
  destruct pts as [|p0 pts']; [contradiction|]. cbn [nonempty bind]. set (pts := p0 :: pts') in *.
  destruct (F2_ex (fun r y => (let* q := radians_of (colv y2 r) (colv x2 r) in Ok (r, q)) = Ok y) (frows dl)) as [qs Hq].
  { intros s I. destruct (Hl s I) as [q [Q1 Q2]]. cbn [fst snd] in *. rewrite Q1, Q2, radians_of_ok. eexists. reflexivity. }
  pose proof Hq as Hq'. apply mapM_F2 in Hq'. rewrite Hq'. cbn [bind].
  destruct qs as [|q0 qs'].
  { apply F2_length in Hq. destruct (frows dl); [contradiction|discriminate]. }
  cbn [nonempty bind]. set (qs := q0 :: qs') in *. set (found := map _ qs).
  match goal with |- context [mapM ?g _] => set (f := g) end.
  assert (K : forall x, In x found -> exists y, f x = Ok y).
  { intros x Hx. unfold found in Hx. apply in_map_iff in Hx. destruct Hx as ([s q] & <- & _). cbn [fst snd].
    destruct (NS pts q PN) as [B _]. rewrite <- (F2_length _ _ _ Hp) in B.
    unfold f. destruct (nth_error (chosen m am) (nearest pts q)) as [rw|] eqn:E; [eexists; reflexivity|].
    apply nth_error_None in E. lia. }
  assert (W : exists wd, (if dw then Ok [] else match th with
                      | None => Err TypeError
                      | Some t => Ok (map (fun x => fst (fst (fst x))) (filter (fun x => fleb t (snd (fst x))) found))
                      end) = Ok wd).
  { destruct dw; [eexists; reflexivity|]. destruct th; [eexists; reflexivity|]. exfalso. apply Hw; reflexivity. }
  destruct W as [wd ->]. cbn [bind].
  set (kept := match th with None => found | Some t => filter _ found end).
  destruct (F2_ex (fun x y => f x = Ok y) kept) as [out Hout].
  { intros x I. apply K. unfold kept in I. destruct th; [apply filter_In in I; tauto|exact I]. }
  apply mapM_F2 in Hout. rewrite Hout. cbn [bind]. eexists; eexists; reflexivity.
Qed.

(** ** A nearest-neighbour search by linear scan meets the contract. *)
Fixpoint scan_from (pts : list point) (q : point) (k best : nat) (d : R) : nat :=
  match pts with
  | [] => best
  | p :: pts' => if Rltb (haversine p q) d then scan_from pts' q (S k) k (haversine p q) else scan_from pts' q (S k) best d
  end.
Definition scan (pts : list point) (q : point) : nat :=
  match pts with [] => O | p :: pts' => scan_from pts' q 1 0 (haversine p q) end.

Lemma scan_from_ok q all : forall pts k best d, 
  (forall i, nth (k + i) all (0,0) = nth i pts (0,0)) -> List.length all = (k + List.length pts)%nat ->
  (best < k)%nat -> d = haversine (nth best all (0,0)) q ->
  (forall i, (i < k)%nat -> d <= haversine (nth i all (0,0)) q) ->
  let b := scan_from pts q k best d in
  (b < List.length all)%nat /\ forall i, (i < List.length all)%nat -> haversine (nth b all (0,0)) q <= haversine (nth i all (0,0)) q.
Proof.
  induction pts as [|p pts IH]; intros k best d N Ln B D M; cbn [scan_from].
  - cbn in Ln. split; [lia|]. intros i Hi. rewrite <- D. apply M. lia.
  - assert (P : nth k all (0,0) = p) by (specialize (N O); rewrite Nat.add_0_r in N; exact N).
    cbn [List.length] in Ln.
    assert (N' : forall i, nth (S k + i) all (0,0) = nth i pts (0,0)).
    { intros i. specialize (N (S i)). cbn [nth] in N. rewrite <- N. f_equal. lia. }
    destruct (Rltb (haversine p q) d) eqn:E.
    + apply Rltb_true in E. apply IH; [exact N'|lia|lia|rewrite P; reflexivity|].
      intros i Hi. destruct (Nat.eq_dec i k) as [-> | Ne]; [rewrite P; lra|]. specialize (M i ltac:(lia)). lra.
    + apply Rltb_false in E. apply IH; [exact N'|lia|lia|exact D|].
      intros i Hi. destruct (Nat.eq_dec i k) as [-> | Ne]; [rewrite P; exact E|]. apply M. lia.
Qed.
Lemma scan_spec : nearest_spec scan.
Proof.
  intros [|p pts] q H; [contradiction|]. apply (scan_from_ok q (p :: pts) pts 1 0).
  - reflexivity.
  - reflexivity.
  - lia.
  - reflexivity.
  - intros i Hi. assert (i = O) by lia. subst. cbn. lra.
Qed.
