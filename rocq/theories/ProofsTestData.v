(** * ProofsTestData: generated areas and datasets *)
From Coq Require Import Reals Lra Lia List String Bool Arith ZArith.
From Verif Require Import Num NumFacts Py Arr ArrFacts Eos SpecEos Derived SpecDz Dataset SpecSteric
  ProofsEos ProofsEosApi ProofsFields ProofsDz ProofsSteric ProofsSteric3 ProofsSteric5 ProofsStericOk ProofsStericDemo Calendar TestData.
Import ListNotations.
Local Open Scope string_scope.
Local Open Scope R_scope.

(** Sum of the random field. *)
Definition field_sum (f : nat -> nat -> R) : R := Rsum 5 (fun j => Rsum 5 (fun i => f j i)).
Definition scaled_area (dy dx : string) (f : nat -> nat -> R) : arr :=
  field5 dy dx (fun j i => f j i / field_sum f * 361110920000000).

Section Area.
  Variables (dy dx : string) (f : nat -> nat -> R).
  Hypothesis Hd : dy <> dx.

  Lemma field5_nodup g : NoDup (names (field5 dy dx g)).
  Proof. unfold names. cbn. constructor; [intros [H|[]]; auto | constructor; [intros []|constructor]]. Qed.

  Lemma field5_box g e : Rsum_box (adims (field5 dy dx g)) (fun e' => val (at_ (field5 dy dx g) e')) e = field_sum g.
  Proof.
    cbn [adims field5 Rsum_box at_ val]. unfold field_sum. apply Rsum_ext. intros j Hj. apply Rsum_ext. intros i Hi.
    rewrite upd_other by (intros E; apply Hd; auto). rewrite !upd_same. reflexivity.
  Qed.

  Lemma field5_sum g e : at_ (asum_all (field5 dy dx g)) e = Fin (field_sum g).
  Proof.
    rewrite asum_all_Fin by (apply field5_nodup || (intros e' s; discriminate)). f_equal. apply field5_box.
  Qed.

  Lemma normalised_ok : field_sum f <> 0 ->
    exists a, normalised_area dy dx f = Ok a /\ adims a = [(dy, 5%nat); (dx, 5%nat)] /\
      (forall e, at_ a e = Fin (f (e dy) (e dx) / field_sum f * 361110920000000)) /\
      (forall e, at_ (asum_all a) e = Fin 361110920000000) /\
      validate_areacello a ocean_area area_tolerance = true.
  Proof.
    intros Hs. unfold normalised_area.
    assert (D0 : adims (asum_all (field5 dy dx f)) = []) by (apply asum_all_dims, field5_nodup).
    assert (E : exists a, adiv (field5 dy dx f) (asum_all (field5 dy dx f)) = Ok a /\ adims a = [(dy, 5%nat); (dx, 5%nat)] /\
                 forall e, at_ a e = Fin (f (e dy) (e dx) / field_sum f)).
    { unfold adiv, amap2. rewrite D0. cbn [compatible forallb adims field5 union_dims].
      eexists. split; [reflexivity|]. split; [reflexivity|]. intros e. cbn [at_]. rewrite field5_sum. apply fdiv_Fin, Hs. }
    destruct E as (r & -> & Dr & Vr). cbn [bind]. eexists. split; [reflexivity|].
    split; [exact Dr|]. assert (V : forall e, at_ (amap (fun v => fmul v (Fin 361110920000000)) r) e
                                   = Fin (f (e dy) (e dx) / field_sum f * 361110920000000)).
    { intros e. cbn [at_ amap]. rewrite Vr. reflexivity. }
    split; [exact V|].
    set (a := amap _ r) in *. assert (Da : adims a = [(dy, 5%nat); (dx, 5%nat)]) by exact Dr.
    assert (Na : NoDup (names a)) by (unfold names; rewrite Da; apply (field5_nodup (fun _ _ => 0))).
    assert (Ia : no_inf a) by (intros e s H; rewrite V in H; discriminate).
    assert (T : forall e, Rsum_box (adims a) (fun e' => val (at_ a e')) e = 361110920000000).
    { intros e. rewrite (Rsum_box_ext _ _ (fun e' => 361110920000000 / field_sum f * val (at_ (field5 dy dx f) e'))).
      - rewrite Rsum_box_scal, Da. change [(dy, 5%nat); (dx, 5%nat)] with (adims (field5 dy dx f)). rewrite field5_box. field. exact Hs.
      - intros e'. rewrite V. cbn [val at_ field5]. field. exact Hs. }
    split.
    - intros e. rewrite asum_all_Fin by assumption. f_equal. apply T.
    - apply area_interval; [lra|assumption|assumption|]. unfold area_in_range, total_area.
      rewrite (Rsum_box_ext (adims a) (fun e' => odef (opt (at_ a e'))) (fun e' => val (at_ a e'))) by (intros; apply opt_val).
      rewrite T. lra.
  Qed.

  (** A field summing to zero gives a field of missing values or infinities, never accepted. *)
  Lemma normalised_zero : field_sum f = 0 ->
    exists a, normalised_area dy dx f = Ok a /\ forall e, is_fin (at_ a e) = false.
  Proof.
    intros Hs. unfold normalised_area.
    assert (D0 : adims (asum_all (field5 dy dx f)) = []) by (apply asum_all_dims, field5_nodup).
    unfold adiv, amap2. rewrite D0. cbn [compatible forallb adims field5 union_dims].
    cbn [bind].
    eexists. split; [reflexivity|]. intros e. cbn [at_ amap]. rewrite field5_sum, Hs. cbn [field5 at_].
    unfold fdiv. rewrite Reqb_refl. destruct (Reqb (f (e dy) (e dx)) 0); [reflexivity|]. cbn.
    destruct (Reqb _ 0) eqn:Q; [apply Reqb_true in Q; lra|]. reflexivity.
  Qed.
End Area.

Lemma nth_nonneg n l : Forall (fun x => 0 <= x) l -> 0 <= nth n l 0.
Proof. intros H. revert n. induction H as [|x l Hx _ IH]; intros [|n]; cbn [nth]; auto; lra. Qed.

Definition h_area (f : nat -> nat -> R) : res arr := normalised_area "yh" "xh" f.

Lemma generated_regular nt f g T S0 V : field_sum f <> 0 -> (forall j i, 0 <= g j i) ->
  exists ds a, generate_test_data nt f g T S0 V = Ok ds /\ h_area f = Ok a /\
    regular ds "time" "z_l" "yh" "xh" "z_i" "z_i" nt 5 5 5 (field4 nt T) (field4 nt S0) (field4 nt V) a
      (deptho_field g) (vec "z_l" z_centres) (vec "z_i" z_interfaces).
Proof.
  intros Hs Hg. destruct (normalised_ok "yh" "xh" f ltac:(discriminate) Hs) as (a & E & D & _ & _ & _).
  eexists _, a. split; [|split; [exact E|]].
  - unfold generate_test_data, xy_fields. cbn [dlookup point_dict dget String.eqb Ascii.eqb Bool.eqb bind]. rewrite E. cbn [bind].
    unfold zlevel_fields. reflexivity.
  - constructor; try reflexivity; try lia.
    + nodup.
    + exact D.
    + apply wf_of; [nodup|]. intros e e' H. rewrite !(H "yh"), !(H "xh") by (cbn; tauto). reflexivity.
    + apply wf_of; [nodup|]. intros e e' H. rewrite !(H "z_l") by (cbn; tauto). reflexivity.
    + apply wf_of; [nodup|]. intros e e' H. rewrite !(H "z_i") by (cbn; tauto). reflexivity.
    + intros e _ [H|(x & H & Hx)]; [discriminate|]. 
      assert (X : x = g (e "yh") (e "xh") * nth (S (e "yh")) z_interfaces 0) by (cbn [deptho_field field5 at_] in H; congruence).
      assert (P : 0 <= nth (S (e "yh")) z_interfaces 0).
      { apply nth_nonneg. unfold z_interfaces. repeat constructor; lra. }
      pose proof (Rmult_le_pos _ _ (Hg (e "yh") (e "xh")) P). lra.
    + intros e _. split; [|discriminate]. intros [H|(x & H & Hx)]; [discriminate|]. 
      assert (X : x = nth (e "z_l") z_centres 0) by (cbn [vec at_] in H; congruence).
      assert (P : 0 <= nth (e "z_l") z_centres 0) by (apply nth_nonneg; unfold z_centres; repeat constructor; lra). lra.
    + intros e _. split; [|discriminate]. intros [H|(x & H & Hx)]; [discriminate|]. 
      assert (X : x = nth (e "z_i") z_interfaces 0) by (cbn [vec at_] in H; congruence).
      assert (P : 0 <= nth (e "z_i") z_interfaces 0) by (apply nth_nonneg; unfold z_interfaces; repeat constructor; lra). lra.
Qed.
