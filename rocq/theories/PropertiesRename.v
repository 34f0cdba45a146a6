(** * PropertiesRename: the varname_map argument of steric (C97) *)
From Coq Require Import Reals Lra List String Bool Arith ZArith FunctionalExtensionality.
From Verif Require Import Num Py Arr ArrFacts Eos Derived Dataset Calendar TimeAvg SpecRename ProofsStericDemo.
Import ListNotations.
Local Open Scope string_scope.

Lemma dget_in {A} k (d : dict A) v : dget k d = Some v -> In (k, v) d.
Proof.
  induction d as [|[k' v'] d IH]; [discriminate|]. cbn. destruct (String.eqb k k') eqn:E; intros H.
  - apply String.eqb_eq in E as ->. injection H as ->. left. reflexivity.
  - right. exact (IH H).
Qed.
Lemma dget_none {A} k (d : dict A) : dget k d = None -> forall v, ~ In (k, v) d.
Proof.
  induction d as [|[k' v'] d IH]; [intros _ v []|]. cbn. destruct (String.eqb k k') eqn:E; [discriminate|].
  intros H v [Hv|Hv]; [|exact (IH H v Hv)]. injection Hv as -> ->. rewrite String.eqb_refl in E. discriminate.
Qed.
Lemma ren_spec m x : new_name m x (ren m x).
Proof.
  unfold ren. destruct (dget x m) eqn:E; [left; exact (dget_in _ _ _ E)|]. right. split; [reflexivity|exact (dget_none _ _ E)].
Qed.
Lemma nodup_fun (m : dict string) x y y' : NoDup (map fst m) -> In (x, y) m -> In (x, y') m -> y = y'.
Proof.
  induction m as [|[k v] m IH]; [intros _ []|]. cbn. intros N. inversion N as [|? ? N1 N2]; subst.
  intros [H|H] [H'|H'].
  - congruence.
  - injection H as -> ->. destruct N1. apply in_map_iff. exists (x, y'). split; [reflexivity|exact H'].
  - injection H' as -> ->. destruct N1. apply in_map_iff. exists (x, y). split; [reflexivity|exact H].
  - exact (IH N2 H H').
Qed.
Lemma new_fun m x y : NoDup (map fst m) -> new_name m x y -> y = ren m x.
Proof.
  intros N H. assert (H' := ren_spec m x). destruct H as [H|[-> H]], H' as [H'|[-> H']].
  - exact (nodup_fun _ _ _ _ N H H').
  - destruct (H' _ H).
  - destruct (H _ H').
  - reflexivity.
Qed.
Lemma smem_in x l : smem x l = true <-> In x l.
Proof.
  unfold smem. rewrite existsb_exists. split.
  - intros (y & H & E). apply String.eqb_eq in E as ->. exact H.
  - intros H. exists x. split; [exact H|apply String.eqb_refl].
Qed.
Lemma nodupb_iff l : nodupb l = true <-> NoDup l.
Proof.
  induction l as [|x l IH]; cbn; [split; [constructor|reflexivity]|].
  rewrite andb_true_iff, negb_true_iff, IH. split.
  - intros [H1 H2]. constructor; [|exact H2]. intros H. apply smem_in in H. congruence.
  - intros H. inversion H as [|? ? H1 H2]; subst. split; [|exact H2].
    destruct (smem x l) eqn:E; [|reflexivity]. apply smem_in in E. contradiction.
Qed.
Lemma names_spec d x : In x (ds_names d) <-> has_variable d x \/ has_dimension d x.
Proof.
  unfold ds_names, dkeys, ds_dims. rewrite in_app_iff, in_map_iff, in_flat_map. split.
  - intros [([k a] & <- & H)|([k a] & H & H')]; [left; exists a; exact H|right].
    unfold names in H'. apply in_map_iff in H' as ([y n] & <- & H'). exists k, a, n. split; assumption.
  - intros [(a & H)|(v & a & n & H & H')]; [left; exists (x, a); auto|right; exists (v, a); split; [exact H|]].
    unfold names. apply in_map_iff. exists (x, n). auto.
Qed.
Lemma dims_spec d x : In x (ds_dims d) <-> has_dimension d x.
Proof.
  unfold ds_dims. rewrite in_flat_map. split.
  - intros ([k a] & H & H'). unfold names in H'. apply in_map_iff in H' as ([y n] & <- & H'). exists k, a, n. split; assumption.
  - intros (v & a & n & H & H'). exists (v, a). split; [exact H|]. apply in_map_iff. exists (x, n). auto.
Qed.
Lemma nodup_map_inj (f : string -> string) l : NoDup l -> (forall x y, In x l -> In y l -> f x = f y -> x = y) -> NoDup (map f l).
Proof.
  induction l as [|x l IH]; [constructor|]. intros N H. inversion N as [|? ? N1 N2]; subst. cbn. constructor.
  - intros H'. apply in_map_iff in H' as (y & E & Hy). rewrite (H x y) in N1; [contradiction|left; reflexivity|right; exact Hy|congruence].
  - apply IH; [exact N2|]. intros; apply H; auto using in_cons.
Qed.
Lemma same_array_eq m a a' : NoDup (map fst m) -> same_array m a a' -> a' = ren_arr m a.
Proof.
  intros N [H1 H2]. destruct a' as [dims f]. unfold ren_arr. cbn [adims at_] in *. f_equal.
  - clear H2. induction H1 as [|[x n] [y k] l l' [E1 E2] _ IH]; [reflexivity|]. cbn [fst snd map] in *.
    rewrite (new_fun _ _ _ N E1), E2, IH. reflexivity.
  - apply functional_extensionality. intros e'. symmetry. apply (H2 (fun d => e' (ren m d)) e').
    intros d d' Hd. rewrite (new_fun _ _ _ N Hd). reflexivity.
Qed.
Lemma same_dataset_eq m d d' : NoDup (map fst m) -> same_dataset m d d' -> d' = map (fun p => (ren m (fst p), ren_arr m (snd p))) d.
Proof.
  intros N. induction 1 as [|[x a] [y b] l l' [E1 E2] _ IH]; [reflexivity|]. cbn [fst snd map] in *.
  rewrite (new_fun _ _ _ N E1), (same_array_eq _ _ _ N E2), IH. reflexivity.
Qed.

(** C97: with [varname_map = m] the result is that for the renamed dataset. *)
Theorem C97_varname_map : forall m d d' ax reference cn rhozero patm eos variant domain strict,
  NoDup (map fst m) -> same_dataset m d d' ->
  (forall x y, In (x, y) m -> has_variable d x \/ has_dimension d x) ->
  NoDup (map fst d') ->
  (forall x y z, has_dimension d x -> has_dimension d y -> new_name m x z -> new_name m y z -> x = y) ->
  steric d reference cn (Some m) rhozero patm eos variant domain strict
  = steric d' reference cn None rhozero patm eos variant domain strict
  /\ steric_annual ax d reference cn (Some m) rhozero patm eos variant domain strict
     = steric_annual ax d' reference cn None rhozero patm eos variant domain strict.
Proof.
  intros m d d' ax reference cn rhozero patm eos variant domain strict N Hd Hk Nd Hi.
  assert (E : ds_rename (Some m) d = Ok d').
  { rewrite (same_dataset_eq _ _ _ N Hd) in *. cbn [ds_rename].
    assert (E1 : forallb (fun p => smem (fst p) (ds_names d)) m = true).
    { apply forallb_forall. intros [x y] H. apply smem_in, names_spec. exact (Hk x y H). }
    rewrite E1. rewrite map_map in Nd. cbn [fst] in Nd. rewrite (proj2 (nodupb_iff _) Nd).
    rewrite (proj2 (nodupb_iff (map (ren m) (nodup string_dec (ds_dims d))))); [reflexivity|].
    apply nodup_map_inj; [apply NoDup_nodup|]. intros x y Hx Hy E2. apply nodup_In in Hx, Hy.
    apply (Hi x y (ren m x)); [apply dims_spec; exact Hx|apply dims_spec; exact Hy|apply ren_spec|rewrite E2; apply ren_spec]. }
  assert (G : steric d reference cn (Some m) rhozero patm eos variant domain strict
              = steric d' reference cn None rhozero patm eos variant domain strict)
    by (unfold steric; rewrite E; reflexivity).
  split; [exact G|]. unfold steric_annual. rewrite G. reflexivity.
Qed.
Print Assumptions C97_varname_map.

(** Unknown names and collisions raise ValueError. *)
Theorem C97_rejected : forall m d reference cn rhozero patm eos variant domain strict,
  NoDup (map fst m) ->
  (exists x y, In (x, y) m /\ ~ has_variable d x /\ ~ has_dimension d x)
  \/ (exists l1 l2 l3 x y a b z, d = (l1 ++ (x, a) :: l2 ++ (y, b) :: l3)%list /\ new_name m x z /\ new_name m y z) ->
  steric d reference cn (Some m) rhozero patm eos variant domain strict = Err ValueError.
Proof.
  intros m d reference cn rhozero patm eos variant domain strict N H. unfold steric.
  replace (ds_rename (Some m) d) with (@Err dataset ValueError); [reflexivity|]. cbn [ds_rename].
  destruct (forallb (fun p => smem (fst p) (ds_names d)) m) eqn:F; [|reflexivity].
  destruct H as [(x & y & H1 & H2 & H3)|(l1 & l2 & l3 & x & y & a & b & z & -> & H1 & H2)].
  - exfalso. rewrite forallb_forall in F. specialize (F (x, y) H1). apply smem_in, names_spec in F. tauto.
  - destruct (nodupb (map (fun p => ren m (fst p)) (l1 ++ (x, a) :: l2 ++ (y, b) :: l3))) eqn:E; [|reflexivity].
    exfalso. apply nodupb_iff in E. rewrite map_app in E. cbn [map fst] in E. rewrite map_app in E. cbn [map fst] in E.
    apply NoDup_remove_2 in E. apply E. apply in_or_app. right. apply in_or_app. right. left.
    rewrite <- (new_fun _ _ _ N H1), <- (new_fun _ _ _ N H2). reflexivity.
Qed.
Print Assumptions C97_rejected.

(** A dataset with the names "temp" and "lev" in place of "thetao" and "z_l" (dimension and
    coordinate), the renaming, and the dataset it gives. *)
Definition f4 : list (string * nat) := [("time", 2%nat); ("lev", 2%nat); ("yh", 2%nat); ("xh", 2%nat)].
Definition foreign : dataset :=
  [("temp", mkArr f4 (fun e => Fin (10 + INR (e "time")))); ("so", mkArr f4 (fun _ => Fin 35));
   ("volcello", mkArr f4 (fun e => if Nat.eqb (e "xh") 1 then NaN else Fin 1000)); ("areacello", demo_A); ("deptho", demo_D);
   ("lev", mkArr [("lev", 2%nat)] (fun e => at_ demo_zl (fun _ => e "lev"))); ("z_i", demo_zi)].
Definition to_mom : dict string := [("temp", "thetao"); ("lev", "z_l")].
Example C97_data :
  NoDup (map fst to_mom) /\ same_dataset to_mom foreign demo
  /\ (forall x y, In (x, y) to_mom -> has_variable foreign x \/ has_dimension foreign x)
  /\ NoDup (map fst demo)
  /\ (forall x y z, has_dimension foreign x -> has_dimension foreign y -> new_name to_mom x z -> new_name to_mom y z -> x = y).
Proof.
  assert (K : forall x, ~ In x ["temp"; "lev"] -> new_name to_mom x x).
  { intros x H. right. split; [reflexivity|]. intros v [E|[E|[]]]; injection E as <- <-; apply H; cbn; tauto. }
  assert (L : new_name to_mom "lev" "z_l") by (left; cbn; tauto).
  assert (M : new_name to_mom "temp" "thetao") by (left; cbn; tauto).
  split; [nodup|]. split; [|split; [|split]].
  - repeat (constructor; [split; [first [exact M|exact L|apply K; cbn; intuition discriminate]|]|]); [..|constructor];
      (split; [repeat (constructor; [split; [first [exact L|apply K; cbn; intuition discriminate]|reflexivity]|]); constructor|]);
      intros e e' H; cbn [demo_T demo_S demo_V demo_A demo_D demo_zl demo_zi at_ snd];
      rewrite ?(H "time" "time"), ?(H "lev" "z_l"), ?(H "xh" "xh"), ?(H "z_i" "z_i")
        by first [exact L|apply K; cbn; intuition discriminate]; reflexivity.
  - intros x y [E|[E|[]]]; injection E as <- <-; left; eexists; cbn; tauto.
  - nodup.
  - assert (D : forall x, has_dimension foreign x -> In x ["time"; "lev"; "yh"; "xh"; "z_i"]).
    { intros x Hx. apply dims_spec in Hx. cbn in Hx. cbn. tauto. }
    intros x y z Hx Hy Nx Ny. apply D in Hx, Hy. apply new_fun in Nx, Ny; [|nodup|nodup]. rewrite Nx in Ny.
    cbn in Hx, Hy. destruct Hx as [<-|[<-|[<-|[<-|[<-|[]]]]]], Hy as [<-|[<-|[<-|[<-|[<-|[]]]]]]; cbn in Ny; congruence.
Qed.
(** An unknown name; "temp" renamed to "so", which exists. *)
Example C97_wrong_names : forall reference cn rhozero patm eos variant domain strict,
  steric foreign reference cn (Some [("salt", "so")]) rhozero patm eos variant domain strict = Err ValueError /\
  steric foreign reference cn (Some [("temp", "so")]) rhozero patm eos variant domain strict = Err ValueError.
Proof.
  intros. split; apply C97_rejected; try nodup.
  - left. exists "salt", "so". split; [cbn; tauto|]. assert (H : ~ In "salt" (ds_names foreign)) by (cbn; intuition discriminate).
    rewrite names_spec in H. tauto.
  - right. exists [], [], (tl (tl foreign)), "temp", "so", (snd (hd ("", demo_A) foreign)), (snd (hd ("", demo_A) (tl foreign))), "so".
    split; [reflexivity|]. split; [left; cbn; tauto|]. right. split; [reflexivity|]. intros v [E|[]]. discriminate.
Qed.
