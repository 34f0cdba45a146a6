(** * ProofsAlign2: alignment on a reference with other labels *)
From Coq Require Import Reals ZArith List String Bool Arith Lia FunctionalExtensionality.
From Verif Require Import Num NumFacts Py Arr ArrFacts Eos Derived Dataset ProofsUtil Align ProofsAlign.
Import ListNotations.
Local Open Scope string_scope.

Lemma dget_filter_key {A} (g : string -> bool) (l : dict A) d :
  dget d (filter (fun p => g (fst p)) l) = if g d then dget d l else None.
Proof.
  induction l as [|[k v] l IH]; [destruct (g d); reflexivity|]. cbn [filter fst dget].
  destruct (String.eqb_spec d k) as [->|N].
  - destruct (g k) eqn:E; [cbn [dget]; rewrite String.eqb_refl; reflexivity|]. rewrite IH. reflexivity.
  - destruct (g k); [cbn [dget]; rewrite (proj2 (String.eqb_neq _ _) N)|]; exact IH.
Qed.

Lemma dget_app {A} (l l' : dict A) d : dget d (l ++ l')%list = match dget d l with Some v => Some v | None => dget d l' end.
Proof. induction l as [|[k v] l IH]; [reflexivity|]. cbn. destruct (String.eqb d k); [reflexivity|exact IH]. Qed.

Lemma dget_merge a b d : dget d (merge_labels a b) = match dget d a with Some v => Some v | None => dget d b end.
Proof.
  unfold merge_labels. rewrite dget_app. rewrite (dget_filter_key (fun k => negb (dmem k a))). unfold dmem.
  destruct (dget d a); reflexivity.
Qed.

Lemma nodup_filter {A} (g : string * A -> bool) (l : dict A) : NoDup (dkeys l) -> NoDup (dkeys (filter g l)).
Proof.
  induction l as [|p l IH]; [exact (fun z => z)|]. cbn. intros U. inversion U as [|? ? U1 U2]; subst.
  destruct (g p); [|apply IH, U2]. cbn. constructor; [|apply IH, U2]. intros I. apply U1. clear - I.
  induction l as [|q l IH]; [destruct I|]. cbn in *.
  destruct (g q); [destruct I as [->|I]; [left; reflexivity|right; apply IH, I]|right; apply IH, I].
Qed.

Lemma nodup_merge a b : NoDup (dkeys a) -> NoDup (dkeys b) -> NoDup (dkeys (merge_labels a b)).
Proof.
  intros A B. unfold merge_labels, dkeys. rewrite map_app.
  assert (D : forall k, In k (map fst a) -> ~ In k (map fst (filter (fun p => negb (dmem (fst p) a)) b))).
  { intros k I J. apply in_map_iff in J. destruct J as (p & <- & P). apply filter_In in P. destruct P as [_ P].
    unfold dmem in P. destruct (dget (fst p) a) eqn:E; [discriminate|]. clear - I E.
    induction a as [|[k v] a IH]; [destruct I|]. cbn in *. destruct (String.eqb_spec (fst p) k) as [Z|Z]; [discriminate|].
    destruct I as [I|I]; [congruence|apply IH; assumption]. }
  apply (nodup_filter (fun p => negb (dmem (fst p) a))) in B. unfold dkeys in A, B.
  set (m := map fst (filter (fun p : string * list Z => negb (dmem (fst p) a)) b)) in *. set (q := map fst a) in *.
  clearbody m q. clear a b. induction A as [|x l N A IH]; [exact B|]. cbn. constructor.
  - intros I. apply in_app_or in I. destruct I as [I|I]; [exact (N I)|exact (D x (or_introl eq_refl) I)].
  - apply IH. intros k K. apply D. right. exact K.
Qed.

Lemma dget_notin {A} d (l : dict A) : ~ In d (dkeys l) -> dget d l = None.
Proof.
  induction l as [|[k v] l IH]; intros N; [reflexivity|]. cbn in *. destruct (String.eqb_spec d k) as [->|Z]; [exfalso; apply N; left; reflexivity|].
  apply IH. intros I. apply N. right; exact I.
Qed.

Lemma dget_joined a b d : NoDup (dkeys a) -> dget d (joined a b) =
  match dget d a, dget d b with
  | Some l, Some l' => if zlist_eqb l l' then None else Some (zinter l l')
  | _, _ => None
  end.
Proof.
  intros U. unfold joined. induction a as [|[k l] a IH]; [reflexivity|]. cbn [flat_map fst snd]. rewrite dget_app.
  inversion U as [|? ? N U']; subst. specialize (IH U'). cbn [dget].
  destruct (String.eqb_spec d k) as [->|Z].
  - rewrite (dget_notin k a N) in IH. destruct (dget k b) as [l'|]; [|exact IH].
    destruct (zlist_eqb l l'); [exact IH|]. cbn. rewrite String.eqb_refl. reflexivity.
  - rewrite IH. destruct (dget k b) as [l'|]; [|reflexivity].
    destruct (zlist_eqb l l'); [reflexivity|]. cbn. rewrite (proj2 (String.eqb_neq _ _) Z). reflexivity.
Qed.

Lemma dget_relabelled new l d : dget d (map (fun p : string * list Z => match dget (fst p) new with Some x => (fst p, x) | None => p end) l) =
  match dget d l with
  | Some x => Some (match dget d new with Some y => y | None => x end)
  | None => None
  end.
Proof.
  induction l as [|[k v] l IH]; [reflexivity|]. cbn [map dget fst].
  destruct (dget k new) eqn:E; cbn [dget]; (destruct (String.eqb_spec d k) as [->|Z]; [rewrite E; reflexivity|exact IH]).
Qed.

Lemma nodup_relabelled new l : NoDup (dkeys l) ->
  NoDup (dkeys (map (fun p : string * list Z => match dget (fst p) new with Some x => (fst p, x) | None => p end) l)).
Proof.
  unfold dkeys. rewrite map_map. intros H. erewrite map_ext; [exact H|]. intros [k v]. cbn. destruct (dget k new); reflexivity.
Qed.

Lemma dget_resized new (l : dict nat) d : dget d (map (fun p => match dget (fst p) new with Some x => (fst p, @List.length Z x) | None => p end) l) =
  match dget d l with
  | Some x => Some (match dget d new with Some y => List.length y | None => x end)
  | None => None
  end.
Proof.
  induction l as [|[k v] l IH]; [reflexivity|]. cbn [map dget fst].
  destruct (dget k new) eqn:E; cbn [dget]; (destruct (String.eqb_spec d k) as [->|Z]; [rewrite E; reflexivity|exact IH]).
Qed.

Lemma dget_none_nil {A} (l : dict A) : (forall d, dget d l = None) -> l = [].
Proof. destruct l as [|[k v] l]; [reflexivity|]. intros H. specialize (H k). cbn in H. rewrite String.eqb_refl in H. discriminate. Qed.

Lemma zpos_nth l i : NoDup l -> (i < List.length l)%nat -> zpos (nth i l 0%Z) l = i.
Proof.
  revert i. induction l as [|x l IH]; intros i N H; [cbn in H; lia|]. inversion N as [|? ? N1 N2]; subst.
  destruct i as [|i]; cbn; [rewrite Z.eqb_refl; reflexivity|].
  cbn in H. destruct (Z.eqb_spec (nth i l 0%Z) x) as [E|E].
  - exfalso. apply N1. rewrite <- E. apply nth_In. lia.
  - f_equal. apply IH; [exact N2|lia].
Qed.

Lemma zlist_eqb_neq l l' : l <> l' -> zlist_eqb l l' = false.
Proof. intros N. destruct (zlist_eqb l l') eqn:E; [apply zlist_eqb_eq in E; contradiction|reflexivity]. Qed.

Lemma has_dim_names d a : has_dim d a = true <-> In d (names a).
Proof.
  unfold has_dim, dmem, names. induction (adims a) as [|[k v] l IH]; cbn; [split; [discriminate|tauto]|].
  destruct (String.eqb_spec d k) as [->|N]; [split; [left; reflexivity|reflexivity]|].
  rewrite IH. split; [right; assumption|intros [E|E]; [congruence|exact E]].
Qed.

Lemma dget_union (d1 d2 : list (string * nat)) d : dget d (union_dims d1 d2) = match dget d d1 with Some v => Some v | None => dget d d2 end.
Proof.
  unfold union_dims. rewrite dget_app. rewrite (dget_filter_key (fun k => negb (dmem k d1))). unfold dmem.
  destruct (dget d d1); reflexivity.
Qed.

Definition resize {A} (new : labels) (f : list Z -> A) (d : string) (x : A) : A :=
  match dget d new with Some y => f y | None => x end.

Lemma linner_inv f a b c : linner f a b = Ok c -> NoDup (dkeys (lab a)) -> NoDup (dkeys (lab b)) ->
  let new := joined (lab a) (lab b) in
  (forall e, at_ (la c) e = f (at_ (la a) (relabel (lab a) new e)) (at_ (la b) (relabel (lab b) new e))) /\
  (forall d, dget d (lab c) = match dget d (lab a) with
                              | Some x => Some (resize new (fun y => y) d x)
                              | None => match dget d (lab b) with Some x => Some (resize new (fun y => y) d x) | None => None end
                              end) /\
  NoDup (dkeys (lab c)) /\
  (forall d, dget d (adims (la c)) = match dget d (adims (la a)) with
                              | Some x => Some (resize new (@List.length Z) d x)
                              | None => match dget d (adims (la b)) with Some x => Some (resize new (@List.length Z) d x) | None => None end
                              end) /\
  (forall d x y, dget d (adims (la a)) = Some x -> dget d (adims (la b)) = Some y ->
     resize new (@List.length Z) d x = resize new (@List.length Z) d y).
Proof.
  intros H NA NB new. unfold linner in H. fold new in H. cbv zeta in H. unfold amap2 in H.
  destruct (compatible _ _) eqn:C; [|discriminate]. cbn [bind] in H. apply Ok_inj in H. subst c. cbn [la lab at_ adims reindex].
  split; [reflexivity|]. split; [|split; [|split]].
  - intros d. rewrite dget_merge, !dget_relabelled. unfold resize. destruct (dget d (lab a)), (dget d (lab b)); reflexivity.
  - apply nodup_merge; apply nodup_relabelled; assumption.
  - intros d. rewrite dget_union, !dget_resized. unfold resize. destruct (dget d (adims (la a))), (dget d (adims (la b))); reflexivity.
  - intros d x y GA GB. unfold compatible in C. rewrite forallb_forall in C. cbn [reindex la adims] in C.
    assert (E : dget d (map (fun p => match dget (fst p) new with Some x => (fst p, @List.length Z x) | None => p end) (adims (la b))) = Some (resize new (@List.length Z) d y))
      by (rewrite dget_resized, GB; reflexivity).
    apply dget_In' in E. specialize (C _ E). cbn [fst snd] in C. rewrite dget_resized, GA in C. apply Nat.eqb_eq in C. exact C.
Qed.

Lemma lift1_inv f a c : lift1 f a = Ok c -> f (la a) = Ok (la c) /\
  lab c = filter (fun p => has_dim (fst p) (la c)) (lab a).
Proof.
  unfold lift1. intros H. apply bind_inv in H. destruct H as (x & E & H). apply Ok_inj in H. subst c. split; [exact E|reflexivity].
Qed.

(** The position in a dataset labelled [LD] of the cell whose labels are those of position [e] of an
    object labelled [LR]. *)
Definition cell_of (LD LR : labels) (e : index) : index :=
  fun d => match dget d LD, dget d LR with
           | Some lo, Some ln => zpos (nth (e d) ln 0%Z) lo
           | _, _ => e d
           end.

Section Common.
  Variables (LD LR : labels).
  Hypothesis UD : NoDup (dkeys LD).
  Hypothesis UR : NoDup (dkeys LR).
  Hypothesis NR : forall d l, dget d LR = Some l -> NoDup l.
  (** The labels to which the two are joined. *)
  Definition J (d : string) : option (list Z) :=
    match dget d LD, dget d LR with
    | Some lo, Some ln => if zlist_eqb lo ln then None else Some (zinter lo ln)
    | _, _ => None
    end.
  Definition fits : Prop := forall d l, J d = Some l -> dget d LR = Some l.
  Definition within (e : index) : Prop := forall d l, dget d LR = Some l -> (e d < List.length l)%nat.

  Lemma relabel_ds a new e : fits -> within e -> (forall d, dget d new = J d) ->
    (forall d x, J d = Some x -> dget d a = dget d LD) -> relabel a new e = cell_of LD LR e.
  Proof.
    intros F W HN HA. apply functional_extensionality. intros d. unfold relabel, cell_of. rewrite HN.
    destruct (J d) as [x|] eqn:E.
    - rewrite (HA d x E). rewrite (F d x E). assert (E' := E). unfold J in E'. destruct (dget d LD); [reflexivity|discriminate].
    - unfold J in E. destruct (dget d LD) as [lo|]; [|reflexivity]. destruct (dget d LR) as [ln|] eqn:G; [|reflexivity].
      destruct (zlist_eqb lo ln) eqn:Z; [|discriminate]. apply zlist_eqb_eq in Z. subst lo.
      symmetry. apply zpos_nth; [apply (NR d), G|apply W, G].
  Qed.

  Lemma relabel_ref a new e : fits -> within e -> (forall d, dget d new = J d) ->
    (forall d x, J d = Some x -> dget d a = dget d LR) -> relabel a new e = e.
  Proof.
    intros F W HN HA. apply functional_extensionality. intros d. unfold relabel. rewrite HN.
    destruct (J d) as [x|] eqn:E; [|reflexivity].
    rewrite (HA d x E). rewrite (F d x E). apply zpos_nth; [apply (NR d), (F d x E)|apply W, (F d x E)].
  Qed.
End Common.

Lemma ld_get_ok name ds a : ds_get name (ld_vars ds) = Ok a ->
  ld_get name ds = Ok (mkL a (filter (fun p => has_dim (fst p) a) (ld_lab ds))).
Proof. intros H. unfold ld_get. rewrite H. reflexivity. Qed.

Lemma ld_get_some name ds a : dget name (ld_vars ds) = Some a ->
  ld_get name ds = Ok (mkL a (filter (fun p => has_dim (fst p) a) (ld_lab ds))).
Proof. intros H. apply ld_get_ok. unfold ds_get. rewrite H. reflexivity. Qed.

(** The local height on a reference whose cells are among those of the dataset. *)
Lemma local_common D R (rho : larr) rz variant t z zb r vol rho0 zl ifaces depth dz :
  let LD := ld_lab D in let LR := ld_lab R in
  lsteric_local D R rho rz variant t z zb = Ok r ->
  NoDup (dkeys LD) -> NoDup (dkeys LR) -> (forall d l, dget d LR = Some l -> NoDup l) ->
  NoDup (dkeys (lab rho)) ->
  (forall d, In d (names vol) -> dget d (lab rho) = dget d LD) ->
  (forall d l, dget d (lab rho) = Some l -> dget d LD = Some l) ->
  (forall d l, dget d LR = Some l -> In d (names vol)) ->
  dget "volcello" (ld_vars R) = Some vol -> dget "rho" (ld_vars R) = Some rho0 ->
  (forall d, In d (names rho0) <-> In d (names vol)) ->
  ds_get z (ld_vars D) = Ok zl -> ds_get zb (ld_vars D) = Ok ifaces -> dget "deptho" (ld_vars D) = Some depth ->
  calc_dz zl ifaces depth (Fin 0) None false = Ok dz ->
  (forall d, In d (names vol) -> In d (names dz)) -> In z (names vol) ->
  (forall d n l, dget d (adims vol) = Some n -> dget d LR = Some l -> n = List.length l) ->
  variant <> "delta_rho" ->
  fits LD LR /\
  exists delta sea, dget "delta_rho" r = Some delta /\ dget variant r = Some sea /\
    (forall d l, dget d LR = Some l -> d <> z -> dget d (lab sea) = Some l) /\
    (forall e, within LR e ->
       at_ (la delta) e = (if notnull (at_ vol e) then fsub (at_ (la rho) (cell_of LD LR e)) (at_ rho0 e) else NaN)) /\
    (forall e, within LR e ->
       at_ (la sea) e = (if notnull (at_ vol (upd e z 0))
         then fmul (Fin (-1 / rz)) (fsum (size_of z vol) (fun k => nan0 (fmul (at_ dz (cell_of LD LR (upd e z k))) (at_ (la delta) (upd e z k)))))
         else NaN)).
Proof.
  intros LD LR H UD UR NR Ur Hrho Hrho' HV Gv Gr Hn0 Gz Gzb Gd Edz Hdz Hz Hsz Hvar.
  unfold lsteric_local in H. rewrite (ld_get_some _ _ _ Gv) in H. cbn [bind] in H.
  rewrite (ld_get_some _ _ _ Gr) in H. cbn [bind] in H.
  set (Lv := mkL vol (filter (fun p => has_dim (fst p) vol) (ld_lab R))) in H.
  set (L0 := mkL rho0 (filter (fun p => has_dim (fst p) rho0) (ld_lab R))) in H.
  assert (Dv : forall d, dget d (lab Lv) = dget d LR).
  { intros d. cbn [lab Lv]. rewrite (dget_filter_key (fun k => has_dim k vol)). fold LR. destruct (has_dim d vol) eqn:E; [reflexivity|].
    destruct (dget d LR) eqn:G; [|reflexivity]. apply HV in G. apply has_dim_names in G. congruence. }
  assert (D0 : forall d, dget d (lab L0) = dget d LR).
  { intros d. cbn [lab L0]. rewrite (dget_filter_key (fun k => has_dim k rho0)). fold LR. destruct (has_dim d rho0) eqn:E; [reflexivity|].
    destruct (dget d LR) eqn:G; [|reflexivity]. apply HV in G. apply Hn0 in G. apply has_dim_names in G. congruence. }
  assert (Uv : NoDup (dkeys (lab Lv))) by (apply nodup_filter, UR).
  assert (U0 : NoDup (dkeys (lab L0))) by (apply nodup_filter, UR).
  apply bind_inv in H. destruct H as (diff & Ediff & H).
  apply bind_inv in H. destruct H as (u & Ex & H).
  apply bind_inv in H. destruct H as (dl & Edl & H).
  apply bind_inv in H. destruct H as (delta & Edelta & H).
  rewrite (ld_get_ok _ _ _ Gz) in H. cbn [bind] in H.
  rewrite (ld_get_ok _ _ _ Gzb) in H. cbn [bind] in H.
  rewrite (ld_get_some _ _ _ Gd) in H. cbn [bind la] in H. rewrite Edz in H. cbn [bind] in H.
  set (Lz := mkL dz (filter (fun p => has_dim (fst p) dz) (ld_lab D))) in H.
  apply bind_inv in H. destruct H as (fact & Ef & H).
  apply bind_inv in H. destruct H as (prod & Eprod & H).
  apply bind_inv in H. destruct H as (s & Es & H).
  apply bind_inv in H. destruct H as (sl & Esl & H).
  apply bind_inv in H. destruct H as (sl2 & Esl2 & H).
  apply bind_inv in H. destruct H as (surf & Esurf & H).
  apply bind_inv in H. destruct H as (masked & Em & H).
  apply Ok_inj in H. subst r.
  (* labels of rho against the reference *)
  assert (HJ1 : forall d, dget d (joined (lab rho) (lab L0)) = J LD LR d).
  { intros d. rewrite (dget_joined _ _ _ Ur), D0. unfold J.
    destruct (dget d LR) as [ln|] eqn:G.
    - rewrite (Hrho d (HV d ln G)). destruct (dget d LD); reflexivity.
    - destruct (dget d (lab rho)), (dget d LD); reflexivity. }
  destruct (linner_inv _ _ _ _ Ediff Ur U0) as (Vdiff & Ldiff & Udiff & Adiff & _).
  (* the exact join *)
  assert (F : fits LD LR).
  { intros d l E. assert (E' := E). unfold J in E'. destruct (dget d LD) as [lo|] eqn:GD; [|discriminate].
    destruct (dget d LR) as [ln|] eqn:GR; [|discriminate]. 
    unfold lexact in Ex. destruct (joined (lab Lv) (lab diff)) eqn:Q; [|discriminate].
    assert (W : dget d (joined (lab Lv) (lab diff)) = None) by (rewrite Q; reflexivity).
    rewrite (dget_joined _ _ _ Uv), Dv, GR, Ldiff, (Hrho d (HV d ln GR)), GD in W.
    unfold resize in W. rewrite HJ1, E in W. destruct (zlist_eqb ln l) eqn:Z; [|discriminate]. apply zlist_eqb_eq in Z. congruence. }
  split; [exact F|].
  (* delta *)
  assert (Wdl : adims dl = union_dims (union_dims (adims vol) (adims (la diff))) [] /\
     forall e, at_ dl e = if notnull (at_ vol e) then at_ (la diff) e else NaN).
  { unfold awhere, amap3 in Edl. destruct (_ && _) in Edl; [|discriminate]. apply Ok_inj in Edl. subst dl. split; [reflexivity|].
    intros e. cbn. destruct (notnull (at_ vol e)); cbn; [destruct (Reqb 1 0) eqn:Z; [apply Reqb_true in Z; exfalso; revert Z; apply R1_neq_R0|reflexivity]|].
    destruct (Reqb 0 0) eqn:Z; [reflexivity|]. exfalso. unfold Reqb in Z. destruct (Req_EM_T 0 0); congruence. }
  destruct Wdl as [Adl Vdl].
  destruct (lift1_inv _ _ _ Edelta) as [Tdelta Ldelta]. cbn [la lab] in Tdelta, Ldelta.
  assert (TR : forall (a b : arr) q, transpose_first q a = Ok b -> (forall e, at_ b e = at_ a e) /\ (forall d, dget d (adims b) = dget d (adims a))).
  { intros a b q X. unfold transpose_first in X. destruct (dget q (adims a)) eqn:Q; [|discriminate]. apply Ok_inj in X. subst b.
    split; [reflexivity|]. intros d. cbn [adims dget]. destruct (String.eqb_spec d q) as [->|N]; [congruence|].
    unfold drop_dim. rewrite (dget_filter_key (fun k => negb (String.eqb q k))).
    rewrite (proj2 (String.eqb_neq q d) (fun Z => N (eq_sym Z))). reflexivity. }
  destruct (TR _ _ _ Tdelta) as [Vdelta Adelta].
  assert (Hdl : forall d, dget d (adims (la delta)) = match dget d (adims vol) with Some x => Some x | None => dget d (adims (la diff)) end).
  { intros d. rewrite Adelta, Adl, !dget_union. cbn [dget]. destruct (dget d (adims vol)); [reflexivity|]. destruct (dget d (adims (la diff))); reflexivity. }
  assert (VDELTA : forall e, within LR e ->
       at_ (la delta) e = (if notnull (at_ vol e) then fsub (at_ (la rho) (cell_of LD LR e)) (at_ rho0 e) else NaN)).
  { intros e W. rewrite Vdelta, Vdl, Vdiff.
    rewrite (relabel_ds LD LR NR (lab rho) _ e F W HJ1).
    2:{ intros d x E. apply Hrho. apply (HV d x), (F d x E). }
    rewrite (relabel_ref LD LR NR (lab L0) _ e F W HJ1 (fun d x _ => D0 d)). reflexivity. }
  assert (LDelta : forall d, dget d (lab delta) = if has_dim d (la delta) then
      match dget d LR with Some l => Some l | None => dget d (lab diff) end else None).
  { intros d. rewrite Ldelta. rewrite (dget_filter_key (fun k => has_dim k (la delta))). destruct (has_dim d (la delta)); [|reflexivity].
    rewrite dget_merge, Dv. reflexivity. }
  assert (HVd : forall d, In d (names vol) -> has_dim d (la delta) = true).
  { intros d I. apply has_dim_names in I. unfold has_dim, dmem in *. rewrite Hdl. destruct (dget d (adims vol)); [reflexivity|discriminate]. }
  assert (Udelta : NoDup (dkeys (lab delta))).
  { rewrite Ldelta. apply nodup_filter, nodup_merge; assumption. }
  (* thickness times density *)
  assert (Uz : NoDup (dkeys (lab Lz))) by (apply nodup_filter, UD).
  assert (LLz : forall d, dget d (lab Lz) = if has_dim d dz then dget d LD else None).
  { intros d. cbn [lab Lz]. apply (dget_filter_key (fun k => has_dim k dz)). }
  assert (LNR : forall d, dget d LR = None -> dget d (lab diff) = None \/ dget d (lab diff) = dget d LD).
  { intros d G. rewrite Ldiff, D0, G. destruct (dget d (lab rho)) as [x|] eqn:Q; [|left; reflexivity]. right.
    unfold resize. rewrite HJ1. unfold J. rewrite G. rewrite (Hrho' d x Q). reflexivity. }
  assert (HJ2 : forall d, dget d (joined (lab Lz) (lab delta)) = J LD LR d).
  { intros d. rewrite (dget_joined _ _ _ Uz), LLz, LDelta. unfold J.
    destruct (dget d LR) as [ln|] eqn:G.
    - assert (I := HV d ln G). rewrite (HVd d I). rewrite (proj2 (has_dim_names d dz) (Hdz d I)).
      destruct (dget d LD) as [lo|] eqn:GD; reflexivity.
    - destruct (has_dim d dz), (has_dim d (la delta)); try (destruct (dget d LD); reflexivity).
      destruct (LNR d G) as [-> | ->]; [destruct (dget d LD); reflexivity|].
      destruct (dget d LD) as [lo|]; [|reflexivity]. rewrite (proj2 (zlist_eqb_eq lo lo) eq_refl). reflexivity. }
  destruct (linner_inv _ _ _ _ Eprod Uz Udelta) as (Vprod & Lprod & Uprod & Aprod & Cprod).
  assert (VPROD : forall e, within LR e -> at_ (la prod) e = fmul (at_ dz (cell_of LD LR e)) (at_ (la delta) e)).
  { intros e W. rewrite Vprod.
    rewrite (relabel_ds LD LR NR (lab Lz) _ e F W HJ2).
    2:{ intros d x E. rewrite LLz. rewrite (proj2 (has_dim_names d dz)); [reflexivity|]. apply Hdz, (HV d x), (F d x E). }
    rewrite (relabel_ref LD LR NR (lab delta) _ e F W HJ2).
    2:{ intros d x E. rewrite LDelta, (HVd d (HV d x (F d x E))), (F d x E). reflexivity. }
    reflexivity. }
  assert (SZ : size_of z (la prod) = size_of z vol).
  { unfold size_of. rewrite Aprod. cbn [la Lz].
    assert (I1 := proj2 (has_dim_names z dz) (Hdz z Hz)). unfold has_dim, dmem in I1. destruct (dget z (adims dz)) as [nz|] eqn:G1; [|discriminate].
    assert (I2 := proj2 (has_dim_names z vol) Hz). unfold has_dim, dmem in I2. destruct (dget z (adims vol)) as [nv|] eqn:G2; [|discriminate].
    assert (G3 : dget z (adims (la delta)) = Some nv) by (rewrite Hdl, G2; reflexivity).
    rewrite (Cprod z nz nv G1 G3). unfold resize. rewrite HJ2. destruct (J LD LR z) as [l|] eqn:E; [|reflexivity].
    symmetry. apply (Hsz z nv l G2), (F z l E). }
  (* the sum and the mask *)
  destruct (lift1_inv _ _ _ Es) as [Ts Ls]. destruct (lift1_inv _ _ _ Esl) as [Tsl Lsl]. destruct (lift1_inv _ _ _ Esl2) as [Tsl2 Lsl2].
  destruct (lift1_inv _ _ _ Esurf) as [Tsurf Lsurf]. cbn [la lab] in *.
  assert (Vs : forall e, at_ (la s) e = fsum (size_of z (la prod)) (fun k => nan0 (at_ (la prod) (upd e z k)))).
  { unfold asum in Ts. destruct (forallb _ _) in Ts; [|discriminate]. apply Ok_inj in Ts. rewrite <- Ts. reflexivity. }
  assert (Ds : forall d, dget d (adims (la s)) = if String.eqb z d then None else dget d (adims (la prod))).
  { unfold asum in Ts. destruct (forallb _ _) in Ts; [|discriminate]. apply Ok_inj in Ts. rewrite <- Ts. intros d. cbn [fold_left sum1 adims amap].
    unfold drop_dim. rewrite (dget_filter_key (fun k => negb (String.eqb z k))). destruct (String.eqb z d); reflexivity. }
  apply Ok_inj in Tsl. destruct (TR _ _ _ Tsl2) as [Vsl2 Asl2].
  assert (Vf : fact = Fin (-1 / rz)) by (destruct (Reqb rz 0); [discriminate|]; apply Ok_inj in Ef; congruence).
  assert (Vsurf : (forall e, at_ (la surf) e = at_ vol (upd e z 0)) /\ forall d, dget d (adims (la surf)) = if String.eqb z d then None else dget d (adims vol)).
  { change (la Lv) with vol in Tsurf. unfold isel in Tsurf. destruct (dget z (adims vol)); [|discriminate]. cbn [negb Nat.ltb] in Tsurf; destruct (Nat.ltb _ _) in Tsurf; [|discriminate]. apply Ok_inj in Tsurf.
    rewrite <- Tsurf. split; [reflexivity|]. intros d. cbn [adims]. unfold drop_dim. rewrite (dget_filter_key (fun k => negb (String.eqb z k))).
    destruct (String.eqb z d); reflexivity. }
  destruct Vsurf as [Vsurf Asurf].
  assert (PD : forall d, In d (names vol) -> has_dim d (la prod) = true).
  { intros d I. unfold has_dim, dmem. rewrite Aprod. cbn [la Lz]. 
    assert (I1 := proj2 (has_dim_names d dz) (Hdz d I)). unfold has_dim, dmem in I1. destruct (dget d (adims dz)); [reflexivity|discriminate]. }
  assert (LP : forall d l, dget d LR = Some l -> dget d (lab prod) = Some l).
  { intros d l G. rewrite Lprod, LLz, LDelta. assert (I := HV d l G). rewrite (HVd d I), G. rewrite (proj2 (has_dim_names d dz) (Hdz d I)).
    unfold resize. rewrite HJ2. unfold J. rewrite G. destruct (dget d LD) as [lo|] eqn:GD; [|reflexivity].
    destruct (zlist_eqb lo l) eqn:Z; [apply zlist_eqb_eq in Z; congruence|].
    assert (FF : J LD LR d = Some (zinter lo l)) by (unfold J; rewrite GD, G, Z; reflexivity). apply F in FF. congruence. }
  assert (Lsea2 : forall d, dget d (lab sl2) = if String.eqb z d then None else if has_dim d (la prod) then dget d (lab prod) else None).
  { intros d. rewrite Lsl2, Lsl, Ls.
    rewrite (dget_filter_key (fun k => has_dim k (la sl2))), (dget_filter_key (fun k => has_dim k (la sl))), (dget_filter_key (fun k => has_dim k (la s))).
    assert (Q1 : has_dim d (la s) = if String.eqb z d then false else has_dim d (la prod)) by (unfold has_dim, dmem; rewrite Ds; destruct (String.eqb z d); reflexivity).
    assert (Q2 : has_dim d (la sl) = has_dim d (la s)) by (rewrite <- Tsl; reflexivity).
    assert (Q3 : has_dim d (la sl2) = has_dim d (la s)) by (rewrite <- Q2; unfold has_dim, dmem; rewrite Asl2; reflexivity).
    rewrite Q3, Q2, Q1. destruct (String.eqb z d); [reflexivity|]. destruct (has_dim d (la prod)); reflexivity. }
  assert (Lsurf2 : forall d, dget d (lab surf) = if String.eqb z d then None else dget d LR).
  { intros d. rewrite Lsurf. rewrite (dget_filter_key (fun k => has_dim k (la surf))), Dv.
    assert (Q1 : has_dim d (la surf) = if String.eqb z d then false else has_dim d vol) by (unfold has_dim, dmem; rewrite Asurf; destruct (String.eqb z d); reflexivity).
    rewrite Q1. destruct (String.eqb z d); [reflexivity|]. destruct (has_dim d vol) eqn:Q; [reflexivity|].
    destruct (dget d LR) eqn:G; [|reflexivity]. apply HV in G. apply has_dim_names in G. congruence. }
  assert (Usl2 : NoDup (dkeys (lab sl2))) by (rewrite Lsl2, Lsl, Ls; repeat apply nodup_filter; exact Uprod).
  assert (Usurf : NoDup (dkeys (lab surf))) by (rewrite Lsurf; apply nodup_filter; exact Uv).
  assert (J3 : joined (lab sl2) (lab surf) = []).
  { apply dget_none_nil. intros d. rewrite (dget_joined _ _ _ Usl2), Lsea2, Lsurf2. destruct (String.eqb z d); [reflexivity|].
    destruct (dget d LR) as [ln|] eqn:G; [|destruct (has_dim d (la prod)); [destruct (dget d (lab prod))|]; reflexivity].
    rewrite (PD d (HV d ln G)), (LP d ln G). rewrite (proj2 (zlist_eqb_eq ln ln) eq_refl). reflexivity. }
  destruct (linner_inv _ _ _ _ Em Usl2 Usurf) as (Vm & Lm & _). cbn [la lab] in Vm, Lm. rewrite J3 in Vm, Lm.
  exists delta, masked. split; [reflexivity|].
  split; [cbn [dget]; rewrite (proj2 (String.eqb_neq variant "delta_rho") Hvar), String.eqb_refl; reflexivity|].
  split; [|split; [exact VDELTA|]].
  - intros d l G Nz. rewrite Lm, Lsea2, (PD d (HV d l G)), (LP d l G). rewrite (proj2 (String.eqb_neq z d) (fun Z => Nz (eq_sym Z))). reflexivity.
  - intros e W. rewrite Vm. cbn [at_ anotnull amap].
    assert (RN : forall L, relabel L [] e = e) by (intros L; reflexivity). rewrite !RN, Vsurf.
    assert (TB : forall b : bool, truth (fbool b) = b).
    { intros []; cbn; unfold Reqb; destruct (Req_EM_T _ _) as [Z|Z]; try reflexivity; [exfalso; exact (R1_neq_R0 Z)|exfalso; apply Z; reflexivity]. }
    rewrite TB. destruct (notnull (at_ vol (upd e z 0))); [|reflexivity].
    rewrite Vsl2, <- Tsl. cbn [const_l amap at_]. rewrite Vf, Vs, SZ. f_equal. apply fsum_ext. intros k Hk. rewrite VPROD; [reflexivity|].
    intros d l G. unfold upd. destruct (String.eqb_spec z d) as [<-|N]; [|apply W, G].
    assert (I2 := proj2 (has_dim_names z vol) Hz). unfold size_of, has_dim, dmem in *. destruct (dget z (adims vol)) as [nv|] eqn:G2; [|discriminate].
    rewrite <- (Hsz z nv l G2 G). exact Hk.
Qed.
