(** * PropertiesCalls2: C179 (the ways of writing a call of steric) *)
From Coq Require Import Reals List String Bool Arith Lia Permutation.
From Verif Require Import Num Py Arr ArrFacts Derived Dataset Calls PropertiesCalls.
Import ListNotations.
Local Open Scope string_scope.

Lemma bind_front ps k x : ~ In k (map fst ps) -> forall args kw, bind_args ps args ((k, x) :: kw) = bind_args ps args kw.
Proof.
  induction ps as [|[p d] ps IH]; intros N args kw; [reflexivity|]. cbn [map fst In] in N.
  assert (Np : String.eqb p k = false) by (apply String.eqb_neq; intros E; apply N; left; exact E). assert (N' : ~ In k (map fst ps)) by (intros I; apply N; right; exact I).
  cbn [bind_args]. unfold dmem. cbn [dget]. rewrite Np. destruct args; rewrite (IH N'); reflexivity.
Qed.
Lemma bind_move ps : forall args kw p d v, NoDup (map fst ps) -> nth_error ps (List.length args) = Some (p, d) -> ~ In p (dkeys kw) ->
  bind_args ps (args ++ [v])%list kw = bind_args ps args ((p, v) :: kw).
Proof.
  induction ps as [|[q e] ps IH]; intros args kw p d v N Q K; [destruct args; discriminate|]. inversion N as [|? ? N1 N2]; subst. destruct args as [|a args]; cbn [app bind_args].
  - cbn in Q. injection Q as -> ->. rewrite (proj2 (dmem_false p kw) K). cbn [dget]. rewrite String.eqb_refl. cbn [bind]. rewrite (bind_front ps p v N1). reflexivity.
  - cbn [List.length nth_error] in Q. assert (Nq : String.eqb q p = false).
    { apply String.eqb_neq. intros ->. apply N1, in_map_iff. exists (p, d). split; [reflexivity|exact (nth_error_In _ _ Q)]. }
    unfold dmem. cbn [dget]. rewrite Nq. rewrite (IH args kw p d v N2 Q K). reflexivity.
Qed.
Lemma call_move ps args kw p d v : NoDup (map fst ps) -> nth_error ps (List.length args) = Some (p, d) -> ~ In p (dkeys kw) ->
  call ps (args ++ [v])%list kw = call ps args ((p, v) :: kw).
Proof.
  intros N Q K. unfold call. cbn [dkeys map fst forallb].
  rewrite (proj2 (dmem_true p ps)); [|apply in_map_iff; exists (p, d); split; [reflexivity|exact (nth_error_In _ _ Q)]]. cbn [andb]. rewrite (bind_move ps args kw p d v N Q K). reflexivity.
Qed.

(** ** C179: giving the last positional argument by keyword instead changes nothing, for steric and for the wrappers. *)
Theorem C179_keyword : forall variant args kw p d v, nth_error steric_params (List.length args) = Some (p, d) -> ~ In p (dkeys kw) ->
  steric_call (args ++ [v]) kw = steric_call args ((p, v) :: kw) /\ wrapper_call variant (args ++ [v]) kw = wrapper_call variant args ((p, v) :: kw).
Proof.
  intros variant args kw p d v Q K. split; [exact (call_move _ _ _ p d v params_nodup Q K)|].
  unfold wrapper_call, dmem. cbn [dget]. destruct (String.eqb_spec "variant" p) as [<-|N].
  - (* the eighth argument is variant: both are rejected *)
    destruct (dget "variant" kw); [reflexivity|]. assert (L : List.length args = 7%nat).
    { assert (X := proj1 (NoDup_nth_error (map fst steric_params)) params_nodup (List.length args) 7%nat). apply X.
      - rewrite map_length. apply nth_error_Some. congruence.
      - rewrite (map_nth_error fst _ _ Q). reflexivity. }
    destruct (wrapper_call variant (args ++ [v])%list kw) as [b|e] eqn:W.
    + apply C176_wrapper in W as (X & _). rewrite app_length in X. cbn in X. lia.
    + assert (E := C176_rejected variant (args ++ [v])%list kw e (or_intror W)). subst e. unfold wrapper_call, dmem in W.
      apply dget_None in K. rewrite K in W. exact W.
  - destruct (dget "variant" kw); [reflexivity|]. unfold steric_call. rewrite (call_move steric_params args (kw ++ [("variant", PStr variant)])%list p d v params_nodup Q); [reflexivity|].
    unfold dkeys. rewrite map_app, in_app_iff. cbn. intros [X|[X|[]]]; [exact (K X)|congruence].
Qed.
Print Assumptions C179_keyword.

Lemma dget_perm {A} (k : string) (kw kw' : dict A) : Permutation kw kw' -> NoDup (dkeys kw) -> dget k kw = dget k kw'.
Proof.
  induction 1 as [|[q x] l l' P IH|[q x] [q' x'] l|l l' l'' P1 IH1 P2 IH2]; intros N.
  - reflexivity.
  - cbn [dkeys map fst] in N. inversion N; subst. cbn [dget]. destruct (String.eqb k q); [reflexivity|apply IH; assumption].
  - cbn [dget]. cbn [dkeys map fst] in N. inversion N as [|? ? N1 _]; subst. destruct (String.eqb_spec k q) as [E|], (String.eqb_spec k q') as [E'|]; try reflexivity. exfalso. apply N1. left. congruence.
  - rewrite (IH1 N). apply IH2. refine (Permutation_NoDup _ N). apply Permutation_map. exact P1.
Qed.
Lemma bind_perm ps : forall args kw kw', (forall k, dget k kw = dget k kw') -> bind_args ps args kw = bind_args ps args kw'.
Proof.
  induction ps as [|[p d] ps IH]; intros args kw kw' E; [reflexivity|]. cbn [bind_args]. unfold dmem. rewrite (E p). destruct args; rewrite (IH _ kw kw' E); reflexivity.
Qed.
Lemma call_perm ps args kw kw' : Permutation kw kw' -> NoDup (dkeys kw) -> call ps args kw = call ps args kw'.
Proof.
  intros P N. unfold call. rewrite (bind_perm ps args kw kw' (fun k => dget_perm k kw kw' P N)).
  assert (E : forallb (fun k => dmem k ps) (dkeys kw) = forallb (fun k => dmem k ps) (dkeys kw')); [|rewrite E; reflexivity].
  apply eq_true_iff_eq. rewrite !forallb_forall. assert (M : Permutation (dkeys kw) (dkeys kw')) by (apply Permutation_map; exact P).
  split; intros H k I; apply H; [exact (Permutation_in k (Permutation_sym M) I)|exact (Permutation_in k M I)].
Qed.

(** The order of the keywords does not matter. *)
Theorem C179_order : forall variant args kw kw', NoDup (dkeys kw) -> Permutation kw kw' ->
  steric_call args kw = steric_call args kw' /\ wrapper_call variant args kw = wrapper_call variant args kw'.
Proof.
  intros variant args kw kw' N P. split; [exact (call_perm _ _ _ _ P N)|]. unfold wrapper_call, dmem. rewrite (dget_perm "variant" kw kw' P N).
  destruct (dget "variant" kw') eqn:G; [reflexivity|]. apply call_perm; [apply Permutation_app_tail; exact P|].
  unfold dkeys. rewrite map_app. cbn [map fst]. apply (Permutation_NoDup (l := "variant" :: dkeys kw)); [apply Permutation_cons_append|].
  apply NoDup_cons; [|exact N]. rewrite <- (dget_perm "variant" kw kw' P N) in G. apply dget_None. exact G.
Qed.
Print Assumptions C179_order.

(** A default spelled out changes nothing. *)
Theorem C179_default : forall args kw p v b, In (p, Some v) steric_params -> steric_call args kw = Ok b ->
  (forall i d, nth_error steric_params i = Some (p, d) -> (List.length args <= i)%nat) -> ~ In p (dkeys kw) -> steric_call args ((p, v) :: kw) = Ok b.
Proof.
  assert (G : forall ps args kw p v b, NoDup (map fst ps) -> In (p, Some v) ps -> bind_args ps args kw = Ok b ->
    (forall i d, nth_error ps i = Some (p, d) -> (List.length args <= i)%nat) -> ~ In p (dkeys kw) -> bind_args ps args ((p, v) :: kw) = Ok b).
  { induction ps as [|[q e] ps IH]; intros args kw p v b N I H L K; [destruct I|]. inversion N as [|? ? N1 N2]; subst. destruct (string_dec q p) as [->|Nq].
    - assert (e = Some v) as ->. { destruct I as [I|I]; [congruence|]. exfalso. apply N1, in_map_iff. exists (p, Some v). split; [reflexivity|exact I]. }
      assert (L0 := L 0%nat (Some v) eq_refl). destruct args; [|cbn in L0; lia]. cbn [bind_args] in *. apply dget_None in K. rewrite K in H. cbn [dget]. rewrite String.eqb_refl. cbn [bind] in *. rewrite (bind_front ps p v N1). exact H.
    - assert (I' : In (p, Some v) ps) by (destruct I as [I|I]; [congruence|exact I]). assert (E : String.eqb q p = false) by (apply String.eqb_neq; exact Nq).
      destruct args as [|a args]; cbn [bind_args] in *; unfold dmem in *; cbn [dget]; rewrite E.
      + apply bind_ok in H as (w & W & H). rewrite W. cbn [bind]. apply bind_ok in H as (r & Hr & H). rewrite (IH [] kw p v r N2 I' Hr); [exact H| |exact K]. intros; cbn; lia.
      + destruct (dget q kw); [discriminate|]. apply bind_ok in H as (r & Hr & H). rewrite (IH args kw p v r N2 I' Hr); [exact H| |exact K]. intros i d Q. specialize (L (S i) d Q). cbn in L. lia. }
  intros args kw p v b I H L K. unfold steric_call, call in *. cbn [dkeys map fst forallb]. rewrite (proj2 (dmem_true p steric_params)); [|apply in_map_iff; exists (p, Some v); split; [reflexivity|exact I]].
  cbn [andb]. fold (dkeys kw). destruct (forallb _ _); [|discriminate]. exact (G _ _ _ _ _ _ params_nodup I H L K).
Qed.
Print Assumptions C179_default.

Example C179_case : steric_call [PObj 1; PObj 2] [("domain", PStr "global")] = steric_call [] [("domain", PStr "global"); ("reference", PObj 2); ("dset", PObj 1)] /\
  steric_call [PObj 1] [] = steric_call [PObj 1] [("strict", PBool true); ("domain", PStr "local")] /\ (exists b, steric_call [PObj 1; PObj 2] [("domain", PStr "global")] = Ok b).
Proof. repeat split. eexists. reflexivity. Qed.
