(** * PropertiesKinds: C177 and C178 (arguments of a wrong kind) *)
From Coq Require Import Reals List String Bool Arith ZArith Lra.
From Verif Require Import Num Py Arr ArrFacts Eos Derived Dataset Trend Kinds.
From Verif Require Import ProofsStericDemo.
Import ListNotations.
Local Open Scope string_scope.

Lemma coords_right cn : coords_any (arg_of cn) = Ok cn.
Proof. destruct cn; reflexivity. Qed.
Lemma setup_right ds patm eos cn i : setup_reference_state_any ds patm (Some eos) (arg_of cn) i = setup_reference_state ds patm eos cn i.
Proof. unfold setup_reference_state_any. rewrite coords_right. reflexivity. Qed.

(** ** C177: with arguments of the documented kinds every call behaves as modelled before, errors included. *)
Theorem C177_right : forall d reference cn vm rhozero patm eos variant domain strict,
  steric_any d (arg_of reference) (arg_of cn) vm rhozero patm (Some eos) variant domain strict =
  steric d reference cn vm rhozero patm eos variant domain strict.
Proof.
  intros. unfold steric_any, steric. rewrite coords_right. cbn [bind calc_rho_any]. destruct (ds_rename vm d); [|reflexivity]. cbn [bind].
  destruct reference; cbn [arg_of]; [reflexivity|]. rewrite setup_right. reflexivity.
Qed.
Print Assumptions C177_right.

Lemma bind_ok {A B} (r : res A) (f : A -> res B) b : bind r f = Ok b -> exists a, r = Ok a /\ f a = Ok b.
Proof. destruct r; [eauto|discriminate]. Qed.

(** No call with an argument of a wrong kind returns. *)
Theorem C177_returns : forall d Rf C vm rhozero patm E variant domain strict out,
  steric_any d Rf C vm rhozero patm E variant domain strict = Ok out <->
  exists reference cn eos, Rf = arg_of reference /\ C = arg_of cn /\ E = Some eos /\
    steric d reference cn vm rhozero patm eos variant domain strict = Ok out.
Proof.
  intros. split.
  - intros H. assert (HC : exists cn, C = arg_of cn).
    { destruct C as [|c|]; [exists None; reflexivity|exists (Some c); reflexivity|]. unfold steric_any in H. apply bind_ok in H as (? & _ & H). discriminate. }
    assert (HR : exists reference, Rf = arg_of reference).
    { destruct Rf as [|r|]; [exists None; reflexivity|exists (Some r); reflexivity|]. unfold steric_any in H.
      do 2 (apply bind_ok in H as (? & _ & H)). destruct (default_coords _) as [[t z] zb]. do 3 (apply bind_ok in H as (? & _ & H)). discriminate. }
    assert (HE : exists eos, E = Some eos).
    { destruct E as [e|]; [eauto|]. unfold steric_any in H. do 2 (apply bind_ok in H as (? & _ & H)). destruct (default_coords _) as [[t z] zb].
      do 6 (apply bind_ok in H as (? & _ & H)). discriminate. }
    destruct HC as [cn ->], HR as [reference ->], HE as [eos ->]. rewrite C177_right in H. eauto 10.
  - intros (reference & cn & eos & -> & -> & -> & H). rewrite C177_right. exact H.
Qed.
Print Assumptions C177_returns.

(** If a call returns, the same call with any of the three arguments replaced by something of a wrong kind raises AssertionError. *)
Theorem C177_wrong : forall d reference cn vm rhozero patm eos variant domain strict out Rf C E,
  steric d reference cn vm rhozero patm eos variant domain strict = Ok out ->
  Rf = arg_of reference \/ Rf = AWrong -> C = arg_of cn \/ C = AWrong -> E = Some eos \/ E = None ->
  Rf = AWrong \/ C = AWrong \/ E = None ->
  steric_any d Rf C vm rhozero patm E variant domain strict = Err AssertionError.
Proof.
  intros d reference cn vm rhozero patm eos variant domain strict out Rf C E H HR HC HE W. unfold steric in H. unfold steric_any.
  apply bind_ok in H as (ds & -> & H). cbn [bind]. destruct HC as [-> | ->]; [|reflexivity]. rewrite coords_right. cbn [bind].
  destruct (default_coords cn) as [[t z] zb] eqn:D. apply bind_ok in H as ([] & -> & H). cbn [bind]. apply bind_ok in H as (zl & Z & H). rewrite Z. cbn [bind].
  apply bind_ok in H as (pres & P & H). rewrite P. cbn [bind]. destruct HR as [-> | ->]; [|reflexivity].
  destruct HE as [-> | ->]; [exfalso; destruct W as [W|[W|W]]; [destruct reference|destruct cn|]; discriminate|].
  destruct reference as [r|]; cbn [arg_of bind] in *.
  - apply bind_ok in H as ([] & -> & H). cbn [bind]. apply bind_ok in H as (ts & -> & H). reflexivity.
  - apply bind_ok in H as (r & S & _). unfold setup_reference_state in S. unfold setup_reference_state_any. rewrite coords_right. cbn [bind]. rewrite D in *.
    apply bind_ok in S as (? & -> & S). cbn [bind]. apply bind_ok in S as (? & -> & S). cbn [bind].
    do 3 (apply bind_ok in S as (? & S1 & S); rewrite S1; clear S1; cbn [bind]). reflexivity.
Qed.
Print Assumptions C177_wrong.

Example C177_case : exists out, steric demo None None None 1035 (scalar (Fin 101325)) "Linear" "thermosteric" "local" true = Ok out /\
  steric_any demo ANone ANone None 1035 (scalar (Fin 101325)) (Some "Linear") "thermosteric" "local" true = Ok out /\
  steric_any demo AWrong ANone None 1035 (scalar (Fin 101325)) (Some "Linear") "thermosteric" "local" true = Err AssertionError /\
  steric_any demo ANone AWrong None 1035 (scalar (Fin 101325)) (Some "Linear") "thermosteric" "local" true = Err AssertionError /\
  steric_any demo ANone ANone None 1035 (scalar (Fin 101325)) None "thermosteric" "local" true = Err AssertionError.
Proof.
  destruct demo_thermosteric as (r & ref & sea & H & _). exists (r, ref). split; [exact H|]. split; [rewrite <- H; exact (C177_right demo None None None 1035 (scalar (Fin 101325)) "Linear" "thermosteric" "local" true)|].
  split; [|split]; (eapply C177_wrong; [exact H| | | |]); cbn [arg_of]; auto.
Qed.

(** ** C178: calc_linear_trend checks the kind of its argument; it reads the name first, so that most wrong arguments raise AttributeError. *)
Theorem C178_refuted : ~ (forall ix x names tu, (forall a, x <> XArray a) -> calc_linear_trend_any ix x names tu = Err AssertionError).
Proof.
  intros H. specialize (H (mkIx "time" true 2 (fun _ => 0%R)) XOther [] None (fun a => ltac:(discriminate))). discriminate.
Qed.
Print Assumptions C178_refuted.
Theorem C178_partial : forall ix x names tu,
  (forall a, x = XArray a -> calc_linear_trend_any ix x names tu = calc_linear_trend ix a tu) /\
  ((forall a, x <> XArray a) ->
     let readable := In "name" names \/ (exists vs, x = XDataset vs /\ In "name" (dkeys vs)) in
     (readable -> calc_linear_trend_any ix x names tu = Err AssertionError) /\ (~ readable -> calc_linear_trend_any ix x names tu = Err AttributeError)).
Proof.
  intros ix x names tu. split; [intros a ->; reflexivity|]. intros N readable.
  assert (S : forall l, smem "name" l = true <-> In "name" l) by (intros l; unfold smem; rewrite existsb_exists; split; [intros (q & I & Q); apply String.eqb_eq in Q; subst q; exact I|intros I; exists "name"; split; [exact I|reflexivity]]).
  destruct x as [a|vs|]; [exfalso; exact (N a eq_refl)| |]; cbn [calc_linear_trend_any].
  - destruct (smem "name" (dkeys vs ++ names)) eqn:M.
    + split; [reflexivity|]. intros X. exfalso. apply X. apply S, in_app_iff in M as [M|M]; [right; eauto|left; exact M].
    + split; [|reflexivity]. intros X. exfalso. assert (Y : smem "name" (dkeys vs ++ names) = true); [|congruence]. apply S, in_app_iff.
      destruct X as [X|(vs' & E & X)]; [right; exact X|left; congruence].
  - destruct (smem "name" names) eqn:M.
    + split; [reflexivity|]. intros X. exfalso. apply X. left. apply S, M.
    + split; [|reflexivity]. intros [X|(vs' & E & _)]; [|discriminate]. apply S in X. congruence.
Qed.
Print Assumptions C178_partial.
(** A list, and a dataset of gauges with a variable called name. *)
Example C178_case : forall ix v, calc_linear_trend_any ix XOther ["append"; "index"] None = Err AttributeError /\
  calc_linear_trend_any ix (XDataset [("name", v)]) [] None = Err AssertionError.
Proof. intros. split; reflexivity. Qed.
