(** * PropertiesCalls: C176 (arguments of steric and its wrappers, verbose) *)
From Coq Require Import Reals List String Bool Arith Lia Lra.
From Verif Require Import Num Py Arr ArrFacts Derived Dataset Calls.
Import ListNotations.
Local Open Scope string_scope.

Lemma bind_ok {A B} (r : res A) (f : A -> res B) b : bind r f = Ok b -> exists a, r = Ok a /\ f a = Ok b.
Proof. destruct r; [eauto|discriminate]. Qed.
Lemma Ok_eq {A} (a b : A) : Ok a = Ok b -> a = b.
Proof. congruence. Qed.

Lemma args_values ps : forall args kw b, NoDup (map fst ps) -> bind_args ps args kw = Ok b ->
  (List.length args <= List.length ps)%nat /\ map fst b = map fst ps /\
  forall i p d, nth_error ps i = Some (p, d) ->
    dget p b = match nth_error args i with Some v => Some v | None => match dget p kw with Some v => Some v | None => d end end /\
    (forall v, nth_error args i = Some v -> ~ In p (dkeys kw)).
Proof.
  induction ps as [|[p d] ps IH]; intros args kw b N H.
  - destruct args; [|discriminate]. injection H as <-. split; [cbn; lia|]. split; [reflexivity|]. intros [|i] q e E; discriminate.
  - inversion N as [|? ? N1 N2]; subst.
    assert (Skip : forall (r : dict pyval) q e i, map fst r = map fst ps -> nth_error ps i = Some (q, e) -> forall v, dget q ((p, v) :: r) = dget q r).
    { intros r q e i _ Q v. cbn [dget]. destruct (String.eqb_spec q p) as [->|]; [|reflexivity]. exfalso. apply N1, in_map_iff. exists (p, e). split; [reflexivity|exact (nth_error_In _ _ Q)]. }
    destruct args as [|v args]; cbn [bind_args] in H.
    + apply bind_ok in H as (v & Ev & H). apply bind_ok in H as (r & Er & H). apply Ok_eq in H. subst b.
      destruct (IH [] kw r N2 Er) as (_ & K & V). split; [cbn; lia|]. split; [cbn [map fst]; rewrite K; reflexivity|]. intros [|i] q e Q.
      * injection Q as <- <-. cbn [dget nth_error]. rewrite String.eqb_refl. split; [|discriminate]. destruct (dget p kw); [congruence|]. destruct d; congruence.
      * cbn [nth_error] in Q. rewrite (Skip r q e i K Q). destruct (V i q e Q) as [V1 _]. rewrite V1. destruct i; cbn [nth_error]; split; try reflexivity; discriminate.
    + destruct (dmem p kw) eqn:M; [discriminate|]. apply bind_ok in H as (r & Er & H). apply Ok_eq in H. subst b.
      destruct (IH args kw r N2 Er) as (L & K & V). split; [cbn; lia|]. split; [cbn [map fst]; rewrite K; reflexivity|]. intros [|i] q e Q.
      * injection Q as <- <-. cbn [dget nth_error]. rewrite String.eqb_refl. split; [reflexivity|]. intros _ _. apply dmem_false. exact M.
      * cbn [nth_error] in *. rewrite (Skip r q e i K Q). exact (V i q e Q).
Qed.

Lemma params_nodup : NoDup (map fst steric_params).
Proof. cbn. repeat (apply NoDup_cons; [cbn; intuition discriminate|]). apply NoDup_nil. Qed.

(** ** C176: a call that is accepted gives every parameter its positional argument, else its keyword, else the documented default; none is
    given twice, and every keyword names a parameter. *)
Theorem C176_values : forall args kw b, steric_call args kw = Ok b ->
  (List.length args <= 13)%nat /\ (forall k, In k (dkeys kw) -> In k (map fst steric_params)) /\ dkeys b = map fst steric_params /\
  forall i p d, nth_error steric_params i = Some (p, d) ->
    dget p b = match nth_error args i with Some v => Some v | None => match dget p kw with Some v => Some v | None => d end end /\
    (forall v, nth_error args i = Some v -> ~ In p (dkeys kw)).
Proof.
  intros args kw b H. unfold steric_call, call in H. destruct (forallb _ _) eqn:F; [|discriminate].
  destruct (args_values _ _ _ _ params_nodup H) as (L & K & V). split; [exact L|]. split; [|split; [exact K|exact V]].
  intros k I. rewrite forallb_forall in F. apply dmem_true. exact (F k I).
Qed.
Print Assumptions C176_values.

Lemma args_total ps : forall args kw, (List.length args <= List.length ps)%nat ->
  (forall i p d v, nth_error ps i = Some (p, d) -> nth_error args i = Some v -> ~ In p (dkeys kw)) ->
  (forall i p, nth_error ps i = Some (p, None) -> (i < List.length args)%nat \/ In p (dkeys kw)) -> exists b, bind_args ps args kw = Ok b.
Proof.
  induction ps as [|[p d] ps IH]; intros args kw L D M.
  - destruct args; [eexists; reflexivity|cbn in L; lia].
  - destruct args as [|v args]; cbn [bind_args].
    + assert (E : exists v, match dget p kw with Some v => Ok v | None => match d with Some v => Ok v | None => Err TypeError end end = Ok v).
      { destruct (dget p kw) eqn:G; [eauto|]. destruct d; [eauto|]. exfalso. apply dget_None in G. destruct (M 0%nat p eq_refl) as [X|X]; [cbn in X; lia|contradiction]. }
      destruct E as [v ->]. cbn [bind]. destruct (IH [] kw) as [b ->].
      * cbn; lia.
      * intros [|i] q e w _ E; discriminate.
      * intros i q Q. destruct (M (S i) q Q) as [X|X]; [cbn in X; lia|right; exact X].
      * eexists; reflexivity.
    + rewrite (proj2 (dmem_false p kw) (D 0%nat p d v eq_refl eq_refl)). destruct (IH args kw) as [b ->].
      * cbn in L; lia.
      * intros i q e w Q W. exact (D (S i) q e w Q W).
      * intros i q Q. destruct (M (S i) q Q) as [X|X]; [cbn in X; left; lia|right; exact X].
      * eexists; reflexivity.
Qed.
(** A call is accepted exactly when it gives dset, uses known keywords and gives no parameter twice. *)
Theorem C176_accepted : forall args kw,
  (exists b, steric_call args kw = Ok b) <->
  (List.length args <= 13)%nat /\ (forall k, In k (dkeys kw) -> In k (map fst steric_params)) /\
  (forall i p d v, nth_error steric_params i = Some (p, d) -> nth_error args i = Some v -> ~ In p (dkeys kw)) /\ (args <> [] \/ In "dset" (dkeys kw)).
Proof.
  intros args kw. split.
  - intros (b & H). destruct (C176_values _ _ _ H) as (L & F & _ & V). split; [exact L|]. split; [exact F|]. split; [intros i p d v Q W; exact (proj2 (V i p d Q) v W)|].
    destruct args; [right|left; discriminate]. destruct (in_dec string_dec "dset" (dkeys kw)) as [|N]; [assumption|]. exfalso.
    unfold steric_call, call in H. destruct (forallb _ _); [|discriminate]. cbn [steric_params bind_args] in H. apply dget_None in N. rewrite N in H. discriminate.
  - intros (L & F & D & M). unfold steric_call, call. destruct (forallb (fun k => dmem k steric_params) (dkeys kw)) eqn:E.
    + apply args_total; [exact L|exact D|]. intros i p Q. assert (i = 0%nat /\ p = "dset") as [-> ->].
      { destruct i as [|i]; [injection Q as <-; auto|]. do 12 (destruct i as [|i]; [discriminate Q|]). destruct i; discriminate Q. }
      destruct M as [M|M]; [left; destruct args; [contradiction M; reflexivity|cbn; lia]|right; exact M].
    + exfalso. assert (X : forallb (fun k => dmem k steric_params) (dkeys kw) = true) by (apply forallb_forall; intros k I; apply dmem_true, F, I). congruence.
Qed.
Print Assumptions C176_accepted.

Lemma dget_app_other {A} k k' (x : A) kw : k <> k' -> dget k (kw ++ [(k', x)])%list = dget k kw.
Proof. intros N. induction kw as [|[q v] kw IH]; cbn [app dget]; [destruct (String.eqb_spec k k'); [contradiction|reflexivity]|]. destruct (String.eqb k q); [reflexivity|exact IH]. Qed.
Lemma dget_app_new {A} k (x : A) kw : ~ In k (dkeys kw) -> dget k (kw ++ [(k, x)])%list = Some x.
Proof.
  induction kw as [|[q v] kw IH]; cbn [app dget dkeys map fst In]; intros N; [rewrite String.eqb_refl; reflexivity|].
  destruct (String.eqb_spec k q) as [->|]; [exfalso; apply N; left; reflexivity|]. apply IH. intros I. apply N. right. exact I.
Qed.
Lemma bind_other ps k x : ~ In k (map fst ps) -> forall args kw, bind_args ps args (kw ++ [(k, x)])%list = bind_args ps args kw.
Proof.
  induction ps as [|[p d] ps IH]; intros N args kw; [reflexivity|]. cbn [map fst In] in N.
  assert (Np : p <> k) by (intros E; apply N; left; exact E). assert (N' : ~ In k (map fst ps)) by (intros I; apply N; right; exact I).
  cbn [bind_args]. unfold dmem. rewrite (dget_app_other p k x kw Np). destruct args; rewrite (IH N'); reflexivity.
Qed.
Definition res_map {A B} (f : A -> B) (r : res A) : res B := match r with Ok a => Ok (f a) | Err e => Err e end.
Lemma bind_with pre k d x post : ~ In k (map fst pre) -> ~ In k (map fst post) -> forall args kw, ~ In k (dkeys kw) ->
  bind_args (pre ++ (k, Some d) :: post) args (kw ++ [(k, x)])%list =
  if (List.length args <=? List.length pre)%nat then res_map (dset k x) (bind_args (pre ++ (k, Some d) :: post) args kw) else match bind_args (pre ++ (k, Some d) :: post) args (kw ++ [(k, x)])%list with Ok _ => Err TypeError | e => e end.
Proof.
  intros N1 N2. induction pre as [|[p e] pre IH]; intros args kw K; cbn [app List.length].
  - destruct args as [|v args]; cbn [List.length Nat.leb bind_args].
    + rewrite (dget_app_new k x kw K). apply dget_None in K. unfold dkeys in K. rewrite K. cbn [bind]. rewrite (bind_other post k x N2).
      destruct (bind_args post [] kw); cbn [bind res_map]; [|reflexivity]. cbn [dset]. rewrite String.eqb_refl. reflexivity.
    + unfold dmem. rewrite (dget_app_new k x kw K). reflexivity.
  - cbn [map fst In] in N1. assert (Np : p <> k) by (intros E; apply N1; left; exact E). assert (N1' : ~ In k (map fst pre)) by (intros I; apply N1; right; exact I). specialize (IH N1').
    assert (Kp : String.eqb k p = false) by (apply String.eqb_neq; congruence).
    destruct args as [|v args]; cbn [List.length Nat.leb bind_args]; unfold dmem; rewrite (dget_app_other p k x kw Np).
    + destruct (match dget p kw with Some v => Ok v | None => match e with Some v => Ok v | None => Err TypeError end end); cbn [bind res_map]; [|reflexivity].
      rewrite (IH [] kw K). cbn [List.length Nat.leb]. destruct (bind_args (pre ++ (k, Some d) :: post) [] kw); cbn [bind res_map]; [|reflexivity]. cbn [dset]. rewrite Kp. reflexivity.
    + destruct (dget p kw); [destruct (_ <=? _)%nat; reflexivity|]. rewrite (IH args kw K). destruct (List.length args <=? List.length pre)%nat eqn:E.
      * destruct (bind_args (pre ++ (k, Some d) :: post) args kw); cbn [bind res_map]; [|reflexivity]. cbn [dset]. rewrite Kp. reflexivity.
      * destruct (bind_args (pre ++ (k, Some d) :: post) args (kw ++ [(k, x)])%list); reflexivity.
Qed.

(** The wrappers accept exactly the calls of steric that leave variant alone and pass at most seven arguments by position, and then differ from
    them in variant only. *)
Theorem C176_wrapper : forall variant args kw b,
  wrapper_call variant args kw = Ok b <->
  (List.length args <= 7)%nat /\ ~ In "variant" (dkeys kw) /\ exists b0, steric_call args kw = Ok b0 /\ b = dset "variant" (PStr variant) b0.
Proof.
  intros variant args kw b. unfold wrapper_call. destruct (dmem "variant" kw) eqn:M.
  - split; [discriminate|]. intros (_ & N & _). exfalso. apply N, dmem_true, M.
  - apply dmem_false in M. unfold steric_call, call. unfold dkeys at 1. rewrite map_app, forallb_app. cbn [map fst forallb].
    change (dmem "variant" steric_params) with true. rewrite !andb_true_r. fold (dkeys kw). destruct (forallb _ (dkeys kw)).
    + pose (pre := firstn 7 steric_params). pose (post := skipn 8 steric_params).
      assert (N1 : ~ In "variant" (map fst pre)) by (cbn; intuition discriminate). assert (N2 : ~ In "variant" (map fst post)) by (cbn; intuition discriminate).
      assert (W := bind_with pre "variant" (PStr "steric") (PStr variant) post N1 N2 args kw M).
      change (pre ++ ("variant", Some (PStr "steric")) :: post)%list with steric_params in W. change (List.length pre) with 7%nat in W.
      destruct (Nat.leb_spec (List.length args) 7) as [L|L].
      * rewrite W. destruct (bind_args steric_params args kw) as [b0|]; cbn [res_map]; split.
        -- intros H. apply Ok_eq in H. split; [exact L|]. split; [exact M|]. exists b0. split; [reflexivity|congruence].
        -- intros (_ & _ & b1 & E & ->). congruence.
        -- discriminate.
        -- intros (_ & _ & b1 & E & _). discriminate.
      * destruct (bind_args steric_params args (kw ++ [("variant", PStr variant)])%list); [discriminate|]. split; [discriminate|intros (X & _); lia].
    + split; [discriminate|]. intros (_ & _ & b0 & E & _). discriminate.
Qed.
Print Assumptions C176_wrapper.

(** The defaults: a call with nothing but a dataset, given either way, and the same for the wrappers. *)
Theorem C176_defaults : forall v,
  let b s := [("dset", v); ("reference", PNone); ("coord_names", PNone); ("varname_map", PNone); ("rhozero", PReal 1035); ("patm", PReal 101325);
    ("equation_of_state", PStr "Wright"); ("variant", PStr s); ("domain", PStr "local"); ("dtype", PStr "float32"); ("strict", PBool true);
    ("annual", PBool false); ("verbose", PBool false)] in
  steric_call [v] [] = Ok (b "steric") /\ steric_call [] [("dset", v)] = Ok (b "steric") /\
  thermosteric_call [v] [] = Ok (b "thermosteric") /\ thermosteric_call [] [("dset", v)] = Ok (b "thermosteric") /\
  halosteric_call [v] [] = Ok (b "halosteric") /\ halosteric_call [] [("dset", v)] = Ok (b "halosteric").
Proof. intros v b. repeat split. Qed.
Print Assumptions C176_defaults.

(** Every rejected call raises TypeError. *)
Theorem C176_rejected : forall variant args kw e, steric_call args kw = Err e \/ wrapper_call variant args kw = Err e -> e = TypeError.
Proof.
  assert (B : forall ps args kw e, bind_args ps args kw = Err e -> e = TypeError).
  { induction ps as [|[p d] ps IH]; intros args kw e H; cbn [bind_args] in H.
    - destruct args; congruence.
    - destruct args as [|v args].
      + destruct (dget p kw); [|destruct d; [|cbn in H; congruence]]; cbn [bind] in H; (destruct (bind_args ps [] kw) eqn:E; cbn [bind] in H; [discriminate|]; assert (X : e = e0) by congruence; rewrite X; exact (IH _ _ _ E)).
      + destruct (dmem p kw); [congruence|]. destruct (bind_args ps args kw) eqn:E; cbn [bind] in H; [discriminate|]. assert (X : e = e0) by congruence. rewrite X. exact (IH _ _ _ E). }
  assert (C : forall args kw e, steric_call args kw = Err e -> e = TypeError).
  { intros args kw e H. unfold steric_call, call in H. destruct (forallb _ _); [exact (B _ _ _ _ H)|congruence]. }
  intros variant args kw e [H|H]; [exact (C _ _ _ H)|]. unfold wrapper_call in H. destruct (dmem "variant" kw); [congruence|exact (C _ _ _ H)].
Qed.
Print Assumptions C176_rejected.

(** Printing: a call that returns prints one line, saying where the reference state comes from, if verbose is set, and nothing otherwise; no
    call prints more. *)
Theorem C176_verbose : forall d reference cn vm rhozero patm eos variant domain strict verbose,
  (forall out, steric d reference cn vm rhozero patm eos variant domain strict = Ok out ->
     steric_prints d reference cn vm patm eos domain strict verbose =
       if verbose then [match reference with Some _ => "Using supplied reference state" | None => "Generating reference state from first timestep" end] else []) /\
  (steric_prints d reference cn vm patm eos domain strict verbose <> [] -> verbose = true) /\
  (List.length (steric_prints d reference cn vm patm eos domain strict verbose) <= 1)%nat.
Proof.
  intros d reference cn vm rhozero patm eos variant domain strict verbose. unfold steric, steric_prints.
  destruct (ds_rename vm d) as [ds|]; cbn [bind]; [|repeat split; [discriminate|congruence|cbn; lia]].
  destruct (default_coords cn) as [[t z] zb]. destruct (validate_dataset ds false strict _); cbn [bind]; [|repeat split; [discriminate|congruence|cbn; lia]].
  destruct (ds_get z ds); cbn [bind]; [|repeat split; [discriminate|congruence|cbn; lia]].
  destruct (aadd _ patm); cbn [bind]; [|repeat split; [discriminate|congruence|cbn; lia]].
  destruct reference as [r|]; cbn [bind].
  - destruct verbose; repeat split; try congruence; cbn; lia.
  - destruct (setup_reference_state ds patm eos cn 0); cbn [bind]; [|repeat split; [discriminate|congruence|cbn; lia]]. destruct verbose; repeat split; try congruence; cbn; lia.
Qed.
Print Assumptions C176_verbose.

(** A call with keywords; the same arguments up to domain by position are accepted by steric and rejected by thermosteric. *)
Example C176_case :
  (exists b, thermosteric_call [PObj 1; PObj 2] [("domain", PStr "global"); ("strict", PBool false)] = Ok b /\ dget "variant" b = Some (PStr "thermosteric") /\
     dget "domain" b = Some (PStr "global") /\ dget "reference" b = Some (PObj 2) /\ dget "rhozero" b = Some (PReal 1035)) /\
  (let args := [PObj 1; PNone; PNone; PNone; PReal 1035; PReal 101325; PStr "Wright"; PStr "thermosteric"; PStr "global"] in
   (exists b, steric_call args [] = Ok b) /\ thermosteric_call args [] = Err TypeError) /\
  thermosteric_call [PObj 1] [("variant", PStr "thermosteric")] = Err TypeError /\ steric_call [] [] = Err TypeError.
Proof. repeat split; try reflexivity; eexists; repeat split; reflexivity. Qed.
