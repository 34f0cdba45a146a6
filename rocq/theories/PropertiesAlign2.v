(** * PropertiesAlign2: C112 on a reference with other labels, C113 *)
From Coq Require Import Reals ZArith Lra Lia List String Bool Arith.
From Verif Require Import Num NumFacts Py Arr ArrFacts Eos SpecEos Derived Dataset SpecSteric ProofsEosApi ProofsUtil ProofsFields ProofsDz ProofsSteric
  ProofsStericOk ProofsSteric2 ProofsStericDemo Align ProofsAlign ProofsAlign2 PropertiesAlign.
Import ListNotations.
Local Open Scope string_scope.

(** The density computed from the dataset alone, and its labels. *)
Lemma rho_from_dataset D (T Sa : arr) zl zcoord (patm : arr) zL p eos m rho :
  NoDup (dkeys (ld_lab D)) -> same_name eos (module_name m) ->
  ds_get zcoord (ld_vars D) = Ok zl -> ld_get zcoord D = Ok zL ->
  linner fadd (mkL (const_r fmul (la zL) (Fin 10000%R)) (lab zL)) (mkL patm []) = Ok p ->
  lcalc_rho (mkL T (filter (fun q => has_dim (fst q) T) (ld_lab D))) (mkL Sa (filter (fun q => has_dim (fst q) Sa) (ld_lab D))) p eos = Ok rho ->
  (forall e, at_ (la rho) e = eos_apply false (m, FDensity) (at_ T e) (at_ Sa e) (fadd (fmul (at_ zl e) (Fin 10000)) (at_ patm e))) /\
  NoDup (dkeys (lab rho)) /\
  (forall d, In d (names T) -> dget d (lab rho) = dget d (ld_lab D)) /\
  (forall d l, dget d (lab rho) = Some l -> dget d (ld_lab D) = Some l) /\
  (forall d, In d (names T) -> dget d (adims (la rho)) = dget d (adims T)).
Proof.
  intros U Hm Gz GL HP HR. rewrite (ld_get_ok _ _ _ Gz) in GL. apply Ok_inj in GL. subst zL. cbn [la lab] in HP.
  destruct (linner_inv _ _ _ _ HP (nodup_filter _ _ U) (NoDup_nil _)) as (Vp & Lp & Up & _). cbn [la lab] in Vp, Lp.
  assert (JN : forall L : labels, joined L [] = []) by (intros L; unfold joined; induction L as [|q L IH]; [reflexivity|exact IH]).
  rewrite JN in Vp, Lp.
  unfold lcalc_rho in HR. rewrite (proj2 (eos_resolves eos m FDensity) Hm) in HR. cbn [bind] in HR.
  apply bind_inv in HR. destruct HR as (u1 & _ & HR). apply bind_inv in HR. destruct HR as (u2 & _ & HR).
  apply bind_inv in HR. destruct HR as (c & Ec & HR). apply Ok_inj in HR. subst rho. cbn [la lab] in *.
  apply eos_ufunc_inv in Ec. subst c. cbn [at_].
  assert (LR : forall d, dget d (merge_labels (merge_labels (filter (fun q => has_dim (fst q) T) (ld_lab D)) (filter (fun q => has_dim (fst q) Sa) (ld_lab D))) (lab p))
    = if has_dim d T || has_dim d Sa || has_dim d zl then dget d (ld_lab D) else None).
  { intros d. rewrite !dget_merge, Lp.
    rewrite (dget_filter_key (fun k => has_dim k T)), (dget_filter_key (fun k => has_dim k Sa)), (dget_filter_key (fun k => has_dim k zl)).
    unfold resize. cbn [dget]. destruct (has_dim d T), (has_dim d Sa), (has_dim d zl); cbn [orb]; destruct (dget d (ld_lab D)); reflexivity. }
  split; [|split; [|split; [|split]]].
  - intros e. rewrite Vp. reflexivity.
  - repeat apply nodup_merge; try apply nodup_filter; assumption.
  - intros d I. rewrite LR. apply has_dim_names in I. rewrite I. reflexivity.
  - intros d l E. rewrite LR in E. destruct (_ || _) in E; [exact E|discriminate].
  - intros d I. cbn [adims]. rewrite !dget_union. apply has_dim_names in I. unfold has_dim, dmem in I. destruct (dget d (adims T)); [reflexivity|discriminate].
Qed.

Lemma fits_incl LD LR d l l' : fits LD LR -> dget d LD = Some l -> dget d LR = Some l' -> incl l' l.
Proof.
  intros F A B. destruct (zlist_eqb l l') eqn:Z; [apply zlist_eqb_eq in Z; subst; apply incl_refl|].
  assert (E : J LD LR d = Some (zinter l l')) by (unfold J; rewrite A, B, Z; reflexivity).
  apply F in E. rewrite B in E. injection E as ->. unfold zinter. intros x I. apply filter_In in I. exact (proj1 I).
Qed.

(** C112: a reference on other labels.  A local height is only returned when every labelled
    cell of the reference is a cell of the dataset; each anomaly then compares the cell of the
    reference with the cell of the dataset that has the same labels, and its weight is the
    thickness of that cell. *)
Theorem C112_common_cells : forall D R cn rhozero patm eos m domain strict r R' t z zb T Sa vol rho0 zl ifaces depth dz,
  lsteric D R cn rhozero patm eos "steric" domain strict = Ok (r, R') -> domain <> "global" ->
  default_coords cn = (t, z, zb) -> same_name eos (module_name m) ->
  one_index (ld_lab D) -> one_index (ld_lab R) -> (forall d l, dget d (ld_lab R) = Some l -> NoDup l) ->
  dget "thetao" (ld_vars D) = Some T -> dget "so" (ld_vars D) = Some Sa -> ds_get z (ld_vars D) = Ok zl ->
  ds_get zb (ld_vars D) = Ok ifaces -> dget "deptho" (ld_vars D) = Some depth ->
  calc_dz zl ifaces depth (Fin 0) None false = Ok dz ->
  dget "volcello" (ld_vars R) = Some vol -> dget "rho" (ld_vars R) = Some rho0 ->
  (forall d, In d (names rho0) <-> In d (names vol)) -> incl (names vol) (names T) -> In z (names vol) -> names zl = [z] ->
  (forall d, In d (names vol) -> d = z \/ In d (names depth)) ->
  (forall d l, dget d (ld_lab R) = Some l -> dget d (adims vol) = Some (List.length l)) ->
  (forall d l l', dget d (ld_lab D) = Some l -> dget d (ld_lab R) = Some l' -> incl l' l) /\
  exists delta sea, dget "delta_rho" r = Some delta /\ dget "steric" r = Some sea /\
    (forall d l, dget d (ld_lab R) = Some l -> d <> z -> dget d (lab sea) = Some l) /\
    forall e, within (ld_lab R) e ->
      let c := cell_of (ld_lab D) (ld_lab R) e in
      (forall x y, (forall b, at_ T c <> Inf b) -> (forall b, at_ Sa c <> Inf b) -> (forall b, at_ rho0 e <> Inf b) ->
         at_ zl c = Fin x -> at_ patm c = Fin y -> (forall tt ss, at_ T c = Fin tt -> at_ Sa c = Fin ss -> eos_defined m tt ss (10000 * x + y)) ->
         at_ (la delta) e = match (if notnull (at_ vol e) then cell_density m (at_ T c) (at_ Sa c) (10000 * x + y) else None), opt (at_ rho0 e) with
                            | Some d1, Some d0 => Fin (d1 - d0) | _, _ => NaN end) /\
      at_ (la sea) e = if notnull (at_ vol (upd e z 0))
        then fmul (Fin (-1 / rhozero)) (fsum (size_of z vol) (fun k =>
               nan0 (fmul (at_ dz (cell_of (ld_lab D) (ld_lab R) (upd e z k))) (at_ (la delta) (upd e z k)))))
        else NaN.
Proof.
  intros D R cn rz patm eos m domain strict r R' t z zb T Sa vol rho0 zl ifaces depth dz H Hd Hcn Hm UD UR NR GT GS Gz Gzb GD Edz Gv Gr Hn0 HvT Hzv Hzl Hvd Hsz.
  unfold lsteric in H. rewrite Hcn in H. rewrite (proj2 (String.eqb_neq domain "global") Hd) in H.
  apply bind_inv in H. destruct H as (u0 & _ & H). apply bind_inv in H. destruct H as (zL & GzL & H).
  apply bind_inv in H. destruct H as (p & Ep & H). apply bind_inv in H. destruct H as (u1 & _ & H).
  apply bind_inv in H. destruct H as ([a b] & SF & H). apply bind_inv in H. destruct H as (rho & Erho & H).
  apply bind_inv in H. destruct H as (res & Eres & H). apply Ok_inj in H. injection H as -> <-.
  unfold lselect_fields in SF. cbn [String.eqb Ascii.eqb Bool.eqb] in SF.
  rewrite (ld_get_some _ _ _ GT), (ld_get_some _ _ _ GS) in SF. cbn [bind] in SF. apply Ok_inj in SF. injection SF as <- <-. cbn [fst snd] in Erho.
  destruct (rho_from_dataset D T Sa zl z patm zL p eos m rho UD Hm Gz GzL Ep Erho) as (Vr & Ur & Lr & Lr' & _).
  assert (Hdz : forall d, In d (names vol) -> In d (names dz)).
  { intros d I. apply calc_dz_inv in Edz. destruct Edz as (_ & z' & n & zi & ni & E1 & _ & _ & E2 & _). apply E2.
    unfold names in Hzl. rewrite E1 in Hzl. cbn in Hzl. injection Hzl as ->. specialize (Hvd d I). tauto. }
  assert (HV : forall d l, dget d (ld_lab R) = Some l -> In d (names vol)).
  { intros d l G. apply has_dim_names. unfold has_dim, dmem. rewrite (Hsz d l G). reflexivity. }
  destruct (local_common D R rho rz "steric" t z zb r vol rho0 zl ifaces depth dz Eres UD UR NR Ur (fun d I => Lr d (HvT d I)) Lr' HV Gv Gr Hn0 Gz Gzb GD Edz Hdz Hzv)
    as (F & delta & sea & E1 & E2 & E3 & E4 & E5).
  { intros d n l G1 G2. rewrite (Hsz d l G2) in G1. congruence. }
  { discriminate. }
  split; [intros d l l' A B; exact (fits_incl _ _ d l l' F A B)|].
  exists delta, sea. split; [exact E1|]. split; [exact E2|]. split; [exact E3|].
  intros e W c. split; [|exact (E5 e W)].
  intros x y NT NS N0 Vx Vy Def. rewrite (E4 e W). fold c. rewrite Vr, Vx, Vy. cbn [fmul fadd].
  replace (x * 10000 + y)%R with (10000 * x + y)%R by ring.
  rewrite (cell_change m _ _ _ _ (at_ vol e) NT NS N0 Def). unfold cell_density.
  destruct (notnull (at_ vol e)); [|reflexivity].
  destruct (opt (at_ T c)); [|reflexivity]. destruct (opt (at_ Sa c)); [|reflexivity]. destruct (opt (at_ rho0 e)); reflexivity.
Qed.
Print Assumptions C112_common_cells.

(** The demonstration dataset, its two columns in x labelled 1 and 2. *)
Definition demo_labelled : lds := mkLd demo [("xh", [1; 2]%Z)].
(** A reference on [n] columns in x labelled [l]. *)
Definition ref_on (l : list Z) : lds :=
  let d3 := [("z_l", 2%nat); ("yh", 2%nat); ("xh", List.length l)] in
  let f := fun x => mkArr d3 (fun _ => Fin x) in
  let s := fun x => mkArr [] (fun _ => Fin x) in
  mkLd [("thetao", f 10); ("so", f 35); ("volcello", f 1000); ("rho", f 1026); ("volo", s 4000); ("masso", s 4104000);
        ("rhoga", s 1026); ("areacello", mkArr [("yh", 2%nat); ("xh", List.length l)] (fun _ => Fin 1))]%R [("xh", l)].

Lemma demo_dz : exists f, calc_dz demo_zl demo_zi demo_D (Fin 0) None false = Ok (mkArr [("yh", 2%nat); ("xh", 2%nat); ("z_l", 2%nat)] f).
Proof.
  assert (H : is_ok (calc_dz demo_zl demo_zi demo_D (Fin 0) None false) = true).
  { destruct demo_regular. apply (dz_accept demo_zl demo_zi demo_D (Fin 0) None false "z_l" 2 "z_i"); try assumption.
    cbn. intuition discriminate. }
  destruct (calc_dz _ _ _ _ _ _) as [dz|] eqn:E; [|discriminate]. unfold calc_dz in E.
  apply bind_inv in E. destruct E as (u1 & _ & E). apply bind_inv in E. destruct E as (u2 & _ & E). apply bind_inv in E. destruct E as (u3 & _ & E).
  match type of E with ?x = _ => eassert (E' : x = Ok _) by reflexivity end.
  rewrite E' in E. apply Ok_inj in E. subst dz. eexists. reflexivity.
Qed.

Lemma demo_valid extra : extra = [] \/ extra = ["z_i"; "deptho"] -> validate_dataset demo false false extra = Ok tt.
Proof.
  intros [-> | ->]; unfold validate_dataset, validate_errors; cbn [demo dget String.eqb Ascii.eqb Bool.eqb]; destruct (validate_areacello _ _ _); reflexivity.
Qed.
Lemma ref_valid l : validate_dataset (ld_vars (ref_on l)) true false [] = Ok tt.
Proof.
  unfold validate_dataset, validate_errors; cbn [ref_on ld_vars dget String.eqb Ascii.eqb Bool.eqb]; destruct (validate_areacello _ _ _); reflexivity.
Qed.

(** One step of the computation: dimensions and labels are computed, values are not. *)
Ltac stp := match goal with |- exists r, bind ?x _ = _ =>
  match type of x with
  | res larr =>
    let d := eval lazy in (match x with Ok v => adims (la v) | Err _ => [] end) in
    let l := eval lazy in (match x with Ok v => lab v | Err _ => [] end) in
    let H := fresh in let f := fresh "f" in
    assert (H : exists f, x = Ok (mkL (mkArr d f) l)) by (eexists; reflexivity); destruct H as [f H]; rewrite H; clear H
  | res arr =>
    let d := eval lazy in (match x with Ok v => adims v | Err _ => [] end) in
    let H := fresh in let f := fresh "f" in
    assert (H : exists f, x = Ok (mkArr d f)) by (eexists; reflexivity); destruct H as [f H]; rewrite H; clear H
  | _ => let H := fresh in eassert (H : x = Ok _) by reflexivity; rewrite H; clear H
  end; cbn [bind fst snd la lab adims at_] end.

Lemma demo_lsteric l domain : l = [2]%Z \/ l = [7]%Z -> In domain ["local"; "global"] -> (domain = "local" -> l = [2]%Z) -> exists r,
  lsteric demo_labelled (ref_on l) None 1035 (scalar (Fin 101325)) "Linear" "steric" domain false = Ok (r, ref_on l).
Proof.
  intros Hl Hd Hc. unfold lsteric. change (default_coords None) with ("time", "z_l", "z_i"). cbv beta iota zeta.
  change (ld_vars demo_labelled) with demo. rewrite demo_valid by (destruct (String.eqb domain "global"); tauto). cbn [bind].
  stp. stp. rewrite ref_valid. cbn [bind]. stp. stp.
  match goal with |- exists r, bind ?x _ = _ => enough (E : exists r, x = Ok r) by (destruct E as [r E]; exists r; rewrite E; reflexivity) end.
  destruct Hd as [<-|[<-|[]]].
  - rewrite (Hc eq_refl). change (String.eqb "local" "global") with false. cbv iota. unfold lsteric_local.
    do 6 stp. destruct demo_dz as [dzf Edz]. do 3 (match goal with |- context [ld_get ?n demo_labelled] => erewrite (ld_get_some n demo_labelled) by reflexivity end; cbn [bind la]).

    match goal with |- exists r, bind ?x _ = _ => change x with (calc_dz demo_zl demo_zi demo_D (Fin 0) None false) end.
    rewrite Edz. cbn [bind]. 
    destruct (Reqb 1035 0) eqn:Z; [exfalso; apply Reqb_true in Z; lra|]. cbn [bind].
    do 6 stp. eexists. reflexivity.
  - change (String.eqb "global" "global") with true. cbv iota. unfold lsteric_global.
    destruct Hl as [-> | ->]; (do 11 stp; eexists; reflexivity).
Qed.

(** A reference on the second column only: the hypotheses of [C112_common_cells] are met. *)
Example C112_common_cells_case : exists r R' dz vol rho0,
  lsteric demo_labelled (ref_on [2]%Z) None 1035 (scalar (Fin 101325)) "Linear" "steric" "local" false = Ok (r, R') /\
  one_index (ld_lab demo_labelled) /\ one_index (ld_lab (ref_on [2]%Z)) /\
  (forall d l, dget d (ld_lab (ref_on [2]%Z)) = Some l -> NoDup l) /\
  calc_dz demo_zl demo_zi demo_D (Fin 0) None false = Ok dz /\
  dget "volcello" (ld_vars (ref_on [2]%Z)) = Some vol /\ dget "rho" (ld_vars (ref_on [2]%Z)) = Some rho0 /\
  (forall d, In d (names rho0) <-> In d (names vol)) /\ incl (names vol) (names demo_T) /\ In "z_l" (names vol) /\ names demo_zl = ["z_l"] /\
  (forall d, In d (names vol) -> d = "z_l" \/ In d (names demo_D)) /\
  (forall d l, dget d (ld_lab (ref_on [2]%Z)) = Some l -> dget d (adims vol) = Some (List.length l)) /\
  (forall e, e "xh" = O -> within (ld_lab (ref_on [2]%Z)) e /\ cell_of (ld_lab demo_labelled) (ld_lab (ref_on [2]%Z)) e "xh" = 1%nat).
Proof.
  destruct (demo_lsteric [2]%Z "local") as (r & E); [tauto|left; reflexivity|tauto|]. destruct demo_dz as [f Edz].
  exists r, (ref_on [2]%Z). eexists. eexists. eexists. split; [exact E|].
  split; [repeat constructor; intros []|]. split; [repeat constructor; intros []|].
  assert (LL : forall d l, dget d (ld_lab (ref_on [2]%Z)) = Some l -> d = "xh" /\ l = [2]%Z).
  { intros d l H. cbn [ref_on ld_lab dget] in H. destruct (String.eqb_spec d "xh") as [->|]; [|discriminate]. injection H as <-. tauto. }
  split; [intros d l H; destruct (LL d l H) as [_ ->]; repeat constructor; intros []|].
  split; [exact Edz|]. split; [reflexivity|]. split; [reflexivity|].
  split; [reflexivity|]. split; [intros d I; cbn in *; tauto|]. split; [cbn; tauto|]. split; [reflexivity|].
  split; [cbn; intuition|]. split; [intros d l H; destruct (LL d l H) as [-> ->]; reflexivity|].
  intros e He. split; [intros d l H; destruct (LL d l H) as [-> ->]; rewrite He; cbn; lia|].
  unfold cell_of. cbn [ref_on demo_labelled ld_lab dget String.eqb Ascii.eqb Bool.eqb]. rewrite He. reflexivity.
Qed.

(** Sums over a dimension of length zero. *)
Lemma sum_zero_size ds (a : arr) d : In d ds -> size_of d a = O ->
  forall e, at_ (fold_left (fun acc q => sum1 q acc) ds a) e = Fin 0.
Proof.
  assert (Z : forall qs b, (forall e, at_ b e = Fin 0) -> forall e, at_ (fold_left (fun acc q => sum1 q acc) qs b) e = Fin 0).
  { induction qs as [|q qs IH]; intros b H e; [apply H|]. cbn [fold_left]. apply IH. intros e'. cbn [sum1 at_].
    induction (size_of q b) as [|n IHn]; [reflexivity|]. cbn [fsum]. rewrite IHn, H. cbn. f_equal. lra. }
  revert a. induction ds as [|q ds IH]; intros a I S0 e; [destruct I|]. cbn [fold_left].
  destruct (String.eqb_spec q d) as [->|N].
  - apply Z. intros e'. cbn [sum1 at_]. rewrite S0. reflexivity.
  - apply IH; [destruct I as [I|I]; [congruence|exact I]|]. unfold size_of in *. cbn [sum1 adims]. unfold drop_dim.
    rewrite (dget_filter_key (fun k => negb (String.eqb q k))). rewrite (proj2 (String.eqb_neq q d) N). exact S0.
Qed.

(** C113: the mass of a global height is summed over the cells the two have in common.  When
    they have none along some dimension, the mass is 0 and the height is +infinity; nothing is raised. *)
Theorem C113_disjoint_partial : forall D R cn rhozero patm eos m strict r R' t z zb T vol volo rhoga area zl d l l' e V g A,
  lsteric D R cn rhozero patm eos "steric" "global" strict = Ok (r, R') ->
  default_coords cn = (t, z, zb) -> same_name eos (module_name m) ->
  one_index (ld_lab D) -> one_index (ld_lab R) ->
  dget "thetao" (ld_vars D) = Some T -> ds_get z (ld_vars D) = Ok zl ->
  dget "volcello" (ld_vars R) = Some vol -> dget "volo" (ld_vars R) = Some volo -> dget "rhoga" (ld_vars R) = Some rhoga ->
  dget "areacello" (ld_vars R) = Some area ->
  In d (names T) -> In d (names vol) -> d <> t ->
  dget d (ld_lab D) = Some l -> dget d (ld_lab R) = Some l' -> l <> l' -> (forall x, In x l -> ~ In x l') ->
  (forall e, at_ volo e = Fin V) -> (forall e, at_ rhoga e = Fin g) -> (forall e, at_ (asum_all area) e = Fin A) ->
  (0 < V)%R -> (0 < g)%R -> (0 < A)%R ->
  exists sea, dget "steric" r = Some sea /\ at_ (la sea) e = Inf false.
Proof.
  intros D R cn rz patm eos m strict r R' t z zb T vol volo rhoga area zl d l l' e V g A H Hcn Hm UD UR GT Gz Gv Go Gg Ga IT IV Ntd LD LR Nl Dis
    VV Vg VA PV Pg PA.
  unfold lsteric in H. rewrite Hcn in H. change (String.eqb "global" "global") with true in H. cbv iota in H.
  apply bind_inv in H. destruct H as (u0 & _ & H). apply bind_inv in H. destruct H as (zL & GzL & H).
  apply bind_inv in H. destruct H as (p & Ep & H). apply bind_inv in H. destruct H as (u1 & _ & H).
  apply bind_inv in H. destruct H as ([a b] & SF & H). apply bind_inv in H. destruct H as (rho & Erho & H).
  apply bind_inv in H. destruct H as (res & Eres & H). apply Ok_inj in H. injection H as -> <-.
  unfold lselect_fields in SF. cbn [String.eqb Ascii.eqb Bool.eqb] in SF.
  rewrite (ld_get_some _ _ _ GT) in SF. cbn [bind] in SF. apply bind_inv in SF. destruct SF as (sL & GsL & SF). apply Ok_inj in SF. injection SF as <- <-.
  cbn [fst snd] in Erho.
  assert (GS : exists Sa, sL = mkL Sa (filter (fun q => has_dim (fst q) Sa) (ld_lab D))).
  { unfold ld_get in GsL. apply bind_inv in GsL. destruct GsL as (Sa & _ & GsL). apply Ok_inj in GsL. exists Sa. congruence. }
  destruct GS as [Sa ->].
  destruct (rho_from_dataset D T Sa zl z patm zL p eos m rho UD Hm Gz GzL Ep Erho) as (_ & Ur & Lr & _ & Dr).
  unfold lsteric_global in Eres. rewrite (ld_get_some _ _ _ Gv) in Eres. cbn [bind] in Eres.
  apply bind_inv in Eres. destruct Eres as (masso & Em & Eres). 
  rewrite (ld_get_some _ _ _ Gg), (ld_get_some _ _ _ Go) in Eres. cbn [bind] in Eres.
  apply bind_inv in Eres. destruct Eres as (mean & E1 & Eres). apply bind_inv in Eres. destruct Eres as (ratio & E2 & Eres).
  apply bind_inv in Eres. destruct Eres as (expn & E3 & Eres). rewrite (ld_get_some _ _ _ Ga) in Eres. cbn [bind] in Eres.
  apply bind_inv in Eres. destruct Eres as (total & E4 & Eres). apply bind_inv in Eres. destruct Eres as (height & E5 & Eres).
  apply bind_inv in Eres. destruct Eres as (sea & E6 & Eres). apply Ok_inj in Eres. subst r.
  exists sea. split; [reflexivity|].
  (* the mass *)
  unfold lcalc_masso in Em. apply bind_inv in Em. destruct Em as (prod & Eprod & Em).
  destruct (linner_inv _ _ _ _ Eprod Ur (nodup_filter _ _ UR)) as (_ & _ & Uprod & Aprod & _). cbn [la lab] in Aprod.
  assert (SZ : size_of d (la prod) = O).
  { assert (IT' := proj2 (has_dim_names d T) IT). unfold has_dim, dmem in IT'. unfold size_of. rewrite Aprod, (Dr d IT).
    destruct (dget d (adims T)); [|discriminate].
    unfold resize. rewrite (dget_joined _ _ _ Ur), (Lr d IT), LD.
    rewrite (dget_filter_key (fun k => has_dim k vol)), (proj2 (has_dim_names d vol) IV), LR, (zlist_eqb_neq _ _ Nl).
    replace (zinter l l') with (@nil Z); [reflexivity|]. symmetry. unfold zinter. clear - Dis. induction l as [|x l IH]; [reflexivity|].
    cbn [filter]. destruct (zmem x l') eqn:Z; [|apply IH; intros y Hy; apply Dis; right; exact Hy].
    exfalso. unfold zmem in Z. apply existsb_exists in Z. destruct Z as (y & I & E). apply Z.eqb_eq in E. subst y. exact (Dis x (or_introl eq_refl) I). }
  assert (M0 : forall e', at_ (la masso) e' = Fin 0).
  { destruct (lift1_inv _ _ _ Em) as [Ts _]. unfold asum in Ts. destruct (forallb _ _) in Ts; [|discriminate]. apply Ok_inj in Ts. rewrite <- Ts.
    apply (sum_zero_size _ _ d).
    - apply filter_In. split; [|rewrite (proj2 (String.eqb_neq d t) Ntd); reflexivity].
      apply has_dim_names. unfold has_dim, dmem. rewrite Aprod, (Dr d IT).
      assert (IT' := proj2 (has_dim_names d T) IT). unfold has_dim, dmem in IT'. destruct (dget d (adims T)); [reflexivity|discriminate].
    - exact SZ. }
  assert (VM : forall f x y c, linner f x y = Ok c -> forall e', exists e1 e2, at_ (la c) e' = f (at_ (la x) e1) (at_ (la y) e2)).
  { intros f x y c E e'. unfold linner in E. cbv zeta in E. unfold amap2 in E. destruct (compatible _ _) in E; [|discriminate].
    cbn [bind] in E. apply Ok_inj in E. subst c. cbn [la at_ reindex]. eexists. eexists. reflexivity. }
  assert (R0 : forall x, (0 < x)%R -> Reqb x 0 = false) by (intros x P; unfold Reqb; destruct (Req_EM_T x 0); [lra|reflexivity]).
  assert (Z0 : Reqb 0 0 = true) by (unfold Reqb; destruct (Req_EM_T 0 0); [reflexivity|congruence]).
  assert (Vmean : forall e', at_ (la mean) e' = Fin 0).
  { intros e'. destruct (VM _ _ _ _ E1 e') as (e1 & e2 & ->). cbn [la]. rewrite M0, VV. cbn [fdiv]. rewrite (R0 V PV). f_equal. unfold Rdiv. ring. }
  assert (Vratio : forall e', at_ (la ratio) e' = Inf false).
  { intros e'. destruct (VM _ _ _ _ E2 e') as (e1 & e2 & ->). cbn [la]. rewrite Vg, Vmean. cbn [fdiv]. rewrite Z0, (R0 g Pg).
    f_equal. unfold Rltb. destruct (Rlt_dec g 0); [lra|reflexivity]. }
  assert (Vexp : forall e', at_ (la expn) e' = Inf false).
  { intros e'. destruct (lift1_inv _ _ _ E3) as [Q _]. apply Ok_inj in Q. rewrite <- Q. cbn [amap at_]. rewrite Vratio. reflexivity. }
  assert (Vh : forall e', at_ (la height) e' = Fin (V / A)).
  { intros e'. destruct (VM _ _ _ _ E5 e') as (e1 & e2 & ->). cbn [la]. destruct (lift1_inv _ _ _ E4) as [Q _]. apply Ok_inj in Q. rewrite <- Q. cbn [la].
    rewrite VV, VA. cbn [fdiv]. rewrite (R0 A PA). reflexivity. }
  destruct (VM _ _ _ _ E6 e) as (e1 & e2 & ->). rewrite Vh, Vexp.
  assert (HP : (0 < V / A)%R) by (apply Rdiv_lt_0_compat; assumption).
  cbn [fmul]. rewrite (R0 _ HP). unfold Rltb. destruct (Rlt_dec (V / A) 0); [lra|reflexivity].
Qed.
Print Assumptions C113_disjoint_partial.

(** A reference on a column the dataset does not have. *)
Example C113_disjoint_case : exists r R' sea,
  lsteric demo_labelled (ref_on [7]%Z) None 1035 (scalar (Fin 101325)) "Linear" "steric" "global" false = Ok (r, R') /\
  dget "steric" r = Some sea /\ forall e, at_ (la sea) e = Inf false.
Proof.
  destruct (demo_lsteric [7]%Z "global") as (r & E); [tauto|right; left; reflexivity|discriminate|].
  assert (X : forall e, exists sea, dget "steric" r = Some sea /\ at_ (la sea) e = Inf false).
  { intros e. eapply (C113_disjoint_partial demo_labelled (ref_on [7]%Z) None 1035 (scalar (Fin 101325)) "Linear" Linear false r (ref_on [7]%Z)
      "time" "z_l" "z_i" demo_T) with (d := "xh") (V := 4000%R) (g := 1026%R) (A := 2%R); try exact E; try reflexivity.
    - repeat constructor.
    - repeat constructor; intros [].
    - repeat constructor; intros [].
    - cbn. tauto.
    - cbn. tauto.
    - discriminate.
    - discriminate.
    - intros x [<-|[<-|[]]] [I|[]]; discriminate.
    - intros e'. cbn. f_equal. lra.
    - lra.
    - lra.
    - lra. }
  destruct (X (fun _ => O)) as (sea & Es & _). exists r, (ref_on [7]%Z), sea. split; [exact E|]. split; [exact Es|].
  intros e. destruct (X e) as (sea' & Es' & V). rewrite Es in Es'. injection Es' as <-. exact V.
Qed.

(** C113, refuted: finite positive fields everywhere do not give a finite global height. *)
Theorem C113_refuted : ~ (forall D R r R' sea T Sa e,
  lsteric D R None 1035 (scalar (Fin 101325)) "Linear" "steric" "global" false = Ok (r, R') ->
  one_index (ld_lab D) -> one_index (ld_lab R) ->
  dget "thetao" (ld_vars D) = Some T -> dget "so" (ld_vars D) = Some Sa ->
  (forall e', exists x y, at_ T e' = Fin x /\ at_ Sa e' = Fin y) ->
  (forall k a e', dget k (ld_vars R) = Some a -> exists x, at_ a e' = Fin x /\ (0 < x)%R) ->
  dget "steric" r = Some sea -> exists x, at_ (la sea) e = Fin x).
Proof.
  intros H. destruct C113_disjoint_case as (r & R' & sea & E & Es & V).
  destruct (H demo_labelled (ref_on [7]%Z) r R' sea demo_T demo_S (fun _ => O) E) as [x X]; try reflexivity.
  - repeat constructor; intros [].
  - repeat constructor; intros [].
  - intros e'. eexists. eexists. split; reflexivity.
  - intros k a e' G. unfold ref_on in G. cbn [ld_vars dget] in G.
    repeat (destruct (String.eqb k _); [injection G as <-; cbn [at_]; eexists; split; [reflexivity|lra]|]). discriminate.
  - exact Es.
  - rewrite V in X. discriminate.
Qed.
Print Assumptions C113_refuted.

(** C113 on equal labels: the height of the computation by position. *)
Theorem C113_same_partial : forall D R cn rhozero patm eos variant strict r R',
  lsteric D R cn rhozero patm eos variant "global" strict = Ok (r, R') ->
  one_index (ld_lab D) -> one_index (ld_lab R) ->
  (forall d l l', dget d (ld_lab D) = Some l -> dget d (ld_lab R) = Some l' -> l = l') ->
  exists r', steric (ld_vars D) (Some (ld_vars R)) cn None rhozero patm eos variant "global" strict = Ok (r', ld_vars R) /\
    forall k a, In (k, a) r -> In (k, la a) r'.
Proof.
  intros D R cn rz patm eos variant strict r R' H UD UR AG.
  pose proof (C112_same_labels D R cn rz patm eos variant "global" strict UD UR AG) as C. rewrite H in C.
  destruct (steric _ _ _ _ _ _ _ _ _ _) as [[r' ref]|] eqn:E; [|contradiction]. destruct C as (V & _ & -> & _).
  exists r'. split; [reflexivity|]. intros k a I. rewrite <- V. apply in_map_iff. exists (k, a). split; [reflexivity|exact I].
Qed.
Print Assumptions C113_same_partial.

(** The demonstration dataset with labels on every dimension, and its own reference. *)
Example C112_same_labels_case : forall domain, In domain ["local"; "global"] -> exists ref r R',
  let L := [("yh", [4; 9]%Z); ("xh", [1; 2]%Z)] in
  lsteric (mkLd demo (("time", [10; 20]%Z) :: L)) (mkLd ref L) None 1035 (scalar (Fin 101325)) "Linear" "steric" domain true = Ok (r, R').
Proof.
  intros domain Hd. assert (Hm : same_name "Linear" (module_name Linear)) by (repeat constructor).
  destruct (demo_ok Linear "Linear" "steric" domain Hm (or_introl eq_refl)) as (r & T0 & S0 & V0 & rho0 & volo & masso & rhoga & E1 & E2 & _).
  set (ref := [("thetao", T0); ("so", S0); ("volcello", V0); ("rho", rho0); ("volo", volo); ("masso", masso); ("rhoga", rhoga); ("areacello", demo_A)]) in *.
  apply reference_reuse in E2. destruct E2 as [_ E2].
  pose proof (C112_same_labels (mkLd demo [("time", [10; 20]%Z); ("yh", [4; 9]%Z); ("xh", [1; 2]%Z)]) (mkLd ref [("yh", [4; 9]%Z); ("xh", [1; 2]%Z)])
    None 1035 (scalar (Fin 101325)) "Linear" "steric" domain true) as C.
  exists ref. cbv zeta. destruct (lsteric _ _ _ _ _ _ _ _ _) as [[r0 R0]|] eqn:E; [exists r0, R0; reflexivity|]. exfalso.
  cbn [ld_vars] in C. rewrite E2 in C. apply C.
  - cbn. repeat constructor; cbn; intuition discriminate.
  - cbn. repeat constructor; cbn; intuition discriminate.
  - intros d l l' A B. cbn [ld_lab dget] in A, B. destruct (String.eqb_spec d "time") as [->|_]; [discriminate B|]. congruence.
Qed.

(** A halosteric height on the second column only is refused. *)
Example C112_fixed_field_case : forall domain out,
  lsteric demo_labelled (ref_on [2]%Z) None 1035 (scalar (Fin 101325)) "Linear" "halosteric" domain false <> Ok out.
Proof.
  intros domain out.
  eapply (C112_fixed_field demo_labelled (ref_on [2]%Z)) with (d := "xh") (l := [1; 2]%Z) (l' := [2]%Z);
    [right; split; [reflexivity|split; reflexivity]| | | | | | |]; try reflexivity.
  - cbn. tauto.
  - cbn. tauto.
  - repeat constructor; intros [].
  - repeat constructor; intros [].
  - discriminate.
Qed.
