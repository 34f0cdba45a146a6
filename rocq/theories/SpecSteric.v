(** * SpecSteric: steric height of a water column, stated on real numbers *)
From Coq Require Import Reals List String.
From Verif Require Import Num NumFacts Py Arr ArrFacts Eos SpecEos SpecDz Dataset.
Local Open Scope R_scope.

(** Density of either equation of state. *)
Definition eos_rho (m : eos_module) (T S p : R) : R :=
  match m with Wright => wr_rho T S p | Linear => lin_rho T S end.
(** Where it is defined. *)
Definition eos_defined (m : eos_module) (T S p : R) : Prop :=
  match m with Wright => wr_denom T S p <> 0 | Linear => True end.

(** A number, or nothing. *)
Definition opt (v : fval) : option R := match v with Fin x => Some x | _ => None end.
Definition odef (o : option R) : R := match o with Some x => x | None => 0 end.

(** Everything known about one water column at one time: temperature, salinity,
    reference density, validity in the reference state, pressure, interface depths
    and sea floor depth. *)
Record column := mkCol {
  c_T : nat -> option R; c_S : nat -> option R; c_rho0 : nat -> option R; c_wet : nat -> bool;
  c_p : nat -> R; c_w : nat -> R; c_floor : R }.

(** Density anomaly of level [k], where defined. *)
Definition density_change (m : eos_module) (c : column) (k : nat) : option R :=
  if c_wet c k then
    match c_T c k, c_S c k, c_rho0 c k with
    | Some t, Some s, Some r => Some (eos_rho m t s (c_p c k) - r)
    | _, _, _ => None
    end
  else None.

(** -(1/rhozero) sum_k thickness_k * anomaly_k over the levels where it is defined. *)
Definition steric_height (m : eos_module) (rhozero : R) (n : nat) (c : column) : R :=
  - (1 / rhozero) *
  Rsum n (fun k => overlap (c_w c k) (c_w c (S k)) 0 (c_floor c) * odef (density_change m c k)).

(** The column of the arrays at index [e]. *)
Definition column_at (z : string) (T S rho0 vol depth : arr) (p w : nat -> R) (e : index) : column :=
  mkCol (fun k => opt (at_ T (upd e z k))) (fun k => opt (at_ S (upd e z k)))
        (fun k => opt (at_ rho0 (upd e z k))) (fun k => notnull (at_ vol (upd e z k)))
        p w (water_depth (at_ depth e)).

(** Finite or missing input along that column, interface depths increasing. *)
Definition column_ok (m : eos_module) (z zi : string) (n : nat) (T S rho0 depth zl patm ifaces : arr)
           (p w : nat -> R) (e : index) : Prop :=
  adims zl = (z, n) :: nil /\ adims ifaces = (zi, Datatypes.S n) :: nil /\
  (forall k, (k <= n)%nat -> at_ ifaces (upd e zi k) = Fin (w k)) /\
  (forall k, (k < n)%nat -> w k <= w (Datatypes.S k)) /\
  (forall s, at_ depth e <> Inf s) /\
  forall k, (k < n)%nat ->
    let ek := upd e z k in
    (forall s, at_ T ek <> Inf s) /\ (forall s, at_ S ek <> Inf s) /\ (forall s, at_ rho0 ek <> Inf s) /\
    (exists x y, at_ zl ek = Fin x /\ at_ patm ek = Fin y /\ p k = 10000 * x + y) /\
    (forall t s, at_ T ek = Fin t -> at_ S ek = Fin s -> eos_defined m t s (p k)).

(** Which temperature and salinity each variant uses: those of the dataset, or those
    of the reference state. *)
Inductive uses_fields (ds ref : dict arr) : string -> arr -> arr -> Prop :=
| uf_steric T Sa : dget "thetao"%string ds = Some T -> dget "so"%string ds = Some Sa -> uses_fields ds ref "steric" T Sa
| uf_thermo T Sa : dget "thetao"%string ds = Some T -> dget "so"%string ref = Some Sa -> uses_fields ds ref "thermosteric" T Sa
| uf_halo T Sa : dget "thetao"%string ref = Some T -> dget "so"%string ds = Some Sa -> uses_fields ds ref "halosteric" T Sa.

(** The position selected by a Python index. *)
Definition selects (k : BinNums.Z) (n i : nat) : Prop :=
  (i < n)%nat /\ (k = BinInt.Z.of_nat i \/ BinInt.Z.add k (BinInt.Z.of_nat n) = BinInt.Z.of_nat i).

(** Density of one cell, where temperature and salinity are present. *)
Definition cell_density (m : eos_module) (T Sa : fval) (p : R) : option R :=
  match opt T, opt Sa with Some t, Some s => Some (eos_rho m t s p) | _, _ => None end.

(** Total mass over all cells of [vol]. *)
Definition total_mass (m : eos_module) (T Sa vol : arr) (p : index -> R) (e : index) : R :=
  Rsum_box (adims vol) (fun e' => odef (cell_density m (at_ T e') (at_ Sa e') (p e')) * odef (opt (at_ vol e'))) e.
Definition total_area (area : arr) (e : index) : R := Rsum_box (adims area) (fun e' => odef (opt (at_ area e'))) e.

(** Finite or missing input everywhere; [p] is the pressure. *)
Definition field_ok (m : eos_module) (T Sa vol zl patm : arr) (p : index -> R) : Prop :=
  forall e, (forall s, at_ T e <> Inf s) /\ (forall s, at_ Sa e <> Inf s) /\ (forall s, at_ vol e <> Inf s) /\
    (exists x y, at_ zl e = Fin x /\ at_ patm e = Fin y /\ p e = 10000 * x + y) /\
    (forall t s, at_ T e = Fin t -> at_ Sa e = Fin s -> eos_defined m t s (p e)).

(** The arrays live on the same grid: every dimension but time belongs to [vol]. *)
Definition same_grid (t : string) (vol a : arr) : Prop :=
  NoDup (names a) /\ (forall d, In d (names a) -> d = t \/ In d (names vol)) /\
  (forall d n, In (d, n) (adims a) -> d <> t -> In (d, n) (adims vol)).

(** Every variable is a well-formed array. *)
Definition wf_ds (ds : dict arr) : Prop := forall k a, dget k ds = Some a -> wf_arr a.

(** A number, or missing. *)
Definition fof (o : option R) : fval := match o with Some x => Fin x | None => NaN end.

(** ** What a dataset must contain *)
Inductive required (reference : bool) (extra : list string) : string -> Prop :=
| rq_basic v : In v ("thetao" :: "so" :: "volcello" :: "areacello" :: nil)%string -> required reference extra v
| rq_extra v : In v extra -> required reference extra v
| rq_ref v : reference = true -> In v ("rho" :: "volo" :: "masso" :: "rhoga" :: nil)%string -> required reference extra v.

(** Number of dimensions each checked variable must have. *)
Inductive rank_rule : bool -> string -> nat -> Prop :=
| rr_input v : In v ("thetao" :: "so" :: "volcello" :: nil)%string -> rank_rule false v 4
| rr_ref v : In v ("thetao" :: "so" :: "volcello" :: "rho" :: nil)%string -> rank_rule true v 3
| rr_flat r v : In v ("areacello" :: "deptho" :: nil)%string -> rank_rule r v 2
| rr_scalar v : In v ("masso" :: "volo" :: "rhoga" :: nil)%string -> rank_rule true v 0.

Definition misses (ds : dict arr) (reference : bool) (extra : list string) (v : string) : Prop :=
  required reference extra v /\ dget v ds = None.
Definition wrong_rank (ds : dict arr) (reference : bool) (v : string) : Prop :=
  exists a n, dget v ds = Some a /\ rank_rule reference v n /\ List.length (adims a) <> n.
Definition area_in_range (area : arr) (ref tol : R) : Prop :=
  ref - tol * ref < total_area area (fun _ => O) < ref + tol * ref.

(** Two datasets that differ only in variable [v], with the same dimensions. *)
Definition differ_in (v : string) (ds ds' : dataset) (a a' : arr) : Prop :=
  dget v ds = Some a /\ dget v ds' = Some a' /\ adims a' = adims a /\
  (forall k, k <> v -> dget k ds' = dget k ds) /\ (forall d, ds_dim d ds' = ds_dim d ds).
