(** * SpecGeo: great-circle geometry and the nearest-neighbour contract *)
From Coq Require Import Reals List String Bool Arith.
From Verif Require Import Num Py Arr Geo.
Import ListNotations.
Local Open Scope R_scope.

(** Unit vector of a latitude and longitude in degrees. *)
Definition rad_of (x : R) : R := x * (PI / 180).
Definition vec3 := (R * R * R)%type.
Definition uvec (lat lon : R) : vec3 :=
  (cos (rad_of lat) * cos (rad_of lon), cos (rad_of lat) * sin (rad_of lon), sin (rad_of lat)).
Definition dot (u v : vec3) : R :=
  let '(a, b, c) := u in let '(a', b', c') := v in a * a' + b * b' + c * c'.

(** Central angle between two places given in degrees (latitude, longitude). *)
Definition central_angle (p q : R * R) : R := acos (dot (uvec (fst p) (snd p)) (uvec (fst q) (snd q))).

(** What is assumed of the ball tree: it returns a position of a nearest point (any of
    them when several are equally near). *)
Definition nearest_spec (nearest : list point -> point -> nat) : Prop :=
  forall pts q, pts <> [] ->
    (nearest pts q < List.length pts)%nat /\
    forall k, (k < List.length pts)%nat ->
      haversine (nth (nearest pts q) pts (0, 0)) q <= haversine (nth k pts (0, 0)) q.

(** The rows of the model frame that may be selected. *)
Definition selectable {L} (m : frame L) (apply_mask : bool) (r : L * dict fval) : Prop :=
  In r (frows m) /\ (apply_mask = true -> In "mask"%string (fcols m) -> colv "mask" r = Fin 1).

(** The row has finite coordinates [p] (latitude, longitude) in the given columns. *)
Definition located {L} (cs : string * string) (r : L * dict fval) (p : R * R) : Prop :=
  colv (fst cs) r = Fin (fst p) /\ colv (snd cs) r = Fin (snd p).

(** The site distance [d] (km) passes the optional threshold. *)
Definition within (th : option fval) (d : R) : Prop :=
  match th with None => True | Some t => fleb (Fin d) t = true end.

(** The argument denotes the named coordinate array. *)
Definition denotes (coords : dict arr) (c : carg) (name : string) (a : arr) : Prop :=
  match c with
  | CName s => s = name /\ dget s coords = Some a
  | CArr n b => n = name /\ b = a
  | CBad => False
  end.

(** A grid cell and whether it is wet. *)
Definition wet (mask : option arr) (c : index) : Prop :=
  match mask with Some m => at_ m c = Fin 1 | None => True end.

(** The index [e] with the positions along [ds] taken from [c]. *)
Definition overlay (ds : list (string * nat)) (c e : index) : index :=
  fun d => if in_dec string_dec d (map fst ds) then c d else e d.

(** Labels along the dimensions of the grid are unique. *)
Definition unique_labels (lab : labels) (ds : list (string * nat)) : Prop :=
  forall d n, In (d, n) ds -> forall i j, (i < n)%nat -> (j < n)%nat -> lab d i = lab d j -> i = j.

(** The cell [c] is a wet cell of the grid at [p] and no wet cell is nearer to [q]. *)
Definition nearest_wet (ds : list (string * nat)) (x y : arr) (mask : option arr) (q : R * R) (c : index) (p : R * R) : Prop :=
  inrange ds c /\ wet mask c /\ at_ y c = Fin (fst p) /\ at_ x c = Fin (snd p) /\
  forall c' p', inrange ds c' -> wet mask c' -> at_ y c' = Fin (fst p') -> at_ x c' = Fin (snd p') ->
    central_angle p q <= central_angle p' q.

(** The arguments of extract_tidegauge describe a grid of rank other than one on the
    dimensions [ds]: both coordinates (and the mask) live on exactly [ds], the array has
    these dimensions with the same sizes, labels are unique. *)
Record tide_grid (lab : labels) (a : arr) (coords : dict arr) (xcoord ycoord : carg) (mask : option arr)
    (xn yn : string) (x y : arr) (ds : list (string * nat)) : Prop := {
  tg_x : denotes coords xcoord xn x;
  tg_y : denotes coords ycoord yn y;
  tg_dx : adims x = ds;
  tg_dy : adims y = ds;
  tg_wx : wf_arr x;
  tg_wy : wf_arr y;
  tg_mask : forall m, mask = Some m -> adims m = ds /\ wf_arr m;
  tg_rank : List.length ds <> 1%nat;
  tg_xy : xn <> yn;
  tg_nx : xn <> "mask"%string;
  tg_ny : yn <> "mask"%string;
  tg_lab : unique_labels lab ds;
  tg_a : forall d n, In (d, n) ds -> dget d (adims a) = Some n }.

(** The dimensions of [a] that are not grid dimensions. *)
Definition remaining (ds : list (string * nat)) (l : list (string * nat)) : list (string * nat) :=
  filter (fun p => if in_dec string_dec (fst p) (map fst ds) then false else true) l.
