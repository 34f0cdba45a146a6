(** * PropertiesUtil: C46 - C49 *)
From Coq Require Import Reals Lra Lia List String Ascii Bool Arith Permutation Sorted.
From Verif Require Import Num NumFacts Py Arr ArrFacts Util SpecUtil ProofsUtil.
Import ListNotations.
Local Open Scope string_scope.

(** C46 *)
Theorem C46_alphabetize : forall (A : Type) (ds : dict A), NoDup (dkeys ds) ->
  Permutation (alphabetize_dataset ds) ds /\
  StronglySorted lex (dkeys (alphabetize_dataset ds)) /\
  (forall k, dget k (alphabetize_dataset ds) = dget k ds) /\
  alphabetize_dataset (alphabetize_dataset ds) = alphabetize_dataset ds.
Proof.
  intros A ds N. pose proof (alphabetize_perm ds N) as P.
  assert (N' : NoDup (map fst (alphabetize_dataset ds)))
    by (eapply Permutation_NoDup; [apply Permutation_sym, Permutation_map, P|exact N]).
  split; [exact P|]. split; [apply alphabetize_sorted; exact N|]. split; [|apply alphabetize_idem; exact N].
  intros k. destruct (dget k ds) as [v|] eqn:E.
  - apply In_dget; [exact N'|]. eapply Permutation_in; [apply Permutation_sym, P|]. apply dget_In. exact E.
  - apply dget_None. apply dget_None in E. intros I. apply E. eapply Permutation_in; [apply Permutation_map, P|exact I].
Qed.
Print Assumptions C46_alphabetize.

(** Upper case sorts before lower case, as in Python. *)
Example C46_example : dkeys (alphabetize_dataset [("thetao", 1); ("Z", 2); ("so", 3); ("areacello", 4)])
                      = ["Z"; "areacello"; "so"; "thetao"].
Proof. reflexivity. Qed.

(** C47.  [without ks d] is [d] with the entries whose key is in [ks] deleted. *)
Theorem C47_reset_dataset : forall (A : Type) enc (vars : dict (dict string * A)) attrs,
  let ks := match attrs with None => ["chunks"; "preferred_chunks"] | Some l => l end in
  exists enc' vars', reset_encoding (XDataset enc vars) attrs = Ok (XDataset enc' vars') /\
    enc' = without ks enc /\
    dkeys vars' = dkeys vars /\
    (forall name e d, dget name vars = Some (e, d) -> dget name vars' = Some (without ks e, d)) /\
    (forall k, In k ks -> dget k enc' = None /\
       forall name e d, dget name vars' = Some (e, d) -> dget k e = None) /\
    (forall k, ~ In k ks -> dget k enc' = dget k enc /\
       forall name e d e' d', dget name vars = Some (e, d) -> dget name vars' = Some (e', d') -> dget k e' = dget k e) /\
    reset_encoding (XDataset enc' vars') attrs = Ok (XDataset enc' vars').
Proof.
  intros A enc vars attrs ks.
  set (vars' := map (fun v => (fst v, (without ks (fst (snd v)), snd (snd v)))) vars).
  exists (without ks enc), vars'.
  assert (R : forall e v, reset_encoding (A := A) (XDataset e v) attrs
              = Ok (XDataset (without ks e) (map (fun v => (fst v, (without ks (fst (snd v)), snd (snd v)))) v))).
  { intros e v. unfold reset_encoding. fold ks. rewrite reset_dataset. reflexivity. }
  assert (G : forall name, dget name vars' =
              match dget name vars with Some p => Some (without ks (fst p), snd p) | None => None end).
  { intros name. unfold vars'. clear. induction vars as [|[n [e a]] l IH]; [reflexivity|].
    cbn [map fst snd dget]. destruct (String.eqb name n); [reflexivity|exact IH]. }
  assert (W0 : forall (d : dict string) k, In k ks -> dget k (without ks d) = None).
  { intros d k I. apply dget_None. intros J. apply in_map_iff in J. destruct J as [p [E J]].
    apply without_In in J. destruct J as [_ J]. subst k. contradiction. }
  assert (W1 : forall (d : dict string) k, ~ In k ks -> dget k (without ks d) = dget k d).
  { intros d k I. unfold without. clear -I. induction d as [|[q v] d IH]; [reflexivity|]. cbn [filter fst].
    destruct (in_dec string_dec q ks) as [J|J]; cbn [dget].
    - destruct (String.eqb k q) eqn:E; [|exact IH]. apply String.eqb_eq in E. subst. contradiction.
    - rewrite IH. reflexivity. }
  split; [apply R|]. split; [reflexivity|].
  split; [unfold vars', dkeys; rewrite map_map; reflexivity|].
  split; [intros name e d H; rewrite G, H; reflexivity|].
  split.
  { intros k I. split; [apply W0; exact I|]. intros name e d H. rewrite G in H.
    destruct (dget name vars) as [p|]; [|discriminate]. injection H as <- _. apply W0. exact I. }
  split.
  { intros k I. split; [apply W1; exact I|]. intros name e d e' d' H H'. rewrite G, H in H'.
    injection H' as <- _. apply W1. exact I. }
  rewrite R. rewrite without_idem. f_equal. f_equal. unfold vars'. rewrite map_map. apply map_ext.
  intros [n [e a]]. cbn [fst snd]. rewrite without_idem. reflexivity.
Qed.
Print Assumptions C47_reset_dataset.

Theorem C47_reset_array : forall (A : Type) enc (data : A) attrs,
  let ks := match attrs with None => ["chunks"; "preferred_chunks"] | Some l => l end in
  reset_encoding (XArray enc data) attrs = Ok (XArray (without ks enc) data) /\
  reset_encoding (XArray (without ks enc) data) attrs = Ok (XArray (without ks enc) data) /\
  reset_encoding (XOther (A := A)) attrs = Err ValueError.
Proof.
  intros A enc data attrs ks. unfold reset_encoding. fold ks. rewrite !pops_without, without_idem. auto.
Qed.
Print Assumptions C47_reset_array.

Example C47_example :
  reset_encoding (XDataset [("source", "a.nc")]
                    [("thetao", ([("chunks", "x"); ("dtype", "f8")], 1%nat)); ("so", ([("zlib", "1"); ("preferred_chunks", "y")], 2%nat))]) None
  = Ok (XDataset [("source", "a.nc")] [("thetao", ([("dtype", "f8")], 1%nat)); ("so", ([("zlib", "1")], 2%nat))]).
Proof. reflexivity. Qed.

Local Open Scope R_scope.

(** C48.  Latitude cells of width [w] starting at [a] and longitude cells of width [v]
    (either sign): area of the spherical zone times the fraction of the circle. *)
Theorem C48_band : forall lat lon dlat dlon n m a w b v r,
  axis lat dlat n a w -> axis lon dlon m b v -> dlat <> dlon -> (2 <= n)%nat -> (2 <= m)%nat ->
  -90 <= a <= 90 -> -90 <= a + INR n * w <= 90 ->
  exists area, standard_grid_cell_area lat lon (Fin r) = Ok area /\
    adims area = [(dlat, n); (dlon, m)] /\
    (forall e, exists x, at_ area e = Fin x /\ 0 <= x) /\
    forall e, at_ (asum_all area) e =
      Fin (2 * PI * r² * Rabs (sin (a * (PI / 180)) - sin ((a + INR n * w) * (PI / 180))) * (INR m * Rabs v / 360)).
Proof.
  intros lat lon dlat dlon n m a w b v r Ha Ho Hd Hn Hm Hlo Hhi.
  destruct (area_ok lat lon dlat dlon n m a w b v r Ha Ho Hn Hm) as [area E]. exists area. split; [exact E|].
  destruct (area_inv lat lon dlat dlon n m a w b v r Ha Ho Hn Hm area E) as [D V]. split; [exact D|].
  split.
  - intros e. rewrite V. eexists. split; [reflexivity|]. apply cell_nonneg.
  - intros e. rewrite (area_total lat lon dlat dlon n m a w b v r Ha Ho Hn Hm Hlo Hhi Hd area E e).
    unfold rad, Rsqr. f_equal. field.
Qed.
Print Assumptions C48_band.

Theorem C48_sphere : forall lat lon dlat dlon n m a w b v r,
  axis lat dlat n a w -> axis lon dlon m b v -> dlat <> dlon -> (2 <= n)%nat -> (2 <= m)%nat ->
  (a = -90 /\ INR n * w = 180 \/ a = 90 /\ INR n * w = -180) ->
  (INR m * v = 360 \/ INR m * v = -360) ->
  exists area, standard_grid_cell_area lat lon (Fin r) = Ok area /\
    (forall e, exists x, at_ area e = Fin x /\ 0 <= x) /\
    forall e, at_ (asum_all area) e = Fin (4 * PI * r²).
Proof.
  intros lat lon dlat dlon n m a w b v r Ha Ho Hd Hn Hm Hg Hc.
  destruct (C48_band lat lon dlat dlon n m a w b v r Ha Ho Hd Hn Hm) as (area & E & _ & P & T); [lra|lra|].
  exists area. split; [exact E|]. split; [exact P|]. intros e. rewrite T. f_equal.
  assert (M : INR m * Rabs v = 360).
  { pose proof (pos_INR m). rewrite <- (Rabs_right (INR m)) at 1 by lra. rewrite <- Rabs_mult.
    destruct Hc as [-> | ->]; [rewrite Rabs_right|rewrite Rabs_left]; lra. }
  rewrite M.
  assert (S : Rabs (sin (a * (PI / 180)) - sin ((a + INR n * w) * (PI / 180))) = 2).
  { destruct Hg as [[-> ->] | [-> ->]].
    - replace (-90 * (PI / 180)) with (- (PI / 2)) by field. replace ((-90 + 180) * (PI / 180)) with (PI / 2) by field.
      rewrite sin_neg, sin_PI2. rewrite Rabs_left; lra.
    - replace (90 * (PI / 180)) with (PI / 2) by field. replace ((90 + -180) * (PI / 180)) with (- (PI / 2)) by field.
      rewrite sin_neg, sin_PI2. rewrite Rabs_right; lra. }
  rewrite S. field.
Qed.
Print Assumptions C48_sphere.

(** One row or one column is not enough to infer the spacing. *)
Theorem C48_too_small : forall lat lon dlat dlon n m r,
  adims lat = [(dlat, n)] -> adims lon = [(dlon, m)] -> (n < 2)%nat \/ (m < 2)%nat ->
  standard_grid_cell_area lat lon r = Err IndexError.
Proof.
  intros lat lon dlat dlon n m r Hl Ho H. unfold standard_grid_cell_area, vget. rewrite Hl, Ho.
  destruct (Nat.ltb_spec 1 n) as [L|L]; [|reflexivity].
  destruct (Nat.ltb_spec 0 n) as [L'|L']; [|lia]. cbn [bind].
  destruct (Nat.ltb_spec 1 m) as [M|M]; [lia|reflexivity].
Qed.
Print Assumptions C48_too_small.

(** A 1-degree grid, south to north. *)
Example C48_example : exists area,
  standard_grid_cell_area
    (mkArr [("lat"%string, 180%nat)] (fun e => Fin (centres (-90) 1 (e "lat"%string))))
    (mkArr [("lon"%string, 360%nat)] (fun e => Fin (centres 0 1 (e "lon"%string)))) (Fin 6371000) = Ok area /\
    forall e, at_ (asum_all area) e = Fin (4 * PI * 6371000²).
Proof.
  destruct (C48_sphere (mkArr [("lat"%string, 180%nat)] (fun e => Fin (centres (-90) 1 (e "lat"%string))))
    (mkArr [("lon"%string, 360%nat)] (fun e => Fin (centres 0 1 (e "lon"%string)))) "lat" "lon" 180 360 (-90) 1 0 1 6371000)
    as (area & E & _ & T).
  - split; reflexivity.
  - split; reflexivity.
  - discriminate.
  - lia.
  - lia.
  - left. split; [reflexivity|]. rewrite INR_IZR_INZ. cbn. lra.
  - left. rewrite INR_IZR_INZ. cbn. lra.
  - exists area. split; assumption.
Qed.

(** C49 *)
Theorem C49_tile : forall x y dx nx dy ny (X Y : nat -> fval),
  adims x = [(dx, nx)] -> adims y = [(dy, ny)] -> dx <> dy ->
  (forall e, at_ x e = X (e dx)) -> (forall e, at_ y e = Y (e dy)) ->
  exists lon lat, tile_nominal_coords dx x dy y = Ok (lon, lat) /\
    adims lon = [(dy, ny); (dx, nx)] /\ adims lat = [(dy, ny); (dx, nx)] /\
    forall e j i, e dy = j -> e dx = i -> at_ lon e = X i /\ at_ lat e = Y j.
Proof.
  intros x y dx nx dy ny X Y Hx Hy N VX VY.
  destruct (tile_nominal_coords dx x dy y) as [[lon lat]|er] eqn:E.
  - exists lon, lat. destruct (tile_inv _ _ _ _ _ _ _ Hx Hy N E) as (A & B & C). cbn [fst snd] in *.
    split; [reflexivity|]. split; [exact A|]. split; [exact B|]. intros e j i <- <-.
    destruct (C e) as [-> ->]. rewrite VX, VY, !upd_same. auto.
  - unfold tile_nominal_coords in E. rewrite Hx, Hy in E.
    rewrite (proj2 (String.eqb_neq dx dy) N), !String.eqb_refl in E. discriminate.
Qed.
Print Assumptions C49_tile.

(** A coordinate whose name differs from its dimension cannot be tiled. *)
Theorem C49_reject : forall xname x yname y dx nx dy ny,
  adims x = [(dx, nx)] -> adims y = [(dy, ny)] -> xname = yname \/ dx <> xname \/ dy <> yname ->
  tile_nominal_coords xname x yname y = Err ValueError.
Proof.
  intros xname x yname y dx nx dy ny Hx Hy H. unfold tile_nominal_coords. rewrite Hx, Hy.
  destruct (String.eqb_spec xname yname); [reflexivity|].
  destruct (String.eqb_spec dx xname); destruct (String.eqb_spec dy yname); cbn [andb]; try reflexivity.
  destruct H as [H|[H|H]]; contradiction.
Qed.
Print Assumptions C49_reject.

Example C49_example :
  match tile_nominal_coords "xh" (mkArr [("xh"%string, 3%nat)] (fun e => Fin (INR (e "xh"%string))))
                            "yh" (mkArr [("yh"%string, 2%nat)] (fun e => Fin (10 * INR (e "yh"%string)))) with
  | Ok (lon, lat) => at_ lon (upd (upd (fun _ => O) "xh" 2) "yh" 1) = Fin (INR 2)
                     /\ at_ lat (upd (upd (fun _ => O) "xh" 2) "yh" 1) = Fin (10 * INR 1)
  | Err _ => False
  end.
Proof. split; reflexivity. Qed.
