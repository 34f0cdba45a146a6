(** * ProofsTrend2: units, strings and the detrending functions *)
From Coq Require Import Reals ZArith List String Ascii Bool Arith Lia Lra Psatz.
From Verif Require Import Num NumFacts Py Arr ArrFacts Trend SpecTime SpecTrend ProofsUtil ProofsFields ProofsTide ProofsStericOk ProofsTrend ProofsAvg.
Import ListNotations.
Local Open Scope string_scope.
Local Open Scope R_scope.

(** ** Strings *)
Lemma app_assoc_s a b c : (a ++ b) ++ c = (a ++ (b ++ c)).
Proof. induction a as [|x a IH]; cbn; [reflexivity|]. now rewrite IH. Qed.

Lemma split_nonempty s : split_space s <> [].
Proof. destruct s as [|c s]; [discriminate|]. cbn. destruct (Ascii.eqb c " "); [discriminate|]. destruct (split_space s); discriminate. Qed.

Lemma split_app a b : split_space (a ++ String " " b) = (split_space a ++ split_space b)%list.
Proof.
  induction a as [|c a IH]; [reflexivity|]. cbn [append split_space]. rewrite IH. destruct (Ascii.eqb c " "); [reflexivity|].
  destruct (split_space a) as [|w ws] eqn:E; [apply split_nonempty in E; contradiction|]. reflexivity.
Qed.

Lemma has_inv_spec s : has_inv s = true <-> contains_inverse s.
Proof.
  unfold contains_inverse. induction s as [|c s IH].
  - split; [discriminate|]. intros (p & q & H). destruct p; discriminate.
  - destruct s as [|d s].
    + split; [discriminate|]. intros (p & q & H). destruct p as [|? [|]]; discriminate.
    + cbn [has_inv]. rewrite orb_true_iff, andb_true_iff, !Ascii.eqb_eq. split.
      * intros [[-> ->]|H]; [exists "", s; reflexivity|]. apply IH in H. destruct H as (p & q & ->). exists (String c p), q. reflexivity.
      * intros (p & q & H). destruct p as [|c' p]; cbn in H.
        -- injection H as -> -> _. left; auto.
        -- injection H as -> H. right. apply IH. exists p, q. exact H.
Qed.

(** A word contains "-1" exactly when the string does. *)
Lemma has_inv_cons c w : has_inv (String c w) = true -> (exists w', c = "-"%char /\ w = String "1" w') \/ has_inv w = true.
Proof.
  cbn [has_inv]. destruct w as [|d w]; [discriminate|]. rewrite orb_true_iff, andb_true_iff, !Ascii.eqb_eq.
  intros [[-> ->]|H]; [left; eauto|right; exact H].
Qed.
Lemma split_first s : exists w ws, split_space s = w :: ws /\
  (forall c t, w = String c t -> exists s', s = String c s').
Proof.
  destruct s as [|c s]; [exists "", []; split; [reflexivity|discriminate]|].
  cbn [split_space]. destruct (Ascii.eqb c " ").
  - eexists _, _. split; [reflexivity|]. discriminate.
  - destruct (split_space s) as [|w ws]; eexists _, _; (split; [reflexivity|]); intros c' t H; injection H as -> _; eauto.
Qed.
Lemma words_inv s : existsb has_inv (split_space s) = has_inv s.
Proof.
  induction s as [|c s IH]; [reflexivity|].
  destruct (split_first s) as (w & ws & E & F). cbn [split_space]. rewrite E in *.
  destruct (Ascii.eqb_spec c " ") as [->|N].
  - cbn [existsb has_inv]. cbn [existsb] in IH. rewrite IH. destruct s; reflexivity.
  - cbn [existsb] in *. rewrite <- orb_assoc || idtac.
    destruct (has_inv (String c w)) eqn:A.
    + cbn [orb]. symmetry. apply has_inv_cons in A. destruct A as [(w' & -> & ->)|A].
      * destruct (F _ _ eq_refl) as (s' & ->). reflexivity.
      * rewrite A in IH. cbn [orb] in IH. cbn [has_inv]. destruct s as [|d s]; [discriminate|]. rewrite <- IH. apply orb_true_r.
    + cbn [orb]. destruct s as [|d s].
      * cbn in E. injection E as <- <-. reflexivity.
      * cbn [has_inv]. fold (has_inv (String d s)). change (match s with EmptyString => false | String d0 _ => (d =? "-")%char && (d0 =? "1")%char || has_inv s end) with (has_inv (String d s)).
        rewrite <- IH.
        assert (B : has_inv w = false).
        { destruct (has_inv w) eqn:B; [|reflexivity]. cbn [has_inv] in A. destruct w; [discriminate|]. rewrite B, orb_true_r in A. discriminate. }
        rewrite B. cbn [orb].
        destruct (Ascii.eqb c "-" && Ascii.eqb d "1") eqn:D; [|reflexivity].
        exfalso. apply andb_prop in D. destruct D as [D1 D2]. apply Ascii.eqb_eq in D1, D2. subst c d.
        cbn [split_space] in E. change (Ascii.eqb "1" " ") with false in E. lazy beta iota in E.
        destruct (split_space s) as [|w0 ws0]; injection E as <- <-; discriminate A.
Qed.
Lemma no_words u : ~ contains_inverse u -> filter has_inv (split_space u) = [].
Proof.
  intros H. rewrite <- has_inv_spec, <- words_inv in H.
  induction (split_space u) as [|w ws IH]; [reflexivity|]. cbn [existsb filter] in *.
  destruct (has_inv w); [exfalso; apply H; reflexivity|]. apply IH. exact H.
Qed.
Lemma some_words u : contains_inverse u -> exists w ws, filter has_inv (split_space u) = w :: ws.
Proof.
  intros H. rewrite <- has_inv_spec, <- words_inv in H.
  induction (split_space u) as [|w ws IH]; [discriminate|]. cbn [existsb filter] in *.
  destruct (has_inv w); [eauto|]. apply IH. exact H.
Qed.

(** ** Conversion factors *)
Lemma units_In dm dy u v : unit_length dm dy u = Some v ->
  In u ["ns"; "s"; "min"; "hr"; "day"; "mon"; "yr"].
Proof.
  unfold unit_length.
  repeat (match goal with |- context [String.eqb u ?k] => destruct (String.eqb_spec u k) as [->|?] end; [intros _; cbn; tauto|]).
  discriminate.
Qed.

Definition inverses (t : dict R) : res (dict R) :=
  mapM (fun kv => if Reqb (snd kv) 0 then Err ZeroDivisionError else Ok (fst kv, 1 / snd kv)) t.
Lemma inverses_ok t : Forall (fun kv => snd kv <> 0) t -> inverses t = Ok (map (fun kv => (fst kv, 1 / snd kv)) t).
Proof.
  induction 1 as [|kv t H _ IH]; [reflexivity|]. unfold inverses in *. cbn [mapM map]. apply Reqb_false in H. rewrite H. cbn [bind].
  rewrite IH. reflexivity.
Qed.
Lemma inverses_zero t : (exists k v, In (k, v) t /\ v = 0) -> inverses t = Err ZeroDivisionError.
Proof.
  induction t as [|kv t IH]; intros (k & v & I & Z); [destruct I|]. unfold inverses in *. cbn [mapM].
  destruct (Reqb (snd kv) 0) eqn:E; [reflexivity|]. cbn [bind]. rewrite IH; [reflexivity|].
  destruct I as [-> |I]; [apply Reqb_false in E; contradiction|eauto].
Qed.
Lemma table_nz dm dy : dm <> 0 -> dy <> 0 -> Forall (fun kv => snd kv <> 0) (ns_table dm dy).
Proof. intros. unfold ns_table. repeat constructor; cbn [snd]; repeat apply Rmult_integral_contrapositive_currified; try lra; assumption. Qed.

Lemma factor_ok dm dy a b va vb : dm <> 0 -> dy <> 0 ->
  unit_length dm dy a = Some va -> unit_length dm dy b = Some vb ->
  time_conversion_factor a b dm dy = Ok (va / vb).
Proof.
  intros H1 H2 Ha Hb. unfold time_conversion_factor.
  pose proof (inverses_ok _ (table_nz dm dy H1 H2)) as M. unfold inverses in M. rewrite M. cbn [bind]. clear M.
  assert (L : forall u v, unit_length dm dy u = Some v -> dlookup u (ns_table dm dy) = Ok v /\ dmem u (ns_table dm dy) = true /\
     dlookup u (map (fun kv => (fst kv, 1 / snd kv)) (ns_table dm dy)) = Ok (1 / v) /\
     dmem u (map (fun kv => (fst kv, 1 / snd kv)) (ns_table dm dy)) = true).
  { intros u v Hu. pose proof (units_In _ _ _ _ Hu) as I. cbn [In] in I.
    repeat (destruct I as [<- | I]; [cbn in Hu; injection Hu as <-; cbn;
      (split; [apply (f_equal (@Ok R)); ring|split; [reflexivity|split; [apply (f_equal (fun z => Ok (1 / z))); ring|reflexivity]]])|]). destruct I. }
  destruct (L _ _ Ha) as (A1 & A2 & _ & _). destruct (L _ _ Hb) as (_ & _ & B1 & B2).
  rewrite A2, B2, A1, B1. cbn [assert_ bind]. f_equal. unfold Rdiv. ring.
Qed.

Lemma factor_zero a b dm dy : dm = 0 \/ dy = 0 -> time_conversion_factor a b dm dy = Err ZeroDivisionError.
Proof.
  intros H. unfold time_conversion_factor.
  pose proof (inverses_zero (ns_table dm dy)) as M. unfold inverses in M. rewrite M; [reflexivity|].
  destruct H as [-> | ->]; [exists "mon"|exists "yr"]; eexists; (split; [unfold ns_table; cbn [In]; tauto|]); ring.
Qed.

Lemma factor_unknown a b dm dy : dm <> 0 -> dy <> 0 ->
  unit_length dm dy a = None \/ unit_length dm dy b = None -> time_conversion_factor a b dm dy = Err AssertionError.
Proof.
  intros H1 H2 H. unfold time_conversion_factor.
  pose proof (inverses_ok _ (table_nz dm dy H1 H2)) as M. unfold inverses in M. rewrite M. cbn [bind].
  assert (G : forall u, unit_length dm dy u = None -> dmem u (ns_table dm dy) = false /\
                        dmem u (map (fun kv => (fst kv, 1 / snd kv)) (ns_table dm dy)) = false).
  { intros u Hu. unfold unit_length in Hu. unfold ns_table, dmem. cbn [map fst snd dget].
    repeat (match type of Hu with context [String.eqb u ?k] => destruct (String.eqb u k) eqn:? end; [discriminate|]).
    repeat match goal with E : String.eqb u _ = false |- _ => rewrite E; clear E end. split; reflexivity. }
  destruct H as [H|H]; destruct (G _ H) as [G1 G2].
  - rewrite G1. reflexivity.
  - rewrite G2. destruct (dmem a (ns_table dm dy)); reflexivity.
Qed.

Lemma default_month_nz : default_month <> 0. Proof. unfold default_month. lra. Qed.
Lemma default_year_nz : default_year <> 0. Proof. unfold default_year. lra. Qed.
Definition known (u : string) (v : R) : Prop := unit_length default_month default_year u = Some v.
Lemma known_pos u v : known u v -> 0 < v.
Proof.
  unfold known, unit_length, default_month, default_year.
  repeat (match goal with |- context [String.eqb u ?k] => destruct (String.eqb_spec u k) as [->|?] end; [intros H; injection H as <-; lra|]).
  discriminate.
Qed.
Lemma factor_known a b va vb : known a va -> known b vb -> time_conversion_factor a b default_month default_year = Ok (va / vb).
Proof. intros. apply factor_ok; auto using default_month_nz, default_year_nz. Qed.
Lemma known_ns : known "ns" 1. Proof. reflexivity. Qed.

(** The word written by [calc_linear_trend] is read back by [broadcast_trend]. *)
Lemma unit_word u v : known u v -> split_space (u ++ "-1") = [u ++ "-1"] /\ has_inv (u ++ "-1") = true /\ drop_inv (u ++ "-1") = u.
Proof.
  intros H. apply units_In in H. cbn [In] in H.
  repeat (destruct H as [<-|H]; [repeat split; reflexivity|]). destruct H.
Qed.
