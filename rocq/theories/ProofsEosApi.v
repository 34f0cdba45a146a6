(** * ProofsEosApi: C03 and C06 (proofs only) *)
From Coq Require Import Reals Lra Lia List String Bool Ascii.
From Verif Require Import Num NumFacts Py Eos SpecEos ProofsEos ProofsEosBox.
Import ListNotations.
Local Open Scope R_scope.

Lemma wright_alpha_beta T S p r :
  wright_density (Fin T) (Fin S) (Fin p) = Fin r -> r <> 0 ->
  exists dT dS,
    derivable_pt_lim (fun t => val (wright_density (Fin t) (Fin S) (Fin p))) T dT /\
    derivable_pt_lim (fun s => val (wright_density (Fin T) (Fin s) (Fin p))) S dS /\
    wright_alpha (Fin T) (Fin S) (Fin p) = Fin (- (1 / r) * dT) /\
    wright_beta (Fin T) (Fin S) (Fin p) = Fin ((1 / r) * dS).
Proof.
  intros Hr Hr0.
  assert (Hf : is_fin (wright_density (Fin T) (Fin S) (Fin p)) = true) by (rewrite Hr; reflexivity).
  destruct (wright_dT T S p Hf) as (dT & E1 & D1). destruct (wright_dS T S p Hf) as (dS & E2 & D2).
  exists dT, dS. split; [exact D1|]. split; [exact D2|].
  unfold wright_alpha, wright_beta. rewrite E1, E2, Hr, !fdiv_Fin by exact Hr0.
  split; cbn [fmul]; f_equal; field; exact Hr0.
Qed.

Lemma linear_density_Fin T S p : linear_density (Fin T) (Fin S) p = Fin (lin_rho T S).
Proof.
  unfold linear_density, linear_density_ref, RHO_T0_S0, DRHO_DT, DRHO_DS, lin_rho.
  fin_cbn. f_equal. lra.
Qed.

Lemma linear_alpha_beta T S p r :
  linear_density (Fin T) (Fin S) (Fin p) = Fin r -> r <> 0 ->
  exists dT dS,
    derivable_pt_lim (fun t => val (linear_density (Fin t) (Fin S) (Fin p))) T dT /\
    derivable_pt_lim (fun s => val (linear_density (Fin T) (Fin s) (Fin p))) S dS /\
    linear_drho_dtemp (Fin T) (Fin S) (Fin p) = Fin dT /\
    linear_drho_dsal (Fin T) (Fin S) (Fin p) = Fin dS /\
    linear_alpha false (Fin T) (Fin S) (Fin p) = Fin (- (1 / r) * dT) /\
    linear_beta false (Fin T) (Fin S) (Fin p) = Fin ((1 / r) * dS).
Proof.
  intros Hr Hr0. exists (- (2 / 10)), (8 / 10). repeat split.
  - eapply derivable_pt_lim_ext';
      [|replace (- (2 / 10)) with (- (2 / 10) + 2 * 0 * T + 3 * 0 * T^2) by field;
        apply (cubic_derivative (1000 + 0.8 * S))].
    intros t. rewrite linear_density_Fin. unfold lin_rho, val. lra.
  - eapply derivable_pt_lim_ext';
      [|replace (8 / 10) with (8 / 10 + 2 * 0 * S + 3 * 0 * S^2) by field;
        apply (cubic_derivative (1000 - 0.2 * T))].
    intros s. rewrite linear_density_Fin. unfold lin_rho, val. lra.
  - unfold linear_alpha. rewrite Hr. unfold full_like, DRHO_DT. rewrite fdiv_Fin by exact Hr0.
    cbn [fmul]; f_equal; field; exact Hr0.
  - unfold linear_beta. rewrite Hr. unfold full_like, DRHO_DS. rewrite fdiv_Fin by exact Hr0.
    f_equal; field; exact Hr0.
Qed.

Lemma Int_part_of x n : IZR n <= x < IZR n + 1 -> Int_part x = n.
Proof.
  intros [H1 H2]. destruct (base_Int_part x) as [H3 H4].
  assert (IZR (Int_part x) < IZR (n + 1)) by (rewrite plus_IZR; lra).
  assert (IZR n < IZR (Int_part x + 1)) by (rewrite plus_IZR; lra).
  apply lt_IZR in H, H0. lia.
Qed.

Lemma linear_alpha_int T S p r :
  linear_density (Fin T) (Fin S) (Fin p) = Fin r -> r <> 0 ->
  linear_alpha true (Fin T) (Fin S) (Fin p) = Fin 0 /\
  linear_beta true (Fin T) (Fin S) (Fin p) = Fin 0.
Proof.
  intros Hr Hr0. unfold linear_alpha, linear_beta. rewrite Hr. unfold full_like, DRHO_DT, DRHO_DS, trunc.
  assert (E1 : Rltb (- (2 / 10)) 0 = true) by (apply Rltb_true; lra).
  assert (E2 : Rltb (8 / 10) 0 = false) by (apply Rltb_false; lra). rewrite E1, E2.
  rewrite (Int_part_of (- - (2 / 10)) 0) by lra. rewrite (Int_part_of (8 / 10) 0) by lra.
  rewrite !fdiv_Fin by exact Hr0. simpl. split; f_equal; field; exact Hr0.
Qed.

(** ** Names *)
Lemma nat_ascii_inj c d : nat_of_ascii c = nat_of_ascii d -> c = d.
Proof. intros H. rewrite <- (ascii_nat_embedding c), <- (ascii_nat_embedding d), H. reflexivity. Qed.

Lemma lower_ascii_code c : nat_of_ascii (lower_ascii c) =
  if ((65 <=? nat_of_ascii c) && (nat_of_ascii c <=? 90))%nat then (nat_of_ascii c + 32)%nat else nat_of_ascii c.
Proof.
  unfold lower_ascii. destruct ((65 <=? nat_of_ascii c) && (nat_of_ascii c <=? 90))%nat eqn:E; [|reflexivity].
  apply andb_true_iff in E as [E1 E2]. apply Nat.leb_le in E1, E2. apply nat_ascii_embedding. lia.
Qed.

Lemma same_letter_lower c d : same_letter c d <-> lower_ascii c = lower_ascii d.
Proof.
  split.
  - intros [c'|c' d' H1 H2|c' d' H1 H2]; [reflexivity| |]; apply nat_ascii_inj; rewrite !lower_ascii_code, H2.
    + assert (E1 : ((65 <=? nat_of_ascii c') && (nat_of_ascii c' <=? 90) = true)%nat)
        by (apply andb_true_iff; split; apply Nat.leb_le; lia).
      assert (E2 : ((65 <=? nat_of_ascii c' + 32) && (nat_of_ascii c' + 32 <=? 90) = false)%nat)
        by (apply andb_false_iff; right; apply Nat.leb_gt; lia).
      rewrite E1, E2. reflexivity.
    + assert (E1 : ((65 <=? nat_of_ascii d') && (nat_of_ascii d' <=? 90) = true)%nat)
        by (apply andb_true_iff; split; apply Nat.leb_le; lia).
      assert (E2 : ((65 <=? nat_of_ascii d' + 32) && (nat_of_ascii d' + 32 <=? 90) = false)%nat)
        by (apply andb_false_iff; right; apply Nat.leb_gt; lia).
      rewrite E1, E2. reflexivity.
  - intros H. apply (f_equal nat_of_ascii) in H. rewrite !lower_ascii_code in H.
    destruct ((65 <=? nat_of_ascii c) && (nat_of_ascii c <=? 90))%nat eqn:E1;
    destruct ((65 <=? nat_of_ascii d) && (nat_of_ascii d <=? 90))%nat eqn:E2.
    + assert (c = d) by (apply nat_ascii_inj; lia). subst. constructor.
    + apply andb_true_iff in E1 as [E1 E1']. apply Nat.leb_le in E1, E1'.
      apply sl_upper_lower; lia.
    + apply andb_true_iff in E2 as [E2 E2']. apply Nat.leb_le in E2, E2'.
      apply sl_lower_upper; lia.
    + assert (c = d) by (apply nat_ascii_inj; lia). subst. constructor.
Qed.

Lemma same_name_lower s t : same_name s t <-> lower s = lower t.
Proof.
  split.
  - induction 1 as [|c d s t Hl Hs IH]; [reflexivity|]. simpl. apply same_letter_lower in Hl.
    rewrite Hl, IH. reflexivity.
  - revert t. induction s as [|c s IH]; intros [|d t] H; try discriminate; [constructor|].
    simpl in H. injection H as H1 H2. constructor; [apply same_letter_lower; exact H1 | apply IH; exact H2].
Qed.

Lemma eqb_lower s t : lower t = t -> String.eqb (lower s) t = true <-> same_name s t.
Proof.
  intros Ht. rewrite String.eqb_eq, same_name_lower, Ht. reflexivity.
Qed.

Definition module_name (m : eos_module) : string :=
  match m with Wright => "wright" | Linear => "linear" end.

Lemma eos_resolves s m f : eos_func_from_str s f = Ok (m, f) <-> same_name s (module_name m).
Proof.
  unfold eos_func_from_str. split.
  - intros H.
    assert (Hd : dget (lower s) eos_dict = Some (AModule m)).
    { destruct (dget (lower s) eos_dict) as [[m'| |]|]; try discriminate. injection H as ->. reflexivity. }
    clear H. unfold eos_dict in Hd. cbn [dget] in Hd.
    repeat match type of Hd with
      | (if String.eqb ?a ?b then _ else _) = _ =>
          let E := fresh "E" in destruct (String.eqb a b) eqn:E;
          [first [discriminate Hd | injection Hd as <-; apply (eqb_lower s b eq_refl); exact E]|]
      end. discriminate Hd.
  - intros H. apply same_name_lower in H. rewrite H. destruct m; reflexivity.
Qed.

Lemma dget_None_iff {A} k (d : dict A) : dget k d = None <-> ~ In k (dkeys d).
Proof.
  induction d as [|[k' v] d IH]; simpl; [tauto|].
  destruct (String.eqb k k') eqn:E.
  - apply String.eqb_eq in E. subst. split; [discriminate|]. intros H; exfalso; apply H; left; reflexivity.
  - apply String.eqb_neq in E. rewrite IH. split.
    + intros H [H1|H1]; [congruence|contradiction].
    + intros H H1; apply H; right; exact H1.
Qed.

Lemma eos_dict_lower k : In k (dkeys eos_dict) -> lower k = k.
Proof.
  unfold eos_dict, dkeys. cbn [map fst In].
  intros Hk. repeat (destruct Hk as [<-|Hk]; [reflexivity|]). contradiction.
Qed.

Lemma eos_unknown s f :
  eos_func_from_str s f = Err ValueError <-> (forall k, In k (dkeys eos_dict) -> ~ same_name s k).
Proof.
  unfold eos_func_from_str. split.
  - intros H k Hk Hs. apply same_name_lower in Hs. rewrite (eos_dict_lower k Hk) in Hs.
    destruct (dget (lower s) eos_dict) as [[m| |]|] eqn:E; try discriminate.
    apply dget_None_iff in E. apply E. rewrite Hs. exact Hk.
  - intros H. assert (E : dget (lower s) eos_dict = None).
    { apply dget_None_iff. intros Hk. apply (H _ Hk). apply same_name_lower.
      rewrite (eos_dict_lower _ Hk). reflexivity. }
    rewrite E. reflexivity.
Qed.

Lemma eos_never_mixed s f g m r : eos_func_from_str s f = Ok (m, r) ->
  r = f /\ eos_func_from_str s g = Ok (m, g).
Proof.
  unfold eos_func_from_str. destruct (dget (lower s) eos_dict) as [[m'| |]|]; try discriminate.
  intros [=]; subst; split; reflexivity.
Qed.
