(** * ProofsYearText: years in strings *)
From Coq Require Import ZArith Lia List String Ascii Bool Arith.
From Verif Require Import Py Arr Calendar TimeAvg YearText.
Import ListNotations.
Local Open Scope string_scope.

Lemma digit_is n : (0 <= n < 10)%Z -> exists c, digit n = String c "" /\ is_digit c = true /\ digit_val c = n /\ Ascii.eqb c "-" = false /\ Ascii.eqb c "+" = false.
Proof.
  intros H. exists (ascii_of_nat (48 + Z.to_nat n)). split; [reflexivity|].
  assert (N : exists k, (k < 10)%nat /\ n = Z.of_nat k) by (exists (Z.to_nat n); lia).
  destruct N as (k & Hk & ->). rewrite Nat2Z.id.
  do 10 (destruct k as [|k]; [repeat split; reflexivity|]). lia.
Qed.

(** Strings of digits, and their value. *)
Fixpoint all_digits (s : string) : bool := match s with EmptyString => true | String c s' => is_digit c && all_digits s' end.
Fixpoint value (acc : Z) (s : string) : Z := match s with EmptyString => acc | String c s' => value (10 * acc + digit_val c) s' end.

Lemma app_assoc_s (a b c : string) : (a ++ b) ++ c = a ++ b ++ c.
Proof. induction a as [|x a IH]; cbn; [reflexivity|rewrite IH; reflexivity]. Qed.
Lemma length_app_s (a b : string) : String.length (a ++ b) = (String.length a + String.length b)%nat.
Proof. induction a as [|x a IH]; cbn; [reflexivity|rewrite IH; reflexivity]. Qed.
Lemma value_app a b acc : value acc (a ++ b) = value (value acc a) b.
Proof. revert acc. induction a as [|x a IH]; intros acc; cbn; [reflexivity|apply IH]. Qed.
Lemma all_digits_app a b : all_digits (a ++ b) = all_digits a && all_digits b.
Proof. induction a as [|x a IH]; cbn; [reflexivity|rewrite IH, andb_assoc; reflexivity]. Qed.

Lemma digits_spec fuel : forall n, (0 <= n < Z.of_nat fuel)%Z ->
  all_digits (digits fuel n) = true /\ value 0 (digits fuel n) = n /\
  (forall k, (Z.pow 10 (Z.of_nat k) <= n)%Z -> (k < String.length (digits fuel n))%nat) /\
  (forall k, (n < Z.pow 10 (Z.of_nat (S k)))%Z -> (String.length (digits fuel n) <= S k)%nat) /\
  exists c s, digits fuel n = String c s /\ Ascii.eqb c "-" = false /\ Ascii.eqb c "+" = false.
Proof.
  induction fuel as [|f IH]; intros n H; [lia|]. cbn [digits].
  destruct (Z.ltb_spec n 10) as [L|L].
  - destruct (digit_is n ltac:(lia)) as (c & -> & D & V & M & P). cbn. rewrite D.
    split; [reflexivity|]. split; [exact V|]. split; [|split].
    + intros k Hk. destruct k as [|k]; [lia|]. exfalso. rewrite Nat2Z.inj_succ, Z.pow_succ_r in Hk by lia.
      assert (0 < 10 ^ Z.of_nat k)%Z by (apply Z.pow_pos_nonneg; lia). lia.
    + intros k _. lia.
    + exists c, "". auto.
  - assert (Q : (0 <= n / 10 < Z.of_nat f)%Z).
    { split; [apply Z.div_pos; lia|]. apply Z.div_lt_upper_bound; lia. }
    destruct (IH (n / 10)%Z Q) as (D & V & A & B & c & s & E & M & P).
    pose proof (Z.mod_pos_bound n 10 ltac:(lia)) as R.
    destruct (digit_is (n mod 10) R) as (c' & E' & D' & V' & _ & _). rewrite E'.
    split; [rewrite all_digits_app, D; cbn; rewrite D'; reflexivity|].
    split; [rewrite value_app, V; cbn [value]; rewrite V'; pose proof (Z.div_mod n 10 ltac:(lia)); lia|].
    rewrite !length_app_s. cbn [String.length]. split; [|split].
    + intros k Hk. destruct k as [|k]; [lia|]. rewrite Nat2Z.inj_succ, Z.pow_succ_r in Hk by lia.
      assert (10 ^ Z.of_nat k <= n / 10)%Z by (apply Z.div_le_lower_bound; lia). specialize (A k H0). lia.
    + intros k Hk. destruct k as [|k]; [exfalso; change (10 ^ Z.of_nat 1)%Z with 10%Z in Hk; lia|].
      assert (n / 10 < 10 ^ Z.of_nat (S k))%Z.
      { apply Z.div_lt_upper_bound; [lia|]. rewrite (Nat2Z.inj_succ (S k)), Z.pow_succ_r in Hk by lia. lia. }
      specialize (B k H0). lia.
    + rewrite E. cbn. exists c, (s ++ String c' ""). auto.
Qed.

Lemma zeros_spec k : all_digits (zeros k) = true /\ value 0 (zeros k) = 0%Z /\ String.length (zeros k) = k.
Proof. induction k as [|k (A & B & C)]; cbn; [auto|]. change (digit_val "0") with 0%Z. rewrite A, B, C. auto. Qed.

(** Four digits are read as their value. *)
Lemma range_start_four s : all_digits s = true -> String.length s = 4%nat -> range_start (s ++ "-01-01") = Ok (value 0 s).
Proof.
  intros D L. destruct s as [|a [|b [|c [|d [|x s]]]]]; try discriminate L.
  cbn [all_digits] in D. rewrite !andb_true_iff in D. destruct D as (Da & Db & Dc & Dd & _).
  cbn [append range_start]. rewrite Da, Db, Dc, Dd. cbn [andb]. rewrite String.eqb_refl. cbn [value]. f_equal. lia.
Qed.

(** Texts of other lengths are not read. *)
Lemma range_start_other s : all_digits s = true -> String.length s <> 4%nat -> range_start (s ++ "-01-01") = Err ValueError.
Proof.
  intros D L. destruct s as [|a [|b [|c [|d [|x s]]]]]; cbn [append range_start].
  - reflexivity.
  - change (is_digit "-") with false. rewrite !andb_false_r. reflexivity.
  - change (is_digit "-") with false. rewrite !andb_false_r. reflexivity.
  - change (is_digit "-") with false. rewrite !andb_false_r. reflexivity.
  - exfalso. apply L. reflexivity.
  - cbn [all_digits] in D. rewrite !andb_true_iff in D. destruct D as (_ & _ & _ & _ & Dx & _).
    assert (N : String.eqb (String x (s ++ "-01-01")) "-01-01" = false).
    { apply String.eqb_neq. intros E. injection E as E _. subst x. discriminate Dx. }
    rewrite N, !andb_false_r. reflexivity.
Qed.

Lemma range_start_negative s : range_start (String "-" s) = Err ValueError.
Proof. destruct s as [|b [|c [|d s]]]; reflexivity. Qed.

Lemma str_int_spec n : (0 <= n)%Z -> all_digits (str_int n) = true /\ value 0 (str_int n) = n /\
  (forall k, (Z.pow 10 (Z.of_nat k) <= n)%Z -> (k < String.length (str_int n))%nat) /\
  (forall k, (n < Z.pow 10 (Z.of_nat (S k)))%Z -> (String.length (str_int n) <= S k)%nat) /\
  exists c s, str_int n = String c s /\ Ascii.eqb c "-" = false /\ Ascii.eqb c "+" = false.
Proof. intros H. unfold str_int. destruct (Z.ltb_spec n 0); [lia|]. apply digits_spec. lia. Qed.

Lemma str_int_negative n : (n < 0)%Z -> exists s, str_int n = String "-" s.
Proof. intros H. unfold str_int. destruct (Z.ltb_spec n 0); [|lia]. eexists. reflexivity. Qed.

Lemma padded_text n : (0 <= n)%Z -> zfill 4 (str_int n) = zeros (4 - String.length (str_int n)) ++ str_int n.
Proof.
  intros H. destruct (str_int_spec n H) as (_ & _ & _ & _ & c & s & E & M & P). unfold zfill. rewrite E, M, P. reflexivity.
Qed.

(** Every year up to 9999 is read back. *)
Lemma padded_start_ok y : (0 <= y <= 9999)%Z -> padded_start y = Ok y.
Proof.
  intros H. unfold padded_start. rewrite padded_text by lia.
  destruct (str_int_spec y ltac:(lia)) as (D & V & _ & B & _). destruct (zeros_spec (4 - String.length (str_int y))) as (Dz & Vz & Lz).
  specialize (B 3%nat ltac:(change (10 ^ Z.of_nat 4)%Z with 10000%Z; lia)).
  rewrite range_start_four.
  - rewrite value_app, Vz, V. reflexivity.
  - rewrite all_digits_app, Dz, D. reflexivity.
  - rewrite length_app_s, Lz. lia.
Qed.

Lemma padded_start_err y : (y < 0 \/ 10000 <= y)%Z -> padded_start y = Err ValueError.
Proof.
  intros [H|H]; unfold padded_start.
  - destruct (str_int_negative y H) as (s & ->). unfold zfill. cbn [Ascii.eqb Bool.eqb orb]. cbn [append]. apply range_start_negative.
  - rewrite padded_text by lia. destruct (str_int_spec y ltac:(lia)) as (D & V & A & _). destruct (zeros_spec (4 - String.length (str_int y))) as (Dz & Vz & Lz).
    specialize (A 4%nat ltac:(change (10 ^ Z.of_nat 4)%Z with 10000%Z; lia)).
    apply range_start_other; [rewrite all_digits_app, Dz, D; reflexivity|]. rewrite length_app_s, Lz. lia.
Qed.

(** Without padding only four-digit years are read. *)
Lemma plain_start_ok y : (1000 <= y <= 9999)%Z -> range_start (str_int y ++ "-01-01") = Ok y.
Proof.
  intros H. destruct (str_int_spec y ltac:(lia)) as (D & V & A & B & _).
  specialize (A 3%nat ltac:(change (10 ^ Z.of_nat 3)%Z with 1000%Z; lia)). specialize (B 3%nat ltac:(change (10 ^ Z.of_nat 4)%Z with 10000%Z; lia)).
  rewrite range_start_four by (assumption || lia). rewrite V. reflexivity.
Qed.
Lemma plain_start_err y : (y < 1000 \/ 10000 <= y)%Z -> range_start (str_int y ++ "-01-01") = Err ValueError.
Proof.
  intros H. destruct (Z.ltb_spec y 0) as [N|N].
  - destruct (str_int_negative y N) as (s & ->). cbn [append]. apply range_start_negative.
  - destruct (str_int_spec y N) as (D & V & A & B & _). apply range_start_other; [exact D|].
    destruct H as [H|H].
    + specialize (B 2%nat ltac:(change (10 ^ Z.of_nat 3)%Z with 1000%Z; lia)). lia.
    + specialize (A 4%nat ltac:(change (10 ^ Z.of_nat 4)%Z with 10000%Z; lia)). lia.
Qed.
