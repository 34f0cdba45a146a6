(** * ProofsSeason3: blocks and deseason *)
From Coq Require Import Reals ZArith List String Bool Arith Lia Lra.
From Verif Require Import Num NumFacts Py Arr ArrFacts Calendar SpecTime Trend Seasonal SpecSeason ProofsPinv ProofsSeason ProofsUtil ProofsStericOk ProofsAvg2.
Import ListNotations.
Local Open Scope string_scope.
#[local] Opaque pinv.

(** ** Blocks *)
Definition matches (cs : list (string * list nat)) (b : block) : Prop :=
  Forall2 (fun p q => fst q = fst p /\ In (snd q) (offsets 0 (snd p))) cs b.
Lemma blocks_matches cs b : In b (blocks_of cs) <-> matches cs b.
Proof.
  revert b. induction cs as [|[d c] cs IH]; intros b; cbn [blocks_of].
  - split; [intros [<- |[]]; constructor|]. intros H. inversion H. left. reflexivity.
  - rewrite in_flat_map. split.
    + intros (oc & Ho & Hb). apply in_map_iff in Hb. destruct Hb as (b' & <- & Hb'). constructor; [split; [reflexivity|exact Ho]|]. apply IH. exact Hb'.
    + intros H. inversion H as [|? q ? b' [H1 H2] H3]; subst. destruct q as [d' oc]. cbn [fst snd] in *. subst d'.
      exists oc. split; [exact H2|]. apply in_map. apply IH. exact H3.
Qed.
Lemma offsets_cover cs : forall o i, (o <= i < o + fold_right plus 0 cs)%nat -> exists oc, In oc (offsets o cs) /\ (fst oc <= i < fst oc + snd oc)%nat.
Proof.
  induction cs as [|c cs IH]; intros o i Hi; cbn [fold_right offsets] in *; [lia|].
  destruct (Nat.lt_ge_cases i (o + c)) as [L|L].
  - exists (o, c). split; [left; reflexivity|cbn [fst snd]; lia].
  - destruct (IH (o + c)%nat i) as (oc & H1 & H2); [lia|]. exists oc. split; [right; exact H1|exact H2].
Qed.
Lemma in_block_spec b e : in_block b e = true <-> forall d o s, In (d, (o, s)) b -> (o <= e d < o + s)%nat.
Proof.
  unfold in_block. rewrite forallb_forall. split.
  - intros H d o s Hin. specialize (H _ Hin). cbn [fst snd] in H. apply andb_true_iff in H. destruct H as [H1 H2].
    apply Nat.leb_le in H1. apply Nat.ltb_lt in H2. lia.
  - intros H [d [o s]] Hin. cbn [fst snd]. specialize (H _ _ _ Hin). apply andb_true_iff. split; [apply Nat.leb_le|apply Nat.ltb_lt]; lia.
Qed.
Lemma block_exists cs e : (forall d c, In (d, c) cs -> (e d < fold_right plus 0 c)%nat) -> exists b, In b (blocks_of cs) /\ in_block b e = true.
Proof.
  intros H. assert (G : exists b, matches cs b /\ in_block b e = true).
  { induction cs as [|[d c] cs IH].
    - exists []. split; [constructor|reflexivity].
    - destruct IH as (b & M & B); [intros d' c' Hin; apply H; right; exact Hin|].
      destruct (offsets_cover c 0 (e d)) as (oc & Ho & Hi); [pose proof (H d c (or_introl eq_refl)); lia|].
      exists ((d, oc) :: b). split; [constructor; [split; [reflexivity|exact Ho]|exact M]|]. rewrite in_block_spec in *.
      intros d' o s [E|Hin]; [injection E as <- ->; cbn [fst snd] in Hi; lia|apply B; exact Hin]. }
  destruct G as (b & M & B). exists b. split; [apply blocks_matches; exact M|exact B].
Qed.
Lemma matches_names cs b : matches cs b -> map fst b = map fst cs.
Proof. induction 1 as [|p q cs b [H1 _] _ IH]; [reflexivity|]. cbn [map]. congruence. Qed.
Lemma matches_length cs b : matches cs b -> List.length b = List.length cs.
Proof. intros H. rewrite <- (map_length fst b), <- (map_length fst cs), (matches_names _ _ H). reflexivity. Qed.
Lemma matches_whole cs b t n : NoDup (map fst cs) -> matches cs b -> dget t cs = Some [n] -> dget t b = Some (0, n)%nat.
Proof.
  intros ND M G. apply dget_In in G. apply In_dget; [rewrite (matches_names _ _ M); exact ND|].
  clear ND. induction M as [|p q cs b [H1 H2] _ IH]; [destruct G|]. destruct G as [-> |G]; [|right; apply IH; exact G].
  left. cbn [fst snd offsets In] in *. destruct q as [d oc]. cbn [fst snd] in *. destruct H2 as [<- |[]]. congruence.
Qed.

(** Re-indexing inside a block is undone by its offset. *)
Lemma dget_filter {A} t d (b : list (string * A)) : t <> d -> dget d (filter (fun p => negb (String.eqb t (fst p))) b) = dget d b.
Proof.
  intros N. induction b as [|[k v] b IH]; [reflexivity|]. cbn [filter fst]. destruct (String.eqb_spec t k) as [->|K]; cbn [negb dget].
  - rewrite IH. destruct (String.eqb_spec d k) as [->|]; [congruence|reflexivity].
  - rewrite IH. reflexivity.
Qed.
Lemma dget_filter_same {A} t (b : list (string * A)) : dget t (filter (fun p => negb (String.eqb t (fst p))) b) = None.
Proof.
  apply dget_None. intros I. apply in_map_iff in I. destruct I as (p & E & I). apply filter_In in I. destruct I as [_ I]. rewrite E, String.eqb_refl in I. discriminate.
Qed.
Lemma reindex t e b n i : dget t b = Some (0, n)%nat -> in_block b e = true ->
  (fun d => (upd (fun d => e d - offset_in b d) t i d + offset_in b d)%nat) = upd e t i.
Proof.
  intros G B. apply FunctionalExtensionality.functional_extensionality. intros d. unfold upd.
  destruct (String.eqb_spec t d) as [<-|N].
  - unfold offset_in. rewrite G. lia.
  - unfold offset_in. destruct (dget d b) as [[o s]|] eqn:E; [|lia]. apply dget_In in E. rewrite in_block_spec in B. specialize (B _ _ _ E). lia.
Qed.
Lemma reindex_coeff t e b n i : dget t b = Some (0, n)%nat -> in_block (filter (fun p => negb (String.eqb t (fst p))) b) e = true ->
  (fun d => (upd (fun d => e d - offset_in (filter (fun p => negb (String.eqb t (fst p))) b) d) t i d + offset_in b d)%nat) = upd e t i.
Proof.
  intros G B. apply FunctionalExtensionality.functional_extensionality. intros d. unfold upd.
  destruct (String.eqb_spec t d) as [<-|N].
  - unfold offset_in. rewrite G. lia.
  - unfold offset_in. rewrite dget_filter by exact N. destruct (dget d b) as [[o s]|] eqn:E; [|lia]. apply dget_In in E. rewrite in_block_spec in B.
    assert (I : In (d, (o, s)) (filter (fun p => negb (String.eqb t (fst p))) b)).
    { apply filter_In. split; [exact E|]. cbn [fst]. apply String.eqb_neq in N. rewrite N. reflexivity. }
    specialize (B _ _ _ I). lia.
Qed.

(** ** The lazy map *)
Section Lazy.
  Variables (t : string) (a : arr) (cs : list (string * list nat)) (l : list Z) (td : nat -> R) (n : nat).
  Hypothesis ND : NoDup (map fst cs).
  Hypothesis Hn : map fst cs = names a.
  Hypothesis Ht : dget t cs = Some [n].
  Hypothesis Hs : forall d c m, In (d, c) cs -> In (d, m) (adims a) -> fold_right plus 0%nat c = m.
  Hypothesis Htd : cycle_time n (DArray l) = Ok td.

  Lemma block_size b : In b (blocks_of cs) -> size_of t (take_block a b) = n /\ dget t b = Some (0, n)%nat /\ ndim (take_block a b) = ndim a.
  Proof.
    intros H. apply blocks_matches in H. pose proof (matches_whole cs b t n ND H Ht) as G. split; [|split; [exact G|]].
    - unfold size_of, take_block. cbn [adims].
      assert (E : forall b : block, dget t (map (fun p => (fst p, snd (snd p))) b) = option_map snd (dget t b)).
      { induction b0 as [|[k v] b0 IH]; [reflexivity|]. cbn [map dget fst snd]. destruct (String.eqb t k); [reflexivity|exact IH]. }
      rewrite E, G. reflexivity.
    - unfold ndim, take_block. cbn [adims]. rewrite map_length, (matches_length _ _ H).
      rewrite <- (map_length fst cs), Hn. apply map_length.
  Qed.

  Lemma inrange_block e : inrange (adims a) e -> exists b, In b (blocks_of cs) /\ in_block b e = true.
  Proof.
    intros R. apply block_exists. intros d c Hc. assert (I : In d (names a)) by (rewrite <- Hn; apply in_map_iff; eexists; split; [|exact Hc]; reflexivity).
    apply in_map_iff in I. destruct I as ([d' m] & E & I). cbn [fst] in E. subst d'. rewrite (Hs d c m Hc I). apply (R d m I).
  Qed.

  Lemma find_map {A B} (p : B -> bool) (g : A -> B) (xs : list A) : find p (map g xs) = option_map g (find (fun x => p (g x)) xs).
  Proof. induction xs as [|x xs IH]; [reflexivity|]. cbn [map find]. destruct (p (g x)); [reflexivity|exact IH]. Qed.

  Lemma lazy_plain fmt : fmt = "residuals" \/ fmt = "model" -> exists r, detrend_deseason_lazy t a cs (DArray l) fmt = Ok r /\ adims r = adims a /\
    forall e, inrange (adims a) e ->
      at_ r e = (if String.eqb fmt "residuals" then resid_of else model_of) n td (fun i => at_ a (upd e t i)) (e t).
  Proof.
    intros Hf. unfold detrend_deseason_lazy.
    set (g := fun b : block => (b, mkArr (adims (take_block a b))
       (fun e => (if String.eqb fmt "residuals" then resid_of else model_of) n td (fun i => at_ (take_block a b) (upd e t i)) (e t)))).
    assert (C : String.eqb fmt "coeff" = false) by (destruct Hf as [-> | ->]; reflexivity).
    rewrite (mapM_all _ g).
    - cbn [bind]. eexists. split; [reflexivity|]. cbn [adims at_]. rewrite C. split; [reflexivity|]. intros e Re. rewrite find_map.
      destruct (find _ (blocks_of cs)) as [b|] eqn:Fd; cbn [option_map].
      + apply find_some in Fd. destruct Fd as [Ib Eb]. cbn [g fst at_] in *. destruct (block_size b Ib) as (_ & Gt & _).
        assert (Y : (fun i => at_ (take_block a b) (upd (fun d => (e d - offset_in b d)%nat) t i)) = (fun i => at_ a (upd e t i))).
        { apply FunctionalExtensionality.functional_extensionality. intros i. unfold take_block. cbn [at_]. rewrite (reindex t e b n i Gt Eb). reflexivity. }
        assert (Ot : (e t - offset_in b t = e t)%nat) by (unfold offset_in; rewrite Gt; lia).
        destruct (String.eqb fmt "residuals"); rewrite Ot; f_equal; exact Y.
      + exfalso. destruct (inrange_block e Re) as (b & Ib & Eb). pose proof (find_none _ _ Fd b Ib) as N. cbn [g fst] in N. congruence.
    - intros b Ib. unfold detrend_deseason_chunk. rewrite C. destruct (block_size b Ib) as (-> & _ & _). rewrite Htd. cbn [bind].
      destruct Hf as [-> | ->]; reflexivity.
  Qed.

  Lemma lazy_coeff : (0 < n)%nat -> ~ In "coeff" (names a) -> ndim a <> 1%nat -> exists r, detrend_deseason_lazy t a cs (DArray l) "coeff" = Ok r /\
    adims r = (drop_dim t (adims a) ++ [("coeff", 6%nat)])%list /\
    forall e, inrange (drop_dim t (adims a)) e -> at_ r e = coeff_of n td (fun i => at_ a (upd e t i)) (e "coeff").
  Proof.
    intros Hpos Nc Nd1. unfold detrend_deseason_lazy.
    set (g := fun b : block => (b, mkArr (drop_dim t (adims (take_block a b)) ++ [("coeff", 6%nat)])%list
       (fun e => coeff_of n td (fun i => at_ (take_block a b) (upd e t i)) (e "coeff")))).
    change (String.eqb "coeff" "coeff") with true. lazy iota. rewrite (mapM_all _ g).
    - cbn [bind]. eexists. split; [reflexivity|]. cbn [adims at_]. split; [reflexivity|]. intros e Re. rewrite find_map.
      destruct (find _ (blocks_of cs)) as [b|] eqn:Fd; cbn [option_map].
      + apply find_some in Fd. destruct Fd as [Ib Eb]. cbn [g fst at_] in *. destruct (block_size b Ib) as (_ & Gt & _).
        assert (Y : forall i, at_ (take_block a b) (upd (fun d => (e d - offset_in (filter (fun p => negb (String.eqb t (fst p))) b) d)%nat) t i) = at_ a (upd e t i)).
        { intros i. unfold take_block. cbn [at_]. rewrite (reindex_coeff t e b n i Gt Eb). reflexivity. }
        rewrite (coeff_ext n td _ (fun i => at_ a (upd e t i))) by (intros i _; apply Y).
        f_equal. unfold offset_in. assert (Z : dget "coeff" (filter (fun p => negb (String.eqb t (fst p))) b) = None); [|rewrite Z; lia].
        apply dget_None. intros I. apply Nc. rewrite <- Hn. apply blocks_matches in Ib. rewrite <- (matches_names _ _ Ib).
        apply in_map_iff in I. destruct I as (p & E & I). apply filter_In in I. apply in_map_iff. exists p. tauto.
      + exfalso. destruct (inrange_block (upd e t 0)) as (b & Ib & Eb).
        { intros d m Hm. destruct (String.eqb_spec t d) as [<-|N].
          - rewrite upd_same. assert (It : In (t, [n]) cs) by (apply dget_In; exact Ht). rewrite <- (Hs _ _ _ It Hm). cbn [fold_right]. lia.
          - rewrite upd_other by exact N. apply Re. apply filter_In. split; [exact Hm|]. cbn [fst]. apply String.eqb_neq in N. rewrite N. reflexivity. }
        pose proof (find_none _ _ Fd b Ib) as N. cbn [g fst] in N.
        assert (T : in_block (filter (fun p => negb (String.eqb t (fst p))) b) e = true); [|congruence].
        rewrite in_block_spec in *. intros d o s I. apply filter_In in I. destruct I as [I J]. cbn [fst] in J. specialize (Eb _ _ _ I).
        rewrite upd_other in Eb; [exact Eb|]. intros ->. rewrite String.eqb_refl in J. discriminate.
    - intros b Ib. unfold detrend_deseason_chunk. change (String.eqb "coeff" "coeff") with true. lazy iota.
      destruct (block_size b Ib) as (-> & _ & ->). apply Nat.eqb_neq in Nd1. rewrite Nd1. cbn [bind]. rewrite Htd. reflexivity.
  Qed.

  (** One dimension only: every block fails. *)
  Lemma lazy_coeff_1d : (0 < n)%nat -> ndim a = 1%nat -> detrend_deseason_lazy t a cs (DArray l) "coeff" = Err TypeError.
  Proof.
    intros Hpos Nd1. unfold detrend_deseason_lazy.
    assert (E : exists b bs, blocks_of cs = b :: bs).
    { destruct (inrange_block (fun _ => 0%nat)) as (b & Ib & _).
      - intros d m Hm. unfold ndim in Nd1. destruct (adims a) as [|p [|]] eqn:Da; try discriminate. destruct Hm as [-> |[]].
        assert (Q : map fst cs = [d]) by (rewrite Hn; unfold names; rewrite Da; reflexivity).
        assert (It : In (t, [n]) cs) by (apply dget_In; exact Ht).
        assert (t = d) as -> by (assert (X : In t (map fst cs)) by (apply in_map_iff; eexists; split; [|exact It]; reflexivity); rewrite Q in X; destruct X as [<- |[]]; reflexivity).
        rewrite <- (Hs d [n] m It); [cbn [fold_right]; lia|]. left. reflexivity.
      - destruct (blocks_of cs); [destruct Ib|eauto]. }
    destruct E as (b & bs & E). assert (Ib : In b (blocks_of cs)) by (rewrite E; left; reflexivity). rewrite E. cbn [mapM].
    unfold detrend_deseason_chunk at 1. change (String.eqb "coeff" "coeff") with true. lazy iota.
    destruct (block_size b Ib) as (_ & _ & ->). rewrite Nd1. reflexivity.
  Qed.
End Lazy.

(** ** Chunks and dimension order *)
Lemma filter_id {A} (f : A -> bool) l : (forall p, In p l -> f p = true) -> filter f l = l.
Proof. induction l as [|p l IH]; intros H; [reflexivity|]. cbn [filter]. rewrite (H p (or_introl eq_refl)), IH by (intros q Hq; apply H; right; exact Hq). reflexivity. Qed.
Lemma to_end_names {A} t (l : list (string * A)) d : In d (map fst (to_end t l)) <-> In d (map fst l).
Proof.
  unfold to_end. rewrite map_app, in_app_iff, !in_map_iff. split.
  - intros [(p & E & I)|(p & E & I)]; apply filter_In in I; exists p; tauto.
  - intros (p & E & I). destruct (String.eqb t (fst p)) eqn:K; [right|left]; exists p; rewrite filter_In, K; auto.
Qed.
Lemma to_end_In {A} t (l : list (string * A)) p : In p (to_end t l) <-> In p l.
Proof.
  unfold to_end. rewrite in_app_iff, !filter_In. destruct (String.eqb t (fst p)); cbn [negb]; intuition.
Qed.
Lemma to_end_map {A B} t (l : list (string * A)) (l' : list (string * B)) : map fst l = map fst l' -> map fst (to_end t l) = map fst (to_end t l').
Proof.
  intros E. unfold to_end. rewrite !map_app.
  assert (G : forall (p : string -> bool) (l : list (string * A)) (l' : list (string * B)), map fst l = map fst l' -> map fst (filter (fun x => p (fst x)) l) = map fst (filter (fun x => p (fst x)) l')).
  { intros p. induction l0 as [|x l0 IH]; intros [|y l1] H; try discriminate; [reflexivity|]. cbn [map] in H. injection H as H1 H2. cbn [filter]. rewrite H1.
    destruct (p (fst y)); [cbn [map]; f_equal; [exact H1|]|]; apply IH; exact H2. }
  f_equal; [apply (G (fun k => negb (String.eqb t k)))|apply (G (fun k => String.eqb t k))]; exact E.
Qed.
Lemma to_end_NoDup {A} t (l : list (string * A)) : NoDup (map fst l) -> NoDup (map fst (to_end t l)).
Proof.
  intros H. unfold to_end. rewrite map_app. apply NoDup_app'; [apply NoDup_map_filter; exact H|apply NoDup_map_filter; exact H|].
  intros d I J. apply in_map_iff in I. destruct I as (p & <- & I). apply in_map_iff in J. destruct J as (q & E & J).
  apply filter_In in I. apply filter_In in J. destruct I as [_ I], J as [_ J]. rewrite E in J. rewrite J in I. discriminate.
Qed.
Lemma drop_to_end t (l : list (string * nat)) : drop_dim t (to_end t l) = drop_dim t l.
Proof.
  unfold drop_dim, to_end. rewrite filter_app.
  assert (E1 : forall m : list (string * nat), filter (fun p => negb (String.eqb t (fst p))) (filter (fun p => negb (String.eqb t (fst p))) m) = filter (fun p => negb (String.eqb t (fst p))) m).
  { induction m as [|p m IH]; [reflexivity|]. cbn [filter]. destruct (negb (String.eqb t (fst p))) eqn:K; cbn [filter]; [rewrite K; f_equal|]; exact IH. }
  assert (E2 : forall m : list (string * nat), filter (fun p => negb (String.eqb t (fst p))) (filter (fun p => String.eqb t (fst p)) m) = []).
  { induction m as [|p m IH]; [reflexivity|]. cbn [filter]. destruct (String.eqb t (fst p)) eqn:K; cbn [filter negb]; [rewrite K; cbn [negb]|]; exact IH. }
  rewrite E1, E2, app_nil_r. reflexivity.
Qed.

Lemma chunking_names a cs : chunking a cs -> map fst cs = names a.
Proof. unfold chunking, names. induction 1 as [|p q l l' [H _] _ IH]; [reflexivity|]. cbn [map]. congruence. Qed.
Lemma chunking_sum a cs d c m : NoDup (names a) -> chunking a cs -> In (d, c) cs -> In (d, m) (adims a) -> fold_right plus 0%nat c = m.
Proof.
  unfold chunking, names. intros ND H. induction H as [|p q l l' (H1 & H2 & _) HF IH]; [intros []|]. cbn [map] in ND. inversion ND as [|? ? N1 N2]; subst.
  assert (NM : map fst l' = map fst l) by (apply (chunking_names (mkArr l (fun _ => NaN))); exact HF).
  intros [-> |I] [-> |J]; cbn [fst snd] in *.
  - exact H2.
  - exfalso. apply N1. apply in_map_iff. exists (d, m). split; [cbn [fst]; congruence|exact J].
  - exfalso. apply N1. cbn [fst]. rewrite <- NM. apply in_map_iff. exists (d, c). auto.
  - apply IH; assumption.
Qed.

Definition chunks_ok (a : arr) (ch : option (list (string * list nat))) : Prop :=
  match ch with None => True | Some cs => chunking a cs end.
Lemma rechunk_ok a ch t n : NoDup (names a) -> In (t, n) (adims a) -> chunks_ok a ch ->
  let cs := rechunk a ch t in
  map fst cs = names a /\ dget t cs = Some [n] /\ forall d c m, In (d, c) cs -> In (d, m) (adims a) -> fold_right plus 0%nat c = m.
Proof.
  intros ND Ht H. assert (Gt : dget t (adims a) = Some n) by (apply In_dget; assumption).
  assert (U : forall d m m', In (d, m) (adims a) -> In (d, m') (adims a) -> m = m').
  { intros d m m' I J. apply (In_dget _ _ _ ND) in I. apply (In_dget _ _ _ ND) in J. congruence. }
  unfold rechunk. destruct ch as [cs|]; cbn [chunks_ok] in H.
  - pose proof (chunking_names a cs H) as NM. pose proof (fun d c m => chunking_sum a cs d c m ND H) as SM.
    assert (R : forall cs', cs' = map (fun p => if String.eqb (fst p) t then (t, [size_of t a]) else p) cs ->
       map fst cs' = names a /\ dget t cs' = Some [n] /\ forall d c m, In (d, c) cs' -> In (d, m) (adims a) -> fold_right plus 0%nat c = m).
    { intros cs' ->. assert (M : map fst (map (fun p => if String.eqb (fst p) t then (t, [size_of t a]) else p) cs) = map fst cs).
      { rewrite map_map. apply map_ext. intros p. destruct (String.eqb_spec (fst p) t) as [E|]; [cbn [fst]; congruence|reflexivity]. }
      assert (Sz : size_of t a = n) by (unfold size_of; rewrite Gt; reflexivity).
      split; [congruence|]. split.
      - apply In_dget; [rewrite M, NM; exact ND|].
        assert (I : In t (map fst cs)) by (rewrite NM; apply in_map_iff; eexists; split; [|exact Ht]; reflexivity).
        apply in_map_iff in I. destruct I as (p & E & I). apply in_map_iff. exists p. rewrite E, String.eqb_refl, Sz. auto.
      - intros d c m I J. apply in_map_iff in I. destruct I as (p & E & I). destruct (String.eqb_spec (fst p) t) as [K|K].
        + injection E as <- <-. rewrite Sz. cbn [fold_right]. rewrite (U t m n J Ht). lia.
        + subst p. apply (SM d c m I J). }
    destruct (dget t cs) as [[|c0 [|c1 c2]]|] eqn:G; try (apply R; reflexivity).
    split; [exact NM|]. split; [|exact SM]. pose proof (SM t [c0] n (dget_In _ _ _ G) Ht) as E. cbn [fold_right] in E. rewrite Nat.add_0_r in E. congruence.
  - assert (M : map fst (map (fun p : string * nat => (fst p, [snd p])) (adims a)) = names a) by (rewrite map_map; reflexivity).
    split; [exact M|]. split.
    + apply In_dget; [rewrite M; exact ND|]. apply in_map_iff. exists (t, n). auto.
    + intros d c m I J. apply in_map_iff in I. destruct I as ([d' m'] & E & I). cbn [fst snd] in E. injection E as -> <-. cbn [fold_right].
      rewrite (U d m m' J I). lia.
Qed.

(** ** deseason *)
Definition deseason_td (c : cal) (ax : taxis) (i : nat) : R := (INR i / IZR (nth i (days_array c (ta_dates ax)) 1%Z))%R.

Record deseasonable (ax : taxis) (c : cal) (x : darr) (ch : option (list (string * list nat))) : Prop := {
  de_wf : wf_arr (da_data x);
  de_name : ta_name ax = "time";
  de_cal : ta_cal ax = Some c;
  de_dim : In ("time", List.length (ta_dates ax)) (adims (da_data x));
  de_pos : (0 < List.length (ta_dates ax))%nat;
  de_chunks : chunks_ok (da_data x) ch;
  de_coeff : ~ In "coeff" (names (da_data x)) }.

Section Deseason.
  Variables (ax : taxis) (c : cal) (x : darr) (ch : option (list (string * list nat))).
  Hypothesis H : deseasonable ax c x ch.
  Let n := List.length (ta_dates ax).
  Let td := deseason_td c ax.
  Let a := da_data x.
  Let a' := mkArr (to_end "time" (adims a)) (at_ a).
  Let cs := rechunk a ch "time".
  Let cs' := to_end "time" cs.
  Let l := days_array c (ta_dates ax).

  Lemma de_ND : NoDup (names a).
  Proof. apply (de_wf _ _ _ _ H). Qed.
  Lemma l_td : cycle_time n (DArray l) = Ok td.
  Proof.
    unfold cycle_time. assert (E : List.length l = n) by (unfold l, days_array; rewrite map_length; reflexivity).
    rewrite E, Nat.eqb_refl. reflexivity.
  Qed.
  Lemma lazy_hyps : NoDup (map fst cs') /\ map fst cs' = names a' /\ dget "time" cs' = Some [n] /\
      forall d k m, In (d, k) cs' -> In (d, m) (adims a') -> fold_right plus 0%nat k = m.
  Proof.
    destruct (rechunk_ok a ch "time" n de_ND (de_dim _ _ _ _ H) (de_chunks _ _ _ _ H)) as (M & G & S). fold cs in M, G, S.
    assert (N : NoDup (map fst cs')) by (apply to_end_NoDup; rewrite M; exact de_ND).
    split; [exact N|]. split; [unfold names, a'; cbn [adims]; apply to_end_map; exact M|]. split.
    - apply In_dget; [exact N|]. apply to_end_In. apply dget_In. exact G.
    - intros d k m I J. apply to_end_In in I. apply (proj1 (to_end_In _ _ _)) in J. apply (S d k m I J).
  Qed.
  Lemma time_mem : dmem "time" (adims a) = true.
  Proof. apply dmem_true. apply in_map_iff. eexists; split; [|exact (de_dim _ _ _ _ H)]. reflexivity. Qed.

  Lemma checks_ok fmt : fmt = "residuals" \/ fmt = "model" \/ fmt = "coeff" -> deseason_checks ax a "time" fmt = Ok l.
  Proof.
    intros Hf. unfold deseason_checks. rewrite time_mem, (de_name _ _ _ _ H), (de_cal _ _ _ _ H), orb_true_r. destruct Hf as [-> |[-> | ->]]; reflexivity.
  Qed.

  Lemma deseason_plain fmt : fmt = "residuals" \/ fmt = "model" ->
    exists r, deseason ax x ch "time" fmt = (deseason_attrs fmt (da_attrs x), Ok (mkDarr (da_name x) r (deseason_attrs fmt (da_attrs x)))) /\
      adims r = ("time", n) :: drop_dim "time" (adims a) /\
      forall e, inrange (adims a) e -> at_ r e = (if String.eqb fmt "residuals" then resid_of else model_of) n td (fun i => at_ a (upd e "time" i)) (e "time").
  Proof.
    intros Hf. destruct lazy_hyps as (N & M & G & S).
    destruct (lazy_plain "time" a' cs' l td n N M G S l_td fmt Hf) as (r & E & D & V).
    unfold deseason. fold a. rewrite checks_ok by tauto. fold cs cs' a'. rewrite E. cbn [bind].
    assert (C : String.eqb fmt "coeff" = false) by (destruct Hf as [-> | ->]; reflexivity). rewrite C.
    assert (Gt : dget "time" (adims r) = Some n).
    { rewrite D. apply In_dget; [apply to_end_NoDup; exact de_ND|]. apply to_end_In. exact (de_dim _ _ _ _ H). }
    unfold transpose_first. rewrite Gt. eexists. split; [reflexivity|]. cbn [adims at_]. split.
    - f_equal. rewrite D. apply drop_to_end.
    - intros e R. apply V. intros d m I. apply (proj1 (to_end_In _ _ _)) in I. apply (R d m I).
  Qed.

  Lemma ndim_to_end : ndim a' = ndim a.
  Proof.
    unfold ndim, a'. cbn [adims]. generalize (adims a). clear. intros q. unfold to_end. rewrite app_length. generalize "time". intros t.
    induction q as [|p q IH]; [reflexivity|]. cbn [filter]. destruct (String.eqb t (fst p)); cbn [negb List.length]; lia.
  Qed.

  Lemma deseason_coeff : ndim a <> 1%nat ->
    exists r, deseason ax x ch "time" "coeff" = (deseason_attrs "coeff" (da_attrs x), Ok (mkDarr (da_name x) r (deseason_attrs "coeff" (da_attrs x)))) /\
      adims r = ("coeff", 6%nat) :: drop_dim "time" (adims a) /\
      forall e, inrange (drop_dim "time" (adims a)) e -> at_ r e = coeff_of n td (fun i => at_ a (upd e "time" i)) (e "coeff").
  Proof.
    intros Hn. destruct lazy_hyps as (N & M & G & S).
    assert (Nc : ~ In "coeff" (names a')) by (unfold names, a'; cbn [adims]; intros I; apply (proj1 (to_end_names _ _ _)) in I; exact (de_coeff _ _ _ _ H I)).
    destruct (lazy_coeff "time" a' cs' l td n N M G S l_td (de_pos _ _ _ _ H) Nc) as (r & E & D & V); [rewrite ndim_to_end; exact Hn|].
    unfold deseason. fold a. rewrite checks_ok by tauto. fold cs cs' a'. rewrite E. cbn [bind]. change (String.eqb "coeff" "coeff") with true. lazy iota.
    assert (D' : adims r = (drop_dim "time" (adims a) ++ [("coeff", 6%nat)])%list) by (rewrite D; unfold a'; cbn [adims]; rewrite drop_to_end; reflexivity).
    assert (Nd : NoDup (map fst (adims r))).
    { rewrite D', map_app. cbn [map fst]. apply NoDup_app'; [apply drop_NoDup; exact de_ND|repeat constructor; intros []|].
      intros d I [<- |[]]. apply drop_names in I. apply (de_coeff _ _ _ _ H). tauto. }
    assert (Gc : dget "coeff" (adims r) = Some 6%nat) by (apply In_dget; [exact Nd|]; rewrite D'; apply in_app_iff; right; left; reflexivity).
    unfold transpose_first. rewrite Gc. eexists. split; [reflexivity|]. cbn [adims at_]. split.
    - f_equal. rewrite D'. unfold drop_dim at 1. rewrite filter_app. change (filter (fun p : string * nat => negb (String.eqb "coeff" (fst p))) [("coeff", 6%nat)]) with (@nil (string * nat)).
      rewrite app_nil_r. apply filter_id. intros p Hp. apply negb_true_iff, String.eqb_neq. intros E'. apply (de_coeff _ _ _ _ H). apply filter_In in Hp. rewrite E'. apply in_map. tauto.
    - intros e R. unfold a' in V. cbn [adims at_] in V. apply V. rewrite drop_to_end. exact R.
  Qed.

  Lemma deseason_coeff_1d : ndim a = 1%nat ->
    deseason ax x ch "time" "coeff" = (match ch with None => da_attrs x | Some _ => deseason_attrs "coeff" (da_attrs x) end, Err TypeError).
  Proof.
    intros Hn. destruct lazy_hyps as (N & M & G & S).
    unfold deseason. fold a. rewrite checks_ok by tauto. fold cs cs' a'.
    rewrite (lazy_coeff_1d "time" a' cs' l n N M G S (de_pos _ _ _ _ H)) by (rewrite ndim_to_end; exact Hn). cbn [bind]. destruct ch; reflexivity.
  Qed.

  Lemma deseason_unknown fmt : fmt <> "residuals" -> fmt <> "model" -> fmt <> "coeff" -> deseason ax x ch "time" fmt = (da_attrs x, Err ValueError).
  Proof.
    intros F1 F2 F3. unfold deseason, deseason_checks. fold a. rewrite time_mem. cbn [assert_ bind]. rewrite (de_name _ _ _ _ H), (de_cal _ _ _ _ H).
    change (String.eqb "time" "time") with true. lazy iota. cbn [bind].
    apply String.eqb_neq in F1, F2, F3. rewrite F1, F2, F3. reflexivity.
  Qed.
End Deseason.
