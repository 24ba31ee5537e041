(** Nonlinearity of affine functions, and what leaves it unchanged (C100) *)
From Coq Require Import Permutation ZArith List Bool Lia.
From Verif Require Import Proofs.Tac Model.Py Model.Analysis Spec.AnalysisSpec Proofs.Walsh Proofs.WalshProg Proofs.AnalysisFacts.
Import ListNotations.
Local Open Scope Z_scope.

Lemma count_zero N f : count_below N f = 0 <-> forall x, 0 <= x < Z.of_nat N -> f x = false.
Proof.
  induction N as [|N IH]; [split; [intros _ x X; lia|reflexivity]|]. rewrite count_S. assert (B : 0 <= count_below N f) by (unfold count_below; lia). split.
  - intros E x X. destruct (Z.eq_dec x (Z.of_nat N)) as [->|]; [destruct (f (Z.of_nat N)); cbn [Z.b2z] in E; [lia|reflexivity]|]. apply IH; [destruct (f (Z.of_nat N)); cbn [Z.b2z] in E; lia|lia].
  - intros H. rewrite (H (Z.of_nat N)) by lia. cbn [Z.b2z]. rewrite (proj2 IH); [reflexivity|]. intros x X. apply H. lia.
Qed.
Lemma count_nonneg N f : 0 <= count_below N f. Proof. unfold count_below. lia. Qed.
Lemma lsum_perm l l' : Permutation l l' -> fold_right Z.add 0 l = fold_right Z.add 0 l'.
Proof. induction 1; cbn [fold_right]; lia. Qed.
Lemma sum_perm N f g : (forall x, 0 <= x < Z.of_nat N -> 0 <= g x < Z.of_nat N) ->
  (forall x y, 0 <= x < Z.of_nat N -> 0 <= y < Z.of_nat N -> g x = g y -> x = y) -> sum_below N (fun x => f (g x)) = sum_below N f.
Proof.
  intros R I. unfold sum_below. apply lsum_perm. rewrite <- (map_map Z.of_nat (fun x => f (g x))), <- (map_map Z.of_nat f), <- (map_map g f). apply Permutation_map.
  set (L := map Z.of_nat (seq 0 N)).
  assert (IL : forall x, In x L <-> 0 <= x < Z.of_nat N).
  { intros x. unfold L. rewrite in_map_iff. split; [intros (k & <- & K); apply in_seq in K; lia|]. intros X. exists (Z.to_nat x). split; [lia|]. apply in_seq. lia. }
  assert (ND : NoDup L). { apply FinFun.Injective_map_NoDup; [intros u v; apply Nat2Z.inj|apply seq_NoDup]. }
  assert (NM : NoDup (map g L)).
  { clear - I IL ND. assert (S : forall x, In x L -> 0 <= x < Z.of_nat N) by (intros; now apply IL). clear IL. induction L as [|x l IH]; [constructor|]. inversion ND; subst. cbn [map]. constructor.
    - intros Q. apply in_map_iff in Q as (y & E & Y). apply I in E; [subst; contradiction|apply S; now right|apply S; now left].
    - apply IH; auto. intros y Y. apply S. now right. }
  apply NoDup_Permutation_bis; [exact NM|now rewrite map_length|]. intros y Y. apply in_map_iff in Y as (x & <- & X). apply IL. apply R. now apply IL.
Qed.
Lemma lxor_range n x a : 0 <= x < 2 ^ Z.of_nat n -> 0 <= a < 2 ^ Z.of_nat n -> 0 <= Z.lxor x a < 2 ^ Z.of_nat n.
Proof.
  intros X A. assert (0 <= Z.lxor x a) by (apply Z.lxor_nonneg; lia). split; [assumption|].
  destruct (Z.eq_dec (Z.lxor x a) 0) as [->|N]; [lia|]. apply Z.log2_lt_pow2; [lia|].
  destruct (Z.eq_dec x 0) as [->|NX]; [rewrite Z.lxor_0_l in *; apply Z.log2_lt_pow2; lia|]. destruct (Z.eq_dec a 0) as [->|NA]; [rewrite Z.lxor_0_r in *; apply Z.log2_lt_pow2; lia|].
  eapply Z.le_lt_trans; [apply Z.log2_lxor; lia|]. apply Z.max_lub_lt; apply Z.log2_lt_pow2; lia.
Qed.

Lemma c100_affine : forall n t, (1 <= n)%nat -> truth_table n t ->
  (nonLinearity_x2 t = Ok 0 <-> exists c w, 0 <= w < 2 ^ Z.of_nat n /\ forall x, 0 <= x < 2 ^ Z.of_nat n -> value t x = affine n c w x).
Proof.
  intros n t N T. destruct (nl_ok n t N T) as (d & E & (c & w & W & D) & L). rewrite E. split.
  - intros Q. injection Q as Q. assert (d = 0) by (destruct d; [reflexivity|discriminate|discriminate]). subst d. exists c, w. split; [exact W|]. intros x X. unfold distance in *.
    match goal with H : count_below _ _ = 0 |- _ => rename H into D0 end. rewrite count_zero in D0. specialize (D0 x). rewrite pow2_nat in D0. specialize (D0 X).
    apply negb_false_iff, eqb_prop in D0. exact D0.
  - intros (c' & w' & W' & A). specialize (L c' w' W'). assert (Z0 : distance n t (affine n c' w') = 0).
    { unfold distance. apply count_zero. rewrite pow2_nat. intros x X. rewrite (A x X), eqb_reflx. reflexivity. }
    assert (0 <= d) by (rewrite <- D; apply count_nonneg). do 2 f_equal. lia.
Qed.
Lemma c100_balanced : forall n t l, truth_table n t -> walshTransform t = Ok l ->
  nth 0 l 0 = 2 ^ Z.of_nat n - 2 * count_below (2 ^ n) (value t).
Proof.
  intros n t l T E. rewrite (walsh_ok n t T) in E. injection E as <-. pose proof (pow2_pos n). destruct (2 ^ n)%nat eqn:P; [lia|]. cbn [seq map nth]. rewrite <- P.
  pose proof (distance_affine n t false 0) as D. change (Z.of_nat 0) with 0. cbn [sign] in D. unfold distance, affine in D. 
  replace (count_below (2 ^ n) (value t)) with (count_below (2 ^ n) (fun x => negb (eqb (value t x) (xorb false (dot n 0 x))))); [lia|].
  rewrite !count_sum. apply sum_ext. intros x _. rewrite dot_zero. destruct (value t x); reflexivity.
Qed.
Lemma same_distances n t t' : (1 <= n)%nat -> truth_table n t -> truth_table n t' ->
  (forall c w, 0 <= w < 2 ^ Z.of_nat n -> exists c' w', 0 <= w' < 2 ^ Z.of_nat n /\ distance n t' (affine n c w) = distance n t (affine n c' w')) ->
  (forall c w, 0 <= w < 2 ^ Z.of_nat n -> exists c' w', 0 <= w' < 2 ^ Z.of_nat n /\ distance n t (affine n c w) = distance n t' (affine n c' w')) ->
  nonLinearity_x2 t' = nonLinearity_x2 t.
Proof.
  intros N T T' H H'. destruct (nl_ok n t N T) as (d & E & A). destruct (nl_ok n t' N T') as (d' & E' & (c & w & W & D) & L).
  rewrite E, E'. do 2 f_equal. apply (affine_distance_unique n t); [|exact A]. split.
  - destruct (H c w W) as (c1 & w1 & W1 & Q). exists c1, w1. split; [exact W1|congruence].
  - intros c1 w1 W1. destruct (H' c1 w1 W1) as (c2 & w2 & W2 & ->). now apply L.
Qed.
Lemma c100_add_affine : forall n t t' c w, (1 <= n)%nat -> truth_table n t -> truth_table n t' -> 0 <= w < 2 ^ Z.of_nat n ->
  (forall x, 0 <= x < 2 ^ Z.of_nat n -> value t' x = xorb (value t x) (affine n c w x)) -> nonLinearity_x2 t' = nonLinearity_x2 t.
Proof.
  intros n t t' c w N T T' W H. apply (same_distances n t t' N T T').
  - intros c1 w1 W1. exists (xorb c c1), (Z.lxor w w1). split; [now apply lxor_range|]. unfold distance. rewrite !count_sum. apply sum_ext. rewrite pow2_nat. intros x X.
    rewrite (H x X). unfold affine. rewrite dot_lxor_l. destruct (value t x), c, c1, (dot n w x), (dot n w1 x); reflexivity.
  - intros c1 w1 W1. exists (xorb c c1), (Z.lxor w w1). split; [now apply lxor_range|]. unfold distance. rewrite !count_sum. apply sum_ext. rewrite pow2_nat. intros x X.
    rewrite (H x X). unfold affine. rewrite dot_lxor_l. destruct (value t x), c, c1, (dot n w x), (dot n w1 x); reflexivity.
Qed.
Lemma c100_shift : forall n t t' a, (1 <= n)%nat -> truth_table n t -> truth_table n t' -> 0 <= a < 2 ^ Z.of_nat n ->
  (forall x, 0 <= x < 2 ^ Z.of_nat n -> value t' x = value t (Z.lxor x a)) -> nonLinearity_x2 t' = nonLinearity_x2 t.
Proof.
  intros n t t' a N T T' A H.
  assert (K : forall c w, distance n t' (affine n c w) = distance n t (affine n (xorb c (dot n w a)) w)).
  { intros c w. unfold distance. rewrite !count_sum.
    rewrite <- (sum_perm (2 ^ n) (fun x => Z.b2z (negb (eqb (value t x) (affine n (xorb c (dot n w a)) w x)))) (fun x => Z.lxor x a)).
    - apply sum_ext. rewrite pow2_nat. intros x X. rewrite (H x X). unfold affine. rewrite dot_lxor_r. do 3 f_equal. destruct c, (dot n w a), (dot n w x); reflexivity.
    - rewrite pow2_nat. intros x X. now apply lxor_range.
    - intros x y _ _ E. apply (f_equal (fun z => Z.lxor z a)) in E. now rewrite !Z.lxor_assoc, Z.lxor_nilpotent, !Z.lxor_0_r in E. }
  apply (same_distances n t t' N T T').
  - intros c w W. exists (xorb c (dot n w a)), w. split; [exact W|apply K].
  - intros c w W. exists (xorb c (dot n w a)), w. split; [exact W|]. rewrite K. f_equal. f_equal. destruct c, (dot n w a); reflexivity.
Qed.
(** the components of a permutation are balanced *)
Lemma c100_permutation : forall n s c, is_permutation s -> length s = (2 ^ n)%nat -> 0 < c < 2 ^ Z.of_nat n ->
  exists l, walshTransform (component n s c) = Ok l /\ nth 0 l 1 = 0 /\ 2 * count_below (2 ^ n) (value (component n s c)) = 2 ^ Z.of_nat n.
Proof.
  intros n s c (ND & R) L C.
  assert (T : truth_table n (component n s c)).
  { split; [unfold component; now rewrite map_length|]. apply Forall_forall. intros v V. apply in_map_iff in V as (x & <- & _). destruct (dot n c x); auto. }
  assert (G : forall x, 0 <= x < Z.of_nat (2 ^ n) -> value (component n s c) x = dot n c (nth (Z.to_nat x) s 0)).
  { intros x X. unfold value, component. rewrite (nth_indep _ 0 ((fun v => if dot n c v then 1 else 0) 0)) by (rewrite map_length; lia). rewrite (map_nth (fun v => if dot n c v then 1 else 0)). destruct (dot n c _); reflexivity. }
  assert (S : sum_below (2 ^ n) (fun x => sign (dot n c x)) = 0).
  { pose proof (orthogonal n c 0 ltac:(lia) ltac:(lia)) as O. destruct (c =? 0) eqn:E; [lia|]. rewrite <- O. apply sum_ext. intros x _. 
    rewrite ?dot_zero, ?(dot_comm n x c), ?(dot_comm n x 0), ?dot_zero. cbn [sign]. lia. }
  assert (B : 2 * count_below (2 ^ n) (value (component n s c)) = 2 ^ Z.of_nat n).
  { rewrite <- (sum_perm (2 ^ n) (fun x => sign (dot n c x)) (fun x => nth (Z.to_nat x) s 0)) in S.
    - rewrite count_sum, <- pow2_nat, <- sum_one, <- sum_scale. 
      assert (E : sum_below (2 ^ n) (fun x => 2 * Z.b2z (value (component n s c) x)) = sum_below (2 ^ n) (fun x => 1 + -1 * sign (dot n c (nth (Z.to_nat x) s 0)))).
      { apply sum_ext. intros x X. rewrite (G x X). destruct (dot n c _); reflexivity. }
      rewrite E, sum_plus, sum_scale, S. lia.
    - intros x X. rewrite Forall_forall in R. rewrite <- L. apply R. apply nth_In. lia.
    - intros x y X Y E. rewrite NoDup_nth in ND. apply ND in E; lia. }
  pose proof (walsh_ok n _ T) as E. eexists. split; [exact E|]. split; [|exact B].
  pose proof (c100_balanced n _ _ T E) as Q. rewrite B in Q. rewrite (nth_indep _ 1 0); [lia|]. rewrite map_length, seq_length. apply pow2_pos.
Qed.
