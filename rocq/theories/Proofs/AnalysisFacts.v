(** Statements about analysis/. *)
From Coq Require Import Permutation.
From Verif Require Import Proofs.Tac Model.Analysis Model.SboxTables Spec.AesSpec Spec.AnalysisSpec
  Proofs.Walsh Proofs.WalshProg Proofs.SboxProg Proofs.Orbits.
Local Open Scope Z_scope.

Lemma c73_transform : forall n t, truth_table n t ->
  walshTransform t = Ok (map (fun w => correlation n t (Z.of_nat w)) (seq 0 (2 ^ n))).
Proof.
  intros n t T. rewrite (walsh_ok n t T). f_equal. apply map_ext. intros w. symmetry. apply correlation_walsh.
Qed.

Lemma c73_parseval : forall n t,
  sum_below (2 ^ n) (fun w => correlation n t w ^ 2) = 4 ^ Z.of_nat n.
Proof.
  intros n t. rewrite <- (parseval n t). apply sum_ext. intros w _. rewrite correlation_walsh. ring.
Qed.

Lemma c73_inversion : forall n t x, 0 <= x < 2 ^ Z.of_nat n ->
  sum_below (2 ^ n) (fun w => correlation n t w * (if dot n w x then -1 else 1)) =
  2 ^ Z.of_nat n * (if value t x then -1 else 1).
Proof.
  intros n t x H. fold (sign (value t x)). rewrite <- (inversion n t x H). apply sum_ext. intros w _.
  rewrite correlation_walsh. reflexivity.
Qed.

Lemma c73_injective : forall n t t', truth_table n t -> truth_table n t' ->
  walshTransform t = walshTransform t' -> t = t'.
Proof.
  intros n t t' T T' E. rewrite (walsh_ok n t T), (walsh_ok n t' T') in E. injection E as E.
  assert (W : forall w, 0 <= w < Z.of_nat (2 ^ n) -> walsh n t w = walsh n t' w).
  { intros w Hw. pose proof (f_equal (fun l => nth (Z.to_nat w) l 0) E) as N. cbn beta in N.
    rewrite !(nth_indep _ 0 (walsh n t 0)) in N by (rewrite map_length, seq_length; lia).
    change (walsh n t 0) with ((fun w => walsh n t (Z.of_nat w)) O) in N at 1. rewrite map_nth in N.
    rewrite (nth_indep _ _ (walsh n t' 0)) in N by (rewrite map_length, seq_length; lia).
    change (walsh n t' 0) with ((fun w => walsh n t' (Z.of_nat w)) O) in N. rewrite map_nth in N.
    rewrite seq_nth in N by lia. cbn [Nat.add] in N. rewrite Z2Nat.id in N by lia. exact N. }
  destruct T as [L F], T' as [L' F'].
  apply (nth_ext t t' 0 0); [congruence|]. intros k Hk.
  rewrite !table_value by (auto; lia).
  pose proof (inversion n t (Z.of_nat k) ltac:(rewrite <- pow2_nat; lia)) as I1.
  pose proof (inversion n t' (Z.of_nat k) ltac:(rewrite <- pow2_nat; lia)) as I2.
  rewrite (sum_ext _ _ (fun w => walsh n t' w * sign (dot n w (Z.of_nat k)))) in I1
    by (intros w Hw; now rewrite W).
  rewrite I2 in I1. assert (0 < 2 ^ Z.of_nat n) by (apply Z.pow_pos_nonneg; lia).
  assert (S : sign (value t' (Z.of_nat k)) = sign (value t (Z.of_nat k))) by nia.
  destruct (value t (Z.of_nat k)), (value t' (Z.of_nat k)); cbn in S; congruence || lia.
Qed.

Lemma c73_bad_length : forall t, (forall n, length t <> (2 ^ n)%nat) ->
  walshTransform t = Raise AssertionError.
Proof.
  intros t H. unfold walshTransform. rewrite log2n_value.
  destruct (Z.ltb_spec 0 (len t)), (Z.eqb_spec (2 ^ Z.log2 (len t)) (len t)); cbn [andb bind]; try reflexivity.
  exfalso. apply (H (Z.to_nat (Z.log2 (len t)))). unfold len in *. apply Nat2Z.inj.
  rewrite pow2_nat, Z2Nat.id by apply Z.log2_nonneg. auto.
Qed.

Lemma c74_nonlinearity : forall n t, (1 <= n)%nat -> truth_table n t ->
  exists d, nonLinearity_x2 t = Ok (2 * d) /\ affine_distance n t d.
Proof. exact nl_ok. Qed.

Lemma c74_bound : forall n t d, affine_distance n t d ->
  2 ^ Z.of_nat n <= (2 ^ Z.of_nat n - 2 * d) ^ 2.
Proof. exact nl_bound. Qed.

Lemma c74_single_entry : forall v, v = 0 \/ v = 1 ->
  truth_table 0 [v] /\ affine_distance 0 [v] 0 /\ nonLinearity_x2 [v] = Ok (-1).
Proof.
  intros v H. split; [|split].
  - split; [reflexivity|]. constructor; [assumption|constructor].
  - split.
    + exists (v =? 1), 0. split; [cbn; lia|]. destruct H as [-> | ->]; reflexivity.
    + intros c w _. unfold distance, count_below. lia.
  - now apply nl_zero.
Qed.

Lemma c75_orbits : forall p, is_permutation p ->
  exists d, map_orbits_of_permutation p = Ok d /\ NoDup (map fst d) /\
  (forall k c, In (k, c) d ->
     0 <= k < Z.of_nat (length p) /\ orbit_of p k c /\ (forall x, In x c -> k <= x)) /\
  Permutation (concat (map snd d)) (map Z.of_nat (seq 0 (length p))).
Proof. exact orbits_ok. Qed.

Lemma c75_lengths : forall p, is_permutation p ->
  exists d v, map_orbits_of_permutation p = Ok d /\ orbit_start_and_length p = Ok v /\
  (forall k m, In (k, m) v <-> exists c, In (k, c) d /\ m = Z.of_nat (length c)) /\
  NoDup (map fst v) /\
  fold_right Z.add 0 (map snd v) = Z.of_nat (length p).
Proof.
  intros p H. destruct (orbits_ok p H) as (d & E & ND & _ & PM).
  exists d, (map (fun kv => (fst kv, len (snd kv))) d). unfold orbit_start_and_length. rewrite E. cbn [bind].
  split; [reflexivity|]. split; [reflexivity|]. split; [|split].
  - intros k m. rewrite in_map_iff. split.
    + intros ([k' c] & Q & I). injection Q as <- <-. now exists c.
    + intros (c & I & ->). now exists (k, c).
  - rewrite map_map. cbn [fst]. exact ND.
  - apply Permutation_length in PM. rewrite map_length, seq_length in PM. rewrite <- PM, map_map. cbn [snd].
    clear. induction d as [|[k c] d IH]; [reflexivity|]. cbn [map concat fold_right snd]. rewrite app_length, IH.
    unfold len. lia.
Qed.

Lemma c76_log2n : forall l,
  (forall n, 0 <= n -> l = 2 ^ n -> log2n l = Ok n) /\
  ((forall n, 0 <= n -> l <> 2 ^ n) -> log2n l = Raise AssertionError).
Proof.
  intros l. split.
  - intros n Hn ->. rewrite <- (Z2Nat.id n) by assumption. apply log2n_pow.
  - intros H. rewrite log2n_value. destruct (Z.ltb_spec 0 l); [|reflexivity].
    destruct (Z.eqb_spec (2 ^ Z.log2 l) l) as [E|E]; [|reflexivity].
    exfalso. apply (H (Z.log2 l)); [apply Z.log2_nonneg|auto].
Qed.

Lemma c76_inner_product : forall a b n, 0 <= a < 2 ^ Z.of_nat n \/ 0 <= b < 2 ^ Z.of_nat n ->
  binaryInnerProduct a b = Ok (Z.b2z (dot n a b)).
Proof.
  intros a b n [H|H]; [now apply ip_small|].
  pose proof (ip_small n b a H) as E. unfold binaryInnerProduct in *. now rewrite Z.land_comm, dot_comm.
Qed.

Lemma c76_bilinear : forall a a' b, 0 <= b ->
  exists u v, binaryInnerProduct a b = Ok u /\ binaryInnerProduct a' b = Ok v /\
    binaryInnerProduct (Z.lxor a a') b = Ok (Z.lxor u v) /\
    binaryInnerProduct b (Z.lxor a a') = Ok (Z.lxor u v).
Proof.
  intros a a' b H. set (n := Z.to_nat (Z.log2 b + 1)).
  assert (B : 0 <= b < 2 ^ Z.of_nat n).
  { split; [assumption|]. unfold n. rewrite Z2Nat.id by (pose proof (Z.log2_nonneg b); lia). apply log2_bound. }
  exists (Z.b2z (dot n a b)), (Z.b2z (dot n a' b)).
  rewrite !(c76_inner_product _ _ n) by auto. rewrite lxor_b2z, dot_lxor_l, dot_lxor_r, !(dot_comm n b). auto.
Qed.

Lemma c76_negative_refuted : exists a a' b,
  binaryInnerProduct a b = Ok 1 /\ binaryInnerProduct a' b = Ok 0 /\
  binaryInnerProduct (Z.lxor a a') b = Ok 0.
Proof. exists 1, (-2), (-1). vm_compute. auto. Qed.

Lemma c80_range : forall n s, (1 <= n)%nat -> length s = (2 ^ n)%nat ->
  exists lo hi, sboxNonlinearity_x2 s = Ok (2 * lo, 2 * hi) /\ nonlinearity_range n s lo hi.
Proof. exact sbox_ok. Qed.

Lemma c80_one_entry : forall v, sboxNonlinearity_x2 [v] = Raise ValueError.
Proof. intros v. reflexivity. Qed.

Lemma c80_aes : sboxNonlinearity_x2 aes_sbbytes = Ok (2 * 112, 2 * 112).
Proof. rewrite (fast_sbox_ok 8) by (vm_compute; lia || reflexivity). vm_compute. reflexivity. Qed.

Lemma c80_sms4 : sboxNonlinearity_x2 sms4_sbbytes = Ok (2 * 112, 2 * 112).
Proof. rewrite (fast_sbox_ok 8) by (vm_compute; lia || reflexivity). vm_compute. reflexivity. Qed.

Lemma c80_streebog : sboxNonlinearity_x2 streebog_sbbytes = Ok (2 * 102, 2 * 110).
Proof. rewrite (fast_sbox_ok 8) by (vm_compute; lia || reflexivity). vm_compute. reflexivity. Qed.

Lemma c80_gost : sboxNonlinearity_x2 gost_pi = Ok (2 * 100, 2 * 116).
Proof. rewrite (fast_sbox_ok 8) by (vm_compute; lia || reflexivity). vm_compute. reflexivity. Qed.

Lemma c80_aes_table : aes_sbbytes = sbox_table.
Proof. vm_compute. reflexivity. Qed.

Lemma c80_streebog_label : exists x, nth x streebog_sbbytes 0 <> nth x gost_pi 0.
Proof. exists O. vm_compute. discriminate. Qed.
