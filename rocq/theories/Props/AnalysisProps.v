(** Properties of the S-box analysis (analysis/).  The nonlinearities are the
    floats of the program times two (see Model/Analysis.v). *)
From Coq Require Import ZArith List Bool Lia Permutation.
From Verif Require Import Model.Py Model.Analysis Model.SboxTables Spec.AesSpec Spec.AnalysisSpec
  Proofs.AnalysisFacts.
Import ListNotations.
Local Open Scope Z_scope.

(** C73 *)
Theorem C73_transform : forall n t, truth_table n t ->
  walshTransform t = Ok (map (fun w => correlation n t (Z.of_nat w)) (seq 0 (2 ^ n))).
Proof. exact c73_transform. Qed.
Print Assumptions C73_transform.

Theorem C73_parseval : forall n t,
  sum_below (2 ^ n) (fun w => correlation n t w ^ 2) = 4 ^ Z.of_nat n.
Proof. exact c73_parseval. Qed.
Print Assumptions C73_parseval.

Theorem C73_inversion : forall n t x, 0 <= x < 2 ^ Z.of_nat n ->
  sum_below (2 ^ n) (fun w => correlation n t w * (if dot n w x then -1 else 1)) =
  2 ^ Z.of_nat n * (if value t x then -1 else 1).
Proof. exact c73_inversion. Qed.
Print Assumptions C73_inversion.

Theorem C73_injective : forall n t t', truth_table n t -> truth_table n t' ->
  walshTransform t = walshTransform t' -> t = t'.
Proof. exact c73_injective. Qed.
Print Assumptions C73_injective.

Theorem C73_bad_length : forall t, (forall n, length t <> (2 ^ n)%nat) ->
  walshTransform t = Raise AssertionError.
Proof. exact c73_bad_length. Qed.
Print Assumptions C73_bad_length.


(** the table of analysis/walshtransform.py:55 *)
Example C73_example : truth_table 3 [1; 1; 0; 1; 0; 1; 1; 1] /\
  walshTransform [1; 1; 0; 1; 0; 1; 1; 1] = Ok [-4; 4; 0; 0; 0; 0; -4; -4] /\
  sum_below 8 (fun w => correlation 3 [1; 1; 0; 1; 0; 1; 1; 1] w ^ 2) = 64.
Proof.
  split; [split; [reflexivity|repeat (constructor; [auto|]); constructor]|]. vm_compute. auto.
Qed.
Example C73_bad_length_example : walshTransform [1; 0; 1] = Raise AssertionError.
Proof. vm_compute. reflexivity. Qed.

(** C74 *)
Theorem C74_nonlinearity : forall n t, (1 <= n)%nat -> truth_table n t ->
  exists d, nonLinearity_x2 t = Ok (2 * d) /\ affine_distance n t d.
Proof. exact c74_nonlinearity. Qed.
Print Assumptions C74_nonlinearity.

Theorem C74_bound : forall n t d, affine_distance n t d ->
  2 ^ Z.of_nat n <= (2 ^ Z.of_nat n - 2 * d) ^ 2.
Proof. exact c74_bound. Qed.
Print Assumptions C74_bound.

Theorem C74_single_entry : forall v, v = 0 \/ v = 1 ->
  truth_table 0 [v] /\ affine_distance 0 [v] 0 /\ nonLinearity_x2 [v] = Ok (-1).
Proof. exact c74_single_entry. Qed.
Print Assumptions C74_single_entry.


Example C74_example : truth_table 3 [1; 1; 0; 1; 0; 1; 1; 1] /\
  nonLinearity_x2 [1; 1; 0; 1; 0; 1; 1; 1] = Ok (2 * 2) /\
  distance 3 [1; 1; 0; 1; 0; 1; 1; 1] (affine 3 true 0) = 2.
Proof.
  split; [split; [reflexivity|repeat (constructor; [auto|]); constructor]|]. vm_compute. auto.
Qed.
(** a bent function meets the bound: 2^4 = (2^4 - 2*6)^2 *)
Example C74_bent : nonLinearity_x2 [0; 0; 0; 0; 0; 1; 0; 1; 0; 0; 1; 1; 0; 1; 1; 0] = Ok (2 * 6).
Proof. vm_compute. reflexivity. Qed.

(** C75 *)
Theorem C75_orbits : forall p, is_permutation p ->
  exists d, map_orbits_of_permutation p = Ok d /\ NoDup (map fst d) /\
  (forall k c, In (k, c) d ->
     0 <= k < Z.of_nat (length p) /\ orbit_of p k c /\ (forall x, In x c -> k <= x)) /\
  Permutation (concat (map snd d)) (map Z.of_nat (seq 0 (length p))).
Proof. exact c75_orbits. Qed.
Print Assumptions C75_orbits.

Theorem C75_lengths : forall p, is_permutation p ->
  exists d v, map_orbits_of_permutation p = Ok d /\ orbit_start_and_length p = Ok v /\
  (forall k m, In (k, m) v <-> exists c, In (k, c) d /\ m = Z.of_nat (length c)) /\
  NoDup (map fst v) /\
  fold_right Z.add 0 (map snd v) = Z.of_nat (length p).
Proof. exact c75_lengths. Qed.
Print Assumptions C75_lengths.


Example C75_example : is_permutation [2; 1; 4; 5; 0; 3] /\
  map_orbits_of_permutation [2; 1; 4; 5; 0; 3] = Ok [(0, [0; 2; 4]); (1, [1]); (3, [3; 5])] /\
  orbit_start_and_length [2; 1; 4; 5; 0; 3] = Ok [(0, 3); (1, 1); (3, 2)].
Proof.
  split; [|vm_compute; auto]. split.
  - repeat (constructor; [cbn; intuition discriminate|]). constructor.
  - repeat (constructor; [cbn; lia|]). constructor.
Qed.
Example C75_aes_example : orbit_start_and_length aes_sbbytes =
  Ok [(0, 59); (1, 81); (4, 87); (11, 27); (115, 2)].
Proof. vm_compute. reflexivity. Qed.
Example C75_sms4_example : orbit_start_and_length sms4_sbbytes =
  Ok [(0, 120); (1, 24); (4, 56); (13, 35); (36, 9); (45, 3); (54, 6); (171, 1); (180, 2)].
Proof. vm_compute. reflexivity. Qed.

(** C76 *)
Theorem C76_log2n : forall l,
  (forall n, 0 <= n -> l = 2 ^ n -> log2n l = Ok n) /\
  ((forall n, 0 <= n -> l <> 2 ^ n) -> log2n l = Raise AssertionError).
Proof. exact c76_log2n. Qed.
Print Assumptions C76_log2n.

Theorem C76_inner_product : forall a b n, 0 <= a < 2 ^ Z.of_nat n \/ 0 <= b < 2 ^ Z.of_nat n ->
  binaryInnerProduct a b = Ok (Z.b2z (dot n a b)).
Proof. exact c76_inner_product. Qed.
Print Assumptions C76_inner_product.

Theorem C76_bilinear : forall a a' b, 0 <= b ->
  exists u v, binaryInnerProduct a b = Ok u /\ binaryInnerProduct a' b = Ok v /\
    binaryInnerProduct (Z.lxor a a') b = Ok (Z.lxor u v) /\
    binaryInnerProduct b (Z.lxor a a') = Ok (Z.lxor u v).
Proof. exact c76_bilinear. Qed.
Print Assumptions C76_bilinear.

Theorem C76_negative_refuted : exists a a' b,
  binaryInnerProduct a b = Ok 1 /\ binaryInnerProduct a' b = Ok 0 /\
  binaryInnerProduct (Z.lxor a a') b = Ok 0.
Proof. exact c76_negative_refuted. Qed.
Print Assumptions C76_negative_refuted.


Example C76_example : log2n 256 = Ok 8 /\ log2n 1 = Ok 0 /\ log2n 6 = Raise AssertionError /\
  log2n 0 = Raise AssertionError /\ log2n (-4) = Raise AssertionError /\
  binaryInnerProduct 13 (-1) = Ok 1 /\ binaryInnerProduct 13 7 = Ok 0.
Proof. vm_compute. repeat split. Qed.

(** C80 *)
Theorem C80_range : forall n s, (1 <= n)%nat -> length s = (2 ^ n)%nat ->
  exists lo hi, sboxNonlinearity_x2 s = Ok (2 * lo, 2 * hi) /\ nonlinearity_range n s lo hi.
Proof. exact c80_range. Qed.
Print Assumptions C80_range.

Theorem C80_one_entry : forall v, sboxNonlinearity_x2 [v] = Raise ValueError.
Proof. exact c80_one_entry. Qed.
Print Assumptions C80_one_entry.

Theorem C80_aes : sboxNonlinearity_x2 aes_sbbytes = Ok (2 * 112, 2 * 112).
Proof. exact c80_aes. Qed.
Print Assumptions C80_aes.

Theorem C80_sms4 : sboxNonlinearity_x2 sms4_sbbytes = Ok (2 * 112, 2 * 112).
Proof. exact c80_sms4. Qed.
Print Assumptions C80_sms4.

Theorem C80_streebog : sboxNonlinearity_x2 streebog_sbbytes = Ok (2 * 102, 2 * 110).
Proof. exact c80_streebog. Qed.
Print Assumptions C80_streebog.

Theorem C80_gost : sboxNonlinearity_x2 gost_pi = Ok (2 * 100, 2 * 116).
Proof. exact c80_gost. Qed.
Print Assumptions C80_gost.

Theorem C80_aes_table : aes_sbbytes = sbox_table.
Proof. exact c80_aes_table. Qed.
Print Assumptions C80_aes_table.

Theorem C80_streebog_label : exists x, nth x streebog_sbbytes 0 <> nth x gost_pi 0.
Proof. exact c80_streebog_label. Qed.
Print Assumptions C80_streebog_label.


Example C80_example : length [3; 0; 1; 2] = (2 ^ 2)%nat /\
  sboxNonlinearity_x2 [3; 0; 1; 2] = Ok (0, 0) /\
  sboxNonlinearity_x2 [0; 1; 2; 4; 3; 6; 7; 5] = Ok (2 * 2, 2 * 2).
Proof. vm_compute. repeat split. Qed.
