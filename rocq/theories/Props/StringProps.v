(** Properties of the string forms of points and elements, of the fixed-size PRFs and of the
    orders of permutations. *)
From Coq Require Import ZArith List Bool.
From Verif Require Import Model.Py Model.Ecc Model.Compare Model.Hmac Model.Strings Model.Analysis
  Model.SboxTables Spec.StringSpec Spec.AnalysisSpec Proofs.StringFacts Proofs.OrbitOrder.
Import ListNotations.
Local Open Scope Z_scope.

(** C101 *)
Theorem C101_decimal : forall z, decimal z (dec z).
Proof. exact c101_decimal. Qed.
Print Assumptions C101_decimal.

Theorem C101_form : point_str Inf = [73; 68; 69; 78; 84; 73; 84; 89] /\
  (forall x y, exists sx sy, decimal x sx /\ decimal y sy /\
     point_str (Aff x y) = [40] ++ sx ++ [44] ++ sy ++ [41]) /\
  (forall x, decimal (el_v x) (el_str x)).
Proof. exact c101_form. Qed.
Print Assumptions C101_form.

Theorem C101_point : forall P Q, point_str P = point_str Q <-> P = Q.
Proof. exact c101_point. Qed.
Print Assumptions C101_point.

Theorem C101_element : forall x y, el_str x = el_str y <-> el_v x = el_v y.
Proof. exact c101_element. Qed.
Print Assumptions C101_element.

Theorem C101_element_refuted : exists x y, el_new 5 2 = Ok x /\ el_new 7 2 = Ok y /\ x <> y /\
  el_str x = el_str y.
Proof. exact c101_element_refuted. Qed.
Print Assumptions C101_element_refuted.

Theorem C101_edwards_refuted : forall p a d P, 2 < p -> te_str p a d P = Raise AssertionError.
Proof. exact c101_edwards_refuted. Qed.
Print Assumptions C101_edwards_refuted.

Theorem C101_montgomery : forall p a P, mg_str p a P =
  match mg_identity p a with
  | Ok _ => Ok (point_str (if (fst P =? 0) && (snd P =? -1) then Inf else Aff (fst P) (snd P)))
  | Raise e => Raise e
  end.
Proof. exact c101_montgomery. Qed.
Print Assumptions C101_montgomery.

(** "(3,-140)" and "IDENTITY" *)
Example C101_example : point_str (Aff 3 (-140)) = [40; 51; 44; 45; 49; 52; 48; 41] /\
  point_str Inf = [73; 68; 69; 78; 84; 73; 84; 89] /\ dec 0 = [48].
Proof. vm_compute. auto. Qed.

(** C102 *)
Theorem C102_sizes : forall hm key A B, (forall k m, length (hm k m) = 20%nat) ->
  exists R, PRF_768 hm key A B = Ok R /\ len R = 96 /\
  PRF_512 hm key A B = Ok (firstn 64 R) /\ PRF_384 hm key A B = Ok (firstn 48 R) /\
  PRF_256 hm key A B = Ok (firstn 32 R) /\ PRF_192 hm key A B = Ok (firstn 24 R) /\
  PRF_128 hm key A B = Ok (firstn 16 R).
Proof. exact c102_sizes. Qed.
Print Assumptions C102_sizes.

Example C102_example :
  let hm := fun k m : str => firstn 20 (rev m ++ k ++ repeat 0 20) in
  PRF_128 hm [7] [1; 2] [3] = Ok [0; 3; 0; 2; 1; 7; 0; 0; 0; 0; 0; 0; 0; 0; 0; 0].
Proof. vm_compute. reflexivity. Qed.

(** C103 *)
Theorem C103_order : forall p k, is_permutation p ->
  exists v, orbit_start_and_length p = Ok v /\
  ((forall x, 0 <= x < Z.of_nat (length p) -> image p k x = x) <->
   forall s m, In (s, m) v -> (m | Z.of_nat k)).
Proof. exact c103_order. Qed.
Print Assumptions C103_order.

Theorem C103_aes : exists v, orbit_start_and_length aes_sbbytes = Ok v /\
  map snd v = [59; 81; 87; 27; 2] /\
  forall k, ((forall x, 0 <= x < 256 -> image aes_sbbytes k x = x) <-> (277182 | Z.of_nat k)).
Proof. exact c103_aes. Qed.
Print Assumptions C103_aes.

Theorem C103_sms4 : exists v, orbit_start_and_length sms4_sbbytes = Ok v /\
  map snd v = [120; 24; 56; 35; 9; 3; 6; 1; 2] /\
  forall k, ((forall x, 0 <= x < 256 -> image sms4_sbbytes k x = x) <-> (2520 | Z.of_nat k)).
Proof. exact c103_sms4. Qed.
Print Assumptions C103_sms4.

Theorem C103_streebog : exists v, orbit_start_and_length streebog_sbbytes = Ok v /\
  map snd v = [136; 35; 78; 7] /\
  forall k, ((forall x, 0 <= x < 256 -> image streebog_sbbytes k x = x) <-> (185640 | Z.of_nat k)).
Proof. exact c103_streebog. Qed.
Print Assumptions C103_streebog.

Theorem C103_gost : exists v, orbit_start_and_length gost_pi = Ok v /\ map snd v = [243; 13] /\
  forall k, ((forall x, 0 <= x < 256 -> image gost_pi k x = x) <-> (3159 | Z.of_nat k)).
Proof. exact c103_gost. Qed.
Print Assumptions C103_gost.

(** iterates undo each other when their numbers add up to a multiple of the order *)
Theorem C103_inverse : forall p n k j x y, is_permutation p ->
  (forall z, 0 <= z < Z.of_nat (length p) -> image p n z = z) -> (j + k = n)%nat ->
  0 <= x < Z.of_nat (length p) -> 0 <= y < Z.of_nat (length p) ->
  (image p k x = y <-> image p j y = x).
Proof. exact c103_inverse. Qed.
Print Assumptions C103_inverse.

Example C103_example : image [2; 1; 4; 5; 0; 3] 6 4 = 4 /\ image [2; 1; 4; 5; 0; 3] 3 3 = 5 /\
  orbit_start_and_length [2; 1; 4; 5; 0; 3] = Ok [(0, 3); (1, 1); (3, 2)].
Proof. vm_compute. auto. Qed.

(** C104: methods that cannot be used *)
Theorem C104_points_refuted : (forall P, point_to_octetstring P = Raise NameError) /\
  forall P s, point_from_octetstring P s = Raise TypeError.
Proof. exact c104_points. Qed.
Print Assumptions C104_points_refuted.

Theorem C104_michael_refuted : forall k s, michael_update k s = Raise TypeError /\
  michael_digest k = Raise TypeError /\ michael_final k s = Raise TypeError.
Proof. exact c104_michael. Qed.
Print Assumptions C104_michael_refuted.

Theorem C104_permutation_refuted : (forall c, permutation_map_orbits c = Raise TypeError) /\
  (forall t, permutation_start_and_length (OnClass t) = Raise TypeError) /\
  permutation_start_and_length OnObject = Raise NameError.
Proof. exact c104_permutation. Qed.
Print Assumptions C104_permutation_refuted.

(** the same table is accepted by sbox_analysis.py *)
Example C104_example : permutation_start_and_length (OnClass [1; 0; 2]) = Raise TypeError /\
  orbit_start_and_length [1; 0; 2] = Ok [(0, 2); (2, 1)].
Proof. vm_compute. auto. Qed.
