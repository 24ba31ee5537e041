(** More properties of the parameters of the built-in curves (ecc/curves.py, ecc/ecc.py). *)
From Coq Require Import ZArith List String Znumtheory.
From Verif Require Import Model.Py Model.Encoding Model.Ecc Model.Curves Spec.CurveSpec Spec.CurveView Spec.CurveClasses Spec.SeedSpec Spec.CurveFamilies Proofs.CurveTable Proofs.CurveParamFacts Proofs.TableFacts.
Import ListNotations.
Local Open Scope string_scope.
Local Open Scope Z_scope.

(** C61 *)
Theorem C61_gost : forall E G, class_curve cls_GOSTmsg05975sw = Ok E -> generator cls_GOSTmsg05975sw = Ok G -> exists fuel0, forall fuel, (fuel0 <= fuel)%nat -> forall k,
  (k mod c_n E <> c_n E / 2 -> k mod c_n E <> c_n E - 1 ->
   exists R, scalar_multiple fuel E G k = Ok R /\ valid E R /\ ec_zmultiple (c_p E) (c_a E) (denotes E G) k (denotes E R)) /\
  (k mod c_n E = c_n E / 2 \/ k mod c_n E = c_n E - 1 -> scalar_multiple fuel E G k = Raise TypeError).
Proof. exact c61_gost. Qed.
Print Assumptions C61_gost.


Example C61_gost_example : exists n, int_attr cls_GOSTmsg05975sw "n" = Ok n /\ (-1) mod n = n - 1 /\ 2 mod n <> n / 2 /\ 2 mod n <> n - 1.
Proof. eexists. split; [reflexivity|]. split; [vm_compute; reflexivity|]. split; vm_compute; discriminate. Qed.

(** C66 *)
Theorem C66_builtin : forall c E maxlist x, short_weierstrass c -> class_curve c = Ok E -> maxlist < 2 ^ 63 -> exists fuel0, forall fuel, (fuel0 <= fuel)%nat ->
  (~ (exists y, mk_point E x y = Ok (Aff x y)) -> y_from_x fuel E maxlist x = Raise SquareRootError) /\
  (~ In (cls_name c) ["SECP_224r1"; "NIST_P224"; "GOST2001_test"; "GOST2001_CryptoPro_B"] ->
   (exists y, mk_point E x y = Ok (Aff x y)) -> exists y, y_from_x fuel E maxlist x = Ok y /\ 0 <= y < c_p E /\ mk_point E x y = Ok (Aff x y)) /\
  (In (cls_name c) ["SECP_224r1"; "NIST_P224"; "GOST2001_test"; "GOST2001_CryptoPro_B"] ->
   (exists y, mk_point E x y = Ok (Aff x y)) -> mk_point E x 0 <> Ok (Aff x 0) -> y_from_x fuel E maxlist x = Raise OverflowError).
Proof. exact c66_builtin. Qed.
Print Assumptions C66_builtin.


Example C66_builtin_example : In "GOST2001_test" (map cls_name smallWeierstrassCurves) /\ In "SECP_256r1" (map cls_name smallWeierstrassCurves) /\
  exists p, int_attr cls_SECP_224r1 "p" = Ok p /\ p mod 8 = 1.
Proof. split; [vm_compute; tauto|]. split; [vm_compute; tauto|]. eexists. split; [reflexivity|vm_compute; reflexivity]. Qed.

(** C81 *)
Theorem C81_key_range : forall size s, octets s -> List.length s = size -> 0 <= new_private_key s < 256 ^ Z.of_nat size.
Proof. exact c81_key_range. Qed.
Print Assumptions C81_key_range.

Theorem C81_key_bijection : forall size k, 0 <= k < 256 ^ Z.of_nat size -> exists s, octets s /\ List.length s = size /\ new_private_key s = k /\
  forall s', octets s' -> List.length s' = size -> new_private_key s' = k -> s' = s.
Proof. exact c81_key_bijection. Qed.
Print Assumptions C81_key_bijection.

Theorem C81_refuted : forall c E G, short_weierstrass c -> class_curve c = Ok E -> generator c = Ok G -> exists size s s',
  (exists fuel0, forall fuel, (fuel0 <= fuel)%nat -> coord_size fuel (c_p E) = Ok (Z.of_nat size)) /\
  octets s /\ List.length s = size /\ new_private_key s = 0 /\ octets s' /\ List.length s' = size /\ new_private_key s' = c_n E /\
  forall fuel, scalar_multiple fuel E G (new_private_key s) = Ok Inf /\ scalar_multiple fuel E G (new_private_key s') = Ok Inf.
Proof. exact c81_refuted. Qed.
Print Assumptions C81_refuted.


Example C81_example : new_private_key [1; 0] = 256 /\ new_private_key [0; 255] = 255 /\ 0 <= new_private_key [255; 255] < 256 ^ 2 /\
  short_weierstrass cls_SECP_192r1 /\ (exists E G, class_curve cls_SECP_192r1 = Ok E /\ generator cls_SECP_192r1 = Ok G).
Proof.
  assert (H : short_weierstrass cls_SECP_192r1) by (split; [unfold module_classes; repeat (first [left; reflexivity|right])|left; left; reflexivity]).
  split; [reflexivity|]. split; [reflexivity|]. split; [split; [discriminate|reflexivity]|]. split; [exact H|].
  destruct (c71_parameters _ H) as (p & a & b & n & x & y & E & _ & _ & _ & _ & _ & _ & _ & _ & _ & G & _). eauto.
Qed.

(** C82 *)
Theorem C82_seed : forall c, In c nist_curves -> exists p a b seed seed_c,
  int_attr c "p" = Ok p /\ int_attr c "a" = Ok a /\ int_attr c "b" = Ok b /\ int_attr c "seed" = Ok seed /\ int_attr c "seed_c" = Ok seed_c /\
  a = p - 3 /\ seed_c = hash_expand (bit_length p) 1 seed /\ (seed_c * b ^ 2 + 27) mod p = 0 /\ (seed_c * b ^ 2 - a ^ 3) mod p = 0.
Proof. exact c82_seed. Qed.
Print Assumptions C82_seed.

Theorem C82_refuted : forall c, In c nist_curves -> exists seed seed_c, int_attr c "seed" = Ok seed /\ int_attr c "seed_c" = Ok seed_c /\ seed_c <> sha_int seed.
Proof. exact c82_refuted. Qed.
Print Assumptions C82_refuted.


Example C82_example : In cls_SECP_521r1 nist_curves /\ octets20 (2 ^ 160 + 258) = (repeat 0 18 ++ [1; 2])%list /\ value_of [1; 2] = 258 /\ bit_length 8 = 4 /\
  int_attr cls_SECP_192r1 "seed" = Ok 0x3045ae6fc8422f64ed579528d38120eae12196d5 /\ sha_int 0x3045ae6fc8422f64ed579528d38120eae12196d5 = 0x7f6da10026c7ff92c5ac2e890bd59b44b099d2bb.
Proof. split; [do 4 right; left; reflexivity|]. vm_compute. repeat split. Qed.

(** C83 *)
Theorem C83_isomorphism : forall r t, In (r, t) brainpool_pairs -> exists p a b a' b' n x y x' y' z,
  class_curve r = Ok (Curve p a b n) /\ class_curve t = Ok (Curve p a' b' n) /\ generator r = Ok (Aff x y) /\ generator t = Ok (Aff x' y') /\ 0 < z < p /\ a' = p - 3 /\
  curve_isomorphism p a b a' b' (scale_point p z) /\ scale_point p z (Some (x, y)) = Some (x', y') /\
  (cls_name t <> "BrainPoolP256t1" -> int_attr t "z" = Ok z) /\ (cls_name t = "BrainPoolP256t1" -> int_attr t "z" = Raise AttributeError).
Proof. exact c83_isomorphism. Qed.
Print Assumptions C83_isomorphism.


Example C83_example : In (cls_BrainPoolP256r1, cls_BrainPoolP256t1) brainpool_pairs /\ scale_point 23 2 (Some (3, 10)) = Some (12, 11) /\ on_ec 23 1 1 (Some (3, 10)) /\ on_ec 23 (2 ^ 4) (2 ^ 6) (Some (12, 11)).
Proof. split; [do 3 right; left; reflexivity|]. split; [reflexivity|]. repeat split; (discriminate || reflexivity). Qed.

(** C85 *)
Theorem C85_embedding : forall c, short_weierstrass c -> exists p a b n x y q,
  class_curve c = Ok (Curve p a b n) /\ generator c = Ok (Aff x y) /\ ec_order p a (Some (x, y)) q /\ prime q /\ q <> p /\ forall k, 1 <= k <= 100 -> p ^ k mod q <> 1.
Proof. exact c85_embedding. Qed.
Print Assumptions C85_embedding.


Example C85_example : short_weierstrass cls_SECP_256k1 /\ 7 ^ 3 mod 19 = 1 /\ 7 ^ 2 mod 19 <> 1.
Proof. split; [split; [unfold module_classes; repeat (first [left; reflexivity|right])|left; right; left; reflexivity]|]. split; [reflexivity|discriminate]. Qed.

(** C86 *)
Theorem C86_strength : forall c, In c allCurves -> exists s n, int_attr c "strength" = Ok s /\ int_attr c "n" = Ok n /\ 0 < s /\
  (~ In (cls_name c) ["GOST2012_tc26_A"; "GOST2012_tc26_B"; "GOSTmsg05975te"] -> 2 ^ (2 * s - 1) <= n) /\
  (In (cls_name c) ["GOST2012_tc26_A"; "GOST2012_tc26_B"; "GOSTmsg05975te"] -> n < 2 ^ (2 * s - 1)).
Proof. exact c86_strength. Qed.
Print Assumptions C86_strength.

Theorem C86_refuted : exists c s n, In c allCurves /\ int_attr c "strength" = Ok s /\ int_attr c "n" = Ok n /\ n < 2 ^ s.
Proof. exact c86_refuted. Qed.
Print Assumptions C86_refuted.


Example C86_example : In cls_SECP_521r1 allCurves /\ int_attr cls_SECP_521r1 "strength" = Ok 256 /\ int_attr cls_GOST2012_tc26_A "strength" = Ok 512.
Proof. split; [apply allCurves_in; split; [unfold module_classes; repeat (first [left; reflexivity|right])|left; reflexivity]|]. split; reflexivity. Qed.
