(** The ladder as a key agreement function (C98) *)
From Coq Require Import ZArith Znumtheory List Lia String.
From Verif Require Import Model.Py Model.NumberTheory Model.Ecc Model.Curves Model.EdCurves Spec.CurveSpec Spec.MontgomerySpec Proofs.NTBasic Proofs.Contributory Proofs.ContribCurve.
From Verif Require Import Proofs.MontFacts Proofs.CurveFacts Props.MontgomeryProps.
Import ListNotations.
Local Open Scope Z_scope.

(** C98: the input 0 gives 0 for every private key *)
Theorem C98_zero : forall p a x k, 3 < p -> x mod p = 0 -> montgomery_ladder p a k x = 0.
Proof. exact c98_zero. Qed.
Print Assumptions C98_zero.

Example C98_zero_example : montgomery_ladder 23 3 2 46 = 0 /\ montgomery_ladder 23 3 2 4 = 16.
Proof. split; [now apply C98_zero|exact (proj1 C70_ladder_example)]. Qed.

(** so does every input of an order that divides the private key *)
Theorem C98_small : forall p a B x y h k, prime p -> 3 < p -> (a * a - 4) mod p <> 0 -> B mod p <> 0 -> on_mg p a B (Some (x mod p, y)) ->
  0 <= h -> mg_multiple p a B (Some (x mod p, y)) (Z.to_nat h) None -> (h | k mod 2 ^ 255) -> montgomery_ladder p a k x = 0.
Proof. exact c98_small. Qed.
Print Assumptions C98_small.

(** (22, 1) has order 4 on y^2 = x^3 + 3 x^2 + x modulo 23 *)
Example C98_small_example : mg_multiple 23 3 1 (Some (22, 1)) 4 None /\ montgomery_ladder 23 3 12 22 = 0.
Proof.
  assert (M : mg_multiple 23 3 1 (Some (22, 1)) 4 None).
  { apply mgm_S with (Some (22, 22)); [|exact (mgs_opposite 23 3 1 (Some (22, 22)))]. apply mgm_S with (Some (0, 0)).
    - apply mgm_S with (Some (22, 1)); [apply mgm_S with None; constructor|]. apply mgs_tangent with (l := 22); [lia|reflexivity|]. repeat split; reflexivity || lia.
    - apply mgs_chord with (l := 22); [lia|reflexivity|]. repeat split; reflexivity || lia. }
  split; [exact M|]. apply (C98_small 23 3 1 22 1 4 12 p23); try lia; try (vm_compute; discriminate).
  - repeat split; reflexivity || lia.
  - exact M.
  - exists 3. reflexivity.
Qed.

(** the five abscissas of Curve25519 and its twist of an order that divides 8, for the private keys RFC 7748 makes *)
Theorem C98_curve25519 : exists p a, int_attr cls_Curve25519 "p" = Ok p /\ int_attr cls_Curve25519 "a" = Ok a /\
  forall x k, In (x mod p) [0; 1; p - 1; 325606250916557431795983626356110631294008115727848805560023387167927233504; 39382357235489614581723060781553021112529911719440698176882885853963445705823] ->
  (8 | k) -> montgomery_ladder p a k x = 0.
Proof. exact c98_curve25519. Qed.
Print Assumptions C98_curve25519.

Example C98_curve25519_example : montgomery_ladder (2 ^ 255 - 19) 486662 (2 ^ 254 + 8) (2 ^ 255 - 20) = 0.
Proof.
  destruct C98_curve25519 as (p & a & P & A & H). assert (P' : int_attr cls_Curve25519 "p" = Ok (2 ^ 255 - 19)) by (vm_compute; reflexivity).
  assert (A' : int_attr cls_Curve25519 "a" = Ok 486662) by (vm_compute; reflexivity). assert (EP : p = 2 ^ 255 - 19) by congruence. assert (EA : a = 486662) by congruence.
  clear P A P' A'. rewrite EP, EA in H. apply H.
  - right. right. left. vm_compute. reflexivity.
  - exists (2 ^ 251 + 1). reflexivity.
Qed.

(** private keys with the same public key, for a base point of odd order *)
Theorem C98_collision : forall p a B x y n k m, prime p -> 3 < p -> (a * a - 4) mod p <> 0 -> B mod p <> 0 -> on_mg p a B (Some (x mod p, y)) ->
  n mod 2 = 1 -> mg_order p a B (Some (x mod p, y)) n ->
  (montgomery_ladder p a k x = montgomery_ladder p a m x <-> (n | k mod 2 ^ 255 - m mod 2 ^ 255) \/ (n | k mod 2 ^ 255 + m mod 2 ^ 255)).
Proof. exact c98_collision. Qed.
Print Assumptions C98_collision.

(** (9, 2) has order 3 on y^2 = x^3 + 4 x^2 + x modulo 23 *)
Example C98_collision_example : mg_order 23 4 1 (Some (9, 2)) 3 /\ montgomery_ladder 23 4 1 9 = montgomery_ladder 23 4 5 9 /\ montgomery_ladder 23 4 1 9 <> montgomery_ladder 23 4 6 9.
Proof.
  assert (O : mg_order 23 4 1 (Some (9, 2)) 3).
  { split; [lia|]. split.
    - apply mgm_S with (Some (9, 21)); [|exact (mgs_opposite 23 4 1 (Some (9, 21)))]. apply mgm_S with (Some (9, 2)); [apply mgm_S with None; constructor|].
      apply mgs_tangent with (l := 10); [lia|reflexivity|]. repeat split; reflexivity || lia.
    - assert (F : forall R, mg_multiple 23 4 1 (Some (9, 2)) 1 R -> R = Some (9, 2)).
      { intros R M. inversion M as [|k R0 R' M0 S]; subst. inversion M0; subst. inversion S as [| |Q A B C| |]; subst; reflexivity. }
      intros k K M. assert (k = 1 \/ k = 2) as [-> | ->] by lia; [apply F in M; discriminate|].
      change (Z.to_nat 2) with 2%nat in M. inversion M as [|j R0 R' M0 S]; subst. apply F in M0. subst R0. inversion S as [| |Q A B C| |]. }
  assert (P : forall k m, montgomery_ladder 23 4 k 9 = montgomery_ladder 23 4 m 9 <-> (3 | k mod 2 ^ 255 - m mod 2 ^ 255) \/ (3 | k mod 2 ^ 255 + m mod 2 ^ 255)).
  { intros k m. apply (C98_collision 23 4 1 9 2 3 k m p23); try lia; try (vm_compute; discriminate); [repeat split; reflexivity || lia|exact O]. }
  split; [exact O|]. split; [apply P; right; exists 2; reflexivity|]. intros E. apply P in E.
  assert (E1 : 1 mod 2 ^ 255 = 1) by reflexivity. assert (E6 : 6 mod 2 ^ 255 = 6) by reflexivity. rewrite E1, E6 in E. destruct E as [(q & E)|(q & E)]; lia.
Qed.

Theorem C98_public_keys : exists p a xG n, int_attr cls_Curve25519 "p" = Ok p /\ int_attr cls_Curve25519 "a" = Ok a /\ int_attr cls_Curve25519 "xG" = Ok xG /\ int_attr cls_Curve25519 "n" = Ok n /\
  forall k m, (montgomery_ladder p a k xG = montgomery_ladder p a m xG <-> (n | k mod 2 ^ 255 - m mod 2 ^ 255) \/ (n | k mod 2 ^ 255 + m mod 2 ^ 255)).
Proof. exact c98_public_keys. Qed.
Print Assumptions C98_public_keys.

Example C98_public_keys_example : int_attr cls_Curve25519 "n" = Ok (2 ^ 252 + 27742317777372353535851937790883648493) /\ int_attr cls_Curve25519 "xG" = Ok 9.
Proof. split; vm_compute; reflexivity. Qed.

(** different private keys below the order have different public keys: no, n - k is as good as k *)
Theorem C98_refuted : exists p a xG n, int_attr cls_Curve25519 "p" = Ok p /\ int_attr cls_Curve25519 "a" = Ok a /\ int_attr cls_Curve25519 "xG" = Ok xG /\ int_attr cls_Curve25519 "n" = Ok n /\ 1 < n < 2 ^ 255 /\
  forall k, 0 < k < n -> n - k <> k /\ 0 < n - k < n /\ montgomery_ladder p a (n - k) xG = montgomery_ladder p a k xG.
Proof. exact c98_public_keys_refuted. Qed.
Print Assumptions C98_refuted.

Example C98_refuted_example : montgomery_ladder 23 4 2 9 = montgomery_ladder 23 4 1 9.
Proof.
  apply (C98_collision 23 4 1 9 2 3 2 1 p23); try lia; try (vm_compute; discriminate); [repeat split; reflexivity || lia|exact (proj1 C98_collision_example)|].
  right. exists 1. reflexivity.
Qed.
