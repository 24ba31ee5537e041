(** Poly1305 is almost universal (C14). *)
From Coq Require Import ZArith List Lia.
From Verif Require Import Model.Py Model.ChaCha Spec.EncodingSpec Spec.ChaChaSpec Proofs.Universal.
Import ListNotations.
Local Open Scope Z_scope.

(** C14: among keys with pairwise different clamped [r] (the second halves may be
    anything), at most 8 times the number of blocks give two different messages
    tags that differ by [d] *)
Theorem C14_almost_universal : forall m m' d keys, octets m -> octets m' -> m <> m' ->
  NoDup (map rfc_clamp keys) ->
  Forall (fun key => octets key /\ len key = 32 /\ exists tag tag',
     poly1305_mac m key = Ok tag /\ poly1305_mac m' key = Ok tag' /\
     (le_value 256 tag - le_value 256 tag') mod 2 ^ 128 = d mod 2 ^ 128) keys ->
  (length keys <= 8 * Nat.max (nblocks16 m) (nblocks16 m'))%nat.
Proof. exact almost_universal. Qed.
Print Assumptions C14_almost_universal.

(** different messages have different polynomials, and the number of blocks is
    the length in blocks rounded up *)
Theorem C14_polynomials_differ : forall m m', octets m -> octets m' ->
  nblocks16 m = nblocks16 m' ->
  (forall i, (i < nblocks16 m)%nat -> poly_coeff m i = poly_coeff m' i) -> m = m'.
Proof. exact coefficients_determine. Qed.
Print Assumptions C14_polynomials_differ.

Example C14_example :
  let key := 2 :: repeat 0 15 ++ repeat 7 16 in
  [1] <> [2] /\ NoDup (map rfc_clamp [key]) /\ octets key /\ len key = 32 /\
  (exists tag tag', poly1305_mac [1] key = Ok tag /\ poly1305_mac [2] key = Ok tag' /\
    (le_value 256 tag - le_value 256 tag') mod 2 ^ 128 = (-2) mod 2 ^ 128) /\
  nblocks16 [1] = 1%nat.
Proof.
  cbv zeta. split; [discriminate|]. split; [constructor; [intros []|constructor]|].
  split; [repeat (constructor; [unfold is_octet; lia|]); constructor|]. split; [reflexivity|].
  split; [|reflexivity]. do 2 eexists. split; [vm_compute; reflexivity|]. split; [vm_compute; reflexivity|].
  vm_compute. reflexivity.
Qed.
