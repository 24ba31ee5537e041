(** The package's own known-answer tests, evaluated in the model (C89).  The vectors are in Spec/VectorSpec.v. *)
From Coq Require Import ZArith List Bool.
From Verif Require Import Model.Py Model.Encoding Model.ChaCha Model.CmacSiv Model.Hmac Model.Michael Model.NumberTheory Model.Ecc Model.Curves Model.GaloisField
  Spec.AesSpec Spec.HmacSpec Spec.VectorSpec Proofs.AesProofs Proofs.HmacFacts Proofs.VectorFacts.
Import ListNotations.
Local Open Scope Z_scope.

Theorem C89_quarter : let '((a, b, c, d), out) := quarter_vector in chacha_q_round a b c d = out.
Proof. exact c89_quarter. Qed.
Print Assumptions C89_quarter.

Theorem C89_block : let '(key, nonce, ctr, st, st20) := block_vector in
  forall rnd, chacha_init rnd key ctr (Some nonce) = Ok st /\ iterate 10 inner_block st = st20.
Proof. exact c89_block. Qed.
Print Assumptions C89_block.

Theorem C89_chacha : Forall (fun v => let '(key, nonce, ctr, pt, ct) := v in forall rnd, exists st,
  chacha_init rnd key ctr (Some nonce) = Ok st /\ snd (chacha_encrypt st pt) = ct /\ snd (chacha_decrypt st ct) = pt) chacha_vectors.
Proof. exact c89_chacha. Qed.
Print Assumptions C89_chacha.

Theorem C89_poly : Forall (fun v => let '(key, msg, tag) := v in poly1305_mac msg key = Ok tag) poly_vectors.
Proof. exact c89_poly. Qed.
Print Assumptions C89_poly.

Theorem C89_otk : Forall (fun v => let '(key, nonce, otk) := v in forall rnd, poly1305_key_gen rnd key nonce = Ok otk) otk_vectors.
Proof. exact c89_otk. Qed.
Print Assumptions C89_otk.

Theorem C89_aead : let '((key, const, iv, aad, pt), (otk, ct, tag)) := aead_vector in forall rnd1 rnd2,
  poly1305_key_gen rnd1 key (const ++ iv) = Ok otk /\ aead_encrypt rnd1 rnd2 key const aad iv pt = Ok (ct, tag).
Proof. exact c89_aead. Qed.
Print Assumptions C89_aead.

Theorem C89_subkey : Forall (fun v => let '(key, k1, k2) := v in subkey key AES = Ok (k1, k2)) subkey_vectors.
Proof. exact c89_subkey. Qed.
Print Assumptions C89_subkey.

Theorem C89_cmac : Forall (fun v => let '(key, m, t) := v in aes_cmac AES key m AES = Ok t) cmac_vectors.
Proof. exact c89_cmac. Qed.
Print Assumptions C89_cmac.

Theorem C89_siv : Forall (fun v => let '(key, pt, ads, ct) := v in siv_encrypt AES key pt ads = Ok ct /\ siv_decrypt AES key ct ads = Ok pt) siv_vectors.
Proof. exact c89_siv. Qed.
Print Assumptions C89_siv.

Theorem C89_hmac : Forall (fun v => let '(key, m, d) := v in snd (hmac_call SHA1 (hmac_new SHA1 (Some key)) m false) = Ok d) hmac_vectors.
Proof. exact c89_hmac. Qed.
Print Assumptions C89_hmac.

Theorem C89_prf : let '(key, m, r) := prf_vector in PRF (rfc_hmac sha1 64) key prf_prefix m (8 * len r) = Ok r.
Proof. exact c89_prf. Qed.
Print Assumptions C89_prf.

Theorem C89_michael : Forall (fun v => let '(key, m, r) := v in michael key m = Ok r) michael_vectors.
Proof. exact c89_michael. Qed.
Print Assumptions C89_michael.

Theorem C89_tkip_mic : Forall (fun v => let '(key, sa, da, pr, m, r) := v in
  (do k <- michael_setKey key; tkip_mic_hash D3 (Some k) sa da pr m) = Ok r) tkip_mic_vectors.
Proof. exact c89_tkip_mic. Qed.
Print Assumptions C89_tkip_mic.

Theorem C89_tkip : Forall (fun v => let '(tk, ta, iv32, iv16, p1k, rc4) := v in exists m p1 seed,
  mixer_new sbox (Some tk) (Some ta) (repeat 0 6) = Ok m /\
  snd (mixer_newKey sbox m (test_pn iv32 iv16)) = Ok seed /\
  m_phase1 (fst (mixer_newKey sbox m (test_pn iv32 iv16))) = Some p1 /\ words16 p1 = p1k /\
  skipn 3 seed = skipn 3 rc4 /\ (seed = rc4 <-> nth 0 iv16 0 = nth 1 iv16 0)) tkip_vectors.
Proof. exact c89_tkip. Qed.
Print Assumptions C89_tkip.

Theorem C89_tkip_refuted : exists v, In v tkip_vectors /\ let '(tk, ta, iv32, iv16, p1k, rc4) := v in
  forall m, mixer_new sbox (Some tk) (Some ta) (repeat 0 6) = Ok m -> snd (mixer_newKey sbox m (test_pn iv32 iv16)) <> Ok rc4.
Proof. exact c89_tkip_refuted. Qed.
Print Assumptions C89_tkip_refuted.

Theorem C89_rfc1924 : let '(n, text) := rfc1924_vector in exists s,
  int_to_string n None = Ok s /\ b85encode s = Ok text /\ b85decode text None = Ok s.
Proof. exact c89_rfc1924. Qed.
Print Assumptions C89_rfc1924.

Theorem C89_p192 : exists E, class_curve cls_NIST_P192 = Ok E /\ forall fuel, (400 <= fuel)%nat -> sums_ok fuel E p192_points.
Proof. exact c89_p192. Qed.
Print Assumptions C89_p192.

Theorem C89_small_curve : forall k, let fuel := (40 + k)%nat in let c := Curve 23 1 1 7 in
  let g := Aff 3 10 in let l := Aff 9 7 in let m := Aff 17 20 in let d := Aff 7 12 in
  add_points fuel c g l = Ok m /\ sub_points fuel c g g = Ok Inf /\ sub_points fuel c m g = Ok l /\ sub_points fuel c m l = Ok g /\
  double_point fuel c g = Ok d /\ add_points fuel c g g = Ok d /\ scalar_multiple fuel c g 2 = Ok d.
Proof. exact c89_small_curve. Qed.
Print Assumptions C89_small_curve.

Theorem C89_x962 : forall k i, (i <= 7)%nat -> let fuel := (40 + k)%nat in let c := Curve 23 1 1 7 in
  exists R, scalar_multiple fuel c (Aff 13 7) (Z.of_nat i mod 7) = Ok R /\ times fuel c (Aff 13 7) i = Ok R.
Proof. exact c89_x962. Qed.
Print Assumptions C89_x962.

Theorem C89_galois : forall k, let fuel := (20 + k)%nat in
  (do a <- e_sub 11 8 (Elt 1); do b <- e_sub 11 1 (Elt 8); do b <- e_neg 11 b; Ok (e_eq a (Elt b))) = Ok true /\
  e_add 11 8 (Int 3) = Ok 0 /\ e_radd 11 8 (Int 3) = Ok 0 /\
  (do a <- e_sub 11 8 (Int 3); do b <- e_rsub 11 8 (Int 3); do b <- e_neg 11 b; Ok (e_eq a (Elt b))) = Ok true /\
  e_mul 11 7 (Elt 8) = e_mul 11 7 (Int 8) /\ e_mul 11 7 (Elt 8) = e_rmul 11 8 (Int 7) /\
  (forall i, 1 <= i < 11 -> (do v <- gf_inverse fuel 11 i; do x <- gf 11 i; e_mul 11 x (Int v)) = Ok 1 /\
    exists q, e_div fuel 11 7 (Elt i) = Ok q /\ e_rdiv fuel 11 i (Int 7) = Ok q /\ e_div fuel 11 7 (Int i) = Ok q) /\
  e_xor 11 4 (Int 2) = gf 11 (4 ^ 2) /\ e_rxor 11 4 (Int 2) = gf 11 (2 ^ 4) /\
  e_div fuel (2 ^ 255 - 19) (486662 - 2) (Elt 4) = Ok 121665.
Proof. exact c89_galois. Qed.
Print Assumptions C89_galois.

(** the lists are not empty *)
Example C89_example : length chacha_vectors = 3%nat /\ length poly_vectors = 12%nat /\ length cmac_vectors = 12%nat /\ length siv_vectors = 2%nat /\
  length hmac_vectors = 3%nat /\ length michael_vectors = 6%nat /\ length tkip_vectors = 8%nat /\
  filter (fun v => let '(_, _, _, iv16, _, _) := v in nth 0 iv16 0 =? nth 1 iv16 0) tkip_vectors = [nth 0 tkip_vectors ([], [], [], [], [], []);
    nth 2 tkip_vectors ([], [], [], [], [], []); nth 3 tkip_vectors ([], [], [], [], [], [])].
Proof. repeat split. Qed.
