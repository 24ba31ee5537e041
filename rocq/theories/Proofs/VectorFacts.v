(** The vectors of Spec/VectorSpec.v evaluated in the model. *)
From Coq Require Import ZArith List Bool Lia Znumtheory.
From Verif Require Import Model.Py Model.Encoding Model.ChaCha Model.CmacSiv Model.Hmac Model.Michael Model.NumberTheory Model.Ecc Model.Curves Model.GaloisField
  Spec.AesSpec Spec.HmacSpec Spec.VectorSpec Proofs.AesProofs Proofs.HmacFacts Proofs.NTBasic.
Import ListNotations.
Local Open Scope Z_scope.

Ltac run := intros; vm_compute; reflexivity.

Lemma c89_quarter : let '((a, b, c, d), out) := quarter_vector in chacha_q_round a b c d = out.
Proof. run. Qed.
Lemma c89_block : let '(key, nonce, ctr, st, st20) := block_vector in
  forall rnd, chacha_init rnd key ctr (Some nonce) = Ok st /\ iterate 10 inner_block st = st20.
Proof. unfold block_vector. split; run. Qed.
Lemma c89_chacha : Forall (fun v => let '(key, nonce, ctr, pt, ct) := v in forall rnd, exists st,
  chacha_init rnd key ctr (Some nonce) = Ok st /\ snd (chacha_encrypt st pt) = ct /\ snd (chacha_decrypt st ct) = pt) chacha_vectors.
Proof.
  unfold chacha_vectors.
  repeat (apply Forall_cons; [intros rnd; eexists; split; [run|split; run]|]). apply Forall_nil.
Qed.
Lemma c89_poly : Forall (fun v => let '(key, msg, tag) := v in poly1305_mac msg key = Ok tag) poly_vectors.
Proof. unfold poly_vectors. repeat (apply Forall_cons; [run|]). apply Forall_nil. Qed.
Lemma c89_otk : Forall (fun v => let '(key, nonce, otk) := v in forall rnd, poly1305_key_gen rnd key nonce = Ok otk) otk_vectors.
Proof. unfold otk_vectors. repeat (apply Forall_cons; [run|]). apply Forall_nil. Qed.
Lemma c89_aead : let '((key, const, iv, aad, pt), (otk, ct, tag)) := aead_vector in forall rnd1 rnd2,
  poly1305_key_gen rnd1 key (const ++ iv) = Ok otk /\ aead_encrypt rnd1 rnd2 key const aad iv pt = Ok (ct, tag).
Proof. unfold aead_vector. split; run. Qed.

Lemma c89_subkey : Forall (fun v => let '(key, k1, k2) := v in subkey key AES = Ok (k1, k2)) subkey_vectors.
Proof. unfold subkey_vectors. repeat (apply Forall_cons; [run|]). apply Forall_nil. Qed.
Lemma c89_cmac : Forall (fun v => let '(key, m, t) := v in aes_cmac AES key m AES = Ok t) cmac_vectors.
Proof. unfold cmac_vectors. repeat (apply Forall_cons; [run|]). apply Forall_nil. Qed.
Lemma c89_siv : Forall (fun v => let '(key, pt, ads, ct) := v in siv_encrypt AES key pt ads = Ok ct /\ siv_decrypt AES key ct ads = Ok pt) siv_vectors.
Proof. unfold siv_vectors. repeat (apply Forall_cons; [split; run|]). apply Forall_nil. Qed.

Lemma c89_hmac : Forall (fun v => let '(key, m, d) := v in snd (hmac_call SHA1 (hmac_new SHA1 (Some key)) m false) = Ok d) hmac_vectors.
Proof. unfold hmac_vectors. repeat (apply Forall_cons; [run|]). apply Forall_nil. Qed.
Lemma c89_prf : let '(key, m, r) := prf_vector in PRF (rfc_hmac sha1 64) key prf_prefix m (8 * len r) = Ok r.
Proof. run. Qed.

Lemma c89_michael : Forall (fun v => let '(key, m, r) := v in michael key m = Ok r) michael_vectors.
Proof. unfold michael_vectors. repeat (apply Forall_cons; [run|]). apply Forall_nil. Qed.
Lemma c89_tkip_mic : Forall (fun v => let '(key, sa, da, pr, m, r) := v in
  (do k <- michael_setKey key; tkip_mic_hash D3 (Some k) sa da pr m) = Ok r) tkip_mic_vectors.
Proof. unfold tkip_mic_vectors. repeat (apply Forall_cons; [run|]). apply Forall_nil. Qed.

Lemma c89_tkip : Forall (fun v => let '(tk, ta, iv32, iv16, p1k, rc4) := v in exists m p1 seed,
  mixer_new sbox (Some tk) (Some ta) (repeat 0 6) = Ok m /\
  snd (mixer_newKey sbox m (test_pn iv32 iv16)) = Ok seed /\
  m_phase1 (fst (mixer_newKey sbox m (test_pn iv32 iv16))) = Some p1 /\ words16 p1 = p1k /\
  skipn 3 seed = skipn 3 rc4 /\ (seed = rc4 <-> nth 0 iv16 0 = nth 1 iv16 0)) tkip_vectors.
Proof.
  unfold tkip_vectors.
  repeat (apply Forall_cons; [eexists; eexists; eexists; split; [run|split; [run|split; [run|split; [run|split; [run|vm_compute; split; congruence]]]]]|]).
  apply Forall_nil.
Qed.
Lemma c89_tkip_refuted : exists v, In v tkip_vectors /\ let '(tk, ta, iv32, iv16, p1k, rc4) := v in
  forall m, mixer_new sbox (Some tk) (Some ta) (repeat 0 6) = Ok m -> snd (mixer_newKey sbox m (test_pn iv32 iv16)) <> Ok rc4.
Proof.
  exists (nth 1 tkip_vectors ([], [], [], [], [], [])). split; [right; left; reflexivity|]. cbv beta iota.
  unfold tkip_vectors. cbn [nth]. intros m M. vm_compute in M. injection M as <-. vm_compute. discriminate.
Qed.

Lemma c89_rfc1924 : let '(n, text) := rfc1924_vector in exists s,
  int_to_string n None = Ok s /\ b85encode s = Ok text /\ b85decode text None = Ok s.
Proof. eexists. split; [run|split; run]. Qed.

Lemma inverse_fuel f f' a m : 2 <= m -> (steps m <= f)%nat -> (steps m <= f')%nat ->
  NumberTheory.inverse_mod f a m = NumberTheory.inverse_mod f' a m.
Proof.
  intros Hm F F'. destruct (inverse_mod_spec f a m Hm F) as [A B], (inverse_mod_spec f' a m Hm F') as [A' B'].
  destruct (Z.eq_dec (Z.gcd a m) 1) as [G|G]; [|now rewrite (B G), (B' G)].
  destruct (A G) as (x & E & R & I), (A' G) as (x' & E' & R' & I'). rewrite E, E'. f_equal.
  assert (D : (m | a * (x - x'))).
  { exists ((a * x) / m - (a * x') / m). pose proof (Z.div_mod (a * x) m). pose proof (Z.div_mod (a * x') m). nia. }
  apply Gauss in D; [|apply Zgcd_1_rel_prime; rewrite Z.gcd_comm; exact G].
  destruct D as (k & D). assert (k = 0) by nia. subst k. lia.
Qed.
Lemma add_fuel f f' c P Q : 2 <= c_p c -> (steps (c_p c) <= f)%nat -> (steps (c_p c) <= f')%nat -> add_points f c P Q = add_points f' c P Q.
Proof.
  intros. unfold add_points, double_point, inverse. destruct Q as [|x2 y2], P as [|x1 y1]; auto.
  now rewrite (inverse_fuel f f' (x2 - x1)), (inverse_fuel f f' (2 * y1)).
Qed.
Definition sums_ok (fuel : nat) (c : curve) (v : (Z * Z) * (Z * Z) * (Z * Z) * (Z * Z) * (Z * Z)) : Prop :=
  let '((xS, yS), (xT, yT), (xA, yA), (xB, yB), (xD, yD)) := v in
  mk_point c xS yS = Ok (Aff xS yS) /\ mk_point c xT yT = Ok (Aff xT yT) /\
  add_points fuel c (Aff xS yS) (Aff xT yT) = Ok (Aff xA yA) /\
  sub_points fuel c (Aff xS yS) (Aff xT yT) = Ok (Aff xB yB) /\
  add_points fuel c (Aff xS yS) (Aff xS yS) = Ok (Aff xD yD).
Lemma sums_fuel f f' c v : 2 <= c_p c -> (steps (c_p c) <= f)%nat -> (steps (c_p c) <= f')%nat -> sums_ok f c v -> sums_ok f' c v.
Proof.
  intros P F F'. destruct v as [[[[[xS yS] [xT yT]] [xA yA]] [xB yB]] [xD yD]]. unfold sums_ok, sub_points.
  rewrite !(add_fuel f f' c (Aff xS yS)) by auto. destruct (negate c (Aff xT yT)); cbn [bind]; [|auto].
  now rewrite (add_fuel f f' c (Aff xS yS) a) by auto.
Qed.

Lemma c89_p192 : exists E, class_curve cls_NIST_P192 = Ok E /\ forall fuel, (400 <= fuel)%nat -> sums_ok fuel E p192_points.
Proof.
  eexists. split; [vm_compute; reflexivity|]. intros fuel F. apply (sums_fuel 400); [cbn [c_p]; lia|vm_compute; lia| |vm_compute; auto 10].
  refine (Nat.le_trans _ 400 _ _ F). vm_compute. lia.
Qed.

(** ecc/test/test_ecc.py:20-57: y^2 = x^3 + x + 1 over the field of 23 elements, n = 7 *)
Lemma c89_small_curve : forall k, let fuel := (40 + k)%nat in let c := Curve 23 1 1 7 in
  let g := Aff 3 10 in let l := Aff 9 7 in let m := Aff 17 20 in let d := Aff 7 12 in
  add_points fuel c g l = Ok m /\ sub_points fuel c g g = Ok Inf /\ sub_points fuel c m g = Ok l /\ sub_points fuel c m l = Ok g /\
  double_point fuel c g = Ok d /\ add_points fuel c g g = Ok d /\ scalar_multiple fuel c g 2 = Ok d.
Proof. intros k. repeat split; vm_compute; reflexivity. Qed.
Fixpoint times (fuel : nat) (c : curve) (P : point) (i : nat) : res point :=
  match i with O => Ok Inf | Datatypes.S i => do R <- times fuel c P i; add_points fuel c R P end.
Lemma c89_x962 : forall k i, (i <= 7)%nat -> let fuel := (40 + k)%nat in let c := Curve 23 1 1 7 in
  exists R, scalar_multiple fuel c (Aff 13 7) (Z.of_nat i mod 7) = Ok R /\ times fuel c (Aff 13 7) i = Ok R.
Proof. intros k i H. do 8 (destruct i as [|i]; [eexists; split; vm_compute; reflexivity|]). lia. Qed.

(** fmath/test/test_galoisfields.py:19-62, without the random elements *)
Lemma c89_galois : forall k, let fuel := (20 + k)%nat in
  (do a <- e_sub 11 8 (Elt 1); do b <- e_sub 11 1 (Elt 8); do b <- e_neg 11 b; Ok (e_eq a (Elt b))) = Ok true /\
  e_add 11 8 (Int 3) = Ok 0 /\ e_radd 11 8 (Int 3) = Ok 0 /\
  (do a <- e_sub 11 8 (Int 3); do b <- e_rsub 11 8 (Int 3); do b <- e_neg 11 b; Ok (e_eq a (Elt b))) = Ok true /\
  e_mul 11 7 (Elt 8) = e_mul 11 7 (Int 8) /\ e_mul 11 7 (Elt 8) = e_rmul 11 8 (Int 7) /\
  (forall i, 1 <= i < 11 -> (do v <- gf_inverse fuel 11 i; do x <- gf 11 i; e_mul 11 x (Int v)) = Ok 1 /\
    exists q, e_div fuel 11 7 (Elt i) = Ok q /\ e_rdiv fuel 11 i (Int 7) = Ok q /\ e_div fuel 11 7 (Int i) = Ok q) /\
  e_xor 11 4 (Int 2) = gf 11 (4 ^ 2) /\ e_rxor 11 4 (Int 2) = gf 11 (2 ^ 4) /\
  e_div fuel (2 ^ 255 - 19) (486662 - 2) (Elt 4) = Ok 121665.
Proof.
  intros k fuel. unfold fuel. do 6 (split; [vm_compute; reflexivity|]). split.
  - intros i H. assert (C : i = 1 \/ i = 2 \/ i = 3 \/ i = 4 \/ i = 5 \/ i = 6 \/ i = 7 \/ i = 8 \/ i = 9 \/ i = 10) by lia.
    repeat destruct C as [C|C]; subst i; (split; [vm_compute; reflexivity|eexists; split; [vm_compute; reflexivity|split; vm_compute; reflexivity]]).
  - repeat split; vm_compute; reflexivity.
Qed.
