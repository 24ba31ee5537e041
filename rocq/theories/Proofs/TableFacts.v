(** More facts about the parameters of the built-in curves. *)
From Coq Require Import ZArith List Bool String Znumtheory Lia.
From Verif Require Import Model.Py Model.NumberTheory Model.Encoding Model.Ecc Model.Curves Spec.EncodingSpec Spec.NumberSpec Spec.CurveSpec Spec.CurveView Spec.CurveClasses Spec.SeedSpec Spec.CurveFamilies.
From Verif Require Import Proofs.Cong Proofs.NTBasic Proofs.EncodingProofs Proofs.CurveTable Proofs.CurveProg Proofs.CurveFacts Proofs.ScalarMul Proofs.ScalarCofactor Proofs.Legendre Proofs.SqrtFacts Proofs.EcCheck Proofs.PrimeChain Proofs.CurveParams Proofs.CurveParamFacts Proofs.Isomorphism Proofs.DegreeCerts Proofs.Degree.
Import ListNotations.
Local Open Scope string_scope.
Local Open Scope Z_scope.

Lemma in_names l s : existsb (String.eqb s) l = true <-> In s l.
Proof. rewrite existsb_exists. split; [intros (x & I & E); apply String.eqb_eq in E; now subst|intros I; exists s; split; [exact I|apply String.eqb_refl]]. Qed.
Lemma over_classes (f : curve_class -> bool) : forallb (fun c => negb (swb c) || f c) module_classes = true -> forall c, short_weierstrass c -> f c = true.
Proof. intros A c H. pose proof (proj1 (forallb_forall _ _) A c (proj1 H)) as K. cbv beta in K. rewrite (sw_swb c H) in K. exact K. Qed.
Definition with_int (r : res Z) (f : Z -> bool) : bool := match r with Ok v => f v | Raise _ => false end.
Lemma with_int_ok r f : with_int r f = true -> exists v, r = Ok v /\ f v = true.
Proof. destruct r as [v|]; [intros H; now exists v|discriminate]. Qed.
Lemma class_curve_attrs c E : class_curve c = Ok E -> int_attr c "p" = Ok (c_p E) /\ int_attr c "a" = Ok (c_a E) /\ int_attr c "b" = Ok (c_b E) /\ int_attr c "n" = Ok (c_n E).
Proof.
  unfold class_curve. destruct (int_attr c "p"), (int_attr c "a"), (int_attr c "b"), (int_attr c "n"); cbn [bind]; try discriminate. intros H. inversion H. auto.
Qed.

(** ** scalar multiplication on GOSTmsg05975sw *)
Lemma sw_gost : short_weierstrass cls_GOSTmsg05975sw.
Proof. split; [unfold module_classes; repeat (first [left; reflexivity|right])|left; left; reflexivity]. Qed.
Lemma c61_gost : forall E G, class_curve cls_GOSTmsg05975sw = Ok E -> generator cls_GOSTmsg05975sw = Ok G -> exists fuel0, forall fuel, (fuel0 <= fuel)%nat -> forall k,
  (k mod c_n E <> c_n E / 2 -> k mod c_n E <> c_n E - 1 ->
   exists R, scalar_multiple fuel E G k = Ok R /\ valid E R /\ ec_zmultiple (c_p E) (c_a E) (denotes E G) k (denotes E R)) /\
  (k mod c_n E = c_n E / 2 \/ k mod c_n E = c_n E - 1 -> scalar_multiple fuel E G k = Raise TypeError).
Proof.
  intros E G EC EG. pose proof sw_gost as H. destruct (class_job _ H) as (j & q & m & (Pp & Pn & P3 & Ra & Rb & NS & ON & OR) & Em & Ep & Ea & Eb & Ex & Ey & En).
  change (m = 4) in Em. subst m. destruct (c71_parameters _ H) as (p & a & b & n & x & y & EC' & Ex' & Ey' & _ & _ & _ & _ & Rx & Ry & _ & G' & _).
  assert (Q : with_int (int_attr cls_GOSTmsg05975sw "n") (fun n => (12 <=? n) && (n mod 8 =? 4)) = true) by (vm_compute; reflexivity).
  rewrite En in Q. cbn [with_int] in Q. apply andb_prop in Q as [Q1 Q2]. apply Z.leb_le in Q1. apply Z.eqb_eq in Q2.
  assert (E = Curve (e_n j) (e_a j) (e_b j) (4 * q)).
  { clear - EC Ep Ea Eb En. generalize dependent cls_GOSTmsg05975sw. intros c EC Ep Ea Eb En. apply class_curve_attrs in EC. destruct EC as (A & B & C & D). destruct E as [p1 a1 b1 n1]. cbn [c_p c_a c_b c_n] in *. congruence. }
  assert (G = Aff (e_x j) (e_y j)).
  { clear - EG G' Ex Ex' Ey Ey'. generalize dependent cls_GOSTmsg05975sw. intros. congruence. }
  subst E G. cbn [c_p c_a c_b c_n].
  assert (V : valid (Curve (e_n j) (e_a j) (e_b j) (4 * q)) (Aff (e_x j) (e_y j))) by (destruct ON as (R1 & R2 & EQ); split; [exact R1|exact EQ]).
  assert (HE : elliptic (Curve (e_n j) (e_a j) (e_b j) (4 * q))) by (split; [exact Pp|]; split; [exact P3|exact NS]).
  assert (D2 : 4 * q / 2 = 2 * q) by (replace (4 * q) with (2 * q * 2) by ring; apply Z.div_mul; discriminate). assert (Q3 : 3 <= q) by (clear - Q1; lia).
  exists (mul_fuel (Curve (e_n j) (e_a j) (e_b j) (4 * q))). intros fuel F k. rewrite D2.
  assert (Qo : q mod 2 = 1).
  { clear - Q2. pose proof (Z.div_mod (4 * q) 8 ltac:(lia)) as D. pose proof (Z.mod_pos_bound q 2 ltac:(lia)). pose proof (Z.div_mod q 2 ltac:(lia)). lia. }
  apply (cofactor_ok (Curve (e_n j) (e_a j) (e_b j) (4 * q)) HE q eq_refl Q3 Qo (Aff (e_x j) (e_y j)) k fuel V); [|exact F].
  unfold denotes. cbn [c_p c_a c_n]. destruct ON as (_ & R2 & _). rewrite Z.mod_small by exact R2. exact OR.
Qed.

(** ** point decompression on the built-in curves *)
Definition slow_root : list string := ["SECP_224r1"; "NIST_P224"; "GOST2001_test"; "GOST2001_CryptoPro_B"].
Lemma p_mod_8 c E : short_weierstrass c -> class_curve c = Ok E -> prime (c_p E) /\ 2 ^ 63 < c_p E - 2 /\ (In (cls_name c) slow_root <-> c_p E mod 8 = 1).
Proof.
  intros H EC. destruct (class_curve_attrs _ _ EC) as (Ep & _).
  assert (K : with_int (int_attr c "p") (fun p => (2 ^ 63 <? p - 2) && Bool.eqb (existsb (String.eqb (cls_name c)) slow_root) (p mod 8 =? 1)) = true).
  { revert c H EC Ep. intros c H _ _. revert c H. apply over_classes. vm_compute. reflexivity. }
  rewrite Ep in K. cbn [with_int] in K. apply andb_prop in K as [K1 K2]. apply Z.ltb_lt in K1. apply Bool.eqb_prop in K2.
  destruct (c71_parameters c H) as (p & a & b & n & x & y & EC' & _ & _ & Pp & _). assert (E = Curve p a b n) by congruence. subst E. cbn [c_p] in *.
  split; [exact Pp|]. split; [exact K1|]. rewrite <- in_names, K2, Z.eqb_eq. reflexivity.
Qed.
Lemma c66_builtin : forall c E maxlist x, short_weierstrass c -> class_curve c = Ok E -> maxlist < 2 ^ 63 -> exists fuel0, forall fuel, (fuel0 <= fuel)%nat ->
  (~ (exists y, mk_point E x y = Ok (Aff x y)) -> y_from_x fuel E maxlist x = Raise SquareRootError) /\
  (~ In (cls_name c) ["SECP_224r1"; "NIST_P224"; "GOST2001_test"; "GOST2001_CryptoPro_B"] ->
   (exists y, mk_point E x y = Ok (Aff x y)) -> exists y, y_from_x fuel E maxlist x = Ok y /\ 0 <= y < c_p E /\ mk_point E x y = Ok (Aff x y)) /\
  (In (cls_name c) ["SECP_224r1"; "NIST_P224"; "GOST2001_test"; "GOST2001_CryptoPro_B"] ->
   (exists y, mk_point E x y = Ok (Aff x y)) -> mk_point E x 0 <> Ok (Aff x 0) -> y_from_x fuel E maxlist x = Raise OverflowError).
Proof.
  intros c E maxlist x H EC HM. destruct (p_mod_8 c E H EC) as (Pp & PB & P8). fold slow_root.
  assert (P2 := prime_ge_2 _ Pp). set (t := ((x * x + c_a E) * x + c_b E) mod c_p E).
  assert (T : 0 <= t < c_p E) by (apply Z.mod_pos_bound; lia).
  assert (EE : forall y, mk_point E x y = Ok (Aff x y) <-> (y * y - t) mod c_p E = 0).
  { intros y. rewrite c59_constructor by exact Pp. assert (I : (y * y - (x * x * x + c_a E * x + c_b E)) mod c_p E = (y * y - t) mod c_p E).
    { apply uncong. unfold t. cmod. apply cong_refl_eq. ring. }
    rewrite I. destruct (Z.eqb_spec ((y * y - t) mod c_p E) 0) as [Z|Z]; split; congruence. }
  assert (S : (exists y, mk_point E x y = Ok (Aff x y)) <-> square_mod t (c_p E)).
  { unfold square_mod. split; intros (y & Y); exists y; apply EE in Y || apply EE; exact Y. }
  destruct (Z.eq_dec (c_p E mod 8) 1) as [M|M].
  - assert (exists f0, forall fuel, (f0 <= fuel)%nat -> (~ square_mod t (c_p E) -> square_root_mod_prime maxlist fuel t (c_p E) = Raise SquareRootError) /\ (square_mod t (c_p E) -> t <> 0 -> square_root_mod_prime maxlist fuel t (c_p E) = Raise OverflowError)) as (f0 & F0).
    { exists (Z.to_nat (c_p E)). intros fuel Hf. assert (O2 : c_p E mod 2 = 1) by (clear - M; Z.div_mod_to_equations; lia).
      unfold square_root_mod_prime, py_assert. replace ((0 <=? t) && (t <? c_p E)) with true by lia. replace (1 <? c_p E) with true by lia. cbn [bind].
      destruct (Z.eqb_spec t 0) as [Z0|Z0]; [rewrite Z0; split; [intros N; exfalso; apply N; exists 0; apply Z.mod_0_l; lia|intros; contradiction]|].
      replace (c_p E =? 2) with false by lia. rewrite (jacobi_prime (c_p E) Pp O2) by auto. cbn [bind]. split; intros Sq.
      - apply (nonsquare_lz (c_p E) Pp O2) in Sq. rewrite Sq. reflexivity.
      - intros _. assert (A : lz (c_p E) t = 1). { apply (lz_square Pp O2); auto. rewrite Z.mod_small; lia. }
        rewrite A. change (1 =? -1) with false. cbn beta iota. replace (c_p E mod 4 =? 3) with false by (clear - M; Z.div_mod_to_equations; lia). replace (c_p E mod 8 =? 5) with false by lia.
        replace (maxlist <? c_p E - 2) with true by lia. reflexivity. }
    exists f0. intros fuel Hf. destruct (F0 fuel Hf) as (A & B). unfold y_from_x. fold t. split; [|split].
    + intros N. apply A. now rewrite <- S.
    + intros N. exfalso. apply N. now apply P8.
    + intros _ Y Z0. apply B; [now apply S|]. intros T0. apply Z0. apply EE. rewrite T0. apply Z.mod_0_l. lia.
  - destruct (c66_y_from_x E maxlist x Pp (or_introl M)) as (f0 & F). exists f0. intros fuel Hf. destruct (F fuel Hf) as (A & B).
    split; [exact B|]. split; [intros _; exact A|]. intros I. exfalso. apply M. now apply P8.
Qed.

(** ** private keys *)
Lemma string_int_bij n : forall k, 0 <= k < 256 ^ Z.of_nat n -> exists s, octets s /\ List.length s = n /\ string_to_int s = k /\ forall s', octets s' -> List.length s' = n -> string_to_int s' = k -> s' = s.
Proof.
  intros k K.
  assert (EX : forall n k, 0 <= k < 256 ^ Z.of_nat n -> exists s, octets s /\ List.length s = n /\ string_to_int s = k).
  { clear n k K. induction n as [|n IH]; intros k K.
    - exists []. change (256 ^ Z.of_nat 0) with 1 in K. split; [constructor|]. split; [reflexivity|]. cbn. lia.
    - rewrite Nat2Z.inj_succ, Z.pow_succ_r in K by lia. assert (D := Z.div_mod k 256 ltac:(lia)). assert (M := Z.mod_pos_bound k 256 ltac:(lia)).
      destruct (IH (k / 256)) as (s & O & L & E); [split; [apply Z.div_pos; lia|apply Z.div_lt_upper_bound; lia]|].
      exists (s ++ [k mod 256])%list. split; [apply Forall_app; split; [exact O|constructor; [exact M|constructor]]|]. split; [rewrite app_length, L; cbn; lia|].
      rewrite string_to_int_value in *. rewrite be_value_app, E. set (q := k / 256) in *. set (r := k mod 256) in *. clearbody q r. cbn. rewrite D. clear. destruct q, r; lia. }
  destruct (EX n k K) as (s & O & L & E). exists s. split; [exact O|]. split; [exact L|]. split; [exact E|].
  intros s' O' L' E'. rewrite string_to_int_value in *. apply (be_value_inj 256); auto; try lia; congruence.
Qed.
Definition max_size : nat := 100.
Lemma sizes_ok c : short_weierstrass c -> exists p n s, int_attr c "p" = Ok p /\ int_attr c "n" = Ok n /\ coord_size_loop max_size p 0 = Ok (Z.of_nat s) /\ 0 < p /\ 0 < n < 256 ^ Z.of_nat s /\ p < 256 ^ Z.of_nat max_size.
Proof.
  intros H.
  assert (K : with_int (int_attr c "p") (fun p => with_int (int_attr c "n") (fun n => with_int (coord_size_loop max_size p 0) (fun s => (0 <=? s) && (0 <? p) && (0 <? n) && (n <? 256 ^ s) && (p <? 256 ^ Z.of_nat max_size)))) = true).
  { revert c H. apply over_classes. vm_compute. reflexivity. }
  apply with_int_ok in K as (p & Ep & K). apply with_int_ok in K as (n & En & K). apply with_int_ok in K as (s & Es & K). rewrite !andb_true_iff in K. destruct K as ((((K1 & K2) & K3) & K4) & K5).
  apply Z.leb_le in K1. apply Z.ltb_lt in K2, K3, K4, K5. exists p, n, (Z.to_nat s). rewrite Z2Nat.id by exact K1. auto 10.
Qed.
(** new_private_key takes every value below 256^coord_size, each from exactly one string of octets *)
Lemma c81_key_range : forall size s, octets s -> List.length s = size -> 0 <= new_private_key s < 256 ^ Z.of_nat size.
Proof. intros size s O L. unfold new_private_key. pose proof (string_to_int_bound s O) as B. unfold len in B. now rewrite L in B. Qed.
Lemma c81_key_bijection : forall size k, 0 <= k < 256 ^ Z.of_nat size -> exists s, octets s /\ List.length s = size /\ new_private_key s = k /\
  forall s', octets s' -> List.length s' = size -> new_private_key s' = k -> s' = s.
Proof. intros size k K. exact (string_int_bij size k K). Qed.
(** the keys 0 and n occur on every built-in curve; their public key is the point at infinity *)
Lemma c81_refuted : forall c E G, short_weierstrass c -> class_curve c = Ok E -> generator c = Ok G -> exists size s s',
  (exists fuel0, forall fuel, (fuel0 <= fuel)%nat -> coord_size fuel (c_p E) = Ok (Z.of_nat size)) /\
  octets s /\ List.length s = size /\ new_private_key s = 0 /\ octets s' /\ List.length s' = size /\ new_private_key s' = c_n E /\
  forall fuel, scalar_multiple fuel E G (new_private_key s) = Ok Inf /\ scalar_multiple fuel E G (new_private_key s') = Ok Inf.
Proof.
  intros c E G H EC _. destruct (sizes_ok c H) as (p & n & s & Ep & En & Es & P0 & N0 & PB). destruct (class_curve_attrs c E EC) as (Ep' & _ & _ & En').
  rewrite Ep in Ep'. inversion Ep' as [E1]. rewrite En in En'. inversion En' as [E2]. rewrite <- E1, <- E2. clear Ep' En'.
  destruct (string_int_bij s 0 ltac:(split; [lia|apply Z.pow_pos_nonneg; lia])) as (t & O & L & V & _). destruct (string_int_bij s n ltac:(lia)) as (t' & O' & L' & V' & _).
  exists s, t, t'. split.
  - destruct (c71_coord_size p (Z.lt_le_incl _ _ P0)) as (f0 & z & F). exists (Nat.max f0 max_size). intros fuel Hf. destruct (F fuel ltac:(lia)) as (CE & Z0 & U & W). rewrite CE.
    destruct (coord_loop_size max_size p 0 ltac:(lia)) as (z' & Ez & Z1 & U' & W'). rewrite Es in Ez. inversion Ez as [Ez']. f_equal.
    specialize (W P0). destruct (W' P0) as (W1 & W2). destruct (Z.lt_trichotomy z z') as [Q|[Q|Q]]; [|lia|]; exfalso.
    + assert (256 ^ z <= 256 ^ (z' - 1)) by (apply Z.pow_le_mono_r; lia). lia.
    + assert (256 ^ z' <= 256 ^ (z - 1)) by (apply Z.pow_le_mono_r; lia). lia.
  - split; [exact O|]. split; [exact L|]. split; [exact V|]. split; [exact O'|]. split; [exact L'|]. split; [exact V'|].
    intros fuel. unfold new_private_key. rewrite V, V'. unfold scalar_multiple, py_mod. rewrite <- E2. replace (n =? 0) with false by lia. cbn [bind].
    rewrite Z.mod_0_l, Z.mod_same by lia. split; reflexivity.
Qed.

(** ** the seeds of the NIST curves *)
Definition seed_check (c : curve_class) : bool :=
  with_int (int_attr c "p") (fun p => with_int (int_attr c "a") (fun a => with_int (int_attr c "b") (fun b => with_int (int_attr c "seed") (fun s => with_int (int_attr c "seed_c") (fun sc =>
  (a =? p - 3) && (sc =? hash_expand (bit_length p) 1 s) && ((sc * b ^ 2 + 27) mod p =? 0) && negb (sc =? sha_int s)))))).
Lemma seeds_ok : forallb seed_check nist_curves = true.
Proof. vm_cast_no_check (eq_refl true). Qed.
Lemma c82_seed : forall c, In c nist_curves -> exists p a b seed seed_c,
  int_attr c "p" = Ok p /\ int_attr c "a" = Ok a /\ int_attr c "b" = Ok b /\ int_attr c "seed" = Ok seed /\ int_attr c "seed_c" = Ok seed_c /\
  a = p - 3 /\ seed_c = hash_expand (bit_length p) 1 seed /\ (seed_c * b ^ 2 + 27) mod p = 0 /\ (seed_c * b ^ 2 - a ^ 3) mod p = 0.
Proof.
  intros c H. pose proof (proj1 (forallb_forall _ _) seeds_ok c H) as K.
  unfold seed_check in K. apply with_int_ok in K as (p & Ep & K). apply with_int_ok in K as (a & Ea & K). apply with_int_ok in K as (b & Eb & K). apply with_int_ok in K as (s & Es & K). apply with_int_ok in K as (sc & Ec & K).
  rewrite !andb_true_iff in K. destruct K as (((K1 & K2) & K3) & K4). apply Z.eqb_eq in K1, K2, K3. exists p, a, b, s, sc. repeat (split; [assumption|]).
  transitivity ((sc * b ^ 2 + 27) mod p); [|exact K3]. rewrite K1. clear. destruct (Z.eq_dec p 0) as [->|N]; [now rewrite !Zmod_0_r|].
  replace (sc * b ^ 2 - (p - 3) ^ 3) with (sc * b ^ 2 + 27 + (- p ^ 2 + 9 * p - 27) * p) by ring. apply Z.mod_add. exact N.
Qed.
Lemma c82_refuted : forall c, In c nist_curves -> exists seed seed_c, int_attr c "seed" = Ok seed /\ int_attr c "seed_c" = Ok seed_c /\ seed_c <> sha_int seed.
Proof.
  intros c H. pose proof (proj1 (forallb_forall _ _) seeds_ok c H) as K.
  unfold seed_check in K. apply with_int_ok in K as (p & Ep & K). apply with_int_ok in K as (a & Ea & K). apply with_int_ok in K as (b & Eb & K). apply with_int_ok in K as (s & Es & K). apply with_int_ok in K as (sc & Ec & K).
  rewrite !andb_true_iff in K. destruct K as (_ & K4). exists s, sc. split; [exact Es|]. split; [exact Ec|]. apply negb_true_iff, Z.eqb_neq in K4. exact K4.
Qed.

(** ** the Brainpool twists *)
Definition z256 : Z := 0x3e2d4bd9597b58639ae7aa669cab9837cf5cf20a2c852d10f655668dfc150ef0.
Definition z_of (t : curve_class) : Z := match int_attr t "z" with Ok z => z | Raise _ => z256 end.
Definition no_z (r : res Z) : bool := match r with Raise AttributeError => true | _ => false end.
Definition scaled (p z a b x y b' x' y' : Z) : bool :=
  existsb (fun t => (e_n (fst (fst t)) =? p) && scale_check (e_k (fst (fst t))) p (e_r2 (fst (fst t))) z a b x y (p - 3) b' x' y') jobs.
Definition swap_ok (u : curve_class * curve_class) : bool :=
  let (r, t) := u in let z := z_of t in
  with_int (int_attr r "p") (fun p => is_int (int_attr t "p") p && (0 <? z) && (z <? p) &&
    with_int (int_attr r "n") (fun n => is_int (int_attr t "n") n) && is_int (int_attr t "a") (p - 3) &&
    with_int (int_attr r "a") (fun a => with_int (int_attr r "b") (fun b => with_int (int_attr r "xG") (fun x => with_int (int_attr r "yG") (fun y =>
    with_int (int_attr t "b") (fun b' => with_int (int_attr t "xG") (fun x' => with_int (int_attr t "yG") (fun y' => scaled p z a b x y b' x' y'))))))) &&
    (if String.eqb (cls_name t) "BrainPoolP256t1" then no_z (int_attr t "z") else is_int (int_attr t "z") z)).
Lemma swaps_ok : forallb swap_ok brainpool_pairs = true.
Proof. vm_cast_no_check (eq_refl true). Qed.
Lemma brainpool_sw r t : In (r, t) brainpool_pairs -> short_weierstrass r /\ short_weierstrass t.
Proof.
  assert (B : forallb (fun x => existsb (fun d => String.eqb (cls_name d) (cls_name (fst x))) module_classes) brainpool_pairs = true) by reflexivity.
  unfold brainpool_pairs. cbn [In]. intros H. repeat (destruct H as [E|H]; [inversion E; subst; split; (split; [unfold module_classes; repeat (first [left; reflexivity|right])|left; left; reflexivity])|]). destruct H.
Qed.
Lemma no_z_ok r : no_z r = true -> r = Raise AttributeError.
Proof. destruct r as [|[]]; cbn; congruence. Qed.
Lemma c83_isomorphism : forall r t, In (r, t) brainpool_pairs -> exists p a b a' b' n x y x' y' z,
  class_curve r = Ok (Curve p a b n) /\ class_curve t = Ok (Curve p a' b' n) /\ generator r = Ok (Aff x y) /\ generator t = Ok (Aff x' y') /\ 0 < z < p /\ a' = p - 3 /\
  curve_isomorphism p a b a' b' (scale_point p z) /\ scale_point p z (Some (x, y)) = Some (x', y') /\
  (cls_name t <> "BrainPoolP256t1" -> int_attr t "z" = Ok z) /\ (cls_name t = "BrainPoolP256t1" -> int_attr t "z" = Raise AttributeError).
Proof.
  intros r t H. destruct (brainpool_sw r t H) as (Hr & Ht). pose proof (proj1 (forallb_forall _ _) swaps_ok _ H) as K. unfold swap_ok in K. cbv zeta in K. clear H.
  destruct (c71_parameters r Hr) as (p & a & b & n & x & y & EC & Ex & Ey & Pp & P3 & _ & _ & _ & _ & _ & G & _).
  destruct (c71_parameters t Ht) as (p' & a' & b' & n' & x' & y' & EC' & Ex' & Ey' & _ & _ & _ & _ & Rx' & Ry' & _ & G' & _).
  pose proof (class_curve_attrs _ _ EC) as (A1 & A2 & A3 & A4). pose proof (class_curve_attrs _ _ EC') as (B1 & B2 & B3 & B4). cbn [c_p c_a c_b c_n] in *.
  rewrite A1, A2, A3, A4, B1, B2, B3, B4, Ex, Ey, Ex', Ey' in K. set (z := z_of t) in *. clearbody z. cbn [with_int is_int] in K. rewrite !andb_true_iff in K.
  destruct K as ((((((K1 & K2) & K3) & K4) & K5) & K6) & K10).
  apply Z.eqb_eq in K1, K4, K5. apply Z.ltb_lt in K2, K3. subst p' n' a'.
  apply existsb_exists in K6 as (j & _ & K6). apply andb_prop in K6 as [_ K6]. apply (scale_check_ok _ _ _ _ _ _ _ _ _ _ _ _ Pp) in K6 as (C1 & C2 & C3 & C4).
  exists p, a, b, (p - 3), b', n, x, y, x', y', z.
  split; [exact EC|]. split; [exact EC'|]. split; [exact G|]. split; [exact G'|]. split; [split; assumption|]. split; [reflexivity|]. split.
  { apply isomorphic; auto; symmetry; now apply uncong. }
  split. { cbn [scale_point]. f_equal. f_equal; apply (cong_range p); assumption. }
  destruct (String.eqb_spec (cls_name t) "BrainPoolP256t1") as [E|E]; (split; [|]); intros N; try contradiction; [now apply no_z_ok|now apply is_int_ok].
Qed.

(** ** embedding degree *)
Definition degree_ok (x : ecjob * Z * Z * (nat * Z * Z)) : bool :=
  let '((j, n, _), (k, r2, w)) := x in negb (n =? e_n j) && degree_check 100 k n r2 (e_n j) w.
Lemma degree_jobs : map fst (combine jobs degree_certs) = jobs.
Proof. reflexivity. Qed.
Lemma all_degrees : forallb degree_ok (combine jobs degree_certs) = true.
Proof. vm_cast_no_check (eq_refl true). Qed.
Lemma class_degree c : short_weierstrass c -> exists j n m, job_ok j n /\ (n <> e_n j /\ forall k, 1 <= k <= 100 -> e_n j ^ k mod n <> 1) /\ int_attr c "p" = Ok (e_n j) /\ int_attr c "a" = Ok (e_a j) /\ int_attr c "b" = Ok (e_b j) /\ int_attr c "xG" = Ok (e_x j) /\ int_attr c "yG" = Ok (e_y j) /\ int_attr c "n" = Ok (m * n).
Proof.
  intros H. pose proof (proj1 (forallb_forall _ _) all_match c (proj1 H)) as K. cbv beta in K. rewrite (sw_swb c H) in K. cbn [negb orb] in K.
  apply existsb_exists in K as ([[j n] m] & I & K). pose proof (proj1 (Forall_forall _ _) jobs_ok _ I) as J. cbn [fst snd] in J.
  unfold matches in K. rewrite !andb_true_iff in K. destruct K as ((((((K1 & K2) & K3) & K4) & K5) & K6) & K7). 
  assert (D : n <> e_n j /\ forall k, 1 <= k <= 100 -> e_n j ^ k mod n <> 1).
  { pose proof I as I'. rewrite <- degree_jobs in I'. apply in_map_iff in I' as ([t [[k r2] w]] & E & I'). cbn [fst] in E. subst t.
    pose proof (proj1 (forallb_forall _ _) all_degrees _ I') as D. unfold degree_ok in D. apply andb_prop in D as [D1 D2]. apply negb_true_iff, Z.eqb_neq in D1.
    split; [exact D1|]. exact (degree_check_ok 100 k n r2 (e_n j) w (proj1 (proj2 J)) D2). }
  apply is_int_ok in K1, K2, K3, K4, K5, K6. exists j, n, m. auto 12.
Qed.
Lemma c85_embedding : forall c, short_weierstrass c -> exists p a b n x y q,
  class_curve c = Ok (Curve p a b n) /\ generator c = Ok (Aff x y) /\ ec_order p a (Some (x, y)) q /\ prime q /\ q <> p /\ forall k, 1 <= k <= 100 -> p ^ k mod q <> 1.
Proof.
  intros c H. destruct (class_degree c H) as (j & q & m & (Pp & Pn & P3 & Ra & Rb & NS & ON & OR) & D & Ep & Ea & Eb & Ex & Ey & En).
  destruct (c71_parameters c H) as (p & a & b & n & x & y & EC & Ex' & Ey' & _ & _ & _ & _ & _ & _ & _ & G & _).
  pose proof (class_curve_attrs _ _ EC) as (A1 & A2 & A3 & A4). cbn [c_p c_a c_b c_n] in *.
  assert (p = e_n j) by congruence. assert (a = e_a j) by congruence. assert (x = e_x j) by congruence. assert (y = e_y j) by congruence. subst p a x y.
  exists (e_n j), (e_a j), b, n, (e_x j), (e_y j), q. split; [exact EC|]. split; [exact G|]. split; [exact OR|]. split; [exact Pn|]. exact D.
Qed.

(** ** the strength attribute *)
Definition weak : list string := ["GOST2012_tc26_A"; "GOST2012_tc26_B"; "GOSTmsg05975te"].
Definition strength_ok (c : curve_class) : bool :=
  with_int (int_attr c "strength") (fun s => with_int (int_attr c "n") (fun n => (0 <? s) && Bool.eqb (negb (existsb (String.eqb (cls_name c)) weak)) (2 ^ (2 * s - 1) <=? n))).
Lemma strengths_ok : forallb strength_ok allCurves = true.
Proof. vm_compute. reflexivity. Qed.
Lemma c86_strength : forall c, In c allCurves -> exists s n, int_attr c "strength" = Ok s /\ int_attr c "n" = Ok n /\ 0 < s /\
  (~ In (cls_name c) ["GOST2012_tc26_A"; "GOST2012_tc26_B"; "GOSTmsg05975te"] -> 2 ^ (2 * s - 1) <= n) /\
  (In (cls_name c) ["GOST2012_tc26_A"; "GOST2012_tc26_B"; "GOSTmsg05975te"] -> n < 2 ^ (2 * s - 1)).
Proof.
  intros c H. pose proof (proj1 (forallb_forall _ _) strengths_ok c H) as K. unfold strength_ok in K. apply with_int_ok in K as (s & Es & K). apply with_int_ok in K as (n & En & K).
  apply andb_prop in K as [K1 K2]. apply Z.ltb_lt in K1. apply Bool.eqb_prop in K2. fold weak. exists s, n. split; [exact Es|]. split; [exact En|]. split; [exact K1|].
  rewrite <- in_names. destruct (existsb (String.eqb (cls_name c)) weak); cbn [negb] in K2; symmetry in K2; (split; intros N; [|]); try congruence; [now apply Z.leb_gt|now apply Z.leb_le].
Qed.
Lemma c86_refuted : exists c s n, In c allCurves /\ int_attr c "strength" = Ok s /\ int_attr c "n" = Ok n /\ n < 2 ^ s.
Proof.
  exists cls_GOST2012_tc26_B, 512. eexists. split; [apply allCurves_in; split; [unfold module_classes; repeat (first [left; reflexivity|right])|left; reflexivity]|].
  split; [reflexivity|]. split; [reflexivity|]. vm_compute. reflexivity.
Qed.
