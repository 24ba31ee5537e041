(** Facts about the built-in curves. *)
From Coq Require Import ZArith List Bool String Znumtheory Lia.
From Verif Require Import Model.Py Model.Ecc Model.Curves Spec.CurveSpec Spec.CurveView Spec.CurveClasses Proofs.CurveTable Proofs.CurveProg Proofs.CurveFacts Proofs.EcCheck Proofs.PrimeChain Proofs.CurveParams.
Import ListNotations.
Local Open Scope Z_scope.
Local Open Scope string_scope.

Lemma coord_loop_size f : forall p s, 0 <= p < 256 ^ Z.of_nat f -> 
  exists t, coord_size_loop f p s = Ok (s + t) /\ 0 <= t /\ p < 256 ^ t /\ (0 < p -> 0 < t /\ 256 ^ (t - 1) <= p).
Proof.
  induction f as [|f IH]; intros p s H.
  - change (256 ^ Z.of_nat 0) with 1 in H. exists 0. assert (p = 0) by lia. subst p. cbn. rewrite Z.add_0_r. repeat split; lia.
  - cbn [coord_size_loop]. destruct (Z.ltb_spec 0 p) as [P|P].
    + rewrite Nat2Z.inj_succ, Z.pow_succ_r in H by lia. pose proof (Z.div_mod p 256 ltac:(lia)) as D. pose proof (Z.mod_pos_bound p 256 ltac:(lia)) as M.
      destruct (IH (p / 256) (s + 1)) as (t & E & T & U & V).
      { split; [apply Z.div_pos; lia|]. apply Z.div_lt_upper_bound; lia. }
      exists (t + 1). split; [rewrite E; f_equal; ring|]. split; [lia|]. split; [rewrite Z.pow_add_r by lia; change (256 ^ 1) with 256; lia|].
      intros _. split; [lia|]. replace (t + 1 - 1) with t by ring. destruct (Z.eq_dec (p / 256) 0) as [Z0|Z0].
      * rewrite Z0 in *. destruct (Z.eq_dec t 0) as [->|T0]; [cbn; lia|]. rewrite Z.mul_0_r in D. exfalso.
        clear - E T T0. destruct f; cbn in E; inversion E; lia.
      * assert (PP : 0 < p / 256) by (pose proof (Z.div_pos p 256); lia). destruct (V PP) as [T1 W]. replace t with (1 + (t - 1)) by ring. rewrite Z.pow_add_r by lia. change (256 ^ 1) with 256. lia.
    + exists 0. assert (p = 0) by lia. subst p. rewrite Z.add_0_r. repeat split; lia.
Qed.
(** coord_size is the octet length of p *)
Lemma c71_coord_size : forall p, 0 <= p -> exists fuel0 s, forall fuel, (fuel0 <= fuel)%nat ->
  coord_size fuel p = Ok s /\ 0 <= s /\ p < 256 ^ s /\ (0 < p -> 256 ^ (s - 1) <= p).
Proof.
  intros p P. set (f0 := Z.to_nat (Z.log2 p + 1)).
  assert (B : forall f, (f0 <= f)%nat -> 0 <= p < 256 ^ Z.of_nat f).
  { intros f Hf. split; [exact P|]. destruct (Z.eq_dec p 0) as [->|N]; [apply Z.pow_pos_nonneg; lia|]. pose proof (Z.log2_spec p ltac:(lia)) as [_ L]. pose proof (Z.log2_nonneg p).
    assert (2 ^ Z.succ (Z.log2 p) <= 2 ^ Z.of_nat f) by (apply Z.pow_le_mono_r; unfold f0 in Hf; lia).
    assert (2 ^ Z.of_nat f <= 256 ^ Z.of_nat f) by (apply Z.pow_le_mono_l; lia). lia. }
  destruct (coord_loop_size f0 p 0 (B f0 (le_n _))) as (t & E & T & U & V). exists f0, t. intros fuel Hf.
  destruct (coord_loop_size fuel p 0 (B fuel Hf)) as (t' & E' & T' & U' & V').
  assert (t' = t).
  { destruct (Z.eq_dec p 0) as [->|N].
    - clear - E E'. unfold coord_size in *. destruct f0, fuel; cbn in *; inversion E; inversion E'; lia.
    - destruct (V ltac:(lia)) as [V1 V2]. destruct (V' ltac:(lia)) as [V3 V4].
      destruct (Z.lt_trichotomy t t') as [L|[L|L]]; [|lia|]; exfalso.
      + assert (256 ^ t <= 256 ^ (t' - 1)) by (apply Z.pow_le_mono_r; lia). lia.
      + assert (256 ^ t' <= 256 ^ (t - 1)) by (apply Z.pow_le_mono_r; lia). lia. }
  subst t'. unfold coord_size. replace (0 <=? p)%Z with true by (symmetry; apply Z.leb_le; lia). cbn [py_assert bind]. rewrite E'. split; [reflexivity|]. split; [lia|]. split; [exact U|]. intros Q. apply V. exact Q.
Qed.

(** the parameters of every built-in short Weierstrass curve *)
Lemma c71_parameters : forall c, short_weierstrass c -> exists p a b n x y,
  class_curve c = Ok (Curve p a b n) /\ int_attr c "xG" = Ok x /\ int_attr c "yG" = Ok y /\
  prime p /\ 3 < p /\ 0 <= a < p /\ 0 <= b < p /\ 0 <= x < p /\ 0 <= y < p /\ nonsingular p a b /\
  generator c = Ok (Aff x y) /\ on_ec p a b (Some (x, y)) /\ 0 < n /\ ec_multiple p a (Some (x, y)) (Z.to_nat n) None.
Proof.
  intros c H. destruct (class_job c H) as (j & n & m & (Pp & Pn & P3 & Ra & Rb & NS & ON & (N1 & NZ & _)) & Em & Ep & Ea & Eb & Ex & Ey & En).
  assert (M0 : 0 < m) by (rewrite Em; destruct (_ =? _)%string; lia). clear Em.
  exists (e_n j), (e_a j), (e_b j), (m * n), (e_x j), (e_y j).
  assert (EC : class_curve c = Ok (Curve (e_n j) (e_a j) (e_b j) (m * n))) by (unfold class_curve; rewrite Ep, Ea, Eb, En; reflexivity).
  pose proof ON as (Rx & Ry & EQ).
  assert (V : valid (Curve (e_n j) (e_a j) (e_b j) (m * n)) (Aff (e_x j) (e_y j))) by (split; [exact Rx|exact EQ]).
  assert (HE : elliptic (Curve (e_n j) (e_a j) (e_b j) (m * n))) by (split; [exact Pp|]; split; [exact P3|exact NS]).
  assert (G : generator c = Ok (Aff (e_x j) (e_y j))).
  { unfold generator. rewrite EC, Ex, Ey. cbn [bind]. apply mk_ok; [exact P3|exact V]. }
  assert (MU : ec_multiple (e_n j) (e_a j) (Some (e_x j, e_y j)) (Z.to_nat (m * n)) None).
  { rewrite Z2Nat.inj_mul by lia. apply multiple_zero. exact NZ. }
  repeat (split; [first [assumption|exact (proj1 Ra)|exact (proj2 Ra)|lia]|]). exact MU.
Qed.
(** n is the prime order of the generator, except for GOSTmsg05975sw *)
Lemma c71_order : forall c, short_weierstrass c -> cls_name c <> "GOSTmsg05975sw" -> exists p a b n x y,
  class_curve c = Ok (Curve p a b n) /\ generator c = Ok (Aff x y) /\ 0 <= y < p /\ prime p /\ prime n /\ elliptic (Curve p a b n) /\ valid (Curve p a b n) (Aff x y) /\ ec_order p a (Some (x, y)) n.
Proof.
  intros c H NN. destruct (class_job c H) as (j & n & m & (Pp & Pn & P3 & Ra & Rb & NS & ON & OR) & Em & Ep & Ea & Eb & Ex & Ey & En).
  destruct (String.eqb_spec (cls_name c) "GOSTmsg05975sw") as [E|_]; [contradiction|]. subst m. rewrite Z.mul_1_l in En.
  exists (e_n j), (e_a j), (e_b j), n, (e_x j), (e_y j).
  assert (EC : class_curve c = Ok (Curve (e_n j) (e_a j) (e_b j) n)) by (unfold class_curve; rewrite Ep, Ea, Eb, En; reflexivity).
  pose proof ON as (Rx & Ry & EQ).
  assert (V : valid (Curve (e_n j) (e_a j) (e_b j) n) (Aff (e_x j) (e_y j))) by (split; [exact Rx|exact EQ]).
  assert (HE : elliptic (Curve (e_n j) (e_a j) (e_b j) n)) by (split; [exact Pp|]; split; [exact P3|exact NS]).
  assert (G : generator c = Ok (Aff (e_x j) (e_y j))).
  { unfold generator. rewrite EC, Ex, Ey. cbn [bind]. apply mk_ok; [exact P3|exact V]. }
  split; [exact EC|]. split; [exact G|]. auto 10.
Qed.
Lemma c71_refuted : exists c p a b n x y, In c smallWeierstrassCurves /\ class_curve c = Ok (Curve p a b n) /\ generator c = Ok (Aff x y) /\
  ~ prime n /\ prime (n / 4) /\ ec_order p a (Some (x, y)) (n / 4) /\ ~ ec_order p a (Some (x, y)) n.
Proof.
  assert (I : In cls_GOSTmsg05975sw module_classes) by (unfold module_classes; repeat (first [left; reflexivity|right])).
  assert (H : short_weierstrass cls_GOSTmsg05975sw) by (split; [exact I|left; left; reflexivity]).
  destruct (c71_parameters _ H) as (p & a & b & n & x & y & EC & Ex & Ey & Pp & P3 & Ra & Rb & Rx & Ry & NS & G & _).
  destruct (class_job _ H) as (j & q & m & (_ & Pn & _ & _ & _ & _ & ON & OR) & Em & Ep & Ea & Eb & Ex' & Ey' & En).
  change (m = 4) in Em. subst m.
  assert (E : n = 4 * q /\ p = e_n j /\ a = e_a j /\ x = e_x j /\ y = e_y j).
  { unfold class_curve in EC. rewrite Ep, Ea, Eb, En in EC. cbn [bind] in EC. inversion EC. subst. rewrite Ex in Ex'. inversion Ex'. rewrite Ey in Ey'. inversion Ey'. auto. }
  destruct E as (-> & -> & -> & -> & ->). assert (Q2 := prime_ge_2 q Pn).
  assert (D : 4 * q / 4 = q) by (rewrite Z.mul_comm; apply Z.div_mul; lia).
  exists cls_GOSTmsg05975sw, (e_n j), (e_a j), b, (4 * q), (e_x j), (e_y j). rewrite D.
  split; [apply with_base_in; split; [exact I|reflexivity]|]. split; [exact EC|]. split; [exact G|]. split.
  { intros P4. apply (prime_div_prime q (4 * q)) in P4; [lia|exact Pn|exists 4; reflexivity]. }
  split; [exact Pn|]. split; [exact OR|]. intros (_ & _ & K). destruct OR as (_ & Z0 & _). apply (K q); [lia|exact Z0].
Qed.

(** the library's scalar multiplication and key agreement on the built-in curves *)
Lemma c61_builtin : forall c E G, short_weierstrass c -> cls_name c <> "GOSTmsg05975sw" -> class_curve c = Ok E -> generator c = Ok G ->
  exists fuel0, forall fuel, (fuel0 <= fuel)%nat -> forall k,
  exists R, scalar_multiple fuel E G k = Ok R /\ valid E R /\ ec_zmultiple (c_p E) (c_a E) (denotes E G) k (denotes E R).
Proof.
  intros c E G H NN EC EG. destruct (c71_order c H NN) as (p & a & b & n & x & y & EC' & EG' & Ry & Pp & Pn & HE & V & OR).
  assert (E = Curve p a b n) by congruence. assert (G = Aff x y) by congruence. subst E G. clear EC EG EC' EG'.
  apply c61_prime_order; try assumption; [discriminate|]. unfold denotes. cbn [c_p c_a c_n]. rewrite Z.mod_small by exact Ry. apply OR.
Qed.
Lemma c77_builtin : forall c E G, short_weierstrass c -> cls_name c <> "GOSTmsg05975sw" -> class_curve c = Ok E -> generator c = Ok G ->
  exists fuel0, forall fuel, (fuel0 <= fuel)%nat -> forall a b,
  exists A B K, scalar_multiple fuel E G a = Ok A /\ scalar_multiple fuel E G b = Ok B /\
    scalar_multiple fuel E B a = Ok K /\ scalar_multiple fuel E A b = Ok K /\ ec_zmultiple (c_p E) (c_a E) (denotes E G) (a * b) (denotes E K).
Proof.
  intros c E G H NN EC EG. destruct (c71_order c H NN) as (p & a & b & n & x & y & EC' & EG' & Ry & Pp & Pn & HE & V & OR).
  assert (E = Curve p a b n) by congruence. assert (G = Aff x y) by congruence. subst E G. clear EC EG EC' EG'.
  apply c77_key_agreement; try assumption. unfold denotes. cbn [c_p c_a c_n]. rewrite Z.mod_small by exact Ry. apply OR.
Qed.
