(** C87: addition, doubling and scalar multiplication on Montgomery curves. *)
From Coq Require Import Znumtheory Field Setoid Lia List.
From Verif Require Import Proofs.Tac Proofs.Cong Proofs.Primality Proofs.NTBasic Proofs.Fp Proofs.ECGroup Proofs.Curve Proofs.Montgomery Proofs.Ladder.
From Verif Require Import Model.Py Model.NumberTheory Model.Ecc Spec.CurveSpec Spec.MontgomerySpec.
Import ListNotations.
Local Open Scope Z_scope.

Lemma prime_gcd_1 p z : prime p -> (Z.gcd z p = 1 <-> z mod p <> 0).
Proof.
  intros Hp. assert (P2 := prime_ge_2 p Hp). split.
  - intros G E. apply Z.mod_divide in E; [|lia]. assert (D : (p | Z.gcd z p)) by (apply Z.gcd_greatest; [exact E|apply Z.divide_refl]). rewrite G in D. apply Z.divide_pos_le in D; lia.
  - intros N. apply Zgcd_1_rel_prime. apply rel_prime_sym. apply prime_rel_prime; [exact Hp|]. intros D. apply N. apply Z.mod_divide; [lia|exact D].
Qed.

Section Mont.
Context (p : Z) (Hp : prime p) (p3 : 3 < p) (a : Z).
Local Notation i := (fi p).
Let FT := fp_field p Hp.
Add Field Fpfield3 : FT.
Ltac fpush := repeat rewrite ?fi_mod, ?fi_add, ?fi_sub, ?fi_mul, ?fi_opp, ?i2, ?i3, ?fi_mod by exact Hp.
Local Notation i3' p := (fadd p (fadd p (i 1) (i 1)) (i 1)).
Lemma one_nz : 1 mod p <> 0. Proof. rewrite Z.mod_1_l; lia. Qed.
Definition pt_of (P : Z * Z) : ecpoint := Some (fst P mod p, snd P mod p).
Lemma mg_on x y : mg_on_curve p a x y = true <-> on_mg p a 1 (pt_of (x, y)).
Proof.
  unfold mg_on_curve, pt_of, on_mg. cbn [fst snd]. rewrite Z.eqb_eq. rewrite (fi_diff p Hp). split.
  - intros E. split; [apply Z.mod_pos_bound; lia|]. split; [apply Z.mod_pos_bound; lia|].
    assert (E' : i (y * y) = i (x * (x * x) + a * (x * x) + x)) by (apply fi_eq; split; exact E). revert E'. fpush. intros E'. ring [E'].
  - intros (_ & _ & E). apply (fi_eq p). revert E. fpush. intros E. ring [E].
Qed.
Lemma mg_point_ok x y : on_mg p a 1 (pt_of (x, y)) -> mg_point p a x y = Ok (x, y).
Proof. intros H. apply mg_on in H. unfold mg_point. now rewrite H. Qed.
Lemma pt_of_red x y : 0 <= x < p -> 0 <= y < p -> pt_of (x, y) = Some (x, y).
Proof. intros X Y. unfold pt_of. cbn. now rewrite !Z.mod_small. Qed.
Lemma finish l x1 y1 x2 P Q : on_mg p a 1 P -> on_mg p a 1 Q ->
  (forall x3 y3, mg_third p a 1 l (x1 mod p) (y1 mod p) (x2 mod p) x3 y3 -> mg_sum p a 1 P Q (Some (x3, y3))) ->
  exists x3 y3, mg_point p a ((l * l - a - x1 - x2) mod p) ((l * (x1 - (l * l - a - x1 - x2)) - y1) mod p) = Ok (x3, y3) /\ on_mg p a 1 (Some (x3, y3)) /\ mg_sum p a 1 P Q (Some (x3, y3)).
Proof.
  intros OP OQ H. set (x3 := (l * l - a - x1 - x2) mod p). set (y3 := (l * (x1 - (l * l - a - x1 - x2)) - y1) mod p).
  assert (X : 0 <= x3 < p) by (apply Z.mod_pos_bound; lia). assert (Y : 0 <= y3 < p) by (apply Z.mod_pos_bound; lia).
  assert (S : mg_sum p a 1 P Q (Some (x3, y3))).
  { apply H. split; [exact X|]. split; [exact Y|]. unfold x3, y3. split; apply (fi_diff p Hp); fpush; ring. }
  destruct (mg_sum_hm p Hp p3 a 1 one_nz _ _ _ OP OQ S) as (O & _). exists x3, y3. split; [|auto]. apply mg_point_ok. now rewrite pt_of_red.
Qed.
Lemma mg_double_ok fuel x y : (steps p <= fuel)%nat -> on_mg p a 1 (pt_of (x, y)) ->
  (y mod p <> 0 -> exists x3 y3, mg_double fuel p a (x, y) = Ok (x3, y3) /\ on_mg p a 1 (Some (x3, y3)) /\ mg_sum p a 1 (pt_of (x, y)) (pt_of (x, y)) (Some (x3, y3))) /\
  (y mod p = 0 -> mg_double fuel p a (x, y) = Raise AssertionError).
Proof.
  intros F OP. destruct (inverse_mod_spec fuel (2 * y) p ltac:(lia) F) as (A & B). unfold mg_double.
  assert (K : (2 * y) mod p = 0 <-> y mod p = 0).
  { rewrite <- (fi_0 p Hp), <- (fi_0 p Hp). split; intros E.
    - apply (fi_0 p Hp) in E. apply (fi_0 p Hp). apply Z.mod_divide in E; [|lia]. apply prime_mult in E; [|exact Hp]. destruct E as [E|E]; [apply Z.divide_pos_le in E; lia|]. apply Z.mod_divide; [lia|exact E].
    - rewrite fi_mul, E. fpush. ring. }
  split.
  - intros N. destruct A as (v & -> & _ & I). { apply prime_gcd_1; [exact Hp|]. now rewrite K. } cbn [bind].
    replace ((3 * x * x + 2 * a * x + 1) * v * ((3 * x * x + 2 * a * x + 1) * v) - a - 2 * x) with ((3 * x * x + 2 * a * x + 1) * v * ((3 * x * x + 2 * a * x + 1) * v) - a - x - x) by ring.
    apply finish; [exact OP..|]. intros x3 y3 T. apply mgs_tangent with (l := (3 * x * x + 2 * a * x + 1) * v); [exact N| |exact T].
    cbn [fst snd]. apply (fi_diff p Hp). assert (I' : i (2 * y * v) = i 1) by (apply fi_eq; split; rewrite I; symmetry; apply Z.mod_1_l; lia). revert I'. fpush. intros I'.
    match type of I' with ?t = _ => transitivity (fmul p (fadd p (fadd p (fmul p (fmul p (i3' p) (i x)) (i x)) (fmul p (fmul p (fadd p (i 1) (i 1)) (i a)) (i x))) (i 1)) t); [ring|rewrite I'; ring] end.
  - intros E. rewrite B; [reflexivity|]. rewrite prime_gcd_1 by exact Hp. rewrite K. tauto.
Qed.
Lemma mg_add_ok fuel identity x1 y1 x2 y2 : (steps p <= fuel)%nat -> on_mg p a 1 (pt_of (x1, y1)) -> on_mg p a 1 (pt_of (x2, y2)) -> (x1, y1) <> identity -> (x2, y2) <> identity ->
  ((x2 - x1) mod p <> 0 -> exists x3 y3, mg_add fuel p a identity (x1, y1) (x2, y2) = Ok (x3, y3) /\ on_mg p a 1 (Some (x3, y3)) /\ mg_sum p a 1 (pt_of (x1, y1)) (pt_of (x2, y2)) (Some (x3, y3))) /\
  (x1 <> x2 -> (x2 - x1) mod p = 0 -> mg_add fuel p a identity (x1, y1) (x2, y2) = Raise AssertionError) /\
  (x1 = x2 -> y1 = y2 -> mg_add fuel p a identity (x1, y1) (x2, y2) = mg_double fuel p a (x1, y1)) /\
  (x1 = x2 -> y1 <> y2 -> y1 + y2 <> 0 -> mg_add fuel p a identity (x1, y1) (x2, y2) = Raise AssertionError) /\
  (x1 = x2 -> y1 <> y2 -> y1 + y2 = 0 -> mg_add fuel p a identity (x1, y1) (x2, y2) = Ok (x1, y1)).
Proof.
  intros F O1 O2 N1 N2. assert (K : forall P, P <> identity -> pair_eqb P identity = false).
  { intros [u v] N. unfold pair_eqb. destruct identity as [u' v']. cbn [fst snd]. destruct (Z.eqb_spec u u') as [->|]; [|reflexivity]. destruct (Z.eqb_spec v v') as [->|]; [congruence|reflexivity]. }
  unfold mg_add. rewrite (K _ N1), (K _ N2). destruct (inverse_mod_spec fuel (x2 - x1) p ltac:(lia) F) as (A & B). split; [|split; [|split; [|split]]].
  - intros N. replace (x1 =? x2) with false. 2:{ symmetry. apply Z.eqb_neq. intros ->. apply N. rewrite Z.sub_diag. apply Z.mod_0_l. lia. }
    destruct A as (v & -> & _ & I); [now apply prime_gcd_1|]. cbn [bind].
    replace (((y2 - y1) * v) ^ 2) with ((y2 - y1) * v * ((y2 - y1) * v)) by ring.
    apply finish; [exact O1|exact O2|]. intros x3 y3 T. apply mgs_chord with (l := (y2 - y1) * v); [| |exact T].
    + cbn [fst]. intros E. apply N. apply (fi_diff p Hp). apply fi_eq. split. now symmetry.
    + cbn [fst snd]. apply (fi_diff p Hp). assert (I' : i ((x2 - x1) * v) = i 1) by (apply fi_eq; split; rewrite I; symmetry; apply Z.mod_1_l; lia). revert I'. fpush. intros I'.
      match type of I' with ?t = _ => transitivity (fmul p (fsub p (i y2) (i y1)) t); [ring|rewrite I'; ring] end.
  - intros N E. replace (x1 =? x2) with false by lia. rewrite B; [reflexivity|]. rewrite prime_gcd_1 by exact Hp. tauto.
  - intros <- <-. now rewrite !Z.eqb_refl.
  - intros <- N E. rewrite !Z.eqb_refl. replace (y1 =? y2) with false by lia. now replace (y1 + y2 =? 0) with false by lia.
  - intros <- N E. rewrite !Z.eqb_refl. replace (y1 =? y2) with false by lia. now replace (y1 + y2 =? 0) with true by lia.
Qed.

(** ** scalar multiplication, reduced points *)
Section Scalar.
Context (NA : (a * a - 4) mod p <> 0) (fuel : nat) (Hf : (steps p <= fuel)%nat) (identity : Z * Z) (NI : ~ on_mg p a 1 (Some identity)).
Local Notation hm := (hm p a 1).
Local Notation wA := (wA p a 1).
Local Infix "++" := (gadd p wA).
Local Notation sum_hm := (mg_sum_hm p Hp p3 a 1 one_nz).
Lemma add_step P Q : on_mg p a 1 (Some P) -> on_mg p a 1 (Some Q) ->
  (exists R, mg_add fuel p a identity P Q = Ok R /\ on_mg p a 1 (Some R) /\ hm (Some R) = hm (Some P) ++ hm (Some Q)) \/
  (mg_add fuel p a identity P Q = Raise AssertionError /\ hm (Some P) ++ hm (Some Q) = O).
Proof.
  intros OP OQ. destruct P as [x1 y1], Q as [x2 y2]. assert (OP' := OP). assert (OQ' := OQ). destruct OP' as (X1 & Y1 & _), OQ' as (X2 & Y2 & _).
  assert (R1 := pt_of_red _ _ X1 Y1). assert (R2 := pt_of_red _ _ X2 Y2).
  assert (N1 : (x1, y1) <> identity) by (intros <-; exact (NI OP)). assert (N2 : (x2, y2) <> identity) by (intros <-; exact (NI OQ)).
  destruct (mg_add_ok fuel identity x1 y1 x2 y2 Hf) as (A & _ & C & D & _); [now rewrite R1|now rewrite R2|exact N1|exact N2|].
  destruct (Z.eq_dec x1 x2) as [E|N].
  - destruct (Z.eq_dec y1 y2) as [E'|N'].
    + specialize (C E E'). subst x2 y2. rewrite C. destruct (mg_double_ok fuel x1 y1 Hf) as (G & H); [now rewrite R1|]. destruct (Z.eq_dec y1 0) as [->|NZ].
      * right. split; [apply H; apply Z.mod_0_l; lia|]. assert (S : mg_sum p a 1 (Some (x1, 0)) (Some (x1, 0)) None).
        { replace (Some (x1, 0)) with (ec_neg p (Some (x1, 0))) at 2; [apply mgs_opposite|]. unfold ec_neg. now rewrite Z.mod_0_l by lia. }
        exact (proj2 (sum_hm _ _ _ OP OQ S)).
      * left. destruct G as (x3 & y3 & G & O & S); [rewrite Z.mod_small; lia|]. rewrite R1 in S. exists (x3, y3). split; [exact G|]. split; [exact O|]. symmetry. exact (proj2 (sum_hm _ _ _ OP OQ S)).
    + right. split; [apply D; [exact E|exact N'|lia]|]. destruct (mg_sum_ex p Hp p3 a 1 one_nz _ _ OP OQ) as (R & S).
      assert (K := proj2 (sum_hm _ _ _ OP OQ S)). rewrite K. remember (Some (x1, y1)) as P eqn:EP. remember (Some (x2, y2)) as Q eqn:EQ.
      destruct S; try discriminate; try congruence. reflexivity.
  - left. destruct A as (x3 & y3 & G & O & S); [now apply (diff_nz p Hp)|]. rewrite R1, R2 in S. exists (x3, y3). split; [exact G|]. split; [exact O|]. symmetry. exact (proj2 (sum_hm _ _ _ OP OQ S)).
Qed.
Context (P : Z * Z) (OP : on_mg p a 1 (Some P)).
Local Notation A := (hm (Some P)).
Local Notation nm := (nmul p wA).
Lemma nm_add m n : nm (m + n) A = nm m A ++ nm n A.
Proof. apply (nmul_add p Hp p3 wA (wB p a 1) (wns p Hp p3 a 1 one_nz NA)). apply hm_on; [exact Hp|exact p3|exact one_nz|exact OP]. Qed.
Lemma nm_1 : nm 1 A = A. Proof. reflexivity. Qed.
Lemma add_ident Q : mg_add fuel p a identity identity identity = Ok identity /\ (Q <> identity -> mg_add fuel p a identity identity Q = Ok Q).
Proof.
  assert (R : pair_eqb identity identity = true) by (unfold pair_eqb; now rewrite !Z.eqb_refl). split.
  - unfold mg_add. now rewrite R.
  - intros N. unfold mg_add. rewrite R. destruct (pair_eqb Q identity) eqn:E; [|reflexivity]. exfalso. apply N. unfold pair_eqb in E. destruct Q, identity. cbn [fst snd] in E. apply andb_prop in E as (E1 & E2). f_equal; lia.
Qed.
Definition good (k : Z) (r : res (Z * Z)) : Prop :=
  (k = 0 /\ r = Ok identity) \/
  (0 < k /\ exists Q, r = Ok Q /\ on_mg p a 1 (Some Q) /\ hm (Some Q) = nm (Z.to_nat k) A) \/
  (0 < k /\ r = Raise AssertionError /\ exists j, 1 <= j <= k /\ nm (Z.to_nat j) A = O).
Lemma scalar_good : forall f k, 0 <= k < 2 ^ Z.of_nat f -> good k (mg_scalar_multiple fuel p a f identity P k).
Proof.
  induction f as [|f IH]; intros k K.
  - replace k with 0 by (cbn in K; lia). left. auto.
  - rewrite Nat2Z.inj_succ, Z.pow_succ_r in K by lia. cbn [mg_scalar_multiple]. destruct (Z.eqb_spec k 0) as [->|N]; [left; auto|]. right.
    assert (B : Z.land k 1 = k mod 2) by (change 1 with (Z.ones 1); rewrite Z.land_ones by lia; reflexivity). rewrite B.
    assert (D := Z.div_mod k 2 ltac:(lia)). assert (M := Z.mod_pos_bound k 2 ltac:(lia)). set (m := k / 2) in *. set (b := k mod 2) in *. clearbody m b.
    destruct (IH m ltac:(lia)) as [(-> & E)|[(M0 & Q & E & OQ & H)|(M0 & E & j & J & H)]]; rewrite E; cbn [bind].
    + left. split; [lia|]. assert (P <> identity) by (intros <-; exact (NI OP)). rewrite (proj1 (add_ident P)). cbn [bind]. replace (b =? 0) with false by lia.
      rewrite (proj2 (add_ident P)) by assumption. exists P. split; [reflexivity|]. split; [exact OP|]. replace (Z.to_nat k) with 1%nat by lia. reflexivity.
    + assert (H2 : nm (Z.to_nat (2 * m)) A = hm (Some Q) ++ hm (Some Q)). { rewrite H, <- nm_add. f_equal. lia. }
      destruct (add_step Q Q OQ OQ) as [(Q2 & E2 & O2 & HS)|(E2 & Z2)]; rewrite E2; cbn [bind].
      2:{ right. split; [lia|]. split; [reflexivity|]. exists (2 * m). split; [lia|]. now rewrite H2. }
      rewrite <- HS in H2. destruct (Z.eqb_spec b 0) as [B0|B1].
      * left. split; [lia|]. exists Q2. split; [reflexivity|]. split; [exact O2|]. rewrite <- H2. f_equal. lia.
      * assert (H3 : nm (Z.to_nat k) A = hm (Some Q2) ++ A). { rewrite <- H2. rewrite <- nm_1 at 3. rewrite <- nm_add. f_equal. lia. }
        destruct (add_step Q2 P O2 OP) as [(Q3 & E3 & O3 & HS3)|(E3 & Z3)]; rewrite E3.
        -- left. split; [lia|]. exists Q3. split; [reflexivity|]. split; [exact O3|]. now rewrite H3.
        -- right. split; [lia|]. split; [reflexivity|]. exists k. split; [lia|]. now rewrite H3.
    + right. split; [lia|]. split; [reflexivity|]. exists j. split; [lia|exact H].
Qed.
Lemma hm_multiple k R : on_mg p a 1 R -> hm R = nm k A -> mg_multiple p a 1 (Some P) k R.
Proof.
  intros OR E. destruct (mg_multiple_ex p Hp p3 a 1 one_nz _ k OP) as (R' & S). destruct (mg_multiple_hm p Hp p3 a 1 one_nz _ _ _ OP S) as (OR' & E').
  replace R with R'; [exact S|]. apply (hm_inj p Hp p3 a 1 one_nz); congruence.
Qed.
Lemma scalar_result f k : 0 < k < 2 ^ Z.of_nat f ->
  (exists Q, mg_scalar_multiple fuel p a f identity P k = Ok Q /\ on_mg p a 1 (Some Q) /\ mg_multiple p a 1 (Some P) (Z.to_nat k) (Some Q)) \/
  (mg_scalar_multiple fuel p a f identity P k = Raise AssertionError /\ exists j, 1 <= j <= k /\ mg_multiple p a 1 (Some P) (Z.to_nat j) None).
Proof.
  intros K. destruct (scalar_good f k ltac:(lia)) as [(-> & _)|[(_ & Q & E & O & H)|(_ & E & j & J & H)]]; [lia| |].
  - left. exists Q. split; [exact E|]. split; [exact O|]. now apply hm_multiple.
  - right. split; [exact E|]. exists j. split; [exact J|]. now apply hm_multiple.
Qed.
Lemma multiple_fun k R R' : mg_multiple p a 1 (Some P) k R -> mg_multiple p a 1 (Some P) k R' -> R = R'.
Proof.
  intros S S'. destruct (mg_multiple_hm p Hp p3 a 1 one_nz _ _ _ OP S) as (O & E). destruct (mg_multiple_hm p Hp p3 a 1 one_nz _ _ _ OP S') as (O' & E').
  apply (hm_inj p Hp p3 a 1 one_nz); congruence.
Qed.
End Scalar.
End Mont.
Lemma mg_negative fuel p a identity P : forall f k, k < 0 -> mg_scalar_multiple fuel p a f identity P k = Raise OutOfFuel.
Proof.
  induction f as [|f IH]; intros k K; cbn [mg_scalar_multiple]; replace (k =? 0) with false by lia; [reflexivity|].
  rewrite IH; [reflexivity|]. apply Z.div_lt_upper_bound; lia.
Qed.

Lemma c87_point : forall p a x y, 0 < p -> mg_point p a x y = if (y ^ 2 - (x ^ 3 + a * x ^ 2 + x)) mod p =? 0 then Ok (x, y) else Raise AssertionError.
Proof.
  intros p a x y P. unfold mg_point, mg_on_curve. replace (y ^ 2) with (y * y) by ring. replace (x ^ 3 + a * x ^ 2 + x) with (x * (x * x) + a * (x * x) + x) by ring.
  set (u := y * y). set (v := x * (x * x) + a * (x * x) + x). clearbody u v. destruct (Z.eqb_spec (u mod p) (v mod p)) as [E|N].
  - rewrite Zminus_mod, E, Z.sub_diag, Z.mod_0_l by lia. reflexivity.
  - replace ((u - v) mod p =? 0) with false; [reflexivity|]. symmetry. apply Z.eqb_neq. intros E. apply N. apply Z.mod_divide in E; [|lia]. destruct E as (c & E). replace u with (v + c * p) by lia. now rewrite Z.mod_add by lia.
Qed.
Lemma point_on p a x y : prime p -> 3 < p -> mg_point p a x y = Ok (x, y) -> on_mg p a 1 (pt_of p (x, y)).
Proof. intros Hp p3 E. apply (mg_on p Hp p3). unfold mg_point in E. now destruct (mg_on_curve p a x y). Qed.
Lemma c87_add : forall p a identity x1 y1 x2 y2, prime p -> 3 < p -> mg_point p a x1 y1 = Ok (x1, y1) -> mg_point p a x2 y2 = Ok (x2, y2) -> (x1, y1) <> identity -> (x2, y2) <> identity ->
  exists fuel0, forall fuel, (fuel0 <= fuel)%nat ->
  ((x2 - x1) mod p <> 0 -> exists x3 y3, mg_add fuel p a identity (x1, y1) (x2, y2) = Ok (x3, y3) /\ on_mg p a 1 (Some (x3, y3)) /\
     mg_sum p a 1 (Some (x1 mod p, y1 mod p)) (Some (x2 mod p, y2 mod p)) (Some (x3, y3))) /\
  (x1 <> x2 -> (x2 - x1) mod p = 0 -> mg_add fuel p a identity (x1, y1) (x2, y2) = Raise AssertionError) /\
  (x1 = x2 -> y1 <> y2 -> y1 + y2 <> 0 -> mg_add fuel p a identity (x1, y1) (x2, y2) = Raise AssertionError) /\
  (x1 = x2 -> y1 = y2 -> mg_add fuel p a identity (x1, y1) (x2, y2) = mg_double fuel p a (x1, y1)).
Proof.
  intros p a identity x1 y1 x2 y2 Hp p3 O1 O2 N1 N2. apply (point_on p a _ _ Hp p3) in O1, O2. exists (steps p). intros fuel F.
  destruct (mg_add_ok p Hp p3 a fuel identity x1 y1 x2 y2 F O1 O2 N1 N2) as (A & B & C & D & _).
  split; [exact A|]. split; [exact B|]. split; [exact D|exact C].
Qed.
Lemma c87_double : forall p a x y, prime p -> 3 < p -> mg_point p a x y = Ok (x, y) -> exists fuel0, forall fuel, (fuel0 <= fuel)%nat ->
  (y mod p <> 0 -> exists x3 y3, mg_double fuel p a (x, y) = Ok (x3, y3) /\ on_mg p a 1 (Some (x3, y3)) /\
     mg_sum p a 1 (Some (x mod p, y mod p)) (Some (x mod p, y mod p)) (Some (x3, y3))) /\
  (y mod p = 0 -> mg_double fuel p a (x, y) = Raise AssertionError).
Proof. intros p a x y Hp p3 O. apply (point_on p a _ _ Hp p3) in O. exists (steps p). intros fuel F. exact (mg_double_ok p Hp p3 a fuel x y F O). Qed.
Lemma c87_identity : forall fuel p a identity P, mg_add fuel p a identity P identity = Ok P /\ mg_add fuel p a identity identity P = Ok P.
Proof.
  intros fuel p a identity P. unfold mg_add. assert (R : pair_eqb identity identity = true) by (unfold pair_eqb; now rewrite !Z.eqb_refl). rewrite R. split; [reflexivity|].
  destruct (pair_eqb P identity) eqn:E; [|reflexivity]. unfold pair_eqb in E. destruct P, identity. cbn [fst snd] in E. apply andb_prop in E as (E1 & E2). f_equal. f_equal; lia.
Qed.
Lemma below_pow k : 0 <= k -> k < 2 ^ Z.of_nat (Z.to_nat k).
Proof. intros K. rewrite Z2Nat.id by exact K. apply Z.pow_gt_lin_r; lia. Qed.
Lemma c87_scalar : forall p a identity P k, prime p -> 3 < p -> (a * a - 4) mod p <> 0 -> ~ on_mg p a 1 (Some identity) -> on_mg p a 1 (Some P) -> 0 < k ->
  exists fuel0 depth0, forall fuel depth, (fuel0 <= fuel)%nat -> (depth0 <= depth)%nat ->
  (exists Q, mg_scalar_multiple fuel p a depth identity P k = Ok Q /\ on_mg p a 1 (Some Q) /\ mg_multiple p a 1 (Some P) (Z.to_nat k) (Some Q)) \/
  (mg_scalar_multiple fuel p a depth identity P k = Raise AssertionError /\ exists j, 1 <= j <= k /\ mg_multiple p a 1 (Some P) (Z.to_nat j) None).
Proof.
  intros p a identity P k Hp p3 NA NI OP K. exists (steps p), (Z.to_nat k). intros fuel depth F D. apply (scalar_result p Hp p3 a NA fuel F identity NI P OP).
  split; [exact K|]. apply Z.lt_le_trans with (2 ^ Z.of_nat (Z.to_nat k)); [apply below_pow; lia|]. apply Z.pow_le_mono_r; lia.
Qed.
Lemma c87_order_refuted : forall p a identity P n, prime p -> 3 < p -> (a * a - 4) mod p <> 0 -> ~ on_mg p a 1 (Some identity) -> on_mg p a 1 (Some P) -> 0 < n -> mg_multiple p a 1 (Some P) (Z.to_nat n) None ->
  exists fuel0 depth0, forall fuel depth, (fuel0 <= fuel)%nat -> (depth0 <= depth)%nat -> mg_scalar_multiple fuel p a depth identity P n = Raise AssertionError.
Proof.
  intros p a identity P n Hp p3 NA NI OP N M. destruct (c87_scalar p a identity P n Hp p3 NA NI OP N) as (f0 & d0 & H). exists f0, d0. intros fuel depth F D.
  destruct (H fuel depth F D) as [(Q & _ & _ & M')|(E & _)]; [|exact E]. assert (X := multiple_fun p Hp p3 a P OP _ _ _ M M'). discriminate X.
Qed.
Lemma c87_negative_refuted : forall fuel p a identity P k depth, k < 0 -> mg_scalar_multiple fuel p a depth identity P k = Raise OutOfFuel.
Proof. intros fuel p a identity P k depth K. now apply mg_negative. Qed.
