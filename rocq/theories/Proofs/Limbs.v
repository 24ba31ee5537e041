(** Modular arithmetic on lists of 30-bit limbs held in primitive 63-bit integers
    (Montgomery multiplication).  Used to check the orders and primes of the
    built-in curves by evaluation. *)
From Coq Require Import ZArith List Bool Lia Znumtheory Uint63.
From Verif Require Import Proofs.Cong.
Local Open Scope Z_scope.

Inductive lm := N | L (x : int) (r : lm).
Definition Bi : int := 1073741824%uint63.
Definition Mi : int := 1073741823%uint63.
Notation B := 1073741824.

Fixpoint val (l : lm) : Z := match l with N => 0 | L x r => to_Z x + B * val r end.
Fixpoint good (k : nat) (l : lm) : Prop :=
  match k, l with O, N => True | S k, L x r => to_Z x < B /\ good k r | _, _ => False end.

Fixpoint row (a m : int) (b n t : lm) (c : int) : lm :=
  match b with
  | N => L c N
  | L b0 b' =>
      match n with
      | N => N
      | L n0 n' =>
          match t with
          | N => N
          | L t0 t' => let s := (t0 + a * b0 + m * n0 + c)%uint63 in L (s mod Bi)%uint63 (row a m b' n' t' (s / Bi)%uint63)
          end
      end
  end.
Fixpoint mont_loop (n b : lm) (b0 n' : int) (A t : lm) : lm :=
  match A with
  | N => t
  | L a A' =>
      match t with
      | N => N
      | L t0 _ =>
          match row a (((t0 + a * b0) * n') mod Bi)%uint63 b n t 0%uint63 with
          | N => N
          | L _ t' => mont_loop n b b0 n' A' t'
          end
      end
  end.
Definition mont (n : lm) (n' : int) (zs a b : lm) : lm :=
  match b with N => N | L b0 _ => mont_loop n b b0 n' a zs end.
Fixpoint addl (a b : lm) (c : int) : lm :=
  match a, b with
  | L x r, L y s => let t := (x + y + c)%uint63 in L (t mod Bi)%uint63 (addl r s (t / Bi)%uint63)
  | _, _ => N
  end.
(** a + n - b *)
Fixpoint subl (n a b : lm) (c : int) : lm :=
  match n with
  | N => N
  | L z n' =>
      match a, b with
      | L x r, L y s => let t := (x + z + (Mi - y) + c)%uint63 in L (t mod Bi)%uint63 (subl n' r s (t / Bi)%uint63)
      | _, _ => N
      end
  end.
Fixpoint eql (a b : lm) : bool :=
  match a, b with
  | N, N => true
  | L x r, L y s => (x =? y)%uint63 && eql r s
  | _, _ => false
  end.

Fixpoint zeros (k : nat) : lm := match k with O => N | S k => L 0%uint63 (zeros k) end.

(** ** Primitive integers *)
Lemma phi_nonneg x : 0 <= to_Z x. Proof. apply to_Z_bounded. Qed.
Lemma phi_wB x : to_Z x < wB. Proof. apply to_Z_bounded. Qed.
Lemma wB_val : wB = 8 * (B * (B * 1)). Proof. reflexivity. Qed.
Lemma add_small x y : to_Z x + to_Z y < wB -> to_Z (x + y)%uint63 = to_Z x + to_Z y.
Proof. intros H. rewrite add_spec. apply Z.mod_small. pose proof (phi_nonneg x). pose proof (phi_nonneg y). lia. Qed.
Lemma mul_small x y : to_Z x * to_Z y < wB -> to_Z (x * y)%uint63 = to_Z x * to_Z y.
Proof. intros H. rewrite mul_spec. apply Z.mod_small. pose proof (phi_nonneg x). pose proof (phi_nonneg y). nia. Qed.
Lemma phi_B : to_Z Bi = B. Proof. reflexivity. Qed.
Lemma phi_M : to_Z Mi = B - 1. Proof. reflexivity. Qed.
Lemma mod_B x : to_Z (x mod Bi)%uint63 = to_Z x mod B. Proof. rewrite mod_spec. reflexivity. Qed.
Lemma div_B x : to_Z (x / Bi)%uint63 = to_Z x / B. Proof. rewrite div_spec. reflexivity. Qed.
Lemma mod_B_lt x : to_Z (x mod Bi)%uint63 < B. Proof. rewrite mod_B. apply Z.mod_pos_bound. lia. Qed.
Lemma split_B x : to_Z x = to_Z (x mod Bi)%uint63 + B * to_Z (x / Bi)%uint63.
Proof. rewrite mod_B, div_B. pose proof (Z.div_mod (to_Z x) B). lia. Qed.

Lemma val_nonneg l : 0 <= val l.
Proof. induction l as [|x r IH]; cbn [val]; [lia|]. pose proof (phi_nonneg x). lia. Qed.
Lemma Bk_pos k : 0 < B ^ Z.of_nat k. Proof. apply Z.pow_pos_nonneg; lia. Qed.
Lemma Bk_S k : B ^ Z.of_nat (S k) = B * B ^ Z.of_nat k. Proof. rewrite Nat2Z.inj_succ, Z.pow_succ_r; lia. Qed.
Lemma good_val k : forall l, good k l -> val l < B ^ Z.of_nat k.
Proof.
  induction k as [|k IH]; intros [|x r]; cbn [good val]; try contradiction; [intros _; lia|].
  intros [H1 H2]. rewrite Bk_S. specialize (IH r H2). lia.
Qed.

(** ** Rows: k limbs below B, then one below 2B *)
Fixpoint goodtop (k : nat) (l : lm) : Prop :=
  match k, l with
  | O, L x N => to_Z x < 2 * B
  | S k, L x r => to_Z x < B /\ goodtop k r
  | _, _ => False
  end.
Lemma goodtop_good k : forall l, goodtop k l -> val l < B ^ Z.of_nat (S k) -> good (S k) l.
Proof.
  induction k as [|k IH]; intros [|x r]; cbn [goodtop]; try contradiction.
  - destruct r; [|contradiction]. cbn [val good]. intros H K. change (B ^ Z.of_nat 1) with B in K. split; [lia|exact I].
  - intros [H1 H2] K. cbn [val] in K. split; [exact H1|]. apply IH; [exact H2|].
    rewrite Bk_S in K. pose proof (phi_nonneg x). nia.
Qed.

Lemma step_bound t0 a b0 m n0 c : to_Z t0 < B -> to_Z a < B -> to_Z b0 < B -> to_Z m < B -> to_Z n0 < B -> to_Z c < 2 * B ->
  to_Z (t0 + a * b0 + m * n0 + c)%uint63 = to_Z t0 + to_Z a * to_Z b0 + to_Z m * to_Z n0 + to_Z c /\
  to_Z t0 + to_Z a * to_Z b0 + to_Z m * to_Z n0 + to_Z c < 2 * B * B.
Proof.
  intros Ht Ha Hb Hm Hn Hc.
  pose proof (phi_nonneg t0). pose proof (phi_nonneg a). pose proof (phi_nonneg b0). pose proof (phi_nonneg m). pose proof (phi_nonneg n0). pose proof (phi_nonneg c).
  assert (P : to_Z a * to_Z b0 <= (B - 1) * (B - 1)) by nia.
  assert (Q : to_Z m * to_Z n0 <= (B - 1) * (B - 1)) by nia.
  assert (E1 : to_Z (a * b0)%uint63 = to_Z a * to_Z b0) by (apply mul_small; rewrite wB_val; lia).
  assert (E2 : to_Z (m * n0)%uint63 = to_Z m * to_Z n0) by (apply mul_small; rewrite wB_val; lia).
  assert (E3 : to_Z (t0 + a * b0)%uint63 = to_Z t0 + to_Z a * to_Z b0) by (rewrite add_small; rewrite E1; [reflexivity|rewrite wB_val; lia]).
  assert (E4 : to_Z (t0 + a * b0 + m * n0)%uint63 = to_Z t0 + to_Z a * to_Z b0 + to_Z m * to_Z n0) by (rewrite add_small; rewrite E2, E3; [reflexivity|rewrite wB_val; lia]).
  split; [|lia]. rewrite add_small; rewrite E4; [reflexivity|rewrite wB_val; lia].
Qed.

Lemma row_ok a m : to_Z a < B -> to_Z m < B -> forall k b n t c, good k b -> good k n -> good k t -> to_Z c < 2 * B ->
  goodtop k (row a m b n t c) /\ val (row a m b n t c) = val t + to_Z a * val b + to_Z m * val n + to_Z c.
Proof.
  intros Ha Hm. induction k as [|k IH]; intros [|b0 b] [|n0 n] [|t0 t] c; cbn [good]; try contradiction.
  - intros _ _ _ Hc. cbn [row goodtop val]. split; lia.
  - intros [Hb0 Hb] [Hn0 Hn] [Ht0 Ht] Hc. cbn [row]. cbv zeta.
    destruct (step_bound t0 a b0 m n0 c Ht0 Ha Hb0 Hm Hn0 Hc) as [E Hs].
    set (s := (t0 + a * b0 + m * n0 + c)%uint63) in *.
    assert (Hq : to_Z (s / Bi)%uint63 < 2 * B).
    { rewrite div_B. apply Z.div_lt_upper_bound; [lia|]. rewrite E. lia. }
    destruct (IH b n t (s / Bi)%uint63 Hb Hn Ht Hq) as [G V].
    split; [cbn [goodtop]; split; [apply mod_B_lt|exact G]|].
    cbn [val]. rewrite V. pose proof (split_B s) as S. rewrite E in S.
    transitivity (to_Z (s mod Bi)%uint63 + B * to_Z (s / Bi)%uint63 + B * (val t + to_Z a * val b + to_Z m * val n)); [ring|].
    rewrite <- S. ring.
Qed.

(** the reduction digit makes the lowest limb vanish *)
Lemma low_zero t0 a b0 n0 n' : to_Z t0 < B -> to_Z a < B -> to_Z b0 < B -> to_Z n0 < B ->
  (to_Z n0 * to_Z n') mod B = B - 1 ->
  (to_Z t0 + to_Z a * to_Z b0 + to_Z (((t0 + a * b0) * n') mod Bi)%uint63 * to_Z n0) mod B = 0.
Proof.
  intros Ht Ha Hb Hn E.
  pose proof (phi_nonneg t0). pose proof (phi_nonneg a). pose proof (phi_nonneg b0).
  rewrite mod_B, mul_spec.
  assert (E1 : to_Z (a * b0)%uint63 = to_Z a * to_Z b0) by (apply mul_small; rewrite wB_val; nia).
  rewrite (add_small t0 (a * b0)) by (rewrite E1, wB_val; nia). rewrite E1.
  set (u := to_Z t0 + to_Z a * to_Z b0).
  assert (D : (u * to_Z n') mod wB mod B = (u * to_Z n') mod B).
  { rewrite wB_val. symmetry. replace (8 * (B * (B * 1))) with (B * (8 * B)) by ring. rewrite Z.rem_mul_r by lia. rewrite (Z.mul_comm B (_ mod _)), Z_mod_plus_full, Z.mod_mod by lia. reflexivity. }
  rewrite D. rewrite Zplus_mod, Zmult_mod_idemp_l, <- Z.mul_assoc, (Z.mul_comm (to_Z n')), <- Zmult_mod_idemp_r, E.
  rewrite <- Zplus_mod. replace (u + u * (B - 1)) with (u * B) by ring. apply Z_mod_mult.
Qed.

Lemma good_zero j : good j (zeros j) /\ val (zeros j) = 0.
Proof.
  induction j as [|j [IH1 IH2]]; cbn [zeros good val]; [split; [exact I|reflexivity]|].
  change (to_Z 0%uint63) with 0. rewrite IH2. split; [split; [lia|exact IH1]|reflexivity].
Qed.

Section Mont.
Context (k : nat) (n : lm) (n' : int).
Hypothesis Gn : good (S k) n.
Hypothesis Hn' : (val n * to_Z n') mod B = B - 1.
Local Notation Nv := (val n).

Lemma n_low : match n with L n0 _ => (to_Z n0 * to_Z n') mod B = B - 1 | N => False end.
Proof.
  destruct n as [|n0 r]; [contradiction|]. rewrite <- Hn'. cbn [val].
  rewrite Z.mul_add_distr_r, <- Z.mul_assoc, (Z.mul_comm B), Z_mod_plus_full. reflexivity.
Qed.

Lemma mont_loop_ok b0 b1 : good (S k) (L b0 b1) -> val (L b0 b1) + Nv <= B ^ Z.of_nat (S k) ->
  forall j A t, good j A -> good (S k) t -> val t < val (L b0 b1) + Nv ->
  good (S k) (mont_loop n (L b0 b1) b0 n' A t) /\
  exists mm, 0 <= mm < B ^ Z.of_nat j /\
   val (mont_loop n (L b0 b1) b0 n' A t) * B ^ Z.of_nat j = val t + val A * val (L b0 b1) + mm * Nv.
Proof.
  intros Gb Hb. pose proof (proj1 Gb) as Hb0. set (b := L b0 b1) in *.
  induction j as [|j IH]; intros [|a A] t; try (intros HH; contradiction HH).
  - intros _ Gt _. cbn [mont_loop]. split; [exact Gt|]. exists 0. cbn [val]. change (B ^ Z.of_nat 0) with 1. split; lia.
  - intros [Ha GA] Gt Vt. cbn [mont_loop]. destruct t as [|t0 t1] eqn:Et; [contradiction Gt|].
    set (m := (((t0 + a * b0) * n') mod Bi)%uint63) in *.
    assert (Hm : to_Z m < B) by apply mod_B_lt.
    destruct (row_ok a m Ha Hm (S k) b n (L t0 t1) 0%uint63 Gb Gn Gt) as [G V]; [change (to_Z 0%uint63) with 0; lia|].
    change (to_Z 0%uint63) with 0 in V.
    destruct (row a m b n (L t0 t1) 0%uint63) as [|r0 t'] eqn:Er; [contradiction G|].
    cbn [goodtop] in G. destruct G as [Hr0 G].
    assert (Z0 : to_Z r0 = 0).
    { pose proof n_low as HL. destruct n as [|n0 nr]; [contradiction HL|].
      pose proof (low_zero t0 a b0 n0 n' (proj1 Gt) Ha Hb0 (proj1 Gn) HL) as LZ. fold m in LZ.
      unfold b in Er. cbn [row] in Er. cbv zeta in Er.
      assert (E0 : r0 = ((t0 + a * b0 + m * n0 + 0) mod Bi)%uint63) by congruence.
      rewrite E0, mod_B.
      destruct (step_bound t0 a b0 m n0 0%uint63 (proj1 Gt) Ha Hb0 Hm (proj1 Gn)) as [E _]; [change (to_Z 0%uint63) with 0; lia|].
      rewrite E. change (to_Z 0%uint63) with 0. rewrite Z.add_0_r. exact LZ. }
    cbn [val] in V. rewrite Z0 in V. cbn [Z.add] in V.
    assert (V' : B * val t' = val (L t0 t1) + to_Z a * val b + to_Z m * val n) by (cbn [val]; lia).
    assert (Bd : val t' < val b + Nv).
    { pose proof (phi_nonneg a). pose proof (phi_nonneg m). pose proof (val_nonneg b). pose proof (val_nonneg n).
      assert (to_Z a * val b <= (B - 1) * val b) by nia. assert (to_Z m * val n <= (B - 1) * val n) by nia. lia. }
    assert (Gt' : good (S k) t') by (apply goodtop_good; [exact G|lia]).
    destruct (IH A t' GA Gt' Bd) as [G2 (mm & Hmm & E2)].
    split; [exact G2|]. exists (to_Z m + B * mm). rewrite Bk_S. pose proof (phi_nonneg m). split; [nia|].
    transitivity (B * (val (mont_loop n b b0 n' A t') * B ^ Z.of_nat j)); [ring|]. rewrite E2.
    transitivity (B * val t' + B * (val A * val b + mm * Nv)); [ring|]. rewrite V'. cbn [val]. ring.
Qed.

Lemma mont_ok a b : 0 < Nv -> good (S k) a -> good (S k) b -> val b + Nv <= B ^ Z.of_nat (S k) ->
  good (S k) (mont n n' (zeros (S k)) a b) /\
  exists mm, 0 <= mm < B ^ Z.of_nat (S k) /\
   val (mont n n' (zeros (S k)) a b) * B ^ Z.of_nat (S k) = val a * val b + mm * Nv.
Proof.
  intros HN Ga Gb Hb. destruct b as [|b0 b1]; [contradiction Gb|]. unfold mont.
  destruct (good_zero (S k)) as [G0 V0].
  destruct (mont_loop_ok b0 b1 Gb Hb (S k) a _ Ga G0) as [G (mm & Hm & E)].
  - rewrite V0. pose proof (val_nonneg (L b0 b1)). lia.
  - split; [exact G|]. exists mm. split; [exact Hm|]. rewrite E, V0. ring.
Qed.
End Mont.

(** ** Addition, subtraction, equality *)
Lemma addl_ok k : forall a b c, good k a -> good k b -> to_Z c < B ->
  good k (addl a b c) /\ exists e, 0 <= e /\ val (addl a b c) + e * B ^ Z.of_nat k = val a + val b + to_Z c.
Proof.
  induction k as [|k IH]; intros [|x a] [|y b] c; cbn [good]; try contradiction.
  - intros _ _ _. cbn [addl good val]. split; [exact I|]. exists (to_Z c). change (B ^ Z.of_nat 0) with 1. pose proof (phi_nonneg c). split; lia.
  - intros [Hx Ha] [Hy Hb] Hc. cbn [addl]. cbv zeta.
    pose proof (phi_nonneg x). pose proof (phi_nonneg y). pose proof (phi_nonneg c).
    assert (E1 : to_Z (x + y)%uint63 = to_Z x + to_Z y) by (apply add_small; rewrite wB_val; lia).
    assert (E : to_Z (x + y + c)%uint63 = to_Z x + to_Z y + to_Z c) by (rewrite add_small; rewrite E1; [reflexivity|rewrite wB_val; lia]).
    set (t := (x + y + c)%uint63) in *.
    assert (Hq : to_Z (t / Bi)%uint63 < B) by (rewrite div_B; apply Z.div_lt_upper_bound; rewrite ?E; lia).
    destruct (IH a b (t / Bi)%uint63 Ha Hb Hq) as [G (e & He & V)].
    split; [cbn [good]; split; [apply mod_B_lt|exact G]|]. exists e. split; [exact He|]. cbn [val]. rewrite Bk_S.
    pose proof (split_B t) as S. rewrite E in S. nia.
Qed.
Lemma subl_ok k : forall n a b c, good k n -> good k a -> good k b -> to_Z c < B ->
  good k (subl n a b c) /\ exists e, val (subl n a b c) + e * B ^ Z.of_nat k = val a + val n + (B ^ Z.of_nat k - 1) - val b + to_Z c.
Proof.
  induction k as [|k IH]; intros [|z n] [|x a] [|y b] c; cbn [good]; try contradiction.
  - intros _ _ _ _. cbn [subl good val]. split; [exact I|]. exists (to_Z c). change (B ^ Z.of_nat 0) with 1. lia.
  - intros [Hz Hn] [Hx Ha] [Hy Hb] Hc. cbn [subl]. cbv zeta.
    pose proof (phi_nonneg x). pose proof (phi_nonneg y). pose proof (phi_nonneg z). pose proof (phi_nonneg c).
    assert (E1 : to_Z (x + z)%uint63 = to_Z x + to_Z z) by (apply add_small; rewrite wB_val; lia).
    assert (E2 : to_Z (Mi - y)%uint63 = B - 1 - to_Z y) by (rewrite sub_spec, phi_M; apply Z.mod_small; rewrite wB_val; lia).
    assert (E3 : to_Z (x + z + (Mi - y))%uint63 = to_Z x + to_Z z + (B - 1 - to_Z y)) by (rewrite add_small; rewrite E1, E2; [reflexivity|rewrite wB_val; lia]).
    assert (E : to_Z (x + z + (Mi - y) + c)%uint63 = to_Z x + to_Z z + (B - 1 - to_Z y) + to_Z c) by (rewrite add_small; rewrite E3; [reflexivity|rewrite wB_val; lia]).
    set (t := (x + z + (Mi - y) + c)%uint63) in *.
    assert (Hq : to_Z (t / Bi)%uint63 < B) by (rewrite div_B; apply Z.div_lt_upper_bound; rewrite ?E; lia).
    destruct (IH n a b (t / Bi)%uint63 Hn Ha Hb Hq) as [G (e & V)].
    split; [cbn [good]; split; [apply mod_B_lt|exact G]|]. exists e. cbn [val]. rewrite Bk_S.
    pose proof (split_B t) as S. rewrite E in S. nia.
Qed.
Lemma eql_ok a : forall b, eql a b = true -> a = b.
Proof.
  induction a as [|x a IH]; intros [|y b]; cbn [eql]; try discriminate; [reflexivity|].
  rewrite andb_true_iff. intros [H1 H2]. apply eqb_correct in H1. f_equal; [exact H1|apply IH; exact H2].
Qed.
