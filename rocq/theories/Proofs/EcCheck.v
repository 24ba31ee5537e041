(** Checking by evaluation that a point of a curve modulo N is killed by a number,
    with consequences modulo every prime divisor of N. *)
From Coq Require Import ZArith List Bool Lia Znumtheory Zpow_facts Uint63.
From Verif Require Import Proofs.Cong Proofs.Fp Proofs.ECGroup Proofs.Curve Proofs.Jacobian Spec.CurveSpec Proofs.Limbs Proofs.ModRep.
Import ListNotations.
Local Open Scope Z_scope.

Definition ljpt := (lm * lm * lm)%type.
Definition twice (x : lm) : lm := add x x.
(** [am = None] stands for a = -3 *)
Definition ldbl (M : modulus) (am : option lm) (J : ljpt) : ljpt :=
  let '(X, Y, Z) := J in
  let YY := mul M Y Y in let ZZ := mul M Z Z in
  let S4 := twice (twice (mul M X YY)) in
  let m := match am with
           | None => let t := mul M (sub M X ZZ) (add X ZZ) in add (twice t) t
           | Some a => let t := mul M X X in add (add (twice t) t) (mul M a (mul M ZZ ZZ))
           end in
  let X3 := sub M (mul M m m) (twice S4) in
  (X3, sub M (m_zs M) (add (mul M m (sub M X3 S4)) (twice (twice (twice (mul M YY YY))))), twice (mul M Y Z)).
Definition lmadd (M : modulus) (x y : lm) (J : ljpt) : ljpt :=
  let '(X, Y, Z) := J in
  let ZZ := mul M Z Z in
  let H := sub M X (mul M x ZZ) in
  let r := sub M Y (mul M y (mul M Z ZZ)) in
  let HH := mul M H H in let HHH := mul M H HH in let V := mul M X HH in
  let X3 := sub M (add (mul M r r) HHH) (twice V) in
  (X3, sub M (m_zs M) (add (mul M r (sub M X3 V)) (mul M Y HHH)), mul M Z H).
Definition lstep (M : modulus) (am : option lm) (x y ny : lm) (J : ljpt) (d : digit) : ljpt :=
  match d with
  | D0 => ldbl M am J
  | D1 => lmadd M x y (ldbl M am J)
  | Dm => lmadd M x ny (ldbl M am J)
  end.

Record ecjob := EcJob { e_k : nat; e_n : Z; e_r2 : Z; e_a : Z; e_b : Z; e_x : Z; e_y : Z; e_ds : list digit; e_wz : Z; e_wd : Z; e_w3 : Z }.
Definition inrange (n x : Z) : bool := (0 <=? x) && (x <? n).
Definition unitb (M : modulus) (k : nat) (x : lm) (w : Z) : bool := eqm M (mul M x (conv M k w)) (m_one M).
Definition ec_check (j : ecjob) : bool :=
  let k := e_k j in
  modulus_ok k (e_n j) (e_r2 j) && inrange (e_n j) (e_a j) && inrange (e_n j) (e_b j) && inrange (e_n j) (e_x j) && inrange (e_n j) (e_y j) &&
  let M := make' k (e_n j) (e_r2 j) in
  let one := m_one M in let a := conv M k (e_a j) in let b := conv M k (e_b j) in let x := conv M k (e_x j) in let y := conv M k (e_y j) in
  let am := if e_a j =? e_n j - 3 then None else Some a in
  let bb := mul M b b in let b3 := add (twice bb) bb in let b9 := add (twice b3) b3 in
  unitb M k (add (twice one) one) (e_w3 j) &&
  unitb M k (add (twice (twice (mul M a (mul M a a)))) (add (twice b9) b9)) (e_wd j) &&
  eqm M (mul M y y) (mul M (add (add (mul M (mul M x x) x) (mul M a x)) b) one) &&
  let '(X, Y, Z) := fold_left (lstep M am x y (sub M (m_zs M) y)) (e_ds j) (x, y, one) in
  let ZZ := mul M Z Z in
  unitb M k Z (e_wz j) &&
  eqm M (mul M X one) (mul M x ZZ) && eqm M (mul M (sub M (m_zs M) (mul M Y one)) one) (mul M y (mul M Z ZZ)).

Section Check.
Context (k : nat) (z r2 : Z) (OK : modulus_ok (S k) z r2 = true) (q : Z) (Hq : prime q) (Dq : (q | z)).
Let M := make' (S k) z r2.
Local Notation rep := (rep k z q).
Ltac rm H1 H2 H := pose proof (rep_mul k z r2 OK q Hq Dq _ _ _ _ _ _ H1 H2 ltac:(lia) ltac:(lia) ltac:(lia)) as H; fold M in H.
Ltac ra H1 H2 H := pose proof (rep_add k z r2 OK q _ _ _ _ _ _ H1 H2 ltac:(lia)) as H; fold M in H.
Ltac rs H1 H2 H := pose proof (rep_sub k z r2 OK q Hq Dq _ _ _ _ _ _ H1 H2 ltac:(lia) ltac:(lia)) as H; fold M in H.
Lemma twice_ok c x u : rep c x u -> 2 * c <= 8192 -> rep (2 * c) (twice x) (2 * u).
Proof. intros H Hc. ra H H K. replace (2 * c) with (c + c) by ring. replace (2 * u) with (u + u) by ring. exact K. Qed.
Ltac r2 H1 H := pose proof (twice_ok _ _ _ H1 ltac:(lia)) as H; fold M in H.
Ltac fin H := refine (rep_le k z r2 OK q _ _ _ _ (rep_cong k z q _ _ _ _ H _) _); [apply cong_refl_eq; ring|lia].

Definition jl (L : ljpt) (J : jpt) : Prop :=
  let '(X, Y, Z) := L in let '(u, v, w) := J in rep 36 X u /\ rep 33 Y v /\ rep 4 Z w.
Context (a : Z) (am : option lm) (Ham : match am with None => cong q a (-3) | Some l => rep 3 l a end).
Lemma ldbl_ok L J : jl L J -> jl (ldbl M am L) (zdbl a J).
Proof.
  destruct L as [[X Y] Z], J as [[u v] w]. intros (HX & HY & HZ). unfold ldbl, zdbl. cbv zeta.
  rm HY HY HYY. rm HZ HZ HZZ. rm HX HYY HS. r2 HS HS2. r2 HS2 HS4. r2 HS4 HS8. rm HYY HYY HY4. r2 HY4 HE2. r2 HE2 HE4. r2 HE4 HE8. rm HY HZ HYZ. r2 HYZ HZ3.
  match goal with |- context[match am with None => ?e | Some _ => _ end] => idtac end.
  set (m := match am with None => _ | Some _ => _ end).
  assert (Hm : rep 8 m (3 * (u * u) + a * (w * w * (w * w)))).
  { unfold m. destruct am as [l|].
    - rm HX HX HXX. rm HZZ HZZ HZ4. rm Ham HZ4 HaZ. r2 HXX H2. ra H2 HXX H3. ra H3 HaZ H4. fin H4.
    - rs HX HZZ H1. ra HX HZZ H2. rm H1 H2 H3. r2 H3 H4. ra H4 H3 H5.
      refine (rep_le k z r2 OK q _ _ _ _ (rep_cong k z q _ _ _ _ H5 _) _); [|lia]. rewrite Ham. apply cong_refl_eq. ring. }
  clearbody m. rm Hm Hm Hmm. rs Hmm HS8 HX3. rs HX3 HS4 HT. rm Hm HT HmT. ra HmT HE8 Hs. pose proof (rep_zero k z r2 OK q) as H0. fold M in H0. rs H0 Hs HY3.
  unfold jl. split; [|split].
  - fin HX3.
  - fin HY3.
  - fin HZ3.
Qed.
Lemma lmadd_ok x y xx yy L J : rep 3 x xx -> rep 33 y yy -> jl L J -> jl (lmadd M x y L) (zmadd xx yy J).
Proof.
  intros Hx Hy. destruct L as [[X Y] Z], J as [[u v] w]. intros (HX & HY & HZ). unfold lmadd, zmadd. cbv zeta.
  rm HZ HZ HZZ. rm Hx HZZ HU. rs HX HU HH. rm HZ HZZ HZ3. rm Hy HZ3 HS. rs HY HS Hr. rm HH HH HHH. rm HH HHH H3. rm HX HHH HV. rm Hr Hr Hrr. ra Hrr H3 Hs. r2 HV HV2. rs Hs HV2 HX3.
  rs HX3 HV HT. rm Hr HT HrT. rm HY H3 HY1. ra HrT HY1 Ht. pose proof (rep_zero k z r2 OK q) as H0. fold M in H0. rs H0 Ht HY3. rm HZ HH HZ'.
  unfold jl. split; [|split].
  - fin HX3.
  - fin HY3.
  - fin HZ'.
Qed.
Lemma lstep_ok x y ny xx yy L J d : rep 3 x xx -> rep 33 y yy -> rep 33 ny (- yy) -> jl L J -> jl (lstep M am x y ny L d) (zstep a xx yy J d).
Proof.
  intros Hx Hy Hn HJ. apply ldbl_ok in HJ. destruct d; cbn [lstep zstep]; [exact HJ| |]; apply lmadd_ok; assumption.
Qed.
Lemma lsteps_ok x y ny xx yy ds : rep 3 x xx -> rep 33 y yy -> rep 33 ny (- yy) -> forall L J, jl L J -> jl (fold_left (lstep M am x y ny) ds L) (fold_left (zstep a xx yy) ds J).
Proof.
  intros Hx Hy Hn. induction ds as [|d ds IH]; cbn [fold_left]; intros L J HJ; [exact HJ|]. apply IH. apply lstep_ok; assumption.
Qed.
End Check.

Section Sound.
Context (j : ecjob) (HC : ec_check j = true) (q : Z) (Hq : prime q) (Dq : (q | e_n j)).
Let z := e_n j. Let a := e_a j. Let b := e_b j. Let x := e_x j. Let y := e_y j.
Local Notation i := (fi q).

Lemma inrange_ok n u : inrange n u = true -> 0 <= u < n.
Proof. unfold inrange. rewrite andb_true_iff, Z.leb_le, Z.ltb_lt. tauto. Qed.

Lemma ec_sound : 0 <= a < z /\ 0 <= b < z /\ 0 <= x < z /\ 0 <= y < z /\ 3 < q /\ nonsingular q a b /\
  gon q a b (ECGroup.P (i x) (i y)) /\ zmul q a (digits_val (e_ds j) + 1) (ECGroup.P (i x) (i y)) = O.
Proof.
  pose proof HC as H. unfold ec_check in H. cbv zeta in H. fold z a b x y in H, Dq.
  destruct (e_k j) as [|k]; [unfold modulus_ok in H; cbv zeta in H; rewrite !andb_false_r in H; discriminate|].
  set (M := make' (S k) z (e_r2 j)) in *. rewrite !andb_true_iff in H. destruct H as (((((OK & Ra) & Rb) & Rx) & Ry) & ((U3 & Ud) & HE) & H).
  apply inrange_ok in Ra, Rb, Rx, Ry.
  destruct (fold_left _ _ _) as [[X Y] Z] eqn:EF. rewrite !andb_true_iff in H. destruct H as ((UZ & EX) & EY).
  destruct (ok_parts k z (e_r2 j) OK) as (Hz & _ & HzR & _).
  Local Ltac rm k z r2 OK q Hq Dq M H1 H2 H := pose proof (rep_mul k z r2 OK q Hq Dq _ _ _ _ _ _ H1 H2 ltac:(lia) ltac:(lia) ltac:(lia)) as H; fold M in H.
  Local Ltac ra k z r2 OK q M H1 H2 H := pose proof (rep_add k z r2 OK q _ _ _ _ _ _ H1 H2 ltac:(lia)) as H; fold M in H.
  assert (CV : forall u, 0 <= u < z -> rep k z q 3 (conv M (S k) u) u) by (intros u Hu; apply (rep_conv k z (e_r2 j) OK q Hq Dq); lia).
  pose proof (CV a Ra) as Ha. pose proof (CV b Rb) as Hb. pose proof (CV x Rx) as Hx. pose proof (CV y Ry) as Hy.
  pose proof (rep_one k z (e_r2 j) OK q Hq Dq) as H1. fold M in H1.
  set (al := conv M (S k) a) in *. set (bl := conv M (S k) b) in *. set (xl := conv M (S k) x) in *. set (yl := conv M (S k) y) in *. clearbody al bl xl yl.
  assert (Q1 : 1 < q) by (clear - Hq; destruct Hq; lia).
  (* q > 3 *)
  assert (Q3 : 3 < q).
  { pose proof (twice_ok k z (e_r2 j) OK q _ _ _ H1 ltac:(lia)) as T. ra k z (e_r2 j) OK q M T H1 T3.
    apply (unit_witness k z (e_r2 j) OK q Hq Dq _ _ _ _ T3) in U3; try lia.
    assert (q <> 3) by (intros ->; apply U3; reflexivity).
    assert (q <> 2). { intros ->. apply (q_odd k z (e_r2 j) OK 2 prime_2 Dq). change B with (2 ^ 30). rewrite <- Z.pow_mul_r by lia. exists (2 ^ (30 * Z.of_nat (S k) - 1)). rewrite (Z.mul_comm _ 2), <- Z.pow_succ_r by lia. f_equal. lia. }
    lia. }
  (* discriminant *)
  assert (NS : nonsingular q a b).
  { rm k z (e_r2 j) OK q Hq Dq M Ha Ha Haa. rm k z (e_r2 j) OK q Hq Dq M Ha Haa Ha3.
    pose proof (twice_ok k z (e_r2 j) OK q _ _ _ Ha3 ltac:(lia)) as T1. pose proof (twice_ok k z (e_r2 j) OK q _ _ _ T1 ltac:(lia)) as T2.
    rm k z (e_r2 j) OK q Hq Dq M Hb Hb Hbb. pose proof (twice_ok k z (e_r2 j) OK q _ _ _ Hbb ltac:(lia)) as T3. ra k z (e_r2 j) OK q M T3 Hbb B3.
    pose proof (twice_ok k z (e_r2 j) OK q _ _ _ B3 ltac:(lia)) as T4. ra k z (e_r2 j) OK q M T4 B3 B9.
    pose proof (twice_ok k z (e_r2 j) OK q _ _ _ B9 ltac:(lia)) as T5. ra k z (e_r2 j) OK q M T5 B9 B27.
    ra k z (e_r2 j) OK q M T2 B27 HD.
    apply (unit_witness k z (e_r2 j) OK q Hq Dq _ _ _ _ HD) in Ud; try lia. unfold nonsingular. intros E. apply Ud. rewrite <- E. f_equal. ring. }
  (* the point is on the curve *)
  assert (G : gon q a b (ECGroup.P (i x) (i y))).
  { rm k z (e_r2 j) OK q Hq Dq M Hy Hy Hyy. rm k z (e_r2 j) OK q Hq Dq M Hx Hx Hxx. rm k z (e_r2 j) OK q Hq Dq M Hxx Hx Hx3. rm k z (e_r2 j) OK q Hq Dq M Ha Hx Hax.
    ra k z (e_r2 j) OK q M Hx3 Hax S1. ra k z (e_r2 j) OK q M S1 Hb S2. rm k z (e_r2 j) OK q Hq Dq M S2 H1 S3.
    pose proof (rep_eqm k z (e_r2 j) OK q Hq Dq _ _ _ _ _ _ Hyy S3 ltac:(lia) ltac:(lia) HE) as E.
    unfold gon, on. rewrite <- !fi_mul, <- !fi_add. apply fi_eq. rewrite E. apply cong_refl_eq. ring. }
  do 6 (split; [assumption|]). split; [exact G|].
  (* the multiple *)
  pose proof (rep_zero k z (e_r2 j) OK q) as H0. fold M in H0.
  pose proof (rep_sub k z (e_r2 j) OK q Hq Dq _ _ _ _ _ _ H0 Hy ltac:(lia) ltac:(lia)) as Hny. fold M in Hny.
  set (am := if a =? z - 3 then None else Some al) in *.
  assert (Ham : match am with None => cong q a (-3) | Some l => rep k z q 3 l a end).
  { unfold am. destruct (Z.eqb_spec a (z - 3)) as [E|_]; [|exact Ha]. rewrite E, (zq z q Hq Dq). reflexivity. }
  assert (HJ : jl k z q (X, Y, Z) (zmult a x y (e_ds j))).
  { rewrite <- EF. apply (lsteps_ok k z (e_r2 j) OK q Hq Dq a am Ham xl yl _ x y).
    - exact Hx.
    - apply (rep_le k z (e_r2 j) OK q _ _ _ _ Hy). lia.
    - apply (rep_le k z (e_r2 j) OK q _ _ _ _ Hny). lia.
    - split; [|split]; [apply (rep_le k z (e_r2 j) OK q _ _ _ _ Hx); lia|apply (rep_le k z (e_r2 j) OK q _ _ _ _ Hy); lia|apply (rep_le k z (e_r2 j) OK q _ _ _ _ H1); lia]. }
  destruct (zmult a x y (e_ds j)) as [[u v] w] eqn:EZ. destruct HJ as (HX & HY & HZ).
  apply (unit_witness k z (e_r2 j) OK q Hq Dq _ _ _ _ HZ) in UZ; try lia.
  rm k z (e_r2 j) OK q Hq Dq M HX H1 HX1. rm k z (e_r2 j) OK q Hq Dq M HZ HZ HZZ. rm k z (e_r2 j) OK q Hq Dq M Hx HZZ HxZ.
  pose proof (rep_eqm k z (e_r2 j) OK q Hq Dq _ _ _ _ _ _ HX1 HxZ ltac:(lia) ltac:(lia) EX) as CX.
  rm k z (e_r2 j) OK q Hq Dq M HY H1 HY1.
  pose proof (rep_sub k z (e_r2 j) OK q Hq Dq _ _ _ _ _ _ H0 HY1 ltac:(lia) ltac:(lia)) as HnY. fold M in HnY.
  rm k z (e_r2 j) OK q Hq Dq M HnY H1 HnY1. rm k z (e_r2 j) OK q Hq Dq M HZ HZZ HZ3. rm k z (e_r2 j) OK q Hq Dq M Hy HZ3 HyZ.
  pose proof (rep_eqm k z (e_r2 j) OK q Hq Dq _ _ _ _ _ _ HnY1 HyZ ltac:(lia) ltac:(lia) EY) as CY.
  apply (zmult_order q Hq Q3 a b NS x y G (e_ds j) u v w EZ).
  - apply fi_nz; assumption.
  - apply fi_eq. rewrite <- CX. apply cong_refl_eq. ring.
  - apply fi_eq. rewrite <- CY. apply cong_refl_eq. ring.
Qed.
End Sound.

(** signed digits of k, from 3k and k; the leading digit 1 is left out *)
Fixpoint naf_aux (h k : positive) (acc : list digit) : list digit :=
  match h, k with
  | xI h, xO k => naf_aux h k (D1 :: acc)
  | xO h, xI k => naf_aux h k (Dm :: acc)
  | xO h, xO k | xI h, xI k => naf_aux h k (D0 :: acc)
  | xI h, xH => naf_last h (D0 :: acc)
  | xO h, xH => naf_last h (Dm :: acc)
  | xH, _ => acc
  end
with naf_last (h : positive) (acc : list digit) : list digit := 
  match h with
  | xI h => naf_last h (D1 :: acc)
  | xO h => naf_last h (D0 :: acc)
  | xH => acc
  end.
Definition naf (k : Z) : list digit :=
  match k, 3 * k with
  | Zpos k, Zpos h => match h with xI h' | xO h' => match k with xI k' | xO k' => naf_aux h' k' nil | xH => naf_last h' nil end | xH => nil end
  | _, _ => nil
  end.
(** the job for the claim n P = O *)
Definition ec_job (k : nat) (m r2 a b x y n wz wd w3 : Z) : ecjob := EcJob k m r2 a b x y (naf (n - 1)) wz wd w3.
Definition ec_check_n (j : ecjob) (n : Z) : bool := (digits_val (e_ds j) =? n - 1) && ec_check j.
