(** Chains of primality certificates: Pocklington's criterion and Goldwasser and
    Kilian's criterion with elliptic curves, evaluated on limbs. *)
From Coq Require Import ZArith List Bool Lia Znumtheory Zpow_facts Uint63 Field.
From Verif Require Import Proofs.Cong Proofs.PockPower Proofs.PrimeCert Proofs.Fp Proofs.ECGroup Proofs.Curve Proofs.Jacobian Spec.CurveSpec Proofs.Limbs Proofs.ModRep Proofs.EcCheck.
Import ListNotations.
Local Open Scope Z_scope.

(** ** Pocklington *)
Fixpoint lpow (M : modulus) (x : lm) (e : positive) : lm :=
  match e with
  | xH => x
  | xO e => let t := lpow M x e in mul M t t
  | xI e => let t := lpow M x e in mul M (mul M t t) x
  end.
Definition zpow (M : modulus) (x : lm) (e : Z) : lm := match e with Zpos e => lpow M x e | _ => m_one M end.
Fixpoint iter_pow (M : modulus) (q : Z) (e : nat) (x : lm) : lm := match e with 0%nat => x | S e => iter_pow M q e (zpow M x q) end.
(** prime, exponent, witness *)
Definition part := (Z * nat * Z)%type.
Fixpoint powers (M : modulus) (fs : list part) (x : lm) : lm :=
  match fs with [] => x | (q, e, _) :: t => powers M t (iter_pow M q e x) end.
Fixpoint units (M : modulus) (k : nat) (pre fs : list part) (x : lm) : bool :=
  match fs with
  | [] => true
  | (q, e, w) :: t => negb (Nat.eqb e 0) && unitb M k (sub M (powers M t (iter_pow M q (Nat.pred e) (powers M pre x))) (m_one M)) w && units M k ((q, e, w) :: pre) t x
  end.
Fixpoint product (fs : list part) : Z := match fs with [] => 1 | (q, e, _) :: t => q ^ Z.of_nat e * product t end.
Fixpoint nodupb (l : list Z) : bool := match l with [] => true | x :: t => negb (existsb (Z.eqb x) t) && nodupb t end.
Definition pfst (f : part) : Z := fst (fst f).
Definition pock_check (proven : list Z) (k : nat) (z r2 a : Z) (fs : list part) : bool :=
  modulus_ok k z r2 && inrange z a && (1 <? z) && (Z.log2 z <? 2 * Z.log2 (product fs)) && nodupb (map pfst fs) &&
  forallb (fun f => existsb (Z.eqb (pfst f)) proven) fs &&
  let M := make' k z r2 in let x := conv M k a in
  eqm M (powers M fs x) (m_one M) && units M k [] fs x.

Lemma product_pos fs : (forall f, In f fs -> 0 < pfst f) -> 0 < product fs.
Proof.
  induction fs as [|[[p e] w] fs IH]; intros H; cbn [product]; [lia|].
  assert (0 < p ^ Z.of_nat e) by (apply Z.pow_pos_nonneg; [apply (H (p, e, w)); now left|lia]).
  specialize (IH ltac:(intros f I; apply H; now right)). nia.
Qed.

Section Pock.
Context (k : nat) (z r2 : Z) (OK : modulus_ok (S k) z r2 = true) (q : Z) (Hq : prime q) (Dq : (q | z)).
Let M := make' (S k) z r2.
Local Notation rep := (rep k z q).
Lemma lpow_ok x u e : rep 3 x u -> rep 3 (lpow M x e) (u ^ Zpos e).
Proof.
  intros H. induction e as [e IH|e IH|]; cbn [lpow]; cbv zeta.
  - pose proof (rep_mul k z r2 OK q Hq Dq _ _ _ _ _ _ IH IH ltac:(lia) ltac:(lia) ltac:(lia)) as H1. fold M in H1.
    pose proof (rep_mul k z r2 OK q Hq Dq _ _ _ _ _ _ H1 H ltac:(lia) ltac:(lia) ltac:(lia)) as H2. fold M in H2.
    apply (rep_le k z r2 OK q _ 3 _ _) in H2; [|lia]. apply (rep_cong k z q _ _ _ _ H2). apply cong_refl_eq.
    rewrite Pos2Z.inj_xI, Z.pow_add_r, Z.mul_comm, Z.pow_1_r by lia. rewrite (Z.mul_comm 2 (Zpos e)), Z.pow_mul_r by lia. ring.
  - pose proof (rep_mul k z r2 OK q Hq Dq _ _ _ _ _ _ IH IH ltac:(lia) ltac:(lia) ltac:(lia)) as H1. fold M in H1.
    apply (rep_le k z r2 OK q _ 3 _ _) in H1; [|lia]. apply (rep_cong k z q _ _ _ _ H1). apply cong_refl_eq.
    rewrite Pos2Z.inj_xO, (Z.mul_comm 2 (Zpos e)), Z.pow_mul_r by lia. ring.
  - rewrite Z.pow_1_r. exact H.
Qed.
Lemma zpow_ok x u e : 0 <= e -> rep 3 x u -> rep 3 (zpow M x e) (u ^ e).
Proof.
  intros He H. destruct e as [|e|e]; [| |lia]; cbn [zpow]; [|now apply lpow_ok].
  rewrite Z.pow_0_r. apply (rep_one k z r2 OK q Hq Dq).
Qed.
Lemma iter_pow_ok p e : 0 <= p -> forall x u, rep 3 x u -> rep 3 (iter_pow M p e x) (u ^ (p ^ Z.of_nat e)).
Proof.
  intros Hp. induction e as [|e IH]; intros x u H; cbn [iter_pow].
  - change (p ^ Z.of_nat 0) with 1. now rewrite Z.pow_1_r.
  - rewrite Nat2Z.inj_succ, Z.pow_succ_r by lia. rewrite Z.pow_mul_r by (try apply Z.pow_nonneg; lia). apply IH. now apply zpow_ok.
Qed.
Lemma powers_ok fs : (forall f, In f fs -> 0 < pfst f) -> forall x u, rep 3 x u -> rep 3 (powers M fs x) (u ^ product fs).
Proof.
  induction fs as [|[[p e] w] fs IH]; intros HP x u H; cbn [powers product].
  - now rewrite Z.pow_1_r.
  - assert (0 < p) by (apply (HP (p, e, w)); now left). rewrite Z.pow_mul_r; [|apply Z.pow_nonneg; lia|].
    + apply IH; [intros f I; apply HP; now right|]. apply iter_pow_ok; [lia|exact H].
    + assert (0 < product fs) by (apply product_pos; intros f I; apply HP; now right). lia.
Qed.
End Pock.

Lemma nodupb_ok l : nodupb l = true -> NoDup l.
Proof.
  induction l as [|x l IH]; cbn [nodupb]; [constructor|]. rewrite andb_true_iff, negb_true_iff. intros [H1 H2]. constructor; [|now apply IH].
  intros I. assert (existsb (Z.eqb x) l = true); [|congruence]. apply existsb_exists. exists x. split; [exact I|apply Z.eqb_refl].
Qed.
Lemma product_app a b : product (a ++ b) = product a * product b.
Proof. induction a as [|[[p e] w] a IH]; cbn [product app]; [lia|]. rewrite IH. ring. Qed.
Lemma product_rev a : product (rev a) = product a.
Proof. induction a as [|[[p e] w] a IH]; cbn [product rev]; [reflexivity|]. rewrite product_app, IH. cbn [product]. ring. Qed.

Theorem pock_prime proven k z r2 a fs : Forall prime proven -> pock_check proven k z r2 a fs = true -> prime z.
Proof.
  intros HP H. unfold pock_check in H. cbv zeta in H.
  destruct k as [|k]; [unfold modulus_ok in H; cbv zeta in H; rewrite !andb_false_r in H; discriminate|].
  rewrite !andb_true_iff in H. destruct H as ((((((OK & Ra) & H1) & HL) & HN) & HF) & (H2 & HU)).
  apply inrange_ok in Ra. apply Z.ltb_lt in H1, HL. apply nodupb_ok in HN.
  assert (PR : forall f, In f fs -> prime (pfst f)).
  { intros f I. rewrite forallb_forall in HF. specialize (HF f I). apply existsb_exists in HF as (p & Ip & E). apply Z.eqb_eq in E. rewrite E. rewrite Forall_forall in HP. auto. }
  assert (PP : forall f, In f fs -> 0 < pfst f) by (intros f I; specialize (PR f I); apply prime_ge_2 in PR; lia).
  destruct (prime_dec z) as [P|P]; [exact P|exfalso]. apply small_divisor in P as (q & Hq & Dq & SQ); [|lia].
  destruct (ok_parts k z r2 OK) as (Hz & _ & HzR & _). set (M := make' (S k) z r2) in *.
  pose proof (rep_conv k z r2 OK q Hq Dq a ltac:(lia)) as Hx. fold M in Hx. pose proof (rep_one k z r2 OK q Hq Dq) as One. fold M in One.
  set (x := conv M (S k) a) in *. clearbody x.
  pose proof (powers_ok k z r2 OK q Hq Dq fs PP x a Hx) as HA. fold M in HA.
  apply (rep_eqm k z r2 OK q Hq Dq _ _ _ _ _ _ HA One) in H2; try lia.
  assert (Q2 := prime_ge_2 q Hq).
  assert (E1 : a ^ product fs mod q = 1) by (apply uncong in H2; rewrite H2; apply Z.mod_small; lia).
  (* each prime power divides q - 1 *)
  assert (K : forall suf pre, fs = rev pre ++ suf -> units M (S k) pre suf x = true -> (product suf | q - 1)).
  { induction suf as [|[[p e] w] suf IH]; intros pre EF HU'; [apply Z.divide_1_l|]. cbn [units] in HU'. rewrite !andb_true_iff, negb_true_iff, Nat.eqb_neq in HU'. destruct HU' as ((He & U) & HU').
    assert (I0 : In (p, e, w) fs) by (rewrite EF; apply in_or_app; right; now left).
    assert (Ppre : forall f, In f pre -> 0 < pfst f) by (intros f I; apply PP; rewrite EF; apply in_or_app; left; apply in_rev; now rewrite rev_involutive).
    assert (Psuf : forall f, In f suf -> 0 < pfst f) by (intros f I; apply PP; rewrite EF; apply in_or_app; right; now right).
    assert (Pp := PP _ I0). cbn [pfst fst] in Pp. assert (Pr := PR _ I0). change (pfst (p, e, w)) with p in *.
    pose proof (powers_ok k z r2 OK q Hq Dq pre Ppre x a Hx) as HB. fold M in HB.
    pose proof (iter_pow_ok k z r2 OK q Hq Dq p (Nat.pred e) ltac:(lia) _ _ HB) as HC. fold M in HC.
    pose proof (powers_ok k z r2 OK q Hq Dq suf Psuf _ _ HC) as HD. fold M in HD.
    pose proof (rep_sub k z r2 OK q Hq Dq _ _ _ _ _ _ HD One ltac:(lia) ltac:(lia)) as HS. fold M in HS.
    apply (unit_witness k z r2 OK q Hq Dq _ _ _ _ HS) in U; try lia.
    pose proof (product_pos pre Ppre) as Q1. pose proof (product_pos suf Psuf) as Q3.
    assert (D1 : (p ^ Z.of_nat e | q - 1)).
    { assert (R0 : 0 <= product pre * product suf) by (clear - Q1 Q3; nia). assert (E0 : (0 < e)%nat) by (clear - He; lia).
      apply (pock_power (a := a) (r := product pre * product suf) Hq Pr E0 R0).
      - rewrite <- E1. f_equal. f_equal. rewrite EF, product_app, product_rev. cbn [product]. ring.
      - intros E. apply U. assert (Pe : 0 <= p ^ Z.of_nat (Nat.pred e)) by (apply Z.pow_nonneg; lia).
        rewrite <- (Z.pow_mul_r a (product pre)), <- (Z.pow_mul_r a) by (clear - Q1 Q3 Pe; nia).
        replace (product pre * p ^ Z.of_nat (Nat.pred e) * product suf) with (product pre * product suf * p ^ Z.of_nat (Nat.pred e)) by ring.
        rewrite Zminus_mod, E, (Z.mod_small 1), Z.sub_diag, Z.mod_0_l by lia. reflexivity. }
    assert (D2 : (product suf | q - 1)) by (apply (IH ((p, e, w) :: pre)); [cbn [rev]; rewrite <- app_assoc; exact EF|exact HU']).
    cbn [product]. destruct D2 as [v D2]. rewrite D2 in D1 |- *. rewrite Z.mul_comm in D1. apply Gauss in D1.
    - destruct D1 as [t D1]. exists t. rewrite D1. ring.
    - (* coprime *)
      assert (NI : ~ In p (map pfst suf)).
      { rewrite EF, map_app in HN. apply NoDup_remove_2 in HN. intros I. apply HN. apply in_or_app. now right. }
      assert (PS : forall f, In f suf -> prime (pfst f)) by (intros f I; apply PR; rewrite EF; apply in_or_app; right; now right).
      clear - NI PS Pr. induction suf as [|[[p' e'] w'] suf IH]; cbn [product]; [apply rel_prime_sym, rel_prime_1|].
      apply rel_prime_mult; [|apply IH; [intros I; apply NI; now right|intros f I; apply PS; now right]].
      assert (Pr' := PS (p', e', w') ltac:(now left)). change (pfst (p', e', w')) with p' in Pr'.
      apply Zpow_facts.rel_prime_Zpower; [lia|lia|]. apply prime_rel_prime; [exact Pr|]. intros D. apply prime_div_prime in D; auto. subst p'. apply NI. now left. }
  specialize (K fs [] eq_refl HU). apply Z.divide_pos_le in K; [|lia].
  pose proof (product_pos fs PP) as Q0. pose proof (Z.log2_spec (product fs) Q0) as [L1 _]. pose proof (Z.log2_spec z ltac:(lia)) as [_ L2].
  assert (2 ^ Z.succ (Z.log2 z) <= 2 ^ (2 * Z.log2 (product fs))) by (apply Z.pow_le_mono_r; lia).
  replace (2 * Z.log2 (product fs)) with (Z.log2 (product fs) + Z.log2 (product fs)) in H by lia. pose proof (Z.log2_nonneg (product fs)). rewrite Z.pow_add_r in H by lia. nia.
Qed.

(** ** Elliptic curves *)
Section Points.
Context (p : Z) (Hp : prime p) (p3 : 3 < p) (a b : Z) (NS : nonsingular p a b).
Local Notation i := (fi p).
Local Notation Pt := ECGroup.P.
Let FT := fp_field p Hp.
Add Field Fpf' : FT.
Local Notation zm := (zmul p a).
Lemma killed A n k : gon p a b A -> A <> O -> prime n -> zm n A = O -> zm k A = O -> (n | k).
Proof.
  intros G NO Pn En Ek. destruct (Zdivide_dec n k) as [D|D]; [exact D|exfalso]. apply NO.
  apply prime_rel_prime in D; [|exact Pn]. apply rel_prime_bezout in D. destruct D as [u v E].
  rewrite <- (zmul_1 p a A), <- E. rewrite (zmul_add p Hp p3 a b NS) by exact G.
  rewrite !(zmul_mul p Hp p3 a b NS) by exact G. rewrite En, Ek, !zmul_O. reflexivity.
Qed.
Definition xco (A : pt (F := Fp p)) : Z := match A with O => -1 | Pt x _ => fv p x end.
Lemma same_x A A' : gon p a b A -> gon p a b A' -> xco A = xco A' -> A = A' \/ A = gopp p A'.
Proof.
  destruct A as [|x y], A' as [|x' y']; cbn [xco]; intros G G' E.
  - now left.
  - pose proof (fv_range p Hp x'). lia.
  - pose proof (fv_range p Hp x). lia.
  - apply fv_inj in E. subst x'. unfold gon, on in G, G'. 
    destruct (fp_dec p (fsub p y y') (i 0)) as [Y|Y].
    + left. f_equal. transitivity (fadd p (fsub p y y') y'); [ring|]. rewrite Y. ring.
    + right. unfold gopp, opp. f_equal. transitivity (fsub p (fadd p y y') y'); [ring|].
      replace (fadd p y y') with (i 0); [ring|].
      transitivity (fdiv p (fsub p (fmul p y y) (fmul p y' y')) (fsub p y y')); [rewrite G, G'; field; exact Y|field; exact Y].
Qed.
Lemma many_points A n : gon p a b A -> A <> O -> prime n -> zm n A = O -> (n - 1) / 2 <= p.
Proof.
  intros G NO Pn En. set (m := Z.to_nat ((n - 1) / 2)).
  set (f := fun k : nat => xco (zm (Z.of_nat k) A)).
  assert (N2 := prime_ge_2 n Pn).
  assert (Hm : 2 * Z.of_nat m <= n - 1) by (unfold m; rewrite Z2Nat.id by (apply Z.div_pos; lia); pose proof (Z.mul_div_le (n - 1) 2); lia).
  assert (ND : NoDup (map f (seq 1 m))).
  { assert (K : forall l, NoDup l -> (forall k, In k l -> (1 <= k <= m)%nat) -> NoDup (map f l)).
    { induction l as [|k l IH]; cbn [map]; intros Hd Hr; [constructor|]. inversion Hd as [|? ? Nk Hd']; subst. constructor; [|apply IH; [exact Hd'|intros j' I; apply Hr; now right]].
      intros I. apply in_map_iff in I as (k' & E & I'). assert (Rk := Hr k ltac:(now left)). assert (Rk' := Hr k' ltac:(now right)).
      unfold f in E. apply same_x in E; try (apply (gon_zmul p Hp p3 a b); exact G). destruct E as [E|E].
      - assert (D : (n | Z.of_nat k' - Z.of_nat k)).
        { apply (killed A); try assumption. unfold Z.sub. rewrite (zmul_add p Hp p3 a b NS) by exact G. rewrite (zmul_opp p Hp p3 a b) by exact G. rewrite E. apply (gadd_opp p Hp). }
        destruct (Z.eq_dec (Z.of_nat k' - Z.of_nat k) 0) as [Z0|Z0]; [assert (k = k') by lia; subst k'; contradiction|].
        destruct D as [t D]. assert (t = 0) by nia. nia.
      - assert (D : (n | Z.of_nat k' + Z.of_nat k)).
        { apply (killed A); try assumption. rewrite (zmul_add p Hp p3 a b NS) by exact G. rewrite E. 
          rewrite (gadd_comm p Hp p3 a b); [|apply (gon_opp p Hp a b)|]; try (apply (gon_zmul p Hp p3 a b); exact G). apply (gadd_opp p Hp). }
        apply Z.divide_pos_le in D; lia. }
    apply K; [apply seq_NoDup|]. intros k I. apply in_seq in I. lia. }
  assert (IN : incl (map f (seq 1 m)) (map Z.of_nat (seq 0 (Z.to_nat p)))).
  { intros v I. apply in_map_iff in I as (k & E & I). apply in_seq in I. unfold f in E.
    destruct (zm (Z.of_nat k) A) as [|x y] eqn:EA.
    - exfalso. assert (D : (n | Z.of_nat k)) by (apply (killed A); assumption). apply Z.divide_pos_le in D; lia.
    - cbn [xco] in E. pose proof (fv_range p Hp x). apply in_map_iff. exists (Z.to_nat v). split; [lia|]. apply in_seq. lia. }
  apply NoDup_incl_length in IN; [|exact ND]. rewrite !map_length, !seq_length in IN. unfold m in IN. lia.
Qed.
End Points.

Theorem ec_prime j n : ec_check_n j n = true -> prime n -> 1 < e_n j -> Z.log2 (e_n j) + 5 <= 2 * Z.log2 n -> prime (e_n j).
Proof.
  intros H Pn Hz HL. destruct (prime_dec (e_n j)) as [P|P]; [exact P|exfalso]. apply small_divisor in P as (q & Hq & Dq & SQ); [|exact Hz].
  unfold ec_check_n in H. apply andb_true_iff in H as [HD HC]. apply Z.eqb_eq in HD.
  destruct (ec_sound j HC q Hq Dq) as (_ & _ & _ & _ & Q3 & NS & G & E). rewrite HD in E. replace (n - 1 + 1) with n in E by ring.
  pose proof (many_points q Hq Q3 (e_a j) (e_b j) NS _ n G ltac:(discriminate) Pn E) as K.
  assert (N2 := prime_ge_2 n Pn).
  pose proof (Z.log2_spec n ltac:(lia)) as [L1 _]. pose proof (Z.log2_spec (e_n j) ltac:(lia)) as [_ L2].
  assert (H1 : 2 ^ (Z.succ (Z.log2 (e_n j)) + 4) <= 2 ^ (2 * Z.log2 n)) by (apply Z.pow_le_mono_r; lia).
  pose proof (Z.log2_nonneg n). pose proof (Z.log2_nonneg (e_n j)).
  replace (2 * Z.log2 n) with (Z.log2 n + Z.log2 n) in H1 by lia. rewrite !Z.pow_add_r in H1 by lia. change (2 ^ 4) with 16 in H1.
  assert (H2 : n <= 2 * q + 2) by (pose proof (Z.div_mod (n - 1) 2 ltac:(lia)); pose proof (Z.mod_pos_bound (n - 1) 2 ltac:(lia)); lia).
  assert (H3 : 16 * e_n j < n * n) by nia. nia.
Qed.

(** the point has order n when n and the modulus are prime *)
Theorem ec_order_ok j n : ec_check_n j n = true -> prime n -> prime (e_n j) ->
  3 < e_n j /\ nonsingular (e_n j) (e_a j) (e_b j) /\ on_ec (e_n j) (e_a j) (e_b j) (Some (e_x j, e_y j)) /\ ec_order (e_n j) (e_a j) (Some (e_x j, e_y j)) n.
Proof.
  intros H Pn Pp. unfold ec_check_n in H. apply andb_true_iff in H as [HD HC]. apply Z.eqb_eq in HD.
  destruct (ec_sound j HC (e_n j) Pp (Z.divide_refl _)) as (Ra & Rb & Rx & Ry & Q3 & NS & G & E). rewrite HD in E. replace (n - 1 + 1) with n in E by ring.
  assert (ON : on_ec (e_n j) (e_a j) (e_b j) (Some (e_x j, e_y j))).
  { split; [exact Rx|]. split; [exact Ry|]. apply fi_diff; [exact Pp|]. unfold gon, on in G. rewrite !fi_add, !fi_mul. exact G. }
  assert (N2 := prime_ge_2 n Pn).
  split; [exact Q3|]. split; [exact NS|]. split; [exact ON|]. split; [lia|]. split.
  - apply (multiple_iff (e_n j) Pp Q3 (e_a j) (e_b j)); [exact ON|exact I|]. symmetry. rewrite <- (zmul_nat (e_n j) (e_a j)) by lia. exact E.
  - intros k Hk M. apply (multiple_iff (e_n j) Pp Q3 (e_a j) (e_b j)) in M; [|exact ON|exact I]. symmetry in M. rewrite <- (zmul_nat (e_n j) (e_a j)) in M by lia.
    apply (killed (e_n j) Pp Q3 (e_a j) (e_b j) NS _ n) in M; try assumption; [|discriminate].
    apply Z.divide_pos_le in M; lia.
Qed.

(** ** Chains *)
Inductive pcert :=
| PPock (k : nat) (z r2 a : Z) (fs : list part)
| PEc (j : ecjob) (n : Z).
Definition p_n (c : pcert) : Z := match c with PPock _ z _ _ _ => z | PEc j _ => e_n j end.
Definition p_check (proven : list Z) (c : pcert) : bool :=
  match c with
  | PPock k z r2 a fs => pock_check proven k z r2 a fs
  | PEc j n => existsb (Z.eqb n) proven && (1 <? e_n j) && (Z.log2 (e_n j) + 5 <=? 2 * Z.log2 n) && ec_check_n j n
  end.
Fixpoint p_chain (proven : list Z) (cs : list pcert) : bool :=
  match cs with [] => true | c :: cs => p_check proven c && p_chain (p_n c :: proven) cs end.
Lemma p_check_prime proven c : Forall prime proven -> p_check proven c = true -> prime (p_n c).
Proof.
  destruct c as [k z r2 a fs|j n]; cbn [p_check p_n]; intros HP H.
  - apply (pock_prime proven k z r2 a fs HP H).
  - rewrite !andb_true_iff in H. destruct H as (((H1 & H2) & H3) & H4). apply existsb_exists in H1 as (n' & I & E). apply Z.eqb_eq in E. subst n'.
    rewrite Forall_forall in HP. apply Z.ltb_lt in H2. apply Z.leb_le in H3. apply (ec_prime j n H4 (HP n I) H2 H3).
Qed.
Theorem p_chain_prime cs : forall proven, Forall prime proven -> p_chain proven cs = true -> Forall prime (map p_n cs).
Proof.
  induction cs as [|c cs IH]; intros proven HP H; [constructor|]. cbn [p_chain] in H. apply andb_true_iff in H as (H1 & H2).
  apply p_check_prime in H1; [|exact HP]. constructor; [exact H1|]. apply (IH (p_n c :: proven)); auto.
Qed.

(** a curve with prime modulus whose point has prime order *)
Definition job_ok (j : ecjob) (n : Z) : Prop :=
  prime (e_n j) /\ prime n /\ 3 < e_n j /\ 0 <= e_a j < e_n j /\ 0 <= e_b j < e_n j /\ nonsingular (e_n j) (e_a j) (e_b j) /\
  on_ec (e_n j) (e_a j) (e_b j) (Some (e_x j, e_y j)) /\ ec_order (e_n j) (e_a j) (Some (e_x j, e_y j)) n.
Lemma chain_prime cs n : p_chain [2] cs = true -> existsb (Z.eqb n) (map p_n cs) = true -> prime n.
Proof.
  intros H I. apply existsb_exists in I as (m & I & E). apply Z.eqb_eq in E. subst m.
  apply p_chain_prime in H; [|constructor; [apply prime_2|constructor]]. rewrite Forall_forall in H. auto.
Qed.
Definition job_check (j : ecjob) (n : Z) : bool := (1 <? e_n j) && (Z.log2 (e_n j) + 5 <=? 2 * Z.log2 n) && ec_check_n j n.
Theorem job_check_ok j n : prime n -> job_check j n = true -> job_ok j n.
Proof.
  unfold job_check. intros Pn H. rewrite !andb_true_iff in H. destruct H as ((H1 & H2) & H3). apply Z.ltb_lt in H1. apply Z.leb_le in H2.
  assert (Pp := ec_prime j n H3 Pn H1 H2). destruct (ec_order_ok j n H3 Pn Pp) as (A & B & C & D).
  pose proof H3 as H4. unfold ec_check_n in H4. apply andb_true_iff in H4 as [_ HC].
  destruct (ec_sound j HC (e_n j) Pp (Z.divide_refl _)) as (Ra & Rb & _). unfold job_ok. auto 10.
Qed.
