(** Facts about the seeds and parameters of the Brainpool curves. *)
From Coq Require Import ZArith List Bool String Reals Znumtheory Lia.
From Verif Require Import Model.Py Model.Pi Model.Ecc Model.Curves Model.BrainpoolSeeds Spec.NumberSpec Spec.SeedSpec Spec.CurveView Spec.CurveClasses Spec.BrainpoolSpec.
From Verif Require Import Proofs.Cong Proofs.NTBasic Proofs.Legendre Proofs.SqrtFacts Proofs.BrainpoolPi Proofs.ExpValue Proofs.BrainpoolCerts Proofs.Composite Proofs.CurveFacts Proofs.CurveParamFacts Proofs.TableFacts.
Import ListNotations.
Local Open Scope string_scope.
Local Open Scope Z_scope.

Opaque N1000 D1000 U U_top.
(** ** brainpool_seeds *)
Lemma c84_seeds : forall num bits, 0 <= num -> 0 < bits -> bits mod 8 = 0 -> num * bits <= 3321 -> exists l, brainpool_seeds num bits = Ok l /\ Z.of_nat (List.length l) = num /\
  forall i v, nth_error l i = Some v -> bit_group PI bits (Z.of_nat i) v.
Proof.
  intros num bits H1 H2 H3 H4. pose proof (Z.div_mod bits 8 ltac:(lia)) as D. rewrite H3, Z.add_0_r in D.
  assert (W : 0 < bits / 8) by lia. set (w := Z.to_nat (bits / 8)). assert (EW : bits = 8 * Z.of_nat w) by (unfold w; rewrite Z2Nat.id; lia).
  assert (EN : num = Z.of_nat (Z.to_nat num)) by lia. set (n := Z.to_nat num) in *. clearbody n w. subst num bits. clear D W H1 H3.
  eexists. split; [apply pi_seeds_ok; lia|]. split; [rewrite map_length, seq_length; reflexivity|].
  intros i v. rewrite nth_error_map. destruct (nth_error (seq 0 n) i) as [j|] eqn:E; [|discriminate]. cbn [option_map]. intros HV. apply (f_equal (fun o => match o with Some x => x | None => 0 end)) in HV. cbv beta iota in HV. subst v.
  assert (I : (i < n)%nat) by (rewrite <- (seq_length n 0); apply nth_error_Some; congruence).
  assert (J : j = i). { apply (nth_error_nth _ _ 0%nat) in E. rewrite seq_nth in E by exact I. lia. }
  subst j. exists (U (8 * Z.of_nat w * (Z.of_nat i + 1) - 4)). split; [|reflexivity]. apply U_floor. unfold top. nia.
Qed.
Lemma c84_raises : forall num bits, 0 <= num -> 0 <= bits ->
  (3321 < num * bits -> brainpool_seeds num bits = Raise TypeError) /\
  (bits mod 8 <> 0 -> brainpool_seeds num bits = Raise TypeError) /\
  (0 < num -> bits = 0 -> brainpool_seeds num bits = Raise ValueError).
Proof.
  intros num bits H1 H2. unfold brainpool_seeds. rewrite pi_fraction_ok. cbn [bind]. cbv zeta. rewrite denom_check by nia. split; [|split].
  - intros H. replace (num * bits <=? 3321) with false by lia. reflexivity.
  - intros H. destruct (num * bits <=? 3321); cbn [negb]; [|reflexivity]. replace (bits mod 8 =? 0) with false by lia. reflexivity.
  - intros N ->. rewrite Z.mul_0_r. cbn [Z.leb Z.compare negb]. change (0 mod 8) with 0. change (0 / 8) with 0. cbn [Z.eqb negb].
    destruct (Z.to_nat num) as [|n] eqn:E; [lia|]. cbn [seq seed_loop]. generalize (firstn 1000 (py_hex (N1000 * 2 ^ 0 / 10 ^ 1000))). intros h.
    change (Z.of_nat 0 * 0 * 2) with 0. change ((Z.of_nat 0 + 1) * 0 * 2) with 0. unfold py_slice, slice. rewrite Z.sub_diag. reflexivity.
Qed.

(** ** the seeds of the classes *)
Definition seed_of (name : string) (e : curve_class * Z * Z) : res Z := int_attr (fst (fst e)) name.
Fixpoint all_ok (l : list (res Z)) : res (list Z) :=
  match l with [] => Ok [] | r :: l => do x <- r; do y <- all_ok l; Ok (x :: y) end.
(** the number whose digits to base 2^160 are given *)
Definition join (l : list Z) : Z := fold_left (fun x v => x * 2 ^ 160 + v) l 0.
Lemma join_groups l : Forall (fun v => 0 <= v < 2 ^ 160) l -> forall acc i v, 0 <= acc -> nth_error l i = Some v ->
  v = (fold_left (fun x v => x * 2 ^ 160 + v) l acc / 2 ^ (160 * (Z.of_nat (List.length l) - 1 - Z.of_nat i))) mod 2 ^ 160.
Proof.
  assert (LO : forall l, Forall (fun v => 0 <= v < 2 ^ 160) l -> forall acc, fold_left (fun x v => x * 2 ^ 160 + v) l acc / 2 ^ (160 * Z.of_nat (List.length l)) = acc).
  { clear. induction 1 as [|v l V F IH]; intros acc; cbn [fold_left List.length].
    - change (2 ^ (160 * Z.of_nat 0)) with 1. apply Z.div_1_r.
    - replace (160 * Z.of_nat (S (List.length l))) with (160 * Z.of_nat (List.length l) + 160) by lia. rewrite Z.pow_add_r by lia. rewrite <- Z.div_div by (try apply Z.pow_pos_nonneg; lia). rewrite IH.
      generalize dependent (2 ^ 160). intros b V _ _. rewrite Z.div_add_l by lia. rewrite Z.div_small by exact V. lia. }
  induction 1 as [|x l V F IH]; intros acc i v A E; [destruct i; discriminate|]. cbn [fold_left List.length]. destruct i as [|i]; cbn [nth_error] in E.
  - apply (f_equal (fun o => match o with Some x => x | None => 0 end)) in E. cbv beta iota in E. subst x.
    replace (Z.of_nat (S (List.length l)) - 1 - Z.of_nat 0) with (Z.of_nat (List.length l)) by lia. rewrite (LO l F). clear - V. generalize dependent (2 ^ 160). intros b V. rewrite Z.add_comm, Z.mod_add by lia. symmetry. apply Z.mod_small. exact V.
  - replace (Z.of_nat (S (List.length l)) - 1 - Z.of_nat (S i)) with (Z.of_nat (List.length l) - 1 - Z.of_nat i) by lia. apply IH; [|exact E]. clear - V A. generalize dependent (2 ^ 160). intros. nia.
Qed.
Definition small_seed (v : Z) : bool := (0 <=? v) && (v <? 2 ^ 160).
Lemma small_seeds l : forallb small_seed l = true -> Forall (fun v => 0 <= v < 2 ^ 160) l.
Proof. intros H. apply Forall_forall. intros v I. apply (proj1 (forallb_forall _ _) H) in I. apply andb_prop in I as [I1 I2]. apply Z.leb_le in I1. apply Z.ltb_lt in I2. now split. Qed.
Lemma seed_p_check : (match all_ok (map (seed_of "seed_p") brainpool_curves) with
  Ok l => (Z.of_nat (List.length l) =? 7) && forallb small_seed l && (join l =? Z.shiftr U_top (top - 1116)) | _ => false end) = true.
Proof. vm_cast_no_check (eq_refl true). Qed.
Lemma all_ok_map {A} (f : A -> res Z) : forall l r, all_ok (map f l) = Ok r -> map f l = map Ok r.
Proof.
  induction l as [|x l IH]; intros r; cbn [map all_ok]; [intros H; inversion H; reflexivity|]. destruct (f x) as [v|]; [|discriminate]. cbn [bind].
  destruct (all_ok (map f l)) as [y|]; [|discriminate]. cbn [bind]. intros H. inversion H. cbn [map]. f_equal. now apply IH.
Qed.
Lemma c84_seed_p : exists l, brainpool_seeds 7 160 = Ok l /\ map (fun e => int_attr (fst (fst e)) "seed_p") brainpool_curves = map Ok l.
Proof.
  pose proof seed_p_check as H. destruct (all_ok _) as [l|] eqn:E; [|discriminate]. rewrite !andb_true_iff in H. destruct H as ((H1 & H2) & H3).
  apply Z.eqb_eq in H1, H3. apply small_seeds in H2. rewrite U_top_shift in H3 by (unfold top; lia).
  exists l. split; [|exact (all_ok_map _ _ _ E)]. clear E. change 7 with (Z.of_nat 7). change 160 with (8 * Z.of_nat 20). rewrite pi_seeds_ok by lia. f_equal.
  set (f := fun i : nat => U (8 * Z.of_nat 20 * (Z.of_nat i + 1) - 4) mod 2 ^ (8 * Z.of_nat 20)).
  apply (nth_ext _ _ (f 0%nat) 0); [rewrite map_length, seq_length; lia|]. intros i I. rewrite map_length, seq_length in I.
  rewrite map_nth, seq_nth by exact I. unfold f. change (8 * Z.of_nat 20) with 160. cbn [Nat.add].
  destruct (nth_error l i) as [v|] eqn:N; [|apply nth_error_None in N; clear - N H1 I; lia].
  rewrite (nth_error_nth _ _ 0 N). rewrite (join_groups l H2 0 i v ltac:(lia) N). fold (join l). rewrite H3, H1.
  rewrite (U_div_eq 1116 (160 * (Z.of_nat i + 1) - 4) (160 * (7 - 1 - Z.of_nat i)) ltac:(clear; lia) ltac:(clear; lia) ltac:(clear - I; lia)). reflexivity.
Qed.
Lemma e_value_check : (match all_ok (map (seed_of "seed_ab") brainpool_curves) with
  Ok l => (Z.of_nat (List.length l) =? 7) && forallb small_seed l && e_check 96 1116 (join l) | _ => false end) = true.
Proof. vm_cast_no_check (eq_refl true). Qed.
Lemma floor_shift r m t V : 0 <= m -> 0 <= t -> floor_of (r * IZR (2 ^ (m + t)))%R V -> floor_of (r * IZR (2 ^ m))%R (V / 2 ^ t).
Proof.
  intros M T (H1 & H2). assert (P : 0 < 2 ^ t) by (apply Z.pow_pos_nonneg; lia). rewrite Z.pow_add_r, mult_IZR, <- Rmult_assoc in H1, H2 by lia.
  pose proof (Z.mul_div_le V (2 ^ t) P) as L. pose proof (Z.mul_succ_div_gt V (2 ^ t) P) as G. set (q := V / 2 ^ t) in *. set (x := (r * IZR (2 ^ m))%R) in *.
  apply Z.le_succ_l in G. change (Z.succ V) with (V + 1) in G. change (Z.succ q) with (q + 1) in G. apply IZR_le in L, G. rewrite mult_IZR in L, G. rewrite !plus_IZR in G.
  assert (P' := IZR_lt _ _ P). generalize dependent (IZR (2 ^ t)). intros y. intros. split; apply (fun h => h).
  - apply (Rmult_le_reg_r y); [exact P'|]. eapply Rle_trans; [|exact H1]. now rewrite Rmult_comm.
  - apply (Rmult_lt_reg_r y); [exact P'|]. eapply Rlt_le_trans; [exact H2|]. now rewrite Rmult_comm.
Qed.
Lemma c84_seed_ab : exists l, map (fun e => int_attr (fst (fst e)) "seed_ab") brainpool_curves = map Ok l /\ forall i v, nth_error l i = Some v -> bit_group (exp 1) 160 (Z.of_nat i) v.
Proof.
  pose proof e_value_check as H. destruct (all_ok _) as [l|] eqn:E; [|discriminate]. rewrite !andb_true_iff in H. destruct H as ((H1 & H2) & H3).
  apply Z.eqb_eq in H1. apply small_seeds in H2. apply e_check_ok in H3; [|lia].
  exists l. split; [exact (all_ok_map _ _ _ E)|]. intros i v I. assert (LI : (i < List.length l)%nat) by (apply nth_error_Some; congruence).
  exists (join l / 2 ^ (160 * (7 - 1 - Z.of_nat i))). split; [|rewrite <- H1; exact (join_groups l H2 0 i v ltac:(lia) I)].
  apply floor_shift; [lia|lia|]. replace (160 * (Z.of_nat i + 1) - 4 + 160 * (7 - 1 - Z.of_nat i)) with 1116 by lia. exact H3.
Qed.

(** ** the parameters *)
Fixpoint squares_check (L sa p j : Z) (l : list (Z * Z)) (b : Z) : bool :=
  match l with
  | [] => hash_expand L 1 (sa + j) =? b
  | (r, k) :: l => (r * r - hash_expand L 1 (sa + j) =? k * p) && squares_check L sa p (j + 1) l b
  end.
Lemma squares_ok L sa p b : 0 < p -> forall l j, squares_check L sa p j l b = true -> exists i, j <= i /\ b = hash_expand L 1 (sa + i) /\ forall k, j <= k < i -> square_mod (hash_expand L 1 (sa + k)) p.
Proof.
  intros P. induction l as [|[r k] l IH]; intros j H; cbn [squares_check] in H.
  - apply Z.eqb_eq in H. exists j. split; [lia|]. split; [auto|]. intros; lia.
  - apply andb_prop in H as [H1 H2]. apply Z.eqb_eq in H1. destruct (IH _ H2) as (i & I1 & I2 & I3). exists i. split; [lia|]. split; [exact I2|].
    intros m M. destruct (Z.eq_dec m j) as [->|N]; [|apply I3; lia]. exists r. rewrite H1. apply Z.mod_mul. lia.
Qed.
Definition fourth_check (p a : Z) (f : Z * Z * Z * Z * Z * Z) : bool :=
  let '(z, k1, r1, k2, r2, k3) := f in (z * z =? k1 * p + r1) && (r1 * r1 =? k2 * p + r2) && (a * r2 + 3 =? k3 * p).
Lemma fourth_ok p a f : fourth_check p a f = true -> exists k, a * fst (fst (fst (fst (fst f)))) ^ 4 + 3 = k * p.
Proof.
  destruct f as [[[[[z k1] r1] k2] r2] k3]. unfold fourth_check. rewrite !andb_true_iff. intros ((H1 & H2) & H3). apply Z.eqb_eq in H1, H2, H3. cbn [fst].
  exists (a * (k1 * (k1 * p + 2 * r1) + k2) + k3). replace (a * z ^ 4 + 3) with (a * ((z * z) * (z * z)) + 3) by ring. rewrite H1.
  replace (a * ((k1 * p + r1) * (k1 * p + r1)) + 3) with (a * (k1 * (k1 * p + 2 * r1) * p + r1 * r1) + 3) by ring. rewrite H2.
  replace (a * (k1 * (k1 * p + 2 * r1) * p + (k2 * p + r2)) + 3) with (a * (k1 * (k1 * p + 2 * r1) + k2) * p + (a * r2 + 3)) by ring. rewrite H3. ring.
Qed.
Definition param_check (e : curve_class * Z * Z) (c : bcert) : bool :=
  let '(cl, o, ia) := e in
  with_int (int_attr cl "p") (fun p => with_int (int_attr cl "a") (fun a => with_int (int_attr cl "b") (fun b => with_int (int_attr cl "seed_p") (fun sp => with_int (int_attr cl "seed_ab") (fun sab =>
  let L := bit_length p in let x := hash_expand L 0 (sp + o) in
  (p mod 4 =? 3) && composites (x + (3 - x mod 4)) p (b_certs c) && (a =? hash_expand L 1 (sab + ia)) && fourth_check p a (b_fourth c) &&
  squares_check L (sab + ia) p 1 (b_squares c) b && (b_root c * b_root c + b =? b_quot c * p) && (0 <? b) && (b <? p)))))).
Fixpoint params_go (l : list (curve_class * Z * Z)) (m : list bcert) : bool :=
  match l, m with [], [] => true | e :: l, c :: m => param_check e c && params_go l m | _, _ => false end.
Lemma params_check : params_go brainpool_curves bcerts = true.
Proof. vm_cast_no_check (eq_refl true). Qed.
Lemma params_in : forall l m, params_go l m = true -> forall e, In e l -> exists c, param_check e c = true.
Proof.
  induction l as [|x l IH]; intros m H e I; [destruct I|]. destruct m as [|c m]; [discriminate|]. cbn [params_go] in H. apply andb_prop in H as [H1 H2]. destruct I as [<-|I]; [now exists c|]. exact (IH m H2 e I).
Qed.
Lemma sw_brainpool c o i : In (c, o, i) brainpool_curves -> short_weierstrass c.
Proof.
  intros H. unfold brainpool_curves in H. cbn [In] in H.
  repeat (destruct H as [H|H]; [inversion H; split; [unfold module_classes; repeat (first [left; reflexivity|right])|left; left; reflexivity]|]). destruct H.
Qed.
Lemma minus_square p b r k : prime p -> p mod 4 = 3 -> 0 < b < p -> r * r + b = k * p -> ~ square_mod b p.
Proof.
  intros Pp P4 B E. assert (O2 : p mod 2 = 1) by (clear - P4; Z.div_mod_to_equations; lia). apply (nonsquare_lz p Pp O2).
  assert (X : lz p (-1 * b) = 1).
  { apply (lz_square Pp O2).
    - intros Z0. apply Z.mod_divide in Z0; [|lia]. destruct Z0 as (q & Q). assert (D : (p | b)) by (exists (- q); lia). apply Z.divide_pos_le in D; lia.
    - exists r. replace (r * r - -1 * b) with (k * p) by lia. apply Z.mod_mul. lia. }
  rewrite (lz_mul Pp O2), (lz_neg1 Pp O2), P4 in X. cbn [Z.eqb Pos.eqb] in X. lia.
Qed.
Lemma c84_parameters : forall c o i, In (c, o, i) brainpool_curves -> exists p a b n seed_p seed_ab,
  class_curve c = Ok (Curve p a b n) /\ int_attr c "seed_p" = Ok seed_p /\ int_attr c "seed_ab" = Ok seed_ab /\
  rfc5639_parameters (bit_length p) (seed_p + o) (seed_ab + i) p a b.
Proof.
  intros c o i I. destruct (params_in _ _ params_check _ I) as (ct & H). unfold param_check in H.
  apply with_int_ok in H as (p & Ep & H). apply with_int_ok in H as (a & Ea & H). apply with_int_ok in H as (b & Eb & H). apply with_int_ok in H as (sp & Esp & H). apply with_int_ok in H as (sab & Esab & H).
  cbv zeta in H. rewrite !andb_true_iff in H. destruct H as (((((((H1 & H2) & H3) & H4) & H5) & H6) & H7) & H8).
  destruct (c71_parameters c (sw_brainpool c o i I)) as (p' & a' & b' & n & x & y & EC & _ & _ & Pp & _).
  destruct (class_curve_attrs _ _ EC) as (Ep' & Ea' & Eb' & _). cbn [c_p c_a c_b] in *.
  assert (p' = p) by congruence. assert (a' = a) by congruence. assert (b' = b) by congruence. subst p' a' b'.
  exists p, a, b, n, sp, sab. split; [exact EC|]. split; [exact Esp|]. split; [exact Esab|]. clear EC Ep Ea Eb Ep' Ea' Eb' Esp Esab I.
  apply Z.eqb_eq in H1, H3, H6. apply fourth_ok in H4 as (k4 & H4). apply Z.ltb_lt in H7, H8. assert (P2 := prime_ge_2 _ Pp).
  split; [|split; [reflexivity|split; [exact H3|split]]].
  - set (h := hash_expand (bit_length p) 0 (sp + o)) in *. clearbody h. clear - H1 H2 Pp.
    assert (M : (h + (3 - h mod 4)) mod 4 = 3) by (Z.div_mod_to_equations; lia). pose proof (Z.mod_pos_bound h 4 ltac:(lia)) as B.
    destruct (composites_ok p _ _ M H2) as (LE & C). split; [lia|]. split; [exact Pp|]. split; [exact H1|]. intros q Q Q3.
    apply C; [|exact Q3]. split; [|lia]. clear - Q Q3 B. Z.div_mod_to_equations. lia.
  - eexists. rewrite H4. apply Z.mod_mul. lia.
  - assert (P0 : 0 < p) by lia. destruct (squares_ok _ _ _ _ P0 _ _ H5) as (j & J1 & J2 & J3). exists j. split; [lia|]. split; [exact J2|]. split; [apply (minus_square p b _ _ Pp H1 ltac:(lia) H6)|]. intros k K. apply J3. lia.
Qed.

(** ** brainPoolRequirements *)
Lemma c84_requirements_refuted : forall c o i E, In (c, o, i) brainpool_curves -> class_curve c = Ok E -> brainPoolRequirements E = Raise NameError.
Proof.
  intros c o i E I EC. destruct (c84_parameters c o i I) as (p & a & b & n & sp & sab & EC' & _ & _ & ((_ & Pp & P4 & _) & _)).
  destruct (p_mod_8 c E (sw_brainpool c o i I) EC) as (_ & PB & _). assert (X : E = Curve p a b n) by congruence. clear - X P4 PB. subst E.
  unfold brainPoolRequirements. cbn [c_p] in *. rewrite P4. unfold py_assert. replace (3 <? p) with true by lia. reflexivity.
Qed.
