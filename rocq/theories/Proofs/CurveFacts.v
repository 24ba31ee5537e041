(** C59-C67, C77. *)
From Coq Require Import Znumtheory Setoid Lia List.
From Verif Require Import Proofs.Tac Proofs.Cong Proofs.Primality Proofs.PrimeCert Proofs.NTBasic Proofs.SqrtFacts Proofs.Fp Proofs.ECGroup Proofs.Curve Proofs.CurveProg Proofs.ScalarMul.
From Verif Require Import Model.Py Model.NumberTheory Model.Ecc Spec.NumberSpec Spec.CurveSpec Spec.CurveView.
Import ListNotations.
Local Open Scope Z_scope.

Lemma prime_trial n k : 1 < n -> n < (Z.of_nat k + 2) * (Z.of_nat k + 2) -> forallb (fun d => negb (n mod Z.of_nat d =? 0)) (seq 2 k) = true -> prime n.
Proof.
  intros N K F. destruct (prime_dec n) as [P|P]; [exact P|exfalso]. destruct (small_divisor n N P) as (q & Pq & D & S). assert (Q := prime_ge_2 q Pq).
  rewrite forallb_forall in F. specialize (F (Z.to_nat q)). rewrite Z2Nat.id in F by lia. apply Z.mod_divide in D; [|lia]. rewrite D in F.
  discriminate F. apply in_seq. nia.
Qed.
Lemma sum_fun p a b P Q R R' : prime p -> 3 < p -> on_ec p a b P -> on_ec p a b Q -> ec_sum p a P Q R -> ec_sum p a P Q R' -> R = R'.
Proof. intros Hp p3 A B S S'. apply (sum_h p Hp p3 a b) in S as (O1 & E1), S' as (O2 & E2); auto. apply (h_inj p a b); congruence. Qed.
Lemma mult_fun p a b P k R R' : prime p -> 3 < p -> on_ec p a b P -> ec_multiple p a P k R -> ec_multiple p a P k R' -> R = R'.
Proof. intros Hp p3 A S S'. apply (multiple_h p Hp p3 a b) in S as (O1 & E1), S' as (O2 & E2); auto. apply (h_inj p a b); congruence. Qed.

(** ** the group of the specification *)
Lemma c60_group : forall p a b, prime p -> 3 < p -> nonsingular p a b ->
  (forall P Q, on_ec p a b P -> on_ec p a b Q -> exists R, on_ec p a b R /\ ec_sum p a P Q R /\ forall R', ec_sum p a P Q R' -> R' = R) /\
  (forall P Q R, on_ec p a b P -> on_ec p a b Q -> ec_sum p a P Q R -> ec_sum p a Q P R) /\
  (forall P, on_ec p a b P -> on_ec p a b (ec_neg p P) /\ ec_sum p a P None P /\ ec_sum p a P (ec_neg p P) None) /\
  (forall P Q R PQ QR S, on_ec p a b P -> on_ec p a b Q -> on_ec p a b R ->
     ec_sum p a P Q PQ -> ec_sum p a Q R QR -> (ec_sum p a PQ R S <-> ec_sum p a P QR S)).
Proof.
  intros p a b Hp p3 NS. split; [|split; [|split]].
  - intros P Q OP OQ. destruct (sum_ex p Hp p3 a b P Q OP OQ) as (R & S). exists R. split; [now apply (sum_h p Hp p3 a b P Q)|]. split; [exact S|].
    intros R' S'. exact (sum_fun p a b P Q R' R Hp p3 OP OQ S' S).
  - intros P Q R OP OQ S. destruct (sum_h p Hp p3 a b P Q R OP OQ S) as (OR & E). apply (sum_iff p Hp p3 a b); auto. rewrite <- E.
    apply (gadd_comm p Hp p3 a b); now apply h_on.
  - intros P OP. split; [now apply neg_on|]. split; constructor.
  - intros P Q R PQ QR S OP OQ OR S1 S2. destruct (sum_h p Hp p3 a b _ _ _ OP OQ S1) as (O1 & E1), (sum_h p Hp p3 a b _ _ _ OQ OR S2) as (O2 & E2).
    assert (A : gadd p a (h p PQ) (h p R) = gadd p a (h p P) (h p QR)). { rewrite <- E1, <- E2. apply (gassoc p Hp p3 a b NS); now apply h_on. }
    split; intros H; [destruct (sum_h p Hp p3 a b _ _ _ O1 OR H) as (OS & ES)|destruct (sum_h p Hp p3 a b _ _ _ OP O2 H) as (OS & ES)]; apply (sum_iff p Hp p3 a b); congruence.
Qed.
(** ** the program *)
Lemma c59_closed : forall c P Q, prime (c_p c) -> 3 < c_p c -> valid c P -> valid c Q -> exists fuel0, forall fuel, (fuel0 <= fuel)%nat ->
  exists R, add_points fuel c P Q = Ok R /\ on_curve c R = true /\ valid c R /\ ec_sum (c_p c) (c_a c) (denotes c P) (denotes c Q) (denotes c R) /\ add_points fuel c Q P = Ok R.
Proof.
  intros c P Q Hp p3 VP VQ. exists (steps (c_p c)). intros fuel Hf. destruct (add_ok c Hp p3 fuel Hf P Q VP VQ) as (R & E & V & S & _). exists R.
  rewrite <- (add_commutes c Hp p3 fuel Hf P Q VP VQ). auto using valid_on_curve.
Qed.
Lemma c59_double : forall c x y, prime (c_p c) -> 3 < c_p c -> valid c (Aff x y) -> y mod c_p c <> 0 -> exists fuel0, forall fuel, (fuel0 <= fuel)%nat ->
  exists R, double_point fuel c (Aff x y) = Ok R /\ valid c R /\ ec_sum (c_p c) (c_a c) (denotes c (Aff x y)) (denotes c (Aff x y)) (denotes c R) /\
    add_points fuel c (Aff x y) (Aff x y) = Ok R.
Proof.
  intros c x y Hp p3 V N. exists (steps (c_p c)). intros fuel Hf. destruct (double_ok c Hp p3 fuel Hf x y V N) as (R & E & VR & _ & S). exists R. split; [exact E|]. split; [exact VR|]. split; [exact S|].
  cbn [add_points]. rewrite Z.eqb_refl. destruct (Z.eqb_spec ((y + y) mod c_p c) 0) as [Y|Y]; [exfalso|exact E].
  apply Z.mod_divide in Y; [|lia]. replace (y + y) with (2 * y) in Y by ring. apply prime_mult in Y; [|exact Hp]. destruct Y as [Y|Y]; [apply Z.divide_pos_le in Y; lia|].
  apply N. apply Z.mod_divide; [lia|exact Y].
Qed.
Lemma c59_negate : forall c x y, prime (c_p c) -> 3 < c_p c -> valid c (Aff x y) ->
  exists N, negate c (Aff x y) = Ok N /\ valid c N /\ denotes c N = ec_neg (c_p c) (denotes c (Aff x y)).
Proof. intros c x y Hp p3 V. exists (Aff x (- y)). now apply negate_ok. Qed.
Lemma c59_neutral : forall c fuel P, add_points fuel c P Inf = Ok P /\ add_points fuel c Inf P = Ok P.
Proof. intros c fuel P. now destruct P. Qed.
(** exactly the points of the curve are accepted *)
Lemma c59_constructor : forall c x y, prime (c_p c) ->
  mk_point c x y = if (y * y - (x * x * x + c_a c * x + c_b c)) mod c_p c =? 0 then Ok (Aff x y) else Raise AssertionError.
Proof.
  intros c x y Hp. assert (P2 := prime_ge_2 _ Hp). unfold mk_point. cbn [on_curve]. replace (y ^ 2) with (y * y) by ring. replace (x ^ 3) with (x * x * x) by ring.
  destruct (Z.eqb_spec ((y * y) mod c_p c) ((x * x * x + c_a c * x + c_b c) mod c_p c)) as [E|E].
  - replace (_ =? 0) with true; [reflexivity|]. symmetry. apply Z.eqb_eq. apply Z.mod_divide; [lia|]. apply cong_divide; [lia|]. now split.
  - replace (_ =? 0) with false; [reflexivity|]. symmetry. apply Z.eqb_neq. intros D. apply E. apply uncong. apply cong_divide; [lia|]. apply Z.mod_divide; [lia|exact D].
Qed.
Lemma c60_associative : forall c P Q R, elliptic c -> valid c P -> valid c Q -> valid c R -> exists fuel0, forall fuel, (fuel0 <= fuel)%nat ->
  exists PQ QR U V, add_points fuel c P Q = Ok PQ /\ add_points fuel c PQ R = Ok U /\ add_points fuel c Q R = Ok QR /\ add_points fuel c P QR = Ok V /\ denotes c U = denotes c V.
Proof.
  intros c P Q R (Hp & p3 & NS) VP VQ VR. exists (steps (c_p c)). intros fuel Hf.
  destruct (add_g c Hp p3 fuel Hf P Q VP VQ) as (PQ & E1 & V1 & G1 & _). destruct (add_g c Hp p3 fuel Hf PQ R V1 VR) as (U & E2 & V2 & G2 & _).
  destruct (add_g c Hp p3 fuel Hf Q R VQ VR) as (QR & E3 & V3 & G3 & _). destruct (add_g c Hp p3 fuel Hf P QR VP V3) as (V & E4 & V4 & G4 & _).
  exists PQ, QR, U, V. repeat (split; [assumption|]). apply (h_inj (c_p c) (c_a c) (c_b c)); [now apply valid_on..|].
  rewrite G2, G1, G4, G3. apply (gassoc _ Hp p3 _ _ NS); now apply gon_g.
Qed.
Lemma c60_inverse : forall c x y fuel, prime (c_p c) -> 3 < c_p c -> valid c (Aff x y) ->
  exists N, negate c (Aff x y) = Ok N /\ add_points fuel c (Aff x y) N = Ok Inf /\ sub_points fuel c (Aff x y) (Aff x y) = Ok Inf.
Proof.
  intros c x y fuel Hp p3 V. destruct (negate_ok c p3 x y V) as (E & _). exists (Aff x (- y)). split; [exact E|].
  assert (A : add_points fuel c (Aff x y) (Aff x (- y)) = Ok Inf). { cbn [add_points]. rewrite Z.eqb_refl. replace (y + - y) with 0 by ring. rewrite Z.mod_0_l by lia. reflexivity. }
  split; [exact A|]. unfold sub_points. rewrite E. exact A.
Qed.
(** ** scalar multiplication *)
Lemma c61_scalar_multiple : forall c P, elliptic c -> valid c P -> ec_order (c_p c) (c_a c) (denotes c P) (c_n c) -> exists fuel0, forall fuel, (fuel0 <= fuel)%nat -> forall k,
  if (c_n c mod 4 =? 0) && (k mod c_n c =? c_n c - 1) then scalar_multiple fuel c P k = Raise AssertionError
  else exists R, scalar_multiple fuel c P k = Ok R /\ valid c R /\ ec_zmultiple (c_p c) (c_a c) (denotes c P) k (denotes c R).
Proof.
  intros c P HE V O. exists (mul_fuel c). intros fuel F k. destruct (scalar_ok c HE P k fuel V O F) as (A & B).
  destruct (Z.eqb_spec (c_n c mod 4) 0) as [E|E]; cbn [andb].
  - destruct (Z.eqb_spec (k mod c_n c) (c_n c - 1)) as [E'|E']; [now apply B|]. destruct A as (R & X & Y & Z & _); [now right|]. eauto.
  - destruct A as (R & X & Y & Z & _); [now left|]. eauto.
Qed.
Lemma c61_prime_order : forall c P, elliptic c -> prime (c_n c) -> valid c P -> P <> Inf -> ec_multiple (c_p c) (c_a c) (denotes c P) (Z.to_nat (c_n c)) None ->
  exists fuel0, forall fuel, (fuel0 <= fuel)%nat -> forall k,
  exists R, scalar_multiple fuel c P k = Ok R /\ valid c R /\ ec_zmultiple (c_p c) (c_a c) (denotes c P) k (denotes c R).
Proof.
  intros c P HE Pn V NI M. assert (O := prime_order c HE P Pn V NI M). exists (mul_fuel c). intros fuel F k.
  destruct (scalar_ok c HE P k fuel V O F) as (A & _). destruct A as (R & X & Y & Z & _); [|eauto]. left. intros E. assert (n2 := prime_ge_2 _ Pn).
  apply Z.mod_divide in E; [|lia]. assert (D : (2 | c_n c)) by (apply Z.divide_trans with 4; [exists 2; reflexivity|exact E]).
  apply prime_div_prime in D; [|exact prime_2|exact Pn]. apply Z.divide_pos_le in E; lia.
Qed.
(** n * P == IDENTITY says nothing *)
Lemma c62_any_point : forall fuel c P, c_n c <> 0 -> scalar_multiple fuel c P (c_n c) = Ok Inf.
Proof. intros fuel c P N. unfold scalar_multiple, py_mod. replace (c_n c =? 0) with false by lia. cbn [bind]. now rewrite Z.mod_same. Qed.

(** ** examples on y^2 = x^3 + x + 1 modulo 23 *)
Fixpoint add_times (fuel : nat) (c : curve) (P : point) (k : nat) : res point :=
  match k with 0%nat => Ok Inf | S k => do R <- add_times fuel c P k; add_points fuel c R P end.
Lemma add_times_ok c P fuel : prime (c_p c) -> 3 < c_p c -> valid c P -> (steps (c_p c) <= fuel)%nat -> forall k R, add_times fuel c P k = Ok R ->
  valid c R /\ ec_multiple (c_p c) (c_a c) (denotes c P) k (denotes c R).
Proof.
  intros Hp p3 V F. induction k as [|k IH]; intros R E.
  - injection E as <-. split; [exact I|constructor].
  - cbn [add_times] in E. destruct (add_times fuel c P k) as [R1|] eqn:E1; [|discriminate]. cbn [bind] in E. destruct (IH R1 eq_refl) as (V1 & M).
    destruct (add_ok c Hp p3 fuel F R1 P V1 V) as (R2 & E2 & V2 & S & _). rewrite E in E2. injection E2 as <-. split; [exact V2|]. econstructor; eassumption.
Qed.
Definition c23 (n : Z) : curve := Curve 23 1 1 n.
Lemma p23 : prime 23. Proof. apply (prime_trial 23 5); [lia|vm_compute; reflexivity|vm_compute; reflexivity]. Qed.
Lemma c23_elliptic n : elliptic (c23 n). Proof. split; [exact p23|]. split; [cbn; lia|]. vm_compute. discriminate. Qed.
Lemma v23 n : valid (c23 n) (Aff 3 10). Proof. split; [cbn; lia|reflexivity]. Qed.
Lemma mult23 n k R : add_times (steps 23) (c23 n) (Aff 3 10) k = Ok R -> ec_multiple 23 1 (Some (3, 10)) k (denotes (c23 n) R).
Proof. intros E. apply (add_times_ok (c23 n) (Aff 3 10) (steps 23) p23 ltac:(cbn; lia) (v23 n) (le_n _) k R E). Qed.
Lemma order23 : ec_order 23 1 (Some (3, 10)) 28.
Proof.
  split; [lia|]. split; [exact (mult23 28 28 Inf eq_refl)|]. intros k K M.
  assert (A : forallb (fun j => match add_times (steps 23) (c23 28) (Aff 3 10) j with Ok Inf => false | Ok _ => true | _ => false end) (seq 1 27) = true) by (vm_compute; reflexivity).
  rewrite forallb_forall in A. specialize (A (Z.to_nat k) ltac:(apply in_seq; lia)). destruct (add_times (steps 23) (c23 28) (Aff 3 10) (Z.to_nat k)) as [[|x y]|] eqn:E; try discriminate.
  apply mult23 in E. assert (C := mult_fun 23 1 1 _ _ _ _ p23 ltac:(lia) (valid_on (c23 28) ltac:(cbn; lia) _ (v23 28)) M E). discriminate C.
Qed.
Lemma order23_13_16 : ec_order 23 1 (Some (13, 16)) 7.
Proof.
  assert (V : valid (c23 7) (Aff 13 16)) by (split; [cbn; lia|reflexivity]).
  apply (prime_order (c23 7) (c23_elliptic 7) (Aff 13 16)); [apply (prime_trial 7 1); [lia|vm_compute; reflexivity|reflexivity]|exact V|discriminate|].
  exact (proj2 (add_times_ok (c23 7) (Aff 13 16) (steps 23) p23 ltac:(cbn; lia) V (le_n _) 7%nat Inf eq_refl)).
Qed.
Lemma c62_refuted : exists c P, elliptic c /\ prime (c_n c) /\ valid c P /\ P <> Inf /\ (forall fuel, scalar_multiple fuel c P (c_n c) = Ok Inf) /\
  ~ ec_multiple (c_p c) (c_a c) (denotes c P) (Z.to_nat (c_n c)) None.
Proof.
  exists (c23 7), (Aff 3 10). split; [apply c23_elliptic|]. split; [apply (prime_trial 7 1); [lia|vm_compute; reflexivity|reflexivity]|]. split; [apply v23|]. split; [discriminate|].
  split; [intros fuel; apply c62_any_point; discriminate|]. intros M. destruct order23 as (_ & _ & A). apply (A 7); [lia|exact M].
Qed.
Lemma c63_refuted : exists c G P k R, elliptic c /\ prime (c_n c) /\ valid c G /\ ec_order (c_p c) (c_a c) (denotes c G) (c_n c) /\ valid c P /\
  (forall fuel, (100 <= fuel)%nat -> scalar_multiple fuel c P k = Ok R) /\ ~ ec_zmultiple (c_p c) (c_a c) (denotes c P) k (denotes c R).
Proof.
  exists (c23 7), (Aff 13 16), (Aff 3 10), 8, (Aff 3 10). split; [apply c23_elliptic|]. split; [apply (prime_trial 7 1); [lia|vm_compute; reflexivity|reflexivity]|]. split; [split; [cbn; lia|reflexivity]|].
  split; [exact order23_13_16|]. split; [apply v23|]. split.
  - intros fuel F. do 100 (destruct fuel as [|fuel]; [lia|]). reflexivity.
  - intros M. assert (E : add_times (steps 23) (c23 7) (Aff 3 10) 8 = Ok (Aff 1 16) \/ exists R, add_times (steps 23) (c23 7) (Aff 3 10) 8 = Ok R /\ denotes (c23 7) R <> Some (3, 10)).
    { right. eexists. split; [vm_compute; reflexivity|vm_compute; discriminate]. }
    destruct E as [E|(R & E & N)].
    + apply mult23 in E. assert (C := mult_fun 23 1 1 _ _ _ _ p23 ltac:(lia) (valid_on (c23 7) ltac:(cbn; lia) _ (v23 7)) M E). discriminate C.
    + apply mult23 in E. apply N. symmetry. exact (mult_fun 23 1 1 _ _ _ _ p23 ltac:(lia) (valid_on (c23 7) ltac:(cbn; lia) _ (v23 7)) M E).
Qed.
(** ** representations *)
Lemma c64_refuted : forall c x y, prime (c_p c) -> valid c (Aff x y) -> exists fuel0, forall fuel, (fuel0 <= fuel)%nat ->
  mk_point c x y = Ok (Aff x y) /\ mk_point c (x + c_p c) y = Ok (Aff (x + c_p c) y) /\ point_eqb (Aff x y) (Aff (x + c_p c) y) = false /\
  add_points fuel c (Aff x y) (Aff (x + c_p c) y) = Raise AssertionError /\
  mk_point c x (y + c_p c) = Ok (Aff x (y + c_p c)) /\ point_eqb (Aff x y) (Aff x (y + c_p c)) = false.
Proof.
  intros c x y Hp V. assert (P2 := prime_ge_2 _ Hp). exists (steps (c_p c)). intros fuel Hf.
  assert (C : forall x' y', cong (c_p c) x' x -> cong (c_p c) y' y -> mk_point c x' y' = Ok (Aff x' y')).
  { intros x' y' X Y. rewrite c59_constructor by exact Hp. destruct V as (_ & V). replace (_ =? 0) with true; [reflexivity|]. symmetry. apply Z.eqb_eq.
    apply Z.mod_divide; [lia|]. apply cong_divide; [lia|]. rewrite X, Y. apply cong_divide; [lia|]. apply Z.mod_divide; [lia|exact V]. }
  assert (K : forall z, cong (c_p c) (z + c_p c) z). { intros z. replace (z + c_p c) with (z + 1 * c_p c) by ring. apply cong_period. }
  split; [now apply C|]. split; [apply C; [apply K|reflexivity]|]. split; [cbn; lia|]. split; [|split; [apply C; [reflexivity|apply K]|cbn; lia]].
  cbn [add_points]. replace (x =? x + c_p c) with false by lia. replace (x + c_p c - x) with (c_p c) by ring.
  unfold inverse. destruct (inverse_mod_spec fuel (c_p c) (c_p c) P2 Hf) as (_ & B). rewrite B; [reflexivity|]. rewrite Z.gcd_diag. lia.
Qed.
Lemma c65_refuted : forall c fuel P, negate c Inf = Raise TypeError /\ double_point fuel c Inf = Raise TypeError /\ sub_points fuel c P Inf = Raise TypeError.
Proof. auto. Qed.
Lemma c65_order_two_refuted : forall c x y, prime (c_p c) -> 3 < c_p c -> valid c (Aff x y) -> y mod c_p c = 0 -> exists fuel0, forall fuel, (fuel0 <= fuel)%nat ->
  ec_sum (c_p c) (c_a c) (denotes c (Aff x y)) (denotes c (Aff x y)) None /\ double_point fuel c (Aff x y) = Raise AssertionError.
Proof.
  intros c x y Hp p3 V Y. exists (steps (c_p c)). intros fuel Hf. split; [|now apply double_fail].
  replace (denotes c (Aff x y)) with (ec_neg (c_p c) (denotes c (Aff x y))) at 2; [apply sum_opposite|]. cbn. f_equal. f_equal. rewrite Y. apply Z.mod_0_l. lia.
Qed.
(** ** point decompression *)
Lemma c66_y_from_x : forall c maxlist x, prime (c_p c) -> c_p c mod 8 <> 1 \/ c_p c - 2 <= maxlist -> exists fuel0, forall fuel, (fuel0 <= fuel)%nat ->
  ((exists y, mk_point c x y = Ok (Aff x y)) -> exists y, y_from_x fuel c maxlist x = Ok y /\ 0 <= y < c_p c /\ mk_point c x y = Ok (Aff x y)) /\
  (~ (exists y, mk_point c x y = Ok (Aff x y)) -> y_from_x fuel c maxlist x = Raise SquareRootError).
Proof.
  intros c maxlist x Hp H. assert (P2 := prime_ge_2 _ Hp). set (t := ((x * x + c_a c) * x + c_b c) mod c_p c).
  assert (T : 0 <= t < c_p c) by (apply Z.mod_pos_bound; lia). destruct (c45_square_root (c_p c) t maxlist Hp T H) as (f0 & F). exists f0. intros fuel Hf. destruct (F fuel Hf) as (A & B). clear F.
  assert (E : forall y, mk_point c x y = Ok (Aff x y) <-> (y * y - t) mod c_p c = 0).
  { intros y. rewrite c59_constructor by exact Hp. assert (I : (y * y - (x * x * x + c_a c * x + c_b c)) mod c_p c = (y * y - t) mod c_p c).
    { apply uncong. unfold t. cmod. apply cong_refl_eq. ring. }
    rewrite I. destruct (Z.eqb_spec ((y * y - t) mod c_p c) 0) as [Z|Z]; split; congruence. }
  assert (S : (exists y, mk_point c x y = Ok (Aff x y)) <-> square_mod t (c_p c)). { unfold square_mod. split; intros (y & Y); exists y; apply E in Y || apply E; exact Y. }
  unfold y_from_x. fold t. split.
  - intros Y. apply S in Y. destruct (A Y) as (r & R1 & R2 & R3). exists r. split; [exact R1|]. split; [exact R2|]. now apply E.
  - intros Y. apply B. intros Q. apply Y. now apply S.
Qed.
Lemma c67_refuted : forall P, point_encode true P = Raise NameError /\ point_encode false P = Raise GenericException /\ point_toOctets P = Raise NameError.
Proof. auto. Qed.
(** ** key agreement *)
Lemma c77_key_agreement : forall c x y, elliptic c -> prime (c_n c) -> valid c (Aff x y) -> 0 <= y < c_p c ->
  ec_multiple (c_p c) (c_a c) (denotes c (Aff x y)) (Z.to_nat (c_n c)) None -> exists fuel0, forall fuel, (fuel0 <= fuel)%nat -> forall a b,
  exists A B K, scalar_multiple fuel c (Aff x y) a = Ok A /\ scalar_multiple fuel c (Aff x y) b = Ok B /\
    scalar_multiple fuel c B a = Ok K /\ scalar_multiple fuel c A b = Ok K /\ ec_zmultiple (c_p c) (c_a c) (denotes c (Aff x y)) (a * b) (denotes c K).
Proof.
  intros c x y HE Pn V Y M. exists (mul_fuel c). intros fuel F. assert (O := prime_order c HE (Aff x y) Pn V ltac:(discriminate) M).
  assert (n4 : c_n c mod 4 <> 0).
  { intros E. assert (n2 := prime_ge_2 _ Pn). apply Z.mod_divide in E; [|lia]. assert (D : (2 | c_n c)) by (apply Z.divide_trans with 4; [exists 2; reflexivity|exact E]).
    apply prime_div_prime in D; [|exact prime_2|exact Pn]. apply Z.divide_pos_le in E; lia. }
  assert (n1 := prime_ge_2 _ Pn). assert (HE' := HE). destruct HE as (Hp & p3 & NS). set (G := Aff x y) in *. assert (GG := gon_g c Hp p3 G V). assert (OG := valid_on c p3 G V).
  (* any multiple of G can be multiplied again *)
  assert (ST : forall k l, exists A K, scalar_multiple fuel c G k = Ok A /\ scalar_multiple fuel c A l = Ok K /\ red c K /\ valid c K /\ h (c_p c) (denotes c K) = zmul (c_p c) (c_a c) (l * k) (h (c_p c) (denotes c G))).
  { intros k l. destruct (scalar_ok c HE' G k fuel V O F) as (S1 & _). destruct (S1 (or_introl n4)) as (A & E1 & V1 & M1 & R1). clear S1.
    apply (zmultiple_iff _ Hp p3 _ (c_b c)) in M1; [|exact OG|now apply valid_on]. destruct A as [|xa ya].
    - exists Inf, Inf. split; [exact E1|]. split. { unfold scalar_multiple, py_mod. replace (c_n c =? 0) with false by lia. cbn [bind]. now destruct (l mod c_n c =? 0). }
      split; [exact I|]. split; [exact I|]. rewrite (zmul_mul _ Hp p3 _ _ NS) by exact GG. rewrite <- M1. symmetry. apply zmul_O.
    - assert (OA : ec_order (c_p c) (c_a c) (denotes c (Aff xa ya)) (c_n c)).
      { apply prime_order; auto; [discriminate|]. apply (multiple_iff _ Hp p3 _ (c_b c)); [now apply valid_on|exact I|]. rewrite <- zmul_nat by lia. rewrite M1, <- (zmul_mul _ Hp p3 _ _ NS) by exact GG.
        symmetry. apply (order_zmul _ Hp p3 _ _ NS _ _ OG O). exists k. ring. }
      destruct (scalar_ok c HE' (Aff xa ya) l fuel V1 OA F) as (S2 & _). destruct (S2 (or_introl n4)) as (K & E2 & V2 & M2 & R2). exists (Aff xa ya), K. split; [exact E1|]. split; [exact E2|].
      split; [apply R2, R1; exact Y|]. split; [exact V2|]. apply (zmultiple_iff _ Hp p3 _ (c_b c)) in M2; [|now apply valid_on..]. rewrite M2, M1. symmetry. now apply (zmul_mul _ Hp p3 _ _ NS). }
  intros a b. destruct (ST a b) as (A & K & E1 & E2 & R1 & V1 & G1). destruct (ST b a) as (B & K' & E3 & E4 & R2 & V2 & G2). exists A, B, K. split; [exact E1|]. split; [exact E3|].
  assert (K = K'). { apply (den_inj c K K' R1 R2). apply (h_inj (c_p c) (c_a c) (c_b c)); [now apply valid_on..|]. rewrite G1, G2. f_equal. ring. } subst K'.
  split; [exact E4|]. split; [exact E2|]. apply (zmultiple_iff _ Hp p3 _ (c_b c)); [exact OG|now apply valid_on|exact G2].
Qed.
