(** Curve25519: its abscissas of small order, and which private keys share a public key (C98) *)
From Coq Require Import ZArith Znumtheory Lia List String.
From Verif Require Import Proofs.Contributory Proofs.Curve Proofs.Ladder Proofs.EdCurveFacts Proofs.EdCerts.
From Verif Require Import Model.Py Model.Ecc Model.Curves Model.EdCurves Spec.CurveSpec Spec.MontgomerySpec.
Import ListNotations.
Local Open Scope Z_scope.

Definition p25519 : Z := 57896044618658097711785492504343953926634992332820282019728792003956564819949.
Lemma eight p a B x y P2 P4 : prime p -> 3 < p -> (a * a - 4) mod p <> 0 -> B mod p <> 0 -> on_mg p a B (Some (x mod p, y)) ->
  mg_sum p a B (Some (x mod p, y)) (Some (x mod p, y)) P2 -> mg_sum p a B P2 P2 P4 -> mg_sum p a B P4 P4 None -> mg_multiple p a B (Some (x mod p, y)) (Z.to_nat 8) None.
Proof.
  intros Hp p3 NA NB OP S2 S4 S8. apply (zm_mult p Hp p3 a B NB x y OP); [lia|].
  destruct (mg_sum_hm p Hp p3 a B NB _ _ _ OP OP S2) as (O2 & E2). destruct (mg_sum_hm p Hp p3 a B NB _ _ _ O2 O2 S4) as (O4 & E4).
  destruct (mg_sum_hm p Hp p3 a B NB _ _ _ O4 O4 S8) as (_ & E8). rewrite <- E8, <- E4, <- E2.
  assert (ZA := fun u v => zmul_add p Hp p3 (wA p a B) (wB p a B) (wns p Hp p3 a B NB NA) u v _ (hm_on p Hp p3 a B NB _ OP)).
  assert (Z1 : zmul p (wA p a B) 1 (hm p a B (Some (x mod p, y))) = hm p a B (Some (x mod p, y))).
  { reflexivity. }
  change 8 with (1 + 1 + (1 + 1) + (1 + 1 + (1 + 1))). now rewrite !ZA, Z1.
Qed.
Definition low_25519 : list Z := [0; 1; p25519 - 1; 325606250916557431795983626356110631294008115727848805560023387167927233504; 39382357235489614581723060781553021112529911719440698176882885853963445705823].
(** for each x a coefficient B for which (x, 1) is a point, and its double with the slope *)
Lemma prime_25519 : prime p25519. Proof. exact (proj1 order_Curve25519). Qed.
Lemma opp0 p a B : mg_sum p a B (Some (0, 0)) (Some (0, 0)) None.
Proof. replace (Some (0, 0)) with (ec_neg p (Some (0, 0))) at 2; [apply mgs_opposite|]. unfold ec_neg. now rewrite Zmod_0_l. Qed.
Ltac calc := repeat split; first [discriminate | vm_compute; reflexivity | vm_compute; discriminate].
Lemma low_order x : In (x mod p25519) low_25519 -> x mod p25519 = 0 \/ exists B y, B mod p25519 <> 0 /\ on_mg p25519 486662 B (Some (x mod p25519, y)) /\ mg_multiple p25519 486662 B (Some (x mod p25519, y)) (Z.to_nat 8) None.
Proof.
  assert (p3 : 3 < p25519) by reflexivity. assert (NA : (486662 * 486662 - 4) mod p25519 <> 0) by (vm_compute; discriminate).
  assert (F : forall B P2 P4, B mod p25519 <> 0 -> on_mg p25519 486662 B (Some (x mod p25519, 1)) -> mg_sum p25519 486662 B (Some (x mod p25519, 1)) (Some (x mod p25519, 1)) P2 -> mg_sum p25519 486662 B P2 P2 P4 -> mg_sum p25519 486662 B P4 P4 None ->
    exists B y, B mod p25519 <> 0 /\ on_mg p25519 486662 B (Some (x mod p25519, y)) /\ mg_multiple p25519 486662 B (Some (x mod p25519, y)) (Z.to_nat 8) None).
  { intros B P2 P4 NB OP S2 S4 S8. exists B, 1. split; [exact NB|]. split; [exact OP|]. exact (eight _ _ _ _ _ _ _ prime_25519 p3 NA NB OP S2 S4 S8). }
  intros H. cbn [low_25519 In] in H. destruct H as [E|[E|[E|[E|[E|[]]]]]]; [now left|right|right|right|right]; rewrite <- E in *; clear E.
  - apply (F 486664 (Some (0, 0)) None); [calc|calc| |apply opp0|constructor]. apply mgs_tangent with (l := 1); calc.
  - apply (F 486660 (Some (0, 0)) None); [calc|calc| |apply opp0|constructor]. apply mgs_tangent with (l := p25519 - 1); calc.
  - apply (F 25823240406220802380653208593670935075075799538258459644568548904024904926439 (Some (1, 21221072884313323779380657010016591603041884880954897362309649759743422516149)) (Some (0, 0))); [calc|calc| | |apply opp0].
    + apply mgs_tangent with (l := 50267600744117096525522581172510002027032924023717723575176600610659095379768); calc.
    + apply mgs_tangent with (l := 21221072884313323779380657010016591603041884880954897362309649759743422516149); calc.
  - apply (F 20691972615345289375698821400957436156516442487691530754823120324773453263673 (Some (1, 54863052866596699630671283590762184506404179949517119694705025007038334184424)) (Some (0, 0))); [calc|calc| | |apply opp0].
    + apply mgs_tangent with (l := 47336407360947173199781955739743083643425988144271105426995100634428842379506); calc.
    + apply mgs_tangent with (l := 54863052866596699630671283590762184506404179949517119694705025007038334184424); calc.
Qed.
Lemma c98_curve25519 : exists p a, int_attr cls_Curve25519 "p" = Ok p /\ int_attr cls_Curve25519 "a" = Ok a /\
  forall x k, In (x mod p) [0; 1; p - 1; 325606250916557431795983626356110631294008115727848805560023387167927233504; 39382357235489614581723060781553021112529911719440698176882885853963445705823] ->
  (8 | k) -> montgomery_ladder p a k x = 0.
Proof.
  exists p25519, 486662. split; [vm_compute; reflexivity|]. split; [vm_compute; reflexivity|]. intros x k H D.
  assert (p3 : 3 < p25519) by reflexivity. assert (NA : (486662 * 486662 - 4) mod p25519 <> 0) by (vm_compute; discriminate).
  destruct (low_order x H) as [Z0|(B & y & NB & OP & M)]; [exact (c98_zero _ _ _ _ p3 Z0)|].
  apply (c98_small p25519 486662 B x y 8 k prime_25519 p3 NA NB OP); [lia|exact M|].
  apply Z.mod_divide; [lia|]. apply Z.mod_divide in D; [|lia]. change (2 ^ 255) with (8 * 2 ^ 252). rewrite Z.rem_mul_r by lia.
  rewrite D, Z.add_0_l, Z.mul_comm. apply Z.mod_mul. lia.
Qed.
Lemma c98_public_keys : exists p a xG n, int_attr cls_Curve25519 "p" = Ok p /\ int_attr cls_Curve25519 "a" = Ok a /\ int_attr cls_Curve25519 "xG" = Ok xG /\ int_attr cls_Curve25519 "n" = Ok n /\
  forall k m, (montgomery_ladder p a k xG = montgomery_ladder p a m xG <-> (n | k mod 2 ^ 255 - m mod 2 ^ 255) \/ (n | k mod 2 ^ 255 + m mod 2 ^ 255)).
Proof.
  destruct (c90_montgomery cls_Curve25519 (or_introl eq_refl)) as (p & a & x & y & n & h & Ep & Ea & Ex & Ey & En & Eh & Hp & Hn & NA & _ & OP & ON & _).
  exists p, a, x, n. split; [exact Ep|]. split; [exact Ea|]. split; [exact Ex|]. split; [exact En|]. intros k m.
  assert (p3 : 3 < p). { clear - Ep. assert (E : int_attr cls_Curve25519 "p" = Ok p25519) by (vm_compute; reflexivity). rewrite Ep in E. injection E as ->. reflexivity. }
  assert (OD : n mod 2 = 1). { clear - En. assert (E : int_attr cls_Curve25519 "n" = Ok (2 ^ 252 + 27742317777372353535851937790883648493)) by (vm_compute; reflexivity). rewrite En in E. injection E as ->. reflexivity. }
  assert (X : x mod p = x) by (destruct OP as (X & _); apply Z.mod_small; exact X).
  apply (c98_collision p a 1 x y n k m Hp p3 NA); [rewrite Z.mod_1_l; lia| | |]; try rewrite X; auto.
Qed.
Lemma c98_public_keys_refuted : exists p a xG n, int_attr cls_Curve25519 "p" = Ok p /\ int_attr cls_Curve25519 "a" = Ok a /\ int_attr cls_Curve25519 "xG" = Ok xG /\ int_attr cls_Curve25519 "n" = Ok n /\ 1 < n < 2 ^ 255 /\
  forall k, 0 < k < n -> n - k <> k /\ 0 < n - k < n /\ montgomery_ladder p a (n - k) xG = montgomery_ladder p a k xG.
Proof.
  destruct c98_public_keys as (p & a & x & n & Ep & Ea & Ex & En & C).
  assert (E : int_attr cls_Curve25519 "n" = Ok (2 ^ 252 + 27742317777372353535851937790883648493)) by (vm_compute; reflexivity).
  exists p, a, x, n. split; [exact Ep|]. split; [exact Ea|]. split; [exact Ex|]. split; [exact En|]. rewrite En in E. injection E as E.
  assert (B : 1 < n < 2 ^ 255) by (rewrite E; split; reflexivity). split; [exact B|]. intros k K.
  split; [intros D; assert (M : n mod 2 = 1) by (rewrite E; reflexivity); replace n with (k * 2) in M by lia; rewrite Z.mod_mul in M; lia|].
  split; [lia|]. apply C. right. rewrite !Z.mod_small by lia. exists 1. lia.
Qed.
