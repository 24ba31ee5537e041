(** The group law of a short Weierstrass curve over any field of characteristic not 2.

    Two points have chord slope l when y2 - y1 = l (x2 - x1) and
    l (y1 + y2) = x1^2 + x1 x2 + x2^2 + a; this covers secants and tangents alike, so that one
    rational identity gives associativity in all cases where the outer additions are secants.
    The remaining cases follow from cancellation. *)
From Coq Require Import List Bool Ring Field Setoid.
Import ListNotations.

Section EC.
Context {F : Type} (zero one : F) (fadd fmul fsub : F -> F -> F) (fopp : F -> F) (fdiv : F -> F -> F) (finv : F -> F).
Context (FT : field_theory zero one fadd fmul fsub fopp fdiv finv (@eq F)).
Context (dec : forall x y : F, {x = y} + {x <> y}).
Add Field Ffield : FT.
Local Notation "0" := zero.
Local Notation "1" := one.
Local Infix "+" := fadd.
Local Infix "*" := fmul.
Local Infix "-" := fsub.
Local Infix "/" := fdiv.
Local Notation "- x" := (fopp x).
Context (two_nz : 1 + 1 <> 0).
Context (a b : F).
Local Notation x2 := (1 + 1).
Local Notation x3 := (1 + 1 + 1).
Context (nonsing : (x2 * x2) * (a * a * a) + (x3 * x3 * x3) * (b * b) <> 0).

Inductive pt := O | P (x y : F).
Definition on (A : pt) : Prop := match A with O => True | P x y => y * y = x * x * x + a * x + b end.
Definition opp (A : pt) : pt := match A with O => O | P x y => P x (- y) end.
(** third intersection, reflected *)
Definition line (l x1 y1 x2' : F) : pt := P (l * l - x1 - x2') (l * (x1 - (l * l - x1 - x2')) - y1).
Definition add (A B : pt) : pt :=
  match A, B with
  | O, _ => B
  | _, O => A
  | P x1 y1, P x2' y2 =>
      if dec x1 x2' then if dec (y1 + y2) 0 then O else line ((x3 * x1 * x1 + a) / (x2 * y1)) x1 y1 x1
      else line ((y2 - y1) / (x2' - x1)) x1 y1 x2'
  end.
Local Infix "++" := add.

(** ** field facts *)
Lemma mul_eq_0 u v : u * v = 0 -> u = 0 \/ v = 0.
Proof. intros H. destruct (dec u 0) as [|N]; [now left|right]. transitivity (u * v / u); [field; exact N|]. rewrite H. field. exact N. Qed.
Lemma sub_eq_0 u v : u - v = 0 -> u = v.
Proof. intros H. transitivity (u - v + v); [ring|]. rewrite H. ring. Qed.
Lemma double_0 u : u + u = 0 -> u = 0.
Proof. intros H. destruct (mul_eq_0 x2 u) as [E|E]; [rewrite <- H; ring|contradiction|exact E]. Qed.
Lemma mul_nz u v : u <> 0 -> v <> 0 -> u * v <> 0.
Proof. intros U V H. apply mul_eq_0 in H as [H|H]; contradiction. Qed.
Lemma mul_cancel u v w : u <> 0 -> u * v = u * w -> v = w.
Proof. intros U H. apply sub_eq_0. destruct (mul_eq_0 u (v - w)) as [E|E]; [|contradiction|exact E]. transitivity (u * v - u * w); [ring|]. rewrite H. ring. Qed.
Lemma opp_sum u v : u + v = 0 -> v = - u.
Proof. intros H. apply sub_eq_0. transitivity (u + v); [ring|exact H]. Qed.
Lemma opp_opp A : opp (opp A) = A.
Proof. destruct A; [reflexivity|]. cbn. f_equal. ring. Qed.
Lemma on_opp A : on A -> on (opp A).
Proof. destruct A as [|x y]; [auto|]. cbn. intros <-. ring. Qed.
Lemma opp_inj A B : opp A = opp B -> A = B.
Proof. intros H. rewrite <- (opp_opp A), H. apply opp_opp. Qed.
Lemma pt_dec (A B : pt) : {A = B} + {A <> B}.
Proof. decide equality. Qed.

(** ** chords *)
Definition chord (l x1 y1 x2' y2 : F) : Prop := y2 - y1 = l * (x2' - x1) /\ l * (y1 + y2) = x1 * x1 + x1 * x2' + x2' * x2' + a.
Lemma same_x x y1 y2 : on (P x y1) -> on (P x y2) -> y1 = y2 \/ y2 = - y1.
Proof.
  cbn. intros H1 H2. destruct (mul_eq_0 (y1 - y2) (y1 + y2)) as [E|E].
  - transitivity (y1 * y1 - y2 * y2); [ring|]. rewrite H1, H2. ring.
  - left. now apply sub_eq_0.
  - right. now apply opp_sum.
Qed.
Lemma chord_ex x1 y1 x2' y2 : on (P x1 y1) -> on (P x2' y2) -> P x2' y2 <> opp (P x1 y1) -> exists l, chord l x1 y1 x2' y2 /\ P x1 y1 ++ P x2' y2 = line l x1 y1 x2'.
Proof.
  intros H1 H2 N. cbn [add]. destruct (dec x1 x2') as [<-|D].
  - destruct (same_x x1 y1 y2 H1 H2) as [<-|E]; [|now rewrite E in N].
    destruct (dec (y1 + y1) 0) as [E|E]; [elim N; cbn; f_equal; now apply opp_sum|].
    eexists. split; [|reflexivity]. assert (Y : y1 <> 0) by (intros Y; apply E; rewrite Y; ring).
    split; [field; auto|field; auto].
  - eexists. split; [|reflexivity]. assert (D' : x2' - x1 <> 0) by (intros E; apply D; symmetry; now apply sub_eq_0). split; [field; exact D'|].
    cbn in H1, H2. apply (mul_cancel (x2' - x1)); [exact D'|].
    transitivity (y2 * y2 - y1 * y1); [field; exact D'|]. rewrite H1, H2. ring.
Qed.
Lemma chord_add l x1 y1 x2' y2 : chord l x1 y1 x2' y2 -> P x2' y2 <> opp (P x1 y1) -> P x1 y1 ++ P x2' y2 = line l x1 y1 x2'.
Proof.
  intros (H1 & H2) N. cbn [add]. destruct (dec x1 x2') as [<-|D].
  - assert (E : y2 = y1). { apply sub_eq_0. rewrite H1. ring. } subst y2. destruct (dec (y1 + y1) 0) as [E|E]; [elim N; cbn; f_equal; now apply opp_sum|].
    assert (Y : y1 <> 0) by (intros Y; apply E; rewrite Y; ring). f_equal. apply (mul_cancel (y1 + y1)); [exact E|].
    transitivity (x3 * x1 * x1 + a); [field; auto|]. transitivity (l * (y1 + y1)); [rewrite H2; ring|ring].
  - assert (D' : x2' - x1 <> 0) by (intros E; apply D; symmetry; now apply sub_eq_0). f_equal. rewrite H1. field. exact D'.
Qed.

(** the chord from -A to A + B *)
Lemma chord_back l x1 y1 x2' y2 u v : chord l x1 y1 x2' y2 -> line l x1 y1 x2' = P u v -> chord (- l) x1 (- y1) u v.
Proof.
  intros (H1 & H2) [= <- <-]. split; [ring|].
  assert (E : y2 = y1 + l * (x2' - x1)). { transitivity (y2 - y1 + y1); [ring|]. rewrite H1. ring. }
  rewrite E in H2. assert (Ha : a = l * (y1 + (y1 + l * (x2' - x1))) - x1 * x1 - x1 * x2' - x2' * x2'). { rewrite H2. ring. }
  rewrite Ha. ring.
Qed.
Lemma chord_on l x1 y1 u v : chord l x1 y1 u v -> on (P x1 y1) -> on (P u v).
Proof.
  intros (H1 & H2) H. cbn in *. transitivity (y1 * y1 + (v - y1) * (y1 + v)); [ring|]. rewrite H1.
  transitivity (y1 * y1 + (u - x1) * (l * (y1 + v))); [ring|]. rewrite H2, H. ring.
Qed.
Lemma add_kind A B : on A -> on B ->
  (A = O /\ A ++ B = B) \/ (B = O /\ A ++ B = A) \/ (B = opp A /\ A ++ B = O) \/
  exists l x1 y1 x2' y2, A = P x1 y1 /\ B = P x2' y2 /\ B <> opp A /\ chord l x1 y1 x2' y2 /\ A ++ B = line l x1 y1 x2'.
Proof.
  intros HA HB. destruct A as [|x1 y1]; [now left|]. destruct B as [|x2' y2]; [right; now left|].
  destruct (pt_dec (P x2' y2) (opp (P x1 y1))) as [E|E].
  - right. right. left. split; [exact E|]. injection E as -> ->. cbn [add]. destruct (dec x1 x1) as [_|N]; [|now elim N].
    destruct (dec (y1 + - y1) 0) as [_|N]; [reflexivity|]. elim N. ring.
  - do 3 right. destruct (chord_ex x1 y1 x2' y2 HA HB E) as (l & C & S). exists l, x1, y1, x2', y2. auto 10.
Qed.
Lemma on_add A B : on A -> on B -> on (A ++ B).
Proof.
  intros HA HB. destruct (add_kind A B HA HB) as [(_ & ->)|[(_ & ->)|[(_ & ->)|(l & x1 & y1 & x2' & y2 & EA & EB & _ & C & ->)]]]; auto; [exact I|].
  subst A. eapply chord_on; [eapply chord_back; [exact C|reflexivity]|]. exact (on_opp _ HA).
Qed.
Lemma add_O_r A : A ++ O = A. Proof. now destruct A. Qed.
Lemma add_opp A : A ++ opp A = O.
Proof.
  destruct A as [|x y]; [reflexivity|]. cbn. destruct (dec x x) as [_|N]; [|now elim N]. destruct (dec (y + - y) 0) as [_|N]; [reflexivity|]. elim N. ring.
Qed.
Lemma chord_sym l x1 y1 x2' y2 : chord l x1 y1 x2' y2 -> chord l x2' y2 x1 y1.
Proof. intros (H1 & H2). split; [transitivity (- (y2 - y1)); [ring|]; rewrite H1; ring|]. transitivity (l * (y1 + y2)); [ring|]. rewrite H2. ring. Qed.
Lemma add_comm A B : on A -> on B -> A ++ B = B ++ A.
Proof.
  intros HA HB. destruct (add_kind A B HA HB) as [(-> & ->)|[(-> & ->)|[(-> & ->)|(l & x1 & y1 & x2' & y2 & EA & EB & N & C & ->)]]].
  - now rewrite add_O_r.
  - reflexivity.
  - rewrite <- (opp_opp A) at 2. now rewrite add_opp.
  - subst. rewrite (chord_add l x2' y2 x1 y1); [|now apply chord_sym|].
    + unfold line. f_equal; [ring|]. destruct C as (H1 & _). assert (E : y1 = y2 - l * (x2' - x1)) by (rewrite <- H1; ring). rewrite E. ring.
    + intros E. apply N. rewrite E. symmetry. apply opp_opp.
Qed.
Lemma chord_opp l x1 y1 x2' y2 : chord l x1 y1 x2' y2 -> chord (- l) x1 (- y1) x2' (- y2).
Proof. intros (H1 & H2). split; [transitivity (- (y2 - y1)); [ring|]; rewrite H1; ring|]. transitivity (l * (y1 + y2)); [ring|exact H2]. Qed.
Lemma opp_add A B : on A -> on B -> opp (A ++ B) = opp A ++ opp B.
Proof.
  intros HA HB. destruct (add_kind A B HA HB) as [(-> & ->)|[(-> & ->)|[(-> & ->)|(l & x1 & y1 & x2' & y2 & EA & EB & N & C & ->)]]].
  - reflexivity.
  - cbn. now rewrite add_O_r.
  - now rewrite add_opp.
  - subst. cbn [opp]. rewrite (chord_add (- l)); [|now apply chord_opp|].
    + unfold line. cbn [opp]. f_equal; ring.
    + intros E. apply N. apply opp_inj. exact E.
Qed.
Lemma add_shift A B : on A -> on B -> opp A ++ (A ++ B) = B.
Proof.
  intros HA HB. destruct (add_kind A B HA HB) as [(-> & ->)|[(-> & ->)|[(-> & ->)|(l & x1 & y1 & x2' & y2 & EA & EB & N & C & E)]]].
  - reflexivity.
  - rewrite <- (opp_opp A) at 2. apply add_opp.
  - apply add_O_r.
  - subst. rewrite E. destruct (line l x1 y1 x2') as [|u v] eqn:L; [discriminate|]. assert (C' := chord_back l x1 y1 x2' y2 u v C L). cbn [opp].
    rewrite (chord_add (- l)); [|exact C'|].
    + injection L as <- <-. unfold line. destruct C as (H1 & H2). f_equal; [ring|]. transitivity (y1 + l * (x2' - x1)); [ring|]. rewrite <- H1. ring.
    + cbn [opp]. intros [= EU EV]. subst u v. destruct C' as (H1 & H2).
      assert (Y : y1 = 0). { apply double_0. transitivity (- - y1 - - y1); [ring|]. rewrite H1. ring. }
      rewrite Y in H2, HA. cbn in HA. assert (X : x3 * x1 * x1 + a = 0). { transitivity (x1 * x1 + x1 * x1 + x1 * x1 + a); [ring|]. rewrite <- H2. ring. }
      assert (Ea : a = - (x3 * x1 * x1)). { apply sub_eq_0. transitivity (x3 * x1 * x1 + a); [ring|exact X]. }
      assert (Eb : b = x2 * x1 * x1 * x1). { apply sub_eq_0. transitivity (x1 * x1 * x1 + a * x1 + b - (x1 * x1 * x1 + a * x1 + x2 * x1 * x1 * x1)); [ring|]. rewrite <- HA, Ea. ring. }
      apply nonsing. rewrite Ea, Eb. ring.
Qed.
Lemma cancel A B C : on A -> on B -> on C -> A ++ B = A ++ C -> B = C.
Proof. intros HA HB HC E. rewrite <- (add_shift A B), <- (add_shift A C) by auto. now rewrite E. Qed.
Lemma add_fix A B : on A -> on B -> A ++ B = A -> B = O.
Proof. intros HA HB E. apply (cancel A); auto; [exact I|]. now rewrite add_O_r. Qed.
Lemma add_zero A B : on A -> on B -> A ++ B = O -> B = opp A.
Proof. intros HA HB E. apply (cancel A); auto using on_opp. now rewrite add_opp. Qed.

(** ** associativity *)
Section Identity.
Context (u v w y l m : F).
Let s := u + v + w.
Let M := s - l * l.
Let M' := m * m - s.
Let d := l - m.
Context (HM : M <> 0) (HM' : M' <> 0) (Hd : d <> 0).
Context (Hy : x2 * y * d = v * (l * l - m * m) + u * M + w * M').
Let y1 := y - l * (v - u).
Let y3 := y + m * (w - v).
Let xs := l * l - u - v.
Let ys := l * (u - xs) - y1.
Let xu := m * m - v - w.
Let yu := m * (v - xu) - y.
Lemma y_val : y = (v * (l * l - m * m) + u * M + w * M') / (x2 * d).
Proof. rewrite <- Hy. field. auto. Qed.
Let l2 := (y3 - ys) / (w - xs).
Let l4 := (yu - y1) / (xu - u).
Lemma assoc_identity : line l2 xs ys w = line l4 u y1 xu.
Proof.
  assert (D1 : w - xs = M) by (unfold xs, M, s; ring). assert (D2 : xu - u = M') by (unfold xu, M', s; ring).
  unfold l2, l4. rewrite D1, D2. unfold line, ys, yu, y1, y3. rewrite y_val. unfold xs, xu, M, M', s, d in *.
  f_equal; field; auto.
Qed.
End Identity.

Definition secant (A B : pt) : Prop := match A, B with P x _, P x' _ => x <> x' | _, _ => False end.
Lemma secant_cases A B : on A -> on B -> secant A B \/ A = O \/ B = O \/ A = B \/ B = opp A.
Proof.
  intros HA HB. destruct A as [|x y]; [auto|]. destruct B as [|x' y']; [auto|]. cbn [secant]. destruct (dec x x') as [<-|D]; [|auto].
  destruct (same_x x y y' HA HB) as [<-| ->]; auto.
Qed.
Lemma assoc_secant A B C : on A -> on B -> on C -> A <> C -> secant (A ++ B) C -> secant A (B ++ C) -> (A ++ B) ++ C = A ++ (B ++ C).
Proof.
  intros HA HB HC N S1 S2.
  destruct (add_kind A B HA HB) as [(-> & E1)|[(-> & E1)|[(-> & E1)|(l & u & y1 & v & y & EA & EB & NB & (C1 & C2) & E1)]]].
  - reflexivity.
  - rewrite E1. reflexivity.
  - rewrite E1 in S1. destruct C; destruct S1.
  - destruct (add_kind B C HB HC) as [(-> & E2)|[(-> & E2)|[(-> & E2)|(m & v' & y' & w & y3 & EB' & EC & NC & (C3 & C4) & E2)]]].
    + discriminate.
    + destruct (A ++ B); destruct S1.
    + rewrite E2 in S2. destruct A; destruct S2.
    + subst. injection EB' as <- <-.
      assert (Y1 : y1 = y - l * (v - u)) by (rewrite <- C1; ring). assert (Y3 : y3 = y + m * (w - v)) by (rewrite <- C3; ring).
      set (M := u + v + w - l * l). set (M' := m * m - (u + v + w)).
      assert (REL : x2 * y * (l - m) = v * (l * l - m * m) + u * M + w * M').
      { assert (R1 : l * (y1 + y) - (u * u + u * v + v * v) = m * (y + y3) - (v * v + v * w + w * w)) by (rewrite C2, C4; ring).
        rewrite Y1, Y3 in R1. unfold M, M'. apply sub_eq_0.
        transitivity ((l * (y - l * (v - u) + y) - (u * u + u * v + v * v)) - (m * (y + (y + m * (w - v))) - (v * v + v * w + w * w))); [ring|]. rewrite R1. ring. }
      unfold line in E1, E2. rewrite E1, E2 in *. cbn [secant] in S1, S2.
      assert (HM : M <> 0) by (intros E; apply S1; apply sub_eq_0; transitivity (- M); [unfold M; ring|rewrite E; ring]).
      assert (HM' : M' <> 0) by (intros E; apply S2; symmetry; apply sub_eq_0; transitivity M'; [unfold M'; ring|exact E]).
      assert (Hd : l - m <> 0).
      { intros E. assert (l = m) by now apply sub_eq_0. subst m. apply N.
        assert (UW : u = w). { destruct (mul_eq_0 (u - w) M) as [Z|Z]; [|now apply sub_eq_0|contradiction].
          transitivity (v * (l * l - l * l) + u * M + w * M'); [unfold M, M'; ring|]. rewrite <- REL. ring. }
        rewrite Y1, Y3, UW. f_equal. ring. }
      assert (ID := assoc_identity u v w y l m HM HM' Hd REL). rewrite <- Y1, <- Y3 in ID. cbn [add].
      destruct (dec (l * l - u - v) w) as [|_]; [contradiction|]. destruct (dec u (m * m - v - w)) as [|_]; [contradiction|]. exact ID.
Qed.
(** the outer additions coincide with an operand *)
Lemma assoc_deg_l A B C : on A -> on B -> on C -> C = opp (A ++ B) -> (A ++ B) ++ C = A ++ (B ++ C).
Proof.
  intros HA HB HC ->. rewrite add_opp, opp_add by auto.
  rewrite (add_comm (opp A) (opp B)) by auto using on_opp. rewrite <- (opp_opp B) at 1. rewrite add_shift by auto using on_opp. now rewrite add_opp.
Qed.
Lemma assoc_opp A B C : on A -> on B -> on C -> (A ++ B) ++ C = A ++ (B ++ C) -> (C ++ B) ++ A = C ++ (B ++ A).
Proof.
  intros HA HB HC H. rewrite (add_comm C B), (add_comm (B ++ C) A) by auto using on_add. rewrite <- H.
  rewrite (add_comm B A), (add_comm C (A ++ B)) by auto using on_add. reflexivity.
Qed.
Lemma assoc_deg_r A B C : on A -> on B -> on C -> A = opp (B ++ C) -> (A ++ B) ++ C = A ++ (B ++ C).
Proof.
  intros HA HB HC E. apply assoc_opp; auto. apply assoc_deg_l; auto. now rewrite (add_comm C B).
Qed.
Lemma assoc_BC A B C : on A -> on B -> on C -> C = opp B -> (A ++ B) ++ C = A ++ (B ++ C).
Proof.
  intros HA HB HC ->. rewrite add_opp, add_O_r. rewrite (add_comm A B), (add_comm (B ++ A)) by auto using on_opp, on_add. now apply add_shift.
Qed.
Lemma assoc_AB A B C : on A -> on B -> on C -> B = opp A -> (A ++ B) ++ C = A ++ (B ++ C).
Proof.
  intros HA HB HC ->. rewrite add_opp. cbn [add]. rewrite <- (opp_opp A) at 1. now rewrite add_shift by auto using on_opp.
Qed.
Lemma sum_cases A B : on A -> on B -> secant A B \/ A = O \/ B = O \/ A = B \/ B = opp A. Proof. exact (secant_cases A B). Qed.
(** A = B, first without the case 2A = C *)
Lemma assoc_double1 A C : on A -> on C -> A ++ A <> C -> (A ++ A) ++ C = A ++ (A ++ C).
Proof.
  intros HA HC N. destruct (pt_dec A C) as [<-|NAC]; [now apply add_comm; auto using on_add|].
  destruct (pt_dec A O) as [->|NA]; [reflexivity|]. destruct (pt_dec C O) as [->|NC]; [now rewrite !add_O_r|].
  destruct (pt_dec C (opp A)) as [E|NCA]; [now apply assoc_BC|]. destruct (pt_dec A (opp A)) as [E|NAA]; [now apply assoc_AB|].
  assert (H2 := on_add A A HA HA). assert (HS := on_add A C HA HC).
  destruct (secant_cases (A ++ A) C H2 HC) as [S1|[E|[E|[E|E]]]]; [|exfalso; apply NAA; now apply add_zero|contradiction|contradiction|now apply assoc_deg_l].
  destruct (secant_cases A (A ++ C) HA HS) as [S2|[E|[E|[E|E]]]]; [|contradiction|exfalso; apply NCA; now apply add_zero|exfalso; apply NC; symmetry in E; now apply add_fix in E|].
  - now apply assoc_secant.
  - apply assoc_deg_r; auto. rewrite E. symmetry. apply opp_opp.
Qed.
Lemma assoc_double A C : on A -> on C -> (A ++ A) ++ C = A ++ (A ++ C).
Proof.
  intros HA HC. destruct (pt_dec (A ++ A) C) as [E|N]; [|now apply assoc_double1].
  (* C = 2A: show -A + 2C = A + C *)
  assert (HS := on_add A C HA HC). rewrite E. assert (X : opp A ++ C = A). { rewrite <- E. now apply add_shift. }
  assert (Y : opp A ++ (C ++ C) = C ++ A \/ C ++ C = opp A).
  { destruct (pt_dec (C ++ C) (opp A)) as [Z|Z]; [now right|left]. rewrite (add_comm (opp A)) by auto using on_opp, on_add.
    rewrite assoc_double1 by auto using on_opp. f_equal. now rewrite add_comm by auto using on_opp. }
  destruct Y as [Y|Y].
  - apply (cancel (opp A)); auto using on_opp, on_add. rewrite Y, add_shift by auto. now apply add_comm.
  - assert (Z : A = opp C ++ opp C). { rewrite <- opp_add by auto. rewrite Y. symmetry. apply opp_opp. }
    assert (D : A ++ C = opp C). { rewrite Z at 1. rewrite (add_comm _ C) by auto using on_opp, on_add. rewrite <- (opp_opp C) at 1. now apply add_shift; apply on_opp. }
    rewrite D, Y. apply opp_inj. rewrite opp_add, !opp_opp by auto using on_opp. symmetry. exact X.
Qed.
(** A + B = C *)
Lemma assoc_sum A B : on A -> on B -> (A ++ B) ++ (A ++ B) = A ++ (B ++ (A ++ B)).
Proof.
  intros HA HB. set (C := A ++ B). assert (HC : on C) by now apply on_add. set (D := B ++ C). assert (HD : on D) by now apply on_add.
  destruct (pt_dec B O) as [EB|NB]. { unfold D, C. rewrite EB. cbn [add]. rewrite !add_O_r. reflexivity. }
  destruct (pt_dec A D) as [EA|NA].
  { (* A = B + C and C = A + B *)
    assert (X : (A ++ A) ++ B = C ++ A). { rewrite assoc_double by auto. fold C. now apply add_comm. }
    assert (Y : (C ++ C) ++ B = C ++ A). { rewrite assoc_double by auto. rewrite (add_comm C B) by auto. fold D. now rewrite <- EA. }
    rewrite <- EA. apply (cancel B); auto using on_add. rewrite (add_comm B (C ++ C)), (add_comm B (A ++ A)) by auto using on_add. now rewrite Y. }
  (* it is enough that (A + D) - B = A + C *)
  assert (AC : A ++ C = opp B ++ (C ++ C)).
  { rewrite (add_comm (opp B)) by auto using on_opp, on_add. rewrite assoc_double by auto using on_opp. rewrite (add_comm C (opp B)) by auto using on_opp.
    unfold C at 3. rewrite (add_comm A B), add_shift by auto. now apply add_comm. }
  assert (DB : D ++ opp B = C). { rewrite add_comm by auto using on_opp. unfold D. now apply add_shift. }
  enough (G : (A ++ D) ++ opp B = A ++ (D ++ opp B)).
  { rewrite DB, AC in G. rewrite (add_comm (A ++ D)) in G by auto using on_opp, on_add. symmetry. eapply cancel; [| | |exact G]; auto using on_opp, on_add. }
  destruct (pt_dec A (opp B)) as [E1|N1].
  { assert (EC : C = O). { unfold C. rewrite E1. rewrite add_comm by auto using on_opp. apply add_opp. }
    assert (ED : D = B). { unfold D. rewrite EC. apply add_O_r. } rewrite ED. now apply assoc_BC; auto using on_opp. }
  assert (HAD := on_add A D HA HD).
  destruct (secant_cases (A ++ D) (opp B) HAD (on_opp _ HB)) as [S1|[E|[E|[E|E]]]].
  - destruct (secant_cases A (D ++ opp B) HA (on_add _ _ HD (on_opp _ HB))) as [S2|[E|[E|[E|E]]]].
    + apply assoc_secant; auto using on_opp.
    + rewrite E. reflexivity.
    + apply add_zero in E; auto using on_opp. apply assoc_BC; auto using on_opp.
    + exfalso. rewrite DB in E. unfold C in E. apply NB. symmetry in E. now apply add_fix in E.
    + apply assoc_deg_r; auto using on_opp. rewrite E. symmetry. apply opp_opp.
  - apply add_zero in E; auto. now apply assoc_AB; auto using on_opp.
  - exfalso. apply NB. apply opp_inj. exact E.
  - (* A + D = -B *)
    assert (ED : D = opp C). { unfold C. rewrite opp_add by auto. rewrite <- E. symmetry. now apply add_shift. }
    assert (EB : opp B = C ++ C). { rewrite <- (add_shift C B) by auto. rewrite opp_add, opp_opp by auto using on_opp, on_add. f_equal.
      rewrite (add_comm C B) by auto. fold D. rewrite ED. apply opp_opp. }
    rewrite DB, E. symmetry. rewrite AC, <- EB. reflexivity.
  - apply assoc_deg_l; auto using on_opp.
Qed.
Theorem assoc A B C : on A -> on B -> on C -> (A ++ B) ++ C = A ++ (B ++ C).
Proof.
  intros HA HB HC.
  destruct (pt_dec A B) as [<-|NAB]; [now apply assoc_double|].
  destruct (pt_dec B C) as [<-|NBC]; [apply assoc_opp; auto; now apply assoc_double|].
  destruct (pt_dec A C) as [<-|NAC]; [rewrite (add_comm A B), (add_comm (B ++ A)) by auto using on_add; reflexivity|].
  destruct (pt_dec (A ++ B) C) as [E|N1]; [subst C; now apply assoc_sum|].
  destruct (pt_dec A (B ++ C)) as [E|N2]; [apply assoc_opp; auto; subst A; rewrite (add_comm B C) by auto; now apply assoc_sum|].
  destruct (secant_cases (A ++ B) C (on_add _ _ HA HB) HC) as [S1|[E|[E|[E|E]]]].
  - destruct (secant_cases A (B ++ C) HA (on_add _ _ HB HC)) as [S2|[E|[E|[E|E]]]]; [now apply assoc_secant|now subst| |contradiction|].
    + apply add_zero in E; auto. now apply assoc_BC.
    + apply assoc_deg_r; auto. rewrite E. symmetry. apply opp_opp.
  - apply add_zero in E; auto. now apply assoc_AB.
  - subst C. now rewrite !add_O_r.
  - contradiction.
  - now apply assoc_deg_l.
Qed.
End EC.
