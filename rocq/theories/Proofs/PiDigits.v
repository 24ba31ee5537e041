(** The text of fmath/pi.py against Machin's formula. *)
From Coq Require Import ZArith List Bool Uint63 Reals Lia Lra Machin.
From Verif Require Import Model.Py Model.Pi Proofs.PiLimbs Proofs.PiAtan.
Import ListNotations.
Local Open Scope Z_scope.

(** decimal digits to words of 18 digits, padded with zeros *)
Fixpoint take_word (k : nat) (l : list Z) (acc : int) : int * list Z :=
  match k with
  | O => (acc, l)
  | S k => match l with
           | [] => take_word k [] (10 * acc)%uint63
           | c :: l => take_word k l (10 * acc + of_Z (c - 48))%uint63
           end
  end.
Fixpoint words (n : nat) (l : list Z) : list int :=
  match n with O => [] | S n => let (w, l) := take_word 18 l 0%uint63 in w :: words n l end.
Definition word_coef (w : int) : coef := (w, 2%uint63, 2000000000000000000%uint63).
Fixpoint chunks {A} (n s : nat) (l : list A) : list (list A) :=
  match n with O => [] | S n => firstn s l :: chunks n s (skipn s l) end.

Definition digits : list Z := skipn 2 pi_string.
Definition frac_limbs : limbs := blocks 26 (chunks 104 27 (map word_coef (rev' (words 2808 digits)))) Nil.
Definition limbs5 : limbs := atan_limbs 25 625 8 54 216 338 73005.
Definition limbs239 : limbs := atan_limbs 57121 3262808641 2 4 16 1352 21629.
Fixpoint horner (l : limbs) (acc : Z) : Z := match l with Nil => acc | Cons d l => horner l (B * acc + to_Z d) end.
(** 2^3176 / 10^489 *)
Definition gap : Z := 0xbef6f1a473a3f6fa1ef6a486a5445979cf938fb3fc40ab71056ed1369cbd5876b64a1b97fb6887bb604fa09a85391abf0c08354887268692b072c51b80b41e1413c1c4304d528f119ce06dc5f714c3a8158d6f3cb47c61b2695767ff13f846184f1af2ebbee2f6781656c0e583a0ca6e546e4f32383fad7d6236dc71184034483da5410cf4016ebe52e1ccdb19cc3b293f3cbb5a494a743289802962e60b2058b591a18140664109c80f89c241024274d3368e65d40d9fbb6415f52cf85894b56ffe.
Definition compare (x a b : Z) : bool :=
  let u := B ^ 2704 in
  (1195 * (3 * u + x + 2) <=? 3824 * a - 20 * (b + 2)) && (3824 * (a + 2) - 20 * b <? 1195 * (3 * u + x + gap)).
Definition text_ok (s : list Z) (b : bool) : bool :=
  match s with
  | c :: d :: ds => (c =? 51) && (d =? 46) && (length ds =? 50000)%nat && forallb (fun c => (48 <=? c) && (c <=? 57)) ds && b
  | _ => false
  end.
Lemma pi_check_ok : text_ok pi_string (compare (horner frac_limbs 0) (horner limbs5 0) (horner limbs239 0)) = true.
Proof. vm_cast_no_check (eq_refl true). Qed.
