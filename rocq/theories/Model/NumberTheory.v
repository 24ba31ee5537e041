(** Transcription of ecc/numbertheory.py and fmath/prime.py.

    Python integers are [Z]; [/] and [%] are floor division and its remainder
    ([Z.div], [Z.modulo]).  Loops and recursive calls take a [fuel] argument: the
    number of iterations (or the depth of the recursion) after which the model
    gives up with [OutOfFuel]. *)
From Coq Require Import ZArith List Bool Zpow_facts.
From Verif Require Import Model.Py.
Import ListNotations.
Local Open Scope Z_scope.

(** The builtin [pow(b, e, m)].  [Zpow_mod] is square-and-multiply from the standard
    library.  A negative exponent is refused before a zero modulus. *)
Definition py_pow3 (b e m : Z) : res Z :=
  if e <? 0 then Raise TypeError
  else if m =? 0 then Raise ValueError
  else Ok (Zpow_mod b e m).

(** ecc/numbertheory.py:28-33 *)
Definition modular_exp (base exponent modulus : Z) : res Z :=
  if exponent <? 0 then Raise NegativeExponentError else py_pow3 base exponent modulus.

(** ** Polynomials: lists of coefficients of increasing powers *)

(** [poly[-i]] and its assignment, for 1 <= i <= len(poly) *)
Definition get_neg (poly : list Z) (i : nat) : Z := nth (length poly - i) poly 0.
Fixpoint set_nth (l : list Z) (i : nat) (v : Z) : list Z :=
  match l, i with
  | [], _ => []
  | _ :: t, O => v :: t
  | x :: t, S i' => x :: set_nth t i' v
  end.
Definition set_neg (poly : list Z) (i : nat) (v : Z) : list Z := set_nth poly (length poly - i) v.

(** the for loop ecc/numbertheory.py:60-61 over i = 2, ..., len(polymod) *)
Definition reduce_row (polymod : list Z) (p : Z) (poly : list Z) : list Z :=
  fold_left (fun poly i => set_neg poly i ((get_neg poly i - get_neg poly 1 * get_neg polymod i) mod p))
    (seq 2 (length polymod - 1)) poly.

(** the while loop ecc/numbertheory.py:58-64; the list gets shorter each time, so
    the fuel is its length *)
Fixpoint reduce_loop (fuel : nat) (poly polymod : list Z) (p : Z) : list Z :=
  match fuel with
  | O => poly
  | S f =>
      if (length polymod <=? length poly)%nat then
        let poly := if negb (get_neg poly 1 =? 0) then reduce_row polymod p poly else poly in
        reduce_loop f (removelast poly) polymod p
      else poly
  end.
(** ecc/numbertheory.py:44-64.  An empty polymod raises IndexError. *)
Definition polynomial_reduce_mod (poly polymod : list Z) (p : Z) : res (list Z) :=
  match polymod with
  | [] => Raise IndexError
  | _ =>
      do _ <- py_assert (get_neg polymod 1 =? 1);
      do _ <- py_assert (1 <? len polymod);
      if p =? 0 then Raise NotModelled else
      Ok (reduce_loop (length poly) poly polymod p)
  end.

(** ecc/numbertheory.py:68-89; [prod[i+j] = ...] in the order of the two loops *)
Definition multiply_raw (m1 m2 : list Z) (p : Z) : list Z :=
  fold_left (fun prod i =>
    fold_left (fun prod j =>
      set_nth prod (i + j) ((nth (i + j) prod 0 + nth i m1 0 * nth j m2 0) mod p))
      (seq 0 (length m2)) prod)
    (seq 0 (length m1)) (repeat 0 (length m1 + length m2 - 1)).
Definition polynomial_multiply_mod (m1 m2 polymod : list Z) (p : Z) : res (list Z) :=
  if p =? 0 then Raise NotModelled else
  polynomial_reduce_mod (multiply_raw m1 m2 p) polymod p.

(** while loop ecc/numbertheory.py:114-117 *)
Fixpoint exp_loop (fuel : nat) (k : Z) (G s polymod : list Z) (p : Z) : res (list Z) :=
  if 1 <? k then
    match fuel with
    | O => Raise OutOfFuel
    | S f =>
        let k := k / 2 in
        do G <- polynomial_multiply_mod G G polymod p;
        do s <- (if k mod 2 =? 1 then polynomial_multiply_mod G s polymod p else Ok s);
        exp_loop f k G s polymod p
    end
  else Ok s.
(** ecc/numbertheory.py:94-119 *)
Definition polynomial_exp_mod (fuel : nat) (base : list Z) (exponent : Z) (polymod : list Z) (p : Z) : res (list Z) :=
  do _ <- py_assert (exponent <? p);
  if exponent =? 0 then Ok [1]
  else
    let s := if exponent mod 2 =? 1 then base else [1] in
    exp_loop fuel exponent base s polymod p.

(** ** Quadratic residues *)

(** loops of the form [while r % 2 == 0: s = s + 1; r = r / 2]
    (ecc/numbertheory.py:138-139, 217-219, 534-536 and fmath/prime.py:27-29) *)
Fixpoint split2 (fuel : nat) (s r : Z) : res (Z * Z) :=
  if r mod 2 =? 0 then
    match fuel with
    | O => Raise OutOfFuel
    | S f => split2 f (s + 1) (r / 2)
    end
  else Ok (s, r).

(** ecc/numbertheory.py:123-144 *)
Fixpoint jacobi (fuel : nat) (a n : Z) : res Z :=
  match fuel with
  | O => Raise OutOfFuel
  | S f =>
      do _ <- py_assert (3 <=? n);
      do _ <- py_assert (n mod 2 =? 1);
      let a := a mod n in
      if a =? 0 then Ok 0
      else if a =? 1 then Ok 1
      else
        do ea <- split2 fuel 0 a;
        let '(e, a1) := ea in
        let s := if (e mod 2 =? 0) || (n mod 8 =? 1) || (n mod 8 =? 7) then 1 else -1 in
        if a1 =? 1 then Ok s
        else
          let s := if (n mod 4 =? 3) && (a1 mod 4 =? 3) then - s else s in
          do j <- jacobi f (n mod a1) a1;
          Ok (s * j)
  end.

(** the for loop ecc/numbertheory.py:175-181; [k] values of b remain *)
Fixpoint root_search (fuel : nat) (k : nat) (b a p : Z) : res Z :=
  match k with
  | O => Raise RuntimeError
  | S k' =>
      do j <- jacobi fuel (b * b - 4 * a) p;
      if j =? -1 then
        do ff <- polynomial_exp_mod fuel [0; 1] ((p + 1) / 2) [a; - b; 1] p;
        match ff with
        | ff0 :: ff1 :: _ => do _ <- py_assert (ff1 =? 0); Ok ff0
        | _ => Raise IndexError
        end
      else root_search fuel k' (b + 1) a p
  end.
(** ecc/numbertheory.py:147-181.  [maxlist] is the length of the longest list that
    range() can build; above it OverflowError is raised. *)
Definition square_root_mod_prime (maxlist : Z) (fuel : nat) (a p : Z) : res Z :=
  do _ <- py_assert ((0 <=? a) && (a <? p));
  do _ <- py_assert (1 <? p);
  if a =? 0 then Ok 0
  else if p =? 2 then Ok a
  else
    do jac <- jacobi fuel a p;
    if jac =? -1 then Raise SquareRootError
    else if p mod 4 =? 3 then modular_exp a ((p + 1) / 4) p
    else if p mod 8 =? 5 then
      do d <- modular_exp a ((p - 1) / 4) p;
      if d =? 1 then modular_exp a ((p + 3) / 8) p
      else if d =? p - 1 then
        do m <- modular_exp (4 * a) ((p - 5) / 8) p;
        Ok ((2 * a * m) mod p)
      else Raise RuntimeError
    else if maxlist <? p - 2 then Raise OverflowError
    else root_search fuel (Z.to_nat (p - 2)) 2 a p.

(** ecc/numbertheory.py:266-277 *)
Definition legendre_symbol (a p : Z) : res Z :=
  do ls <- py_pow3 a ((p - 1) / 2) p;
  Ok (if ls =? p - 1 then -1 else ls).

(** while loop ecc/numbertheory.py:224-226 *)
Fixpoint find_nonresidue (fuel : nat) (n p : Z) : res Z :=
  match fuel with
  | O => Raise OutOfFuel
  | S f =>
      do l <- legendre_symbol n p;
      if negb (l =? -1) then find_nonresidue f (n + 1) p else Ok n
  end.
(** for loop ecc/numbertheory.py:249-254: the value of [m] after the loop over
    xrange(r) that starts with counter [m]; [k] iterations remain *)
Fixpoint order_loop (k : nat) (m t p : Z) : Z :=
  match k with
  | O => m - 1
  | S k' => if t =? 1 then m else order_loop k' (m + 1) (Zpow_mod t 2 p) p
  end.
(** while loop ecc/numbertheory.py:248-263.  For r <= 0 the for loop does not
    run and m stays 0. *)
Fixpoint tonelli (fuel : nat) (x b g r p : Z) : res Z :=
  match fuel with
  | O => Raise OutOfFuel
  | S f =>
      let m := if r <=? 0 then 0 else order_loop (Z.to_nat r) 0 b p in
      if m =? 0 then Ok x
      else
        let gs := Zpow_mod g (2 ^ (r - m - 1)) p in
        let g := (gs * gs) mod p in
        let x := (x * gs) mod p in
        let b := (b * g) mod p in
        tonelli f x b g m p
  end.
(** ecc/numbertheory.py:183-263 *)
Definition modular_sqrt (fuel : nat) (a p : Z) : res Z :=
  do l <- legendre_symbol a p;
  if negb (l =? 1) then Ok 0
  else if a =? 0 then Ok 0
  else if p =? 2 then Ok p
  else if p mod 4 =? 3 then py_pow3 a ((p + 1) / 4) p
  else
    do es <- split2 fuel 0 (p - 1);
    let '(e, s) := es in
    do n <- find_nonresidue fuel 2 p;
    do x <- py_pow3 a ((s + 1) / 2) p;
    do b <- py_pow3 a s p;
    do g <- py_pow3 n s p;
    tonelli fuel x b g e p.

(** ** Inverses, gcd, lcm *)

(** while loop ecc/numbertheory.py:287-289 *)
Fixpoint inverse_loop (fuel : nat) (c d uc vc ud vd : Z) : res (Z * Z * Z) :=
  if c =? 0 then Ok (d, ud, vd)
  else
    match fuel with
    | O => Raise OutOfFuel
    | S f =>
        let q := d / c in
        inverse_loop f (d mod c) c (ud - q * uc) (vd - q * vc) uc vc
    end.
(** ecc/numbertheory.py:280-296 *)
Definition inverse_mod (fuel : nat) (a m : Z) : res Z :=
  do a <- (if (a <? 0) || (m <=? a) then py_mod a m else Ok a);
  do r <- inverse_loop fuel a m 1 0 0 1;
  let '(d, ud, vd) := r in
  do _ <- py_assert (d =? 1);
  Ok (if 0 <? ud then ud else ud + m).

(** ecc/numbertheory.py:299-303 *)
Fixpoint gcd2 (fuel : nat) (a b : Z) : res Z :=
  if a =? 0 then Ok b
  else
    match fuel with
    | O => Raise OutOfFuel
    | S f => gcd2 f (b mod a) a
    end.

(** reduce(f, l) *)
Definition py_reduce (f : Z -> Z -> res Z) (l : list Z) : res Z :=
  match l with
  | [] => Raise TypeError
  | x :: t => fold_left (fun acc y => do a <- acc; f a y) t (Ok x)
  end.
(** ecc/numbertheory.py:306-315: called with several integers, or with one list
    ([gcd_list]); one integer is returned as it is, no argument is an IndexError *)
Definition gcd_list (fuel : nat) (l : list Z) : res Z := py_reduce (gcd2 fuel) l.
Definition gcd (fuel : nat) (args : list Z) : res Z :=
  match args with [] => Raise IndexError | [x] => Ok x | _ => py_reduce (gcd2 fuel) args end.
(** ecc/numbertheory.py:318-333 *)
Definition lcm2 (fuel : nat) (a b : Z) : res Z :=
  do g <- gcd fuel [a; b];
  py_div (a * b) g.
Definition lcm_list (fuel : nat) (l : list Z) : res Z := py_reduce (lcm2 fuel) l.
Definition lcm (fuel : nat) (args : list Z) : res Z :=
  match args with [] => Raise IndexError | [x] => Ok x | _ => py_reduce (lcm2 fuel) args end.

(** ** Primality *)

(** ecc/numbertheory.py:563-582 *)
Definition smallprimes : list Z :=
  [2; 3; 5; 7; 11; 13; 17; 19; 23; 29; 31; 37; 41; 43; 47; 53; 59; 61;
   67; 71; 73; 79; 83; 89; 97; 101; 103; 107; 109; 113; 127; 131; 137; 139; 149; 151;
   157; 163; 167; 173; 179; 181; 191; 193; 197; 199; 211; 223; 227; 229; 233; 239; 241; 251;
   257; 263; 269; 271; 277; 281; 283; 293; 307; 311; 313; 317; 331; 337; 347; 349; 353; 359;
   367; 373; 379; 383; 389; 397; 401; 409; 419; 421; 431; 433; 439; 443; 449; 457; 461; 463;
   467; 479; 487; 491; 499; 503; 509; 521; 523; 541; 547; 557; 563; 569; 571; 577; 587; 593;
   599; 601; 607; 613; 617; 619; 631; 641; 643; 647; 653; 659; 661; 673; 677; 683; 691; 701;
   709; 719; 727; 733; 739; 743; 751; 757; 761; 769; 773; 787; 797; 809; 811; 821; 823; 827;
   829; 839; 853; 857; 859; 863; 877; 881; 883; 887; 907; 911; 919; 929; 937; 941; 947; 953;
   967; 971; 977; 983; 991; 997; 1009; 1013; 1019; 1021; 1031; 1033; 1039; 1049; 1051; 1061; 1063; 1069;
   1087; 1091; 1093; 1097; 1103; 1109; 1117; 1123; 1129; 1151; 1153; 1163; 1171; 1181; 1187; 1193; 1201; 1213;
   1217; 1223; 1229].
Definition smallprimes_last : Z := 1229.

(** the while loop ecc/numbertheory.py:542-547 and fmath/prime.py:33-37; None stands
    for [return False] inside the loop *)
Fixpoint mr_loop (fuel : nat) (j s y n : Z) : res (option Z) :=
  if (j <=? s - 1) && negb (y =? n - 1) then
    match fuel with
    | O => Raise OutOfFuel
    | S f =>
        do y <- modular_exp y 2 n;
        if y =? 1 then Ok None else mr_loop f (j + 1) s y n
    end
  else Ok (Some y).
(** one pass of the loop ecc/numbertheory.py:538-550; true: not rejected *)
Definition mr_round (fuel : nat) (n s r a : Z) : res bool :=
  do y <- modular_exp a r n;
  if negb (y =? 1) && negb (y =? n - 1) then
    do y' <- mr_loop fuel 1 s y n;
    match y' with None => Ok false | Some y => Ok (y =? n - 1) end
  else Ok true.
(** for i in xrange(t): a = smallprimes[i] *)
Fixpoint mr_rounds (fuel : nat) (n s r : Z) (bases : list Z) : res bool :=
  match bases with
  | [] => Ok true
  | a :: t =>
      do ok <- mr_round fuel n s r a;
      if ok then mr_rounds fuel n s r t else Ok false
  end.
(** the table loop ecc/numbertheory.py:512-528 *)
Definition mr_table : list (Z * nat) :=
  [(100, 27%nat); (150, 18%nat); (200, 15%nat); (250, 12%nat); (300, 9%nat); (350, 8%nat); (400, 7%nat); (450, 6%nat);
   (550, 5%nat); (650, 4%nat); (850, 3%nat); (1300, 2%nat)].
Fixpoint mr_count (n_bits : Z) (table : list (Z * nat)) (t : nat) : nat :=
  match table with
  | [] => t
  | (k, t1) :: rest => if n_bits <? k then t else mr_count n_bits rest t1
  end.

Section Primes.
(** [n_bits n] is [1 + int( math.log( n, 2 ) )], ecc/numbertheory.py:513, computed in
    floating point: left arbitrary. *)
Context (n_bits : Z -> Z).

(** ecc/numbertheory.py:481-551 without the counter miller_rabin_test_count *)
Definition is_prime (fuel : nat) (n : Z) : res bool :=
  if n <=? smallprimes_last then Ok (existsb (Z.eqb n) smallprimes)
  else
    do g <- gcd fuel [n; 2 * 3 * 5 * 7 * 11];
    if negb (g =? 1) then Ok false
    else
      let t := mr_count (n_bits n) mr_table 40 in
      do sr <- split2 fuel 0 (n - 1);
      let '(s, r) := sr in
      mr_rounds fuel n s r (firstn t smallprimes).

(** while loop ecc/numbertheory.py:559 *)
Fixpoint next_prime_loop (fuel : nat) (result : Z) : res Z :=
  match fuel with
  | O => Raise OutOfFuel
  | S f =>
      do ok <- is_prime fuel result;
      if ok then Ok result else next_prime_loop f (result + 2)
  end.
(** ecc/numbertheory.py:554-560 *)
Definition next_prime (fuel : nat) (starting_value : Z) : res Z :=
  if starting_value <? 2 then Ok 2 else next_prime_loop fuel (Z.lor (starting_value + 1) 1).

(** ** Factorisation *)

(** while loop ecc/numbertheory.py:353-357: returns n and count *)
Fixpoint strip_small (fuel : nat) (d n q count : Z) : res (Z * Z) :=
  if d <=? n then
    match fuel with
    | O => Raise OutOfFuel
    | S f =>
        let n := q in
        let q := n / d in
        let r := n mod d in
        if negb (r =? 0) then Ok (n, count) else strip_small f d n q (count + 1)
    end
  else Ok (n, count).
(** for loop ecc/numbertheory.py:348-358 *)
Fixpoint factor_small (fuel : nat) (ds : list Z) (n : Z) (result : list (Z * Z)) : res (Z * list (Z * Z)) :=
  match ds with
  | [] => Ok (n, result)
  | d :: rest =>
      if n <? d then Ok (n, result)
      else
        let q := n / d in
        let r := n mod d in
        if r =? 0 then
          do nc <- strip_small fuel d n q 1;
          let '(n, count) := nc in
          factor_small fuel rest n (result ++ [(d, count)])
        else factor_small fuel rest n result
  end.
(** while loop ecc/numbertheory.py:375-379 *)
Fixpoint strip_large (fuel : nat) (d n count : Z) : res (Z * Z) :=
  if d <=? n then
    match fuel with
    | O => Raise OutOfFuel
    | S f =>
        let q := n / d in
        let r := n mod d in
        if negb (r =? 0) then Ok (n, count) else strip_large f d q (count + 1)
    end
  else Ok (n, count).
(** while loop ecc/numbertheory.py:368-380 *)
Fixpoint factor_large (fuel : nat) (d n : Z) (result : list (Z * Z)) : res (Z * list (Z * Z)) :=
  match fuel with
  | O => Raise OutOfFuel
  | S f =>
      let d := d + 2 in
      let q := n / d in
      let r := n mod d in
      if q <? d then Ok (n, result)
      else if r =? 0 then
        do nc <- strip_large fuel d q 1;
        let '(n, count) := nc in
        factor_large f d n (result ++ [(d, count)])
      else factor_large f d n result
  end.
(** ecc/numbertheory.py:336-383 *)
Definition factorization (fuel : nat) (n : Z) : res (list (Z * Z)) :=
  if n <? 2 then Ok []
  else
    do nr <- factor_small fuel smallprimes n [];
    let '(n, result) := nr in
    if smallprimes_last <? n then
      do ok <- is_prime fuel n;
      if ok then Ok (result ++ [(n, 1)])
      else
        do nr <- factor_large fuel smallprimes_last n result;
        let '(n, result) := nr in
        Ok (if 1 <? n then result ++ [(n, 1)] else result)
    else Ok result.

(** ecc/numbertheory.py:387-402 *)
Definition phi_of_factors (ff : list (Z * Z)) : Z :=
  fold_left (fun result f =>
    let '(p, e) := f in
    if 1 <? e then result * p ^ (e - 1) * (p - 1) else result * (p - 1)) ff 1.
Definition phi (fuel : nat) (n : Z) : res Z :=
  if n <? 3 then Ok 1
  else do ff <- factorization fuel n; Ok (phi_of_factors ff).

(** ecc/numbertheory.py:428-434 *)
Definition carmichael_of_ppower (pp : Z * Z) : Z :=
  let '(p, a) := pp in
  if (p =? 2) && (2 <? a) then 2 ^ (a - 2) else (p - 1) * p ^ (a - 1).
(** ecc/numbertheory.py:415-426 *)
Definition carmichael_of_factorized (fuel : nat) (f_list : list (Z * Z)) : res Z :=
  match f_list with
  | [] => Ok 1
  | pp :: t =>
      fold_left (fun acc f => do result <- acc; lcm fuel [result; carmichael_of_ppower f]) t
        (Ok (carmichael_of_ppower pp))
  end.
(** ecc/numbertheory.py:405-412 *)
Definition carmichael (fuel : nat) (n : Z) : res Z :=
  do f <- factorization fuel n; carmichael_of_factorized fuel f.
End Primes.

(** while loop ecc/numbertheory.py:451-453 *)
Fixpoint order_mod_loop (fuel : nat) (z x m result : Z) : res Z :=
  if z =? 1 then Ok result
  else
    match fuel with
    | O => Raise OutOfFuel
    | S f => order_mod_loop f ((z * x) mod m) x m (result + 1)
    end.
(** ecc/numbertheory.py:438-454 *)
Definition order_mod (fuel : nat) (x m : Z) : res Z :=
  if m <=? 1 then Ok 0
  else
    do g <- gcd fuel [x; m];
    do _ <- py_assert (g =? 1);
    order_mod_loop fuel x x m 1.

(** inner while loop ecc/numbertheory.py:465-469 *)
Fixpoint divide_out (fuel : nat) (a d : Z) : res Z :=
  match fuel with
  | O => Raise OutOfFuel
  | S f =>
      let q := a / d in
      let r := a mod d in
      if 0 <? r then Ok a else divide_out f q d
  end.
(** ecc/numbertheory.py:457-470 *)
Fixpoint largest_factor_relatively_prime (fuel : nat) (a b : Z) : res Z :=
  match fuel with
  | O => Raise OutOfFuel
  | S f =>
      do d <- gcd fuel [a; b];
      if d <=? 1 then Ok a
      else
        do a <- divide_out fuel a d;
        largest_factor_relatively_prime f a d
  end.
(** ecc/numbertheory.py:473-478 *)
Definition kinda_order_mod (fuel : nat) (x m : Z) : res Z :=
  do f <- largest_factor_relatively_prime fuel m x;
  order_mod fuel x f.

(** ** fmath/prime.py *)

(** fmath/prime.py:9-16 *)
Definition fermat_little_test (p a : Z) : res Z :=
  do x <- py_pow3 a (p - 1) p;
  Ok (if x =? 1 then 1 else 0).

(** fmath/prime.py:18-40 *)
Definition rabin_miller (fuel : nat) (possiblePrime aTestInteger : Z) : res Z :=
  do _ <- py_assert ((1 <=? aTestInteger) && (aTestInteger <=? possiblePrime - 1));
  do sr <- split2 fuel 0 (possiblePrime - 1);
  let '(s, r) := sr in
  do y <- py_pow3 aTestInteger r possiblePrime;
  if negb (y =? 1) && negb (y =? possiblePrime - 1) then
    do y' <- mr_loop fuel 1 s y possiblePrime;
    match y' with None => Ok 0 | Some y => Ok (if y =? possiblePrime - 1 then 1 else 0) end
  else Ok 1.
