(** Transcription of analysis/sbox_nonlinearity.py, analysis/walshtransform.py
    and analysis/sbox_analysis.py. *)
From Coq Require Import ZArith List Bool.
From Verif Require Import Model.Py.
Import ListNotations.
Local Open Scope Z_scope.

(** [range(n)] and [range(i,n)] *)
Definition py_range (n : Z) : list Z := map Z.of_nat (seq 0 (Z.to_nat n)).
Definition py_range2 (i n : Z) : list Z :=
  map (fun k => i + Z.of_nat k) (seq 0 (Z.to_nat (n - i))).

(** the position meant by the index [k] of a list of [n] elements
    (negative indices count from the end) *)
Definition py_pos (n k : Z) : res nat :=
  if (0 <=? k) && (k <? n) then Ok (Z.to_nat k)
  else if (- n <=? k) && (k <? 0) then Ok (Z.to_nat (n + k))
  else Raise IndexError.

(** [l[k]] *)
Definition py_get (l : list Z) (k : Z) : res Z :=
  do i <- py_pos (len l) k; Ok (nth i l 0).

Fixpoint set_nth {A} (i : nat) (v : A) (l : list A) : list A :=
  match l, i with
  | [], _ => []
  | _ :: l', O => v :: l'
  | x :: l', S i' => x :: set_nth i' v l'
  end.

(** [l[k] = v] *)
Definition py_set (l : list Z) (k v : Z) : res (list Z) :=
  do i <- py_pos (len l) k; Ok (set_nth i v l).

(** [for x in xs: state = body(state, x)] *)
Fixpoint py_for {S} (xs : list Z) (body : S -> Z -> res S) (st : S) : res S :=
  match xs with
  | [] => Ok st
  | x :: xs' => do st' <- body st x; py_for xs' body st'
  end.

(** [[f(x) for x in xs]] *)
Fixpoint py_listcomp (f : Z -> res Z) (xs : list Z) : res (list Z) :=
  match xs with
  | [] => Ok []
  | x :: xs' => do y <- f x; do ys <- py_listcomp f xs'; Ok (y :: ys)
  end.

(** [max(l)], [min(l)] *)
Definition py_max (l : list Z) : res Z :=
  match l with [] => Raise ValueError | x :: l' => Ok (fold_left Z.max l' x) end.
Definition py_min (l : list Z) : res Z :=
  match l with [] => Raise ValueError | x :: l' => Ok (fold_left Z.min l' x) end.

(** ** analysis/sbox_nonlinearity.py:39-46, analysis/walshtransform.py:23-30 *)

(** the loop of lines 43-45; one round more than the bits of [ab] is allowed *)
Fixpoint ip_loop (fuel : nat) (ip ab : Z) : res Z :=
  match fuel with
  | O => Raise OutOfFuel
  | S fuel' =>
      if 0 <? ab then ip_loop fuel' (Z.lxor ip (Z.land ab 1)) (Z.shiftr ab 1)
      else Ok ip
  end.

Definition binaryInnerProduct (a b : Z) : res Z :=
  let ab := Z.land a b in
  ip_loop (Z.to_nat (Z.log2 ab + 2)) 0 ab.

(** ** analysis/sbox_nonlinearity.py:55-64, analysis/walshtransform.py:38-47 *)

(** the loop of lines 59-61, returning [n] *)
Fixpoint log2n_loop (fuel : nat) (x n : Z) : res Z :=
  match fuel with
  | O => Raise OutOfFuel
  | S fuel' =>
      if 0 <? x then log2n_loop fuel' (Z.shiftr x 1) (n + 1) else Ok n
  end.

(** The assertion of line 63: for [n = -1] the left side is the float 0.5,
    which equals no integer. *)
Definition log2n (l : Z) : res Z :=
  do n1 <- log2n_loop (Z.to_nat (Z.log2 l + 2)) l 0;
  let n := n1 - 1 in
  do _ <- py_assert (if n <? 0 then false else 2 ^ n =? l);
  Ok n.

(** ** analysis/sbox_nonlinearity.py:31-37, analysis/walshtransform.py:14-21 *)

(** [(-1)**k]; for negative [k] Python gives a float of the same value *)
Definition minus_one_pow (k : Z) : Z := if Z.even k then 1 else -1.

Definition walshTransform (t : list Z) : res (list Z) :=
  do _ <- log2n (len t);
  let wt := repeat 0 (length t) in
  py_for (py_range (len t))
    (fun wt w =>
       py_for (py_range (len t))
         (fun wt x =>
            do old <- py_get wt w;
            do tx <- py_get t x;
            do ip <- binaryInnerProduct w x;
            py_set wt w (old + minus_one_pow (Z.lxor tx ip)))
         wt)
    wt.

(** ** analysis/sbox_nonlinearity.py:48-53, analysis/walshtransform.py:32-36

    The Python value is the float [len(t)/2 - .5*max(...)], where [len(t)/2]
    is an integer division.  It is a multiple of one half, exact for lists of
    fewer than 2^53 elements; the model returns twice the value. *)
Definition nonLinearity_x2 (t : list Z) : res Z :=
  do wt <- walshTransform t;
  do m <- py_max (map Z.abs wt);
  Ok (2 * (len t / 2) - m).

(** ** analysis/sbox_nonlinearity.py:12-29 (both components doubled) *)
Definition sboxNonlinearity_x2 (sbox : list Z) : res (Z * Z) :=
  do n <- log2n (len sbox);
  let nlv := repeat 0 (Z.to_nat (2 ^ n - 1)) in
  do nlv <-
    py_for (py_range (len nlv))
      (fun nlv c =>
         do t <- py_listcomp
                   (fun i => do s <- py_get sbox i; binaryInnerProduct (c + 1) s)
                   (py_range (len sbox));
         do nl <- nonLinearity_x2 t;
         py_set nlv c nl)
      nlv;
  do mn <- py_min (map Z.abs nlv);
  do mx <- py_max (map Z.abs nlv);
  Ok (mn, mx).

(** ** analysis/sbox_analysis.py *)

(** [gdict[k] = v]; a dictionary is the list of its items in the order in
    which the keys were first inserted *)
Fixpoint dict_set {A} (d : list (Z * A)) (k : Z) (v : A) : list (Z * A) :=
  match d with
  | [] => [(k, v)]
  | (k', v') :: d' => if k' =? k then (k, v) :: d' else (k', v') :: dict_set d' k v
  end.

(** the loop of lines 91-96; state: [touched], [cycle], [element] *)
Fixpoint orbit_loop (permutation : list Z) (i : Z) (js : list Z)
    (touched cycle : list Z) (element : Z) : res (list Z * list Z) :=
  match js with
  | [] => Ok (touched, cycle)
  | _ :: js' =>
      do touched <- py_set touched element 1;
      let cycle := cycle ++ [element] in
      do element <- py_get permutation element;
      if element =? i then Ok (touched, cycle)
      else orbit_loop permutation i js' touched cycle element
  end.

(** lines 81-100 *)
Definition map_orbits_of_permutation (permutation : list Z)
    : res (list (Z * list Z)) :=
  let touched := map (fun _ => 0) (py_range (len permutation)) in
  let touched := touched ++ map (fun _ => 0) (py_range (len permutation)) in
  do st <-
    py_for (py_range (len permutation))
      (fun st i =>
         let '(touched, gdict) := st in
         do t <- py_get touched i;
         if t =? 0 then
           do r <- orbit_loop permutation i
                     (py_range2 i (len permutation)) touched [] i;
           let '(touched, cycle) := r in
           do c0 <- py_get cycle 0;
           Ok (touched, dict_set gdict c0 cycle)
         else Ok (touched, gdict))
      (touched, []);
  Ok (snd st).

(** lines 102-108; [keys()] is in an unspecified order in Python 2, the model
    uses the order of insertion *)
Definition orbit_start_and_length (permutation : list Z)
    : res (list (Z * Z)) :=
  do z <- map_orbits_of_permutation permutation;
  Ok (map (fun kv => (fst kv, len (snd kv))) z).
