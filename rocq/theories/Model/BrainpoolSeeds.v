(** ecc/test/test_brainpoolseeds.py: the seeds of the Brainpool curves. *)
From Coq Require Import ZArith List Bool String Ascii.
From Verif Require Import Model.Py Model.Pi Model.Ecc.
Import ListNotations.
Local Open Scope Z_scope.

(** ecc/test/test_brainpoolseeds.py:19-39, the text verbatim *)
Definition pi1k : string := "    3.14159265358979323846264338327950288419716939937510
                58209749445923078164062862089986280348253421170679
                82148086513282306647093844609550582231725359408128
                48111745028410270193852110555964462294895493038196
                44288109756659334461284756482337867831652712019091
                45648566923460348610454326648213393607260249141273
                72458700660631558817488152092096282925409171536436
                78925903600113305305488204665213841469519415116094
                33057270365759591953092186117381932611793105118548
                07446237996274956735188575272489122793818301194912
                98336733624406566430860213949463952247371907021798
                60943702770539217176293176752384674818467669405132
                00056812714526356082778577134275778960917363717872
                14684409012249534301465495853710507922796892589235
                42019956112129021960864034418159813629774771309960
                51870721134999999837297804995105973173281609631859
                50244594553469083026425223082533446850352619311881
                71010003137838752886587533208381420617177669147303
                59825349042875546873115956286388235378759375195778
                18577805321712268066130019278766111959092164201989 
       ".
(** line 40 *)
Definition pi_ascii : str := List.concat (map strip (splitlines (octets_of pi1k))).
(** lines 43-44 *)
Definition num_digits : Z := len pi_ascii - 2.
Definition pi_fraction : res (Z * Z) :=
  do n <- py_int (py_slice pi_ascii 2 (len pi_ascii));
  do f <- fraction n (10 ^ num_digits); int_plus_fraction 3 f.

(** [hex(n)] of a positive long, without the leading 0x: lower-case digits and the letter L.  The
    fuel of the loop is the number of binary digits. *)
Definition hex_digit (d : Z) : Z := if d <? 10 then 48 + d else 87 + d.
Fixpoint hex_loop (fuel : nat) (n : Z) (acc : str) : str :=
  match fuel with
  | O => acc
  | S f => if n =? 0 then acc else hex_loop f (n / 16) (hex_digit (n mod 16) :: acc)
  end.
Definition py_hex (n : Z) : str := (hex_loop (Z.to_nat (Z.log2 n + 1)) n [] ++ [76])%list.
(** [int(s, 16)] for a string of lower-case digits; other forms do not occur *)
Definition hex_value (c : Z) : option Z :=
  if (48 <=? c) && (c <=? 57) then Some (c - 48) else if (97 <=? c) && (c <=? 102) then Some (c - 87) else None.
Fixpoint int16_loop (s : str) (acc : Z) : res Z :=
  match s with
  | [] => Ok acc
  | c :: r => match hex_value c with Some d => int16_loop r (16 * acc + d) | None => Raise ValueError end
  end.
Definition py_int16 (s : str) : res Z := match s with [] => Raise ValueError | _ => int16_loop s 0 end.

(** the list comprehension, lines 62-63: i runs over range(num_seeds) *)
Fixpoint seed_loop (h : str) (seed_octets : Z) (is : list nat) : res (list Z) :=
  match is with
  | [] => Ok []
  | i :: r =>
      do v <- py_int16 (py_slice h (Z.of_nat i * seed_octets * 2) ((Z.of_nat i + 1) * seed_octets * 2));
      do l <- seed_loop h seed_octets r; Ok (v :: l)
  end.
(** brainpool_seeds, lines 47-64, for num_seeds >= 0 and seed_bits >= 0.  Raising a string is a
    TypeError. *)
Definition brainpool_seeds (num_seeds seed_bits : Z) : res (list Z) :=
  do pi <- pi_fraction;
  let '(numerator, denominator) := pi in
  let bits := num_seeds * seed_bits in
  if negb (2 ^ bits <? denominator) then Raise TypeError
  else
    let seed_octets := seed_bits / 8 in
    if negb (seed_bits mod 8 =? 0) then Raise TypeError
    else
      let pi_seed := numerator * 2 ^ bits / denominator in
      let hex_seed_string := firstn 1000 (py_hex pi_seed) in
      seed_loop hex_seed_string seed_octets (seq 0 (Z.to_nat num_seeds)).

(** brainPoolRequirements, lines 67-75: the name prime is neither defined nor imported *)
Definition brainPoolRequirements (c : curve) : res unit :=
  do _ <- py_assert (3 <? c_p c);
  do _ <- py_assert (c_p c mod 4 =? 3);
  Raise NameError.
