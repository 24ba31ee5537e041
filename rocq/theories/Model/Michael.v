(** Transcription of hash/michael.py, hash/tkip_mic.py and hash/tkip_key_mixing.py. *)
From Coq Require Import ZArith List Bool String.
From Verif Require Import Model.Py.
Import ListNotations.
Local Open Scope Z_scope.

(** hash/michael.py:56-66 *)
Definition b (l r : Z) : Z * Z :=
  let r := Z.lxor r (Z.lor (Z.land (Z.shiftl l 17) 0xffffffff) (Z.land (Z.shiftr l 15) 0x1ffff)) in
  let l := Z.land (l + r) 0xffffffff in
  let r := Z.lxor r (Z.lor (Z.shiftr (Z.land l 0xff00ff00) 8) (Z.shiftl (Z.land l 0x00ff00ff) 8)) in
  let l := Z.land (l + r) 0xffffffff in
  let r := Z.lxor r (Z.lor (Z.land (Z.shiftl l 3) 0xffffffff) (Z.land (Z.shiftr l 29) 0x7)) in
  let l := Z.land (l + r) 0xffffffff in
  let r := Z.lxor r (Z.lor (Z.land (Z.shiftl l 30) 0xffffffff) (Z.land (Z.shiftr l 2) 0x3fffffff)) in
  let l := Z.land (l + r) 0xffffffff in
  (l, r).

(** struct.unpack('<I', s)[0]: struct.error (as ValueError) unless s has 4 octets *)
Definition unpack_I (s : str) : res Z :=
  match s with
  | [b0; b1; b2; b3] => Ok (b0 + 256 * b1 + 65536 * b2 + 16777216 * b3)
  | _ => Raise ValueError
  end.
(** struct.pack('<I', n) *)
Definition pack_I (n : Z) : res str :=
  if (0 <=? n) && (n <? 2 ^ 32)
  then Ok [n mod 256; (n / 256) mod 256; (n / 65536) mod 256; (n / 16777216) mod 256]
  else Raise ValueError.

(** hash/michael.py:29-32; the result is the attribute [_key] *)
Definition michael_setKey (key : str) : res (Z * Z) :=
  do _ <- py_assert (len key =? 8);
  do k0 <- unpack_I (slice key 0 4);
  do k1 <- unpack_I (slice key 4 8);
  Ok (k0, k1).

(** loop hash/michael.py:42-45 *)
Fixpoint michael_loop (n : nat) (i : Z) (paddedData : str) (l r : Z) : res (Z * Z) :=
  match n with
  | O => Ok (l, r)
  | S n' =>
      do m <- unpack_I (slice paddedData (i * 4) (i * 4 + 4));
      let l := Z.lxor l m in
      let '(l, r) := b l r in
      michael_loop n' (i + 1) paddedData l r
  end.

(** hash/michael.py:37-47.  [self_key] is None while setKey has not been called. *)
Definition michael_hash (self_key : option (Z * Z)) (data : str) : res str :=
  let fullBlocks := len data / 4 in
  let extraOctets := len data mod 4 in
  let paddedData := data ++ [0x5a] ++ str_repeat 0 (7 - extraOctets) in
  match self_key with
  | None => Raise AttributeError
  | Some (l, r) =>
      do lr <- michael_loop (Z.to_nat (fullBlocks + 2)) 0 paddedData l r;
      let '(l, r) := lr in
      do dl <- pack_I l;
      do dr <- pack_I r;
      Ok (dl ++ dr)
  end.

(** Michael(key)(data): hash/michael.py:16-25 and 34-35 *)
Definition michael (key data : str) : res str :=
  do k <- michael_setKey key;
  michael_hash (Some k) data.

(** ** hash/tkip_mic.py *)
Inductive version := D3 | D2 | OtherVersion.

(** hash/tkip_mic.py:23-38.  [raise 'bad version'] raises a string: TypeError. *)
Definition tkip_mic_data (v : version) (sa da : str) (priority : Z) (msduData : str) : res str :=
  do _ <- py_assert ((0 <=? priority) && (priority <=? 15));
  do _ <- py_assert ((len sa =? 6) && (len da =? 6));
  match v with
  | D3 => do p <- py_chr priority; Ok (da ++ sa ++ p ++ str_repeat 0 3 ++ msduData)
  | D2 => Ok (da ++ sa ++ msduData)
  | OtherVersion => Raise TypeError
  end.
Definition tkip_mic_hash (v : version) (self_key : option (Z * Z)) (sa da : str) (priority : Z) (msduData : str)
  : res str :=
  do micData <- tkip_mic_data v sa da priority msduData;
  michael_hash self_key micData.

(** the inherited hash/michael.py:34-35 calls self.hash(data), that is the method
    above, with one argument instead of four *)
Definition tkip_mic_call (v : version) (self_key : option (Z * Z)) (data : str) : res str := Raise TypeError.

(** ** hash/tkip_key_mixing.py.  [Sbox] is the imported Rijndael S-box. *)
Section Tkip.
Context (Sbox : Z -> Z).

(** hash/tkip_key_mixing.py:20-28 *)
Definition sbox_k2 (i : Z) : Z :=
  let k := Sbox i in
  if negb (Z.land k 0x80 =? 0) then Z.lxor (Z.shiftl k 1) 0x11b else Z.shiftl k 1.
Definition tkipSbox0 (i : Z) : Z :=
  let k2 := sbox_k2 i in let k3 := Z.lxor (Sbox i) k2 in Z.lxor (Z.shiftl k2 8) k3.
Definition tkipSbox1 (i : Z) : Z :=
  let k2 := sbox_k2 i in let k3 := Z.lxor (Sbox i) k2 in Z.lxor (Z.shiftl k3 8) k2.

(** hash/tkip_key_mixing.py:10-12 *)
Definition S (word : Z) : Z :=
  Z.lxor (tkipSbox0 (Z.land word 0x00FF)) (tkipSbox1 (Z.land (Z.shiftr word 8) 0x00FF)).

(** hash/tkip_key_mixing.py:30-32 *)
Definition rotR1 (v16 : Z) : Z :=
  Z.lxor (Z.land (Z.shiftr v16 1) 0x7FFF) (Z.shiftl (Z.land v16 1) 15).

(** [l[i]] on the integer lists tk (16 long), ta and pn (6 long) *)
Definition at_ (l : list Z) (i : nat) : Z := nth i l 0.

(** one round of the loop hash/tkip_key_mixing.py:95-101 *)
Definition phase1_round (tk : list Z) (i : Z) (p : Z * Z * Z * Z * Z) : Z * Z * Z * Z * Z :=
  let '(p0, p1, p2, p3, p4) := p in
  let j := Z.to_nat (2 * Z.land i 1) in
  let p0 := Z.land (p0 + S (Z.lxor p4 (at_ tk (j + 1) * 256 + at_ tk (j + 0)))) 0xFFFF in
  let p1 := Z.land (p1 + S (Z.lxor p0 (at_ tk (j + 5) * 256 + at_ tk (j + 4)))) 0xFFFF in
  let p2 := Z.land (p2 + S (Z.lxor p1 (at_ tk (j + 9) * 256 + at_ tk (j + 8)))) 0xFFFF in
  let p3 := Z.land (p3 + S (Z.lxor p2 (at_ tk (j + 13) * 256 + at_ tk (j + 12)))) 0xFFFF in
  let p4 := Z.land (p4 + S (Z.lxor p3 (at_ tk (j + 1) * 256 + at_ tk j)) + i) 0xFFFF in
  (p0, p1, p2, p3, p4).

(** hash/tkip_key_mixing.py:87-102 *)
Definition phase1KeyMixing (tk ta pn : list Z) : Z * Z * Z * Z * Z :=
  let p := (at_ pn 3 * 256 + at_ pn 2,
            at_ pn 5 * 256 + at_ pn 4,
            at_ ta 1 * 256 + at_ ta 0,
            at_ ta 3 * 256 + at_ ta 2,
            at_ ta 5 * 256 + at_ ta 4) in
  fold_left (fun p i => phase1_round tk i p) [0; 1; 2; 3; 4; 5; 6; 7] p.

(** hash/tkip_key_mixing.py:104-133.  The final [chr] of every entry is in range
    for octet lists. *)
Definition phase2KeyMixing (tk : list Z) (p1k : Z * Z * Z * Z * Z) (pn : list Z) : str :=
  let '(k0, k1, k2, k3, k4) := p1k in
  let k5 := k4 + at_ pn 1 * 256 + at_ pn 0 in
  let k0 := Z.land (k0 + S (Z.lxor k5 (at_ tk 1 * 256 + at_ tk 0))) 0xFFFF in
  let k1 := Z.land (k1 + S (Z.lxor k0 (at_ tk 3 * 256 + at_ tk 2))) 0xFFFF in
  let k2 := Z.land (k2 + S (Z.lxor k1 (at_ tk 5 * 256 + at_ tk 4))) 0xFFFF in
  let k3 := Z.land (k3 + S (Z.lxor k2 (at_ tk 7 * 256 + at_ tk 6))) 0xFFFF in
  let k4 := Z.land (k4 + S (Z.lxor k3 (at_ tk 9 * 256 + at_ tk 8))) 0xFFFF in
  let k5 := Z.land (k5 + S (Z.lxor k4 (at_ tk 11 * 256 + at_ tk 10))) 0xFFFF in
  let k0 := Z.land (k0 + rotR1 (Z.lxor k5 (at_ tk 13 * 256 + at_ tk 12))) 0xFFFF in
  let k1 := Z.land (k1 + rotR1 (Z.lxor k0 (at_ tk 15 * 256 + at_ tk 14))) 0xFFFF in
  let k2 := Z.land (k2 + rotR1 k1) 0xFFFF in
  let k3 := Z.land (k3 + rotR1 k2) 0xFFFF in
  let k4 := Z.land (k4 + rotR1 k3) 0xFFFF in
  let k5 := Z.land (k5 + rotR1 k4) 0xFFFF in
  [at_ pn 0; Z.land (Z.lor (at_ pn 0) 0x20) 0x7F; at_ pn 1;
   Z.land 0xFF (Z.shiftr (Z.lxor k5 (at_ tk 1 * 256 + at_ tk 0)) 1)]
  ++ flat_map (fun k => [Z.land k 0xff; Z.land (Z.shiftr k 8) 0xff]) [k0; k1; k2; k3; k4; k5].

(** The mixer object, hash/tkip_key_mixing.py:34-85.  [phase1Key] is None while the
    attribute does not exist.  The lists tk, ta, pn of the source are the strings
    themselves here. *)
Record mixer := Mixer {
  m_tk : option str;
  m_ta : option str;
  m_pn : str;
  m_upper : str;
  m_phase1 : option (Z * Z * Z * Z * Z)
}.

(** pnBytes[-4:] *)
Definition last4 (s : str) : str := slice_from s (len s - 4).

(** hash/tkip_key_mixing.py:68-72 *)
Definition mixer_setPnBytes (m : mixer) (pnBytes : str) : mixer * res str :=
  if len pnBytes =? 6 then (Mixer (m_tk m) (m_ta m) pnBytes (m_upper m) (m_phase1 m), Ok [])
  else (m, Raise AssertionError).

(** hash/tkip_key_mixing.py:53-59.  A string is raised: TypeError. *)
Definition mixer_setKey (m : mixer) (key : str) : mixer * res str :=
  if negb (len key =? 16) then (m, Raise TypeError)
  else
    let p1 := match m_ta m with
              | Some ta => Some (phase1KeyMixing key ta (m_pn m))
              | None => m_phase1 m end in
    (Mixer (Some key) (m_ta m) (m_pn m) (m_upper m) p1, Ok []).

(** hash/tkip_key_mixing.py:61-66 *)
Definition mixer_setTA (m : mixer) (taBytes : str) : mixer * res str :=
  if negb (len taBytes =? 6) then (m, Raise TypeError)
  else
    let p1 := match m_tk m with
              | Some tk => Some (phase1KeyMixing tk taBytes (m_pn m))
              | None => m_phase1 m end in
    (Mixer (m_tk m) (Some taBytes) (m_pn m) (m_upper m) p1, Ok []).

(** hash/tkip_key_mixing.py:74-85 *)
Definition mixer_newKey (m : mixer) (pnBytes : str) : mixer * res str :=
  match m_ta m, m_tk m with
  | None, _ => (m, Raise AssertionError)
  | _, None => (m, Raise AssertionError)
  | Some ta, Some tk =>
      match mixer_setPnBytes m pnBytes with
      | (m, Raise e) => (m, Raise e)
      | (m, Ok _) =>
          let m :=
            if negb (str_eqb (last4 (m_pn m)) (m_upper m)) then
              Mixer (m_tk m) (m_ta m) (m_pn m) (last4 pnBytes) (Some (phase1KeyMixing tk ta (m_pn m)))
            else m in
          match m_phase1 m with
          | None => (m, Raise AttributeError)
          | Some p1 => (m, Ok (phase2KeyMixing tk p1 (m_pn m)))
          end
      end
  end.

(** hash/tkip_key_mixing.py:38-51 *)
Definition mixer_new (tk1 ta : option str) (pnBytes : str) : res mixer :=
  let m := Mixer None None [] [] None in
  match mixer_setPnBytes m pnBytes with
  | (_, Raise e) => Raise e
  | (m, Ok _) =>
      let m := Mixer (m_tk m) (m_ta m) (m_pn m) (last4 (m_pn m)) (m_phase1 m) in
      do m <- match tk1 with
              | Some k => match mixer_setKey m k with (m, Ok _) => Ok m | (_, Raise e) => Raise e end
              | None => Ok m end;
      match ta with
      | Some t => match mixer_setTA m t with (m, Ok _) => Ok m | (_, Raise e) => Raise e end
      | None => Ok m
      end
  end.

(** calls on a mixer *)
Inductive mixer_op := MSetKey (k : str) | MSetTA (t : str) | MNewKey (pn : str) | MSetPnBytes (pn : str).
Definition mixer_step (m : mixer) (op : mixer_op) : mixer * res str :=
  match op with
  | MSetKey k => mixer_setKey m k
  | MSetTA t => mixer_setTA m t
  | MNewKey pn => mixer_newKey m pn
  | MSetPnBytes pn => mixer_setPnBytes m pn
  end.
Fixpoint mixer_run (m : mixer) (ops : list mixer_op) : mixer :=
  match ops with [] => m | op :: t => mixer_run (fst (mixer_step m op)) t end.
End Tkip.
