(** C01-C05, C78: codecs.  Theorems only; proofs are in Proofs/EncodingProofs.v *)
From Coq Require Import String.
From Verif Require Import Proofs.Tac Model.Encoding Spec.EncodingSpec Proofs.EncodingProofs.
Local Open Scope Z_scope.

(** C01 *)
Theorem C01_int_to_string_shortest : forall x s,
  int_to_string x None = Ok s <-> 0 <= x /\ shortest x s.
Proof. exact int_to_string_none_iff. Qed.
Print Assumptions C01_int_to_string_shortest.

Theorem C01_int_to_string_total : forall x, 0 <= x ->
  exists s, int_to_string x None = Ok s /\ shortest x s.
Proof. exact int_to_string_none. Qed.
Print Assumptions C01_int_to_string_total.

Theorem C01_int_to_string_padded : forall x k, 0 <= x -> 0 < k -> x < 256 ^ k ->
  exists s, int_to_string x (Some k) = Ok s /\ octets s /\ len s = k /\ be_value 256 s = x.
Proof. exact int_to_string_pad. Qed.
Print Assumptions C01_int_to_string_padded.

Theorem C01_int_to_string_does_not_fit : forall x k,
  0 <= x -> k <> 0 -> (k < 0 \/ 256 ^ k <= x) ->
  int_to_string x (Some k) = Raise AssertionError.
Proof. exact int_to_string_too_long. Qed.
Print Assumptions C01_int_to_string_does_not_fit.

Theorem C01_int_to_string_negative : forall x padto, x < 0 ->
  int_to_string x padto = Raise ValueError.
Proof. exact int_to_string_neg. Qed.
Print Assumptions C01_int_to_string_negative.

Theorem C01_pad_zero_is_no_pad : forall x, int_to_string x (Some 0) = int_to_string x None.
Proof. exact int_to_string_pad0. Qed.
Print Assumptions C01_pad_zero_is_no_pad.

Theorem C01_round_trip : forall x padto s,
  int_to_string x padto = Ok s -> string_to_int s = x.
Proof. exact int_string_roundtrip. Qed.
Print Assumptions C01_round_trip.

Theorem C01_ecc_int_to_string : forall x padto, 0 < x ->
  ecc_int_to_string x padto = int_to_string x padto.
Proof. exact ecc_int_to_string_pos. Qed.
Print Assumptions C01_ecc_int_to_string.

(** Finding: the codec of ecc/ecc.py ignores padto for zero. *)
Theorem C01_ecc_padding_refuted : exists k, 0 < k /\ 0 < 256 ^ k /\
  forall s, ecc_int_to_string 0 (Some k) = Ok s -> len s <> k.
Proof. exact c01_ecc_padding_refuted. Qed.
Print Assumptions C01_ecc_padding_refuted.

Example C01_example : int_to_string 66051 (Some 5) = Ok [0; 0; 1; 2; 3] /\
  int_to_string 66051 None = Ok [1; 2; 3] /\ string_to_int [1; 2; 3] = 66051 /\
  int_to_string 66051 (Some 2) = Raise AssertionError.
Proof. repeat split. Qed.

(** C02 *)
Theorem C02_string_round_trip_padded : forall s, octets s -> s <> [] ->
  int_to_string (string_to_int s) (Some (len s)) = Ok s.
Proof. exact string_int_roundtrip_pad. Qed.
Print Assumptions C02_string_round_trip_padded.

Theorem C02_string_round_trip_strips : forall s, octets s ->
  int_to_string (string_to_int s) None =
  Ok (match strip_zeros s with [] => [0] | t => t end).
Proof. exact string_int_roundtrip. Qed.
Print Assumptions C02_string_round_trip_strips.

Theorem C02_string_to_int_value : forall s, string_to_int s = be_value 256 s.
Proof. exact string_to_int_value. Qed.
Print Assumptions C02_string_to_int_value.

Example C02_example : octets [0; 0; 7] /\
  int_to_string (string_to_int [0; 0; 7]) None = Ok [7] /\
  int_to_string (string_to_int [0; 0; 7]) (Some 3) = Ok [0; 0; 7].
Proof. split; [repeat constructor; discriminate|split; reflexivity]. Qed.

(** C03: round trip holds exactly on strings without leading zero octet
    (and on the single zero octet). *)
Theorem C03_round_trip_iff : forall alphabet s text,
  2 <= len alphabet -> NoDup alphabet -> octets s ->
  base_N_encode s alphabet = Ok text ->
  (base_N_decode text alphabet None = Ok s <->
   (s = [0] \/ (s <> [] /\ no_leading_zero s))).
Proof. exact c03_round_trip_iff. Qed.
Print Assumptions C03_round_trip_iff.

Theorem C03_encode_total : forall alphabet s, 2 <= len alphabet -> octets s ->
  exists text, base_N_encode s alphabet = Ok text.
Proof. exact c03_encode_total. Qed.
Print Assumptions C03_encode_total.

Theorem C03_decode_of_encode : forall s text, octets s ->
  (b27encode s = Ok text ->
     b27decode text None = Ok (match strip_zeros s with [] => [0] | t => t end)) /\
  (b85encode s = Ok text ->
     b85decode text None = Ok (match strip_zeros s with [] => [0] | t => t end)) /\
  (b94encode s = Ok text ->
     b94decode text None = Ok (match strip_zeros s with [] => [0] | t => t end)).
Proof. exact c03_decode_of_encode. Qed.
Print Assumptions C03_decode_of_encode.

(** Finding: not lossless. *)
Theorem C03_lossless_refuted : exists s text, octets s /\ b27encode s = Ok text /\
  b27decode text None <> Ok s /\ (exists t85, b85encode s = Ok t85 /\ b85decode t85 None <> Ok s) /\
  (exists t94, b94encode s = Ok t94 /\ b94decode t94 None <> Ok s).
Proof. exact c03_lossless_refuted. Qed.
Print Assumptions C03_lossless_refuted.

Example C03_example : b27encode [1; 2; 3] = Ok (of_ascii "DKWK") /\
  b27decode (of_ascii "DKWK") None = Ok [1; 2; 3].
Proof. split; reflexivity. Qed.

(** C04 *)
Theorem C04_padto_is_ignored : forall text k,
  b27decode text k = b27decode text None /\
  b85decode text k = b85decode text None /\
  b94decode text k = b94decode text None.
Proof. exact c04_padto_is_ignored. Qed.
Print Assumptions C04_padto_is_ignored.

Theorem C04_padto_restores_length_refuted : exists text v k,
  b27decode text None = Ok v /\ 0 < k /\ string_to_int v < 256 ^ k /\
  b27decode text (Some k) = Ok v /\ len v <> k.
Proof. exact c04_padto_restores_length_refuted. Qed.
Print Assumptions C04_padto_restores_length_refuted.

(** base_N_decode itself does honour padto. *)
Theorem C04_base_N_decode_padded : forall alphabet s text,
  2 <= len alphabet -> NoDup alphabet -> octets s -> s <> [] ->
  base_N_encode s alphabet = Ok text ->
  base_N_decode text alphabet (Some (len s)) = Ok s.
Proof. exact c04_base_N_decode_padded. Qed.
Print Assumptions C04_base_N_decode_padded.

(** C05 *)
Theorem C05_encoder_alphabet_and_length : forall alphabet s text,
  2 <= len alphabet -> octets s -> base_N_encode s alphabet = Ok text ->
  incl text alphabet /\
  be_value 256 s < len alphabet ^ len text /\
  (0 < len text -> len alphabet ^ (len text - 1) <= be_value 256 s).
Proof. exact c05_encoder_alphabet_and_length. Qed.
Print Assumptions C05_encoder_alphabet_and_length.

Theorem C05_decoder_accepts_alphabet : forall alphabet text,
  1 <= len alphabet -> NoDup alphabet ->
  ((exists s, base_N_decode text alphabet None = Ok s) <-> incl text alphabet).
Proof. exact c05_decoder_accepts_alphabet. Qed.
Print Assumptions C05_decoder_accepts_alphabet.

Theorem C05_decoder_rejects_others : forall alphabet text padto,
  NoDup alphabet -> ~ incl text alphabet ->
  base_N_decode text alphabet padto = Raise ValueError.
Proof. exact c05_decoder_rejects_others. Qed.
Print Assumptions C05_decoder_rejects_others.

Theorem C05_encoder_injective : forall alphabet s t text,
  2 <= len alphabet -> NoDup alphabet -> octets s -> octets t ->
  base_N_encode s alphabet = Ok text -> base_N_encode t alphabet = Ok text ->
  be_value 256 s = be_value 256 t.
Proof. exact c05_encoder_injective. Qed.
Print Assumptions C05_encoder_injective.

Theorem C05_alphabets :
  (len b27chars = 27 /\ NoDup b27chars) /\ (len b85chars = 85 /\ NoDup b85chars) /\
  (len ascii_printable = 94 /\ NoDup ascii_printable).
Proof. exact (conj b27_alpha (conj b85_alpha b94_alpha)). Qed.
Print Assumptions C05_alphabets.

(** RFC 1924 example of the source (cipher/encoding.py:127-129) *)
Example C05_rfc1924_example : b85encode [0x10;0x80;0;0;0;0;0;0;0;8;8;0;0x20;0x0c;0x41;0x7a]
  = Ok (of_ascii "4)+k&C#VzJ4br>0wv%Yp").
Proof. reflexivity. Qed.

(** Finding: an IPv6 address with leading zeros is not encoded in the 20
    characters RFC 1924 prescribes. *)
Theorem C05_rfc1924_length_refuted : exists s text, octets s /\ len s = 16 /\
  b85encode s = Ok text /\ len text <> 20.
Proof. exact c05_rfc1924_length_refuted. Qed.
Print Assumptions C05_rfc1924_length_refuted.

(** C78 *)
Theorem C78_xor_defined : forall a b,
  xor a b = if len a =? len b then Ok (xor_zip a b) else Raise AssertionError.
Proof. exact c78_xor_defined. Qed.
Print Assumptions C78_xor_defined.

Theorem C78_xor_octet_wise : forall a b c k x y,
  xor a b = Ok c -> nth_error a k = Some x -> nth_error b k = Some y ->
  nth_error c k = Some (Z.lxor x y) /\ len c = len a.
Proof. exact c78_xor_octet_wise. Qed.
Print Assumptions C78_xor_octet_wise.

Theorem C78_xor_involutive : forall a b c, xor a b = Ok c -> xor c b = Ok a.
Proof. exact c78_xor_involutive. Qed.
Print Assumptions C78_xor_involutive.

Theorem C78_xor_commutative : forall a b, xor a b = xor b a.
Proof. exact c78_xor_commutative. Qed.
Print Assumptions C78_xor_commutative.

Theorem C78_xor_min : forall a b,
  len (xor_min a b) = Z.min (len a) (len b) /\ xor_min a b = xor_min b a /\
  ((length a <= length b)%nat -> xor_min (xor_min a b) b = a) /\
  (octets a -> octets b -> octets (xor_min a b)).
Proof. exact c78_xor_min. Qed.
Print Assumptions C78_xor_min.

Example C78_example : xor [255; 1] [15; 3] = Ok [240; 2] /\ xor [1] [] = Raise AssertionError.
Proof. split; reflexivity. Qed.
