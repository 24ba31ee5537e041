(** Michael, the TKIP MIC and TKIP key mixing (C31-C37). *)
From Coq Require Import ZArith List Bool Lia String.
From Verif Require Import Model.Py Model.Michael Spec.AesSpec Spec.MichaelSpec
  Proofs.TkipProofs Proofs.MichaelFacts.
Import ListNotations.
Local Open Scope Z_scope.

(** C31 *)
Theorem C31_ieee : forall key data, octets key -> octets data -> len key = 8 ->
  michael key data = Ok (ieee_michael key data) /\ octets (ieee_michael key data) /\ len (ieee_michael key data) = 8.
Proof. exact c31_ieee. Qed.
Print Assumptions C31_ieee.

Theorem C31_padding_injective : forall m m', mic_pad m = mic_pad m' -> m = m'.
Proof. exact c31_padding_injective. Qed.
Print Assumptions C31_padding_injective.

Theorem C31_bad_key : forall key data, len key <> 8 -> michael key data = Raise AssertionError.
Proof. exact c31_bad_key. Qed.
Print Assumptions C31_bad_key.


Example C31_example :
  michael [0xd5;0x5e;0x10;0x05;0x10;0x12;0x89;0x86] [77; 105; 99; 104; 97; 101; 108]
  = Ok [0x0a;0x94;0x2b;0x12;0x4e;0xca;0xa5;0x46].
Proof. vm_compute. reflexivity. Qed.

(** C32 *)
Theorem C32_bijection : forall data t, octets data -> octets t -> len t = 8 ->
  exists! key, octets key /\ len key = 8 /\ michael key data = Ok t.
Proof. exact c32_bijection. Qed.
Print Assumptions C32_bijection.

Theorem C32_keys_differ : forall data key key', octets data -> octets key -> octets key' -> len key = 8 -> len key' = 8 ->
  michael key data = michael key' data -> key = key'.
Proof. exact c32_keys_differ. Qed.
Print Assumptions C32_keys_differ.


(** two keys differing in one bit, one message *)
Example C32_example : michael (repeat 0 8) [77] <> michael (repeat 0 7 ++ [1]) [77].
Proof. vm_compute. discriminate. Qed.

(** C33 *)
Theorem C33_frame : forall key k sa da priority msdu,
  octets key -> len key = 8 -> michael_setKey key = Ok k ->
  octets sa -> octets da -> octets msdu -> len sa = 6 -> len da = 6 -> 0 <= priority <= 15 ->
  tkip_mic_hash D3 (Some k) sa da priority msdu = Ok (ieee_michael key (da ++ sa ++ [priority; 0; 0; 0] ++ msdu)).
Proof. exact c33_frame. Qed.
Print Assumptions C33_frame.

Example C33_frame_example :
  michael_setKey [0x82;0x92;0x5c;0x1c;0xa1;0xd1;0x30;0xb8] = Ok (0x1c5c9282, 0xb830d1a1) /\
  tkip_mic_hash D3 (Some (0x1c5c9282, 0xb830d1a1)) (repeat 1 6) (repeat 2 6) 5 [77] =
  Ok (ieee_michael [0x82;0x92;0x5c;0x1c;0xa1;0xd1;0x30;0xb8] [2;2;2;2;2;2; 1;1;1;1;1;1; 5; 0;0;0; 77]).
Proof. vm_compute. split; reflexivity. Qed.
Theorem C33_unambiguous : forall sa da priority msdu sa' da' priority' msdu' x,
  tkip_mic_data D3 sa da priority msdu = Ok x -> tkip_mic_data D3 sa' da' priority' msdu' = Ok x ->
  sa = sa' /\ da = da' /\ priority = priority' /\ msdu = msdu'.
Proof. exact c33_unambiguous. Qed.
Print Assumptions C33_unambiguous.

Theorem C33_bad_arguments : forall v k sa da priority msdu,
  (priority < 0 \/ 15 < priority \/ len sa <> 6 \/ len da <> 6) ->
  tkip_mic_hash v k sa da priority msdu = Raise AssertionError.
Proof. exact c33_bad_arguments. Qed.
Print Assumptions C33_bad_arguments.

Theorem C33_draft2_refuted : exists sa da p p' msdu x, p <> p' /\
  tkip_mic_data D2 sa da p msdu = Ok x /\ tkip_mic_data D2 sa da p' msdu = Ok x.
Proof. exact c33_draft2_refuted. Qed.
Print Assumptions C33_draft2_refuted.

Theorem C33_callable_refuted : exists key k data, octets key /\ len key = 8 /\ michael_setKey key = Ok k /\ octets data /\
  tkip_mic_call D3 (Some k) data = Raise TypeError.
Proof. exact c33_callable_refuted. Qed.
Print Assumptions C33_callable_refuted.


(** C34 *)
Theorem C34_cache_transparent : forall Sbox tk ta pn0 m ops pn,
  mixer_new Sbox tk ta pn0 = Ok m -> Forall no_setPn ops ->
  snd (mixer_newKey Sbox (mixer_run Sbox m ops) pn) =
    match fold_left cur_step ops (tk, ta) with
    | (Some tk, Some ta) =>
        if len pn =? 6 then Ok (phase2KeyMixing Sbox tk (phase1KeyMixing Sbox tk ta pn) pn) else Raise AssertionError
    | _ => Raise AssertionError
    end.
Proof. exact c34_cache_transparent. Qed.
Print Assumptions C34_cache_transparent.


(** a history with a failing setKey, a change of key and two packets *)
Example C34_example : exists m,
  mixer_new sbox None (Some (repeat 2 6)) [0; 0; 0; 0; 0; 0] = Ok m /\
  let ops := [MSetKey (repeat 1 16); MNewKey [9; 0; 0; 0; 0; 1]; MSetKey [1]; MSetTA (repeat 4 6);
              MNewKey [9; 0; 0; 0; 0]; MNewKey [7; 0; 0; 0; 0; 1]] in
  Forall no_setPn ops /\ fold_left cur_step ops (None, Some (repeat 2 6)) = (Some (repeat 1 16), Some (repeat 4 6)).
Proof. eexists. split; [reflexivity|]. split; [repeat constructor|reflexivity]. Qed.

(** C35 *)
Theorem C35_setPnBytes_refuted : exists tk ta m ops tk' pn, octets tk /\ octets ta /\ octets pn /\ octets tk' /\
  mixer_new sbox (Some tk) (Some ta) [0; 0; 0; 0; 0; 0] = Ok m /\
  fold_left cur_step ops (Some tk, Some ta) = (Some tk', Some ta) /\ len pn = 6 /\
  exists seed, snd (mixer_newKey sbox (mixer_run sbox m ops) pn) = Ok seed /\
    seed <> phase2KeyMixing sbox tk' (phase1KeyMixing sbox tk' ta pn) pn.
Proof. exact c35_setPnBytes_refuted. Qed.
Print Assumptions C35_setPnBytes_refuted.


(** C36 *)
Theorem C36_injective : forall Sbox tk ta pn ta' pn', octets ta -> octets pn -> octets ta' -> octets pn' ->
  len ta = 6 -> len ta' = 6 -> len pn = 6 -> len pn' = 6 ->
  phase2KeyMixing Sbox tk (phase1KeyMixing Sbox tk ta pn) pn = phase2KeyMixing Sbox tk (phase1KeyMixing Sbox tk ta' pn') pn' ->
  ta = ta' /\ pn = pn'.
Proof. exact c36_injective. Qed.
Print Assumptions C36_injective.


Example C36_example :
  phase2KeyMixing sbox (repeat 1 16) (phase1KeyMixing sbox (repeat 1 16) (repeat 2 6) [0;0;0;0;0;1]) [0;0;0;0;0;1] <>
  phase2KeyMixing sbox (repeat 1 16) (phase1KeyMixing sbox (repeat 1 16) (repeat 2 6) [0;0;0;0;0;2]) [0;0;0;0;0;2].
Proof. vm_compute. discriminate. Qed.

(** C37 *)
Theorem C37_phase1 : forall tk ta pn, octets tk -> octets ta -> octets pn ->
  phase1KeyMixing sbox tk ta pn = ieee_phase1 tk ta pn.
Proof. exact c37_phase1. Qed.
Print Assumptions C37_phase1.

Theorem C37_last13 : forall tk ta pn, octets tk -> octets ta -> octets pn ->
  skipn 3 (phase2KeyMixing sbox tk (phase1KeyMixing sbox tk ta pn) pn) = skipn 3 (ieee_tkip tk ta pn).
Proof. exact c37_last13. Qed.
Print Assumptions C37_last13.

Theorem C37_exactly_when : forall tk ta pn, octets tk -> octets ta -> octets pn ->
  (phase2KeyMixing sbox tk (phase1KeyMixing sbox tk ta pn) pn = ieee_tkip tk ta pn <-> nth 0 pn 0 = nth 1 pn 0).
Proof. exact c37_exactly_when. Qed.
Print Assumptions C37_exactly_when.

Example C37_example : ieee_tkip (repeat 7 16) (repeat 2 6) [3;3;1;0;0;0] =
  phase2KeyMixing sbox (repeat 7 16) (phase1KeyMixing sbox (repeat 7 16) (repeat 2 6) [3;3;1;0;0;0]) [3;3;1;0;0;0].
Proof. vm_compute. reflexivity. Qed.
Theorem C37_refuted : exists tk ta pn m seed, octets tk /\ octets ta /\ octets pn /\ len pn = 6 /\
  mixer_new sbox (Some tk) (Some ta) [0; 0; 0; 0; 0; 0] = Ok m /\
  snd (mixer_newKey sbox m pn) = Ok seed /\ seed <> ieee_tkip tk ta pn /\ firstn 3 seed <> firstn 3 (ieee_tkip tk ta pn).
Proof. exact c37_refuted. Qed.
Print Assumptions C37_refuted.

