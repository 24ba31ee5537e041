From Coq Require Import String.
From Verif Require Import Proofs.Tac Proofs.Bits Model.Michael Spec.AesSpec Spec.MichaelSpec Proofs.MichaelProofs Proofs.TkipProofs.
Local Open Scope Z_scope.

Lemma c31_ieee : forall key data, octets key -> octets data -> len key = 8 ->
  michael key data = Ok (ieee_michael key data) /\ octets (ieee_michael key data) /\ len (ieee_michael key data) = 8.
Proof. intros key data Hk Hd L. split; [now apply michael_spec|now apply ieee_michael_ok]. Qed.

Lemma c31_padding_injective : forall m m', mic_pad m = mic_pad m' -> m = m'.
Proof. exact mic_pad_inj. Qed.

Lemma c31_bad_key : forall key data, len key <> 8 -> michael key data = Raise AssertionError.
Proof.
  intros key data H. unfold michael, michael_setKey. apply Z.eqb_neq in H. rewrite H. reflexivity.
Qed.

Lemma c32_bijection : forall data t, octets data -> octets t -> len t = 8 ->
  exists! key, octets key /\ len key = 8 /\ michael key data = Ok t.
Proof.
  intros data t Hd Ht L. destruct (michael_bijective data t Hd Ht L) as (key & A & B).
  exists key. split; [exact A|]. intros k' (O & L' & M). symmetry. now apply B.
Qed.

Lemma c32_keys_differ : forall data key key', octets data -> octets key -> octets key' -> len key = 8 -> len key' = 8 ->
  michael key data = michael key' data -> key = key'.
Proof.
  intros data key key' Hd Hk Hk' L L' E.
  destruct (c31_ieee key data Hk Hd L) as (M & O & LL).
  destruct (michael_bijective data _ Hd O LL) as (k & _ & U).
  rewrite (U key Hk L M). symmetry. apply U; auto. congruence.
Qed.

Lemma tkip_mic_data_D3 sa da p msdu x : tkip_mic_data D3 sa da p msdu = Ok x ->
  0 <= p <= 15 /\ len sa = 6 /\ len da = 6 /\ x = da ++ sa ++ [p; 0; 0; 0] ++ msdu.
Proof.
  unfold tkip_mic_data, py_assert, py_chr.
  destruct ((0 <=? p) && (p <=? 15)) eqn:E1; [|discriminate]. destruct ((len sa =? 6) && (len da =? 6)) eqn:E2; [|discriminate].
  cbn [bind]. replace ((0 <=? p) && (p <? 256)) with true by lia. cbn [bind]. intros E. injection E as <-.
  repeat (split; [lia|]). reflexivity.
Qed.

Lemma c33_frame : forall key k sa da priority msdu,
  octets key -> len key = 8 -> michael_setKey key = Ok k ->
  octets sa -> octets da -> octets msdu -> len sa = 6 -> len da = 6 -> 0 <= priority <= 15 ->
  tkip_mic_hash D3 (Some k) sa da priority msdu = Ok (ieee_michael key (da ++ sa ++ [priority; 0; 0; 0] ++ msdu)).
Proof.
  intros key k sa da p msdu Hk L Ek Hs Hd Hm Ls Ld Hp.
  unfold tkip_mic_hash, tkip_mic_data, py_assert, py_chr.
  replace ((0 <=? p) && (p <=? 15)) with true by lia. replace ((len sa =? 6) && (len da =? 6)) with true by lia. cbn [bind].
  replace ((0 <=? p) && (p <? 256)) with true by lia. cbn [bind].
  change (str_repeat 0 3) with [0; 0; 0]. cbn [app].
  assert (O : octets (da ++ sa ++ p :: 0 :: 0 :: 0 :: msdu)).
  { rewrite !octets_app, !octets_cons. unfold is_octet. repeat (split; [auto; lia|]). auto. }
  pose proof (michael_spec key _ Hk O L) as M. unfold michael in M. rewrite Ek in M. exact M.
Qed.

Lemma app_len_inj {A} (a b c d : list A) : len a = len c -> a ++ b = c ++ d -> a = c /\ b = d.
Proof.
  unfold len. revert c. induction a as [|x a IH]; intros [|y c] L E; cbn [List.length app] in *; try lia; auto.
  injection E as -> E. destruct (IH c) as (-> & ->); auto; lia.
Qed.

Lemma c33_unambiguous : forall sa da priority msdu sa' da' priority' msdu' x,
  tkip_mic_data D3 sa da priority msdu = Ok x -> tkip_mic_data D3 sa' da' priority' msdu' = Ok x ->
  sa = sa' /\ da = da' /\ priority = priority' /\ msdu = msdu'.
Proof.
  intros sa da p m sa' da' p' m' x E E'.
  apply tkip_mic_data_D3 in E as (P & Ls & Ld & E). apply tkip_mic_data_D3 in E' as (P' & Ls' & Ld' & E'). rewrite E in E'. clear E.
  apply app_len_inj in E' as (-> & E'); [|congruence]. apply app_len_inj in E' as (-> & E'); [|congruence].
  cbn [app] in E'. injection E' as -> ->. auto.
Qed.

Lemma c33_bad_arguments : forall v k sa da priority msdu,
  (priority < 0 \/ 15 < priority \/ len sa <> 6 \/ len da <> 6) ->
  tkip_mic_hash v k sa da priority msdu = Raise AssertionError.
Proof.
  intros v k sa da p m H. unfold tkip_mic_hash, tkip_mic_data, py_assert.
  destruct ((0 <=? p) && (p <=? 15)) eqn:E1; [|reflexivity]. cbn [bind].
  destruct ((len sa =? 6) && (len da =? 6)) eqn:E2; [|reflexivity]. lia.
Qed.

Lemma c33_draft2_refuted : exists sa da p p' msdu x, p <> p' /\
  tkip_mic_data D2 sa da p msdu = Ok x /\ tkip_mic_data D2 sa da p' msdu = Ok x.
Proof. exists (repeat 1 6), (repeat 2 6), 0, 7, [77], (repeat 2 6 ++ repeat 1 6 ++ [77]). split; [lia|]. split; reflexivity. Qed.

Lemma c33_callable_refuted : exists key k data, octets key /\ len key = 8 /\ michael_setKey key = Ok k /\ octets data /\
  tkip_mic_call D3 (Some k) data = Raise TypeError.
Proof.
  exists (repeat 0 8), (0, 0), [77]. split; [repeat constructor; unfold is_octet; lia|]. split; [reflexivity|]. split; [reflexivity|].
  split; [repeat constructor; unfold is_octet; lia|]. reflexivity.
Qed.

Lemma c34_cache_transparent : forall Sbox tk ta pn0 m ops pn,
  mixer_new Sbox tk ta pn0 = Ok m -> Forall no_setPn ops ->
  snd (mixer_newKey Sbox (mixer_run Sbox m ops) pn) =
    match fold_left cur_step ops (tk, ta) with
    | (Some tk, Some ta) =>
        if len pn =? 6 then Ok (phase2KeyMixing Sbox tk (phase1KeyMixing Sbox tk ta pn) pn) else Raise AssertionError
    | _ => Raise AssertionError
    end.
Proof. exact cache_transparent. Qed.

Lemma c35_setPnBytes_refuted : exists tk ta m ops tk' pn, octets tk /\ octets ta /\ octets pn /\ octets tk' /\
  mixer_new sbox (Some tk) (Some ta) [0; 0; 0; 0; 0; 0] = Ok m /\
  fold_left cur_step ops (Some tk, Some ta) = (Some tk', Some ta) /\ len pn = 6 /\
  exists seed, snd (mixer_newKey sbox (mixer_run sbox m ops) pn) = Ok seed /\
    seed <> phase2KeyMixing sbox tk' (phase1KeyMixing sbox tk' ta pn) pn.
Proof.
  exists (repeat 1 16), (repeat 2 6).
  eexists (Mixer (Some (repeat 1 16)) (Some (repeat 2 6)) _ _ _).
  exists [MSetPnBytes [0; 0; 0; 0; 0; 1]; MSetKey (repeat 3 16)], (repeat 3 16), [0; 0; 0; 0; 0; 0].
  assert (R : forall c n, 0 <= c < 256 -> octets (repeat c n)).
  { intros c n H. induction n; constructor; auto. }
  split; [apply R; lia|]. split; [apply R; lia|]. split; [apply (R 0 6%nat); lia|]. split; [apply R; lia|].
  split; [reflexivity|]. split; [reflexivity|]. split; [reflexivity|].
  eexists. split; [vm_compute; reflexivity|]. vm_compute. discriminate.
Qed.

Lemma c36_injective : forall Sbox tk ta pn ta' pn', octets ta -> octets pn -> octets ta' -> octets pn' ->
  len ta = 6 -> len ta' = 6 -> len pn = 6 -> len pn' = 6 ->
  phase2KeyMixing Sbox tk (phase1KeyMixing Sbox tk ta pn) pn = phase2KeyMixing Sbox tk (phase1KeyMixing Sbox tk ta' pn') pn' ->
  ta = ta' /\ pn = pn'.
Proof. exact mix_inj. Qed.

Lemma c37_phase1 : forall tk ta pn, octets tk -> octets ta -> octets pn ->
  phase1KeyMixing sbox tk ta pn = ieee_phase1 tk ta pn.
Proof. exact phase1_ieee. Qed.

Lemma c37_last13 : forall tk ta pn, octets tk -> octets ta -> octets pn ->
  skipn 3 (phase2KeyMixing sbox tk (phase1KeyMixing sbox tk ta pn) pn) = skipn 3 (ieee_tkip tk ta pn).
Proof. intros tk ta pn Ht Ha Hp. exact (proj1 (mix_ieee tk ta pn Ht Ha Hp)). Qed.

Lemma c37_exactly_when : forall tk ta pn, octets tk -> octets ta -> octets pn ->
  (phase2KeyMixing sbox tk (phase1KeyMixing sbox tk ta pn) pn = ieee_tkip tk ta pn <-> nth 0 pn 0 = nth 1 pn 0).
Proof. intros tk ta pn Ht Ha Hp. exact (proj2 (mix_ieee tk ta pn Ht Ha Hp)). Qed.

Lemma c37_refuted : exists tk ta pn m seed, octets tk /\ octets ta /\ octets pn /\ len pn = 6 /\
  mixer_new sbox (Some tk) (Some ta) [0; 0; 0; 0; 0; 0] = Ok m /\
  snd (mixer_newKey sbox m pn) = Ok seed /\ seed <> ieee_tkip tk ta pn /\ firstn 3 seed <> firstn 3 (ieee_tkip tk ta pn).
Proof.
  exists [0x98;0x3A;0x16;0xEF;0x4F;0xAC;0xB3;0x51;0xAA;0x9E;0xCC;0x27;0x1D;0x73;0x09;0xE2],
    [0x50;0x9C;0x4B;0x17;0x27;0xD9], [0x8C;0x05;0xFC;0x10;0xA4;0xF0].
  eexists (Mixer (Some _) (Some _) _ _ _), _.
  split; [repeat constructor; unfold is_octet; lia|]. split; [repeat constructor; unfold is_octet; lia|].
  split; [repeat constructor; unfold is_octet; lia|]. split; [reflexivity|].
  split; [vm_compute; reflexivity|]. split; [vm_compute; reflexivity|]. vm_compute. split; discriminate.
Qed.
