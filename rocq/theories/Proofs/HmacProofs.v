From Verif Require Import Proofs.Tac Proofs.Bits Model.Encoding Model.Hmac
  Spec.EncodingSpec Spec.HmacSpec Proofs.EncodingProofs.
Local Open Scope Z_scope.

(** [reach C s d]: the state [s] can be reached by update/reset, with data [d]
    since the last reset *)
Inductive reach {T} (C : hash T) : T -> str -> Prop :=
| reach_new : reach C (h_new C) []
| reach_reset s d : reach C s d -> reach C (h_reset C s) []
| reach_update s d x : reach C s d -> reach C (h_update C s x) (d ++ x).

(** the digest of a state depends only on the data since the last reset, through [Hf] *)
Definition chunk_independent {T} (C : hash T) (Hf : str -> str) : Prop :=
  forall s d, reach C s d -> h_digest C s = Hf d.

(** the key material used by the code: [w] is what the inner hash has absorbed *)
Definition code_key (Hf : str -> str) (B : Z) (w key : str) : str :=
  if B <? len key then Hf (w ++ key) else key ++ str_repeat 0 (B - len key).
Definition code_mac (Hf : str -> str) (ek m : str) : str :=
  Hf (pad_with 0x5C ek ++ Hf (pad_with 0x36 ek ++ m)).
Definition absorbed (ek : option str) (w : str) : str :=
  match ek with None => [] | Some e => pad_with 0x36 e ++ w end.

Definition x_step (Hf : str -> str) (B : Z) (st : option str * str) (op : hmac_op)
  : (option str * str) * res str :=
  match st, op with
  | (ek, w), OSetKey k => ((Some (code_key Hf B (absorbed ek w) k), []), Ok [])
  | (None, _), _ => (st, Raise TypeError)
  | (Some e, w), OUpdate d => ((Some e, w ++ d), Ok [])
  | (Some e, w), ODigest => (st, Ok (code_mac Hf e w))
  | (Some e, w), OReset => ((Some e, []), Ok [])
  | (Some e, w), OCall d more => ((Some e, if more then w ++ d else []), Ok (code_mac Hf e (w ++ d)))
  end.
Fixpoint x_run Hf B st ops :=
  match ops with
  | [] => []
  | op :: t => let '(st', r) := x_step Hf B st op in r :: x_run Hf B st' t
  end.

Section S.
Context {T : Type} (C : hash T) (Hf : str -> str) (HC : chunk_independent C Hf).

Definition inv (o : hmac T) (st : option str * str) : Prop :=
  reach C (H_outer o) [] /\ reach C (H o) (absorbed (fst st) (snd st)) /\
  match fst st with
  | None => keyed o = false
  | Some e => keyed o = true /\ k_xor_ipad o = pad_with 0x36 e /\ k_xor_opad o = pad_with 0x5C e
  end.

Lemma inv_new : inv (Hmac (h_new C) (h_new C) [] [] false) (None, []).
Proof. repeat split; constructor. Qed.

Lemma reset_inv o st : inv o st ->
  inv (fst (hmac_reset C o)) (fst st, []) /\
  snd (hmac_reset C o) = match fst st with None => Raise TypeError | _ => Ok [] end.
Proof.
  destruct st as [ek w]. intros (I1 & I2 & I3). cbn [fst snd] in *. unfold hmac_reset. cbn [H H_outer k_xor_ipad k_xor_opad keyed].
  destruct ek as [e|].
  - destruct I3 as (K & P & Q). rewrite K, P, Q. cbn [negb fst snd]. split; [|reflexivity].
    split; [exact I1|]. cbn [H absorbed fst snd]. rewrite app_nil_r. split.
    + apply (reach_update C (h_reset C (H o)) []). eapply reach_reset. exact I2.
    + cbn. auto.
  - rewrite I3. cbn [negb fst snd]. split; [|reflexivity]. split; [exact I1|]. cbn. split; [|reflexivity].
    eapply reach_reset. exact I2.
Qed.

Lemma setKey_inv o st k : inv o st ->
  inv (fst (hmac_setKey C o k)) (Some (code_key Hf (raw_block_size C) (absorbed (fst st) (snd st)) k), []) /\
  snd (hmac_setKey C o k) = Ok [].
Proof.
  destruct st as [ek w]. intros (I1 & I2 & I3). cbn [fst snd] in *. unfold hmac_setKey, code_key. cbv zeta.
  destruct (raw_block_size C <? len k) eqn:E.
  - unfold h_call. cbv zeta. cbn iota beta.
    assert (R : reach C (h_update C (H o) k) (absorbed ek w ++ k)) by now constructor.
    rewrite (HC _ _ R).
    match goal with |- context [hmac_reset C ?x] => set (o' := x) end.
    assert (G : reach C (H_outer o') [] /\ reach C (H o') [] /\ keyed o' = true /\
      k_xor_ipad o' = pad_with 0x36 (Hf (absorbed ek w ++ k)) /\ k_xor_opad o' = pad_with 0x5C (Hf (absorbed ek w ++ k))).
    { subst o'. cbn. repeat split; auto. econstructor; exact R. }
    clearbody o'. destruct G as (G1 & G2 & G3 & G4 & G5). unfold hmac_reset. cbn [keyed H H_outer k_xor_ipad k_xor_opad].
    rewrite G3, G4, G5. cbn [negb fst snd]. split; [|reflexivity]. split; [exact G1|]. cbn. rewrite app_nil_r.
    split; [|auto]. apply (reach_update C (h_reset C (H o')) []). econstructor; exact G2.
  - unfold hmac_reset. cbn [keyed H H_outer k_xor_ipad k_xor_opad negb fst snd]. split; [|reflexivity].
    split; [exact I1|]. cbn [H absorbed fst snd k_xor_ipad k_xor_opad keyed]. rewrite app_nil_r.
    split; [|auto]. apply (reach_update C (h_reset C (H o)) []). econstructor; exact I2.
Qed.

Lemma update_inv o e w d : inv o (Some e, w) ->
  inv (fst (hmac_update C o d)) (Some e, w ++ d) /\ snd (hmac_update C o d) = Ok [].
Proof.
  intros (I1 & I2 & K & P & Q). cbn [fst snd absorbed] in *. unfold hmac_update. rewrite K. cbn [negb fst snd]. split; [|reflexivity].
  split; [exact I1|]. cbn [H absorbed fst snd k_xor_ipad k_xor_opad keyed]. rewrite app_assoc.
  split; [now constructor|auto].
Qed.

Lemma digest_inv o e w : inv o (Some e, w) ->
  inv (fst (hmac_digest C o)) (Some e, w) /\ snd (hmac_digest C o) = Ok (code_mac Hf e w).
Proof.
  intros (I1 & I2 & K & P & Q). cbn [fst snd absorbed] in *. unfold hmac_digest, h_call. rewrite K. cbn [negb fst snd].
  rewrite (HC _ _ I2). pose proof (reach_update C _ _ (k_xor_opad o ++ Hf (pad_with 54 e ++ w)) I1) as R.
  rewrite app_nil_l in R. rewrite (HC _ _ R), P, Q. split; [|reflexivity].
  split; [cbn [H_outer]; rewrite Q in R; exact (reach_reset C _ _ R)|]. cbn. auto.
Qed.

Lemma step_inv o st op : inv o st ->
  inv (fst (hmac_step C o op)) (fst (x_step Hf (raw_block_size C) st op)) /\
  snd (hmac_step C o op) = snd (x_step Hf (raw_block_size C) st op).
Proof.
  intros I. destruct op as [d| | |k|d more]; cbn [hmac_step].
  - destruct st as [[e|] w]; cbn [x_step fst snd]; [now apply update_inv|].
    destruct I as (I1 & I2 & I3). cbn [fst] in I3. unfold hmac_update. rewrite I3. cbn. now repeat split.
  - destruct st as [[e|] w]; cbn [x_step fst snd]; [now apply digest_inv|].
    destruct I as (I1 & I2 & I3). cbn [fst] in I3. unfold hmac_digest. rewrite I3. cbn. now repeat split.
  - destruct (reset_inv o st I) as [J R]. destruct st as [[e|] w]; cbn [x_step fst snd] in *; auto.
  - destruct (setKey_inv o st k I) as [J R]. destruct st as [[e|] w]; cbn [x_step fst snd] in *; auto.
  - destruct st as [[e|] w]; cbn [x_step fst snd]; unfold hmac_call.
    + destruct (update_inv o e w d I) as [J R]. destruct (hmac_update C o d) as [o1 r1]. cbn [fst snd] in *. subst r1.
      destruct (digest_inv o1 e (w ++ d) J) as [J2 R2]. destruct (hmac_digest C o1) as [o2 r2]. cbn [fst snd] in *. subst r2.
      destruct more; [auto|].
      destruct (reset_inv o2 _ J2) as [J3 R3]. destruct (hmac_reset C o2) as [o3 r3]. cbn [fst snd] in *. subst r3. auto.
    + destruct I as (I1 & I2 & I3). cbn [fst] in I3. unfold hmac_update. rewrite I3. cbn. now repeat split.
Qed.

Lemma run_exact ops : forall o st, inv o st -> hmac_run C o ops = x_run Hf (raw_block_size C) st ops.
Proof.
  induction ops as [|op ops IH]; intros o st I; [reflexivity|]. cbn [hmac_run x_run].
  destruct (step_inv o st op I) as [J R].
  destruct (hmac_step C o op) as [o' r]. destruct (x_step Hf (raw_block_size C) st op) as [st' r']. cbn [fst snd] in *.
  subst. now rewrite (IH _ _ J).
Qed.

Definition start (key : option str) : option str * str :=
  (match key with None => None | Some k => Some (code_key Hf (raw_block_size C) [] k) end, []).
Lemma new_inv key : inv (hmac_new C key) (start key).
Proof.
  unfold hmac_new, start. destruct key as [k|]; [|apply inv_new].
  destruct (setKey_inv _ _ k inv_new) as [J _]. exact J.
Qed.
End S.

Lemma code_key_short Hf B w k : 0 <= B -> len k <= B -> code_key Hf B w k = rfc_key Hf (Z.to_nat B) k.
Proof.
  intros HB Hk. unfold code_key, rfc_key. replace (B <? len k) with false by lia.
  replace (Z.to_nat B <? length k)%nat with false by (unfold len in Hk; symmetry; apply Nat.ltb_ge; lia).
  unfold str_repeat, len. do 2 f_equal. lia.
Qed.

(** ideal history *)
Definition to_mac (op : hmac_op) : mac_op :=
  match op with
  | OUpdate d => MUpdate d | ODigest => MDigest | OReset => MReset | OSetKey k => MSetKey k | OCall d m => MCall d m
  end.
Definition shown (r : res str) : option str := match r with Ok s => Some s | Raise _ => None end.
Definition key_ok (B : Z) (op : hmac_op) : Prop := match op with OSetKey k => len k <= B | _ => True end.

Lemma x_run_ideal Hf B ops : 0 <= B -> Forall (key_ok B) ops -> forall key w,
  (forall k, key = Some k -> len k <= B) ->
  map shown (x_run Hf B (match key with None => None | Some k => Some (rfc_key Hf (Z.to_nat B) k) end, w) ops)
  = mac_run (rfc_hmac Hf (Z.to_nat B)) (key, w) (map to_mac ops).
Proof.
  intros HB. induction ops as [|op ops IH]; intros HO key w HK; [reflexivity|].
  inversion HO as [|? ? O1 O2]; subst. specialize (IH O2).
  destruct op as [d| | |k|d more]; destruct key as [key|]; cbn [map to_mac x_run x_step mac_run mac_step shown];
    try (rewrite (code_key_short Hf B _ k HB O1)); f_equal; try reflexivity;
    first [apply (IH (Some key)); exact HK | apply (IH None); exact HK
          | apply (IH (Some k)); intros ? [= <-]; exact O1 ].
Qed.

(** a single computation *)
Lemma call_mac {T} (C : hash T) Hf key m : chunk_independent C Hf -> 0 <= raw_block_size C ->
  snd (hmac_call C (hmac_new C (Some key)) m false) = Ok (code_mac Hf (code_key Hf (raw_block_size C) [] key) m).
Proof.
  intros HC HB. destruct (step_inv C Hf HC _ _ (OCall m false) (new_inv C Hf HC (Some key))) as [_ R].
  exact R.
Qed.

Lemma call_keeps {T} (C : hash T) Hf o e m : chunk_independent C Hf -> inv C o (Some e, []) ->
  inv C (fst (hmac_call C o m false)) (Some e, []) /\
  snd (hmac_call C o m false) = Ok (code_mac Hf e m).
Proof.
  intros HC I. destruct (step_inv C Hf HC o _ (OCall m false) I) as [J R]. split; [exact J|exact R].
Qed.

(** ** PBKDF2 *)
Lemma xor_list_zip a b : xor_list a b = xor_zip a b.
Proof. reflexivity. Qed.

Section P.
Context {T : Type} (C : hash T) (Hf : str -> str) (HC : chunk_independent C Hf).
Context (d : nat) (Hd : forall m, length (Hf m) = d).

Lemma code_mac_len e m : length (code_mac Hf e m) = d.
Proof. apply Hd. Qed.

Lemma inner_ok n : forall prf e U F, inv C prf (Some e, []) -> length F = d -> 
  exists prf', inv C prf' (Some e, []) /\
  pbkdf2_inner C n prf U F = Ok (prf', fold_left xor_list (rfc_U (code_mac Hf e) (code_mac Hf e U) n) F) /\
  length (fold_left xor_list (rfc_U (code_mac Hf e) (code_mac Hf e U) n) F) = d.
Proof.
  induction n as [|n IH]; intros prf e U F I LF.
  - exists prf. auto.
  - cbn [pbkdf2_inner rfc_U fold_left].
    destruct (call_keeps C Hf prf e U HC I) as [J R].
    destruct (hmac_call C prf U false) as [prf1 r]. cbn [fst snd] in *. subst r.
    pose proof (code_mac_len e U) as LU.
    unfold xor. replace (len F =? len (code_mac Hf e U)) with true by (unfold len; lia). cbn [bind].
    change (xor_zip F (code_mac Hf e U)) with (xor_list F (code_mac Hf e U)).
    apply IH; auto. rewrite xor_list_zip. pose proof (xor_zip_len F (code_mac Hf e U)) as Q. unfold len in Q. lia.
Qed.

Lemma pack_int4 i : 0 <= i < 2 ^ 31 -> pack_be_i i = Ok (int4 i).
Proof. intros Hi. unfold pack_be_i. replace (_ && _) with true by lia. reflexivity. Qed.

Lemma outer_ok it : forall n block prf e salt key, 1 <= block -> block + Z.of_nat n <= 2 ^ 31 -> inv C prf (Some e, []) ->
  pbkdf2_outer C n block prf salt it key =
  Ok (key ++ concat (map (fun i => rfc_F (code_mac Hf e) salt (S (Z.to_nat (it - 1))) (Z.of_nat i)) (seq (Z.to_nat block) n))).
Proof.
  induction n as [|n IH]; intros block prf e salt key Hb Hn I.
  - cbn [pbkdf2_outer seq map concat]. now rewrite app_nil_r.
  - cbn [pbkdf2_outer]. rewrite pack_int4 by lia. cbn [bind].
    destruct (call_keeps C Hf prf e (salt ++ int4 block) HC I) as [J R].
    destruct (hmac_call C prf (salt ++ int4 block) false) as [prf1 r]. cbn [fst snd] in *. subst r.
    destruct (call_keeps C Hf prf1 e (salt ++ int4 block) HC J) as [J2 R2].
    destruct (hmac_call C prf1 (salt ++ int4 block) false) as [prf2 r]. cbn [fst snd] in *. subst r.
    destruct (inner_ok (Z.to_nat (it - 1)) prf2 e (code_mac Hf e (salt ++ int4 block)) (code_mac Hf e (salt ++ int4 block)) J2
                (code_mac_len _ _)) as (prf3 & J3 & E & L).
    rewrite E. cbn [bind]. rewrite (IH (block + 1) prf3 e) by (auto; lia).
    cbn [seq map concat]. rewrite <- app_assoc. do 3 f_equal.
    + rewrite Z2Nat.id by lia. reflexivity.
    + replace (Z.to_nat (block + 1)) with (S (Z.to_nat block)) by lia. reflexivity.
Qed.
End P.

Lemma firstn_slice {A} (l : list A) n : 0 <= n -> slice l 0 n = firstn (Z.to_nat n) l.
Proof. intros. unfold slice. now rewrite Z.sub_0_r. Qed.

Lemma pbkdf2_spec {T} (C : hash T) Hf password salt it k : chunk_independent C Hf ->
  1 <= digest_size C -> (forall m, len (Hf m) = digest_size C) -> 63 <= raw_block_size C ->
  len password <= 63 -> 0 <= k <= 10000 -> 1 <= it ->
  pbkdf2 false C password salt it k =
  Ok (rfc_pbkdf2 (rfc_hmac Hf (Z.to_nat (raw_block_size C)) password) (Z.to_nat (digest_size C)) salt (Z.to_nat it) (Z.to_nat k)).
Proof.
  intros HC Hd HL HB Hp Hk Hit. unfold pbkdf2.
  replace (63 <? len password) with false by lia. replace (10000 <? k) with false by lia.
  replace (digest_size C =? 0) with false by lia. cbv zeta.
  set (d := digest_size C) in *.
  assert (Hd' : forall m, length (Hf m) = Z.to_nat d) by (intros m; specialize (HL m); unfold len in HL; lia).
  assert (Hn : 0 <= (k + d - 1) / d <= 10000).
  { split; [apply Z.div_pos; lia|]. apply Z.lt_succ_r, Z.div_lt_upper_bound; nia. }
  rewrite (outer_ok C Hf HC (Z.to_nat d) Hd' it _ 1 _ (code_key Hf (raw_block_size C) [] password) salt []);
    [|lia|change (2 ^ 31) with 2147483648; lia|exact (new_inv C Hf HC (Some password))].
  cbn [bind app]. replace (k <? 0) with false by lia. rewrite firstn_slice by lia. f_equal.
  rewrite code_key_short by lia. unfold rfc_pbkdf2, rfc_T. f_equal.
  assert (EN : Z.to_nat ((k + d - 1) / d) = ((Z.to_nat k + Z.to_nat d - 1) / Z.to_nat d)%nat).
  { apply Nat2Z.inj. rewrite Z2Nat.id by lia. rewrite Nat2Z.inj_div. f_equal; lia. }
  rewrite EN. change (Z.to_nat 1) with 1%nat. f_equal. 
  replace (S (Z.to_nat (it - 1))) with (Z.to_nat it) by lia. reflexivity.
Qed.

(** ** the 802.11 PRF *)
Section F.
Context (hm : str -> str -> str) (Hm : forall k m, length (hm k m) = 20%nat).
Definition prf_block (key prefix data : str) (i : nat) : str := hm key (prefix ++ [0] ++ data ++ [Z.of_nat i]).

Lemma prf_blocks_length key prefix data a m :
  length (concat (map (prf_block key prefix data) (seq a m))) = (20 * m)%nat.
Proof. revert a; induction m as [|m IH]; intros a; [reflexivity|]. cbn [seq map concat]. rewrite app_length, IH. unfold prf_block. rewrite Hm. lia. Qed.

Lemma prf_loop_ok key prefix data n : 0 <= n <= 5119 -> forall fuel i,
  let R := concat (map (prf_block key prefix data) (seq 0 i)) in
  (i + fuel = 257)%nat -> 20 * Z.of_nat i <= n + 20 ->
  prf_loop fuel hm key prefix data n (Z.of_nat i) R =
  Ok (concat (map (prf_block key prefix data) (seq 0 (Z.to_nat (n / 20 + 1))))).
Proof.
  intros Hn. induction fuel as [|fuel IH]; intros i R Hi HB; [lia|].
  assert (LR : len R = 20 * Z.of_nat i) by (unfold R, len; rewrite prf_blocks_length; lia).
  cbn [prf_loop]. rewrite LR. destruct (20 * Z.of_nat i <=? n) eqn:E.
  - unfold py_chr. replace (_ && _) with true by lia. cbn [bind].
    change (hm key (prefix ++ [0] ++ data ++ [Z.of_nat i])) with (prf_block key prefix data i).
    assert (ER : R ++ prf_block key prefix data i = concat (map (prf_block key prefix data) (seq 0 (S i)))).
    { unfold R. rewrite seq_S, map_app, concat_app. cbn [map concat Nat.add]. now rewrite app_nil_r. }
    rewrite ER. replace (Z.of_nat i + 1) with (Z.of_nat (S i)) by lia. apply IH; lia.
  - unfold R. do 3 f_equal. f_equal. lia.
Qed.

Lemma prf_loop_fail key prefix data n : 5120 <= n -> forall fuel i,
  let R := concat (map (prf_block key prefix data) (seq 0 i)) in
  (i + fuel = 257)%nat -> (i <= 256)%nat ->
  prf_loop fuel hm key prefix data n (Z.of_nat i) R = Raise ValueError.
Proof.
  intros Hn. induction fuel as [|fuel IH]; intros i R Hi HB; [lia|].
  assert (LR : len R = 20 * Z.of_nat i) by (unfold R, len; rewrite prf_blocks_length; lia).
  cbn [prf_loop]. rewrite LR. replace (20 * Z.of_nat i <=? n) with true by lia.
  unfold py_chr. destruct (Nat.eq_dec i 256) as [->|N]; [reflexivity|].
  replace (_ && _) with true by lia. cbn [bind].
  change (hm key (prefix ++ [0] ++ data ++ [Z.of_nat i])) with (prf_block key prefix data i).
  assert (ER : R ++ prf_block key prefix data i = concat (map (prf_block key prefix data) (seq 0 (S i)))).
  { unfold R. rewrite seq_S, map_app, concat_app. cbn [map concat Nat.add]. now rewrite app_nil_r. }
  rewrite ER. replace (Z.of_nat i + 1) with (Z.of_nat (S i)) by lia. apply IH; lia.
Qed.

Lemma prf_small key prefix data n : 0 <= n <= 5119 -> 
  PRF hm key prefix data (8 * n) = Ok (ieee_prf hm key prefix data (Z.to_nat (n / 20 + 1)) (Z.to_nat n)).
Proof.
  intros Hn. unfold PRF. rewrite (Z.mul_comm 8), Z.mod_mul, Z.div_mul by lia. cbn [Z.eqb negb].
  pose proof (prf_loop_ok key prefix data n Hn 257 0 ltac:(lia) ltac:(lia)) as E.
  change (Z.of_nat 0) with 0 in E. cbn [seq map concat] in E. rewrite E. cbn [bind]. rewrite firstn_slice by lia. reflexivity.
Qed.
Lemma prf_large key prefix data n : 5120 <= n -> PRF hm key prefix data (8 * n) = Raise ValueError.
Proof.
  intros Hn. unfold PRF. rewrite (Z.mul_comm 8), Z.mod_mul, Z.div_mul by lia. cbn [Z.eqb negb].
  pose proof (prf_loop_fail key prefix data n Hn 257 0 ltac:(lia) ltac:(lia)) as E.
  change (Z.of_nat 0) with 0 in E. cbn [seq map concat] in E. rewrite E. reflexivity.
Qed.
Lemma prf_negative key prefix data n : n < 0 -> PRF hm key prefix data (8 * n) = Ok [].
Proof.
  intros Hn. unfold PRF. rewrite (Z.mul_comm 8), Z.mod_mul, Z.div_mul by lia. cbn [Z.eqb negb].
  cbn [prf_loop]. change (len (@nil Z)) with 0. replace (0 <=? n) with false by lia. cbn [bind]. unfold slice. now rewrite skipn_nil, firstn_nil.
Qed.

Lemma ieee_prf_more key prefix data b b' n : (n <= 20 * b)%nat -> (b <= b')%nat ->
  ieee_prf hm key prefix data b n = ieee_prf hm key prefix data b' n.
Proof.
  intros H1 H2. unfold ieee_prf. fold (prf_block key prefix data).
  replace b' with (b + (b' - b))%nat by lia. rewrite seq_app, map_app, concat_app, firstn_app.
  change (fun i : nat => hm key (prefix ++ [0] ++ data ++ [Z.of_nat i])) with (prf_block key prefix data).
  rewrite prf_blocks_length. replace (n - 20 * b)%nat with 0%nat by lia. rewrite firstn_O, app_nil_r. reflexivity.
Qed.
End F.
Lemma prf_ragged hm key prefix data n : n mod 8 <> 0 -> PRF hm key prefix data n = Raise ValueError.
Proof. intros. unfold PRF. replace (n mod 8 =? 0) with false by lia. reflexivity. Qed.
