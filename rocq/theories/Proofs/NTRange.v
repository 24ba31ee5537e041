(** Shape of the results of the polynomial functions: length and range of the coefficients. *)
From Verif Require Import Proofs.Tac Model.NumberTheory Proofs.NTPoly.
Local Open Scope Z_scope.

Section R.
Context (p : Z) (Hp : 0 < p).
Definition in_range (l : list Z) := Forall (fun c => 0 <= c < p) l.
Lemma in_range_set l i v : in_range l -> 0 <= v < p -> in_range (set_nth l i v).
Proof.
  intros H V. revert i. induction H as [|x l X H IH]; intros [|i]; cbn [set_nth]; constructor; auto. apply IH.
Qed.
Lemma in_range_zeros n : in_range (repeat 0 n).
Proof. apply Forall_forall. intros x H. apply repeat_spec in H. subst x. lia. Qed.
Lemma in_range_fold {A} (step : list Z -> A -> list Z) : (forall l a, in_range l -> in_range (step l a)) -> forall xs l, in_range l -> in_range (fold_left step xs l).
Proof. intros H xs. induction xs as [|x xs IH]; intros l L; cbn [fold_left]; auto. Qed.
Lemma multiply_raw_range m1 m2 : in_range (multiply_raw m1 m2 p).
Proof.
  unfold multiply_raw. apply in_range_fold; [|apply in_range_zeros]. intros l i L. apply in_range_fold; [|exact L].
  intros l' j L'. apply in_range_set; auto. apply Z.mod_pos_bound. lia.
Qed.
Lemma fold_length {A} (step : list Z -> A -> list Z) : (forall l a, length (step l a) = length l) -> forall xs l, length (fold_left step xs l) = length l.
Proof. intros H xs. induction xs as [|x xs IH]; intros l; cbn [fold_left]; [reflexivity|]. now rewrite IH, H. Qed.
Lemma multiply_raw_length m1 m2 : length (multiply_raw m1 m2 p) = (length m1 + length m2 - 1)%nat.
Proof.
  unfold multiply_raw. rewrite fold_length; [apply repeat_length|]. intros l i. apply fold_length. intros l' j. apply set_nth_length.
Qed.
Lemma removelast_length (l : list Z) : length (removelast l) = (length l - 1)%nat.
Proof. rewrite removelast_firstn_len, firstn_length. lia. Qed.
Lemma in_range_removelast l : in_range l -> in_range (removelast l).
Proof. intros H. induction H as [|x l X H IH]; [constructor|]. destruct l; [constructor|]. constructor; [exact X|exact IH]. Qed.
Lemma reduce_row_range f poly : in_range poly -> in_range (reduce_row f p poly).
Proof. unfold reduce_row. apply in_range_fold. intros l i L. apply in_range_set; auto. apply Z.mod_pos_bound. lia. Qed.
Lemma reduce_row_length f poly : length (reduce_row f p poly) = length poly.
Proof. unfold reduce_row. apply fold_length. intros. apply set_nth_length. Qed.
Lemma reduce_loop_range f n : forall poly, in_range poly -> in_range (reduce_loop n poly f p).
Proof.
  induction n as [|n IH]; intros poly H; cbn [reduce_loop]; [exact H|]. destruct (_ <=? _)%nat; [|exact H].
  apply IH, in_range_removelast. destruct (negb _); [now apply reduce_row_range|exact H].
Qed.
Lemma reduce_loop_length f n : forall poly, (length poly <= n)%nat -> (0 < length f)%nat ->
  length (reduce_loop n poly f p) = Nat.min (length poly) (length f - 1).
Proof.
  induction n as [|n IH]; intros poly H F; cbn [reduce_loop]; [lia|]. destruct (length f <=? length poly)%nat eqn:E.
  - apply Nat.leb_le in E. rewrite IH; [|rewrite removelast_length; destruct (negb _); rewrite ?reduce_row_length; lia|exact F].
    rewrite removelast_length. destruct (negb _); rewrite ?reduce_row_length; lia.
  - apply Nat.leb_gt in E. lia.
Qed.
Lemma multiply_mod_shape f m1 m2 r : polynomial_multiply_mod m1 m2 f p = Ok r ->
  in_range r /\ length r = Nat.min (length m1 + length m2 - 1) (length f - 1).
Proof.
  unfold polynomial_multiply_mod, polynomial_reduce_mod. replace (p =? 0) with false by lia.
  destruct f as [|x f]; [discriminate|]. unfold py_assert. destruct (get_neg _ _ =? 1); [|discriminate]. destruct (1 <? len _) eqn:L; [|discriminate].
  cbn [bind]. intros E. injection E as <-. split; [apply reduce_loop_range, multiply_raw_range|].
  rewrite reduce_loop_length by (cbn [length]; lia). now rewrite multiply_raw_length.
Qed.
Lemma exp_loop_shape f : length f = 3%nat -> forall fuel k G s r, exp_loop fuel k G s f p = Ok r ->
  length G = 2%nat -> length s = 2%nat -> in_range s -> in_range r /\ length r = 2%nat.
Proof.
  intros F. induction fuel as [|fuel IH]; intros k G s r E LG LS RS; cbn [exp_loop] in E; (destruct (1 <? k); [|injection E as <-; auto]); [discriminate|].
  destruct (polynomial_multiply_mod G G f p) as [G'|] eqn:EG; [|discriminate]. cbn [bind] in E.
  apply multiply_mod_shape in EG as (RG & LG'). rewrite F, LG in LG'. cbn in LG'.
  destruct ((k / 2) mod 2 =? 1).
  - destruct (polynomial_multiply_mod G' s f p) as [s'|] eqn:ES; [|discriminate]. cbn [bind] in E.
    apply multiply_mod_shape in ES as (RS' & LS'). rewrite F, LG', LS in LS'. cbn in LS'. eapply IH; eauto.
  - cbn [bind] in E. eapply IH; eauto.
Qed.
Lemma exp_range f fuel : forall k G s r, exp_loop fuel k G s f p = Ok r -> in_range s -> in_range r.
Proof.
  induction fuel as [|fuel IH]; intros k G s r E RS; cbn [exp_loop] in E; (destruct (1 <? k); [|injection E as <-; auto]); [discriminate|].
  destruct (polynomial_multiply_mod G G f p) as [G'|] eqn:EG; [|discriminate]. cbn [bind] in E.
  destruct ((k / 2) mod 2 =? 1).
  - destruct (polynomial_multiply_mod G' s f p) as [s'|] eqn:ES; [|discriminate]. cbn [bind] in E. apply multiply_mod_shape in ES as (RS' & _). eauto.
  - cbn [bind] in E. eauto.
Qed.
End R.
