(** The float constants of the model are the nearest floats to pi and to the
    decimal fractions they stand for. *)
From Coq Require Import ZArith Reals Lia Lra Bool Psatz QArith Qreals Machin Ratan.
From Coq Require Import Floats.SpecFloat.
From Flocq Require Import Core.Core IEEE754.BinarySingleNaN.
From Verif Require Import Base Flt Spec21 LReal LReal2 LReal3 LReal4.
Open Scope Z_scope.

Local Instance Hprec : FLX.Prec_gt_0 prec := eq_refl _.
Local Instance Hfx : Valid_exp fx := FLT_exp_valid (SpecFloat.emin prec emax) prec.

(** ** A float is the rounding of every real closer than half a unit *)
Lemma const_nearest x r m e :
  double x -> sf_of_bits x = S754_finite false m e -> -1074 <= e <= 970 ->
  (bpow radix2 (52 + e) <= r < bpow radix2 (53 + e))%R ->
  (Rabs (r - IZR (Zpos m) * bpow radix2 e) < / 2 * bpow radix2 e)%R -> rounded r x.
Proof.
  intros D S He Hr Hd.
  assert (Fx : finite x).
  { split; [exact D |]. intros X. pose proof (sf_finite x D) as F. rewrite S, X in F. discriminate. }
  pose proof (value_parts x false m e Fx S) as V. cbv iota in V.
  assert (P : (0 < bpow radix2 e)%R) by apply bpow_gt_0.
  assert (Pr : (0 < r)%R) by (pose proof (bpow_gt_0 radix2 (52 + e)); lra).
  assert (R : value x = rnd r).
  { rewrite V. unfold round, scaled_mantissa, cexp.
    rewrite (mag_unique radix2 r (53 + e)) by (rewrite Rabs_pos_eq by lra; replace (53 + e - 1) with (52 + e) by lia; exact Hr).
    replace (fx (53 + e)) with e by (unfold fexp, emin, prec, emax; lia).
    unfold F2R; simpl Fnum; simpl Fexp. f_equal. f_equal. symmetry. apply Znearest_imp.
    rewrite bpow_opp. apply Rmult_lt_reg_r with (bpow radix2 e); [exact P |].
    rewrite <- (Rabs_pos_eq (bpow radix2 e)) at 2 by lra. rewrite <- Rabs_mult.
    replace ((r * / bpow radix2 e - IZR (Zpos m)) * bpow radix2 e)%R
      with (r - IZR (Zpos m) * bpow radix2 e)%R by (field; lra).
    exact Hd. }
  left. split; [exact (round_large r x Fx R) |]. split; [exact (nearest_round r x Fx R) |].
  split; [lra |]. intros _. rewrite <- (sf_sign x Fx), S. reflexivity.
Qed.

Lemma bpow_neg e : 0 <= e -> bpow radix2 (- e) = (/ IZR (2 ^ e))%R.
Proof. intros H. rewrite bpow_opp, (pow_pos_bpow e H). reflexivity. Qed.

(** ** Rational bounds for pi *)
Definition q_term (n : positive) : Q :=
  (2 * (1 # (3 ^ (2 * n + 1) * (2 * n + 1))) + (1 # (7 ^ (2 * n + 1) * (2 * n + 1))))%Q.
Fixpoint q_sum (n : nat) : Q :=
  match n with
  | O => (2 * (1 # 3) + (1 # 7))%Q
  | S k => Qred (q_sum k + (if Nat.even n then 1 else -1) * q_term (Pos.of_nat n))%Q
  end.

Lemma INR_pos n : INR (2 * Pos.to_nat n + 1) = IZR (Zpos (2 * n + 1)).
Proof. rewrite INR_IZR_INZ. f_equal. lia. Qed.

Lemma pow_inv_pos a n : ((/ IZR (Zpos a)) ^ (2 * Pos.to_nat n + 1) = / IZR (Zpos (a ^ (2 * n + 1))))%R.
Proof.
  rewrite pow_inv. f_equal. rewrite Pos2Z.inj_pow.
  replace (Zpos (2 * n + 1)) with (Z.of_nat (2 * Pos.to_nat n + 1)) by lia. rewrite <- pow_IZR. reflexivity.
Qed.

Lemma q_term_ok n : Q2R (q_term n) = PI_2_3_7_tg (Pos.to_nat n).
Proof.
  unfold q_term, PI_2_3_7_tg, Ratan_seq. rewrite Q2R_plus, Q2R_mult. unfold Q2R; simpl Qnum; simpl Qden.
  change (/ 3)%R with (/ IZR (Zpos 3))%R. change (/ 7)%R with (/ IZR (Zpos 7))%R.
  rewrite !pow_inv_pos, INR_pos. rewrite !Pos2Z.inj_mul, !mult_IZR. unfold Rdiv.
  rewrite !Rinv_mult. change (2 * n + 1)%positive with (xI n). field.
  repeat split; apply not_0_IZR; discriminate.
Qed.

Lemma q_sum_ok n : Q2R (q_sum n) = sum_f_R0 (tg_alt PI_2_3_7_tg) n.
Proof.
  induction n as [| n IH].
  - unfold q_sum. simpl sum_f_R0. unfold tg_alt, PI_2_3_7_tg, Ratan_seq. rewrite Q2R_plus, Q2R_mult.
    unfold Q2R. simpl. field.
  - change (q_sum (S n)) with (Qred (q_sum n + (if Nat.even (S n) then 1 else -1) * q_term (Pos.of_nat (S n)))%Q).
    rewrite (Qeq_eqR _ _ (Qred_correct _)), Q2R_plus, Q2R_mult, q_term_ok, IH.
    rewrite Nat2Pos.id by discriminate.
    cbn [sum_f_R0]. f_equal. unfold tg_alt. f_equal.
    destruct (Nat.even (S n)) eqn:Ev.
    + apply Nat.even_spec in Ev. destruct Ev as [k ->]. rewrite pow_1_even. unfold Q2R; simpl; field.
    + rewrite <- Nat.negb_odd in Ev. apply negb_false_iff in Ev. apply Nat.odd_spec in Ev. destruct Ev as [k ->].
      rewrite Nat.add_1_r, pow_1_odd. unfold Q2R; simpl; field.
Qed.

Definition pi_lo : Q := 884279719003555 # 281474976710656.
Lemma pi_bounds : (Q2R pi_lo < PI < Q2R (pi_lo + (1 # 4503599627370496)))%R.
Proof.
  pose proof (PI_2_3_7_ineq 10) as [L U].
  rewrite <- q_sum_ok in L, U.
  assert (L' : (Q2R (pi_lo * (1 # 4)) < Q2R (q_sum (S (2 * 10))))%R)
    by (apply Qlt_Rlt; unfold Qlt; vm_compute; reflexivity).
  assert (U' : (Q2R (q_sum (2 * 10)) < Q2R ((pi_lo + (1 # 4503599627370496)) * (1 # 4)))%R)
    by (apply Qlt_Rlt; unfold Qlt; vm_compute; reflexivity).
  rewrite Q2R_mult in L', U'.
  assert (F : Q2R (1 # 4) = (/ 4)%R) by (unfold Q2R; simpl; field). rewrite F in L', U'.
  clear F. lra.
Qed.

Lemma pi_rounded : rounded PI 4614256656552045848.
Proof.
  apply (const_nearest _ _ 7074237752028440 (-51)).
  - split; [discriminate | reflexivity].
  - reflexivity.
  - lia.
  - change (bpow radix2 (52 + -51)) with 2%R. change (bpow radix2 (53 + -51)) with 4%R.
    pose proof pi_bounds as [A B]. unfold pi_lo, Q2R, Qplus in *. simpl in *. lra.
  - change (-51) with (- (51)). rewrite bpow_neg by lia. change (2 ^ 51) with 2251799813685248.
    pose proof pi_bounds as [A B]. unfold pi_lo, Q2R, Qplus in *. cbn [Qnum Qden Z.mul Z.add Pos.mul Pos.add] in *.
    apply Rabs_def1; lra.
Qed.

Lemma milli_rounded : rounded (1 / 1000) 4562254508917369340.
Proof.
  apply (const_nearest _ _ 4611686018427388 (-62)).
  - split; [discriminate | reflexivity].
  - reflexivity.
  - lia.
  - change (52 + -62) with (- (10)). change (53 + -62) with (- (9)). rewrite !bpow_neg by lia.
    change (2 ^ 10) with 1024. change (2 ^ 9) with 512. lra.
  - change (-62) with (- (62)). rewrite bpow_neg by lia. change (2 ^ 62) with 4611686018427387904.
    apply Rabs_def1; lra.
Qed.

Lemma micro_rounded : rounded (1 / 1000000) 4517329193108106637.
Proof.
  apply (const_nearest _ _ 4722366482869645 (-72)).
  - split; [discriminate | reflexivity].
  - reflexivity.
  - lia.
  - change (52 + -72) with (- (20)). change (53 + -72) with (- (19)). rewrite !bpow_neg by lia.
    change (2 ^ 20) with 1048576. change (2 ^ 19) with 524288. lra.
  - change (-72) with (- (72)). rewrite bpow_neg by lia. change (2 ^ 72) with 4722366482869645213696.
    apply Rabs_def1; lra.
Qed.
