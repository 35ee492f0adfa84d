(** Each float operation of the model against the real numbers. *)
From Coq Require Import ZArith Reals Lia Lra Bool Psatz.
From Coq Require Import Floats.SpecFloat.
From Flocq Require Import Core.Core IEEE754.BinarySingleNaN.
From Verif Require Import Base Flt Spec21 LReal LReal2.
Open Scope Z_scope.

Local Instance Hprec : FLX.Prec_gt_0 prec := eq_refl _.
Local Instance Hmax : Prec_lt_emax prec emax := eq_refl _.
Local Instance Hfx : Valid_exp fx := FLT_exp_valid (SpecFloat.emin prec emax) prec.
Local Instance Hfm : Monotone_exp fx := FLT_exp_monotone (SpecFloat.emin prec emax) prec.

(** ** Classes of patterns *)
Lemma sf_nan x : double x -> (sf_of_bits x = S754_nan <-> not_a_number x).
Proof.
  intros D. destruct (fields x D) as (_ & He & Hf). rewrite (sf_fields x D). unfold not_a_number.
  destruct (Z.eqb_spec (exponent x) 2047).
  - destruct (Z.eqb_spec (fraction x) 0); split; intros H; try discriminate; try tauto.
  - split; [| intros (_ & X & _); contradiction]. change (2 ^ 52) with 4503599627370496.
    destruct (exponent x =? 0); [destruct (fraction x) | destruct (fraction x + _)]; discriminate.
Qed.

Lemma sf_inf x s : double x -> (sf_of_bits x = S754_infinity s <-> infinite x /\ negative x = s).
Proof.
  intros D. destruct (fields x D) as (_ & He & Hf). rewrite (sf_fields x D). unfold infinite.
  destruct (Z.eqb_spec (exponent x) 2047).
  - destruct (Z.eqb_spec (fraction x) 0); split.
    + intros H; injection H as ->; tauto.
    + intros [_ <-]; reflexivity.
    + discriminate.
    + tauto.
  - split; [| intros [(_ & X & _) _]; contradiction]. change (2 ^ 52) with 4503599627370496.
    destruct (exponent x =? 0); [destruct (fraction x) | destruct (fraction x + _)]; discriminate.
Qed.

Lemma classes x : double x -> finite x \/ infinite x \/ not_a_number x.
Proof.
  intros D. unfold finite, infinite, not_a_number.
  destruct (Z.eq_dec (exponent x) 2047); destruct (Z.eq_dec (fraction x) 0); tauto.
Qed.

Lemma infinite_eq x : infinite x -> x = if negative x then minus_infinity else plus_infinity.
Proof.
  intros (D & X & F). destruct (fields x D) as (H & _). rewrite X, F in H.
  rewrite H at 1. destruct (negative x); reflexivity.
Qed.

Lemma infinite_plus : infinite plus_infinity /\ negative plus_infinity = false.
Proof. split; [split; [split; [discriminate | reflexivity] | split; reflexivity] | reflexivity]. Qed.
Lemma infinite_minus : infinite minus_infinity /\ negative minus_infinity = true.
Proof. split; [split; [split; [discriminate | reflexivity] | split; reflexivity] | reflexivity]. Qed.

Lemma nan_result f : f = S754_nan -> not_a_number (bits_of_sf f).
Proof. intros ->. split; [split; [discriminate | reflexivity] | split; [reflexivity | discriminate]]. Qed.
Lemma inf_result f s : f = S754_infinity s -> bits_of_sf f = if s then minus_infinity else plus_infinity.
Proof. intros ->. destruct s; reflexivity. Qed.
Lemma zero_result f s : f = S754_zero s -> bits_of_sf f = if s then minus_zero else plus_zero.
Proof. intros ->. destruct s; reflexivity. Qed.

Lemma sf_zero x : finite x -> value x = 0%R -> sf_of_bits x = S754_zero (negative x).
Proof.
  intros F V. pose proof (sf_value x F) as W. rewrite V in W. pose proof (sf_sign x F) as S.
  pose proof (sf_finite x (proj1 F)) as Fi.
  destruct (sf_of_bits x) as [s | s | | s m e]; simpl in *; subst; try reflexivity;
    try (destruct F as [_ F]; apply Z.eqb_neq in F; rewrite F in Fi; discriminate).
  apply eq_0_F2R in W. destruct (negative x); discriminate.
Qed.

Lemma sf_nonzero x : finite x -> value x <> 0%R -> exists m e, sf_of_bits x = S754_finite (negative x) m e.
Proof.
  intros F V. pose proof (sf_value x F) as W. pose proof (sf_sign x F) as S.
  pose proof (sf_finite x (proj1 F)) as Fi.
  destruct (sf_of_bits x) as [s | s | | s m e]; simpl in *; subst;
    try (destruct F as [_ F]; apply Z.eqb_neq in F; rewrite F in Fi; discriminate);
    try congruence; eauto.
Qed.

Lemma magnitude_pos x : double x -> (0 <= magnitude x)%R.
Proof.
  intros D. destruct (fields x D) as (_ & He & Hf). unfold magnitude.
  assert (P : forall e, (0 < powerRZ 2 e)%R) by (intros e; apply powerRZ_lt; lra).
  destruct (exponent x =? 0); apply Rmult_le_pos; try (left; apply P); apply IZR_le; lia.
Qed.

Lemma value_sign x : finite x -> (value x < 0 -> negative x = true)%R /\ (0 < value x -> negative x = false)%R.
Proof.
  intros [D _]. pose proof (magnitude_pos x D). unfold value. destruct (negative x); split; intros; auto; lra.
Qed.
Lemma value_sign_le x : finite x ->
  if negative x then (value x <= 0)%R else (0 <= value x)%R.
Proof. intros [D _]. pose proof (magnitude_pos x D). unfold value. destruct (negative x); lra. Qed.

(** ** Addition, subtraction, multiplication, division, square root *)
Lemma fadd_bin x y Dx Dy : fadd x y = bits_of_sf (B2SF (Bplus mode_NE (bin_of x Dx) (bin_of y Dy))).
Proof. unfold fadd. rewrite <- add_eq, !bin_sf. reflexivity. Qed.
Lemma fsub_bin x y Dx Dy : fsub x y = bits_of_sf (B2SF (Bminus mode_NE (bin_of x Dx) (bin_of y Dy))).
Proof. unfold fsub. rewrite <- sub_eq, !bin_sf. reflexivity. Qed.
Lemma fmul_bin x y Dx Dy : fmul x y = bits_of_sf (B2SF (Bmult mode_NE (bin_of x Dx) (bin_of y Dy))).
Proof. unfold fmul. rewrite <- mul_eq, !bin_sf. reflexivity. Qed.
Lemma fdiv_bin x y Dx Dy : fdiv x y = bits_of_sf (B2SF (Bdiv mode_NE (bin_of x Dx) (bin_of y Dy))).
Proof. unfold fdiv. rewrite <- div_eq, !bin_sf. reflexivity. Qed.
Lemma fsqrt_bin x Dx : fsqrt_ x = bits_of_sf (B2SF (Bsqrt mode_NE (bin_of x Dx))).
Proof. unfold fsqrt_. rewrite <- sqrt_eq, !bin_sf. reflexivity. Qed.

Lemma bits_double (q : bin) : double (bits_of_sf (B2SF q)).
Proof. apply bits_ok, valid_binary_B2SF. Qed.

Lemma fadd_double x y : double x -> double y -> double (fadd x y).
Proof. intros Dx Dy. rewrite (fadd_bin x y Dx Dy). apply bits_double. Qed.
Lemma fsub_double x y : double x -> double y -> double (fsub x y).
Proof. intros Dx Dy. rewrite (fsub_bin x y Dx Dy). apply bits_double. Qed.
Lemma fmul_double x y : double x -> double y -> double (fmul x y).
Proof. intros Dx Dy. rewrite (fmul_bin x y Dx Dy). apply bits_double. Qed.
Lemma fdiv_double x y : double x -> double y -> double (fdiv x y).
Proof. intros Dx Dy. rewrite (fdiv_bin x y Dx Dy). apply bits_double. Qed.
Lemma fsqrt_double x : double x -> double (fsqrt_ x).
Proof. intros Dx. rewrite (fsqrt_bin x Dx). apply bits_double. Qed.

Lemma fadd_rounded x y : finite x -> finite y -> rounded (value x + value y) (fadd x y).
Proof.
  intros Fx Fy. rewrite (fadd_bin x y (proj1 Fx) (proj1 Fy)). apply rounded_bin.
  pose proof (Bplus_correct prec emax Hprec Hmax mode_NE _ _ (bin_finite x (proj1 Fx) Fx) (bin_finite y (proj1 Fy) Fy)) as C.
  rewrite !bin_value, !bin_sign in C by assumption.
  change (round_mode mode_NE) with ZnearestE in C. change (bpow radix2 emax) with top in C.
  destruct (Rlt_bool _ _).
  - destruct C as (C1 & C2 & C3). split; [exact C1 | split; [exact C2 |]]. rewrite C3.
    destruct (Rcompare_spec (value x + value y) 0); split; intros; auto; lra.
  - destruct C as [C1 C2]. exists (negative x). split; [exact C1 |].
    pose proof (value_sign_le x Fx) as Sx. pose proof (value_sign_le y Fy) as Sy. rewrite <- C2 in Sy.
    destruct (negative x); split; intros; auto; lra.
Qed.

Lemma fadd_zero x y : finite x -> finite y -> (value x + value y = 0)%R ->
  fadd x y = if negative x && negative y then minus_zero else plus_zero.
Proof.
  intros Fx Fy Z. rewrite (fadd_bin x y (proj1 Fx) (proj1 Fy)).
  pose proof (Bplus_correct prec emax Hprec Hmax mode_NE _ _ (bin_finite x (proj1 Fx) Fx) (bin_finite y (proj1 Fy) Fy)) as C.
  rewrite !bin_value, !bin_sign in C by assumption. rewrite Z in C.
  rewrite (round_0 radix2 fx (round_mode mode_NE)), Rabs_R0, Rlt_bool_true in C by apply bpow_gt_0.
  destruct C as (C1 & C2 & C3). rewrite Rcompare_Eq in C3 by reflexivity.
  destruct (Bplus _ _ _) as [s | s | | s m e B]; try discriminate.
  - simpl in C3. rewrite <- C3. destruct s; reflexivity.
  - simpl in C1. apply eq_0_F2R in C1. destruct s; discriminate.
Qed.

Lemma fsub_rounded x y : finite x -> finite y -> rounded (value x - value y) (fsub x y).
Proof.
  intros Fx Fy. rewrite (fsub_bin x y (proj1 Fx) (proj1 Fy)). apply rounded_bin.
  pose proof (Bminus_correct prec emax Hprec Hmax mode_NE _ _ (bin_finite x (proj1 Fx) Fx) (bin_finite y (proj1 Fy) Fy)) as C.
  rewrite !bin_value, !bin_sign in C by assumption.
  change (round_mode mode_NE) with ZnearestE in C. change (bpow radix2 emax) with top in C.
  destruct (Rlt_bool _ _).
  - destruct C as (C1 & C2 & C3). split; [exact C1 | split; [exact C2 |]]. rewrite C3.
    destruct (Rcompare_spec (value x - value y) 0); split; intros; auto; lra.
  - destruct C as [C1 C2]. exists (negative x). split; [exact C1 |].
    pose proof (value_sign_le x Fx) as Sx. pose proof (value_sign_le y Fy) as Sy. rewrite C2 in *.
    destruct (negative y); simpl in *; split; intros; auto; lra.
Qed.

Lemma fsub_zero x y : finite x -> finite y -> (value x - value y = 0)%R ->
  fsub x y = if negative x && negb (negative y) then minus_zero else plus_zero.
Proof.
  intros Fx Fy Z. rewrite (fsub_bin x y (proj1 Fx) (proj1 Fy)).
  pose proof (Bminus_correct prec emax Hprec Hmax mode_NE _ _ (bin_finite x (proj1 Fx) Fx) (bin_finite y (proj1 Fy) Fy)) as C.
  rewrite !bin_value, !bin_sign in C by assumption. rewrite Z in C.
  rewrite (round_0 radix2 fx (round_mode mode_NE)), Rabs_R0, Rlt_bool_true in C by apply bpow_gt_0.
  destruct C as (C1 & C2 & C3). rewrite Rcompare_Eq in C3 by reflexivity.
  destruct (Bminus _ _ _) as [s | s | | s m e B]; try discriminate.
  - simpl in C3. rewrite <- C3. destruct s; reflexivity.
  - simpl in C1. apply eq_0_F2R in C1. destruct s; discriminate.
Qed.

Lemma is_finite_not_nan (q : bin) : is_finite q = true -> is_nan q = false.
Proof. destruct q; try discriminate; reflexivity. Qed.

Lemma product_sign x y s : finite x -> finite y -> s = xorb (negative x) (negative y) ->
  (value x * value y < 0 -> s = true)%R /\ (0 < value x * value y -> s = false)%R.
Proof.
  intros Fx Fy ->. pose proof (value_sign_le x Fx) as Sx. pose proof (value_sign_le y Fy) as Sy.
  destruct (negative x), (negative y); simpl; split; intros; auto; nra.
Qed.

Lemma fmul_rounded x y : finite x -> finite y -> rounded (value x * value y) (fmul x y).
Proof.
  intros Fx Fy. rewrite (fmul_bin x y (proj1 Fx) (proj1 Fy)). apply rounded_bin.
  pose proof (Bmult_correct prec emax Hprec Hmax mode_NE (bin_of x (proj1 Fx)) (bin_of y (proj1 Fy))) as C.
  rewrite !bin_value, !bin_sign, !bin_finite in C by assumption.
  change (round_mode mode_NE) with ZnearestE in C. change (bpow radix2 emax) with top in C.
  pose proof (product_sign x y _ Fx Fy eq_refl) as S.
  destruct (Rlt_bool _ _).
  - destruct C as (C1 & C2 & C3). split; [exact C1 | split; [exact C2 |]].
    rewrite C3 by (apply is_finite_not_nan, C2). exact S.
  - exists (xorb (negative x) (negative y)). split; [exact C | exact S].
Qed.

Lemma fmul_sign x y : finite x -> finite y -> finite (fmul x y) ->
  negative (fmul x y) = xorb (negative x) (negative y).
Proof.
  intros Fx Fy Fz. pose proof (fmul_bin x y (proj1 Fx) (proj1 Fy)) as B. rewrite B in *.
  pose proof (Bmult_correct prec emax Hprec Hmax mode_NE (bin_of x (proj1 Fx)) (bin_of y (proj1 Fy))) as C.
  rewrite !bin_value, !bin_sign, !bin_finite in C by assumption.
  destruct (Rlt_bool _ _).
  - destruct C as (C1 & C2 & C3). rewrite <- C3 by (apply is_finite_not_nan, C2).
    apply (bin_bits _ C2).
  - rewrite C in Fz. exfalso. destruct Fz as [_ Fz]. apply Fz.
    destruct (xorb (negative x) (negative y)); reflexivity.
Qed.

Lemma quotient_sign x y s : finite x -> finite y -> value y <> 0%R -> s = xorb (negative x) (negative y) ->
  (value x / value y < 0 -> s = true)%R /\ (0 < value x / value y -> s = false)%R.
Proof.
  intros Fx Fy N ->. pose proof (value_sign_le x Fx) as Sx. pose proof (value_sign_le y Fy) as Sy.
  unfold Rdiv. pose proof (Rinv_0_lt_compat (value y)) as I1. pose proof (Rinv_lt_0_compat (value y)) as I2.
  destruct (negative x), (negative y); simpl; split; intros; auto;
    try (assert (/ value y < 0)%R by (apply I2; lra)); try (assert (0 < / value y)%R by (apply I1; lra)); nra.
Qed.

Lemma fdiv_rounded x y : finite x -> finite y -> value y <> 0%R -> rounded (value x / value y) (fdiv x y).
Proof.
  intros Fx Fy N. rewrite (fdiv_bin x y (proj1 Fx) (proj1 Fy)). apply rounded_bin.
  pose proof (Bdiv_correct prec emax Hprec Hmax mode_NE (bin_of x (proj1 Fx)) (bin_of y (proj1 Fy))) as C.
  rewrite !bin_value, !bin_sign, !bin_finite in C by assumption. specialize (C N).
  change (round_mode mode_NE) with ZnearestE in C. change (bpow radix2 emax) with top in C.
  pose proof (quotient_sign x y _ Fx Fy N eq_refl) as S.
  destruct (Rlt_bool _ _).
  - destruct C as (C1 & C2 & C3). split; [exact C1 | split; [exact C2 |]].
    rewrite C3 by (apply is_finite_not_nan, C2). exact S.
  - exists (xorb (negative x) (negative y)). split; [exact C | exact S].
Qed.

Lemma fdiv_sign x y : finite x -> finite y -> value y <> 0%R -> finite (fdiv x y) ->
  negative (fdiv x y) = xorb (negative x) (negative y).
Proof.
  intros Fx Fy N Fz. pose proof (fdiv_bin x y (proj1 Fx) (proj1 Fy)) as B. rewrite B in *.
  pose proof (Bdiv_correct prec emax Hprec Hmax mode_NE (bin_of x (proj1 Fx)) (bin_of y (proj1 Fy))) as C.
  rewrite !bin_value, !bin_sign, !bin_finite in C by assumption. specialize (C N).
  destruct (Rlt_bool _ _).
  - destruct C as (C1 & C2 & C3). rewrite <- C3 by (apply is_finite_not_nan, C2).
    apply (bin_bits _ C2).
  - rewrite C in Fz. exfalso. destruct Fz as [_ Fz]. apply Fz.
    destruct (xorb (negative x) (negative y)); reflexivity.
Qed.

Lemma fsqrt_rounded x : finite x -> (0 < value x)%R -> rounded (sqrt (value x)) (fsqrt_ x).
Proof.
  intros Fx P. rewrite (fsqrt_bin x (proj1 Fx)).
  pose proof (Bsqrt_correct prec emax Hprec Hmax mode_NE (bin_of x (proj1 Fx))) as (C1 & C2 & C3).
  rewrite !bin_value, !bin_sign in * by assumption. change (round_mode mode_NE) with ZnearestE in C1.
  assert (F : is_finite (Bsqrt mode_NE (bin_of x (proj1 Fx))) = true).
  { rewrite C2. pose proof (bin_sf x (proj1 Fx)) as B.
    destruct (sf_nonzero x Fx ltac:(lra)) as (m & e & S). rewrite (proj2 (value_sign x Fx) P) in S.
    rewrite S in B. destruct (bin_of x (proj1 Fx)); try discriminate. injection B as -> _ _. reflexivity. }
  pose proof (bin_bits _ F) as (Fy & Vy & Sy). rewrite C1 in Vy.
  pose proof (sqrt_lt_R0 _ P) as Q.
  left. split; [exact (round_large _ _ Fy Vy) |]. split; [exact (nearest_round _ _ Fy Vy) |].
  rewrite Sy, C3 by (apply is_finite_not_nan, F). split; [lra |]. intros _. apply (value_sign x Fx), P.
Qed.

(** ** Special values *)
Lemma fadd_nan x y : double x -> double y -> not_a_number x \/ not_a_number y -> not_a_number (fadd x y).
Proof.
  intros Dx Dy H. apply nan_result. destruct H as [H | H]; apply sf_nan in H; try assumption; rewrite H.
  - reflexivity.
  - destruct (sf_of_bits x); reflexivity.
Qed.
Lemma fsub_nan x y : double x -> double y -> not_a_number x \/ not_a_number y -> not_a_number (fsub x y).
Proof.
  intros Dx Dy H. apply nan_result. destruct H as [H | H]; apply sf_nan in H; try assumption; rewrite H.
  - reflexivity.
  - destruct (sf_of_bits x); reflexivity.
Qed.
Lemma fmul_nan x y : double x -> double y -> not_a_number x \/ not_a_number y -> not_a_number (fmul x y).
Proof.
  intros Dx Dy H. apply nan_result. destruct H as [H | H]; apply sf_nan in H; try assumption; rewrite H.
  - reflexivity.
  - destruct (sf_of_bits x); reflexivity.
Qed.
Lemma fdiv_nan x y : double x -> double y -> not_a_number x \/ not_a_number y -> not_a_number (fdiv x y).
Proof.
  intros Dx Dy H. apply nan_result. destruct H as [H | H]; apply sf_nan in H; try assumption; rewrite H.
  - reflexivity.
  - destruct (sf_of_bits x); reflexivity.
Qed.

Lemma inf_sf x : infinite x -> sf_of_bits x = S754_infinity (negative x).
Proof. intros I. apply sf_inf; [apply I | split; [exact I | reflexivity]]. Qed.
Lemma fin_sf x : finite x ->
  sf_of_bits x = S754_zero (negative x) \/ exists m e, sf_of_bits x = S754_finite (negative x) m e.
Proof.
  intros F. destruct (Req_dec (value x) 0) as [Z | Z]; [left; apply sf_zero; auto | right; apply sf_nonzero; auto].
Qed.

Lemma fadd_inf_l x y : infinite x -> finite y -> fadd x y = x.
Proof.
  intros I F. rewrite (infinite_eq x I) at 2. unfold fadd. rewrite (inf_sf x I).
  destruct (fin_sf y F) as [-> | (m & e & ->)]; apply inf_result; reflexivity.
Qed.
Lemma fadd_inf_r x y : finite x -> infinite y -> fadd x y = y.
Proof.
  intros F I. rewrite (infinite_eq y I) at 2. unfold fadd. rewrite (inf_sf y I).
  destruct (fin_sf x F) as [-> | (m & e & ->)]; apply inf_result; reflexivity.
Qed.
Lemma fadd_inf_same x y : infinite x -> infinite y -> negative x = negative y -> fadd x y = x.
Proof.
  intros I J N. rewrite (infinite_eq x I) at 2. unfold fadd. rewrite (inf_sf x I), (inf_sf y J), <- N.
  apply inf_result. simpl. rewrite Bool.eqb_reflx. reflexivity.
Qed.
Lemma fadd_inf_opp x y : infinite x -> infinite y -> negative x <> negative y -> not_a_number (fadd x y).
Proof.
  intros I J N. unfold fadd. rewrite (inf_sf x I), (inf_sf y J). apply nan_result. simpl.
  apply Bool.eqb_false_iff in N. rewrite N. reflexivity.
Qed.
Lemma fsub_neg x y : double x -> double y -> not_a_number y \/ fsub x y = fadd x (fneg_ y).
Proof.
  intros Dx Dy. destruct (negate_fields y Dy) as (D' & N & X & Fr).
  destruct (classes y Dy) as [F | [I | C]]; [right | right | left; exact C]; unfold fsub, fadd; f_equal.
  - assert (F' : finite (fneg_ y)) by (split; [exact D' | rewrite X; apply F]).
    destruct (fin_sf y F) as [S | (m & e & S)].
    + assert (S' : sf_of_bits (fneg_ y) = S754_zero (negb (negative y))).
      { rewrite <- N. apply sf_zero; [exact F' |]. rewrite (proj2 (negate_value y F)).
        pose proof (sf_value y F) as V. rewrite S in V. simpl in V. lra. }
      rewrite S, S'. destruct (sf_of_bits x) as [s | s | | s mm ee]; try reflexivity;
        destruct s, (negative y); reflexivity.
    + assert (S' : sf_of_bits (fneg_ y) = S754_finite (negb (negative y)) m e).
      { revert S. rewrite (sf_fields y Dy), (sf_fields _ D'), N, X, Fr.
        destruct (exponent y =? 2047); [destruct (fraction y =? 0); discriminate |].
        change (2 ^ 52) with 4503599627370496.
        destruct (exponent y =? 0); [destruct (fraction y) | destruct (fraction y + _)];
          intros H; inversion H; reflexivity. }
      rewrite S, S'. destruct (sf_of_bits x) as [s | s | | s mm ee]; try reflexivity.
      simpl. f_equal. destruct (negative y); simpl; unfold Zminus; f_equal; lia.
  - assert (I' : infinite (fneg_ y)) by (split; [exact D' | rewrite X, Fr; apply I]).
    rewrite (inf_sf y I), (inf_sf _ I'), N.
    destruct (sf_of_bits x) as [s | s | | s mm ee]; try reflexivity; destruct s, (negative y); reflexivity.
Qed.
