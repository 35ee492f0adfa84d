(** Special values, comparisons and conversions against the real numbers. *)
From Coq Require Import ZArith Reals Lia Lra Bool Psatz.
From Coq Require Import Floats.SpecFloat.
From Flocq Require Import Core.Core IEEE754.BinarySingleNaN.
From Verif Require Import Base Flt Spec21 LReal LReal2 LReal3.
Open Scope Z_scope.

Local Instance Hprec : FLX.Prec_gt_0 prec := eq_refl _.
Local Instance Hmax : Prec_lt_emax prec emax := eq_refl _.
Local Instance Hfx : Valid_exp fx := FLT_exp_valid (SpecFloat.emin prec emax) prec.
Local Instance Hfm : Monotone_exp fx := FLT_exp_monotone (SpecFloat.emin prec emax) prec.

(** ** Special values of multiplication, division and square root *)
Definition signed_infinity (s : bool) : Z := if s then minus_infinity else plus_infinity.
Definition signed_zero (s : bool) : Z := if s then minus_zero else plus_zero.

Lemma fmul_inf_l x y : infinite x -> finite y \/ infinite y ->
  if (if Req_EM_T (value y) 0 then negb (exponent y =? 2047) else false)
  then not_a_number (fmul x y)
  else fmul x y = signed_infinity (xorb (negative x) (negative y)).
Proof.
  intros I [F | J].
  - pose proof F as F'. destruct F as [_ F]. apply Z.eqb_neq in F. rewrite F. simpl.
    unfold fmul. rewrite (inf_sf x I). destruct (Req_EM_T (value y) 0) as [Z | Z].
    + rewrite (sf_zero y F' Z). apply nan_result. reflexivity.
    + destruct (sf_nonzero y F' Z) as (m & e & ->). apply inf_result. reflexivity.
  - assert (X : (exponent y =? 2047) = true) by (apply Z.eqb_eq, J). rewrite X.
    destruct (Req_EM_T (value y) 0); unfold fmul; rewrite (inf_sf x I), (inf_sf y J); apply inf_result; reflexivity.
Qed.

Lemma fmul_inf_zero x y : infinite x -> finite y -> value y = 0%R ->
  not_a_number (fmul x y) /\ not_a_number (fmul y x).
Proof.
  intros I F Z. unfold fmul. rewrite (inf_sf x I), (sf_zero y F Z). split; apply nan_result; reflexivity.
Qed.
Lemma fmul_inf_fin x y : infinite x -> finite y -> value y <> 0%R ->
  fmul x y = signed_infinity (xorb (negative x) (negative y)) /\
  fmul y x = signed_infinity (xorb (negative x) (negative y)).
Proof.
  intros I F Z. unfold fmul. rewrite (inf_sf x I). destruct (sf_nonzero y F Z) as (m & e & ->).
  split; apply inf_result; [reflexivity | rewrite xorb_comm; reflexivity].
Qed.
Lemma fmul_inf_inf x y : infinite x -> infinite y ->
  fmul x y = signed_infinity (xorb (negative x) (negative y)).
Proof. intros I J. unfold fmul. rewrite (inf_sf x I), (inf_sf y J). apply inf_result. reflexivity. Qed.

Lemma fdiv_by_zero x y : finite x -> value x <> 0%R -> finite y -> value y = 0%R ->
  fdiv x y = signed_infinity (xorb (negative x) (negative y)).
Proof.
  intros F Z G W. unfold fdiv. destruct (sf_nonzero x F Z) as (m & e & ->). rewrite (sf_zero y G W).
  apply inf_result. reflexivity.
Qed.
Lemma fdiv_zero_zero x y : finite x -> value x = 0%R -> finite y -> value y = 0%R -> not_a_number (fdiv x y).
Proof.
  intros F Z G W. unfold fdiv. rewrite (sf_zero x F Z), (sf_zero y G W). apply nan_result. reflexivity.
Qed.
Lemma fdiv_inf_fin x y : infinite x -> finite y ->
  fdiv x y = signed_infinity (xorb (negative x) (negative y)).
Proof.
  intros I F. unfold fdiv. rewrite (inf_sf x I). destruct (fin_sf y F) as [-> | (m & e & ->)];
    apply inf_result; reflexivity.
Qed.
Lemma fdiv_fin_inf x y : finite x -> infinite y ->
  fdiv x y = signed_zero (xorb (negative x) (negative y)).
Proof.
  intros F I. unfold fdiv. rewrite (inf_sf y I). destruct (fin_sf x F) as [-> | (m & e & ->)];
    apply zero_result; reflexivity.
Qed.
Lemma fdiv_inf_inf x y : infinite x -> infinite y -> not_a_number (fdiv x y).
Proof. intros I J. unfold fdiv. rewrite (inf_sf x I), (inf_sf y J). apply nan_result. reflexivity. Qed.

Lemma fsqrt_zero x : finite x -> value x = 0%R -> fsqrt_ x = x.
Proof.
  intros F Z. assert (X : x = signed_zero (negative x)).
  { destruct (bits_ok _ (sf_valid x (proj1 F))) as [D S]. pose proof (sf_zero x F Z) as Q.
    rewrite (sf_fields x (proj1 F)) in Q. destruct (fields x (proj1 F)) as (H & He & Hf).
    destruct (Z.eqb_spec (exponent x) 2047); [destruct (fraction x =? 0); discriminate |].
    destruct (Z.eqb_spec (exponent x) 0) as [E |].
    - destruct (fraction x) eqn:Fr; try discriminate; [| lia]. rewrite E in H. rewrite H at 1.
      destruct (negative x); reflexivity.
    - change (2 ^ 52) with 4503599627370496 in *. destruct (fraction x + 4503599627370496) eqn:P; try discriminate; lia. }
  unfold fsqrt_. rewrite (sf_zero x F Z). rewrite X at 2. apply zero_result. reflexivity.
Qed.
Lemma fsqrt_neg x : finite x -> (value x < 0)%R -> not_a_number (fsqrt_ x).
Proof.
  intros F N. unfold fsqrt_. destruct (sf_nonzero x F ltac:(lra)) as (m & e & ->).
  rewrite (proj1 (value_sign x F) N). apply nan_result. reflexivity.
Qed.
Lemma fsqrt_inf x : infinite x -> if negative x then not_a_number (fsqrt_ x) else fsqrt_ x = x.
Proof.
  intros I. pose proof (infinite_eq x I) as X. unfold fsqrt_. rewrite (inf_sf x I). destruct (negative x).
  - apply nan_result. reflexivity.
  - rewrite X. exact (inf_result _ false eq_refl).
Qed.
Lemma fsqrt_nan x : not_a_number x -> not_a_number (fsqrt_ x).
Proof. intros N. unfold fsqrt_. apply sf_nan in N; [| apply N]. rewrite N. apply nan_result. reflexivity. Qed.

(** ** Comparisons *)
Lemma flt_fin x y : finite x -> finite y -> flt x y = Rlt_bool (value x) (value y).
Proof.
  intros F G. unfold flt. rewrite <- (bin_sf x (proj1 F)), <- (bin_sf y (proj1 G)).
  rewrite <- (bin_value x (proj1 F) F), <- (bin_value y (proj1 G) G).
  apply (Bltb_correct prec emax); apply bin_finite; assumption.
Qed.
Lemma feq_fin x y : finite x -> finite y -> feq x y = Req_bool (value x) (value y).
Proof.
  intros F G. unfold feq. rewrite <- (bin_sf x (proj1 F)), <- (bin_sf y (proj1 G)).
  rewrite <- (bin_value x (proj1 F) F), <- (bin_value y (proj1 G) G).
  apply (Beqb_correct prec emax); apply bin_finite; assumption.
Qed.

Lemma not_finite_inf x : infinite x -> ~ finite x.
Proof. intros (_ & X & _) [_ F]. contradiction. Qed.
Lemma not_finite_nan x : not_a_number x -> ~ finite x.
Proof. intros (_ & X & _) [_ F]. contradiction. Qed.
Lemma nan_not_inf x : not_a_number x -> ~ infinite x.
Proof. intros (_ & _ & X) (_ & _ & F). contradiction. Qed.

Lemma flt_less x y : double x -> double y -> (flt x y = true <-> less x y).
Proof.
  intros Dx Dy.
  pose proof infinite_plus as [Ip Np]. pose proof infinite_minus as [Im Nm].
  destruct (classes x Dx) as [Fx | [Ix | Cx]].
  - destruct (classes y Dy) as [Fy | [Iy | Cy]].
    + rewrite (flt_fin x y Fx Fy). destruct (Rlt_bool_spec (value x) (value y)) as [L | L].
      * split; auto. intros _. left. auto.
      * split; [discriminate |]. intros [(_ & _ & H) | [(H & _) | (_ & H)]]; [lra | |]; exfalso.
        -- rewrite H in Fx. exact (not_finite_inf _ Im Fx).
        -- rewrite H in Fy. exact (not_finite_inf _ Ip Fy).
    + pose proof (infinite_eq y Iy) as Ey. unfold flt. rewrite (inf_sf y Iy).
      assert (B : SFltb (sf_of_bits x) (S754_infinity (negative y)) = negb (negative y)).
      { destruct (fin_sf x Fx) as [-> | (m & e & ->)]; destruct (negative y); reflexivity. }
      rewrite B. destruct (negative y) eqn:N; simpl; split; auto; try discriminate.
      * intros [(_ & H & _) | [(H & _) | (_ & H)]]; exfalso.
        -- exact (not_finite_inf _ Iy H).
        -- rewrite H in Fx. exact (not_finite_inf _ Im Fx).
        -- rewrite H, Np in N. discriminate.
      * intros _. right; right. auto.
    + unfold flt. pose proof (proj2 (sf_nan y Dy) Cy) as ->.
      assert (B : SFltb (sf_of_bits x) S754_nan = false) by (destruct (sf_of_bits x); reflexivity).
      rewrite B. split; [discriminate |].
      intros [(_ & H & _) | [(_ & [H | H]) | (_ & H)]]; exfalso;
        try (exact (not_finite_nan _ Cy H)); rewrite H in Cy; exact (nan_not_inf _ Cy Ip).
  - pose proof (infinite_eq x Ix) as Ex.
    destruct (classes y Dy) as [Fy | [Iy | Cy]].
    + unfold flt. rewrite (inf_sf x Ix).
      assert (B : SFltb (S754_infinity (negative x)) (sf_of_bits y) = negative x).
      { destruct (fin_sf y Fy) as [-> | (m & e & ->)]; destruct (negative x); reflexivity. }
      rewrite B. destruct (negative x) eqn:N; split; auto; try discriminate.
      * intros _. right; left. auto.
      * intros [(H & _) | [(H & _) | (H & _)]]; exfalso; try exact (not_finite_inf _ Ix H).
        rewrite H, Nm in N. discriminate.
    + pose proof (infinite_eq y Iy) as Ey. unfold flt. rewrite (inf_sf x Ix), (inf_sf y Iy).
      destruct (negative x) eqn:N, (negative y) eqn:M; simpl; split; auto; try discriminate.
      * intros [(H & _) | [(_ & [H | H]) | (H & _)]]; exfalso; try exact (not_finite_inf _ Ix H);
          try exact (not_finite_inf _ Iy H). rewrite H, Np in M. discriminate.
      * intros _. right; left. auto.
      * intros [(H & _) | [(H & _) | (H & _)]]; exfalso; try exact (not_finite_inf _ Ix H).
        rewrite H, Nm in N. discriminate.
      * intros [(H & _) | [(H & _) | (H & _)]]; exfalso; try exact (not_finite_inf _ Ix H).
        rewrite H, Nm in N. discriminate.
    + unfold flt. pose proof (proj2 (sf_nan y Dy) Cy) as ->. rewrite (inf_sf x Ix).
      split; [destruct (negative x); discriminate |].
      intros [(_ & H & _) | [(_ & [H | H]) | (_ & H)]]; exfalso;
        try (exact (not_finite_nan _ Cy H)); rewrite H in Cy; exact (nan_not_inf _ Cy Ip).
  - unfold flt. pose proof (proj2 (sf_nan x Dx) Cx) as ->. split; [discriminate |].
    intros [(H & _) | [(H & _) | (H & _)]]; exfalso; try exact (not_finite_nan _ Cx H).
    rewrite H in Cx. exact (nan_not_inf _ Cx Im).
Qed.

Lemma feq_equal x y : double x -> double y -> (feq x y = true <-> equal x y).
Proof.
  intros Dx Dy. unfold equal.
  destruct (classes x Dx) as [Fx | [Ix | Cx]].
  - destruct (classes y Dy) as [Fy | [Iy | Cy]].
    + rewrite (feq_fin x y Fx Fy). destruct (Req_bool_spec (value x) (value y)) as [L | L].
      * split; auto.
      * split; [discriminate |]. intros [(_ & _ & H) | (H & _)]; [contradiction |].
        exfalso. exact (not_finite_inf _ H Fx).
    + unfold feq. rewrite (inf_sf y Iy).
      split.
      * destruct (fin_sf x Fx) as [-> | (m & e & ->)]; destruct (negative y); discriminate.
      * intros [(_ & H & _) | (H & _)]; exfalso; [exact (not_finite_inf _ Iy H) | exact (not_finite_inf _ H Fx)].
    + unfold feq. pose proof (proj2 (sf_nan y Dy) Cy) as ->. split.
      * destruct (sf_of_bits x) as [s|s| |s m e]; discriminate.
      * intros [(_ & H & _) | (H & _)]; exfalso; [exact (not_finite_nan _ Cy H) | exact (not_finite_inf _ H Fx)].
  - destruct (classes y Dy) as [Fy | [Iy | Cy]].
    + unfold feq. rewrite (inf_sf x Ix). split.
      * destruct (fin_sf y Fy) as [-> | (m & e & ->)]; destruct (negative x); discriminate.
      * intros [(H & _) | (_ & H)]; exfalso; [exact (not_finite_inf _ Ix H) |].
        rewrite <- H in Fy. exact (not_finite_inf _ Ix Fy).
    + unfold feq. pose proof (infinite_eq x Ix) as Ex. pose proof (infinite_eq y Iy) as Ey.
      rewrite (inf_sf x Ix), (inf_sf y Iy). split.
      * destruct (negative x), (negative y); try discriminate; intros _; right; split; auto; congruence.
      * intros [(H & _) | (_ & H)]; [exfalso; exact (not_finite_inf _ Ix H) |].
        rewrite H. destruct (negative y); reflexivity.
    + unfold feq. pose proof (proj2 (sf_nan y Dy) Cy) as ->. rewrite (inf_sf x Ix).
      split; [destruct (negative x); discriminate |].
      intros [(H & _) | (_ & H)]; exfalso; [exact (not_finite_inf _ Ix H) |].
      rewrite <- H in Cy. exact (nan_not_inf _ Cy Ix).
  - unfold feq. pose proof (proj2 (sf_nan x Dx) Cx) as ->. split; [discriminate |].
    intros [(H & _) | (H & _)]; exfalso; [exact (not_finite_nan _ Cx H) | exact (nan_not_inf _ Cx H)].
Qed.

Lemma plus_zero_finite : finite 0 /\ value 0 = 0%R.
Proof.
  split; [split; [split; [discriminate | reflexivity] | discriminate] |].
  rewrite <- sf_value; [reflexivity | split; [split; [discriminate | reflexivity] | discriminate]].
Qed.

(** ** Absolute value, minimum and maximum *)
Lemma fabs_fields x : double x ->
  double (fabs_ x) /\ negative (fabs_ x) = false /\
  exponent (fabs_ x) = exponent x /\ fraction (fabs_ x) = fraction x.
Proof.
  intros D. destruct (fields x D) as (H1 & H2 & H3).
  assert (X : fabs_ x = 0 + exponent x * 2 ^ 52 + fraction x).
  { unfold fabs_. change two63 with (2 ^ 63). rewrite H1 at 1.
    change (2 ^ 52) with 4503599627370496 in *; change (2 ^ 63) with 9223372036854775808 in *.
    symmetry. apply (Z.mod_unique_pos _ _ (if negative x then 1 else 0)); destruct (negative x); lia. }
  rewrite X. apply (fields_of false); auto.
Qed.
Lemma fabs_value x : finite x -> finite (fabs_ x) /\ value (fabs_ x) = Rabs (value x).
Proof.
  intros [D F]. destruct (fabs_fields x D) as (D' & N & X & Fr).
  split; [split; [exact D' | rewrite X; exact F] |].
  pose proof (magnitude_pos x D) as P.
  unfold value. rewrite N. replace (magnitude (fabs_ x)) with (magnitude x) by (unfold magnitude; rewrite X, Fr; reflexivity).
  destruct (negative x); [rewrite Rabs_Ropp |]; rewrite Rabs_pos_eq; auto.
Qed.

Lemma nan_b x : double x -> (f_is_nan x = true <-> not_a_number x).
Proof.
  intros D. unfold f_is_nan. rewrite <- (sf_nan x D). destruct (sf_of_bits x); split; congruence.
Qed.
Lemma fin_not_nan x : finite x -> f_is_nan x = false.
Proof.
  intros F. destruct (f_is_nan x) eqn:N; [| reflexivity]. apply (nan_b x (proj1 F)) in N.
  exfalso. exact (not_finite_nan _ N F).
Qed.

Lemma fmin_fin x y : finite x -> finite y ->
  (fmin_ x y = x \/ fmin_ x y = y) /\ value (fmin_ x y) = Rmin (value x) (value y).
Proof.
  intros F G. unfold fmin_. rewrite (fin_not_nan x F), (fin_not_nan y G), (flt_fin y x G F).
  destruct (Rlt_bool_spec (value y) (value x)) as [L | L]; (split; [auto |]).
  - rewrite Rmin_right; lra.
  - rewrite Rmin_left; lra.
Qed.
Lemma fmax_fin x y : finite x -> finite y ->
  (fmax_ x y = x \/ fmax_ x y = y) /\ value (fmax_ x y) = Rmax (value x) (value y).
Proof.
  intros F G. unfold fmax_. rewrite (fin_not_nan x F), (fin_not_nan y G), (flt_fin x y F G).
  destruct (Rlt_bool_spec (value x) (value y)) as [L | L]; (split; [auto |]).
  - rewrite Rmax_right; lra.
  - rewrite Rmax_left; lra.
Qed.

(** ** Conversions from and to integers *)
Lemma f_of_Z_bin z s : f_of_Z z s =
  bits_of_sf (B2SF (BinarySingleNaN.binary_normalize prec emax Hprec Hmax mode_NE z 0 s)).
Proof. unfold f_of_Z. rewrite normalize_eq. reflexivity. Qed.

Lemma F2R_int z : F2R (Float radix2 z 0) = IZR z.
Proof. unfold F2R; simpl. ring. Qed.

Lemma f_of_Z_rounded z s : rounded (IZR z) (f_of_Z z s).
Proof.
  rewrite f_of_Z_bin. apply rounded_bin.
  pose proof (binary_normalize_correct prec emax Hprec Hmax mode_NE z 0 s) as C. cbv zeta in C.
  rewrite F2R_int in C. change (round_mode mode_NE) with ZnearestE in C. change (bpow radix2 emax) with top in C.
  destruct (Rlt_bool _ _).
  - destruct C as (C1 & C2 & C3). split; [exact C1 | split; [exact C2 |]]. rewrite C3.
    destruct (Rcompare_spec (IZR z) 0); split; intros; auto; lra.
  - exists (Rlt_bool (IZR z) 0). split; [exact C |].
    destruct (Rlt_bool_spec (IZR z) 0); split; intros; auto; lra.
Qed.

Lemma fmt_int z : Z.abs z <= 2 ^ 53 -> fmt (IZR z).
Proof.
  intros H. apply (generic_format_FLT radix2 (SpecFloat.emin prec emax) prec).
  destruct (Z.eq_dec (Z.abs z) (2 ^ 53)) as [E | E].
  - exists (Float radix2 (Z.sgn z) 53); simpl.
    + unfold F2R; simpl Fnum; simpl Fexp. change (bpow radix2 53) with (IZR (2 ^ 53)). rewrite <- mult_IZR. f_equal.
      destruct z; simpl Z.abs in E; simpl Z.sgn; lia.
    + destruct z; reflexivity.
    + discriminate.
  - exists (Float radix2 z 0); simpl.
    + symmetry. apply F2R_int.
    + change (2 ^ prec) with (2 ^ 53). lia.
    + discriminate.
Qed.

Lemma f_of_Z_exact z s : Z.abs z <= 2 ^ 53 -> is_integer (f_of_Z z s) z.
Proof.
  intros H. rewrite f_of_Z_bin.
  pose proof (binary_normalize_correct prec emax Hprec Hmax mode_NE z 0 s) as C. cbv zeta in C.
  rewrite F2R_int in C. rewrite (round_generic radix2 fx (round_mode mode_NE) _ (fmt_int z H)) in C.
  rewrite Rlt_bool_true in C.
  - destruct C as (C1 & C2 & _). destruct (bin_bits _ C2) as (F & V & _). split; [exact F |]. rewrite V. exact C1.
  - rewrite <- abs_IZR. apply Rle_lt_trans with (IZR (2 ^ 53)); [apply IZR_le, H |].
    change (IZR (2 ^ 53)) with (bpow radix2 53). apply bpow_lt. reflexivity.
Qed.

Lemma pow_pos_bpow e : 0 <= e -> IZR (2 ^ e) = bpow radix2 e.
Proof. intros H. rewrite <- (IZR_Zpower radix2) by exact H. reflexivity. Qed.

(** The absolute value of a finite nonzero float, with its exponent *)
Lemma value_parts x s m e : finite x -> sf_of_bits x = S754_finite s m e ->
  value x = (if s then - (IZR (Zpos m) * bpow radix2 e) else IZR (Zpos m) * bpow radix2 e)%R.
Proof.
  intros F S. rewrite <- (sf_value x F), S. simpl SF2R. unfold F2R; simpl Fnum; simpl Fexp.
  destruct s; simpl cond_Zopp; [| reflexivity]. change (Zneg m) with (- Zpos m). rewrite opp_IZR. ring.
Qed.

Lemma div_floor a d : 0 < d ->
  (IZR (a / d) <= IZR a / IZR d < IZR (a / d) + 1)%R.
Proof.
  intros H. pose proof (Z.div_mod a d ltac:(lia)) as E. pose proof (Z.mod_pos_bound a d H) as B.
  apply IZR_lt in H. change (IZR 0) with 0%R in H.
  assert (V : (IZR a / IZR d = IZR (a / d) + IZR (a mod d) / IZR d)%R).
  { rewrite E at 1. rewrite plus_IZR, mult_IZR. field. lra. }
  destruct B as [B1 B2]. apply IZR_le in B1. apply IZR_lt in B2. change (IZR 0) with 0%R in B1.
  rewrite V. split.
  - assert (0 <= IZR (a mod d) / IZR d)%R by (apply Rmult_le_pos; [lra | left; apply Rinv_0_lt_compat; lra]). lra.
  - assert (IZR (a mod d) / IZR d < 1)%R.
    { apply Rmult_lt_reg_r with (IZR d); [lra |]. unfold Rdiv. rewrite Rmult_assoc, Rinv_l by lra. lra. }
    lra.
Qed.

Lemma scale_neg m e : e < 0 -> (IZR m * bpow radix2 e = IZR m / IZR (2 ^ (- e)))%R.
Proof.
  intros H. rewrite (pow_pos_bpow (- e)) by lia. rewrite (bpow_opp radix2 e). unfold Rdiv. rewrite Rinv_inv.
  reflexivity.
Qed.

Lemma pow_ge2 e : e < 0 -> 2 <= 2 ^ (- e).
Proof. intros H. change 2 with (2 ^ 1) at 1. apply Z.pow_le_mono_r; lia. Qed.

Lemma valid_bound x s m e : finite x -> sf_of_bits x = S754_finite s m e -> Zpos m < 2 ^ 53.
Proof.
  intros F S. pose proof (sf_valid x (proj1 F)) as V. rewrite S in V. simpl in V.
  destruct (bounded_inv m e V) as [[H _] | [[_ H] _]]; [| exact H].
  eapply Z.lt_trans; [exact H | reflexivity].
Qed.

Lemma floor_bounds m e : e < 0 ->
  let r := (IZR (Zpos m) * bpow radix2 e)%R in
  (IZR (floor_pos m e) <= r < IZR (floor_pos m e) + 1)%R /\ 0 <= floor_pos m e <= Zpos m.
Proof.
  intros H r. pose proof (pow_ge2 e H) as P. unfold r. rewrite scale_neg by exact H. unfold floor_pos. split.
  - apply div_floor. lia.
  - split; [apply Z.div_pos; lia | apply Z.div_le_upper_bound; nia].
Qed.
Lemma ceil_bounds m e : e < 0 ->
  let r := (IZR (Zpos m) * bpow radix2 e)%R in
  (IZR (ceil_pos m e) - 1 < r <= IZR (ceil_pos m e))%R /\ 0 <= ceil_pos m e <= Zpos m.
Proof.
  intros H r. pose proof (pow_ge2 e H) as P. unfold r. rewrite scale_neg by exact H. unfold ceil_pos. split.
  - pose proof (div_floor (- Zpos m) (2 ^ (- e)) ltac:(lia)) as D.
    rewrite opp_IZR. rewrite (opp_IZR (Zpos m)) in D. unfold Rdiv in *. lra.
  - assert (- Zpos m <= - Zpos m / 2 ^ (- e)) by (apply Z.div_le_lower_bound; nia).
    assert (- Zpos m / 2 ^ (- e) < 0) by (apply Z.div_lt_upper_bound; lia). lia.
Qed.
Lemma round_bounds m e : e < 0 ->
  let r := (IZR (Zpos m) * bpow radix2 e)%R in
  (IZR (round_pos m e) - / 2 <= r < IZR (round_pos m e) + / 2)%R /\ 0 <= round_pos m e <= Zpos m.
Proof.
  intros H r. pose proof (pow_ge2 e H) as P. unfold r. rewrite scale_neg by exact H. unfold round_pos. split.
  - pose proof (div_floor (2 * Zpos m + 2 ^ (- e)) (2 * 2 ^ (- e)) ltac:(lia)) as D.
    rewrite plus_IZR, !mult_IZR in D.
    assert (0 < IZR (2 ^ (- e)))%R as Q by (apply (IZR_lt 0); lia).
    replace ((2 * IZR (Zpos m) + IZR (2 ^ (- e))) / (2 * IZR (2 ^ (- e))))%R
      with (IZR (Zpos m) / IZR (2 ^ (- e)) + / 2)%R in D by (field; lra).
    rewrite <- (plus_IZR (2 * Zpos m)) in D || idtac. lra.
  - split; [apply Z.div_pos; lia |]. apply Z.div_le_upper_bound; nia.
Qed.

Lemma integer_when_large x s m e : finite x -> sf_of_bits x = S754_finite s m e -> 0 <= e ->
  value x = IZR (if s then - (Zpos m * 2 ^ e) else Zpos m * 2 ^ e).
Proof.
  intros F S H. rewrite (value_parts x s m e F S), <- (pow_pos_bpow e H).
  destruct s; rewrite ?opp_IZR, mult_IZR; reflexivity.
Qed.

Lemma f_round_cases (up : bool -> positive -> Z -> Z) (rel : R -> Z -> Prop) :
  (forall n, rel (IZR n) n) ->
  (forall (s : bool) m e, e < 0 -> 0 <= up s m e <= Zpos m /\
     let r := (IZR (Zpos m) * bpow radix2 e)%R in
     rel (if s then - r else r)%R (if s then - up s m e else up s m e)) ->
  forall x, finite x -> exists n, rel (value x) n /\ is_integer (f_round_with up x) n.
Proof.
  intros Rint Rup x F. unfold f_round_with.
  destruct (fin_sf x F) as [S | (m & e & S)]; rewrite S.
  - pose proof (sf_value x F) as V. rewrite S in V. simpl in V.
    exists 0. split; [rewrite <- V; apply (Rint 0) | split; [exact F | rewrite <- V; reflexivity]].
  - destruct (Z.leb_spec 0 e) as [H | H].
    + pose proof (integer_when_large x _ m e F S H) as V.
      eexists. split; [rewrite V; apply Rint | split; [exact F | exact V]].
    + destruct (Rup (negative x) m e H) as [B Q]. cbv zeta in Q.
      exists (if negative x then - up (negative x) m e else up (negative x) m e). split.
      * rewrite (value_parts x _ m e F S). exact Q.
      * apply f_of_Z_exact. pose proof (valid_bound x _ m e F S) as VB. destruct (negative x); lia.
Qed.

Lemma ffloor_fin x : finite x -> exists n, (IZR n <= value x < IZR n + 1)%R /\ is_integer (ffloor x) n.
Proof.
  apply (f_round_cases _ (fun r n => (IZR n <= r < IZR n + 1)%R)).
  - intros n. lra.
  - intros s m e H. destruct s; simpl.
    + destruct (ceil_bounds m e H) as [C1 C2]. split; [exact C2 |]. rewrite opp_IZR. cbv zeta in C1. lra.
    + destruct (floor_bounds m e H) as [C1 C2]. split; [exact C2 | exact C1].
Qed.
Lemma fceil_fin x : finite x -> exists n, (IZR n - 1 < value x <= IZR n)%R /\ is_integer (fceil_ x) n.
Proof.
  apply (f_round_cases _ (fun r n => (IZR n - 1 < r <= IZR n)%R)).
  - intros n. lra.
  - intros s m e H. destruct s; simpl.
    + destruct (floor_bounds m e H) as [C1 C2]. split; [exact C2 |]. rewrite opp_IZR. cbv zeta in C1. lra.
    + destruct (ceil_bounds m e H) as [C1 C2]. split; [exact C2 | exact C1].
Qed.
Lemma fround_fin x : finite x -> exists n, nearest_integer (value x) n /\ is_integer (fround_ x) n.
Proof.
  apply (f_round_cases _ nearest_integer).
  - intros n. unfold nearest_integer. replace (IZR n - IZR n)%R with 0%R by ring. rewrite Rabs_R0. split; lra.
  - intros s m e H. destruct (round_bounds m e H) as [C1 C2]. cbv zeta in C1. split; [exact C2 |].
    assert (P : (0 <= IZR (Zpos m) * bpow radix2 e)%R).
    { apply Rmult_le_pos; [apply (IZR_le 0); lia | apply bpow_ge_0]. }
    assert (P2 : (0 <= IZR (round_pos m e))%R) by (apply (IZR_le 0); lia).
    set (r := (IZR (Zpos m) * bpow radix2 e)%R) in *. set (a := IZR (round_pos m e)) in *.
    assert (K : (Rabs (a - r) <= / 2 /\ (Rabs (a - r) = / 2 -> r < a))%R).
    { split; [apply Rabs_le; lra |]. destruct (Rle_lt_dec a r) as [L | L]; [| auto].
      rewrite Rabs_left1 by lra. intros. lra. }
    unfold nearest_integer. destruct s; cbv iota zeta; rewrite ?opp_IZR; fold a.
    + replace (- a - - r)%R with (- (a - r))%R by ring. rewrite !Rabs_Ropp, (Rabs_pos_eq r), (Rabs_pos_eq a) by auto.
      exact K.
    + rewrite (Rabs_pos_eq r), (Rabs_pos_eq a) by auto. exact K.
Qed.

Lemma f_round_other up x : double x -> ~ finite x ->
  (infinite x -> f_round_with up x = x) /\ (not_a_number x -> not_a_number (f_round_with up x)).
Proof.
  intros D NF. unfold f_round_with. split.
  - intros I. rewrite (inf_sf x I). reflexivity.
  - intros C. pose proof (proj2 (sf_nan x D) C) as ->.
    split; [split; [discriminate | reflexivity] | split; [reflexivity | discriminate]].
Qed.

Lemma f_to_i64_fin x : finite x ->
  exists n, truncated (value x) n /\ f_to_i64 x = Z.max imin (Z.min imax n).
Proof.
  intros F. unfold f_to_i64. destruct (fin_sf x F) as [S | (m & e & S)]; rewrite S.
  - pose proof (sf_value x F) as V. rewrite S in V. simpl in V. exists 0. rewrite <- V.
    split; [split; intros; lra | reflexivity].
  - assert (Pr : (0 < IZR (Zpos m) * bpow radix2 e)%R).
    { apply Rmult_lt_0_compat; [apply (IZR_lt 0); lia | apply bpow_gt_0]. }
    exists (let a := if 0 <=? e then Zpos m * 2 ^ e else floor_pos m e in if negative x then - a else a).
    destruct (Z.leb_spec 0 e) as [H | H]; cbv zeta.
    + split.
      * pose proof (integer_when_large x _ m e F S H) as V. rewrite V. split; intros; lra.
      * assert (0 <= Zpos m * 2 ^ e) by (apply Z.mul_nonneg_nonneg; [lia | apply Z.pow_nonneg; lia]).
        change imin with (-9223372036854775808) in *; change imax with 9223372036854775807 in *.
        destruct (negative x); lia.
    + destruct (floor_bounds m e H) as [C1 C2]. cbv zeta in C1. split.
      * unfold truncated. rewrite (value_parts x _ m e F S). destruct (negative x); rewrite ?opp_IZR; split; intros; lra.
      * change imin with (-9223372036854775808) in *; change imax with 9223372036854775807 in *.
        destruct (negative x); lia.
Qed.
