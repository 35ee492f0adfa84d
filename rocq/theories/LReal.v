(** Bit patterns, SpecFloat and Flocq: the float operations of the model are
    correctly rounded. *)
From Coq Require Import ZArith Reals Lia Lra Bool Psatz.
From Coq Require Import Floats.SpecFloat.
From Flocq Require Import Core.Core IEEE754.BinarySingleNaN.
From Verif Require Import Base Flt Spec21.
Open Scope Z_scope.

Local Instance Hprec : FLX.Prec_gt_0 prec := eq_refl _.
Local Instance Hmax : Prec_lt_emax prec emax := eq_refl _.

Notation bin := (binary_float prec emax).
Notation valid := (valid_binary prec emax).
Notation fx := (SpecFloat.fexp prec emax).

(** ** Patterns and fields *)
Lemma two52_eq : two52 = 2 ^ 52. Proof. reflexivity. Qed.
Lemma two63_eq : two63 = 2 ^ 63. Proof. reflexivity. Qed.

Lemma fields x : double x ->
  x = (if negative x then 2 ^ 63 else 0) + exponent x * 2 ^ 52 + fraction x /\
  0 <= exponent x < 2048 /\ 0 <= fraction x < 2 ^ 52.
Proof.
  unfold double, negative, exponent, fraction; intros H.
  pose proof (Z.mod_pos_bound x (2 ^ 52) eq_refl) as H1.
  pose proof (Z.mod_pos_bound (x / 2 ^ 52) (2 ^ 11) eq_refl) as H2.
  pose proof (Z.div_mod x (2 ^ 52) ltac:(discriminate)) as H3.
  pose proof (Z.div_mod (x / 2 ^ 52) (2 ^ 11) ltac:(discriminate)) as H4.
  change (2 ^ 52) with 4503599627370496 in *; change (2 ^ 11) with 2048 in *.
  change (2 ^ 63) with 9223372036854775808 in *; change (2 ^ 64) with 18446744073709551616 in *.
  destruct (Z.leb_spec 9223372036854775808 x); lia.
Qed.

Lemma fields_of s e m : 0 <= e < 2048 -> 0 <= m < 2 ^ 52 ->
  let x := (if (s : bool) then 2 ^ 63 else 0) + e * 2 ^ 52 + m in
  double x /\ negative x = s /\ exponent x = e /\ fraction x = m.
Proof.
  intros He Hm x.
  assert (D : double x).
  { unfold double, x. change (2 ^ 52) with 4503599627370496 in *.
    change (2 ^ 63) with 9223372036854775808 in *; change (2 ^ 64) with 18446744073709551616 in *.
    destruct s; lia. }
  destruct (fields x D) as (H1 & H2 & H3).
  unfold x in H1 at 1.
  assert (N : negative x = s).
  { unfold negative, x. change (2 ^ 52) with 4503599627370496 in *.
    change (2 ^ 63) with 9223372036854775808 in *.
    destruct s; [apply Z.leb_le | apply Z.leb_gt]; lia. }
  rewrite N in H1.
  change (2 ^ 52) with 4503599627370496 in *; change (2 ^ 63) with 9223372036854775808 in *.
  repeat split; auto; try (apply D); destruct s; lia.
Qed.

Lemma sf_fields x : double x ->
  sf_of_bits x =
  if exponent x =? 2047 then (if fraction x =? 0 then S754_infinity (negative x) else S754_nan)
  else if exponent x =? 0 then
    (match fraction x with Zpos p => S754_finite (negative x) p (-1074) | _ => S754_zero (negative x) end)
  else match fraction x + 2 ^ 52 with
       | Zpos p => S754_finite (negative x) p (exponent x - 1075) | _ => S754_zero (negative x) end.
Proof. reflexivity. Qed.

Lemma zdigits_lo m : 2 ^ 52 <= Zpos m < 2 ^ 53 -> Zpos (SpecFloat.digits2_pos m) = 53.
Proof.
  intros H. rewrite Digits.Zpos_digits2_pos.
  apply Digits.Zdigits_unique. simpl Z.sub. rewrite Z.abs_eq by lia. exact H.
Qed.

Lemma zdigits_le m : Zpos m < 2 ^ 52 -> Zpos (SpecFloat.digits2_pos m) <= 52.
Proof.
  intros H. rewrite Digits.Zpos_digits2_pos.
  apply Digits.Zdigits_le_Zpower. rewrite Z.abs_eq by lia. exact H.
Qed.

Lemma zdigits_bound m n : 0 <= n -> Zpos (SpecFloat.digits2_pos m) <= n -> Zpos m < 2 ^ n.
Proof.
  intros Hn H. rewrite Digits.Zpos_digits2_pos in H.
  pose proof (Digits.Zdigits_correct radix2 (Zpos m)) as [_ C].
  rewrite Z.abs_eq in C by lia.
  eapply Z.lt_le_trans; [exact C | apply Z.pow_le_mono_r; lia].
Qed.

Lemma zdigits_ge m : Zpos (SpecFloat.digits2_pos m) = 53 -> 2 ^ 52 <= Zpos m.
Proof.
  intros H. rewrite Digits.Zpos_digits2_pos in H.
  pose proof (Digits.Zdigits_correct radix2 (Zpos m)) as [C _].
  rewrite Z.abs_eq in C by lia. rewrite H in C. exact C.
Qed.

Lemma bounded_norm m e : 2 ^ 52 <= Zpos m < 2 ^ 53 -> -1074 <= e <= 971 -> bounded prec emax m e = true.
Proof.
  intros H He. unfold bounded, canonical_mantissa.
  rewrite (zdigits_lo m H). unfold fexp, emin, prec, emax.
  apply andb_true_intro; split; [apply Zeq_bool_true; lia | apply Zle_bool_true; lia].
Qed.

Lemma bounded_sub m : Zpos m < 2 ^ 52 -> bounded prec emax m (-1074) = true.
Proof.
  intros H. pose proof (zdigits_le m H). unfold bounded, canonical_mantissa.
  unfold fexp, emin, prec, emax.
  apply andb_true_intro; split; [apply Zeq_bool_true; lia | apply Zle_bool_true; lia].
Qed.

Lemma bounded_inv m e : bounded prec emax m e = true ->
  (Zpos m < 2 ^ 52 /\ e = -1074) \/ (2 ^ 52 <= Zpos m < 2 ^ 53 /\ -1074 <= e <= 971).
Proof.
  unfold bounded, canonical_mantissa. intros H. apply andb_prop in H as [H1 H2].
  apply Zeq_bool_eq in H1. apply Zle_bool_imp_le in H2.
  unfold fexp, emin, prec, emax in *.
  destruct (Z.le_gt_cases (Zpos (SpecFloat.digits2_pos m)) 52) as [L | L].
  - left. split; [apply (zdigits_bound m 52); lia | lia].
  - right. assert (Zpos (SpecFloat.digits2_pos m) = 53) as D by lia.
    split; [split; [apply zdigits_ge; exact D | apply (zdigits_bound m 53); lia] | lia].
Qed.

(** ** From patterns to SpecFloat *)
Lemma sf_valid x : double x -> valid (sf_of_bits x) = true.
Proof.
  intros D. destruct (fields x D) as (_ & He & Hf). rewrite (sf_fields x D).
  destruct (Z.eqb_spec (exponent x) 2047); [destruct (Z.eqb_spec (fraction x) 0); reflexivity |].
  destruct (Z.eqb_spec (exponent x) 0).
  - destruct (fraction x) eqn:F; try reflexivity. apply bounded_sub; lia.
  - change (2 ^ 52) with 4503599627370496 in *.
    destruct (fraction x + 4503599627370496) eqn:F; try reflexivity.
    apply bounded_norm; change (2 ^ 52) with 4503599627370496; change (2 ^ 53) with 9007199254740992; lia.
Qed.

Lemma bpow2 e : bpow radix2 e = powerRZ 2 e.
Proof. rewrite bpow_powerRZ. reflexivity. Qed.

Lemma sf_value x : finite x -> SF2R radix2 (sf_of_bits x) = value x.
Proof.
  intros [D Fe]. destruct (fields x D) as (_ & He & Hf). rewrite (sf_fields x D).
  unfold value, magnitude.
  destruct (Z.eqb_spec (exponent x) 2047); [contradiction |].
  destruct (Z.eqb_spec (exponent x) 0).
  - destruct (fraction x) eqn:F; try lia; destruct (negative x); simpl SF2R; unfold F2R; simpl Fnum; simpl Fexp;
      rewrite ?bpow2; simpl cond_Zopp; rewrite ?(opp_IZR (Zpos p)); try ring.
    change (Zneg p) with (- Zpos p). rewrite opp_IZR. ring.
  - rewrite (Z.add_comm (2 ^ 52)). change (2 ^ 52) with 4503599627370496 in *.
    destruct (fraction x + 4503599627370496) eqn:F; try lia.
    destruct (negative x); simpl SF2R; unfold F2R; simpl Fnum; simpl Fexp; rewrite ?bpow2; simpl cond_Zopp; try ring.
    change (Zneg p) with (- Zpos p). rewrite opp_IZR. ring.
Qed.

Lemma sf_finite x : double x -> is_finite_SF (sf_of_bits x) = negb (exponent x =? 2047).
Proof.
  intros D. destruct (fields x D) as (_ & He & Hf). rewrite (sf_fields x D).
  destruct (Z.eqb_spec (exponent x) 2047); [destruct (Z.eqb_spec (fraction x) 0); reflexivity |].
  destruct (Z.eqb_spec (exponent x) 0).
  - destruct (fraction x) eqn:F; reflexivity.
  - change (2 ^ 52) with 4503599627370496 in *.
    destruct (fraction x + 4503599627370496) eqn:F; reflexivity.
Qed.

Lemma sf_sign x : finite x -> sign_SF (sf_of_bits x) = negative x.
Proof.
  intros [D Fe]. destruct (fields x D) as (_ & He & Hf). rewrite (sf_fields x D).
  destruct (Z.eqb_spec (exponent x) 2047); [contradiction |].
  destruct (Z.eqb_spec (exponent x) 0).
  - destruct (fraction x) eqn:F; reflexivity.
  - change (2 ^ 52) with 4503599627370496 in *.
    destruct (fraction x + 4503599627370496) eqn:F; reflexivity.
Qed.

(** ** From SpecFloat to patterns *)
Lemma bits_fields f : valid f = true ->
  match f with
  | S754_zero s => bits_of_sf f = (if s then 2 ^ 63 else 0) + 0 * 2 ^ 52 + 0
  | S754_infinity s => bits_of_sf f = (if s then 2 ^ 63 else 0) + 2047 * 2 ^ 52 + 0
  | S754_nan => bits_of_sf f = 0 + 2047 * 2 ^ 52 + 2 ^ 51
  | S754_finite s m e =>
    (Zpos m < 2 ^ 52 /\ e = -1074 /\ bits_of_sf f = (if s then 2 ^ 63 else 0) + 0 * 2 ^ 52 + Zpos m) \/
    (2 ^ 52 <= Zpos m < 2 ^ 53 /\ -1074 <= e <= 971 /\
     bits_of_sf f = (if s then 2 ^ 63 else 0) + (e + 1075) * 2 ^ 52 + (Zpos m - 2 ^ 52))
  end.
Proof.
  destruct f as [s | s | | s m e]; intros H; try (destruct s; reflexivity); try reflexivity.
  simpl in H. destruct (bounded_inv m e H) as [[H1 H2] | [H1 H2]].
  - left. split; [exact H1 | split; [exact H2 |]]. unfold bits_of_sf.
    change two52 with (2 ^ 52). rewrite (proj2 (Z.ltb_lt _ _) H1). change two63 with (2 ^ 63). destruct s; lia.
  - right. split; [exact H1 | split; [exact H2 |]]. unfold bits_of_sf.
    change two52 with (2 ^ 52). rewrite (proj2 (Z.ltb_ge _ _) (proj1 H1)). change two63 with (2 ^ 63). reflexivity.
Qed.

Lemma bits_ok f : valid f = true ->
  double (bits_of_sf f) /\ sf_of_bits (bits_of_sf f) = f.
Proof.
  intros H. pose proof (bits_fields f H) as B. destruct f as [s | s | | s m e].
  - destruct (fields_of s 0 0 ltac:(lia) ltac:(lia)) as (D & N & X & F). rewrite <- B in *.
    split; [exact D |]. rewrite (sf_fields _ D), N, X, F. reflexivity.
  - destruct (fields_of s 2047 0 ltac:(lia) ltac:(lia)) as (D & N & X & F). rewrite <- B in *.
    split; [exact D |]. rewrite (sf_fields _ D), N, X, F. reflexivity.
  - split; [split; [discriminate | reflexivity] | reflexivity].
  - destruct B as [(H1 & H2 & B) | (H1 & H2 & B)].
    + destruct (fields_of s 0 (Zpos m) ltac:(lia) ltac:(lia)) as (D & N & X & F). rewrite <- B in *.
      split; [exact D |]. rewrite (sf_fields _ D), N, X, F, H2. reflexivity.
    + destruct (fields_of s (e + 1075) (Zpos m - 2 ^ 52) ltac:(lia)
                  ltac:(change (2 ^ 53) with (2 * 2 ^ 52) in H1; lia)) as (D & N & X & F). rewrite <- B in *.
      split; [exact D |]. rewrite (sf_fields _ D), N, X, F.
      destruct (Z.eqb_spec (e + 1075) 2047); [lia |]. destruct (Z.eqb_spec (e + 1075) 0); [lia |].
      replace (Zpos m - 2 ^ 52 + 2 ^ 52) with (Zpos m) by lia. f_equal. lia.
Qed.

(** ** SpecFloat and Flocq *)
Lemma round_ne s m l : round_nearest_even m l = choice_mode mode_NE s m l.
Proof.
  case l; [reflexivity | intro c]. case c; [| reflexivity ..].
  now simpl; unfold Round.cond_incr; case Z.even.
Qed.

Lemma round_aux sx mx ex lx :
  SpecFloat.binary_round_aux prec emax sx mx ex lx
  = BinarySingleNaN.binary_round_aux prec emax mode_NE sx mx ex lx.
Proof.
  unfold SpecFloat.binary_round_aux, BinarySingleNaN.binary_round_aux.
  set (mrse' := shr_fexp _ _ _ _ _). case mrse'; intros mrs' e'; simpl.
  now rewrite (round_ne sx).
Qed.

Lemma round_eq s m e :
  SpecFloat.binary_round prec emax s m e = BinarySingleNaN.binary_round prec emax mode_NE s m e.
Proof.
  unfold SpecFloat.binary_round, BinarySingleNaN.binary_round, shl_align_fexp.
  set (mez := shl_align _ _ _); case mez as [mz ez]. apply round_aux.
Qed.

Lemma normalize_eq m e szero :
  SpecFloat.binary_normalize prec emax m e szero
  = B2SF (BinarySingleNaN.binary_normalize prec emax Hprec Hmax mode_NE m e szero).
Proof.
  case m as [| p | p]; [now simpl | ..]; simpl; rewrite B2SF_SF2B; apply round_eq.
Qed.

Lemma add_eq (x y : bin) : SFadd prec emax (B2SF x) (B2SF y) = B2SF (Bplus mode_NE x y).
Proof.
  case x as [sx | sx | | sx mx ex Bx]; case y as [sy | sy | | sy my ey By];
    [now (trivial || simpl; case Bool.eqb) .. |].
  apply normalize_eq.
Qed.

Lemma sub_eq (x y : bin) : SFsub prec emax (B2SF x) (B2SF y) = B2SF (Bminus mode_NE x y).
Proof.
  case x as [sx | sx | | sx mx ex Bx]; case y as [sy | sy | | sy my ey By];
    [now (trivial || simpl; case Bool.eqb) .. |].
  simpl. unfold Zminus. rewrite <- cond_Zopp_negb. apply normalize_eq.
Qed.

Lemma mul_eq (x y : bin) : SFmul prec emax (B2SF x) (B2SF y) = B2SF (Bmult mode_NE x y).
Proof.
  case x as [sx | sx | | sx mx ex Bx]; case y as [sy | sy | | sy my ey By]; [now trivial .. |].
  simpl. rewrite B2SF_SF2B. apply round_aux.
Qed.

Lemma div_eq (x y : bin) : SFdiv prec emax (B2SF x) (B2SF y) = B2SF (Bdiv mode_NE x y).
Proof.
  case x as [sx | sx | | sx mx ex Bx]; case y as [sy | sy | | sy my ey By];
    [now (trivial || simpl; case Bool.eqb) .. |].
  simpl. rewrite B2SF_SF2B. set (melz := SFdiv_core_binary _ _ _ _ _ _).
  case melz as [[mz ez] lz]. apply round_aux.
Qed.

Lemma sqrt_eq (x : bin) : SFsqrt prec emax (B2SF x) = B2SF (Bsqrt mode_NE x).
Proof.
  case x as [sx | sx | | sx mx ex Bx]; [now (trivial || case sx) .. |].
  case sx; [reflexivity |]. simpl. rewrite B2SF_SF2B. set (melz := SFsqrt_core_binary _ _ _ _).
  case melz as [[mz ez] lz]. apply round_aux.
Qed.
