(** The float operations of the model are correctly rounded. *)
From Coq Require Import ZArith Reals Lia Lra Bool Psatz.
From Coq Require Import Floats.SpecFloat.
From Flocq Require Import Core.Core IEEE754.BinarySingleNaN.
From Verif Require Import Base Flt Spec21 LReal.
Open Scope Z_scope.

Local Instance Hprec : FLX.Prec_gt_0 prec := eq_refl _.
Local Instance Hmax : Prec_lt_emax prec emax := eq_refl _.
Local Instance Hfx : Valid_exp fx := FLT_exp_valid (SpecFloat.emin prec emax) prec.
Local Instance Hfm : Monotone_exp fx := FLT_exp_monotone (SpecFloat.emin prec emax) prec.
Local Instance Hne : Exists_NE radix2 fx.
Proof. right. intros e. unfold fexp, emin, prec, emax. lia. Qed.

Notation fmt := (generic_format radix2 fx).
Notation rnd := (round radix2 fx ZnearestE).

Definition bin_of (x : Z) (D : double x) : bin := SF2B (sf_of_bits x) (sf_valid x D).

Lemma bin_sf x D : B2SF (bin_of x D) = sf_of_bits x.
Proof. apply B2SF_SF2B. Qed.
Lemma bin_value x D : finite x -> B2R (bin_of x D) = value x.
Proof. intros F. unfold bin_of. rewrite B2R_SF2B. apply sf_value, F. Qed.
Lemma bin_finite x D : finite x -> is_finite (bin_of x D) = true.
Proof.
  intros [_ F]. unfold bin_of. rewrite is_finite_SF2B, sf_finite by exact D.
  destruct (Z.eqb_spec (exponent x) 2047); [contradiction | reflexivity].
Qed.
Lemma bin_sign x D : finite x -> Bsign (bin_of x D) = negative x.
Proof. intros F. unfold bin_of. rewrite Bsign_SF2B. apply sf_sign, F. Qed.

Lemma fmt_value z : finite z -> fmt (value z).
Proof.
  intros F. rewrite <- (bin_value z (proj1 F) F). apply generic_format_B2R.
Qed.

(** The pattern of a finite Flocq number *)
Lemma bin_bits (q : bin) : is_finite q = true ->
  let y := bits_of_sf (B2SF q) in finite y /\ value y = B2R q /\ negative y = Bsign q.
Proof.
  intros F y. pose proof (bits_ok _ (valid_binary_B2SF prec emax q)) as [D S]. fold y in D, S.
  assert (Fy : finite y).
  { split; [exact D |]. intros X. pose proof (sf_finite y D) as Y. rewrite X, S in Y.
    rewrite is_finite_SF_B2SF, F in Y. discriminate. }
  split; [exact Fy |]. split.
  - rewrite <- (sf_value y Fy), S. apply SF2R_B2SF.
  - rewrite <- (sf_sign y Fy), S. destruct q; reflexivity.
Qed.

(** The last bit of a pattern is the last bit of the canonical mantissa *)
Lemma even_pattern y g : finite y -> value y = F2R g -> canonical radix2 fx g ->
  Z.even (Fnum g) = Z.even y.
Proof.
  intros Fy V C. destruct (fields y (proj1 Fy)) as (Y & He & Hf).
  assert (Ev : Z.even y = Z.even (fraction y)).
  { rewrite Y at 1. destruct (negative y); rewrite !Z.even_add, Z.even_mul; simpl;
      destruct (Z.even (exponent y)), (Z.even (fraction y)); reflexivity. }
  rewrite Ev. rewrite <- (sf_value y Fy) in V. rewrite (sf_fields y (proj1 Fy)) in V.
  pose proof (sf_valid y (proj1 Fy)) as Vd. rewrite (sf_fields y (proj1 Fy)) in Vd.
  destruct Fy as [_ Fe].
  destruct (Z.eqb_spec (exponent y) 2047) as [| _]; [contradiction |].
  assert (Z0 : forall s, SF2R radix2 (S754_zero s) = F2R g -> Z.even (Fnum g) = true).
  { intros s H. simpl in H. symmetry in H. apply eq_0_F2R in H. rewrite H. reflexivity. }
  assert (Zp : forall s p e, bounded prec emax p e = true ->
             SF2R radix2 (S754_finite s p e) = F2R g -> Z.even (Fnum g) = Z.even (Zpos p)).
  { intros s p e B H. simpl in H.
    pose proof (canonical_bounded prec emax s p e B) as C2.
    pose proof (canonical_unique radix2 fx _ _ C2 C H) as U. rewrite <- U. simpl.
    destruct s; reflexivity. }
  destruct (Z.eqb_spec (exponent y) 0).
  - destruct (fraction y) eqn:F; try lia.
    + rewrite (Z0 _ V). reflexivity.
    + rewrite (Zp _ _ _ Vd V). reflexivity.
  - change (2 ^ 52) with 4503599627370496 in *.
    destruct (fraction y + 4503599627370496) eqn:F; try lia.
    rewrite (Zp _ _ _ Vd V). rewrite <- F, Z.even_add. destruct (Z.even (fraction y)); reflexivity.
Qed.

(** Rounding to nearest even gives the nearest pattern *)
Lemma nearest_round r y : finite y -> value y = rnd r -> nearest r y.
Proof.
  intros Fy V. pose proof (round_NE_pt radix2 fx r) as [N T]. rewrite <- V in N, T.
  split; [exact Fy |]. split.
  - intros z Fz. apply N. apply fmt_value, Fz.
  - intros z Fz Eq Ne. destruct T as [(g & G1 & G2 & G3) | U].
    + rewrite <- (even_pattern y g Fy G1 G2). exact G3.
    + exfalso. apply Ne, U. split; [apply fmt_value, Fz |]. intros h Hh. rewrite Eq. apply N, Hh.
Qed.

Notation top := (bpow radix2 1024).
Definition big : R := (bpow radix2 1024 - bpow radix2 971)%R.

Lemma bpow_971 : bpow radix2 971 = (2 * bpow radix2 970)%R.
Proof. change 971%Z with (1 + 970)%Z. rewrite bpow_plus. reflexivity. Qed.
Lemma bpow_1024 : bpow radix2 1024 = (18014398509481984 * bpow radix2 970)%R.
Proof. change 1024%Z with (54 + 970)%Z. rewrite bpow_plus. reflexivity. Qed.
Lemma bpow_970_pos : (0 < bpow radix2 970)%R. Proof. apply bpow_gt_0. Qed.
Lemma too_large_eq : too_large = (bpow radix2 1024 - bpow radix2 970)%R.
Proof. unfold too_large. rewrite !bpow2. reflexivity. Qed.

Lemma canonical_big : canonical radix2 fx (Float radix2 9007199254740991 971).
Proof. apply (canonical_bounded prec emax false 9007199254740991 971). reflexivity. Qed.
Lemma big_eq : big = F2R (Float radix2 9007199254740991 971).
Proof. unfold big, F2R; simpl Fnum; simpl Fexp. rewrite bpow_1024, bpow_971. ring. Qed.
Lemma fmt_big : fmt big.
Proof. rewrite big_eq. apply generic_format_canonical, canonical_big. Qed.
Lemma fmt_top : fmt top.
Proof. apply generic_format_bpow. unfold fexp, emin, prec, emax. lia. Qed.

Lemma value_le_big y : finite y -> (Rabs (value y) <= big)%R.
Proof.
  intros F. rewrite <- (bin_value y (proj1 F) F). apply (abs_B2R_le_emax_minus_prec prec emax).
  reflexivity.
Qed.

Lemma round_small_pos r : (0 <= r < too_large)%R -> (Rabs (rnd r) < top)%R.
Proof.
  rewrite too_large_eq. intros [H0 H].
  pose proof bpow_970_pos as P. pose proof bpow_1024 as E1. pose proof bpow_971 as E2.
  rewrite Rabs_pos_eq by (rewrite <- (round_0 radix2 fx ZnearestE); apply round_le; auto with typeclass_instances).
  destruct (Rlt_le_dec (rnd r) top) as [L | L]; [exact L | exfalso].
  destruct (Rlt_le_dec r big) as [B | B].
  - assert (rnd r <= big)%R.
    { rewrite <- (round_generic radix2 fx ZnearestE big fmt_big). apply round_le; auto with typeclass_instances. lra. }
    unfold big in *. lra.
  - pose proof (round_NE_pt radix2 fx r) as [N _]. destruct N as [_ N].
    specialize (N big fmt_big). unfold big in *.
    rewrite (Rabs_pos_eq (rnd r - r)) in N by lra.
    rewrite (Rabs_left1 (top - bpow radix2 971 - r)) in N by lra. lra.
Qed.

Lemma round_small r : (Rabs r < too_large)%R -> (Rabs (rnd r) < top)%R.
Proof.
  intros H. destruct (Rle_lt_dec 0 r) as [P | P].
  - apply round_small_pos. rewrite Rabs_pos_eq in H by exact P. lra.
  - rewrite <- (Ropp_involutive r), round_NE_opp, Rabs_Ropp. apply round_small_pos.
    rewrite Rabs_left in H by exact P. lra.
Qed.

Lemma round_large_pos r y : finite y -> value y = rnd r -> (r < too_large)%R.
Proof.
  intros Fy V. rewrite too_large_eq.
  pose proof (value_le_big y Fy) as B. pose proof bpow_970_pos as P. pose proof bpow_1024 as E1. pose proof bpow_971 as E2.
  apply Rabs_le_inv in B. unfold big in B.
  destruct (Rlt_le_dec r (top - bpow radix2 970)) as [L | L]; [exact L | exfalso].
  destruct (Rle_lt_dec top r) as [G | G].
  { assert (top <= rnd r)%R.
    { rewrite <- (round_generic radix2 fx ZnearestE top fmt_top). apply round_le; auto with typeclass_instances. }
    lra. }
  pose proof (round_NE_pt radix2 fx r) as [N T]. rewrite <- V in N, T.
  pose proof (proj2 N top fmt_top) as N1.
  rewrite (Rabs_left1 (value y - r)) in N1 by lra. rewrite (Rabs_pos_eq (top - r)) in N1 by lra.
  assert (value y = big) as Vb by (unfold big; lra).
  assert (r = top - bpow radix2 970)%R as Rh by (unfold big in Vb; lra).
  destruct T as [(g & G1 & G2 & G3) | U].
  - rewrite Vb, big_eq in G1. pose proof (canonical_unique radix2 fx _ _ canonical_big G2 G1) as U.
    rewrite <- U in G3. discriminate.
  - assert (top = value y) as W.
    { apply U. split; [exact fmt_top |]. intros h Hh. pose proof (proj2 N h Hh) as N2.
      rewrite (Rabs_left1 (value y - r)) in N2 by lra. rewrite (Rabs_pos_eq (top - r)) by lra. lra. }
    unfold big in Vb. lra.
Qed.

Lemma negate_fields x : double x ->
  double (fneg_ x) /\ negative (fneg_ x) = negb (negative x) /\
  exponent (fneg_ x) = exponent x /\ fraction (fneg_ x) = fraction x.
Proof.
  intros D. destruct (fields x D) as (H1 & H2 & H3).
  assert (X : fneg_ x = (if negb (negative x) then 2 ^ 63 else 0) + exponent x * 2 ^ 52 + fraction x).
  { unfold fneg_. change two63 with (2 ^ 63). unfold negative in *. destruct (2 ^ 63 <=? x); simpl negb; cbv iota in *; lia. }
  rewrite X. apply (fields_of (negb (negative x))); auto.
Qed.

Lemma negate_value x : finite x -> finite (fneg_ x) /\ value (fneg_ x) = (- value x)%R.
Proof.
  intros [D F]. destruct (negate_fields x D) as (D' & N & X & Fr).
  split; [split; [exact D' | rewrite X; exact F] |].
  unfold value, magnitude. rewrite N, X, Fr. destruct (negative x); cbv [negb]; ring.
Qed.

Lemma round_large r y : finite y -> value y = rnd r -> (Rabs r < too_large)%R.
Proof.
  intros Fy V. destruct (negate_value y Fy) as [Fn Vn].
  pose proof (round_large_pos r y Fy V) as H1.
  assert (- r < too_large)%R as H2.
  { apply (round_large_pos (- r) (fneg_ y) Fn). rewrite Vn, V, round_NE_opp. reflexivity. }
  apply Rabs_def1; lra.
Qed.

Lemma rounded_bin r (q : bin) :
  (if Rlt_bool (Rabs (rnd r)) top
   then B2R q = rnd r /\ is_finite q = true /\ (r < 0 -> Bsign q = true)%R /\ (0 < r -> Bsign q = false)%R
   else exists s, B2SF q = S754_infinity s /\ (r < 0 -> s = true)%R /\ (0 < r -> s = false)%R) ->
  rounded r (bits_of_sf (B2SF q)).
Proof.
  destruct (Rlt_bool_spec (Rabs (rnd r)) top) as [L | L].
  - intros (V & F & S1 & S2). left. destruct (bin_bits q F) as (Fy & Vy & Sy).
    rewrite V in Vy. split; [exact (round_large r _ Fy Vy) |]. split; [exact (nearest_round r _ Fy Vy) |].
    rewrite Sy. split; assumption.
  - intros (s & Q & S1 & S2). right. rewrite Q.
    assert (too_large <= Rabs r)%R as B.
    { destruct (Rle_lt_dec too_large (Rabs r)) as [B | B]; [exact B |]. apply round_small in B. lra. }
    assert (0 < too_large)%R as P.
    { rewrite too_large_eq. pose proof bpow_970_pos. pose proof bpow_1024. lra. }
    destruct (Rle_lt_dec 0 r) as [G | G].
    + left. rewrite Rabs_pos_eq in B by exact G. rewrite (S2 ltac:(lra)). split; [exact B | reflexivity].
    + right. rewrite Rabs_left in B by exact G. rewrite (S1 G). split; [lra | reflexivity].
Qed.
