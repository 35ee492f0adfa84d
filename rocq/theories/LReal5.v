(** The float words against the real numbers. *)
From Coq Require Import ZArith List Reals Lia Lra Bool Psatz.
From Flocq Require Import Core.Core.
From Verif Require Import Base Stack Mem Parser Flt State CoreM FloatM Exec LBase LStack Spec Spec2 LState LMem LMon
  LMemWords LFloat Spec21 Spec22 LReal LReal2 LReal3 LReal4 LPi.
Import ListNotations.
Open Scope Z_scope.

(** ** Consequences of correct rounding *)
Lemma rounded_double r z : rounded r z -> double z.
Proof.
  intros [(_ & N & _) | [(_ & ->) | (_ & ->)]];
    [apply N | apply infinite_plus | apply infinite_minus].
Qed.

(** A representable result is exact *)
Lemma too_large_above y : finite y -> (Rabs (value y) < too_large)%R.
Proof.
  intros F. rewrite too_large_eq. pose proof (value_le_big y F) as B. unfold big in B.
  pose proof bpow_970_pos. pose proof bpow_971. lra.
Qed.
Lemma rounded_exact r y z : finite y -> value y = r -> rounded r z -> finite z /\ value z = r.
Proof.
  intros F V R. pose proof (too_large_above y F) as B. rewrite V in B.
  destruct R as [(_ & (Fz & N & _) & _) | [(H & _) | (H & _)]].
  - split; [exact Fz |]. specialize (N y F). rewrite V in N.
    replace (r - r)%R with 0%R in N by ring. rewrite Rabs_R0 in N.
    pose proof (Rabs_pos (value z - r)) as P. assert (Z : Rabs (value z - r) = 0%R) by lra.
    destruct (Req_dec (value z - r) 0) as [Q | Q]; [lra | apply Rabs_no_R0 in Q; contradiction].
  - exfalso. pose proof (Rle_abs r). lra.
  - exfalso. pose proof (Rle_abs (- r)). rewrite Rabs_Ropp in *. lra.
Qed.

(** Rounding keeps the order to a float *)
Lemma rounded_le r z y : finite y -> rounded r z -> finite z -> (r <= value y)%R -> (value z <= value y)%R.
Proof.
  intros F R Fz L. destruct R as [(_ & (_ & N & _) & _) | [(_ & ->) | (_ & ->)]].
  - specialize (N y F). destruct (Rle_lt_dec (value z) (value y)) as [H | H]; [exact H | exfalso].
    rewrite (Rabs_pos_eq (value z - r)), (Rabs_pos_eq (value y - r)) in N by lra. lra.
  - exfalso. exact (not_finite_inf _ (proj1 infinite_plus) Fz).
  - exfalso. exact (not_finite_inf _ (proj1 infinite_minus) Fz).
Qed.

(** An integer result up to 2^53 is exact *)
Lemma rounded_integer n z : Z.abs n <= 2 ^ 53 -> rounded (IZR n) z -> is_integer z n.
Proof.
  intros H R. destruct (f_of_Z_exact n false H) as [F V]. exact (rounded_exact _ _ _ F V R).
Qed.

Lemma truncated_unique r n m : truncated r n -> truncated r m -> n = m.
Proof.
  intros [A1 A2] [B1 B2]. destruct (Rle_lt_dec 0 r) as [H | H].
  - destruct (A1 H), (B1 H). assert (n < m + 1) by (apply lt_IZR; rewrite plus_IZR; lra).
    assert (m < n + 1) by (apply lt_IZR; rewrite plus_IZR; lra). lia.
  - destruct (A2 ltac:(lra)), (B2 ltac:(lra)).
    assert (n - 1 < m) by (apply lt_IZR; rewrite minus_IZR; lra).
    assert (m - 1 < n) by (apply lt_IZR; rewrite minus_IZR; lra). lia.
Qed.
Lemma truncated_int n : truncated (IZR n) n.
Proof. split; intros; lra. Qed.

Lemma flag_truth b P : (b = true <-> P) -> truth P (flag b).
Proof. intros H. destruct b; [left | right]; split; try reflexivity; [tauto | intros Q; apply H in Q; discriminate]. Qed.

Section W.
Context {E : Env}.

Ltac weff := intros fuel ew v dr rr fr H; pose proof (stacks_are_bound _ _ _ _ H) as HB; cbn [app] in *;
  intros Hd Hr Hf; cbn [exec_prim].

Definition is_un (p : prim) (g : Z -> Z) : Prop := forall fuel ew, exec_prim fuel ew p = f_un g.
Definition is_bin (p : prim) (g : Z -> Z -> Z) : Prop := forall fuel ew, exec_prim fuel ew p = f_bin g.

Lemma un_eff p g x : is_un p g -> word_effect p [] [] [x] [] [] [g x].
Proof. intros U. weff. rewrite U. unfold f_un. opb. op1. Qed.
Lemma bin_eff p g x y : is_bin p g -> word_effect p [] [] [y; x] [] [] [g x y].
Proof. intros U. weff. rewrite U. unfold f_bin. opb. opb. op1. Qed.

Lemma un_gives p g x (Q : Z -> Prop) : is_un p g -> double (g x) -> Q (g x) -> gives p [] [x] (a_float Q).
Proof. intros U D H. exists [], [g x]. split; [split; [reflexivity | eauto] | apply un_eff, U]. Qed.
Lemma bin_gives p g x y (Q : Z -> Prop) : is_bin p g -> double (g x y) -> Q (g x y) ->
  gives p [] [y; x] (a_float Q).
Proof. intros U D H. exists [], [g x y]. split; [split; [reflexivity | eauto] | apply bin_eff, U]. Qed.

(** ** Arithmetic *)
Lemma arithmetic_gives x y : finite x -> finite y ->
  gives P_fplus [] [y; x] (a_float (rounded (value x + value y))) /\
  gives P_fminus [] [y; x] (a_float (rounded (value x - value y))) /\
  gives P_fstar [] [y; x] (a_float (rounded (value x * value y))) /\
  (value y <> 0%R -> gives P_fslash [] [y; x] (a_float (rounded (value x / value y)))) /\
  ((0 < value x)%R -> gives P_fsqrt [] [x] (a_float (rounded (sqrt (value x))))).
Proof.
  intros F G. pose proof (proj1 F) as D. pose proof (proj1 G) as D'.
  split; [apply (bin_gives _ fadd); [intros ? ?; reflexivity | apply fadd_double; assumption | apply fadd_rounded; assumption] |].
  split; [apply (bin_gives _ fsub); [intros ? ?; reflexivity | apply fsub_double; assumption | apply fsub_rounded; assumption] |].
  split; [apply (bin_gives _ fmul); [intros ? ?; reflexivity | apply fmul_double; assumption | apply fmul_rounded; assumption] |].
  split; [intros N; apply (bin_gives _ fdiv); [intros ? ?; reflexivity | apply fdiv_double; assumption | apply fdiv_rounded; assumption] |].
  intros P. apply (un_gives _ fsqrt_); [intros ? ?; reflexivity | apply fsqrt_double; assumption | apply fsqrt_rounded; assumption].
Qed.

Lemma zeros_gives x y : finite x -> finite y ->
  ((value x + value y = 0)%R ->
     word_effect P_fplus [] [] [y; x] [] [] [if negative x && negative y then minus_zero else plus_zero]) /\
  ((value x - value y = 0)%R ->
     word_effect P_fminus [] [] [y; x] [] [] [if negative x && negb (negative y) then minus_zero else plus_zero]) /\
  gives P_fstar [] [y; x] (a_float (fun z => finite z -> negative z = xorb (negative x) (negative y))) /\
  (value y <> 0%R ->
     gives P_fslash [] [y; x] (a_float (fun z => finite z -> negative z = xorb (negative x) (negative y)))) /\
  (value x = 0%R -> word_effect P_fsqrt [] [] [x] [] [] [x]).
Proof.
  intros F G. pose proof (proj1 F) as D. pose proof (proj1 G) as D'.
  split; [intros Z; rewrite <- (fadd_zero x y F G Z); apply (bin_eff P_fplus fadd); intros ? ?; reflexivity |].
  split; [intros Z; rewrite <- (fsub_zero x y F G Z); apply (bin_eff P_fminus fsub); intros ? ?; reflexivity |].
  split; [apply (bin_gives _ fmul); [intros ? ?; reflexivity | apply fmul_double; assumption | intros Fz; apply fmul_sign; assumption] |].
  split; [intros N; apply (bin_gives _ fdiv); [intros ? ?; reflexivity | apply fdiv_double; assumption | intros Fz; apply fdiv_sign; assumption] |].
  intros Z. pose proof (un_eff P_fsqrt fsqrt_ x ltac:(intros ? ?; reflexivity)) as U.
  rewrite (fsqrt_zero x F Z) in U. exact U.
Qed.

Lemma nan_gives x y : double x -> double y -> not_a_number x \/ not_a_number y ->
  gives P_fplus [] [y; x] (a_float not_a_number) /\ gives P_fminus [] [y; x] (a_float not_a_number) /\
  gives P_fstar [] [y; x] (a_float not_a_number) /\ gives P_fslash [] [y; x] (a_float not_a_number) /\
  (not_a_number x -> gives P_fsqrt [] [x] (a_float not_a_number)).
Proof.
  intros D D' N.
  split; [apply (bin_gives _ fadd); [intros ? ?; reflexivity | apply fadd_double; assumption | apply fadd_nan; assumption] |].
  split; [apply (bin_gives _ fsub); [intros ? ?; reflexivity | apply fsub_double; assumption | apply fsub_nan; assumption] |].
  split; [apply (bin_gives _ fmul); [intros ? ?; reflexivity | apply fmul_double; assumption | apply fmul_nan; assumption] |].
  split; [apply (bin_gives _ fdiv); [intros ? ?; reflexivity | apply fdiv_double; assumption | apply fdiv_nan; assumption] |].
  intros C. apply (un_gives _ fsqrt_); [intros ? ?; reflexivity | apply fsqrt_double; assumption | apply fsqrt_nan; assumption].
Qed.

Lemma fsub_inf x y : double x -> double y -> infinite x \/ infinite y -> ~ not_a_number x -> ~ not_a_number y ->
  (infinite x -> finite y -> fsub x y = x) /\ (finite x -> infinite y -> fsub x y = fneg_ y) /\
  (infinite x -> infinite y -> negative x <> negative y -> fsub x y = x) /\
  (infinite x -> infinite y -> negative x = negative y -> not_a_number (fsub x y)).
Proof.
  intros D D' _ _ N. destruct (fsub_neg x y D D') as [C | ->]; [contradiction |].
  destruct (negate_fields y D') as (Dn & Nn & Xn & Fn).
  assert (I : infinite y -> infinite (fneg_ y)) by (intros (_ & A & B); split; [exact Dn | rewrite Xn, Fn; auto]).
  split; [intros A B; apply fadd_inf_l; [exact A | apply negate_value, B] |].
  split; [intros A B; apply fadd_inf_r; auto |].
  split; [intros A B C; apply fadd_inf_same; auto; rewrite Nn; destruct (negative x), (negative y); simpl; congruence |].
  intros A B C; apply fadd_inf_opp; auto; rewrite Nn; destruct (negative x), (negative y); discriminate.
Qed.

Lemma infinite_gives x y : infinite x -> finite y \/ infinite y ->
  (* f+ *)
  (finite y \/ negative x = negative y -> word_effect P_fplus [] [] [y; x] [] [] [x]) /\
  (infinite y /\ negative x <> negative y -> gives P_fplus [] [y; x] (a_float not_a_number)) /\
  (* f- *)
  (finite y \/ negative x <> negative y -> word_effect P_fminus [] [] [y; x] [] [] [x]) /\
  (infinite y /\ negative x = negative y -> gives P_fminus [] [y; x] (a_float not_a_number)) /\
  (* f* *)
  (value y <> 0%R /\ finite y \/ infinite y ->
     word_effect P_fstar [] [] [y; x] [] []
       [if xorb (negative x) (negative y) then minus_infinity else plus_infinity]) /\
  (finite y -> value y = 0%R -> gives P_fstar [] [y; x] (a_float not_a_number)) /\
  (* f/ *)
  (finite y ->
     word_effect P_fslash [] [] [y; x] [] []
       [if xorb (negative x) (negative y) then minus_infinity else plus_infinity] /\
     word_effect P_fslash [] [] [x; y] [] []
       [if xorb (negative y) (negative x) then minus_zero else plus_zero]) /\
  (infinite y -> gives P_fslash [] [y; x] (a_float not_a_number)).
Proof.
  intros I O. pose proof I as [D _].
  assert (D' : double y) by (destruct O as [[O _] | [O _]]; exact O).
  assert (NN : forall z, finite z \/ infinite z -> ~ not_a_number z).
  { intros z [H | H] C; [exact (not_finite_nan _ C H) | exact (nan_not_inf _ C H)]. }
  pose proof (bin_eff P_fplus fadd x y ltac:(intros ? ?; reflexivity)) as A.
  pose proof (bin_eff P_fminus fsub x y ltac:(intros ? ?; reflexivity)) as S.
  pose proof (bin_eff P_fstar fmul x y ltac:(intros ? ?; reflexivity)) as M.
  pose proof (bin_eff P_fslash fdiv x y ltac:(intros ? ?; reflexivity)) as V.
  pose proof (bin_eff P_fslash fdiv y x ltac:(intros ? ?; reflexivity)) as V'.
  destruct (fsub_inf x y D D' (or_introl I) (NN x (or_intror I)) (NN y O)) as (S1 & _ & S3 & S4).
  split. { intros [H | H]; [rewrite (fadd_inf_l x y I H) in A; exact A |].
           destruct O as [O | O]; [rewrite (fadd_inf_l x y I O) in A; exact A | rewrite (fadd_inf_same x y I O H) in A; exact A]. }
  split. { intros [H1 H2]. apply (bin_gives _ fadd); [intros ? ?; reflexivity | apply fadd_double; assumption | apply fadd_inf_opp; assumption]. }
  split. { intros [H | H]; [rewrite (S1 I H) in S; exact S |].
           destruct O as [O | O]; [rewrite (S1 I O) in S; exact S | rewrite (S3 I O H) in S; exact S]. }
  split. { intros [H1 H2]. apply (bin_gives _ fsub); [intros ? ?; reflexivity | apply fsub_double; assumption | apply S4; assumption]. }
  split. { intros [[H1 H2] | H].
           - rewrite (proj1 (fmul_inf_fin x y I H2 H1)) in M. exact M.
           - rewrite (fmul_inf_inf x y I H) in M. exact M. }
  split. { intros H1 H2. apply (bin_gives _ fmul); [intros ? ?; reflexivity | apply fmul_double; assumption |].
           apply (fmul_inf_zero x y I H1 H2). }
  split. { intros H. rewrite (fdiv_inf_fin x y I H) in V. rewrite (fdiv_fin_inf y x H I) in V'. split; assumption. }
  intros H. apply (bin_gives _ fdiv); [intros ? ?; reflexivity | apply fdiv_double; assumption | apply fdiv_inf_inf; assumption].
Qed.

Lemma div_zero_gives x y : finite x -> finite y -> value y = 0%R ->
  (value x <> 0%R ->
     word_effect P_fslash [] [] [y; x] [] []
       [if xorb (negative x) (negative y) then minus_infinity else plus_infinity]) /\
  (value x = 0%R -> gives P_fslash [] [y; x] (a_float not_a_number)).
Proof.
  intros F G Z. pose proof (bin_eff P_fslash fdiv x y ltac:(intros ? ?; reflexivity)) as V. split; intros N.
  - rewrite (fdiv_by_zero x y F N G Z) in V. exact V.
  - apply (bin_gives _ fdiv); [intros ? ?; reflexivity | apply fdiv_double; [apply F | apply G] | apply fdiv_zero_zero; assumption].
Qed.
Lemma sqrt_special_gives x :
  (finite x -> (value x < 0)%R -> gives P_fsqrt [] [x] (a_float not_a_number)) /\
  (x = plus_infinity -> word_effect P_fsqrt [] [] [x] [] [] [x]) /\
  (x = minus_infinity -> gives P_fsqrt [] [x] (a_float not_a_number)).
Proof.
  split; [intros F N; apply (un_gives _ fsqrt_); [intros ? ?; reflexivity | apply fsqrt_double, F | apply fsqrt_neg; assumption] |].
  split; intros ->.
  - exact (un_eff P_fsqrt fsqrt_ plus_infinity ltac:(intros ? ?; reflexivity)).
  - apply (un_gives _ fsqrt_); [intros ? ?; reflexivity | apply fsqrt_double, infinite_minus |].
    exact (fsqrt_inf _ (proj1 infinite_minus)).
Qed.

(** ** Order *)
Lemma fless_eff x y : word_effect P_f_less_than [] [] [y; x] [flag (flt x y)] [] [].
Proof. weff. unfold f_less_than. opb. opb. op1. Qed.
Lemma fzless_eff x : word_effect P_f_zero_less_than [] [] [x] [flag (flt x 0)] [] [].
Proof. weff. unfold f_zero_less_than. opb. op1. Qed.
Lemma fzeq_eff x : word_effect P_f_zero_equals [] [] [x] [flag (feq x 0)] [] [].
Proof. weff. unfold f_zero_equals. opb. op1. Qed.

Lemma compare_gives x y : double x -> double y ->
  gives P_f_less_than [] [y; x] (a_cell (truth (less x y))) /\
  gives P_f_zero_less_than [] [x] (a_cell (truth (less x plus_zero))) /\
  gives P_f_zero_equals [] [x] (a_cell (truth (equal x plus_zero))).
Proof.
  intros D D'. assert (D0 : double 0) by apply plus_zero_finite.
  split; [exists [flag (flt x y)], []; split; [split; [reflexivity | eexists; split; [reflexivity | apply flag_truth, flt_less; assumption]] | apply fless_eff] |].
  split; [exists [flag (flt x 0)], []; split; [split; [reflexivity | eexists; split; [reflexivity | apply flag_truth, flt_less; assumption]] | apply fzless_eff] |].
  exists [flag (feq x 0)], []; split; [split; [reflexivity | eexists; split; [reflexivity | apply flag_truth, feq_equal; assumption]] | apply fzeq_eff].
Qed.

Lemma fmin_eff x y : word_effect P_fmin [] [] [y; x] [] [] [fmin_ y x].
Proof. weff. unfold fmin. opb. op1. Qed.
Lemma fmax_eff x y : word_effect P_fmax [] [] [y; x] [] [] [fmax_ y x].
Proof. weff. unfold fmax. opb. op1. Qed.

Lemma minmax_gives x y : finite x -> finite y ->
  gives P_fmin [] [y; x] (a_float (fun z => (z = x \/ z = y) /\ value z = Rmin (value x) (value y))) /\
  gives P_fmax [] [y; x] (a_float (fun z => (z = x \/ z = y) /\ value z = Rmax (value x) (value y))) /\
  gives P_fabs [] [x] (a_float (fun z => finite z /\ negative z = false /\ value z = Rabs (value x))) /\
  gives P_fnegate [] [x] (a_float (fun z => finite z /\ negative z = negb (negative x) /\ value z = (- value x)%R)).
Proof.
  intros F G. destruct (fmin_fin y x G F) as [M1 M2]. destruct (fmax_fin y x G F) as [X1 X2].
  rewrite Rmin_comm in M2. rewrite Rmax_comm in X2.
  split. { exists [], [fmin_ y x]. split; [| apply fmin_eff]. split; [reflexivity |]. eexists; split; [reflexivity |].
           split; [destruct M1 as [-> | ->]; [apply G | apply F] | split; [tauto | exact M2]]. }
  split. { exists [], [fmax_ y x]. split; [| apply fmax_eff]. split; [reflexivity |]. eexists; split; [reflexivity |].
           split; [destruct X1 as [-> | ->]; [apply G | apply F] | split; [tauto | exact X2]]. }
  destruct (fabs_value x F) as [A1 A2]. destruct (negate_value x F) as [N1 N2].
  split. { apply (un_gives _ fabs_); [intros ? ?; reflexivity | apply A1 |]. split; [exact A1 |].
           split; [apply fabs_fields, F | exact A2]. }
  apply (un_gives _ fneg_); [intros ? ?; reflexivity | apply N1 |]. split; [exact N1 |].
  split; [apply negate_fields, F | exact N2].
Qed.

Lemma minmax_nan_gives x y : double x -> double y -> not_a_number x -> ~ not_a_number y ->
  word_effect P_fmin [] [] [y; x] [] [] [y] /\ word_effect P_fmin [] [] [x; y] [] [] [y] /\
  word_effect P_fmax [] [] [y; x] [] [] [y] /\ word_effect P_fmax [] [] [x; y] [] [] [y].
Proof.
  intros D D' N N'. pose proof (proj2 (nan_b x D) N) as Nx.
  assert (Ny : f_is_nan y = false).
  { destruct (f_is_nan y) eqn:Y; [| reflexivity]. apply nan_b in Y; [contradiction | exact D']. }
  pose proof (fmin_eff x y) as A. pose proof (fmax_eff x y) as B.
  pose proof (fmin_eff y x) as A'. pose proof (fmax_eff y x) as B'.
  unfold fmin_ in A, A'. unfold fmax_ in B, B'. rewrite Nx, Ny in *. auto.
Qed.

(** ** Conversions *)
Lemma stof_eff n : word_effect P_s_to_f [n] [] [] [] [] [f_of_Z n false].
Proof. weff. unfold s_to_f. opb. op1. Qed.
Lemma ftos_eff x : word_effect P_f_to_s [] [] [x] [f_to_i64 x] [] [].
Proof. weff. unfold f_to_s. opb. op1. Qed.

Lemma stof_gives n : gives P_s_to_f [n] [] (a_float (rounded (IZR n))).
Proof.
  exists [], [f_of_Z n false]. split; [| apply stof_eff]. split; [reflexivity |]. eexists; split; [reflexivity |].
  pose proof (f_of_Z_rounded n false) as R. split; [exact (rounded_double _ _ R) | exact R].
Qed.
Lemma stof_exact n : Z.abs n <= 2 ^ 53 -> gives P_s_to_f [n] [] (a_float (fun z => is_integer z n)).
Proof.
  intros H. exists [], [f_of_Z n false]. split; [| apply stof_eff]. split; [reflexivity |]. eexists; split; [reflexivity |].
  pose proof (f_of_Z_exact n false H) as R. split; [apply R | exact R].
Qed.
Lemma ftos_gives x : finite x ->
  gives P_f_to_s [] [x] (a_cell (fun n => exists m, truncated (value x) m /\ n = Z.max (- 2 ^ 63) (Z.min (2 ^ 63 - 1) m))).
Proof.
  intros F. exists [f_to_i64 x], []. split; [| apply ftos_eff]. split; [reflexivity |]. eexists; split; [reflexivity |].
  exact (f_to_i64_fin x F).
Qed.
Lemma ftos_other x :
  (x = plus_infinity -> word_effect P_f_to_s [] [] [x] [2 ^ 63 - 1] [] []) /\
  (x = minus_infinity -> word_effect P_f_to_s [] [] [x] [- 2 ^ 63] [] []) /\
  (not_a_number x -> word_effect P_f_to_s [] [] [x] [0] [] []).
Proof.
  split; [intros ->; exact (ftos_eff plus_infinity) |].
  split; [intros ->; exact (ftos_eff minus_infinity) |].
  intros N. pose proof (ftos_eff x) as T. unfold f_to_i64 in T. rewrite (proj2 (sf_nan x (proj1 N)) N) in T. exact T.
Qed.
Lemma round_trip_value n : Z.abs n <= 2 ^ 53 -> f_to_i64 (f_of_Z n false) = n.
Proof.
  intros H. destruct (f_of_Z_exact n false H) as [F V]. destruct (f_to_i64_fin _ F) as (m & T & ->).
  rewrite V in T. rewrite (truncated_unique _ _ _ T (truncated_int n)).
  change (2 ^ 53) with 9007199254740992 in H.
  change imin with (-9223372036854775808); change imax with 9223372036854775807. lia.
Qed.
Lemma round_trip_gives n : Z.abs n <= 2 ^ 53 ->
  exists z, word_effect P_s_to_f [n] [] [] [] [] [z] /\ word_effect P_f_to_s [] [] [z] [n] [] [].
Proof.
  intros H. exists (f_of_Z n false). split; [apply stof_eff |].
  rewrite <- (round_trip_value n H) at 2. apply ftos_eff.
Qed.
Lemma round_trip_lost :
  exists n z, is_cell n /\ word_effect P_s_to_f [n] [] [] [] [] [z] /\
              word_effect P_f_to_s [] [] [z] [n - 1] [] [].
Proof.
  exists (2 ^ 53 + 1), (f_of_Z (2 ^ 53 + 1) false). split; [split; [discriminate | reflexivity] |].
  split; [apply stof_eff | exact (ftos_eff (f_of_Z (2 ^ 53 + 1) false))].
Qed.

Lemma integral_gives x : finite x ->
  gives P_floor [] [x] (a_float (fun z => exists n, is_integer z n /\ (IZR n <= value x < IZR n + 1)%R)) /\
  gives P_fceil [] [x] (a_float (fun z => exists n, is_integer z n /\ (IZR n - 1 < value x <= IZR n)%R)) /\
  gives P_fround [] [x] (a_float (fun z => exists n, is_integer z n /\ nearest_integer (value x) n)).
Proof.
  intros F. destruct (ffloor_fin x F) as (a & A1 & A2). destruct (fceil_fin x F) as (c & C1 & C2).
  destruct (fround_fin x F) as (r & R1 & R2).
  split; [apply (un_gives _ ffloor); [intros ? ?; reflexivity | apply A2 | eauto] |].
  split; [apply (un_gives _ fceil_); [intros ? ?; reflexivity | apply C2 | eauto] |].
  apply (un_gives _ fround_); [intros ? ?; reflexivity | apply R2 | eauto].
Qed.
Lemma integral_other p x : p = P_floor \/ p = P_fceil \/ p = P_fround ->
  (infinite x -> word_effect p [] [] [x] [] [] [x]) /\
  (not_a_number x -> gives p [] [x] (a_float not_a_number)).
Proof.
  intros P.
  assert (K : forall up, is_un p (f_round_with up) ->
    (infinite x -> word_effect p [] [] [x] [] [] [x]) /\ (not_a_number x -> gives p [] [x] (a_float not_a_number))).
  { intros up U. split.
    - intros I. pose proof (un_eff p _ x U) as T.
      rewrite (proj1 (f_round_other up x (proj1 I) (not_finite_inf _ I)) I) in T. exact T.
    - intros N. pose proof (proj2 (f_round_other up x (proj1 N) (not_finite_nan _ N)) N) as R.
      apply (un_gives _ _ _ _ U); [apply R | exact R]. }
  destruct P as [-> | [-> | ->]]; eapply K; intros ? ?; reflexivity.
Qed.

(** ** Approximate equality *)
Lemma fprox_eff x1 x2 x3 : word_effect P_fproximate [] [] [x3; x2; x1]
  [flag (if flt 0 x3 then flt (fabs_ (fsub x1 x2)) x3
         else if feq x3 0 then feq x1 x2
         else flt (fabs_ (fsub x1 x2)) (fmul (fabs_ x3) (fadd (fabs_ x1) (fabs_ x2))))] [] [].
Proof.
  weff. unfold fproximate. opb. destruct (flt 0 x3); [op1 |]. destruct (feq x3 0); op1.
Qed.

Lemma abs_less d x3 : double d -> finite x3 -> (less (fabs_ d) x3 <-> finite d /\ (Rabs (value d) < value x3)%R).
Proof.
  intros D F. destruct (fabs_fields d D) as (D' & N & X & Fr). split.
  - intros [(H1 & H2 & H3) | [(H & _) | (_ & H)]].
    + assert (Fd : finite d) by (split; [exact D | rewrite <- X; apply H1]).
      split; [exact Fd |]. rewrite <- (proj2 (fabs_value d Fd)). exact H3.
    + rewrite H, (proj2 infinite_minus) in N. discriminate.
    + exfalso. rewrite H in F. exact (not_finite_inf _ (proj1 infinite_plus) F).
  - intros [Fd L]. left. destruct (fabs_value d Fd) as [A1 A2]. rewrite A2. auto.
Qed.

Lemma fprox_gives x1 x2 x3 : finite x1 -> finite x2 -> finite x3 ->
  ((0 < value x3)%R ->
     exists d, rounded (value x1 - value x2) d /\
     gives P_fproximate [] [x3; x2; x1] (a_cell (truth (finite d /\ Rabs (value d) < value x3)%R))) /\
  (value x3 = 0%R -> gives P_fproximate [] [x3; x2; x1] (a_cell (truth (value x1 = value x2)))).
Proof.
  intros F1 F2 F3. destruct plus_zero_finite as [F0 V0]. split.
  - intros P. exists (fsub x1 x2). split; [apply fsub_rounded; assumption |].
    pose proof (fprox_eff x1 x2 x3) as T. rewrite (flt_fin 0 x3 F0 F3), V0, Rlt_bool_true in T by exact P.
    eexists _, []. split; [| exact T]. split; [reflexivity |]. eexists; split; [reflexivity |].
    apply flag_truth. rewrite flt_less; [| apply fabs_fields, fsub_double; [apply F1 | apply F2] | apply F3].
    apply abs_less; [apply fsub_double; [apply F1 | apply F2] | exact F3].
  - intros Z. pose proof (fprox_eff x1 x2 x3) as T.
    rewrite (flt_fin 0 x3 F0 F3), V0, Z, Rlt_bool_false in T by lra.
    rewrite (feq_fin x3 0 F3 F0), V0, Z, Req_bool_true in T by reflexivity.
    eexists _, []. split; [| exact T]. split; [reflexivity |]. eexists; split; [reflexivity |].
    apply flag_truth. rewrite (feq_fin x1 x2 F1 F2). destruct (Req_bool_spec (value x1) (value x2)); split; congruence.
Qed.
Lemma fprox_neg_gives x1 x2 x3 : finite x1 -> finite x2 -> finite x3 -> (value x3 < 0)%R ->
  exists d s p, rounded (value x1 - value x2) d /\ rounded (Rabs (value x1) + Rabs (value x2)) s /\
    (finite s -> rounded (Rabs (value x3) * value s) p) /\
    (finite p -> gives P_fproximate [] [x3; x2; x1] (a_cell (truth (finite d /\ Rabs (value d) < value p)%R))).
Proof.
  intros F1 F2 F3 N. destruct plus_zero_finite as [F0 V0].
  destruct (fabs_value x1 F1) as [A1 B1]. destruct (fabs_value x2 F2) as [A2 B2]. destruct (fabs_value x3 F3) as [A3 B3].
  exists (fsub x1 x2), (fadd (fabs_ x1) (fabs_ x2)), (fmul (fabs_ x3) (fadd (fabs_ x1) (fabs_ x2))).
  split; [apply fsub_rounded; assumption |].
  split; [rewrite <- B1, <- B2; apply fadd_rounded; assumption |].
  split; [intros Fs; rewrite <- B3; apply fmul_rounded; assumption |].
  intros Fp. pose proof (fprox_eff x1 x2 x3) as T.
  rewrite (flt_fin 0 x3 F0 F3), V0, Rlt_bool_false in T by lra.
  rewrite (feq_fin x3 0 F3 F0), V0, Req_bool_false in T by lra.
  eexists _, []. split; [| exact T]. split; [reflexivity |]. eexists; split; [reflexivity |].
  apply flag_truth. rewrite flt_less; [| apply fabs_fields, fsub_double; [apply F1 | apply F2] | apply Fp].
  apply abs_less; [apply fsub_double; [apply F1 | apply F2] | exact Fp].
Qed.

(** A true flag is never wrong *)
Lemma fprox_sound x1 x2 x3 : finite x1 -> finite x2 -> finite x3 -> (0 < value x3)%R ->
  gives P_fproximate [] [x3; x2; x1] (a_cell (fun n => n = -1 -> (Rabs (value x1 - value x2) < value x3)%R)).
Proof.
  intros F1 F2 F3 P. destruct (proj1 (fprox_gives x1 x2 x3 F1 F2 F3) P) as (d & R & d' & f' & (-> & n & -> & T) & W).
  exists [n], []. split; [| exact W]. split; [reflexivity |]. exists n. split; [reflexivity |]. intros ->.
  destruct T as [[[Fd L] _] | [_ C]]; [| discriminate].
  destruct (Rlt_le_dec (Rabs (value x1 - value x2)) (value x3)) as [H | H]; [exact H | exfalso].
  destruct (Rle_lt_dec 0 (value x1 - value x2)) as [G | G].
  - rewrite (Rabs_pos_eq (value x1 - value x2)) in H by exact G.
    assert (value x3 <= value d)%R.
    { destruct R as [(_ & (_ & N & _) & _) | [(_ & E1) | (_ & E1)]].
      - specialize (N x3 F3). destruct (Rle_lt_dec (value x3) (value d)) as [Q | Q]; [exact Q | exfalso].
        rewrite (Rabs_left1 (value d - _)), (Rabs_left1 (value x3 - _)) in N by lra. lra.
      - exfalso. rewrite E1 in Fd. exact (not_finite_inf _ (proj1 infinite_plus) Fd).
      - exfalso. rewrite E1 in Fd. exact (not_finite_inf _ (proj1 infinite_minus) Fd). }
    pose proof (Rle_abs (value d)). lra.
  - rewrite (Rabs_left (value x1 - value x2)) in H by exact G.
    destruct (negate_value x3 F3) as [Fn Vn].
    assert (value d <= value (fneg_ x3))%R by (apply (rounded_le _ _ _ Fn R Fd); lra).
    rewrite Vn in *. pose proof (Rle_abs (- value d)). rewrite Rabs_Ropp in *. lra.
Qed.

(** ** The constant pi and the units *)
Lemma pi_gives : gives P_pi [] [] (a_float (rounded PI)).
Proof.
  exists [], [F_PI]. split.
  - split; [reflexivity |]. exists F_PI. split; [reflexivity |]. split; [exact (rounded_double _ _ pi_rounded) | exact pi_rounded].
  - weff. unfold pi. refine (op_fpush _ F_PI _ _ _ H _). lens.
Qed.

Lemma const_value c k : finite c -> sf_of_bits c = sf_of_bits (f_of_Z k false) -> Z.abs k <= 2 ^ 53 -> value c = IZR k.
Proof.
  intros F S H. destruct (f_of_Z_exact k false H) as [G V]. rewrite <- (sf_value c F), S, (sf_value _ G). exact V.
Qed.
Ltac pat := split; [split; [discriminate | reflexivity] | discriminate].
Lemma one_value : finite F_ONE /\ value F_ONE = IZR 1.
Proof. assert (F : finite F_ONE) by pat. split; [exact F | apply const_value; [exact F | reflexivity | discriminate]]. Qed.
Lemma minute_value : finite F_MINUTE /\ value F_MINUTE = IZR 60.
Proof. assert (F : finite F_MINUTE) by pat. split; [exact F | apply const_value; [exact F | reflexivity | discriminate]]. Qed.
Lemma hour_value : finite F_HOUR /\ value F_HOUR = IZR 3600.
Proof. assert (F : finite F_HOUR) by pat. split; [exact F | apply const_value; [exact F | reflexivity | discriminate]]. Qed.
Lemma f180_value : finite F_180 /\ value F_180 = IZR 180.
Proof. assert (F : finite F_180) by pat. split; [exact F | apply const_value; [exact F | reflexivity | discriminate]]. Qed.
Lemma milli_finite : finite F_MILLI. Proof. pat. Qed.
Lemma micro_finite : finite F_MICRO. Proof. pat. Qed.
Lemma pi_finite : finite F_PI. Proof. pat. Qed.
Lemma rpm_finite : finite F_RPM. Proof. pat. Qed.

(** The factor of rpm: twice pi (exact) divided by sixty *)
Lemma rpm_rounded : rounded (2 * value F_PI / 60) F_RPM.
Proof.
  assert (F2 : finite (f_of_Z 2 false)) by (apply f_of_Z_exact; discriminate).
  assert (V2 : value (f_of_Z 2 false) = 2%R) by (apply f_of_Z_exact; discriminate).
  pose proof (fmul_rounded (f_of_Z 2 false) F_PI F2 pi_finite) as R. rewrite V2 in R.
  set (t := fmul (f_of_Z 2 false) F_PI) in R.
  assert (Ft : finite t) by (vm_compute; split; [split; [discriminate | reflexivity] | discriminate]).
  assert (Vt : value t = (2 * value F_PI)%R).
  { rewrite <- (sf_value t Ft), <- (sf_value F_PI pi_finite).
    change (sf_of_bits t) with (SpecFloat.S754_finite false 7074237752028440 (-50)).
    change (sf_of_bits F_PI) with (SpecFloat.S754_finite false 7074237752028440 (-51)).
    cbn [BinarySingleNaN.SF2R cond_Zopp]. unfold F2R. cbn [Fnum Fexp].
    change (-50) with (1 + -51). rewrite bpow_plus. change (bpow radix2 1) with 2%R. ring. }
  destruct minute_value as [Fm Vm].
  pose proof (fdiv_rounded t F_MINUTE Ft Fm ltac:(rewrite Vm; lra)) as D. rewrite Vt, Vm in D.
  change (fdiv t F_MINUTE) with F_RPM in D. exact D.
Qed.

Lemma mul_rounded x c r : finite x -> finite c -> value c = r -> rounded (value x * r) (fmul x c).
Proof. intros F G <-. apply fmul_rounded; assumption. Qed.

Lemma mul_one x z : finite x -> rounded (value x * 1) z -> finite z /\ value z = value x.
Proof. intros F R. rewrite Rmult_1_r in R. exact (rounded_exact _ _ _ F eq_refl R). Qed.

Lemma simple_units x : finite x ->
  gives P_from_meter [] [x] (a_float (fun z => finite z /\ value z = value x)) /\
  gives P_from_sec [] [x] (a_float (fun z => finite z /\ value z = value x)) /\
  gives P_from_minute [] [x] (a_float (rounded (value x * 60))) /\
  gives P_from_hour [] [x] (a_float (rounded (value x * 3600))) /\
  word_effect P_from_rad [] [] [x] [] [] [x] /\ word_effect P_hertz [] [] [x] [] [] [x].
Proof.
  intros F. destruct one_value as [F1 V1], minute_value as [Fm Vm], hour_value as [Fh Vh].
  pose proof (mul_one x _ F (mul_rounded x F_ONE 1 F F1 V1)) as O.
  split; [apply (un_gives _ (fun t => fmul t F_ONE)); [intros ? ?; reflexivity | apply O | exact O] |].
  split; [apply (un_gives _ (fun t => fmul t F_ONE)); [intros ? ?; reflexivity | apply O | exact O] |].
  split; [apply (un_gives _ (fun t => fmul t F_MINUTE)); [intros ? ?; reflexivity | apply fmul_double; [apply F | apply Fm] |
            apply mul_rounded; assumption] |].
  split; [apply (un_gives _ (fun t => fmul t F_HOUR)); [intros ? ?; reflexivity | apply fmul_double; [apply F | apply Fh] |
            apply mul_rounded; assumption] |].
  split; [apply (un_eff P_from_rad (fun t => t)); intros ? ?; reflexivity |
          apply (un_eff P_hertz (fun t => t)); intros ? ?; reflexivity].
Qed.

Lemma small_units : exists mm um pi_, rounded (1 / 1000) mm /\ rounded (1 / 1000000) um /\ rounded PI pi_ /\
  forall x, finite x ->
  gives P_from_mm [] [x] (a_float (rounded (value x * value mm))) /\
  gives P_from_msec [] [x] (a_float (rounded (value x * value mm))) /\
  gives P_from_um [] [x] (a_float (rounded (value x * value um))) /\
  gives P_from_usec [] [x] (a_float (rounded (value x * value um))) /\
  gives P_from_deg [] [x] (a_float (fun z => exists t, rounded (value x * value pi_) t /\
                                        (finite t -> rounded (value t / 180) z))) /\
  gives P_mm_per_min [] [x] (a_float (fun z => exists t, rounded (value x * value mm) t /\
                                        (finite t -> rounded (value t / 60) z))) /\
  gives P_mm_per_sec [] [x] (a_float (fun z => exists t, rounded (value x * value mm) t /\
                                        (finite t -> value z = value t))) /\
  gives P_um_per_msec [] [x] (a_float (fun z => exists t, rounded (value x * value um) t /\
                                        (finite t -> rounded (value t / value mm) z))) /\
  gives P_rpm [] [x] (a_float (fun z => exists c, rounded (2 * value pi_ / 60) c /\ rounded (value x * value c) z)).
Proof.
  exists F_MILLI, F_MICRO, F_PI.
  split; [exact milli_rounded |]. split; [exact micro_rounded |]. split; [exact pi_rounded |].
  intros x F. destruct one_value as [F1 V1], minute_value as [Fm Vm], f180_value as [F8 V8].
  pose proof milli_finite as Mi. pose proof micro_finite as Mu. pose proof pi_finite as Pi.
  assert (NZ : value F_MILLI <> 0%R).
  { intros C. pose proof (sf_zero F_MILLI Mi C) as S. discriminate S. }
  split; [apply (un_gives _ (fun t => fmul t F_MILLI)); [intros ? ?; reflexivity | apply fmul_double; [apply F | apply Mi] | apply fmul_rounded; assumption] |].
  split; [apply (un_gives _ (fun t => fmul t F_MILLI)); [intros ? ?; reflexivity | apply fmul_double; [apply F | apply Mi] | apply fmul_rounded; assumption] |].
  split; [apply (un_gives _ (fun t => fmul t F_MICRO)); [intros ? ?; reflexivity | apply fmul_double; [apply F | apply Mu] | apply fmul_rounded; assumption] |].
  split; [apply (un_gives _ (fun t => fmul t F_MICRO)); [intros ? ?; reflexivity | apply fmul_double; [apply F | apply Mu] | apply fmul_rounded; assumption] |].
  split. { apply (un_gives _ (fun t => fdiv (fmul t F_PI) F_180)); [intros ? ?; reflexivity | | ].
           - apply fdiv_double; [apply fmul_double; [apply F | apply Pi] | apply F8].
           - exists (fmul x F_PI). split; [apply fmul_rounded; assumption |]. intros Ft.
             rewrite <- V8. apply fdiv_rounded; [exact Ft | exact F8 | rewrite V8; lra]. }
  split. { apply (un_gives _ (fun t => fdiv (fmul t F_MILLI) F_MINUTE)); [intros ? ?; reflexivity | | ].
           - apply fdiv_double; [apply fmul_double; [apply F | apply Mi] | apply Fm].
           - exists (fmul x F_MILLI). split; [apply fmul_rounded; assumption |]. intros Ft.
             rewrite <- Vm. apply fdiv_rounded; [exact Ft | exact Fm | rewrite Vm; lra]. }
  split. { apply (un_gives _ (fun t => fdiv (fmul t F_MILLI) F_ONE)); [intros ? ?; reflexivity | | ].
           - apply fdiv_double; [apply fmul_double; [apply F | apply Mi] | apply F1].
           - exists (fmul x F_MILLI). split; [apply fmul_rounded; assumption |]. intros Ft.
             pose proof (fdiv_rounded _ _ Ft F1 ltac:(rewrite V1; lra)) as R. rewrite V1 in R.
             unfold Rdiv in R. rewrite Rinv_1, Rmult_1_r in R. exact (proj2 (rounded_exact _ _ _ Ft eq_refl R)). }
  split. { apply (un_gives _ (fun t => fdiv (fmul t F_MICRO) F_MILLI)); [intros ? ?; reflexivity | | ].
           - apply fdiv_double; [apply fmul_double; [apply F | apply Mu] | apply Mi].
           - exists (fmul x F_MICRO). split; [apply fmul_rounded; assumption |]. intros Ft.
             apply fdiv_rounded; [exact Ft | exact Mi | exact NZ]. }
  apply (un_gives _ (fun t => fmul t F_RPM)); [intros ? ?; reflexivity | apply fmul_double; [apply F | apply rpm_finite] |].
  exists F_RPM. split; [exact rpm_rounded | apply fmul_rounded; [exact F | exact rpm_finite]].
Qed.

(** The functions of the mathematical library replace their operands *)
Lemma platform_gives x y :
  word_effect P_fsin [] [] [x] [] [] [l_sin x] /\ word_effect P_fcos [] [] [x] [] [] [l_cos x] /\
  word_effect P_ftan [] [] [x] [] [] [l_tan x] /\ word_effect P_fasin [] [] [x] [] [] [l_asin x] /\
  word_effect P_facos [] [] [x] [] [] [l_acos x] /\ word_effect P_fatan [] [] [x] [] [] [l_atan x] /\
  word_effect P_fatan2 [] [] [y; x] [] [] [l_atan2 x y] /\ word_effect P_fpowf [] [] [y; x] [] [] [l_powf x y] /\
  word_effect P_fsincos [] [] [x] [] [] [l_cos x; l_sin x].
Proof.
  split; [apply (un_eff P_fsin l_sin); intros ? ?; reflexivity |].
  split; [apply (un_eff P_fcos l_cos); intros ? ?; reflexivity |].
  split; [apply (un_eff P_ftan l_tan); intros ? ?; reflexivity |].
  split; [apply (un_eff P_fasin l_asin); intros ? ?; reflexivity |].
  split; [apply (un_eff P_facos l_acos); intros ? ?; reflexivity |].
  split; [apply (un_eff P_fatan l_atan); intros ? ?; reflexivity |].
  split; [apply (bin_eff P_fatan2 l_atan2); intros ? ?; reflexivity |].
  split; [apply (bin_eff P_fpowf l_powf); intros ? ?; reflexivity |].
  weff. unfold fsincos. opb. op1.
Qed.

(** Exact integer arithmetic *)
Lemma integer_sum_gives x y a c : is_integer x a -> is_integer y c ->
  (Z.abs (a + c) <= 2 ^ 53 -> gives P_fplus [] [y; x] (a_float (fun z => is_integer z (a + c)))) /\
  (Z.abs (a - c) <= 2 ^ 53 -> gives P_fminus [] [y; x] (a_float (fun z => is_integer z (a - c)))) /\
  (Z.abs (a * c) <= 2 ^ 53 -> gives P_fstar [] [y; x] (a_float (fun z => is_integer z (a * c)))).
Proof.
  intros [F V] [G W]. pose proof (arithmetic_gives x y F G) as (A & S & M & _). rewrite V, W in *.
  assert (K : forall p n, gives p [] [y; x] (a_float (rounded (IZR n))) -> Z.abs n <= 2 ^ 53 ->
     gives p [] [y; x] (a_float (fun z => is_integer z n))).
  { intros p n (d' & f' & (-> & z & -> & D & R) & T) H. exists [], [z]. split; [| exact T].
    split; [reflexivity |]. exists z. split; [reflexivity |]. split; [exact D | apply rounded_integer; assumption]. }
  split; [intros H; apply K; [rewrite plus_IZR; exact A | exact H] |].
  split; [intros H; apply K; [rewrite minus_IZR; exact S | exact H] |].
  intros H; apply K; [rewrite mult_IZR; exact M | exact H].
Qed.
End W.
