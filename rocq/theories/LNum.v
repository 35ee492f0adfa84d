(** Numbers: reading and printing. *)
From Coq Require Import ZArith List Bool Lia ZifyBool ZifyNat.
From Verif Require Import Base Stack Mem Parser Flt State CoreM IoM FloatM FileM Exec.
From Verif Require Import LBase LStack Spec Spec4 Spec5 Spec6 Spec9 Spec10 Spec11 LState LMem LMon LStep LTask LCode LCtl LDict LDict2 LDict5 LParse.
Import ListNotations.
Open Scope Z_scope.
Open Scope m_scope.
Ltac Zify.zify_post_hook ::= Z.div_mod_to_equations.

(** ** Digits *)
Lemma digit_of_ok c d : digit c d -> digit_of c = Some d.
Proof.
  intros [d' H|d' H|d' H]; unfold digit_of.
  - replace ((48 <=? 48 + d') && (48 + d' <=? 57)) with true by lia. f_equal. lia.
  - replace ((48 <=? 55 + d') && (55 + d' <=? 57)) with false by lia. replace ((97 <=? 55 + d') && (55 + d' <=? 102)) with false by lia.
    replace ((65 <=? 55 + d') && (55 + d' <=? 70)) with true by lia. f_equal. lia.
  - replace ((48 <=? 87 + d') && (87 + d' <=? 57)) with false by lia. replace ((97 <=? 87 + d') && (87 + d' <=? 102)) with true by lia. f_equal. lia.
Qed.
Lemma digit_of_inv c d : digit_of c = Some d -> digit c d.
Proof.
  unfold digit_of. destruct ((48 <=? c) && (c <=? 57)) eqn:H1; [|destruct ((97 <=? c) && (c <=? 102)) eqn:H2; [|destruct ((65 <=? c) && (c <=? 70)) eqn:H3; [|discriminate]]]; intro K; injection K as <-.
  - replace c with (48 + (c - 48)) at 1 by lia. apply Dg_09. lia.
  - replace c with (87 + (c - 97 + 10)) at 1 by lia. apply Dg_af. lia.
  - replace c with (55 + (c - 65 + 10)) at 1 by lia. apply Dg_AF. lia.
Qed.
Definition value_from (b n : Z) (ds : list Z) : Z := fold_left (fun n d => n * b + d) ds n.
Definition congr (x y : Z) : Prop := exists k, x = y + k * 2 ^ 64.
Lemma congr_refl x : congr x x.
Proof. exists 0. lia. Qed.
Lemma congr_trans x y z : congr x y -> congr y z -> congr x z.
Proof. intros [k ->] [j ->]. exists (k + j). lia. Qed.
Lemma to_i64_wraps z : wraps_to z (to_i64 z).
Proof.
  split; [pose proof (to_i64_range z); unfold is_cell, imin, imax, two63 in *; change (2 ^ 63) with 9223372036854775808; lia|]. apply to_i64_mod.
Qed.
Lemma wraps_unique z x y : wraps_to z x -> wraps_to z y -> x = y.
Proof. intros [Hx [k Ek]] [Hy [j Ej]]. unfold is_cell in *. change (2 ^ 63) with 9223372036854775808 in *. change (2 ^ 64) with 18446744073709551616 in *. lia. Qed.
Lemma value_congr b ds : forall x y, congr x y -> congr (value_from b x ds) (value_from b y ds).
Proof.
  induction ds as [|d ds IH]; intros x y H; [exact H|]. cbn [value_from fold_left]. apply IH. destruct H as [k ->]. exists (k * b). lia.
Qed.
Lemma uint_ok b t ds : Forall2 digit t ds -> Forall (fun d => d < b) ds -> forall v0, exists x, uint_in_base_loop t b v0 = Done [] x /\ congr (value_from b v0 ds) x.
Proof.
  induction 1 as [|c d t ds Hd H IH]; intros HF v0; [exists v0; split; [reflexivity|apply congr_refl]|].
  inversion HF; subst. cbn [uint_in_base_loop]. rewrite (digit_of_ok c d Hd). replace (b <=? d) with false by lia.
  destruct (IH ltac:(assumption) (to_i64 (to_i64 (v0 * b) + d))) as (x & E1 & E2). exists x. split; [exact E1|].
  apply (congr_trans _ (value_from b (to_i64 (to_i64 (v0 * b) + d)) ds)); [|exact E2]. cbn [value_from fold_left]. apply (value_congr b ds).
  destruct (to_i64_wraps (v0 * b)) as (_ & k & Ek). destruct (to_i64_wraps (to_i64 (v0 * b) + d)) as (_ & j & Ej). exists (k + j). lia.
Qed.
Lemma uint_inv b t : forall v0 r x, uint_in_base_loop t b v0 = Done r x -> r = [] /\ exists ds, Forall2 digit t ds /\ Forall (fun d => d < b) ds.
Proof.
  induction t as [|c t IH]; intros v0 r x H; cbn [uint_in_base_loop] in H.
  - injection H as <- _. split; [reflexivity|]. exists []. split; constructor.
  - destruct (digit_of c) as [d|] eqn:Ed; [|discriminate]. destruct (b <=? d) eqn:Eb; [discriminate|]. destruct (IH _ _ _ H) as (-> & ds & A & B).
    split; [reflexivity|]. exists (d :: ds). split; constructor; [apply digit_of_inv; exact Ed|exact A|lia|exact B].
Qed.
Lemma uint_err b t : forall v0 e, uint_in_base_loop t b v0 = Err e -> e = RESULT_OUT_OF_RANGE.
Proof.
  induction t as [|c t IH]; intros v0 e H; cbn [uint_in_base_loop] in H; [discriminate|].
  destruct (digit_of c) as [d|]; [|injection H as <-; reflexivity]. destruct (b <=? d); [injection H as <-; reflexivity|]. exact (IH _ _ H).
Qed.

(** ** Tokens *)
Lemma digit_not c d : digit c d -> c <> 37 /\ c <> 35 /\ c <> 36 /\ c <> 43 /\ c <> 45 /\ c <> 39.
Proof. intros [d' H|d' H|d' H]; lia. Qed.
Lemma prefix_ok b p b' g s t : prefix b p b' -> signed g s -> (exists c d r, t = c :: r /\ digit c d) \/ t = [] -> base_prefix (p ++ g ++ t) b = (g ++ t, b').
Proof.
  intros Hp Hs Ht. inversion Hp; subst; cbn [app base_prefix]; try reflexivity.
  inversion Hs; subst; cbn [app base_prefix]; try reflexivity.
  destruct Ht as [(c & d & r & -> & Hd)|Ht]; [|rewrite Ht; reflexivity]. apply digit_not in Hd. cbn [base_prefix].
  replace (c =? 37) with false by lia. replace (c =? 35) with false by lia. replace (c =? 36) with false by lia. reflexivity.
Qed.
Lemma sign_ok g s t : signed g s -> (exists c d r, t = c :: r /\ digit c d) \/ t = [] -> sign (g ++ t) = (t, s).
Proof.
  intros Hs Ht. inversion Hs; subst; cbn [app sign]; try reflexivity.
  destruct Ht as [(c & d & r & -> & Hd)|Ht]; [|rewrite Ht; reflexivity]. apply digit_not in Hd. cbn [sign].
  replace (c =? 43) with false by lia. replace (c =? 45) with false by lia. reflexivity.
Qed.
(** every text has one reading as prefix, sign and rest *)
Lemma split_token b tok : exists p b' g s t, tok = p ++ g ++ t /\ prefix b p b' /\ signed g s /\ base_prefix tok b = (g ++ t, b') /\ sign (g ++ t) = (t, s).
Proof.
  assert (HS : forall x, exists g s t, x = g ++ t /\ signed g s /\ sign x = (t, s)).
  { intro x. destruct x as [|c x]; [exists [], 1, []; repeat split; constructor|]. cbn [sign]. destruct (c =? 43) eqn:H1.
    - apply Z.eqb_eq in H1; subst. exists [43], 1, x. repeat split; constructor.
    - destruct (c =? 45) eqn:H2; [apply Z.eqb_eq in H2; subst; exists [45], (-1), x; repeat split; constructor|]. exists [], 1, (c :: x). repeat split; constructor. }
  assert (HP : exists p b' x, tok = p ++ x /\ prefix b p b' /\ base_prefix tok b = (x, b')).
  { destruct tok as [|c x]; [exists [], b, []; repeat split; constructor|]. cbn [base_prefix]. destruct (c =? 37) eqn:H1.
    - apply Z.eqb_eq in H1; subst. exists [37], 2, x. repeat split; constructor.
    - destruct (c =? 35) eqn:H2; [apply Z.eqb_eq in H2; subst; exists [35], 10, x; repeat split; constructor|].
      destruct (c =? 36) eqn:H3; [apply Z.eqb_eq in H3; subst; exists [36], 16, x; repeat split; constructor|]. exists [], b, (c :: x). repeat split; constructor. }
  destruct HP as (p & b' & x & -> & P1 & P2). destruct (HS x) as (g & s & t & -> & S1 & S2). exists p, b', g, s, t. auto.
Qed.
Lemma quoted_char_ok tok : (exists c, quoted_char tok = Some c /\ tok = [39; c; 39]) \/ (quoted_char tok = None /\ ~ quoted tok).
Proof.
  unfold quoted_char, quoted. destruct tok as [|q1 [|c [|q2 [|x l]]]]; try (right; split; [reflexivity|intros (c0 & K); discriminate K]).
  destruct ((q1 =? 39) && (q2 =? 39)) eqn:K.
  - left. exists c. assert (q1 = 39 /\ q2 = 39) as (-> & ->) by lia. auto.
  - right. split; [reflexivity|]. intros (c0 & EQ). injection EQ as -> _ ->. discriminate K.
Qed.

(** ** Float literals *)
Definition dec (c : Z) : bool := (48 <=? c) && (c <=? 57).
Lemma dec_digit c : dec c = true -> digit c (c - 48) /\ c - 48 < 10.
Proof. unfold dec. intro H. split; [|lia]. replace c with (48 + (c - 48)) at 1 by lia. apply Dg_09. lia. Qed.
Lemma digit_dec c d : digit c d -> d < 10 -> dec c = true /\ d = c - 48.
Proof. unfold dec. intros [d' H|d' H|d' H] Hd; lia. Qed.
Lemma value_mono ds : forall n, 0 <= n -> Forall (fun d => 0 <= d) ds -> n <= value_from 10 n ds.
Proof.
  induction ds as [|d ds IH]; intros n Hn HF; [cbn; lia|]. inversion HF; subst. cbn [value_from fold_left]. specialize (IH (n * 10 + d) ltac:(lia) ltac:(assumption)). unfold value_from in IH. lia.
Qed.
Lemma digits_pos t ds : Forall2 digit t ds -> Forall (fun d => 0 <= d) ds.
Proof. induction 1 as [|c d t ds H H2 IH]; constructor; [destruct H; lia|exact IH]. Qed.
Lemma digits_length t ds : Forall2 digit t ds -> List.length t = List.length ds.
Proof. induction 1; cbn; congruence. Qed.
(** the reading of decimal digits up to the first other character *)
Lemma uint_loop_inv t : forall n r x, 0 <= n -> uint_loop t n = Done r x ->
  exists ti i, t = ti ++ r /\ Forall2 digit ti i /\ Forall (fun d => d < 10) i /\ x = value_from 10 n i /\ (n < 2 ^ 63 -> x < 2 ^ 63) /\ (match r with c :: _ => dec c = false | [] => True end).
Proof.
  induction t as [|c t IH]; intros n r x Hn H; cbn [uint_loop] in H.
  - injection H as <- <-. exists [], []. repeat split; try constructor. auto.
  - fold (dec c) in H. destruct (dec c) eqn:Ed.
    + destruct (in_i64 (n * 10) && in_i64 (n * 10 + (c - 48))) eqn:Ei; [|discriminate]. destruct (dec_digit c Ed) as (D1 & D2).
      unfold dec in Ed. destruct (IH (n * 10 + (c - 48)) r x ltac:(lia) H) as (ti & i & -> & A & B & C & D & F).
      exists (c :: ti), ((c - 48) :: i). repeat split; try (constructor; assumption); try assumption.
      intros _. apply D. unfold in_i64, imin, imax, two63 in Ei. change (2 ^ 63) with 9223372036854775808. lia.
    + injection H as <- <-. exists [], []. repeat split; try constructor; auto.
Qed.
Lemma uint_loop_ok ti i : Forall2 digit ti i -> forall r n, Forall (fun d => d < 10) i -> 0 <= n -> value_from 10 n i < 2 ^ 63 -> (match r with c :: _ => dec c = false | [] => True end) ->
  uint_loop (ti ++ r) n = Done r (value_from 10 n i).
Proof.
  induction 1 as [|c d ti i Hd H IH]; intros r n HF Hn HV Hr.
  - cbn [app]. destruct r as [|c r]; [reflexivity|]. cbn [uint_loop]. fold (dec c). rewrite Hr. reflexivity.
  - inversion HF; subst. destruct (digit_dec c d Hd) as (D1 & D2); [assumption|]. cbn [app uint_loop]. fold (dec c). rewrite D1. subst d.
    assert (0 <= c - 48) by (destruct Hd; lia). cbn [value_from fold_left] in HV. pose proof (value_mono i (n * 10 + (c - 48)) ltac:(lia) (digits_pos _ _ H)) as K. unfold value_from in K.
    replace (in_i64 (n * 10) && in_i64 (n * 10 + (c - 48))) with true by (unfold in_i64, imin, imax, two63; change (2 ^ 63) with 9223372036854775808 in *; lia).
    rewrite IH; [reflexivity|assumption|lia|exact HV|exact Hr].
Qed.
Lemma fraction_loop_eq t : forall n k, fraction_loop t n k =
  match uint_loop t n with Done r x => Done r (x, k + (zlen t - zlen r)) | Err e => Err e end.
Proof.
  induction t as [|c t IH]; intros n k; cbn [fraction_loop uint_loop].
  - f_equal. f_equal. cbn. lia.
  - fold (dec c). destruct (dec c); [|f_equal; f_equal; lia]. destruct (in_i64 (n * 10) && in_i64 (n * 10 + (c - 48))); [|reflexivity].
    rewrite IH. destruct (uint_loop t (n * 10 + (c - 48))); [|reflexivity]. f_equal. f_equal. unfold zlen. cbn [List.length]. lia.
Qed.

Section N.
Context {E : Env}.
Implicit Types (v : vm).

(** the effect of a recognised integer *)
Definition take_integer (x : Z) : M unit := k <- is_compiling ;; if (k : bool) then compile_integer x else s_push x.

Lemma eval_base tok v b : base_is v b -> evaluate_integer tok v =
  match quoted_char tok with
  | Some c => take_integer c v
  | None => match uint_in_base (fst (sign (fst (base_prefix tok b)))) (snd (base_prefix tok b)) with
    | Done (_ :: _) _ => Ok (tt, set_v_err (Some UNSUPPORTED_OPERATION) v)
    | Done [] value => take_integer (to_i64 (snd (sign (fst (base_prefix tok b))) * value)) v
    | Err e => Ok (tt, set_v_err (Some e) v)
    end
  end.
Proof.
  intro HB. unfold evaluate_integer. rewrite (bind_Ok _ _ v b v); [|unfold ds_get, base_is in *; rewrite HB; reflexivity].
  destruct (quoted_char tok); [reflexivity|]. cbv zeta. destruct (uint_in_base _ _) as [[|? ?] ?|?]; reflexivity.
Qed.
(** a numeral *)
Lemma eval_numeral tok v b n : base_is v b -> numeral b tok n -> exists x, wraps_to n x /\ evaluate_integer tok v = take_integer x v.
Proof.
  intros HB HN. rewrite (eval_base tok v b HB). inversion HN as [p b' g s t ds Hp Hs Ht H2 HF Etok En]. subst.
  assert (HD : (exists c d r, t = c :: r /\ digit c d) \/ t = []) by (destruct H2; [congruence|left; eauto 10]).
  destruct (quoted_char_ok (p ++ g ++ t)) as [(c & _ & Eq)|(-> & _)].
  { exfalso. destruct t as [|t0 t']; [congruence|]. inversion H2 as [|? d0 ? ds0 Hd0 Hr0]; subst. pose proof (digit_not _ _ Hd0) as K.
    inversion Hp; subst; inversion Hs; subst; cbn [app] in Eq; try discriminate Eq; injection Eq as Eq0; lia. }
  rewrite (prefix_ok b p b' g s t Hp Hs HD). cbn [fst snd]. rewrite (sign_ok g s t Hs HD). cbn [fst snd].
  destruct (uint_ok b' t ds H2 HF 0) as (x & E1 & E2). unfold uint_in_base. rewrite E1. exists (to_i64 (s * x)). split; [|reflexivity].
  destruct (to_i64_wraps (s * x)) as (A & k & B). split; [exact A|]. destruct E2 as (j & E2). change (positional b' ds) with (value_from b' 0 ds). rewrite E2. exists (s * j + k). lia.
Qed.
Lemma eval_digitless tok v b : base_is v b -> digitless b tok -> evaluate_integer tok v = take_integer 0 v.
Proof.
  intros HB HN. rewrite (eval_base tok v b HB). inversion HN as [p b' g s Hp Hs Etok]. subst.
  destruct (quoted_char_ok (p ++ g)) as [(c & _ & Eq)|(-> & _)].
  { exfalso. inversion Hp; subst; inversion Hs; subst; discriminate Eq. }
  replace (p ++ g) with (p ++ g ++ []) by (rewrite app_nil_r; reflexivity).
  rewrite (prefix_ok b p b' g s [] Hp Hs (or_intror eq_refl)). cbn [fst snd]. rewrite (sign_ok g s [] Hs (or_intror eq_refl)). cbn [fst snd].
  unfold uint_in_base. cbn [uint_in_base_loop]. rewrite Z.mul_0_r. reflexivity.
Qed.
Lemma eval_quoted c v b : base_is v b -> evaluate_integer [39; c; 39] v = take_integer c v.
Proof. intros HB. rewrite (eval_base _ v b HB). reflexivity. Qed.
Lemma eval_other tok v b : base_is v b -> (forall n, ~ numeral b tok n) -> ~ digitless b tok -> ~ quoted tok ->
  evaluate_integer tok v = Ok (tt, set_v_err (Some RESULT_OUT_OF_RANGE) v).
Proof.
  intros HB H1 H2 H3. rewrite (eval_base tok v b HB). destruct (quoted_char_ok tok) as [(c & _ & ->)|(-> & _)]; [exfalso; apply H3; exists c; reflexivity|].
  destruct (split_token b tok) as (p & b' & g & s & t & Et & Hp & Hs & -> & S2). cbn [fst snd]. rewrite S2. cbn [fst snd]. unfold uint_in_base.
  destruct (uint_in_base_loop t b' 0) as [r x|e] eqn:EU; [|apply uint_err in EU; subst e; reflexivity].
  destruct (uint_inv _ _ _ _ _ EU) as (_ & ds & D1 & D2). exfalso. subst tok. destruct t as [|t0 t'].
  - rewrite app_nil_r in *. apply H2. exact (NoDigit b p b' g s Hp Hs).
  - apply (H1 (s * positional b' ds)). apply (Numeral b p b' g s (t0 :: t') ds Hp Hs); [discriminate|exact D1|exact D2].
Qed.

Definition take_float (x : Z) : M unit := k <- is_compiling ;; if (k : bool) then compile_float x else f_push x.

Lemma sign_inv tok : exists g s t, tok = g ++ t /\ signed g s /\ sign tok = (t, s).
Proof.
  destruct tok as [|c x]; [exists [], 1, []; repeat split; constructor|]. cbn [sign]. destruct (c =? 43) eqn:H1.
  - apply Z.eqb_eq in H1; subst. exists [43], 1, x. repeat split; constructor.
  - destruct (c =? 45) eqn:H2; [apply Z.eqb_eq in H2; subst; exists [45], (-1), x; repeat split; constructor|]. exists [], 1, (c :: x). repeat split; constructor.
Qed.
Lemma fraction_inv t r fr : fraction t = Done r fr ->
  exists f tf, t = tf ++ r /\ fraction_text f tf /\ fr = match f with Some ds => Some (positional 10 ds, zlen ds) | None => None end /\ (match r with c :: _ => tf <> [] -> dec c = false | [] => True end).
Proof.
  unfold fraction. destruct t as [|c t]; [intro H; injection H as <- <-; exists None, []; repeat split; constructor|].
  destruct (c =? 46) eqn:Ec; [|intro H; injection H as <- <-; exists None, []; repeat split; [constructor|intro K; congruence]].
  apply Z.eqb_eq in Ec. subst c. rewrite fraction_loop_eq. destruct (uint_loop t 0) as [r0 x|e] eqn:EU; [|discriminate]. intro H. injection H as <- <-.
  destruct (uint_loop_inv t 0 r0 x ltac:(lia) EU) as (ti & i & -> & A & B & C & D & F). exists (Some i), (46 :: ti). split; [reflexivity|].
  split; [constructor; split; [exact A|split; [exact B|]]; change (positional 10 i) with (value_from 10 0 i); rewrite <- C; apply D; reflexivity|].
  split; [|destruct r0; [exact I|intros _; exact F]]. f_equal. f_equal; [exact C|]. unfold zlen. rewrite app_length. rewrite (digits_length _ _ A). lia.
Qed.
Lemma exponent_inv t r o : exponent t = Done r o -> (o = None /\ r = t) \/
  exists m eg es tx x, t = [m] ++ eg ++ tx ++ r /\ (m = 69 \/ m = 101) /\ signed eg es /\ decimal tx x /\ o = Some (es, positional 10 x).
Proof.
  assert (HA : forall input r o, (let q := sign input in match uint (fst q) with Done rest e => Done rest (Some (snd q, e)) | Err x => Err x end) = Done r o ->
    exists eg es tx x, input = eg ++ tx ++ r /\ signed eg es /\ decimal tx x /\ o = Some (es, positional 10 x)).
  { intros input r0 o0. destruct (sign_inv input) as (g & s & t0 & -> & S1 & S2). rewrite S2. cbn [fst snd]. unfold uint. destruct (uint_loop t0 0) as [r1 x|e] eqn:EU; [|discriminate].
    intro H. injection H as <- <-. destruct (uint_loop_inv t0 0 r1 x ltac:(lia) EU) as (ti & i & -> & A & B & C & D & F). exists g, s, ti, i. split; [reflexivity|]. split; [exact S1|].
    split; [split; [exact A|split; [exact B|]]; change (positional 10 i) with (value_from 10 0 i); rewrite <- C; apply D; reflexivity|]. rewrite C. reflexivity. }
  unfold exponent. unfold ascii_p. destruct t as [|c t]; [intro H; injection H as <- <-; left; auto|].
  destruct (c =? 69) eqn:E1; cbn [fst snd].
  - intro H. apply HA in H as (eg & es & tx & x & -> & S & D & ->). right. exists 69, eg, es, tx, x. apply Z.eqb_eq in E1. subst c. cbn [app]. auto.
  - destruct (c =? 101) eqn:E2; cbn [fst snd]; [|intro H; injection H as <- <-; left; auto].
    intro H. apply HA in H as (eg & es & tx & x & -> & S & D & ->). right. exists 101, eg, es, tx, x. apply Z.eqb_eq in E2. subst c. cbn [app]. auto.
Qed.
Lemma eval_float_cases tok v : (exists e, evaluate_float tok v = Ok (tt, set_v_err (Some e) v)) \/
  (exists s i f es x, float_text s i f es x tok /\ idx_flit (v_refs v) <> 0 /\ evaluate_float tok v = take_float (float_value s i f es x) v).
Proof.
  unfold evaluate_float. cbv zeta. destruct (sign_inv tok) as (g & s & t0 & -> & S1 & S2). rewrite S2. cbn [fst snd]. unfold uint.
  destruct (uint_loop t0 0) as [r1 x1|e] eqn:EU; [|left; exists e; reflexivity].
  destruct (uint_loop_inv t0 0 r1 x1 ltac:(lia) EU) as (ti & i & -> & A & B & C & D & F).
  destruct (zlen r1 =? zlen (ti ++ r1)) eqn:EL; [left; eexists; reflexivity|].
  destruct (fraction r1) as [r2 fr|e] eqn:EF; [|left; exists e; reflexivity]. apply fraction_inv in EF as (f & tf & -> & F1 & -> & F3).
  destruct (exponent r2) as [r3 o|e] eqn:EX; [|left; exists e; reflexivity]. apply exponent_inv in EX as [(-> & ->)|(m & eg & es & tx & x & -> & M & X1 & X2 & ->)]; [left; destruct r2; eexists; reflexivity|].
  destruct r3 as [|c3 r3]; [|left; eexists; reflexivity]. rewrite app_nil_r. unfold refs_get. rewrite bind_gets.
  destruct (idx_flit (v_refs v) =? 0) eqn:EI; [left; eexists; reflexivity|]. right. exists s, i, f, es, x. split; [|split; [lia|]].
  - apply (FT s i f es x g ti tf m eg tx); try assumption; [split; [exact A|split; [exact B|]]; change (positional 10 i) with (value_from 10 0 i); rewrite <- C; apply D; reflexivity|].
    intros ->. unfold zlen in EL. cbn [app] in EL. lia.
  - unfold float_value. change (positional 10 i) with (value_from 10 0 i). rewrite <- C. destruct f; reflexivity.
Qed.
Lemma not_dec_sign c : c = 69 \/ c = 101 \/ c = 46 -> dec c = false.
Proof. unfold dec. lia. Qed.
Lemma sign_skip g s t : signed g s -> (match t with c :: _ => c <> 43 /\ c <> 45 | [] => True end) -> sign (g ++ t) = (t, s).
Proof.
  intros [| |] H; cbn [app sign]; try reflexivity. destruct t as [|c t]; [reflexivity|]. cbn [sign]. destruct H as (H1 & H2).
  replace (c =? 43) with false by lia. replace (c =? 45) with false by lia. reflexivity.
Qed.
Lemma eval_float_ok tok v s i f es x : float_text s i f es x tok -> idx_flit (v_refs v) <> 0 ->
  evaluate_float tok v = take_float (float_value s i f es x) v.
Proof.
  intros HT HI. inversion HT as [g ti tf m eg tx S1 (A & B & C) Hn F M S2 (A' & B' & C') Etok]. subst tok. unfold evaluate_float. cbv zeta.
  rewrite (sign_skip g s _ S1). 2:{ destruct A as [|c d ti i Hd]; [congruence|]. change (c <> 43 /\ c <> 45). apply digit_not in Hd. lia. }
  cbn [fst snd]. unfold uint. rewrite (uint_loop_ok ti i A (tf ++ [m] ++ eg ++ tx) 0 B ltac:(lia) C). 2:{ destruct F; [change (dec m = false)|change (dec 46 = false)]; apply not_dec_sign; lia. }
  replace (zlen (tf ++ [m] ++ eg ++ tx) =? zlen (ti ++ tf ++ [m] ++ eg ++ tx)) with false.
  2:{ symmetry. apply Z.eqb_neq. unfold zlen. rewrite (app_length ti). destruct ti; [congruence|]. cbn [List.length]. lia. }
  assert (EF : fraction (tf ++ [m] ++ eg ++ tx) = Done ([m] ++ eg ++ tx) (match f with Some ds => Some (positional 10 ds, zlen ds) | None => None end)).
  { destruct F as [|t ds (D1 & D2 & D3)]; cbn [app].
    - unfold fraction. replace (m =? 46) with false by lia. reflexivity.
    - cbn [fraction]. rewrite Z.eqb_refl, fraction_loop_eq. change (m :: eg ++ tx) with ([m] ++ eg ++ tx). rewrite (uint_loop_ok t ds D1 ([m] ++ eg ++ tx) 0 D2 ltac:(lia) D3).
      2:{ change (dec m = false). apply not_dec_sign. lia. } f_equal. f_equal. f_equal. unfold zlen. rewrite app_length, (digits_length _ _ D1). lia. }
  rewrite EF. assert (EX : exponent ([m] ++ eg ++ tx) = Done [] (Some (es, positional 10 x))).
  { unfold exponent, ascii_p. cbn [app]. assert (HU : uint_loop tx 0 = Done [] (positional 10 x)) by (rewrite <- (app_nil_r tx); apply (uint_loop_ok tx x A' [] 0 B' ltac:(lia) C' I)).
    assert (HS : sign (eg ++ tx) = (tx, es)) by (apply (sign_skip eg es tx S2); destruct A' as [|c d tx x Hd]; [exact I|]; change (c <> 43 /\ c <> 45); apply digit_not in Hd; lia).
    unfold uint. destruct M as [-> | ->]; cbn [Z.eqb Pos.eqb fst snd]; rewrite HS; cbn [fst snd]; rewrite HU; reflexivity. }
  rewrite EX. unfold refs_get. rewrite bind_gets. replace (idx_flit (v_refs v) =? 0) with false by lia. unfold float_value. destruct f; reflexivity.
Qed.
End N.
