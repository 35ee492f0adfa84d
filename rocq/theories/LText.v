(** Words, delimited text and numbers: the statements of the properties. *)
From Coq Require Import ZArith List Bool Lia ZifyBool ZifyNat.
From Verif Require Import Base Stack Mem Parser Flt State CoreM IoM FloatM FileM Exec.
From Verif Require Import LBase LStack Spec Spec4 Spec5 Spec6 Spec9 Spec10 Spec11 LState LMem LMon LStep LTask LCode LCtl LDict LDict2 LDict5 LParse LNum LNum2.
Import ListNotations.
Open Scope Z_scope.
Open Scope m_scope.
Ltac Zify.zify_post_hook ::= Z.div_mod_to_equations.

Lemma numeral_text b t m : numeral b t m -> t <> [] /\ Forall (fun c => ~ blank c) t.
Proof.
  intros [p b' g s u ds Hp Hs Hu H2 HF]. assert (HU : Forall (fun c => ~ blank c) u).
  { clear Hu HF. induction H2 as [|c d u ds Hd H IH]; constructor; [|exact IH]. unfold blank. cbn [In]. destruct Hd; lia. }
  split.
  - intro K. apply app_eq_nil in K as (_ & K). apply app_eq_nil in K as (_ & K). contradiction.
  - apply Forall_app. split; [inversion Hp; subst; repeat constructor; unfold blank; cbn [In]; lia|].
    apply Forall_app. split; [inversion Hs; subst; repeat constructor; unfold blank; cbn [In]; lia|exact HU].
Qed.
Lemma padded_token b t m n : numeral b t m -> tokens (repeat 32 n ++ t) [t].
Proof.
  intro H. destruct (numeral_text b t m H) as (A & B). rewrite <- (app_nil_r t) at 1. constructor; [|exact A|exact B|left; reflexivity|constructor; constructor].
  rewrite Forall_forall. intros x Hx. apply repeat_spec in Hx. subst x. unfold blank. cbn [In]. lia.
Qed.

Lemma float_mark s i f es x tok : float_text s i f es x tok -> In 69 tok \/ In 101 tok.
Proof.
  intros [g ti tf m eg tx _ _ _ _ [-> | ->] _ _]; [left|right]; apply in_or_app; right; apply in_or_app; right; apply in_or_app; right; left; reflexivity.
Qed.
Section T.
Context {E : Env}.
Implicit Types (v : vm).

Lemma next_word v s cs ts : rest_of_input v s -> utf8_text s cs -> v_tkn v <> None -> tokens s ts -> forall fuel,
  exists n r cs' v', quiet fuel P_parse_word v v' /\ token_read v (hd [] ts) n v' /\ st_idx (st v) <= n /\
    rest_of_input v' r /\ utf8_text r cs' /\ tokens r (tl ts).
Proof.
  intros HR HU HT HK fuel. destruct (next_word_ok fuel (fun _ => ret tt) v s cs ts HR HU HT HK) as (t & n & r & cs' & v' & A & B & C & D & F & -> & G).
  exists n, r, cs', v'. split; [intro ew; exact A|]. auto.
Qed.
Lemma one_reading s cs : utf8_text s cs -> exists ts, tokens s ts /\ forall ts', tokens s ts' -> ts' = ts.
Proof.
  intro H. destruct (chars_ok s cs H) as (A & B & _). destruct (tokens_exist (chars_of s) A) as (ts & K). rewrite B in K. exists ts. split; [exact K|].
  intros ts' K'. symmetry. exact (tokens_unique s ts K ts' K').
Qed.
Lemma parse_text v s cs d l : rest_of_input v s -> utf8_text s cs -> v_tkn v <> None -> stack_has (t_s (cur v)) (d :: l) -> forall fuel,
  exists t r v1 v', text_upto d s t r /\ quiet fuel P_parse v v' /\ only_data_stack v v1 /\ stack_has (t_s (cur v1)) l /\
    token_read v1 t (st_idx (st v) + (zlen s - zlen r)) v' /\ rest_of_input v' r.
Proof.
  intros HR HU HT HS fuel. destruct (parse_ok v s cs d l HR HU HT HS) as (t & r & v1 & v' & A & B & C & D & F & G). exists t, r, v1, v'.
  split; [exact A|]. split; [intro ew; exact D|]. auto.
Qed.
Lemma comment_text v s cs d w l : rest_of_input v s -> utf8_text s cs -> v_tkn v <> None -> stack_has (t_s (cur v)) l -> zlen l < 255 ->
  In (w, d) [(P_imm_paren, 41); (P_imm_backslash, 10)] -> forall fuel,
  exists t r v1 v', text_upto d s t r /\ quiet fuel w v v' /\ only_data_stack1 v v1 /\ stack_has (t_s (cur v1)) l /\
    token_read v1 t (st_idx (st v) + (zlen s - zlen r)) v' /\ rest_of_input v' r.
Proof.
  intros HR HU HT HS HL HW fuel. destruct (parse_after_push v s cs d l HR HU HT HS HL) as (t & r & v1 & v' & A & B & C & D & F & G). exists t, r, v1, v'.
  split; [exact A|]. split; [|auto]. cbn [In] in HW. destruct HW as [HW|[HW|[]]]; injection HW as <- <-; intro ew; exact D.
Qed.
(** printing, then reading what was printed *)
Lemma round_trip fuel v b n w l o : In b [2; 8; 10; 16] -> base_is v b -> is_cell n -> - 2 ^ 63 + 65 <= w < 2 ^ 63 ->
  v_out v = Some o -> stack_has (t_s (cur v)) (w :: n :: l) ->
  exists k t v1 v', 0 <= k /\ k + zlen t = Z.max w (zlen t) /\ tokens (repeat 32 (Z.to_nat k) ++ t) [t] /\
    quiet fuel P_dot_r v v' /\ only_data_stack v v1 /\ stack_has (t_s (cur v1)) l /\
    v' = set_v_out (Some (o ++ repeat 32 (Z.to_nat k) ++ t)) (set_v_hld t v1) /\
    (forall u m, dict_ok u -> words u < Z.of_nat fuel -> v_tkn u = Some t -> newest u t None -> st_compiling (st u) = false -> base_is u b ->
       stack_has (t_s (cur u)) m -> zlen m < 255 ->
       exists u', quiet fuel P_interpret_token u u' /\ stack_has (t_s (cur u')) (n :: m) /\ only_data_stack (set_v_err None u) u').
Proof.
  intros Hb HB Hn Hw HO HS. destruct (dot_r_ok fuel (fun _ => ret tt) v b n w l o Hb HB Hn Hw HO HS) as (k & t & m & v1 & A & B & C & D & F & G & K).
  exists k, t, v1, (set_v_out (Some (o ++ repeat 32 (Z.to_nat k) ++ t)) (set_v_hld t v1)). split; [exact F|]. split; [exact G|]. split; [apply (padded_token b t m); exact C|].
  split; [|split; [exact A|split; [exact B|split; [reflexivity|]]]].
  - intro ew. destruct (dot_r_ok fuel ew v b n w l o Hb HB Hn Hw HO HS) as (k' & t' & m' & v1' & _). rewrite <- K. cbn [exec_prim]. unfold dot_r.
    assert (HB' : ds_get (fun d => get_isize d (base_addr d)) v = Ok (b, v)) by (unfold ds_get, base_is in *; rewrite HB; reflexivity).
    rewrite !(bind_Ok (ds_get (fun d => get_isize d (base_addr d))) _ v b v) by exact HB'. cbn [In] in Hb. destruct Hb as [<-|[<-|[<-|[<-|[]]]]]; reflexivity.
  - intros u l' HD HF HT HN HC HB' HS' HL. apply (interpret_integer fuel u t n l' HD HF HT HN HC); [|exact HS'|exact HL]. exists b. split; [exact HB'|]. left. exists m. auto.
Qed.
(** exponents of 32 bits *)
Lemma float_value_exact s i f es x : - 2 ^ 31 <= es * positional 10 x < 2 ^ 31 ->
  float_value s i f es x = fmul (fmul (f_of_Z s false) (fadd (f_of_Z (positional 10 i) false)
         (match f with Some ds => fdiv (f_of_Z (positional 10 ds) false) (l_powi F_TEN (zlen ds)) | None => F_ZERO end)))
       (l_powi F_TEN (es * positional 10 x)).
Proof.
  intro H. unfold float_value. change (2 ^ 31) with 2147483648 in *. rewrite to_i64_id by (unfold imin, imax, two63; lia). replace (to_i32 (es * positional 10 x)) with (es * positional 10 x); [reflexivity|].
  unfold to_i32. generalize dependent (es * positional 10 x). intros z H. cbv zeta. destruct (z mod 4294967296 <? 2147483648) eqn:K; lia.
Qed.
Lemma no_digits_refused fuel v tok b : dict_ok v -> words v < Z.of_nat fuel -> v_tkn v = Some tok -> newest v tok None -> base_is v b ->
  no_digits tok -> ~ digitless b tok -> ~ quoted tok ->
  exists v1, raised (-13) v v1 /\ forall ew,
    exec_prim fuel ew P_interpret_token v = ew (v_handler v) v1 /\ exec_prim fuel ew P_compile_token v = ew (v_handler v) v1.
Proof.
  intros HD HF HT HN HB H0 H1 H2. apply (token_refused fuel v tok HD HF HT HN).
  - exists b. split; [exact HB|]. split; [|auto]. intros n K. inversion K as [p b' g s t ds Hp Hs Ht HG HH Etok En]. subst. destruct HG as [|c d t ds Hd HG]; [congruence|].
    apply (H0 c d); [|exact Hd]. apply in_or_app. right. apply in_or_app. right. left. reflexivity.
  - intros s i f es x K. inversion K as [g ti tf m eg tx S1 (A & B & C) Hn F M S2 D Etok]. subst. destruct A as [|c d ti i Hd A]; [congruence|].
    apply (H0 c d); [|exact Hd]. apply in_or_app. right. apply in_or_app. left. left. reflexivity.
Qed.
Lemma float_literal fuel v tok s i f es x l : dict_ok v -> words v < Z.of_nat fuel -> v_tkn v = Some tok -> newest v tok None -> no_integer v tok ->
  st_compiling (st v) = false -> idx_flit (v_refs v) <> 0 -> float_text s i f es x tok -> stack_has (t_f (cur v)) l -> zlen l < 255 ->
  - 2 ^ 31 <= es * positional 10 x < 2 ^ 31 ->
  let y := fmul (fmul (f_of_Z s false) (fadd (f_of_Z (positional 10 i) false)
             (match f with Some ds => fdiv (f_of_Z (positional 10 ds) false) (l_powi F_TEN (zlen ds)) | None => F_ZERO end)))
             (l_powi F_TEN (es * positional 10 x)) in
  exists v', quiet fuel P_interpret_token v v' /\ stack_has (t_f (cur v')) (y :: l) /\
    v' = set_v_tkn (Some tok) (set_f (push (t_f (cur v)) y) (set_v_err None v)).
Proof.
  intros HD HF HT HN HI HC HL HX HS HZ HE y. unfold y. rewrite <- (float_value_exact s i f es x HE). apply (interpret_float fuel v tok s i f es x l); assumption.
Qed.
End T.
