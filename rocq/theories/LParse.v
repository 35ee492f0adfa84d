(** Parsing words and delimited text. *)
From Coq Require Import ZArith List Bool Lia ZifyBool ZifyNat.
From Verif Require Import Base Stack Mem Parser Flt State CoreM IoM FloatM FileM Exec.
From Verif Require Import LBase LStack Spec Spec4 Spec9 Spec10 Spec11 LState LMem LMon LStep LTask LCode LDict LDict2 LDict5.
Import ListNotations.
Open Scope Z_scope.
Open Scope m_scope.
Ltac Zify.zify_post_hook ::= Z.div_mod_to_equations.

(** ** UTF-8 *)
Lemma blank_iff c : blank c <-> is_ws c = true.
Proof.
  unfold blank, is_ws. cbn [In]. split.
  - intros [<-|[<-|[<-|[<-|[]]]]]; reflexivity.
  - rewrite !orb_true_iff, !Z.eqb_eq. intros [[[H|H]|H]|H]; subst; auto.
Qed.
Lemma char_first bs c : utf8_char bs c -> exists a r, bs = a :: r /\ utf8_width a = List.length bs /\ (a < 128 \/ 192 <= a) /\ utf8_value bs = c.
Proof.
  intros [a H|a x H1 H2|a x y H1 H2 H3 H4|a x y z H1 H2 H3 H4 H5]; do 2 eexists; (split; [reflexivity|]); cbn [List.length utf8_value]; unfold utf8_width.
  - replace (a <? 128) with true by lia. repeat split; lia.
  - replace (a <? 128) with false by lia. replace (a <? 224) with true by lia. repeat split; lia.
  - replace (a <? 128) with false by lia. replace (a <? 224) with false by lia. replace (a <? 240) with true by lia. repeat split; lia.
  - replace (a <? 128) with false by lia. replace (a <? 224) with false by lia. replace (a <? 240) with false by lia. repeat split; lia.
Qed.
(** A blank character is one byte; no other character contains a blank byte *)
Lemma char_blank bs c : utf8_char bs c -> (blank c /\ bs = [c]) \/ (~ blank c /\ Forall (fun b => ~ blank b) bs).
Proof.
  intros H. assert (HB : forall x, blank x -> x < 128) by (intros x [<-|[<-|[<-|[<-|[]]]]]; lia).
  destruct H as [a H|a x H1 H2|a x y H1 H2 H3 H4|a x y z H1 H2 H3 H4 H5]; unfold tail_byte in *.
  - destruct (is_ws a) eqn:W; [left; split; [apply blank_iff; exact W|reflexivity]|right].
    assert (~ blank a) by (rewrite blank_iff; congruence). auto.
  - right. split; [|repeat constructor]; intro K; apply HB in K; lia.
  - right. split; [|repeat constructor]; intro K; apply HB in K; lia.
  - right. split; [|repeat constructor]; intro K; apply HB in K; lia.
Qed.
Lemma char_nonempty bs c : utf8_char bs c -> bs <> [].
Proof. intro H. destruct (char_first _ _ H) as (a & r & -> & _). discriminate. Qed.
Lemma char_inj bs c c' : utf8_char bs c -> utf8_char bs c' -> c = c'.
Proof.
  intros H H'. destruct (char_first _ _ H) as (_ & _ & _ & _ & _ & A). destruct (char_first _ _ H') as (_ & _ & _ & _ & _ & B). congruence.
Qed.
Definition chr (p : Z * bytes) : Prop := utf8_char (snd p) (fst p).
Definition text (l : list (Z * bytes)) : bytes := concat (map snd l).
Lemma text_cons c bs l : text ((c, bs) :: l) = bs ++ text l.
Proof. reflexivity. Qed.
Lemma chars_ok s cs : utf8_text s cs -> Forall chr (chars_of s) /\ text (chars_of s) = s /\ map fst (chars_of s) = cs.
Proof.
  intro H. unfold chars_of. assert (HF : (List.length s <= List.length s)%nat) by lia. revert HF. generalize (List.length s) at 2 3 4 5. intro f. revert f.
  induction H as [|bs c s cs Hc Hs IH]; intros f HF.
  - destruct f; repeat split; constructor.
  - destruct (char_first _ _ Hc) as (a & r & -> & W & _ & V). destruct f as [|f]; [cbn in HF; lia|]. cbn [utf8_chars app].
    change (a :: r ++ s) with ((a :: r) ++ s). rewrite W. rewrite firstn_app, Nat.sub_diag, firstn_all, firstn_O, app_nil_r.
    rewrite skipn_app, Nat.sub_diag, skipn_all, skipn_O. cbn [app]. destruct (IH f) as (A & B & C).
    { rewrite app_length in HF. cbn [List.length] in HF. lia. }
    split; [constructor; [unfold chr; cbn [fst snd]; rewrite V; exact Hc|exact A]|]. split; [|cbn [map fst]; rewrite V, C; reflexivity].
    unfold text in *. cbn [map snd concat]. rewrite B. reflexivity.
Qed.
Lemma text_utf8 l : Forall chr l -> utf8_text (text l) (map fst l).
Proof. induction 1 as [|[c bs] l H1 H2 IH]; [constructor|]. cbn [map fst]. unfold text. cbn [map snd concat]. constructor; assumption. Qed.

(** ** Words *)
Lemma pw_more l : forall idx tot tok, Forall chr l -> tok <> [] -> exists l1 l2, l = l1 ++ l2 /\
  Forall (fun b => ~ blank b) (text l1) /\ (text l2 = [] \/ exists c r, text l2 = c :: r /\ blank c) /\
  pw_loop l idx tot tok = (tok ++ text l1, if (match text l2 with [] => true | _ => false end) then tot else idx + zlen (text l1)).
Proof.
  induction l as [|[c bs] l IH]; intros idx tot tok Hl Ht.
  - exists [], []. repeat split; try constructor; [reflexivity|]. cbn. rewrite app_nil_r. reflexivity.
  - inversion Hl as [|? ? Hc Hr]; subst. cbn [pw_loop]. destruct (char_blank _ _ Hc) as [[B1 B2]|[B1 B2]]; cbn [fst snd] in *.
    + exists [], ((c, bs) :: l). rewrite (proj1 (blank_iff c) B1). split; [reflexivity|]. split; [constructor|]. subst bs. cbn [text map snd concat app].
      split; [right; eexists; eexists; split; [reflexivity|exact B1]|]. destruct tok as [|t0 tok]; [congruence|]. rewrite app_nil_r. f_equal. cbn. lia.
    + replace (is_ws c) with false by (destruct (is_ws c) eqn:W; [exfalso; apply B1, blank_iff; exact W|reflexivity]).
      destruct (IH (idx + zlen bs) tot (tok ++ bs) Hr) as (l1 & l2 & E1 & E2 & E3 & E4); [destruct tok; [congruence|discriminate]|].
      exists ((c, bs) :: l1), l2. split; [rewrite E1; reflexivity|]. split; [unfold text; cbn [map snd concat]; apply Forall_app; split; assumption|]. split; [exact E3|].
      rewrite E4, text_cons, <- app_assoc. f_equal. destruct (text l2); [reflexivity|]. unfold zlen. rewrite app_length. lia.
Qed.
Lemma pw_spec l : forall idx tot, Forall chr l -> exists l0 l1 l2, l = l0 ++ l1 ++ l2 /\ Forall blank (text l0) /\
  Forall (fun b => ~ blank b) (text l1) /\ (text l2 = [] \/ exists c r, text l2 = c :: r /\ blank c) /\ (text l1 = [] -> text l2 = []) /\
  pw_loop l idx tot [] = (text l1, if (match text l2 with [] => true | _ => false end) then tot else idx + zlen (text l0) + zlen (text l1)).
Proof.
  induction l as [|[c bs] l IH]; intros idx tot Hl.
  - exists [], [], []. repeat split; try constructor. reflexivity.
  - inversion Hl as [|? ? Hc Hr]; subst. cbn [pw_loop]. destruct (char_blank _ _ Hc) as [[B1 B2]|[B1 B2]]; cbn [fst snd] in *.
    + rewrite (proj1 (blank_iff c) B1). destruct (IH (idx + zlen bs) tot Hr) as (l0 & l1 & l2 & E1 & E2 & E3 & E4 & E5 & E6).
      exists ((c, bs) :: l0), l1, l2. split; [rewrite E1; reflexivity|]. split; [unfold text; cbn [map snd concat]; subst bs; constructor; assumption|]. repeat (split; [assumption|]).
      rewrite E6. f_equal. destruct (text l2); [reflexivity|]. rewrite text_cons. unfold zlen. rewrite app_length. lia.
    + replace (is_ws c) with false by (destruct (is_ws c) eqn:W; [exfalso; apply B1, blank_iff; exact W|reflexivity]). cbn [app].
      assert (Hb : bs <> []) by exact (char_nonempty bs c Hc).
      destruct (pw_more l (idx + zlen bs) tot bs Hr Hb) as (l1 & l2 & E1 & E2 & E3 & E4).
      exists [], ((c, bs) :: l1), l2. split; [rewrite E1; reflexivity|]. split; [constructor|]. split; [unfold text; cbn [map snd concat]; apply Forall_app; split; assumption|]. split; [exact E3|].
      split; [unfold text; cbn [map snd concat]; intro K; apply app_eq_nil in K as (K & _); contradiction|].
      rewrite E4, text_cons. f_equal. destruct (text l2); [reflexivity|]. unfold zlen. rewrite app_length. cbn [List.length text map concat]. lia.
Qed.

(** Uniqueness of the words *)
Lemma blanks_split w1 : forall w2 x1 x2, w1 ++ x1 = w2 ++ x2 -> Forall blank w1 -> Forall blank w2 ->
  (match x1 with [] => True | c :: _ => ~ blank c end) -> (match x2 with [] => True | c :: _ => ~ blank c end) -> w1 = w2 /\ x1 = x2.
Proof.
  induction w1 as [|a w1 IH]; intros w2 x1 x2 HE H1 H2 K1 K2; cbn [app] in HE.
  - destruct w2 as [|c w2]; [auto|]. cbn [app] in HE. subst x1. inversion H2; subst. contradiction.
  - inversion H1; subst. destruct w2 as [|c w2]; cbn [app] in HE.
    + subst x2. contradiction.
    + injection HE as -> HE. inversion H2; subst. destruct (IH w2 x1 x2) as (-> & ->); auto.
Qed.
Lemma nonblanks_split t1 : forall t2 r1 r2, t1 ++ r1 = t2 ++ r2 -> Forall (fun c => ~ blank c) t1 -> Forall (fun c => ~ blank c) t2 ->
  (match r1 with [] => True | c :: _ => blank c end) -> (match r2 with [] => True | c :: _ => blank c end) -> t1 = t2 /\ r1 = r2.
Proof.
  induction t1 as [|a t1 IH]; intros t2 r1 r2 HE H1 H2 K1 K2; cbn [app] in HE.
  - destruct t2 as [|c t2]; [auto|]. cbn [app] in HE. subst r1. inversion H2; subst. contradiction.
  - inversion H1; subst. destruct t2 as [|c t2]; cbn [app] in HE.
    + subst r2. contradiction.
    + injection HE as -> HE. inversion H2; subst. destruct (IH t2 r1 r2) as (-> & ->); auto.
Qed.
Lemma tokens_next w t r ts : Forall blank w -> Forall (fun c => ~ blank c) t -> (r = [] \/ exists c r', r = c :: r' /\ blank c) -> (t = [] -> r = []) ->
  tokens (w ++ t ++ r) ts -> (t = [] /\ r = [] /\ ts = []) \/ (exists l, t <> [] /\ ts = t :: l /\ tokens r l).
Proof.
  intros Hw Ht Hr Ht0 HT. assert (KR : match r with [] => True | c :: _ => blank c end) by (destruct Hr as [->|(c & r' & -> & B)]; [exact I|exact B]).
  assert (KT : match t ++ r with [] => True | c :: _ => ~ blank c end).
  { destruct t as [|c t]; [rewrite Ht0 by reflexivity; exact I|]. cbn. inversion Ht; assumption. }
  inversion HT as [s HB Es|w' t' r' l Hw' Ht' Hn' Hr' HT' Es]; subst.
  - left. apply Forall_app in HB as (_ & HB). destruct t as [|c t]; [rewrite Ht0; auto|]. inversion HB; subst. contradiction.
  - right. exists l. assert (KR' : match r' with [] => True | c :: _ => blank c end) by (destruct Hr' as [->|(c & r2 & -> & B)]; [exact I|exact B]).
    destruct (blanks_split w' w (t' ++ r') (t ++ r) Es Hw' Hw) as (-> & E2); [destruct t' as [|c t']; [congruence|]; cbn; inversion Hn'; assumption|exact KT|].
    destruct (nonblanks_split t' t r' r E2 Hn' Ht KR' KR) as (-> & ->). auto.
Qed.
Lemma tokens_exist l : Forall chr l -> exists ts, tokens (text l) ts.
Proof.
  remember (List.length l) as n eqn:En. revert l En. induction n as [n IH] using lt_wf_ind. intros l En Hl.
  destruct (pw_spec l 0 0 Hl) as (l0 & l1 & l2 & E1 & E2 & E3 & E4 & E5 & _). subst l. apply Forall_app in Hl as (H0 & Hl). apply Forall_app in Hl as (H1 & H2).
  unfold text in *. rewrite !map_app, !concat_app. destruct l1 as [|p l1].
  - exists []. constructor. cbn [map concat app]. rewrite (E5 eq_refl). rewrite app_nil_r. exact E2.
  - destruct (IH (List.length l2)) with (l := l2) as (ts & HT); [subst n; rewrite !app_length; cbn; lia|reflexivity|exact H2|].
    exists (concat (map snd (p :: l1)) :: ts). constructor; try assumption. inversion H1 as [|? ? Hp ?]; subst.
    destruct (char_first _ _ Hp) as (a & r & E & _). cbn [map concat]. rewrite E. discriminate.
Qed.
Lemma tokens_unique s ts : tokens s ts -> forall ts', tokens s ts' -> ts = ts'.
Proof.
  induction 1 as [s HB|w t r l Hw Ht Hn Hr HT IH]; intros ts' HT'.
  - inversion HT' as [|w' t' r' l' Hw' Ht' Hn' Hr' HT2]; [reflexivity|]; subst. apply Forall_app in HB as (_ & HB). apply Forall_app in HB as (HB & _).
    destruct t' as [|c t']; [congruence|]. inversion HB; subst. inversion Hn'; subst. contradiction.
  - destruct (tokens_next w t r ts' Hw Hn Hr ltac:(intro; contradiction) HT') as [(A & _)|(l' & _ & -> & HT2)]; [contradiction|]. f_equal. apply IH. exact HT2.
Qed.

Section P.
Context {E : Env}.
Implicit Types (v : vm).

Lemma slice_ok pre s cs : utf8_text s cs -> slice_from (pre ++ s) (zlen pre) = Some s.
Proof.
  intro H. unfold slice_from. replace (is_boundary (pre ++ s) (zlen pre)) with true.
  - unfold zlen. rewrite Nat2Z.id, skipn_app, skipn_all, Nat.sub_diag. reflexivity.
  - unfold is_boundary. destruct (zlen pre =? 0) eqn:E0; [reflexivity|]. destruct (zlen pre =? zlen (pre ++ s)) eqn:E1; [reflexivity|].
    unfold zlen in *. rewrite app_length in *. inversion H as [E2|bs c s' cs' Hc _ E2]; subst; [cbn [List.length] in E1; lia|].
    destruct (char_first _ _ Hc) as (a & r & -> & _ & Ha & _). rewrite app_length in *. cbn [List.length] in *. replace ((0 <? _) && _) with true by lia.
    rewrite Nat2Z.id, app_nth2, Nat.sub_diag by lia. cbn [app nth]. lia.
Qed.
Lemma utf8_split s cs : utf8_text s cs -> forall l1 l2, chars_of s = l1 ++ l2 -> utf8_text (text l2) (map fst l2) /\ s = text l1 ++ text l2.
Proof.
  intros H l1 l2 E1. destruct (chars_ok s cs H) as (A & B & _). rewrite E1 in *. apply Forall_app in A as (_ & A). split; [apply text_utf8; exact A|].
  rewrite <- B. unfold text. rewrite map_app, concat_app. reflexivity.
Qed.
Lemma rest_input v s : rest_of_input v s -> exists buf pre, get_inbuf v = Ok (Some buf, v) /\ buf = pre ++ s /\ st_idx (st v) = zlen pre /\ zlen buf < 2 ^ 63.
Proof. intros (buf & pre & H1 & H2 & H3 & H4). exists buf, pre. split; [apply get_inbuf_ok; exact H1|auto]. Qed.
Lemma cur_set_idx n v : cur (set_idx n v) = set_t_state (set_st_idx n (st v)) (cur v).
Proof. apply cur_upd. Qed.
Lemma token_read_input v t n v' buf : token_read v t n v' -> input_text v buf -> input_text v' buf /\ st_idx (st v') = n /\ v_tkn v' = Some t.
Proof.
  intros [->|(-> & ->)] H.
  - unfold input_text, st in *. change (cur (set_v_tkn (Some t) (set_idx n v))) with (cur (set_idx n v)). rewrite cur_set_idx. auto.
  - auto.
Qed.

(** [parse_word]: blanks, the word, and the rest *)
Lemma parse_word_ok fuel ew v s cs : rest_of_input v s -> utf8_text s cs -> v_tkn v <> None ->
  exists w t r cs', s = w ++ t ++ r /\ Forall blank w /\ Forall (fun c => ~ blank c) t /\ (r = [] \/ exists c r', r = c :: r' /\ blank c) /\ (t = [] -> r = []) /\
    utf8_text r cs' /\
    exists v', exec_prim fuel ew P_parse_word v = Ok (tt, v') /\ token_read v t (st_idx (st v) + zlen w + zlen t) v' /\ rest_of_input v' r.
Proof.
  intros HR HU HT. destruct HR as (buf & pre & HI & EB & EI & HL). destruct (chars_ok s cs HU) as (C1 & C2 & _).
  destruct (pw_spec (chars_of s) 0 (zlen s) C1) as (l0 & l1 & l2 & E1 & E2 & E3 & E4 & E5 & E6).
  assert (ES : s = text l0 ++ text l1 ++ text l2) by (rewrite <- C2, E1; unfold text; rewrite !map_app, !concat_app; reflexivity).
  exists (text l0), (text l1), (text l2), (map fst l2). split; [exact ES|]. repeat (split; [assumption|]).
  split; [apply (utf8_split s cs HU (l0 ++ l1) l2); rewrite <- app_assoc; exact E1|].
  pose proof (zlen_nonneg pre) as Z0. change (2 ^ 63) with 9223372036854775808 in *.
  assert (HN : snd (pw_loop (chars_of s) 0 (zlen s) []) = zlen (text l0) + zlen (text l1)).
  { rewrite E6. cbn [snd]. destruct (text l2) as [|c2 r2] eqn:E2'; [|lia]. rewrite ES. unfold zlen. rewrite !app_length. cbn. lia. }
  assert (HZ : zlen buf = zlen pre + zlen s) by (rewrite EB; unfold zlen; rewrite app_length; lia).
  assert (HZs : zlen s = zlen (text l0) + zlen (text l1) + zlen (text l2)) by (rewrite ES at 1; unfold zlen; rewrite !app_length; lia).
  pose proof (zlen_nonneg (text l0)). pose proof (zlen_nonneg (text l1)). pose proof (zlen_nonneg (text l2)).
  assert (HV : exists v', exec_prim fuel ew P_parse_word v = Ok (tt, v') /\ token_read v (text l1) (st_idx (st v) + zlen (text l0) + zlen (text l1)) v').
  - cbn [exec_prim]. unfold parse_word. destruct (v_tkn v) as [t0|] eqn:ET; [|congruence].
    rewrite (bind_Ok take_token _ v t0 (set_v_tkn None v)) by (unfold take_token; rewrite ET; reflexivity).
    rewrite (bind_Ok get_inbuf _ _ (Some buf) (set_v_tkn None v)) by (apply get_inbuf_ok; exact HI). rewrite bind_gets.
    change (st_idx (st (set_v_tkn None v))) with (st_idx (st v)). rewrite EI. destruct (zlen pre <? zlen buf) eqn:EL.
    + rewrite (bind_Ok (slice_or_panic buf (zlen pre)) _ _ s (set_v_tkn None v)) by (unfold slice_or_panic; rewrite EB, (slice_ok pre s cs HU); reflexivity).
      cbv zeta. rewrite HN. rewrite (bind_Ok (chk_u64 (zlen pre + (zlen (text l0) + zlen (text l1)))) _ _ (zlen pre + (zlen (text l0) + zlen (text l1))) (set_v_tkn None v)) by (apply chk_u64_ok; unfold two64; lia).
      rewrite bind_modify. rewrite E6. cbn [fst]. rewrite Z.add_assoc. eexists. split; [reflexivity|]. left. reflexivity.
    + replace (text l1) with (@nil Z) by (destruct (text l1) as [|q1 q2]; [reflexivity|unfold zlen in *; cbn [List.length] in *; lia]).
      replace (zlen pre + zlen (text l0) + zlen (@nil Z)) with (zlen pre) by (unfold zlen in *; cbn [List.length] in *; lia).
      eexists. split; [reflexivity|]. right. split; [congruence|reflexivity].
  - destruct HV as (v' & HV & HR). exists v'. split; [exact HV|]. split; [exact HR|]. destruct (token_read_input _ _ _ _ buf HR HI) as (K1 & K2 & K3).
    exists buf, (pre ++ text l0 ++ text l1). split; [exact K1|]. split; [rewrite EB, ES, <- !app_assoc; reflexivity|]. split; [|assumption].
    rewrite K2, EI. unfold zlen. rewrite !app_length. lia.
Qed.
Lemma next_word_ok fuel ew v s cs ts : rest_of_input v s -> utf8_text s cs -> v_tkn v <> None -> tokens s ts ->
  exists t n r cs' v', exec_prim fuel ew P_parse_word v = Ok (tt, v') /\ token_read v t n v' /\ st_idx (st v) <= n /\
    rest_of_input v' r /\ utf8_text r cs' /\ t = hd [] ts /\ tokens r (tl ts).
Proof.
  intros HR HU HT HK. destruct (parse_word_ok fuel ew v s cs HR HU HT) as (w & t & r & cs' & ES & Hw & Ht & Hr & H0 & HU' & v' & HV & HRd & HR').
  exists t, (st_idx (st v) + zlen w + zlen t), r, cs', v'. repeat (split; [assumption|]). split; [pose proof (zlen_nonneg w); pose proof (zlen_nonneg t); lia|].
  repeat (split; [assumption|]). subst s. destruct (tokens_next w t r ts Hw Ht Hr H0 HK) as [(-> & -> & ->)|(l & _ & -> & HL)].
  - split; [reflexivity|]. constructor. constructor.
  - split; [reflexivity|]. exact HL.
Qed.
Lemma next_words_ok n : forall v s cs ts, rest_of_input v s -> utf8_text s cs -> v_tkn v <> None -> tokens s ts ->
  exists v', next_words n v = Ok (map (fun i => nth i ts []) (seq 0 n), v').
Proof.
  induction n as [|n IH]; intros v s cs ts HR HU HT HK; [eexists; reflexivity|].
  destruct (next_word_ok 0 (fun _ => panic PIndex) v s cs ts HR HU HT HK) as (t & m & r & cs' & v1 & HV & HRd & _ & HR' & HU' & -> & HK').
  destruct HR as (buf & pre & HI & _). destruct (token_read_input _ _ _ _ buf HRd HI) as (_ & _ & K3).
  destruct (IH v1 r cs' (tl ts) HR' HU' ltac:(congruence) HK') as (v2 & E2). cbn [next_words]. exists v2.
  rewrite (bind_Ok (exec_prim 0 (fun _ => panic PIndex) P_parse_word) _ v tt v1) by exact HV. rewrite bind_gets. rewrite (bind_Ok (next_words n) _ v1 _ v2) by exact E2.
  rewrite K3. unfold ret. f_equal. f_equal. cbn [seq map]. f_equal; [destruct ts; reflexivity|].
  rewrite <- seq_shift, map_map. apply map_ext. intro i. destruct ts as [|t ts]; [destruct i; reflexivity|reflexivity].
Qed.

(** ** Delimited text *)
Lemma p_spec d l : forall idx tot tok, Forall chr l ->
  (~ In d (map fst l) /\ p_loop l d idx tot tok = (tok ++ text l, tot)) \/
  (exists l1 b l2, l = l1 ++ (d, b) :: l2 /\ ~ In d (map fst l1) /\
     p_loop l d idx tot tok = (tok ++ text l1, match l2 with [] => tot | _ => idx + zlen (text l1) + zlen b end)).
Proof.
  induction l as [|[c bs] l IH]; intros idx tot tok Hl.
  - left. split; [intros []|]. cbn. rewrite app_nil_r. reflexivity.
  - inversion Hl as [|? ? Hc Hr]; subst. cbn [p_loop]. destruct (c =? d) eqn:EC.
    + right. apply Z.eqb_eq in EC. subst c. exists [], bs, l. split; [reflexivity|]. split; [intros []|]. cbn [text map concat]. rewrite app_nil_r. f_equal.
      destruct l; [reflexivity|]. unfold zlen. cbn [List.length]. lia.
    + apply Z.eqb_neq in EC. destruct (IH (idx + zlen bs) tot (tok ++ bs) Hr) as [(A & B)|(l1 & b & l2 & A & B & C)].
      * left. split; [cbn; intros [K|K]; [congruence|auto]|]. rewrite B, text_cons, app_assoc. reflexivity.
      * right. exists ((c, bs) :: l1), b, l2. split; [rewrite A; reflexivity|]. split; [cbn; intros [K|K]; [congruence|auto]|].
        rewrite C, text_cons, app_assoc. f_equal. destruct l2; [reflexivity|]. unfold zlen. rewrite app_length. lia.
Qed.
Lemma upto_ok d s cs : utf8_text s cs -> exists t r cr, text_upto d s t r /\ utf8_text r cr /\
  p_loop (chars_of s) d 0 (zlen s) [] = (t, zlen s - zlen r) /\ zlen r <= zlen s /\ exists p, s = p ++ r.
Proof.
  intro HU. destruct (chars_ok s cs HU) as (C1 & C2 & C3). destruct (p_spec d (chars_of s) 0 (zlen s) [] C1) as [(A & B)|(l1 & b & l2 & A & B & C)].
  - exists s, [], []. split; [apply (Up_end d s cs HU); rewrite <- C3; exact A|]. split; [constructor|]. rewrite B. cbn [app]. rewrite C2.
    split; [f_equal; cbn; lia|]. split; [apply zlen_nonneg|]. exists s. rewrite app_nil_r. reflexivity.
  - rewrite A in C1. apply Forall_app in C1 as (K1 & K2). inversion K2 as [|? ? Kd K3]; subst.
    assert (ES : s = text l1 ++ b ++ text l2) by (rewrite <- C2, A; unfold text; rewrite map_app, concat_app; reflexivity).
    exists (text l1), (text l2), (map fst l2). split.
    { rewrite ES. apply (Up_found d (text l1) (map fst l1) b (text l2) (map fst l2)); [apply text_utf8; exact K1|exact B|exact Kd|apply text_utf8; exact K3]. }
    split; [apply text_utf8; exact K3|]. rewrite C. cbn [app]. assert (EL : zlen s = zlen (text l1) + zlen b + zlen (text l2)) by (rewrite ES at 1; unfold zlen; rewrite !app_length; lia).
    pose proof (zlen_nonneg (text l1)). pose proof (zlen_nonneg b).
    split; [f_equal; destruct l2; [cbn; lia|lia]|]. split; [lia|]. exists (text l1 ++ b). rewrite <- app_assoc. exact ES.
Qed.
Lemma chars_text l : Forall chr l -> chars_of (text l) = l.
Proof.
  intro H. unfold chars_of. assert (HF : (List.length (text l) <= List.length (text l))%nat) by lia. revert HF. generalize (List.length (text l)) at 2 3. intro f. revert f.
  induction H as [|[c bs] l Hc Hl IH]; intros f HF; [destruct f; reflexivity|].
  destruct (char_first bs c Hc) as (a & r & -> & W & _ & V). rewrite text_cons in *. destruct f as [|f]; [cbn in HF; lia|]. cbn [utf8_chars app].
  change (a :: r ++ text l) with ((a :: r) ++ text l). rewrite W. rewrite firstn_app, Nat.sub_diag, firstn_all, firstn_O, app_nil_r.
  rewrite skipn_app, Nat.sub_diag, skipn_all, skipn_O. cbn [app]. rewrite V, IH; [reflexivity|]. rewrite app_length in HF. cbn [List.length] in HF. lia.
Qed.
Lemma utf8_list s cs : utf8_text s cs -> exists l, Forall chr l /\ text l = s /\ map fst l = cs.
Proof. intro H. exists (chars_of s). apply (chars_ok s cs H). Qed.
Lemma split_first d (l1 : list (Z * bytes)) : forall l1' x x' l2 l2', l1 ++ (d, x) :: l2 = l1' ++ (d, x') :: l2' -> ~ In d (map fst l1) -> ~ In d (map fst l1') -> l1 = l1' /\ l2 = l2'.
Proof.
  induction l1 as [|[c b] l1 IH]; intros l1' x x' l2 l2' HE H1 H2; destruct l1' as [|[c' b'] l1']; cbn [app] in HE.
  - injection HE as _ ->. auto.
  - injection HE as -> _ _. exfalso. apply H2. left. reflexivity.
  - injection HE as -> _ _. exfalso. apply H1. left. reflexivity.
  - injection HE as -> -> HE. destruct (IH l1' x x' l2 l2' HE) as (-> & ->); [| |auto]; intro K; [apply H1|apply H2]; right; exact K.
Qed.
Lemma upto_list d s t r : text_upto d s t r -> exists l, Forall chr l /\ text l = s /\
  ((~ In d (map fst l) /\ t = s /\ r = []) \/ (exists l1 x l2, l = l1 ++ (d, x) :: l2 /\ ~ In d (map fst l1) /\ t = text l1 /\ r = text l2)).
Proof.
  intros [s0 cs HU HN|t0 ct db r0 cr HU HN Hd Hr].
  - destruct (utf8_list _ _ HU) as (l & A & B & C). exists l. repeat (split; [assumption|]). left. rewrite C. auto.
  - destruct (utf8_list _ _ HU) as (l1 & A & B & C). destruct (utf8_list _ _ Hr) as (l2 & A' & B' & C'). exists (l1 ++ (d, db) :: l2).
    split; [apply Forall_app; split; [exact A|constructor; [exact Hd|exact A']]|]. split; [unfold text in *; rewrite map_app, concat_app; cbn [map concat snd]; rewrite B, B'; reflexivity|].
    right. exists l1, db, l2. rewrite C, B, B'. auto.
Qed.
Lemma upto_unique d s t r t' r' : text_upto d s t r -> text_upto d s t' r' -> t = t' /\ r = r'.
Proof.
  intros H H'. destruct (upto_list _ _ _ _ H) as (l & A & B & C). destruct (upto_list _ _ _ _ H') as (l' & A' & B' & C').
  assert (l = l') by (rewrite <- (chars_text l A), <- (chars_text l' A'), B, B'; reflexivity). subst l'.
  destruct C as [(C1 & -> & ->)|(l1 & x & l2 & C1 & C2 & -> & ->)]; destruct C' as [(D1 & -> & ->)|(m1 & y & m2 & D1 & D2 & -> & ->)].
  - auto.
  - exfalso. apply C1. rewrite D1, map_app. apply in_or_app. right. left. reflexivity.
  - exfalso. apply D1. rewrite C1, map_app. apply in_or_app. right. left. reflexivity.
  - rewrite C1 in D1. destruct (split_first d l1 m1 x y l2 m2 D1 C2 D2) as (-> & ->). auto.
Qed.

(** What PARSE does once the delimiter is taken off the stack *)
Lemma parse_ok v s cs d l : rest_of_input v s -> utf8_text s cs -> v_tkn v <> None -> stack_has (t_s (cur v)) (d :: l) ->
  exists t r v1 v', text_upto d s t r /\ only_data_stack v v1 /\ stack_has (t_s (cur v1)) l /\ parse v = Ok (tt, v') /\
    token_read v1 t (st_idx (st v) + (zlen s - zlen r)) v' /\ rest_of_input v' r.
Proof.
  intros (buf & pre & HI & EB & EI & HL) HU HT HS. destruct (upto_ok d s cs HU) as (t & r & cr & U1 & U2 & U3 & U4 & p & U5).
  destruct (pop_has _ _ _ HS) as (s1 & EP & S1 & S2). set (v1 := set_s s1 v).
  set (n := st_idx (st v) + (zlen s - zlen r)). exists t, r, v1, (set_v_tkn (Some t) (set_idx n v1)).
  split; [exact U1|]. split; [apply only_data_set_s; exact S2|]. split; [unfold v1; rewrite cur_set_s; exact S1|].
  assert (EI1 : st_idx (st v1) = st_idx (st v)) by (unfold v1, st; rewrite cur_set_s; reflexivity).
  assert (HI1 : input_text v1 buf) by (unfold input_text in *; unfold v1, st in *; rewrite cur_set_s; exact HI).
  change (2 ^ 63) with 9223372036854775808 in *. pose proof (zlen_nonneg pre). pose proof (zlen_nonneg r).
  assert (HZ : zlen buf = zlen pre + zlen s) by (rewrite EB; unfold zlen; rewrite app_length; lia).
  split; [|split; [left; reflexivity|]].
  - unfold parse. rewrite (bind_Ok expect_inbuf _ v buf v) by (unfold expect_inbuf; rewrite (bind_Ok get_inbuf _ v (Some buf) v) by (apply get_inbuf_ok; exact HI); reflexivity).
    rewrite (bind_Ok s_pop _ v d v1) by (apply s_pop_eq; exact EP). destruct (v_tkn v) as [t0|] eqn:ET; [|congruence].
    rewrite (bind_Ok take_token _ v1 t0 (set_v_tkn None v1)) by (unfold take_token; change (v_tkn v1) with (v_tkn v); rewrite ET; reflexivity).
    rewrite bind_gets. change (st_idx (st (set_v_tkn None v1))) with (st_idx (st v1)). rewrite EI1, EI.
    rewrite (bind_Ok (slice_or_panic buf (zlen pre)) _ _ s (set_v_tkn None v1)) by (unfold slice_or_panic; rewrite EB, (slice_ok pre s cs HU); reflexivity).
    cbv zeta. rewrite U3. cbn [fst snd].
    rewrite (bind_Ok (chk_u64 (zlen pre + (zlen s - zlen r))) _ _ (zlen pre + (zlen s - zlen r)) (set_v_tkn None v1)) by (apply chk_u64_ok; unfold two64; lia).
    rewrite bind_modify. unfold n. rewrite EI. reflexivity.
  - destruct (token_read_input v1 t n _ buf (or_introl eq_refl) HI1) as (K1 & K2 & _). exists buf, (pre ++ p). split; [exact K1|].
    split; [rewrite EB, U5, <- app_assoc; reflexivity|]. split; [|exact HL]. rewrite K2. unfold n. rewrite EI, U5. unfold zlen. rewrite !app_length. lia.
Qed.
Lemma parse_after_push v s cs d l : rest_of_input v s -> utf8_text s cs -> v_tkn v <> None -> stack_has (t_s (cur v)) l -> zlen l < 255 ->
  exists t r v1 v', text_upto d s t r /\ only_data_stack1 v v1 /\ stack_has (t_s (cur v1)) l /\ (s_push d ;;; parse) v = Ok (tt, v') /\
    token_read v1 t (st_idx (st v) + (zlen s - zlen r)) v' /\ rest_of_input v' r.
Proof.
  intros HR HU HT HS HL. assert (HLn : 0 <= len (t_s (cur v)) < 255) by (destruct HS as (A & _); rewrite A; pose proof (zlen_nonneg l); lia).
  set (v0 := set_s (push (t_s (cur v)) d) v). destruct (parse_ok v0 s cs d l) as (t & r & v1 & v' & A & B & C & D & F & G).
  - destruct HR as (buf & pre & HI & K). exists buf, pre. unfold input_text, v0, st in *. rewrite cur_set_s. exact (conj HI K).
  - exact HU.
  - exact HT.
  - unfold v0. rewrite cur_set_s. apply (push_has _ _ _ HS HL).
  - exists t, r, v1, v'. split; [exact A|]. split.
    + exists v0. split; [apply only_data_set_s; apply push_high; exact HLn|]. split; [|exact B].
      unfold v0. rewrite cur_set_s. pose proof (push_has _ _ d HS HL) as (K & _). destruct HS as (K2 & _). cbn [t_s set_t_s]. rewrite K, K2. unfold zlen. cbn [List.length]. lia.
    + split; [exact C|]. split; [rewrite (bind_Ok (s_push d) _ v tt v0); [exact D|reflexivity]|]. split; [|exact G].
      replace (st_idx (st v)) with (st_idx (st v0)); [exact F|]. unfold v0, st. rewrite cur_set_s. reflexivity.
Qed.
End P.
