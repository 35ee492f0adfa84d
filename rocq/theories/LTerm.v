(** The line editor works on characters. *)
From Coq Require Import ZArith List Bool Lia ZifyBool ZifyNat.
From Verif Require Import Base State Term LBase Spec11 Spec26.
Import ListNotations.
Open Scope Z_scope.

(** ** UTF-8 *)
Lemma utf8_app s1 c1 s2 c2 : utf8_text s1 c1 -> utf8_text s2 c2 -> utf8_text (s1 ++ s2) (c1 ++ c2).
Proof. induction 1 as [|bs c s cs H1 H2 IH]; intro H; [exact H|]. rewrite <- app_assoc. cbn [app]. constructor; auto. Qed.
Lemma utf8_one bs c : utf8_char bs c -> utf8_text bs [c].
Proof. intro H. rewrite <- (app_nil_r bs). constructor; [exact H|constructor]. Qed.
Lemma utf8_app_inv c1 : forall s c2, utf8_text s (c1 ++ c2) -> exists s1 s2, s = s1 ++ s2 /\ utf8_text s1 c1 /\ utf8_text s2 c2.
Proof.
  induction c1 as [|c c1 IH]; intros s c2 H; [exists [], s; split; [reflexivity|]; split; [constructor|exact H]|].
  cbn [app] in H. inversion H as [|bs c0 s0 cs H1 H2 E1 E2]; subst. destruct (IH _ _ H2) as (s1 & s2 & -> & A & B).
  exists (bs ++ s1), s2. split; [apply app_assoc|]. split; [constructor; assumption|exact B].
Qed.
Lemma utf8_one_inv s c : utf8_text s [c] -> utf8_char s c.
Proof. intro H. inversion H as [|bs c0 s0 cs H1 H2 E1 E2]; subst. inversion H2; subst. rewrite app_nil_r. exact H1. Qed.
Lemma utf8_nil s : utf8_text s [] -> s = [].
Proof. intro H. inversion H. reflexivity. Qed.
Lemma utf8_empty cs : utf8_text [] cs -> cs = [].
Proof.
  intro H. inversion H as [|bs c s cs0 H1 H2 E1 E2]; [reflexivity|]. apply app_eq_nil in E1. destruct E1 as [-> _]. inversion H1.
Qed.
Lemma encode_ok c : unicode c -> utf8_char (encode_utf8 c) c.
Proof.
  intro H. unfold encode_utf8, unicode in *. destruct (c <? 128) eqn:E1; [constructor; lia|]. destruct (c <? 2048) eqn:E2.
  - pose proof (Z.div_mod c 64). pose proof (Z.mod_pos_bound c 64). replace c with ((192 + c / 64 - 192) * 64 + (128 + c mod 64 - 128)) at 3 by lia.
    assert (2 <= c / 64) by (apply Z.div_le_lower_bound; lia). assert (c / 64 < 32) by (apply Z.div_lt_upper_bound; lia). constructor; unfold tail_byte; lia.
  - destruct (c <? 65536) eqn:E3.
    + pose proof (Z.div_mod c 64). pose proof (Z.mod_pos_bound c 64). pose proof (Z.div_mod (c / 64) 64). pose proof (Z.mod_pos_bound (c / 64) 64).
      assert (E : c / 64 / 64 = c / 4096) by (rewrite Z.div_div by lia; reflexivity).
      replace c with ((224 + c / 4096 - 224) * 4096 + (128 + c / 64 mod 64 - 128) * 64 + (128 + c mod 64 - 128)) at 4 by lia.
      assert (c / 4096 < 16) by (apply Z.div_lt_upper_bound; lia). assert (0 <= c / 4096) by (apply Z.div_pos; lia).
      constructor; unfold tail_byte; try lia.
    + pose proof (Z.div_mod c 64). pose proof (Z.mod_pos_bound c 64). pose proof (Z.div_mod (c / 64) 64). pose proof (Z.mod_pos_bound (c / 64) 64).
      pose proof (Z.div_mod (c / 4096) 64). pose proof (Z.mod_pos_bound (c / 4096) 64).
      assert (E : c / 64 / 64 = c / 4096) by (rewrite Z.div_div by lia; reflexivity).
      assert (E' : c / 4096 / 64 = c / 262144) by (rewrite Z.div_div by lia; reflexivity).
      replace c with ((240 + c / 262144 - 240) * 262144 + (128 + c / 4096 mod 64 - 128) * 4096 + (128 + c / 64 mod 64 - 128) * 64 + (128 + c mod 64 - 128)) at 5 by lia.
      assert (c / 262144 < 5) by (apply Z.div_lt_upper_bound; lia). assert (0 <= c / 262144) by (apply Z.div_pos; lia).
      constructor; unfold tail_byte; try lia.
Qed.
Lemma char_shape bs c : utf8_char bs c -> exists a t, bs = a :: t /\ (0 <= a < 128 \/ 192 <= a) /\ Forall tail_byte t /\ utf8_width a = length bs.
Proof.
  intro H. inversion H; subst; eexists _, _; (split; [reflexivity|]); (split; [lia|]); (split; [repeat (apply Forall_cons; [assumption|]); apply Forall_nil|]); unfold utf8_width; cbn [length].
  - replace (c <? 128) with true by lia. reflexivity.
  - replace (a <? 128) with false by lia. replace (a <? 224) with true by lia. reflexivity.
  - replace (a <? 128) with false by lia. replace (a <? 224) with false by lia. replace (a <? 240) with true by lia. reflexivity.
  - replace (a <? 128) with false by lia. replace (a <? 224) with false by lia. replace (a <? 240) with false by lia. reflexivity.
Qed.
Lemma char_zlen bs c : utf8_char bs c -> 0 < zlen bs.
Proof. intro H. destruct (char_shape _ _ H) as (a & t & -> & _). rewrite zlen_cons. pose proof (zlen_nonneg t). lia. Qed.

(** ** Boundaries *)
Lemma boundary_here s1 s2 c2 : utf8_text s2 c2 -> is_boundary (s1 ++ s2) (zlen s1) = true.
Proof.
  intro H. unfold is_boundary. destruct (zlen s1 =? 0) eqn:E0; [reflexivity|]. destruct (zlen s1 =? zlen (s1 ++ s2)) eqn:E1; [reflexivity|].
  rewrite zlen_app in *. pose proof (zlen_nonneg s1). pose proof (zlen_nonneg s2). replace ((0 <? zlen s1) && (zlen s1 <? zlen s1 + zlen s2)) with true by lia.
  inversion H as [|bs c s cs HC1 HC2]; subst; [change (zlen (@nil Z)) with 0 in E1; lia|]. destruct (char_shape _ _ HC1) as (a & t & -> & Ha & _).
  cbv zeta. replace (Z.to_nat (zlen s1)) with (length s1) by (unfold zlen; lia). rewrite app_nth2 by lia. rewrite Nat.sub_diag. cbn [app nth]. lia.
Qed.
Lemma boundary_inside s1 bs c s2 k : utf8_char bs c -> 0 < k < zlen bs -> is_boundary (s1 ++ bs ++ s2) (zlen s1 + k) = false.
Proof.
  intros H Hk. destruct (char_shape _ _ H) as (a & t & -> & _ & Ht & _). pose proof (zlen_nonneg s1). pose proof (zlen_nonneg s2). unfold is_boundary.
  rewrite !zlen_app. replace (zlen s1 + k =? 0) with false by lia. replace (zlen s1 + k =? zlen s1 + (zlen (a :: t) + zlen s2)) with false by lia.
  replace ((0 <? zlen s1 + k) && (zlen s1 + k <? zlen s1 + (zlen (a :: t) + zlen s2))) with true by lia. cbv zeta.
  rewrite app_nth2 by (unfold zlen in *; lia). replace (Z.to_nat (zlen s1 + k) - length s1)%nat with (S (Z.to_nat (k - 1))) by (unfold zlen in *; lia).
  cbn [app nth]. rewrite zlen_cons in Hk. rewrite app_nth1 by (unfold zlen in *; lia).
  assert (T : tail_byte (nth (Z.to_nat (k - 1)) t 0)). { rewrite Forall_forall in Ht. apply Ht, nth_In. unfold zlen in *; lia. }
  red in T. lia.
Qed.
Lemma back_to s1 bs c s2 k fuel : utf8_char bs c -> is_boundary (s1 ++ bs ++ s2) (zlen s1) = true ->
  0 <= k < zlen bs -> (Z.to_nat k <= fuel)%nat -> back_to_boundary fuel (s1 ++ bs ++ s2) (zlen s1 + k) = Ok (zlen s1).
Proof.
  intros H HB. revert k. induction fuel as [|fuel IH]; intros k Hk Hf; cbn [back_to_boundary].
  - assert (k = 0) as -> by lia. rewrite Z.add_0_r, HB. reflexivity.
  - destruct (Z.eq_dec k 0) as [->|N]; [rewrite Z.add_0_r, HB; reflexivity|].
    rewrite (boundary_inside s1 bs c s2 k H) by lia. replace (zlen s1 + k - 1) with (zlen s1 + (k - 1)) by lia. apply IH; lia.
Qed.
Lemma on_to s1 bs c s2 k fuel : utf8_char bs c -> is_boundary (s1 ++ bs ++ s2) (zlen s1 + zlen bs) = true ->
  0 < k <= zlen bs -> (Z.to_nat (zlen bs - k) <= fuel)%nat -> on_to_boundary fuel (s1 ++ bs ++ s2) (zlen s1 + k) = Ok (zlen s1 + zlen bs).
Proof.
  intros H HB. revert k. induction fuel as [|fuel IH]; intros k Hk Hf; cbn [on_to_boundary].
  - assert (k = zlen bs) as -> by lia. rewrite HB. reflexivity.
  - destruct (Z.eq_dec k (zlen bs)) as [->|N]; [rewrite HB; reflexivity|].
    rewrite (boundary_inside s1 bs c s2 k H) by lia. replace (zlen s1 + k + 1) with (zlen s1 + (k + 1)) by lia. apply IH; lia.
Qed.
Lemma firstn_here {A} (s1 s2 : list A) : firstn (Z.to_nat (zlen s1)) (s1 ++ s2) = s1.
Proof. unfold zlen. rewrite Nat2Z.id, firstn_app, Nat.sub_diag, firstn_all. cbn. apply app_nil_r. Qed.
Lemma skipn_here {A} (s1 s2 : list A) : skipn (Z.to_nat (zlen s1)) (s1 ++ s2) = s2.
Proof. unfold zlen. rewrite Nat2Z.id, skipn_app, Nat.sub_diag, skipn_all. reflexivity. Qed.

Lemma nth_ext_some {A} (l m : list A) : (forall j, nth_error l j = nth_error m j) -> l = m.
Proof.
  revert m. induction l as [|x l IH]; intros [|y m] H; [reflexivity|specialize (H 0%nat); discriminate|specialize (H 0%nat); discriminate|].
  pose proof (H 0%nat) as H0. cbn in H0. injection H0 as ->. f_equal. apply IH. intro j. exact (H (S j)).
Qed.

(** ** The editor and the sheet *)
Definition rep (e : editor) (s : sheet) : Prop := exists sb sa, utf8_text sb (before s) /\ utf8_text sa (after s) /\
  e_buf e = sb ++ sa /\ e_x e = zlen sb /\ texts (e_hist e) (recalls s) /\ e_h e = Z.of_nat (place s) /\ (place s < length (recalls s))%nat.
Lemma rep_boundary e s : rep e s -> is_boundary (e_buf e) (e_x e) = true.
Proof. intros (sb & sa & A & B & -> & -> & _). eapply boundary_here. exact B. Qed.
Lemma rep_text e s : rep e s -> utf8_text (e_buf e) (text_of s).
Proof. intros (sb & sa & A & B & -> & _). apply utf8_app; assumption. Qed.
Lemma texts_len l q : texts l q -> length l = length q.
Proof. induction 1; cbn; congruence. Qed.

Lemma split_at {A} (l : list A) i x : nth_error l i = Some x -> l = firstn i l ++ [x] ++ skipn (S i) l.
Proof. revert i. induction l as [|y l IH]; intros [|i] H; try discriminate; cbn in *; [congruence|]. f_equal. apply IH. exact H. Qed.
Lemma texts_set l q i s cs q' : texts l q -> utf8_text s cs -> (i < length q)%nat ->
  length q' = length q -> nth_error q' i = Some cs -> (forall j, j <> i -> nth_error q' j = nth_error q j) ->
  texts (firstn i l ++ [s] ++ skipn (S i) l) q'.
Proof.
  intros H. revert i q'. induction H as [|a c l q HA HL IH]; intros i q' HS Hi HL' HN HO; [cbn in Hi; lia|].
  destruct q' as [|c' q']; [discriminate|]. destruct i as [|i].
  - cbn in HN. injection HN as ->. cbn [firstn app skipn]. constructor; [exact HS|].
    assert (q' = q) as ->. { apply nth_ext_some. intro j. exact (HO (S j) ltac:(discriminate)). } exact HL.
  - assert (c' = c) as -> by (specialize (HO 0%nat ltac:(discriminate)); cbn in HO; congruence). cbn [firstn app skipn]. constructor; [exact HA|].
    apply IH; try assumption; cbn in *; [lia|lia|]. intros j Hj. exact (HO (S j) ltac:(congruence)).
Qed.
Lemma texts_get l q i cs : texts l q -> nth_error q i = Some cs -> exists s, nth_error l i = Some s /\ utf8_text s cs.
Proof.
  intro H. revert i. induction H as [|a c l q HA HL IH]; intros [|i] HN; try discriminate; cbn in *; [injection HN as <-; eauto|]. apply IH. exact HN.
Qed.

Lemma back_ok sb sa bs c cs ca : utf8_text sb cs -> utf8_char bs c -> utf8_text sa ca -> go_back (sb ++ bs ++ sa) (zlen sb + zlen bs - 1) = Ok (zlen sb).
Proof.
  intros H1 H2 H3. pose proof (char_zlen _ _ H2). pose proof (zlen_nonneg sb). unfold go_back. replace (zlen sb + zlen bs - 1) with (zlen sb + (zlen bs - 1)) by lia.
  eapply back_to; [exact H2| |lia|lia]. eapply boundary_here. constructor; eassumption.
Qed.
Lemma on_ok sb sa bs c cs ca : utf8_text sb cs -> utf8_char bs c -> utf8_text sa ca -> go_on (sb ++ bs ++ sa) (zlen sb + 1) = Ok (zlen (sb ++ bs)).
Proof.
  intros H1 H2 H3. pose proof (char_zlen _ _ H2). pose proof (zlen_nonneg sb). rewrite zlen_app. unfold go_on.
  eapply on_to; [exact H2| |lia|rewrite !app_length; unfold zlen in *; lia]. rewrite app_assoc, <- zlen_app. eapply boundary_here. exact H3.
Qed.
Lemma kept_exists s : (place s < length (recalls s))%nat -> exists q, kept_lines s q.
Proof.
  intro H. exists (firstn (place s) (recalls s) ++ [text_of s] ++ skipn (S (place s)) (recalls s)). unfold kept_lines.
  assert (L : length (firstn (place s) (recalls s)) = place s) by (rewrite firstn_length; lia).
  split; [rewrite !app_length, L, skipn_length; cbn [length]; lia|]. split; [rewrite nth_error_app2 by lia; rewrite L, Nat.sub_diag; reflexivity|].
  intros i Hi. destruct (Nat.lt_ge_cases i (place s)) as [C|C].
  - rewrite nth_error_app1 by lia. rewrite <- (firstn_skipn (place s) (recalls s)) at 2. rewrite nth_error_app1 by lia. reflexivity.
  - rewrite nth_error_app2 by lia. rewrite L. replace (i - place s)%nat with (S (i - place s - 1)) by lia. cbn [app nth_error].
    rewrite <- (firstn_skipn (S (place s)) (recalls s)) at 2. assert (L2 : length (firstn (S (place s)) (recalls s)) = S (place s)) by (rewrite firstn_length; lia).
    rewrite nth_error_app2 by lia. f_equal. lia.
Qed.
Lemma press_total k s : k <> Enter -> (place s < length (recalls s))%nat -> exists s', pressed k s s'.
Proof.
  intros HK HP. destruct k; try congruence.
  - destruct s as [l r q h]. destruct (list_eq_dec Z.eq_dec l []) as [->|N]; [eexists; constructor|]. destruct (exists_last N) as (l' & c & ->). eexists. constructor.
  - destruct s. eexists. constructor.
  - destruct (kept_exists s HP) as (q & Hq). pose proof Hq as (L & _ & _). destruct (nth_error q (Nat.pred (place s))) as [t|] eqn:E; [eexists; econstructor; eauto|].
    apply nth_error_None in E. lia.
  - destruct (kept_exists s HP) as (q & Hq). pose proof Hq as (L & _ & _). destruct (nth_error q (Nat.min (S (place s)) (length (recalls s) - 1))) as [t|] eqn:E; [eexists; eapply Pr_down; eauto|].
    apply nth_error_None in E. lia.
  - destruct s as [l r q h]. destruct (list_eq_dec Z.eq_dec l []) as [->|N]; [eexists; constructor|]. destruct (exists_last N) as (l' & c & ->). eexists. constructor.
  - destruct s as [l [|c r] q h]; eexists; constructor.
  - eexists. constructor.
Qed.
Lemma vec_set_ok l q i s cs q' : texts l q -> utf8_text s cs -> (i < length q)%nat -> length q' = length q -> nth_error q' i = Some cs ->
  (forall j, j <> i -> nth_error q' j = nth_error q j) -> exists l', vec_set l (Z.of_nat i) s = Ok l' /\ texts l' q'.
Proof.
  intros H1 H2 H3 H4 H5 H6. pose proof (texts_len _ _ H1) as L. eexists. split; [unfold vec_set, zlen; replace ((0 <=? Z.of_nat i) && (Z.of_nat i <? Z.of_nat (length l))) with true by lia; reflexivity|].
  rewrite Nat2Z.id. eapply texts_set; eassumption.
Qed.
Lemma recall_ok e l q h t : texts l q -> nth_error q h = Some t -> exists s, recall e (Z.of_nat h) l = Ok (mkEd l s (Z.of_nat h) (zlen s)) /\ utf8_text s t.
Proof.
  intros H1 H2. destruct (texts_get _ _ _ _ H1 H2) as (s & E & T). exists s. unfold recall, vec_get. rewrite Nat2Z.id, E. replace (0 <=? Z.of_nat h) with true by lia. auto.
Qed.
Lemma step_ok e s k s' : rep e s -> (forall c, k = Char c -> unicode c) -> pressed k s s' -> exists e', key_step e k = Ok (e', false) /\ rep e' s'.
Proof.
  intros HR HU HP. pose proof (rep_text _ _ HR) as HT. destruct HR as (sb & sa & A & B & EB & EX & T & EH & HL).
  destruct HP as [c l r q h|c l r q h|r q h|c l r q h|r q h|c l r q h|l q h|s q h t KQ -> N|s q h t KQ -> N|s]; cbn [before after recalls place] in *; cbn [key_step].
  - pose proof (encode_ok c (HU c eq_refl)) as HC. rewrite EB, EX. unfold str_insert. rewrite (boundary_here _ _ _ B), firstn_here, skipn_here. cbn [rbind].
    rewrite (on_ok _ _ _ _ _ _ A HC B). cbn [rbind]. eexists. split; [reflexivity|]. exists (sb ++ encode_utf8 c), sa. cbn [e_buf e_x e_hist e_h before after recalls place].
    split; [apply utf8_app; [exact A|apply utf8_one; exact HC]|]. rewrite <- app_assoc. auto 10.
  - destruct (utf8_app_inv _ _ _ A) as (s1 & s2 & -> & A1 & A2). apply utf8_one_inv in A2. pose proof (char_zlen _ _ A2). pose proof (zlen_nonneg s1).
    rewrite EB, EX. rewrite zlen_app. replace (0 <? zlen s1 + zlen s2) with true by lia. rewrite <- app_assoc. rewrite (back_ok _ _ _ _ _ _ A1 A2 B). cbn [rbind].
    unfold str_remove. rewrite (boundary_here s1 (s2 ++ sa) (c :: r)) by (constructor; assumption). rewrite skipn_here, firstn_here.
    destruct (char_shape _ _ A2) as (a & t & -> & _ & _ & W). cbn [app]. change (a :: t ++ sa) with ((a :: t) ++ sa). rewrite W, skipn_app, skipn_all, Nat.sub_diag. cbn [rbind skipn app].
    eexists. split; [reflexivity|]. exists s1, sa. cbn [e_buf e_x e_hist e_h before after recalls place]. auto 10.
  - apply utf8_nil in A. subst sb. rewrite EX. cbn. eexists. split; [reflexivity|]. exists [], sa. cbn [before after recalls place]. split; [constructor|]. auto 10.
  - destruct (utf8_app_inv _ _ _ A) as (s1 & s2 & -> & A1 & A2). apply utf8_one_inv in A2. pose proof (char_zlen _ _ A2). pose proof (zlen_nonneg s1).
    rewrite EB, EX. rewrite zlen_app. replace (0 <? zlen s1 + zlen s2) with true by lia. rewrite <- app_assoc. rewrite (back_ok _ _ _ _ _ _ A1 A2 B). cbn [rbind].
    eexists. split; [reflexivity|]. exists s1, (s2 ++ sa). cbn [e_buf e_x e_hist e_h before after recalls place]. split; [exact A1|]. split; [constructor; assumption|]. auto 10.
  - apply utf8_nil in A. subst sb. rewrite EX, EB. cbn [zlen length app]. change (Z.of_nat 0) with 0. cbn [Z.ltb Z.compare]. unfold go_back. cbn [back_to_boundary]. pose proof (boundary_here [] sa r B) as BB. change (zlen []) with 0 in BB. cbn [app] in BB. cbn [app]. change (zlen []) with 0. cbn [Z.ltb Z.compare]. unfold go_back. cbn [back_to_boundary]. rewrite BB. cbn [rbind].
    eexists. split; [reflexivity|]. exists [], sa. cbn [e_buf e_x e_hist e_h before after recalls place]. split; [constructor|]. auto 10.
  - change (c :: r) with ([c] ++ r) in B. destruct (utf8_app_inv _ _ _ B) as (s1 & s2 & -> & B1 & B2). apply utf8_one_inv in B1. pose proof (char_zlen _ _ B1). pose proof (zlen_nonneg s2).
    rewrite EB, EX. rewrite !zlen_app. replace (zlen sb <? zlen sb + (zlen s1 + zlen s2)) with true by lia. rewrite (on_ok _ _ _ _ _ _ A B1 B2). cbn [rbind].
    eexists. split; [reflexivity|]. exists (sb ++ s1), s2. cbn [e_buf e_x e_hist e_h before after recalls place]. split; [apply utf8_app; [exact A|apply utf8_one; exact B1]|]. rewrite <- app_assoc. auto 10.
  - apply utf8_nil in B. subst sa. rewrite EX, EB. rewrite app_nil_r in *. replace (zlen sb <? zlen sb) with false by lia. unfold go_on. cbn [on_to_boundary].
    pose proof (boundary_here sb [] [] ltac:(constructor)) as BB. rewrite app_nil_r in BB. rewrite BB. cbn [rbind]. eexists. split; [reflexivity|]. exists sb, [].
    cbn [e_buf e_x e_hist e_h before after recalls place]. rewrite app_nil_r. split; [exact A|]. split; [constructor|]. auto 10.
  - destruct KQ as (K1 & K2 & K3). destruct (vec_set_ok _ _ _ _ _ _ T HT HL K1 K2 K3) as (l' & E1 & T1). rewrite EH, E1. cbn [rbind].
    destruct (recall_ok e _ _ _ _ T1 N) as (s0 & E2 & T2). replace (if Z.of_nat (place s) =? 0 then 0 else Z.of_nat (place s) - 1) with (Z.of_nat (Nat.pred (place s))) by (destruct (Z.of_nat (place s) =? 0) eqn:Q; lia).
    rewrite E2. cbn [rbind]. eexists. split; [reflexivity|]. exists s0, []. cbn [e_buf e_x e_hist e_h before after recalls place]. rewrite app_nil_r.
    split; [exact T2|]. split; [constructor|]. split; [reflexivity|]. split; [reflexivity|]. split; [exact T1|]. split; [reflexivity|]. lia.
  - destruct KQ as (K1 & K2 & K3). destruct (vec_set_ok _ _ _ _ _ _ T HT HL K1 K2 K3) as (l' & E1 & T1). rewrite EH, E1. cbn [rbind]. cbv zeta.
    destruct (recall_ok e _ _ _ _ T1 N) as (s0 & E2 & T2). pose proof (texts_len _ _ T1) as L1.
    replace (if zlen l' - 1 <? Z.of_nat (place s) + 1 then zlen l' - 1 else Z.of_nat (place s) + 1) with (Z.of_nat (Nat.min (S (place s)) (length (recalls s) - 1)))
      by (unfold zlen; destruct (Z.of_nat (length l') - 1 <? Z.of_nat (place s) + 1) eqn:Q; lia).
    rewrite E2. cbn [rbind]. eexists. split; [reflexivity|]. exists s0, []. cbn [e_buf e_x e_hist e_h before after recalls place]. rewrite app_nil_r.
    split; [exact T2|]. split; [constructor|]. split; [reflexivity|]. split; [reflexivity|]. split; [exact T1|]. split; [reflexivity|]. lia.
  - exists e. split; [reflexivity|]. exists sb, sa. auto 10.
Qed.

(** ** The loop *)
Lemma texts_app l1 q1 l2 q2 : texts l1 q1 -> texts l2 q2 -> texts (l1 ++ l2) (q1 ++ q2).
Proof. intros A B. apply Forall2_app; assumption. Qed.
Lemma texts_removelast l q : texts l q -> texts (removelast l) (removelast q).
Proof.
  induction 1 as [|a c l q HA HL IH]; [constructor|]. inversion HL; subst; [constructor|]. cbn [removelast] in *. constructor; assumption.
Qed.
Lemma vec_set_last l s : l <> [] -> vec_set l (zlen l - 1) s = Ok (removelast l ++ [s]).
Proof.
  intro N. destruct (exists_last N) as (l' & x & ->). rewrite removelast_last. unfold vec_set. rewrite zlen_app. change (zlen [x]) with 1. pose proof (zlen_nonneg l').
  replace ((0 <=? zlen l' + 1 - 1) && (zlen l' + 1 - 1 <? zlen l' + 1)) with true by lia. replace (zlen l' + 1 - 1) with (zlen l') by lia.
  rewrite firstn_here. replace (S (Z.to_nat (zlen l'))) with (length (l' ++ [x])) by (rewrite app_length; unfold zlen; cbn; lia). rewrite skipn_all. reflexivity.
Qed.
Lemma finish_ok e s : rep e s -> let e' := mkEd (e_hist e) (e_buf e) (e_h e) (zlen (e_buf e)) in
  exists o hist, finish e' = Ok (o, hist) /\ shows o (Entered (text_of s)) /\
    texts hist (removelast (recalls s) ++ match text_of s with [] => [] | _ => [text_of s] end).
Proof.
  intros HR e'. pose proof (rep_text _ _ HR) as HT. destruct HR as (sb & sa & A & B & EB & EX & T & EH & HL).
  unfold finish. cbn [e_buf e']. destruct (e_buf e) as [|x s0] eqn:EE.
  - apply utf8_empty in HT. rewrite HT. eexists _, _. split; [reflexivity|]. split; [constructor|]. rewrite app_nil_r. apply texts_removelast. exact T.
  - assert (N : e_hist e <> []). { intro N. rewrite N in T. inversion T as [Q1 Q2|]. rewrite <- Q2 in HL. cbn in HL. lia. }
    unfold e'. cbn [e_hist]. rewrite vec_set_last by exact N. cbn [rbind]. eexists _, _. split; [reflexivity|]. split; [exact HT|].
    destruct (text_of s) as [|c cs] eqn:ET; [apply utf8_nil in HT; discriminate|]. apply texts_app; [apply texts_removelast; exact T|]. constructor; [exact HT|constructor].
Qed.

Lemma editing_key m k evs e : plain m -> editing (Key m k :: evs) e =
  rbind (key_step e k) (fun '(e', done) => if is_boundary (e_buf e') (e_x e') then
        if done then rbind (finish e') (fun '(o, hist) => Ok (o, hist, evs)) else editing evs e'
      else Panic PSlice).
Proof. intros [->| ->]; reflexivity. Qed.
Lemma editing_ignored ev evs e s : rep e s -> ignored ev -> editing (ev :: evs) e = editing evs e.
Proof.
  intros HR H. pose proof (rep_boundary _ _ HR) as HB. destruct H as [->|(k & [->|(-> & N)])]; cbn [editing rbind]; try (rewrite HB; reflexivity).
  destruct k as [| |c| | | | |]; cbn [rbind]; try (rewrite HB; reflexivity).
  destruct (Z.eq_dec c 100) as [->|NC]; [congruence|].
  assert (X : forall A (a b : A), match c with 100 => a | _ => b end = b).
  { intros. destruct c as [|p|p]; try reflexivity. do 7 (destruct p as [p|p|]; try reflexivity). congruence. }
  rewrite X. rewrite HB. reflexivity.
Qed.
Lemma enter_ok e s evs m : rep e s -> plain m -> exists o hist, editing (Key m Enter :: evs) e = Ok (o, hist, evs) /\ shows o (Entered (text_of s)) /\
    texts hist (removelast (recalls s) ++ match text_of s with [] => [] | _ => [text_of s] end).
Proof.
  intros HR HM. rewrite editing_key by exact HM. cbn [key_step rbind e_buf e_x]. pose proof (rep_text _ _ HR) as HT.
  replace (is_boundary (e_buf e) (zlen (e_buf e))) with true by (symmetry; pose proof (boundary_here (e_buf e) [] [] ltac:(constructor)) as BB; rewrite app_nil_r in BB; exact BB).
  destruct (finish_ok e s HR) as (o & hist & E & A & B). rewrite E. cbn [rbind]. eauto.
Qed.
Lemma editing_refines evs s en q r : entering evs s en q r -> forall e, rep e s -> Forall typed_ok evs ->
  exists o hist, editing evs e = Ok (o, hist, r) /\ shows o en /\ texts hist q.
Proof.
  induction 1 as [m s evs HM HT|m s evs HM HT|s evs|s evs|m k s s' evs en q r HM HK HP HE IH|ev s evs en q r HI HE IH]; intros e HR HF.
  - destruct (enter_ok e s evs m HR HM) as (o & hist & A & B & C). exists o, hist. destruct (text_of s); [congruence|]. auto.
  - destruct (enter_ok e s evs m HR HM) as (o & hist & A & B & C). exists o, hist. rewrite HT in *. rewrite app_nil_r in C. auto.
  - destruct HR as (sb & sa & _ & _ & _ & _ & T & _). eexists _, _. split; [reflexivity|]. split; [exact I|exact T].
  - destruct HR as (sb & sa & _ & _ & _ & _ & T & _). eexists _, _. split; [reflexivity|]. split; [exact I|exact T].
  - apply Forall_cons_iff in HF. destruct HF as [H1 H2]. destruct (step_ok e s k s' HR) as (e' & E & HR'); [intros c ->; exact H1|exact HP|].
    rewrite editing_key by exact HM. rewrite E. cbn [rbind]. rewrite (rep_boundary _ _ HR'). apply IH; assumption.
  - apply Forall_cons_iff in HF. rewrite (editing_ignored _ _ _ _ HR HI). apply IH; [exact HR|apply HF].
Qed.
Lemma fresh_rep hist q : texts hist q -> rep (mkEd (hist ++ [[]]) [] (zlen hist) 0) (fresh q).
Proof.
  intro H. exists [], []. cbn. split; [constructor|]. split; [constructor|]. split; [reflexivity|]. split; [reflexivity|].
  split; [apply texts_app; [exact H|constructor; [constructor|constructor]]|]. pose proof (texts_len _ _ H) as L. split; [unfold zlen; lia|]. rewrite app_length. cbn. lia.
Qed.
Lemma read_line_run hist q evs en q' r : texts hist q -> Forall typed_ok evs -> entering evs (fresh q) en q' r ->
  exists o hist', read_line hist evs = Ok (o, hist', r) /\ shows o en /\ texts hist' q'.
Proof. intros H HF HE. eapply editing_refines; [exact HE|apply fresh_rep; exact H|exact HF]. Qed.

(** ** Every line gets an end *)
Lemma pressed_place k s s' : pressed k s s' -> (place s < length (recalls s))%nat -> (place s' < length (recalls s'))%nat.
Proof. intros H HL. destruct H; cbn [place recalls] in *; try exact HL; destruct H as (L & _ & _); lia. Qed.
Lemma event_cases ev : finishing ev \/ ignored ev \/ exists m k, plain m /\ k <> Enter /\ ev = Key m k.
Proof.
  destruct ev as [m k| |]; [|right; left; left; reflexivity|left; left; reflexivity].
  destruct m; [..|right; left; right; exists k; left; reflexivity].
  - destruct k; try (right; right; eexists NoMod, _; split; [left; reflexivity|]; split; [|reflexivity]; congruence). left. right. right. exists NoMod. split; [left; reflexivity|reflexivity].
  - destruct k; try (right; right; eexists Shift, _; split; [right; reflexivity|]; split; [|reflexivity]; congruence). left. right. right. exists Shift. split; [right; reflexivity|reflexivity].
  - destruct k as [| |c| | | | |]; try (right; left; right; eexists; right; split; [reflexivity|congruence]).
    destruct (Z.eq_dec c 100) as [->|N]; [left; right; left; reflexivity|]. right; left; right; eexists; right; split; [reflexivity|congruence].
Qed.
Lemma entering_exists evs : Exists finishing evs -> forall s, (place s < length (recalls s))%nat -> exists en q r, entering evs s en q r.
Proof.
  induction evs as [|ev evs IH]; intro H; [inversion H|]. intros s HL. destruct (event_cases ev) as [[->|[->|(m & HM & ->)]]|[HI|(m & k & HM & HK & ->)]].
  - eexists _, _, _. constructor.
  - eexists _, _, _. constructor.
  - destruct (list_eq_dec Z.eq_dec (text_of s) []) as [E|E]; eexists _, _, _; [eapply E_empty|eapply E_enter]; eassumption.
  - apply Exists_cons in H. destruct H as [H|H].
    + exfalso. destruct HI as [->|(k & [->|(-> & N)])]; destruct H as [H|[H|(m & HM & H)]]; try discriminate; try congruence; destruct HM as [->| ->]; discriminate.
    + destruct (IH H s HL) as (en & q & r & E). eexists _, _, _. apply E_ignored; eassumption.
  - apply Exists_cons in H. destruct H as [H|H].
    + exfalso. destruct H as [H|[H|(m' & _ & H)]]; try discriminate; try congruence. injection H as -> ->. destruct HM; discriminate.
    + destruct (press_total k s HK HL) as (s' & P). destruct (IH H s' (pressed_place _ _ _ P HL)) as (en & q & r & E). eexists _, _, _. eapply E_key; eassumption.
Qed.
Lemma editing_waits evs : ~ Exists finishing evs -> Forall typed_ok evs -> forall e s, rep e s -> editing evs e = OutOfFuel.
Proof.
  induction evs as [|ev evs IH]; intros H HF e s HR; [reflexivity|]. apply Forall_cons_iff in HF. destruct HF as [H1 H2].
  assert (HE : ~ Exists finishing evs) by (intro; apply H; constructor 2; assumption).
  destruct (event_cases ev) as [X|[X|(m & k & HM & HK & ->)]]; [exfalso; apply H; constructor; exact X| |].
  - rewrite (editing_ignored _ _ _ _ HR X). eapply IH; eassumption.
  - assert (HL : (place s < length (recalls s))%nat) by (destruct HR as (? & ? & _ & _ & _ & _ & _ & _ & HL); exact HL).
    destruct (press_total k s HK HL) as (s' & P). destruct (step_ok e s k s' HR) as (e' & E & HR'); [intros c ->; exact H1|exact P|].
    rewrite editing_key by exact HM. rewrite E. cbn [rbind]. rewrite (rep_boundary _ _ HR'). eapply IH; eassumption.
Qed.
Lemma fresh_place q : (place (fresh q) < length (recalls (fresh q)))%nat.
Proof. cbn. rewrite app_length. cbn. lia. Qed.
Lemma read_line_ends hist q evs : texts hist q -> Forall typed_ok evs -> Exists finishing evs ->
  exists en q' r, entering evs (fresh q) en q' r.
Proof. intros _ _ H. apply entering_exists; [exact H|apply fresh_place]. Qed.
Lemma read_line_waits hist q evs : texts hist q -> Forall typed_ok evs -> ~ Exists finishing evs -> read_line hist evs = OutOfFuel.
Proof. intros H HF HN. eapply editing_waits; [exact HN|exact HF|apply fresh_rep; exact H]. Qed.

(** ** The specification determines the result *)
Lemma kept_unique s q1 q2 : kept_lines s q1 -> kept_lines s q2 -> q1 = q2.
Proof.
  intros (_ & A1 & B1) (_ & A2 & B2). apply nth_ext_some. intro j. destruct (Nat.eq_dec j (place s)) as [->|N]; [congruence|]. rewrite B1, B2 by exact N. reflexivity.
Qed.
Lemma pressed_unique k s s1 : pressed k s s1 -> forall s2, pressed k s s2 -> s1 = s2.
Proof.
  intros H s2 H2. destruct H; inversion H2; subst; try reflexivity;
  try match goal with E : _ ++ [_] = _ ++ [_] |- _ => apply app_inj_tail in E; destruct E; subst; reflexivity end;
  try match goal with E : _ ++ [_] = [] |- _ => destruct (app_cons_not_nil _ _ _ (eq_sym E)) end;
  try match goal with E : [] = _ ++ [_] |- _ => destruct (app_cons_not_nil _ _ _ E) end.
  - assert (q = q0) as -> by (eapply kept_unique; eassumption). congruence.
  - assert (q = q0) as -> by (eapply kept_unique; eassumption). congruence.
Qed.

(** ** Characters stay characters *)
Lemma all_nth (q : list (list Z)) : all_unicode q <-> forall i t, nth_error q i = Some t -> Forall unicode t.
Proof.
  unfold all_unicode. rewrite Forall_forall. split.
  - intros H i t E. apply H. eapply nth_error_In. exact E.
  - intros H t E. apply In_nth_error in E. destruct E as (i & E). eapply H. exact E.
Qed.
Definition proper (s : sheet) : Prop := Forall unicode (before s) /\ Forall unicode (after s) /\ all_unicode (recalls s).
Lemma kept_proper s q : proper s -> kept_lines s q -> all_unicode q.
Proof.
  intros (A & B & C) (_ & K1 & K2). rewrite all_nth in *. intros i t E. destruct (Nat.eq_dec i (place s)) as [->|N].
  - rewrite K1 in E. injection E as <-. apply Forall_app. auto.
  - rewrite K2 in E by exact N. eapply C. exact E.
Qed.
Lemma pressed_proper k s s' : pressed k s s' -> (forall c, k = Char c -> unicode c) -> proper s -> proper s'.
Proof.
  intros H HU HP. pose proof HP as HP0. destruct H; try exact HP; try (destruct HP as (A & B & C); cbn [before after recalls] in * );
  try (rewrite Forall_app in A); try (apply Forall_cons_iff in B); unfold proper; cbn [before after recalls]; rewrite ?Forall_app.
  - split; [split; [exact A|constructor; [apply HU; reflexivity|constructor]]|]. auto.
  - intuition.
  - split; [apply A|]. split; [constructor; [destruct A as [_ A]; inversion A; assumption|exact B]|exact C].
  - split; [split; [exact A|constructor; [apply B|constructor]]|]. split; [apply B|exact C].
  - pose proof (kept_proper _ _ HP0 H) as K. split; [rewrite all_nth in K; eapply K; eassumption|]. split; [constructor|exact K].
  - pose proof (kept_proper _ _ HP0 H) as K. split; [rewrite all_nth in K; eapply K; eassumption|]. split; [constructor|exact K].
Qed.
Lemma all_removelast q : all_unicode q -> all_unicode (removelast q).
Proof.
  induction q as [|a q IH]; intro H; [constructor|]. apply Forall_cons_iff in H. destruct H as [H1 H2]. destruct q; [constructor|]. cbn [removelast] in *. constructor; [exact H1|]. apply IH. exact H2.
Qed.
Lemma entering_proper evs s en q r : entering evs s en q r -> Forall typed_ok evs -> proper s -> all_unicode q /\ forall cs, en = Entered cs -> Forall unicode cs.
Proof.
  induction 1 as [m s evs HM HT|m s evs HM HT|s evs|s evs|m k s s' evs en q r HM HK HP HE IH|ev s evs en q r HI HE IH]; intros HF (A & B & C).
  - assert (Forall unicode (text_of s)) by (apply Forall_app; auto). split; [apply Forall_app; split; [apply all_removelast; exact C|constructor; [assumption|constructor]]|]. intros cs X. injection X as <-. assumption.
  - split; [apply all_removelast; exact C|]. intros cs X. injection X as <-. constructor.
  - split; [exact C|discriminate].
  - split; [exact C|discriminate].
  - apply Forall_cons_iff in HF. destruct HF as [H1 H2]. apply IH; [exact H2|]. eapply pressed_proper; [exact HP|intros c ->; exact H1|split; auto].
  - apply Forall_cons_iff in HF. apply IH; [apply HF|split; auto].
Qed.
Lemma read_line_proper q evs en q' r : all_unicode q -> Forall typed_ok evs -> entering evs (fresh q) en q' r ->
  all_unicode q' /\ forall cs, en = Entered cs -> Forall unicode cs.
Proof.
  intros H HF HE. eapply entering_proper; [exact HE|exact HF|]. split; [constructor|]. split; [constructor|]. apply Forall_app. split; [exact H|constructor; [constructor|constructor]].
Qed.

(** ** Typing *)
Lemma typing_entering cs : forall l q h evs en q' r, entering evs (mkSheet (l ++ cs) [] q h) en q' r -> entering (typing cs ++ evs) (mkSheet l [] q h) en q' r.
Proof.
  induction cs as [|c cs IH]; intros l q h evs en q' r H; [rewrite app_nil_r in H; exact H|]. cbn [typing map app].
  eapply E_key; [left; reflexivity|discriminate|constructor|]. apply IH. rewrite <- app_assoc. exact H.
Qed.
Lemma typing_ok cs : Forall unicode cs -> Forall typed_ok (typing cs).
Proof. intro H. unfold typing. apply Forall_forall. intros ev E. apply in_map_iff in E. destruct E as (c & <- & E). rewrite Forall_forall in H. apply H. exact E. Qed.
Lemma utf8_unique cs : forall s1 s2, utf8_text s1 cs -> utf8_text s2 cs -> s1 = s2.
Proof.
  assert (U : forall b1 b2 c, utf8_char b1 c -> utf8_char b2 c -> b1 = b2).
  { intros b1 b2 c H1 H2. destruct H1; inversion H2; subst; unfold tail_byte in *; try lia; repeat f_equal; lia. }
  induction cs as [|c cs IH]; intros s1 s2 H1 H2; [rewrite (utf8_nil _ H1), (utf8_nil _ H2); reflexivity|].
  inversion H1; inversion H2; subst. f_equal; [eapply U; eassumption|apply IH; assumption].
Qed.
