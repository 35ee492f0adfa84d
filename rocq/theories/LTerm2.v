(** Typing, recalling, and the history file. *)
From Coq Require Import ZArith List Bool Lia ZifyBool ZifyNat.
From Verif Require Import Base State Term LBase Spec11 Spec26 LTerm.
Import ListNotations.
Open Scope Z_scope.

Lemma texts_unique q : forall l1 l2, texts l1 q -> texts l2 q -> l1 = l2.
Proof.
  induction q as [|c q IH]; intros l1 l2 H1 H2; inversion H1; inversion H2; subst; [reflexivity|]. f_equal; [eapply utf8_unique; eassumption|apply IH; assumption].
Qed.
Lemma enter_unique hist q evs cs s q' hist' r : texts hist q -> Forall typed_ok evs -> entering evs (fresh q) (Entered cs) q' r ->
  utf8_text s cs -> texts hist' q' -> read_line hist evs = Ok (Line s, hist', r).
Proof.
  intros H HF HE HS HH. destruct (read_line_run _ _ _ _ _ _ H HF HE) as (o & h & E & A & B). rewrite E. rewrite (texts_unique _ _ _ B HH).
  destruct o; cbn in A; try contradiction. rewrite (utf8_unique _ _ _ A HS). reflexivity.
Qed.
Lemma typed_line hist q cs s evs : texts hist q -> Forall unicode cs -> cs <> [] -> utf8_text s cs -> Forall typed_ok evs ->
  read_line hist (typing cs ++ Key NoMod Enter :: evs) = Ok (Line s, hist ++ [s], evs).
Proof.
  intros H HU HN HS HF. eapply enter_unique with (q := q) (cs := cs) (q' := q ++ [cs]); [exact H|apply Forall_app; split; [apply typing_ok; exact HU|constructor; [exact I|exact HF]]| |exact HS|].
  - apply typing_entering. cbn [app]. pose proof (E_enter NoMod (mkSheet cs [] (q ++ [[]]) (length q)) evs ltac:(left; reflexivity)) as X.
    unfold text_of in X. cbn [before after recalls] in X. rewrite app_nil_r, removelast_last in X. apply X. exact HN.
  - apply texts_app; [exact H|]. constructor; [exact HS|constructor].
Qed.
Lemma empty_line hist q evs : texts hist q -> Forall typed_ok evs -> read_line hist (Key NoMod Enter :: evs) = Ok (Line [], hist, evs).
Proof.
  intros H HF. eapply enter_unique with (q := q) (cs := []) (q' := q); [exact H|constructor; [exact I|exact HF]| |constructor|exact H].
  pose proof (E_empty NoMod (fresh q) evs ltac:(left; reflexivity) eq_refl) as X. cbn [fresh recalls] in X. rewrite removelast_last in X. exact X.
Qed.
Lemma eof_line hist evs : read_line hist (Key Control (Char 100) :: evs) = Ok (Eof, hist ++ [[]], evs).
Proof. reflexivity. Qed.

Lemma kept_last l r q c : kept_lines (mkSheet l r (q ++ [c]) (length q)) (q ++ [l ++ r]).
Proof.
  unfold kept_lines, text_of. cbn [before after recalls place]. rewrite !app_length. split; [reflexivity|].
  split; [rewrite nth_error_app2 by lia; rewrite Nat.sub_diag; reflexivity|]. intros i Hi.
  destruct (Nat.lt_ge_cases i (length q)) as [C|C]; [rewrite !nth_error_app1 by exact C; reflexivity|]. rewrite !nth_error_app2 by lia.
  destruct (i - length q)%nat as [|n] eqn:E; [lia|]. cbn. destruct n; reflexivity.
Qed.
Lemma recalled_line hist q cs s evs : texts hist q -> utf8_text s cs -> cs <> [] -> Forall typed_ok evs ->
  read_line (hist ++ [s]) (Key NoMod Up :: Key NoMod Enter :: evs) = Ok (Line s, hist ++ [s; s], evs).
Proof.
  intros H HS HN HF. eapply enter_unique with (q := q ++ [cs]) (cs := cs) (q' := q ++ [cs; cs]);
    [apply texts_app; [exact H|constructor; [exact HS|constructor]]|constructor; [exact I|constructor; [exact I|exact HF]]| |exact HS|].
  - eapply E_key; [left; reflexivity|discriminate| |].
    + unfold fresh. apply Pr_up; [apply kept_last|reflexivity|]. cbn [place]. rewrite app_length. cbn [length]. instantiate (1 := cs).
      rewrite <- app_assoc. rewrite nth_error_app2 by lia. replace (Nat.pred (length q + 1) - length q)%nat with 0%nat by lia. reflexivity.
    + pose proof (E_enter NoMod (mkSheet cs [] ((q ++ [cs]) ++ [[]]) (Nat.pred (length (q ++ [cs])))) evs ltac:(left; reflexivity)) as X.
      unfold text_of in X. cbn [before after recalls] in X. rewrite app_nil_r, removelast_last in X.
      replace (q ++ [cs; cs]) with ((q ++ [cs]) ++ [cs]) by (rewrite <- app_assoc; reflexivity). apply X. exact HN.
  - apply texts_app; [exact H|]. constructor; [exact HS|]. constructor; [exact HS|constructor].
Qed.
Lemma up_down_line hist q cs s evs : texts hist q -> hist <> [] -> Forall unicode cs -> cs <> [] -> utf8_text s cs -> Forall typed_ok evs ->
  read_line hist (typing cs ++ Key NoMod Up :: Key NoMod Down :: Key NoMod Enter :: evs) = Ok (Line s, hist ++ [s], evs).
Proof.
  intros H HH HU HN HS HF. pose proof (texts_len _ _ H) as L. destruct hist as [|h0 hist]; [congruence|]. clear HH. cbn in L.
  eapply enter_unique with (q := q) (cs := cs) (q' := q ++ [cs]); [exact H|apply Forall_app; split; [apply typing_ok; exact HU|constructor; [exact I|constructor; [exact I|constructor; [exact I|exact HF]]]]| |exact HS|].
  - apply typing_entering. cbn [app].
    destruct (nth_error q (Nat.pred (length q))) as [t|] eqn:ET; [|apply nth_error_None in ET; lia].
    eapply E_key; [left; reflexivity|discriminate|apply Pr_up; [apply kept_last|reflexivity|]|].
    { cbn [place]. rewrite app_nil_r. rewrite nth_error_app1 by lia. exact ET. }
    cbn [place]. rewrite app_nil_r.
    eapply E_key; [left; reflexivity|discriminate|eapply Pr_down with (q := q ++ [cs]); [|reflexivity|]|].
    + unfold kept_lines, text_of. cbn [before after recalls place]. rewrite app_nil_r. split; [reflexivity|]. split; [rewrite nth_error_app1 by lia; exact ET|reflexivity].
    + cbn [place recalls]. rewrite app_length. cbn [length]. replace (Nat.min (S (Nat.pred (length q))) (length q + 1 - 1)) with (length q) by lia.
      rewrite nth_error_app2 by lia. rewrite Nat.sub_diag. reflexivity.
    + match goal with |- entering _ ?S _ _ _ => pose proof (E_enter NoMod S evs ltac:(left; reflexivity)) as X end.
      unfold text_of in X. cbn [before after recalls] in X. rewrite app_nil_r, removelast_last in X. apply X. exact HN.
  - apply texts_app; [exact H|]. constructor; [exact HS|constructor].
Qed.

(** ** Valid text *)
Lemma valid_text s cs : utf8_text s cs -> Forall unicode cs -> forall n, (length s <= n)%nat -> utf8_valid n s = true.
Proof.
  induction 1 as [|bs c s cs HC HT IH]; intros HF n Hn; [destruct n; reflexivity|]. apply Forall_cons_iff in HF. destruct HF as [HU HF]. rewrite app_length in Hn.
  destruct HC; cbn [length] in Hn; (destruct n as [|n]; [lia|]); cbn [app utf8_valid]; unfold tail_byte, unicode, tailb in *.
  - replace ((0 <=? a) && (a <? 128)) with true by lia. apply IH; [exact HF|lia].
  - replace ((0 <=? a) && (a <? 128)) with false by lia. replace ((194 <=? a) && (a <? 224)) with true by lia.
    rewrite IH by (assumption || lia). lia.
  - replace ((0 <=? a) && (a <? 128)) with false by lia. replace ((194 <=? a) && (a <? 224)) with false by lia. replace ((224 <=? a) && (a <? 240)) with true by lia.
    rewrite IH by (assumption || lia). lia.
  - replace ((0 <=? a) && (a <? 128)) with false by lia. replace ((194 <=? a) && (a <? 224)) with false by lia. replace ((224 <=? a) && (a <? 240)) with false by lia.
    replace ((240 <=? a) && (a <? 245)) with true by lia. rewrite IH by (assumption || lia). lia.
Qed.
Lemma text_valid n : forall s, utf8_valid n s = true -> exists cs, utf8_text s cs /\ Forall unicode cs.
Proof.
  induction n as [|n IH]; intros s H; [destruct s; [exists []; split; constructor|discriminate]|]. destruct s as [|a r]; [exists []; split; constructor|]. cbn [utf8_valid] in H.
  destruct ((0 <=? a) && (a <? 128)) eqn:E1.
  { destruct (IH _ H) as (cs & A & B). exists (a :: cs). split; [change (a :: r) with ([a] ++ r); constructor; [constructor; lia|exact A]|constructor; [unfold unicode; lia|exact B]]. }
  destruct ((194 <=? a) && (a <? 224)) eqn:E2.
  { destruct r as [|x r]; [discriminate|]. apply andb_true_iff in H. destruct H as [H1 H]. unfold tailb in *. destruct (IH _ H) as (cs & A & B). eexists (_ :: cs).
    split; [change (a :: x :: r) with ([a; x] ++ r); constructor; [constructor; unfold tail_byte; lia|exact A]|constructor; [unfold unicode; lia|exact B]]. }
  destruct ((224 <=? a) && (a <? 240)) eqn:E3.
  { destruct r as [|x [|y r]]; try discriminate. apply andb_true_iff in H. destruct H as [H1 H]. unfold tailb in *. destruct (IH _ H) as (cs & A & B). eexists (_ :: cs).
    split; [change (a :: x :: y :: r) with ([a; x; y] ++ r); constructor; [constructor; unfold tail_byte; lia|exact A]|constructor; [unfold unicode; lia|exact B]]. }
  destruct ((240 <=? a) && (a <? 245)) eqn:E4; [|discriminate].
  destruct r as [|x [|y [|z r]]]; try discriminate. apply andb_true_iff in H. destruct H as [H1 H]. unfold tailb in *. destruct (IH _ H) as (cs & A & B). eexists (_ :: cs).
  split; [change (a :: x :: y :: z :: r) with ([a; x; y; z] ++ r); constructor; [constructor; unfold tail_byte; lia|exact A]|constructor; [unfold unicode; lia|exact B]].
Qed.
Lemma last32_len {A} (l : list A) : (length (last32 l) <= 32)%nat.
Proof. unfold last32. rewrite skipn_length. lia. Qed.
Lemma loaded s : exists q, texts (load_history s) q /\ all_unicode q /\ (length q <= 32)%nat.
Proof.
  assert (X : forall l, exists q, texts (map (fun l => if utf8_valid (length l) l then l else []) l) q /\ all_unicode q).
  { induction l as [|a l (q & A & B)]; [exists []; split; constructor|]. cbn [map]. destruct (utf8_valid (length a) a) eqn:E.
    - destruct (text_valid _ _ E) as (cs & C & D). exists (cs :: q). split; constructor; assumption.
    - exists ([] :: q). split; constructor; try assumption; constructor. }
  assert (Y : forall n l q, texts l q -> all_unicode q -> texts (skipn n l) (skipn n q) /\ all_unicode (skipn n q)).
  { induction n as [|n IH]; intros l q A B; [auto|]. destruct A; [split; constructor|]. cbn [skipn]. apply Forall_cons_iff in B. apply IH; [assumption|apply B]. }
  destruct (X (file_lines s [])) as (q & A & B). unfold load_history, last32. destruct (Y (length (map (fun l => if utf8_valid (length l) l then l else []) (file_lines s [])) - 32)%nat _ _ A B) as (C & D).
  eexists. split; [exact C|]. split; [exact D|]. rewrite <- (texts_len _ _ C). apply last32_len.
Qed.

(** ** Writing and reading back *)
Lemma char_in s cs c : utf8_text s cs -> 0 <= c < 128 -> In c s -> In c cs.
Proof.
  induction 1 as [|bs a s cs HC HT IH]; intros Hc H; [exact H|]. apply in_app_or in H. destruct H as [H|H]; [|right; auto]. left.
  destruct HC; cbn in H; unfold tail_byte in *; intuition; subst; try lia; try reflexivity.
Qed.
Lemma chomp_ok s : ~ In 13 s -> chomp s = s.
Proof.
  intro H. unfold chomp. destruct (last s 0 =? 13) eqn:E; [|reflexivity]. exfalso. apply H. destruct s as [|a s]; [cbn in E; lia|].
  assert (a :: s <> []) as N by discriminate. destruct (exists_last N) as (l & x & X). rewrite X in *. rewrite last_last in E. apply in_or_app. right. left. lia.
Qed.
Lemma file_line_one s : forall acc r, ~ In 10 s -> file_lines (s ++ 10 :: r) acc = chomp (acc ++ s) :: file_lines r [].
Proof.
  induction s as [|c s IH]; intros acc r H; cbn [app file_lines].
  - rewrite Z.eqb_refl, app_nil_r. reflexivity.
  - replace (c =? 10) with false by (symmetry; apply Z.eqb_neq; intros ->; apply H; left; reflexivity). rewrite IH by (intro; apply H; right; assumption). rewrite <- app_assoc. reflexivity.
Qed.
Definition written (l : list bytes) : bytes := flat_map (fun l => match l with [] => [] | _ => l ++ [10] end) l.
Lemma written_read l k : non_empty l k -> Forall storable k -> map (fun l => if utf8_valid (length l) l then l else []) (file_lines (written l) []) = k.
Proof.
  induction 1 as [|l k H IH|x s l k H IH]; intro HF; [reflexivity|apply IH; exact HF|].
  apply Forall_cons_iff in HF. destruct HF as [(cs & T & U & N & H10 & H13) HF]. cbn [written flat_map]. rewrite <- app_assoc. change ([10] ++ flat_map (fun l0 => match l0 with [] => [] | _ => l0 ++ [10] end) l) with (10 :: written l).
  rewrite file_line_one by (intro Q; apply H10; eapply char_in; [exact T|lia|exact Q]). cbn [app map]. rewrite chomp_ok by (intro Q; apply H13; eapply char_in; [exact T|lia|exact Q]).
  rewrite (valid_text _ _ T U) by lia. rewrite IH by exact HF. reflexivity.
Qed.
Lemma newest_last32 {A} (l k : list A) : newest_lines 32 l k -> last32 l = k.
Proof.
  intros (o & -> & A1 & A2). unfold last32. rewrite app_length. destruct A2 as [->|A2].
  - cbn [length app]. replace (0 + length k - 32)%nat with 0%nat by lia. reflexivity.
  - rewrite A2. replace (length o + 32 - 32)%nat with (length o) by lia. rewrite skipn_app, skipn_all, Nat.sub_diag. reflexivity.
Qed.
Lemma non_empty_len l k : non_empty l k -> (length k <= length l)%nat.
Proof. induction 1; cbn; lia. Qed.
Lemma saved_loaded hist k e : newest_lines 32 hist k -> non_empty k e -> Forall storable e -> load_history (save_history hist) = e.
Proof.
  intros H1 H2 H3. unfold load_history, save_history. rewrite (newest_last32 _ _ H1). fold (written k). rewrite (written_read _ _ H2 H3).
  apply newest_last32. exists []. split; [reflexivity|]. destruct H1 as (o & _ & L & _). pose proof (non_empty_len _ _ H2). split; [lia|left; reflexivity].
Qed.
Lemma storable_non_empty l : Forall storable l -> non_empty l l.
Proof.
  induction l as [|s l IH]; intro H; [constructor|]. apply Forall_cons_iff in H. destruct H as [(cs & T & _ & N & _) H]. destruct s; [apply utf8_empty in T; congruence|]. constructor. auto.
Qed.
Lemma non_empty_tail l k : non_empty l k -> non_empty (l ++ [[]]) k.
Proof. induction 1; cbn [app]; constructor; auto. constructor. Qed.
(** Leaving with Ctrl-D *)
Lemma survives_quit hist evs hist' : (length hist < 32)%nat -> Forall storable hist ->
  read_line hist (Key Control (Char 100) :: evs) = Ok (Eof, hist', evs) -> load_history (save_history hist') = hist.
Proof.
  intros L H E. rewrite eof_line in E. injection E as <-. eapply saved_loaded with (k := hist ++ [[]]); [|apply non_empty_tail, storable_non_empty; exact H|exact H].
  exists []. split; [reflexivity|]. rewrite app_length. cbn. split; [lia|left; reflexivity].
Qed.
Lemma storable_char c : 32 <= c < 127 -> storable [c].
Proof.
  intro H. exists [c]. split; [apply utf8_one; constructor; lia|]. split; [constructor; [unfold unicode; lia|constructor]|]. split; [discriminate|]. cbn. lia.
Qed.
Lemma lost_on_quit : exists hist hist', (length hist = 32)%nat /\ Forall storable hist /\ read_line hist [Key Control (Char 100)] = Ok (Eof, hist', []) /\ load_history (save_history hist') <> hist.
Proof.
  exists (map (fun i => [Z.of_nat i + 40]) (seq 0 32)). eexists. split; [reflexivity|]. split.
  - apply Forall_forall. intros s H. apply in_map_iff in H. destruct H as (i & <- & H). apply in_seq in H. exists [Z.of_nat i + 40].
    split; [apply utf8_one; constructor; lia|]. split; [constructor; [unfold unicode; lia|constructor]|]. split; [discriminate|]. cbn. lia.
  - split; [reflexivity|]. vm_compute. discriminate.
Qed.
Lemma recall_rewrites : exists hist hist' s evs, (exists q, texts hist q) /\ Forall typed_ok evs /\
  read_line hist evs = Ok (Line s, hist', []) /\ ~ exists l, hist' = hist ++ l.
Proof.
  exists [[97]], [[97; 98]], [], [Key NoMod Up; Key NoMod (Char 98); Key NoMod Down; Key NoMod Enter].
  split; [exists [[97]]; constructor; [apply utf8_one; constructor; lia|constructor]|].
  split; [repeat (apply Forall_cons; [first [exact I|cbn; unfold unicode; lia]|]); constructor|]. split; [reflexivity|]. intros (l & H). discriminate.
Qed.
(** Histories stay proper from one line to the next *)
Lemma next_line hist q evs : texts hist q -> all_unicode q -> Forall typed_ok evs -> Exists finishing evs ->
  exists o hist' q' r en, read_line hist evs = Ok (o, hist', r) /\ entering evs (fresh q) en q' r /\ shows o en /\ texts hist' q' /\ all_unicode q'.
Proof.
  intros H HU HF HX. destruct (read_line_ends hist q evs H HF HX) as (en & q' & r & E). destruct (read_line_run _ _ _ _ _ _ H HF E) as (o & h & A & B & C).
  destruct (read_line_proper _ _ _ _ _ HU HF E) as (D & _). eauto 12.
Qed.
