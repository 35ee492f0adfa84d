(** Machines used by the examples of the comparison of compiled and interpreted lines (C59). *)
From Coq Require Import ZArith List Bool Lia ZifyBool ZifyNat String.
From Verif Require Import Base Stack Mem Parser State CoreM IoM Exec Boot Std Spec Spec2 Spec4 Spec5 Spec6 Spec7 Spec9 Spec10 Spec11 Spec15 Spec16 Spec20.
From Verif Require Import LBase LStack LState LMem LMon LWords LDict LDict2 LText LDec LSame5 Ex Ex2 Ex3 Ex6 Ex7 Ex9 Ex10.
Import ListNotations.
Open Scope list_scope.
Open Scope Z_scope.
Open Scope m_scope.

(** ** Checking that the interpreter waits, with the [n] bytes at [A] writable *)
Definition region_of (A n : Z) (a : Z) : Prop := A <= a < A + n.
Section W.
Context {E : Env}.
Implicit Types (v : vm).
Definition intactb {T} (eqb : T -> T -> bool) (s : stack T) : bool :=
  (0 <=? len s) && (len s <=? 64) && eqb (sget s 64) (canary s) && eqb (sget s 255) (canary s).
Lemma intactb_ok {T} (eqb : T -> T -> bool) (s : stack T) : (forall x y, eqb x y = true -> x = y) -> intactb eqb s = true -> intact s.
Proof. intros H. unfold intactb. rewrite !andb_true_iff. intros (((A & B) & C) & D). split; [lia|]. split; apply H; assumption. Qed.
Definition some {T} (o : option T) : bool := match o with Some _ => true | None => false end.
Lemma some_ok {T} (o : option T) : some o = true -> o <> None. Proof. destruct o; [discriminate|intro H; discriminate H]. Qed.
Definition ctl_eqb (x y : control) : bool := match x, y with CCanary, CCanary => true | _, _ => false end.
Lemma ctl_eqb_ok x y : ctl_eqb x y = true -> x = y. Proof. destruct x, y; cbn; congruence. Qed.
Definition cs_eqb (x y : csem) : bool := match x, y with CS_compile_leave, CS_compile_leave => true | CS_compile_leave, _ | _, CS_compile_leave => false | _, _ => true end.
Definition no_leave (x : csem) : bool := match x with CS_compile_leave => false | _ => true end.
Lemma no_leave_ok x : no_leave x = true -> x <> CS_compile_leave. Proof. destruct x; cbn; congruence. Qed.
Definition freeb v (A n : Z) : bool :=
  forallb (fun i => let w := wl_get (v_wl v) i in let e := w_nfa w + 8 + zlen (name_at (v_ds v) (w_nfa w)) in
    ((A + n <=? w_nfa w) || (e <=? A)) && (negb (prim_eqb (w_action w) P_unmark) || (A + n <=? w_dfa w) || (w_dfa w + 520 <=? A))) (upto (wl_len (v_wl v))).
Definition waitingb v (A n : Z) : bool :=
  dict_okb v && readyb v && no_leave (w_cs (word_of v (idx_exit (v_refs v)))) && negb (idx_flit (v_refs v) =? 0) &&
  is_ok (get_isize (v_ds v) (base_addr (v_ds v))) && (base_addr (v_ds v) + 8 <=? here (v_ds v)) && negb (some (v_err v)) &&
  (match v_fwd v with [] => true | _ => false end) && negb (st_compiling (st v)) && (0 <=? st_ip (st v)) && (st_ip (st v) <? 2 ^ 63) && ((st_ip (st v) <? start (v_ds v)) || (limit (v_ds v) <? st_ip (st v) + 8)) &&
  (len (t_c (cur v)) =? 0) && intactb Z.eqb (t_s (cur v)) && intactb Z.eqb (t_r (cur v)) && intactb ctl_eqb (t_c (cur v)) && intactb Z.eqb (t_f (cur v)) &&
  some (v_tkn v) && some (t_inbuf (cur v)) && (st_sid (st v) <=? 0) &&
  (start (v_ds v) <=? A) && (A + n <=? here (v_ds v)) && ((A + n <=? base_addr (v_ds v)) || (base_addr (v_ds v) + 8 <=? A)) && freeb v A n.
Lemma has_nil {T} (s : stack T) : len s = 0 -> stack_has s [].
Proof. intro H. split; [rewrite H; reflexivity|]. split; [cbn; lia|]. intros [|k] x K; discriminate K. Qed.
Lemma freeb_ok v A n a : dict_ok v -> freeb v A n = true -> dict_okb v = true -> region_of A n a -> ~ protected v a.
Proof.
  intros HD H HB Ha (i & Hi & HP). unfold freeb in H. rewrite forallb_forall in H. specialize (H i (in_upto _ _ Hi)). cbv zeta in H.
  unfold dict_okb in HB. cbv zeta in HB. rewrite !andb_true_iff, forallb_forall in HB. destruct HB as (_ & HB). specialize (HB i (in_upto _ _ Hi)). rewrite !andb_true_iff in HB. destruct HB as (((HB & _) & _) & _).
  apply name_fieldb_ok in HB. rewrite andb_true_iff, !orb_true_iff in H. destruct H as (H1 & H2). unfold region_of in Ha. unfold word_of in *.
  destruct HP as [(n' & N & Hn)|(Hw & Hn)].
  - rewrite (name_field_inj _ _ _ _ (proj1 HD) N HB) in Hn. lia.
  - rewrite Hw in H2. destruct H2 as [[H2|H2]|H2]; [discriminate H2|lia|lia].
Qed.
Lemma waitingb_ok v A n : waitingb v A n = true -> waiting (region_of A n) v.
Proof.
  unfold waitingb. rewrite !andb_true_iff. intros H. repeat match type of H with _ /\ _ => let K := fresh "K" in destruct H as (H & K) end.
  pose proof (dict_okb_ok v H) as HD. unfold waiting, idle, stacks_intact.
  split; [exact HD|]. split; [apply readyb_ok; assumption|]. split; [apply no_leave_ok; assumption|]. split; [lia|].
  split; [unfold base_is; destruct (get_isize _ _) as [x| | |]; try discriminate; exists x; reflexivity|]. split; [lia|].
  split; [destruct (v_err v); [discriminate|reflexivity]|]. split; [destruct (v_fwd v); [reflexivity|discriminate]|]. split; [destruct (st_compiling (st v)); [discriminate|reflexivity]|].
  split; [lia|]. split; [apply has_nil; lia|].
  split; [repeat match goal with |- _ /\ _ => split | |- intact (t_c _) => apply (intactb_ok ctl_eqb _ ctl_eqb_ok) | |- intact _ => apply (intactb_ok Z.eqb); [intros; lia|] end; assumption|].
  split; [apply some_ok; assumption|]. split; [apply some_ok; assumption|]. split; [lia|].
  intros a Ha. split; [unfold region_of in Ha; lia|]. split; [apply (freeb_ok v A n a); assumption|unfold region_of in Ha; lia].
Qed.

(** Names *)
Definition missb v (s : bytes) : bool := match find 400 s v with Ok (None, _) => true | _ => false end.
Lemma missb_ok v s : dict_ok v -> words v < Z.of_nat 400 -> missb v s = true -> newest v s None.
Proof.
  intros HD HW H. destruct (find_newest 400 s v HD HW) as (r & E1 & N). unfold missb in H. rewrite E1 in H. destruct r; [discriminate|exact N].
Qed.

(** Decimal numbers *)
Lemma decimal_token v ds : base_is v 10 -> ds <> [] -> Forall (fun d => 0 <= d < 10) ds -> is_cell (positional 10 ds) -> integer_token v (map (fun d => 48 + d) ds) (positional 10 ds).
Proof.
  intros HB H0 H1 H2. exists 10. split; [exact HB|]. left. exists (1 * positional 10 ds). split.
  - apply (Numeral 10 [] 10 [] 1 (map (fun d => 48 + d) ds) ds); [constructor|constructor|destruct ds; [congruence|discriminate]| |].
    + clear - H1. induction H1 as [|d l H _ IH]; cbn; constructor; [apply Dg_09; lia|exact IH].
    + eapply Forall_impl; [|exact H1]. cbn. intros. lia.
  - split; [exact H2|]. exists 0. lia.
Qed.
End W.

(** Texts *)
Definition spaced (ts : list bytes) : bytes := List.concat (map (fun t => t ++ [32]) ts).
Definition okb (t : bytes) : bool := match t with [] => false | _ => forallb (fun c => negb (blankb c)) t end.
Lemma spaced_tokens ts : forallb okb ts = true -> tokens (spaced ts) ts.
Proof.
  assert (H : forall w, forallb blankb w = true -> forallb okb ts = true -> tokens (w ++ spaced ts) ts).
  { induction ts as [|t ts IH]; intros w Hw H.
    - constructor. apply blanks_ok. unfold spaced. cbn. rewrite app_nil_r. exact Hw.
    - cbn [forallb] in H. apply andb_prop in H as (A & B). unfold spaced. cbn [map List.concat]. rewrite <- (app_assoc t).
      eapply (tok_step w t ([32] ++ spaced ts) ts 32); [exact Hw|destruct t; [discriminate A|discriminate]| |reflexivity|reflexivity|apply IH; [reflexivity|exact B]].
      destruct t; [discriminate A|exact A]. }
  intro HT. exact (H [] eq_refl HT).
Qed.

(** ** A line on the loaded system with a variable *)
Definition var_d : @vm env_d := line_d "variable cnt" booted_d.
Definition A0 : Z := 76776.
Definition U0 : Z -> Prop := region_of A0 8.
Definition line59 : list bytes := map b ["5"; "cnt"; "!"; "cnt"; "@"; "dup"; "*"; "1"; "+"; "65"; "emit"]%string.
Definition text59 : bytes := b "5 cnt ! cnt @ dup * 1 + 65 emit ".
Definition text59c : bytes := b ": nine 5 cnt ! cnt @ dup * 1 + 65 emit ; nine ".
Definition items59 : list item := [Push 5; Call 325; Call 51; Call 325; Call 50; Call 26; Call 46; Push 1; Call 45; Push 65; Call 149].
Lemma text59_tokens : tokens text59 line59.
Proof. change text59 with (spaced line59). apply spaced_tokens. reflexivity. Qed.
Lemma text59c_tokens : tokens text59c (b ":" :: b "nine" :: line59 ++ [b ";"; b "nine"]).
Proof. change text59c with (spaced (b ":" :: b "nine" :: line59 ++ [b ";"; b "nine"])). apply spaced_tokens. reflexivity. Qed.

Section L.
Context {E : Env}.
Lemma wraps_unique n x : is_cell n -> wraps_to n x -> x = n.
Proof. unfold is_cell. intros H ((H1 & H2) & k & K). lia. Qed.
Lemma chain59 (v : vm) m A : word_is v 51 P_store -> word_is v 50 P_fetch -> word_is v 26 P_dup -> word_is v 46 P_star -> word_is v 45 P_plus -> word_is v 149 P_emit ->
  word_is v 325 P_p_var -> body v 325 = A -> ds_ok (v_ds v) -> start (v_ds v) < A -> A + 8 <= limit (v_ds v) ->
  chain (region_of A 8) v 64 items59 (Conf [] [] m (Some [])) (Conf [26] [] (put_bytes m A 8 5) (Some [65])).
Proof.
  intros W1 W2 W3 W4 W5 W6 W7 HB (D1 & D2 & D3) H1 H2. unfold items59. assert (HA : 0 <= A < 2 ^ 63) by lia.
  assert (HV : forall d m o, zlen d < 64 -> takes_to (region_of A 8) v 64 325 (Conf d [] m o) (Conf (A :: d) [] m o)).
  { intros d m' o Hd. rewrite <- HB. apply takes_var; [exact W7|rewrite HB; exact HA|exact Hd|discriminate]. }
  assert (AO : addr_of A A) by (split; [lia|exists 0; lia]).
  apply C_push; [reflexivity|]. eapply C_call; [apply HV; reflexivity|].
  eapply C_call; [apply (takes_store _ v 64 51 A A 5 []); [exact W1|exact AO|exact H1|exact H2|unfold region_of; lia|unfold region_of; lia|discriminate|discriminate]|].
  eapply C_call; [apply HV; reflexivity|].
  eapply C_call; [apply (takes_fetch _ v 64 50 A A 5 []); [exact W2|exact AO|exact H1|exact H2| |unfold is_cell; lia|reflexivity|discriminate]|].
  { intros k Hk. split; [unfold region_of; lia|]. unfold put_bytes. replace ((A <=? A + k) && (A + k <? A + 8)) with true by lia. replace (A + k - A) with k by lia. reflexivity. }
  eapply C_call; [eapply (takes_effect _ v 64 26 P_dup [5] _ [5; 5] []); [exact W3|apply dup_effect|intros l Hl; symmetry; exact Hl|discriminate|discriminate]|].
  eapply C_call; [eapply (takes_effect _ v 64 46 P_star [5; 5] _ [25] []); [exact W4|apply star_spec|intros l (x & -> & Hx); rewrite (wraps_unique (5 * 5) x); [reflexivity|unfold is_cell; lia|exact Hx]|discriminate|discriminate]|].
  apply C_push; [reflexivity|].
  eapply C_call; [eapply (takes_effect _ v 64 45 P_plus [1; 25] _ [26] []); [exact W5|apply plus_spec|intros l (x & -> & Hx); rewrite (wraps_unique (25 + 1) x); [reflexivity|unfold is_cell; lia|exact Hx]|discriminate|discriminate]|].
  apply C_push; [reflexivity|].
  eapply C_call; [apply (takes_emit _ v 64 149 65 [26]); [exact W6|lia|discriminate|discriminate]|]. apply C_end.
Qed.
End L.
Lemma var_d_waiting : waiting U0 var_d.
Proof. apply waitingb_ok. vm_cast_no_check (@eq_refl bool true). Qed.
Lemma var_d_words : words var_d < Z.of_nat 400.
Proof. assert (H : (words var_d <? 400) = true) by (vm_cast_no_check (@eq_refl bool true)). change (Z.of_nat 400) with 400. lia. Qed.
Definition word_checks59 : bool :=
  forallb (fun x => word_isb var_d (fst x) (snd x)) [(51, P_store); (50, P_fetch); (26, P_dup); (46, P_star); (45, P_plus); (149, P_emit); (325, P_p_var)] &&
  (body var_d 325 =? A0) && (start (v_ds var_d) <? A0) && (A0 + 8 <=? limit (v_ds var_d)) && match v_out var_d with Some [] => true | _ => false end.
Lemma var_d_chain : chain U0 var_d 64 items59 (Conf [] [] (byte_at (v_ds var_d)) (v_out var_d)) (Conf [26] [] (put_bytes (byte_at (v_ds var_d)) A0 8 5) (Some [65])).
Proof.
  assert (H : word_checks59 = true) by (vm_cast_no_check (@eq_refl bool true)). unfold word_checks59 in H. rewrite !andb_true_iff in H. destruct H as ((((H & H1) & H2) & H3) & H4).
  rewrite forallb_forall in H. assert (K : forall i p, In (i, p) [(51, P_store); (50, P_fetch); (26, P_dup); (46, P_star); (45, P_plus); (149, P_emit); (325, P_p_var)] -> word_is var_d i p).
  { intros i p Hip. apply word_isb_ok. exact (H (i, p) Hip). }
  destruct (v_out var_d) as [[|]|]; try discriminate H4.
  refine (chain59 var_d _ A0 (K 51 P_store _) (K 50 P_fetch _) (K 26 P_dup _) (K 46 P_star _) (K 45 P_plus _) (K 149 P_emit _) (K 325 P_p_var _) _ (proj1 (proj1 var_d_waiting)) _ _); try (cbn [In]; tauto); lia.
Qed.
Definition stands59b (v : @vm env_d) : bool :=
  forallb (fun x => foundb v (fst x) (snd x) && negb (w_imm (word_of v (snd x))) && negb (w_co (word_of v (snd x))) && no_leave (w_cs (word_of v (snd x))))
    [(b "!", 51); (b "@", 50); (b "dup", 26); (b "*", 46); (b "+", 45); (b "emit", 149); (b "cnt", 325)]%string &&
  forallb (missb v) (map b ["5"; "1"; "65"; "nine"]%string) && (match get_isize (v_ds v) (base_addr (v_ds v)) with Ok x => x =? 10 | _ => false end) &&
  foundb v (b ":") 116 && foundb v (b ";") 68 && word_isb v 116 P_colon && word_isb v 68 P_semicolon && negb (w_co (word_of v 116)) && w_imm (word_of v 68) &&
  (here (v_ds v) + 24 + 4 + 24 * 11 <=? limit (v_ds v)) && (len (t_s (cur v)) =? 0) && (len (t_f (cur v)) =? 0) && (len (t_r (cur v)) =? 0).
Definition stands59 (v : @vm env_d) : Prop :=
  Forall2 (stands_for v) line59 items59 /\ shows U0 (Conf [] [] (byte_at (v_ds v)) (v_out v)) v /\ stack_has (t_r (cur v)) [] /\ newest v (b "nine") None /\
  newest v (b ":") (Some 116) /\ w_action (word_of v 116) = P_colon /\ w_co (word_of v 116) = false /\
  newest v (b ";") (Some 68) /\ w_action (word_of v 68) = P_semicolon /\ w_imm (word_of v 68) = true /\ here (v_ds v) + 24 + zlen (b "nine") + 24 * zlen items59 <= limit (v_ds v).
Lemma stands59b_ok v : dict_ok v -> words v < Z.of_nat 400 -> stands59b v = true -> stands59 v.
Proof.
  intros HD HW H. unfold stands59b in H. unfold stands59. rewrite !andb_true_iff in H. destruct H as ((((((((((((H1 & H2) & H3) & H4) & H5) & H6) & H7) & H8) & H9) & H10) & H11) & H12) & H13).
  assert (B0 : base_is v 10) by (unfold base_is; destruct (get_isize _ _) as [x| | |]; try discriminate H3; f_equal; lia).
  rewrite forallb_forall in H1, H2.
  assert (KC : forall t i, In (t, i) [(b "!", 51); (b "@", 50); (b "dup", 26); (b "*", 46); (b "+", 45); (b "emit", 149); (b "cnt", 325)]%string -> stands_for v t (Call i)).
  { intros t i Hi. specialize (H1 (t, i) Hi). rewrite !andb_true_iff in H1. cbn [fst snd] in H1. destruct H1 as (((A & B) & C) & D).
    split; [apply (foundb_ok v HD HW); exact A|]. split; [apply negb_true_iff; exact B|]. split; [apply negb_true_iff; exact C|apply no_leave_ok; exact D]. }
  assert (KN : forall t, In t (map b ["5"; "1"; "65"; "nine"]%string) -> newest v t None) by (intros t Ht; apply missb_ok; [exact HD|exact HW|apply H2; exact Ht]).
  assert (KI : forall ds, In (map (fun d => 48 + d) ds) (map b ["5"; "1"; "65"; "nine"]%string) -> ds <> [] -> forallb (fun d => (0 <=? d) && (d <? 10)) ds = true -> is_cell (positional 10 ds) -> stands_for v (map (fun d => 48 + d) ds) (Push (positional 10 ds))).
  { intros ds D1 D2 D3 D4. split; [apply KN; exact D1|]. split; [|exact D4]. apply decimal_token; [exact B0|exact D2| |exact D4].
    rewrite Forall_forall. rewrite forallb_forall in D3. intros d Hd. specialize (D3 d Hd). lia. }
  split; [|split; [split; [apply has_nil; lia|split; [apply has_nil; lia|split; [reflexivity|reflexivity]]]|split; [apply has_nil; lia|split; [apply KN; cbn [In map]; tauto|split; [apply (foundb_ok v HD HW); exact H4|
    split; [apply (word_isb_ok _ _ _ H6)|split; [apply negb_true_iff; exact H8|split; [apply (foundb_ok v HD HW); exact H5|split; [apply (word_isb_ok _ _ _ H7)|split; [exact H9|]]]]]]]]]].
  - unfold line59, items59. cbn [map].
    repeat (apply Forall2_cons || apply Forall2_nil); try (apply KC; cbn [In map]; tauto).
    + apply (KI [5]); [cbn [In map]; left; reflexivity|discriminate|reflexivity|unfold is_cell; cbn; lia].
    + apply (KI [1]); [cbn [In map]; right; left; reflexivity|discriminate|reflexivity|unfold is_cell; cbn; lia].
    + apply (KI [6; 5]); [cbn [In map]; right; right; left; reflexivity|discriminate|reflexivity|unfold is_cell; cbn; lia].
  - change (zlen (b "nine")) with 4. change (zlen items59) with 11. lia.
Qed.
Lemma var_d_stands : stands59 var_d.
Proof. apply stands59b_ok; [apply var_d_waiting|exact var_d_words|]. vm_cast_no_check (@eq_refl bool true). Qed.
Lemma text59_utf8 : utf8_text text59 text59 /\ zlen text59 < 2 ^ 63 /\ utf8_text text59c text59c /\ zlen text59c < 2 ^ 63.
Proof. split; [apply ascii_utf8; reflexivity|]. split; [reflexivity|]. split; [apply ascii_utf8; reflexivity|reflexivity]. Qed.

(** ** Lines for which the claim fails *)
Definition endsb (s : string) (d : list Z) (e : option Z) (out : bytes) : bool :=
  match load_str 3000 (b s) booted_d with
  | Ok (_, v) => stack_hasb (t_s (cur v)) d && err_eqb (v_err v) e && match v_out v with Some o => bytes_eqb o out | None => false end
  | _ => false
  end.
Lemma endsb_ok s d e out : endsb s d e out = true -> exists v, load_str 3000 (b s) booted_d = Ok (tt, v) /\ stack_has (t_s (cur v)) d /\ v_err v = e /\ v_out v = Some out.
Proof.
  unfold endsb. destruct (load_str 3000 (b s) booted_d) as [([], v)| | |]; try discriminate. rewrite !andb_true_iff. intros ((A & B) & C). exists v.
  split; [reflexivity|]. split; [apply stack_hasb_ok; exact A|]. split; [apply err_eqb_eq; exact B|]. destruct (v_out v); [|discriminate C]. apply bytes_eqb_eq in C. congruence.
Qed.
Lemma here_differs : exists v1 v2 : @vm env_d,
  load_str 3000 (b "here") booted_d = Ok (tt, v1) /\ stack_has (t_s (cur v1)) [76760] /\ v_err v1 = None /\ v_out v1 = Some [] /\
  load_str 3000 (b ": x here ; x") booted_d = Ok (tt, v2) /\ stack_has (t_s (cur v2)) [76792] /\ v_err v2 = None /\ v_out v2 = Some [].
Proof.
  destruct (endsb_ok "here" [76760] None [] ltac:(vm_cast_no_check (@eq_refl bool true))) as (v1 & A). destruct (endsb_ok ": x here ; x" [76792] None [] ltac:(vm_cast_no_check (@eq_refl bool true))) as (v2 & B).
  exists v1, v2. tauto.
Qed.
Lemma error_differs : exists v1 v2 : @vm env_d,
  load_str 3000 (b "drop 65 emit") booted_d = Ok (tt, v1) /\ stack_has (t_s (cur v1)) [] /\ v_err v1 = Some (-4) /\ v_out v1 = Some [] /\
  load_str 3000 (b ": x drop 65 emit ; x") booted_d = Ok (tt, v2) /\ stack_has (t_s (cur v2)) [] /\ v_err v2 = Some (-4) /\ v_out v2 = Some [65].
Proof.
  destruct (endsb_ok "drop 65 emit" [] (Some (-4)) [] ltac:(vm_cast_no_check (@eq_refl bool true))) as (v1 & A). destruct (endsb_ok ": x drop 65 emit ; x" [] (Some (-4)) [65] ltac:(vm_cast_no_check (@eq_refl bool true))) as (v2 & B).
  exists v1, v2. tauto.
Qed.
