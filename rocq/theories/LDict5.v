(** Visibility of definitions, address to word, defining words without a name. *)
From Coq Require Import ZArith List Bool Lia ZifyBool ZifyNat String.
From Verif Require Import Base Stack Mem Parser Flt State CoreM IoM FloatM FileM Exec.
From Verif Require Import LBase LStack Spec Spec4 Spec9 Spec10 LState LMem LMon LStep LTask LCode LDict LDict2 LDict3 LDict4.
Import ListNotations.
Open Scope list_scope.
Open Scope Z_scope.
Open Scope m_scope.
Ltac Zify.zify_post_hook ::= Z.div_mod_to_equations.

Section D.
Context {E : Env}.
Implicit Types (v : vm).

(** ** Visibility *)
Lemma older_named v v' i n : dict_ok v -> older_kept v v' -> 0 <= i < words v -> named v i n -> named v' i n.
Proof.
  intros HD (A1 & A2 & A3 & A4 & A5 & A6) Hi HN. unfold named. rewrite (A5 i Hi). eapply name_field_kept; [exact HN|exact A2|exact A4|].
  intros a Ha. apply A6. destruct HN as (N1 & N2 & _). lia.
Qed.
Lemma older_visible v v' i name : dict_ok v -> dict_ok v' -> older_kept v v' -> 0 <= i < words v -> (visible v i name <-> visible v' i name).
Proof.
  intros HD HD' HK Hi. destruct (dict_named v i HD Hi) as (n & N & _). rewrite (visible_iff v i n name HD N).
  rewrite (visible_iff v' i n name HD' (older_named _ _ _ _ HD HK Hi N)). destruct HK as (_ & _ & _ & _ & HW & _). rewrite (HW i Hi). reflexivity.
Qed.
Lemma newest_ext v v' name r : words v' = words v -> (forall i, 0 < i < words v -> (visible v i name <-> visible v' i name)) ->
  (newest v name r <-> newest v' name r).
Proof.
  intros HW HV. destruct r as [i|]; cbn [newest]; rewrite HW.
  - split; intros (A & B & C); (split; [exact A|]); (split; [apply HV; [lia|exact B]|]); intros j Hj HX; apply (C j Hj); apply HV; [lia|exact HX|lia|exact HX].
  - split; intros A j Hj HX; apply (A j Hj); apply HV; [lia|exact HX|lia|exact HX].
Qed.
Lemma newest_hidden v v' name r : words v' = words v + 1 -> 0 < words v -> (forall i, 0 < i < words v -> (visible v i name <-> visible v' i name)) ->
  ~ visible v' (words v) name -> (newest v name r <-> newest v' name r).
Proof.
  intros HW H0 HV HN. destruct r as [i|]; cbn [newest]; rewrite HW.
  - split; intros (A & B & C).
    + split; [lia|]. split; [apply HV; [lia|exact B]|]. intros j Hj HX. destruct (Z.eq_dec j (words v)) as [->|N]; [exact (HN HX)|]. apply (C j); [lia|]. apply HV; [lia|exact HX].
    + assert (i <> words v) by (intros ->; exact (HN B)). split; [lia|]. split; [apply HV; [lia|exact B]|]. intros j Hj HX. apply (C j); [lia|]. apply HV; [lia|exact HX].
  - split; intros A j Hj HX.
    + destruct (Z.eq_dec j (words v)) as [->|N]; [exact (HN HX)|]. apply (A j); [lia|]. apply HV; [lia|exact HX].
    + apply (A j); [lia|]. apply HV; [lia|exact HX].
Qed.
Lemma colon_newest fuel v v' name r : dict_ok v -> v_err v = None -> quiet fuel P_colon v v' -> (newest v name r <-> newest v' name r).
Proof.
  intros HD HE Hq. apply quiet_ub in Hq. destruct (colon_ub fuel v v' HD HE Hq) as (t & (N1 & N2 & N3 & _) & Hh). pose proof HD as (_ & H1 & _).
  apply newest_hidden; [exact N3|lia| |].
  - intros i Hi. apply older_visible; try assumption. lia.
  - intros (A & _). congruence.
Qed.

Lemma semicolon_newest fuel v v' n name r : dict_ok v -> 1 < words v -> named v (words v - 1) n -> w_hidden (word_of v (words v - 1)) = true ->
  quiet fuel P_semicolon v v' ->
  dict_ok v' /\ named v' (words v - 1) n /\
  (same_text n name -> (newest v' name r <-> r = Some (words v - 1))) /\
  (~ same_text n name -> (newest v' name r <-> newest v name r)).
Proof.
  intros HD H1 HN HH Hq. apply quiet_ub in Hq. destruct (semicolon_ub fuel v v' HD Hq) as (HF & HW).
  pose proof (finished_step v v' HD HF) as (S1 & _).
  assert (HL : words v' = words v) by (unfold words; rewrite HW; reflexivity).
  assert (HG : forall i, word_of v' i = word_of (set_word_at (words v - 1) (set_w_hidden false (word_of v (words v - 1))) v) i) by (intro i; unfold word_of; rewrite HW; reflexivity).
  assert (HO : forall i, 0 <= i < words v - 1 -> word_of v' i = word_of v i).
  { intros i Hi. rewrite HG, set_word_of by lia. replace (_ =? i) with false by lia. reflexivity. }
  assert (HLast : word_of v' (words v - 1) = set_w_hidden false (word_of v (words v - 1))).
  { rewrite HG, set_word_of by lia. rewrite Z.eqb_refl. reflexivity. }
  assert (HNm : forall i m, 0 <= i < words v -> named v i m -> named v' i m).
  { intros i m Hi Hm. assert (w_nfa (word_of v' i) = w_nfa (word_of v i)) as EN.
    { destruct (Z.eq_dec i (words v - 1)) as [->|]; [rewrite HLast; reflexivity|rewrite HO by lia; reflexivity]. }
    unfold named. rewrite EN. destruct HF as (_ & (_ & G2 & _ & G4 & G5) & _). eapply name_field_kept; [exact Hm|exact G2|exact G4|].
    intros a Ha. apply G5. destruct Hm as (M1 & M2 & _). lia. }
  assert (HV : forall i, 0 <= i < words v - 1 -> (visible v i name <-> visible v' i name)).
  { intros i Hi. destruct (dict_named v i HD ltac:(lia)) as (m & Nm & _). rewrite (visible_iff v i m name HD Nm), (visible_iff v' i m name S1 (HNm i m ltac:(lia) Nm)).
    rewrite (HO i Hi). reflexivity. }
  assert (HX : visible v' (words v - 1) name <-> same_text n name).
  { rewrite (visible_iff v' (words v - 1) n name S1 (HNm (words v - 1) n ltac:(lia) HN)). rewrite HLast. cbn. tauto. }
  split; [exact S1|]. split; [apply HNm; [lia|exact HN]|]. split; intro HT.
  - assert (HNw : newest v' name (Some (words v - 1))).
    { cbn [newest]. rewrite HL. split; [lia|]. split; [apply HX; exact HT|]. intros j Hj; lia. }
    split; [intro A; exact (newest_unique _ _ _ _ A HNw)|intros ->; exact HNw].
  - symmetry. apply newest_ext; [exact HL|]. intros i Hi. destruct (Z.eq_dec i (words v - 1)) as [->|N]; [|apply HV; lia].
    split; [intros (A & _); congruence|]. intro A. apply HX in A. contradiction.
Qed.

(** A whole definition *)
Lemma colon_semicolon fuel v0 v1 v2 v3 : dict_ok v0 -> v_err v0 = None -> quiet fuel P_colon v0 v1 -> goes_on v1 v2 -> quiet fuel P_semicolon v2 v3 ->
  (forall name r, newest v2 name r <-> newest v0 name r) /\
  exists t, t <> [] /\ named v3 (words v0) t /\
    (forall name r, same_text t name -> (newest v3 name r <-> r = Some (words v0))) /\
    (forall name r, ~ same_text t name -> (newest v3 name r <-> newest v0 name r)).
Proof.
  intros HD HE Hc Hb Hs. pose proof (quiet_ub _ _ _ _ Hc) as Hc'. destruct (colon_ub fuel v0 v1 HD HE Hc') as (t & (N1 & N2 & N3 & N4 & N5 & N6 & N7) & Hh).
  pose proof (goes_on_dict _ _ Hb N1) as HD2.
  assert (HN : forall name r, newest v2 name r <-> newest v0 name r).
  { intros name r. rewrite <- (goes_on_newest v1 v2 name r N1 Hb). symmetry. eapply colon_newest; eassumption. }
  split; [exact HN|]. exists t. split; [exact N6|]. pose proof Hb as ((W1 & W2 & W3 & W4) & _). pose proof HD as (_ & H1 & _).
  assert (K : words v2 - 1 = words v0) by lia.
  assert (Hn2 : named v2 (words v2 - 1) t) by (rewrite K; eapply goes_on_named; [exact Hb|lia|exact N4]).
  assert (Hh2 : w_hidden (word_of v2 (words v2 - 1)) = true) by (rewrite K, W3 by lia; exact Hh).
  pose proof (fun name r => semicolon_newest fuel v2 v3 t name r HD2 ltac:(lia) Hn2 Hh2 Hs) as HS. rewrite K in HS.
  split; [exact (proj1 (proj2 (HS [] None)))|]. split; intros name r HT.
  - exact (proj1 (proj2 (proj2 (HS name r))) HT).
  - rewrite (proj2 (proj2 (proj2 (HS name r))) HT). apply HN.
Qed.

Lemma defining_older fuel p v v' : dict_ok v -> In p defining_words -> quiet fuel p v v' ->
  dict_ok v' /\ older_kept v v' /\ words v' = words v + 1 /\ exists t, t <> [] /\ named v' (words v) t.
Proof.
  intros HD Hp Hq. apply quiet_ub in Hq. destruct (defining_ub fuel p v v' HD Hp Hq) as (t & (N1 & N2 & N3 & N4 & N5 & N6 & N7)).
  split; [exact N1|]. split; [exact N2|]. split; [exact N3|]. eauto.
Qed.
Lemma finished_older v0 v v' : dict_ok v0 -> dict_ok v -> words v0 < words v -> older_kept v0 v -> finished v v' -> older_kept v0 v' /\ words v' = words v.
Proof.
  intros HD0 HD Hw HK (HC & (G1 & G2 & G3 & G4 & G5) & _). pose proof HD0 as ((P1 & P2 & P3) & H1 & _). destruct HK as (A1 & A2 & A3 & A4 & A5 & A6).
  assert (HW : words v' = words v /\ forall i, 0 <= i < words v0 -> word_of v' i = word_of v i).
  { destruct HC as [HC|(w & _ & HC)]; (split; [unfold words; rewrite HC; reflexivity|]); intros i Hi.
    - unfold word_of. rewrite HC. reflexivity.
    - transitivity (word_of (set_word_at (words v - 1) w v) i); [unfold word_of; rewrite HC; reflexivity|]. rewrite set_word_of by lia. replace (_ =? i) with false by lia. reflexivity. }
  destruct HW as (HL & HW). split; [|exact HL]. split; [lia|]. split; [congruence|]. split; [congruence|]. split; [lia|]. split.
  - intros i Hi. rewrite HW by exact Hi. apply A5. exact Hi.
  - intros a Ha. rewrite G5 by lia. apply A6. exact Ha.
Qed.
Lemma redefinitions_older fuel v v' : dict_ok v -> redefinitions fuel v v' -> dict_ok v' /\ words v < words v' /\ older_kept v v'.
Proof.
  intros HD. induction 1 as [p v1 Hp Hq|p v1 v2 HS (IH1 & IH2 & IH3) Hp Hq|p v1 v2 HS (IH1 & IH2 & IH3) Hp Hq].
  - destruct (defining_older fuel p v v1 HD Hp Hq) as (A & B & C & _). split; [exact A|]. split; [lia|exact B].
  - destruct (defining_older fuel p v1 v2 IH1 Hp Hq) as (A & B & C & _). split; [exact A|]. split; [lia|eapply older_trans; eassumption].
  - apply quiet_ub in Hq. apply finishing_ub in Hq; [|exact IH1|exact Hp]. destruct (finished_older v v1 v2 HD IH1 IH2 IH3 Hq) as (A & B).
    split; [apply (finished_step v1 v2 IH1 Hq)|]. split; [lia|exact A].
Qed.

(** ** Address to word *)
Lemma bsearch_ok f (key : Z -> Z) addr : forall base size, 0 <= base -> 1 <= size <= 2 ^ Z.of_nat f ->
  (forall i j, 0 <= i < j -> j < base + size -> key i < key j) ->
  (base = 0 \/ key base <= addr) ->
  let r := bsearch f key addr base size in
  base <= r < base + size /\ (r = 0 \/ key r <= addr) /\ forall j, r < j < base + size -> addr < key j.
Proof.
  induction f as [|f IH]; intros base size Hb Hs HK HB.
  { cbn [Z.of_nat] in Hs. change (2 ^ 0) with 1 in Hs. cbn [bsearch]. cbv zeta. split; [lia|]. split; [exact HB|]. intros j Hj; lia. }
  cbn [bsearch]. destruct (1 <? size) eqn:E1; [|cbv zeta; split; [lia|]; split; [exact HB|]; intros j Hj; lia].
  assert (H2 : 2 ^ Z.of_nat (S f) = 2 * 2 ^ Z.of_nat f) by (rewrite Nat2Z.inj_succ; apply Z.pow_succ_r; lia).
  set (half := size / 2). assert (Hh : 1 <= half < size /\ size - half <= half + 1) by (unfold half; lia). cbv zeta.
  assert (Hn : 1 <= size - half <= 2 ^ Z.of_nat f) by (rewrite H2 in Hs; unfold half in *; lia).
  destruct (addr <? key (base + half)) eqn:E2.
  - destruct (IH base (size - half) Hb Hn) as (R1 & R2 & R3); [intros i j Hi Hj; apply HK; lia|exact HB|].
    split; [lia|]. split; [exact R2|]. intros j Hj. destruct (Z_lt_dec j (base + (size - half))) as [L|L]; [apply R3; lia|].
    destruct (Z.eq_dec j (base + half)) as [->|N]; [lia|]. pose proof (HK (base + half) j ltac:(lia) ltac:(lia)). lia.
  - destruct (IH (base + half) (size - half) ltac:(lia) Hn) as (R1 & R2 & R3); [intros i j Hi Hj; apply HK; lia|right; lia|].
    split; [lia|]. split; [exact R2|]. intros j Hj. apply R3. lia.
Qed.
Lemma increasing_lt l : increasing l -> forall i j, 0 <= i < j -> j < wl_len l -> w_nfa (wl_get l i) < w_nfa (wl_get l j).
Proof.
  intros (H0 & H) i j Hij Hj. assert (Hd : 0 <= j - i - 1) by lia. remember (j - i - 1) as d eqn:Ed. revert j Hij Hj Ed. pattern d. apply natlike_ind; [| |exact Hd].
  - intros j Hij Hj Ed. replace j with (i + 1) by lia. apply H; lia.
  - intros x Hx IH j Hij Hj Ed. specialize (IH (j - 1)). pose proof (H (j - 1) ltac:(lia) ltac:(lia)). replace (j - 1 + 1) with j in * by lia. unfold Z.succ in *. lia.
Qed.
Lemma xt_after (key : Z -> Z) n addr r : 0 <= r < n -> (r = 0 \/ key r <= addr) -> (forall j, r < j < n -> addr < key j) ->
  match (if key r =? addr then Some r else let xt := if key r <? addr then r + 1 else r in if xt =? 0 then None else Some (xt - 1)) with
  | Some i => 0 <= i < n /\ key i <= addr /\ forall j, i < j < n -> addr < key j
  | None => forall j, 0 <= j < n -> addr < key j
  end.
Proof.
  intros R1 R2 R3. cbv zeta. destruct (key r =? addr) eqn:E1.
  { split; [lia|]. split; [lia|]. intros j Hj. apply R3. lia. }
  destruct (key r <? addr) eqn:E2.
  - replace (r + 1 =? 0) with false by lia. replace (r + 1 - 1) with r by lia. split; [lia|]. split; [lia|]. intros j Hj. apply R3. lia.
  - assert (r = 0) as -> by (destruct R2; [assumption|lia]). cbn [Z.eqb]. intros j Hj. destruct (Z.eq_dec j 0) as [->|N]; [lia|apply R3; lia].
Qed.
Lemma find_xt_ok l addr : increasing l ->
  match find_xt l addr with
  | Some i => 0 <= i < wl_len l /\ w_nfa (wl_get l i) <= addr /\ forall j, i < j < wl_len l -> addr < w_nfa (wl_get l j)
  | None => forall j, 0 <= j < wl_len l -> addr < w_nfa (wl_get l j)
  end.
Proof.
  intro HI. pose proof (increasing_lt l HI) as HK. destruct HI as (H0 & _). unfold find_xt. destruct (Z.eqb_spec (wl_len l) 0) as [HZ|HZ]; [intros j Hj; lia|].
  assert (HS : 1 <= wl_len l <= 2 ^ Z.of_nat 64).
  { change (2 ^ Z.of_nat 64) with 18446744073709551616. change (2 ^ 63) with 9223372036854775808 in H0. lia. }
  destruct (bsearch_ok 64 (fun i => w_nfa (tget (word_new P_noop CS_compile_word 0 0) (wl_tbl l) i)) addr 0 (wl_len l) ltac:(lia) HS) as (R1 & R2 & R3); [intros i j Hi Hj; apply HK; lia|left; reflexivity|].
  exact (xt_after (fun i => w_nfa (tget (word_new P_noop CS_compile_word 0 0) (wl_tbl l) i)) (wl_len l) addr _ R1 R2 R3).
Qed.
Lemma dict_increasing v : dict_ok v -> increasing (v_wl v).
Proof.
  intro HD. pose proof (words_bound v HD) as HB. pose proof HD as (_ & H1 & _ & _ & H4 & _). split.
  - unfold words in *. change (2 ^ 60) with 1152921504606846976 in HB. change (2 ^ 63) with 9223372036854775808. lia.
  - intros i Hi Hj. destruct (H4 i ltac:(unfold words; lia)) as (n & _ & _ & C). specialize (C Hj). pose proof (zlen_nonneg n). unfold word_of in C. lia.
Qed.

(** ** Defining words at the end of the input *)
Lemma get_inbuf_ok v buf : input_text v buf -> get_inbuf v = Ok (Some buf, v).
Proof.
  unfold get_inbuf. intros [(A & B)|(A & B)].
  - replace (0 <? st_sid (st v)) with false by lia. rewrite B. reflexivity.
  - replace (0 <? st_sid (st v)) with true by lia. unfold nth_opt. replace (0 <=? st_sid (st v) - 1) with true by lia. rewrite B. reflexivity.
Qed.
Lemma blank_ascii c : blank c -> utf8_width c = 1%nat /\ is_ws c = true /\ c < 128.
Proof. intros [<-|[<-|[<-|[<-|[]]]]]; repeat split; reflexivity. Qed.
Lemma pw_blank f : forall s i tot, Forall blank s -> pw_loop (utf8_chars f s) i tot [] = ([], tot).
Proof.
  induction f as [|f IH]; intros s i tot H; [reflexivity|]. destruct s as [|c s]; [reflexivity|]. inversion H as [|? ? Hc Hs]; subst.
  cbn [utf8_chars]. destruct (blank_ascii c Hc) as (-> & A & _). cbn [firstn skipn utf8_value pw_loop]. rewrite A. apply IH. exact Hs.
Qed.
Lemma parse_nothing v : nothing_left v -> exists v1, parse_word v = Ok (tt, v1) /\ v_tkn v1 = Some [] /\ fr v v1 /\
  v_handler v1 = v_handler v.
Proof.
  intros (HT & buf & HI & Hx & Hl & HB). unfold parse_word. destruct (v_tkn v) as [t|] eqn:ET; [|congruence].
  rewrite (bind_Ok _ _ _ t (set_v_tkn None v)) by (unfold take_token; rewrite ET; reflexivity).
  rewrite (bind_Ok _ _ _ (Some buf) (set_v_tkn None v)) by (apply get_inbuf_ok; exact HI). rewrite bind_gets.
  change (st_idx (st (set_v_tkn None v))) with (st_idx (st v)). destruct (_ <? zlen buf) eqn:EL; [|eexists; split; [reflexivity|]; repeat split].
  set (i := st_idx (st v)) in *.
  assert (HS : slice_from buf i = Some (skipn (Z.to_nat i) buf)).
  { unfold slice_from. replace (is_boundary buf i) with true; [reflexivity|]. unfold is_boundary. destruct (i =? 0) eqn:E0; [reflexivity|].
    destruct (i =? zlen buf); [reflexivity|]. replace ((0 <? i) && (i <? zlen buf)) with true by lia.
    assert (HN : blank (nth (Z.to_nat i) buf 0)).
    { destruct (nth_split buf 0 (n := Z.to_nat i)) as (l1 & l2 & E1 & E2); [unfold zlen in *; lia|]. rewrite E1 in HB at 1. rewrite <- E2 in HB at 1.
      rewrite skipn_app, skipn_all, Nat.sub_diag in HB. cbn [skipn app] in HB. inversion HB; subst; assumption. }
    destruct (blank_ascii _ HN) as (_ & _ & L). replace (nth (Z.to_nat i) buf 0 <? 128) with true by lia. reflexivity. }
  rewrite (bind_Ok _ _ _ (skipn (Z.to_nat i) buf) (set_v_tkn None v)) by (unfold slice_or_panic; rewrite HS; reflexivity).
  cbv zeta. unfold chars_of. rewrite pw_blank by exact HB. cbn [fst snd].
  erewrite bind_Ok by (apply chk_u64_ok; unfold zlen in *; rewrite skipn_length; lia). rewrite bind_modify.
  eexists. split; [reflexivity|]. repeat split.
Qed.
Lemma define_nothing fuel v : dict_ok v -> words v < Z.of_nat fuel -> nothing_left v ->
  exists u, fr v u /\ v_handler u = v_handler v /\ forall ew a c, define fuel ew a c v = abort_with ew (-39) u.
Proof.
  intros HD Hf HL. destruct (parse_nothing v HL) as (v1 & E1 & ET & F1 & HH).
  set (v2 := set_v_tkn None v1). assert (F2 : fr v v2) by exact F1.
  destruct (find_newest fuel [] v2 (fr_dict _ _ F2 HD)) as (r & E2 & _).
  { destruct F2 as (A & _). unfold words in *. rewrite A. exact Hf. }
  assert (exists v3, (match r with Some _ => out_push (b "Redefining "%string ++ []) | None => ret tt end) v2 = Ok (tt, v3) /\ fr v v3 /\ v_handler v3 = v_handler v) as (v3 & E3 & F3 & H3).
  { destruct r; eexists; (split; [reflexivity|]); [destruct (v_out v2)|]; split; try exact F1; exact HH. }
  exists (set_v_tkn (Some []) v3). split; [exact F3|]. split; [exact H3|]. intros ew a c. unfold define.
  rewrite (bind_Ok _ _ _ tt v1) by exact E1. rewrite (bind_Ok take_token _ v1 [] (set_v_tkn None v1)) by (unfold take_token; rewrite ET; reflexivity).
  cbv zeta. cbn [map]. rewrite (bind_Ok _ _ _ r v2) by exact E2. rewrite (bind_Ok _ _ _ tt v3) by exact E3. reflexivity.
Qed.
Lemma nothing_left_fr v v' : nothing_left v -> v_tkn v' = v_tkn v -> st v' = st v -> t_inbuf (cur v') = t_inbuf (cur v) -> t_lines (cur v') = t_lines (cur v) -> nothing_left v'.
Proof.
  intros (HT & buf & HI & R) E1 E2 E3 E4. split; [congruence|]. exists buf. unfold input_text in *. rewrite E2, E3, E4. auto.
Qed.
Lemma nameless fuel p v : dict_ok v -> words v < Z.of_nat fuel -> nothing_left v -> In p [P_colon; P_create; P_constant] ->
  exists v1, v_err v1 = Some (-39) /\ v_wl v1 = v_wl v /\ v_ds v1 = v_ds v /\
    forall ew, (forall v2, ew (v_handler v) v1 = Ok (tt, v2) -> v_err v2 <> None) -> exec_prim fuel ew p v = ew (v_handler v) v1.
Proof.
  intros HD Hf HL Hp.
  assert (KEY : forall u, dict_ok u -> v_wl u = v_wl v -> v_ds u = v_ds v -> v_handler u = v_handler v -> nothing_left u ->
    exists v1, v_err v1 = Some (-39) /\ v_wl v1 = v_wl v /\ v_ds v1 = v_ds v /\ forall ew a c, define fuel ew a c u = ew (v_handler v) v1).
  { intros u HDu EW ED EH HLu. destruct (define_nothing fuel u HDu ltac:(unfold words in *; rewrite EW; exact Hf) HLu) as (u1 & (F1 & F2 & F3) & H1 & HF).
    exists (aborted (-39) u1). destruct (aborted_raised (-39) u1) as (_ & _ & _ & A4 & _ & _ & _ & A8 & A9 & _).
    split; [exact A4|]. split; [congruence|]. split; [congruence|]. intros ew a c. rewrite HF, abort_with_eq. f_equal. congruence. }
  cbn [In] in Hp. destruct Hp as [<-|[<-|[<-|[]]]].
  - destruct (KEY v HD eq_refl eq_refl eq_refl HL) as (v1 & A & B & C & HF). exists v1. repeat (split; [assumption|]). intros ew HX.
    cbn [exec_prim]. unfold colon. unfold bind at 1. rewrite HF. destruct (ew (v_handler v) v1) as [[[] v2]| | |] eqn:EQ; try reflexivity.
    rewrite bind_gets. specialize (HX v2 eq_refl). destruct (v_err v2); [reflexivity|contradiction].
  - destruct (KEY v HD eq_refl eq_refl eq_refl HL) as (v1 & A & B & C & HF). exists v1. repeat (split; [assumption|]). intros ew HX.
    cbn [exec_prim]. unfold create. apply HF.
  - assert (HP : exists x u, s_pop v = Ok (x, u) /\ dict_ok u /\ v_wl u = v_wl v /\ v_ds u = v_ds v /\ v_handler u = v_handler v /\ nothing_left u).
    { unfold s_pop. destruct (pop (s_stk v)) as (x & s). exists x, (set_s s v). split; [reflexivity|]. split; [exact HD|]. repeat (split; [reflexivity|]).
      apply (nothing_left_fr v); [exact HL|reflexivity| | |]; unfold st; gnorm; reflexivity. }
    destruct HP as (x & u & Hpop & P1 & P2 & P3 & P4 & P5).
    destruct (KEY u P1 P2 P3 P4 P5) as (v1 & A & B & C & HF). exists v1. repeat (split; [assumption|]). intros ew HX.
    cbn [exec_prim]. unfold constant. rewrite (bind_Ok _ _ _ x u) by exact Hpop. unfold bind at 1. rewrite HF. destruct (ew (v_handler v) v1) as [[[] v2]| | |] eqn:EQ; try reflexivity.
    rewrite bind_gets. specialize (HX v2 eq_refl). destruct (v_err v2); [reflexivity|contradiction].
Qed.
End D.

Section R.
Context {E : Env}.
Lemma marker_restores fuel f v0 v1 v2 : dict_ok v0 -> quiet fuel P_marker v0 v1 -> definitions fuel v1 v2 ->
  w_action (word_of v2 (words v0)) = P_unmark ->
  exists v3, execute_word (S f) (words v0) v2 = Ok (tt, v3) /\
    here (v_ds v3) = here (v_ds v0) /\ same_words v0 v3 /\ goes_on v0 v3 /\
    forall n name r, words v0 < Z.of_nat n -> (find n name v3 = Ok (r, v3) <-> find n name v0 = Ok (r, v0)).
Proof.
  intros HD Hq Hs HA. destruct (marker_forgets fuel f v0 v1 v2 HD Hq Hs HA) as (v3 & E1 & G & Hh). exists v3.
  split; [exact E1|]. split; [exact Hh|]. split; [apply G|]. split; [exact G|]. intros n name r Hn.
  rewrite (find_iff n name v0 r HD Hn), (find_iff n name v3 r (goes_on_dict _ _ G HD)).
  - symmetry. apply goes_on_newest; assumption.
  - destruct G as ((W & _) & _). lia.
Qed.
Lemma find_state_or fuel name v : dict_ok v -> words v < Z.of_nat fuel ->
  exists r, find fuel name v = Ok (r, v) /\ newest v name r.
Proof. apply find_newest. Qed.
End R.
