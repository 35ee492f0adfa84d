(** The dictionary: lookup, definitions, markers. *)
From Coq Require Import ZArith List Bool Lia ZifyBool ZifyNat.
From Verif Require Import Base Stack Mem Parser Flt State CoreM IoM FloatM FileM Exec.
From Verif Require Import LBase LStack Spec Spec4 Spec9 Spec10 LState LMem LMon LStep LTask LCode.
Import ListNotations.
Open Scope Z_scope.
Open Scope m_scope.
Ltac Zify.zify_post_hook ::= Z.div_mod_to_equations.

(** ** Texts up to case *)
Lemma lower_same x y : lower x = lower y <-> same_letter x y.
Proof. unfold lower, same_letter. destruct ((65 <=? x) && (x <=? 90)) eqn:A; destruct ((65 <=? y) && (y <=? 90)) eqn:B; lia. Qed.
Lemma bytes_eqb_eq x : forall y, bytes_eqb x y = true <-> x = y.
Proof.
  induction x as [|a x IH]; intros [|c y]; cbn; split; intro H; try discriminate; try reflexivity.
  - apply andb_true_iff in H as [H1 H2]. apply IH in H2. f_equal; [lia|exact H2].
  - injection H as -> ->. rewrite Z.eqb_refl. apply IH. reflexivity.
Qed.
Lemma map_lower_same x : forall y, map lower x = map lower y <-> same_text x y.
Proof.
  induction x as [|a x IH]; intros [|c y]; cbn; split; intro H; try discriminate; try reflexivity; try solve [inversion H]; try constructor.
  - injection H as H1 H2. apply lower_same. exact H1.
  - injection H as H1 H2. apply IH. exact H2.
  - inversion H; subst. f_equal; [apply lower_same; assumption|apply IH; assumption].
Qed.
Lemma eq_ignore_case_iff x y : eq_ignore_case x y = true <-> same_text x y.
Proof. unfold eq_ignore_case. rewrite bytes_eqb_eq. apply map_lower_same. Qed.
Lemma hash_same x y : same_text x y -> hash x = hash y.
Proof.
  unfold hash. generalize 5381. intros h H. revert h. induction H as [|a c x y H1 H2 IH]; intro h; [reflexivity|].
  cbn [fold_left]. unfold hash_step at 2 4. apply lower_same in H1. rewrite H1. apply IH.
Qed.
Lemma same_text_refl x : same_text x x.
Proof. apply map_lower_same. reflexivity. Qed.
Lemma same_text_sym x y : same_text x y -> same_text y x.
Proof. rewrite <- !map_lower_same. congruence. Qed.
Lemma same_text_trans x y z : same_text x y -> same_text y z -> same_text x z.
Proof. rewrite <- !map_lower_same. congruence. Qed.
Lemma lower_lower x : lower (lower x) = lower x.
Proof. unfold lower at 2. destruct ((65 <=? x) && (x <=? 90)) eqn:A; [|reflexivity]. unfold lower. replace ((65 <=? x + 32) && (x + 32 <=? 90)) with false by lia. rewrite A. reflexivity. Qed.
Lemma same_text_lower x : same_text (map lower x) x.
Proof. apply map_lower_same. rewrite map_map. apply map_ext. apply lower_lower. Qed.

Section D.
Context {E : Env}.
Implicit Types (v : vm).

(** ** Name fields *)
Lemma name_field_inj d a n n' : ds_ok d -> name_field d a n -> name_field d a n' -> n = n'.
Proof.
  intros (D1 & D2 & D3) (A1 & A2 & A3 & A4) (B1 & B2 & B3 & B4).
  assert (HL : zlen n = zlen n').
  { pose proof (cell_at_inj _ _ _ _ A3 B3) as H. pose proof (zlen_nonneg n). pose proof (zlen_nonneg n').
    rewrite !Z.mod_small in H by (unfold two64; lia). exact H. }
  apply nth_error_ext. intro k. destruct (nth_error n k) as [x|] eqn:K1; destruct (nth_error n' k) as [y|] eqn:K2.
  - rewrite <- (A4 _ _ K1), <- (B4 _ _ K2). reflexivity.
  - apply nth_error_None in K2. assert (k < length n)%nat by (apply nth_error_Some; congruence). unfold zlen in HL. lia.
  - apply nth_error_None in K1. assert (k < length n')%nat by (apply nth_error_Some; congruence). unfold zlen in HL. lia.
  - reflexivity.
Qed.
Lemma name_field_str c d a n : ds_ok d -> name_field d a n -> get_str c d a = Ok n.
Proof.
  intros (D1 & D2 & D3) (A1 & A2 & A3 & A4). apply get_str_ok; try assumption.
  apply in_ds_true. lia.
Qed.
Lemma name_field_kept d d' a n : name_field d a n -> start d' = start d -> here d <= here d' ->
  (forall i, a <= i < a + 8 + zlen n -> byte_at d' i = byte_at d i) -> name_field d' a n.
Proof.
  intros (A1 & A2 & A3 & A4) HS HH HB. split; [lia|]. split; [lia|]. pose proof (zlen_nonneg n). split.
  - intros k Hk. rewrite HB by lia. apply A3. exact Hk.
  - intros k x Hk. rewrite HB; [apply A4; exact Hk|]. assert (k < length n)%nat by (apply nth_error_Some; congruence). unfold zlen. lia.
Qed.

(** ** Lookup *)
Lemma find_loop_state fuel h name : forall i v r, find_loop fuel h name i v = Ok r -> snd r = v.
Proof.
  induction fuel as [|f IH]; intros i v [o v'] H; [discriminate H|]. cbn [find_loop] in H. cbn [snd].
  destruct (i =? 0); [injection H as _ <-; reflexivity|].
  apply bind_inv in H as (w & v1 & H1 & H2). unfold word_at in H1. destruct (_ && _); [|discriminate]. injection H1 as <- <-.
  apply bind_inv in H2 as (b & v2 & H2 & H3).
  assert (v2 = v).
  { destruct (_ && _).
    - apply bind_inv in H2 as (nm & v3 & H2 & H4). unfold ds_get in H2. destruct (get_str _ _ _); cbn in H2; try discriminate.
      injection H2 as <- <-. injection H4 as _ <-. reflexivity.
    - injection H2 as _ <-. reflexivity. }
  subst v2. destruct b; [injection H3 as _ <-; reflexivity|]. exact (IH _ _ _ H3).
Qed.
Lemma find_state fuel name v r v' : find fuel name v = Ok (r, v') -> v' = v.
Proof. unfold find. cbv zeta. rewrite bind_gets. intro H. exact (find_loop_state _ _ _ _ _ _ H). Qed.

Lemma dict_named v i : dict_ok v -> 0 <= i < words v -> exists n, named v i n /\ w_hash (word_of v i) = hash n.
Proof. intros (_ & _ & _ & _ & H & _) Hi. destruct (H i Hi) as (n & A & B & _). eauto. Qed.
Lemma named_inj v i n n' : dict_ok v -> named v i n -> named v i n' -> n = n'.
Proof. intros (H & _). apply name_field_inj. exact H. Qed.
Lemma visible_iff v i n name : dict_ok v -> named v i n ->
  (visible v i name <-> w_hidden (word_of v i) = false /\ same_text n name).
Proof.
  intros HD HN. split.
  - intros (H1 & n' & H2 & H3). rewrite (named_inj v i n n' HD HN H2). auto.
  - intros (H1 & H2). split; [exact H1|]. eauto.
Qed.
Lemma hash_range n : 0 <= hash n mod 64 < 64.
Proof. apply Z.mod_pos_bound. lia. Qed.

Lemma find_loop_ok name v : dict_ok v -> forall fuel n i,
  newest_below (v_wl v) n (hash name mod 64) i -> n <= words v -> i < Z.of_nat fuel ->
  (forall j, n <= j < words v -> ~ visible v j name) -> 0 <= i ->
  exists r, find_loop fuel (hash name) name i v = Ok (r, v) /\ newest v name r.
Proof.
  intros HD. pose proof HD as (HO & H1 & HL & (HC1 & HC2) & HN & HM).
  induction fuel as [|f IH]; intros n i HB Hn Hf HV Hi; [lia|].
  cbn [find_loop]. destruct (Z.eqb_spec i 0) as [->|N].
  - exists None. split; [reflexivity|]. destruct HB as [[_ HB]|[HB _]]; [|lia]. intros j Hj.
    destruct (Z_lt_dec j n) as [Hjn|Hjn]; [|apply HV; lia].
    destruct (dict_named v j HD ltac:(lia)) as (m & M1 & M2).
    rewrite (visible_iff v j m name HD M1). intros [_ Q]. apply (HB j ltac:(lia)). unfold word_of in M2. rewrite M2, (hash_same _ _ Q). reflexivity.
  - destruct HB as [[HB _]|(HB1 & HB2 & HB3)]; [lia|].
    assert (Hw : word_at i v = Ok (word_of v i, v)).
    { unfold word_at, words in *. replace ((0 <=? i) && (i <? wl_len (v_wl v))) with true by lia. reflexivity. }
    rewrite (bind_Ok _ _ _ _ _ Hw).
    destruct (dict_named v i HD ltac:(lia)) as (m & M1 & M2).
    assert (HV' : forall j, i < j < words v -> ~ visible v j name).
    { intros j Hj. destruct (Z_lt_dec j n) as [Hjn|Hjn]; [|apply HV; lia].
      destruct (dict_named v j HD ltac:(lia)) as (m' & M1' & M2').
      rewrite (visible_iff v j m' name HD M1'). intros [_ Q]. apply (HB3 j ltac:(lia)). unfold word_of in M2'. rewrite M2', (hash_same _ _ Q). reflexivity. }
    assert (Hgo : ~ visible v i name -> exists r, find_loop f (hash name) name (w_link (word_of v i)) v = Ok (r, v) /\ newest v name r).
    { intro NV. pose proof (HC1 i ltac:(unfold words in *; lia)) as HB'. rewrite HB2 in HB'. fold (word_of v i) in HB'.
      assert (w_link (word_of v i) < i /\ 0 <= w_link (word_of v i)) by (destruct HB' as [[-> _]|[? _]]; lia).
      apply (IH i (w_link (word_of v i))); [exact HB'|lia|lia| |lia].
      intros j Hj. destruct (Z.eq_dec j i) as [->|]; [exact NV|apply HV'; lia]. }
    destruct (negb (w_hidden (word_of v i)) && (w_hash (word_of v i) =? hash name)) eqn:EB.
    + apply andb_true_iff in EB as [EB1 EB2]. apply negb_true_iff in EB1.
      assert (HG : (nm <- ds_get (fun d => get_str chk d (w_nfa (word_of v i))) ;; ret (eq_ignore_case nm name)) v = Ok (eq_ignore_case m name, v)).
      { unfold bind, ds_get. rewrite (name_field_str _ _ _ _ HO M1). reflexivity. }
      rewrite (bind_Ok _ _ _ _ _ HG). destruct (eq_ignore_case m name) eqn:EQ.
      * exists (Some i). split; [reflexivity|]. split; [lia|]. split; [|exact HV'].
        split; [exact EB1|]. exists m. split; [exact M1|]. apply eq_ignore_case_iff. exact EQ.
      * apply Hgo. rewrite (visible_iff v i m name HD M1). intros [_ Q]. apply eq_ignore_case_iff in Q. congruence.
    + rewrite bind_ret. apply Hgo. rewrite (visible_iff v i m name HD M1). intros [Q1 Q2].
      apply andb_false_iff in EB as [EB|EB]; [rewrite Q1 in EB; discriminate|]. rewrite M2, (hash_same _ _ Q2) in EB. lia.
Qed.
Theorem find_newest fuel name v : dict_ok v -> words v < Z.of_nat fuel ->
  exists r, find fuel name v = Ok (r, v) /\ newest v name r.
Proof.
  intros HD Hf. unfold find. cbv zeta. rewrite bind_gets. pose proof HD as (_ & H1 & _ & (_ & HC) & _).
  pose proof (HC (hash name mod 64) (hash_range name)) as HB. unfold BUCKET_SIZE.
  assert (0 <= tget 0 (wl_buckets (v_wl v)) (hash name mod 64) < Z.of_nat fuel) by (unfold words in *; destruct HB as [[-> _]|[? _]]; lia).
  apply (find_loop_ok name v HD fuel (words v)); [exact HB|lia|lia|intros j Hj; lia|lia].
Qed.
Lemma newest_unique v name r r' : newest v name r -> newest v name r' -> r = r'.
Proof.
  destruct r as [i|]; destruct r' as [j|]; cbn [newest]; intros A B; try reflexivity.
  - destruct A as (A1 & A2 & A3). destruct B as (B1 & B2 & B3). f_equal.
    destruct (Z.lt_trichotomy i j) as [L|[->|L]]; [exfalso; apply (A3 j); [lia|exact B2]|reflexivity|exfalso; apply (B3 i); [lia|exact A2]].
  - destruct A as (A1 & A2 & _). exfalso. exact (B i A1 A2).
  - destruct B as (B1 & B2 & _). exfalso. exact (A j B1 B2).
Qed.
Theorem find_iff fuel name v r : dict_ok v -> words v < Z.of_nat fuel ->
  (find fuel name v = Ok (r, v) <-> newest v name r).
Proof.
  intros HD Hf. destruct (find_newest fuel name v HD Hf) as (r0 & E0 & N0). split; intro H.
  - rewrite E0 in H. injection H as <-. exact N0.
  - rewrite (newest_unique v name r r0 H N0). exact E0.
Qed.

(** ** Keeping the dictionary *)
Definition grows (d d' : dspace) : Prop :=
  ds_ok d' /\ start d' = start d /\ limit d' = limit d /\ here d <= here d' /\
  forall a, start d <= a < here d -> byte_at d' a = byte_at d a.
Lemma grows_refl d : ds_ok d -> grows d d.
Proof. intro H. repeat split; try apply H; try lia; reflexivity. Qed.
Lemma grows_trans d1 d2 d3 : grows d1 d2 -> grows d2 d3 -> grows d1 d3.
Proof.
  intros (A1 & A2 & A3 & A4 & A5) (B1 & B2 & B3 & B4 & B5). split; [exact B1|]. split; [congruence|]. split; [congruence|]. split; [lia|].
  intros a Ha. rewrite B5 by lia. apply A5. exact Ha.
Qed.
Lemma compile_cell_grows d x d' : ds_ok d -> compile_cell d x = Ok d' ->
  grows d d' /\ here d' = here d + 8 /\ cell_at d' (here d) x.
Proof.
  intros HO H. destruct (Z_le_dec (here d + 8) (limit d)) as [L|L].
  - destruct (compile_cell_ok d x HO L) as (d1 & E1 & C1 & (S1 & S2 & S3) & H1 & I1 & K1). rewrite E1 in H. injection H as <-.
    destruct HO as (O1 & O2 & O3). split; [|split; [exact H1|exact C1]]. split; [|split; [exact S1|split; [exact S2|split; [lia|]]]].
    + unfold ds_ok. rewrite S1, S2, H1. lia.
    + intros a Ha. apply S3; lia.
  - rewrite compile_cell_full in H by lia. discriminate H.
Qed.
Lemma align_grows c d d' : ds_ok d -> ds_align c d = Ok d' -> grows d d'.
Proof.
  intros HO H. pose proof HO as (O1 & O2 & O3). unfold ds_align in H. rewrite aligned8_ok in H by (unfold two64; lia). cbn [rbind] in H. injection H as <-.
  unfold set_here. pose proof (align8_range (here d)). destruct ((start d <=? align8 (here d)) && (align8 (here d) <=? limit d)) eqn:B; [|apply grows_refl; exact HO].
  cbn [snd]. change (mkDs _ _ _ _) with (moved d (align8 (here d))). split; [unfold ds_ok; rewrite here_moved; change (start (moved d (align8 (here d)))) with (start d); change (limit (moved d (align8 (here d)))) with (limit d); lia|]. split; [reflexivity|]. split; [reflexivity|]. split; [rewrite here_moved; lia|]. reflexivity.
Qed.
Lemma compile_str_grows d s nfa d' : ds_ok d -> compile_str d s = Ok (nfa, d') ->
  grows d d' /\ nfa = here d /\ here d' = here d + 8 + zlen s /\ name_field d' nfa s.
Proof.
  intros HO H. pose proof HO as (O1 & O2 & O3). pose proof (zlen_nonneg s). destruct (Z_le_dec (here d + 8 + zlen s) (limit d)) as [L|L].
  - destruct (compile_str_ok d s HO L) as (d1 & E1 & (S1 & S2 & S3) & H1 & I1 & K1 & C1 & C2). rewrite E1 in H. injection H as <- <-.
    split; [|split; [reflexivity|split; [exact H1|]]].
    + split; [unfold ds_ok; rewrite S1, S2, H1; lia|]. split; [exact S1|]. split; [exact S2|]. split; [lia|]. intros a Ha. apply S3; lia.
    + split; [lia|]. split; [lia|]. split; [exact C1|exact C2].
  - unfold compile_str in H. replace (here d + zlen s + 8 <=? limit d) with false in H by lia. discriminate H.
Qed.

Lemma newest_below_ext l l' n k i : (forall j, 0 <= j < n -> w_hash (wl_get l' j) = w_hash (wl_get l j)) ->
  newest_below l n k i -> newest_below l' n k i.
Proof.
  intros H [[-> HB]|(H1 & H2 & H3)]; [left|right].
  - split; [reflexivity|]. intros j Hj. rewrite H by lia. apply HB. exact Hj.
  - split; [exact H1|]. split; [rewrite H by lia; exact H2|]. intros j Hj. rewrite H by lia. apply H3. exact Hj.
Qed.
Lemma chained_ext l l' : wl_len l' = wl_len l ->
  (forall i, 0 <= i < wl_len l -> w_hash (wl_get l' i) = w_hash (wl_get l i) /\ w_link (wl_get l' i) = w_link (wl_get l i)) ->
  (forall k, 0 <= k < 64 -> tget 0 (wl_buckets l') k = tget 0 (wl_buckets l) k) -> chained l -> chained l'.
Proof.
  intros HL HW HB (H1 & H2). split.
  - rewrite HL. intros i Hi. destruct (HW i Hi) as [-> ->]. eapply newest_below_ext; [|apply H1; exact Hi].
    intros j Hj. apply HW. lia.
  - rewrite HL. intros k Hk. rewrite HB by exact Hk. eapply newest_below_ext; [|apply H2; exact Hk]. intros j Hj. apply HW. exact Hj.
Qed.
Lemma named_protected v i n a : named v i n -> 0 <= i < words v -> w_nfa (word_of v i) <= a < w_nfa (word_of v i) + 8 + zlen n -> protected v a.
Proof. intros H1 H2 H3. exists i. split; [exact H2|]. left. exists n. auto. Qed.
Lemma goes_on_named v v' i n : goes_on v v' -> 0 <= i < words v -> named v i n -> named v' i n.
Proof.
  intros ((_ & _ & HW & _) & HO & HS & HL & HH & HP) Hi HN. unfold named. rewrite (HW i Hi).
  eapply name_field_kept; [exact HN|exact HS|exact HH|]. intros a Ha. apply HP. eapply named_protected; eassumption.
Qed.
Lemma goes_on_dict v v' : goes_on v v' -> dict_ok v -> dict_ok v'.
Proof.
  intros HG (H0 & H1 & H2 & H3 & H4 & H5). pose proof HG as ((W1 & W2 & W3 & W4) & HO & HS & HL & HH & HP).
  split; [exact HO|]. split; [lia|]. split; [rewrite W2, W1; exact H2|]. split; [|split].
  - eapply chained_ext; [exact W1| |exact W4|exact H3]. intros i Hi. unfold word_of in W3. rewrite W3 by exact Hi. auto.
  - intros i Hi. rewrite W1 in *. destruct (H4 i Hi) as (n & A & B & C). exists n. split; [eapply goes_on_named; eassumption|].
    rewrite (W3 i Hi). split; [exact B|]. intro Hi'. rewrite W3 by lia. apply C. exact Hi'.
  - intros i Hi. rewrite W1 in *. rewrite (W3 i Hi). intro HA. destruct (H5 i Hi HA). rewrite HS. lia.
Qed.
Lemma protected_below v a : dict_ok v -> protected v a -> start (v_ds v) <= a < here (v_ds v).
Proof.
  intros (H0 & H1 & H2 & H3 & H4 & H5) (i & Hi & [(n & (N1 & N2 & _) & Ha)|(HA & Ha)]); [lia|]. destruct (H5 i Hi HA). lia.
Qed.
Lemma grows_goes_on v v' : dict_ok v -> v_wl v' = v_wl v -> grows (v_ds v) (v_ds v') -> goes_on v v'.
Proof.
  intros HD HW (G1 & G2 & G3 & G4 & G5). split.
  - unfold same_words, words, word_of. rewrite HW. repeat split; reflexivity.
  - repeat (split; [assumption|]). intros a Ha. apply G5. apply protected_below; assumption.
Qed.

(** A new word *)
Lemma wl_push_len name w l : wl_len (wl_push name w l) = wl_len l + 1. Proof. reflexivity. Qed.
Lemma wl_push_last name w l : wl_last (wl_push name w l) = wl_len l. Proof. reflexivity. Qed.
Lemma wl_push_old name w l i : 0 <= i -> i <> wl_len l -> 0 <= wl_len l -> wl_get (wl_push name w l) i = wl_get l i.
Proof. intros. unfold wl_push, wl_get. cbn. apply tget_tset_other; lia. Qed.
Lemma wl_push_new name w l : wl_get (wl_push name w l) (wl_len l) = set_w_link (tget 0 (wl_buckets l) (hash name mod 64)) (set_w_hash (hash name) w).
Proof. unfold wl_push, wl_get. cbn. apply tget_tset_same. Qed.
Lemma wl_push_buckets name w l k : 0 <= k -> tget 0 (wl_buckets (wl_push name w l)) k = if k =? hash name mod 64 then wl_len l else tget 0 (wl_buckets l) k.
Proof.
  intro Hk. unfold wl_push. cbn [wl_buckets]. unfold BUCKET_SIZE. pose proof (hash_range name). destruct (Z.eqb_spec k (hash name mod 64)) as [->|N].
  - apply tget_tset_same.
  - apply tget_tset_other; lia.
Qed.
Lemma chained_push name w l : 1 <= wl_len l -> chained l -> chained (wl_push name w l).
Proof.
  intros H1 (C1 & C2). pose proof (hash_range name) as HR. split.
  - rewrite wl_push_len. intros i Hi. destruct (Z.eq_dec i (wl_len l)) as [->|N].
    + rewrite wl_push_new. cbn [w_hash w_link set_w_link set_w_hash]. eapply newest_below_ext; [|apply C2; exact HR].
      intros j Hj. rewrite wl_push_old by lia. reflexivity.
    + rewrite wl_push_old by lia. eapply newest_below_ext; [|apply C1; lia]. intros j Hj. rewrite wl_push_old by lia. reflexivity.
  - rewrite wl_push_len. intros k Hk. rewrite wl_push_buckets by lia. destruct (Z.eqb_spec k (hash name mod 64)) as [->|N].
    + right. split; [lia|]. split; [rewrite wl_push_new; reflexivity|]. intros j Hj. lia.
    + destruct (C2 k Hk) as [[-> HB]|(B1 & B2 & B3)]; [left|right].
      * split; [reflexivity|]. intros j Hj. destruct (Z.eq_dec j (wl_len l)) as [->|Nj]; [rewrite wl_push_new; cbn [w_hash set_w_link set_w_hash]; congruence|].
        rewrite wl_push_old by lia. apply HB. lia.
      * split; [lia|]. split; [rewrite wl_push_old by lia; exact B2|]. intros j Hj.
        destruct (Z.eq_dec j (wl_len l)) as [->|Nj]; [rewrite wl_push_new; cbn [w_hash set_w_link set_w_hash]; congruence|].
        rewrite wl_push_old by lia. apply B3. lia.
Qed.

(** [defined a t v v']: a word called [t] with action [a] has been appended *)
Definition defined a t v v' : Prop :=
  exists c dfa, grows (v_ds v) (v_ds v') /\ here (v_ds v) + 8 + zlen t <= dfa /\ dfa <= here (v_ds v') /\
    name_field (v_ds v') (here (v_ds v)) t /\
    v_wl v' = wl_push t (word_new a c (here (v_ds v)) dfa) (v_wl v).
Definition appended v v' : Prop :=
  (forall i, 0 <= i < words v -> word_of v' i = word_of v i).
Lemma defined_dict a t v v' : dict_ok v -> defined a t v v' ->
  (a = P_unmark -> w_dfa (word_of v' (words v)) + 520 <= here (v_ds v')) ->
  dict_ok v' /\ older_kept v v' /\ words v' = words v + 1.
Proof.
  intros HD (c & dfa & G & Hd & Hd' & HN & HW) HU. pose proof HD as (H0 & H1 & H2 & H3 & H4 & H5). pose proof G as (G1 & G2 & G3 & G4 & G5).
  assert (HL : words v' = words v + 1) by (unfold words; rewrite HW; apply wl_push_len).
  assert (HWo : forall i, 0 <= i < words v -> word_of v' i = word_of v i).
  { intros i Hi. unfold word_of. rewrite HW. unfold words in *. apply wl_push_old; lia. }
  assert (HWn : word_of v' (words v) = set_w_link (tget 0 (wl_buckets (v_wl v)) (hash t mod 64)) (set_w_hash (hash t) (word_new a c (here (v_ds v)) dfa))).
  { unfold word_of. rewrite HW. apply wl_push_new. }
  assert (HNo : forall i n, 0 <= i < words v -> named v i n -> named v' i n).
  { intros i n Hi Hn. unfold named. rewrite (HWo i Hi). eapply name_field_kept; [exact Hn|exact G2|exact G4|].
    intros b Hb. destruct Hn as (N1 & N2 & _). apply G5. lia. }
  split; [|split; [|exact HL]].
  - split; [exact G1|]. split; [lia|]. split; [rewrite HW, wl_push_last; unfold words in *; lia|]. split; [rewrite HW; apply chained_push; assumption|]. split.
    + intros i Hi. rewrite HL in Hi. destruct (Z.eq_dec i (words v)) as [->|N].
      * exists t. unfold named. rewrite HWn. cbn. split; [exact HN|]. split; [reflexivity|]. intro; exfalso; lia.
      * destruct (H4 i ltac:(lia)) as (n & A & B & C). exists n. split; [apply HNo; [lia|exact A]|]. rewrite (HWo i ltac:(lia)). split; [exact B|].
        intros _. destruct (Z.eq_dec (i + 1) (words v)) as [Ei|Ni].
        -- rewrite Ei, HWn. cbn. destruct A as (A1 & A2 & _). exact A2.
        -- rewrite HWo by lia. apply C. lia.
    + intros i Hi HA. rewrite HL in Hi. destruct (Z.eq_dec i (words v)) as [->|N].
      * split; [|apply HU; rewrite HWn in HA; exact HA]. rewrite HWn. cbn. destruct H0 as (O1 & O2 & O3). pose proof (zlen_nonneg t). lia.
      * rewrite HWo in HA by lia. rewrite HWo by lia. destruct (H5 i ltac:(lia) HA). lia.
  - split; [lia|]. split; [exact G2|]. split; [exact G3|]. split; [exact G4|]. split; [exact HWo|exact G5].
Qed.
Lemma defined_grows a t v v' v'' : defined a t v v' -> v_wl v'' = v_wl v' -> grows (v_ds v') (v_ds v'') -> defined a t v v''.
Proof.
  intros (c & dfa & G & Hd & Hd' & HN & HW) EW GG. exists c, dfa. pose proof GG as (G1 & G2 & G3 & G4 & G5).
  split; [eapply grows_trans; eassumption|]. split; [exact Hd|]. split; [lia|]. split; [|congruence].
  eapply name_field_kept; [exact HN|exact G2|exact G4|]. intros b Hb. destruct HN as (N1 & N2 & _). apply G5. lia.
Qed.
End D.
