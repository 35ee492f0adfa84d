(** The words of core.fth that compile literals. *)
From Coq Require Import ZArith List Bool Lia ZifyBool ZifyNat.
From Verif Require Import Base Stack Mem Flt State CoreM IoM Exec LBase LStack Spec Spec2 Spec4 Spec5 Spec6 Spec7 Spec9 Spec10 Spec11 Spec14 Spec15 Spec16 Spec17 Spec24 Spec25
  LState LMem LMon LMemWords LSafe LTask LFuel LCode LComp LRun LCtl LFloat LWords LSay LLib LLibWords LDefine LDefine2 LSource LNum2 LSys LSys2 LPrint LPrint2.
Import ListNotations.
Import Spec14.
Open Scope list_scope.
Open Scope Z_scope.
Open Scope m_scope.

Section L.
Context {E : Env}.
Implicit Types (v w u : vm).
Section K.
Variable K : Z -> Prop.
Lemma wp_postponed i j v0 d r f m o v (Q : vm -> Prop) : word_is v0 i P__postpone -> inv v0 (j :: d) r f m o v -> 0 <= j < words v0 -> j < 2 ^ 63 ->
  w_cs (word_of v0 j) <> CS_compile_leave -> ds_ok m -> here m + 8 <= limit m -> (forall k, K k -> start m <= k < here m) ->
  (forall u m', same_memory_but m m' (here m) 8 -> cell_at m' (here m) j -> here m' = here m + 8 -> inv v0 d r f m' o u -> Q u) -> wp K (Op i) Q v.
Proof.
  intros W HI Hj Hj2 HC HD HL HK HQ.
  eapply (wp_memory K i P__postpone v0 _ d r f m o v (here m) 8 (fun m' => cell_at m' (here m) j /\ here m' = here m + 8)); [exact W|exact HI| | |].
  - intros k Hk. specialize (HK k Hk). lia.
  - intros fuel ew u J. assert (EM : v_ds u = m) by apply J. pose proof (inv_wl _ _ _ _ _ _ _ J) as EW.
    destruct (pop_then u j d (proj1 (proj1 J))) as (s1 & EP & S1 & S2 & _).
    destruct (compile_cell_ok m j HD HL) as (d1 & E1 & C1 & M1 & H1 & HI1 & HC1).
    exists (set_v_ds d1 (set_s s1 u)). split; [|split; [|split; [exact M1|split; [auto|]]]].
    + cbn [exec_prim]. unfold _postpone. rewrite EP. cbv zeta. change (2 ^ 63) with 9223372036854775808 in *. rewrite to_u64_id by (unfold two64; lia).
      rewrite (bind_Ok (word_at j) _ (set_s s1 u) (word_of v0 j) (set_s s1 u)).
      2:{ unfold word_of. rewrite <- EW. apply (word_at_ok (set_s s1 u) j). unfold words in *. change (v_wl (set_s s1 u)) with (v_wl u). rewrite EW. exact Hj. }
      assert (EC : compile_word j (set_s s1 u) = Ok (tt, set_v_ds d1 (set_s s1 u))).
      { unfold compile_word, ds_upd. change (v_ds (set_s s1 u)) with (v_ds u). rewrite EM, E1. reflexivity. }
      rewrite <- EC. destruct (w_cs (word_of v0 j)); try reflexivity. congruence.
    + change (cur (set_v_ds d1 (set_s s1 u))) with (cur (set_s s1 u)). rewrite cur_set_s. exact S1.
    + apply only_data_memory_set; [exact S2|cbn; congruence|cbn; congruence].
  - intros u m' S1 [C1 G1] I1. eapply HQ; eassumption.
Qed.
End K.
End L.

Section W.
Context {E : Env}.
Lemma grown_nil m : grown_by [] m m.
Proof. split; [cbn; lia|]. split; [split; [reflexivity|split; [reflexivity|intros; reflexivity]]|]. intros [|k] x H; discriminate. Qed.
Lemma grown_snoc l x m0 m m' : ds_ok m0 -> grown_by l m0 m -> same_memory_but m m' (here m) 8 -> cell_at m' (here m) x -> here m' = here m + 8 ->
  grown_by (l ++ [x]) m0 m'.
Proof.
  intros (D1 & D2 & _) (H1 & (A1 & A2 & A3) & H3) (B1 & B2 & B3) C1 G1. pose proof (zlen_nonneg l) as Z0.
  assert (ZL : zlen (l ++ [x]) = zlen l + 1) by (unfold zlen; rewrite app_length; cbn [length]; lia). unfold grown_by. rewrite ZL.
  split; [lia|]. split; [split; [congruence|split; [congruence|]]|].
  - intros i Hi D. rewrite B3 by lia. apply A3; lia.
  - intros k y Hk. assert (k < length l \/ k = length l)%nat as [Lk|Lk].
    { assert (k < length (l ++ [x]))%nat by (apply nth_error_Some; congruence). rewrite app_length in *. cbn [length] in *. lia. }
    + rewrite nth_error_app1 in Hk by assumption. specialize (H3 k y Hk). intros j Hj. unfold zlen in *. rewrite B3 by lia. apply H3. exact Hj.
    + subst k. rewrite nth_error_app2, Nat.sub_diag in Hk by lia. cbn in Hk. injection Hk as <-. unfold zlen in *. replace (here m0 + 8 * Z.of_nat (length l)) with (here m) by lia. exact C1.
Qed.
Lemma grown_facts l m0 m : ds_ok m0 -> grown_by l m0 m -> here m0 + 8 * zlen l <= limit m0 ->
  ds_ok m /\ start m = start m0 /\ limit m = limit m0 /\ here m = here m0 + 8 * zlen l.
Proof. intros (D1 & D2 & D3) (H1 & (A1 & A2 & A3) & H3) HL. pose proof (zlen_nonneg l). unfold ds_ok. rewrite A1, A2. lia. Qed.


Lemma wp_lit {K : Z -> Prop} ix p i l v0 d r f o m v (Q : vm -> Prop) : word_is v0 i P__postpone -> word_is v0 (ix p) p -> inv v0 (ix p :: d) r f m o v ->
  w_cs (word_of v0 (ix p)) <> CS_compile_leave -> words v0 <= 2 ^ 63 -> ds_ok (v_ds v0) ->
  grown_by l (v_ds v0) m -> here (v_ds v0) + 8 * (zlen l + 1) <= limit (v_ds v0) -> (forall k, K k -> start (v_ds v0) <= k < here (v_ds v0)) ->
  (forall u m', grown_by (l ++ [ix p]) (v_ds v0) m' -> inv v0 d r f m' o u -> Q u) -> wp K (Op i) Q v.
Proof.
  intros W WL HI HC HW HD HG HL HK HQ. pose proof (zlen_nonneg l). destruct (grown_facts _ _ _ HD HG ltac:(lia)) as (D & G1 & G2 & G3).
  pose proof (proj1 WL) as WI. fold (words v0) in WI.
  eapply wp_postponed; [exact W|exact HI|exact WI|lia|exact HC|exact D|lia|intros k Hk; specialize (HK k Hk); lia|].
  intros u m' S C G I. eapply HQ; [|exact I]. eapply grown_snoc; eassumption.
Qed.
Lemma wp_cell {K : Z -> Prop} x i l v0 d r f o m v (Q : vm -> Prop) : word_is v0 i P_comma -> inv v0 (x :: d) r f m o v -> ds_ok (v_ds v0) ->
  grown_by l (v_ds v0) m -> here (v_ds v0) + 8 * (zlen l + 1) <= limit (v_ds v0) -> (forall k, K k -> start (v_ds v0) <= k < here (v_ds v0)) ->
  (forall u m', grown_by (l ++ [x]) (v_ds v0) m' -> inv v0 d r f m' o u -> Q u) -> wp K (Op i) Q v.
Proof.
  intros W HI HD HG HL HK HQ. pose proof (zlen_nonneg l). destruct (grown_facts _ _ _ HD HG ltac:(lia)) as (D & G1 & G2 & G3).
  eapply (wp_memory K i P_comma v0 _ d r f m o v (here m) 8 (fun m' => cell_at m' (here m) x /\ here m' = here m + 8)); [exact W|exact HI| | |].
  - intros k Hk. specialize (HK k Hk). lia.
  - intros fuel ew u J. assert (EM : v_ds u = m) by apply J.
    destruct (comma_ok P_comma fuel ew u x d) as (u' & E1 & S1 & C1 & M1 & G0 & O1); rewrite ?EM in *; try assumption; [left; reflexivity|apply J|lia|].
    exists u'. split; [exact E1|]. split; [exact S1|]. split; [exact M1|]. split; [auto|exact O1].
  - intros u m' S1 [C1 G0] I1. eapply HQ; [|exact I1]. eapply grown_snoc; eassumption.
Qed.
Ltac lit_ := seqs; eapply wp_lit; [known_word|eassumption|eassumption|assumption|assumption|assumption|eassumption|unfold zlen; cbn [app length]; lia|assumption|]; intros ?u ?m ?G ?I.
Ltac cell_ := seqs; eapply wp_cell; [known_word|eassumption|assumption|eassumption|unfold zlen; cbn [app length]; lia|assumption|]; intros ?u ?m ?G ?I.
Lemma literal_run x : lib_run 240 d_literal [x] [] (fun K ix v => appendable P_lit 16 K ix v)
  (fun v outs fouts m text => outs = [] /\ fouts = [] /\ text = [] /\ exists i, word_is v i P_lit /\ grown_by [i; x] (v_ds v) m).
Proof.
  runs_. destruct HP as (HC & HW & HL & HK). room. assert (WL : word_is v (ix P_lit) P_lit) by known_word.
  pose proof (grown_nil (v_ds v)) as G0. by_num. lit_. cell_.
  exists [], [], m0, []. split; [|exact I2]. split; [reflexivity|]. split; [reflexivity|]. split; [reflexivity|]. exists (ix P_lit). auto.
Qed.
Lemma two_literal_run x y : lib_run 240 d_two_literal [y; x] [] (fun K ix v => appendable P_lit 32 K ix v)
  (fun v outs fouts m text => outs = [] /\ fouts = [] /\ text = [] /\ exists i, word_is v i P_lit /\ grown_by [i; x; i; y] (v_ds v) m).
Proof.
  runs_. destruct HP as (HC & HW & HL & HK). room. assert (WL : word_is v (ix P_lit) P_lit) by known_word.
  pose proof (grown_nil (v_ds v)) as G0. by_is (swap_effect x y). by_num. lit_. cell_. by_num. lit_. cell_.
  eexists [], [], _, []. split; [|eassumption]. split; [reflexivity|]. split; [reflexivity|]. split; [reflexivity|]. exists (ix P_lit). auto.
Qed.
Lemma fliteral_run fcomma x : lib_run 235 (fun ix => d_fliteral ix fcomma) [] [x]
  (fun K ix v => appendable P_flit 16 K ix v /\ here (v_ds v) mod 8 = 0 /\ lib_word d_f_comma fcomma K ix v)
  (fun v outs fouts m text => outs = [] /\ fouts = [] /\ text = [] /\ exists i, word_is v i P_flit /\ grown_by [i; x] (v_ds v) m).
Proof.
  runs_. destruct HP as ((HC & HW & HL & HK) & HA & HF). room. assert (WL : word_is v (ix P_flit) P_flit) by known_word.
  pose proof (grown_nil (v_ds v)) as G0. by_num. lit_. pose proof G as (GA & GB & _).
  destruct (grown_facts _ _ _ HD G ltac:(unfold zlen; cbn [app length]; lia)) as (D & G1 & G2 & G3). unfold zlen in G3. cbn [app length] in G3. unfold zlen in GB. cbn [app length] in GB.
  assert (HKP : kept K v u1) by (eapply kept_of; [exact I1|exact GB|intros k Hk; specialize (HK k Hk); lia]).
  assert (HT : least_multiple 8 (here (v_ds u1)) (here (v_ds v) + 8)).
  { assert (Ed : v_ds u1 = m) by apply I1. rewrite Ed. split; [lia|]. split; [exists (here (v_ds v) / 8 + 1); lia|]. intros; lia. }
  eapply (wp_run K) with (1 := f_comma_run x); [eassumption|exact HF|exact HKP|cbn [app]; eassumption|wlen|wlen|wlen|assumption| |].
  { assert (Ed : v_ds u1 = m) by apply I1. exists (here (v_ds v) + 8). split; [exact HT|]. rewrite Ed. split; [lia|]. intros k Hk. specialize (HK k Hk). lia. }
  intros outs fouts text w (-> & -> & -> & F1 & t & F2 & F3 & F4) J. cbn [app] in J. rewrite said_nil in J. assert (Ed : v_ds u1 = m) by apply I1.
  eexists [], [], _, []. split; [|exact J]. split; [reflexivity|]. split; [reflexivity|]. split; [reflexivity|]. exists (ix P_flit). split; [exact WL|].
  rewrite Ed in *. assert (t = here m) as ->. { apply least8 in F2, HT. lia. }
  eapply (grown_snoc [ix P_flit]); eassumption.
Qed.
Lemma f_comma_aligned_run x : lib_run 240 d_f_comma [] [x]
  (fun K ix v => here (v_ds v) mod 8 = 0 /\ here (v_ds v) + 8 <= limit (v_ds v) /\ forall k, K k -> start (v_ds v) <= k < here (v_ds v))
  (fun v outs fouts m text => outs = [] /\ fouts = [] /\ text = [] /\ grown_by [x] (v_ds v) m).
Proof.
  intros K ix v i rest rs fs L HC S Hr Hrs Hfs HD (HA & HL & HK). pose proof HD as (D1 & D2 & D3).
  assert (HT : least_multiple 8 (here (v_ds v)) (here (v_ds v))) by (split; [lia|]; split; [exists (here (v_ds v) / 8); lia|]; intros; lia).
  eapply does_conseq; [|eapply (f_comma_run x K ix v i rest rs fs); try eassumption].
  2:{ exists (here (v_ds v)). split; [exact HT|]. split; [lia|]. intros k Hk. specialize (HK k Hk). lia. }
  intros u (outs & fouts & text & (-> & -> & -> & F1 & t & F2 & F3 & F4) & R). exists [], [], []. split; [|exact R].
  split; [reflexivity|]. split; [reflexivity|]. split; [reflexivity|]. assert (t = here (v_ds v)) as -> by (apply least8 in F2, HT; lia).
  apply (grown_snoc [] x (v_ds v) (v_ds v)); try assumption. apply grown_nil.
Qed.
End W.
