(** The printing and text words of core.fth. *)
From Coq Require Import ZArith List Bool Lia ZifyBool ZifyNat.
From Verif Require Import Base Stack Mem State CoreM IoM Exec LBase LStack Spec Spec2 Spec4 Spec5 Spec6 Spec7 Spec9 Spec10 Spec11 Spec14 Spec15 Spec16 Spec17 Spec24 Spec25
  LState LMem LMon LMemWords LTask LFuel LCode LComp LRun LCtl LFloat LWords LSay LLib LLibWords LDefine LDefine2 LSource LNum2 LSys LSys2.
Import ListNotations.
Import Spec14.
Open Scope list_scope.
Open Scope Z_scope.
Open Scope m_scope.

Section L.
Context {E : Env}.
Implicit Types (v w u : vm).

Section K.
Variable K : Z -> Prop.
Lemma lib_does3 v i p x d rs fs (R : list Z -> list Z -> dspace -> option bytes -> Prop) : colon_word K v i p x -> stacks_are v d rs fs -> zlen rs < 255 ->
  (forall r u, inv v d (r :: rs) fs (v_ds v) (v_out v) u ->
     wp K p (fun v' => exists d' f' m o, R d' f' m o /\ inv v d' (r :: rs) f' m o v') u) ->
  does K v i (fun v' => exists d' f' m o, R d' f' m o /\ inv v d' rs f' m o v').
Proof.
  intros HC HS Hl H. eapply colon_does; [exact HC|apply HS|exact Hl|]. intros r Hr.
  eapply wp_conseq; [|apply (H r); apply inv_rpush; [apply inv_start; exact HS|exact Hl]].
  intros u (d' & f' & m & o & HR & HI). split; [eapply inv_wl; exact HI|]. exists rs. split; [apply HI|].
  exists d', f', m, o. split; [exact HR|]. apply (inv_rdrop v [r]). exact HI.
Qed.
Lemma wp_run n dd ins fins P Q0 ix v0 i rest rs fs m o u (Q : vm -> Prop) : lib_run n dd ins fins P Q0 -> library ix v0 -> colon_word K v0 i (dd ix) (ix P_exit) ->
  kept K v0 u -> inv v0 (ins ++ rest) rs (fins ++ fs) m o u -> zlen rest <= n -> zlen rs <= n -> zlen fs <= n -> ds_ok m -> P K ix u ->
  (forall outs fouts text u', Q0 u outs fouts (v_ds u') text -> inv v0 (outs ++ rest) rs (fouts ++ fs) (v_ds u') (said o text) u' -> Q u') -> wp K (Op i) Q u.
Proof.
  intros HL L HC HK HI H1 H2 H3 HD HP HQ. pose proof (inv_wl _ _ _ _ _ _ _ HI) as Ew. assert (Ed : v_ds u = m) by apply HI. apply wp_call.
  pose proof (HL K ix u i rest rs fs (library_eq _ _ _ Ew L) (colon_eq K _ _ _ _ _ Ew HK HC) (proj1 HI) H1 H2 H3 ltac:(rewrite Ed; exact HD) HP) as D.
  eapply does_conseq; [|exact D]. intros u' (outs & fouts & text & q & S & O & C). eapply HQ; [exact q|].
  eapply inv_after; [exact HI|exact S| |exact C]. rewrite O. replace (v_out u) with o by (symmetry; apply HI). reflexivity.
Qed.

(** The primitives *)
Lemma inv_hld v0 d r f m o v t : inv v0 d r f m o v -> inv v0 d r f m o (set_v_hld t v).
Proof.
  intros (S & D & O & C). split; [exact S|]. split; [exact D|]. split; [exact O|]. eapply calm_trans; [exact C|].
  repeat split; try (intros i _ _ _; reflexivity).
Qed.
Lemma inv_set_out v0 d r f m o v t : inv v0 d r f m (Some o) v -> inv v0 d r f m (Some t) (set_v_out (Some t) v).
Proof.
  intros (S & D & O & C). split; [exact S|]. split; [exact D|]. split; [reflexivity|]. eapply calm_trans; [exact C|].
  repeat split; try (intros i _ _ _; reflexivity).
Qed.
Lemma dot_r_none fuel ew v b n (w : Z) l : base_is v b -> v_out v = None -> stack_has (t_s (cur v)) (w :: n :: l) ->
  exists v', exec_prim fuel ew P_dot_r v = Ok (tt, v') /\ only_data_stack v v' /\ stack_has (t_s (cur v')) l.
Proof.
  intros HB HO HS. destruct (pop2_then v n w l HS) as (s1 & EP & S1 & S2 & _). exists (set_s s1 v).
  split; [|split; [apply only_data_set_s; exact S2|rewrite cur_set_s; exact S1]]. cbn [exec_prim]. unfold dot_r.
  rewrite (bind_Ok (ds_get (fun d => get_isize d (base_addr d))) _ v b v) by (unfold ds_get, base_is in *; rewrite HB; reflexivity). rewrite EP. unfold when_out. rewrite bind_gets.
  change (v_out (set_s s1 v)) with (v_out v). rewrite HO. reflexivity.
Qed.
Lemma wp_dot_r i b n (w : Z) v0 d r f m o v (Q : vm -> Prop) : word_is v0 i P_dot_r -> inv v0 (w :: n :: d) r f m o v -> In b [2; 8; 10; 16] ->
  get_isize m (base_addr m) = Ok b -> is_cell n -> - 2 ^ 63 + 65 <= w < 2 ^ 63 ->
  (forall t u, written b n t -> inv v0 d r f m (said o (field w t)) u -> Q u) -> wp K (Op i) Q v.
Proof.
  intros W HI Hb HB Hn Hw HQ. eapply wp_prim; [eapply inv_word; eassumption|]. intros ew fuel j c.
  pose proof (inv_at _ _ _ _ _ _ _ j c HI) as HI'. assert (EM : v_ds (at_ j c v) = m) by apply HI'.
  assert (HB' : base_is (at_ j c v) b) by (unfold base_is; rewrite EM; exact HB).
  assert (EO : v_out (at_ j c v) = o) by apply HI'.
  destruct o as [o|].
  - destruct (dot_r_written fuel _ b n w d o Hb HB' Hn Hw EO (proj1 (proj1 HI'))) as (t & v1 & u & HT & E1 & O1 & S1 & Eu).
    exists u. split; [apply E1|]. pose proof (inv_data _ _ _ _ _ _ _ _ _ HI' S1 O1) as I1.
    assert (I2 : inv v0 d r f m (said (Some o) (field w t)) u) by (subst u; eapply inv_set_out; apply inv_hld; exact I1).
    split; [|split; [|eapply HQ; [exact HT|exact I2]]].
    + subst u. transitivity (st_ip (st v1)); [reflexivity|]. rewrite (ip_kept _ _ O1), st_at. reflexivity.
    + apply kept_eq; [|rewrite (inv_wl _ _ _ _ _ _ _ I2), (inv_wl _ _ _ _ _ _ _ HI); reflexivity].
      transitivity m; [apply I2|symmetry; apply HI].
  - destruct (dot_r_none fuel ew _ b n w d HB' EO (proj1 (proj1 HI'))) as (u & E1 & O1 & S1).
    exists u. split; [apply E1|]. pose proof (inv_data _ _ _ _ _ _ _ _ _ HI' S1 O1) as I1.
    destruct (printed_ok b n Hb Hn) as (k & P1 & P2 & P3).
    split; [rewrite (ip_kept _ _ O1), st_at; reflexivity|]. split.
    + apply kept_eq; [|rewrite (inv_wl _ _ _ _ _ _ _ I1), (inv_wl _ _ _ _ _ _ _ HI); reflexivity].
      transitivity m; [apply I1|symmetry; apply HI].
    + eapply (HQ (LNum2.printed b n)); [apply printed_written; assumption|exact I1].
Qed.
Lemma fdot_r_none fuel ew v n (w : Z) l x fs : v_out v = None -> stack_has (t_s (cur v)) (n :: w :: l) -> stack_has (t_f (cur v)) (x :: fs) ->
  exists v', exec_prim fuel ew P_fdot_r v = Ok (tt, v') /\ only_data_float v v' /\ stack_has (t_s (cur v')) l /\ stack_has (t_f (cur v')) fs.
Proof.
  intros HO HS HF. destruct (pop1_has _ _ _ HF) as (f1 & EF & F1 & F2 & _). set (v0 := set_f f1 v).
  assert (HS0 : stack_has (t_s (cur v0)) (n :: w :: l)) by (unfold v0; rewrite cur_set_f; exact HS).
  destruct (pop2_then v0 w n l HS0) as (s1 & EP & S1 & S2 & _). exists (set_s s1 v0). split; [|split; [|split; [rewrite cur_set_s; exact S1|rewrite cur_set_s; unfold v0; rewrite cur_set_f; exact F1]]].
  - cbn [exec_prim]. unfold fdot_r. rewrite (bind_Ok f_pop _ v x v0) by (unfold f_pop, f_stk; rewrite EF; reflexivity). rewrite EP. cbv beta iota.
    unfold when_out. rewrite bind_gets. change (v_out (set_s s1 v0)) with (v_out v). rewrite HO. reflexivity.
  - unfold only_data_float, v0 in *. rewrite cur_set_s, cur_set_f in *. split; [repeat split; reflexivity|]. split; [reflexivity|].
    split; [intros i A B C; unfold set_s, set_f; rewrite !task_at_upd by assumption; reflexivity|]. split; [repeat split; reflexivity|]. split; [reflexivity|].
    split; [exact S2|exact F2].
Qed.
Lemma inv_float v0 d r f m o v d' f' v' : inv v0 d r f m o v -> stack_has (t_s (cur v')) d' -> stack_has (t_f (cur v')) f' -> only_data_float v v' ->
  inv v0 d' r f' m o v'.
Proof.
  intros HI S F (G & D & T & A & R & H1 & H2). eapply inv_stacks; [exact HI|split; [exact S|split; [rewrite R; apply HI|exact F]]|].
  split; [exact G|]. split; [exact D|]. split; [exact T|]. split; [exact A|]. split; [exact H1|]. split; [rewrite R; split; [reflexivity|auto]|exact H2].
Qed.
Lemma wp_fdot_r i n (w : Z) x v0 d r f m o v (Q : vm -> Prop) : word_is v0 i P_fdot_r -> inv v0 (n :: w :: d) r (x :: f) m o v ->
  let t := fmt_f64 (if (0 <=? n) && (n <=? 16) then n else 17) x in is_cell (w - zlen t) ->
  (forall u, inv v0 d r f m (said o (field w t)) u -> Q u) -> wp K (Op i) Q v.
Proof.
  intros W HI t HC HQ. eapply wp_prim; [eapply inv_word; eassumption|]. intros ew fuel j c.
  pose proof (inv_at _ _ _ _ _ _ _ j c HI) as HI'. assert (EO : v_out (at_ j c v) = o) by apply HI'.
  destruct o as [o|].
  - destruct (fdot_r_ok fuel _ n w d x f o EO (proj1 (proj1 HI')) (proj2 (proj2 (proj1 HI'))) HC) as (v1 & u & E1 & O1 & S1 & F1 & Eu).
    exists u. split; [apply E1|]. pose proof (inv_float _ _ _ _ _ _ _ _ _ _ HI' S1 F1 O1) as I1.
    assert (I2 : inv v0 d r f m (said (Some o) (field w t)) u) by (subst u; eapply inv_set_out; apply inv_hld; exact I1).
    split; [|split; [|eapply HQ; exact I2]].
    + subst u. transitivity (st_ip (st v1)); [reflexivity|]. destruct O1 as (_ & _ & _ & (_ & A & _) & _). unfold st. rewrite A, cur_at. reflexivity.
    + apply kept_eq; [|rewrite (inv_wl _ _ _ _ _ _ _ I2), (inv_wl _ _ _ _ _ _ _ HI); reflexivity].
      transitivity m; [apply I2|symmetry; apply HI].
  - destruct (fdot_r_none fuel ew _ n w d x f EO (proj1 (proj1 HI')) (proj2 (proj2 (proj1 HI')))) as (u & E1 & O1 & S1 & F1).
    exists u. split; [apply E1|]. pose proof (inv_float _ _ _ _ _ _ _ _ _ _ HI' S1 F1 O1) as I1.
    split; [|split; [|eapply HQ; exact I1]].
    + destruct O1 as (_ & _ & _ & (_ & A & _) & _). unfold st. rewrite A, cur_at. reflexivity.
    + apply kept_eq; [|rewrite (inv_wl _ _ _ _ _ _ _ I1), (inv_wl _ _ _ _ _ _ _ HI); reflexivity].
      transitivity m; [apply I1|symmetry; apply HI].
Qed.
Lemma wp_base i v0 d r f m o v (Q : vm -> Prop) : word_is v0 i P_base -> inv v0 d r f m o v -> ds_ok m -> base_addr m + 8 <= limit m -> zlen d < 255 ->
  (forall u, inv v0 (base_addr m :: d) r f m o u -> Q u) -> wp K (Op i) Q v.
Proof.
  intros W HI HD HL H1 HQ. eapply wp_quiet; [exact W|exact HI| |exact HQ]. intros fuel ew u J.
  assert (EM : v_ds u = m) by apply J. cbn [exec_prim]. unfold p_base. rewrite bind_gets, EM.
  replace (to_i64 (base_addr m)) with (base_addr m).
  - assert (HS : stack_has (t_s (cur u)) d) by apply J. pose proof (stack_has_len _ _ HS). pose proof (zlen_nonneg d).
    unfold s_push, modify, s_stk. eexists. split; [reflexivity|].
    rewrite cur_set_s. cbn [t_s set_t_s]. split; [apply push_has; assumption|]. apply only_data_set_s. apply push_high. lia.
  - symmetry. apply to_i64_id. destruct HD as (A & B & C). unfold base_addr, start, imin, imax, two63 in *. change (2 ^ 63) with 9223372036854775808 in *. lia.
Qed.
End K.

Lemma lib_run_of n d ins fins (P : (Z -> Prop) -> (prim -> Z) -> vm -> Prop) Q : n <= 245 ->
  (forall K ix v rest rs fs r u, library ix v -> stacks_are v (ins ++ rest) rs (fins ++ fs) -> zlen rest <= n -> zlen rs <= n -> zlen fs <= n -> ds_ok (v_ds v) -> P K ix v ->
     inv v (ins ++ rest) (r :: rs) (fins ++ fs) (v_ds v) (said (v_out v) []) u ->
     wp K (d ix) (fun u' => exists outs fouts m text, Q v outs fouts m text /\ inv v (outs ++ rest) (r :: rs) (fouts ++ fs) m (said (v_out v) text) u') u) ->
  lib_run n d ins fins P Q.
Proof.
  intros Hn H K ix v i rest rs fs L HC HS Hr Hrs Hfs HD HP.
  apply (does_conseq K v i (fun v' => exists d' f' m o, (exists outs fouts text, d' = outs ++ rest /\ f' = fouts ++ fs /\ Q v outs fouts m text /\ o = said (v_out v) text) /\ inv v d' rs f' m o v')).
  - intros u (d' & f' & m & o & (outs & fouts & text & -> & -> & HQ & ->) & HI). exists outs, fouts, text.
    assert (EM : v_ds u = m) by apply HI. rewrite EM. split; [exact HQ|]. split; [apply HI|]. split; apply HI.
  - eapply lib_does3; [exact HC|exact HS|lia|]. intros r u HI. rewrite <- (said_nil (v_out v)) in HI.
    eapply wp_conseq; [|eapply (H K ix v rest rs fs r u); eassumption].
    intros u' (outs & fouts & m & text & HQ & HI'). exists (outs ++ rest), (fouts ++ fs), m, (said (v_out v) text). split; [|exact HI']. exists outs, fouts, text. auto.
Qed.
Lemma kept_of (K : Z -> Prop) v0 d r f m o u a n : inv v0 d r f m o u -> same_memory_but (v_ds v0) m a n ->
  (forall k, K k -> start (v_ds v0) <= k /\ (k < a \/ a + n <= k)) -> kept K v0 u.
Proof.
  intros HI HS HF. eapply kept_same; [|eapply inv_wl; exact HI|exact HF]. replace (v_ds u) with m by (symmetry; apply HI). exact HS.
Qed.
Lemma kept_inv (K : Z -> Prop) v0 d r f o u : inv v0 d r f (v_ds v0) o u -> kept K v0 u.
Proof. intro HI. apply kept_eq; [apply HI|eapply inv_wl; exact HI]. Qed.
Lemma base_get d b : cell_at d (base_addr d) b -> is_cell b -> ds_ok d -> base_addr d + 8 <= limit d -> get_isize d (base_addr d) = Ok b.
Proof.
  intros C H D HL. apply get_isize_ok; [|assumption|assumption]. apply in_ds_true; unfold base_addr, start in *; lia.
Qed.
End L.

Ltac runs_ := apply lib_run_of; [lia|]; intros K ix v rest rs fs r u L S0 Hr Hrs Hfs HD HP I; cbn [app] in I; pose proof (zlen_nonneg rest); pose proof (zlen_nonneg rs); pose proof (zlen_nonneg fs).
Ltac act lem K0 := seqs; eapply (wp_action K0) with (1 := lem); [eassumption|eassumption| |cbn [app]; eassumption|wlen|wlen| | |].
Ltac room := match goal with H : ds_ok _ |- _ => pose proof (proj1 H); pose proof (proj1 (proj2 H)); pose proof (proj2 (proj2 H)) end.

Section W.
Context {E : Env}.
Lemma base_ok b v : ds_ok (v_ds v) -> in_base b v -> get_isize (v_ds v) (base_addr (v_ds v)) = Ok b.
Proof. intros D (Hb & C & HL). apply base_get; try assumption. cbn in Hb. red. lia. Qed.
Lemma field_0 t : field 0 t = t.
Proof. unfold field. pose proof (zlen_nonneg t). replace (Z.to_nat (0 - zlen t)) with O by lia. reflexivity. Qed.
Ltac mem_ E2 := match type of E2 with v_ds _ = v_ds ?w => match goal with J : inv _ _ _ _ _ _ w |- _ => rewrite (proj1 (proj2 J)) in E2 end end.
Ltac space_ K := act (@space_lib E) K; [ |assumption|exact Logic.I|]; [|intros ? ? ?u (-> & ?E2 & ->) ?J; mem_ E2; rewrite E2 in J; cbn [app] in J].

Lemma dot_run n b sp : is_cell n -> lib_run 240 (fun ix => d_dot ix sp) [n] []
  (fun K ix v => in_base b v /\ lib_word d_space sp K ix v)
  (fun v outs fouts m text => outs = [] /\ fouts = [] /\ m = v_ds v /\ exists t, written b n t /\ text = t ++ [32]).
Proof.
  intro Hn. runs_. destruct HP as (HB & HC). pose proof (base_ok _ _ HD HB) as HG. by_num.
  seqs. eapply wp_dot_r; [known_word|eassumption|apply HB|exact HG|exact Hn|lia|]. intros t ?u HT ?I.
  space_ K; [eapply kept_inv; eassumption|].
  exists [], [], (v_ds v), (t ++ [32]). split; [split; [reflexivity|]; split; [reflexivity|]; split; [reflexivity|]; exists t; auto|].
  rewrite !said_app, field_0 in J. exact J.
Qed.
Lemma fdot_run x sp : zlen (fmt_f64 7 x) < 2 ^ 63 -> lib_run 240 (fun ix => d_fdot ix sp) [] [x]
  (fun K ix v => lib_word d_space sp K ix v)
  (fun v outs fouts m text => outs = [] /\ fouts = [] /\ m = v_ds v /\ text = fmt_f64 7 x ++ [32]).
Proof.
  intro Hn. runs_. rename HP into HC. by_num. by_num.
  seqs. eapply wp_fdot_r; [known_word|eassumption| |].
  { change (is_cell (0 - zlen (fmt_f64 7 x))). pose proof (zlen_nonneg (fmt_f64 7 x)). unfold is_cell. lia. }
  intros ?u ?I. change (fmt_f64 (if (0 <=? 7) && (7 <=? 16) then 7 else 17) x) with (fmt_f64 7 x) in *.
  space_ K; [eapply kept_inv; eassumption|].
  exists [], [], (v_ds v), (fmt_f64 7 x ++ [32]). split; [auto|]. rewrite !said_app, field_0 in J. exact J.
Qed.
Lemma question_run a n b dot sp : is_cell n -> lib_run 235 (fun ix => d_question ix dot) [a] []
  (fun K ix v => in_base b v /\ lib_word d_space sp K ix v /\ lib_word (fun ix => d_dot ix sp) dot K ix v /\
     start (v_ds v) < a /\ a + 8 <= limit (v_ds v) /\ cell_at (v_ds v) a n)
  (fun v outs fouts m text => outs = [] /\ fouts = [] /\ m = v_ds v /\ exists t, written b n t /\ text = t ++ [32]).
Proof.
  intro Hn. runs_. destruct HP as (HB & HC & HC2 & A1 & A2 & A3).
  seqs. eapply wp_fetch with (x := n); [known_word|eassumption|assumption|lia|lia|assumption|assumption|]. intros ?u ?I.
  seqs. eapply (wp_run K) with (1 := dot_run n b sp Hn); [eassumption|exact HC2|eapply kept_inv; eassumption|cbn [app]; eassumption|wlen|wlen|wlen|assumption| |].
  - assert (Ed : v_ds u0 = v_ds v) by apply I0. assert (Ew : v_wl u0 = v_wl v) by (eapply inv_wl; exact I0). split; [unfold in_base; rewrite Ed; exact HB|].
    eapply colon_eq; [exact Ew|eapply kept_inv; eassumption|exact HC].
  - intros outs fouts text w (-> & -> & E2 & t & HT & ->) J. mem_ E2. rewrite E2 in J. exists [], [], (v_ds v), (t ++ [32]).
    split; [split; [reflexivity|]; split; [reflexivity|]; split; [reflexivity|]; exists t; auto|]. rewrite said_app in J. exact J.
Qed.
Lemma base_run n d : d = d_hex /\ n = 16 \/ d = d_decimal /\ n = 10 -> lib_run 240 d [] []
  (fun K ix v => free_of K v (base_addr (v_ds v)) 8)
  (fun v outs fouts m text => outs = [] /\ fouts = [] /\ text = [] /\ base_set v m n).
Proof.
  intros Hd. runs_. destruct HP as (P1 & P2 & P3).
  assert (Ed : d ix = block [Num n; wd ix P_base; wd ix P_store]) by (destruct Hd as [[-> ->]|[-> ->]]; reflexivity). rewrite Ed.
  by_num. seqs. eapply wp_base; [known_word|eassumption|assumption|lia|wlen|]. intros ?u ?I.
  eapply wp_store; [known_word|eassumption|assumption|lia|lia|exact P3|]. intros w m S1 C1 G1 J.
  exists [], [], m, []. split; [|exact J]. split; [reflexivity|]. split; [reflexivity|]. split; [reflexivity|]. split; [exact C1|]. split; [exact S1|exact G1].
Qed.
Lemma same_base d d' : same_data d d' -> base_addr d' = base_addr d.
Proof. intros ((A & _) & _). unfold base_addr, start in *. lia. Qed.
Lemma base_back v m b m' : base_set v m 16 -> cell_at (v_ds v) (base_addr (v_ds v)) b ->
  cell_at m' (base_addr (v_ds v)) b -> same_memory_but m m' (base_addr (v_ds v)) 8 -> here m' = here m -> same_data (v_ds v) m'.
Proof.
  intros (_ & (A1 & A2 & A3) & A4) C C' (B1 & B2 & B3) B4. split; [|congruence]. split; [congruence|]. split; [congruence|].
  intros i Hi _. destruct (Z_lt_dec i (base_addr (v_ds v))) as [|G]; [rewrite B3 by lia; apply A3; lia|].
  destruct (Z_lt_dec i (base_addr (v_ds v) + 8)) as [|G2]; [|rewrite B3 by lia; apply A3; lia].
  specialize (C (i - base_addr (v_ds v)) ltac:(lia)). specialize (C' (i - base_addr (v_ds v)) ltac:(lia)).
  replace (base_addr (v_ds v) + (i - base_addr (v_ds v))) with i in * by lia. congruence.
Qed.
Lemma hdot_run n b hex dot sp : is_cell n -> lib_run 230 (fun ix => d_hdot ix hex dot) [n] []
  (fun K ix v => base_cell b K v /\ lib_word d_space sp K ix v /\ lib_word (fun ix => d_dot ix sp) dot K ix v /\ lib_word d_hex hex K ix v)
  (fun v outs fouts m text => outs = [] /\ fouts = [] /\ same_data (v_ds v) m /\ exists t, written 16 n t /\ text = t ++ [32]).
Proof.
  intro Hn. runs_. destruct HP as ((B1 & B2 & B3) & C1 & C2 & C3). pose proof B3 as (P1 & P2 & P3). room.
  seqs. eapply wp_base; [known_word|eassumption|assumption|lia|wlen|]. intros ?u ?I.
  seqs. eapply wp_fetch with (x := b); [known_word|eassumption|assumption|lia|lia|assumption|assumption|]. intros ?u ?I.
  by_is (swap_effect n b).
  seqs. eapply (wp_run K) with (1 := base_run 16 d_hex (or_introl (conj eq_refl eq_refl)));
    [eassumption|exact C3|eapply kept_inv; eassumption|cbn [app]; eassumption|wlen|wlen|wlen|assumption| |].
  { assert (Ed : v_ds u2 = v_ds v) by apply I2. unfold free_of. rewrite Ed. exact B3. }
  intros ? ? ? w (-> & -> & -> & X) J. assert (X' : base_set v (v_ds w) 16) by (unfold base_set in *; rewrite (proj1 (proj2 I2)) in X; exact X). clear X. rename X' into X.
  destruct X as (X1 & X2 & X3). pose proof X2 as (X4 & X5 & _). cbn [app] in J. rewrite said_nil in J.
  assert (HD2 : ds_ok (v_ds w)) by (unfold ds_ok; rewrite X3, X4, X5; exact HD).
  assert (HK : kept K v w) by (eapply kept_of; [exact J|exact X2|exact P3]). assert (Ew : v_wl w = v_wl v) by (eapply inv_wl; exact J).
  assert (EB : base_addr (v_ds w) = base_addr (v_ds v)) by (unfold base_addr, start in *; lia).
  seqs. eapply (wp_run K) with (1 := dot_run n 16 sp Hn); [eassumption|exact C2|exact HK|cbn [app]; eassumption|wlen|wlen|wlen|assumption| |].
  { split; [|eapply colon_eq; [exact Ew|exact HK|exact C1]]. split; [cbn; tauto|]. rewrite EB, X5. split; [exact X1|lia]. }
  intros outs fouts text w2 (-> & -> & E2 & t & HT & ->) J2. rewrite E2 in J2. cbn [app] in J2.
  seqs. eapply wp_base; [known_word|eassumption|assumption|lia|wlen|]. intros ?u ?I. rewrite EB in *.
  eapply wp_store; [known_word|eassumption|assumption|lia|lia|intros k Hk; specialize (P3 k Hk); lia|]. intros w3 m S3 Y3 G3 J3.
  exists [], [], m, (t ++ [32]). rewrite said_app in J3. split; [|exact J3]. split; [reflexivity|]. split; [reflexivity|]. split; [|exists t; auto].
  eapply base_back; [split; [exact X1|split; [exact X2|exact X3]]|exact B1|exact Y3|exact S3|exact G3].
Qed.
Lemma hdot_r_run n b (w0 : Z) hex : is_cell n -> - 2 ^ 63 + 65 <= w0 < 2 ^ 63 -> lib_run 235 (fun ix => d_hdot_r ix hex) [w0; n] []
  (fun K ix v => base_cell b K v /\ lib_word d_hex hex K ix v)
  (fun v outs fouts m text => outs = [] /\ fouts = [] /\ same_data (v_ds v) m /\ exists t, written 16 n t /\ text = field w0 t).
Proof.
  intros Hn Hw. runs_. destruct HP as ((B1 & B2 & B3) & C3). pose proof B3 as (P1 & P2 & P3). room.
  seqs. eapply wp_base; [known_word|eassumption|assumption|lia|wlen|]. intros ?u ?I.
  seqs. eapply wp_fetch with (x := b); [known_word|eassumption|assumption|lia|lia|assumption|assumption|]. intros ?u ?I.
  by_stacks (to_r_eff b) (w0 :: n :: rest) (r :: rs) fs; [wlen|].
  seqs. eapply (wp_run K) with (1 := base_run 16 d_hex (or_introl (conj eq_refl eq_refl)));
    [eassumption|exact C3|eapply kept_inv; eassumption|cbn [app]; eassumption|wlen|wlen|wlen|assumption| |].
  { assert (Ed : v_ds u2 = v_ds v) by apply I2. unfold free_of. rewrite Ed. exact B3. }
  intros ? ? ? w (-> & -> & -> & X) J. assert (X' : base_set v (v_ds w) 16) by (unfold base_set in *; rewrite (proj1 (proj2 I2)) in X; exact X). clear X. rename X' into X.
  destruct X as (X1 & X2 & X3). pose proof X2 as (X4 & X5 & _). cbn [app] in J. rewrite said_nil in J.
  assert (HD2 : ds_ok (v_ds w)) by (unfold ds_ok; rewrite X3, X4, X5; exact HD).
  assert (EB : base_addr (v_ds w) = base_addr (v_ds v)) by (unfold base_addr, start in *; lia).
  seqs. eapply wp_dot_r with (b := 16); [known_word|eassumption|cbn; tauto| |exact Hn|exact Hw|].
  { apply base_get; [rewrite EB; exact X1|red; lia|exact HD2|rewrite EB, X5; lia]. }
  intros t ?u HT ?I.
  by_stacks (r_from_eff b) rest (r :: rs) fs; [wlen|].
  seqs. eapply wp_base; [known_word|eassumption|assumption|lia|wlen|]. intros ?u ?I. rewrite EB in *.
  eapply wp_store; [known_word|eassumption|assumption|lia|lia|intros k Hk; specialize (P3 k Hk); lia|]. intros w3 m S3 Y3 G3 J3.
  exists [], [], m, (field w0 t). rewrite said_app in J3. split; [|exact J3]. split; [reflexivity|]. split; [reflexivity|]. split; [|exists t; auto].
  eapply base_back; [split; [exact X1|split; [exact X2|exact X3]]|exact B1|exact Y3|exact S3|exact G3].
Qed.
End W.
