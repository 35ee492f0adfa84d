(** The words of core.fth. *)
From Coq Require Import ZArith List Bool Lia ZifyBool ZifyNat.
From Verif Require Import Base Stack Mem State CoreM IoM Exec LBase LStack Spec Spec2 Spec4 Spec5 Spec6 Spec7 Spec10 Spec15
  LState LMem LMon LMemWords LTask LFuel LCode LComp LRun LCtl LFloat LWords Spec9 Spec14 LSay LLib.
Import ListNotations.
Open Scope Z_scope.
Open Scope m_scope.

Section L.
Context {E : Env}.
Implicit Types (v w u : vm).

Definition said (o : option bytes) (t : bytes) : option bytes := match o with Some x => Some (x ++ t) | None => None end.
Lemma said_nil o : said o [] = o. Proof. destruct o; cbn; [rewrite app_nil_r|]; reflexivity. Qed.
Lemma said_app o s t : said (said o s) t = said o (s ++ t). Proof. destruct o; cbn; [rewrite app_assoc|]; reflexivity. Qed.

Lemma cell_plus_ok fuel ew v a rest : stack_has (t_s (cur v)) (a :: rest) -> is_cell (a + 8) ->
  exists v', exec_prim fuel ew P_cell_plus v = Ok (tt, v') /\ stack_has (t_s (cur v')) (a + 8 :: rest) /\ only_data_stack v v'.
Proof.
  intros HS Ha. destruct (pop_then v a rest HS) as (s1 & EP & S1 & S2 & HL). cbn [exec_prim]. unfold cell_plus. rewrite EP.
  pose proof (stack_has_len _ _ HS) as L0. pose proof (stack_has_bound _ _ HS) as B0. rewrite zlen_cons in L0.
  rewrite (bind_Ok _ _ _ (a + 8) (set_s s1 v)).
  - eexists. split; [reflexivity|]. unfold s_push, modify, s_stk. rewrite cur_set_s. cbn [t_s set_t_s]. rewrite set_s_set_s.
    rewrite cur_set_s. cbn [t_s set_t_s]. split; [apply push_has; [exact S1|lia]|].
    apply only_data_set_s. pose proof (stack_has_len _ _ S1) as L1. pose proof (zlen_nonneg rest).
    pose proof (push_high s1 (a + 8) ltac:(lia)) as [H1 H2]. split; [rewrite H1; apply S2|].
    pose proof (push_has s1 rest (a + 8) S1 ltac:(lia)) as P. pose proof (stack_has_len _ _ P) as LP. rewrite zlen_cons in LP.
    intros i I1 I2 I3. rewrite H2 by lia. apply S2; lia.
  - unfold chk_i64. replace (in_i64 (a + 8)) with true by (unfold in_i64, imin, imax, two63, is_cell in *; lia). reflexivity.
Qed.
Lemma push_ok fuel ew v p x rest : exec_prim fuel ew p = s_push x -> stack_has (t_s (cur v)) rest -> zlen rest < 255 ->
  exists v', exec_prim fuel ew p v = Ok (tt, v') /\ stack_has (t_s (cur v')) (x :: rest) /\ only_data_stack v v'.
Proof.
  intros -> HS Hr. pose proof (stack_has_len _ _ HS) as L1. pose proof (zlen_nonneg rest). unfold s_push, modify, s_stk. eexists. split; [reflexivity|].
  rewrite cur_set_s. cbn [t_s set_t_s]. split; [apply push_has; assumption|]. apply only_data_set_s. apply push_high. lia.
Qed.

Section K.
Variable K : Z -> Prop.
Lemma wp_quiet i p v0 d d' r f m o v (Q : vm -> Prop) : word_is v0 i p -> inv v0 d r f m o v ->
  (forall fuel ew u, inv v0 d r f m o u -> exists u', exec_prim fuel ew p u = Ok (tt, u') /\ stack_has (t_s (cur u')) d' /\ only_data_stack u u') ->
  (forall u, inv v0 d' r f m o u -> Q u) -> wp K (Op i) Q v.
Proof.
  intros W HI H HQ. eapply wp_prim; [eapply inv_word; eassumption|]. intros ew fuel j c.
  pose proof (inv_at _ _ _ _ _ _ _ j c HI) as HI'. destruct (H fuel ew _ HI') as (u & E1 & S1 & O1).
  exists u. split; [exact E1|]. split; [rewrite (ip_kept _ _ O1), st_at; reflexivity|].
  split; [apply kept_eq; [apply O1|destruct O1 as [(_ & _ & _ & G & _) _]; exact G]|].
  apply HQ. eapply inv_data; eassumption.
Qed.
Lemma wp_memory i p v0 d d' r f m o v a n (P : dspace -> Prop) (Q : vm -> Prop) : word_is v0 i p -> inv v0 d r f m o v ->
  (forall k, K k -> start m <= k /\ (k < a \/ a + n <= k)) ->
  (forall fuel ew u, inv v0 d r f m o u -> exists u', exec_prim fuel ew p u = Ok (tt, u') /\ stack_has (t_s (cur u')) d' /\
     same_memory_but m (v_ds u') a n /\ P (v_ds u') /\ only_data_memory u u') ->
  (forall u m', same_memory_but m m' a n -> P m' -> inv v0 d' r f m' o u -> Q u) -> wp K (Op i) Q v.
Proof.
  intros W HI HK H HQ. eapply wp_prim; [eapply inv_word; eassumption|]. intros ew fuel j c.
  pose proof (inv_at _ _ _ _ _ _ _ j c HI) as HI'. destruct (H fuel ew _ HI') as (u & E1 & S1 & M1 & P1 & O1).
  exists u. split; [exact E1|]. assert (HM : v_ds v = m) by apply HI.
  split; [destruct O1 as (_ & _ & (_ & A & _) & _); unfold st; rewrite A, cur_at; reflexivity|].
  split.
  - destruct O1 as ((_ & _ & _ & G & _) & _). unfold kept. rewrite HM. split; [apply M1|]. split; [apply M1|].
    split; [intros k Hk; apply M1; apply HK; exact Hk|]. intros i0 p0 _ W0. unfold word_is. rewrite G. exact W0.
  - eapply HQ; [exact M1|exact P1|]. eapply inv_memory; eassumption.
Qed.

Lemma wp_emit i c v0 d r f m o v (Q : vm -> Prop) : word_is v0 i P_emit -> inv v0 (c :: d) r f m o v -> 0 <= c < 128 ->
  (forall u, inv v0 d r f m (said o [c]) u -> Q u) -> wp K (Op i) Q v.
Proof.
  intros W HI HC HQ. eapply wp_prim; [eapply inv_word; eassumption|]. intros ew fuel j b.
  pose proof (inv_at _ _ _ _ _ _ _ j b HI) as HI'.
  destruct (emit_ascii fuel _ c d (proj1 (proj1 HI')) HC) as (v1 & u & E1 & O1 & S1 & P1).
  exists u. split; [apply E1|]. pose proof (inv_data _ _ _ _ _ _ _ _ _ HI' S1 O1) as I1. pose proof (inv_out _ _ _ _ _ _ _ _ _ I1 P1) as I2.
  split; [|split; [|apply HQ; exact I2]].
  - transitivity (st_ip (st v1)); [|rewrite (ip_kept _ _ O1), st_at; reflexivity]. rewrite P1. destruct (v_out v1); reflexivity.
  - apply kept_eq; [|rewrite (inv_wl _ _ _ _ _ _ _ I2), (inv_wl _ _ _ _ _ _ _ HI); reflexivity].
    transitivity m; [apply I2|symmetry; apply HI].
Qed.
End K.
End L.

(** Symbolic execution *)
Ltac wlen := intros; subst; cbn [app]; repeat (rewrite zlen_cons || rewrite zlen_app || rewrite zlen_nil); lia.
Ltac known_word := match goal with L : library _ _ |- word_is _ _ _ => apply L; unfold lib_prims; cbn; tauto end.
Ltac seqs := cbn [block]; repeat apply wp_seq.
Ltac by_is lem := seqs; eapply (wp_effect _ _ _ _ _ _ _ _ _ _ _ _ _ lem); [known_word|cbn [app]; eassumption|wlen|];
  let o := fresh "outs" in let u := fresh "u" in let I := fresh "I" in intros o u <- I; cbn [app] in I.
Ltac by_effect lem := seqs; eapply (wp_effect _ _ _ _ _ _ _ _ _ _ _ _ _ lem); [known_word|cbn [app]; eassumption|intros ? (? & -> & _); wlen|];
  let o := fresh "outs" in let u := fresh "u" in let I := fresh "I" in let y := fresh "y" in let H := fresh "H" in
  intros o u (y & -> & H) I; cbn [app] in I.
Ltac by_num := seqs; eapply wp_num; [eassumption|wlen|]; let u := fresh "u" in let I := fresh "I" in intros u I.
Ltac by_stacks lem a b c := seqs; eapply (wp_word_effect _ _ _ _ _ _ _ _ _ _ a b c _ _ _ _ lem); [known_word|cbn [app]; eassumption|wlen|wlen| |];
  [|let u := fresh "u" in let I := fresh "I" in intros u I; cbn [app] in I].
Ltac start_lib := intros K ix v i rest rs fs L HC HS Hr Hrs.

Section W.
Context {E : Env}.

Lemma lib_effect_of d ins (Q : list Z -> Prop) :
  (forall K ix v rest rs fs r u, library ix v -> zlen rest <= 245 -> zlen rs <= 245 ->
     inv v (ins ++ rest) (r :: rs) fs (v_ds v) (v_out v) u ->
     wp K (d ix) (fun u' => exists outs, Q outs /\ inv v (outs ++ rest) (r :: rs) fs (v_ds v) (v_out v) u') u) ->
  lib_effect d ins Q.
Proof.
  intros H. start_lib.
  apply (does_conseq K v i (fun v' => exists d' m o, (exists outs, d' = outs ++ rest /\ Q outs /\ m = v_ds v /\ o = v_out v) /\ inv v d' rs fs m o v')).
  - intros u (d' & m & o & (outs & -> & HQ & -> & ->) & HI). exists outs. split; [exact HQ|]. split; [apply HI|]. split; [apply HI|]. split; apply HI.
  - eapply lib_does; [exact HC|exact HS|lia|]. intros r u HI.
    eapply wp_conseq; [|eapply (H K ix v rest rs fs r u); eassumption].
    intros u' (outs & HQ & HI'). exists (outs ++ rest), (v_ds v), (v_out v). split; [|exact HI']. exists outs. auto.
Qed.

Lemma lib_action_of d ins (P : (Z -> Prop) -> vm -> Prop) Q :
  (forall K ix v rest rs fs r u, library ix v -> stacks_are v (ins ++ rest) rs fs -> zlen rest <= 245 -> zlen rs <= 245 -> ds_ok (v_ds v) -> P K v ->
     inv v (ins ++ rest) (r :: rs) fs (v_ds v) (said (v_out v) []) u ->
     wp K (d ix) (fun u' => exists outs m text, Q v outs m text /\ inv v (outs ++ rest) (r :: rs) fs m (said (v_out v) text) u') u) ->
  lib_action d ins P Q.
Proof.
  intros H. start_lib. intros HD HP.
  apply (does_conseq K v i (fun v' => exists d' m o, (exists outs text, d' = outs ++ rest /\ Q v outs m text /\ o = said (v_out v) text) /\ inv v d' rs fs m o v')).
  - intros u (d' & m & o & (outs & text & -> & HQ & ->) & HI). exists outs, text.
    assert (EM : v_ds u = m) by apply HI. rewrite EM. split; [exact HQ|]. split; [apply HI|]. split; apply HI.
  - eapply lib_does; [exact HC|exact HS|lia|]. intros r u HI. rewrite <- (said_nil (v_out v)) in HI.
    eapply wp_conseq; [|eapply (H K ix v rest rs fs r u); eassumption].
    intros u' (outs & m & text & HQ & HI'). exists (outs ++ rest), m, (said (v_out v) text). split; [|exact HI']. exists outs, text. auto.
Qed.

Ltac go := apply lib_effect_of; intros K ix v rest rs fs r u L Hr Hrs I; cbn [app] in I; pose proof (zlen_nonneg rest).
Ltac done_ outs0 := exists outs0; split; [|eassumption].

Lemma tuck_lib a b : lib_effect d_tuck [b; a] (eq [b; a; b]).
Proof. go. seqs. by_is (swap_effect a b). by_is (over_effect b a). done_ [b; a; b]. reflexivity. Qed.
Lemma two_star_lib n : lib_effect d_two_star [n] (result1 (wraps_to (2 * n))).
Proof. go. seqs. by_num. by_effect (star_spec n 2). done_ [y]. exists y. rewrite (Z.mul_comm 2 n). auto. Qed.
Lemma two_slash_lib n : is_cell n -> lib_effect d_two_slash [n] (result1 (fun q => exists r, quot_rem n 2 q r)).
Proof. intro Hn. go. seqs. by_num. by_effect (slash_spec n 2 Hn ltac:(red; lia) ltac:(lia)). done_ [y]. exists y. auto. Qed.
Lemma invert_is x : effect_is P_invert [x] [Z.lnot x].
Proof. apply un_effect. reflexivity. Qed.
Lemma truth_not f P : truth f P -> truth (Z.lnot f) (~ P).
Proof. intros [[-> H]|[-> H]]; [right|left]; (split; [reflexivity|tauto]). Qed.
Lemma truth_iff f P Q : (P <-> Q) -> truth f P -> truth f Q.
Proof. unfold truth. tauto. Qed.
Lemma le_lib n t : lib_effect d_le [t; n] (result1 (fun f => truth f (n <= t))).
Proof.
  go. seqs. by_effect (greater_than_spec n t). by_is (invert_is y). done_ [Z.lnot y]. exists (Z.lnot y). split; [reflexivity|].
  eapply truth_iff; [|apply truth_not; eassumption]. lia.
Qed.
Lemma ge_lib n t : lib_effect d_ge [t; n] (result1 (fun f => truth f (n >= t))).
Proof.
  go. seqs. by_effect (less_than_spec n t). by_is (invert_is y). done_ [Z.lnot y]. exists (Z.lnot y). split; [reflexivity|].
  eapply truth_iff; [|apply truth_not; eassumption]. lia.
Qed.
Lemma qdup_lib x : lib_effect d_qdup [x] (eq (if x =? 0 then [0] else [x; x])).
Proof.
  go. seqs. by_is (dup_effect x). seqs; eapply wp_if_then; [eassumption| |]; intros Hx u1 I1.
  - by_is (dup_effect x). done_ [x; x]. replace (x =? 0) with false by lia. reflexivity.
  - done_ [x]. subst x. reflexivity.
Qed.
Lemma truth_case f P : truth f P -> (f <> 0 -> P) /\ (f = 0 -> ~ P).
Proof. intros [[-> H]|[-> H]]; split; intro; [exact H|lia|lia|exact H]. Qed.
Lemma max_lib a b : lib_effect d_max [b; a] (eq [Z.max a b]).
Proof.
  go. seqs. by_is (two_dup_effect a b). by_effect (less_than_spec a b). destruct (truth_case _ _ H0) as [T1 T2].
  seqs; eapply wp_if_else; [eassumption| |]; intros Hx u2 I2.
  - by_is (nip_effect a b). done_ [b]. rewrite Z.max_r; [reflexivity|]. specialize (T1 Hx). lia.
  - by_is (drop_effect b). done_ [a]. rewrite Z.max_l; [reflexivity|]. specialize (T2 Hx). lia.
Qed.
Lemma min_lib a b : lib_effect d_min [b; a] (eq [Z.min a b]).
Proof.
  go. seqs. by_is (two_dup_effect a b). by_effect (less_than_spec a b). destruct (truth_case _ _ H0) as [T1 T2].
  seqs; eapply wp_if_else; [eassumption| |]; intros Hx u2 I2.
  - by_is (drop_effect b). done_ [a]. rewrite Z.min_l; [reflexivity|]. specialize (T1 Hx). lia.
  - by_is (nip_effect a b). done_ [b]. rewrite Z.min_r; [reflexivity|]. specialize (T2 Hx). lia.
Qed.
Lemma slash_string_lib a n c : lib_effect d_slash_string [n; c; a]
  (fun outs => exists c' a', outs = [c'; a'] /\ wraps_to (c - n) c' /\ wraps_to (a + n) a').
Proof.
  go. seqs. by_is (dup_effect n). assert (HF : zlen fs <= 255).
  { destruct I0 as ((_ & _ & F) & _). pose proof (stack_has_len _ _ F). pose proof (stack_has_bound _ _ F). lia. }
  by_stacks (to_r_eff n) (n :: c :: a :: rest) (r :: rs) fs; [exact HF|]. by_effect (minus_spec c n). by_is (swap_effect a y).
  by_stacks (r_from_eff n) (a :: y :: rest) (r :: rs) fs; [exact HF|]. by_effect (plus_spec a n). by_is (swap_effect y y0).
  done_ [y; y0]. exists y, y0. auto.
Qed.
Lemma bounds_lib a n : lib_effect d_bounds [n; a] (fun outs => exists e, outs = [a; e] /\ wraps_to (a + n) e).
Proof.
  go. by_is (over_effect a n). by_effect (plus_spec n a). by_is (swap_effect a y). done_ [a; y]. exists y. rewrite (Z.add_comm a n). auto.
Qed.
Lemma chars_lib : lib_effect (fun _ => d_chars) [] (eq []).
Proof. go. apply wp_skip. done_ (@nil Z). reflexivity. Qed.
End W.

(** ** Words that use the memory *)
Section M.
Context {E : Env}.
Lemma cell_keep m m' a n b x : same_memory_but m m' a n -> start m <= b -> b + 8 <= a \/ a + n <= b ->
  cell_at m b x -> cell_at m' b x.
Proof. intros (_ & _ & H) Hb D C k Hk. rewrite H by lia. apply C. exact Hk. Qed.
Lemma same_join m m1 m2 a n b k c l : same_memory_but m m1 a n -> same_memory_but m1 m2 b k ->
  c <= a -> a + n <= c + l -> c <= b -> b + k <= c + l -> same_memory_but m m2 c l.
Proof.
  intros (A1 & A2 & A3) (B1 & B2 & B3) H1 H2 H3 H4. split; [congruence|]. split; [congruence|]. intros i Hi D.
  rewrite B3 by lia. apply A3; lia.
Qed.
Lemma same_ok m m' a n : ds_ok m -> same_memory_but m m' a n -> here m' = here m -> ds_ok m'.
Proof. intros (A & B & C) (S1 & S2 & _) H. unfold ds_ok. rewrite S1, S2, H. auto. Qed.
Ltac go := apply lib_action_of; intros K ix v rest rs fs r u L S0 Hr Hrs HD HP I; cbn [app] in I; pose proof (zlen_nonneg rest).
Ltac room := match goal with H : ds_ok _ |- _ => pose proof (proj1 H); pose proof (proj1 (proj2 H)); pose proof (proj2 (proj2 H)) end.
Ltac by_quiet lem := seqs; eapply wp_quiet; [known_word|eassumption|
    let w := fresh "w" in let J := fresh "J" in
    intros ? ? w J; let EM := fresh in assert (EM := proj1 (proj2 J)); eapply lem;
      try exact (proj1 (proj1 J)); try rewrite EM; try eassumption; try (apply addr_of_id; lia); try lia; try wlen|];
  let u := fresh "u" in let I := fresh "I" in intros u I.

Lemma wp_fetch (K : Z -> Prop) i v0 a x d r f m o v (Q : vm -> Prop) : word_is v0 i P_fetch -> inv v0 (a :: d) r f m o v -> ds_ok m ->
  start m < a -> a + 8 <= limit m -> cell_at m a x -> is_cell x ->
  (forall u, inv v0 (x :: d) r f m o u -> Q u) -> wp K (Op i) Q v.
Proof.
  intros W HI HD H1 H2 HC Hx HQ. eapply wp_quiet; [exact W|exact HI| |exact HQ]. intros fuel ew u J.
  assert (EM : v_ds u = m) by apply J. room. eapply fetch_ok; rewrite ?EM; try eassumption; [apply J|apply addr_of_id; lia].
Qed.
Lemma wp_cell_plus (K : Z -> Prop) i v0 a d r f m o v (Q : vm -> Prop) : word_is v0 i P_cell_plus -> inv v0 (a :: d) r f m o v -> is_cell (a + 8) ->
  (forall u, inv v0 (a + 8 :: d) r f m o u -> Q u) -> wp K (Op i) Q v.
Proof.
  intros W HI Hx HQ. eapply wp_quiet; [exact W|exact HI| |exact HQ]. intros fuel ew u J. apply cell_plus_ok; [apply J|exact Hx].
Qed.
Lemma wp_c_fetch (K : Z -> Prop) i v0 a d r f m o v (Q : vm -> Prop) : word_is v0 i P_c_fetch -> inv v0 (a :: d) r f m o v -> ds_ok m ->
  start m <= a < limit m -> (forall u, inv v0 (byte_at m a :: d) r f m o u -> Q u) -> wp K (Op i) Q v.
Proof.
  intros W HI HD H1 HQ. eapply wp_quiet; [exact W|exact HI| |exact HQ]. intros fuel ew u J.
  assert (EM : v_ds u = m) by apply J. room. rewrite <- EM. eapply c_fetch_ok; rewrite ?EM; try eassumption; [apply J|apply addr_of_id; lia].
Qed.
Lemma wp_here (K : Z -> Prop) i v0 d r f m o v (Q : vm -> Prop) : word_is v0 i P_here -> inv v0 d r f m o v -> ds_ok m -> zlen d < 255 ->
  (forall u, inv v0 (here m :: d) r f m o u -> Q u) -> wp K (Op i) Q v.
Proof.
  intros W HI HD H1 HQ. eapply wp_quiet; [exact W|exact HI| |exact HQ]. intros fuel ew u J.
  assert (EM : v_ds u = m) by apply J. rewrite <- EM. apply here_word_ok; [rewrite EM; exact HD|apply J|exact H1].
Qed.
Lemma wp_push (K : Z -> Prop) i p x v0 d r f m o v (Q : vm -> Prop) : word_is v0 i p -> (forall fuel ew, exec_prim fuel ew p = s_push x) -> inv v0 d r f m o v ->
  zlen d < 255 -> (forall u, inv v0 (x :: d) r f m o u -> Q u) -> wp K (Op i) Q v.
Proof.
  intros W Hp HI H1 HQ. eapply wp_quiet; [exact W|exact HI| |exact HQ]. intros fuel ew u J. apply push_ok; [apply Hp|apply J|exact H1].
Qed.
Lemma wp_store (K : Z -> Prop) i v0 a x d r f m o v (Q : vm -> Prop) : word_is v0 i P_store -> inv v0 (a :: x :: d) r f m o v -> ds_ok m ->
  start m < a -> a + 8 <= limit m -> (forall k, K k -> start m <= k /\ (k < a \/ a + 8 <= k)) ->
  (forall u m', same_memory_but m m' a 8 -> cell_at m' a x -> here m' = here m -> inv v0 d r f m' o u -> Q u) -> wp K (Op i) Q v.
Proof.
  intros W HI HD H1 H2 HK HQ.
  eapply (wp_memory K i P_store v0 _ d r f m o v a 8 (fun m' => cell_at m' a x /\ here m' = here m)); [exact W|exact HI|exact HK| |].
  - intros fuel ew u J. assert (EM : v_ds u = m) by apply J. room.
    destruct (store_ok fuel ew u x a a d) as (u' & E1 & S1 & C1 & M1 & G1 & O1); rewrite ?EM in *; try assumption; [apply J|apply addr_of_id; lia|].
    exists u'. split; [exact E1|]. split; [exact S1|]. split; [exact M1|]. split; [auto|exact O1].
  - intros u m' S1 [C1 G1] I1. eapply HQ; eassumption.
Qed.
Lemma wp_c_store (K : Z -> Prop) i v0 a x d r f m o v (Q : vm -> Prop) : word_is v0 i P_c_store -> inv v0 (a :: x :: d) r f m o v -> ds_ok m ->
  start m < a < limit m -> (forall k, K k -> start m <= k /\ (k < a \/ a + 1 <= k)) ->
  (forall u m', same_memory_but m m' a 1 -> byte_at m' a = x mod 256 -> here m' = here m -> inv v0 d r f m' o u -> Q u) -> wp K (Op i) Q v.
Proof.
  intros W HI HD H1 HK HQ.
  eapply (wp_memory K i P_c_store v0 _ d r f m o v a 1 (fun m' => byte_at m' a = x mod 256 /\ here m' = here m)); [exact W|exact HI|exact HK| |].
  - intros fuel ew u J. assert (EM : v_ds u = m) by apply J. room.
    destruct (c_store_ok fuel ew u x a a d) as (u' & E1 & S1 & C1 & M1 & G1 & O1); rewrite ?EM in *; try assumption; [apply J|apply addr_of_id; lia|].
    exists u'. split; [exact E1|]. split; [exact S1|]. split; [exact M1|]. split; [auto|exact O1].
  - intros u m' S1 [C1 G1] I1. eapply HQ; eassumption.
Qed.
Lemma wp_allot (K : Z -> Prop) i v0 n d r f m o v (Q : vm -> Prop) : word_is v0 i P_allot -> inv v0 (n :: d) r f m o v -> ds_ok m ->
  start m <= here m + n <= limit m -> (forall k, K k -> start m <= k) ->
  (forall u m', same_memory_but m m' (here m) 0 -> here m' = here m + n -> inv v0 d r f m' o u -> Q u) -> wp K (Op i) Q v.
Proof.
  intros W HI HD H1 HK HQ.
  eapply (wp_memory K i P_allot v0 _ d r f m o v (here m) 0 (fun m' => here m' = here m + n)); [exact W|exact HI| | |].
  - intros k Hk. split; [apply HK; exact Hk|lia].
  - intros fuel ew u J. assert (EM : v_ds u = m) by apply J.
    destruct (allot_ok fuel ew u n d) as (u' & E1 & S1 & G1 & M1 & O1); rewrite ?EM in *; try assumption; [apply J|].
    exists u'. split; [exact E1|]. split; [exact S1|]. split; [exact M1|]. split; [auto|exact O1].
  - intros u m' S1 G1 I1. eapply HQ; eassumption.
Qed.

Lemma two_fetch_lib a x y : lib_action d_two_fetch [a]
  (fun _ v => start (v_ds v) < a /\ a + 16 <= limit (v_ds v) /\ cell_at (v_ds v) a x /\ cell_at (v_ds v) (a + 8) y /\ is_cell x /\ is_cell y)
  (fun v outs m text => outs = [x; y] /\ m = v_ds v /\ text = []).
Proof.
  go. destruct HP as (P1 & P2 & P3 & P4 & P5 & P6). room. by_is (dup_effect a).
  seqs. eapply wp_cell_plus; [known_word|eassumption|red; lia|]. intros ?u ?I.
  seqs. eapply wp_fetch with (x := y); [known_word|eassumption|assumption|lia|lia|assumption|assumption|]. intros ?u ?I.
  by_is (swap_effect a y).
  seqs. eapply wp_fetch with (x := x); [known_word|eassumption|assumption|lia|lia|assumption|assumption|]. intros ?u ?I.
  exists [x; y], (v_ds v), []. split; [auto|eassumption].
Qed.
Lemma two_store_lib a x y : lib_action d_two_store [a; x; y] (fun K v => free_of K v a 16)
  (fun v outs m text => outs = [] /\ cell_at m a x /\ cell_at m (a + 8) y /\ same_memory_but (v_ds v) m a 16 /\
     here m = here (v_ds v) /\ text = []).
Proof.
  go. destruct HP as (P1 & P2 & P3). room. by_is (swap_effect x a). by_is (over_effect a x).
  seqs. eapply wp_store; [known_word|eassumption|assumption|lia|lia|intros k Hk; specialize (P3 k Hk); lia|]. intros ?u m2 S2 C2 G2 J2.
  pose proof (same_ok _ _ _ _ HD S2 G2) as HD2. destruct S2 as (X1 & X2 & X3).
  seqs. eapply wp_cell_plus; [known_word|eassumption|red; lia|]. intros ?u ?I.
  seqs. eapply wp_store; [known_word|eassumption|assumption|lia|lia|intros k Hk; specialize (P3 k Hk); lia|]. intros ?u m4 S4 C4 G4 J4.
  exists [], m4, []. split; [|eassumption]. split; [reflexivity|]. split; [eapply cell_keep; [exact S4|lia|lia|exact C2]|]. split; [exact C4|].
  split; [eapply (same_join (v_ds v) m2 m4 a 8); [split; [exact X1|split; [exact X2|exact X3]]|exact S4|lia|lia|lia|lia]|].
  split; [congruence|reflexivity].
Qed.
Lemma plus_store_lib a n x : lib_action d_plus_store [a; n]
  (fun K v => free_of K v a 8 /\ cell_at (v_ds v) a x /\ is_cell x)
  (fun v outs m text => outs = [] /\ (exists y, wraps_to (x + n) y /\ cell_at m a y) /\ same_memory_but (v_ds v) m a 8 /\
     here m = here (v_ds v) /\ text = []).
Proof.
  go. destruct HP as ((P1 & P2 & P3) & P4 & P5). room. by_is (dup_effect a).
  seqs. eapply wp_fetch with (x := x); [known_word|eassumption|assumption|lia|lia|assumption|assumption|]. intros ?u ?I.
  by_is (rot_effect n a x). by_effect (plus_spec x n). by_is (swap_effect a y).
  seqs. eapply wp_store; [known_word|eassumption|assumption|lia|lia|exact P3|]. intros ?u m4 S4 C4 G4 J4.
  exists [], m4, []. split; [|eassumption]. split; [reflexivity|]. split; [exists y; auto|]. auto.
Qed.
Lemma count_lib a : lib_action d_count [a] (fun _ v => start (v_ds v) <= a < limit (v_ds v))
  (fun v outs m text => outs = [byte_at (v_ds v) a; a + 1] /\ m = v_ds v /\ text = []).
Proof.
  go. room. by_is (dup_effect a).
  seqs. eapply wp_c_fetch; [known_word|eassumption|assumption|lia|]. intros ?u ?I.
  by_is (swap_effect a (byte_at (v_ds v) a)). by_num. by_effect (plus_spec a 1). by_is (swap_effect (byte_at (v_ds v) a) y).
  replace y with (a + 1) in *.
  - exists [byte_at (v_ds v) a; a + 1], (v_ds v), []. split; [auto|eassumption].
  - match goal with H : wraps_to _ _ |- _ => destruct H as [Hc [k Hk]]; unfold is_cell in Hc end. lia.
Qed.
Lemma on_lib a : lib_action d_on [a] (fun K v => free_of K v a 8)
  (fun v outs m text => outs = [] /\ cell_at m a (-1) /\ same_memory_but (v_ds v) m a 8 /\ here m = here (v_ds v) /\ text = []).
Proof.
  go. destruct HP as (P1 & P2 & P3).
  seqs. eapply wp_push with (x := TRUE); [known_word|reflexivity|eassumption|wlen|]. intros ?u ?I.
  by_is (swap_effect a TRUE). seqs. eapply wp_store; [known_word|eassumption|assumption|lia|lia|exact P3|]. intros ?u m4 S4 C4 G4 J4.
  exists [], m4, []. auto 8.
Qed.
Lemma off_lib a : lib_action d_off [a] (fun K v => free_of K v a 8)
  (fun v outs m text => outs = [] /\ cell_at m a 0 /\ same_memory_but (v_ds v) m a 8 /\ here m = here (v_ds v) /\ text = []).
Proof.
  go. destruct HP as (P1 & P2 & P3).
  seqs. eapply wp_push with (x := FALSE); [known_word|reflexivity|eassumption|wlen|]. intros ?u ?I.
  by_is (swap_effect a FALSE). seqs. eapply wp_store; [known_word|eassumption|assumption|lia|lia|exact P3|]. intros ?u m4 S4 C4 G4 J4.
  exists [], m4, []. auto 8.
Qed.
Lemma c_comma_lib c : lib_action d_c_comma [c] (fun K v => free_of K v (here (v_ds v)) 1)
  (fun v outs m text => outs = [] /\ byte_at m (here (v_ds v)) = c mod 256 /\ here m = here (v_ds v) + 1 /\
     same_memory_but (v_ds v) m (here (v_ds v)) 1 /\ text = []).
Proof.
  go. destruct HP as (P1 & P2 & P3). room. set (h := here (v_ds v)) in *.
  seqs. eapply wp_here; [known_word|eassumption|assumption|wlen|]. intros ?u ?I. by_num.
  seqs. eapply wp_allot; [known_word|eassumption|assumption|fold h; lia|apply P3|]. intros ?u m2 S2 G2 J2. fold h in G2, S2, J2.
  assert (HD2 : ds_ok m2). { destruct S2 as (X1 & X2 & _). unfold ds_ok. rewrite X1, X2, G2. lia. }
  seqs. eapply wp_c_store; [known_word|eassumption|assumption| | |].
  - destruct S2 as (X1 & X2 & _). rewrite X1, X2. lia.
  - destruct S2 as (X1 & _). rewrite X1. exact P3.
  - intros ?u m3 S3 C3 G3 J3. exists [], m3, []. split; [|eassumption]. split; [reflexivity|]. split; [exact C3|]. split; [lia|].
    split; [|reflexivity]. eapply (same_join (v_ds v) m2 m3 h 0 h 1); [exact S2|exact S3|lia..].
Qed.

(** Output *)
Lemma space_lib : lib_action d_space [] (fun _ _ => True) (fun v outs m text => outs = [] /\ m = v_ds v /\ text = [32]).
Proof.
  go. by_num. eapply wp_emit; [known_word|eassumption|lia|]. intros ?u I9. rewrite said_app in I9. exists [], (v_ds v), [32]. auto.
Qed.
Lemma cr_lib : lib_action d_cr [] (fun _ _ => True) (fun v outs m text => outs = [] /\ m = v_ds v /\ text = [10]).
Proof.
  go. by_num. eapply wp_emit; [known_word|eassumption|lia|]. intros ?u I9. rewrite said_app in I9. exists [], (v_ds v), [10]. auto.
Qed.
Lemma inv_after v0 d r f m o w d' r' f' o' w' : inv v0 d r f m o w -> stacks_are w' d' r' f' -> v_out w' = o' -> calm w w' ->
  inv v0 d' r' f' (v_ds w') o' w'.
Proof.
  intros (_ & _ & _ & C) S O C'. split; [exact S|]. split; [reflexivity|]. split; [exact O|]. eapply calm_trans; eassumption.
Qed.
Lemma library_eq ix v w : v_wl w = v_wl v -> library ix v -> library ix w.
Proof. intros Ew L p Hp. unfold word_is. rewrite Ew. apply L. exact Hp. Qed.
Lemma colon_eq K v w i p x : v_wl w = v_wl v -> kept K v w -> colon_word K v i p x -> colon_word K w i p x.
Proof.
  intros Ew HK (W & X & H). unfold colon_word, word_is, word_of. rewrite Ew. split; [exact W|]. split; [exact X|].
  eapply holds_kept; eassumption.
Qed.
Lemma spaces_lib sp n : is_cell n -> lib_action (fun ix => d_spaces ix sp) [n]
  (fun K v => len (t_s (cur v)) <= 240 /\ len (t_r (cur v)) <= 240 /\
     exists ix, library ix v /\ colon_word K v sp (d_space ix) (ix P_exit))
  (fun v outs m text => outs = [] /\ m = v_ds v /\ text = repeat 32 (Z.to_nat n)).
Proof.
  intro Hn. go. destruct HP as (N1 & N2 & ix' & L' & HC).
  rewrite (stack_has_len _ _ (proj1 S0)) in N1. rewrite (stack_has_len _ _ (proj1 (proj2 S0))) in N2. cbn [app] in N1. rewrite zlen_cons in N1.
  room. by_num. seqs.
  set (II := fun (j : nat) w => exists k, 0 <= k /\ (n <= k -> k = Z.max 0 n) /\ j = Z.to_nat (n - k) /\
     inv v (k :: n :: rest) (r :: rs) fs (v_ds v) (said (v_out v) (repeat 32 (Z.to_nat k))) w).
  eapply (wp_while K _ _ II) with (n := Z.to_nat n).
  2:{ exists 0. split; [lia|]. split; [lia|]. split; [f_equal; lia|]. eassumption. }
  intros j w (k & K1 & K2 & K3 & J). by_is (two_dup_effect n k). by_effect (greater_than_spec n k).
  destruct (truth_case _ _ H3) as [T1 T2].
  exists v, y, (k :: n :: rest), (r :: rs), fs, (v_ds v), (said (v_out v) (repeat 32 (Z.to_nat k))). split; [eassumption|]. split.
  - intros Hy w' J'. specialize (T2 Hy). by_is (two_drop_effect n k). exists [], (v_ds v), (repeat 32 (Z.to_nat k)).
    split; [|eassumption]. split; [reflexivity|]. split; [reflexivity|]. f_equal. rewrite K2 by lia. lia.
  - intros Hy. specialize (T1 Hy). exists (Z.to_nat (n - (k + 1))). split; [lia|]. intros w' J'.
    by_effect (one_plus_spec k).
    replace y0 with (k + 1) in * by (match goal with H : wraps_to (k + 1) _ |- _ => destruct H as [Hc [q Hq]]; unfold is_cell in * end; lia).
    match goal with J : inv _ (k + 1 :: n :: rest) _ _ _ _ ?w |- _ => rename J into J9; rename w into w9 end.
    apply wp_call. assert (Ew : v_wl w9 = v_wl v) by (eapply inv_wl; exact J9).
    assert (Ed : v_ds w9 = v_ds v) by apply J9. assert (Eo : v_out w9 = said (v_out v) (repeat 32 (Z.to_nat k))) by apply J9.
    pose proof (space_lib K ix' w9 sp (k + 1 :: n :: rest) (r :: rs) fs (library_eq _ _ _ Ew L')
      (colon_eq K _ _ _ _ _ Ew (kept_eq K _ _ Ed Ew) HC) (proj1 J9)) as D.
    eapply does_conseq; [|apply D; [wlen|wlen|rewrite Ed; exact HD|exact Logic.I]].
    intros w1 (outs & text & (-> & E2 & ->) & S2 & O2 & C2). exists (k + 1). split; [lia|]. split; [lia|]. split; [reflexivity|].
    rewrite Ed in E2. rewrite <- E2. eapply inv_after; [exact J9|exact S2| |exact C2].
    rewrite O2, Eo. fold (said (said (v_out v) (repeat 32 (Z.to_nat k))) [32]). rewrite said_app. f_equal.
    replace (Z.to_nat (k + 1)) with (Z.to_nat k + 1)%nat by lia. rewrite repeat_app. reflexivity.
Qed.

Lemma add_s_ok v x d : stack_has (t_s (cur v)) d -> zlen d < 255 ->
  stack_has (t_s (cur (add_s x v))) (x :: d) /\ only_data_stack v (add_s x v).
Proof.
  intros HS Hd. pose proof (stack_has_len _ _ HS) as HL. pose proof (zlen_nonneg d). split.
  - unfold add_s. rewrite cur_set_s. cbn [t_s set_t_s]. rewrite <- add_item_push by lia. apply push_has; assumption.
  - apply only_data_set_s. rewrite <- add_item_push by lia. apply push_high. lia.
Qed.
Lemma wp_i (K : Z -> Prop) i v0 z lim idx d r f m o v (Q : vm -> Prop) : word_is v0 i P_p_i ->
  inv v0 d (frame z lim idx ++ r) f m o v -> is_cell idx -> zlen d < 255 ->
  (forall u, inv v0 (idx :: d) (frame z lim idx ++ r) f m o u -> Q u) -> wp K (Op i) Q v.
Proof.
  intros W HI Hi Hd HQ. eapply wp_quiet; [exact W|exact HI| |exact HQ]. intros fuel ew u J.
  exists (add_s idx u). pose proof (zlen_nonneg d).
  split; [eapply i_ok; [exact (proj1 (proj2 (proj1 J)))|exact Hi|rewrite (proj1 (inv_len _ _ _ _ _ _ _ J)); lia]|].
  apply add_s_ok; [apply J|exact Hd].
Qed.
Lemma fill_lib a n c : is_cell n -> lib_action d_fill [c; n; a] (fun K v => 0 < n -> free_of K v a n)
  (fun v outs m text => outs = [] /\ (forall k, 0 <= k < n -> byte_at m (a + k) = c mod 256) /\
     same_memory_but (v_ds v) m a (Z.max 0 n) /\ here m = here (v_ds v) /\ text = []).
Proof.
  intro Hn. go. room. by_is (swap_effect n c). by_is (dup_effect n). by_effect (zero_greater_spec n). destruct (truth_case _ _ H3) as [T1 T2].
  assert (HF : zlen fs <= 255).
  { destruct I as ((_ & _ & F) & _). pose proof (stack_has_len _ _ F). pose proof (stack_has_bound _ _ F). lia. }
  seqs. eapply (wp_conseq K _ (fun w => exists m, ((forall k, 0 <= k < n -> byte_at m (a + k) = c mod 256) /\
     same_memory_but (v_ds v) m a (Z.max 0 n) /\ here m = here (v_ds v)) /\ exists x y, inv v (x :: y :: rest) (r :: rs) fs m (said (v_out v) []) w)).
  { intros w (m & (Q1 & Q2 & Q3) & x & x' & J). by_is (two_drop_effect x' x). exists [], m, []. split; [|eassumption]. auto. }
  eapply wp_if_else; [eassumption| |]; intros Hy w J.
  - specialize (T1 Hy). destruct (HP ltac:(lia)) as (P1 & P2 & P3).
    by_stacks (to_r_eff n) (c :: a :: rest) (r :: rs) fs; [exact HF|]. by_is (swap_effect a c).
    by_stacks (r_from_eff n) (a :: c :: rest) (r :: rs) fs; [exact HF|]. by_num.
    assert (HN : loop_count n 0 = n). { unfold loop_count. rewrite Z.sub_0_r. unfold is_cell in Hn. rewrite Z.mod_small by lia. replace (n =? 0) with false by lia. reflexivity. }
    eapply (wp_conseq K). 2:{ eapply (wp_do K) with (J := fun k d m o => d = a :: c :: rest /\ o = said (v_out v) [] /\
        (forall j, 0 <= j < k -> byte_at m (a + j) = c mod 256) /\ same_memory_but (v_ds v) m a n /\ here m = here (v_ds v));
      [eassumption|exact Hn|red; lia|wlen| |].
      - split; [reflexivity|]. split; [reflexivity|]. split; [lia|]. split; [|reflexivity]. split; [reflexivity|]. split; [reflexivity|]. reflexivity.
      - rewrite HN. intros k z d m o0 w1 Hk (-> & -> & J1 & J2 & J3) J4.
        pose proof (same_ok _ _ _ _ HD J2 J3) as HD2. pose proof J2 as (X1 & X2 & X3).
        assert (EI : index_at 0 k = k). { unfold index_at. rewrite Z.add_0_l. apply to_i64_id. unfold is_cell, imin, imax, two63 in *. lia. }
        by_is (two_dup_effect c a).
        seqs. eapply wp_i; [known_word|eassumption|rewrite EI; unfold is_cell in *; lia|wlen|]. intros w9 J9. rewrite EI in J9 |- *.
        by_effect (plus_spec a k).
        replace y0 with (a + k) in * by (match goal with H : wraps_to (a + k) _ |- _ => destruct H as [Hc [q Hq]]; unfold is_cell in * end; lia).
        eapply wp_c_store; [known_word|eassumption|assumption|lia|intros k0 Hk0; specialize (P3 k0 Hk0); lia|].
        intros w11 m4 S4 C4 G4 J11. exists (a :: c :: rest), m4, (said (v_out v) []). split; [|rewrite ?EI; exact J11].
        split; [reflexivity|]. split; [reflexivity|]. split; [|split; [|congruence]].
        + intros j Hj. destruct (Z.eq_dec j k) as [->|]; [exact C4|]. destruct S4 as (_ & _ & S4). rewrite S4 by lia. apply J1. lia.
        + eapply (same_join (v_ds v) m m4 a n (a + k) 1); [exact J2|exact S4|lia..]. }
    rewrite HN. intros w5 (d' & m' & o' & (-> & -> & Q1 & Q2 & Q3) & J5). exists m'. split; [|exists a, c; exact J5].
    split; [exact Q1|]. split; [|exact Q3]. rewrite Z.max_r by lia. exact Q2.
  - specialize (T2 Hy). by_is (drop_effect n). exists (v_ds v). split; [|exists c, a; eassumption].
    split; [lia|]. split; [|reflexivity]. split; [reflexivity|]. split; [reflexivity|]. reflexivity.
Qed.
Lemma cells_ok fuel ew v a rest : stack_has (t_s (cur v)) (a :: rest) -> is_cell (a * 8) ->
  exists v', exec_prim fuel ew P_cells v = Ok (tt, v') /\ stack_has (t_s (cur v')) (a * 8 :: rest) /\ only_data_stack v v'.
Proof.
  intros HS Ha. destruct (pop_then v a rest HS) as (s1 & EP & S1 & S2 & HL). cbn [exec_prim]. unfold cells. rewrite EP.
  pose proof (stack_has_len _ _ HS) as L0. pose proof (stack_has_bound _ _ HS) as B0. rewrite zlen_cons in L0.
  rewrite (bind_Ok _ _ _ (a * 8) (set_s s1 v)).
  - eexists. split; [reflexivity|]. unfold s_push, modify, s_stk. rewrite cur_set_s. cbn [t_s set_t_s]. rewrite set_s_set_s.
    rewrite cur_set_s. cbn [t_s set_t_s]. split; [apply push_has; [exact S1|lia]|].
    apply only_data_set_s. pose proof (stack_has_len _ _ S1) as L1. pose proof (zlen_nonneg rest).
    pose proof (push_high s1 (a * 8) ltac:(lia)) as [H1 H2]. split; [rewrite H1; apply S2|].
    pose proof (push_has s1 rest (a * 8) S1 ltac:(lia)) as P. pose proof (stack_has_len _ _ P) as LP. rewrite zlen_cons in LP.
    intros i I1 I2 I3. rewrite H2 by lia. apply S2; lia.
  - unfold chk_i64. replace (in_i64 (a * 8)) with true by (unfold in_i64, imin, imax, two63, is_cell in *; lia). reflexivity.
Qed.
Lemma wp_cells (K : Z -> Prop) i v0 a d r f m o v (Q : vm -> Prop) : word_is v0 i P_cells -> inv v0 (a :: d) r f m o v -> is_cell (a * 8) ->
  (forall u, inv v0 (a * 8 :: d) r f m o u -> Q u) -> wp K (Op i) Q v.
Proof.
  intros W HI Hx HQ. eapply wp_quiet; [exact W|exact HI| |exact HQ]. intros fuel ew u J. apply cells_ok; [apply J|exact Hx].
Qed.
Lemma kept_same (K : Z -> Prop) v w a n : same_memory_but (v_ds v) (v_ds w) a n -> v_wl w = v_wl v ->
  (forall k, K k -> start (v_ds v) <= k /\ (k < a \/ a + n <= k)) -> kept K v w.
Proof.
  intros (X1 & X2 & X3) Ew HK. split; [exact X1|]. split; [exact X2|]. split; [intros k Hk; apply X3; apply HK; exact Hk|].
  intros i p _ W. unfold word_is. rewrite Ew. exact W.
Qed.
Lemma two_comma_lib ts x y : lib_action (fun ix => d_two_comma ix ts) [x; y]
  (fun K v => len (t_s (cur v)) <= 240 /\ len (t_r (cur v)) <= 240 /\ free_of K v (here (v_ds v)) 16 /\
     exists ix, library ix v /\ colon_word K v ts (d_two_store ix) (ix P_exit))
  (fun v outs m text => outs = [] /\ cell_at m (here (v_ds v)) x /\ cell_at m (here (v_ds v) + 8) y /\ here m = here (v_ds v) + 16 /\
     same_memory_but (v_ds v) m (here (v_ds v)) 16 /\ text = []).
Proof.
  go. destruct HP as (N1 & N2 & (P1 & P2 & P3) & ix' & L' & HC). room. set (h := here (v_ds v)) in *.
  rewrite (stack_has_len _ _ (proj1 S0)) in N1. rewrite (stack_has_len _ _ (proj1 (proj2 S0))) in N2. cbn [app] in N1. rewrite !zlen_cons in N1.
  seqs. eapply wp_here; [known_word|eassumption|assumption|wlen|]. intros ?u ?I. fold h in I0. by_num.
  seqs. eapply wp_cells; [known_word|eassumption|red; lia|]. intros ?u ?I.
  seqs. eapply wp_allot; [known_word|eassumption|assumption|fold h; lia|apply P3|]. intros w m2 S2 G2 J2. fold h in G2, S2, J2.
  assert (HD2 : ds_ok m2). { destruct S2 as (X1 & X2 & _). unfold ds_ok. rewrite X1, X2, G2. lia. }
  assert (Ew : v_wl w = v_wl v) by (eapply inv_wl; exact J2). assert (Ed : v_ds w = m2) by apply J2.
  assert (Eo : v_out w = said (v_out v) []) by apply J2. pose proof S2 as (X1 & X2 & X3).
  assert (HK : kept K v w).
  { eapply (kept_same K v w h 0); [rewrite Ed; exact S2|exact Ew|]. intros k Hk. specialize (P3 k Hk). lia. }
  apply wp_call. pose proof (two_store_lib h x y K ix' w ts rest (r :: rs) fs (library_eq _ _ _ Ew L') (colon_eq K _ _ _ _ _ Ew HK HC) (proj1 J2)) as D.
  eapply does_conseq; [|apply D; [wlen|wlen|rewrite Ed; exact HD2|]].
  - intros w1 (outs & text & (-> & C1 & C2 & M2 & G3 & ->) & T2 & O2 & A2). rewrite Ed in *.
    exists [], (v_ds w1), []. split; [|eapply inv_after; [exact J2|exact T2| |exact A2]].
    + split; [reflexivity|]. split; [exact C1|]. split; [exact C2|]. split; [lia|]. split; [|reflexivity].
      eapply (same_join (v_ds v) m2 (v_ds w1) h 0 h 16); [exact S2|exact M2|lia..].
    + rewrite O2, Eo. destruct (v_out v); cbn; rewrite ?app_nil_r; reflexivity.
  - unfold free_of. rewrite Ed, X1, X2. split; [exact P1|]. split; [exact P2|exact P3].
Qed.
End M.
