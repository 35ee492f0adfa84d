(** The printing, text and literal words of core.fth in the booted machines; cases for C81 - C84. *)
From Coq Require Import ZArith List Bool Lia String ZifyBool.
From Verif Require Import Base Stack Mem Parser Flt State CoreM Exec Boot Std Spec Spec2 Spec4 Spec5 Spec7 Spec9 Spec10 Spec11 Spec15 Spec16 Spec24 Spec25
  LBase LStack LState LMem LDict LComp LCode LDec LRun LLib LLibWords Ex Ex2 Ex3 Ex5 Ex6 Ex7 Ex9 Ex10 Ex11 Ex13 Ex15 Ex18.
Import ListNotations.
Open Scope list_scope.
Open Scope Z_scope.

Section I.
Context {E : Env}.
Variable v : vm.
Hypothesis HD : dict_ok v.
Hypothesis HW : words v < Z.of_nat 400.
Hypothesis HA : 0 < start (v_ds v) /\ limit (v_ds v) < 2 ^ 63.
Variable ix : prim -> Z.
Definition has_defb (e : string * (Z * prog)) : bool :=
  let i := fst (snd e) in let p := snd (snd e) in
  foundb v (b (fst e)) i && colonb v ix i p && (base_addr (v_ds v) + 8 <=? body v i) && (fin (Seq p (Op (ix P_exit))) (body v i) <=? here (v_ds v)).
Lemma has_defb_ok e : has_defb e = true -> has_def ix v e.
Proof.
  unfold has_defb. cbv zeta. rewrite !andb_true_iff. intros (((H1 & H2) & H3) & H4). split; [apply (foundb_ok v HD HW); exact H1|].
  apply (colonb_more v HW HA); [exact H2|]. unfold own_code, code_area. cbv zeta. unfold body in *. intros k Hk. lia.
Qed.
Definition cellb (a x : Z) : bool := forallb (fun k => byte_at (v_ds v) (a + k) =? x / 256 ^ k mod 256) [0; 1; 2; 3; 4; 5; 6; 7].
Lemma cellb_ok a x : cellb a x = true -> cell_at (v_ds v) a x.
Proof.
  unfold cellb. rewrite forallb_forall. intros H k Hk. apply Z.eqb_eq, H.
  assert (C : k = 0 \/ k = 1 \/ k = 2 \/ k = 3 \/ k = 4 \/ k = 5 \/ k = 6 \/ k = 7) by (clear - Hk; lia). cbn [In]. clear - C; lia.
Qed.
Definition constantb (i x : Z) : bool := word_isb v i P_p_const && (start (v_ds v) <? body v i) && (body v i + 8 <=? limit (v_ds v)) && cellb (body v i) x.
Lemma constantb_ok i x : constantb i x = true -> constant_is v i x.
Proof.
  unfold constantb. rewrite !andb_true_iff. intros (((H1 & H2) & H3) & H4). split; [apply word_isb_ok; exact H1|]. split; [clear - H2; lia|]. split; [clear - H3; lia|]. apply cellb_ok. exact H4.
Qed.
Lemma printing_ok n : forallb (fun p => word_isb v (ix p) p) lib_prims = true -> forallb has_defb (printing_words n ix) = true ->
  foundb v (b "bl") (n_bl n) = true -> constantb (n_bl n) 32 = true -> printing_installed n ix v.
Proof.
  rewrite forallb_forall. intros H1 H2 H3 H4. split; [intros p Hp; apply word_isb_ok, H1, Hp|].
  split; [|split; [apply (foundb_ok v HD HW); exact H3|apply constantb_ok; exact H4]].
  apply Forall_forall. intros e He. apply has_defb_ok. exact (proj1 (forallb_forall _ _) H2 e He).
Qed.
End I.

Definition nums : numbers :=
  {| n_space := 247; n_dot := 249; n_fdot := 250; n_question := 251; n_decimal := 252; n_hex := 253; n_hdot := 254; n_hdot_r := 255; n_f_greater := 258;
     n_f_comma := 262; n_append := 274; n_count := 272; n_pad := 292; n_to_char := 294; n_bl := 246; n_type := 295; n_bounds := 293; n_dump1 := 296; n_dump := 297;
     n_cr := 261; n_literal := 278; n_two_literal := 279; n_fliteral := 280 |}.
Lemma booted_printing : @printing_installed env_d nums ix0 booted_d.
Proof. apply (printing_ok booted_d booted_dict booted_words booted_addr ix0); vm_cast_no_check (@eq_refl bool true). Qed.
Lemma booted_printing_r : @printing_installed env_r nums ix0 booted_r.
Proof. apply (printing_ok booted_r booted_dict_r booted_words_r booted_addr_r ix0); vm_cast_no_check (@eq_refl bool true). Qed.

Local Existing Instance env_d.
(** What the theorems of C81 - C84 require of a machine *)
Definition print_ready (l : list Z) : Prop := let v := bs l in
  printing_installed nums ix0 v /\ stacks_are v l [] [] /\ ds_ok (v_ds v) /\ base_cell 10 (code_area v) v /\ in_base 10 v /\ bytes_ok (v_ds v) /\
  free_of (code_area v) v (here (v_ds v)) 1000 /\ here (v_ds v) mod 8 = 0 /\ appendable P_lit 500 (code_area v) ix0 v /\ appendable P_flit 500 (code_area v) ix0 v /\
  v_out v = Some [].
Lemma printing_same v w n ix : v_ds w = v_ds v -> v_wl w = v_wl v -> printing_installed n ix v -> printing_installed n ix w.
Proof.
  intros A B (L & F & N & C). split; [intros p Hp; eapply word_same; [exact B|apply L; exact Hp]|].
  split; [|split; [eapply newest_same; eassumption|unfold constant_is, word_is, body, word_of in *; rewrite A, B; exact C]].
  eapply Forall_impl; [|exact F]. intros e (H1 & H2). split; [eapply newest_same; eassumption|].
  eapply colon_eq with (K := code_area w); [exact B| |]. 2:{ unfold code_area. rewrite A. exact H2. } apply kept_eq; assumption.
Qed.
Lemma print_ready_all l : zlen l < 200 -> print_ready l.
Proof.
  intro HL. unfold print_ready. cbv zeta. assert (A : v_ds (bs l) = v_ds booted_d) by apply bs_ds. assert (B : v_wl (bs l) = v_wl booted_d) by apply bs_wl.
  assert (C : v_out (bs l) = v_out booted_d) by apply bs_out.
  split; [eapply printing_same; [exact A|exact B|exact booted_printing]|]. split; [apply bs_stacks; exact HL|].
  unfold base_cell, in_base, free_of, appendable, code_area, bytes_ok, word_of, words. rewrite A, B, C.
  assert (G : (start (v_ds booted_d) + 8 <=? here (v_ds booted_d)) && (here (v_ds booted_d) + 1000 <=? limit (v_ds booted_d)) && (start (v_ds booted_d) + 16 <=? limit (v_ds booted_d)) &&
    (base_addr (v_ds booted_d) =? start (v_ds booted_d) + 8) && (here (v_ds booted_d) mod 8 =? 0) = true) by (vm_cast_no_check (@eq_refl bool true)).
  rewrite !andb_true_iff in G. destruct G as ((((G1 & G2) & G3) & G4) & G5).
  assert (H : cellb booted_d (base_addr (v_ds booted_d)) 10 = true) by (vm_cast_no_check (@eq_refl bool true)). apply cellb_ok in H.
  pose proof booted_words as BW. unfold words in BW.
  split; [exact booted_ds|]. split; [split; [exact H|split; [red; lia|split; [lia|split; [lia|intros k Hk; lia]]]]|].
  split; [split; [cbn; tauto|split; [exact H|lia]]|].
  split; [intros i _; apply mem_bytes; vm_cast_no_check (@eq_refl bool true)|].
  split; [split; [lia|split; [lia|intros k Hk; lia]]|]. split; [lia|].
  assert (X : forall p, match w_cs (wl_get (v_wl booted_d) (ix0 p)) with CS_compile_leave => false | _ => true end = true ->
    w_cs (wl_get (v_wl booted_d) (ix0 p)) <> CS_compile_leave) by (intros p Hp Q; rewrite Q in Hp; discriminate).
  split; [split; [apply X; vm_cast_no_check (@eq_refl bool true)|split; [lia|split; [lia|intros k Hk; lia]]]|].
  split; [split; [apply X; vm_cast_no_check (@eq_refl bool true)|split; [lia|split; [lia|intros k Hk; lia]]]|].
  assert (O : match v_out booted_d with Some [] => true | _ => false end = true) by (vm_cast_no_check (@eq_refl bool true)).
  destruct (v_out booted_d) as [[|? ?]|]; [reflexivity|discriminate|discriminate].
Qed.

(** ** Lines and what they leave *)
Lemma print_lines :
  ends "-7 . 255 h. 255 5 h.r 255 hex . decimal 10 . variable x 42 x ! x ?" [] None (b "-7 FF    FFFF 10 42 ") /\
  ends "1.5e 0.5e f> 0.5e 1.5e f>" [0; -1] None [].
Proof. split; by_run. Qed.
Lemma text_lines :
  ends "create s 3 c, 65 c, 66 c, 67 c, 100 allot create u 1 c, 88 c, 100 allot s count u append u count type" [] None (b "XABC") /\
  ends "200 >char 65 >char" [65; 72] None [] /\
  ends "here 512 + pad -" [0] None [] /\
  ends "create s 65 c, 1 c, 127 c, 66 c, s 4 _type s 4 _dump" [] None (b "A__B 41  1 7F 42").
Proof. split; [by_run|]. split; [by_run|]. split; by_run. Qed.
Lemma literal_lines :
  ends ": t [ 3 4 + ] literal 1 ; t" [1; 7] None [] /\ ends ": t [ 3 4 ] 2literal ; t" [4; 3] None [] /\ ends ": t [ 2.5e ] fliteral ; t t f+ f>s" [5] None [].
Proof. split; [by_run|]. split; by_run. Qed.
(** a float compiled by [f,] behind a single byte is overwritten by the next cell compiled *)
Lemma f_comma_overwritten : ends "create x 1 c, 2.5e f, x 8 + f@ f>s 7 , x 8 + f@ f>s" [0; 2] None [].
Proof. by_run. Qed.
Lemma f_comma_lost : exists v v' : @vm env_d,
  load_str 3000 (b "create x 1 c, 2.5e f, x 8 + f@ f>s") booted_d = Ok (tt, v) /\ v_err v = None /\ stack_has (t_s (cur v)) [2] /\
  load_str 3000 (b "create x 1 c, 2.5e f, 7 , x 8 + f@ f>s") booted_d = Ok (tt, v') /\ v_err v' = None /\ stack_has (t_s (cur v')) [0].
Proof.
  destruct (endsb_ok "create x 1 c, 2.5e f, x 8 + f@ f>s" [2] None [] ltac:(vm_cast_no_check (@eq_refl bool true))) as (v & A1 & A2 & A3 & _).
  destruct (endsb_ok "create x 1 c, 2.5e f, 7 , x 8 + f@ f>s" [0] None [] ltac:(vm_cast_no_check (@eq_refl bool true))) as (v' & B1 & B2 & B3 & _).
  exists v, v'. tauto.
Qed.
Lemma cell_255 : is_cell 255. Proof. red; lia. Qed.
Lemma half_double : 0 <= 4609434218613702656 < 2 ^ 64. Proof. lia. Qed.
Lemma f_comma_aligned : ends "create x 2.5e f, x f@ f>s 7 , x f@ f>s x 8 + @" [7; 2; 2] None [].
Proof. by_run. Qed.
