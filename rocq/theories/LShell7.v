(** The terminal program: lines with a word that is not accepted (C88). *)
From Coq Require Import ZArith List Bool Lia String ZifyBool ZifyNat.
From Verif Require Import Base Stack Mem Parser State CoreM IoM FileM Exec LBase LStack Spec Spec2 Spec4 Spec5 Spec6 Spec7 Spec9 Spec10 Spec11 Spec12 Spec14 Spec15 Spec16 Spec17 Spec19 Spec24 Spec25
  LState LMem LMon LCode LEval Spec27 LShell LShell2 LShell6.
Import ListNotations.
Open Scope list_scope.
Open Scope Z_scope.
Open Scope m_scope.

Section L.
Context {E : Env}.
Variable K : Z -> Prop.
Implicit Types (v w u y x : vm).

Lemma unknown_line n o s v ts v0 t v1 fuel o1 : at_prompt K n v -> os_receive (v_os v) = (o, Line s) ->
  obeyed K n (add_r (after_line n v) (entered n o (Line s) v)) ts v0 -> reads v0 t v1 -> t <> [] -> at_token fuel v1 t ->
  v_handler v1 = n_abort n -> v_out v1 = Some o1 ->
  newest v1 t None -> no_integer v1 t -> (forall s i f es (z : list Z), ~ float_text s i f es z t) ->
  exists x v' text, raised (-13) (dispatched n (noted v1)) x /\
    goes v (prompt_addr n v) v' (prompt_addr n v') /\ at_prompt K n v' /\ intact K n x v' /\
    report n x [token_addr n (noted v1) + 8; after_line n v] (-13) text /\ recovered x (shown_line (o1 ++ text)) v'.
Proof.
  intros A1 A2 A3 A4 A5 A6 A7 A8 H1 H2 H3. destruct fuel as [|f]; [exfalso; destruct A6 as (_ & (_ & W & _) & F & _); cbn in F; lia|].
  apply (line_fails K n o s v ts v0 t v1 f o1 (-13)); try assumption. intros u HU. apply A_unknown; [apply newest_at; exact H1|exact H2|exact H3|exact HU].
Qed.
Lemma compile_only_line n o s v ts v0 t v1 fuel o1 i : at_prompt K n v -> os_receive (v_os v) = (o, Line s) ->
  obeyed K n (add_r (after_line n v) (entered n o (Line s) v)) ts v0 -> reads v0 t v1 -> t <> [] -> at_token fuel v1 t ->
  v_handler v1 = n_abort n -> v_out v1 = Some o1 ->
  newest v1 t (Some i) -> st_compiling (st v1) = false -> w_co (word_of v1 i) = true ->
  exists x v' text, raised (-14) (dispatched n (noted v1)) x /\
    goes v (prompt_addr n v) v' (prompt_addr n v') /\ at_prompt K n v' /\ intact K n x v' /\
    report n x [token_addr n (noted v1) + 8; after_line n v] (-14) text /\ recovered x (shown_line (o1 ++ text)) v'.
Proof.
  intros A1 A2 A3 A4 A5 A6 A7 A8 H1 H2 H3. destruct fuel as [|f]; [exfalso; destruct A6 as (_ & (_ & W & _) & F & _); cbn in F; lia|].
  apply (line_fails K n o s v ts v0 t v1 f o1 (-14)); try assumption. intros u HU. apply (A_compile_only _ _ _ _ i); [apply newest_at; exact H1| |exact H3|exact HU].
  unfold dispatched. rewrite set_ip_wp_at, st_at. cbn [st_compiling set_st_ip set_st_wp]. pose proof (shown_same (flag_of (st_compiling (st v1))) v1) as (_ & Q & _). unfold noted. rewrite Q. exact H2.
Qed.
Lemma failing_terminal (P : os -> Prop) : (forall o, P o -> exists o', os_receive o = (o', Failed) /\ P o') ->
  forall n f v w, at_prompt K n v -> used_up v -> v_tkn v <> None -> v_out v = Some [] -> P (v_os v) ->
  continues v (prompt_addr n v) w -> run f w = OutOfFuel.
Proof. intros HP n f v w A B C D F HC. apply (never_ends K P HP n f v w); [split; [exact A|split; [exact B|split; [exact C|split; [exact D|exact F]]]]|exact HC]. Qed.
End L.
