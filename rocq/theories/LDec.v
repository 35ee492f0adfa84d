(** Deciding whether a machine holds given code (used by examples). *)
From Coq Require Import ZArith List Bool Lia.
From Verif Require Import Base Stack Mem State Exec LBase LStack Spec Spec4 Spec5.
Import ListNotations.
Open Scope Z_scope.

Definition prim_tag (p : prim) : Z :=
  match p with
  | P_noop => 0
  | P_exit => 1
  | P_lit => 2
  | P_flit => 3
  | P_p_s_quote => 4
  | P_branch => 5
  | P_zero_branch => 6
  | P__do => 7
  | P__qdo => 8
  | P__loop => 9
  | P__plus_loop => 10
  | P_unloop => 11
  | P_leave => 12
  | P_p_i => 13
  | P_p_j => 14
  | P_p_to_r => 15
  | P_r_from => 16
  | P_r_fetch => 17
  | P_two_to_r => 18
  | P_two_r_from => 19
  | P_two_r_fetch => 20
  | P_compile_comma => 21
  | P__postpone => 22
  | P__does => 23
  | P_execute => 24
  | P_dup => 25
  | P_p_drop => 26
  | P_swap => 27
  | P_over => 28
  | P_nip => 29
  | P_depth => 30
  | P_check_stacks => 31
  | P_zero_less => 32
  | P_equals => 33
  | P_less_than => 34
  | P_invert => 35
  | P_and => 36
  | P_or => 37
  | P_xor => 38
  | P_lshift => 39
  | P_rshift => 40
  | P_one_plus => 41
  | P_one_minus => 42
  | P_minus => 43
  | P_plus => 44
  | P_star => 45
  | P_slash_mod => 46
  | P_cell_plus => 47
  | P_cells => 48
  | P_fetch => 49
  | P_store => 50
  | P_char_plus => 51
  | P_here => 52
  | P_allot => 53
  | P_aligned => 54
  | P_align => 55
  | P_c_fetch => 56
  | P_c_store => 57
  | P_p_move => 58
  | P_base => 59
  | P_immediate => 60
  | P_compile_only => 61
  | P_imm_paren => 62
  | P_imm_backslash => 63
  | P_left_bracket => 64
  | P_bracket_tick => 65
  | P_bracket_char => 66
  | P_semicolon => 67
  | P_imm_if => 68
  | P_imm_else => 69
  | P_imm_then => 70
  | P_imm_case => 71
  | P_imm_of => 72
  | P_imm_endof => 73
  | P_imm_endcase => 74
  | P_imm_begin => 75
  | P_imm_while => 76
  | P_imm_repeat => 77
  | P_imm_until => 78
  | P_imm_again => 79
  | P_imm_clear_labels => 80
  | P_imm_label => 81
  | P_imm_goto => 82
  | P_imm_call => 83
  | P_imm_recurse => 84
  | P_imm_do => 85
  | P_imm_qdo => 86
  | P_imm_loop => 87
  | P_imm_plus_loop => 88
  | P_postpone => 89
  | P_does => 90
  | P_p_true => 91
  | P_p_false => 92
  | P_zero_equals => 93
  | P_zero_greater => 94
  | P_zero_not_equals => 95
  | P_greater_than => 96
  | P_not_equals => 97
  | P_within => 98
  | P_rot => 99
  | P_minus_rot => 100
  | P_pick => 101
  | P_two_dup => 102
  | P_two_drop => 103
  | P_two_swap => 104
  | P_two_over => 105
  | P_slash => 106
  | P_p_mod => 107
  | P_abs => 108
  | P_negate => 109
  | P_parse_word => 110
  | P_char => 111
  | P__skip => 112
  | P_parse => 113
  | P_colon => 114
  | P_constant => 115
  | P_create => 116
  | P_tick => 117
  | P_to_body => 118
  | P_to_name => 119
  | P_right_bracket => 120
  | P_comma => 121
  | P_marker => 122
  | P_handler_store => 123
  | P_error => 124
  | P_dot_error => 125
  | P_clear_error => 126
  | P_clear_stacks => 127
  | P_reset => 128
  | P_abort => 129
  | P_p_compiling => 130
  | P_token_empty => 131
  | P_dot_token => 132
  | P_store_token => 133
  | P_compile_token => 134
  | P_interpret_token => 135
  | P_p_source_id => 136
  | P_p_set_source_id => 137
  | P_p_source_idx => 138
  | P_p_set_source_idx => 139
  | P_bye => 140
  | P_pause => 141
  | P_activate => 142
  | P_me => 143
  | P_suspend => 144
  | P_resume => 145
  | P_nest => 146
  | P_p_var => 147
  | P_p_const => 148
  | P_unmark => 149
  | P_xdoes => 150
  | P_emit => 151
  | P_p_type => 152
  | P_s_quote => 153
  | P_dot_quote => 154
  | P_dot_paren => 155
  | P_dot_r => 156
  | P_fdot_r => 157
  | P_flush_output => 158
  | P_words => 159
  | P_dot_word => 160
  | P_dot_backtrace => 161
  | P_dot_s => 162
  | P_dot_memory => 163
  | P_set_execution_times => 164
  | P_dot_xtime => 165
  | P_clear_xtime => 166
  | P_dot_input => 167
  | P_flush_to_err => 168
  | P_max_n => 169
  | P_max_u => 170
  | P_mtime => 171
  | P_utime => 172
  | P_p_fconst => 173
  | P_fconstant => 174
  | P_float_plus => 175
  | P_floats => 176
  | P_faligned => 177
  | P_falign => 178
  | P_pi => 179
  | P_fstore => 180
  | P_ffetch => 181
  | P_fabs => 182
  | P_fsin => 183
  | P_fcos => 184
  | P_ftan => 185
  | P_fsincos => 186
  | P_fasin => 187
  | P_facos => 188
  | P_fatan => 189
  | P_fatan2 => 190
  | P_fsqrt => 191
  | P_fdrop => 192
  | P_fdup => 193
  | P_fswap => 194
  | P_fnip => 195
  | P_fover => 196
  | P_frot => 197
  | P_fpick => 198
  | P_s_to_f => 199
  | P_f_to_s => 200
  | P_fplus => 201
  | P_fminus => 202
  | P_fstar => 203
  | P_fslash => 204
  | P_fpowf => 205
  | P_fproximate => 206
  | P_f_zero_less_than => 207
  | P_f_zero_equals => 208
  | P_f_less_than => 209
  | P_fmin => 210
  | P_fmax => 211
  | P_floor => 212
  | P_fround => 213
  | P_fceil => 214
  | P_fnegate => 215
  | P_from_meter => 216
  | P_from_mm => 217
  | P_from_um => 218
  | P_from_deg => 219
  | P_from_rad => 220
  | P_from_hour => 221
  | P_from_minute => 222
  | P_from_sec => 223
  | P_from_msec => 224
  | P_from_usec => 225
  | P_mm_per_min => 226
  | P_mm_per_sec => 227
  | P_um_per_msec => 228
  | P_rpm => 229
  | P_hertz => 230
  | P_file_size => 231
  | P_file_position => 232
  | P_close_file => 233
  | P_create_file => 234
  | P_delete_file => 235
  | P_open_file => 236
  | P_read_file => 237
  | P_write_file => 238
  | P_resize_file => 239
  | P_reposition_file => 240
  | P_open_source => 241
  | P_close_source => 242
  | P_dot_source_path => 243
  | P_p_load_line => 244
  | P_dot_source_line => 245
  | P_receive => 246
  end.
Definition prim_of (n : Z) : prim :=
  match n with
  | 0 => P_noop
  | 1 => P_exit
  | 2 => P_lit
  | 3 => P_flit
  | 4 => P_p_s_quote
  | 5 => P_branch
  | 6 => P_zero_branch
  | 7 => P__do
  | 8 => P__qdo
  | 9 => P__loop
  | 10 => P__plus_loop
  | 11 => P_unloop
  | 12 => P_leave
  | 13 => P_p_i
  | 14 => P_p_j
  | 15 => P_p_to_r
  | 16 => P_r_from
  | 17 => P_r_fetch
  | 18 => P_two_to_r
  | 19 => P_two_r_from
  | 20 => P_two_r_fetch
  | 21 => P_compile_comma
  | 22 => P__postpone
  | 23 => P__does
  | 24 => P_execute
  | 25 => P_dup
  | 26 => P_p_drop
  | 27 => P_swap
  | 28 => P_over
  | 29 => P_nip
  | 30 => P_depth
  | 31 => P_check_stacks
  | 32 => P_zero_less
  | 33 => P_equals
  | 34 => P_less_than
  | 35 => P_invert
  | 36 => P_and
  | 37 => P_or
  | 38 => P_xor
  | 39 => P_lshift
  | 40 => P_rshift
  | 41 => P_one_plus
  | 42 => P_one_minus
  | 43 => P_minus
  | 44 => P_plus
  | 45 => P_star
  | 46 => P_slash_mod
  | 47 => P_cell_plus
  | 48 => P_cells
  | 49 => P_fetch
  | 50 => P_store
  | 51 => P_char_plus
  | 52 => P_here
  | 53 => P_allot
  | 54 => P_aligned
  | 55 => P_align
  | 56 => P_c_fetch
  | 57 => P_c_store
  | 58 => P_p_move
  | 59 => P_base
  | 60 => P_immediate
  | 61 => P_compile_only
  | 62 => P_imm_paren
  | 63 => P_imm_backslash
  | 64 => P_left_bracket
  | 65 => P_bracket_tick
  | 66 => P_bracket_char
  | 67 => P_semicolon
  | 68 => P_imm_if
  | 69 => P_imm_else
  | 70 => P_imm_then
  | 71 => P_imm_case
  | 72 => P_imm_of
  | 73 => P_imm_endof
  | 74 => P_imm_endcase
  | 75 => P_imm_begin
  | 76 => P_imm_while
  | 77 => P_imm_repeat
  | 78 => P_imm_until
  | 79 => P_imm_again
  | 80 => P_imm_clear_labels
  | 81 => P_imm_label
  | 82 => P_imm_goto
  | 83 => P_imm_call
  | 84 => P_imm_recurse
  | 85 => P_imm_do
  | 86 => P_imm_qdo
  | 87 => P_imm_loop
  | 88 => P_imm_plus_loop
  | 89 => P_postpone
  | 90 => P_does
  | 91 => P_p_true
  | 92 => P_p_false
  | 93 => P_zero_equals
  | 94 => P_zero_greater
  | 95 => P_zero_not_equals
  | 96 => P_greater_than
  | 97 => P_not_equals
  | 98 => P_within
  | 99 => P_rot
  | 100 => P_minus_rot
  | 101 => P_pick
  | 102 => P_two_dup
  | 103 => P_two_drop
  | 104 => P_two_swap
  | 105 => P_two_over
  | 106 => P_slash
  | 107 => P_p_mod
  | 108 => P_abs
  | 109 => P_negate
  | 110 => P_parse_word
  | 111 => P_char
  | 112 => P__skip
  | 113 => P_parse
  | 114 => P_colon
  | 115 => P_constant
  | 116 => P_create
  | 117 => P_tick
  | 118 => P_to_body
  | 119 => P_to_name
  | 120 => P_right_bracket
  | 121 => P_comma
  | 122 => P_marker
  | 123 => P_handler_store
  | 124 => P_error
  | 125 => P_dot_error
  | 126 => P_clear_error
  | 127 => P_clear_stacks
  | 128 => P_reset
  | 129 => P_abort
  | 130 => P_p_compiling
  | 131 => P_token_empty
  | 132 => P_dot_token
  | 133 => P_store_token
  | 134 => P_compile_token
  | 135 => P_interpret_token
  | 136 => P_p_source_id
  | 137 => P_p_set_source_id
  | 138 => P_p_source_idx
  | 139 => P_p_set_source_idx
  | 140 => P_bye
  | 141 => P_pause
  | 142 => P_activate
  | 143 => P_me
  | 144 => P_suspend
  | 145 => P_resume
  | 146 => P_nest
  | 147 => P_p_var
  | 148 => P_p_const
  | 149 => P_unmark
  | 150 => P_xdoes
  | 151 => P_emit
  | 152 => P_p_type
  | 153 => P_s_quote
  | 154 => P_dot_quote
  | 155 => P_dot_paren
  | 156 => P_dot_r
  | 157 => P_fdot_r
  | 158 => P_flush_output
  | 159 => P_words
  | 160 => P_dot_word
  | 161 => P_dot_backtrace
  | 162 => P_dot_s
  | 163 => P_dot_memory
  | 164 => P_set_execution_times
  | 165 => P_dot_xtime
  | 166 => P_clear_xtime
  | 167 => P_dot_input
  | 168 => P_flush_to_err
  | 169 => P_max_n
  | 170 => P_max_u
  | 171 => P_mtime
  | 172 => P_utime
  | 173 => P_p_fconst
  | 174 => P_fconstant
  | 175 => P_float_plus
  | 176 => P_floats
  | 177 => P_faligned
  | 178 => P_falign
  | 179 => P_pi
  | 180 => P_fstore
  | 181 => P_ffetch
  | 182 => P_fabs
  | 183 => P_fsin
  | 184 => P_fcos
  | 185 => P_ftan
  | 186 => P_fsincos
  | 187 => P_fasin
  | 188 => P_facos
  | 189 => P_fatan
  | 190 => P_fatan2
  | 191 => P_fsqrt
  | 192 => P_fdrop
  | 193 => P_fdup
  | 194 => P_fswap
  | 195 => P_fnip
  | 196 => P_fover
  | 197 => P_frot
  | 198 => P_fpick
  | 199 => P_s_to_f
  | 200 => P_f_to_s
  | 201 => P_fplus
  | 202 => P_fminus
  | 203 => P_fstar
  | 204 => P_fslash
  | 205 => P_fpowf
  | 206 => P_fproximate
  | 207 => P_f_zero_less_than
  | 208 => P_f_zero_equals
  | 209 => P_f_less_than
  | 210 => P_fmin
  | 211 => P_fmax
  | 212 => P_floor
  | 213 => P_fround
  | 214 => P_fceil
  | 215 => P_fnegate
  | 216 => P_from_meter
  | 217 => P_from_mm
  | 218 => P_from_um
  | 219 => P_from_deg
  | 220 => P_from_rad
  | 221 => P_from_hour
  | 222 => P_from_minute
  | 223 => P_from_sec
  | 224 => P_from_msec
  | 225 => P_from_usec
  | 226 => P_mm_per_min
  | 227 => P_mm_per_sec
  | 228 => P_um_per_msec
  | 229 => P_rpm
  | 230 => P_hertz
  | 231 => P_file_size
  | 232 => P_file_position
  | 233 => P_close_file
  | 234 => P_create_file
  | 235 => P_delete_file
  | 236 => P_open_file
  | 237 => P_read_file
  | 238 => P_write_file
  | 239 => P_resize_file
  | 240 => P_reposition_file
  | 241 => P_open_source
  | 242 => P_close_source
  | 243 => P_dot_source_path
  | 244 => P_p_load_line
  | 245 => P_dot_source_line
  | 246 => P_receive
  | _ => P_noop
  end.
Lemma prim_of_tag p : prim_of (prim_tag p) = p.
Proof. destruct p; reflexivity. Qed.
Definition prim_eqb (p q : prim) : bool := prim_tag p =? prim_tag q.
Lemma prim_eqb_eq p q : prim_eqb p q = true -> p = q.
Proof. unfold prim_eqb. intro H. rewrite <- (prim_of_tag p), <- (prim_of_tag q). f_equal. lia. Qed.

Section D.
Context {E : Env}.
Variables lo hi : Z.
Definition region (i : Z) : Prop := lo <= i < hi.

Definition word_isb (v : vm) (i : Z) (p : prim) : bool :=
  (0 <=? i) && (i <? wl_len (v_wl v)) && prim_eqb (w_action (wl_get (v_wl v) i)) p.
Definition cell_of (v : vm) (a : Z) : Z :=
  let c k := byte_at (v_ds v) (a + k) in
  c 0 + 256 * (c 1 + 256 * (c 2 + 256 * (c 3 + 256 * (c 4 + 256 * (c 5 + 256 * (c 6 + 256 * c 7)))))).
Definition bytes8 (x : Z) (c : Z -> Z) : bool :=
  forallb (fun k => c k =? x / 256 ^ k mod 256) [0; 1; 2; 3; 4; 5; 6; 7].
Definition code_cellb (v : vm) (a x : Z) : bool :=
  (start (v_ds v) <=? a) && (a + 8 <=? limit (v_ds v)) && bytes8 x (fun k => byte_at (v_ds v) (a + k)) &&
  (lo <=? a) && (a + 8 <=? hi).
Definition code_wordb (v : vm) (a : Z) (p : prim) : bool :=
  let i := cell_of v a in code_cellb v a i && word_isb v i p && (i <? 2 ^ 63).
Fixpoint textb (v : vm) (a : Z) (s : bytes) : bool :=
  match s with [] => true | x :: s => (byte_at (v_ds v) a =? x) && textb v (a + 1) s end.
Definition code_textb (v : vm) (a : Z) (s : bytes) : bool :=
  (start (v_ds v) <=? a) && (a + zlen s <=? limit (v_ds v)) && (lo <=? a) && (a + zlen s <=? hi) && textb v a s.
Definition cellb (x : Z) : bool := (- 2 ^ 63 <=? x) && (x <? 2 ^ 63).

Fixpoint laidb (v : vm) (p : prog) (a : Z) : bool :=
  match p with
  | Skip => true
  | Seq p q => laidb v p a && laidb v q (fin p a)
  | Op i => code_cellb v a i && (0 <=? i) && (i <? 2 ^ 63)
  | Num n => code_wordb v a P_lit && code_cellb v (a + 8) n && cellb n
  | Flo x => code_wordb v a P_flit && code_cellb v (round8 (a + 8)) x && (0 <=? x) && (x <? 2 ^ 64)
  | Str s => code_wordb v a P_p_s_quote && code_cellb v (a + 8) (zlen s) && code_textb v (a + 16) s &&
    (round8 (a + 16 + zlen s) <=? limit (v_ds v))
  | IfThen p => code_wordb v a P_zero_branch && code_cellb v (a + 8) (fin p (a + 16)) && laidb v p (a + 16)
  | IfElse p q =>
    let m := fin p (a + 16) in
    code_wordb v a P_zero_branch && code_cellb v (a + 8) (m + 16) && laidb v p (a + 16) &&
    code_wordb v m P_branch && code_cellb v (m + 8) (fin q (m + 16)) && laidb v q (m + 16)
  | Until p =>
    let m := fin p a in laidb v p a && code_wordb v m P_zero_branch && code_cellb v (m + 8) a
  | While p q =>
    let m := fin p a in
    let n := fin q (m + 16) in
    laidb v p a && code_wordb v m P_zero_branch && code_cellb v (m + 8) (n + 16) &&
    laidb v q (m + 16) && code_wordb v n P_branch && code_cellb v (n + 8) a
  | Again p =>
    let m := fin p a in laidb v p a && code_wordb v m P_branch && code_cellb v (m + 8) a
  | Do skip step p =>
    let m := fin p (a + 16) in
    code_wordb v a (if skip then P__qdo else P__do) && code_cellb v (a + 8) (m + 16) &&
    laidb v p (a + 16) &&
    code_wordb v m (if step then P__plus_loop else P__loop) && code_cellb v (m + 8) (a + 16)
  end.

Lemma word_isb_ok v i p : word_isb v i p = true -> word_is v i p.
Proof.
  unfold word_isb. rewrite !andb_true_iff. intros [[H1 H2] H3]. split; [lia|]. apply prim_eqb_eq. exact H3.
Qed.
Lemma code_cellb_ok v a x : code_cellb v a x = true -> code_cell region v a x.
Proof.
  unfold code_cellb. rewrite !andb_true_iff. intros [[[[H1 H2] H3] H4] H5].
  split; [lia|]. split; [lia|]. split; [|unfold region; lia].
  intros k Hk. unfold bytes8 in H3. rewrite forallb_forall in H3.
  assert (In k [0; 1; 2; 3; 4; 5; 6; 7]) as HI by (cbn; lia). specialize (H3 k HI). lia.
Qed.
Lemma code_wordb_ok v a p : code_wordb v a p = true -> code_word region v a p.
Proof.
  unfold code_wordb. cbv zeta. rewrite !andb_true_iff. intros [[H1 H2] H3]. exists (cell_of v a).
  split; [apply code_cellb_ok; exact H1|]. split; [apply word_isb_ok; exact H2|lia].
Qed.
Lemma textb_ok v s : forall a, textb v a s = true -> forall k x, nth_error s k = Some x -> byte_at (v_ds v) (a + Z.of_nat k) = x.
Proof.
  induction s as [|y s IH]; intros a H [|k] x Hk; try discriminate; cbn [textb] in H; apply andb_true_iff in H; destruct H as [H1 H2].
  - injection Hk as <-. rewrite Z.add_0_r. lia.
  - rewrite <- (IH (a + 1) H2 k x Hk). f_equal. lia.
Qed.
Lemma code_textb_ok v a s : code_textb v a s = true -> code_text region v a s.
Proof.
  unfold code_textb. rewrite !andb_true_iff. intros [[[[H1 H2] H3] H4] H5].
  split; [lia|]. split; [lia|]. intros k x Hk. split; [eapply textb_ok; eassumption|].
  assert (k < length s)%nat by (apply nth_error_Some; congruence). unfold region, zlen in *. lia.
Qed.
Lemma laidb_ok v p : forall a, laidb v p a = true -> laid region v p a.
Proof.
  induction p; intros a H; cbn [laidb laid] in *; cbv zeta in *; rewrite ?andb_true_iff in H;
    repeat match goal with
    | X : _ /\ _ |- _ => destruct X
    | X : code_wordb _ _ _ = true |- _ => apply code_wordb_ok in X
    | X : code_cellb _ _ _ = true |- _ => apply code_cellb_ok in X
    | X : code_textb _ _ _ = true |- _ => apply code_textb_ok in X
    end; unfold cellb, is_cell in *; rewrite ?andb_true_iff in *; repeat match goal with |- _ /\ _ => split end; auto; lia.
Qed.
End D.

Definition stack_hasb (s : stack Z) (l : list Z) : bool :=
  (len s =? zlen l) && (zlen l <=? 255) &&
  forallb (fun kx => sget s (len s - 1 - Z.of_nat (fst kx)) =? snd kx) (combine (seq 0 (length l)) l).
Lemma stack_hasb_ok s l : stack_hasb s l = true -> stack_has s l.
Proof.
  unfold stack_hasb. rewrite !andb_true_iff, forallb_forall. intros [[H1 H2] H3].
  split; [lia|]. split; [lia|]. intros k x Hk.
  assert (HI : In (k, x) (combine (seq 0 (length l)) l)).
  { clear H1 H2 H3 s. change k with (0 + k)%nat at 1. generalize 0%nat.
    revert k x Hk. induction l as [|y l IH]; intros [|k] x Hk n; try discriminate; cbn [length seq combine].
    - injection Hk as <-. left. f_equal. lia.
    - right. replace (n + S k)%nat with (S n + k)%nat by lia. apply IH. exact Hk. }
  specialize (H3 _ HI). cbn [fst snd] in H3. lia.
Qed.
