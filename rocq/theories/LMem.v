(** Facts about the data space. *)
From Coq Require Import ZArith List Bool Lia ZifyBool ZifyNat.
From Verif Require Import Base Stack Mem State LBase Spec.
Import ListNotations.
Open Scope Z_scope.

Lemma start_set_byte d a x : start (set_byte d a x) = start d. Proof. reflexivity. Qed.
Lemma limit_set_byte d a x : limit (set_byte d a x) = limit d. Proof. reflexivity. Qed.
Lemma here_set_byte d a x : here (set_byte d a x) = here d. Proof. reflexivity. Qed.

Lemma byte_set_same d a x : byte_at (set_byte d a x) a = x.
Proof. unfold byte_at, set_byte. cbn. apply tget_tset_same. Qed.
Lemma byte_set_other d a c x : start d <= a -> start d <= c -> a <> c ->
  byte_at (set_byte d a x) c = byte_at d c.
Proof. intros. unfold byte_at, set_byte, start in *. cbn. apply tget_tset_other; lia. Qed.

Lemma start_set_cell d a x : start (set_cell_bytes d x a) = start d. Proof. reflexivity. Qed.
Lemma limit_set_cell d a x : limit (set_cell_bytes d x a) = limit d. Proof. reflexivity. Qed.
Lemma here_set_cell d a x : here (set_cell_bytes d x a) = here d. Proof. reflexivity. Qed.

Lemma byte_set_cell d x a c : start d <= a -> start d <= c ->
  byte_at (set_cell_bytes d x a) c =
  if (a <=? c) && (c <? a + 8) then x / 256 ^ (c - a) mod 256 else byte_at d c.
Proof.
  intros Ha Hc. unfold set_cell_bytes. cbv zeta.
  destruct ((a <=? c) && (c <? a + 8)) eqn:H.
  - assert (Hk : c = a \/ c = a + 1 \/ c = a + 2 \/ c = a + 3 \/ c = a + 4 \/ c = a + 5 \/ c = a + 6 \/ c = a + 7) by lia.
    Ltac sc := repeat (rewrite byte_set_other by (rewrite ?start_set_byte; lia)); rewrite byte_set_same.
    destruct Hk as [->|[->|[->|[->|[->|[->|[->| ->]]]]]]]; sc.
    + replace (a - a) with 0 by lia. rewrite Z.pow_0_r, Z.div_1_r. reflexivity.
    + replace (a + 1 - a) with 1 by lia. reflexivity.
    + replace (a + 2 - a) with 2 by lia. reflexivity.
    + replace (a + 3 - a) with 3 by lia. reflexivity.
    + replace (a + 4 - a) with 4 by lia. reflexivity.
    + replace (a + 5 - a) with 5 by lia. reflexivity.
    + replace (a + 6 - a) with 6 by lia. reflexivity.
    + replace (a + 7 - a) with 7 by lia. reflexivity.
  - repeat (rewrite byte_set_other by (rewrite ?start_set_byte; lia)). reflexivity.
Qed.

Lemma set_cell_at d x a : start d <= a -> cell_at (set_cell_bytes d x a) a x.
Proof.
  intros Ha k Hk. rewrite byte_set_cell by lia.
  replace ((a <=? a + k) && (a + k <? a + 8)) with true by lia.
  replace (a + k - a) with k by lia. reflexivity.
Qed.

(** Reassembling eight bytes *)
Lemma mod_step x m : 0 < m -> x mod (256 * m) = x mod 256 + 256 * (x / 256 mod m).
Proof. intro. apply Z.rem_mul_r; lia. Qed.

Lemma div_pow_step x k : 0 <= k -> x / 256 ^ k / 256 = x / 256 ^ (k + 1).
Proof. intro. rewrite Z.div_div by lia. f_equal. rewrite Z.pow_add_r by lia. reflexivity. Qed.

Lemma bytes_val x :
  x mod 256 + 256 * (x / 256 mod 256 + 256 * (x / 65536 mod 256 +
  256 * (x / 16777216 mod 256 + 256 * (x / 4294967296 mod 256 + 256 * (x / 1099511627776 mod 256 +
  256 * (x / 281474976710656 mod 256 + 256 * (x / 72057594037927936 mod 256))))))) = x mod two64.
Proof.
  change two64 with (256 * (256 * (256 * (256 * (256 * (256 * (256 * 256))))))).
  rewrite !mod_step by lia. rewrite !Z.div_div by lia. reflexivity.
Qed.

Lemma cell_val d a x : cell_at d a x -> cell_bytes_val d a = x mod two64.
Proof.
  intro H. unfold cell_bytes_val. rewrite <- bytes_val.
  pose proof (H 0 ltac:(lia)) as H0. rewrite Z.add_0_r, Z.pow_0_r, Z.div_1_r in H0.
  rewrite H0, (H 1), (H 2), (H 3), (H 4), (H 5), (H 6), (H 7) by lia. reflexivity.
Qed.

(** Every eight bytes are some cell *)
Lemma cell_exists d a : mem_ok d -> cell_at d a (cell_bytes_val d a) /\ 0 <= cell_bytes_val d a < two64.
Proof.
  intro H. unfold cell_bytes_val.
  pose proof (H a). pose proof (H (a + 1)). pose proof (H (a + 2)). pose proof (H (a + 3)).
  pose proof (H (a + 4)). pose proof (H (a + 5)). pose proof (H (a + 6)). pose proof (H (a + 7)).
  assert (D : forall b0 r, 0 <= b0 < 256 -> (b0 + 256 * r) / 256 = r).
  { intros b0 r Hb. rewrite (Z.mul_comm 256), Z.div_add by lia. rewrite Z.div_small by lia. lia. }
  assert (Mo : forall b0 r, 0 <= b0 < 256 -> (b0 + 256 * r) mod 256 = b0).
  { intros b0 r Hb. rewrite (Z.mul_comm 256), Z.mod_add by lia. apply Z.mod_small. lia. }
  split.
  - intros k Hk.
    assert (Hk' : k = 0 \/ k = 1 \/ k = 2 \/ k = 3 \/ k = 4 \/ k = 5 \/ k = 6 \/ k = 7) by lia.
    destruct Hk' as [->|[->|[->|[->|[->|[->|[->| ->]]]]]]].
    + rewrite Z.pow_0_r, Z.div_1_r, Z.add_0_r. rewrite Mo by lia. reflexivity.
    + change (256 ^ 1) with 256. rewrite D, Mo by lia. reflexivity.
    + change (256 ^ 2) with (256 * 256). rewrite <- !Z.div_div by lia. rewrite !D, Mo by lia. reflexivity.
    + change (256 ^ 3) with (256 * 256 * 256). rewrite <- !Z.div_div by lia. rewrite !D, Mo by lia. reflexivity.
    + change (256 ^ 4) with (256 * 256 * 256 * 256). rewrite <- !Z.div_div by lia. rewrite !D, Mo by lia. reflexivity.
    + change (256 ^ 5) with (256 * 256 * 256 * 256 * 256). rewrite <- !Z.div_div by lia. rewrite !D, Mo by lia. reflexivity.
    + change (256 ^ 6) with (256 * 256 * 256 * 256 * 256 * 256). rewrite <- !Z.div_div by lia. rewrite !D, Mo by lia. reflexivity.
    + change (256 ^ 7) with (256 * 256 * 256 * 256 * 256 * 256 * 256). rewrite <- !Z.div_div by lia.
      rewrite !D by lia. rewrite Z.mod_small by lia. reflexivity.
  - unfold two64. lia.
Qed.

Lemma to_i64_mod64 x : to_i64 (x mod two64) = to_i64 x.
Proof. apply to_i64_to_u64. Qed.

(** Congruent values have the same bytes *)
Lemma div_mod_congr x y k : 0 <= k < 8 -> x mod two64 = y mod two64 -> x / 256 ^ k mod 256 = y / 256 ^ k mod 256.
Proof.
  intros Hk H.
  assert (G : forall z, z / 256 ^ k mod 256 = z mod two64 / 256 ^ k mod 256).
  { intro z. assert (HP : 0 < 256 ^ k) by (apply Z.pow_pos_nonneg; lia).
    rewrite (Z.div_mod z two64) at 1 by discriminate.
    replace (two64 * (z / two64) + z mod two64) with (z mod two64 + (256 ^ (7 - k) * (z / two64) * 256) * 256 ^ k).
    - rewrite Z.div_add by lia. rewrite Z.mod_add by lia. reflexivity.
    - replace two64 with (256 ^ (7 - k) * 256 ^ k * 256).
      + ring.
      + rewrite <- Z.pow_add_r by lia. replace (7 - k + k) with 7 by lia. reflexivity. }
  rewrite (G x), (G y), H. reflexivity.
Qed.

Lemma cell_at_congr d a x y : x mod two64 = y mod two64 -> cell_at d a x -> cell_at d a y.
Proof. intros H Hc k Hk. rewrite (Hc k Hk). apply div_mod_congr; assumption. Qed.

Lemma cell_at_inj d a x y : cell_at d a x -> cell_at d a y -> x mod two64 = y mod two64.
Proof. intros H1 H2. rewrite <- (cell_val _ _ _ H1). apply cell_val. exact H2. Qed.

(** Bounds *)
Lemma in_ds_true d a n : in_ds d a n = true <-> start d <= a /\ a + n <= limit d.
Proof. unfold in_ds. lia. Qed.

Lemma get_isize_ok d a x : in_ds d a 8 = true -> cell_at d a x -> is_cell x -> get_isize d a = Ok x.
Proof.
  intros H1 H2 H3. unfold get_isize. rewrite H1, (cell_val _ _ _ H2), to_i64_mod64, to_i64_id; [reflexivity|].
  unfold is_cell in H3. unfold imin, imax. lia.
Qed.

Lemma get_usize_ok d a x : in_ds d a 8 = true -> cell_at d a x -> 0 <= x < two64 -> get_usize d a = Ok x.
Proof.
  intros H1 H2 H3. unfold get_usize. rewrite H1, (cell_val _ _ _ H2), Z.mod_small by exact H3. reflexivity.
Qed.

Lemma put_cell_ok d x a : in_ds d a 8 = true ->
  exists d', put_cell d x a = Ok d' /\ cell_at d' a x /\ same_memory_but d d' a 8 /\ here d' = here d /\
             ds_inner d' = ds_inner d /\ ds_cap d' = ds_cap d /\ ds_len d' = ds_len d.
Proof.
  intro H. unfold put_cell. rewrite H. apply in_ds_true in H.
  exists (set_cell_bytes d (to_u64 x) a). split; [reflexivity|]. split.
  - apply (cell_at_congr _ _ (to_u64 x)); [unfold to_u64; apply Z.mod_mod; discriminate|].
    apply set_cell_at. lia.
  - split; [|repeat split; reflexivity]. split; [reflexivity|]. split; [reflexivity|].
    intros i Hi Ho. rewrite byte_set_cell by lia.
    replace ((a <=? i) && (i <? a + 8)) with false by lia. reflexivity.
Qed.

Lemma cell_at_kept d d' a n c x : same_memory_but d d' a n -> start d <= c ->
  c + 8 <= a \/ a + n <= c -> cell_at d c x -> cell_at d' c x.
Proof.
  intros (_ & _ & H) Hc Ho Hx k Hk. rewrite H by lia. apply Hx. exact Hk.
Qed.

(** mem_ok is preserved *)
Lemma tget_tset {A} (dft : A) m i j x : tget dft (tset m i x) j = x \/ tget dft (tset m i x) j = tget dft m j.
Proof.
  unfold tget, tset.
  destruct (Pos.eq_dec (tkey j) (tkey i)) as [->|Hn].
  - left. rewrite FMapPositive.PositiveMap.gss. reflexivity.
  - right. rewrite FMapPositive.PositiveMap.gso by exact Hn. reflexivity.
Qed.
Lemma mem_ok_set_byte d a x : mem_ok d -> 0 <= x < 256 -> mem_ok (set_byte d a x).
Proof.
  intros H Hx c. unfold byte_at, set_byte. cbn.
  destruct (tget_tset 0 (ds_mem d) (a - ds_inner d) (c - ds_inner d) x) as [-> | ->]; [exact Hx|apply H].
Qed.
Lemma mem_ok_set_cell d x a : mem_ok d -> mem_ok (set_cell_bytes d x a).
Proof.
  intro H. unfold set_cell_bytes. cbv zeta.
  repeat (apply mem_ok_set_byte; [|apply Z.mod_pos_bound; lia]). exact H.
Qed.

(** ** Allocation *)
Lemma set_here_ok d p : start d <= p <= limit d ->
  set_here d p = (true, mkDs (ds_inner d) (ds_cap d) (p - ds_inner d) (ds_mem d)).
Proof. intro H. unfold set_here. replace ((start d <=? p) && (p <=? limit d)) with true by lia. reflexivity. Qed.

Definition moved (d : dspace) (p : Z) : dspace := mkDs (ds_inner d) (ds_cap d) (p - ds_inner d) (ds_mem d).
Lemma here_moved d p : here (moved d p) = p. Proof. unfold here, moved; cbn; lia. Qed.
Lemma byte_moved d p a : byte_at (moved d p) a = byte_at d a. Proof. reflexivity. Qed.

Lemma compile_cell_ok d x : ds_ok d -> here d + 8 <= limit d ->
  exists d', compile_cell d x = Ok d' /\ cell_at d' (here d) x /\ same_memory_but d d' (here d) 8 /\
             here d' = here d + 8 /\ ds_inner d' = ds_inner d /\ ds_cap d' = ds_cap d.
Proof.
  intros (H0 & H1 & H2) Hl. unfold compile_cell.
  replace (here d + 8 <=? limit d) with true by lia.
  destruct (put_cell_ok d x (here d)) as (d1 & E1 & Hc & (Hs & Hlim & Hm) & Hh & Hi & Hcap & _).
  { apply in_ds_true. lia. }
  rewrite E1. cbn [rbind]. rewrite set_here_ok by lia. cbn [snd].
  exists (moved d1 (here d + 8)). split; [reflexivity|]. split; [exact Hc|].
  split; [|split; [apply here_moved|split; assumption]].
  split; [exact Hs|]. split; [exact Hlim|]. exact Hm.
Qed.

Lemma compile_cell_full d x : limit d < here d + 8 -> compile_cell d x = Panic PFull.
Proof. intro. unfold compile_cell. replace (here d + 8 <=? limit d) with false by lia. reflexivity. Qed.

Lemma compile_bytes_ok s : forall d, ds_ok d -> here d + zlen s <= limit d ->
  exists d', compile_bytes d s = Ok d' /\
    (forall k x, nth_error s k = Some x -> byte_at d' (here d + Z.of_nat k) = x) /\
    same_memory_but d d' (here d) (zlen s) /\ here d' = here d + zlen s /\
    ds_inner d' = ds_inner d /\ ds_cap d' = ds_cap d.
Proof.
  induction s as [|x s IH]; intros d Hok Hl.
  - exists d. cbn [compile_bytes zlen List.length Z.of_nat]. split; [reflexivity|]. split; [intros [|k] x; discriminate|].
    split; [|split; [lia|split; reflexivity]]. split; [reflexivity|]. split; [reflexivity|]. reflexivity.
  - pose proof Hok as (H0 & H1 & H2). rewrite zlen_cons in Hl. pose proof (zlen_nonneg s).
    cbn [compile_bytes]. unfold compile_u8.
    replace (here d <? limit d) with true by lia. unfold put_u8.
    replace (in_ds d (here d) 1) with true by (unfold in_ds; lia). cbn [rbind].
    rewrite set_here_ok by (rewrite start_set_byte, limit_set_byte; lia). cbn [snd].
    set (d1 := mkDs _ _ _ _).
    assert (E1 : here d1 = here d + 1) by (unfold d1, here; cbn; lia).
    assert (S1 : start d1 = start d) by reflexivity. assert (L1 : limit d1 = limit d) by reflexivity.
    assert (B1 : forall i, byte_at d1 i = byte_at (set_byte d (here d) x) i) by reflexivity.
    destruct (IH d1) as (d' & E & Hb & (Hs & Hli & Hm) & Hh & Hi & Hc).
    { split; [|split]; lia. } { lia. }
    exists d'. split; [exact E|]. split; [|split; [|split; [|split]]].
    + intros [|k] y Hk.
      * injection Hk as <-. rewrite Hm by lia. rewrite B1. rewrite Z.add_0_r. apply byte_set_same.
      * cbn [nth_error] in Hk. replace (here d + Z.of_nat (S k)) with (here d1 + Z.of_nat k) by lia. apply Hb. exact Hk.
    + split; [congruence|]. split; [congruence|]. intros i Hi' Ho. rewrite zlen_cons in Ho.
      rewrite Hm by lia. rewrite B1. apply byte_set_other; lia.
    + rewrite zlen_cons. lia.
    + exact Hi.
    + exact Hc.
Qed.

Lemma read_bytes_ok d a s : s <> [] -> start d <= a -> a + zlen s <= limit d ->
  (forall k x, nth_error s k = Some x -> byte_at d (a + Z.of_nat k) = x) -> read_bytes d a (zlen s) = Ok s.
Proof.
  intros Hne H1 H2 H. unfold read_bytes.
  assert (zlen s <> 0) by (destruct s; [congruence|]; rewrite zlen_cons; pose proof (zlen_nonneg s); lia).
  replace (zlen s =? 0) with false by lia. replace (in_ds d a (zlen s)) with true by (unfold in_ds; lia).
  f_equal. apply nth_error_ext. intro k. rewrite nth_error_map. unfold zlen. rewrite Nat2Z.id.
  destruct (nth_error s k) as [x|] eqn:Hk.
  - assert (Hlt : (k < List.length s)%nat) by (apply nth_error_Some; congruence).
    rewrite (nth_error_nth' _ 0%nat) by (rewrite seq_length; exact Hlt). rewrite seq_nth by exact Hlt.
    cbn. f_equal. apply H. exact Hk.
  - apply nth_error_None in Hk. rewrite (proj2 (nth_error_None _ _)) by (rewrite seq_length; exact Hk). reflexivity.
Qed.

Lemma compile_str_ok d s : ds_ok d -> here d + 8 + zlen s <= limit d ->
  exists d', compile_str d s = Ok (here d, d') /\
    same_memory_but d d' (here d) (8 + zlen s) /\ here d' = here d + 8 + zlen s /\
    ds_inner d' = ds_inner d /\ ds_cap d' = ds_cap d /\
    cell_at d' (here d) (zlen s) /\
    (forall k x, nth_error s k = Some x -> byte_at d' (here d + 8 + Z.of_nat k) = x).
Proof.
  intros Hok Hl. pose proof Hok as (H0 & H1 & H2). pose proof (zlen_nonneg s). unfold compile_str.
  replace (here d + zlen s + 8 <=? limit d) with true by lia.
  destruct (compile_cell_ok d (zlen s) Hok ltac:(lia)) as (d1 & -> & C1 & (S1 & L1 & M1) & E1 & I1 & K1).
  cbn [rbind].
  destruct (compile_bytes_ok s d1) as (d2 & -> & B2 & (S2 & L2 & M2) & E2 & I2 & K2).
  { split; [|split]; lia. } { lia. }
  cbn [rbind]. exists d2. split; [reflexivity|]. split; [|split; [lia|split; [congruence|split; [congruence|split]]]].
  - split; [congruence|]. split; [congruence|]. intros i Hi Ho. rewrite M2 by lia. apply M1; lia.
  - intros k Hk. rewrite M2 by lia. apply C1. exact Hk.
  - intros k x Hk. rewrite <- E1. apply B2. exact Hk.
Qed.

Lemma get_str_ok chk d a s : in_ds d a (8 + zlen s) = true -> 0 < start d -> limit d < 2 ^ 63 ->
  cell_at d a (zlen s) -> (forall k x, nth_error s k = Some x -> byte_at d (a + 8 + Z.of_nat k) = x) ->
  get_str chk d a = Ok s.
Proof.
  intros Hin H0 Hl Hc Hb. pose proof (zlen_nonneg s). apply in_ds_true in Hin. unfold get_str.
  rewrite (get_usize_ok d a (zlen s)); [| |exact Hc|].
  - cbn [rbind]. replace (in_u64 (a + 8)) with true by (symmetry; apply in_u64_true; unfold two64; lia).
    destruct s as [|x r].
    + unfold read_bytes. cbn. replace (a + 8 =? 0) with false by lia. reflexivity.
    + apply read_bytes_ok; [discriminate| | |exact Hb]; lia.
  - apply in_ds_true. lia.
  - unfold two64. change (2 ^ 63) with 9223372036854775808 in *. lia.
Qed.

(** ** Alignment *)
Lemma land_align k x : 0 <= k < 64 -> 0 <= x < two64 -> Z.land x (to_u64 (- 2 ^ k)) = 2 ^ k * (x / 2 ^ k).
Proof.
  intros Hk Hx.
  assert (HE : to_u64 (- 2 ^ k) = Z.shiftl (Z.ones (64 - k)) k).
  { rewrite Z.shiftl_mul_pow2 by lia. rewrite Z.ones_equiv. unfold to_u64.
    assert (HP : 0 < 2 ^ k) by (apply Z.pow_pos_nonneg; lia).
    assert (HQ : 2 ^ k <= 2 ^ 64) by (apply Z.pow_le_mono_r; lia).
    replace (Z.pred (2 ^ (64 - k)) * 2 ^ k) with (two64 - 2 ^ k).
    - rewrite <- (Z.mod_add (- 2 ^ k) 1 two64) by discriminate. rewrite Z.mod_small; [lia|].
      change (2 ^ 64) with two64 in HQ. lia.
    - unfold Z.pred. rewrite Z.mul_add_distr_r, <- Z.pow_add_r by lia.
      replace (64 - k + k) with 64 by lia. unfold two64. change (2 ^ 64) with 18446744073709551616. lia. }
  rewrite HE. rewrite Z.mul_comm, <- Z.shiftl_mul_pow2, <- Z.shiftr_div_pow2 by lia.
  apply Z.bits_inj'. intros i Hi. rewrite Z.land_spec.
  destruct (Z.ltb_spec i k).
  - rewrite !Z.shiftl_spec_low by lia. apply andb_false_r.
  - rewrite !Z.shiftl_spec by lia. rewrite Z.shiftr_spec by lia. replace (i - k + k) with i by lia.
    destruct (Z.ltb_spec (i - k) (64 - k)).
    + rewrite Z.ones_spec_low by lia. apply andb_true_r.
    + rewrite Z.ones_spec_high by lia. rewrite andb_false_r.
      symmetry. assert (i >= 64) by lia.
      destruct (Z.eq_dec x 0) as [->|Hz]; [apply Z.bits_0|].
      apply Z.bits_above_log2; [lia|]. apply Z.log2_lt_pow2; [lia|].
      apply Z.lt_le_trans with (2 ^ 64); [exact (proj2 Hx)|]. apply Z.pow_le_mono_r; lia.
Qed.

Lemma aligned_ok chk k p : 0 <= k < 64 -> 0 <= p -> p + 2 ^ k - 1 < two64 ->
  aligned_to chk (2 ^ k) p = Ok (2 ^ k * ((p + 2 ^ k - 1) / 2 ^ k)).
Proof.
  intros Hk Hp Hl. unfold aligned_to. assert (0 < 2 ^ k) by (apply Z.pow_pos_nonneg; lia).
  replace (in_u64 (p + 2 ^ k - 1)) with true by (symmetry; apply in_u64_true; lia).
  rewrite land_align by lia. reflexivity.
Qed.


Lemma least_multiple_ok al p : 0 < al -> least_multiple al p (al * ((p + al - 1) / al)).
Proof.
  intro H. pose proof (Z.div_mod (p + al - 1) al ltac:(lia)) as HD.
  pose proof (Z.mod_pos_bound (p + al - 1) al H) as HM.
  split; [lia|]. split; [eexists; reflexivity|]. intros m Hm.
  apply Z.mul_le_mono_nonneg_l; [lia|].
  assert ((p + al - 1) / al <= m); [|assumption].
  apply Z.lt_succ_r. apply Z.div_lt_upper_bound; [lia|]. nia.
Qed.

Definition align8 (p : Z) : Z := 8 * ((p + 7) / 8).
Lemma aligned8_ok chk p : 0 <= p -> p + 7 < two64 -> aligned_to chk 8 p = Ok (align8 p).
Proof.
  intros. change 8 with (2 ^ 3) at 1. rewrite aligned_ok; [|lia|lia|change (2 ^ 3) with 8; lia].
  unfold align8. change (2 ^ 3) with 8. do 3 f_equal. lia.
Qed.
Lemma align8_range p : p <= align8 p < p + 8.
Proof. unfold align8. lia. Qed.
Lemma align8_mult p : exists m, align8 p = 8 * m.
Proof. unfold align8. eexists; reflexivity. Qed.
Lemma align8_id p m : p = 8 * m -> align8 p = p.
Proof. unfold align8. lia. Qed.
Lemma align8_idem p : align8 (align8 p) = align8 p.
Proof. unfold align8. lia. Qed.
