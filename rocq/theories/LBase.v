(** Facts about casts, total maps and lists. *)
From Coq Require Import ZArith List Bool FMapPositive Lia.
From Coq Require Import ZifyBool ZifyNat.
From Verif Require Import Base.
Import ListNotations.
Open Scope Z_scope.
Ltac Zify.zify_post_hook ::= Z.div_mod_to_equations.

(** ** Total maps *)

Lemma tkey_inj i j : 0 <= i -> 0 <= j -> tkey i = tkey j -> i = j.
Proof. unfold tkey; intros Hi Hj H. apply (f_equal Zpos) in H. rewrite !Z2Pos.id in H; lia. Qed.

Lemma tget_tset_same {A} (d : A) m i x : tget d (tset m i x) i = x.
Proof. unfold tget, tset. rewrite PositiveMap.gss. reflexivity. Qed.

Lemma tget_tset_other {A} (d : A) m i j x :
  0 <= i -> 0 <= j -> i <> j -> tget d (tset m i x) j = tget d m j.
Proof.
  intros Hi Hj Hn. unfold tget, tset. rewrite PositiveMap.gso; [reflexivity|].
  intro H. apply Hn. symmetry. apply tkey_inj; assumption.
Qed.

Lemma tget_tempty {A} (d : A) i : tget d tempty i = d.
Proof. unfold tget, tempty. rewrite PositiveMap.gempty. reflexivity. Qed.

(** ** Casts *)

Lemma two64_val : two64 = 2 ^ 64. Proof. reflexivity. Qed.

Lemma to_u64_range z : 0 <= to_u64 z < two64.
Proof. unfold to_u64. apply Z.mod_pos_bound. reflexivity. Qed.

Lemma to_u64_id z : 0 <= z < two64 -> to_u64 z = z.
Proof. unfold to_u64. apply Z.mod_small. Qed.

Lemma to_i64_cases z :
  (to_i64 z = z mod two64 /\ z mod two64 < two63) \/
  (to_i64 z = z mod two64 - two64 /\ two63 <= z mod two64 < two64).
Proof.
  unfold to_i64. pose proof (Z.mod_pos_bound z two64 eq_refl).
  destruct (Z.ltb_spec (z mod two64) two63); [left|right]; lia.
Qed.

Lemma to_i64_range z : imin <= to_i64 z <= imax.
Proof. destruct (to_i64_cases z) as [[-> ?]|[-> ?]]; unfold imin, imax, two63, two64 in *; lia. Qed.

Lemma to_i64_id z : imin <= z <= imax -> to_i64 z = z.
Proof. destruct (to_i64_cases z) as [[-> ?]|[-> ?]]; unfold imin, imax, two63, two64 in *; lia. Qed.

Lemma to_i64_mod z : exists k, z = to_i64 z + k * 2 ^ 64.
Proof.
  change (2 ^ 64) with two64.
  destruct (to_i64_cases z) as [[-> ?]|[-> ?]];
    [exists (z / two64)|exists (z / two64 + 1)]; unfold two63, two64 in *; lia.
Qed.

Lemma to_u64_to_i64 z : to_u64 (to_i64 z) = to_u64 z.
Proof. unfold to_u64. destruct (to_i64_cases z) as [[-> ?]|[-> ?]]; unfold two63, two64 in *; lia. Qed.

Lemma to_i64_to_u64 z : to_i64 (to_u64 z) = to_i64 z.
Proof. unfold to_u64, to_i64. rewrite Z.mod_mod by discriminate. reflexivity. Qed.

Lemma to_i64_u64_id z : imin <= z <= imax -> to_i64 (to_u64 z) = z.
Proof. intros. rewrite to_i64_to_u64. apply to_i64_id; assumption. Qed.

Lemma to_u64_i64_id z : 0 <= z < two64 -> to_u64 (to_i64 z) = z.
Proof. intros. rewrite to_u64_to_i64. apply to_u64_id; assumption. Qed.

Lemma in_i64_true z : in_i64 z = true <-> imin <= z <= imax.
Proof. unfold in_i64. lia. Qed.
Lemma in_i64_false z : in_i64 z = false <-> z < imin \/ imax < z.
Proof. unfold in_i64. lia. Qed.
Lemma in_u64_true z : in_u64 z = true <-> 0 <= z < two64.
Proof. unfold in_u64. lia. Qed.
Lemma in_u64_false z : in_u64 z = false <-> z < 0 \/ two64 <= z.
Proof. unfold in_u64. lia. Qed.

(** Uniqueness of the representative *)
Lemma to_i64_unique r z k : imin <= r <= imax -> z = r + k * 2 ^ 64 -> to_i64 z = r.
Proof.
  intros Hr ->. rewrite <- (to_i64_id r) at 2 by assumption.
  unfold to_i64. change (2 ^ 64) with two64. rewrite Z.mod_add by discriminate. reflexivity.
Qed.

Lemma to_i64_congr a c k : a = c + k * 2 ^ 64 -> to_i64 a = to_i64 c.
Proof.
  intros ->. unfold to_i64. change (2 ^ 64) with two64. rewrite Z.mod_add by discriminate. reflexivity.
Qed.

(** ** Lists *)

Lemma zlen_nil {A} : zlen (@nil A) = 0. Proof. reflexivity. Qed.
Lemma zlen_cons {A} (x : A) l : zlen (x :: l) = zlen l + 1.
Proof. unfold zlen. cbn [List.length]. lia. Qed.
Lemma zlen_app {A} (l m : list A) : zlen (l ++ m) = zlen l + zlen m.
Proof. unfold zlen. rewrite app_length. lia. Qed.
Lemma zlen_nonneg {A} (l : list A) : 0 <= zlen l.
Proof. unfold zlen. lia. Qed.
Lemma zlen_map {A B} (f : A -> B) l : zlen (map f l) = zlen l.
Proof. unfold zlen. rewrite map_length. reflexivity. Qed.

Lemma bytes_eqb_eq x y : bytes_eqb x y = true <-> x = y.
Proof.
  revert y; induction x as [|a x IH]; intros [|c y]; cbn [bytes_eqb]; split; intro H; try congruence; try discriminate.
  - apply andb_true_iff in H. destruct H as [H1 H2]. apply Z.eqb_eq in H1. apply IH in H2. congruence.
  - injection H as -> ->. rewrite Z.eqb_refl. cbn. apply IH. reflexivity.
Qed.

Lemma eq_ignore_case_iff x y : eq_ignore_case x y = true <-> map lower x = map lower y.
Proof. apply bytes_eqb_eq. Qed.

Lemma lower_idem c : lower (lower c) = lower c.
Proof. unfold lower. destruct ((65 <=? c) && (c <=? 90)) eqn:H1; [|rewrite H1; reflexivity].
  destruct ((65 <=? c + 32) && (c + 32 <=? 90)) eqn:H2; lia. Qed.

Lemma map_lower_idem l : map lower (map lower l) = map lower l.
Proof. rewrite map_map. apply map_ext. exact lower_idem. Qed.

Lemma nth_error_ext {A} (l l' : list A) : (forall k, nth_error l k = nth_error l' k) -> l = l'.
Proof.
  revert l'; induction l as [|x l IH]; intros [|y l'] H; [reflexivity| | |].
  - specialize (H 0%nat); discriminate.
  - specialize (H 0%nat); discriminate.
  - f_equal; [specialize (H 0%nat); cbn in H; congruence|]. apply IH. intro k. exact (H (S k)).
Qed.
