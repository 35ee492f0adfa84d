(** Facts about the stacks. *)
From Coq Require Import ZArith List Bool Lia ZifyBool ZifyNat.
From Verif Require Import Base Stack State Exec LBase Spec.
Import ListNotations.
Open Scope Z_scope.

Section S.
Context {T : Type}.
Implicit Types (s : stack T) (l : list T).

Lemma w8sub_ok a c : 0 <= a - c < 256 -> w8sub a c = a - c.
Proof. intro. unfold w8sub. apply Z.mod_small. assumption. Qed.
Lemma w8add_ok a c : 0 <= a + c < 256 -> w8add a c = a + c.
Proof. intro. unfold w8add. apply Z.mod_small. assumption. Qed.

Lemma len_sset s i x : len (sset s i x) = len s. Proof. reflexivity. Qed.
Lemma len_set_len s n : len (set_len s n) = n. Proof. reflexivity. Qed.
Lemma canary_sset s i x : canary (sset s i x) = canary s. Proof. reflexivity. Qed.
Lemma canary_set_len s n : canary (set_len s n) = canary s. Proof. reflexivity. Qed.
Lemma sget_set_len s n i : sget (set_len s n) i = sget s i. Proof. reflexivity. Qed.
Lemma sget_sset_same s i x : sget (sset s i x) i = x.
Proof. apply tget_tset_same. Qed.
Lemma sget_sset_other s i j x : 0 <= i -> 0 <= j -> i <> j -> sget (sset s i x) j = sget s j.
Proof. apply tget_tset_other. Qed.

Lemma sget_sset_eq s i j x : i = j -> sget (sset s i x) j = x.
Proof. intros ->. apply sget_sset_same. Qed.

(** [slots s n l]: the [n] lowest slots hold [l], highest first *)
Definition slots s (n : Z) l : Prop :=
  n = zlen l /\ forall k x, nth_error l k = Some x -> sget s (n - 1 - Z.of_nat k) = x.

Lemma stack_has_slots s l : stack_has s l <-> slots s (len s) l /\ zlen l <= 255.
Proof. unfold stack_has, slots. tauto. Qed.

Lemma slots_nil s n : slots s n [] <-> n = 0.
Proof.
  unfold slots. split; [intros [H _]; exact H|]. intros ->. split; [reflexivity|].
  intros [|k] x; discriminate.
Qed.

Lemma slots_cons s n x l : slots s n (x :: l) <-> sget s (n - 1) = x /\ slots s (n - 1) l.
Proof.
  unfold slots. rewrite zlen_cons. split.
  - intros [Hn H]. split; [|split; [lia|]].
    + specialize (H 0%nat x eq_refl). rewrite <- H. f_equal. lia.
    + intros k y Hk. rewrite <- (H (S k) y Hk). f_equal. lia.
  - intros [Hx [Hn H]]. split; [lia|]. intros [|k] y Hk.
    + injection Hk as <-. rewrite <- Hx. f_equal. lia.
    + rewrite <- (H k y Hk). f_equal. lia.
Qed.

Lemma slots_sset s n l i x : 0 <= i -> n <= i -> slots (sset s i x) n l <-> slots s n l.
Proof.
  intros Hi Hn. unfold slots. split; intros [H1 H]; (split; [exact H1|]); intros k y Hk; specialize (H k y Hk).
  - assert (Hl : (k < List.length l)%nat) by (apply nth_error_Some; congruence).
    rewrite sget_sset_other in H; [exact H| | |]; unfold zlen in *; lia.
  - assert (Hl : (k < List.length l)%nat) by (apply nth_error_Some; congruence).
    rewrite sget_sset_other; [exact H| | |]; unfold zlen in *; lia.
Qed.

Lemma slots_set_len s n l m : slots (set_len s m) n l <-> slots s n l.
Proof. unfold slots. setoid_rewrite sget_set_len. tauto. Qed.

Lemma slots_zlen s n l : slots s n l -> n = zlen l.
Proof. intros [H _]; exact H. Qed.

Lemma slots_app s n l1 l2 : slots s n (l1 ++ l2) -> slots s (n - zlen l1) l2.
Proof.
  revert n. induction l1 as [|x l1 IH]; intros n H; cbn [app] in H.
  - rewrite zlen_nil, Z.sub_0_r. exact H.
  - apply slots_cons in H. destruct H as [_ H]. apply IH in H.
    rewrite zlen_cons. replace (n - (zlen l1 + 1)) with (n - 1 - zlen l1) by lia. exact H.
Qed.

Lemma stack_has_nth s l k x : stack_has s l -> nth_error l k = Some x -> sget s (len s - 1 - Z.of_nat k) = x.
Proof. intros [_ [_ H]]. apply H. Qed.

Lemma stack_has_len s l : stack_has s l -> len s = zlen l.
Proof. intros [H _]; exact H. Qed.
Lemma stack_has_bound s l : stack_has s l -> 0 <= len s <= 255.
Proof. intros [H [H1 _]]. pose proof (zlen_nonneg l). lia. Qed.

Lemma stack_has_inj s l l' : stack_has s l -> stack_has s l' -> l = l'.
Proof.
  intros [H1 [H2 H3]] [H1' [H2' H3']].
  assert (List.length l = List.length l') as HL by (unfold zlen in *; lia).
  apply nth_error_ext. intro k.
  destruct (nth_error l k) as [x|] eqn:Hk.
  - destruct (nth_error l' k) as [y|] eqn:Hk'.
    + f_equal. rewrite <- (H3 k x Hk), <- (H3' k y Hk'). reflexivity.
    + apply nth_error_None in Hk'. assert (k < List.length l)%nat by (apply nth_error_Some; congruence). lia.
  - symmetry. apply nth_error_None. apply nth_error_None in Hk. lia.
Qed.

(** Every stack whose length is a u8 has some contents *)
Lemma stack_has_exists s : 0 <= len s <= 255 -> exists l, stack_has s l.
Proof.
  intro H. exists (map (fun k => sget s (len s - 1 - Z.of_nat k)) (seq 0 (Z.to_nat (len s)))).
  split; [|split].
  - unfold zlen. rewrite map_length, seq_length. lia.
  - unfold zlen. rewrite map_length, seq_length. lia.
  - intros k x Hk. rewrite nth_error_map in Hk.
    destruct (nth_error (seq 0 (Z.to_nat (len s))) k) as [j|] eqn:Hj; [|discriminate].
    cbn in Hk. injection Hk as <-.
    assert (Hl : (k < Z.to_nat (len s))%nat).
    { rewrite <- (seq_length (Z.to_nat (len s)) 0). apply nth_error_Some. congruence. }
    apply nth_error_nth with (d := 0%nat) in Hj. rewrite seq_nth in Hj by exact Hl. subst j. reflexivity.
Qed.

Lemma high_refl s : high_slots_kept s s.
Proof. split; auto. Qed.

(** push / pop *)
Lemma push_has s l x : stack_has s l -> zlen l < 255 -> stack_has (push s x) (x :: l).
Proof.
  intros H Hl. pose proof (stack_has_bound _ _ H). pose proof (stack_has_len _ _ H).
  apply stack_has_slots in H. destruct H as [H _].
  apply stack_has_slots. unfold push. rewrite len_sset, len_set_len, zlen_cons.
  rewrite (w8add_ok (len s) 1) by lia. rewrite w8sub_ok by lia. split; [|lia].
  apply slots_cons. replace (len s + 1 - 1) with (len s) by lia. split; [apply sget_sset_same|].
  apply slots_sset; [lia|lia|]. apply slots_set_len. exact H.
Qed.

Lemma pop_has s x l : stack_has s (x :: l) -> exists s', pop s = (x, s') /\ stack_has s' l /\ high_slots_kept s s'.
Proof.
  intro H. pose proof (stack_has_bound _ _ H). pose proof (stack_has_len _ _ H) as HL.
  rewrite zlen_cons in HL. pose proof (zlen_nonneg l).
  apply stack_has_slots in H. destruct H as [H _]. apply slots_cons in H. destruct H as [Hx H].
  unfold pop. rewrite w8sub_ok by lia. exists (set_len s (len s - 1)). split; [rewrite Hx; reflexivity|].
  split.
  - apply stack_has_slots. rewrite len_set_len. split; [apply slots_set_len; exact H|lia].
  - split; [reflexivity|]. intros i ? ? ?. apply sget_set_len.
Qed.

Lemma push_high s x : 0 <= len s < 255 -> high_slots_kept s (push s x).
Proof.
  intro H. unfold push. rewrite (w8add_ok (len s) 1) by lia. rewrite w8sub_ok by lia.
  split; [reflexivity|]. rewrite len_sset, len_set_len. intros i ? ? ?.
  rewrite sget_sset_other by lia. apply sget_set_len.
Qed.

Lemma reset_has s : stack_has (stack_reset s) [].
Proof. split; [reflexivity|]. split; [cbn; lia|]. intros [|k] x; discriminate. Qed.

End S.

(** Decompose hypotheses [stack_has s (a :: b :: ...)] and prove the resulting
    contents of a stack built from [s] with [sset]/[set_len]. *)
Ltac w8 :=
  repeat first
    [ rewrite w8add_ok by lia
    | rewrite w8sub_ok by lia ].

Ltac slots_hyp H :=
  let HL := fresh "HL" in let HB := fresh "HB" in
  pose proof (stack_has_len _ _ H) as HL; pose proof (stack_has_bound _ _ H) as HB;
  apply stack_has_slots in H; destruct H as [H _];
  repeat rewrite zlen_cons in HL;
  repeat match type of H with
  | slots _ _ (_ :: _) =>
      let Hx := fresh "Hx" in apply slots_cons in H; destruct H as [Hx H]
  end.

Ltac sg :=
  repeat first
    [ rewrite sget_set_len
    | rewrite len_sset
    | rewrite len_set_len
    | rewrite sget_sset_eq by lia
    | rewrite sget_sset_other by lia ].

Ltac slots_goal :=
  apply stack_has_slots; repeat rewrite zlen_cons;
  rewrite ?len_sset, ?len_set_len;
  split; [|lia];
  repeat (apply slots_cons; split);
  repeat first
   [ apply slots_sset; [lia|lia|]
   | apply slots_set_len ].

(** Close [sget s i = a] or [slots s n l] from a hypothesis up to arithmetic *)
Ltac slot_close :=
  match goal with
  | H : sget ?s ?j = ?a |- sget ?s ?i = ?a => replace i with j by lia; exact H
  | H : sget ?s ?j = ?a |- ?a = sget ?s ?i => symmetry; replace i with j by lia; exact H
  | H : slots ?s ?j ?l |- slots ?s ?i ?l => replace i with j by lia; exact H
  | |- sget ?s ?i = sget ?s ?j => f_equal; lia
  end.

Ltac high_goal :=
  split; [reflexivity|];
  let i := fresh "i" in let H1 := fresh in let H2 := fresh in let H3 := fresh in
  intros i H1 H2 H3; rewrite ?len_sset, ?len_set_len in *; sg; reflexivity.
