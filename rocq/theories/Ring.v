(** Ring buffers: the window of [count] slots starting at [head] of an array of
    [N] slots. *)
From Verif Require Import Base BaseLemmas.
Local Open Scope nat_scope.

Definition ring {A} (N : nat) (buf : nat -> A) (head count : nat) : list A :=
  map (fun k => buf ((head + k) mod N)) (seq 0 count).

Lemma ring_length {A} N (buf : nat -> A) h c : length (ring N buf h c) = c.
Proof. unfold ring. now rewrite map_length, seq_length. Qed.

Lemma mod_cases N a : 0 < N -> a < N + N -> a mod N = if a <? N then a else a - N.
Proof.
  intros HN H. destruct (Nat.ltb_spec a N).
  - apply Nat.mod_small; assumption.
  - replace a with ((a - N) + 1 * N) at 1 by lia. rewrite Nat.mod_add by lia. apply Nat.mod_small. lia.
Qed.
(** Distinct offsets below [N] name distinct slots. *)
Lemma slot_inj N h i j : 0 < N -> i < N -> j < N -> (h + i) mod N = (h + j) mod N -> i = j.
Proof.
  intros HN Hi Hj E. rewrite <- (Nat.add_mod_idemp_l h i), <- (Nat.add_mod_idemp_l h j) in E by lia.
  pose proof (Nat.mod_upper_bound h N). set (m := h mod N) in *.
  rewrite !mod_cases in E by lia.
  destruct (Nat.ltb_spec (m + i) N); destruct (Nat.ltb_spec (m + j) N); lia.
Qed.
Lemma slot_surj N h x : 0 < N -> x < N -> exists k, k < N /\ x = (h + k) mod N.
Proof.
  intros HN Hx. pose proof (Nat.mod_upper_bound h N). set (m := h mod N) in *.
  exists ((x + (N - m)) mod N). split; [apply Nat.mod_upper_bound; lia|].
  rewrite Nat.add_mod_idemp_r by lia. rewrite <- Nat.add_mod_idemp_l by lia. fold m.
  replace (m + (x + (N - m))) with (x + 1 * N) by lia. rewrite Nat.mod_add by lia.
  symmetry. apply Nat.mod_small. exact Hx.
Qed.
Lemma ring_ext {A} N (f g : nat -> A) h c :
  (forall k, k < c -> f ((h + k) mod N) = g ((h + k) mod N)) -> ring N f h c = ring N g h c.
Proof. intros H. unfold ring. apply map_ext_in. intros k K. apply in_seq in K. apply H. lia. Qed.

Lemma ring_push {A} N (buf : nat -> A) h c v : 0 < N -> c < N ->
  ring N (fupd buf ((h + c) mod N) v) h (S c) = ring N buf h c ++ [v].
Proof.
  intros HN H. unfold ring. rewrite seq_S, map_app. f_equal.
  - apply map_ext_in. intros k K. apply in_seq in K. apply fupd_ne.
    intros E. apply slot_inj in E; lia.
  - cbn. rewrite fupd_eq. reflexivity.
Qed.
Lemma ring_cons {A} N (buf : nat -> A) h c : 0 < N ->
  ring N buf h (S c) = buf (h mod N) :: ring N buf ((h + 1) mod N) c.
Proof.
  intros HN. unfold ring. cbn [seq map]. rewrite Nat.add_0_r. f_equal.
  rewrite <- seq_shift, map_map. apply map_ext. intros k.
  rewrite Nat.add_mod_idemp_l by lia. f_equal. f_equal. lia.
Qed.
Lemma ring_pop {A} N (buf : nat -> A) h c v : 0 < N -> S c <= N -> h < N ->
  ring N (fupd buf h v) ((h + 1) mod N) c = tl (ring N buf h (S c)).
Proof.
  intros HN H Hh. rewrite ring_cons by lia. cbn [tl]. apply ring_ext. intros k K. apply fupd_ne.
  rewrite Nat.add_mod_idemp_l by lia. intros E. replace h with ((h + 0) mod N) in E at 2 by (rewrite Nat.add_0_r; now apply Nat.mod_small).
  replace (h + 1 + k) with (h + (S k)) in E by lia. apply slot_inj in E; lia.
Qed.
Lemma seq_off_gen a b : forall s, seq (a + s) b = map (fun k => a + k) (seq s b).
Proof.
  induction b as [|b IH]; intros s; [reflexivity|]. cbn. f_equal. rewrite <- IH. f_equal. lia.
Qed.
Lemma seq_off a b : seq a b = map (fun k => a + k) (seq 0 b).
Proof. rewrite <- seq_off_gen. f_equal. lia. Qed.
Lemma ring_app {A} N (buf : nat -> A) h a b : 0 < N ->
  ring N buf h (a + b) = ring N buf h a ++ ring N buf ((h + a) mod N) b.
Proof.
  intros HN. unfold ring. rewrite seq_app, map_app. f_equal. cbn [Nat.add].
  rewrite (seq_off a b), map_map. apply map_ext. intros k. rewrite Nat.add_mod_idemp_l by lia. f_equal. f_equal. lia.
Qed.
Lemma ring_firstn {A} N (buf : nat -> A) h c n : n <= c -> firstn n (ring N buf h c) = ring N buf h n.
Proof.
  intros H. unfold ring. rewrite firstn_map. f_equal. replace c with (n + (c - n)) by lia.
  rewrite seq_app, firstn_app, seq_length, Nat.sub_diag, app_nil_r. rewrite <- (seq_length n 0) at 1. apply firstn_all.
Qed.
Lemma ring_nth {A} N (buf : nat -> A) h c k d : k < c -> nth k (ring N buf h c) d = buf ((h + k) mod N).
Proof.
  intros H. unfold ring. set (f := fun k => buf ((h + k) mod N)).
  rewrite (nth_indep _ d (f 0)) by (rewrite map_length, seq_length; exact H).
  rewrite map_nth, seq_nth by exact H. reflexivity.
Qed.
