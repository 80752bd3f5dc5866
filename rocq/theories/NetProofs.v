(** Proving a statement about all inputs of a netlist by runs on partly unknown
    inputs, splitting on an input bit where one run is not enough. *)
From Verif Require Import Base BaseLemmas NetModel NetAbs FpuSpec.
From Coq Require Import PArith Lia.
Local Open Scope Z_scope.
Ltac Zify.zify_post_hook ::= Z.div_mod_to_equations.

(** *** Splitting *)
Definition look (p : pat) (k : positive) : option bool := nth (pred (Pos.to_nat k)) p None.
Definition inst (p : pat) (v : av) : av :=
  match v with
  | In_ s k => match look p k with Some b => K (xorb s b) | None => v end
  | _ => v end.
(** A case that cannot occur: the listed input bits have the listed values. *)
Definition inside (p : pat) (f : list (positive * bool)) : bool :=
  forallb (fun kc => match look p (fst kc) with Some b => Bool.eqb b (snd kc) | None => false end) f.
Fixpoint prove (net : netlist) (ins exp : list av) (never : list (list (positive * bool)))
               (vars : list positive) (p : pat) : bool :=
  if existsb (inside p) never then true
  else if all2 meets (map (inst p) exp) (arun net (map (inst p) ins)) then true
  else match vars with
       | [] => false
       | v :: vars' =>
           if prove net ins exp never vars' (upd (pred (Pos.to_nat v)) (Some false) p)
           then prove net ins exp never vars' (upd (pred (Pos.to_nat v)) (Some true) p) else false
       end.
Definition occurs (vs : list bool) (f : list (positive * bool)) : Prop :=
  forall kc, In kc f -> rho_of vs (fst kc) = snd kc.

Lemma f2_length {A B} (R : A -> B -> Prop) l m : Forall2 R l m -> length l = length m.
Proof. induction 1; cbn; congruence. Qed.
Lemma fits_nth p vs : Forall2 fits p vs -> forall n, fits (nth n p None) (nth n vs false).
Proof. induction 1 as [|o b p vs Hb _ IH]; intros [|n]; cbn; try exact I; [exact Hb | apply IH]. Qed.
Lemma fits_upd p vs n : Forall2 fits p vs -> Forall2 fits (upd n (Some (nth n vs false)) p) vs.
Proof.
  intros H. revert n. induction H as [|o b p vs Hb H IH]; intros [|n]; cbn [upd nth]; constructor; auto; reflexivity.
Qed.
Lemma inst_den p vs v b : Forall2 fits p vs -> (den (rho_of vs) (inst p v) b <-> den (rho_of vs) v b).
Proof.
  intros H. destruct v as [c|s k|]; cbn [inst]; try tauto.
  unfold look. assert (F := fits_nth p vs H (pred (Pos.to_nat k))).
  destruct (nth (pred (Pos.to_nat k)) p None) as [c|]; [|tauto]. cbn in F. cbn [den]. unfold rho_of. rewrite F. tauto.
Qed.
Lemma inst_den_all p vs l bs : Forall2 fits p vs ->
  (Forall2 (den (rho_of vs)) (map (inst p) l) bs <-> Forall2 (den (rho_of vs)) l bs).
Proof.
  intros H. revert bs. induction l as [|v l IH]; intros [|b bs]; cbn [map]; split; intros F; inversion F; subst; constructor;
    try (apply (inst_den p vs v b H); assumption); apply IH; assumption.
Qed.
Lemma all2_den rho e l bs : all2 meets e l = true -> Forall2 (den rho) l bs -> Forall2 (den rho) e bs.
Proof.
  intros H F. revert e H. induction F as [|v b l bs Hb _ IH]; intros [|x e] H; cbn in H; try discriminate; constructor.
  - apply andb_true_iff in H as [H _]. exact (meets_den _ _ _ _ H Hb).
  - apply andb_true_iff in H as [_ H]. apply IH, H.
Qed.
Theorem prove_sound net ins exp never vars : forall p, prove net ins exp never vars p = true ->
  forall vs bs, Forall2 fits p vs -> (forall f, In f never -> ~ occurs vs f) ->
    Forall2 (den (rho_of vs)) ins bs -> Forall2 (den (rho_of vs)) exp (run false negb andb net bs).
Proof.
  induction vars as [|v vars IH]; intros p H vs bs F N I; cbn [prove] in H.
  all: destruct (existsb (inside p) never) eqn:E.
  1,3: exfalso; apply existsb_exists in E as (f & Hf & Ef); apply (N f Hf); intros [k c] Hk;
    unfold inside in Ef; rewrite forallb_forall in Ef; specialize (Ef _ Hk); cbn [fst snd] in *;
    unfold look in Ef; assert (G := fits_nth p vs F (pred (Pos.to_nat k)));
    destruct (nth (pred (Pos.to_nat k)) p None); [|discriminate]; cbn in G; apply Bool.eqb_prop in Ef; unfold rho_of; congruence.
  all: destruct (all2 meets (map (inst p) exp) (arun net (map (inst p) ins))) eqn:M.
  1,3: apply (inst_den_all p vs exp _ F); apply (all2_den _ _ _ _ M), arun_sound, inst_den_all; assumption.
  - discriminate.
  - destruct (prove net ins exp never vars (upd (pred (Pos.to_nat v)) (Some false) p)) eqn:P0; [|discriminate].
    assert (U := fits_upd p vs (pred (Pos.to_nat v)) F).
    destruct (nth (pred (Pos.to_nat v)) vs false); [exact (IH _ H vs bs U N I) | exact (IH _ P0 vs bs U N I)].
Qed.

(** *** Words as bit lists *)
Lemma to_bits_length n : forall x, length (to_bits n x) = n.
Proof. induction n; intros; cbn [to_bits length]; congruence. Qed.
Lemma of_to_bits n : forall x, of_bits (to_bits n x) = x mod 2 ^ Z.of_nat n.
Proof.
  induction n as [|n IH]; intros x; cbn [to_bits of_bits].
  - change (2 ^ Z.of_nat 0) with 1. rewrite Z.mod_1_r. reflexivity.
  - rewrite IH, Nat2Z.inj_succ, Z.pow_succ_r by lia.
    assert (P : 0 < 2 ^ Z.of_nat n) by (apply Z.pow_pos_nonneg; lia). set (m := 2 ^ Z.of_nat n) in *.
    rewrite Z.rem_mul_r by lia. rewrite Zmod_odd. destruct (Z.odd x); reflexivity.
Qed.
Lemma of_bits_range l : 0 <= of_bits l < 2 ^ Z.of_nat (length l).
Proof.
  induction l as [|b l IH]; cbn [of_bits length]; [change (2 ^ Z.of_nat 0) with 1; lia|].
  rewrite Nat2Z.inj_succ, Z.pow_succ_r by lia. destruct b; cbn [b2z]; lia.
Qed.
Lemma to_of_bits l : to_bits (length l) (of_bits l) = l.
Proof.
  induction l as [|b l IH]; [reflexivity|]. cbn [length to_bits of_bits]. f_equal.
  - rewrite Z.odd_add_mul_2. destruct b; reflexivity.
  - replace ((b2z b + 2 * of_bits l) / 2) with (of_bits l) by (destruct b; cbn [b2z]; lia). exact IH.
Qed.
Lemma of_bits_app l m : of_bits (l ++ m) = of_bits l + 2 ^ Z.of_nat (length l) * of_bits m.
Proof.
  induction l as [|b l IH]; cbn [of_bits length app]; [change (2 ^ Z.of_nat 0) with 1; lia|].
  rewrite IH, Nat2Z.inj_succ, Z.pow_succ_r by lia. destruct b; cbn [b2z]; lia.
Qed.
Lemma to_bits_app n m x : to_bits (n + m) x = to_bits n x ++ to_bits m (x / 2 ^ Z.of_nat n).
Proof.
  revert x. induction n as [|n IH]; intros x; cbn [Nat.add to_bits app].
  - change (2 ^ Z.of_nat 0) with 1. rewrite Z.div_1_r. reflexivity.
  - f_equal. rewrite IH, Nat2Z.inj_succ, Z.pow_succ_r by lia. rewrite Z.div_div by (try lia; apply Z.pow_pos_nonneg; lia). reflexivity.
Qed.
Lemma to_bits_mod n x : to_bits n (x mod 2 ^ Z.of_nat n) = to_bits n x.
Proof.
  rewrite <- of_to_bits. rewrite <- (to_of_bits (to_bits n x)) at 2. rewrite to_bits_length. reflexivity.
Qed.

(** Exponent and fraction of a binary32 pattern. *)
Definition expo (a : Z) : Z := f_mag a / 2 ^ 23.
Definition frac (a : Z) : Z := f_mag a mod 2 ^ 23.
Lemma word_split a : is_w 32 a -> to_bits 32 a = to_bits 23 (frac a) ++ to_bits 8 (expo a) ++ [f_sign a].
Proof.
  unfold is_w. change (2 ^ 32) with 4294967296. intros H.
  change 32%nat with (23 + (8 + 1))%nat. rewrite to_bits_app. rewrite to_bits_app.
  change (Z.of_nat 23) with 23. change (Z.of_nat 8) with 8.
  assert (E1 : a / 2 ^ 23 / 2 ^ 8 = if f_sign a then 1 else 0).
  { unfold f_sign. change (2 ^ 23) with 8388608. change (2 ^ 8) with 256. change (2 ^ 31) with 2147483648.
    destruct (Z.leb_spec 2147483648 a); lia. }
  rewrite E1. f_equal; [|f_equal].
  - rewrite <- (to_bits_mod 23 a). change (Z.of_nat 23) with 23. f_equal.
    unfold frac, f_mag. change (2 ^ 23) with 8388608. change (2 ^ 31) with 2147483648. lia.
  - rewrite <- (to_bits_mod 8 (a / 2 ^ 23)). change (Z.of_nat 8) with 8. f_equal.
    unfold expo, f_mag. change (2 ^ 23) with 8388608. change (2 ^ 31) with 2147483648. change (2 ^ 8) with 256. lia.
  - destruct (f_sign a); reflexivity.
Qed.
Lemma expo_range a : 0 <= expo a < 256.
Proof. unfold expo, f_mag. change (2 ^ 23) with 8388608. change (2 ^ 31) with 2147483648. lia. Qed.
Lemma frac_range a : 0 <= frac a < 2 ^ 23.
Proof. unfold frac. apply Z.mod_pos_bound. reflexivity. Qed.
Lemma mag_parts a : f_mag a = expo a * 2 ^ 23 + frac a.
Proof. unfold expo, frac. change (2 ^ 23) with 8388608. lia. Qed.

(** *** Patterns and templates *)
Definition free (n : nat) : pat := repeat None n.
Definition is (n : nat) (x : Z) : pat := map Some (to_bits n x).
Lemma fits_free n l : length l = n -> Forall2 fits (free n) l.
Proof. intros <-. induction l; cbn; constructor; auto. exact I. Qed.
Lemma fits_is n x y : y mod 2 ^ Z.of_nat n = x mod 2 ^ Z.of_nat n -> Forall2 fits (is n x) (to_bits n y).
Proof.
  intros E. unfold is. rewrite <- (to_bits_mod n y), E, to_bits_mod.
  induction (to_bits n x) as [|b l IH]; cbn; constructor; [reflexivity | exact IH].
Qed.
Lemma fits_app p q l m : Forall2 fits p l -> Forall2 fits q m -> Forall2 fits (p ++ q) (l ++ m).
Proof. apply Forall2_app. Qed.

(** Input bit k (counted from 0) and runs of them. *)
Definition ib (k : nat) : av := In_ false (Pos.of_succ_nat k).
Definition ibs (k n : nat) : list av := map ib (seq k n).
Definition kz (n : nat) (x : Z) : list av := map K (to_bits n x).
Definition vX (n : nat) : list av := repeat X n.
Lemma rho_ib vs k : rho_of vs (Pos.of_succ_nat k) = nth k vs false.
Proof. unfold rho_of. rewrite SuccNat2Pos.id_succ. reflexivity. Qed.
Lemma den_ibs_gen vs : forall n k, (k + n <= length vs)%nat -> Forall2 (den (rho_of vs)) (ibs k n) (firstn n (skipn k vs)).
Proof.
  induction n as [|n IH]; intros k H; cbn [ibs seq map firstn]; [constructor|].
  destruct (skipn k vs) as [|b l] eqn:E.
  { assert (length (skipn k vs) = 0)%nat by (rewrite E; reflexivity). rewrite skipn_length in *. lia. }
  assert (Eb : nth k vs false = b).
  { rewrite <- (firstn_skipn k vs), E. rewrite app_nth2; rewrite firstn_length_le by lia; [|lia]. rewrite Nat.sub_diag. reflexivity. }
  assert (El : skipn (S k) vs = l).
  { change (S k) with (1 + k)%nat. rewrite <- skipn_skipn || idtac. 
    replace (1 + k)%nat with (k + 1)%nat by lia.
    assert (Q : forall (A : Type) (x y : nat) (u : list A), skipn (x + y) u = skipn y (skipn x u)).
    { clear. intros A x. induction x; intros y [|a u]; cbn [Nat.add skipn]; try reflexivity; [destruct y; reflexivity | apply IHx]. }
    rewrite Q, E. reflexivity. }
  constructor.
  - cbn [den ib]. rewrite rho_ib, Eb. destruct b; reflexivity.
  - rewrite <- El. apply (IH (S k)). lia.
Qed.
(** The three input words as variables. *)
Definition ABR : list av := ibs 0 67.
Definition vals (a b rm : Z) : list bool := to_bits 32 a ++ to_bits 32 b ++ to_bits 3 rm.
Lemma vals_length a b rm : length (vals a b rm) = 67%nat.
Proof. unfold vals. rewrite !app_length, !to_bits_length. reflexivity. Qed.
Lemma den_ABR a b rm : Forall2 (den (rho_of (vals a b rm))) ABR (vals a b rm).
Proof.
  assert (H := den_ibs_gen (vals a b rm) 67 0). rewrite vals_length in H. specialize (H (le_n _)).
  cbn [skipn] in H. rewrite firstn_all2 in H by (rewrite vals_length; lia). exact H.
Qed.
Lemma skip_app {A} n (l m : list A) : n = length l -> skipn n (l ++ m) = m.
Proof. intros ->. rewrite skipn_app, skipn_all, Nat.sub_diag. reflexivity. Qed.
Lemma first_app {A} n (l m : list A) : n = length l -> firstn n (l ++ m) = l.
Proof. intros ->. rewrite firstn_app, firstn_all, Nat.sub_diag. cbn. apply app_nil_r. Qed.
Lemma den_A a b rm : Forall2 (den (rho_of (vals a b rm))) (ibs 0 32) (to_bits 32 a).
Proof.
  assert (H := den_ibs_gen (vals a b rm) 32 0). rewrite vals_length in H. specialize (H ltac:(lia)).
  cbn [skipn] in H. unfold vals at 2 in H. rewrite first_app in H by (rewrite to_bits_length; reflexivity). exact H.
Qed.
Lemma den_RM a b rm : Forall2 (den (rho_of (vals a b rm))) (ibs 64 3) (to_bits 3 rm).
Proof.
  assert (H := den_ibs_gen (vals a b rm) 3 64). rewrite vals_length in H. specialize (H ltac:(lia)).
  unfold vals at 2 in H. rewrite app_assoc in H. rewrite skip_app in H by (rewrite app_length, !to_bits_length; reflexivity).
  rewrite firstn_all2 in H by (rewrite to_bits_length; lia). exact H.
Qed.
Lemma den_B a b rm : Forall2 (den (rho_of (vals a b rm))) (ibs 32 32) (to_bits 32 b).
Proof.
  assert (H := den_ibs_gen (vals a b rm) 32 32). rewrite vals_length in H. specialize (H ltac:(lia)).
  unfold vals at 2 in H. rewrite skip_app in H by (rewrite to_bits_length; reflexivity).
  rewrite first_app in H by (rewrite to_bits_length; reflexivity). exact H.
Qed.
Lemma den_kz rho n x : Forall2 (den rho) (kz n x) (to_bits n x).
Proof. unfold kz. induction (to_bits n x); cbn; constructor; [reflexivity | assumption]. Qed.

(** A template without [X] determines the bits. *)
Definition known (v : av) : bool := match v with X => false | _ => true end.
Lemma den_unique rho e l m : forallb known e = true -> Forall2 (den rho) e l -> Forall2 (den rho) e m -> l = m.
Proof.
  intros Hk F. revert m. induction F as [|v b e l Hb _ IH]; intros m G; inversion G as [|? c ? m' Hc Hm]; subst; [reflexivity|].
  cbn in Hk. apply andb_true_iff in Hk as [K1 K2]. f_equal; [|apply IH; assumption].
  destruct v; cbn in *; congruence.
Qed.
Lemma f2_app_inv {A B} (R : A -> B -> Prop) e f l : Forall2 R (e ++ f) l ->
  Forall2 R e (firstn (length e) l) /\ Forall2 R f (skipn (length e) l).
Proof.
  revert l. induction e as [|v e IH]; intros l H; cbn [app length firstn skipn] in *; [split; [constructor | exact H]|].
  inversion H as [|? b ? l' Hb Hl]; subst. destruct (IH l' Hl). split; [constructor|]; assumption.
Qed.

(** The form all theorems use: a template [r] for the 32 result bits and [fl]
    for the five flags. *)
Theorem rtl_value net ins r fl never vars p : prove net ins (r ++ fl) never vars p = true -> length r = 32%nat ->
  forallb known r = true ->
  forall vs a b rm x, Forall2 fits p vs -> (forall f, In f never -> ~ occurs vs f) ->
    Forall2 (den (rho_of vs)) ins (vals a b rm) -> Forall2 (den (rho_of vs)) r (to_bits 32 x) ->
    fst (rtl net a b rm) = x mod 2 ^ 32.
Proof.
  intros P Lr Kr vs a b rm x F N I R.
  assert (O := prove_sound _ _ _ _ _ _ P vs _ F N I).
  apply f2_app_inv in O as [O _]. rewrite Lr in O.
  unfold rtl. cbn [fst]. fold (vals a b rm).
  rewrite (den_unique _ _ _ _ Kr O R). rewrite of_to_bits. reflexivity.
Qed.
Theorem rtl_flags net ins r fl never vars p : prove net ins (r ++ fl) never vars p = true -> length r = 32%nat ->
  forallb known fl = true ->
  forall vs a b rm x, Forall2 fits p vs -> (forall f, In f never -> ~ occurs vs f) ->
    Forall2 (den (rho_of vs)) ins (vals a b rm) -> Forall2 (den (rho_of vs)) fl (to_bits 5 x) ->
    snd (rtl net a b rm) = x mod 32.
Proof.
  intros P Lr Kr vs a b rm x F N I R.
  assert (O := prove_sound _ _ _ _ _ _ P vs _ F N I).
  apply f2_app_inv in O as [_ O]. rewrite Lr in O.
  unfold rtl. cbn [snd]. fold (vals a b rm).
  rewrite (den_unique _ _ _ _ Kr O R). rewrite of_to_bits. reflexivity.
Qed.

(** *** Cases that cannot occur *)
Definition zeros (k n : nat) : list (positive * bool) := map (fun i => (Pos.of_succ_nat i, false)) (seq k n).
Definition ones (k n : nat) : list (positive * bool) := map (fun i => (Pos.of_succ_nat i, true)) (seq k n).
Lemma nth_field (u : list bool) : forall x y z, (y < z)%nat -> nth y (firstn z (skipn x u)) false = nth (x + y) u false.
Proof.
  intros x. revert u. induction x; intros u y z Hz; cbn [Nat.add skipn].
  - revert y z Hz. induction u; intros [|y] [|z] Hz; cbn; try lia; try reflexivity. apply IHu. lia.
  - destruct u; cbn [nth]; [rewrite firstn_nil; destruct y; reflexivity | apply IHx; exact Hz].
Qed.
Lemma occurs_all vs k n c : occurs vs (map (fun i => (Pos.of_succ_nat i, c)) (seq k n)) -> (k + n <= length vs)%nat ->
  Forall (fun b => b = c) (firstn n (skipn k vs)).
Proof.
  intros H L. apply Forall_forall. intros b Hb. apply (In_nth _ _ false) in Hb as (i & Hi & <-).
  rewrite firstn_length, skipn_length in Hi.
  assert (O := H (Pos.of_succ_nat (k + i), c)). cbn [fst snd] in O. rewrite rho_ib in O.
  rewrite nth_field by lia. apply O. apply in_map_iff. exists (k + i)%nat. split; [reflexivity | apply in_seq; lia].
Qed.
Lemma occurs_zeros vs k n : occurs vs (zeros k n) -> (k + n <= length vs)%nat -> of_bits (firstn n (skipn k vs)) = 0.
Proof.
  intros H L. assert (G := occurs_all vs k n false H L). clear H L.
  induction G as [|b l -> _ IH]; cbn [of_bits b2z]; [reflexivity | rewrite IH; reflexivity].
Qed.
Lemma occurs_ones vs k n : occurs vs (ones k n) -> (k + n <= length vs)%nat -> of_bits (firstn n (skipn k vs)) = 2 ^ Z.of_nat n - 1.
Proof.
  intros H L. assert (G := occurs_all vs k n true H L).
  assert (Hl : length (firstn n (skipn k vs)) = n) by (rewrite firstn_length, skipn_length; lia).
  rewrite <- Hl at 2. clear Hl H L.
  induction G as [|b l -> _ IH]; cbn [of_bits b2z length]; [reflexivity|].
  rewrite Nat2Z.inj_succ, Z.pow_succ_r by lia. rewrite IH. lia.
Qed.
(** The fields of the two operands inside [vals]. *)
Lemma field_eq a n k : (k + n <= 32)%nat -> firstn n (skipn k (to_bits 32 a)) = to_bits n (a / 2 ^ Z.of_nat k).
Proof.
  intros H. replace 32%nat with (k + (n + (32 - k - n)))%nat by lia.
  rewrite to_bits_app, skip_app by (rewrite to_bits_length; reflexivity).
  rewrite to_bits_app, first_app by (rewrite to_bits_length; reflexivity). reflexivity.
Qed.
Lemma field_a a b rm n k : (k + n <= 32)%nat -> firstn n (skipn k (vals a b rm)) = to_bits n (a / 2 ^ Z.of_nat k).
Proof.
  intros H. rewrite <- field_eq by exact H. unfold vals.
  rewrite skipn_app, firstn_app. rewrite to_bits_length, skipn_length, to_bits_length.
  replace (n - (32 - k))%nat with 0%nat by lia. cbn [firstn]. apply app_nil_r.
Qed.
Lemma field_b a b rm n k : (k + n <= 32)%nat -> firstn n (skipn (32 + k) (vals a b rm)) = to_bits n (b / 2 ^ Z.of_nat k).
Proof.
  intros H. rewrite <- field_eq by exact H. unfold vals.
  rewrite skipn_app, to_bits_length. replace (32 + k - 32)%nat with k by lia.
  rewrite (skipn_all2 (to_bits 32 a)) by (rewrite to_bits_length; lia). cbn [app].
  rewrite skipn_app, firstn_app. rewrite to_bits_length, skipn_length, to_bits_length.
  replace (n - (32 - k))%nat with 0%nat by lia. cbn [firstn]. apply app_nil_r.
Qed.

(** *** Operands *)
Lemma word_mag a : is_w 32 a -> to_bits 32 a = to_bits 31 (f_mag a) ++ [f_sign a].
Proof.
  intros H. rewrite (word_split a H), app_assoc. f_equal. symmetry.
  change 31%nat with (23 + 8)%nat. rewrite to_bits_app. change (Z.of_nat 23) with 23. f_equal.
  rewrite <- (to_bits_mod 23 (f_mag a)). reflexivity.
Qed.
Lemma fits_vals p q r a b rm : Forall2 fits p (to_bits 32 a) -> Forall2 fits q (to_bits 32 b) -> Forall2 fits r (to_bits 3 rm) ->
  Forall2 fits (p ++ q ++ r) (vals a b rm).
Proof. intros. unfold vals. repeat apply Forall2_app; assumption. Qed.
Lemma fits_free_word n x : Forall2 fits (free n) (to_bits n x).
Proof. apply fits_free, to_bits_length. Qed.
Lemma fits_self n x : Forall2 fits (is n x) (to_bits n x).
Proof. apply fits_is. reflexivity. Qed.
Lemma fits_mag a m s : is_w 32 a -> f_mag a = m -> fits s (f_sign a) -> Forall2 fits (is 31 m ++ [s]) (to_bits 32 a).
Proof. intros H <- S. rewrite word_mag by exact H. apply Forall2_app; [apply fits_self | constructor; [exact S | constructor]]. Qed.
Lemma fits_expo a e s : is_w 32 a -> expo a = e -> fits s (f_sign a) -> Forall2 fits (free 23 ++ is 8 e ++ [s]) (to_bits 32 a).
Proof.
  intros H <- S. rewrite word_split by exact H. repeat apply Forall2_app; [apply fits_free_word | apply fits_self |].
  constructor; [exact S | constructor].
Qed.
Lemma fits_sign a s : is_w 32 a -> fits s (f_sign a) -> Forall2 fits (free 31 ++ [s]) (to_bits 32 a).
Proof. intros H S. rewrite word_mag by exact H. apply Forall2_app; [apply fits_free_word | constructor; [exact S | constructor]]. Qed.
Lemma den_sign31 vs a b rm s x : vs = vals a b rm -> is_w 32 a -> is_w 32 x -> f_sign x = xorb s (f_sign a) ->
  forall m, f_mag x = m -> Forall2 (den (rho_of vs)) (kz 31 m ++ [In_ s 32]) (to_bits 32 x).
Proof.
  intros -> Ha Hx S m <-. rewrite (word_mag x Hx). apply Forall2_app; [apply den_kz|].
  constructor; [|constructor]. cbn [den]. rewrite S. f_equal. unfold vals. rewrite (word_mag a Ha).
  unfold rho_of. change (pred (Pos.to_nat 32)) with 31%nat.
  rewrite <- app_assoc. rewrite app_nth2; rewrite to_bits_length; [reflexivity | lia].
Qed.

(** Never: infinity or NaN, zero, zero fraction. *)
Definition top_a := ones 23 8.
Definition top_b := ones 55 8.
Definition zero_a := zeros 0 31.
Definition zero_b := zeros 32 31.
Definition nofrac_a := zeros 0 23.
Definition nofrac_b := zeros 32 23.
Lemma mid_expo a : (a / 2 ^ 23) mod 2 ^ 8 = expo a.
Proof. unfold expo, f_mag. change (2 ^ 23) with 8388608. change (2 ^ 31) with 2147483648. change (2 ^ 8) with 256. lia. Qed.
Lemma low_frac a : (a / 2 ^ 0) mod 2 ^ 23 = frac a.
Proof. unfold frac, f_mag. change (2 ^ 0) with 1. change (2 ^ 23) with 8388608. change (2 ^ 31) with 2147483648. lia. Qed.
Lemma low_mag a : (a / 2 ^ 0) mod 2 ^ 31 = f_mag a.
Proof. unfold f_mag. change (2 ^ 0) with 1. rewrite Z.div_1_r. reflexivity. Qed.
Lemma never_top_a a b rm : expo a <> 255 -> ~ occurs (vals a b rm) top_a.
Proof.
  intros H O. apply occurs_ones in O; [|rewrite vals_length; lia].
  rewrite field_a, of_to_bits in O by lia. change (Z.of_nat 23) with 23 in O. change (Z.of_nat 8) with 8 in O.
  rewrite mid_expo in O. change (2 ^ 8 - 1) with 255 in O. contradiction.
Qed.
Lemma never_top_b a b rm : expo b <> 255 -> ~ occurs (vals a b rm) top_b.
Proof.
  intros H O. apply occurs_ones in O; [|rewrite vals_length; lia].
  change 55%nat with (32 + 23)%nat in O. rewrite field_b, of_to_bits in O by lia. change (Z.of_nat 23) with 23 in O. change (Z.of_nat 8) with 8 in O.
  rewrite mid_expo in O. change (2 ^ 8 - 1) with 255 in O. contradiction.
Qed.
Lemma never_zero_a a b rm : f_mag a <> 0 -> ~ occurs (vals a b rm) zero_a.
Proof.
  intros H O. apply occurs_zeros in O; [|rewrite vals_length; lia].
  rewrite field_a, of_to_bits in O by lia. change (Z.of_nat 0) with 0 in O. change (Z.of_nat 31) with 31 in O.
  rewrite low_mag in O. contradiction.
Qed.
Lemma never_zero_b a b rm : f_mag b <> 0 -> ~ occurs (vals a b rm) zero_b.
Proof.
  intros H O. apply occurs_zeros in O; [|rewrite vals_length; lia].
  change 32%nat with (32 + 0)%nat in O. rewrite field_b, of_to_bits in O by lia. change (Z.of_nat 0) with 0 in O. change (Z.of_nat 31) with 31 in O.
  rewrite low_mag in O. contradiction.
Qed.
Lemma never_nofrac_a a b rm : frac a <> 0 -> ~ occurs (vals a b rm) nofrac_a.
Proof.
  intros H O. apply occurs_zeros in O; [|rewrite vals_length; lia].
  rewrite field_a, of_to_bits in O by lia. change (Z.of_nat 0) with 0 in O. change (Z.of_nat 23) with 23 in O.
  rewrite low_frac in O. contradiction.
Qed.
Lemma never_nofrac_b a b rm : frac b <> 0 -> ~ occurs (vals a b rm) nofrac_b.
Proof.
  intros H O. apply occurs_zeros in O; [|rewrite vals_length; lia].
  change 32%nat with (32 + 0)%nat in O. rewrite field_b, of_to_bits in O by lia. change (Z.of_nat 0) with 0 in O. change (Z.of_nat 23) with 23 in O.
  rewrite low_frac in O. contradiction.
Qed.
Lemma nan_parts a : f_nan a -> expo a = 255 /\ frac a <> 0.
Proof.
  unfold f_nan, expo, frac, INF, f_mag. change (2 ^ 23) with 8388608. change (2 ^ 31) with 2147483648. lia.
Qed.
Lemma finite_expo a : f_mag a < INF -> expo a <> 255.
Proof. unfold expo, INF, f_mag. change (2 ^ 23) with 8388608. change (2 ^ 31) with 2147483648. lia. Qed.
(** Splitting order: the given bits from the top. *)
Definition down (k n : nat) : list positive := map Pos.of_succ_nat (rev (seq k n)).
Definition expfrac_a := down 23 8 ++ down 0 23.
Definition expfrac_b := down 55 8 ++ down 32 23.

(** *** Two runs *)
Lemma pden_same l : Forall2 pden (repeat Same (length l)) (map (fun b => (b, b)) l).
Proof. induction l; cbn; constructor; [reflexivity | assumption]. Qed.
Lemma rtl_length net a b rm : length (run false negb andb net (vals a b rm)) = length (snd net).
Proof. apply run_length. Qed.
Definition pc (n : nat) (x y : Z) : list pv := map (fun xy => B2 (fst xy) (snd xy)) (combine (to_bits n x) (to_bits n y)).
Lemma pden_pc n x y : Forall2 pden (pc n x y) (combine (to_bits n x) (to_bits n y)).
Proof. unfold pc. induction (combine (to_bits n x) (to_bits n y)) as [|[u v] l IH]; cbn; constructor; [reflexivity | exact IH]. Qed.
Lemma fst_combine {A B} (l : list A) (m : list B) : length l = length m -> map fst (combine l m) = l.
Proof. revert m. induction l; intros [|y m] H; cbn in *; try discriminate; [reflexivity|]. f_equal. apply IHl. congruence. Qed.
Lemma snd_combine {A B} (l : list A) (m : list B) : length l = length m -> map snd (combine l m) = m.
Proof. revert m. induction l; intros [|y m] H; cbn in *; try discriminate; [reflexivity|]. f_equal. apply IHl. congruence. Qed.
Definition same_outb (v : pv) : bool := match v with Same => true | B2 x y => Bool.eqb x y | XX => false end.
Lemma same_outb_ok l : forallb same_outb l = true -> Forall same_out l.
Proof.
  intros H. rewrite forallb_forall in H. apply Forall_forall. intros v Hv. specialize (H v Hv).
  destruct v; cbn in *; [apply Bool.eqb_prop; exact H | exact I | discriminate].
Qed.
(** Same operands, two rounding modes. *)
Theorem two_modes net r q n : forallb same_outb (firstn n (prun net (repeat Same 64 ++ pc 3 r q))) = true ->
  forall a b, firstn n (run false negb andb net (vals a b r)) = firstn n (run false negb andb net (vals a b q)).
Proof.
  intros H a b. apply same_outb_ok in H.
  set (l := to_bits 32 a ++ to_bits 32 b).
  assert (Ll : length l = 64%nat) by (unfold l; rewrite app_length, !to_bits_length; reflexivity).
  assert (F : Forall2 pden (repeat Same 64 ++ pc 3 r q) (map (fun x => (x, x)) l ++ combine (to_bits 3 r) (to_bits 3 q))).
  { apply Forall2_app; [rewrite <- Ll; apply pden_same | apply pden_pc]. }
  assert (S := prun_same net _ _ n F H).
  rewrite !map_app, !map_map in S. cbn [fst snd] in S. rewrite map_id in S.
  rewrite fst_combine, snd_combine in S by (rewrite !to_bits_length; reflexivity).
  unfold vals. rewrite !app_assoc. exact S.
Qed.
(** Same magnitudes, given signs, two rounding modes. *)
Theorem two_signs net sa sb sa' sb' r q n :
  forallb same_outb (firstn n (prun net (repeat Same 31 ++ [B2 sa sa'] ++ repeat Same 31 ++ [B2 sb sb'] ++ pc 3 r q))) = true ->
  forall a b a' b', is_w 32 a -> is_w 32 b -> is_w 32 a' -> is_w 32 b' -> f_mag a = f_mag a' -> f_mag b = f_mag b' ->
    f_sign a = sa -> f_sign b = sb -> f_sign a' = sa' -> f_sign b' = sb' ->
    firstn n (run false negb andb net (vals a b r)) = firstn n (run false negb andb net (vals a' b' q)).
Proof.
  intros H a b a' b' Ha Hb Ha' Hb' Ma Mb <- <- <- <-. apply same_outb_ok in H.
  set (bs := map (fun x => (x, x)) (to_bits 31 (f_mag a)) ++ [(f_sign a, f_sign a')] ++
             map (fun x => (x, x)) (to_bits 31 (f_mag b)) ++ [(f_sign b, f_sign b')] ++ combine (to_bits 3 r) (to_bits 3 q)).
  assert (F : Forall2 pden (repeat Same 31 ++ [B2 (f_sign a) (f_sign a')] ++ repeat Same 31 ++ [B2 (f_sign b) (f_sign b')] ++ pc 3 r q) bs).
  { assert (Q : forall m, Forall2 pden (repeat Same 31) (map (fun x => (x, x)) (to_bits 31 m))).
    { intros m. assert (P := pden_same (to_bits 31 m)). rewrite to_bits_length in P. exact P. }
    repeat apply Forall2_app; try apply Q; try apply pden_pc; (constructor; [reflexivity | constructor]). }
  assert (S := prun_same net _ _ n F H). unfold bs in S.
  rewrite !map_app, !map_map in S. cbn [fst snd map] in S. rewrite !map_id in S.
  rewrite fst_combine, snd_combine in S by (rewrite !to_bits_length; reflexivity).
  unfold vals. rewrite (word_mag a Ha), (word_mag b Hb), (word_mag a' Ha'), (word_mag b' Hb'), <- Ma, <- Mb.
  rewrite <- !app_assoc. exact S.
Qed.
Lemma rtl_eq net a b r a' b' q : firstn 37 (run false negb andb net (vals a b r)) = firstn 37 (run false negb andb net (vals a' b' q)) ->
  length (snd net) = 37%nat -> rtl net a b r = rtl net a' b' q.
Proof.
  intros H L. rewrite !firstn_all2 in H by (rewrite run_length, L; lia). unfold rtl, vals in *. rewrite H. reflexivity.
Qed.
Lemma mag_of_bits l : length l = 37%nat -> f_mag (of_bits (firstn 32 l)) = of_bits (firstn 31 l).
Proof.
  intros L. replace (firstn 32 l) with (firstn 31 l ++ firstn 1 (skipn 31 l)).
  2:{ rewrite <- (firstn_skipn 31 l) at 3. rewrite firstn_app, firstn_length_le, firstn_firstn by lia. reflexivity. }
  rewrite of_bits_app, firstn_length_le by lia. change (Z.of_nat 31) with 31. unfold f_mag.
  rewrite Z.mul_comm, Z.mod_add by lia. apply Z.mod_small.
  assert (R := of_bits_range (firstn 31 l)). rewrite firstn_length_le in R by lia. exact R.
Qed.
Lemma rtl_mag_eq net a b r a' b' q : firstn 31 (run false negb andb net (vals a b r)) = firstn 31 (run false negb andb net (vals a' b' q)) ->
  length (snd net) = 37%nat -> f_mag (fst (rtl net a b r)) = f_mag (fst (rtl net a' b' q)).
Proof.
  intros H L. unfold rtl. cbn [fst]. fold (vals a b r). fold (vals a' b' q).
  rewrite !mag_of_bits by (rewrite run_length; exact L). rewrite H. reflexivity.
Qed.
Lemma rtl_range net a b r : length (snd net) = 37%nat -> is_w 32 (fst (rtl net a b r)).
Proof.
  intros L. unfold rtl. cbn [fst]. assert (R := of_bits_range (firstn 32 (run false negb andb net (vals a b r)))).
  rewrite firstn_length_le in R by (rewrite run_length; lia). exact R.
Qed.
Lemma rtl_sign net a b r : length (snd net) = 37%nat -> f_sign (fst (rtl net a b r)) = nth 31 (run false negb andb net (vals a b r)) false.
Proof.
  intros L. assert (W := rtl_range net a b r L). assert (M := word_mag _ W).
  unfold rtl in *. cbn [fst] in *. fold (vals a b r) in *. set (l := run false negb andb net (vals a b r)) in *.
  assert (Ll : length l = 37%nat) by (unfold l; rewrite run_length; exact L).
  assert (E : to_bits 32 (of_bits (firstn 32 l)) = firstn 32 l).
  { rewrite <- (to_of_bits (firstn 32 l)) at 2. rewrite firstn_length_le by lia. reflexivity. }
  rewrite E in M. assert (N : nth 31 (firstn 32 l) false = nth 31 l false) by apply (nth_field l 0 31 32 ltac:(lia)).
  rewrite <- N. set (y := of_bits (firstn 32 l)) in *. rewrite M. rewrite app_nth2; rewrite to_bits_length; [reflexivity | lia].
Qed.
