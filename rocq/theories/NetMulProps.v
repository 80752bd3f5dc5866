(** C69, second half: the multiplier netlist fmul.h, for all operands, and FPURtl. *)
From Verif Require Import Base BaseLemmas FpuModel FpuSpec NetModel NetAbs NetProofs NetMul NetMulChk.
From Verif Require NetAdd NetAddProps FpuProofs.
From Coq Require Import PArith Lia.
Local Open Scope Z_scope.
Ltac Zify.zify_post_hook ::= Z.div_mod_to_equations.
#[local] Opaque fmul NetAdd.fadd prove rtl vals run to_bits is free kz ibs vX arun prun.

Lemma fst_pair {A B} (p : A * B) x y : fst p = x -> snd p = y -> p = (x, y).
Proof. destruct p. cbn. intros -> ->. reflexivity. Qed.
Lemma den_signb a b rm s x m : is_w 32 b -> is_w 32 x -> f_sign x = xorb s (f_sign b) -> f_mag x = m ->
  Forall2 (den (rho_of (vals a b rm))) (kz 31 m ++ [In_ s 64]) (to_bits 32 x).
Proof.
  intros Hb Hx S <-. rewrite (word_mag x Hx). apply Forall2_app; [apply den_kz|].
  constructor; [|constructor]. cbn [den]. rewrite S.
  assert (D := den_B a b rm). rewrite (word_mag b Hb) in D.
  change (ibs 32 32) with (ibs 32 31 ++ [In_ false 64]) in D.
  apply f2_app_inv in D as [_ D]. replace (length (ibs 32 31)) with 31%nat in D by reflexivity.
  rewrite skip_app in D by (rewrite to_bits_length; reflexivity). inversion D as [|? ? ? ? E _]; subst. cbn [den] in E.
  rewrite E. destruct (rho_of (vals a b rm) 64), s; reflexivity.
Qed.
(** The word with a given sign and magnitude. *)
Definition mk (s : bool) (m : Z) : Z := m + (if s then 2 ^ 31 else 0).
Lemma mk_ok s m : 0 <= m < 2 ^ 31 -> is_w 32 (mk s m) /\ f_sign (mk s m) = s /\ f_mag (mk s m) = m.
Proof.
  unfold is_w, mk, f_sign, f_mag. change (2 ^ 32) with 4294967296. change (2 ^ 31) with 2147483648. intros H.
  destruct s; repeat split; lia.
Qed.
Definition opp (a b : Z) : bool := negb (Bool.eqb (f_sign a) (f_sign b)).
Lemma opp_a a b : opp a b = xorb (f_sign b) (f_sign a).
Proof. unfold opp. destruct (f_sign a), (f_sign b); reflexivity. Qed.
Lemma opp_b a b : opp a b = xorb (f_sign a) (f_sign b).
Proof. unfold opp. destruct (f_sign a), (f_sign b); reflexivity. Qed.

Lemma f2_cons_l {A B} (R : A -> B -> Prop) x l m : Forall2 R (x :: l) m -> exists y m', m = y :: m' /\ R x y /\ Forall2 R l m'.
Proof. intros H. inversion H; subst. eauto. Qed.
Theorem c69_mul_nan : forall a b rm, is_w 32 a -> is_w 32 b ->
  f_nan a \/ f_nan b -> fst (rtl fmul a b rm) = NAN.
Proof.
  intros a b rm Ha Hb H. change NAN with (NAN mod 2 ^ 32).
  destruct H as [N|N]; apply nan_parts in N as [E F].
  - eapply (rtl_value _ _ _ _ _ _ _ p_nan_a); [reflexivity | reflexivity | | | apply den_ABR | apply den_kz].
    + apply fits_vals; [apply fits_expo; [exact Ha | exact E | exact I] | |]; apply fits_free_word.
    + intros f [<-|[]]. apply never_nofrac_a, F.
  - eapply (rtl_value _ _ _ _ _ _ _ p_nan_b); [reflexivity | reflexivity | | | apply den_ABR | apply den_kz].
    + apply fits_vals; [| apply fits_expo; [exact Hb | exact E | exact I] |]; apply fits_free_word.
    + intros f [<-|[]]. apply never_nofrac_b, F.
Qed.

Theorem c69_mul_inf_zero : forall a b rm, is_w 32 a -> is_w 32 b ->
  (f_mag a = INF /\ f_mag b = 0) \/ (f_mag a = 0 /\ f_mag b = INF) -> rtl fmul a b rm = (NAN, 16).
Proof.
  intros a b rm Ha Hb [[Ma Mb]|[Ma Mb]].
  - assert (Q : Forall2 fits (infp None ++ zerop None ++ free 3) (vals a b rm)).
    { apply fits_vals; [apply fits_mag; [exact Ha | exact Ma | exact I] | apply fits_mag; [exact Hb | exact Mb | exact I] | apply fits_free_word]. }
    apply fst_pair; [change NAN with (NAN mod 2 ^ 32); eapply (rtl_value _ _ _ _ _ _ _ p_inf_zero)
                    |change 16 with (16 mod 32); eapply (rtl_flags _ _ _ _ _ _ _ p_inf_zero)];
      [reflexivity | reflexivity | exact Q | intros f [] | apply den_ABR | apply den_kz
      |reflexivity | reflexivity | exact Q | intros f [] | apply den_ABR | apply den_kz].
  - assert (Q : Forall2 fits (zerop None ++ infp None ++ free 3) (vals a b rm)).
    { apply fits_vals; [apply fits_mag; [exact Ha | exact Ma | exact I] | apply fits_mag; [exact Hb | exact Mb | exact I] | apply fits_free_word]. }
    apply fst_pair; [change NAN with (NAN mod 2 ^ 32); eapply (rtl_value _ _ _ _ _ _ _ p_zero_inf)
                    |change 16 with (16 mod 32); eapply (rtl_flags _ _ _ _ _ _ _ p_zero_inf)];
      [reflexivity | reflexivity | exact Q | intros f [] | apply den_ABR | apply den_kz
      |reflexivity | reflexivity | exact Q | intros f [] | apply den_ABR | apply den_kz].
Qed.

(** Infinite and zero products: magnitude and sign. *)
Theorem c69_mul_inf : forall a b rm, is_w 32 a -> is_w 32 b ->
  (f_mag a = INF /\ 0 < f_mag b <= INF) \/ (f_mag b = INF /\ 0 < f_mag a <= INF) ->
  fst (rtl fmul a b rm) = mk (opp a b) INF.
Proof.
  intros a b rm Ha Hb H.
  destruct (mk_ok (opp a b) INF) as (W1 & W2 & W3); [unfold INF; split; reflexivity || discriminate|].
  rewrite <- (Z.mod_small (mk (opp a b) INF) (2 ^ 32)) by exact W1.
  assert (C : (f_mag a = INF /\ f_mag b = INF) \/ (f_mag a = INF /\ 0 < f_mag b < INF) \/ (f_mag b = INF /\ 0 < f_mag a < INF)) by lia.
  clear H. destruct C as [[Ma Mb]|[[Ma Mb]|[Mb Ma]]].
  - eapply (rtl_value _ _ _ _ _ _ _ (p_inf_inf (f_sign b))); [reflexivity | reflexivity | | intros f [] | apply den_ABR |].
    + apply fits_vals; [apply fits_mag; [exact Ha | exact Ma | exact I] | apply fits_mag; [exact Hb | exact Mb | reflexivity] | apply fits_free_word].
    + eapply den_sign31; [reflexivity | exact Ha | exact W1 | rewrite W2; apply opp_a | exact W3].
  - eapply (rtl_value _ _ _ _ _ _ _ (p_inf_a (f_sign b))); [reflexivity | reflexivity | | | apply den_ABR |].
    + apply fits_vals; [apply fits_mag; [exact Ha | exact Ma | exact I] | apply fits_sign; [exact Hb | reflexivity] | apply fits_free_word].
    + intros f [<-|[<-|[]]]; [apply never_zero_b; lia | apply never_top_b, finite_expo; lia].
    + eapply den_sign31; [reflexivity | exact Ha | exact W1 | rewrite W2; apply opp_a | exact W3].
  - eapply (rtl_value _ _ _ _ _ _ _ (p_inf_b (f_sign a))); [reflexivity | reflexivity | | | apply den_ABR |].
    + apply fits_vals; [apply fits_sign; [exact Ha | reflexivity] | apply fits_mag; [exact Hb | exact Mb | exact I] | apply fits_free_word].
    + intros f [<-|[<-|[]]]; [apply never_zero_a; lia | apply never_top_a, finite_expo; lia].
    + apply den_signb; [exact Hb | exact W1 | rewrite W2; apply opp_b | exact W3].
Qed.
Theorem c69_mul_zero : forall a b rm, is_w 32 a -> is_w 32 b -> f_mag a < INF -> f_mag b < INF ->
  f_mag a = 0 \/ f_mag b = 0 -> fst (rtl fmul a b rm) = mk (opp a b) 0.
Proof.
  intros a b rm Ha Hb Fa Fb H.
  destruct (mk_ok (opp a b) 0) as (W1 & W2 & W3); [split; reflexivity || discriminate|].
  rewrite <- (Z.mod_small (mk (opp a b) 0) (2 ^ 32)) by exact W1.
  destruct H as [Ma|Mb].
  - eapply (rtl_value _ _ _ _ _ _ _ (p_zero_a (f_sign b))); [reflexivity | reflexivity | | | apply den_ABR |].
    + apply fits_vals; [apply fits_mag; [exact Ha | exact Ma | exact I] | apply fits_sign; [exact Hb | reflexivity] | apply fits_free_word].
    + intros f [<-|[]]. apply never_top_b, finite_expo, Fb.
    + eapply den_sign31; [reflexivity | exact Ha | exact W1 | rewrite W2; apply opp_a | exact W3].
  - eapply (rtl_value _ _ _ _ _ _ _ (p_zero_b (f_sign a))); [reflexivity | reflexivity | | | apply den_ABR |].
    + apply fits_vals; [apply fits_sign; [exact Ha | reflexivity] | apply fits_mag; [exact Hb | exact Mb | exact I] | apply fits_free_word].
    + intros f [<-|[]]. apply never_top_a, finite_expo, Fa.
    + apply den_signb; [exact Hb | exact W1 | rewrite W2; apply opp_b | exact W3].
Qed.

(** *** The sign of every product that is not a NaN *)
Lemma zero_bit e : 0 <= e < 255 -> exists i, (i < 8)%nat /\ nth i (to_bits 8 e) true = false.
Proof.
  intros H.
  assert (C : forallb (fun n => existsb (fun i => negb (nth i (to_bits 8 (Z.of_nat n)) true)) (seq 0 8)) (seq 0 255) = true) by (vm_compute; reflexivity).
  assert (F := proj1 (forallb_forall _ _) C (Z.to_nat e)). cbn beta in F. rewrite Z2Nat.id in F by lia.
  assert (F' : existsb (fun i => negb (nth i (to_bits 8 e) true)) (seq 0 8) = true) by (apply F, in_seq; lia).
  apply existsb_exists in F' as (i & Hi & Hn). exists i. apply in_seq in Hi. apply negb_true_iff in Hn. split; [lia | exact Hn].
Qed.
Lemma fits_put i : forall n (l : list bool), length l = n -> nth i l true = false -> Forall2 fits (upd i (Some false) (free n)) l.
Proof.
  Transparent free. unfold free. induction i as [|i IH]; intros [|n] [|x l] L N; cbn in *; try discriminate; constructor; try exact I; auto.
  - apply fits_free. congruence.
Qed.
#[local] Opaque free.
Lemma fits_hole a s : is_w 32 a -> expo a <> 255 -> fits s (f_sign a) ->
  exists i, In i (seq 23 8) /\ Forall2 fits (hole i s) (to_bits 32 a).
Proof.
  intros Ha E S. assert (R := expo_range a). destruct (zero_bit (expo a)) as (i & Hi & N); [lia|].
  exists (23 + i)%nat. split; [apply in_seq; lia|]. unfold hole.
  rewrite (word_split a Ha), app_assoc. apply Forall2_app; [|constructor; [exact S | constructor]].
  apply fits_put; [rewrite app_length, !to_bits_length; reflexivity|].
  rewrite app_nth2; rewrite to_bits_length; [|lia]. replace (23 + i - 23)%nat with i by lia. exact N.
Qed.
Lemma last_den rho l v w : Forall2 (den rho) ((vX 31 ++ [v]) ++ w) l -> den rho v (nth 31 l false).
Proof.
  Transparent vX. unfold vX. cbn [repeat app]. intros H.
  do 31 (apply f2_cons_l in H as (? & ? & -> & _ & H)). apply f2_cons_l in H as (? & ? & -> & H & _). exact H.
Qed.
#[local] Opaque vX.
Theorem c69_mul_sign : forall a b rm, is_w 32 a -> is_w 32 b -> f_mag a < INF -> f_mag b < INF ->
  f_sign (fst (rtl fmul a b rm)) = opp a b.
Proof.
  intros a b rm Ha Hb Fa Fb.
  destruct (fits_hole a None Ha (finite_expo a Fa) I) as (i & Hi & Qi).
  destruct (fits_hole b (Some (f_sign b)) Hb (finite_expo b Fb) eq_refl) as (j & Hj & Qj).
  assert (P : sign_ok i j (f_sign b) = true).
  { assert (F := proj1 (forallb_forall _ _) (proj1 (forallb_forall _ _) p_sign i Hi) j Hj). cbn beta in F.
    destruct (sign_ok i j true) eqn:T; [|discriminate]. destruct (f_sign b); [exact T | exact F]. }
  unfold sign_ok in P. rewrite rtl_sign by exact fmul37.
  assert (D := prove_sound _ _ _ _ _ _ P (vals a b rm) (vals a b rm) (fits_vals _ _ _ _ _ _ Qi Qj (fits_free_word 3 rm)) ltac:(intros f []) (den_ABR a b rm)).
  assert (L : length (run false negb andb fmul (vals a b rm)) = 37%nat) by (rewrite run_length; exact fmul37).
  revert D L. generalize (run false negb andb fmul (vals a b rm)). intros l D L.
  assert (No := last_den _ l _ _ D). cbn [den sgn] in No.
  rewrite No, opp_a.
  assert (DA := den_A a b rm). rewrite (word_mag a Ha) in DA. change (ibs 0 32) with (ibs 0 31 ++ [In_ false 32]) in DA.
  apply f2_app_inv in DA as [_ DA]. replace (length (ibs 0 31)) with 31%nat in DA by reflexivity.
  rewrite skip_app in DA by (rewrite to_bits_length; reflexivity). inversion DA as [|? ? ? ? EA _]; subst. cbn [den] in EA.
  rewrite EA. destruct (rho_of (vals a b rm) 32), (f_sign b); reflexivity.
Qed.

(** *** The magnitude does not depend on the signs *)
Theorem c69_mul_magnitude : forall a b a' b' rm, is_w 32 a -> is_w 32 b -> is_w 32 a' -> is_w 32 b' ->
  In rm [0; 1; 4; 7] -> f_mag a' = f_mag a -> f_mag b' = f_mag b ->
  f_mag (fst (rtl fmul a' b' rm)) = f_mag (fst (rtl fmul a b rm)).
Proof.
  intros a b a' b' rm Ha Hb Ha' Hb' Hr Ma Mb. symmetry. apply rtl_mag_eq; [|exact fmul37].
  eapply (two_signs _ _ _ _ _ _ _ _ (p_mag (f_sign a) (f_sign b) (f_sign a') (f_sign b') rm Hr)); auto.
Qed.

(** *** Multiplying by one *)
Definition ONE := 0x3f800000.
Lemma fits_mode rm : 0 <= rm < 8 -> exists m, In m modes /\ Forall2 fits m (to_bits 3 rm).
Proof.
  intros H. assert (C : rm = 0 \/ rm = 1 \/ rm = 2 \/ rm = 3 \/ rm = 4 \/ rm = 5 \/ rm = 6 \/ rm = 7) by lia.
  destruct C as [->|[->|[->|[->|[->|[->|[->| ->]]]]]]].
  1,2: exists [None; Some false; Some false]. 3,4: exists [None; Some true; Some false]. 5-8: exists [None; None; Some true].
  all: split; [cbn; tauto | vm_compute; repeat constructor].
Qed.
Theorem c69_mul_one : forall x rm, is_w 32 x -> 0 <= rm < 8 -> f_mag x < INF ->
  fst (rtl fmul x ONE rm) = x /\ fst (rtl fmul ONE x rm) = x.
Proof.
  intros x rm Hx Hr Fx. destruct (fits_mode rm Hr) as (m & Hm & Qm). rewrite <- (Z.mod_small x (2 ^ 32)) at 2 4 by exact Hx.
  split.
  - assert (P := proj1 (forallb_forall _ _) (p_one_b (f_sign x)) m Hm). cbn beta in P.
    eapply (rtl_value _ _ _ _ _ _ _ P); [reflexivity | reflexivity | | | apply den_ABR | apply den_A].
    + apply fits_vals; [apply fits_sign; [exact Hx | reflexivity] | apply fits_self | exact Qm].
    + intros f [<-|[]]. apply never_top_a, finite_expo, Fx.
  - assert (P := proj1 (forallb_forall _ _) (p_one_a (f_sign x)) m Hm). cbn beta in P.
    eapply (rtl_value _ _ _ _ _ _ _ P); [reflexivity | reflexivity | | | apply den_ABR | apply den_B].
    + apply fits_vals; [apply fits_self | apply fits_sign; [exact Hx | reflexivity] | exact Qm].
    + intros f [<-|[]]. apply never_top_b, finite_expo, Fx.
Qed.

(** *** Modes above 4 are one mode; it is not the one FPUSoftfloat uses for 7 *)
Theorem c69_mul_modes : forall a b rm, In rm [5; 6; 7] -> rtl fmul a b rm = rtl fmul a b 7.
Proof. intros a b rm H. apply rtl_eq; [|exact fmul37]. apply two_modes, p_modes, H. Qed.
Lemma apart (p : Z -> bool) x y : xorb (p x) (p y) = true -> x <> y.
Proof. intros H ->. rewrite xorb_nilpotent in H. discriminate. Qed.
(** Mode 7 (dynamic) drops the low bits and yet overflows to infinity: neither
    nearest-even, which FPUSoftfloat takes for 7, nor any other mode. *)
Theorem c69_mul_dynamic_refuted : exists a b c d, is_w 32 a /\ is_w 32 b /\ is_w 32 c /\ is_w 32 d /\
  (forall rm, In rm [0; 3; 4] -> fst (rtl fmul a b rm) <> fst (rtl fmul a b 7)) /\
  (forall rm, In rm [1; 2] -> fst (rtl fmul c d rm) <> fst (rtl fmul c d 7)).
Proof.
  exists 0xa0ce6a8a, 0xbf8d8455, 0x6233b069, 0x7ef90f87.
  do 4 (split; [split; [discriminate | reflexivity]|]). split; intros rm H; cbn [In] in H.
  - destruct H as [<-|[<-|[<-|[]]]]; apply (apart (fun x => x =? 0x20e436c2)); vm_compute; reflexivity.
  - destruct H as [<-|[<-|[]]]; apply (apart (fun x => x =? INF)); vm_compute; reflexivity.
Qed.
(** The flags of the multiplier, which FPURtl drops: division by zero (bit 3) on
    an overflow and on an exact infinity; no underflow and no inexact flag on a
    product too small to represent. *)
Theorem c69_mul_flags_refuted :
  rtl fmul 0x7f7fffff 0x7f7fffff 0 = (INF, 13) /\ rtl fmul INF ONE 0 = (INF, 8) /\
  rtl fmul 0x137fffff 0x01000001 0 = (0, 0).
Proof. vm_compute. auto. Qed.

(** *** FPURtl *)
Import NetAddProps.
Definition fpu_rtl := fpurtl NetAdd.fadd fmul.
Lemma xor_sign b : is_w 32 b -> Z.lxor b 0x80000000 = NEG b.
Proof. intros H. transitivity (with_sign (xorb (f_sign b) true) b); [exact (FpuProofs.lxor_sign b true H)|]. unfold NEG. destruct (f_sign b); reflexivity. Qed.
(** FSUB adds the negated second operand; every other funct7 asserts; an
    operation that is not UOP_FP is added. *)
Theorem c69_rtl_unit : forall func3 func7 a b, is_w 32 a -> is_w 32 b -> 0 <= func7 < 128 ->
  (func7 / 4 = 0 -> fpu_rtl true func3 func7 a b = Some (fst (rtl NetAdd.fadd a b func3))) /\
  (func7 / 4 = 1 -> fpu_rtl true func3 func7 a b = Some (fst (rtl NetAdd.fadd a (NEG b) func3))) /\
  (func7 / 4 = 2 -> fpu_rtl true func3 func7 a b = Some (fst (rtl fmul a b func3))) /\
  (2 < func7 / 4 -> fpu_rtl true func3 func7 a b = None) /\
  fpu_rtl false func3 func7 a b = Some (fst (rtl NetAdd.fadd a b func3)).
Proof.
  intros f3 f7 a b Ha Hb Hf. unfold fpu_rtl, fpurtl. cbn [negb]. rewrite Z.shiftr_div_pow2 by lia. change (2 ^ 2) with 4.
  split; [intros ->; reflexivity|]. split; [intros ->; cbn [Z.eqb]; rewrite xor_sign by exact Hb; reflexivity|].
  split; [intros ->; reflexivity|]. split; [|reflexivity].
  intros H. destruct (Z.eqb_spec (f7 / 4) 0); [lia|]. destruct (Z.eqb_spec (f7 / 4) 1); [lia|]. destruct (Z.eqb_spec (f7 / 4) 2); [lia | reflexivity].
Qed.
(** A number minus itself. *)
Theorem c69_rtl_sub_self : forall func3 x, is_w 32 x -> 0 <= func3 < 8 -> f_mag x < INF ->
  fpu_rtl true func3 4 x x = Some (if func3 =? 2 then 2 ^ 31 else 0).
Proof.
  intros f3 x Hx H3 Fx. destruct (c69_rtl_unit f3 4 x x Hx Hx ltac:(lia)) as (_ & H & _).
  rewrite (H eq_refl). rewrite c69_add_cancel by assumption. reflexivity.
Qed.
Example c69_mul_runs :
  rtl fmul 0x7fc00000 0x3f800000 0 = (NAN, 0) /\ fst (rtl fmul 0xff800000 0x3f800000 0) = 0xff800000 /\
  rtl fmul 0x7f800000 0x80000000 0 = (NAN, 16) /\ rtl fmul 0x80000000 0x3f800000 0 = (0x80000000, 0) /\
  rtl fmul 0xc0000000 0x40400000 0 = (0xc0c00000, 0) /\ fst (rtl fmul 0x00000001 ONE 2) = 1 /\
  fpu_rtl true 0 4 0x40400000 0x40400000 = Some 0 /\ fpu_rtl true 0 8 0x40400000 0x40400000 = Some 0x41100000 /\
  fpu_rtl true 0 12 0x40400000 0x40400000 = None.
Proof. vm_compute. auto 20. Qed.

Print Assumptions c69_mul_nan.
Print Assumptions c69_mul_inf_zero.
Print Assumptions c69_mul_inf.
Print Assumptions c69_mul_zero.
Print Assumptions c69_mul_sign.
Print Assumptions c69_mul_magnitude.
Print Assumptions c69_mul_one.
Print Assumptions c69_mul_modes.
Print Assumptions c69_mul_dynamic_refuted.
Print Assumptions c69_mul_flags_refuted.
Print Assumptions c69_rtl_unit.
Print Assumptions c69_rtl_sub_self.
